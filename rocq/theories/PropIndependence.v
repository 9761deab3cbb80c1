(** Tracks are independent of one another and of the writer: C68. *)
From Verif Require Import Base Boxes Box BoxSpec PrintSpec BoxTree TreeSpec WireFormat AnnexBSpec Track Writers MovieSpec SessionProofs MovieShape Completion SimpleFile FaststartFile FileLemmas TrackLemmas CompareSpec IndependenceSpec Independence PropFile.
From Coq Require Import List Lia.
Import ListNotations.
Open Scope Z_scope.
Open Scope list_scope.

(** The boxes of the file of a session with a writer of either class. *)
Definition file_boxes (cls : wclass) : Z -> Z -> Z -> ftyp -> list op -> list tree -> list tree :=
  match cls with Simple => simple_boxes | Faststart => faststart_boxes end.

Lemma f2_nth {A B} (P : A -> B -> Prop) l l' : Forall2 P l l' -> forall p x, nth_error l p = Some x -> exists y, nth_error l' p = Some y /\ P x y.
Proof. induction 1 as [|a b l l' H F IH]; intros [|p] x E; cbn [nth_error] in *; try discriminate; [injection E as <-; eauto|eauto]. Qed.

(** C68.  Two sessions, with writers of the same class or not, with any other tracks, calls, brands and movie headers: whenever
    the calls on track i of the one are the calls on track j of the other, in the same order and with the same arguments, the trak boxes
    that the two files have for these tracks are the same, box for box and member for member, except for the chunk offsets ([ends]
    = true); if the calls of terminateCurrentChunk are not compared ([ends] = false), except for the chunk offsets and the division into chunks. *)
Theorem C68_tracks_independent : forall ends time cls timescale duration ft ops sel cls' timescale' duration' ft' ops' sel',
  time_printable time ->
  box_typed (B_ftyp ft) -> recording ops -> chosen ops sel -> movie_fits ft ops sel -> bytes (media ops) ->
  box_typed (B_ftyp ft') -> recording ops' -> chosen ops' sel' -> movie_fits ft' ops' sel' -> bytes (media ops') ->
  exists traks traks',
    output (fst (run (start cls timescale duration time ft) (program cls ops sel))) =
      flat_map (serialize_with written) (file_boxes cls timescale duration time ft ops traks) /\
    output (fst (run (start cls' timescale' duration' time ft') (program cls' ops' sel'))) =
      flat_map (serialize_with written) (file_boxes cls' timescale' duration' time ft' ops' traks') /\
    forall p q i j, nth_error sel p = Some i -> nth_error sel' q = Some j -> own_calls ends i ops = own_calls ends j ops' ->
      exists a b, nth_error traks p = Some a /\ nth_error traks' q = Some b /\ same_except (but_chunks ends) a b.
Proof.
  intros ends time cls timescale duration ft ops sel cls' timescale' duration' ft' ops' sel' Tp A B C D E A' B' C' D' E'.
  destruct (session_replay ends cls timescale duration time ft ops sel Tp A B C D E) as (traks & H1 & H2).
  destruct (session_replay ends cls' timescale' duration' time ft' ops' sel' Tp A' B' C' D' E') as (traks' & H1' & H2').
  exists traks, traks'. split; [rewrite H1; destruct cls; reflexivity|]. split; [rewrite H1'; destruct cls'; reflexivity|].
  intros p q i j P Q O. destruct (f2_nth _ _ _ H2 p i P) as (a & Ea & Ra). destruct (f2_nth _ _ _ H2' q j Q) as (b & Eb & Rb).
  exists a, b. split; [exact Ea|]. split; [exact Eb|]. exact (replays_alike ends time i j ops ops' a b O Ra Rb).
Qed.
Print Assumptions C68_tracks_independent.

(** The session of PropFile.v, with an audio and an H.264 track, and one with the calls on the H.264 track only (and no calls of
    terminateCurrentChunk in the second, for [ends] = false). *)
Definition alone_ops (ends : bool) : list op :=
  [O_NewTrack (H264 640 480 1 66 0 30 [] []) 1000 64 64 0 2;
   O_AddData 0 0 ([0; 0; 0; 1; 103; 66; 0; 30; 171] ++ [0; 0; 1; 104; 206] ++ [0; 0; 1; 101; 136; 132]) true] ++
  (if ends then [O_Terminate 0] else []) ++ [O_AddData 0 33 [0; 0; 0; 1; 65; 154; 2] false].
Example C68_alone : own_calls true 1 session_ops = own_calls true 0 (alone_ops true) /\ own_calls false 1 session_ops = own_calls false 0 (alone_ops false) /\
  own_calls true 1 session_ops <> own_calls true 0 (alone_ops false) /\ own_calls false 0 session_ops <> own_calls false 0 (alone_ops true).
Proof. repeat split; try reflexivity; discriminate. Qed.
Lemma alone_recording ends : recording (alone_ops ends).
Proof.
  constructor.
  - destruct ends; reflexivity.
  - intros pre o post i E A. unfold alone_ops in E.
    destruct ends; cbn [app] in E;
      repeat (destruct pre as [|? pre]; cbn [app] in E; [(discriminate E || (injection E as <- _; cbv beta iota in A; try contradiction; subst; apply Nat.ltb_lt; reflexivity))|(discriminate E || (injection E as <- E))]).
  - apply ended_check_ok. destruct ends; reflexivity.
  - intros i. destruct i as [|i]; [split; [destruct ends; reflexivity|apply Forall_forall; intros s H; apply Z.ltb_lt; revert s H; apply (proj1 (forallb_forall _ _)); destruct ends; reflexivity]|].
    rewrite samples_unknown by (destruct ends; apply le_n_S; apply PeanoNat.Nat.le_0_l). split; [reflexivity|constructor].
Qed.
Example C68_hypotheses ends : recording (alone_ops ends) /\ chosen (alone_ops ends) [0%nat] /\ movie_fits session_ftyp (alone_ops ends) [0%nat] /\ bytes (media (alone_ops ends)).
Proof.
  split; [apply alone_recording|]. split; [split; [repeat constructor; intros []|destruct ends; repeat constructor]|]. split; [apply Z.ltb_lt; destruct ends; vm_compute; reflexivity|].
  apply Forall_forall. intros x I. assert (A : forallb (fun x => (0 <=? x) && (x <? 256)) (media (alone_ops ends)) = true) by (destruct ends; reflexivity).
  rewrite forallb_forall in A. specialize (A x I). apply andb_true_iff in A as [A1 A2]. unfold is_byte. lia.
Qed.
(** So the H.264 track of the SimpleWriter session with two tracks and that of the FaststartWriter session without the other track have the same trak box. *)
Example C68_session : exists traks traks' a b,
  output (fst (run (start Simple 1000 64 0 session_ftyp) (simple_program session_ops [1%nat; 0%nat]))) =
    flat_map (serialize_with written) (simple_boxes 1000 64 0 session_ftyp session_ops traks) /\
  output (fst (run (start Faststart 90000 5760 0 session_ftyp) (faststart_program (alone_ops true) [0%nat]))) =
    flat_map (serialize_with written) (faststart_boxes 90000 5760 0 session_ftyp (alone_ops true) traks') /\
  nth_error traks 0 = Some a /\ nth_error traks' 0 = Some b /\ same_except other_offsets a b.
Proof.
  destruct (C68_hypotheses true) as (X1 & X2 & X3 & X4).
  destruct (C68_tracks_independent true 0 Simple 1000 64 session_ftyp session_ops [1%nat; 0%nat] Faststart 90000 5760 session_ftyp (alone_ops true) [0%nat]
    ltac:(left; split; [discriminate|reflexivity]) session_ftyp_ok session_recording session_chosen session_fits session_bytes session_ftyp_ok X1 X2 X3 X4) as (traks & traks' & A & B & C).
  destruct (C 0%nat 0%nat 1%nat 0%nat eq_refl eq_refl (proj1 C68_alone)) as (a & b & D). exists traks, traks', a, b. tauto.
Qed.
(** The relation tells tracks apart: another duration of a sample, another number of chunks, another division into chunks if [ends]. *)
Example C68_discriminates :
  let stts d := T t_stts (B_stts (mk_stts (fbox 0 0) [mk_stts_entry 3 d])) [] in
  let stsc d := T t_stsc (B_stsc (mk_stsc (fbox 0 0) [mk_stsc_entry 1 d 1])) [] in
  let stco l := T t_stco (B_stco (mk_stco (fbox 0 0) l)) [] in
  ~ same_except other_offsets (stts 10) (stts 11) /\ ~ same_except other_chunks (stts 10) (stts 11) /\
  ~ same_except other_offsets (stco [40; 50]) (stco [40]) /\ same_except other_offsets (stco [40; 50]) (stco [48; 60]) /\
  ~ same_except other_offsets (stsc 1) (stsc 2) /\ same_except other_chunks (stsc 1) (stsc 2).
Proof.
  cbv zeta. repeat split.
  - intros H. inversion H as [? ? (l & l' & X & _)|]; inversion X.
  - intros H. inversion H as [? ? [(l & l' & X & _)|(l & l' & X & _)]|]; [inversion X|discriminate X].
  - intros H. inversion H as [? ? (l & l' & X & Y & Z)|]; inversion X; inversion Y; subst; discriminate Z.
  - constructor 1. exists [40; 50], [48; 60]. repeat split; constructor.
  - intros H. inversion H as [? ? (l & l' & X & _)|]; inversion X.
  - constructor 1. right. eexists _, _. split; reflexivity.
Qed.
