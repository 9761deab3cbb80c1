(** Every octet of the media data belongs to one sample: C82. *)
From Verif Require Import Base Boxes Box BoxSpec PrintSpec BoxTree TreeSpec WireFormat AnnexBSpec Track Writers MovieSpec Completion SimpleFile FaststartFile FileLemmas TrackLemmas CompareSpec IndependenceSpec PropFile PropIndependence TilingSpec TilingProofs.
From Coq Require Import List.
Import ListNotations.
Open Scope Z_scope.
Open Scope list_scope.

(** C82.  In the finished file of either writer the ranges that the tables give for the samples of all tracks lie in the media data, no
    two share an octet (of the same track or of different ones), and an octet of the media data is in a sample of a track exactly when
    it was stored for that track ([tiled]). *)
Theorem C82_samples_tile : forall cls timescale duration time ft ops sel,
  time_printable time -> box_typed (B_ftyp ft) -> recording ops -> chosen ops sel -> movie_fits ft ops sel -> bytes (media ops) ->
  let file := output (fst (run (start cls timescale duration time ft) (program cls ops sel))) in
  exists traks infos base,
    file = flat_map (serialize_with written) (file_boxes cls timescale duration time ft ops traks) /\
    read_movie (file_boxes cls timescale duration time ft ops traks) = Some (map Some infos) /\
    tiled file ops sel base infos.
Proof.
  intros cls timescale duration time ft ops sel A B C D E F. destruct (tiled_session cls timescale duration time ft ops sel A B C D E F) as (traks & infos & base & H1 & H2 & H3). cbv zeta in *.
  exists traks, infos, base. split; [|split; [|exact H3]]; destruct cls; assumption.
Qed.
(** If the program has stored no raw data and all its tracks are in the movie, each octet of the media data is in one sample of the
    movie and in one only; the octet there is the one stored. *)
Theorem C82_every_octet : forall file ops sel base infos, tiled file ops sel base infos ->
  Forall (fun x => exists i, fst x = Some i /\ In i sel) (history ops) ->
  forall p, base <= p < base + Zlen (media ops) ->
  nth_error file (Z.to_nat p) = nth_error (media ops) (Z.to_nat (p - base)) /\
  exists k n r, found infos k n r /\ covers r p /\ forall k' n' r', found infos k' n' r' -> covers r' p -> (k', n', r') = (k, n, r).
Proof.
  intros file ops sel base infos (H0 & _ & Hm & _ & Ha & Ho) Hh p Hp. split.
  - rewrite <- Hm. unfold octets_at. cbn [fst snd].
    assert (X : forall (l : list Z) a n m, (m < n)%nat -> nth_error (firstn n (skipn a l)) m = nth_error l (a + m)).
    { clear. intros l a n m L. assert (Y : forall (l : list Z) n m, (m < n)%nat -> nth_error (firstn n l) m = nth_error l m).
      { clear. induction l as [|x l IH]; intros n m L; [rewrite firstn_nil; reflexivity|]. destruct n as [|n]; [inversion L|]. destruct m as [|m]; [reflexivity|]. cbn [firstn nth_error]. apply IH. apply PeanoNat.Nat.succ_lt_mono. exact L. }
      rewrite Y by exact L. clear. revert a. induction l as [|x l IH]; intros [|a]; [reflexivity|cbn [skipn Nat.add nth_error]; destruct m; reflexivity|reflexivity|cbn [skipn Nat.add nth_error]; apply IH]. }
    rewrite X by lia. f_equal. lia.
  - assert (L : length (owners ops) = length (media ops)).
    { unfold owners, media. induction (history ops) as [|x h IH]; [reflexivity|]. cbn [flat_map]. rewrite !app_length, map_length, IH by (inversion Hh; assumption). reflexivity. }
    assert (W : exists i, nth_error (owners ops) (Z.to_nat (p - base)) = Some (Some i) /\ In i sel).
    { destruct (nth_error (owners ops) (Z.to_nat (p - base))) as [w|] eqn:E; [|apply nth_error_None in E; unfold Zlen in Hp; lia].
      apply nth_error_In in E. unfold owners in E. apply in_flat_map in E as (x & I & E). apply in_map_iff in E as (_ & <- & _). rewrite Forall_forall in Hh. destruct (Hh x I) as (i & -> & S). eauto. }
    destruct W as (i & W & S). apply In_nth_error in S as (k & S). destruct (proj2 (Ho p k i (proj1 Hp) S) W) as (n & r & F & C). exists k, n, r. split; [exact F|]. split; [exact C|].
    intros k' n' r' F' C'.
    assert (D : (k', n') = (k, n)).
    { destruct (PeanoNat.Nat.eq_dec k' k) as [->|N]; [destruct (PeanoNat.Nat.eq_dec n' n) as [->|N]; [reflexivity|]|]; exfalso.
      - assert (Q : (k, n') <> (k, n)) by congruence. destruct (Ha _ _ _ _ _ _ F' F Q) as [X|X]; unfold covers in C, C'; lia.
      - assert (Q : (k', n') <> (k, n)) by congruence. destruct (Ha _ _ _ _ _ _ F' F Q) as [X|X]; unfold covers in C, C'; lia. }
    injection D as -> ->. destruct F as (a & F1 & F2), F' as (a' & F1' & F2'). congruence.
Qed.
Print Assumptions C82_samples_tile.
Print Assumptions C82_every_octet.

(** The sessions of PropFile.v, with raw data, and of PropIndependence.v, without. *)
Example C82_owners : owners session_ops = repeat (Some 0%nat) 3 ++ repeat (Some 1%nat) 7 ++ repeat (Some 0%nat) 3 ++ repeat None 2 ++ repeat (Some 1%nat) 7 /\ length (media session_ops) = 22%nat.
Proof. vm_compute. split; reflexivity. Qed.
Example C82_hypotheses : time_printable 0 /\ box_typed (B_ftyp session_ftyp) /\ recording session_ops /\ chosen session_ops [1%nat; 0%nat] /\ movie_fits session_ftyp session_ops [1%nat; 0%nat] /\ bytes (media session_ops).
Proof. split; [left; split; [discriminate|reflexivity]|]. exact (conj session_ftyp_ok (conj session_recording (conj session_chosen (conj session_fits session_bytes)))). Qed.
Example C82_session : exists infos, tiled (output (fst (run (start Simple 1000 64 0 session_ftyp) (simple_program session_ops [1%nat; 0%nat])))) session_ops [1%nat; 0%nat] 40 infos /\
  map i_locations infos = [[(43, 7); (55, 7)]; [(40, 3); (50, 2); (52, 1)]].
Proof.
  assert (X : output (fst (run (start Simple 1000 64 0 session_ftyp) (simple_program session_ops [1%nat; 0%nat]))) =
    (let file := output (fst (run (start Simple 1000 64 0 session_ftyp) (simple_program session_ops [1%nat; 0%nat]))) in firstn 40 file ++ media session_ops ++ skipn 62 file)) by (vm_compute; reflexivity).
  set (infos := [mk_info 2 1000 [(43, 7); (55, 7)] [33; 31] (Some [1]); mk_info 1 48000 [(40, 3); (50, 2); (52, 1)] [1024; 1024; 1024] None]).
  exists infos. split; [|reflexivity].
  rewrite X. cbv zeta. apply located_tiled; [vm_compute; reflexivity|exact (proj1 session_chosen)|].
  apply Forall2_cons; [unfold locates; vm_compute; reflexivity|]. apply Forall2_cons; [unfold locates; vm_compute; reflexivity|]. apply Forall2_nil.
Qed.
Example C82_alone : let ops := alone_ops true in
  Forall (fun x => exists i, fst x = Some i /\ In i [0%nat]) (history ops) /\
  exists file base infos, tiled file ops [0%nat] base infos /\ file = output (fst (run (start Faststart 1000 64 0 session_ftyp) (faststart_program ops [0%nat]))).
Proof.
  cbv zeta. split; [vm_compute history; repeat (apply Forall_cons; [eexists; split; [reflexivity|left; reflexivity]|]); apply Forall_nil|].
  destruct (C68_hypotheses true) as (A & B & C & D). destruct (C82_samples_tile Faststart 1000 64 0 session_ftyp (alone_ops true) [0%nat] (proj1 C82_hypotheses) session_ftyp_ok A B C D) as (_ & infos & base & _ & _ & T).
  eexists. exists base, infos. split; [exact T|]. reflexivity.
Qed.
(** What the statement excludes: samples that overlap, a sample that starts an octet late, an octet of another track's. *)
Example C82_discriminates : ~ apart (40, 3) (42, 7) /\ ~ within 40 22 (56, 7) /\
  let ops := session_ops in nth_error (owners ops) (Z.to_nat (43 - 40)) <> Some (Some 0%nat).
Proof. split; [unfold apart; cbn [fst snd]; lia|]. split; [unfold within; cbn [fst snd]; lia|]. vm_compute. discriminate. Qed.
