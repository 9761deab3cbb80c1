(** Properties of finished files: C28-C34, C40, C45, C46. *)
From Verif Require Import Base Boxes Box BoxSpec PrintSpec BoxTree TreeSpec AnnexBSpec H264 Track Writers MovieSpec TrackLemmas FaststartFile FileLemmas.
From Coq Require Import String List.
Import ListNotations.
Open Scope Z_scope.
Open Scope list_scope.

(** The boxes of the file of each writer, given its trak boxes. *)
Definition simple_boxes (timescale duration time : Z) (ft : ftyp) (ops : list op) (traks : list tree) : list tree :=
  [ftyp_tree ft] ++ free_trees (media ops) ++ [mdat_tree (media ops)] ++ [moov_tree timescale duration time ((1 + ids_issued ops) mod 2 ^ 32) traks].
Definition faststart_boxes (timescale duration time : Z) (ft : ftyp) (ops : list op) (traks : list tree) : list tree :=
  [ftyp_tree ft] ++ [moov_tree timescale duration time ((1 + ids_issued ops) mod 2 ^ 32) traks] ++ [mdat_tree (media ops)].

(** In all of these [time_printable time] says that the creation time has a date (PrintSpec.v): every moov box is printed to
    the trace log when it is written, and printing a time without one is undefined behaviour (C51, Findings.v).  Every reading of the
    system clock is one (C51_clock). *)
(** C31: no call has undefined behaviour, those made after recording succeed, and the file is exactly these boxes laid end
    to end; mdat's payload is the octets stored, in order. *)
Theorem C31_simple_tiled : forall timescale duration time ft ops sel,
  time_printable time -> box_typed (B_ftyp ft) -> recording ops -> chosen ops sel -> movie_fits ft ops sel -> bytes (media ops) ->
  let r := run (start Simple timescale duration time ft) (simple_program ops sel) in
  Forall (fun x => x <> UB) (snd r) /\ skipn (length (O_WriteFtyp :: ops)) (snd r) = [Ok tt; Ok tt; Ok tt] /\
  exists traks, length traks = length sel /\
    output (fst r) = flat_map (serialize_with written) (simple_boxes timescale duration time ft ops traks).
Proof.
  intros timescale duration time ft ops sel TP A B C D E. destruct (simple_movie timescale duration time ft ops sel TP A B C D E) as (H1 & H2 & traks & H3 & H4).
  split; [exact H1|]. split; [exact H2|]. exists traks. split; [|exact H3]. unfold describes_all in H4. revert H4. generalize (describes (output (fst (run (start Simple timescale duration time ft) (simple_program ops sel))))).
  clear. intros P. induction 1; cbn [length]; congruence.
Qed.
Theorem C31_faststart_tiled : forall timescale duration time ft ops sel,
  time_printable time -> box_typed (B_ftyp ft) -> recording ops -> chosen ops sel -> movie_fits ft ops sel -> bytes (media ops) ->
  let r := run (start Faststart timescale duration time ft) (faststart_program ops sel) in
  Forall (fun x => x <> UB) (snd r) /\ skipn (length (O_WriteFtyp :: ops)) (snd r) = [Ok tt; Ok tt; Ok tt; Ok tt] /\
  exists traks, length traks = length sel /\
    output (fst r) = flat_map (serialize_with written) (faststart_boxes timescale duration time ft ops traks).
Proof.
  intros timescale duration time ft ops sel TP A B C D E. destruct (faststart_movie timescale duration time ft ops sel TP A B C D E) as (H1 & H2 & traks & H3 & H4).
  split; [exact H1|]. split; [exact H2|]. exists traks. split; [|exact H3]. unfold describes_all in H4. revert H4. generalize (describes (output (fst (run (start Faststart timescale duration time ft) (faststart_program ops sel))))).
  clear. intros P. induction 1; cbn [length]; congruence.
Qed.

(** C28, C29: a player that resolves the tables of the moov box of the file finds the tracks chosen, in order, and for each
    the octets, durations and key frames of every sample stored. *)
Lemma no_moov_simple ft m : Forall (fun t => is_type t_moov t = false) ([ftyp_tree ft] ++ free_trees m ++ [mdat_tree m]).
Proof. apply Forall_app. split; [repeat constructor|]. apply Forall_app. split; [unfold free_trees; destruct (_ <? _); repeat constructor|repeat constructor]. Qed.
Theorem C28_simple_samples : forall timescale duration time ft ops sel,
  time_printable time -> box_typed (B_ftyp ft) -> recording ops -> chosen ops sel -> movie_fits ft ops sel -> bytes (media ops) ->
  let file := output (fst (run (start Simple timescale duration time ft) (simple_program ops sel))) in
  exists boxes infos, file = flat_map (serialize_with written) boxes /\
    read_movie boxes = Some (map Some infos) /\ Forall2 (describes file ops) sel infos.
Proof.
  intros timescale duration time ft ops sel TP A B C D E. destruct (simple_movie timescale duration time ft ops sel TP A B C D E) as (_ & _ & traks & H3 & H4). cbv zeta in *.
  destruct (describes_read time _ ops sel traks ([ftyp_tree ft] ++ free_trees (media ops) ++ [mdat_tree (media ops)]) [] timescale duration ((1 + ids_issued ops) mod 2 ^ 32) H4 (no_moov_simple ft (media ops)) (Forall_nil _)) as (infos & X & Y).
  rewrite app_nil_r, <- !app_assoc in X. exists (simple_boxes timescale duration time ft ops traks), infos. split; [exact H3|]. split; [exact X|exact Y].
Qed.
Theorem C29_faststart_samples : forall timescale duration time ft ops sel,
  time_printable time -> box_typed (B_ftyp ft) -> recording ops -> chosen ops sel -> movie_fits ft ops sel -> bytes (media ops) ->
  let file := output (fst (run (start Faststart timescale duration time ft) (faststart_program ops sel))) in
  exists boxes infos, file = flat_map (serialize_with written) boxes /\
    read_movie boxes = Some (map Some infos) /\ Forall2 (describes file ops) sel infos.
Proof.
  intros timescale duration time ft ops sel TP A B C D E. destruct (faststart_movie timescale duration time ft ops sel TP A B C D E) as (_ & _ & traks & H3 & H4). cbv zeta in *.
  destruct (describes_read time _ ops sel traks [ftyp_tree ft] [mdat_tree (media ops)] timescale duration ((1 + ids_issued ops) mod 2 ^ 32) H4) as (infos & X & Y); [repeat constructor..|].
  exists (faststart_boxes timescale duration time ft ops traks), infos. split; [exact H3|]. split; [exact X|exact Y].
Qed.

(** C30: the layout loop of FaststartWriter::appendTrakAndUdtaBoxInfo ends without an error after a number of rounds
    bounded by the number of tracks. *)
Theorem C30_layout_loop_ends : forall timescale duration time ft ops sel,
  box_typed (B_ftyp ft) -> recording ops -> chosen ops sel -> movie_fits ft ops sel ->
  let s := fst (run (start Faststart timescale duration time ft) (O_WriteFtyp :: ops)) in
  exists size s', Faststart_size (s_writer s) = Ok size /\
    forall fuel, (length sel + 4 <= fuel)%nat -> Faststart_loop fuel sel s 0 size = Some (Ok s').
Proof. exact faststart_loop_ends. Qed.

(** C32: SimpleWriter's 16 octets before the media data, which therefore always starts at the same offset. *)
Theorem C32_mdat_header : forall timescale duration time ft ops sel,
  time_printable time -> box_typed (B_ftyp ft) -> recording ops -> chosen ops sel -> movie_fits ft ops sel ->
  exists rest, output (fst (run (start Simple timescale duration time ft) (simple_program ops sel))) =
    serialize_with written (ftyp_tree ft) ++ mdat_start (media ops) ++ media ops ++ rest /\ Zlen (mdat_start (media ops)) = 16.
Proof. exact simple_media_start. Qed.

(** C33: copyMdatData appends the intermediate file to the output, whatever its length. *)
Theorem C33_copy_verbatim : forall w, mw_tmp_open w = true -> os_pos (mw_os w) = Zlen (os_data (mw_os w)) ->
  exists w', Faststart_copyMdatData w = Ok w' /\ os_data (mw_os w') = os_data (mw_os w) ++ os_data (mw_tmp w).
Proof. exact copy_appends. Qed.

(** C34 (mvhd): next_track_ID of the finished file exceeds every identifier handed out. *)
Definition next_track_id (boxes : list tree) : option Z :=
  match the_kid t_moov boxes with
  | Some moov => match the_kid (str "mvhd") (tree_kids moov) with Some (T _ (B_mvhd b) _) => Some (mvhd_next_track_id b) | _ => None end
  | None => None
  end.
Lemma next_track_id_ok pre post timescale duration time traks id :
  Forall (fun t => is_type t_moov t = false) pre -> Forall (fun t => is_type t_moov t = false) post ->
  Forall (fun t => tree_type t = str "trak") traks -> next_track_id (pre ++ [moov_tree timescale duration time id traks] ++ post) = Some id.
Proof.
  intros A B C. unfold next_track_id, the_kid, kids_of_type. rewrite !filter_app.
  assert (N : forall l, Forall (fun t => is_type t_moov t = false) l -> filter (is_type t_moov) l = []) by (induction 1 as [|x l Hx H IH]; [reflexivity|]; cbn [filter]; rewrite Hx; exact IH).
  rewrite (N _ A), (N _ B). change (filter (is_type t_moov) [moov_tree timescale duration time id traks]) with [moov_tree timescale duration time id traks]. cbn [app].
  unfold moov_tree. cbn [tree_kids filter]. change (is_type (str "mvhd") (T (str "mvhd") (B_mvhd (mvhd_of timescale duration time id)) [])) with true. cbv iota.
  rewrite filter_app. replace (filter (is_type (str "mvhd")) traks) with (@nil tree).
  2:{ clear -C. induction C as [|x l Hx H IH]; [reflexivity|]. cbn [filter]. unfold is_type at 1. rewrite Hx. exact IH. }
  reflexivity.
Qed.
Lemma traks_typed time file ops sel traks : describes_all time file ops sel traks -> Forall (fun t => tree_type t = str "trak") traks.
Proof. induction 1 as [|i tr l l' (H & _) D IH]; constructor; auto. Qed.
Theorem C34_next_track_id : forall timescale duration time ft ops sel,
  time_printable time -> box_typed (B_ftyp ft) -> recording ops -> chosen ops sel -> movie_fits ft ops sel -> bytes (media ops) -> ids_issued ops < 2 ^ 32 - 1 ->
  exists boxes boxes' n,
    output (fst (run (start Simple timescale duration time ft) (simple_program ops sel))) = flat_map (serialize_with written) boxes /\
    output (fst (run (start Faststart timescale duration time ft) (faststart_program ops sel))) = flat_map (serialize_with written) boxes' /\
    next_track_id boxes = Some n /\ next_track_id boxes' = Some n /\
    (forall cls id, In id (issued (start cls timescale duration time ft) ops) -> id < n).
Proof.
  intros timescale duration time ft ops sel TP A B C D E I.
  destruct (simple_movie timescale duration time ft ops sel TP A B C D E) as (_ & _ & traks & H3 & H4).
  destruct (faststart_movie timescale duration time ft ops sel TP A B C D E) as (_ & _ & traks' & H3' & H4'). cbv zeta in *.
  assert (P : 0 <= ids_issued ops) by (unfold ids_issued; unfold Zlen; lia).
  exists (simple_boxes timescale duration time ft ops traks), (faststart_boxes timescale duration time ft ops traks'), (1 + ids_issued ops).
  split; [exact H3|]. split; [exact H3'|]. split; [|split].
  - unfold simple_boxes. pose proof (next_track_id_ok ([ftyp_tree ft] ++ free_trees (media ops) ++ [mdat_tree (media ops)]) [] timescale duration time traks ((1 + ids_issued ops) mod 2 ^ 32)
      (no_moov_simple ft (media ops)) (Forall_nil _) (traks_typed _ _ _ _ _ H4)) as X.
    rewrite app_nil_r, <- !app_assoc in X. rewrite Z.mod_small in * by lia. exact X.
  - unfold faststart_boxes. rewrite Z.mod_small by lia. apply next_track_id_ok; [repeat constructor..|exact (traks_typed _ _ _ _ _ H4')].
  - intros cls id Hin. destruct (ids_ok cls timescale duration time ft ops) as (_ & _ & _ & F); [lia|]. rewrite Forall_forall in F. specialize (F id Hin). lia.
Qed.

(** C40 (media data): if everything stored belongs to one track, mdat's payload is the concatenation of its samples. *)
Theorem C40_media_single : forall i ops, (forall x, In x (history ops) -> fst x = Some i) -> media ops = concat (map sm_data (samples_of i ops)).
Proof. exact media_single. Qed.

(** C45: the sample entry of every track in the file announces its codec and configuration, for H.264 the parameter sets
    received; C46: tkhd, elst, mdhd and hdlr carry the values of the constructor and the last media time set. *)
Definition entry_ok_for (ops : list op) (i : nat) (tr : tree) : Prop :=
  exists c timescale duration_ts duration_mvhd media_time id e,
    nth_error (created ops) i = Some (O_NewTrack c timescale duration_ts duration_mvhd media_time id) /\ trak_entry tr = Some e /\
    entry_describes (match c with Opus _ _ => 48000 | _ => timescale end) id (expected_codec c (sps_of i ops) (pps_of i ops)) e.
Definition headers_ok_for (time : Z) (ops : list op) (i : nat) (tr : tree) : Prop :=
  exists h, trak_headers tr = Some h /\ headers_describe time ops i h.
(** C50: media header, data reference, sample description count and roll groups. *)
Definition media_ok_for (ops : list op) (i : nat) (tr : tree) : Prop :=
  exists c timescale duration_ts duration_mvhd media_time id,
    nth_error (created ops) i = Some (O_NewTrack c timescale duration_ts duration_mvhd media_time id) /\ media_described ops i c tr.
Definition traks_of (boxes : list tree) : list tree :=
  match the_kid t_moov boxes with Some moov => kids_of_type t_trak (tree_kids moov) | None => [] end.
Lemma traks_of_ok pre post timescale duration time id traks :
  Forall (fun t => is_type t_moov t = false) pre -> Forall (fun t => is_type t_moov t = false) post ->
  Forall (fun t => tree_type t = str "trak") traks -> traks_of (pre ++ [moov_tree timescale duration time id traks] ++ post) = traks.
Proof.
  intros A B C. unfold traks_of, the_kid, kids_of_type. rewrite !filter_app.
  assert (N : forall l, Forall (fun t => is_type t_moov t = false) l -> filter (is_type t_moov) l = []) by (induction 1 as [|x l Hx H IH]; [reflexivity|]; cbn [filter]; rewrite Hx; exact IH).
  rewrite (N _ A), (N _ B). change (filter (is_type t_moov) [moov_tree timescale duration time id traks]) with [moov_tree timescale duration time id traks]. cbn [app].
  unfold moov_tree. cbn [tree_kids filter]. change (is_type t_trak (T (str "mvhd") (B_mvhd (mvhd_of timescale duration time id)) [])) with false. cbv iota. rewrite filter_app.
  fold (kids_of_type t_trak traks). rewrite kids_of_traks by exact C. change (filter (is_type t_trak) [udta_tree]) with (@nil tree). rewrite app_nil_r. reflexivity.
Qed.
Lemma configured_split time file ops sel traks : describes_all time file ops sel traks ->
  Forall2 (entry_ok_for ops) sel traks /\ Forall2 (headers_ok_for time ops) sel traks /\ Forall2 (media_ok_for ops) sel traks.
Proof.
  intros H. split; [|split]; (eapply f2_impl; [|exact H]); intros i tr (_ & _ & c & a & b & d & e & f & e' & h & E & E1 & E2 & E3 & E4 & E5).
  - exists c, a, b, d, e, f, e'. auto.
  - exists h. auto.
  - exists c, a, b, d, e, f. auto.
Qed.
Theorem C45_codec_configuration : forall timescale duration time ft ops sel,
  time_printable time -> box_typed (B_ftyp ft) -> recording ops -> chosen ops sel -> movie_fits ft ops sel -> bytes (media ops) ->
  exists boxes boxes',
    output (fst (run (start Simple timescale duration time ft) (simple_program ops sel))) = flat_map (serialize_with written) boxes /\
    output (fst (run (start Faststart timescale duration time ft) (faststart_program ops sel))) = flat_map (serialize_with written) boxes' /\
    Forall2 (entry_ok_for ops) sel (traks_of boxes) /\ Forall2 (entry_ok_for ops) sel (traks_of boxes').
Proof.
  intros timescale duration time ft ops sel TP A B C D E.
  destruct (simple_movie timescale duration time ft ops sel TP A B C D E) as (_ & _ & traks & H3 & H4).
  destruct (faststart_movie timescale duration time ft ops sel TP A B C D E) as (_ & _ & traks' & H3' & H4'). cbv zeta in *.
  exists (simple_boxes timescale duration time ft ops traks), (faststart_boxes timescale duration time ft ops traks').
  split; [exact H3|]. split; [exact H3'|]. split.
  - pose proof (traks_of_ok ([ftyp_tree ft] ++ free_trees (media ops) ++ [mdat_tree (media ops)]) [] timescale duration time ((1 + ids_issued ops) mod 2 ^ 32) traks
      (no_moov_simple ft (media ops)) (Forall_nil _) (traks_typed _ _ _ _ _ H4)) as X.
    rewrite app_nil_r, <- !app_assoc in X. unfold simple_boxes. rewrite X. exact (proj1 (configured_split _ _ _ _ _ H4)).
  - unfold faststart_boxes. rewrite traks_of_ok; [exact (proj1 (configured_split _ _ _ _ _ H4'))|repeat constructor..|exact (traks_typed _ _ _ _ _ H4')].
Qed.
Theorem C46_track_headers : forall timescale duration time ft ops sel,
  time_printable time -> box_typed (B_ftyp ft) -> recording ops -> chosen ops sel -> movie_fits ft ops sel -> bytes (media ops) ->
  exists boxes boxes',
    output (fst (run (start Simple timescale duration time ft) (simple_program ops sel))) = flat_map (serialize_with written) boxes /\
    output (fst (run (start Faststart timescale duration time ft) (faststart_program ops sel))) = flat_map (serialize_with written) boxes' /\
    Forall2 (headers_ok_for time ops) sel (traks_of boxes) /\ Forall2 (headers_ok_for time ops) sel (traks_of boxes').
Proof.
  intros timescale duration time ft ops sel TP A B C D E.
  destruct (simple_movie timescale duration time ft ops sel TP A B C D E) as (_ & _ & traks & H3 & H4).
  destruct (faststart_movie timescale duration time ft ops sel TP A B C D E) as (_ & _ & traks' & H3' & H4'). cbv zeta in *.
  exists (simple_boxes timescale duration time ft ops traks), (faststart_boxes timescale duration time ft ops traks').
  split; [exact H3|]. split; [exact H3'|]. split.
  - pose proof (traks_of_ok ([ftyp_tree ft] ++ free_trees (media ops) ++ [mdat_tree (media ops)]) [] timescale duration time ((1 + ids_issued ops) mod 2 ^ 32) traks
      (no_moov_simple ft (media ops)) (Forall_nil _) (traks_typed _ _ _ _ _ H4)) as X.
    rewrite app_nil_r, <- !app_assoc in X. unfold simple_boxes. rewrite X. exact (proj1 (proj2 (configured_split _ _ _ _ _ H4))).
  - unfold faststart_boxes. rewrite traks_of_ok; [exact (proj1 (proj2 (configured_split _ _ _ _ _ H4')))|repeat constructor..|exact (traks_typed _ _ _ _ _ H4')].
Qed.
Theorem C50_media_information : forall timescale duration time ft ops sel,
  time_printable time -> box_typed (B_ftyp ft) -> recording ops -> chosen ops sel -> movie_fits ft ops sel -> bytes (media ops) ->
  exists boxes boxes',
    output (fst (run (start Simple timescale duration time ft) (simple_program ops sel))) = flat_map (serialize_with written) boxes /\
    output (fst (run (start Faststart timescale duration time ft) (faststart_program ops sel))) = flat_map (serialize_with written) boxes' /\
    Forall2 (media_ok_for ops) sel (traks_of boxes) /\ Forall2 (media_ok_for ops) sel (traks_of boxes').
Proof.
  intros timescale duration time ft ops sel TP A B C D E.
  destruct (simple_movie timescale duration time ft ops sel TP A B C D E) as (_ & _ & traks & H3 & H4).
  destruct (faststart_movie timescale duration time ft ops sel TP A B C D E) as (_ & _ & traks' & H3' & H4'). cbv zeta in *.
  exists (simple_boxes timescale duration time ft ops traks), (faststart_boxes timescale duration time ft ops traks').
  split; [exact H3|]. split; [exact H3'|]. split.
  - pose proof (traks_of_ok ([ftyp_tree ft] ++ free_trees (media ops) ++ [mdat_tree (media ops)]) [] timescale duration time ((1 + ids_issued ops) mod 2 ^ 32) traks
      (no_moov_simple ft (media ops)) (Forall_nil _) (traks_typed _ _ _ _ _ H4)) as X.
    rewrite app_nil_r, <- !app_assoc in X. unfold simple_boxes. rewrite X. exact (proj2 (proj2 (configured_split _ _ _ _ _ H4))).
  - unfold faststart_boxes. rewrite traks_of_ok; [exact (proj2 (proj2 (configured_split _ _ _ _ _ H4')))|repeat constructor..|exact (traks_typed _ _ _ _ _ H4')].
Qed.

(** A check of [chunks_ended], for examples. *)
Fixpoint scan (i : nat) (f : bool) (l : list op) : bool :=
  match l with
  | [] => true
  | O_Terminate j :: l => if Nat.eqb i j then true else scan i f l
  | O_AddData j _ _ _ :: l => if Nat.eqb i j then negb f && scan i f l else scan i true l
  | O_AddRaw _ :: l => scan i true l
  | _ :: l => scan i f l
  end.
Fixpoint ended_check (l : list op) : bool :=
  match l with [] => true | O_AddData i _ _ _ :: l => scan i false l && ended_check l | _ :: l => ended_check l end.
Lemma scan_ok i mid : forall f ts d k post, scan i f (mid ++ O_AddData i ts d k :: post) = true -> f = true \/ Exists (foreign i) mid -> In (O_Terminate i) mid.
Proof.
  induction mid as [|o mid IH]; intros f ts d k post H A.
  - cbn [app scan] in H. rewrite Nat.eqb_refl in H. destruct A as [->|A]; [discriminate|inversion A].
  - assert (A' : f = true \/ foreign i o \/ Exists (foreign i) mid) by (destruct A as [A|A]; [auto|inversion A; subst; auto]).
    destruct o as [| |j ? ? ?|j| |?| | | | | | |]; cbn [app scan foreign] in *; try (right; eapply IH; [exact H|tauto]).
    + destruct (Nat.eqb_spec i j) as [<-|N]; [apply andb_true_iff in H as [H1 H2]; right; eapply IH; [exact H2|destruct f; [discriminate|]; destruct A' as [A'|[A'|A']]; try congruence; auto]|right; eapply IH; [exact H|auto]].
    + destruct (Nat.eqb_spec i j) as [<-|N]; [left; reflexivity|right; eapply IH; [exact H|tauto]].
Qed.
Lemma ended_check_ok ops : ended_check ops = true -> chunks_ended ops.
Proof.
  intros H pre mid post i ts d k ts' d' k' E F. subst ops. induction pre as [|o pre IH]; cbn [app ended_check] in H.
  - apply andb_true_iff in H as [H _]. eapply scan_ok; [exact H|auto].
  - apply IH. destruct o; try exact H. apply andb_true_iff in H as [_ H]. exact H.
Qed.

(** A session that meets the hypotheses: an audio and an H.264 track, interleaved, raw data in between. *)
Definition session_ops : list op :=
  [O_NextTrackID; O_NewTrack (AAC 0 128000 128000) 48000 3072 64 0 1; O_NextTrackID; O_NewTrack (H264 640 480 1 66 0 30 [] []) 1000 64 64 0 2;
   O_AddData 0 0 [1; 2; 3] false; O_Terminate 0;
   O_AddData 1 0 ([0; 0; 0; 1; 103; 66; 0; 30; 171] ++ [0; 0; 1; 104; 206] ++ [0; 0; 1; 101; 136; 132]) true; O_Terminate 1;
   O_AddData 0 1024 [4; 5] false; O_AddData 0 2048 [6] false; O_Terminate 0; O_AddRaw [9; 9];
   O_AddData 1 33 [0; 0; 0; 1; 65; 154; 2] false].
Definition session_ftyp : ftyp := mk_ftyp (str "isom") 512 [str "isom"; str "mp41"].
Lemma session_known : known_tracks session_ops.
Proof.
  intros pre o post i E A. unfold session_ops in E.
  do 13 (destruct pre as [|? pre]; cbn [app] in E; [injection E as <- _; cbv beta iota in A; try contradiction; subst; apply Nat.ltb_lt; reflexivity|injection E as <- E]).
  destruct pre; discriminate.
Qed.
Lemma session_chunks : chunks_ended session_ops. Proof. apply ended_check_ok. reflexivity. Qed.
Lemma session_samples : samples_fit session_ops.
Proof.
  intros i. destruct i as [|[|i]]; [split; [reflexivity|apply Forall_forall; intros s H; apply Z.ltb_lt; revert s H; apply (proj1 (forallb_forall _ _)); reflexivity]..|].
  rewrite samples_unknown by (apply Nat.leb_le; reflexivity). split; [reflexivity|constructor].
Qed.
Example session_recording : recording session_ops.
Proof. constructor; [reflexivity|exact session_known|exact session_chunks|exact session_samples]. Qed.
Example session_chosen : chosen session_ops [1%nat; 0%nat].
Proof. split; [repeat constructor; cbn [In]; intuition discriminate|repeat constructor]. Qed.
Example session_fits : movie_fits session_ftyp session_ops [1%nat; 0%nat].
Proof. apply Z.ltb_lt. vm_compute. reflexivity. Qed.
Example session_bytes : bytes (media session_ops).
Proof. apply Forall_forall. intros x H. assert (A : forallb (fun x => (0 <=? x) && (x <? 256)) (media session_ops) = true) by reflexivity.
  rewrite forallb_forall in A. specialize (A x H). apply andb_true_iff in A as [A1 A2]. unfold is_byte. lia. Qed.
Example session_time : time_printable 3808166400. Proof. left. split; [discriminate|reflexivity]. Qed.
Example session_ftyp_ok : box_typed (B_ftyp session_ftyp). Proof. cbn [box_typed]. split; [reflexivity|repeat constructor]. Qed.
(** What they say of it: the H.264 track has two samples, the picture of 33 ms is not a key frame. *)
Example session_samples_are : samples_of 1 session_ops = [mk_sample 0 [0; 0; 0; 3; 101; 136; 132] true; mk_sample 33 [0; 0; 0; 3; 65; 154; 2] false] /\
  sps_of 1 session_ops = [[103; 66; 0; 30; 171]] /\ pps_of 1 session_ops = [[104; 206]] /\ sync_numbers (samples_of 1 session_ops) = [1] /\
  media session_ops = [1; 2; 3] ++ [0; 0; 0; 3; 101; 136; 132] ++ [4; 5] ++ [6] ++ [9; 9] ++ [0; 0; 0; 3; 65; 154; 2].
Proof. repeat split; reflexivity. Qed.
(** The file, evaluated: the last sample of the H.264 track is where the tables of the moov box say. *)
Example session_file : let file := output (fst (run (start Simple 1000 64 0 session_ftyp) (simple_program session_ops [1%nat; 0%nat]))) in
  firstn 24 file = be_octets 4 24 ++ str "ftypisom" ++ [0; 0; 2; 0] ++ str "isommp41" /\ octets_at file (55, 7) = [0; 0; 0; 3; 65; 154; 2].
Proof. vm_compute. split; reflexivity. Qed.
Example copy_case : let w := s_writer (fst (run (start Faststart 1000 64 0 session_ftyp) (O_WriteFtyp :: session_ops))) in
  mw_tmp_open w = true /\ os_pos (mw_os w) = Zlen (os_data (mw_os w)).
Proof. vm_compute. split; reflexivity. Qed.

Print Assumptions C28_simple_samples.
Print Assumptions C29_faststart_samples.
Print Assumptions C30_layout_loop_ends.
Print Assumptions C31_simple_tiled.
Print Assumptions C31_faststart_tiled.
Print Assumptions C32_mdat_header.
Print Assumptions C33_copy_verbatim.
Print Assumptions C34_next_track_id.
Print Assumptions C40_media_single.
Print Assumptions C45_codec_configuration.
Print Assumptions C46_track_headers.
Print Assumptions C50_media_information.
