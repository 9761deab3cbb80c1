(** Properties of tracks: C23-C27, C34, C40, C41. *)
From Coq Require Import Sorted.
From Verif Require Import Base Boxes Box BoxTree TreeSpec H264 Track Writers MovieSpec TrackLemmas.
From Coq Require Import String List.
Import ListNotations.
Open Scope Z_scope.
Open Scope list_scope.

(** C23: the time-to-sample table expands to the durations; run lengths are positive, add up to the number of samples, and
    neighbouring runs differ. *)
Theorem C23_stts_expands : forall durations, Zlen durations < 2 ^ 32 ->
  sample_durations (make_stts_entries durations) = durations /\
  total sttse_sample_count (make_stts_entries durations) = Zlen durations /\
  Forall (fun e => 0 < sttse_sample_count e < 2 ^ 32) (make_stts_entries durations) /\
  (forall pre a b post, make_stts_entries durations = pre ++ a :: b :: post -> sttse_sample_duration a <> sttse_sample_duration b).
Proof. exact stts_table_ok. Qed.
Example C23_case : make_stts_entries [20; 20; 30; 20] = [mk_stts_entry 2 20; mk_stts_entry 1 30; mk_stts_entry 1 20]. Proof. reflexivity. Qed.

(** C24: the sample-to-chunk table gives every chunk its number of samples; runs start at chunk 1 and go up. *)
Theorem C24_stsc_expands : forall chunks, Forall (fun c => 0 <= c_samples c) chunks -> Zlen chunks < 2 ^ 32 ->
  (forall i c, nth_error chunks i = Some c -> samples_in_chunk (make_stsc_entries chunks) (1 + Z.of_nat i) = c_samples c) /\
  (chunks <> [] -> exists n r, make_stsc_entries chunks = mk_stsc_entry 1 n 1 :: r) /\
  StronglySorted (fun a b => stsce_first_chunk a < stsce_first_chunk b) (make_stsc_entries chunks) /\
  Forall (fun e => 1 <= stsce_first_chunk e <= Zlen chunks /\ stsce_sample_description_index e = 1) (make_stsc_entries chunks).
Proof. exact stsc_table_ok. Qed.
Example C24_case : make_stsc_entries [mk_chunk 10 3 true; mk_chunk 50 3 true; mk_chunk 90 1 true] = [mk_stsc_entry 1 3 1; mk_stsc_entry 3 1 1]. Proof. reflexivity. Qed.

(** C25: the chunk offset box holds every offset; it is co64 exactly when one needs more than 32 bits. *)
Theorem C25_chunk_offsets : forall chunks,
  StronglySorted (fun a b => c_offset a <= c_offset b) chunks -> Forall (fun c => 0 <= c_offset c < 2 ^ 64) chunks ->
  let t := tree_of (make_offset_box chunks) in
  chunk_offsets [t] = Some (map c_offset chunks) /\
  (tree_type t = t_co64 <-> Exists (fun c => 2 ^ 32 <= c_offset c) chunks) /\ (tree_type t = t_co64 \/ tree_type t = t_stco).
Proof. exact offset_table_ok. Qed.
Example C25_case : let l := [mk_chunk 10 1 true; mk_chunk (2 ^ 32) 1 true] in
  StronglySorted (fun a b => c_offset a <= c_offset b) l /\ tree_type (tree_of (make_offset_box l)) = t_co64 /\
  tree_type (tree_of (make_offset_box [mk_chunk (2 ^ 32 - 1) 1 true])) = t_stco.
Proof.
  cbv zeta. split; [|split; reflexivity].
  apply SSorted_cons; [apply SSorted_cons; [apply SSorted_nil|apply Forall_nil]|apply Forall_cons; [cbn [c_offset]; lia|apply Forall_nil]].
Qed.

(** The box appended to moov by appendTrakBoxInfo for the track at index [i], after any calls made while recording (whatever
    the interleaving of the tracks). *)
Definition appended_to (moov : node) (s : session) (i : nat) (k : node) : Prop :=
  exists t, nth_error (s_tracks s) i = Some t /\ fst (Track_appendTrakBoxInfo moov t) = node_add_leaf moov k.

(** C26: the sync sample table holds the numbers of the key frames, in order; audio tracks have none. *)
Theorem C26_sync_samples : forall cls timescale duration time ft ops i c tsc dts dmv mt id moov,
  forallb media_op ops = true -> known_tracks ops -> samples_fit ops ->
  nth_error (created ops) i = Some (O_NewTrack c tsc dts dmv mt id) ->
  exists k info, appended_to moov (fst (run (start cls timescale duration time ft) ops)) i k /\ read_trak (tree_of k) = Some info /\
    match i_sync info with
    | Some l => is_video c = true /\ StronglySorted Z.lt l /\
        (forall n, In n l <-> 1 <= n <= Zlen (samples_of i ops) /\ exists s, nth_error (samples_of i ops) (Z.to_nat n - 1) = Some s /\ sm_key s = true)
    | None => is_video c = false
    end.
Proof.
  intros cls timescale duration time ft ops i c tsc dts dmv mt id moov M K F E.
  destruct (appended_trak cls timescale duration time ft ops i c tsc dts dmv mt id moov (conj M (conj K F)) E) as (t & k & info & A1 & A2 & A3 & _ & _ & _ & _ & _ & A4 & _).
  exists k, info. split; [exists t; auto|]. split; [exact A3|]. rewrite A4. destruct (is_video c); [|reflexivity].
  split; [reflexivity|]. split; [apply sync_numbers_sorted|apply sync_numbers_in].
Qed.

(** C27: every sample lasts until the next one; durations add up to the duration of the track minus the first timestamp,
    modulo 2^32, and exactly if timestamps never go back. *)
Theorem C27_durations : forall cls timescale duration time ft ops i c tsc dts dmv mt id moov,
  forallb media_op ops = true -> known_tracks ops -> samples_fit ops ->
  nth_error (created ops) i = Some (O_NewTrack c tsc dts dmv mt id) ->
  exists k info, appended_to moov (fst (run (start cls timescale duration time ft) ops)) i k /\ read_trak (tree_of k) = Some info /\
    let timestamps := map sm_ts (samples_of i ops) in
    i_durations info = expected_durations timestamps dts /\
    match timestamps with
    | [] => True
    | t0 :: _ => (sum (i_durations info) - (dts - t0)) mod 2 ^ 32 = 0 /\ (increasing timestamps dts -> sum (i_durations info) = dts - t0)
    end.
Proof.
  intros cls timescale duration time ft ops i c tsc dts dmv mt id moov M K F E.
  destruct (appended_trak cls timescale duration time ft ops i c tsc dts dmv mt id moov (conj M (conj K F)) E) as (t & k & info & A1 & A2 & A3 & _ & _ & _ & _ & A4 & _).
  exists k, info. split; [exists t; auto|]. split; [exact A3|]. cbv zeta. split; [exact A4|]. rewrite A4. destruct (map sm_ts (samples_of i ops)) as [|t0 l]; [exact I|].
  split; [apply sum_durations|apply sum_durations_exact].
Qed.

(** C40: the sample size table lists the samples added, in order; if only this track stores data, the media data is their
    concatenation. *)
Theorem C40_all_samples : forall cls timescale duration time ft ops i c tsc dts dmv mt id moov,
  forallb media_op ops = true -> known_tracks ops -> samples_fit ops ->
  nth_error (created ops) i = Some (O_NewTrack c tsc dts dmv mt id) ->
  exists k, appended_to moov (fst (run (start cls timescale duration time ft) ops)) i k /\
    trak_sizes (tree_of k) = Some (map (fun s => Zlen (sm_data s)) (samples_of i ops)).
Proof.
  intros cls timescale duration time ft ops i c tsc dts dmv mt id moov M K F E.
  destruct (appended_trak cls timescale duration time ft ops i c tsc dts dmv mt id moov (conj M (conj K F)) E) as (t & k & info & A1 & A2 & _ & _ & _ & _ & A4 & _).
  exists k. split; [exists t; auto|exact A4].
Qed.

(** C41: in any state of a track of any codec, one trak box is appended, whose sample table has exactly one of each table
    (see read_trak), the identifier of the track, and key frames exactly for video.  Identifier 0 is refused. *)
Theorem C41_trak_box : forall moov t, exists k info,
  fst (Track_appendTrakBoxInfo moov t) = node_add_leaf moov k /\ tree_type (tree_of k) = t_trak /\ read_trak (tree_of k) = Some info /\
  i_track_id info = t_id t /\ i_timescale info = t_timescale t /\ (i_sync info <> None <-> is_video (t_codec t) = true).
Proof. exact trak_box_ok. Qed.
Theorem C41_zero_refused : forall c timescale dts dmv time mt id,
  (exists t, Track_new c timescale dts dmv time mt id = Ok t) <-> id <> 0.
Proof. exact zero_refused. Qed.

(** C34: identifiers handed out by one writer, whatever else is called, are 1, 2, 3, ... *)
Theorem C34_track_ids : forall cls timescale duration time ft ops, ids_issued ops < 2 ^ 32 ->
  let l := issued (start cls timescale duration time ft) ops in
  l = map Z.of_nat (seq 1 (Z.to_nat (ids_issued ops))) /\ NoDup l /\ ~ In 0 l /\
  Forall (fun id => id <= ids_issued ops) l.
Proof. exact ids_ok. Qed.

(** A session that meets the hypotheses: two tracks interleaved without ending chunks, one key frame. *)
Definition sample_ops : list op :=
  [O_NextTrackID; O_NewTrack (AAC 0 0 0) 48000 3072 64 0 1; O_NextTrackID; O_NewTrack (VPX true 640 480 0 0) 1000 64 64 0 2;
   O_AddData 0 0 [1; 2; 3] false; O_AddData 1 0 [4; 5] true; O_AddData 0 1024 [6] false; O_SetMediaTime 1 7; O_AddData 1 33 [8; 9] false; O_AddData 0 2048 [7] false].
Lemma sample_known : known_tracks sample_ops.
Proof.
  intros pre o post i E A. unfold sample_ops in E.
  do 10 (destruct pre as [|? pre]; cbn [app] in E; [injection E as <- _; cbv beta iota in A; try contradiction; subst; apply Nat.ltb_lt; reflexivity|injection E as <- E]).
  destruct pre; discriminate.
Qed.
Lemma sample_fits : samples_fit sample_ops.
Proof.
  intros i. destruct i as [|[|i]]; [split; [reflexivity|apply Forall_forall; intros s H; apply Z.ltb_lt; revert s H; apply (proj1 (forallb_forall _ _)); reflexivity]..|].
  rewrite samples_unknown by (apply Nat.leb_le; reflexivity). split; [reflexivity|constructor].
Qed.
Example C26_C27_C40_case : forallb media_op sample_ops = true /\ known_tracks sample_ops /\ samples_fit sample_ops /\
  created sample_ops = [O_NewTrack (AAC 0 0 0) 48000 3072 64 0 1; O_NewTrack (VPX true 640 480 0 0) 1000 64 64 0 2] /\
  samples_of 0 sample_ops = [mk_sample 0 [1; 2; 3] false; mk_sample 1024 [6] false; mk_sample 2048 [7] false] /\
  sync_numbers (samples_of 1 sample_ops) = [1] /\ expected_durations (map sm_ts (samples_of 0 sample_ops)) 3072 = [1024; 1024; 1024] /\
  increasing (map sm_ts (samples_of 0 sample_ops)) 3072.
Proof.
  split; [reflexivity|]. split; [exact sample_known|]. split; [exact sample_fits|]. do 4 (split; [reflexivity|]).
  change (map sm_ts (samples_of 0 sample_ops)) with [0; 1024; 2048]. cbn [increasing]. lia.
Qed.
Example C34_case : issued (start Simple 0 0 0 (mk_ftyp [] 0 [])) sample_ops = [1; 2]. Proof. reflexivity. Qed.

Print Assumptions C23_stts_expands.
Print Assumptions C24_stsc_expands.
Print Assumptions C25_chunk_offsets.
Print Assumptions C26_sync_samples.
Print Assumptions C27_durations.
Print Assumptions C40_all_samples.
Print Assumptions C41_trak_box.
Print Assumptions C41_zero_refused.
Print Assumptions C34_track_ids.
