(** The trak boxes of a session are those of ExactSpec.v (C81). *)
From Coq Require Import ZifyBool Sorted.
From Verif Require Import Base BitIO BitFacts BitIOProofs Boxes WireFormat DescriptorSpec Box BoxSpec BoxTac BoxWrite BoxIO BoxSize BoxLemmas Print PrintSpec PrintProofs BoxTree TreeSpec TreeProofs TreeLayout TreePrint TreeRead TreeLemmas H264 Track Writers MovieSpec AnnexBSpec H264Proofs TrackProofs TrakProofs SessionProofs MovieShape Completion MovieSize FileProofs SimpleFile FaststartFile TrackLemmas FileLemmas RoundTrip IndependenceSpec ChunkSpec Chunks ExactSpec.
From Coq Require Import Ascii String List.
Import ListNotations.
Open Scope Z_scope.
Open Scope list_scope.

(** * Tables *)
Lemma join_same c d r : join c d (join 1 d r) = join (c + 1) d r.
Proof. destruct r as [|[m w] r]; cbn [join]; [rewrite Z.eqb_refl; reflexivity|]. destruct (Z.eqb_spec d w) as [->|N]; cbn [join]; [rewrite Z.eqb_refl; do 2 f_equal; lia|rewrite Z.eqb_refl; reflexivity]. Qed.
Lemma join_other c d x r : d <> x -> join c d (join 1 x r) = (c, d) :: join 1 x r.
Proof.
  intros N. assert (E : d =? x = false) by lia. destruct r as [|[m w] r]; cbn [join]; [rewrite E; reflexivity|].
  destruct (Z.eqb_spec x w) as [M|M]; cbn [join]; [rewrite <- M|]; rewrite E; reflexivity.
Qed.
Lemma stts_loop_runs l : forall d c, 0 < c -> c + Zlen l < 2 ^ 32 -> stts_loop d c l = map (fun r => mk_stts_entry (fst r) (snd r)) (join c d (run_lengths l)).
Proof.
  induction l as [|x l IH]; intros d c H B; cbn [stts_loop].
  - replace (c >? 0) with true by lia. reflexivity.
  - rewrite Zlen_cons in B. pose proof (Zlen_nonneg l). unfold run_lengths. cbn [fold_right]. fold (run_lengths l). destruct (Z.eqb_spec d x) as [->|N].
    + rewrite u32_small by lia. rewrite IH by lia. rewrite join_same. reflexivity.
    + rewrite IH by lia. rewrite join_other by exact N. reflexivity.
Qed.
Lemma stts_exact l : Zlen l < 2 ^ 32 -> make_stts_entries l = stts_of l.
Proof. intros H. destruct l as [|d l]; [reflexivity|]. rewrite Zlen_cons in H. unfold make_stts_entries, stts_of. rewrite stts_loop_runs by lia. reflexivity. Qed.

Lemma stsc_loop_runs l : forall p no, 0 <= no -> no + Zlen l <= 2 ^ 32 ->
  stsc_loop p no l = match run_lengths (map c_samples l) with (n, v) :: r => if p =? v then stsc_from (no + n) r else stsc_from no ((n, v) :: r) | [] => [] end.
Proof.
  induction l as [|x l IH]; intros p no H B; [reflexivity|]. rewrite Zlen_cons in B. pose proof (Zlen_nonneg l). cbn [stsc_loop map]. rewrite !stsc_loop_u32 by lia. rewrite !IH by lia.
  unfold run_lengths. cbn [fold_right]. fold (run_lengths (map c_samples l)). set (v := c_samples x). destruct (run_lengths (map c_samples l)) as [|[m w] r]; cbn [join].
  - destruct (p =? v); reflexivity.
  - destruct (Z.eqb_spec v w) as [E|N]; destruct (Z.eqb_spec p v) as [E'|E']; cbn [negb].
    + assert (p =? w = true) as -> by lia. f_equal. lia.
    + assert (p =? w = false) as -> by lia. cbn [stsc_from]. rewrite E. do 2 f_equal. lia.
    + assert (p =? w = false) as -> by lia. reflexivity.
    + reflexivity.
Qed.
Lemma run_value l : forall n v r, run_lengths l = (n, v) :: r -> In v l.
Proof.
  induction l as [|x l IH]; intros n v r E; [discriminate|]. unfold run_lengths in E. cbn [fold_right] in E. fold (run_lengths l) in E. destruct (run_lengths l) as [|[m w] q]; cbn [join] in E.
  - left. congruence.
  - destruct (Z.eqb_spec x w) as [F|F]; left; congruence.
Qed.
Lemma stsc_exact cs chunks : map c_samples cs = map Zlen chunks -> Zlen cs < 2 ^ 32 -> make_stsc_entries cs = stsc_of chunks.
Proof.
  intros E B. unfold make_stsc_entries, stsc_of. rewrite stsc_loop_runs by lia. rewrite E. destruct (run_lengths (map Zlen chunks)) as [|[n v] r] eqn:R; [reflexivity|].
  apply run_value in R. apply in_map_iff in R as (g & <- & _). pose proof (Zlen_nonneg g). assert (-1 =? Zlen g = false) as -> by lia. reflexivity.
Qed.

(** * Positions *)
Lemma positions_exact i h : forall b, map fst (recs_of i b h) = positions i b h.
Proof.
  induction h as [|[[j|] s] h IH]; intros b; [reflexivity| |]; unfold recs_of, select in *; cbn [placed flat_map fst snd positions]; [|rewrite <- IH; reflexivity].
  destruct (Nat.eqb i j); cbn [app map fst]; rewrite <- IH; reflexivity.
Qed.
Lemma firsts_exact cs gs : Forall2 chunk_ok cs gs -> forall rest, map c_offset cs = firsts (map (map snd) gs) (map fst (concat gs) ++ rest).
Proof.
  induction 1 as [|c g cs gs G H IH]; intros rest; [reflexivity|]. cbn [map firsts concat]. destruct (chunk_first _ _ G) as (s & g' & ->). rewrite map_app, <- app_assoc. f_equal.
  - rewrite map_length, <- (map_length fst), skipn_exact by reflexivity. apply IH.
Qed.

(** * The trak box *)
Lemma expected_shape c sps pps : exists pr co lv, expected_codec c sps pps = match c with H264 w h cv _ _ _ _ _ => H264 w h cv pr co lv sps pps | _ => c end.
Proof. destruct c; try (exists 0, 0, 0; reflexivity). cbn [expected_codec]. destruct sps as [|p l]; [eauto|]. destruct (_ >? 4); eauto. Qed.
Lemma to_shift w : u32 (Z.shiftl w 16) = (w * 2 ^ 16) mod 2 ^ 32.
Proof. unfold u32. rewrite Z.shiftl_mul_pow2 by lia. reflexivity. Qed.
Lemma to_low w : to_u 16 (Z.land 65535 w) = w mod 2 ^ 16.
Proof. unfold to_u. rewrite Z.land_comm. change 65535 with (Z.ones 16). rewrite Z.land_ones by lia. apply Z.mod_mod. discriminate. Qed.

Lemma entry_exact c sps pps t : t_codec t = expected_codec c sps pps ->
  tree_as_read (tree_of (make_sample_entry t)) = entry_tree (t_timescale t) (t_id t) (expected_codec c sps pps).
Proof.
  intros E. unfold make_sample_entry. rewrite E. destruct (expected_codec c sps pps); cbv zeta; unfold new_info, audio_sample_entry, visual_sample_entry; cbn [tree_of map tree_as_read box_as_read entry_tree];
    unfold audio_entry_of, visual_entry_of; rewrite ?to_shift, ?to_low; reflexivity.
Qed.
Lemma offsets_exact t recs : finished t recs -> sorted_offsets recs -> Forall (fun r => 0 <= fst r < 2 ^ 64) recs ->
  tree_as_read (tree_of (make_offset_box (t_chunks t))) = offset_tree (map c_offset (t_chunks t)).
Proof.
  intros F S B. destruct (finished_offsets t recs F S B) as (O1 & O2). unfold make_offset_box, offset_tree, offsets_of in *.
  assert (X : existsb (fun o => 2 ^ 32 <=? o) (map c_offset (t_chunks t)) = use_co64 (t_chunks t)).
  { apply eq_true_iff_eq. rewrite O2, existsb_exists, Exists_exists. split.
    - intros (x & I & L). apply in_map_iff in I as (k & <- & I). exists k. split; [exact I|]. apply Z.leb_le. exact L.
    - intros (k & I & L). exists (c_offset k). split; [apply in_map; exact I|]. apply Z.leb_le. exact L. }
  rewrite X. destruct (use_co64 (t_chunks t)); [reflexivity|]. rewrite O1. reflexivity.
Qed.
Lemma trak_exact time ops i b t : samples_fit ops -> (exists o, nth_error (created ops) i = Some o /\ static o time t) ->
  (forall c, codec_of ops i = Some c -> t_codec t = expected_codec c (sps_of i ops) (pps_of i ops)) ->
  (forall c tsc dts dmv mt id, nth_error (created ops) i = Some (O_NewTrack c tsc dts dmv mt id) -> t_media_time t = media_time_of i ops mt) ->
  finished t (recs_of i b (history ops)) -> 0 <= b -> b + Zlen (media ops) < 2 ^ 64 ->
  concat (chunks_of i ops) = samples_of i ops -> map c_samples (t_chunks t) = map Zlen (chunks_of i ops) ->
  tree_as_read (tree_of (make_trak t)) = track_tree time ops b i.
Proof.
  intros Fit (o & Eo & So) Hc Hm Fi B0 B1 Cc Cn. destruct o as [c tsc dts dmv mt id| | | | | | | | | | | |]; try contradiction.
  unfold track_tree. rewrite Eo. specialize (Hm _ _ _ _ _ _ Eo). assert (Ec : t_codec t = expected_codec c (sps_of i ops) (pps_of i ops)) by (apply Hc; unfold codec_of; rewrite Eo; reflexivity).
  destruct So as (A1 & A2 & A3 & A4 & A5 & _). clear Hc.
  destruct (Fit i) as [N1 N2]. pose proof (recs_of_samples i (history ops) b) as Er. rewrite <- samples_select in Er.
  assert (Bo : Forall (fun r => 0 <= fst r < 2 ^ 64) (recs_of i b (history ops))).
  { eapply Forall_impl; [|apply recs_bounds]. cbv beta. intros r (H1 & H2). rewrite <- media_octets in H2. pose proof (Zlen_nonneg (sm_data (snd r))). unfold size_of in H2. lia. }
  pose proof (offsets_exact t _ Fi (recs_sorted i b (history ops)) Bo) as Xo. pose proof Fi as [_ Fs Fd Fk (gs & Hg & Ho)].
  assert (Eg : map (map snd) gs = chunks_of i ops).
  { apply division_unique; [rewrite <- concat_map, Hg, Er, Cc; reflexivity|]. rewrite <- Cn, map_map. clear - Ho. induction Ho as [|k g cs gs (G1 & G2 & G3) H IH]; [reflexivity|]. cbn [map]. rewrite IH, Zlen_map, G2. reflexivity. }
  assert (Xp : map c_offset (t_chunks t) = chunk_starts i b ops).
  { unfold chunk_starts. rewrite <- Eg, <- positions_exact, <- Hg. rewrite (firsts_exact _ _ Ho []), app_nil_r. reflexivity. }
  assert (Lr : Zlen (recs_of i b (history ops)) = Zlen (samples_of i ops)) by (rewrite <- Er, Zlen_map; reflexivity).
  assert (Nc : Zlen (t_chunks t) < 2 ^ 32).
  { pose proof (chunk_count _ _ Ho) as X. rewrite Hg in X. lia. }
  pose proof (stsc_exact _ _ Cn Nc) as Xc.
  assert (Ed : t_durations t = expected_durations (map sm_ts (samples_of i ops)) dts) by (rewrite Fd, A2, <- Er, map_map; reflexivity).
  assert (Xt : make_stts_entries (t_durations t) = stts_of (expected_durations (map sm_ts (samples_of i ops)) dts)).
  { rewrite Ed. apply stts_exact. rewrite expected_durations_length, Zlen_map. exact N1. }
  assert (Es : t_sizes t = map (fun s => Zlen (sm_data s)) (samples_of i ops)) by (rewrite Fs, <- Er, map_map; reflexivity).
  assert (Ek : t_keys t = if is_video (t_codec t) then sync_numbers (samples_of i ops) else []) by (rewrite Fk, Er; reflexivity).
  pose proof (entry_exact c _ _ t Ec) as Xe. rewrite A1, A5 in Xe.
  assert (Xn : u32 (Zlen (t_sizes t)) = Zlen (samples_of i ops)).
  { rewrite Es, Zlen_map. apply u32_small. pose proof (Zlen_nonneg (samples_of i ops)). lia. }
  rewrite Xp in Xo. clear Fd Fs Fk Fi Hg Ho Eg Bo Er Lr. unfold trak_tree, make_trak, make_stbl, make_stsd, make_sbgp, make_sgpd, make_tkhd, make_edts, make_mdhd, make_hdlr, make_media_header, make_dinf, make_stts, make_stss, make_stsc, make_stsz. cbv zeta.
  destruct (expected_shape c (sps_of i ops) (pps_of i ops)) as (pr & co & lv & Sh).
  rewrite Xn, Xt, Xc, A1, A2, A3, A4, A5, Hm, Ek, Es. rewrite Ec in *. rewrite Sh in *. destruct c; unfold new_info; cbn [tree_of map tree_as_read box_as_read codec_handler handler_array is_video picture_size roll_groups_of roll_distance_of fst snd app unity_matrix];
    rewrite Xe, Xo; rewrite ?to_shift; reflexivity.
Qed.

(** * Files *)
Lemma traks_exact time ops cls timescale duration ft sel (g : track -> track) b b' traks : ftyp_ok ft -> recording ops -> movie_fits ft ops sel -> 0 <= b' -> b' + Zlen (media ops) < 2 ^ 64 ->
  (forall i t, tinv time b i ops t -> finished (g t) (recs_of i b' (history ops))) ->
  (forall o t, static o time t -> static o time (g t)) -> (forall t, t_codec (g t) = t_codec t /\ t_media_time (g t) = t_media_time t) ->
  (forall t, map c_samples (t_chunks (g t)) = map c_samples (t_chunks (Track_finalize t))) ->
  Forall2 (fun i tr => exists t, nth_error (s_tracks (fst (run (start cls timescale duration time ft) (O_WriteFtyp :: ops)))) i = Some t /\ tinv time b i ops t /\ tr = tree_of (make_trak (g t))) sel traks ->
  map tree_as_read traks = map (track_tree time ops b') sel.
Proof.
  intros Fo Rec Fits B0 B1 Gf Gs Gc Gn H. destruct (movie_fits_media _ _ _ Fo Fits) as (M1 & _ & _).
  pose proof (session_tracks cls timescale duration time ft ops Fo M1 Rec) as Sh. pose proof (session_counts cls timescale duration time ft ops sel Fo Rec Fits) as Sc.
  clear M1 Fits. induction H as [|i tr l traks (t & Et & T & ->) H IH]; [reflexivity|]. cbn [map]. f_equal; [|exact IH]. destruct (sh_tracks _ _ _ Sh i t Et) as ((o & Eo & So) & _ & Hc & Hm). destruct (Sc i t Et) as (C1 & C2).
  apply trak_exact; auto.
  - exact (rec_fit _ Rec).
  - exists o. auto.
  - intros c Ec. rewrite (proj1 (Gc t)). exact (Hc c Ec).
  - intros c tsc dts dmv mt id E. rewrite (proj2 (Gc t)). exact (Hm _ _ _ _ _ _ E).
  - rewrite Gn. exact C1.
Qed.
Lemma moov_read timescale duration time id traks : tree_as_read (moov_tree timescale duration time id traks) = moov_tree timescale duration time id (map tree_as_read traks).
Proof. unfold moov_tree. cbn [tree_as_read box_as_read map]. rewrite map_app. reflexivity. Qed.
Lemma free_read m : map tree_as_read (free_trees m) = free_trees m.
Proof. unfold free_trees. destruct (_ <? _); reflexivity. Qed.

Section Exact.
Variables (timescale duration time : Z) (ft : ftyp) (ops : list op) (sel : list nat).
Hypothesis (Ft : box_wf 0 (B_ftyp ft)) (Rec : recording ops) (Sel : chosen ops sel) (Fits : movie_fits ft ops sel) (Bytes : bytes (media ops)).
Hypothesis (P1 : fits_u 32 timescale) (P2 : fits_u 32 duration) (P3 : fits_u 32 time) (P4 : Forall (track_fits ops) sel).
Lemma ftyp_written : ftyp_octets ft = serialize (ftyp_tree ft).
Proof. change (ftyp_octets ft) with (serialize_with written (ftyp_tree ft)). rewrite (good_serialize (ftyp_tree ft) false (good_ftyp false ft Ft)). reflexivity. Qed.

Lemma simple_exact : output (fst (run (start Simple timescale duration time ft) (simple_program ops sel))) = simple_file timescale duration time ft ops sel.
Proof.
  pose proof (ftyp_wf_typed ft Ft) as Fo. destruct (movie_fits_media _ _ _ Fo Fits) as (M1 & M2 & M3).
  destruct (simple_session timescale duration time ft ops sel (time32 time P3) Fo Rec Sel Fits) as (_ & _ & traks0 & E0 & D0 & T0). cbv zeta in *.
  set (b := Zlen (ftyp_octets ft) + 16) in *.
  assert (B0 : 0 <= b) by (pose proof (Zlen_nonneg (ftyp_octets ft)); unfold b; lia).
  assert (B1 : b + Zlen (media ops) < 2 ^ 64) by (pose proof (ftyp_size ft Fo); unfold movie_fits in Fits; unfold b; lia).
  assert (Gf : forall i t, tinv time b i ops t -> finished (Track_finalize t) (recs_of i b (history ops))) by (intros i t T; apply recorded_finalize, (ti_rec _ _ _ _ _ T)).
  assert (Gs : forall o t, static o time t -> static o time (Track_finalize t)) by (intros o t; apply static_finalize).
  assert (Gc : forall t, t_codec (Track_finalize t) = t_codec t /\ t_media_time (Track_finalize t) = t_media_time t) by (intros t; split; apply finalize_same).
  destruct (traks_good timescale duration time ft ops sel Ft Rec Fits P3 P4 Simple Track_finalize b b traks0 B0 B1 Gf Gs Gc T0) as (Gt & _).
  pose proof (traks_exact time ops Simple timescale duration ft sel Track_finalize b b traks0 Fo Rec Fits B0 B1 Gf Gs Gc (fun t => eq_refl) T0) as X.
  set (boxes := [ftyp_tree ft] ++ free_trees (media ops) ++ [mdat_tree (media ops)] ++ [moov_tree timescale duration time (u32 (1 + ids_issued ops)) traks0]).
  assert (G : Forall (good false) boxes).
  { unfold boxes. apply Forall_app. split; [constructor; [apply good_ftyp; exact Ft|constructor]|]. apply Forall_app. split; [apply good_free|]. apply Forall_app. split; [constructor; [apply good_mdat; exact Bytes|constructor]|].
    constructor; [|constructor]. apply good_moov; auto. apply u32_fits. }
  unfold output. rewrite E0. transitivity (flat_map (serialize_with written) boxes).
  { unfold boxes. rewrite flat_map4, free_octets. rewrite mdat_octets by exact Bytes. change (serialize_with written (ftyp_tree ft)) with (ftyp_octets ft). unfold moov_tree. rewrite <- udta_ok. rewrite <- !app_assoc. reflexivity. }
  rewrite (good_serialize_all false boxes G). unfold simple_file, boxes. rewrite !map_app, free_read. cbn [map]. rewrite moov_read, X. rewrite <- ftyp_written. fold b. reflexivity.
Qed.
Lemma mdat_size m : bytes m -> Zlen (serialize (mdat_tree m)) = Zlen (frame_header (str "mdat") (Zlen m)) + Zlen m.
Proof. intros B. change (serialize (mdat_tree m)) with (serialize (tree_as_read (mdat_tree m))). rewrite <- (good_serialize (mdat_tree m) false (good_mdat false m B)), (mdat_octets m B), Zlen_app. reflexivity. Qed.
Lemma faststart_exact : let file := output (fst (run (start Faststart timescale duration time ft) (faststart_program ops sel))) in
  let base := Zlen file - Zlen (media ops) in
  file = faststart_file timescale duration time ft ops sel base /\
  forall base', base' = Zlen (faststart_file timescale duration time ft ops sel base') - Zlen (media ops) -> base <= base'.
Proof.
  pose proof (ftyp_wf_typed ft Ft) as Fo. destruct (movie_fits_media _ _ _ Fo Fits) as (M1 & M2 & M3). cbv zeta.
  destruct (faststart_session_least timescale duration time ft ops sel (time32 time P3) Fo Rec Sel Fits) as (_ & _ & S & traks0 & E0 & D0 & T0 & (S0 & S1 & S2) & Least). cbv zeta in *.
  assert (Gf : forall S i t, 0 <= S -> S + Zlen (media ops) < 2 ^ 64 -> tinv time 0 i ops t -> finished (F S t) (recs_of i (0 + S) (history ops))) by (intros Q i t ? ? T; apply (tinv_shift_finished time 0 ops i t Q T); lia).
  assert (Gs : forall S o t, static o time t -> static o time (F S t)) by (intros Q o t; apply static_F).
  assert (Gc : forall S t, t_codec (F S t) = t_codec t /\ t_media_time (F S t) = t_media_time t) by (intros Q t; apply Fcodec).
  assert (Ex : forall Q traks, 0 <= Q -> Q + Zlen (media ops) < 2 ^ 64 ->
    Forall2 (fun i tr => exists t, nth_error (s_tracks (fst (run (start Faststart timescale duration time ft) (O_WriteFtyp :: ops)))) i = Some t /\ tinv time 0 i ops t /\ tr = tree_of (make_trak (F Q t))) sel traks ->
    (ftyp_octets ft ++ serialize_with written (T (str "moov") B_container (T (str "mvhd") (B_mvhd (mvhd_of timescale duration time (u32 (1 + ids_issued ops)))) [] :: traks ++ [tree_of make_udta])) ++ frame_header (str "mdat") (Zlen (media ops))) ++ media ops
      = faststart_file timescale duration time ft ops sel Q).
  { intros Q traks Q0 Q1 T. destruct (traks_good timescale duration time ft ops sel Ft Rec Fits P3 P4 Faststart (F Q) 0 (0 + Q) traks Q0 Q1 (fun i t => Gf Q i t Q0 Q1) (Gs Q) (Gc Q) T) as (Gt & _).
    pose proof (traks_exact time ops Faststart timescale duration ft sel (F Q) 0 (0 + Q) traks Fo Rec Fits Q0 Q1 (fun i t => Gf Q i t Q0 Q1) (Gs Q) (Gc Q) (F_counts Q) T) as X.
    set (boxes := [ftyp_tree ft] ++ [moov_tree timescale duration time (u32 (1 + ids_issued ops)) traks] ++ [mdat_tree (media ops)]).
    assert (G : Forall (good false) boxes).
    { unfold boxes. apply Forall_app. split; [constructor; [apply good_ftyp; exact Ft|constructor]|]. apply Forall_app. split; [|constructor; [apply good_mdat; exact Bytes|constructor]].
      constructor; [|constructor]. apply good_moov; auto. apply u32_fits. }
    transitivity (flat_map (serialize_with written) boxes).
    { unfold boxes. rewrite flat_map3. rewrite mdat_octets by exact Bytes. change (serialize_with written (ftyp_tree ft)) with (ftyp_octets ft). unfold moov_tree. rewrite <- udta_ok. rewrite <- !app_assoc. reflexivity. }
    rewrite (good_serialize_all false boxes G). unfold faststart_file, boxes. rewrite !map_app. cbn [map]. rewrite moov_read, X. reflexivity. }
  unfold output in *. set (file := os_data _) in *.
  assert (L : Zlen file - Zlen (media ops) = S) by (rewrite E0, Zlen_app; lia).
  rewrite L. split; [rewrite E0; apply Ex; assumption|]. intros b' Eb. destruct (Z.le_gt_cases S b') as [H|H]; [exact H|].
  (* the trak boxes at [b'] *)
  assert (Tk : exists traks', Forall2 (fun i tr => exists t, nth_error (s_tracks (fst (run (start Faststart timescale duration time ft) (O_WriteFtyp :: ops)))) i = Some t /\ tinv time 0 i ops t /\ tr = tree_of (make_trak (F b' t))) sel traks').
  { clear -T0. induction T0 as [|i tr l traks (t & N & T & _) H IH]; [exists []; constructor|]. destruct IH as (l' & IH). exists (tree_of (make_trak (F b' t)) :: l'). constructor; [exists t; auto|exact IH]. }
  destruct Tk as (traks' & Tk). assert (B0 : 0 <= b').
  { rewrite Eb. unfold faststart_file. cbn [flat_map]. rewrite !Zlen_app, (mdat_size (media ops) Bytes). pose proof (Zlen_nonneg (serialize (ftyp_tree ft))). pose proof (Zlen_nonneg (serialize (moov_of timescale duration time ops sel b'))).
    pose proof (Zlen_nonneg (frame_header (str "mdat") (Zlen (media ops)))). change (Zlen (@nil Z)) with 0. lia. }
  assert (B1 : b' + Zlen (media ops) < 2 ^ 64) by lia. pose proof (Ex b' traks' B0 B1 Tk) as Ey. apply (Least b' traks' B0 B1 Tk). rewrite <- Ey, Zlen_app in Eb. lia.
Qed.
End Exact.
