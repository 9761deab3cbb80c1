(** The two writers make the same movie (C67). *)
From Coq Require Import ZifyBool.
From Verif Require Import Base BitIO BitFacts BitIOProofs Boxes WireFormat Box BoxSpec BoxSize Print PrintSpec PrintProofs BoxTree TreeSpec TreeProofs TreeLayout H264 Track Writers MovieSpec AnnexBSpec H264Proofs TrackProofs TrakProofs SessionProofs MovieShape Completion MovieSize FileProofs SimpleFile FaststartFile FileLemmas CompareSpec.
From Coq Require Import String List.
Import ListNotations.
Open Scope Z_scope.
Open Scope list_scope.

(** * Tracks that differ by where the media data start *)
Definition shift_chunk (b : Z) (c : chunk) : chunk := mk_chunk (c_offset c + b) (c_samples c) (c_initialized c).
Definition mv (b : Z) (t : track) : track :=
  mk_track (t_timescale t) (t_duration_ts t) (t_duration_mvhd t) (t_time t) (t_media_time t) (t_id t) (t_codec t)
    (t_finalized t) (t_sizes t) (map (shift_chunk b) (t_chunks t)) (if c_initialized (t_current t) then shift_chunk b (t_current t) else t_current t)
    (t_prev t) (t_durations t) (t_keys t).
Definition started (t : track) : Prop := t_current t = chunk0 \/ c_initialized (t_current t) = true.
Lemma recorded_started t recs : recorded t recs -> started t.
Proof. intros [_ _ _ _ (gs & g & _ & _ & [(_ & H)|(_ & H)])]; [left|right]; exact H. Qed.
Lemma mv_terminate b t : started t -> Track_terminateCurrentChunk (mv b t) = mv b (Track_terminateCurrentChunk t).
Proof.
  intros H. destruct t as [a1 a2 a3 a4 a5 a6 a7 a8 a9 ch cur a12 a13 a14]. unfold started in H. cbn [t_current] in H. unfold Track_terminateCurrentChunk, mv. cbn [t_current].
  destruct H as [->|H]; [reflexivity|]. rewrite H. cbn [shift_chunk c_samples]. destruct (c_samples cur >? 0); cbn [t_timescale t_duration_ts t_duration_mvhd t_time t_media_time t_id t_codec t_finalized t_sizes t_chunks t_current t_prev t_durations t_keys].
  - rewrite map_app. reflexivity.
  - rewrite H. reflexivity.
Qed.
Lemma mv_finalize b t : started t -> Track_finalize (mv b t) = mv b (Track_finalize t).
Proof.
  intros H. destruct t as [a1 a2 a3 a4 a5 a6 a7 fin a9 ch cur a12 a13 a14]. unfold started in H. cbn [t_current] in H. unfold Track_finalize, mv. cbn [t_finalized].
  destruct fin; [reflexivity|]. cbn [t_timescale t_duration_ts t_duration_mvhd t_time t_media_time t_id t_codec t_finalized t_sizes t_chunks t_current t_prev t_durations t_keys].
  destruct H as [->|H]; [reflexivity|]. rewrite H. cbn [shift_chunk c_samples]. destruct (c_samples cur >? 0); [rewrite map_app|]; reflexivity.
Qed.
Lemma mv_add b tell ts d k t : Track_addMdatData (b + tell) ts d k (mv b t) = mv b (Track_addMdatData tell ts d k t).
Proof.
  destruct t as [a1 a2 a3 a4 a5 a6 a7 a8 a9 ch cur a12 a13 a14]. unfold Track_addMdatData, mv.
  cbn [t_timescale t_duration_ts t_duration_mvhd t_time t_media_time t_id t_codec t_finalized t_sizes t_chunks t_current t_prev t_durations t_keys].
  destruct cur as [o n [|]]; cbn [c_initialized negb shift_chunk c_offset c_samples]; [reflexivity|]. f_equal. unfold shift_chunk. cbn [c_offset c_samples c_initialized]. f_equal. lia.
Qed.
Lemma mv_media v b t : Track_setMediaTime v (mv b t) = mv b (Track_setMediaTime v t).
Proof. reflexivity. Qed.
Lemma mv_sps p b t : H264_appendSPS p (mv b t) = mv b (H264_appendSPS p t).
Proof. destruct t as [a1 a2 a3 a4 a5 a6 a7 a8 a9 ch cur a12 a13 a14]. unfold H264_appendSPS. cbn [mv t_codec]. destruct a7; try reflexivity. cbv zeta. destruct (_ && _)%bool; reflexivity. Qed.
Lemma mv_pps p b t : H264_appendPPS p (mv b t) = mv b (H264_appendPPS p t).
Proof. destruct t as [a1 a2 a3 a4 a5 a6 a7 a8 a9 ch cur a12 a13 a14]. unfold H264_appendPPS. cbn [mv t_codec]. destruct a7; reflexivity. Qed.
Lemma map_update {A B} (f : A -> B) i x l : map f (update_nth i x l) = update_nth i (f x) (map f l).
Proof. revert i. induction l as [|y l IH]; intros [|i]; cbn [update_nth map]; try reflexivity. rewrite IH. reflexivity. Qed.

Section Sim.
Variables (timescale duration time : Z) (ft : ftyp).
Notation fb := (ftyp_octets ft).
Notation b := (Zlen fb + 16).
Notation winvF := (winv Faststart timescale duration time ft fb 0).
Notation winvS := (winv Simple timescale duration time ft fb b).
Lemma actions_same ts key nid : forall acts t w w' m, winvF m nid w -> winvS m nid w' -> Zlen (m ++ concat (stored_in acts)) < 2 ^ 64 ->
  exists t1 w1 w2, track_actions ts key acts t w = Ok (t1, w1) /\ track_actions ts key acts (mv b t) w' = Ok (mv b t1, w2).
Proof.
  induction acts as [|a acts IH]; intros t w w' m W W' B; [exists t, w, w'; auto|].
  destruct a as [d|p|p]; cbn [stored_in flat_map app concat map track_actions] in *; fold (stored_in acts) in *.
  - rewrite !Zlen_app in B. pose proof (Zlen_nonneg (concat (stored_in acts))).
    destruct (add_mdat _ _ _ _ _ _ _ m nid w d W) as (Et & w1 & Ew & W1); [lia|]. destruct (add_mdat _ _ _ _ _ _ _ m nid w' d W') as (Et' & w1' & Ew' & W1'); [lia|].
    unfold track_store. rewrite Ew, Ew', Et, Et', mv_add. cbv iota beta. rewrite Z.add_0_l. apply (IH _ _ _ (m ++ d) W1 W1'). rewrite !Zlen_app. lia.
  - rewrite mv_sps. apply (IH _ _ _ m W W' B).
  - rewrite mv_pps. apply (IH _ _ _ m W W' B).
Qed.
Lemma step_same ops s s' o : sinv Faststart timescale duration time ft fb 0 ops s -> sinv Simple timescale duration time ft fb b ops s' -> media_op o = true ->
  (forall i, about i o -> (i < length (created ops))%nat) -> Zlen (media (ops ++ [o])) < 2 ^ 64 -> s_tracks s' = map (mv b) (s_tracks s) ->
  snd (step s' o) = snd (step s o) /\ s_tracks (fst (step s' o)) = map (mv b) (s_tracks (fst (step s o))).
Proof.
  intros I I' Mo K B R. pose proof (si_w _ _ _ _ _ _ _ _ _ I) as W. pose proof (si_w _ _ _ _ _ _ _ _ _ I') as W'.
  assert (Known : forall i, about i o -> exists t, nth_error (s_tracks s) i = Some t /\ nth_error (s_tracks s') i = Some (mv b t) /\ tinv time 0 i ops t).
  { intros i H. specialize (K i H). rewrite <- (si_len _ _ _ _ _ _ _ _ _ I) in K. apply nth_error_Some in K. destruct (nth_error (s_tracks s) i) as [t|] eqn:E; [|congruence]. exists t.
    split; [reflexivity|]. split; [rewrite R; apply map_nth_error; exact E|]. apply (si_tracks _ _ _ _ _ _ _ _ _ I). exact E. }
  destruct o; try discriminate; cbn [step].
  - rewrite (wi_time _ _ _ _ _ _ _ _ _ _ W), (wi_time _ _ _ _ _ _ _ _ _ _ W'). unfold Track_new. destruct (id =? 0); cbn [fst snd]; [split; [reflexivity|exact R]|].
    cbn [s_tracks]. rewrite R, map_app. split; reflexivity.
  - cbn [fst snd s_tracks]. split; [reflexivity|exact R].
  - destruct (Known i eq_refl) as (t & E & E' & T). rewrite E, E'. change (t_codec (mv b t)) with (t_codec t). destruct (ti_static _ _ _ _ _ T) as (o & Eo & So).
    destruct (codec_of_static time ops i o t Eo So data) as (acts & r & -> & Hr & c & Ec & Es).
    assert (Eoct : octets_of (stores ops (O_AddData i timestamp data is_key)) = concat (stored_in acts)).
    { assert (Est : stores ops (O_AddData i timestamp data is_key) = map (pair (Some i)) (map (fun d => mk_sample timestamp d is_key) (stored_in acts))).
      { unfold stores, stored. rewrite Ec, map_map, Es. reflexivity. }
      rewrite Est. unfold octets_of. rewrite map_map, flat_map_concat_map, map_map. cbn [snd sm_data]. rewrite map_id. reflexivity. }
    rewrite media_snoc, Eoct in B. destruct (actions_same timestamp is_key _ acts t _ _ _ W W' B) as (t1 & w1 & w2 & -> & ->). cbn [fst snd s_tracks]. split; [reflexivity|].
    rewrite R, map_update. reflexivity.
  - destruct (Known i eq_refl) as (t & E & E' & T). unfold on_track. rewrite E, E'. cbn [fst snd s_tracks]. split; [reflexivity|]. rewrite R, map_update. f_equal. apply mv_terminate. exact (recorded_started _ _ (ti_rec _ _ _ _ _ T)).
  - destruct (Known i eq_refl) as (t & E & E' & T). unfold on_track. rewrite E, E'. cbn [fst snd s_tracks]. split; [reflexivity|]. rewrite R, map_update. f_equal.
  - assert (Eo : octets_of (stores ops (O_AddRaw data)) = data) by (cbn; apply app_nil_r). rewrite media_snoc, Eo, Zlen_app in B.
    destruct (add_mdat _ _ _ _ _ _ _ _ _ _ data W) as (_ & w1 & -> & _); [lia|]. destruct (add_mdat _ _ _ _ _ _ _ _ _ _ data W') as (_ & w2 & -> & _); [lia|]. cbn [lift fst snd s_tracks]. split; [reflexivity|exact R].
Qed.
Lemma run_same s s' ops : sinv Faststart timescale duration time ft fb 0 [] s -> sinv Simple timescale duration time ft fb b [] s' ->
  forallb media_op ops = true -> known_tracks ops -> chunks_ended ops -> samples_fit ops -> Zlen (media ops) < 2 ^ 64 -> s_tracks s' = map (mv b) (s_tracks s) ->
  snd (run s' ops) = snd (run s ops) /\ s_tracks (fst (run s' ops)) = map (mv b) (s_tracks (fst (run s ops))).
Proof.
  intros I I'. induction ops as [|o ops IH] using rev_ind; intros M K C F B R; [split; [reflexivity|exact R]|].
  rewrite forallb_app in M. apply andb_prop in M. destruct M as [M1 M2]. cbn [forallb] in M2. rewrite Bool.andb_true_r in M2.
  assert (B' : Zlen (media ops) < 2 ^ 64) by (rewrite media_snoc, Zlen_app in B; pose proof (Zlen_nonneg (octets_of (stores ops o))); lia).
  assert (K' : known_tracks ops) by (intros pre x post i E; apply (K pre x (post ++ [o]) i); rewrite E, <- app_assoc; reflexivity).
  assert (C' : chunks_ended ops) by (intros pre mid post i ts d k ts' d' k' E; apply (C pre mid (post ++ [o]) i ts d k ts' d' k'); rewrite E, <- !app_assoc; cbn [app]; rewrite <- app_assoc; reflexivity).
  assert (F' : samples_fit ops) by (eapply samples_fit_prefix; exact F).
  destruct IH as [R1 R2]; auto.
  destruct (run_sinv _ _ _ _ _ _ _ s ops I M1 K' C' F' B') as (J & _). destruct (run_sinv _ _ _ _ _ _ _ s' ops I' M1 K' C' F' B') as (J' & _).
  rewrite !run_app. cbn [fst snd run].
  destruct (step_same ops (fst (run s ops)) (fst (run s' ops)) o J J' M2) as (Q1 & Q2); auto.
  { intros i A. apply (K ops o [] i eq_refl). destruct o; cbn in A; auto. }
  destruct (step (fst (run s ops)) o) as [s1 r1]. destruct (step (fst (run s' ops)) o) as [s2 r2]. cbn [fst snd] in *. rewrite R1, Q1. split; [reflexivity|exact Q2].
Qed.
End Sim.

(** * The trak boxes *)
Lemma same_leaf d ty bx : (forall l, ~ offset_table (T ty bx []) l) -> same_movie d (T ty bx []) (T ty bx []).
Proof. intros H. apply same_box; [exact H|constructor]. Qed.
Ltac not_table := let l := fresh in let H := fresh in intros l H; inversion H.
Ltac same_all := first [assumption|apply same_box; [not_table|repeat (first [apply Forall2_nil|apply Forall2_cons])]; same_all].
Lemma offsets_box t l : offsets_of t = l -> offset_table (tree_of (make_offset_box (t_chunks t))) l.
Proof. intros <-. unfold offsets_of, make_offset_box. destruct (use_co64 (t_chunks t)); constructor. Qed.
(** two tracks with the same members but the chunk offsets *)
Definition alike (t t' : track) : Prop :=
  t_timescale t = t_timescale t' /\ t_duration_ts t = t_duration_ts t' /\ t_duration_mvhd t = t_duration_mvhd t' /\ t_time t = t_time t' /\ t_media_time t = t_media_time t' /\
  t_id t = t_id t' /\ t_codec t = t_codec t' /\ t_sizes t = t_sizes t' /\ t_durations t = t_durations t' /\ t_keys t = t_keys t' /\ map c_samples (t_chunks t) = map c_samples (t_chunks t').
Lemma same_trak d t t' : alike t t' -> offsets_of t' = map (fun o => o + d) (offsets_of t) -> same_movie d (tree_of (make_trak t)) (tree_of (make_trak t')).
Proof.
  intros (A1 & A2 & A3 & A4 & A5 & A6 & A7 & A8 & A9 & A10 & A11) O.
  assert (Off : same_movie d (tree_of (make_offset_box (t_chunks t))) (tree_of (make_offset_box (t_chunks t')))).
  { eapply same_offsets; apply offsets_box; [reflexivity|exact O]. }
  assert (Sc : make_stsc_entries (t_chunks t) = make_stsc_entries (t_chunks t')) by (apply stsc_samples; exact A11).
  destruct t as [tsc dts dmv tm mt id cd f1 sz ch cu1 p1 du ke]. destruct t' as [tsc' dts' dmv' tm' mt' id' cd' f2 sz' ch' cu2 p2 du' ke'].
  cbn [t_timescale t_duration_ts t_duration_mvhd t_time t_media_time t_id t_codec t_sizes t_chunks t_durations t_keys] in *. subst tsc' dts' dmv' tm' mt' id' cd' sz' du' ke'.
  unfold make_trak, make_tkhd, make_edts, make_mdhd, make_hdlr, make_media_header, make_dinf, make_stbl, make_stsd, make_stts, make_stss, make_stsc, make_stsz, make_sgpd, make_sbgp, make_sample_entry.
  cbn [t_timescale t_duration_ts t_duration_mvhd t_time t_media_time t_id t_codec t_sizes t_chunks t_durations t_keys]. rewrite Sc.
  set (o1 := make_offset_box ch) in *. set (o2 := make_offset_box ch') in *. clearbody o1 o2.
  destruct cd; cbn [codec_handler new_info tree_of map]; same_all.
Qed.
Lemma same_track time ops i t t' b S : tinv time 0 i ops t -> tinv time b i ops t' -> t' = mv b t -> samples_fit ops -> 0 <= b -> 0 <= S -> b + Zlen (media ops) < 2 ^ 64 -> S + Zlen (media ops) < 2 ^ 64 ->
  same_movie (S - b) (tree_of (make_trak (Track_finalize t'))) (tree_of (make_trak (F S t))).
Proof.
  intros T T' E Fit Hb HS Bb BS. pose proof (recorded_started _ _ (ti_rec _ _ _ _ _ T)) as St. pose proof (mv_finalize b t St) as Em. rewrite <- E in Em.
  pose proof (recorded_finalize _ _ (ti_rec _ _ _ _ _ T)) as Fi. pose proof (recorded_finalize _ _ (ti_rec _ _ _ _ _ T')) as Fi'.
  assert (Fs : finished (F S t) (recs_of i (0 + S) (history ops))) by (apply (tinv_shift_finished time 0 ops i t S T); lia).
  assert (Bo : forall off, 0 <= off -> off + Zlen (media ops) < 2 ^ 64 -> Forall (fun r => 0 <= fst r < 2 ^ 64) (recs_of i off (history ops))).
  { intros off Ho Hl. eapply Forall_impl; [|apply recs_bounds]. cbv beta. intros r (H1 & H2). rewrite <- media_octets in H2. pose proof (Zlen_nonneg (sm_data (snd r))). unfold size_of in H2. lia. }
  destruct (finished_offsets _ _ Fi' (recs_sorted _ _ _) (Bo b Hb Bb)) as (O1 & _).
  destruct (finished_offsets _ _ Fs (recs_sorted _ _ _) (Bo (0 + S) ltac:(lia) ltac:(lia))) as (O2 & _).
  apply same_trak.
  - rewrite Em. unfold F, Track_resetChunkOffsets. unfold alike. cbv zeta. unfold mv. cbn [t_timescale t_duration_ts t_duration_mvhd t_time t_media_time t_id t_codec t_sizes t_chunks t_durations t_keys].
    repeat split. rewrite !map_map. apply map_ext. reflexivity.
  - rewrite O1, O2, Em. unfold F, Track_resetChunkOffsets, mv. cbv zeta. cbn [t_chunks]. rewrite !map_map. apply map_ext_in. intros c Hc. cbn [shift_chunk c_offset].
    destruct Fi as [_ _ _ _ (gs & Hr & Hg)]. destruct (chunk_offsets_in _ _ Hg c Hc) as (x & Hx). rewrite Hr in Hx.
    assert (Hx2 : 0 <= c_offset c <= Zlen (media ops)).
    { pose proof (recs_bounds i 0 (history ops)) as Y. rewrite Forall_forall in Y. specialize (Y _ Hx). cbv beta in Y. rewrite <- media_octets in Y. cbn [fst snd] in Y. unfold size_of in Y. cbn [snd] in Y. pose proof (Zlen_nonneg (sm_data x)). lia. }
    rewrite (u64_small S) by lia. rewrite u64_small by lia. lia.
Qed.

Lemma same_session timescale duration time ft ops sel : time_printable time -> ftyp_ok ft -> recording ops -> chosen ops sel -> movie_fits ft ops sel -> bytes (media ops) ->
  let rs := run (start Simple timescale duration time ft) (simple_program ops sel) in
  let rf := run (start Faststart timescale duration time ft) (faststart_program ops sel) in
  firstn (1 + length ops) (snd rs) = firstn (1 + length ops) (snd rf) /\
  exists traks traks' start,
    output (fst rs) = flat_map (serialize_with written) ([ftyp_tree ft] ++ free_trees (media ops) ++ [mdat_tree (media ops)] ++ [moov_tree timescale duration time (u32 (1 + ids_issued ops)) traks]) /\
    output (fst rf) = flat_map (serialize_with written) ([ftyp_tree ft] ++ [moov_tree timescale duration time (u32 (1 + ids_issued ops)) traks'] ++ [mdat_tree (media ops)]) /\
    start = Zlen (output (fst rf)) - Zlen (media ops) /\
    Forall2 (same_movie (start - (Zlen (ftyp_octets ft) + 16))) traks traks'.
Proof.
  intros Tp Fo R Ch B Hb. cbv zeta. destruct (movie_fits_media _ _ _ Fo B) as (B1 & B2 & B3). pose proof R as [R1 R2 R3 R4]. 
  destruct (simple_session timescale duration time ft ops sel Tp Fo R Ch B) as (_ & _ & traks & E & _ & T). cbv zeta in *.
  destruct (faststart_session timescale duration time ft ops sel Tp Fo R Ch B) as (_ & _ & S & traks' & E' & _ & T' & S0 & S1 & S2). cbv zeta in *.
  destruct (start_sinv Simple timescale duration time ft Fo B1) as (Es & Is). destruct (start_sinv Faststart timescale duration time ft Fo B1) as (Ef & If).
  assert (Ts : s_tracks (fst (step (start Simple timescale duration time ft) O_WriteFtyp)) = []) by (apply length_zero_iff_nil; exact (si_len _ _ _ _ _ _ _ _ _ Is)).
  assert (Tf : s_tracks (fst (step (start Faststart timescale duration time ft) O_WriteFtyp)) = []) by (apply length_zero_iff_nil; exact (si_len _ _ _ _ _ _ _ _ _ If)).
  destruct (step (start Simple timescale duration time ft) O_WriteFtyp) as [ss r0] eqn:Ess. destruct (step (start Faststart timescale duration time ft) O_WriteFtyp) as [sf r1] eqn:Esf. cbn [fst snd] in *. subst r0 r1.
  cbn [base_of] in *.
  destruct (run_same timescale duration time ft sf ss ops If Is R1 R2 R3 R4 B2) as (Q1 & Q2); [rewrite Ts, Tf; reflexivity|].
  split.
  { unfold simple_program, faststart_program. cbn [run]. rewrite Ess, Esf, !run_app, Q1. assert (Lr : forall l s, length (snd (run s l)) = length l).
    { clear. induction l as [|o l IH]; intros s0; [reflexivity|]. cbn [run]. destruct (step s0 o) as [sa ra]. specialize (IH sa). destruct (run sa l). cbn [snd length] in *. lia. }
    destruct (run ss ops) as [x1 x2] eqn:X. destruct (run sf ops) as [y1 y2] eqn:Y. cbn [fst snd] in *. subst x2. destruct (run x1 _) as [z1 z2]. destruct (run y1 _) as [z3 z4]. cbn [fst snd plus firstn]. f_equal.
    pose proof (Lr ops sf) as L. rewrite Y in L. cbn [snd] in L. rewrite !firstn_app, <- L, Nat.sub_diag. cbn [firstn]. reflexivity. }
  exists traks, traks', S. split; [|split; [|split]].
  - unfold output. rewrite E. rewrite flat_map4, free_octets. rewrite mdat_octets by exact Hb.
    change (serialize_with written (ftyp_tree ft)) with (ftyp_octets ft). unfold moov_tree. rewrite <- udta_ok. rewrite <- !app_assoc. reflexivity.
  - unfold output. rewrite E'. rewrite flat_map3. rewrite mdat_octets by exact Hb.
    change (serialize_with written (ftyp_tree ft)) with (ftyp_octets ft). unfold moov_tree. rewrite <- udta_ok. rewrite <- !app_assoc. reflexivity.
  - unfold output. rewrite E', Zlen_app, <- S2. lia.
  - clear E E' S2. assert (Hf : Zlen (ftyp_octets ft) + 16 + Zlen (media ops) < 2 ^ 64).
    { pose proof (ftyp_size ft Fo). unfold movie_fits in B. pose proof (Zlen_nonneg (ftyp_compatible_brands ft)). lia. }
    pose proof (Zlen_nonneg (ftyp_octets ft)).
    clear Ch B B3. revert traks' T'. induction T as [|i tr l trs (t & Et & Tt & ->) H1 IH]; intros traks' T'; inversion T' as [|? tr' ? trs' (t' & Et' & Tt' & ->) H2]; subst; constructor.
    + cbn [run] in Et, Et'. rewrite Ess in Et. rewrite Esf in Et'. destruct (run ss ops) as [x1 x2]. destruct (run sf ops) as [y1 y2]. cbn [fst snd] in *. rewrite Q2 in Et.
      rewrite (map_nth_error _ _ _ Et') in Et. injection Et as Et. apply (same_track time ops i t' t); auto. lia.
    + apply IH. exact H2.
Qed.
Lemma mdat_at_end timescale duration time ft ops traks : bytes (media ops) -> exists before,
  flat_map (serialize_with written) ([ftyp_tree ft] ++ [moov_tree timescale duration time (u32 (1 + ids_issued ops)) traks] ++ [mdat_tree (media ops)]) = before ++ media ops.
Proof. intros H. rewrite flat_map3. rewrite mdat_octets by exact H. eexists. rewrite !app_assoc. reflexivity. Qed.
