(** The files produced by the two writers. *)
From Coq Require Import ZifyBool.
From Verif Require Import Base BitIO BitFacts BitIOProofs Boxes WireFormat Box BoxSpec BoxSize Print PrintSpec PrintProofs BoxTree TreeSpec TreeProofs TreeLayout H264 Track Writers MovieSpec AnnexBSpec H264Proofs TrackProofs TrakProofs SessionProofs MovieShape Completion MovieSize.
From Coq Require Import String List.
Import ListNotations.
Open Scope Z_scope.
Open Scope list_scope.

Lemma total_sum {A} (f : A -> Z) l : total f l = sum_by f l. Proof. reflexivity. Qed.
Lemma total_nonneg {A} (f : A -> Z) l : (forall x, 0 <= f x) -> 0 <= total f l.
Proof. intros H. unfold total. induction l as [|x l IH]; cbn [fold_right]; [lia|]. specialize (H x). lia. Qed.
Lemma config_octets_nonneg c sps pps : 0 <= config_octets c sps pps.
Proof.
  destruct c; cbn [config_octets]; try lia; [apply Zlen_nonneg|].
  assert (forall p : list Z, 0 <= 2 + Zlen p) by (intros p; pose proof (Zlen_nonneg p); lia). pose proof (total_nonneg (fun p : list Z => 2 + Zlen p) sps H). pose proof (total_nonneg (fun p : list Z => 2 + Zlen p) pps H). lia.
Qed.
Lemma config_size_expected c sps pps : config_size (expected_codec c sps pps) = config_octets c sps pps.
Proof. destruct c; try reflexivity. cbn [expected_codec]. destruct sps as [|p sps]; [reflexivity|]. destruct (Zlen p >? 4); reflexivity. Qed.

(** * One track *)
Lemma sync_length l : Zlen (sync_numbers l) <= Zlen l.
Proof.
  unfold sync_numbers. assert (G : forall f (x : list Z), Zlen (filter f x) <= Zlen x).
  { clear. intros f x. induction x as [|a x IH]; cbn [filter]; [lia|]. destruct (f a); rewrite ?Zlen_cons; lia. }
  eapply Z.le_trans; [apply G|]. rewrite Zlen_map. unfold Zlen. rewrite seq_length. lia.
Qed.
Lemma finished_bound t recs : finished t recs -> trak_bound t <= 4096 + 36 * Zlen recs + config_size (t_codec t).
Proof.
  intros [_ Hs Hd Hk (gs & Hr & Hc)]. unfold trak_bound. pose proof (chunk_count _ _ Hc) as Nc. rewrite Hr in Nc. rewrite Hs, Hd, Hk, expected_durations_length, !Zlen_map.
  assert (Zlen (if is_video (t_codec t) then sync_numbers (map snd recs) else []) <= Zlen recs).
  { destruct (is_video _); [|cbn; apply Zlen_nonneg]. pose proof (sync_length (map snd recs)). rewrite Zlen_map in *. lia. }
  lia.
Qed.
Lemma codec_like_video c0 c : codec_like c0 c -> is_video c = is_video c0.
Proof. destruct c0; cbn [codec_like]; try (intros ->; reflexivity). destruct c; try tauto; reflexivity. Qed.

Section Finish.
Variables (cls : wclass) (timescale duration time : Z) (ft : ftyp) (fb : list Z) (base : Z).
Variable ops : list op.
Hypothesis Fit : samples_fit ops.

Lemma describes_finished i t o B pre post : nth_error (created ops) i = Some o -> static o time t -> finished t (recs_of i B (history ops)) ->
  Zlen pre = B -> B + Zlen (media ops) < 2 ^ 64 ->
  exists info, read_trak (tree_of (make_trak t)) = Some info /\ describes (pre ++ media ops ++ post) ops i info.
Proof.
  intros Eo So Fi Ep Hb. destruct (Fit i) as [F1 F2]. pose proof (Zlen_nonneg pre).
  pose proof (recs_of_samples i (history ops) B) as Er. rewrite <- samples_select in Er.
  assert (Bo : Forall (fun r => 0 <= fst r < 2 ^ 64) (recs_of i B (history ops))).
  { eapply Forall_impl; [|apply recs_bounds]. cbv beta. intros r (H1 & H2). rewrite <- media_octets in H2. pose proof (Zlen_nonneg (sm_data (snd r))). unfold size_of in H2. lia. }
  rewrite finished_trak with (recs := recs_of i B (history ops)); auto using recs_sorted; [|rewrite <- Er, Zlen_map in F1; exact F1].
  eexists. split; [reflexivity|]. unfold static in So. destruct o; try contradiction. destruct So as (S1 & S2 & S3 & S4 & S5 & S6 & S7).
  exists c, timescale0, duration_ts, duration_mvhd, media_time, id. cbn [i_track_id i_timescale i_locations i_durations i_sync].
  split; [exact Eo|]. split; [exact S5|]. split; [exact S1|].
  split; [rewrite map_map, <- Er, map_map; reflexivity|].
  split; [|split].
  - rewrite <- Er, !map_map. apply map_ext_in. intros r Hr. pose proof (recs_octets i B (history ops) pre post Ep) as Ho. rewrite Forall_forall in Ho. rewrite <- (Ho r Hr). reflexivity.
  - rewrite <- Er, map_map, S2. reflexivity.
  - rewrite (codec_like_video _ _ S7), Er. reflexivity.
Qed.

(** the selected tracks *)
Lemma select_tracks s sel : sinv cls timescale duration time ft fb base ops s -> Forall (fun i => (i < length (created ops))%nat) sel ->
  exists ts0, Forall2 (fun i t => nth_error (s_tracks s) i = Some t /\ tinv time base i ops t) sel ts0.
Proof.
  intros S H. induction H as [|i sel Hi H (ts0 & IH)]; [exists []; constructor|].
  rewrite <- (si_len _ _ _ _ _ _ _ _ _ S) in Hi. apply nth_error_Some in Hi. destruct (nth_error (s_tracks s) i) as [t|] eqn:E; [|congruence].
  exists (t :: ts0). constructor; [|exact IH]. split; [exact E|]. apply (si_tracks _ _ _ _ _ _ _ _ _ S). exact E.
Qed.
Lemma tinv_bound i t : tinv time base i ops t -> forall b t', finished t' (recs_of i b (history ops)) -> t_codec t' = t_codec t ->
  trak_bound t' <= 4096 + 36 * Zlen (samples_of i ops) + match codec_of ops i with Some c => config_octets c (sps_of i ops) (pps_of i ops) | None => 0 end.
Proof.
  intros [(o & Eo & So) T2 T3 _ _] b t' Fi Ec. pose proof (finished_bound _ _ Fi) as H. rewrite Ec in H.
  unfold static in So. destruct o; try contradiction. unfold codec_of in *. rewrite Eo in *. rewrite (T3 c eq_refl), config_size_expected in H.
  rewrite samples_select, <- (recs_of_samples i (history ops) b), Zlen_map. exact H.
Qed.
Lemma tinv_shift_finished i t S : tinv time base i ops t -> 0 <= base -> 0 <= S -> base + S + Zlen (media ops) < 2 ^ 64 ->
  finished (F S t) (recs_of i (base + S) (history ops)).
Proof.
  intros T B0 S0 B. rewrite <- recs_shift. unfold F. rewrite <- (F_finalize S t : Track_resetChunkOffsets (u64 S) (Track_finalize t) = Track_resetChunkOffsets (u64 S) t).
  apply finished_reset; [apply recorded_finalize, (ti_rec _ _ _ _ _ T)|]. eapply Forall_impl; [|apply recs_bounds]. cbv beta. intros r (H1 & H2).
  rewrite <- media_octets in H2. pose proof (Zlen_nonneg (sm_data (snd r))). unfold size_of in H2. lia.
Qed.
End Finish.
Lemma static_time time o t : static o time t -> t_time t = time.
Proof. unfold static. destruct o; try contradiction. tauto. Qed.
Lemma tinv_time time base i ops t : tinv time base i ops t -> t_time t = time.
Proof. intros T. destruct (ti_static _ _ _ _ _ T) as (o & _ & S). eapply static_time; exact S. Qed.
Lemma finalize_time t : t_time (Track_finalize t) = t_time t.
Proof. unfold Track_finalize. destruct (t_finalized t); reflexivity. Qed.
Lemma F_time S t : t_time (F S t) = t_time t.
Proof. unfold F, Track_resetChunkOffsets. cbv zeta. cbn [t_time]. apply finalize_time. Qed.
