(** Sizes of trak and moov boxes: a bound, and how they depend on the chunk offsets. *)
From Coq Require Import ZifyBool.
From Verif Require Import Base BitIO BitFacts BitIOProofs Boxes WireFormat Box BoxSpec BoxSize Print PrintSpec PrintProofs BoxTree TreeSpec TreeProofs TreeLayout H264 Track Writers MovieSpec AnnexBSpec H264Proofs TrackProofs TrakProofs SessionProofs MovieShape Completion.
From Coq Require Import String List.
Import ListNotations.
Open Scope Z_scope.
Open Scope list_scope.

Lemma nsize_new t b l : nsize (new_info t b l) <= Box_getDataSize b + sum_by nsize l + 16.
Proof. unfold new_info. cbn [nsize]. destruct (frame_hs (Box_getDataSize b + sum_by nsize l)); lia. Qed.
Lemma stts_loop_length l : forall d c, Zlen (stts_loop d c l) <= 1 + Zlen l.
Proof.
  induction l as [|x l IH]; intros d c; cbn [stts_loop]; [destruct (c >? 0); cbn; lia|]. rewrite Zlen_cons. destruct (d =? x); [specialize (IH d (u32 (c + 1))); lia|]. rewrite Zlen_cons. specialize (IH x 1). lia.
Qed.
Lemma stts_length ds : Zlen (make_stts_entries ds) <= Zlen ds.
Proof. destruct ds as [|d l]; [cbn; lia|]. cbn [make_stts_entries]. rewrite Zlen_cons. apply stts_loop_length. Qed.
Lemma stsc_loop_length l : forall p n, Zlen (stsc_loop p n l) <= Zlen l.
Proof.
  induction l as [|c l IH]; intros p n; [cbn; lia|]. cbn [stsc_loop]. rewrite Zlen_cons. destruct (negb _); rewrite ?Zlen_cons; [specialize (IH (c_samples c) (u32 (n + 1)))|specialize (IH p (u32 (n + 1)))]; lia.
Qed.
(** Octets of the codec configuration whose size the program chooses. *)
Definition config_size (c : codec) : Z :=
  match c with
  | AV1 _ _ _ _ _ _ _ _ obus => Zlen obus
  | H264 _ _ _ _ _ _ sps pps => sum_by (fun p => 2 + Zlen p) sps + sum_by (fun p => 2 + Zlen p) pps
  | _ => 0
  end.
Definition trak_bound (t : track) : Z :=
  4096 + 4 * Zlen (t_sizes t) + 8 * Zlen (t_durations t) + 20 * Zlen (t_chunks t) + 4 * Zlen (t_keys t) + config_size (t_codec t).
Ltac bnd := eapply Z.le_trans; [apply nsize_new|].
Lemma sum_by_nil {A} (f : A -> Z) : sum_by f [] = 0. Proof. reflexivity. Qed.
Lemma sum_by_cons {A} (f : A -> Z) x l : sum_by f (x :: l) = f x + sum_by f l. Proof. reflexivity. Qed.
Lemma sum_by_app {A} (f : A -> Z) l l' : sum_by f (l ++ l') = sum_by f l + sum_by f l'.
Proof. induction l as [|x l IH]; [reflexivity|]. cbn [app]. rewrite !sum_by_cons, IH. lia. Qed.
Lemma leaf_bound t b n : Box_getDataSize b <= n -> nsize (new_info t b []) <= n + 16.
Proof. intros H. pose proof (nsize_new t b []). rewrite sum_by_nil in *. lia. Qed.
Lemma node_bound t b l n k : Box_getDataSize b <= n -> sum_by nsize l <= k -> nsize (new_info t b l) <= n + k + 16.
Proof. intros H1 H2. pose proof (nsize_new t b l). lia. Qed.

Lemma offset_box_bound cs : nsize (make_offset_box cs) <= 24 + 8 * Zlen cs.
Proof.
  unfold make_offset_box. pose proof (Zlen_nonneg cs). destruct (use_co64 cs); bnd; rewrite sum_by_nil; cbn [Box_getDataSize]; unfold Co64_getDataSize, Stco_getDataSize; cbn [co64_chunk_offsets stco_chunk_offsets]; rewrite Zlen_map; lia.
Qed.
Lemma sample_entry_bound t : nsize (make_sample_entry t) <= 1000 + config_size (t_codec t).
Proof.
  unfold make_sample_entry. destruct (t_codec t) as [| | |vp8 ? ? ? ?|? ? ? ? ? ? ? ? obus|? ? ? ? ? ? sps pps]; cbn [config_size].
  1-3: vm_compute; discriminate.
  - destruct vp8; vm_compute; discriminate.
  - eapply Z.le_trans; [apply (node_bound _ _ _ 78 (20 + Zlen obus)); [vm_compute; discriminate|]|lia]. rewrite sum_by_cons, sum_by_nil.
    match goal with |- nsize (new_info ?t ?b []) + 0 <= _ => pose proof (leaf_bound t b (4 + Zlen obus)) as H end. cbn [Box_getDataSize] in H.
    specialize (H (Z.le_refl _)). lia.
  - eapply Z.le_trans; [apply (node_bound _ _ _ 78 (23 + config_size (H264 width height configuration_version profile profile_compatibility level sps pps))); [vm_compute; discriminate|]|cbn [config_size]; lia].
    rewrite sum_by_cons, sum_by_nil.
    match goal with |- nsize (new_info ?t ?b []) + 0 <= _ => pose proof (leaf_bound t b (7 + config_size (H264 width height configuration_version profile profile_compatibility level sps pps))) as H end.
    cbn [Box_getDataSize] in H. unfold AVCDecoderConfiguration_getDataSize in H. cbn [avcc_sps avcc_pps avcc_high_profile_fields_enabled] in H.
    change (sumZ AVCParameterSet_getSize sps) with (sum_by (fun p => 2 + Zlen p) sps) in H.
    change (sumZ AVCParameterSet_getSize pps) with (sum_by (fun p => 2 + Zlen p) pps) in H. cbn [config_size] in *. specialize (H ltac:(lia)). lia.
Qed.
Lemma closed_bound t b l n : nsize (new_info t b l) <= n -> nsize (new_info t b l) <= n. Proof. auto. Qed.
Lemma stbl_bound t : nsize (make_stbl t) <= 2000 + 4 * Zlen (t_sizes t) + 8 * Zlen (t_durations t) + 20 * Zlen (t_chunks t) + 4 * Zlen (t_keys t) + config_size (t_codec t).
Proof.
  unfold make_stbl. cbv zeta. pose proof (offset_box_bound (t_chunks t)) as H1. pose proof (sample_entry_bound t) as H2.
  assert (H3 : nsize (make_stsd t) <= 24 + nsize (make_sample_entry t)).
  { unfold make_stsd. bnd. rewrite sum_by_cons, sum_by_nil. cbn [Box_getDataSize]. unfold Stsd_getDataSize. lia. }
  assert (H4 : nsize (make_stts t) <= 24 + 8 * Zlen (t_durations t)).
  { unfold make_stts. bnd. rewrite sum_by_nil. cbn [Box_getDataSize]. unfold Stts_getDataSize. cbn [stts_entries]. pose proof (stts_length (t_durations t)). lia. }
  assert (H5 : nsize (make_stss t) <= 24 + 4 * Zlen (t_keys t)).
  { unfold make_stss. bnd. rewrite sum_by_nil. cbn [Box_getDataSize]. unfold Stss_getDataSize. cbn [stss_sample_numbers]. lia. }
  assert (H6 : nsize (make_stsc t) <= 24 + 12 * Zlen (t_chunks t)).
  { unfold make_stsc. bnd. rewrite sum_by_nil. cbn [Box_getDataSize]. unfold Stsc_getDataSize. cbn [stsc_entries]. unfold make_stsc_entries. pose proof (stsc_loop_length (t_chunks t) (-1) 1). lia. }
  assert (H7 : nsize (make_stsz t) <= 28 + 4 * Zlen (t_sizes t)).
  { unfold make_stsz. bnd. rewrite sum_by_nil. cbn [Box_getDataSize]. unfold Stsz_getDataSize. cbn [stsz_entry_sizes stsz_sample_size Z.eqb]. lia. }
  assert (H8 : nsize (make_sbgp t) <= 100) by (vm_compute; discriminate).
  assert (H9 : forall r, nsize (make_sgpd r) <= 100) by (intros; vm_compute; discriminate).
  pose proof (Zlen_nonneg (t_keys t)).
  bnd. destruct (t_codec t); rewrite !sum_by_cons, sum_by_nil; cbn [Box_getDataSize]; unfold Container_getDataSize; try specialize (H9 roll_distance) as H10; specialize (H9 (-1)); cbn [config_size] in *; lia.
Qed.
Lemma trak_size t : nsize (make_trak t) <= trak_bound t.
Proof.
  unfold make_trak, trak_bound. cbv zeta. pose proof (stbl_bound t) as H1.
  assert (H2 : nsize (make_tkhd t) <= 200) by (unfold make_tkhd; destruct (t_codec t); vm_compute; discriminate).
  assert (H3 : nsize (make_edts t) <= 200) by (vm_compute; discriminate).
  assert (H4 : nsize (make_mdhd t) <= 200) by (vm_compute; discriminate).
  assert (H5 : nsize (make_hdlr (handler_array (codec_handler (t_codec t))) (str "shiguredo::mp4")) <= 200) by (vm_compute; discriminate).
  assert (H6 : nsize (make_media_header (codec_handler (t_codec t))) <= 200) by (destruct (t_codec t); vm_compute; discriminate).
  assert (H7 : nsize make_dinf <= 200) by (vm_compute; discriminate).
  match goal with |- nsize (new_info _ _ [_; _; ?m]) <= _ => assert (H8 : nsize m <= 900 + nsize (make_stbl t)) end.
  { bnd. rewrite !sum_by_cons, sum_by_nil. match goal with |- context [new_info (str "minf") ?b ?l] => pose proof (nsize_new (str "minf") b l) as H8 end.
    rewrite !sum_by_cons, sum_by_nil in H8. cbn [Box_getDataSize] in *. unfold Container_getDataSize in *.
 lia. }
  bnd. rewrite !sum_by_cons, sum_by_nil. cbn [Box_getDataSize] in *. unfold Container_getDataSize in *. lia.
Qed.
Lemma moov_size timescale duration time id traks :
  nsize (moov_node timescale duration time id traks) <= 1000 + sum_by nsize traks.
Proof.
  unfold moov_node. bnd. rewrite sum_by_cons, sum_by_app, sum_by_cons, sum_by_nil.
  assert (H1 : nsize make_udta <= 400) by (vm_compute; discriminate).
  assert (H2 : nsize (new_info (str "mvhd") (B_mvhd (mvhd_of timescale duration time id)) []) <= 200) by (vm_compute; discriminate).
  cbn [Box_getDataSize] in *. unfold Container_getDataSize in *. lia.
Qed.

(** * Monotonicity *)
Lemma frame_size_mono a b : a <= b -> a + frame_header_size a <= b + frame_header_size b.
Proof. intros H. unfold frame_header_size. destruct (Z.ltb_spec (a + 8) (2 ^ 32)), (Z.ltb_spec (b + 8) (2 ^ 32)); lia. Qed.
Lemma nsize_le t b l t' b' l' : Box_getDataSize b <= Box_getDataSize b' -> Forall2 (fun k k' => nsize k <= nsize k') l l' -> nsize (new_info t b l) <= nsize (new_info t' b' l').
Proof.
  intros H F. unfold new_info. cbn [nsize]. apply frame_size_mono. assert (sum_by nsize l <= sum_by nsize l'); [|lia].
  clear H. induction F as [|k k' l l' H F IH]; [reflexivity|]. rewrite !sum_by_cons. lia.
Qed.

Definition F (S : Z) (t : track) : track := Track_resetChunkOffsets (u64 S) t.
Definition co (S : Z) (t : track) : bool := use_co64 (t_chunks (F S t)).
Lemma finalize_idem t : Track_finalize (Track_finalize t) = Track_finalize t.
Proof. unfold Track_finalize. destruct (t_finalized t) eqn:E; [rewrite E; reflexivity|]. cbn [t_finalized]. reflexivity. Qed.
Lemma F_finalize S t : F S (Track_finalize t) = F S t.
Proof. unfold F, Track_resetChunkOffsets. rewrite finalize_idem. reflexivity. Qed.
Lemma finalize_F S t : Track_finalize (F S t) = F S t.
Proof.
  unfold F, Track_resetChunkOffsets. cbv zeta. assert (E : t_finalized (Track_finalize t) = true) by (unfold Track_finalize; destruct (t_finalized t) eqn:E; [exact E|reflexivity]).
  unfold Track_finalize at 1. cbn [t_finalized]. rewrite E. reflexivity.
Qed.
Lemma F_F a b t : F b (F a t) = F (a + b) t.
Proof.
  unfold F at 1. unfold Track_resetChunkOffsets. rewrite finalize_F. unfold F, Track_resetChunkOffsets. cbv zeta.
  cbn [t_timescale t_duration_ts t_duration_mvhd t_time t_media_time t_id t_codec t_finalized t_sizes t_chunks t_current t_prev t_durations t_keys]. f_equal.
  rewrite map_map. apply map_ext. intros c. cbn [c_offset c_samples c_initialized]. f_equal. unfold u64.
  rewrite !Zplus_mod_idemp_r, Zplus_mod_idemp_l. f_equal. lia.
Qed.
Lemma stsc_samples l : forall p n l', map c_samples l = map c_samples l' -> stsc_loop p n l = stsc_loop p n l'.
Proof. induction l as [|c l IH]; intros p n [|c' l'] H; try discriminate; [reflexivity|]. cbn [map] in H. injection H as H1 H2. cbn [stsc_loop]. rewrite H1, (IH _ _ l' H2), (IH _ _ l' H2). reflexivity. Qed.
Lemma stsc_F a b t : nsize (make_stsc (F a t)) <= nsize (make_stsc (F b t)).
Proof.
  unfold make_stsc. apply nsize_le; [|constructor]. cbn [Box_getDataSize]. unfold make_stsc_entries. rewrite (stsc_samples _ (-1) 1 (t_chunks (F b t))); [reflexivity|].
  unfold F, Track_resetChunkOffsets. cbn [t_chunks]. rewrite !map_map. reflexivity.
Qed.
Lemma trak_mono a b t : (co a t = true -> co b t = true) -> nsize (make_trak (F a t)) <= nsize (make_trak (F b t)).
Proof.
  intros H. assert (X : nsize (make_offset_box (t_chunks (F a t))) <= nsize (make_offset_box (t_chunks (F b t)))).
  { unfold make_offset_box. fold (co a t) (co b t). destruct (co a t), (co b t); try (specialize (H eq_refl); discriminate); (apply nsize_le; [|constructor]);
      cbn [Box_getDataSize]; unfold Co64_getDataSize, Stco_getDataSize; cbn [co64_chunk_offsets stco_chunk_offsets]; unfold F, Track_resetChunkOffsets; cbn [t_chunks]; rewrite !Zlen_map; try lia.
    pose proof (Zlen_nonneg (t_chunks (Track_finalize t))). lia. }
  pose proof (stsc_F a b t) as Y. unfold make_trak. cbv zeta.
  assert (E : t_codec (F a t) = t_codec (F b t)) by reflexivity.
  assert (Z : nsize (make_stbl (F a t)) <= nsize (make_stbl (F b t))).
  { unfold make_stbl. cbv zeta. apply nsize_le; [reflexivity|]. rewrite E. destruct (t_codec (F b t)); repeat (constructor; [first [exact X|exact Y|apply Z.le_refl]|]); constructor. }
  rewrite E. repeat (first [exact Z|apply Z.le_refl|apply nsize_le; [reflexivity|]|constructor]).
Qed.
