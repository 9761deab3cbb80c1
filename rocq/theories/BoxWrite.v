(** Every writeData emits exactly the bits of its layout. *)
From Coq Require Import ZifyBool.
From Verif Require Import Base BitIO BitFacts BitIOProofs Boxes WireFormat BoxTac.

Lemma btrt_write b : wenc (Btrt_writeData b) (btrt_layout b).
Proof. unfold Btrt_writeData, btrt_layout. wgo. Qed.
Lemma co64_write b : wenc (Co64_writeData b) (co64_layout b).
Proof. unfold Co64_writeData, co64_layout. wgo. Qed.
Lemma colr_write b : wenc (Colr_writeData b) (colr_layout b).
Proof. unfold Colr_writeData, colr_layout, Colr_nclxMarshal, colr_is_nclx, colr_is_icc. same_codes. wgo. Qed.
Lemma ctts_write b : wenc (Ctts_writeData b) (ctts_layout b).
Proof. unfold Ctts_writeData, ctts_layout. wgo. unfold CttsEntry_writeData, ctts_entry_layout. wgo. Qed.
Lemma dops_write b : wenc (DOps_writeData b) (dops_layout b).
Proof. unfold DOps_writeData, dops_layout, DOpsChannelMappingTable_writeData. wgo. Qed.
Lemma data_write b : wenc (Data_writeData b) (data_layout b).
Proof. unfold Data_writeData, data_layout. wgo. Qed.
Lemma dref_write b : wenc (Dref_writeData b) (dref_layout b).
Proof. unfold Dref_writeData, dref_layout. wgo. Qed.
Lemma elst_write b : wenc (Elst_writeData b) (elst_layout b).
Proof. unfold Elst_writeData, elst_layout. wgo. unfold ElstEntry_writeData, elst_entry_layout. wgo. Qed.
Lemma emsg_write b : wenc (Emsg_writeData b) (emsg_layout b).
Proof. unfold Emsg_writeData, emsg_layout, v0. wgo. Qed.
Lemma fiel_write b : wenc (Fiel_writeData b) (fiel_layout b).
Proof. unfold Fiel_writeData, fiel_layout. wgo. Qed.
Lemma free_write d : wenc (Free_writeData d) (raw_layout d).
Proof. apply wenc_vec8. Qed.
Lemma mdat_write d : wenc (Mdat_writeData d) (raw_layout d).
Proof. apply wenc_vec8. Qed.
Lemma skip_write d : wenc (Skip_writeData d) (raw_layout d).
Proof. apply wenc_vec8. Qed.
Lemma unsupported_write d : wenc (Unsupported_writeData d) (raw_layout d).
Proof. apply wenc_vec8. Qed.
Lemma ftyp_write b : wenc (Ftyp_writeData b) (ftyp_layout b).
Proof. unfold Ftyp_writeData, ftyp_layout. wgo. Qed.
Lemma hdlr_write b : wenc (Hdlr_writeData b) (hdlr_layout b).
Proof. unfold Hdlr_writeData, hdlr_layout. wgo. Qed.
Lemma iods_write b : wenc (Iods_writeData b) (iods_layout b).
Proof. unfold Iods_writeData, iods_layout. wgo. Qed.
Lemma mehd_write b : wenc (Mehd_writeData b) (mehd_layout b).
Proof. unfold Mehd_writeData, mehd_layout. wgo. Qed.
Lemma meta_write b : wenc (Meta_writeData b) (meta_layout b).
Proof. unfold Meta_writeData, meta_layout. wgo. Qed.
Lemma mfhd_write b : wenc (Mfhd_writeData b) (mfhd_layout b).
Proof. unfold Mfhd_writeData, mfhd_layout. wgo. Qed.
Lemma mfro_write b : wenc (Mfro_writeData b) (mfro_layout b).
Proof. unfold Mfro_writeData, mfro_layout. wgo. Qed.
Lemma mvhd_write b : wenc (Mvhd_writeData b) (mvhd_layout b).
Proof. unfold Mvhd_writeData, mvhd_layout. wgo. Qed.
Lemma pasp_write b : wenc (PixelAspectRatio_writeData b) (pasp_layout b).
Proof. unfold PixelAspectRatio_writeData, pasp_layout. wgo. Qed.
Lemma pssh_write b : wenc (Pssh_writeData b) (pssh_layout b).
Proof. unfold Pssh_writeData, pssh_layout, v0. wgo. unfold PsshKID_writeData. wgo. Qed.
Lemma sbgp_write b : wenc (Sbgp_writeData b) (sbgp_layout b).
Proof. unfold Sbgp_writeData, sbgp_layout, v0. wgo. unfold SbgpEntry_writeData, sbgp_entry_layout. wgo. Qed.
Lemma sdtp_write b : wenc (Sdtp_writeData b) (sdtp_layout b).
Proof. unfold Sdtp_writeData, sdtp_layout. wgo. unfold SdtpSample_writeData, sdtp_sample_layout. wgo. Qed.
Lemma sidx_write b : wenc (Sidx_writeData b) (sidx_layout b).
Proof. unfold Sidx_writeData, sidx_layout. wgo. unfold SidxReference_writeData, sidx_ref_layout. wgo. Qed.
Lemma smhd_write b : wenc (Smhd_writeData b) (smhd_layout b).
Proof. unfold Smhd_writeData, smhd_layout. wgo. Qed.
Lemma stco_write b : wenc (Stco_writeData b) (stco_layout b).
Proof. unfold Stco_writeData, stco_layout. wgo. Qed.
Lemma stsc_write b : wenc (Stsc_writeData b) (stsc_layout b).
Proof. unfold Stsc_writeData, stsc_layout. wgo. unfold StscEntry_writeData, stsc_entry_layout. wgo. Qed.
Lemma stsd_write b : wenc (Stsd_writeData b) (stsd_layout b).
Proof. unfold Stsd_writeData, stsd_layout. wgo. Qed.
Lemma stss_write b : wenc (Stss_writeData b) (stss_layout b).
Proof. unfold Stss_writeData, stss_layout. wgo. Qed.
Lemma stsz_write b : wenc (Stsz_writeData b) (stsz_layout b).
Proof. unfold Stsz_writeData, stsz_layout. wgo. Qed.
Lemma stts_write b : wenc (Stts_writeData b) (stts_layout b).
Proof. unfold Stts_writeData, stts_layout. wgo. unfold SttsEntry_writeData, stts_entry_layout. wgo. Qed.
Lemma tfdt_write b : wenc (Tfdt_writeData b) (tfdt_layout b).
Proof. unfold Tfdt_writeData, tfdt_layout. wgo. Qed.
Lemma tkhd_write b : wenc (Tkhd_writeData b) (tkhd_layout b).
Proof. unfold Tkhd_writeData, tkhd_layout. wgo. Qed.
Lemma trex_write b : wenc (Trex_writeData b) (trex_layout b).
Proof. unfold Trex_writeData, trex_layout. wgo. Qed.
Lemma vmhd_write b : wenc (Vmhd_writeData b) (vmhd_layout b).
Proof. unfold Vmhd_writeData, vmhd_layout. wgo. Qed.
Lemma vpcc_write b : wenc (VPCodecConfiguration_writeData b) (vpcc_layout b).
Proof. unfold VPCodecConfiguration_writeData, vpcc_layout, v0. wgo. Qed.
Lemma av1c_write b : wenc (AV1CodecConfiguration_writeData b) (av1c_layout b).
Proof. unfold AV1CodecConfiguration_writeData, av1c_layout. wgo. Qed.
Lemma visual_entry_write b : wenc (VisualSampleEntry_writeData b) (visual_entry_layout b).
Proof. unfold VisualSampleEntry_writeData, visual_entry_layout. wgo. Qed.
Lemma audio_entry_write b : wenc (AudioSampleEntry_writeData b) (audio_entry_layout b).
Proof. unfold AudioSampleEntry_writeData, audio_entry_layout. wgo. Qed.

(** Boxes whose optional fields are governed by flags. *)
Lemma wenc_fb_flags fb (m : W) l :
  ((forall k, 0 <= k -> checkFlag fb (2 ^ k) = flag fb k) -> wenc m l) ->
  wenc (writeVersionAndFlag fb ;; m) (fb_layout fb ++ l).
Proof.
  intros H Hok. pose proof Hok as Hok'. apply fields_ok_app in Hok' as [H1 H2].
  apply wenc_app; [apply wenc_fb|apply H; apply checkFlag_fb; exact H1|exact Hok].
Qed.
Lemma tfhd_write b : wenc (Tfhd_writeData b) (tfhd_layout b).
Proof.
  unfold Tfhd_writeData, tfhd_layout. apply wenc_fb_flags. intros F.
  flagrw F 0. flagrw F 1. flagrw F 3. flagrw F 4. flagrw F 5. wgo.
Qed.
Lemma trun_write b : wenc (Trun_writeData b) (trun_layout b).
Proof.
  unfold Trun_writeData, trun_layout. apply wenc_fb_flags. intros F.
  flagrw F 0. flagrw F 2. wgo.
  unfold TrunEntry_writeData, trun_entry_layout. flagrw F 8. flagrw F 9. flagrw F 10. flagrw F 11. wgo.
Qed.
Lemma url_write b : wenc (Url_writeData b) (url_layout b).
Proof. unfold Url_writeData, url_layout. apply wenc_fb_flags. intros F. flagrw F 0. wgo. Qed.
Lemma urn_write b : wenc (Urn_writeData b) (urn_layout b).
Proof. unfold Urn_writeData, urn_layout. apply wenc_fb_flags. intros F. flagrw F 0. wgo. Qed.

(** tfra: the size of three fields is stored in the box. *)
Lemma tfra_write b : wenc (Tfra_writeData b) (tfra_layout b).
Proof.
  intros Hok. pose proof Hok as Hok'. unfold tfra_layout in Hok'. apply fields_ok_app in Hok' as [_ Hok']. cbn [app] in Hok'.
  unfold fields_ok in Hok'. rewrite !Forall_cons_iff in Hok'. destruct Hok' as (_ & _ & A & B & C & _).
  cbn in A, B, C. unfold fits_u in A, B, C. revert Hok. change (wenc (Tfra_writeData b) (tfra_layout b)).
  unfold Tfra_writeData, tfra_layout. wgo. unfold TfraEntry_writeData, tfra_entry_layout. wgo.
Qed.

(** avcC *)
Lemma avc_high_spec p : is_avc_high_profile p = true <-> avc_high p.
Proof.
  unfold is_avc_high_profile, avc_high. rewrite existsb_exists. split.
  - intros (x & Hx & E). apply Z.eqb_eq in E. subst; exact Hx.
  - intros H. exists p. split; [exact H|apply Z.eqb_refl].
Qed.
Lemma avcc_write b : (avcc_high_profile_fields_enabled b = true -> avc_high (avcc_profile b)) ->
  wenc (AVCDecoderConfiguration_writeData b) (avcc_layout b).
Proof.
  intros H. unfold AVCDecoderConfiguration_writeData, avcc_layout.
  assert (P : forall s, wenc (AVCParameterSet_writeData s) (avcc_ps_layout s)) by (intros; unfold AVCParameterSet_writeData, avcc_ps_layout; wgo).
  wgo; auto.
  replace (is_avc_high_profile (avcc_profile b)) with true by (symmetry; apply avc_high_spec; auto).
  cbn [negb app]. wgo; auto.
Qed.

(** mdhd: three 5-bit letters. *)
Lemma encode_language_bits l : length l = 3%nat -> 
  (forall k, (k < 3)%nat -> fits_u 5 (nth k l 0 - 96)) ->
  be 15 (encode_language l) = be 5 (nth 0 l 0 - 96) ++ be 5 (nth 1 l 0 - 96) ++ be 5 (nth 2 l 0 - 96).
Proof.
  intros E H. unfold encode_language, to_u. rewrite be_mod by lia. rewrite !Z.shiftl_mul_pow2 by lia.
  pose proof (H 0%nat ltac:(lia)) as A. pose proof (H 1%nat ltac:(lia)) as B. pose proof (H 2%nat ltac:(lia)) as C.
  unfold fits_u in *. set (a := nth 0 l 0 - 96) in *. set (b := nth 1 l 0 - 96) in *. set (c := nth 2 l 0 - 96) in *.
  change 15%nat with (5 + 10)%nat. rewrite be_app. change 10%nat with (5 + 5)%nat at 2. rewrite be_app.
  rewrite !Z.shiftr_div_pow2 by lia.
  change (2 ^ Z.of_nat 10) with 1024. change (2 ^ Z.of_nat 5) with 32. change (2 ^ 10) with 1024. change (2 ^ 5) with 32 in *.
  replace ((a * 1024 + b * 32 + c) / 1024) with a by (apply Z.div_unique with (b * 32 + c); lia).
  replace ((a * 1024 + b * 32 + c) / 32) with (a * 32 + b) by (apply Z.div_unique with c; lia).
  f_equal. f_equal.
  - rewrite <- (be_mod 5 5 (a * 32 + b)) by lia. change (2 ^ 5) with 32. rewrite Z.add_comm, Z.mod_add, Z.mod_small by lia. reflexivity.
  - rewrite <- (be_mod 5 5 (a * 1024 + b * 32 + c)) by lia. change (2 ^ 5) with 32.
    replace (a * 1024 + b * 32 + c) with (c + (a * 32 + b) * 32) by lia. rewrite Z.mod_add, Z.mod_small by lia. reflexivity.
Qed.
Lemma wenc_language l : length l = 3%nat ->
  wenc (write_uint (encode_language l) 15) [FU 5 (nth 0 l 0 - 96); FU 5 (nth 1 l 0 - 96); FU 5 (nth 2 l 0 - 96)].
Proof.
  intros E Hok. unfold fields_ok in Hok. rewrite !Forall_cons_iff in Hok. destruct Hok as (A & B & C & _). cbn [field_ok] in *.
  unfold enc; cbn [flat_map field_bits]. rewrite app_nil_r. rewrite <- encode_language_bits.
  - apply (write_uint_spec _ 15); lia.
  - exact E.
  - intros [|[|[|k]]] Hk; try assumption. lia.
Qed.
Lemma mdhd_write b : length (mdhd_language b) = 3%nat -> wenc (Mdhd_writeData b) (mdhd_layout b).
Proof.
  intros E. unfold Mdhd_writeData, mdhd_layout.
  do 2 first [apply wenc_app; [apply wenc_fb|]|cbn [app]; apply wenc_cons; [wgo|]].
  do 4 (apply wenc_cons; [wgo|]).
  apply (wenc_app _ _ [_; _; _] [_]); [apply wenc_language; exact E|wgo].
Qed.

(** esds *)
Lemma es_getDataSize f : es_body f < 2 ^ 32 -> ESDescriptor_getDataSize f = es_body f.
Proof.
  intros H. unfold ESDescriptor_getDataSize, to_u. apply Z.mod_small. split; [|exact H].
  pose proof (Zlen_nonneg (es_url_string f)). unfold es_body.
  destruct (es_stream_dependence_flag f), (es_url_flag f), (es_ocr_stream_flag f); lia.
Qed.
Lemma es_getDataSize_mod f : ESDescriptor_getDataSize f = es_body f mod 2 ^ 32.
Proof. reflexivity. Qed.
Fixpoint descriptor_ind' (P : descriptor -> Prop)
  (HE : forall f s subs, Forall P subs -> P (DES f s subs)) (HD : forall f s subs, Forall P subs -> P (DCD f s subs))
  (HS : forall l, P (DSI l)) (HL : forall l, P (DSL l)) (d : descriptor) : P d :=
  let go := fix go l : Forall P l := match l with [] => Forall_nil P | x :: r => Forall_cons x (descriptor_ind' P HE HD HS HL x) (go r) end in
  match d with
  | DES f s subs => HE f s subs (go subs)
  | DCD f s subs => HD f s subs (go subs)
  | DSI l => HS l
  | DSL l => HL l
  end.
Lemma own_body_mod d : Descriptor_getSize d mod 2 ^ 32 = (5 + own_body d) mod 2 ^ 32.
Proof.
  destruct d; cbn [Descriptor_getSize own_body]; try (f_equal; lia).
  rewrite es_getDataSize_mod. rewrite Z.add_mod_idemp_r by lia. f_equal; lia.
Qed.
Lemma sumZ_mod {A} (f g : A -> Z) l m : m <> 0 -> (forall x, In x l -> f x mod m = g x mod m) -> sumZ f l mod m = sumZ g l mod m.
Proof.
  intros Hm. induction l as [|x l IH]; intros H; [reflexivity|]. unfold sumZ in *. cbn [fold_right].
  rewrite Z.add_mod by exact Hm. rewrite (H x) by (left; reflexivity). rewrite IH by (intros; apply H; right; assumption).
  rewrite <- Z.add_mod by exact Hm. reflexivity.
Qed.
(** The size written in a descriptor header is the announced size modulo 2^32. *)
Lemma announced_mod d : getDataSizeWithSubDescriptors d = announced d mod 2 ^ 32.
Proof.
  induction d as [f s subs IH|f s subs IH|l|l] using descriptor_ind'; cbn [getDataSizeWithSubDescriptors announced].
  - rewrite Z.gtb_ltb. unfold to_u. destruct (0 <? s).
    + rewrite es_getDataSize_mod. apply Z.add_mod_idemp_l. lia.
    + rewrite es_getDataSize_mod. rewrite Z.add_mod_idemp_l by lia.
      rewrite Z.add_mod by lia. rewrite (Z.add_mod (es_body f)) by lia. f_equal. f_equal.
      induction IH as [|x r Hx _ IHr]; [reflexivity|].
      rewrite Z.add_mod, IHr by lia. cbn [fold_right]. rewrite (Z.add_mod (5 + announced x)) by lia. f_equal. f_equal.
      rewrite Hx. rewrite Z.add_mod_idemp_r by lia. reflexivity.
  - rewrite Z.gtb_ltb. unfold to_u. destruct (0 <? s); [reflexivity|].
    rewrite Z.add_mod by lia. rewrite (Z.add_mod 13 (fold_right _ _ _)) by lia. f_equal. f_equal.
    change (fold_right (fun x a => 5 + own_body x + a) 0 subs) with (sumZ (fun x => 5 + own_body x) subs).
    apply sumZ_mod; [lia|]. intros; apply own_body_mod.
  - reflexivity.
  - reflexivity.
Qed.
Lemma wenc_uvarint_eq v v' : (field_ok (FV v') -> v = v') -> wenc (write_uvarint 4 v) [FV v'].
Proof. intros H Hok. pose proof Hok as Hok'. apply fields_ok_cons in Hok' as [Hf _]. rewrite (H Hf). apply wenc_uvarint. exact Hok. Qed.
Lemma mod_28_32 v : field_ok (FV v) -> v mod 2 ^ 32 = v.
Proof. cbn [field_ok]. intros H. apply Z.mod_small. split; [apply H|]. eapply Z.lt_trans; [apply H|]. reflexivity. Qed.
Lemma wenc_tag t n : n = 8%nat -> 0 <= t < 128 -> wenc (write_int t 8) [FU n t].
Proof.
  intros -> H _. rewrite enc_one. cbn [field_bits]. change 8%nat with (Z.to_nat 8). apply write_int_spec; [lia|].
  unfold fits_s. change (2 ^ (8 - 1)) with 128. lia.
Qed.
Lemma descriptor_write d : wenc (Descriptor_writeData d) (descriptor_layout (announced d) d).
Proof.
  destruct d as [f s subs|f s subs|l|l]; unfold Descriptor_writeData, descriptor_layout.
  - unfold es_layout. cbn [app]. apply wenc_cons; [apply wenc_tag; [reflexivity|unfold ESDescrTag; lia]|].
    apply wenc_cons; [apply wenc_uvarint_eq; intros H; rewrite announced_mod; apply mod_28_32; exact H|].
    wgo. intros Hok. pose proof Hok as Hok'. apply fields_ok_cons in Hok' as [Hf _]. cbn [field_ok] in Hf. unfold fits_u in Hf.
    change (2 ^ Z.of_nat 8) with 256 in Hf. destruct (Zlen (es_url_string f) >? 255) eqn:G; [lia|]. revert Hok.
    match goal with |- fields_ok ?l -> wspec ?m (enc ?l) => change (wenc m l) end. wgo.
  - unfold dcd_layout. apply wenc_cons; [apply wenc_tag; [reflexivity|unfold DecoderConfigDescrTag; lia]|].
    apply wenc_cons; [apply wenc_uvarint_eq; intros H; rewrite announced_mod; apply mod_28_32; exact H|]. wgo.
  - apply wenc_cons; [apply wenc_tag; [reflexivity|unfold DecSpecificInfoTag; lia]|].
    apply wenc_cons; [apply wenc_uvarint_eq; apply mod_28_32|]. wgo.
  - apply wenc_cons; [apply wenc_tag; [reflexivity|unfold SLConfigDescrTag; lia]|].
    apply wenc_cons; [apply wenc_uvarint_eq; apply mod_28_32|]. wgo.
Qed.
Lemma esds_write b : wenc (Esds_writeData b) (esds_layout b).
Proof. unfold Esds_writeData, esds_layout. wgo. apply descriptor_write. Qed.

(** sgpd *)
Lemma sgpd_write b : wenc (Sgpd_writeData b) (sgpd_layout b).
Proof.
  unfold Sgpd_writeData, sgpd_layout. same_codes. wgo.
  - destruct (_ =? 1); wgo.
  - unfold RollDistance_writeData, roll_distance_layout. wgo.
  - unfold AlstEntry_writeData, alst_entry_layout. wgo. unfold AlstOpt_writeData, alst_opt_layout. wgo.
  - unfold VraEntry_writeData, vra_entry_layout. wgo.
  - unfold TeleEntry_writeData, tele_entry_layout. wgo.
Qed.
