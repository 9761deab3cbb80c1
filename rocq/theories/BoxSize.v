(** C10: writeData of every class emits exactly 8 * getDataSize() bits, whatever the values of the members. *)
From Coq Require Import ZifyBool.
From Verif Require Import Base BitIO BitFacts BitIOProofs Boxes WireFormat BoxTac BoxWrite BoxRead Box.

(** Fixed-size arrays have their C++ length; members that would make writeData throw are excluded. *)
Definition box_shape (b : box) : Prop :=
  match b with
  | B_colr x => len_is 4 (colr_colour_type x)
  | B_esds x => Forall (fun d => match d with DES f _ _ => es_url_flag f = true -> Zlen (es_url_string f) <= 255 | _ => True end)
                  (esds_descriptors x)
  | B_ftyp x => len_is 4 (ftyp_major_brand x) /\ Forall (len_is 4) (ftyp_compatible_brands x)
  | B_hdlr x => hdlr_shape x
  | B_mvhd x => len_is 9 (mvhd_matrix x) /\ len_is 6 (mvhd_pre_defined x)
  | B_pssh x => len_is 16 (pssh_system_id x) /\ Forall (len_is 16) (pssh_kids x)
  | B_sbgp x => len_is 4 (sbgp_grouping_type x)
  | B_sgpd x => len_is 4 (sgpd_grouping_type x)
  | B_tfra x => 0 <= tfra_length_size_of_traf_num x <= 3 /\ 0 <= tfra_length_size_of_trun_num x <= 3 /\
                0 <= tfra_length_size_of_sample_num x <= 3
  | B_tkhd x => len_is 9 (tkhd_matrix x)
  | B_vmhd x => len_is 3 (vmhd_opcolor x)
  | B_avcC x => avcc_high_profile_fields_enabled x = true -> avc_high (avcc_profile x)
  | B_visual x => visual_entry_shape x
  | B_audio x => audio_entry_shape x
  | _ => True
  end.

Definition wlen (m : W) (n : Z) : Prop := exists bs, wspec m bs /\ Zlen bs = n.

Lemma wlen_eq m n n' : wlen m n -> n = n' -> wlen m n'. Proof. intros H <-. exact H. Qed.
Lemma wlen_skip : wlen wskip 0. Proof. exists []. split; [apply wspec_skip|reflexivity]. Qed.
Lemma wlen_seq a b x y : wlen a x -> wlen b y -> wlen (a ;; b) (x + y).
Proof. intros (u & A & <-) (v & B & <-). exists (u ++ v). split; [apply wspec_seq; assumption|apply Zlen_app]. Qed.
Lemma Zlen_be n v : Zlen (be n v) = Z.of_nat n. Proof. unfold Zlen. rewrite be_length. reflexivity. Qed.
Lemma wlen_uint v s : 0 <= s -> wlen (write_uint v s) s.
Proof. intros H. exists (be (Z.to_nat s) v). split; [apply write_uint_spec; exact H|]. rewrite Zlen_be. lia. Qed.
Lemma sbits_length n v : length (sbits n v) = n. Proof. destruct n; cbn; rewrite ?be_length; reflexivity. Qed.
Lemma wlen_int v s : 0 <= s -> wlen (write_int v s) s.
Proof.
  intros H. exists (sbits (Z.to_nat s) v). split; [apply write_int_spec_gen; exact H|].
  unfold Zlen. rewrite sbits_length. lia.
Qed.
Lemma wlen_bool b : wlen (write_bool b) 1. Proof. exists [b]. split; [apply write_bool_spec|reflexivity]. Qed.
Lemma wlen_octet c : wlen (write_octet8 c) 8.
Proof. exists (be 8 c). split; [apply write_octet8_spec|reflexivity]. Qed.
Lemma wlen_list {A} (f : A -> W) c l : (forall x, In x l -> wlen (f x) c) -> wlen (wlist f l) (c * Zlen l).
Proof.
  induction l as [|x l IH]; intros H; cbn [wlist]; [eapply wlen_eq; [apply wlen_skip|]; unfold Zlen; cbn; lia|].
  eapply wlen_eq; [apply wlen_seq; [apply H; left; reflexivity|apply IH; intros; apply H; right; assumption]|].
  rewrite Zlen_cons. lia.
Qed.
Lemma wlen_sum {A} (f : A -> W) g l : (forall x, In x l -> wlen (f x) (8 * g x)) -> wlen (wlist f l) (8 * sumZ g l).
Proof.
  unfold sumZ. induction l as [|x l IH]; intros H; cbn [wlist fold_right]; [apply wlen_skip|].
  eapply wlen_eq; [apply wlen_seq; [apply H; left; reflexivity|apply IH; intros; apply H; right; assumption]|]. lia.
Qed.
Lemma wlen_vec s v : 0 <= s -> wlen (write_vector_uint s v) (s * Zlen v).
Proof. intros H. apply wlen_list. intros. apply wlen_uint; exact H. Qed.
Lemma wlen_arr v : wlen (write_array_uint8 v) (8 * Zlen v).
Proof. apply wlen_list. intros. apply wlen_uint; lia. Qed.
Lemma wlen_string s : wlen (write_string s) (8 * Zlen s + 8).
Proof. apply wlen_seq; [apply wlen_list; intros; apply wlen_octet|apply wlen_octet]. Qed.
Lemma wlen_uvarint v : wlen (write_uvarint 4 v) 32.
Proof. eexists. split; [apply write_uvarint_spec|]. reflexivity. Qed.
Lemma wlen_if (c : bool) a b x y : wlen a x -> wlen b y -> wlen (if c then a else b) (if c then x else y).
Proof. destruct c; auto. Qed.
Lemma wlen_when c a x : wlen a x -> wlen (wwhen c a) (if c then x else 0).
Proof. destruct c; [auto|intros _; apply wlen_skip]. Qed.
Lemma wlen_fb fb : wlen (writeVersionAndFlag fb) 32.
Proof. unfold writeVersionAndFlag. eapply wlen_eq; [repeat apply wlen_seq; apply wlen_uint; lia|reflexivity]. Qed.

Ltac szpos := first [lia | apply tsize_nonneg].
Ltac sstep :=
  match goal with
  | K : wlen ?m _ |- wlen ?m _ => exact K
  | |- wlen (_ ;; _) _ => eapply wlen_seq
  | |- wlen wskip _ => apply wlen_skip
  | |- wlen (write_uint _ _) _ => apply wlen_uint; szpos
  | |- wlen (write_int _ _) _ => apply wlen_int; szpos
  | |- wlen (write_bool _) _ => apply wlen_bool
  | |- wlen (write_vector_uint _ _) _ => apply wlen_vec; szpos
  | |- wlen (write_array_uint8 _) _ => apply wlen_arr
  | |- wlen (write_string _) _ => apply wlen_string
  | |- wlen (write_uvarint 4 _) _ => apply wlen_uvarint
  | |- wlen (writeVersionAndFlag _) _ => apply wlen_fb
  | |- wlen (wwhen _ _) _ => eapply wlen_when
  | |- wlen (if _ then _ else _) _ => eapply wlen_if
  | |- wlen (wlist _ _) _ => eapply wlen_list; intros ? ?; cbn beta
  end.
Ltac sgo := eapply wlen_eq; [repeat sstep|].
Ltac ifs := repeat match goal with |- context[if ?c then _ else _] => destruct c eqn:?; cbn [negb] in * end.
Ltac sz := unfold tsize, v0 in *; ifs; try lia.

Lemma btrt_size b : box_shape (B_btrt b) -> wlen (Btrt_writeData b) (8 * Btrt_getDataSize b).
Proof.
  cbn [box_shape]. unfold hdlr_shape, visual_entry_shape, audio_entry_shape, len_is. intros H. unfold Btrt_writeData, Btrt_getDataSize. sgo. unfold Zlen in *. sz.
Qed.
Lemma co64_size b : box_shape (B_co64 b) -> wlen (Co64_writeData b) (8 * Co64_getDataSize b).
Proof.
  cbn [box_shape]. unfold hdlr_shape, visual_entry_shape, audio_entry_shape, len_is. intros H. unfold Co64_writeData, Co64_getDataSize. sgo. unfold Zlen in *. sz.
Qed.
Lemma colr_size b : box_shape (B_colr b) -> wlen (Colr_writeData b) (8 * Colr_getDataSize b).
Proof.
  cbn [box_shape]. unfold hdlr_shape, visual_entry_shape, audio_entry_shape, len_is. intros H. unfold Colr_writeData, Colr_getDataSize, Colr_nclxMarshal. sgo. unfold Zlen in *. sz.
Qed.
Lemma ctts_size b : box_shape (B_ctts b) -> wlen (Ctts_writeData b) (8 * Ctts_getDataSize b).
Proof.
  cbn [box_shape]. unfold hdlr_shape, visual_entry_shape, audio_entry_shape, len_is. intros H. unfold Ctts_writeData, Ctts_getDataSize, CttsEntry_writeData. sgo. unfold Zlen in *. sz.
Qed.
Lemma dops_size b : box_shape (B_dOps b) -> wlen (DOps_writeData b) (8 * DOps_getDataSize b).
Proof.
  cbn [box_shape]. unfold hdlr_shape, visual_entry_shape, audio_entry_shape, len_is. intros H. unfold DOps_writeData, DOps_getDataSize, DOpsChannelMappingTable_writeData, DOpsChannelMappingTable_getSize. sgo. unfold Zlen in *. sz.
Qed.
Lemma data_size b : box_shape (B_data b) -> wlen (Data_writeData b) (8 * Data_getDataSize b).
Proof.
  cbn [box_shape]. unfold hdlr_shape, visual_entry_shape, audio_entry_shape, len_is. intros H. unfold Data_writeData, Data_getDataSize. sgo. unfold Zlen in *. sz.
Qed.
Lemma dref_size b : box_shape (B_dref b) -> wlen (Dref_writeData b) (8 * Dref_getDataSize b).
Proof.
  cbn [box_shape]. unfold hdlr_shape, visual_entry_shape, audio_entry_shape, len_is. intros H. unfold Dref_writeData, Dref_getDataSize. sgo. unfold Zlen in *. sz.
Qed.
Lemma elst_size b : box_shape (B_elst b) -> wlen (Elst_writeData b) (8 * Elst_getDataSize b).
Proof.
  cbn [box_shape]. unfold hdlr_shape, visual_entry_shape, audio_entry_shape, len_is. intros H. unfold Elst_writeData, Elst_getDataSize, ElstEntry_writeData. sgo. unfold Zlen in *. sz.
Qed.
Lemma emsg_size b : box_shape (B_emsg b) -> wlen (Emsg_writeData b) (8 * Emsg_getDataSize b).
Proof.
  cbn [box_shape]. unfold hdlr_shape, visual_entry_shape, audio_entry_shape, len_is. intros H. unfold Emsg_writeData, Emsg_getDataSize. sgo. unfold Zlen in *. sz.
Qed.
Lemma esds_size b : box_shape (B_esds b) -> wlen (Esds_writeData b) (8 * Esds_getDataSize b).
Proof.
  cbn [box_shape]. rewrite Forall_forall. intros H. unfold Esds_writeData, Esds_getDataSize.
  eapply wlen_eq; [apply wlen_seq; [apply wlen_fb|apply (wlen_sum _ Descriptor_getSize)]|lia].
  intros d Hd. specialize (H d Hd). destruct d as [f s subs|f s subs|l|l]; cbn [Descriptor_getSize Descriptor_writeData].
  - unfold ESDescriptor_getDataSize, to_u. pose proof (Zlen_nonneg (es_url_string f)). destruct (es_url_flag f).
    + unfold wwhen at 2. replace (_ >? 255) with false by lia. rewrite Z.mod_small by (destruct (es_stream_dependence_flag f), (es_ocr_stream_flag f); lia). sgo. sz.
    + unfold wwhen at 2. rewrite Z.mod_small by (destruct (es_stream_dependence_flag f), (es_ocr_stream_flag f); lia). sgo. sz.
  - sgo. lia.
  - sgo. lia.
  - sgo. lia.
Qed.
Lemma fiel_size b : box_shape (B_fiel b) -> wlen (Fiel_writeData b) (8 * Fiel_getDataSize b).
Proof.
  cbn [box_shape]. unfold hdlr_shape, visual_entry_shape, audio_entry_shape, len_is. intros H. unfold Fiel_writeData, Fiel_getDataSize. sgo. unfold Zlen in *. sz.
Qed.
Lemma free_size b : box_shape (B_free b) -> wlen (Free_writeData b) (8 * Free_getDataSize b).
Proof.
  cbn [box_shape]. unfold hdlr_shape, visual_entry_shape, audio_entry_shape, len_is. intros H. unfold Free_writeData, Free_getDataSize. sgo. unfold Zlen in *. sz.
Qed.
Lemma mdat_size b : box_shape (B_mdat b) -> wlen (Mdat_writeData b) (8 * Mdat_getDataSize b).
Proof.
  cbn [box_shape]. unfold hdlr_shape, visual_entry_shape, audio_entry_shape, len_is. intros H. unfold Mdat_writeData, Mdat_getDataSize. sgo. unfold Zlen in *. sz.
Qed.
Lemma skip_size b : box_shape (B_skip b) -> wlen (Skip_writeData b) (8 * Skip_getDataSize b).
Proof.
  cbn [box_shape]. unfold hdlr_shape, visual_entry_shape, audio_entry_shape, len_is. intros H. unfold Skip_writeData, Skip_getDataSize. sgo. unfold Zlen in *. sz.
Qed.
Lemma unsupported_size b : box_shape (B_unsupported b) -> wlen (Unsupported_writeData b) (8 * Unsupported_getDataSize b).
Proof.
  cbn [box_shape]. unfold hdlr_shape, visual_entry_shape, audio_entry_shape, len_is. intros H. unfold Unsupported_writeData, Unsupported_getDataSize. sgo. unfold Zlen in *. sz.
Qed.
Lemma ftyp_size b : box_shape (B_ftyp b) -> wlen (Ftyp_writeData b) (8 * Ftyp_getDataSize b).
Proof.
  intros (H1 & H2). rewrite Forall_forall in H2. unfold Ftyp_writeData, Ftyp_getDataSize.
  eapply wlen_eq; [apply wlen_seq; [apply wlen_arr|apply wlen_seq; [apply wlen_uint; lia|apply (wlen_list _ 32)]]|].
  - intros x Hx. eapply wlen_eq; [apply wlen_arr|]. specialize (H2 x Hx). unfold len_is, Zlen in *. lia.
  - unfold len_is, Zlen in *. lia.
Qed.
Lemma hdlr_size b : box_shape (B_hdlr b) -> wlen (Hdlr_writeData b) (8 * Hdlr_getDataSize b).
Proof.
  cbn [box_shape]. unfold hdlr_shape, visual_entry_shape, audio_entry_shape, len_is. intros H. unfold Hdlr_writeData, Hdlr_getDataSize. sgo. unfold Zlen in *. sz.
Qed.
Lemma iods_size b : box_shape (B_iods b) -> wlen (Iods_writeData b) (8 * Iods_getDataSize b).
Proof.
  cbn [box_shape]. unfold hdlr_shape, visual_entry_shape, audio_entry_shape, len_is. intros H. unfold Iods_writeData, Iods_getDataSize. sgo. unfold Zlen in *. sz.
Qed.
Lemma mdhd_size b : box_shape (B_mdhd b) -> wlen (Mdhd_writeData b) (8 * Mdhd_getDataSize b).
Proof.
  cbn [box_shape]. unfold hdlr_shape, visual_entry_shape, audio_entry_shape, len_is. intros H. unfold Mdhd_writeData, Mdhd_getDataSize. sgo. unfold Zlen in *. sz.
Qed.
Lemma mehd_size b : box_shape (B_mehd b) -> wlen (Mehd_writeData b) (8 * Mehd_getDataSize b).
Proof.
  cbn [box_shape]. unfold hdlr_shape, visual_entry_shape, audio_entry_shape, len_is. intros H. unfold Mehd_writeData, Mehd_getDataSize. sgo. unfold Zlen in *. sz.
Qed.
Lemma meta_size b : box_shape (B_meta b) -> wlen (Meta_writeData b) (8 * Meta_getDataSize b).
Proof.
  cbn [box_shape]. unfold hdlr_shape, visual_entry_shape, audio_entry_shape, len_is. intros H. unfold Meta_writeData, Meta_getDataSize. sgo. unfold Zlen in *. sz.
Qed.
Lemma mfhd_size b : box_shape (B_mfhd b) -> wlen (Mfhd_writeData b) (8 * Mfhd_getDataSize b).
Proof.
  cbn [box_shape]. unfold hdlr_shape, visual_entry_shape, audio_entry_shape, len_is. intros H. unfold Mfhd_writeData, Mfhd_getDataSize. sgo. unfold Zlen in *. sz.
Qed.
Lemma mfro_size b : box_shape (B_mfro b) -> wlen (Mfro_writeData b) (8 * Mfro_getDataSize b).
Proof.
  cbn [box_shape]. unfold hdlr_shape, visual_entry_shape, audio_entry_shape, len_is. intros H. unfold Mfro_writeData, Mfro_getDataSize. sgo. unfold Zlen in *. sz.
Qed.
Lemma mvhd_size b : box_shape (B_mvhd b) -> wlen (Mvhd_writeData b) (8 * Mvhd_getDataSize b).
Proof.
  cbn [box_shape]. unfold hdlr_shape, visual_entry_shape, audio_entry_shape, len_is. intros H. unfold Mvhd_writeData, Mvhd_getDataSize. sgo. unfold Zlen in *. sz.
Qed.
Lemma pasp_size b : box_shape (B_pasp b) -> wlen (PixelAspectRatio_writeData b) (8 * PixelAspectRatio_getDataSize b).
Proof.
  cbn [box_shape]. unfold hdlr_shape, visual_entry_shape, audio_entry_shape, len_is. intros H. unfold PixelAspectRatio_writeData, PixelAspectRatio_getDataSize. sgo. unfold Zlen in *. sz.
Qed.
Lemma pssh_size b : box_shape (B_pssh b) -> wlen (Pssh_writeData b) (8 * Pssh_getDataSize b).
Proof.
  intros (H1 & H2). rewrite Forall_forall in H2.
  assert (K : wlen (wlist PsshKID_writeData (pssh_kids b)) (128 * Zlen (pssh_kids b))).
  { apply wlen_list. intros x Hx. unfold PsshKID_writeData. eapply wlen_eq; [apply wlen_list; intros; apply wlen_uint; lia|].
    specialize (H2 x Hx). unfold len_is, Zlen in *. lia. }
  unfold Pssh_writeData, Pssh_getDataSize. sgo. unfold len_is, Zlen in *. sz.
Qed.
Lemma sbgp_size b : box_shape (B_sbgp b) -> wlen (Sbgp_writeData b) (8 * Sbgp_getDataSize b).
Proof.
  cbn [box_shape]. unfold hdlr_shape, visual_entry_shape, audio_entry_shape, len_is. intros H. unfold Sbgp_writeData, Sbgp_getDataSize, SbgpEntry_writeData. sgo. unfold Zlen in *. sz.
Qed.
Lemma sdtp_size b : box_shape (B_sdtp b) -> wlen (Sdtp_writeData b) (8 * Sdtp_getDataSize b).
Proof.
  cbn [box_shape]. unfold hdlr_shape, visual_entry_shape, audio_entry_shape, len_is. intros H. unfold Sdtp_writeData, Sdtp_getDataSize, SdtpSample_writeData. sgo. unfold Zlen in *. sz.
Qed.
Lemma sgpd_size b : box_shape (B_sgpd b) -> wlen (Sgpd_writeData b) (8 * Sgpd_getDataSize b).
Proof.
  cbn [box_shape]. intros H. unfold Sgpd_writeData, Sgpd_getDataSize. unfold len_is in H.
  assert (K1 : forall l, wlen (wlist RollDistance_writeData l) (8 * sumZ RollDistance_getSize l)).
  { intros l. apply wlen_sum. intros s _. unfold RollDistance_writeData, RollDistance_getSize. sgo. sz. }
  assert (K2 : forall l, wlen (wlist AlstEntry_writeData l) (8 * sumZ AlstEntry_getSize l)).
  { intros l. apply wlen_sum. intros s _. unfold AlstEntry_writeData, AlstEntry_getSize, AlstOpt_writeData. sgo. sz. }
  assert (K3 : forall l, wlen (wlist VraEntry_writeData l) (8 * sumZ VraEntry_getSize l)).
  { intros l. apply wlen_sum. intros s _. unfold VraEntry_writeData, VraEntry_getSize. sgo. sz. }
  assert (K4 : forall l, wlen (wlist TeleEntry_writeData l) (8 * sumZ TeleEntry_getSize l)).
  { intros l. apply wlen_sum. intros s _. unfold TeleEntry_writeData, TeleEntry_getSize. sgo. sz. }
  eapply wlen_eq; [apply wlen_seq; [apply wlen_fb|apply wlen_seq; [apply wlen_arr|apply wlen_seq; [sstep; sstep|]]]|].
  - apply wlen_if; [apply wlen_seq; [sstep|apply K1]|]. apply wlen_if; [apply wlen_seq; [sstep|apply K2]|].
    apply wlen_if; [apply wlen_seq; [sstep|apply K3]|]. apply wlen_if; [apply wlen_seq; [sstep|apply K4]|]. apply wlen_skip.
  - unfold Zlen. rewrite H. ifs; lia.
Qed.
Lemma sidx_size b : box_shape (B_sidx b) -> wlen (Sidx_writeData b) (8 * Sidx_getDataSize b).
Proof.
  cbn [box_shape]. unfold hdlr_shape, visual_entry_shape, audio_entry_shape, len_is. intros H. unfold Sidx_writeData, Sidx_getDataSize, SidxReference_writeData. sgo. unfold Zlen in *. sz.
Qed.
Lemma smhd_size b : box_shape (B_smhd b) -> wlen (Smhd_writeData b) (8 * Smhd_getDataSize b).
Proof.
  cbn [box_shape]. unfold hdlr_shape, visual_entry_shape, audio_entry_shape, len_is. intros H. unfold Smhd_writeData, Smhd_getDataSize. sgo. unfold Zlen in *. sz.
Qed.
Lemma stco_size b : box_shape (B_stco b) -> wlen (Stco_writeData b) (8 * Stco_getDataSize b).
Proof.
  cbn [box_shape]. unfold hdlr_shape, visual_entry_shape, audio_entry_shape, len_is. intros H. unfold Stco_writeData, Stco_getDataSize. sgo. unfold Zlen in *. sz.
Qed.
Lemma stsc_size b : box_shape (B_stsc b) -> wlen (Stsc_writeData b) (8 * Stsc_getDataSize b).
Proof.
  cbn [box_shape]. unfold hdlr_shape, visual_entry_shape, audio_entry_shape, len_is. intros H. unfold Stsc_writeData, Stsc_getDataSize, StscEntry_writeData. sgo. unfold Zlen in *. sz.
Qed.
Lemma stsd_size b : box_shape (B_stsd b) -> wlen (Stsd_writeData b) (8 * Stsd_getDataSize b).
Proof.
  cbn [box_shape]. unfold hdlr_shape, visual_entry_shape, audio_entry_shape, len_is. intros H. unfold Stsd_writeData, Stsd_getDataSize. sgo. unfold Zlen in *. sz.
Qed.
Lemma stss_size b : box_shape (B_stss b) -> wlen (Stss_writeData b) (8 * Stss_getDataSize b).
Proof.
  cbn [box_shape]. unfold hdlr_shape, visual_entry_shape, audio_entry_shape, len_is. intros H. unfold Stss_writeData, Stss_getDataSize. sgo. unfold Zlen in *. sz.
Qed.
Lemma stsz_size b : box_shape (B_stsz b) -> wlen (Stsz_writeData b) (8 * Stsz_getDataSize b).
Proof.
  cbn [box_shape]. unfold hdlr_shape, visual_entry_shape, audio_entry_shape, len_is. intros H. unfold Stsz_writeData, Stsz_getDataSize. sgo. unfold Zlen in *. sz.
Qed.
Lemma stts_size b : box_shape (B_stts b) -> wlen (Stts_writeData b) (8 * Stts_getDataSize b).
Proof.
  cbn [box_shape]. unfold hdlr_shape, visual_entry_shape, audio_entry_shape, len_is. intros H. unfold Stts_writeData, Stts_getDataSize, SttsEntry_writeData. sgo. unfold Zlen in *. sz.
Qed.
Lemma tfdt_size b : box_shape (B_tfdt b) -> wlen (Tfdt_writeData b) (8 * Tfdt_getDataSize b).
Proof.
  cbn [box_shape]. unfold hdlr_shape, visual_entry_shape, audio_entry_shape, len_is. intros H. unfold Tfdt_writeData, Tfdt_getDataSize. sgo. unfold Zlen in *. sz.
Qed.
Lemma tfhd_size b : box_shape (B_tfhd b) -> wlen (Tfhd_writeData b) (8 * Tfhd_getDataSize b).
Proof.
  cbn [box_shape]. unfold hdlr_shape, visual_entry_shape, audio_entry_shape, len_is. intros H. unfold Tfhd_writeData, Tfhd_getDataSize. sgo. unfold Zlen in *. sz.
Qed.
Lemma tfra_size b : box_shape (B_tfra b) -> wlen (Tfra_writeData b) (8 * Tfra_getDataSize b).
Proof.
  intros (H1 & H2 & H3). unfold Tfra_writeData, Tfra_getDataSize.
  match goal with |- context[wlist ?f ?l] => match goal with |- context[sumZ ?g l] => assert (K : wlen (wlist f l) (8 * sumZ g l)) end end.
  { apply wlen_sum. intros e _. unfold TfraEntry_writeData, TfraEntry_getSize. sgo. sz. }
  sgo. lia.
Qed.
Lemma tkhd_size b : box_shape (B_tkhd b) -> wlen (Tkhd_writeData b) (8 * Tkhd_getDataSize b).
Proof.
  cbn [box_shape]. unfold hdlr_shape, visual_entry_shape, audio_entry_shape, len_is. intros H. unfold Tkhd_writeData, Tkhd_getDataSize. sgo. unfold Zlen in *. sz.
Qed.
Lemma trex_size b : box_shape (B_trex b) -> wlen (Trex_writeData b) (8 * Trex_getDataSize b).
Proof.
  cbn [box_shape]. unfold hdlr_shape, visual_entry_shape, audio_entry_shape, len_is. intros H. unfold Trex_writeData, Trex_getDataSize. sgo. unfold Zlen in *. sz.
Qed.
Lemma trun_size b : box_shape (B_trun b) -> wlen (Trun_writeData b) (8 * Trun_getDataSize b).
Proof.
  intros _. unfold Trun_writeData, Trun_getDataSize.
  assert (K : wlen (wlist (TrunEntry_writeData (trun_fb b)) (trun_entries b)) (8 * sumZ (TrunEntry_getSize (trun_fb b)) (trun_entries b))).
  { apply wlen_sum. intros e _. unfold TrunEntry_writeData, TrunEntry_getSize. sgo. sz. }
  set (x := sumZ _ _) in *. eapply wlen_eq; [repeat (sstep || (eapply wlen_seq; [sstep|]) || exact K)|]. sz.
Qed.
Lemma url_size b : box_shape (B_url b) -> wlen (Url_writeData b) (8 * Url_getDataSize b).
Proof.
  cbn [box_shape]. unfold hdlr_shape, visual_entry_shape, audio_entry_shape, len_is. intros H. unfold Url_writeData, Url_getDataSize. sgo. unfold Zlen in *. sz.
Qed.
Lemma urn_size b : box_shape (B_urn b) -> wlen (Urn_writeData b) (8 * Urn_getDataSize b).
Proof.
  cbn [box_shape]. unfold hdlr_shape, visual_entry_shape, audio_entry_shape, len_is. intros H. unfold Urn_writeData, Urn_getDataSize. sgo. unfold Zlen in *. sz.
Qed.
Lemma vmhd_size b : box_shape (B_vmhd b) -> wlen (Vmhd_writeData b) (8 * Vmhd_getDataSize b).
Proof.
  cbn [box_shape]. unfold hdlr_shape, visual_entry_shape, audio_entry_shape, len_is. intros H. unfold Vmhd_writeData, Vmhd_getDataSize. sgo. unfold Zlen in *. sz.
Qed.
Lemma vpcc_size b : box_shape (B_vpcC b) -> wlen (VPCodecConfiguration_writeData b) (8 * VPCodecConfiguration_getDataSize b).
Proof.
  cbn [box_shape]. unfold hdlr_shape, visual_entry_shape, audio_entry_shape, len_is. intros H. unfold VPCodecConfiguration_writeData, VPCodecConfiguration_getDataSize. sgo. unfold Zlen in *. sz.
Qed.
Lemma av1c_size b : box_shape (B_av1C b) -> wlen (AV1CodecConfiguration_writeData b) (8 * AV1CodecConfiguration_getDataSize b).
Proof.
  cbn [box_shape]. unfold hdlr_shape, visual_entry_shape, audio_entry_shape, len_is. intros H. unfold AV1CodecConfiguration_writeData, AV1CodecConfiguration_getDataSize. sgo. unfold Zlen in *. sz.
Qed.
Lemma avcc_size b : box_shape (B_avcC b) -> wlen (AVCDecoderConfiguration_writeData b) (8 * AVCDecoderConfiguration_getDataSize b).
Proof.
  cbn [box_shape]. intros H. unfold AVCDecoderConfiguration_writeData, AVCDecoderConfiguration_getDataSize.
  assert (K : forall l, wlen (wlist AVCParameterSet_writeData l) (8 * sumZ AVCParameterSet_getSize l)).
  { intros l. apply wlen_sum. intros s _. unfold AVCParameterSet_writeData, AVCParameterSet_getSize. sgo. lia. }
  destruct (avcc_high_profile_fields_enabled b); cbn [negb].
  - rewrite (proj2 (avc_high_spec _) (H eq_refl)). cbn [negb]. eapply wlen_eq; [repeat (eapply wlen_seq; [first [apply K|sstep]|]); apply K|]. lia.
  - eapply wlen_eq; [repeat (eapply wlen_seq; [first [apply K|sstep]|]); apply wlen_skip|]. lia.
Qed.
Lemma visual_entry_size b : box_shape (B_visual b) -> wlen (VisualSampleEntry_writeData b) (8 * VisualSampleEntry_getDataSize b).
Proof.
  cbn [box_shape]. unfold hdlr_shape, visual_entry_shape, audio_entry_shape, len_is. intros H. unfold VisualSampleEntry_writeData, VisualSampleEntry_getDataSize. sgo. unfold Zlen in *. sz.
Qed.
Lemma audio_entry_size b : box_shape (B_audio b) -> wlen (AudioSampleEntry_writeData b) (8 * AudioSampleEntry_getDataSize b).
Proof.
  cbn [box_shape]. unfold hdlr_shape, visual_entry_shape, audio_entry_shape, len_is. intros H. unfold AudioSampleEntry_writeData, AudioSampleEntry_getDataSize. sgo. unfold Zlen in *. sz.
Qed.

Lemma box_size b : box_shape b -> wlen (Box_writeData b) (8 * Box_getDataSize b).
Proof.
  destruct b; cbn [Box_writeData Box_getDataSize]; intros H.
  - apply wlen_skip.
  - apply btrt_size; exact H.
  - apply co64_size; exact H.
  - apply colr_size; exact H.
  - apply ctts_size; exact H.
  - apply dops_size; exact H.
  - apply data_size; exact H.
  - apply dref_size; exact H.
  - apply elst_size; exact H.
  - apply emsg_size; exact H.
  - apply esds_size; exact H.
  - apply fiel_size; exact H.
  - apply free_size; exact H.
  - apply mdat_size; exact H.
  - apply skip_size; exact H.
  - apply unsupported_size; exact H.
  - apply ftyp_size; exact H.
  - apply hdlr_size; exact H.
  - apply iods_size; exact H.
  - apply mdhd_size; exact H.
  - apply mehd_size; exact H.
  - apply meta_size; exact H.
  - apply mfhd_size; exact H.
  - apply mfro_size; exact H.
  - apply mvhd_size; exact H.
  - apply pasp_size; exact H.
  - apply pssh_size; exact H.
  - apply sbgp_size; exact H.
  - apply sdtp_size; exact H.
  - apply sgpd_size; exact H.
  - apply sidx_size; exact H.
  - apply smhd_size; exact H.
  - apply stco_size; exact H.
  - apply stsc_size; exact H.
  - apply stsd_size; exact H.
  - apply stss_size; exact H.
  - apply stsz_size; exact H.
  - apply stts_size; exact H.
  - apply tfdt_size; exact H.
  - apply tfhd_size; exact H.
  - apply tfra_size; exact H.
  - apply tkhd_size; exact H.
  - apply trex_size; exact H.
  - apply trun_size; exact H.
  - apply url_size; exact H.
  - apply urn_size; exact H.
  - apply vmhd_size; exact H.
  - apply vpcc_size; exact H.
  - apply av1c_size; exact H.
  - apply avcc_size; exact H.
  - apply visual_entry_size; exact H.
  - apply audio_entry_size; exact H.
Qed.
