(** Finished files satisfy the hypotheses of the reader's round-trip theorem (C47). *)
From Coq Require Import ZifyBool Sorted.
From Verif Require Import Base BitIO BitFacts BitIOProofs Boxes WireFormat DescriptorSpec Box BoxSpec BoxTac BoxWrite BoxIO BoxSize BoxLemmas Print PrintSpec PrintProofs BoxTree TreeSpec TreeProofs TreeLayout TreePrint TreeRead TreeLemmas H264 Track Writers MovieSpec AnnexBSpec H264Proofs TrackProofs TrakProofs SessionProofs MovieShape Completion MovieSize FileProofs SimpleFile FaststartFile TrackLemmas FileLemmas.
From Coq Require Import Ascii String List.
Import ListNotations.
Open Scope Z_scope.
Open Scope list_scope.

(** * Trees as read *)
Definition plain_box (b : box) : Prop := match b with B_esds x => Forall plain (esds_descriptors x) | _ => True end.
Lemma norm_announced d : (match d with DES _ s _ | DCD _ s _ => 0 <= s | _ => True end) -> forall e, descriptor_norm e = d -> announced d = announced e.
Proof.
  intros H e <-. destruct e as [f s l|f s l|l|l]; cbn [descriptor_norm] in *; auto; set (a := announced _) in *; cbn [announced fold_right].
  - destruct (Z.ltb_spec 0 (a - es_body f)); lia.
  - destruct (Z.ltb_spec 0 (a - 13)); lia.
Qed.
Lemma layout_norm n d : descriptor_layout n (descriptor_norm d) = descriptor_layout n d. Proof. destruct d; reflexivity. Qed.
Lemma absent_norm d : descriptor_absent (descriptor_norm d) <-> descriptor_absent d. Proof. destruct d; reflexivity. Qed.
Lemma esds_as_read_layout x : Forall plain (esds_descriptors x) -> esds_wf (mk_esds (esds_fb x) (map as_read (esds_descriptors x))) ->
  esds_layout (mk_esds (esds_fb x) (map as_read (esds_descriptors x))) = esds_layout x.
Proof.
  intros P (_ & S). unfold esds_layout. cbn [esds_fb esds_descriptors] in *. f_equal. induction P as [|d l Hd P IH]; [reflexivity|]. cbn [map flat_map] in *.
  inversion S as [|? ? S1 S2]; subst. rewrite (IH S2). f_equal. rewrite <- (as_read_norm d Hd) in *. rewrite layout_norm. f_equal.
  apply norm_announced; [|reflexivity]. destruct d; cbn [descriptor_norm] in *; tauto.
Qed.
Lemma written_as_read ch b : plain_box b -> box_wf ch (box_as_read b) -> written b = wire_payload (box_as_read b).
Proof.
  intros P W. destruct b; try (apply (written_wire ch); exact W). cbn [box_as_read plain_box box_wf] in *. match goal with y : esds |- _ => rename y into x end.
  destruct W as (W & W0). pose proof (esds_as_read_layout x P W) as E. pose proof (box_layout_size ch (B_esds (mk_esds (esds_fb x) (map as_read (esds_descriptors x)))) (conj W W0)) as L.
  destruct W as ((W1 & _) & _). rewrite E in W1. destruct (esds_write x W1 _ wwf_init) as (w & Ew & Ww & Wb). rewrite wbits_init in Wb. cbn [app] in Wb.
  unfold written, wire_payload. cbn [Box_writeData box_layout] in *. rewrite Ew, E in *. apply w_os_octets; [exact Ww|exact Wb|]. rewrite L. lia.
Qed.
Definition good (uw : bool) (t : tree) : Prop := tree_wf uw (tree_as_read t) /\ all_boxes plain_box t.
Lemma good_serialize t : forall uw, good uw t -> serialize_with written t = serialize (tree_as_read t).
Proof.
  induction t as [ty b l IH] using tree_ind'. intros uw (W & P). cbn [tree_as_read] in *. rewrite tree_wf_eq in W. rewrite all_boxes_eq in P. destruct W as (_ & _ & _ & W & _ & F), P as (P & Q).
  assert (E : flat_map (serialize_with written) l = flat_map serialize (map tree_as_read l)).
  { clear -IH F Q. revert F Q. generalize (list_eqb ty [119; 97; 118; 101]). intros u F Q. induction IH as [|k l Hk Hl IHl]; [reflexivity|]. cbn [map flat_map] in *. inversion F; inversion Q; subst. rewrite (Hk u), IHl by (try split; assumption). reflexivity. }
  rewrite serialize_eq. cbn [serialize_with]. rewrite E, (written_as_read _ b P W). reflexivity.
Qed.
Lemma good_serialize_all uw l : Forall (good uw) l -> flat_map (serialize_with written) l = flat_map serialize (map tree_as_read l).
Proof. induction 1 as [|t l Ht H IH]; [reflexivity|]. cbn [map flat_map]. rewrite (good_serialize t uw Ht), IH. reflexivity. Qed.
Lemma bytes_check l : forallb (fun x => (0 <=? x) && (x <? 256)) l = true -> bytes l.
Proof. intros H. apply Forall_forall. intros x Hx. rewrite forallb_forall in H. specialize (H x Hx). unfold is_byte. lia. Qed.
Lemma good_node uw ty b l : Nat.eqb (length ty) 4 && forallb (fun x => (0 <=? x) && (x <? 256)) ty = true ->
  BoxMap_getBoxInstance BoxMap_registered ty = box_kind (box_as_read b) -> (forall n, (l = [] -> n = 0) -> box_wf n (box_as_read b)) ->
  (forall a, b = B_audio a -> ase_type a = ty /\ uw = false) -> plain_box b -> Forall (good (list_eqb ty [119; 97; 118; 101])) l -> good uw (T ty b l).
Proof.
  intros A B C D E F. apply andb_true_iff in A as (A1 & A2). split.
  - cbn [tree_as_read]. rewrite tree_wf_eq. split; [apply Nat.eqb_eq, A1|]. split; [apply bytes_check, A2|]. split; [exact B|]. split; [|split].
    + apply C. intros ->. reflexivity.
    + intros a Ea. destruct b; try discriminate. cbn [box_as_read] in Ea. apply D. exact Ea.
    + apply Forall_map. eapply Forall_impl; [|exact F]. intros t (X & _). exact X.
  - rewrite all_boxes_eq. split; [exact E|]. eapply Forall_impl; [|exact F]. intros t (_ & X). exact X.
Qed.
(** ordinary boxes *)
Lemma good_leaf uw ty b : Nat.eqb (length ty) 4 && forallb (fun x => (0 <=? x) && (x <? 256)) ty = true ->
  BoxMap_getBoxInstance BoxMap_registered ty = box_kind (box_as_read b) -> box_wf 0 (box_as_read b) ->
  (forall a, b <> B_audio a) -> plain_box b -> good uw (T ty b []).
Proof. intros A B C D E. apply good_node; auto. - intros n Hn. rewrite Hn by reflexivity. exact C. - intros a Ha. destruct (D a Ha). Qed.
Lemma good_box uw ty l : Nat.eqb (length ty) 4 && forallb (fun x => (0 <=? x) && (x <? 256)) ty = true ->
  BoxMap_getBoxInstance BoxMap_registered ty = K_container -> Forall (good (list_eqb ty [119; 97; 118; 101])) l -> good uw (T ty B_container l).
Proof. intros A B C. apply good_node; auto; [intros; exact I|discriminate|exact I]. Qed.

(** * Values *)
Lemma u32_fits v : fits_u 32 (u32 v). Proof. unfold fits_u, u32. apply Z.mod_pos_bound. lia. Qed.
Lemma to_u_fits n v : 0 <= n -> fits_u n (to_u n v). Proof. intros H. unfold fits_u, to_u. apply Z.mod_pos_bound. apply Z.pow_pos_nonneg; lia. Qed.
Lemma ok_flat_map {A} (f : A -> list field) l : Forall (fun x => fields_ok (f x)) l -> fields_ok (flat_map f l).
Proof. induction 1 as [|x l Hx H IH]; [constructor|]. cbn [flat_map]. apply Forall_app. auto. Qed.
Lemma ok_map {A} (f : A -> field) l : Forall (fun x => field_ok (f x)) l -> fields_ok (map f l).
Proof. intros H. apply Forall_map. exact H. Qed.
Lemma ok_cons f l : field_ok f -> fields_ok l -> fields_ok (f :: l). Proof. constructor; auto. Qed.
Lemma ok_app a b : fields_ok a -> fields_ok b -> fields_ok (a ++ b). Proof. intros. apply Forall_app. auto. Qed.

Record track_bounds (t : track) : Prop := {
  tb_timescale : fits_u 32 (t_timescale t); tb_dts : fits_u 32 (t_duration_ts t); tb_dmv : fits_u 32 (t_duration_mvhd t);
  tb_time : fits_u 32 (t_time t); tb_media : fits_s 32 (t_media_time t); tb_id : fits_u 32 (t_id t); tb_codec : codec_fits (t_codec t);
  tb_sizes : Forall (fits_u 32) (t_sizes t); tb_sizes_n : fits_u 32 (Zlen (t_sizes t));
  tb_durs : Forall (fits_u 32) (t_durations t); tb_durs_n : fits_u 32 (Zlen (t_durations t));
  tb_keys : Forall (fits_u 32) (t_keys t); tb_keys_n : fits_u 32 (Zlen (t_keys t));
  tb_chunks : Forall (fun c => fits_u 64 (c_offset c) /\ fits_u 32 (c_samples c)) (t_chunks t); tb_chunks_n : fits_u 32 (Zlen (t_chunks t)) }.

Lemma stts_loop_fits l : forall d c, fits_u 32 d -> fits_u 32 c -> Forall (fits_u 32) l -> Forall (fun e => fits_u 32 (sttse_sample_count e) /\ fits_u 32 (sttse_sample_duration e)) (stts_loop d c l).
Proof.
  induction l as [|x l IH]; intros d c Hd Hc H; cbn [stts_loop].
  - destruct (c >? 0); constructor; auto.
  - inversion H; subst. destruct (d =? x); [apply IH; auto; apply u32_fits|]. constructor; [auto|]. apply IH; auto. unfold fits_u. lia.
Qed.
Lemma stts_fits ds : Forall (fits_u 32) ds -> Forall (fun e => fits_u 32 (sttse_sample_count e) /\ fits_u 32 (sttse_sample_duration e)) (make_stts_entries ds).
Proof. intros H. destruct H as [|d l Hd H]; [constructor|]. apply stts_loop_fits; auto. unfold fits_u. lia. Qed.
Lemma stsc_loop_fits l : forall p n, fits_u 32 n -> Forall (fun c => fits_u 64 (c_offset c) /\ fits_u 32 (c_samples c)) l ->
  Forall (fun e => fits_u 32 (stsce_first_chunk e) /\ fits_u 32 (stsce_sample_per_chunk e) /\ stsce_sample_description_index e = 1) (stsc_loop p n l).
Proof.
  induction l as [|x l IH]; intros p n Hn H; cbn [stsc_loop]; [constructor|]. inversion H as [|? ? [_ Hx] Hl]; subst.
  destruct (negb _); [constructor; [auto|]|]; apply IH; auto; apply u32_fits.
Qed.

(** * The trak box *)
Lemma fits_u_check n v : (0 <=? v) && (v <? 2 ^ n) = true -> fits_u n v. Proof. unfold fits_u. lia. Qed.
Lemma fits_s_check n v : (- 2 ^ (n - 1) <=? v) && (v <? 2 ^ (n - 1)) = true -> fits_s n v. Proof. unfold fits_s. lia. Qed.
Lemma v_check v : (0 <=? v) && (v <? 2 ^ 28) = true -> 0 <= v < 2 ^ 28. Proof. lia. Qed.
Ltac one_field :=
  cbn [field_ok];
  lazymatch goal with
  | |- True => exact I
  | |- fits_u _ (u32 _) => apply u32_fits
  | |- fits_u _ (to_u _ _) => apply to_u_fits; discriminate
  | |- fits_u ?n (?f ?x) => first [match goal with H : fits_u _ (f x) |- _ => exact H end | apply fits_u_check; reflexivity]
  | |- fits_u ?n ?x => first [match goal with H : fits_u _ x |- _ => exact H end | apply fits_u_check; reflexivity]
  | |- fits_s ?n ?x => first [match goal with H : fits_s _ x |- _ => exact H end | apply fits_s_check; reflexivity]
  | |- bytes ?x => first [match goal with H : bytes x |- _ => exact H end | apply bytes_check; reflexivity]
  | |- 0 <= _ < _ => apply v_check; reflexivity
  end.
Ltac fields := repeat first [apply ok_cons; [one_field|] | apply Forall_nil].
Ltac leaf := apply good_leaf; [reflexivity|reflexivity| |discriminate|exact I].
Ltac cont := apply good_box; [reflexivity|reflexivity|].
Ltac kids := repeat (apply Forall_cons); try apply Forall_nil.

Lemma good_tkhd uw t : track_bounds t -> good uw (tree_of (make_tkhd t)).
Proof.
  intros [B1 B2 B3 B4 B5 B6 B7 _ _ _ _ _ _ _ _]. unfold make_tkhd. cbn [tree_of new_info map]. leaf. cbn [box_as_read box_wf].
  destruct (t_codec t); (split; [reflexivity|]); unfold tkhd_layout, fb_layout, unity_matrix, tbits;
    cbn [tkhd_fb tkhd_creation_time tkhd_modification_time tkhd_track_id tkhd_reserved tkhd_duration tkhd_reserved2 tkhd_reserved3 tkhd_layer tkhd_alternate_group tkhd_volume tkhd_reserved4 tkhd_matrix tkhd_width tkhd_height map app fbox setFlags setVersion fullbox0 fb_version fb_f0 fb_f1 fb_f2 Z.eqb];
    fields.
Qed.
Lemma good_edts uw t : track_bounds t -> good uw (tree_of (make_edts t)).
Proof.
  intros [B1 B2 B3 B4 B5 B6 B7 _ _ _ _ _ _ _ _]. unfold make_edts. cbn [tree_of new_info map]. cont. kids. leaf. cbn [box_as_read box_wf]. unfold elst_wf, elst_layout, fb_layout.
  cbn [elst_fb elst_entries flat_map app elst_entry_layout elste_track_duration elste_media_time elste_media_rate]. change (tbits (fbox 0 0)) with 32%nat. fields.
Qed.
Lemma good_mdhd uw t : track_bounds t -> good uw (tree_of (make_mdhd t)).
Proof.
  intros [B1 B2 B3 B4 B5 B6 B7 _ _ _ _ _ _ _ _]. unfold make_mdhd. cbn [tree_of new_info map]. leaf. cbn [box_as_read box_wf]. split; [reflexivity|]. unfold mdhd_layout, fb_layout.
  cbn [mdhd_fb mdhd_creation_time mdhd_modification_time mdhd_timescale mdhd_duration mdhd_pad mdhd_language mdhd_pre_defined app]. change (tbits (fbox 0 0)) with 32%nat. fields.
Qed.
Lemma bytes_str_shiguredo : bytes (str "shiguredo::mp4") /\ ~ In 0 (str "shiguredo::mp4").
Proof. split; [apply bytes_check; reflexivity|]. intros H. assert (X : existsb (Z.eqb 0) (str "shiguredo::mp4") = true) by (apply existsb_exists; exists 0; auto). discriminate. Qed.
Lemma good_hdlr uw h : good uw (tree_of (make_hdlr (handler_array h) (str "shiguredo::mp4"))).
Proof.
  unfold make_hdlr. cbn [tree_of new_info map]. leaf. cbn [box_as_read box_wf]. split; [|reflexivity]. split; [destruct h; repeat split|]. split; [|split; [reflexivity|left; reflexivity]].
  unfold hdlr_layout, fb_layout. cbn [hdlr_fb hdlr_pre_defined hdlr_handler_type hdlr_manufacturer hdlr_flags hdlr_flags_mask hdlr_name hdlr_padding app].
  destruct h; unfold handler_array; repeat first [apply ok_cons; [first [exact bytes_str_shiguredo|one_field]|]|apply Forall_nil].
Qed.
Lemma good_media_header uw h : good uw (tree_of (make_media_header h)).
Proof.
  destruct h; unfold make_media_header; cbn [tree_of new_info map]; leaf; cbn [box_as_read box_wf].
  - split; [reflexivity|]. unfold vmhd_layout, fb_layout. cbn [vmhd_fb vmhd_graphicsmode vmhd_opcolor app map]. fields.
  - unfold smhd_wf, smhd_layout, fb_layout. cbn [smhd_fb smhd_balance smhd_reserved app]. fields.
Qed.
Lemma good_dinf uw : good uw (tree_of make_dinf).
Proof.
  unfold make_dinf. cbn [tree_of new_info map]. cont. kids. apply good_node; [reflexivity|reflexivity| |discriminate|exact I|].
  - intros n _. cbn [box_as_read box_wf]. unfold dref_wf, dref_layout, fb_layout. cbn [dref_fb dref_entry_count app]. fields.
  - kids. leaf. cbn [box_as_read box_wf]. split; [|reflexivity]. split; [|intros _; reflexivity]. unfold url_layout, fb_layout. cbn [url_fb url_location]. change (flag (fbox 0 1) 0) with true. cbn [negb opt app]. fields.
Qed.

(** ** Sample entries *)
Lemma audio_wf n ty rate : fits_u 32 rate -> audio_entry_wf n (mk_audio_entry ty [0;0;0;0;0;0] 1 0 [0;0;0] 2 16 0 0 rate false [] false).
Proof.
  intros H. split; [split; reflexivity|]. split.
  - unfold audio_entry_layout. cbn [ase_reserved ase_data_reference_index ase_entry_version ase_reserved2 ase_channel_count ase_sample_size ase_pre_defined ase_reserved3 ase_sample_rate ase_is_quick_time_compatible opt app map]. fields.
  - split; [reflexivity|]. split; [intros _; reflexivity|]. cbn [ase_entry_version Z.eqb]. rewrite orb_true_r. reflexivity.
Qed.
Lemma good_visual uw ty w h l : Nat.eqb (length ty) 4 && forallb (fun x => (0 <=? x) && (x <? 256)) ty = true ->
  BoxMap_getBoxInstance BoxMap_registered ty = K_visual -> Forall (good (list_eqb ty [119; 97; 118; 101])) l -> good uw (T ty (visual_sample_entry w h) l).
Proof.
  intros A B C. unfold visual_sample_entry. apply good_node; auto; [|discriminate|exact I]. intros n _. cbn [box_as_read box_wf]. split; [repeat split|].
  unfold visual_entry_layout. cbn [vse_reserved vse_data_reference_index vse_pre_defined vse_reserved2 vse_pre_defined2 vse_width vse_height vse_horizresolution vse_vertresolution vse_reserved3 vse_frame_count vse_compressorname vse_depth vse_pre_defined3 map app].
  fields.
Qed.
Lemma good_audio ty rate l : Nat.eqb (length ty) 4 && forallb (fun x => (0 <=? x) && (x <? 256)) ty = true ->
  BoxMap_getBoxInstance BoxMap_registered ty = K_audio -> fits_u 32 rate -> Forall (good (list_eqb ty [119; 97; 118; 101])) l -> good false (T ty (audio_sample_entry ty rate) l).
Proof.
  intros A B R C. unfold audio_sample_entry. apply good_node; auto; [|intros a Ea; injection Ea as <-; auto|exact I]. intros n _. cbn [box_as_read box_wf]. apply audio_wf. exact R.
Qed.
Lemma good_btrt uw m a : fits_u 32 m -> fits_u 32 a -> good uw (T (str "btrt") (B_btrt (mk_btrt 0 m a)) []).
Proof. intros Hm Ha. leaf. cbn [box_as_read box_wf]. unfold btrt_wf, btrt_layout. cbn [btrt_decoding_buffer_size btrt_max_bitrate btrt_avg_bitrate]. fields. Qed.
Ltac esds_leaf :=
  apply good_leaf; [reflexivity|reflexivity| |discriminate|cbn [plain_box esds_descriptors]; repeat constructor];
  cbn [box_as_read box_wf esds_fb esds_descriptors map]; (split; [|reflexivity]).
Lemma good_entry t : track_bounds t -> good false (tree_of (make_sample_entry t)).
Proof.
  intros [B1 B2 B3 B4 B5 B6 B7 _ _ _ _ _ _ _ _]. unfold make_sample_entry.
  destruct (t_codec t) as [b m a|b m a|p r|v8 w h m a|w h p l ti cx cy cp obus|w h cv pr co lv sps pps]; cbn [codec_fits] in B7; cbv zeta; cbn [tree_of new_info map].
  - destruct B7 as (C1 & C2 & C3). apply good_audio; [reflexivity|reflexivity|apply u32_fits|]. kids; [|apply good_btrt; assumption]. esds_leaf.
    assert (E1 : as_read (dc_descriptor 64 b m a [DSI [17; 144]]) = DCD (mk_dcd_fields 64 5 false true b m a) 7 []) by reflexivity.
    assert (E2 : as_read (es_descriptor (to_u 16 (Z.land 65535 (t_id t))) [dc_descriptor 64 b m a [DSI [17; 144]]; DSL [2]]) = DES (mk_es_fields (to_u 16 (Z.land 65535 (t_id t))) false false false 0 0 [] 0) 31 []) by reflexivity.
    rewrite E1, E2. split; [|repeat constructor; discriminate]. split; [|repeat constructor].
    unfold esds_layout, fb_layout. cbn [esds_fb esds_descriptors as_read flat_map app descriptor_layout es_layout dcd_layout es_ESID es_stream_dependence_flag es_url_flag es_ocr_stream_flag es_stream_priority opt dcd_object_type_indication dcd_stream_type dcd_upstream dcd_reserved dcd_buffer_size_db dcd_max_bitrate dcd_avg_bitrate].
    fields.
  - destruct B7 as (C1 & C2 & C3). apply good_audio; [reflexivity|reflexivity|apply u32_fits|]. kids. esds_leaf.
    assert (E1 : as_read (dc_descriptor 107 b m a []) = DCD (mk_dcd_fields 107 5 false true b m a) 0 []) by reflexivity.
    assert (E2 : as_read (es_descriptor 0 [dc_descriptor 107 b m a []; DSL [2]]) = DES (mk_es_fields 0 false false false 0 0 [] 0) 24 []) by reflexivity.
    rewrite E1, E2. split; [|repeat constructor; discriminate]. split; [|repeat constructor].
    unfold esds_layout, fb_layout. cbn [esds_fb esds_descriptors as_read flat_map app descriptor_layout es_layout dcd_layout es_ESID es_stream_dependence_flag es_url_flag es_ocr_stream_flag es_stream_priority opt dcd_object_type_indication dcd_stream_type dcd_upstream dcd_reserved dcd_buffer_size_db dcd_max_bitrate dcd_avg_bitrate].
    fields.
  - apply good_audio; [reflexivity|reflexivity|apply u32_fits|]. kids. leaf. cbn [box_as_read box_wf]. split; [|reflexivity]. unfold dops_layout.
    cbn [dops_version dops_output_channel_count dops_pre_skip dops_input_sample_rate dops_output_gain dops_channel_mapping_family Z.eqb negb opt app]. fields.
  - destruct B7 as (C1 & C2). apply good_visual; [destruct v8; reflexivity..|]. kids; [| | |apply good_btrt; assumption]; leaf; cbn [box_as_read box_wf].
    + split; [|discriminate]. unfold vpcc_layout, fb_layout. cbn [vpcc_fb vpcc_profile vpcc_level vpcc_bit_depth vpcc_chroma_sub_sampling vpcc_video_full_range_flag vpcc_colour_primaries vpcc_transfer_characteristics vpcc_matrix_coefficients vpcc_codec_initialization_data].
      change (fb_version (fbox 1 0) =? 0) with false. cbn [negb opt app]. fields.
    + unfold fiel_wf, fiel_layout. cbn [fiel_field_count fiel_field_ordering]. fields.
    + unfold pasp_wf, pasp_layout. cbn [pasp_h_spacing pasp_v_spacing]. fields.
  - destruct B7 as (C1 & C2 & C3 & C4 & C5 & C6 & C7). apply good_visual; [reflexivity..|]. kids. leaf. cbn [box_as_read box_wf]. split; [|reflexivity]. unfold av1c_wf, av1c_layout.
    cbn [av1c_marker av1c_version av1c_seq_profile av1c_seq_level_idx_0 av1c_seq_tier_0 av1c_high_bitdepth av1c_twelve_bit av1c_monochrome av1c_chroma_subsampling_x av1c_chroma_subsampling_y av1c_chroma_sample_position av1c_reserved av1c_initial_presentation_delay_present av1c_initial_presentation_delay_minus_one av1c_config_OBUs].
    fields.
  - destruct B7 as (C1 & C2 & C3 & C4 & C5 & C6 & C7). apply good_visual; [reflexivity..|]. kids. leaf. cbn [box_as_read box_wf]. split; [|reflexivity]. split; [|split; [discriminate|intros _; repeat split]].
    apply Forall_app in C7 as (C7 & C8). assert (PS : forall l, Forall (fun p => bytes p /\ Zlen p < 2 ^ 16) l -> fields_ok (flat_map avcc_ps_layout l)).
    { intros l Hl. apply ok_flat_map. eapply Forall_impl; [|exact Hl]. intros q (Q1 & Q2). unfold avcc_ps_layout. pose proof (Zlen_nonneg q). apply ok_cons; [change (fits_u 16 (Zlen q)); unfold fits_u; lia|]. apply ok_cons; [exact Q1|constructor]. }
    pose proof (Zlen_nonneg sps). pose proof (Zlen_nonneg pps).
    unfold avcc_layout. cbn [avcc_configuration_version avcc_profile avcc_profile_compatibility avcc_level avcc_reserved avcc_length_size_minus_one avcc_reserved2 avcc_sps avcc_pps avcc_high_profile_fields_enabled opt].
    assert (fits_u 5 (Zlen sps)) by (unfold fits_u; lia). assert (fits_u 8 (Zlen pps)) by (unfold fits_u; lia).
    apply ok_app; [fields|]. apply ok_app; [apply PS, C7|]. apply ok_cons; [one_field|]. apply ok_app; [apply PS, C8|constructor].
Qed.
Lemma good_offsets uw cs : Forall (fun c => fits_u 64 (c_offset c) /\ fits_u 32 (c_samples c)) cs -> fits_u 32 (Zlen cs) -> good uw (tree_of (make_offset_box cs)).
Proof.
  intros H N. unfold make_offset_box. destruct (use_co64 cs); cbn [tree_of new_info map]; leaf; cbn [box_as_read box_wf].
  - unfold co64_wf, co64_layout, fb_layout. cbn [co64_fb co64_chunk_offsets]. rewrite Zlen_map. cbn [app]. fields. apply ok_map, Forall_map. eapply Forall_impl; [|exact H]. intros c (X & _). exact X.
  - unfold stco_wf, stco_layout, fb_layout. cbn [stco_fb stco_chunk_offsets]. rewrite Zlen_map. cbn [app]. fields. apply ok_map, Forall_map. eapply Forall_impl; [|exact H]. intros c _. apply u32_fits.
Qed.
Lemma good_stbl uw t : track_bounds t -> good uw (tree_of (make_stbl t)).
Proof.
  intros B. pose proof B as [B1 B2 B3 B4 B5 B6 B7 S1 S2 D1 D2 K1 K2 C1 C2].
  assert (G1 : forall u, good u (tree_of (make_stsd t))).
  { intros u. unfold make_stsd. unfold new_info. cbn [tree_of map]. apply good_node; [reflexivity|reflexivity| |discriminate|exact I|kids; apply good_entry; exact B].
    intros n _. cbn [box_as_read box_wf]. unfold stsd_wf, stsd_layout, fb_layout. cbn [stsd_fb stsd_entry_count app]. fields. }
  assert (G2 : forall u, good u (tree_of (make_stts t))).
  { intros u. unfold make_stts. cbn [tree_of new_info map]. leaf. cbn [box_as_read box_wf]. unfold stts_wf, stts_layout, fb_layout. cbn [stts_fb stts_entries app].
    assert (fits_u 32 (Zlen (make_stts_entries (t_durations t)))) by (pose proof (stts_length (t_durations t)); pose proof (Zlen_nonneg (make_stts_entries (t_durations t))); unfold fits_u in *; lia).
    fields. apply ok_flat_map. eapply Forall_impl; [|apply stts_fits; exact D1]. intros e (E1 & E2). unfold stts_entry_layout. fields. }
  assert (G3 : forall u, good u (tree_of (make_stss t))).
  { intros u. unfold make_stss. cbn [tree_of new_info map]. leaf. cbn [box_as_read box_wf]. unfold stss_wf, stss_layout, fb_layout. cbn [stss_fb stss_sample_numbers app]. fields. apply ok_map. exact K1. }
  assert (G4 : forall u, good u (tree_of (make_stsc t))).
  { intros u. unfold make_stsc. cbn [tree_of new_info map]. leaf. cbn [box_as_read box_wf]. unfold stsc_wf, stsc_layout, fb_layout. cbn [stsc_fb stsc_entries app].
    assert (fits_u 32 (Zlen (make_stsc_entries (t_chunks t)))) by (unfold make_stsc_entries; pose proof (stsc_loop_length (t_chunks t) (-1) 1); pose proof (Zlen_nonneg (stsc_loop (-1) 1 (t_chunks t))); unfold fits_u in *; lia).
    fields. apply ok_flat_map. eapply Forall_impl; [|unfold make_stsc_entries; apply stsc_loop_fits; [unfold fits_u; lia|exact C1]]. intros e (E1 & E2 & E3). unfold stsc_entry_layout. rewrite E3. fields. }
  assert (G5 : forall u, good u (tree_of (make_stsz t))).
  { intros u. unfold make_stsz. cbn [tree_of new_info map]. leaf. cbn [box_as_read box_wf]. split; [|discriminate]. unfold stsz_layout, fb_layout. cbn [stsz_fb stsz_sample_size stsz_entry_sizes Z.eqb opt app]. fields. apply ok_map. exact S1. }
  assert (G6 : forall u, good u (tree_of (make_offset_box (t_chunks t)))) by (intros u; apply good_offsets; assumption).
  assert (G7 : forall u r, fits_s 16 r -> good u (tree_of (make_sgpd r))).
  { intros u r R. unfold make_sgpd. cbn [tree_of new_info map]. leaf. cbn [box_as_read box_wf]. split; [reflexivity|]. split.
    - unfold sgpd_layout, fb_layout. cbn [sgpd_fb sgpd_grouping_type sgpd_default_length sgpd_roll_distances]. change (roll_group (str "roll")) with true. change (fb_version (fbox 1 0) =? 1) with true. cbv iota.
      cbn [flat_map roll_distance_layout rd_with_length rd_roll_distance opt app]. fields.
    - repeat split; try constructor; try discriminate; try (split; [reflexivity|intros _; reflexivity]); try constructor. }
  assert (G8 : forall u, good u (tree_of (make_sbgp t))).
  { intros u. unfold make_sbgp. cbn [tree_of new_info map]. leaf. cbn [box_as_read box_wf]. split; [reflexivity|]. split; [|intros _; reflexivity]. unfold sbgp_layout, fb_layout. cbn [sbgp_fb sbgp_grouping_type sbgp_entries]. change (fb_version (fbox 0 0) =? 0) with true.
    cbn [negb opt flat_map app sbgp_entry_layout sbgpe_sample_count sbgpe_group_description_index]. fields. }
  assert (R : fits_s 16 (-1)) by (unfold fits_s; lia).
  unfold make_stbl. cbv zeta. destruct (t_codec t) eqn:Ec; cbn [codec_fits] in B7; unfold new_info; cbn [tree_of map]; cont; kids; auto.
Qed.
Lemma good_trak uw t : track_bounds t -> good uw (tree_of (make_trak t)).
Proof.
  intros B. unfold make_trak. cbv zeta. unfold new_info. cbn [tree_of map]. cont. kids; [apply good_tkhd, B|apply good_edts, B|]. cont. kids; [apply good_mdhd, B|apply good_hdlr|]. cont. kids; [apply good_media_header|apply good_dinf|apply good_stbl, B].
Qed.

(** * Tracks of a session *)
Lemma sync_fits l : Zlen l < 2 ^ 32 -> Forall (fits_u 32) (sync_numbers l).
Proof.
  intros H. apply Forall_forall. intros x Hx. unfold sync_numbers in Hx. apply filter_In in Hx as (Hx & _). apply in_map_iff in Hx as (k & <- & Hk). apply in_seq in Hk. unfold fits_u, Zlen in *. lia.
Qed.
Lemma durations_fit ts : forall d, Forall (fits_u 32) (expected_durations ts d).
Proof. induction ts as [|t l IH]; intros d; cbn [expected_durations]; constructor; auto. apply u32_fits. Qed.
Lemma group_sizes cs gs : Forall2 chunk_ok cs gs -> Forall (fun c => 0 <= c_samples c <= Zlen (concat gs)) cs.
Proof.
  induction 1 as [|c g cs gs (G1 & G2 & G3) H IH]; [constructor|]. cbn [concat]. rewrite Zlen_app. pose proof (Zlen_nonneg g). pose proof (Zlen_nonneg (concat gs)). constructor; [lia|].
  eapply Forall_impl; [|exact IH]. cbv beta. lia.
Qed.
Lemma bounds_ok time ops i t b : samples_fit ops -> track_fits ops i -> fits_u 32 time ->
  (exists o, nth_error (created ops) i = Some o /\ static o time t) ->
  (forall c, codec_of ops i = Some c -> t_codec t = expected_codec c (sps_of i ops) (pps_of i ops)) ->
  (forall c tsc dts dmv mt id, nth_error (created ops) i = Some (O_NewTrack c tsc dts dmv mt id) -> t_media_time t = media_time_of i ops mt) ->
  finished t (recs_of i b (history ops)) -> 0 <= b -> b + Zlen (media ops) < 2 ^ 64 -> track_bounds t.
Proof.
  intros Fit (c & tsc & dts & dmv & mt & id & E & P1 & P2 & P3 & P4 & P5 & P6) Ht (o & Eo & So) Hc Hm [_ Hs Hd Hk (gs & Hr & Hg)] B0 B1.
  rewrite E in Eo. injection Eo as <-. destruct So as (A1 & A2 & A3 & A4 & A5 & A6 & A7).
  assert (Ec : t_codec t = expected_codec c (sps_of i ops) (pps_of i ops)) by (apply Hc; unfold codec_of; rewrite E; reflexivity).
  pose proof (samples_fit_len ops i Fit) as L. pose proof (proj2 (Fit i)) as Sz.
  assert (Es : map snd (recs_of i b (history ops)) = samples_of i ops) by (rewrite recs_of_samples; reflexivity).
  assert (Lr : Zlen (recs_of i b (history ops)) = Zlen (samples_of i ops)) by (rewrite <- Es, Zlen_map; reflexivity).
  assert (L0 : 0 <= Zlen (samples_of i ops) < 2 ^ 32) by (split; [apply Zlen_nonneg|lia]).
  constructor.
  - rewrite A1. destruct c; try exact P1. apply fits_u_check. reflexivity.
  - rewrite A2. exact P2.
  - rewrite A3. exact P3.
  - rewrite A4. exact Ht.
  - rewrite (Hm _ _ _ _ _ _ E). exact P5.
  - rewrite A5. exact P4.
  - rewrite Ec. exact P6.
  - rewrite Hs. apply Forall_map. rewrite <- Es in Sz. rewrite Forall_map in Sz. eapply Forall_impl; [|exact Sz]. cbv beta. intros r Hr'. unfold size_of, fits_u. pose proof (Zlen_nonneg (sm_data (snd r))). lia.
  - rewrite Hs, Zlen_map, Lr. exact L0.
  - rewrite Hd. apply durations_fit.
  - rewrite Hd, expected_durations_length, Zlen_map, Lr. exact L0.
  - rewrite Hk. destruct (is_video (t_codec t)); [|constructor]. rewrite Es. apply sync_fits. lia.
  - rewrite Hk. destruct (is_video (t_codec t)); [|apply fits_u_check; reflexivity]. rewrite Es. pose proof (sync_length (samples_of i ops)). pose proof (Zlen_nonneg (sync_numbers (samples_of i ops))). unfold fits_u. lia.
  - pose proof (group_sizes _ _ Hg) as G. rewrite Hr, Lr in G. pose proof (chunk_offsets_in _ _ Hg) as I. rewrite Hr in I. pose proof (recs_bounds i b (history ops)) as RB. rewrite Forall_forall in RB, G.
    apply Forall_forall. intros ch Hin. destruct (I ch Hin) as (s & Is). specialize (RB _ Is). specialize (G ch Hin). cbn [fst] in RB. rewrite <- media_octets in RB. unfold size_of in RB. cbn [snd] in RB. pose proof (Zlen_nonneg (sm_data s)). unfold fits_u. split; lia.
  - pose proof (chunk_count _ _ Hg) as C. rewrite Hr, Lr in C. pose proof (Zlen_nonneg (t_chunks t)). unfold fits_u. lia.
Qed.

(** * Files *)
Lemma good_udta uw : good uw udta_tree.
Proof.
  unfold udta_tree. cont. kids. apply good_node; [reflexivity|reflexivity|intros n _; reflexivity|discriminate|exact I|]. kids.
  - leaf. cbn [box_as_read box_wf]. split; [|reflexivity]. split; [repeat split|]. split; [|split; [reflexivity|left; reflexivity]].
    unfold hdlr_layout, fb_layout. cbn [hdlr_fb hdlr_pre_defined hdlr_handler_type hdlr_manufacturer hdlr_flags hdlr_flags_mask hdlr_name hdlr_padding app fb_version fb_f0 fb_f1 fb_f2].
    repeat first [apply ok_cons; [first [split; [constructor|intros []]|one_field]|]|apply Forall_nil].
  - cont. kids. cont. kids. leaf. cbn [box_as_read box_wf]. split; [|reflexivity]. unfold data_wf, data_layout. cbn [data_type data_lang data_data]. fields.
Qed.
Lemma good_moov uw timescale duration time id traks : fits_u 32 timescale -> fits_u 32 duration -> fits_u 32 time -> fits_u 32 id -> Forall (good false) traks ->
  good uw (moov_tree timescale duration time id traks).
Proof.
  intros A B C D F. unfold moov_tree. cont. apply Forall_cons.
  - leaf. cbn [box_as_read box_wf]. split; [reflexivity|]. split; [reflexivity|]. unfold mvhd_layout, fb_layout, mvhd_of.
    cbn [mvhd_fb mvhd_creation_time mvhd_modification_time mvhd_timescale mvhd_duration mvhd_rate mvhd_volume mvhd_reserved mvhd_reserved2 mvhd_reserved3 mvhd_matrix mvhd_pre_defined mvhd_next_track_id map app]. change (tbits (fbox 0 0)) with 32%nat. fields.
  - apply Forall_app. split; [exact F|]. kids. apply good_udta.
Qed.
Lemma good_ftyp uw ft : box_wf 0 (B_ftyp ft) -> good uw (ftyp_tree ft). Proof. intros H. unfold ftyp_tree. leaf. exact H. Qed.
Lemma good_mdat uw m : bytes m -> good uw (mdat_tree m). Proof. intros H. unfold mdat_tree. leaf. split; [exact H|reflexivity]. Qed.
Lemma good_free uw m : Forall (good uw) (free_trees m).
Proof. unfold free_trees. destruct (_ <? _); kids. leaf. split; [constructor|reflexivity]. Qed.

(** * Reading the tables of trees as read *)
Lemma type_as_read ty t : is_type ty (tree_as_read t) = is_type ty t. Proof. destruct t; reflexivity. Qed.
Lemma kids_as_read t : tree_kids (tree_as_read t) = map tree_as_read (tree_kids t). Proof. destruct t; reflexivity. Qed.
Lemma filter_as_read ty l : kids_of_type ty (map tree_as_read l) = map tree_as_read (kids_of_type ty l).
Proof. unfold kids_of_type. induction l as [|t l IH]; [reflexivity|]. cbn [map filter]. rewrite type_as_read, IH. destruct (is_type ty t); reflexivity. Qed.
Lemma the_kid_as_read ty l : the_kid ty (map tree_as_read l) = option_map tree_as_read (the_kid ty l).
Proof. unfold the_kid. rewrite filter_as_read. destruct (kids_of_type ty l) as [|a [|b x]]; reflexivity. Qed.
Lemma obnd_map {A B C} (f : A -> B) (o : option A) (g : B -> option C) : obnd (option_map f o) g = obnd o (fun x => g (f x)). Proof. destruct o; reflexivity. Qed.
Lemma obnd_ext {A B} (o : option A) (f g : A -> option B) : (forall x, f x = g x) -> obnd o f = obnd o g. Proof. intros H. destruct o; cbn [obnd]; auto. Qed.
Lemma chunk_offsets_as_read l : chunk_offsets (map tree_as_read l) = chunk_offsets l.
Proof. unfold chunk_offsets. rewrite !filter_as_read. destruct (kids_of_type t_stco l) as [|[ty b k] [|y m]], (kids_of_type t_co64 l) as [|[ty' b' k'] [|y' m']]; try reflexivity; try (destruct b; reflexivity); destruct b'; reflexivity. Qed.
Lemma sample_sizes_as_read l : sample_sizes (map tree_as_read l) = sample_sizes l.
Proof. unfold sample_sizes. rewrite the_kid_as_read. destruct (the_kid t_stsz l) as [[ty b k]|]; [destruct b|]; reflexivity. Qed.
Lemma stsc_as_read l : stsc_table (map tree_as_read l) = stsc_table l.
Proof. unfold stsc_table. rewrite the_kid_as_read. destruct (the_kid t_stsc l) as [[ty b k]|]; [destruct b|]; reflexivity. Qed.
Lemma stts_as_read l : stts_table (map tree_as_read l) = stts_table l.
Proof. unfold stts_table. rewrite the_kid_as_read. destruct (the_kid t_stts l) as [[ty b k]|]; [destruct b|]; reflexivity. Qed.
Lemma sync_as_read l : sync_table (map tree_as_read l) = sync_table l.
Proof. unfold sync_table. rewrite filter_as_read. destruct (kids_of_type t_stss l) as [|[ty b k] [|y m]]; try reflexivity; try (destruct b; reflexivity). Qed.
Lemma trak_as_read t : read_trak (tree_as_read t) = read_trak t.
Proof.
  unfold read_trak. rewrite !kids_as_read, !the_kid_as_read. destruct (the_kid t_tkhd (tree_kids t)) as [[ty b k]|]; [|reflexivity]. cbn [option_map tree_as_read]. destruct b; try reflexivity. cbn [box_as_read].
  rewrite obnd_map. apply obnd_ext. intros mdia. rewrite !kids_as_read, !the_kid_as_read. destruct (the_kid t_mdhd (tree_kids mdia)) as [[ty' b' k']|]; [|reflexivity]. cbn [option_map tree_as_read]. destruct b'; try reflexivity. cbn [box_as_read].
  rewrite obnd_map. apply obnd_ext. intros minf. rewrite !kids_as_read, !the_kid_as_read, obnd_map. apply obnd_ext. intros stbl. rewrite !kids_as_read, !the_kid_as_read, obnd_map. apply obnd_ext. intros _.
  rewrite chunk_offsets_as_read, sample_sizes_as_read, stsc_as_read, stts_as_read, sync_as_read. reflexivity.
Qed.
Lemma movie_as_read l : read_movie (map tree_as_read l) = read_movie l.
Proof.
  unfold read_movie. rewrite the_kid_as_read, obnd_map. apply obnd_ext. intros moov. rewrite kids_as_read, filter_as_read, map_map. f_equal. apply map_ext. intros t. apply trak_as_read.
Qed.

(** * Both writers *)
Lemma list_of_f2 {A B C} (P : A -> B -> Prop) (f : B -> C) l l' : Forall2 (fun a c => exists b, P a b /\ c = f b) l l' -> exists bs, Forall2 P l bs /\ l' = map f bs.
Proof. induction 1 as [|a c l l' (b & H & ->) F (bs & G & ->)]; [exists []; split; [constructor|reflexivity]|]. exists (b :: bs). split; [constructor; assumption|reflexivity]. Qed.
Lemma moov_octets time ops sel (g : track -> track) ts0 timescale duration id :
  Forall2 (fun i t => exists b b', tinv time b i ops t /\ finished (g t) (recs_of i b' (history ops)) /\ t_codec (g t) = t_codec t) sel ts0 ->
  Zlen (serialize_with written (moov_tree timescale duration time id (map (fun t => tree_of (make_trak (g t))) ts0))) <= moov_bound ops sel - 3096.
Proof.
  intros H. pose proof (traks_bound time ops sel g ts0 H) as B. pose proof (moov_size timescale duration time id (map (fun t => make_trak (g t)) ts0)) as M.
  unfold moov_tree. rewrite <- udta_ok. rewrite <- (map_map (fun t => make_trak (g t)) tree_of), <- moov_node_tree. rewrite sound_size; [lia|]. apply sound_moov_node, Forall_map, Forall_forall. intros t _. apply sound_trak.
Qed.
Lemma printable_as_read t : all_boxes box_printable t -> all_boxes box_printable (tree_as_read t).
Proof.
  induction t as [ty b l IH] using tree_ind'. cbn [tree_as_read]. rewrite !all_boxes_eq, Forall_map. intros (A & B). split; [destruct b; exact A|]. rewrite Forall_forall in *. auto.
Qed.
Lemma printable_moov timescale duration time id traks : time_printable time -> Forall (all_boxes box_printable) traks -> all_boxes box_printable (moov_tree timescale duration time id traks).
Proof.
  intros P F. unfold moov_tree. rewrite all_boxes_eq. split; [exact I|]. constructor; [rewrite all_boxes_eq; split; [split; exact P|constructor]|].
  apply Forall_app. split; [exact F|]. constructor; [|constructor]. rewrite <- udta_ok. apply printed_udta.
Qed.
Lemma file_back time file ops sel boxes infos name : Forall (good false) boxes -> Forall (all_boxes box_printable) boxes -> file = flat_map (serialize_with written) boxes -> Zlen file < 2 ^ 64 - 16 ->
  read_movie boxes = Some (map Some infos) -> Forall2 (describes file ops) sel infos -> fits_u 32 time ->
  exists ns text, SimpleReader_read name file = Some (Ok (ns, text)) /\ map tree_of ns = map tree_as_read boxes /\ laid_out_all ns 0 /\ total_announced ns = Zlen file /\
    read_movie (map tree_of ns) = Some (map Some infos).
Proof.
  intros G Pr E L R D _. rewrite (good_serialize_all false boxes G) in E. subst file.
  destruct (reader_roundtrip name (map tree_as_read boxes)) as (ns & N1 & N2 & N3 & N4 & _); [apply Forall_map; eapply Forall_impl; [|exact G]; intros t (X & _); exact X|exact L|].
  destruct (read_ok name _ ns N1) as (text & Rt & _).
  { apply (Forall_map tree_of), (Forall_impl _ (printable_prints)). rewrite N2. apply Forall_map. eapply Forall_impl; [|exact Pr]. exact printable_as_read. }
  exists ns, text. rewrite N2, movie_as_read. auto.
Qed.
Lemma ftyp_wf_typed ft : box_wf 0 (B_ftyp ft) -> ftyp_ok ft.
Proof. intros ((A & B & _) & _). split; assumption. Qed.

Section Back.
Variables (timescale duration time : Z) (ft : ftyp) (ops : list op) (sel : list nat).
Hypothesis (Ft : box_wf 0 (B_ftyp ft)) (Rec : recording ops) (Sel : chosen ops sel) (Fits : movie_fits ft ops sel) (Bytes : bytes (media ops)).
Hypothesis (P1 : fits_u 32 timescale) (P2 : fits_u 32 duration) (P3 : fits_u 32 time) (P4 : Forall (track_fits ops) sel).

Lemma traks_good cls (g : track -> track) b b' traks : 0 <= b' -> b' + Zlen (media ops) < 2 ^ 64 ->
  (forall i t, tinv time b i ops t -> finished (g t) (recs_of i b' (history ops))) ->
  (forall o t, static o time t -> static o time (g t)) -> (forall t, t_codec (g t) = t_codec t /\ t_media_time (g t) = t_media_time t) ->
  Forall2 (fun i tr => exists t, nth_error (s_tracks (fst (run (start cls timescale duration time ft) (O_WriteFtyp :: ops)))) i = Some t /\ tinv time b i ops t /\ tr = tree_of (make_trak (g t))) sel traks ->
  Forall (good false) traks /\ Zlen (serialize_with written (moov_tree timescale duration time (u32 (1 + ids_issued ops)) traks)) <= moov_bound ops sel - 3096.
Proof.
  intros B0 B1 Gf Gs Gc H. pose proof (ftyp_wf_typed ft Ft) as Fo. destruct (movie_fits_media _ _ _ Fo Fits) as (M1 & _ & _).
  pose proof (session_tracks cls timescale duration time ft ops Fo M1 Rec) as Sh. split.
  - clear -H Sh P3 P4 Rec B0 B1 Gf Gs Gc. induction H as [|i tr l traks (t & Et & T & ->) H IH]; [constructor|]. inversion P4 as [|? ? P5 P6]; subst. constructor; [|apply IH; exact P6]. apply good_trak.
    destruct (sh_tracks _ _ _ Sh i t Et) as ((o & Eo & So) & _ & Hc & Hm). eapply (bounds_ok time ops i (g t) b' (rec_fit _ Rec) P5 P3); [exists o; auto|rewrite (proj1 (Gc t)); exact Hc| |apply Gf; exact T|exact B0|exact B1].
    intros c tsc dts dmv mt id E. rewrite (proj2 (Gc t)). exact (Hm _ _ _ _ _ _ E).
  - destruct (list_of_f2 (fun i t => tinv time b i ops t) (fun t => tree_of (make_trak (g t))) sel traks) as (ts0 & H0 & ->).
    { eapply f2_impl; [|exact H]. cbv beta. intros i tr (t & _ & T & E). exists t. auto. }
    apply moov_octets. eapply f2_impl; [|exact H0]. cbv beta. intros i t T. exists b, b'. split; [exact T|]. split; [apply Gf; exact T|apply Gc].
Qed.
Lemma time32 : time_printable time.
Proof. unfold time_printable. unfold fits_u in P3. lia. Qed.
Lemma traks_printable (g : track -> track) base cls traks : (forall t, t_time (g t) = t_time t) ->
  Forall2 (fun i tr => exists t, nth_error (s_tracks (fst (run (start cls timescale duration time ft) (O_WriteFtyp :: ops)))) i = Some t /\ tinv time base i ops t /\ tr = tree_of (make_trak (g t))) sel traks ->
  Forall (all_boxes box_printable) traks.
Proof.
  intros G H. pose proof time32 as Tp. clear -G H Tp. induction H as [|i tr l traks (t & _ & T & ->) H IH]; [constructor|]. constructor; [|exact IH].
  apply printed_trak. rewrite G, (tinv_time _ _ _ _ _ T). exact Tp.
Qed.
Lemma Fcodec S t : t_codec (F S t) = t_codec t /\ t_media_time (F S t) = t_media_time t.
Proof. unfold F, Track_resetChunkOffsets. cbn [t_codec t_media_time]. split; apply finalize_same. Qed.

Lemma simple_back name : let file := output (fst (run (start Simple timescale duration time ft) (simple_program ops sel))) in
  exists ns text traks, let boxes := [ftyp_tree ft] ++ free_trees (media ops) ++ [mdat_tree (media ops)] ++ [moov_tree timescale duration time (u32 (1 + ids_issued ops)) traks] in
    file = flat_map (serialize_with written) boxes /\ describes_all time file ops sel traks /\
    SimpleReader_read name file = Some (Ok (ns, text)) /\ map tree_of ns = map tree_as_read boxes /\ laid_out_all ns 0 /\ total_announced ns = Zlen file /\
    (exists infos, read_movie (map tree_of ns) = Some (map Some infos) /\ Forall2 (describes file ops) sel infos) /\
    Forall (good false) boxes /\ Forall (all_boxes box_printable) boxes /\ Forall (fun tr => exists t, tr = tree_of (make_trak t)) traks.
Proof.
  cbv zeta. pose proof (ftyp_wf_typed ft Ft) as Fo. destruct (movie_fits_media _ _ _ Fo Fits) as (M1 & M2 & M3).
  destruct (simple_session timescale duration time ft ops sel time32 Fo Rec Sel Fits) as (_ & _ & traks0 & E0 & D0 & T0). cbv zeta in *.
  destruct (traks_good Simple Track_finalize (Zlen (ftyp_octets ft) + 16) (Zlen (ftyp_octets ft) + 16) traks0) as (Gt & Lt); auto.
  { pose proof (Zlen_nonneg (ftyp_octets ft)). lia. }
  { pose proof (ftyp_size ft Fo). unfold movie_fits in Fits. lia. }
  { intros i t T. apply recorded_finalize, (ti_rec _ _ _ _ _ T). }
  { intros o t. apply static_finalize. }
  { intros t. split; apply finalize_same. }
  set (file := output _) in *. unfold output in *.
  set (boxes := [ftyp_tree ft] ++ free_trees (media ops) ++ [mdat_tree (media ops)] ++ [moov_tree timescale duration time (u32 (1 + ids_issued ops)) traks0]).
  assert (Ef : file = flat_map (serialize_with written) boxes).
  { unfold file. rewrite E0. unfold boxes. rewrite flat_map4, free_octets. rewrite mdat_octets by exact Bytes. change (serialize_with written (ftyp_tree ft)) with (ftyp_octets ft). unfold moov_tree. rewrite <- udta_ok. rewrite <- !app_assoc. reflexivity. }
  assert (Da : describes_all time file ops sel traks0).
  { pose proof (session_tracks Simple timescale duration time ft ops Fo M1 Rec) as H. unfold describes_all. pose proof (f2_and _ _ _ _ D0 T0) as X. unfold file. rewrite E0. eapply f2_impl; [|exact X]. cbv beta. intros i tr ((A1 & A2) & t & Et & _ & ->). split; [exact A1|]. split; [exact A2|].
    eapply configured_ok; [exact H|exact (rec_fit _ Rec)|exact Et|intros o; apply static_finalize|apply finalize_same..]. }
  assert (NM : Forall (fun t => is_type t_moov t = false) ([ftyp_tree ft] ++ free_trees (media ops) ++ [mdat_tree (media ops)])).
  { apply Forall_app. split; [repeat constructor|]. apply Forall_app. split; [unfold free_trees; destruct (_ <? _); repeat constructor|repeat constructor]. }
  destruct (describes_read time file ops sel traks0 _ [] timescale duration (u32 (1 + ids_issued ops)) Da NM (Forall_nil _)) as (infos & X & Y).
  rewrite app_nil_r, <- !app_assoc in X. change (read_movie boxes = Some (map Some infos)) in X.
  assert (L : Zlen file < 2 ^ 64 - 16).
  { rewrite Ef. unfold boxes. rewrite flat_map4, free_octets, mdat_octets by exact Bytes. change (serialize_with written (ftyp_tree ft)) with (ftyp_octets ft). rewrite !Zlen_app.
    pose proof (free_mdat_length (media ops)) as FL. rewrite Zlen_app in FL. pose proof (ftyp_size ft Fo). unfold movie_fits in Fits. lia. }
  assert (G : Forall (good false) boxes).
  { unfold boxes. apply Forall_app. split; [constructor; [apply good_ftyp; exact Ft|constructor]|]. apply Forall_app. split; [apply good_free|]. apply Forall_app. split; [constructor; [apply good_mdat; exact Bytes|constructor]|].
    constructor; [|constructor]. apply good_moov; auto. apply u32_fits. }
  assert (Pr : Forall (all_boxes box_printable) boxes).
  { unfold boxes. apply Forall_app. split; [repeat constructor|]. apply Forall_app. split; [unfold free_trees; destruct (_ <? _); repeat constructor|]. constructor; [repeat constructor|].
    constructor; [|constructor]. apply printable_moov; [exact time32|]. eapply traks_printable; [|exact T0]. exact finalize_time. }
  destruct (file_back time file ops sel boxes infos name) as (ns & text & N1 & N2 & N3 & N4 & N5); auto.
  exists ns, text, traks0. fold boxes. split; [exact Ef|]. split; [exact Da|]. split; [exact N1|]. split; [exact N2|]. split; [exact N3|]. split; [exact N4|]. split; [exists infos; auto|]. split; [exact G|]. split; [exact Pr|]. clear -T0. induction T0 as [|i tr l traks (t & _ & _ & ->) H IH]; constructor; [eexists; reflexivity|exact IH].
Qed.
Lemma faststart_back name : let file := output (fst (run (start Faststart timescale duration time ft) (faststart_program ops sel))) in
  exists ns text traks, let boxes := [ftyp_tree ft] ++ [moov_tree timescale duration time (u32 (1 + ids_issued ops)) traks] ++ [mdat_tree (media ops)] in
    file = flat_map (serialize_with written) boxes /\ describes_all time file ops sel traks /\
    SimpleReader_read name file = Some (Ok (ns, text)) /\ map tree_of ns = map tree_as_read boxes /\ laid_out_all ns 0 /\ total_announced ns = Zlen file /\
    (exists infos, read_movie (map tree_of ns) = Some (map Some infos) /\ Forall2 (describes file ops) sel infos) /\
    Forall (good false) boxes /\ Forall (all_boxes box_printable) boxes /\ Forall (fun tr => exists t, tr = tree_of (make_trak t)) traks.
Proof.
  cbv zeta. pose proof (ftyp_wf_typed ft Ft) as Fo. destruct (movie_fits_media _ _ _ Fo Fits) as (M1 & M2 & M3).
  destruct (faststart_session timescale duration time ft ops sel time32 Fo Rec Sel Fits) as (_ & _ & S & traks0 & E0 & D0 & T0 & S0 & S1 & _). cbv zeta in *.
  destruct (traks_good Faststart (F S) 0 (0 + S) traks0) as (Gt & Lt); auto; try lia.
  { intros i t T. apply (tinv_shift_finished time 0 ops i t S T); lia. }
  { intros o t. apply static_F. }
  { intros t. apply Fcodec. }
  set (file := output _) in *. unfold output in *.
  set (boxes := [ftyp_tree ft] ++ [moov_tree timescale duration time (u32 (1 + ids_issued ops)) traks0] ++ [mdat_tree (media ops)]).
  assert (Ef : file = flat_map (serialize_with written) boxes).
  { unfold file. rewrite E0. unfold boxes. rewrite flat_map3. rewrite mdat_octets by exact Bytes. change (serialize_with written (ftyp_tree ft)) with (ftyp_octets ft). unfold moov_tree. rewrite <- udta_ok. rewrite <- !app_assoc. reflexivity. }
  assert (Da : describes_all time file ops sel traks0).
  { pose proof (session_tracks Faststart timescale duration time ft ops Fo M1 Rec) as H. unfold describes_all. pose proof (f2_and _ _ _ _ D0 T0) as X. unfold file. rewrite E0. eapply f2_impl; [|exact X]. cbv beta. intros i tr ((A1 & A2) & t & Et & _ & ->). split; [exact A1|]. split; [exact A2|].
    eapply configured_ok; [exact H|exact (rec_fit _ Rec)|exact Et|intros o; apply static_F| | |]; unfold F, Track_resetChunkOffsets; cbn [t_codec t_media_time t_sizes]; apply finalize_same. }
  destruct (describes_read time file ops sel traks0 [ftyp_tree ft] [mdat_tree (media ops)] timescale duration (u32 (1 + ids_issued ops)) Da) as (infos & X & Y); [repeat constructor..|].
  change (read_movie boxes = Some (map Some infos)) in X.
  assert (L : Zlen file < 2 ^ 64 - 16).
  { rewrite Ef. unfold boxes. rewrite flat_map3, mdat_octets by exact Bytes. change (serialize_with written (ftyp_tree ft)) with (ftyp_octets ft). rewrite !Zlen_app, frame_header_length by reflexivity.
    pose proof (frame_hs (Zlen (media ops))). pose proof (ftyp_size ft Fo). unfold movie_fits in Fits. lia. }
  assert (G : Forall (good false) boxes).
  { unfold boxes. apply Forall_app. split; [constructor; [apply good_ftyp; exact Ft|constructor]|]. apply Forall_app. split; [|constructor; [apply good_mdat; exact Bytes|constructor]].
    constructor; [|constructor]. apply good_moov; auto. apply u32_fits. }
  assert (Pr : Forall (all_boxes box_printable) boxes).
  { unfold boxes. constructor; [repeat constructor|]. constructor; [|repeat constructor].
    apply printable_moov; [exact time32|]. eapply traks_printable; [|exact T0]. exact (F_time S). }
  destruct (file_back time file ops sel boxes infos name) as (ns & text & N1 & N2 & N3 & N4 & N5); auto.
  exists ns, text, traks0. fold boxes. split; [exact Ef|]. split; [exact Da|]. split; [exact N1|]. split; [exact N2|]. split; [exact N3|]. split; [exact N4|]. split; [exists infos; auto|]. split; [exact G|]. split; [exact Pr|]. clear -T0. induction T0 as [|i tr l traks (t & _ & _ & ->) H IH]; constructor; [eexists; reflexivity|exact IH].
Qed.
End Back.
(** checks for examples *)
Lemma ftyp_wf_check ft : Nat.eqb (length (ftyp_major_brand ft)) 4 && forallb (fun l => Nat.eqb (length l) 4) (ftyp_compatible_brands ft) &&
  forallb (forallb (fun x => (0 <=? x) && (x <? 256))) (ftyp_major_brand ft :: ftyp_compatible_brands ft) && ((0 <=? ftyp_minor_version ft) && (ftyp_minor_version ft <? 2 ^ 32)) = true -> box_wf 0 (B_ftyp ft).
Proof.
  intros H. apply andb_true_iff in H as (H & H4). apply andb_true_iff in H as (H & H3). apply andb_true_iff in H as (H1 & H2). cbn [forallb] in H3. apply andb_true_iff in H3 as (H3 & H5).
  split; [|reflexivity]. split; [apply Nat.eqb_eq, H1|]. split.
  - apply Forall_forall. intros x Hx. rewrite forallb_forall in H2. apply Nat.eqb_eq, H2, Hx.
  - unfold ftyp_layout. apply ok_cons; [apply bytes_check, H3|]. apply ok_cons; [apply fits_u_check, H4|]. apply ok_map. apply Forall_forall. intros x Hx. rewrite forallb_forall in H5. apply bytes_check, H5, Hx.
Qed.
