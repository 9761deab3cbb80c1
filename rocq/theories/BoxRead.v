(** Every readData recovers the members from the bits of the layout. *)
From Coq Require Import ZifyBool.
From Verif Require Import Base BitIO BitFacts BitIOProofs Boxes WireFormat BoxTac BoxWrite.

Ltac rbox b := destruct b; cbn in *; rgo.

Lemma btrt_read b rest : renc Btrt_readData (btrt_layout b) rest b.
Proof. unfold Btrt_readData, btrt_layout. destruct b. rgo. Qed.
Lemma co64_read b rest : renc Co64_readData (co64_layout b) rest b.
Proof. destruct b. unfold Co64_readData, co64_layout. rgo. Qed.
Lemma ctts_read b rest : renc Ctts_readData (ctts_layout b) rest b.
Proof. destruct b. unfold Ctts_readData, ctts_layout. rgo. destruct x. unfold CttsEntry_readData, ctts_entry_layout. rgo. Qed.
Lemma dref_read b rest : renc Dref_readData (dref_layout b) rest b.
Proof. destruct b. unfold Dref_readData, dref_layout. rgo. Qed.
Lemma data_read b : renc Data_readData (data_layout b) [] b.
Proof. destruct b. unfold Data_readData, data_layout. rgo. Qed.
Lemma elst_read b rest : renc Elst_readData (elst_layout b) rest b.
Proof. destruct b. unfold Elst_readData, elst_layout. rgo. destruct x. unfold ElstEntry_readData, elst_entry_layout. rgo. Qed.
Lemma fiel_read b rest : renc Fiel_readData (fiel_layout b) rest b.
Proof. destruct b. unfold Fiel_readData, fiel_layout. rgo. Qed.
Lemma free_read d : renc Free_readData (raw_layout d) [] d. Proof. apply renc_rest. Qed.
Lemma mdat_read d : renc Mdat_readData (raw_layout d) [] d. Proof. apply renc_rest. Qed.
Lemma skip_read d : renc Skip_readData (raw_layout d) [] d. Proof. apply renc_rest. Qed.
Lemma unsupported_read d : renc Unsupported_readData (raw_layout d) [] d. Proof. apply renc_rest. Qed.
Lemma mehd_read b rest : renc Mehd_readData (mehd_layout b) rest b.
Proof. destruct b. unfold Mehd_readData, mehd_layout. rgo. Qed.
Lemma mfhd_read b rest : renc Mfhd_readData (mfhd_layout b) rest b.
Proof. destruct b. unfold Mfhd_readData, mfhd_layout. rgo. Qed.
Lemma mfro_read b rest : renc Mfro_readData (mfro_layout b) rest b.
Proof. destruct b. unfold Mfro_readData, mfro_layout. rgo. Qed.
Lemma mvhd_read b rest : len_is 9 (mvhd_matrix b) -> len_is 6 (mvhd_pre_defined b) -> renc Mvhd_readData (mvhd_layout b) rest b.
Proof. destruct b. intros. unfold Mvhd_readData, mvhd_layout. rgo. Qed.
Lemma pasp_read b rest : renc PixelAspectRatio_readData (pasp_layout b) rest b.
Proof. destruct b. unfold PixelAspectRatio_readData, pasp_layout. rgo. Qed.
Lemma sidx_read b rest : renc Sidx_readData (sidx_layout b) rest b.
Proof. destruct b. unfold Sidx_readData, sidx_layout. rgo. destruct x. unfold SidxReference_readData, sidx_ref_layout. rgo. Qed.
Lemma stco_read b rest : renc Stco_readData (stco_layout b) rest b.
Proof. destruct b. unfold Stco_readData, stco_layout. rgo. Qed.
Lemma stsc_read b rest : renc Stsc_readData (stsc_layout b) rest b.
Proof. destruct b. unfold Stsc_readData, stsc_layout. rgo. destruct x. unfold StscEntry_readData, stsc_entry_layout. rgo. Qed.
Lemma stsd_read b rest : renc Stsd_readData (stsd_layout b) rest b.
Proof. destruct b. unfold Stsd_readData, stsd_layout. rgo. Qed.
Lemma stss_read b rest : renc Stss_readData (stss_layout b) rest b.
Proof. destruct b. unfold Stss_readData, stss_layout. rgo. Qed.
Lemma stts_read b rest : renc Stts_readData (stts_layout b) rest b.
Proof. destruct b. unfold Stts_readData, stts_layout. rgo. destruct x. unfold SttsEntry_readData, stts_entry_layout. rgo. Qed.
Lemma tfdt_read b rest : renc Tfdt_readData (tfdt_layout b) rest b.
Proof. destruct b. unfold Tfdt_readData, tfdt_layout. rgo. Qed.
Lemma tkhd_read b rest : len_is 9 (tkhd_matrix b) -> renc Tkhd_readData (tkhd_layout b) rest b.
Proof. destruct b. intros. unfold Tkhd_readData, tkhd_layout. rgo. Qed.
Lemma trex_read b rest : renc Trex_readData (trex_layout b) rest b.
Proof. destruct b. unfold Trex_readData, trex_layout. rgo. Qed.
Lemma vmhd_read b rest : len_is 3 (vmhd_opcolor b) -> renc Vmhd_readData (vmhd_layout b) rest b.
Proof. destruct b. intros. unfold Vmhd_readData, vmhd_layout. rgo. Qed.
Lemma av1c_read b : renc AV1CodecConfiguration_readData (av1c_layout b) [] b.
Proof. destruct b. unfold AV1CodecConfiguration_readData, av1c_layout. rgo. Qed.
Lemma visual_entry_read b rest : visual_entry_shape b -> renc VisualSampleEntry_readData (visual_entry_layout b) rest b.
Proof. unfold visual_entry_shape. destruct b. intros (? & ? & ?). unfold VisualSampleEntry_readData, visual_entry_layout. rgo. Qed.

(** Values needed by tests on what was read. *)
Lemma Zlen_enc_FO l : Zlen (enc [FO l]) = 8 * Zlen l.
Proof. rewrite enc_one. apply Zlen_bits_of. Qed.
Lemma Zlen_enc_FS s : Zlen (enc [FS s]) = 8 * Zlen s + 8.
Proof. rewrite enc_one. cbn [field_bits]. rewrite Zlen_bits_of, Zlen_app. change (Zlen [0]) with 1. lia. Qed.
Lemma Zlen_enc_cons f l : Zlen (enc (f :: l)) = Zlen (field_bits f) + Zlen (enc l).
Proof. rewrite enc_cons. apply Zlen_app. Qed.
Lemma Zlen_field_FU n v : Zlen (field_bits (FU n v)) = Z.of_nat n. Proof. apply Zlen_be. Qed.
Lemma Zlen_field_FI n v : Zlen (field_bits (FI n v)) = Z.of_nat n. Proof. apply Zlen_be. Qed.
Lemma Zlen_field_FO l : Zlen (field_bits (FO l)) = 8 * Zlen l. Proof. apply Zlen_bits_of. Qed.
Lemma Zlen_field_FS s : Zlen (field_bits (FS s)) = 8 * Zlen s + 8.
Proof. rewrite <- Zlen_enc_FS, enc_one. reflexivity. Qed.
Lemma Zlen_enc_nil : Zlen (enc []) = 0. Proof. reflexivity. Qed.
Ltac zlen_in_goal := repeat rewrite ?app_nil_r, ?Zlen_app, ?Zlen_enc_cons, ?Zlen_field_FU, ?Zlen_field_FI, ?Zlen_field_FO, ?Zlen_field_FS, ?Zlen_enc_nil.

Lemma list_eqb_eq a b : list_eqb a b = true <-> a = b.
Proof.
  revert b; induction a as [|x a IH]; intros [|y b]; cbn; try (split; congruence).
  rewrite andb_true_iff, Z.eqb_eq, IH. split; [intros [-> ->]; reflexivity|intros E; inversion E; auto].
Qed.
Lemma list4 (l : list Z) : length l = 4%nat -> exists a b c d, l = [a; b; c; d].
Proof. destruct l as [|a [|b [|c [|d [|e l]]]]]; try discriminate. intros _. exists a, b, c, d. reflexivity. Qed.

Lemma colr_read b : colr_wf b -> rspec Colr_readData (enc (colr_layout b)) [] b.
Proof.
  intros (H1 & H2 & H3). revert H2. 
  destruct (list4 _ H1) as (a & c & d & e & E). unfold Colr_readData.
  assert (X : forall l, fields_ok (FO (colr_colour_type b) :: l) ->
     enc (FO (colr_colour_type b) :: l) = enc (FU 8 a :: FU 8 c :: FU 8 d :: FU 8 e :: l) /\
     fields_ok (FU 8 a :: FU 8 c :: FU 8 d :: FU 8 e :: l)).
  { intros l Hok. rewrite E. split.
    - rewrite !enc_cons. cbn [field_bits]. unfold bits_of; cbn [flat_map]. rewrite app_nil_r, <- !app_assoc. reflexivity.
    - apply fields_ok_cons in Hok as [Hb Hl]. rewrite E in Hb. cbn [field_ok] in Hb. unfold bytes in Hb. 
      rewrite !Forall_cons_iff in Hb. unfold is_byte in Hb. repeat constructor; try exact Hl; cbn; unfold fits_u; change (2 ^ 8) with 256; lia. }
  unfold colr_layout. intros Hok. destruct (X _ Hok) as [X1 X2]. rewrite X1. revert X2.
  match goal with |- fields_ok ?l -> rspec ?m _ _ _ => change (renc m l [] b) end.
  do 4 (eapply renc_bind_cons; [rgo|intros _]). cbn zeta. rewrite <- E.
  unfold colr_is_nclx, colr_is_icc in *. same_codes.
  destruct (list_eqb (colr_colour_type b) cc_nclx).
  - destruct H3 as (P & Q). destruct b; cbn in *; subst. rgo.
  - destruct H3 as (P1 & P2 & P3 & P4 & P5 & P6). destruct (_ || _).
    + destruct b; cbn in *; subst. rgo.
    + destruct b; cbn in *; subst. rgo.
Qed.

Lemma dops_read b rest : dops_wf b -> rspec DOps_readData (enc (dops_layout b)) rest b.
Proof.
  intros (H1 & H2). revert H1. match goal with |- fields_ok ?l -> rspec ?m _ _ _ => change (renc m l rest b) end.
  unfold DOps_readData, dops_layout, DOpsChannelMappingTable_readData.
  destruct (dops_channel_mapping_family b =? 0) eqn:E; cbn [negb opt app]; rgo; rewrite E.
  - destruct b; cbn in *; subst. rgo.
  - destruct b as [? ? ? ? ? ? []]; cbn in *. subst.
    eapply renc_bind_last; [rgo|intros _]. rgo.
Qed.

Lemma emsg_read b : renc Emsg_readData (emsg_layout b) [] b.
Proof.
  unfold Emsg_readData, emsg_layout. rgo. unfold v0. destruct (_ =? 0) eqn:E; cbn [app].
  - eapply renc_bind0; [apply renc_offset; reflexivity|].
    eapply renc_bind_cons; [apply renc_count; apply renc_string|intros _; cbn beta iota].
    { zlen_in_goal. pose proof (Zlen_nonneg (emsg_value b)). pose proof (Zlen_nonneg (emsg_message_data b)). lia. }
    eapply renc_bind_cons; [apply renc_string|intros _; cbn beta iota].
    { zlen_in_goal. pose proof (Zlen_nonneg (emsg_value b)). pose proof (Zlen_nonneg (emsg_message_data b)). lia. }
    rgo. destruct b; apply renc_ret.
  - do 4 (eapply renc_bind_cons; [rgo|intros _]).
    eapply renc_bind0; [apply renc_offset; reflexivity|].
    eapply renc_bind_cons; [apply renc_count; apply renc_string|intros _; cbn beta iota].
    { zlen_in_goal. pose proof (Zlen_nonneg (emsg_value b)). pose proof (Zlen_nonneg (emsg_message_data b)). lia. }
    eapply renc_bind_cons; [apply renc_string|intros _; cbn beta iota].
    { zlen_in_goal. pose proof (Zlen_nonneg (emsg_value b)). pose proof (Zlen_nonneg (emsg_message_data b)). lia. }
    rgo. destruct b; apply renc_ret.
Qed.

Lemma Zlen_enc_map_FO4 l : Forall (len_is 4) l -> Zlen (enc (map FO l)) = 32 * Zlen l.
Proof.
  induction 1 as [|x l Hx _ IH]; [reflexivity|]. cbn [map]. rewrite Zlen_enc_cons, IH, Zlen_field_FO, Zlen_cons.
  unfold len_is in Hx. unfold Zlen. rewrite Hx. lia.
Qed.
Lemma ftyp_read b : ftyp_wf b -> rspec Ftyp_readData (enc (ftyp_layout b)) [] b.
Proof.
  intros (H1 & H2 & H3). revert H3. match goal with |- fields_ok ?l -> rspec ?m _ _ _ => change (renc m l [] b) end.
  unfold Ftyp_readData, ftyp_layout. rgo.
  eapply renc_bind0; [apply renc_offset; reflexivity|]. cbn beta.
  rewrite app_nil_r, Zlen_enc_map_FO4 by exact H2. 
  replace (32 * Zlen (ftyp_compatible_brands b) / 8) with (4 * Zlen (ftyp_compatible_brands b)) by (unfold Zlen; lia).
  replace (4 * Zlen (ftyp_compatible_brands b) mod 4) with 0 by lia. cbn [negb Z.eqb].
  replace (4 * Zlen (ftyp_compatible_brands b) / 4) with (Zlen (ftyp_compatible_brands b)) by lia.
  rgo. - rewrite Forall_forall in H2. apply renc_arr4, H2; assumption. - destruct b; apply renc_ret.
Qed.

Lemma hd_pascal s n : hd 0 s <> Zlen s -> n = 8 + 8 * Zlen s -> forall c s', s = c :: s' -> c * 8 <> n - 8.
Proof. intros H -> c s' ->. cbn [hd] in H. lia. Qed.
Lemma hdlr_read b : hdlr_wf b -> rspec Hdlr_readData (enc (hdlr_layout b)) [] b.
Proof.
  intros ((S1 & S2 & S3 & S4) & H2 & H3 & H4). revert H2. match goal with |- fields_ok ?l -> rspec ?m _ _ _ => change (renc m l [] b) end.
  unfold Hdlr_readData, hdlr_layout. eapply renc_bind_app; [rgo|intros _]. 
  do 5 (eapply renc_bind_cons; [rgo|intros _]).
  eapply renc_bind0; [apply renc_offset; reflexivity|]. cbn beta.
  assert (L : Zlen (enc [FS (hdlr_name b); FO (hdlr_padding b)] ++ []) / 8 * 8 = 8 + 8 * Zlen (hdlr_name b)).
  { zlen_in_goal. rewrite H3. rewrite (@Zlen_nil Z). lia. }
  rewrite L.
  eapply renc_bind_cons; [|intros _].
  - apply renc_count. instantiate (1 := hdlr_name b). destruct (hdlr_pre_defined b =? 0) eqn:E; cbn [negb].
    + apply renc_string. lia.
    + intros Hok. apply fields_ok_cons in Hok as [[F1 F2] _]. rewrite enc_one. cbn [field_bits]. apply read_pascal_fallback; try assumption; try lia.
      * intros c s' Es. destruct H4 as [H4|[H4|H4]]; [lia|congruence|]. eapply hd_pascal; eauto.
      * rewrite H3. zlen_in_goal. rewrite Zlen_bits_of. lia.
  - cbn beta iota. rewrite Zlen_enc_FS. replace (8 + 8 * Zlen (hdlr_name b) <? 8 * Zlen (hdlr_name b) + 8) with false by lia.
    replace ((8 * Zlen (hdlr_name b) + 8) mod 8) with 0 by lia. cbn [orb negb Z.eqb].
    replace (Z.to_nat _) with 0%nat by lia. rewrite H3. eapply renc_bind_cons; [apply renc_vec8; reflexivity|intros _].
    apply renc_ret_eq. destruct b; cbn in *; subst; reflexivity.
Qed.

Lemma rspec_tick0 n rest : n = 0 -> rspec (rtick n) [] rest tt.
Proof. intros -> r W E. exists r. auto. Qed.
Lemma iods_read b rest : iods_wf b -> rspec Iods_readData (enc (iods_layout b)) rest b.
Proof.
  intros (H1 & H2). revert H1. match goal with |- fields_ok ?l -> rspec ?m _ _ _ => change (renc m l rest b) end.
  unfold Iods_readData, iods_layout. rgo.
  eapply renc_bind0; [intros _; apply rspec_tick0; rewrite H2; reflexivity|]. destruct b; apply renc_ret.
Qed.

(** Language codes, both directions. *)
Lemma land31 x : Z.land x 31 = x mod 32. Proof. change 31 with (Z.ones 5). rewrite Z.land_ones by lia. reflexivity. Qed.
Lemma encode_language_value l a b c : l = [a; b; c] -> 96 <= a < 128 -> 96 <= b < 128 -> 96 <= c < 128 ->
  encode_language l = (a - 96) * 1024 + (b - 96) * 32 + (c - 96).
Proof.
  intros -> A B C. unfold encode_language, to_u. cbn [nth]. rewrite !Z.shiftl_mul_pow2 by lia.
  change (2 ^ 10) with 1024. change (2 ^ 5) with 32. apply Z.mod_small. change (2 ^ 16) with 65536. lia.
Qed.
Lemma decode_language_value e : 0 <= e -> decode_language e = [(e / 1024) mod 32 + 96; (e / 32) mod 32 + 96; e mod 32 + 96].
Proof. intros H. unfold decode_language. rewrite !land31, !Z.shiftr_div_pow2 by lia. reflexivity. Qed.
Lemma decode_encode_language l : language_code l -> decode_language (encode_language l) = l.
Proof.
  intros [L H]. unfold len_is in L. destruct l as [|a [|b [|c [|d l]]]]; try discriminate L. rewrite !Forall_cons_iff in H. destruct H as (A & B & C & _).
  rewrite (encode_language_value _ a b c) by (try reflexivity; lia). rewrite decode_language_value by lia.
  set (x := a - 96). set (y := b - 96). set (z := c - 96).
  replace ((x * 1024 + y * 32 + z) / 1024) with x by (apply Z.div_unique with (y * 32 + z); lia).
  replace ((x * 1024 + y * 32 + z) / 32) with (x * 32 + y) by (apply Z.div_unique with z; lia).
  replace (x mod 32) with x by (symmetry; apply Z.mod_small; lia).
  replace ((x * 32 + y) mod 32) with y by (apply Z.mod_unique with x; lia).
  replace ((x * 1024 + y * 32 + z) mod 32) with z by (apply Z.mod_unique with (x * 32 + y); lia).
  unfold x, y, z. repeat f_equal; lia.
Qed.
Lemma encode_decode_language e : 0 <= e < 2 ^ 15 -> language_code (decode_language e) /\ encode_language (decode_language e) = e.
Proof.
  intros H. change (2 ^ 15) with 32768 in H. rewrite decode_language_value by lia.
  assert (A : 0 <= (e / 1024) mod 32 < 32) by (apply Z.mod_pos_bound; lia).
  assert (B : 0 <= (e / 32) mod 32 < 32) by (apply Z.mod_pos_bound; lia).
  assert (C : 0 <= e mod 32 < 32) by (apply Z.mod_pos_bound; lia).
  split; [split; [reflexivity|repeat constructor; lia]|].
  rewrite (encode_language_value _ _ _ _ eq_refl) by lia.
  assert (e / 1024 < 32) by (apply Z.div_lt_upper_bound; lia). assert (0 <= e / 1024) by (apply Z.div_pos; lia).
  rewrite (Z.mod_small (e / 1024)) by lia.
  pose proof (Z.div_mod e 32 ltac:(lia)). pose proof (Z.div_mod (e / 32) 32 ltac:(lia)).
  rewrite Z.div_div in * by lia. change (32 * 32) with 1024 in *. lia.
Qed.
Lemma mdhd_read b rest : mdhd_wf b -> rspec Mdhd_readData (enc (mdhd_layout b)) rest b.
Proof.
  intros (H1 & H2). revert H2. match goal with |- fields_ok ?l -> rspec ?m _ _ _ => change (renc m l rest b) end.
  unfold Mdhd_readData, mdhd_layout. eapply renc_bind_app; [rgo|intros _].
  do 5 (eapply renc_bind_cons; [rgo|intros _]).
  match goal with |- renc _ [?x; ?y; ?z; ?t] _ _ => change [x; y; z; t] with ([x; y; z] ++ [t]) end.
  eapply renc_bind_app.
  - instantiate (1 := encode_language (mdhd_language b)). intros Hok. unfold fields_ok in Hok. rewrite !Forall_cons_iff in Hok.
    destruct Hok as (A & B & C & _). cbn [field_ok] in *. unfold enc; cbn [flat_map field_bits]. rewrite app_nil_r.
    rewrite <- encode_language_bits.
    + match goal with |- rspec _ (be 15 ?x) _ _ => change (be 15 x) with (field_bits (FU 15 x)) end. rewrite <- enc_one. apply renc_uint; [reflexivity|lia|lia|]. constructor; [|constructor]. cbn [field_ok].
      unfold len_is in H1. destruct (mdhd_language b) as [|a [|c [|d [|f l]]]]; try discriminate H1. cbn [nth] in *. unfold fits_u in *.
      change (2 ^ Z.of_nat 5) with 32 in *. change (2 ^ Z.of_nat 15) with 32768.
      rewrite (encode_language_value _ _ _ _ eq_refl) by lia. lia.
    + exact H1.
    + intros [|[|[|k]]] Hk; try assumption. lia.
  - intros Hok. unfold fields_ok in Hok. rewrite !Forall_cons_iff in Hok. destruct Hok as (A & B & C & _). cbn [field_ok] in *.
    rgo. apply renc_ret_eq. rewrite decode_encode_language; [destruct b; reflexivity|].
    split; [exact H1|]. unfold len_is in H1. destruct (mdhd_language b) as [|a [|c [|d [|f l]]]]; try discriminate H1. cbn [nth] in *. unfold fits_u in *.
    change (2 ^ Z.of_nat 5) with 32 in *. repeat constructor; lia.
Qed.

Lemma meta_read b rest : meta_wf b -> rspec Meta_readData (enc (meta_layout b)) rest b.
Proof.
  intros ->. unfold Meta_readData, meta_layout. rewrite <- (app_nil_r (enc _)). eapply rspec_bind; [apply renc_fb|].
  - unfold fb_layout; cbn. repeat constructor; cbn; unfold fits_u; lia.
  - cbn. apply rspec_ret.
Qed.

Lemma pssh_read b rest : pssh_wf b -> rspec Pssh_readData (enc (pssh_layout b)) rest b.
Proof.
  intros (H1 & H2 & H3 & H4). revert H3. match goal with |- fields_ok ?l -> rspec ?m _ _ _ => change (renc m l rest b) end.
  unfold Pssh_readData, pssh_layout, v0. eapply renc_bind_app; [rgo|intros _]. cbn [app].
  eapply renc_bind_cons; [rgo|intros _].
  eapply renc_bind_app with (a := pssh_kids b).
  - destruct (fb_version (pssh_fb b) =? 0) eqn:E; cbn [negb opt].
    + rewrite H4 by reflexivity. apply renc_ret.
    + eapply renc_bind_cons; [rgo|intros _]. apply renc_repeat_map; [len_side|]. intros x rest' Hx. unfold PsshKID_readData.
      rewrite Forall_forall in H2. specialize (H2 x Hx). rgo.
  - intros _. rgo. destruct b; apply renc_ret.
Qed.

Lemma sbgp_read b rest : sbgp_wf b -> rspec Sbgp_readData (enc (sbgp_layout b)) rest b.
Proof.
  intros (H1 & H3 & H4). revert H3. match goal with |- fields_ok ?l -> rspec ?m _ _ _ => change (renc m l rest b) end.
  unfold Sbgp_readData, sbgp_layout, v0. eapply renc_bind_app; [rgo|intros _]. cbn [app].
  eapply renc_bind_cons; [rgo|intros _].
  eapply renc_bind_app; [apply (renc_rwhen _ (read_uint 32 32)); [intros _; rgo|exact H4]|intros _].
  rgo. - destruct x. unfold SbgpEntry_readData, sbgp_entry_layout. rgo. - destruct b; apply renc_ret.
Qed.

Lemma Zlen_enc_flat_map {A} (g : A -> list field) k l : (forall x, Zlen (enc (g x)) = k) -> Zlen (enc (flat_map g l)) = k * Zlen l.
Proof.
  intros H. induction l as [|x l IH]; [rewrite (@Zlen_nil A); cbn; lia|]. cbn [flat_map]. rewrite enc_app, Zlen_app, IH, H, Zlen_cons. lia.
Qed.
Lemma sdtp_read b : renc Sdtp_readData (sdtp_layout b) [] b.
Proof.
  unfold Sdtp_readData, sdtp_layout. eapply renc_bind_app; [rgo|intros _].
  eapply renc_bind0; [apply renc_offset; reflexivity|]. 
  rewrite app_nil_r. rewrite (Zlen_enc_flat_map _ 8) by reflexivity.
  replace (8 * Zlen (sdtp_samples b) / 8) with (Zlen (sdtp_samples b)) by lia.
  rgo. - destruct x. unfold SdtpSample_readData, sdtp_sample_layout. rgo. - destruct b; apply renc_ret.
Qed.

Lemma renc_uint_s w size n v rest : n = Z.to_nat size -> 0 < size <= 64 -> size = w -> renc (read_uint_s w size) [FI n v] rest v.
Proof.
  intros -> H1 <- Hok. apply fields_ok_cons in Hok as [Hok _]. cbn [field_ok] in Hok. rewrite Z2Nat.id in Hok by lia.
  unfold read_uint_s. rewrite <- (app_nil_r (enc _)). eapply rspec_bind; [|].
  - rewrite enc_one. cbn [field_bits]. apply rspec_read_uint; [lia|lia|]. rewrite Zlen_be. lia.
  - rewrite bits_to_Z_be, Z2Nat.id by lia. replace (to_s size (v mod 2 ^ size)) with v; [apply rspec_ret|].
    rewrite <- (to_s_id size v) at 1 by (try lia; exact Hok). unfold to_s. rewrite Z.mod_mod by lia. reflexivity.
Qed.
Lemma smhd_read b rest : renc Smhd_readData (smhd_layout b) rest b.
Proof.
  unfold Smhd_readData, smhd_layout. eapply renc_bind_app; [rgo|intros _].
  eapply renc_bind_cons; [apply renc_uint_s; [reflexivity|lia|reflexivity]|intros _]. rgo. destruct b; apply renc_ret.
Qed.

Lemma stsz_read b rest : stsz_wf b -> rspec Stsz_readData (enc (stsz_layout b)) rest b.
Proof.
  intros (H1 & H2). revert H1. match goal with |- fields_ok ?l -> rspec ?m _ _ _ => change (renc m l rest b) end.
  unfold Stsz_readData, stsz_layout. eapply renc_bind_app; [rgo|intros _]. cbn [app].
  do 2 (eapply renc_bind_cons; [rgo|intros _]).
  eapply renc_bind_last with (a := stsz_entry_sizes b).
  - destruct (stsz_sample_size b =? 0) eqn:E; cbn [opt]; [rgo|]. rewrite H2 by reflexivity. apply renc_ret.
  - intros _. destruct b; apply renc_ret.
Qed.

Lemma renc_fb_flags {B} fb (k : fullbox -> R B) l rest b :
  ((forall j, 0 <= j -> checkFlag fb (2 ^ j) = flag fb j) -> renc (k fb) l rest b) ->
  renc (rbind readVersionAndFlag k) (fb_layout fb ++ l) rest b.
Proof. intros H. eapply renc_bind_app; [apply renc_fb|]. intros Hok. apply H. apply checkFlag_fb; exact Hok. Qed.

Lemma tfhd_read b rest : tfhd_wf b -> rspec Tfhd_readData (enc (tfhd_layout b)) rest b.
Proof.
  intros (H1 & A0 & A1 & A3 & A4 & A5). revert H1. match goal with |- fields_ok ?l -> rspec ?m _ _ _ => change (renc m l rest b) end.
  unfold Tfhd_readData, tfhd_layout. apply renc_fb_flags. intros F. flagrw F 0. flagrw F 1. flagrw F 3. flagrw F 4. flagrw F 5.
  rgo. destruct b; apply renc_ret.
Qed.

Lemma tfra_read b rest : renc Tfra_readData (tfra_layout b) rest b.
Proof.
  unfold Tfra_readData, tfra_layout. eapply renc_bind_app; [rgo|intros _]. cbn [app].
  do 2 (eapply renc_bind_cons; [rgo|intros _]).
  eapply renc_bind_cons; [rgo|intros A]. eapply renc_bind_cons; [rgo|intros B]. eapply renc_bind_cons; [rgo|intros C].
  cbn in A, B, C. unfold fits_u in A, B, C.
  rgo. - destruct x. unfold TfraEntry_readData, tfra_entry_layout. rgo. - destruct b; apply renc_ret.
Qed.

Lemma trun_read b rest : trun_wf b -> rspec Trun_readData (enc (trun_layout b)) rest b.
Proof.
  intros (H1 & A0 & A2 & AE). revert H1. match goal with |- fields_ok ?l -> rspec ?m _ _ _ => change (renc m l rest b) end.
  unfold Trun_readData, trun_layout. apply renc_fb_flags. intros F. flagrw F 0. flagrw F 2. rgo.
  - rewrite Forall_forall in AE. destruct (AE _ ltac:(eassumption)) as (E8 & E9 & E10 & E11). unfold TrunEntry_readData, trun_entry_layout.
    flagrw F 8. flagrw F 9. flagrw F 10. flagrw F 11. rgo. destruct x; apply renc_ret.
  - destruct b; apply renc_ret.
Qed.

Lemma url_read b : url_wf b -> rspec Url_readData (enc (url_layout b)) [] b.
Proof.
  intros (H1 & A0). revert H1. match goal with |- fields_ok ?l -> rspec ?m _ _ _ => change (renc m l [] b) end.
  unfold Url_readData, url_layout. apply renc_fb_flags. intros F. flagrw F 0. unfold absent in A0.
  destruct (flag (url_fb b) 0); cbn [negb opt] in *.
  - apply renc_ret_eq. destruct b; cbn in *; rewrite A0; reflexivity.
  - eapply renc_bind0; [apply renc_offset; reflexivity|]. eapply renc_bind_cons; [apply renc_string|intros _; destruct b; apply renc_ret].
    zlen_in_goal. lia.
Qed.

Lemma urn_read b : urn_wf b -> rspec Urn_readData (enc (urn_layout b)) [] b.
Proof.
  intros (H1 & A0 & L). revert H1. match goal with |- fields_ok ?l -> rspec ?m _ _ _ => change (renc m l [] b) end.
  unfold Urn_readData, urn_layout. apply renc_fb_flags. intros F. flagrw F 0. unfold absent in A0.
  pose proof (Zlen_nonneg (urn_name b)). pose proof (Zlen_nonneg (urn_location b)).
  destruct (flag (urn_fb b) 0); cbn [negb opt] in *.
  - apply renc_ret_eq. destruct A0 as [A1 A2]; [reflexivity|]. destruct b; cbn in *; subst; reflexivity.
  - eapply renc_bind0; [apply renc_offset; reflexivity|].
    eapply renc_bind_cons; [apply renc_count; apply renc_string|intros _; cbn beta iota].
    { zlen_in_goal. unfold to_u. rewrite Z.mod_small; lia. }
    eapply renc_bind_cons; [apply renc_string|intros _; destruct b; apply renc_ret]. zlen_in_goal. lia.
Qed.

Lemma vpcc_read b rest : vpcc_wf b -> rspec VPCodecConfiguration_readData (enc (vpcc_layout b)) rest b.
Proof.
  intros (H1 & H2). revert H1. match goal with |- fields_ok ?l -> rspec ?m _ _ _ => change (renc m l rest b) end.
  unfold VPCodecConfiguration_readData, vpcc_layout, v0. eapply renc_bind_app; [rgo|intros _]. cbn [app].
  do 8 (eapply renc_bind_cons; [rgo|intros _]). unfold absent in H2.
  destruct (_ =? 0); cbn [negb opt] in *.
  - apply renc_ret_eq. destruct b; cbn in *; rewrite H2; reflexivity.
  - rgo. destruct b; apply renc_ret.
Qed.

(** avcC *)
Lemma avcc_read b : avcc_wf b -> rspec AVCDecoderConfiguration_readData (enc (avcc_layout b)) [] b.
Proof.
  intros (H1 & H2 & H3). revert H1. match goal with |- fields_ok ?l -> rspec ?m _ _ _ => change (renc m l [] b) end.
  unfold AVCDecoderConfiguration_readData, avcc_layout.
  assert (P : forall s rest, renc AVCParameterSet_readData (avcc_ps_layout s) rest s)
    by (intros; unfold AVCParameterSet_readData, avcc_ps_layout; eapply renc_bind_cons; [rgo|intros _; rgo]).
  cbn [app]. do 8 (eapply renc_bind_cons; [rgo|intros _]). eapply renc_bind_app; [rgo; apply P|intros _].
  eapply renc_bind_cons; [rgo|intros _]. eapply renc_bind_app; [rgo; apply P|intros _].
  unfold absent in H3. destruct (avcc_high_profile_fields_enabled b) eqn:Eh; cbn [opt].
  - rewrite (proj2 (avc_high_spec _) (H2 eq_refl)). cbn [negb].
    eapply renc_bind0; [apply renc_offset; reflexivity|].
    match goal with |- context[?n <? 4] => assert (Hn : n <? 4 = false) end.
    { apply Z.ltb_ge. cbn [app]. zlen_in_goal. pose proof (Zlen_nonneg (enc (flat_map avcc_ps_layout (avcc_sps_ext b)))).
      apply Z.div_le_lower_bound; [lia|]. lia. }
    rewrite Hn. cbn [app]. do 7 (eapply renc_bind_cons; [rgo|intros _]).
    eapply renc_bind_last; [rgo; apply P|intros _]. destruct b; cbn in Eh; subst; apply renc_ret.
  - destruct (H3 eq_refl) as (E1 & E2 & E3 & E4 & E5 & E6 & E7).
    assert (Eb : mk_avcc (avcc_configuration_version b) (avcc_profile b) (avcc_profile_compatibility b) (avcc_level b)
      (avcc_reserved b) (avcc_length_size_minus_one b) (avcc_reserved2 b) (avcc_sps b) (avcc_pps b) false 63 0 31 0 31 0 [] = b)
      by (destruct b; cbn in *; subst; reflexivity).
    rewrite Eb. destruct (is_avc_high_profile (avcc_profile b)); cbn [negb]; [|apply renc_ret].
    eapply renc_bind0; [apply renc_offset; reflexivity|]. cbn.
    intros _ r W E. exists r. split; [reflexivity|auto].
Qed.

(** Audio sample entries outside a QuickTime "wave" atom; [rest] are the child boxes. *)
Lemma audio_entry_read b rest : audio_entry_wf (Zlen rest / 8) b -> 
  rspec (AudioSampleEntry_readData (ase_type b) false) (enc (audio_entry_layout b)) rest b.
Proof.
  intros ((L1 & L2) & H1 & U & A & Q). revert H1.
  match goal with |- fields_ok ?l -> rspec ?m _ _ _ => change (renc m l rest b) end.
  unfold AudioSampleEntry_readData, audio_entry_layout. unfold absent in A. unfold len_is in L1, L2. cbn [app].
  do 3 (eapply renc_bind_cons; [rgo|intros _]). eapply renc_bind_app; [rgo|intros _].
  do 5 (eapply renc_bind_cons; [rgo|intros _]).
  same_codes. destruct (list_eqb (ase_type b) cc_Opus || (ase_entry_version b =? 0)).
  - rewrite Q in *. cbn [opt]. apply renc_ret_eq. destruct b; cbn in *; subst. rewrite A by reflexivity. reflexivity.
  - destruct (ase_is_quick_time_compatible b) eqn:Eq; cbn [opt].
    + pose proof (Zlen_nonneg rest) as Nr. pose proof (Zlen_nonneg (ase_quick_time_data b)) as Nq.
      eapply renc_bind0; [apply renc_offset; reflexivity|]. rewrite Zlen_app, Zlen_enc_cons, Zlen_field_FO, Zlen_enc_nil.
      assert (Pq : 1 <= Zlen (ase_quick_time_data b)).
      { destruct (ase_entry_version b =? 1); [lia|]. destruct (ase_entry_version b =? 2); [lia|]. destruct Q as [_ Q].
        destruct (ase_quick_time_data b); [congruence|]. rewrite Zlen_cons. pose proof (Zlen_nonneg l). lia. }
      assert (Hn : (8 * Zlen (ase_quick_time_data b) + 0 + Zlen rest) / 8 = Zlen (ase_quick_time_data b) + Zlen rest / 8).
      { rewrite Z.add_0_r, Z.mul_comm, Z.div_add_l by lia. reflexivity. }
      pose proof (Z.div_pos (Zlen rest) 8 Nr ltac:(lia)) as Nd.
      rewrite Hn. replace (_ =? 0) with false by (symmetry; apply Z.eqb_neq; lia).
      eapply renc_bind_cons; [apply renc_vec8|intros _; destruct b; cbn in *; subst; apply renc_ret].
      destruct (ase_entry_version b =? 1); [unfold Zlen in *; lia|]. destruct (ase_entry_version b =? 2); [unfold Zlen in *; lia|].
      destruct Q as [Q _]. rewrite Q. unfold Zlen. lia.
    + eapply renc_bind0; [apply renc_offset; reflexivity|]. cbn [enc flat_map app]. rewrite Q, Z.eqb_refl.
      apply renc_ret_eq. destruct b; cbn in *; subst. rewrite A by reflexivity. reflexivity.
Qed.

(** esds *)
Definition Descriptor_readData (tag : Z) : R descriptor :=
  if tag =? 3 then ESDescriptor_readData else if tag =? 4 then DecoderConfigDescriptor_readData
  else if tag =? 5 then DecSpecificInfo_readData else SLConfigDescr_readData.
Lemma Zlen_es_getDataSize f n : fields_ok (es_layout n f) -> absent (es_url_flag f) (es_url_string f = []) ->
  ESDescriptor_getDataSize f = es_body f.
Proof.
  intros H A. unfold ESDescriptor_getDataSize, es_body. unfold to_u. apply Z.mod_small.
  unfold es_layout in H. apply fields_ok_app in H as [_ H]. apply fields_ok_app in H as [_ H]. apply fields_ok_app in H as [H _].
  destruct (es_url_flag f); cbn [opt] in H.
  - apply fields_ok_cons in H as [H _]. cbn in H. unfold fits_u in H. destruct (es_stream_dependence_flag f), (es_ocr_stream_flag f); lia.
  - destruct (es_stream_dependence_flag f), (es_ocr_stream_flag f); lia.
Qed.
Lemma descriptor_read d rest : fields_ok (descriptor_layout (announced d) d) -> descriptor_absent d ->
  own_body d <= announced d ->
  rspec (tag <- read_int 8 8; Descriptor_readData tag) (enc (descriptor_layout (announced d) d)) rest (descriptor_norm d).
Proof.
  intros H A B. set (n := announced d) in *. revert H.
  match goal with |- fields_ok ?l -> rspec ?m _ _ ?x => change (renc m l rest x) end.
  assert (T : forall k rest', 0 <= k < 128 -> renc (read_int 8 8) [FU 8 k] rest' k).
  { intros k rest' Hk Hok. pose proof (renc_int 8 8 8 k rest') as G. unfold renc in G. 
    assert (Hok' : fields_ok [FI 8 k]) by (constructor; [|constructor]; cbn; unfold fits_s; lia).
    specialize (G eq_refl ltac:(lia) ltac:(lia) Hok'). exact G. }
  destruct d as [f s subs|f s subs|l|l]; cbn [descriptor_layout].
  - intros Hok. pose proof (Zlen_es_getDataSize f n Hok (proj1 (proj2 A))) as Es. revert Hok.
    match goal with |- fields_ok ?l -> rspec ?m _ _ ?x => change (renc m l rest x) end.
    destruct A as (A1 & A2 & A3). unfold es_layout. cbn [app].
    eapply renc_bind_cons; [apply T; lia|intros _]. unfold Descriptor_readData. cbn [Z.eqb Pos.eqb]. unfold ESDescriptor_readData.
    eapply renc_bind_cons; [rgo|intros Hn]. do 5 (eapply renc_bind_cons; [rgo|intros _]).
    eapply renc_bind_app; [rgo|intros _]. eapply renc_bind_app with (a := es_url_string f); [|intros _].
    { destruct (es_url_flag f); cbn [opt].
      - eapply renc_bind_cons; [rgo|intros _]. rgo.
      - rewrite A2 by reflexivity. apply renc_ret. }
    eapply renc_bind_last; [rgo|intros _]. apply renc_ret_eq. cbn [descriptor_norm]. fold n. unfold own_body in B.
    replace (mk_es_fields _ _ _ _ _ _ _ _) with f by (destruct f; reflexivity). rewrite Es. unfold to_u.
    cbn [field_ok] in Hn. assert (3 <= es_body f) by (unfold es_body; pose proof (Zlen_nonneg (es_url_string f)); destruct (es_stream_dependence_flag f), (es_url_flag f), (es_ocr_stream_flag f); lia).
    clearbody n. rewrite Z.mod_small by lia. reflexivity.
  - unfold dcd_layout. cbn [app]. eapply renc_bind_cons; [apply T; lia|intros _]. unfold Descriptor_readData.
    cbn [Z.eqb Pos.eqb]. unfold DecoderConfigDescriptor_readData. eapply renc_bind_cons; [rgo|intros Hn]. cbn [field_ok] in Hn. cbn [own_body] in B.
    do 7 (eapply renc_bind_cons; [rgo|intros _]). apply renc_ret_eq. cbn [descriptor_norm]. fold n.
    replace (mk_dcd_fields _ _ _ _ _ _ _) with f by (destruct f; reflexivity). unfold to_u. clearbody n. rewrite Z.mod_small by lia. reflexivity.
  - eapply renc_bind_cons; [apply T; lia|intros _]. unfold Descriptor_readData. cbn [Z.eqb Pos.eqb].
    unfold DecSpecificInfo_readData. subst n. cbn [announced]. eapply renc_bind_cons; [rgo|intros _]. rgo.
  - eapply renc_bind_cons; [apply T; lia|intros _]. unfold Descriptor_readData. cbn [Z.eqb Pos.eqb].
    unfold SLConfigDescr_readData. subst n. cbn [announced]. eapply renc_bind_cons; [rgo|intros _]. rgo.
Qed.
Lemma fold_nonneg {A} (g : A -> Z) l : (forall x, 0 <= g x) -> 0 <= fold_right (fun x a => g x + a) 0 l.
Proof. intros H. induction l as [|x l IH]; cbn [fold_right]; [lia|]. pose proof (H x). lia. Qed.
Lemma es_body_nonneg f : 3 <= es_body f.
Proof. unfold es_body; pose proof (Zlen_nonneg (es_url_string f)); destruct (es_stream_dependence_flag f), (es_url_flag f), (es_ocr_stream_flag f); lia. Qed.
Lemma own_body_nonneg d : 0 <= own_body d.
Proof. destruct d; cbn [own_body]; try apply Zlen_nonneg; [pose proof (es_body_nonneg f); lia|lia]. Qed.
Lemma announced_own d : own_body d <= announced d.
Proof.
  induction d as [f s subs IH|f s subs IH|l|l] using descriptor_ind'; cbn [announced own_body]; try lia.
  - destruct (0 <? s) eqn:E; [lia|].
    assert (G : 0 <= fold_right (fun (x : descriptor) (a : Z) => 5 + announced x + a) 0 subs); [|lia].
    induction IH as [|x l Hx _ IHl]; cbn [fold_right]; [lia|]. pose proof (own_body_nonneg x). lia.
  - destruct (0 <? s) eqn:E; [lia|].
    assert (G : 0 <= fold_right (fun (x : descriptor) (a : Z) => 5 + own_body x + a) 0 subs); [|lia].
    apply (fold_nonneg (fun x => 5 + own_body x)). intros x. pose proof (own_body_nonneg x). lia.
Qed.

Lemma descriptor_layout_tag d : exists t fs, descriptor_layout (announced d) d = FU 8 t :: FV (announced d) :: fs /\ In t [3;4;5;6].
Proof. destruct d; cbn [descriptor_layout]; [unfold es_layout|unfold dcd_layout| |]; cbn [app]; do 2 eexists; (split; [reflexivity|cbn; lia]). Qed.
Lemma Zlen_enc_descriptor d : 8 <= Zlen (enc (descriptor_layout (announced d) d)).
Proof.
  destruct (descriptor_layout_tag d) as (t & fs & -> & _). zlen_in_goal. pose proof (Zlen_nonneg (field_bits (FV (announced d)))).
  pose proof (Zlen_nonneg (enc fs)). lia.
Qed.
Lemma rbind_assoc_spec {A B C} (m : R A) (f : A -> R B) (g : B -> R C) r : 
  rbind (rbind m f) g r = rbind m (fun a => rbind (f a) g) r.
Proof.
  unfold rbind. destruct (m r) as [[[r1 n1] a]| |]; cbn; try reflexivity.
  destruct (f a r1) as [[[r2 n2] b]| |]; cbn; try reflexivity.
  destruct (g b r2) as [[[r3 n3] c]| |]; cbn; try reflexivity. rewrite Z.add_assoc. reflexivity.
Qed.
Lemma rbind_ok {A B} (m : R A) (f : A -> R B) r r1 n a : m r = Ok (r1, n, a) ->
  rbind m f r = match f a r1 with Ok (r2, n2, b) => Ok (r2, n + n2, b) | Throw e => Throw e | UB => UB end.
Proof. intros E. unfold rbind. rewrite E. reflexivity. Qed.
Lemma esds_loop_read ds : forall fuel acc, (length ds < fuel)%nat ->
  fields_ok (flat_map (fun d => descriptor_layout (announced d) d) ds) -> Forall descriptor_absent ds ->
  rspec (Esds_loop fuel acc) (enc (flat_map (fun d => descriptor_layout (announced d) d) ds)) [] (acc ++ map descriptor_norm ds).
Proof.
  induction ds as [|d ds IH]; intros fuel acc Hf Hok Ha; (destruct fuel as [|k]; [cbn in Hf; lia|]).
  - cbn [flat_map enc map]. rewrite app_nil_r. cbn [Esds_loop]. 
    apply (rspec_bind offset_to_end _ [] [] [] 0); [apply (rspec_offset_to_end [])|].
    cbn. apply rspec_ret.
  - cbn [flat_map] in *. apply fields_ok_app in Hok as [Hd Hds]. apply Forall_inv in Ha as Hd2. apply Forall_inv_tail in Ha.
    rewrite enc_app. cbn [Esds_loop]. set (body := enc (descriptor_layout _ _) ++ _).
    change body with ([] ++ body). eapply rspec_bind; [apply rspec_offset_to_end|].
    replace (_ =? 0) with false.
    2:{ symmetry. apply Z.eqb_neq. subst body. rewrite !Zlen_app. pose proof (Zlen_enc_descriptor d).
        match goal with |- context[?a + ?b + ?c] => pose proof (Zlen_nonneg (enc (flat_map (fun d0 => descriptor_layout (announced d0) d0) ds))) end.
        rewrite (@Zlen_nil bool). intros C. apply Z.div_small_iff in C; lia. }
    match goal with |- rspec ?m _ _ _ => 
      assert (G : rspec (rbind (rbind (read_int 8 8) Descriptor_readData) (fun d => Esds_loop k (acc ++ [d]))) body [] (acc ++ descriptor_norm d :: map descriptor_norm ds) -> rspec m body [] (acc ++ map descriptor_norm (d :: ds))) end.
    { intros G r W E. destruct (G r W E) as (r' & E1 & E2). exists r'. split; [|exact E2]. cbn [map]. rewrite <- E1.
      rewrite rbind_assoc_spec. clear - Hd W E.
      pose proof (descriptor_layout_tag d) as (t & fs & El & Ht). subst body. rewrite El in E, Hd.
      rewrite enc_cons, <- !app_assoc in E.
      assert (T : rspec (read_int 8 8) (be 8 t) (enc (FV (announced d) :: fs) ++ enc (flat_map (fun d0 => descriptor_layout (announced d0) d0) ds) ++ []) t).
      { pose proof (renc_int 8 8 8 t (enc (FV (announced d) :: fs) ++ enc (flat_map (fun d0 => descriptor_layout (announced d0) d0) ds) ++ [])) as G.
        assert (Hok' : fields_ok [FI 8 t]) by (constructor; [|constructor]; cbn in Ht |- *; unfold fits_s; lia).
        specialize (G eq_refl ltac:(lia) ltac:(lia) Hok'). exact G. }
      destruct (T r W E) as (r1 & E1 & _). rewrite !(rbind_ok _ _ _ _ _ _ E1).
      cbn in Ht. destruct Ht as [<-|[<-|[<-|[<-|[]]]]]; reflexivity. }
    apply G. subst body. eapply rspec_bind; [apply descriptor_read; auto; apply announced_own|].
    replace (acc ++ descriptor_norm d :: map descriptor_norm ds) with ((acc ++ [descriptor_norm d]) ++ map descriptor_norm ds) by (rewrite <- app_assoc; reflexivity).
    apply IH; auto. cbn in Hf. lia.
Qed.
Lemma esds_read b : esds_writable b ->
  rspec Esds_readData (enc (esds_layout b)) [] (mk_esds (esds_fb b) (map descriptor_norm (esds_descriptors b))).
Proof.
  intros (H & A) r W E. unfold Esds_readData, esds_layout in *. apply fields_ok_app in H as [H1 H2].
  assert (L : (length (esds_descriptors b) < S (length (r_data r)))%nat).
  { pose proof (rbits_length r W) as Lr. rewrite E, enc_app, app_nil_r, Zlen_app in Lr.
    assert (K : 8 * Zlen (esds_descriptors b) <= Zlen (enc (flat_map (fun d => descriptor_layout (announced d) d) (esds_descriptors b)))).
    { clear. induction (esds_descriptors b) as [|d l IH]; [cbn; unfold Zlen; cbn; lia|]. cbn [flat_map]. rewrite enc_app, Zlen_app, Zlen_cons.
      pose proof (Zlen_enc_descriptor d). lia. }
    pose proof (Zlen_nonneg (enc (fb_layout (esds_fb b)))). destruct W as (W1 & W2 & W3). unfold Zlen in *. lia. }
  rewrite enc_app in *.
  refine (rspec_bind readVersionAndFlag _ _ _ [] (esds_fb b) _ _ _ r W E); [apply renc_fb; exact H1|].
  rewrite <- (app_nil_r (enc (flat_map _ _))). eapply rspec_bind; [rewrite app_nil_l; apply esds_loop_read; auto|]. apply rspec_ret.
Qed.
Lemma descriptor_norm_wf d : match d with DES _ s subs => 0 <= s /\ subs = [] | DCD _ s subs => 0 <= s /\ subs = [] | _ => True end -> descriptor_norm d = d.
Proof.
  destruct d as [f s subs|f s subs|l|l]; cbn [descriptor_norm announced]; try reflexivity; intros [H ->]; cbn [fold_right];
    (destruct (0 <? s) eqn:E; [replace (_ - _) with s by lia; reflexivity|replace (_ - _) with 0 by lia; replace s with 0 by lia; reflexivity]).
Qed.
Lemma esds_read_wf b : esds_wf b -> rspec Esds_readData (enc (esds_layout b)) [] b.
Proof.
  intros (H & N). pose proof (esds_read b H) as G. destruct b as [fb ds]; cbn in *.
  replace (map descriptor_norm ds) with ds in G; [exact G|]. clear - N. induction N as [|d l Hd _ IH]; [reflexivity|].
  cbn. rewrite <- IH, descriptor_norm_wf by exact Hd. reflexivity.
Qed.

(** sgpd *)
Lemma Zlen_enc_mapFU k l : Zlen (enc (map (FU k) l)) = Z.of_nat k * Zlen l.
Proof.
  induction l as [|x l IH]; [cbn; unfold Zlen; cbn; lia|]. cbn [map]. rewrite Zlen_enc_cons, IH, Zlen_field_FU, Zlen_cons. lia.
Qed.
Lemma roll_read e wl rest : rd_with_length e = wl -> absent wl (rd_description_length e = 0) ->
  renc (RollDistance_readData wl) (roll_distance_layout e) rest e.
Proof. intros <- A. unfold RollDistance_readData, roll_distance_layout. rgo. destruct e; apply renc_ret. Qed.
Lemma vra_read e wl rest : vra_with_length e = wl -> absent wl (vra_description_length e = 0) ->
  renc (VraEntry_readData wl) (vra_entry_layout e) rest e.
Proof. intros <- A. unfold VraEntry_readData, vra_entry_layout. rgo. destruct e; apply renc_ret. Qed.
Lemma tele_read e wl rest : tele_with_length e = wl -> absent wl (tele_description_length e = 0) ->
  renc (TeleEntry_readData wl) (tele_entry_layout e) rest e.
Proof. intros <- A. unfold TeleEntry_readData, tele_entry_layout. rgo. destruct e; apply renc_ret. Qed.
Lemma alst_read b e rest : fb_version (sgpd_fb b) = 1 -> alst_entry_wf b e ->
  renc (AlstEntry_readData (Some (sgpd_default_length b)) (sgpd_explicit b)) (alst_entry_layout e) rest e.
Proof.
  intros V (W & A & L & D). unfold AlstEntry_readData, alst_entry_layout. rewrite W. rewrite Z.mul_comm in D.
  set (x := sgpd_explicit b) in *. set (body := 4 + _ + _) in *.
  pose proof (Zlen_nonneg (alste_sample_offsets e)) as N1. pose proof (Zlen_nonneg (alste_opts e)) as N2.
  rewrite (app_assoc [_; _]), app_assoc.
  eapply renc_bind_app; [apply renc_count|intros _].
  - instantiate (1 := (alste_description_length e, alste_roll_count e, alste_first_output_sample e, alste_sample_offsets e)).
    cbn [app]. eapply renc_bind_app; [rgo|intros _]. do 2 (eapply renc_bind_cons; [rgo|intros _]).
    eapply renc_bind_last; [|intros _; apply renc_ret]. apply renc_vec; [reflexivity|lia|]. rewrite <- L. apply to_nat_Zlen.
  - cbn beta iota. rewrite !enc_app, !Zlen_app, Zlen_enc_mapFU.
    match goal with |- context[(?o <? 0) || _] => assert (O : o = 32 * Zlen (alste_opts e)) end.
    { zlen_in_goal. unfold to_u. subst x. destruct (sgpd_explicit b); cbn [opt]; zlen_in_goal; rewrite D; subst body; lia. }
    rewrite O. replace (_ <? 0) with false by lia. replace (Z.rem _ 32) with 0 by (rewrite Z.mul_comm, Z.rem_mul; lia).
    cbn [Z.eqb negb orb]. rewrite (Z.mul_comm 32), Z.div_mul by lia. eapply renc_bind_last; [|intros _].
    + apply renc_repeat; [apply to_nat_Zlen|]. intros [? ?] rest' _. unfold AlstOpt_readData, alst_opt_layout. rgo.
    + apply renc_ret_eq. rewrite <- W. destruct e; reflexivity.
Qed.
Lemma sgpd_read b rest : sgpd_wf b -> rspec Sgpd_readData (enc (sgpd_layout b)) rest b.
Proof.
  intros (L & H & D & F1 & F2 & F3 & F4 & X1 & X2 & X3 & X4 & X5). revert H.
  match goal with |- fields_ok ?l -> rspec ?m _ _ _ => change (renc m l rest b) end. unfold len_is in L.
  unfold Sgpd_readData, sgpd_layout. same_codes. eapply renc_bind_app; [rgo|intros _]. cbn [app].
  do 2 (eapply renc_bind_cons; [rgo|intros _]). cbv zeta.
  set (len := if fb_version (sgpd_fb b) =? 1 then (if fb_version (sgpd_fb b) =? 1 then _ else _) else 0).
  set (idx := if fb_version (sgpd_fb b) =? 1 then 0 else _).
  assert (El : len = sgpd_default_length b) by (subst len; destruct (fb_version (sgpd_fb b) =? 1); congruence).
  assert (Ei : idx = sgpd_default_sample_description_index b) by (subst idx; destruct (fb_version (sgpd_fb b) =? 1); congruence).
  clearbody len idx. subst len idx. clear D.
  change ((fb_version (sgpd_fb b) =? 1) && (sgpd_default_length b =? 0)) with (sgpd_explicit b).
  rewrite Forall_forall in F1, F2, F3, F4.
  assert (R1 : gt_is_roll (sgpd_grouping_type b) = true -> sgpd_alternative_startup_entries b = [] /\ sgpd_visual_random_access_entries b = [] /\ sgpd_temporal_level_entries b = []).
  { unfold gt_is_roll. rewrite orb_true_iff, !list_eqb_eq. intros [E|E]; rewrite E in *; auto. }
  assert (R2 : list_eqb (sgpd_grouping_type b) gt_alst = true -> sgpd_roll_distances b = [] /\ sgpd_visual_random_access_entries b = [] /\ sgpd_temporal_level_entries b = []).
  { rewrite list_eqb_eq. intros E; rewrite E in *; auto. }
  assert (R3 : list_eqb (sgpd_grouping_type b) gt_rap = true -> sgpd_roll_distances b = [] /\ sgpd_alternative_startup_entries b = [] /\ sgpd_temporal_level_entries b = []).
  { rewrite list_eqb_eq. intros E; rewrite E in *; auto. }
  assert (R4 : list_eqb (sgpd_grouping_type b) gt_tele = true -> sgpd_roll_distances b = [] /\ sgpd_alternative_startup_entries b = [] /\ sgpd_visual_random_access_entries b = []).
  { rewrite list_eqb_eq. intros E; rewrite E in *; auto. }
  destruct (gt_is_roll (sgpd_grouping_type b)).
  { destruct (R1 eq_refl) as (Y1 & Y2 & Y3). eapply renc_bind_cons; [rgo|intros _]. eapply renc_bind_last; [rgo|intros _].
    - match goal with Hx : In _ _ |- _ => destruct (F1 _ Hx) end. apply roll_read; assumption.
    - apply renc_ret_eq. destruct b; cbn in *; subst; reflexivity. }
  destruct (list_eqb (sgpd_grouping_type b) gt_alst).
  { destruct (R2 eq_refl) as (Y1 & Y2 & Y3). eapply renc_bind_cons; [rgo|intros _].
    eapply renc_bind_last with (a := sgpd_alternative_startup_entries b); [rgo|intros _].
    - assert (V : fb_version (sgpd_fb b) = 1).
      { apply X5; [reflexivity|]. intros C. rewrite C in *. match goal with Hx : In _ [] |- _ => destruct Hx end. }
      rewrite V. cbn [Z.eqb Pos.eqb]. apply alst_read; auto.
    - apply renc_ret_eq. destruct b; cbn in *; subst; reflexivity. }
  destruct (list_eqb (sgpd_grouping_type b) gt_rap).
  { destruct (R3 eq_refl) as (Y1 & Y2 & Y3). eapply renc_bind_cons; [rgo|intros _]. eapply renc_bind_last; [rgo|intros _].
    - match goal with Hx : In _ _ |- _ => destruct (F2 _ Hx) end. apply vra_read; assumption.
    - apply renc_ret_eq. destruct b; cbn in *; subst; reflexivity. }
  destruct (list_eqb (sgpd_grouping_type b) gt_tele).
  { destruct (R4 eq_refl) as (Y1 & Y2 & Y3). eapply renc_bind_cons; [rgo|intros _]. eapply renc_bind_last; [rgo|intros _].
    - match goal with Hx : In _ _ |- _ => destruct (F3 _ Hx) end. apply tele_read; assumption.
    - apply renc_ret_eq. destruct b; cbn in *; subst; reflexivity. }
  apply renc_ret_eq. specialize (X1 eq_refl). specialize (X2 eq_refl). specialize (X3 eq_refl). specialize (X4 eq_refl).
  destruct b; cbn in *; subst; reflexivity.
Qed.
