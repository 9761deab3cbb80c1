(** C12, C49: exactly which members survive writing and reading, and that what was read is written back unchanged. *)
From Verif Require Import Base BitIO BitFacts BitIOProofs Boxes WireFormat BoxTac BoxWrite BoxRead Box BoxSpec BoxIO BoxSize BoxSafe BoxInv TreeSpec TreeProofs TreeLayout TreeRead BoxLemmas.

(** What is known of a box that was read, and of the fields [fs] it was read from. *)
Definition box_post (fs : list field) (b : box) : Prop :=
  match b with
  | B_container => enc fs = []
  | B_url x => url_wf x /\ (Zlen (enc fs) = Zlen (enc (url_layout x)) -> enc fs = enc (url_layout x))
  | B_urn x => (fields_ok (urn_layout x) /\ absent (negb (flag (urn_fb x) 0)) (urn_name x = [] /\ urn_location x = [])) /\
               (Zlen (enc fs) = Zlen (enc (urn_layout x)) -> enc fs = enc (urn_layout x))
  | B_emsg x => emsg_wf x /\ (Zlen (enc fs) = Zlen (enc (emsg_layout x)) -> enc fs = enc (emsg_layout x))
  | B_hdlr x => exists gs, fs = hdlr_head x ++ gs /\ hdlr_shape x /\ hdlr_padding x = [] /\ handler_name (hdlr_pre_defined x) gs (hdlr_name x)
  | B_iods x => fields_ok (iods_wire x)
  | B_esds x => fields_ok (fb_layout (esds_fb x)) /\ Forall own_ok (esds_descriptors x)
  | B_meta x => meta_wf x
  | B_stsz x => stsz_wf x /\ (stsz_sample_size x = 0 -> enc fs = enc (stsz_layout x))
  | _ => box_wf 0 b /\ enc fs = enc (box_layout b)
  end.
Lemma rmap_cases {A} (f : A -> box) (m : R A) (Q : list field -> A -> Prop) (rd : R box) r0 r n b : rd = rmap f m -> rwf r0 -> rinv [] m Q -> rd r0 = Ok (r, n, b) ->
  exists fs a, b = f a /\ rbits r0 = enc fs ++ rbits r /\ fields_ok fs /\ Q fs a.
Proof.
  intros -> W H E. specialize (H ltac:(constructor) r0 W). unfold rmap, rbind, rret in E. destruct (m r0) as [[[r1 n1] a]|e|]; try discriminate E.
  assert (r1 = r /\ b = f a) as [-> ->] by (split; congruence). destruct H as (_ & _ & fs & E1 & K & Hq). cbn [app] in *. exists fs, a. auto.
Qed.
Lemma rmap_val {A} (f : A -> box) (m : R A) (P : A -> Prop) (rd : R box) r r' n b : rd = rmap f m -> rwf r -> rval m P ->
  rd r = Ok (r', n, b) -> exists a, b = f a /\ P a.
Proof.
  intros -> Hr H E. specialize (H r Hr). unfold rmap, rbind, rret in E. destruct (m r) as [[[r1 n1] a]|e|]; try discriminate E.
  exists a. split; [congruence|apply H].
Qed.
Lemma rmap_ainv {A} (f : A -> box) (m : R A) (Q : list field -> A -> Prop) (rd : R box) r0 r n b : rd = rmap f m -> rwf r0 -> r_width r0 = 0 -> ainv [] m Q -> rd r0 = Ok (r, n, b) ->
  exists fs a, b = f a /\ rbits r0 = enc fs ++ rbits r /\ fields_ok fs /\ Q fs a.
Proof.
  intros -> W W0 H E. specialize (H ltac:(constructor) r0 W W0). unfold rmap, rbind, rret in E. destruct (m r0) as [[[r1 n1] a]|e|]; try discriminate E.
  assert (r1 = r /\ b = f a) as [-> ->] by (split; congruence). destruct H as (_ & _ & _ & fs & E1 & K & Hq). cbn [app] in *. exists fs, a. auto.
Qed.
Lemma rmap_ok {A} (f : A -> box) (m : R A) r r' n b : rmap f m r = Ok (r', n, b) -> exists a, m r = Ok (r', n, a) /\ b = f a.
Proof.
  unfold rmap, rbind, rret. destruct (m r) as [[[r1 n1] a]|e|]; try discriminate. rewrite Z.add_0_r. intros E. exists a. split; congruence.
Qed.
Lemma enc_bits bs : enc (map FB bs) = bs.
Proof. induction bs as [|x bs IH]; [reflexivity|]. cbn [map]. rewrite enc_cons, IH. reflexivity. Qed.
Lemma fields_ok_bits bs : fields_ok (map FB bs).
Proof. induction bs as [|x bs IH]; [constructor|]. constructor; [exact I|exact IH]. Qed.

Lemma box_inv k type data r n b : bytes data -> Box_readData k type false (reader_init data) = Ok (r, n, b) ->
  box_kind b = k /\ (forall a, b = B_audio a -> ase_type a = type) /\
  exists fs, bits_of data = enc fs ++ rbits r /\ fields_ok fs /\ box_post fs b.
Proof.
  intros Hb E. pose proof (rwf_init data Hb) as W. rewrite <- rbits_init.
  destruct k;
  match type of E with ?rd _ = _ => let t := eval cbn [Box_readData] in rd in
  assert (Eq : rd = t) by (unfold Box_readData; reflexivity);
  match t with
    | rmap B_hdlr _ =>
      destruct (rmap_ainv B_hdlr _ _ rd _ _ _ _ Eq W eq_refl hdlr_inv E) as (fs & a & -> & H1 & H2 & H3); (split; [reflexivity|]); (split; [discriminate|]);
      exists fs; (split; [exact H1|]); (split; [exact H2|exact H3])
    | rmap B_iods _ =>
      pose proof (box_safe K_iods type false data Hb ltac:(discriminate)) as S; rewrite E in S; destruct S as (_ & _ & bs & S & _);
      destruct (rmap_val B_iods _ _ rd _ _ _ _ Eq W iods_val E) as (a & -> & P); (split; [reflexivity|]); (split; [discriminate|]); exists (map FB bs); rewrite enc_bits;
      (split; [exact S|]); (split; [apply fields_ok_bits|exact P])
    | rmap B_esds _ =>
      pose proof (box_safe K_esds type false data Hb ltac:(discriminate)) as S; rewrite E in S; destruct S as (_ & _ & bs & S & _);
      destruct (rmap_val B_esds _ _ rd _ _ _ _ Eq W esds_val E) as (a & -> & P); (split; [reflexivity|]); (split; [discriminate|]); exists (map FB bs); rewrite enc_bits;
      (split; [exact S|]); (split; [apply fields_ok_bits|exact P])
    | rmap ?f ?m =>
      let L := lazymatch m with
        | Btrt_readData => btrt_inv | Co64_readData => co64_inv | Colr_readData => colr_inv | Ctts_readData => ctts_inv | DOps_readData => dops_inv
        | Data_readData => data_inv | Dref_readData => dref_inv | Elst_readData => elst_inv | Emsg_readData => emsg_inv | Fiel_readData => fiel_inv
        | Free_readData => raw_inv | Mdat_readData => raw_inv | Skip_readData => raw_inv | Unsupported_readData => raw_inv
        | Ftyp_readData => ftyp_inv | Mdhd_readData => mdhd_inv | Mehd_readData => mehd_inv | Meta_readData => meta_inv | Mfhd_readData => mfhd_inv | Mfro_readData => mfro_inv
        | Mvhd_readData => mvhd_inv | PixelAspectRatio_readData => pasp_inv | Pssh_readData => pssh_inv | Sbgp_readData => sbgp_inv | Sdtp_readData => sdtp_inv
        | Sgpd_readData => sgpd_inv | Sidx_readData => sidx_inv | Smhd_readData => smhd_inv | Stco_readData => stco_inv | Stsc_readData => stsc_inv | Stsd_readData => stsd_inv
        | Stss_readData => stss_inv | Stsz_readData => stsz_inv | Stts_readData => stts_inv | Tfdt_readData => tfdt_inv | Tfhd_readData => tfhd_inv | Tfra_readData => tfra_inv
        | Tkhd_readData => tkhd_inv | Trex_readData => trex_inv | Trun_readData => trun_inv | Url_readData => url_inv | Urn_readData => urn_inv | Vmhd_readData => vmhd_inv
        | VPCodecConfiguration_readData => vpcc_inv | AV1CodecConfiguration_readData => av1c_inv | AVCDecoderConfiguration_readData => avcc_inv
        | VisualSampleEntry_readData => visual_entry_inv | AudioSampleEntry_readData ?t _ => constr:(audio_inv t)
        | Container_readData => constr:(rinv_ret [] tt (fun fs _ => fs = []) (fun _ => eq_refl)) end in
      destruct (rmap_cases f m _ rd _ _ _ _ Eq W L E) as (fs & a & -> & H1 & H2 & H3); clear E;
      (split; [reflexivity|]); (split; [first [discriminate|intros ? Ea; injection Ea as <-; apply H3]|]); exists fs; (split; [exact H1|]); (split; [exact H2|]);
      cbn [box_post box_wf box_layout];
      first [exact H3
            |destruct H3 as (H3 & H4 & H5); (split; [|exact H3]); first [exact H4|split; [exact H4|reflexivity]]
            |destruct H3 as (H3 & H4 & _); split; [split; [|reflexivity]|exact H3]; apply fields_ok_cons in H4 as [H4 _]; exact H4
            |solve [unfold exactly, upto, mdhd_wf, mvhd_wf, pssh_wf, sbgp_wf, stsz_wf, tkhd_wf, vmhd_wf, vpcc_wf, visual_entry_wf, url_wf, emsg_wf in *; tauto]
            |subst fs; reflexivity]
    end end.
Qed.

Lemma post_wf fs b : memory_sized b -> box_post fs b -> match b with B_hdlr _ | B_iods _ | B_esds _ => False | _ => True end -> box_wf 0 b.
Proof.
  intros Ms P K. destruct b; try contradiction K; clear K; cbn [box_post box_wf] in *; try (clear Ms; tauto).
  split; [|reflexivity]. destruct P as [[P1 P2] _]. split; [exact P1|]. split; [exact P2|exact Ms].
Qed.

(** What the writer emits, whatever the name. *)
Lemma fields_ok_join a b : fields_ok a -> fields_ok b -> fields_ok (a ++ b).
Proof. intros H G. apply Forall_app. split; assumption. Qed.
Lemma hdlr_written x : hdlr_shape x -> fields_ok (hdlr_head x) -> bytes (hdlr_name x) -> bytes (hdlr_padding x) ->
  wspec (Hdlr_writeData x) (enc (hdlr_head x ++ [FO (hdlr_name x ++ [0]); FO (hdlr_padding x)])).
Proof.
  intros _ K N P. assert (G : wenc (Hdlr_writeData x) (hdlr_head x ++ [FO (hdlr_name x ++ [0]); FO (hdlr_padding x)])).
  { unfold Hdlr_writeData, hdlr_head. repeat rewrite <- app_assoc. cbn [app].
    assert (S : wenc (write_string (hdlr_name x)) [FO (hdlr_name x ++ [0])]).
    { intros _. rewrite enc_one. cbn [field_bits]. pose proof (write_string_spec (hdlr_name x)) as Y. exact Y. }
    wgo. exact S. }
  apply G. apply fields_ok_join; [exact K|]. constructor; [|constructor; [exact P|constructor]]. cbn [field_ok]. apply bytes_app; [exact N|]. constructor; [unfold is_byte; lia|constructor].
Qed.
Lemma cons_snoc (l : list Z) x y : x :: l = l ++ [y] -> x = y.
Proof. revert x. induction l as [|z l IH]; intros x H; cbn [app] in H; [congruence|]. injection H as -> H. apply IH. exact H. Qed.
Lemma written_octets m bs w n : wspec m bs -> Zlen bs mod 8 = 0 -> m writer_init = Ok (w, n) -> bits_of (w_os w) = bs /\ bytes (w_os w) /\ n = Zlen bs.
Proof.
  intros H M E. destruct (writes_octets m bs H M) as (w' & E' & O & _). assert (w' = w /\ n = Zlen bs) as [-> ->] by (split; congruence).
  rewrite O. destruct (octets_bits bs M) as (A & B & _). auto.
Qed.
Lemma wspec_unique m a b : wspec m a -> wspec m b -> a = b.
Proof.
  intros A B. destruct (A writer_init wwf_init) as (w & E & _ & X). destruct (B writer_init wwf_init) as (w' & E' & _ & X').
  assert (w = w') by congruence. subst w'. rewrite wbits_init in *. cbn [app] in *. congruence.
Qed.
Lemma hdlr_back x w r n : bytes (w_os w) -> n mod 8 = 0 -> Hdlr_writeData x writer_init = Ok (w, n) -> Box_readData K_hdlr [] false (reader_init (w_os w)) = Ok (r, n, B_hdlr x) -> hdlr_wf x.
Proof.
  intros Hb Mn E R. pose proof (box_safe K_hdlr [] false _ Hb ltac:(discriminate)) as S. rewrite R in S. destruct S as (_ & _ & cs & S1 & _ & S2). specialize (S2 eq_refl).
  destruct (box_inv _ _ _ _ _ _ Hb R) as (_ & _ & fs & F1 & F2 & gs & -> & Sh & Pd & Nb & H).
  assert (Lc : Zlen (enc (hdlr_head x ++ gs)) = n).
  { rewrite <- S2. rewrite S1 in F1. apply (f_equal Zlen) in F1. rewrite !Zlen_app in F1. lia. }
  pose proof F2 as F3. apply fields_ok_app in F3 as [K Kg].
  pose proof (hdlr_written x Sh K Nb ltac:(rewrite Pd; constructor)) as Wr. rewrite Pd in Wr.
  assert (Lb : Zlen (enc (hdlr_head x ++ [FO (hdlr_name x ++ [0]); FO []])) = n).
  { destruct (Wr writer_init wwf_init) as (w' & E' & _). congruence. }
  destruct (written_octets _ _ w n Wr ltac:(rewrite Lb; exact Mn) E) as (B1 & _ & _).
  assert (Eg : bits_of (hdlr_name x ++ [0]) = enc gs ++ rbits r).
  { rewrite F1, !enc_app in B1. rewrite <- app_assoc in B1. apply app_inv_head in B1. rewrite B1. rewrite enc_cons, enc_one. cbn [field_bits]. rewrite app_nil_r. reflexivity. }
  rewrite !enc_app, !Zlen_app, enc_cons, enc_one in *. cbn [field_bits] in *. rewrite Zlen_app in Lb. change (Zlen (bits_of [])) with 0 in Lb.
  assert (R0 : rbits r = []). { apply (f_equal Zlen) in Eg. rewrite Zlen_app in Eg. destruct (rbits r); [reflexivity|]. rewrite Zlen_cons in Eg. pose proof (Zlen_nonneg l). lia. }
  rewrite R0, app_nil_r in Eg. destruct H as [[(Bs & N0 & [->| ->]) H]|(-> & Np & Nn)].
  - split; [exact Sh|]. split; [|split; [exact Pd|apply H; reflexivity]]. unfold hdlr_layout. rewrite Pd. apply fields_ok_app in K as [K1 K2]. apply fields_ok_join; [exact K1|].
    unfold fields_ok in K2. rewrite !Forall_cons_iff in K2. destruct K2 as (K2 & K3 & K4 & K5 & K6 & _).
    constructor; [exact K2|]. constructor; [exact K3|]. constructor; [exact K4|]. constructor; [exact K5|]. constructor; [exact K6|]. constructor; [split; assumption|]. constructor; [constructor|constructor].
  - apply (f_equal Zlen) in Eg. rewrite enc_one in Eg. cbn [field_bits] in Eg. rewrite !Zlen_bits_of, Zlen_app in Eg. unfold Zlen at 2 in Eg. cbn [length] in Eg. lia.
  - rewrite enc_one in Eg. cbn [field_bits] in Eg. apply fields_ok_cons in Kg as [Kg _]. cbn [field_ok] in Kg.
    apply bits_of_inj in Eg; [|apply bytes_app; [exact Nb|constructor; [unfold is_byte; lia|constructor]]|exact Kg]. symmetry in Eg. apply cons_snoc in Eg.
    destruct (hdlr_name x) as [|c l]; [congruence|]. rewrite Zlen_cons in Eg. pose proof (Zlen_nonneg l). lia.
Qed.

Lemma roundtrip_domain b type : box_typed b -> memory_sized b -> (forall a, b = B_audio a -> ase_type a = type) ->
  (box_wf 0 b <->
   exists w r n, Box_writeData b writer_init = Ok (w, n) /\ Box_readData (box_kind b) type false (reader_init (w_os w)) = Ok (r, n, b)).
Proof.
  intros T Ms Ty. split.
  - intros H. destruct (payload_roundtrip b [] type false ltac:(constructor) H) as (w & E & _ & _ & r & R & _); [intros a Ea; split; [apply Ty; exact Ea|reflexivity]|].
    rewrite app_nil_r in R. exists w, r, (8 * Zlen (w_os w)). auto.
  - intros (w & r & n & E & R). pose proof (payload_size b T) as Sz. destruct (box_refused b) eqn:Rf; [rewrite Sz in E; discriminate E|].
    destruct (box_size b (shape_of b T Rf)) as (bs & H & L).
    destruct (written_octets _ _ _ _ H ltac:(rewrite L; lia) E) as (B1 & B2 & B3).
    destruct (box_inv _ _ _ _ _ _ B2 R) as (_ & _ & fs & F1 & F2 & P).
    destruct b; try (refine (post_wf fs _ Ms P I)); cbn [Box_writeData box_kind box_post box_wf memory_sized] in *.
    + match goal with y : esds |- _ => rename y into x end. split; [|reflexivity]. destruct P as [P1 P2].
      assert (Wr : wspec (Esds_writeData x) (enc (fb_layout (esds_fb x) ++ esds_wire (esds_descriptors x)))).
      { apply esds_wire_write. apply fields_ok_join; [exact P1|]. unfold esds_wire. clear - P2. induction P2 as [|d l Hd _ IH]; [constructor|]. cbn [flat_map]. apply fields_ok_join; [|exact IH]. apply Hd. apply field_ok_FV_mod. }
      assert (bs = enc (fb_layout (esds_fb x) ++ esds_wire (esds_descriptors x))) as -> by (eapply wspec_unique; eassumption).
      destruct (rmap_ok _ _ _ _ _ _ R) as (a & Er & Ea). injection Ea as <-. eapply esds_exact; [apply rwf_init; exact B2|exact P1|exact P2|exact Ms|rewrite rbits_init; exact B1|exact Er].
    + match goal with y : hdlr |- _ => rename y into x end. split; [|reflexivity]. eapply hdlr_back; [exact B2| |exact E|exact R]. rewrite B3, L. lia.
    + match goal with y : iods |- _ => rename y into x end. pose proof (iods_wire_write x P) as Wr. assert (bs = enc (iods_wire x)) as -> by (eapply wspec_unique; eassumption).
      destruct (rmap_ok _ _ _ _ _ _ R) as (a & Er & Ea). injection Ea as <-.
      eapply (iods_exact x (reader_init (w_os w)) [] r); [apply rwf_init; exact B2|exact P|rewrite rbits_init, app_nil_r; exact B1|rewrite <- B3; exact Er].
Qed.

(** * What was read is written back *)

Lemma oct_rmap {A} (f : A -> box) m : oct m -> oct (rmap f m).
Proof. intros H. unfold rmap. apply oct_bind; [exact H|intros; apply oct_ret]. Qed.
Lemma oct_count {A} (m : R A) : oct m -> oct (rcount m).
Proof. intros H r. specialize (H r). unfold rcount. destruct (m r) as [[[r1 n1] a]|e|]; auto. Qed.
Lemma oct_throw {A} e : oct (A := A) (rthrow e). Proof. intros r. exact I. Qed.
Lemma oct_fb : oct readVersionAndFlag.
Proof. unfold readVersionAndFlag. repeat (apply oct_bind; [apply oct_uint; reflexivity|intros]). apply oct_ret. Qed.
Lemma oct_rest : oct read_rest.
Proof. unfold read_rest, read_vector_uint. apply oct_bind; [apply oct_offset|intros]. apply oct_repeat, oct_uint. reflexivity. Qed.
Ltac octgo := repeat first [apply oct_ret|apply oct_throw|apply oct_fb|apply oct_rest|apply oct_offset|apply oct_string|apply oct_count|apply oct_uint; reflexivity|apply oct_repeat
  |apply oct_bind; [|intros]|match goal with |- oct (if ?c then _ else _) => destruct c | |- oct (let '(_, _) := ?p in _) => destruct p | |- context[rwhen ?c _] => unfold rwhen end].
Lemma oct_pascal m : oct (read_pascal_string m).
Proof.
  intros r. unfold read_pascal_string. destruct (m <? 2 * 8); [apply oct_string|]. pose proof (oct_octet8 r) as O. destruct (read_octet8 r) as [[[r1 n1] v]|e|]; auto.
  destruct (negb _); [apply oct_string|]. revert r1 O. intros r1 _.
  assert (G : oct (s <- rrepeat (Z.to_nat v) read_octet8; _ <- rtick 8; rret s)); [|apply G].
  apply oct_bind; [apply oct_repeat, oct_octet8|intros]. apply oct_bind; [intros r2; reflexivity|intros; apply oct_ret].
Qed.
Lemma string_boxes_oct k type : In k [K_url; K_urn; K_emsg; K_hdlr] -> oct (Box_readData k type false).
Proof.
  intros [<-|[<-|[<-|[<-|[]]]]]; cbn [Box_readData]; apply oct_rmap.
  - unfold Url_readData. octgo.
  - unfold Urn_readData. octgo.
  - unfold Emsg_readData. octgo.
  - unfold Hdlr_readData. octgo. apply oct_pascal.
Qed.
Lemma enc_len_size b bs : box_shape b -> wspec (Box_writeData b) bs -> Zlen bs = 8 * Box_getDataSize b.
Proof. intros S W. destruct (box_size b S) as (bs' & W' & L). rewrite (wspec_unique _ _ _ W W'). exact L. Qed.

Lemma read_then_write k type data r n b : bytes data -> Box_readData k type false (reader_init data) = Ok (r, n, b) -> lossless b -> n / 8 = Box_getDataSize b ->
  exists w rest, Box_writeData b writer_init = Ok (w, 8 * Zlen (w_os w)) /\ data = w_os w ++ rest /\ rbits r = bits_of rest /\ Zlen (w_os w) = Box_getDataSize b.
Proof.
  intros Hb R Rw Rn'. destruct (box_inv _ _ _ _ _ _ Hb R) as (Hk & _ & fs & F1 & F2 & P).
  assert (G : box_shape b -> wspec (Box_writeData b) (enc fs) ->
    exists w rest, Box_writeData b writer_init = Ok (w, 8 * Zlen (w_os w)) /\ data = w_os w ++ rest /\ rbits r = bits_of rest /\ Zlen (w_os w) = Box_getDataSize b).
  { intros Sh Wr. pose proof (enc_len_size b _ Sh Wr) as L. destruct (writes_octets _ _ Wr ltac:(rewrite L; lia)) as (w & E & O & _).
    destruct (octets_bits (enc fs) ltac:(rewrite L; lia)) as (A & B & C). rewrite L in C. assert (C' : Zlen (w_os w) = Box_getDataSize b) by (rewrite O; lia).
    remember (length (w_os w)) as q eqn:Eq. exists w, (skipn q data). rewrite C'. split; [rewrite <- L; exact E|].
    assert (X : Zlen (bits_of data) = Zlen (enc fs) + Zlen (rbits r)) by (rewrite F1, Zlen_app; reflexivity).
    rewrite Zlen_bits_of, L in X. pose proof (Zlen_nonneg (rbits r)) as N.
    assert (Hq : (q <= length data)%nat) by (unfold Zlen in *; lia).
    pose proof F1 as F3. rewrite <- (firstn_skipn q data), bits_of_app in F3.
    apply app_len_inj in F3; [|rewrite bits_of_length, firstn_length_le by exact Hq; unfold Zlen in *; lia]. destruct F3 as [F3 F4].
    split; [|split; [symmetry; exact F4|reflexivity]]. rewrite <- (firstn_skipn q data) at 1. f_equal.
    rewrite <- (firstn_skipn q data) in Hb. apply Forall_app in Hb. apply bits_of_inj; [apply Hb|rewrite O; exact B|rewrite F3, O, A; reflexivity]. }
  assert (S : overreports k = false -> k <> K_sgpd -> Zlen (enc fs) = n).
  { intros Ho Hs. pose proof (box_safe k type false data Hb ltac:(congruence)) as S. rewrite R in S. destruct S as (_ & _ & cs & S1 & _ & S2). specialize (S2 Ho).
    rewrite S1 in F1. apply (f_equal Zlen) in F1. rewrite !Zlen_app in F1. lia. }
  assert (Rn : In k [K_url; K_urn; K_emsg; K_hdlr] -> n = 8 * Box_getDataSize b).
  { intros Hi. pose proof (string_boxes_oct k type Hi (reader_init data)) as O. rewrite R in O. lia. }
  destruct b; cbn [lossless box_post] in *; try contradiction; subst k; cbn [box_kind overreports] in *;
    try solve [destruct P as [P1 P2]; apply G; [eapply box_wf_shape; exact P1|rewrite P2; eapply (box_write 0); exact P1]].
  - apply G; [exact I|]. rewrite P. apply wspec_skip.
  - specialize (S eq_refl ltac:(discriminate)); specialize (Rn ltac:(cbn; tauto)). destruct P as [P1 P2]. match goal with y : emsg |- _ => rename y into x end. pose proof (emsg_write x P1) as Wr. pose proof (enc_len_size (B_emsg x) _ I Wr) as L.
    apply G; [exact I|]. rewrite P2; [exact Wr|]. rewrite S, L. exact Rn.
  - specialize (S eq_refl ltac:(discriminate)); specialize (Rn ltac:(cbn; tauto)). match goal with y : hdlr |- _ => rename y into x end. rename Rw into Rp. destruct P as (gs & -> & Sh & Pd & Nb & H).
    pose proof F2 as F3. apply fields_ok_app in F3 as [K Kg]. pose proof (hdlr_written x Sh K Nb ltac:(rewrite Pd; constructor)) as Wr. rewrite Pd in Wr.
    pose proof (enc_len_size (B_hdlr x) _ Sh Wr) as L. destruct H as [[(Bs & N0 & [->| ->]) H]|(-> & Np & Nn)]; [| |contradiction].
    + apply G; [exact Sh|]. rewrite enc_app. rewrite enc_app, enc_cons, enc_one in Wr. cbn [field_bits] in Wr. rewrite app_nil_r in Wr. rewrite enc_one. cbn [field_bits]. exact Wr.
    + exfalso. rewrite enc_app, Zlen_app, enc_one in S. rewrite enc_app, enc_cons, enc_one, !Zlen_app in L. cbn [field_bits] in *. rewrite !Zlen_bits_of, !Zlen_app in *. change (Zlen [0]) with 1 in L. change (Zlen (A := Z) []) with 0 in L. lia.
  - destruct P as [P1 P2]. specialize (P2 Rw). apply G; [exact I|]. rewrite P2. apply stsz_write. apply P1.
  - specialize (S eq_refl ltac:(discriminate)); specialize (Rn ltac:(cbn; tauto)). destruct P as [[P1 P1'] P2]. match goal with y : url |- _ => rename y into x end. pose proof (url_write x P1) as Wr. pose proof (enc_len_size (B_url x) _ I Wr) as L.
    apply G; [exact I|]. rewrite P2; [exact Wr|]. rewrite S, L. exact Rn.
  - specialize (S eq_refl ltac:(discriminate)); specialize (Rn ltac:(cbn; tauto)). destruct P as [[P1 P1'] P2]. match goal with y : urn |- _ => rename y into x end. pose proof (urn_write x P1) as Wr. pose proof (enc_len_size (B_urn x) _ I Wr) as L.
    apply G; [exact I|]. rewrite P2; [exact Wr|]. rewrite S, L. exact Rn.
Qed.
