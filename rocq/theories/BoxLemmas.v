(** Box payload properties in terms of the API (C09-C12, C39, C42). *)
From Coq Require Import ZifyBool.
From Verif Require Import Base BitIO BitFacts BitIOProofs Boxes WireFormat DescriptorSpec BoxTac BoxWrite BoxRead Box BoxSpec BoxIO BoxSize BoxSafe BoxTree TreeSpec TreeProofs TreeRead.

Lemma writes_octets m bs : wspec m bs -> Zlen bs mod 8 = 0 ->
  exists w, m writer_init = Ok (w, Zlen bs) /\ w_os w = octets bs /\ w_width w = 0.
Proof.
  intros H M. destruct (H writer_init wwf_init) as (w & E & W & B). rewrite wbits_init in B. cbn [app] in B.
  exists w. split; [exact E|]. exact (w_os_octets w bs W B M).
Qed.

(** C09, C11 *)
Lemma payload_roundtrip b children type under_wave : bytes children -> box_wf (Zlen children) b ->
  (forall a, b = B_audio a -> ase_type a = type /\ under_wave = false) ->
  exists w, Box_writeData b writer_init = Ok (w, 8 * Zlen (w_os w)) /\ w_width w = 0 /\ w_os w = wire_payload b /\
  exists r, Box_readData (box_kind b) type under_wave (reader_init (w_os w ++ children)) = Ok (r, 8 * Zlen (w_os w), b) /\
            rbits r = bits_of children.
Proof.
  intros Hc H A. destruct (wire_payload_facts _ _ H) as (P1 & P2 & P3).
  assert (M : Zlen (enc (box_layout b)) = 8 * Zlen (wire_payload b)) by (rewrite <- P1, Zlen_bits_of; lia).
  destruct (writes_octets _ _ (box_write _ _ H)) as (w & E & O & W0); [rewrite M; lia|].
  change (octets (enc (box_layout b))) with (wire_payload b) in O. rewrite M in E.
  exists w. rewrite O. split; [exact E|]. split; [exact W0|]. split; [reflexivity|].
  destruct (box_read (Zlen children) b (bits_of children) type H) with (uw := under_wave) (r := reader_init (wire_payload b ++ children)) as (r & E2 & _ & B2 & _).
  - rewrite Zlen_bits_of. lia.
  - intros Z. destruct children; [reflexivity|]. rewrite Zlen_cons in Z. pose proof (Zlen_nonneg children). lia.
  - intros a Ea. apply (A a Ea).
  - intros a Ea. apply (A a Ea).
  - apply rwf_init. apply bytes_app; assumption.
  - unfold rbits. cbn [reader_init r_width r_octet r_pos r_data skipn be Z.to_nat]. rewrite bits_of_app, P1. reflexivity.
  - exists r. rewrite M in E2. split; [exact E2|exact B2].
Qed.

(** C10 *)
Lemma is_high_existsb p : In p [86; 100; 110; 118; 122; 128; 138; 144; 244] <-> existsb (Z.eqb p) [86; 100; 110; 118; 122; 128; 138; 144; 244] = true.
Proof. rewrite existsb_exists. split; [intros H; exists p; split; [exact H|lia]|intros (x & H & E); apply Z.eqb_eq in E; subst; exact H]. Qed.
Lemma shape_of b : box_typed b -> box_refused b = false -> box_shape b.
Proof.
  destruct b; cbn [box_typed box_refused box_shape]; auto.
  - intros _ H. apply Forall_forall. intros d Hd. destruct d; auto. intros Hf.
    assert (E : url_too_long (DES f sds subs) = false).
    { destruct (url_too_long (DES f sds subs)) eqn:E; [|reflexivity]. rewrite <- H. symmetry. apply existsb_exists. eauto. }
    cbn [url_too_long] in E. rewrite Hf in E. cbn [andb] in E. lia.
  - intros _ H E. unfold avc_high. apply is_high_existsb. rewrite E in H. cbn [andb] in H. destruct (existsb _ _); [reflexivity|discriminate].
Qed.
Definition wthrows (m : W) : Prop := forall w, wwf w -> m w = Throw RuntimeError.
Lemma wthrows_seq_l a b : wthrows a -> wthrows (a ;; b).
Proof. intros H w W. unfold wseq. rewrite (H w W). reflexivity. Qed.
Lemma wthrows_seq_r a b n : wlen a n -> wthrows b -> wthrows (a ;; b).
Proof. intros (bs & H & _) T w W. unfold wseq. destruct (H w W) as (w' & -> & W' & _). rewrite (T w' W'). reflexivity. Qed.
Lemma descriptor_wlen d : url_too_long d = false -> exists n, wlen (Descriptor_writeData d) n.
Proof.
  intros H. destruct (esds_size (mk_esds (mk_fullbox 0 0 0 0) [d])) as (bs & Hs & L).
  - cbn. constructor; [|constructor]. destruct d; auto. intros E. cbn [url_too_long] in H. rewrite E in H. cbn [andb] in H. lia.
  - destruct d; cbn [Descriptor_writeData].
    + cbn [url_too_long] in H. destruct (es_url_flag f); cbn [andb wwhen] in *; [destruct (_ >? 255) eqn:G; [lia|]|]; eexists; repeat sstep.
    + eexists. repeat sstep.
    + eexists. repeat sstep.
    + eexists. repeat sstep.
Qed.
Lemma payload_size b : box_typed b ->
  if box_refused b then Box_writeData b writer_init = Throw RuntimeError
  else exists w, Box_writeData b writer_init = Ok (w, 8 * Box_getDataSize b) /\ w_width w = 0 /\ Zlen (w_os w) = Box_getDataSize b.
Proof.
  intros T. destruct (box_refused b) eqn:R.
  - destruct b as [| | | | | | | | | |x| | | | | | | | | | | | | | | | | | | | | | | | | | | | | | | | | | | | | | |x| |]; try discriminate R; cbn [box_refused Box_writeData] in *.
    + assert (G : wthrows (Esds_writeData x)); [|apply G, wwf_init].
      unfold Esds_writeData. eapply wthrows_seq_r; [apply wlen_fb|]. induction (esds_descriptors x) as [|d l IH]; [discriminate R|].
      cbn [existsb wlist] in *. destruct (url_too_long d) eqn:U.
      * apply wthrows_seq_l. destruct d; try discriminate U. cbn [url_too_long] in U. apply andb_true_iff in U as [U1 U2].
        cbn [Descriptor_writeData]. rewrite U1. cbn [wwhen]. destruct (_ >? 255) eqn:G; [|lia].
        repeat first [apply wthrows_seq_l; intros w _; reflexivity|eapply wthrows_seq_r; [solve [repeat sstep]|]].
      * destruct (descriptor_wlen d U) as (n & Hn). eapply wthrows_seq_r; [exact Hn|]. apply IH. exact R.
    + assert (G : wthrows (AVCDecoderConfiguration_writeData x)); [|apply G, wwf_init].
      apply andb_true_iff in R as [R1 R2]. unfold AVCDecoderConfiguration_writeData. rewrite R1. unfold is_avc_high_profile. rewrite R2. cbn [negb].
      assert (Q : forall l, exists n, wlen (wlist AVCParameterSet_writeData l) n).
      { intros l. eexists. eapply (wlen_sum _ AVCParameterSet_getSize). intros s _. unfold AVCParameterSet_writeData, AVCParameterSet_getSize. eapply wlen_eq; [repeat sstep|]. lia. }
      destruct (Q (avcc_sps x)) as (n1 & Q1). destruct (Q (avcc_pps x)) as (n2 & Q2).
      repeat (eapply wthrows_seq_r; [first [exact Q1|exact Q2|repeat sstep]|]). intros w _. reflexivity.
  - destruct (box_size b (shape_of b T R)) as (bs & H & L).
    destruct (writes_octets _ _ H) as (w & E & O & W0); [rewrite L; lia|]. exists w. rewrite <- L. split; [exact E|]. split; [exact W0|].
    rewrite O. destruct (octets_bits bs) as (_ & _ & C); [lia|]. lia.
Qed.

(** C42 *)
Lemma payload_safe k type under_wave data : bytes data -> (k = K_sgpd -> ~ sgpd_reads_uninitialised data) ->
  (exists e, Box_readData k type under_wave (reader_init data) = Throw e) \/
  (exists r n b consumed, Box_readData k type under_wave (reader_init data) = Ok (r, n, b) /\
     bits_of data = consumed ++ rbits r /\ Zlen consumed <= n /\ (overreports k = false -> Zlen consumed = n)).
Proof.
  intros H S. pose proof (box_safe k type under_wave data H S) as G.
  destruct (Box_readData k type under_wave (reader_init data)) as [[[r n] b]|e|]; [right|left; eauto|contradiction].
  destruct G as (_ & _ & bs & A & B & C). exists r, n, b, bs. auto.
Qed.

(** C39 *)
Section DescInd.
  Variable P : descriptor -> Prop.
  Hypothesis H1 : forall f s l, Forall P l -> P (DES f s l).
  Hypothesis H2 : forall f s l, Forall P l -> P (DCD f s l).
  Hypothesis H3 : forall l, P (DSI l).
  Hypothesis H4 : forall l, P (DSL l).
  Fixpoint descriptor_ind' (d : descriptor) : P d :=
    match d with
    | DES f s l => H1 f s l ((fix go l := match l return Forall P l with [] => Forall_nil _ | x :: r => Forall_cons _ (descriptor_ind' x) (go r) end) l)
    | DCD f s l => H2 f s l ((fix go l := match l return Forall P l with [] => Forall_nil _ | x :: r => Forall_cons _ (descriptor_ind' x) (go r) end) l)
    | DSI l => H3 l
    | DSL l => H4 l
    end.
End DescInd.
Lemma layout_split n d : enc (descriptor_layout n d) = enc [FU 8 (descriptor_tag d); FV n] ++ enc (descriptor_own d).
Proof. destruct d; unfold descriptor_own; cbn [descriptor_layout es_layout dcd_layout tl app descriptor_tag]; unfold enc; cbn [flat_map]; rewrite <- ?app_assoc; reflexivity. Qed.
Lemma nested_eq d : nested_bits d = enc [FU 8 (descriptor_tag d); FV (Zlen (enc (descriptor_own d) ++ flat_map nested_bits (sub_descriptors d)) / 8)] ++
  enc (descriptor_own d) ++ flat_map nested_bits (sub_descriptors d).
Proof. destruct d; cbn [nested_bits sub_descriptors flat_map]; rewrite ?app_nil_r; reflexivity. Qed.
Lemma flatten_eq d : flatten d = d :: flat_map flatten (sub_descriptors d).
Proof. destruct d; reflexivity. Qed.
Lemma own_len' d : Zlen (enc (descriptor_own d)) = 8 * own_body d.
Proof.
  assert (C : forall f l, Zlen (enc (f :: l)) = Zlen (field_bits f) + Zlen (enc l)) by (intros; unfold enc; cbn [flat_map]; apply Zlen_app).
  assert (N : Zlen (enc []) = 0) by reflexivity.
  destruct d; unfold descriptor_own; cbn [descriptor_layout es_layout dcd_layout tl app own_body]; unfold es_body.
  - destruct (es_stream_dependence_flag f), (es_url_flag f), (es_ocr_stream_flag f); cbn [opt app];
    rewrite !C, N; cbn [field_bits]; rewrite ?Zlen_bits_of, ?Zlen_be, ?Zlen_cons; unfold Zlen; cbn [length]; lia.
  - rewrite !C, N; cbn [field_bits]; rewrite ?Zlen_bits_of, ?Zlen_be, ?Zlen_cons; unfold Zlen; cbn [length]; lia.
  - rewrite !C, N; cbn [field_bits]; rewrite ?Zlen_bits_of; lia.
  - rewrite !C, N; cbn [field_bits]; rewrite ?Zlen_bits_of; lia.
Qed.
Lemma header_len t n : Zlen (enc [FU 8 t; FV n]) = 40.
Proof. cbn [enc flat_map field_bits]. rewrite ?app_nil_r, ?Zlen_app, ?Zlen_be, ?Zlen_cons, ?Zlen_app, ?Zlen_be, ?Zlen_cons, ?Zlen_app, ?Zlen_be, ?Zlen_cons, ?Zlen_app, ?Zlen_be, ?Zlen_cons, ?Zlen_be. lia. Qed.
Lemma leaf_announced d : sub_descriptors d = [] -> plain d -> announced d = own_body d.
Proof. destruct d; cbn [sub_descriptors plain announced own_body]; auto; intros -> [-> _]; cbn [fold_right Z.ltb Z.compare]; lia. Qed.
Lemma plain_nested d : plain d ->
  Zlen (enc (descriptor_own d) ++ flat_map nested_bits (sub_descriptors d)) = 8 * announced d /\
  enc (flat_map (fun x => descriptor_layout (announced x) x) (flatten d)) = nested_bits d.
Proof.
  assert (K : forall d, Zlen (enc (descriptor_own d) ++ flat_map nested_bits (sub_descriptors d)) = 8 * announced d -> Zlen (nested_bits d) = 8 * (5 + announced d)).
  { intros x E. rewrite nested_eq, Zlen_app, header_len, E. lia. }
  assert (G : forall d, Zlen (enc (descriptor_own d) ++ flat_map nested_bits (sub_descriptors d)) = 8 * announced d ->
     Forall (fun x => enc (flat_map (fun y => descriptor_layout (announced y) y) (flatten x)) = nested_bits x) (sub_descriptors d) ->
     enc (flat_map (fun x => descriptor_layout (announced x) x) (flatten d)) = nested_bits d).
  { intros x E F. rewrite flatten_eq, nested_eq. cbn [flat_map]. rewrite enc_app, layout_split, E.
    replace (8 * announced x / 8) with (announced x) by lia. rewrite <- app_assoc. f_equal. f_equal. clear -F.
    induction F as [|y l Hy Hl IH]; [reflexivity|]. cbn [flat_map]. rewrite flat_map_app, enc_app, Hy, IH. reflexivity. }
  induction d as [f s l IH|f s l IH|l|l] using descriptor_ind'; cbn [plain]; intros P.
  - destruct P as [-> P].
    assert (Q : Forall (fun x => Zlen (nested_bits x) = 8 * (5 + announced x) /\ enc (flat_map (fun y => descriptor_layout (announced y) y) (flatten x)) = nested_bits x) l).
    { clear -IH P K. induction IH as [|x l Hx Hl IHl]; [constructor|]. cbn [fold_right] in P. destruct P as [P1 P2]. constructor; [|auto]. destruct (Hx P1) as [A B]. auto. }
    assert (E : Zlen (enc (descriptor_own (DES f 0 l)) ++ flat_map nested_bits (sub_descriptors (DES f 0 l))) = 8 * announced (DES f 0 l)).
    { rewrite Zlen_app, own_len'. cbn [own_body sub_descriptors announced Z.ltb Z.compare].
      enough (Zlen (flat_map nested_bits l) = 8 * fold_right (fun x a => 5 + announced x + a) 0 l) by lia.
      clear -Q. induction Q as [|x l [A _] Hl IH]; [reflexivity|]. cbn [flat_map fold_right]. rewrite Zlen_app. lia. }
    split; [exact E|]. apply G; [exact E|]. cbn [sub_descriptors]. eapply Forall_impl; [|exact Q]. cbv beta. tauto.
  - destruct P as [-> P].
    assert (Q : Forall (fun x => Zlen (nested_bits x) = 8 * (5 + own_body x) /\ enc (flat_map (fun y => descriptor_layout (announced y) y) (flatten x)) = nested_bits x) l).
    { clear -IH P K. induction IH as [|x l Hx Hl IHl]; [constructor|]. cbn [fold_right] in P. destruct P as [[P1 P2] P3]. constructor; [|auto]. destruct (Hx P1) as [A B].
      split; [|exact B]. rewrite <- (leaf_announced x P2 P1). apply K. exact A. }
    assert (E : Zlen (enc (descriptor_own (DCD f 0 l)) ++ flat_map nested_bits (sub_descriptors (DCD f 0 l))) = 8 * announced (DCD f 0 l)).
    { rewrite Zlen_app, own_len'. cbn [own_body sub_descriptors announced Z.ltb Z.compare].
      enough (Zlen (flat_map nested_bits l) = 8 * fold_right (fun x a => 5 + own_body x + a) 0 l) by lia.
      clear -Q. induction Q as [|x l [A _] Hl IH]; [reflexivity|]. cbn [flat_map fold_right]. rewrite Zlen_app. lia. }
    split; [exact E|]. apply G; [exact E|]. cbn [sub_descriptors]. eapply Forall_impl; [|exact Q]. cbv beta. tauto.
  - assert (E : Zlen (enc (descriptor_own (DSI l)) ++ flat_map nested_bits (sub_descriptors (DSI l))) = 8 * announced (DSI l)).
    { rewrite Zlen_app, own_len'. cbn [own_body sub_descriptors announced flat_map]. unfold Zlen at 2; cbn [length]. lia. }
    split; [exact E|]. apply G; [exact E|constructor].
  - assert (E : Zlen (enc (descriptor_own (DSL l)) ++ flat_map nested_bits (sub_descriptors (DSL l))) = 8 * announced (DSL l)).
    { rewrite Zlen_app, own_len'. cbn [own_body sub_descriptors announced flat_map]. unfold Zlen at 2; cbn [length]. lia. }
    split; [exact E|]. apply G; [exact E|constructor].
Qed.
Lemma plain_flatten d : plain d -> Forall plain (flatten d).
Proof.
  induction d as [f s l IH|f s l IH|l|l] using descriptor_ind'; cbn [plain flatten]; intros P; constructor; cbn [plain]; auto.
  - destruct P as [_ P]. clear -IH P. induction IH as [|x l Hx Hl IHl]; [constructor|]. cbn [fold_right flat_map] in *. destruct P as [P1 P2]. apply Forall_app. auto.
  - destruct P as [_ P]. clear -IH P. induction IH as [|x l Hx Hl IHl]; [constructor|]. cbn [fold_right flat_map] in *. destruct P as [[P1 _] P2]. apply Forall_app. auto.
Qed.
Lemma as_read_norm d : plain d -> descriptor_norm d = as_read d.
Proof.
  intros P. destruct (plain_nested d P) as [E _]. rewrite Zlen_app, own_len' in E.
  destruct d; cbn [descriptor_norm as_read own_body sub_descriptors] in *; auto; f_equal; lia.
Qed.
Lemma esds_nested fb d : plain d -> esds_writable (mk_esds fb (flatten d)) ->
  exists w, Box_writeData (B_esds (mk_esds fb (flatten d))) writer_init = Ok (w, 8 * Zlen (w_os w)) /\
    bits_of (w_os w) = enc (fb_layout fb) ++ nested_bits d /\
  exists r, Box_readData K_esds [101; 115; 100; 115] false (reader_init (w_os w)) =
            Ok (r, 8 * Zlen (w_os w), B_esds (mk_esds fb (map as_read (flatten d)))) /\ rbits r = [].
Proof.
  intros P H. destruct (plain_nested d P) as [E N].
  assert (L : enc (esds_layout (mk_esds fb (flatten d))) = enc (fb_layout fb) ++ nested_bits d).
  { unfold esds_layout. cbn [esds_fb esds_descriptors]. rewrite enc_app, N. reflexivity. }
  assert (M : Zlen (enc (fb_layout fb) ++ nested_bits d) = 8 * (4 + (5 + announced d))).
  { rewrite Zlen_app, nested_eq, Zlen_app, header_len, E. unfold fb_layout. cbn [enc flat_map field_bits]. rewrite !Zlen_app, !Zlen_be. unfold Zlen; cbn [length]. lia. }
  pose proof (esds_write (mk_esds fb (flatten d)) (proj1 H)) as W. rewrite L in W.
  destruct (writes_octets _ _ W) as (w & Ew & O & W0); [rewrite M; lia|].
  destruct (octets_bits (enc (fb_layout fb) ++ nested_bits d)) as (A & B & C); [rewrite M; lia|].
  assert (Z8 : Zlen (enc (fb_layout fb) ++ nested_bits d) = 8 * Zlen (w_os w)) by (rewrite O, C, M; lia).
  exists w. cbn [Box_writeData]. rewrite <- Z8. split; [exact Ew|]. split; [rewrite O; exact A|].
  pose proof (esds_read _ H) as R. rewrite L in R. cbn [esds_fb esds_descriptors] in R.
  destruct (rspec_rmap B_esds _ _ _ _ R (reader_init (w_os w))) as (r & Er & _ & Br & _).
  - apply rwf_init. rewrite O. exact B.
  - rewrite app_nil_r. unfold rbits. cbn [reader_init r_width r_octet r_pos r_data skipn be Z.to_nat app]. rewrite O. exact A.
  - exists r. split; [|exact Br]. cbn [Box_readData]. rewrite Er. do 3 f_equal. f_equal. clear -P.
    pose proof (plain_flatten d P) as F. induction F as [|x l Hx Hl IH]; [reflexivity|]. cbn [map]. rewrite (as_read_norm x Hx), IH. reflexivity.
Qed.
