(** Reading prints: when that fails. *)
From Verif Require Import Base BitIO BitSpec BitFacts BitIOProofs BitLemmas Boxes WireFormat BoxTac BoxRead BoxInv Box BoxSpec Print PrintSpec PrintProofs BoxTree TreeSpec TreeProofs TreeLayout TreeRead TreePrint
  ReaderTotal ReaderTiling TreeLemmas BoxExact BoxLemmas.

Lemma occurs_all P n : all_boxes P (tree_of n) <-> forall k, occurs k n -> P (n_box k).
Proof.
  induction n as [t h b l IH] using node_ind'. cbn [tree_of]. rewrite all_boxes_eq, Forall_map. rewrite Forall_forall in *. split.
  - intros [A B] k O. inversion O as [|k' t' h' b' l' I O']; subst; [exact A|]. apply (proj1 (IH k' I) (B k' I) k O').
  - intros H. split; [exact (H _ (occurs_here _))|]. intros k I. apply (IH k I). intros k' O. apply H. eapply occurs_below; [exact I|exact O].
Qed.

(** * Outcomes of printing a tree *)
Lemma box_total h b : box_times b -> (box_printable b /\ exists s, Box_toString h b = Ok s) \/ (~ box_printable b /\ Box_toString h b = UB).
Proof.
  intros T. unfold Box_toString. destruct (toStringOnlyData_total b T) as [(P & s & E)|(P & E)]; rewrite E; [left|right; auto]. split; [exact P|]. eexists. reflexivity.
Qed.
Lemma tree_total n : forall depth, all_boxes box_times (tree_of n) ->
  (all_boxes box_printable (tree_of n) /\ exists s, BoxInfo_toString depth n = Ok s) \/ (~ all_boxes box_printable (tree_of n) /\ BoxInfo_toString depth n = UB).
Proof.
  induction n as [t h b l IH] using node_ind'. intros depth T. cbn [tree_of] in *. rewrite !all_boxes_eq, !Forall_map in *. destruct T as [Tb Tl]. rewrite BoxInfo_toString_eq.
  assert (L : forall d, (Forall (fun n => all_boxes box_printable (tree_of n)) l /\ exists r, BoxInfo_toStrings d l = Ok r) \/
    (~ Forall (fun n => all_boxes box_printable (tree_of n)) l /\ BoxInfo_toStrings d l = UB)).
  { intros d. clear -IH Tl. induction IH as [|k l Hk _ IHl]; [left; split; [constructor|eexists; reflexivity]|]. apply Forall_cons_iff in Tl as [Tk Tl]. cbn [BoxInfo_toStrings].
    rewrite Forall_cons_iff. destruct (Hk d Tk) as [(P & s & E)|(P & E)]; rewrite E; [|right; tauto]. cbn [obind].
    destruct (IHl Tl) as [(Q & r & F)|(Q & F)]; rewrite F; [left; split; [tauto|eexists; reflexivity]|right; tauto]. }
  destruct (L (S depth)) as [(P & ls & E)|(P & E)]; rewrite E; [|right; tauto]. cbn [obind].
  destruct (box_total h b Tb) as [(Q & s & F)|(Q & F)]; rewrite F; [left; split; [tauto|eexists; reflexivity]|right; tauto].
Qed.
Lemma print_total ns : Forall (fun n => all_boxes box_times (tree_of n)) ns ->
  (Forall (fun n => all_boxes box_printable (tree_of n)) ns /\ exists text, print_boxes ns = Ok text) \/
  (~ Forall (fun n => all_boxes box_printable (tree_of n)) ns /\ print_boxes ns = UB).
Proof.
  induction 1 as [|n l Hn _ IH]; [left; split; [constructor|eexists; reflexivity]|]. cbn [print_boxes]. rewrite Forall_cons_iff.
  destruct (tree_total n 0%nat Hn) as [(P & s & E)|(P & E)]; rewrite E; [|right; tauto]. cbn [obind].
  destruct IH as [(Q & r & F)|(Q & F)]; rewrite F; [left; split; [tauto|eexists; reflexivity]|right; tauto].
Qed.

(** * Boxes read from octets *)
Lemma under_wave_irrelevant k type uw : k <> K_audio -> Box_readData k type uw = Box_readData k type false.
Proof. intros N. destruct k; try (unfold Box_readData; reflexivity). contradiction. Qed.
Lemma read_post k type uw data r n b : bytes data -> Box_readData k type uw (reader_init data) = Ok (r, n, b) -> box_kind b = k /\
  (k <> K_audio -> exists fs, bits_of data = enc fs ++ rbits r /\ fields_ok fs /\ box_post fs b).
Proof.
  intros B E. assert (D : k = K_audio \/ k <> K_audio) by (destruct k; (left; reflexivity) || (right; discriminate)). destruct D as [->|N].
  - split; [|contradiction]. assert (Eq : Box_readData K_audio type uw = rmap B_audio (AudioSampleEntry_readData type uw)) by (unfold Box_readData; reflexivity).
    rewrite Eq in E. apply rmap_ok in E as (a & _ & ->). reflexivity.
  - rewrite under_wave_irrelevant in E by exact N. destruct (box_inv k type data r n b B E) as (K & _ & H). split; [exact K|intros _; exact H].
Qed.
Definition timed (b : box) : option (fullbox * Z * Z) :=
  match b with
  | B_mvhd x => Some (mvhd_fb x, mvhd_creation_time x, mvhd_modification_time x)
  | B_tkhd x => Some (tkhd_fb x, tkhd_creation_time x, tkhd_modification_time x)
  | B_mdhd x => Some (mdhd_fb x, mdhd_creation_time x, mdhd_modification_time x)
  | _ => None
  end.
Lemma timed_kind b fb c m : timed b = Some (fb, c, m) -> box_kind b = K_mvhd \/ box_kind b = K_tkhd \/ box_kind b = K_mdhd.
Proof. destruct b; try discriminate; cbn [box_kind]; tauto. Qed.
Lemma timed_layout k type uw data r n b fb c m : bytes data -> Box_readData k type uw (reader_init data) = Ok (r, n, b) -> timed b = Some (fb, c, m) ->
  exists fs, bits_of data = enc (fb_layout fb ++ [FU (tbits fb) c; FU (tbits fb) m] ++ fs) ++ rbits r /\
    fields_ok (fb_layout fb ++ [FU (tbits fb) c; FU (tbits fb) m] ++ fs).
Proof.
  intros B E T. destruct (read_post _ _ _ _ _ _ _ B E) as [K P]. destruct P as (fs & H1 & _ & H3); [intros ->; destruct (timed_kind _ _ _ _ T) as [X|[X|X]]; congruence|].
  rewrite H1. destruct b; try discriminate T; cbn [timed] in T; injection T as <- <- <-; destruct H3 as [W ->]; cbn [box_layout box_wf] in *.
  - eexists. split; [unfold mdhd_layout; reflexivity|]. destruct W as (_ & W). unfold mdhd_layout in W. exact W.
  - eexists. split; [unfold mvhd_layout; cbn [app]; reflexivity|]. destruct W as (_ & _ & W). unfold mvhd_layout in W. exact W.
  - eexists. split; [unfold tkhd_layout; cbn [app]; reflexivity|]. destruct W as (_ & W). unfold tkhd_layout in W. exact W.
Qed.
Lemma timed_fits fb c m fs : fields_ok (fb_layout fb ++ [FU (tbits fb) c; FU (tbits fb) m] ++ fs) -> 0 <= c < 2 ^ Z.of_nat (tbits fb) /\ 0 <= m < 2 ^ Z.of_nat (tbits fb).
Proof.
  intros F. unfold fields_ok in F. apply Forall_app in F as [_ F]. apply Forall_app in F as [F _]. apply Forall_cons_iff in F as [F1 F]. apply Forall_cons_iff in F as [F2 _].
  cbn [field_ok] in *. unfold fits_u in *. auto.
Qed.
Lemma read_times k type uw data r n b : bytes data -> Box_readData k type uw (reader_init data) = Ok (r, n, b) -> box_times b.
Proof.
  intros B E. destruct (timed b) as [[[fb c] m]|] eqn:T; [|destruct b; try discriminate T; exact I].
  destruct (timed_layout _ _ _ _ _ _ _ _ _ _ B E T) as (fs & _ & F). destruct (timed_fits _ _ _ _ F) as [C M].
  assert (X : 2 ^ Z.of_nat (tbits fb) <= 2 ^ 64) by (unfold tbits; destruct (_ =? _); cbn; lia).
  destruct b; try discriminate T; cbn [timed] in T; injection T as <- <- <-; cbn [box_times]; lia.
Qed.
Lemma octets8 l v rest : bytes l -> bits_of l = be 64 v ++ rest -> 0 <= v < 2 ^ 64 -> exists c l', l = c ++ l' /\ length c = 8%nat /\ be_value c = v /\ bits_of l' = rest.
Proof.
  intros B E V. exists (firstn 8 l), (skipn 8 l). pose proof (f_equal (@length bool) E) as N. rewrite app_length, be_length, bits_of_length in N.
  assert (L : length (firstn 8 l) = 8%nat) by (rewrite firstn_length; lia). rewrite <- (firstn_skipn 8 l) in E at 1. rewrite bits_of_app in E.
  apply app_len_inj in E as [E1 E2]; [|rewrite bits_of_length, be_length, L; reflexivity]. split; [symmetry; apply firstn_skipn|]. split; [exact L|]. split; [|exact E2].
  assert (Bf : bytes (firstn 8 l)) by (unfold bytes in *; rewrite <- (firstn_skipn 8 l) in B; apply Forall_app in B; apply B). pose proof (be_octets_be_value (firstn 8 l) Bf) as [_ R].
  apply (f_equal bits_to_Z) in E1. rewrite bits_to_Z_be, <- octets_value_bits in E1 by exact Bf. unfold octets_value in E1.
  change (be_value (firstn 8 l) = v). rewrite Z.mod_small in E1 by exact V. exact E1.
Qed.

Lemma read_undated k type uw data r n b : bytes data -> Box_readData k type uw (reader_init data) = Ok (r, n, b) -> ~ box_printable b ->
  (k = K_mvhd \/ k = K_tkhd \/ k = K_mdhd) /\
  exists v f0 f1 f2 creation modification rest, data = [v; f0; f1; f2] ++ creation ++ modification ++ rest /\ v <> 0 /\ length creation = 8%nat /\ length modification = 8%nat /\
    ~ (time_printable (be_value creation) /\ time_printable (be_value modification)).
Proof.
  intros B E N. destruct (timed b) as [[[fb c] m]|] eqn:T; [|destruct b; try discriminate T; exfalso; apply N; exact I].
  assert (N' : ~ (time_printable c /\ time_printable m)) by (destruct b; try discriminate T; cbn [timed] in T; injection T as <- <- <-; exact N).
  destruct (read_post _ _ _ _ _ _ _ B E) as [K _]. pose proof (timed_kind _ _ _ _ T) as TK. rewrite K in TK. split; [exact TK|].
  destruct (timed_layout _ _ _ _ _ _ _ _ _ _ B E T) as (fs & D & F). destruct (timed_fits _ _ _ _ F) as [C M].
  assert (V : fb_version fb <> 0).
  { intros V. apply N'. unfold tbits in *. rewrite V in *. change (2 ^ Z.of_nat (if 0 =? 0 then 32%nat else 64%nat)) with 4294967296 in *. unfold time_printable. lia. }
  unfold tbits in *. destruct (Z.eqb_spec (fb_version fb) 0) as [|_]; [contradiction|]. change (Z.of_nat 64) with 64 in *.
  unfold fields_ok in F. apply Forall_app in F as [F _]. unfold fb_layout in *.
  rewrite !Forall_cons_iff in F. destruct F as (F0 & F1 & F2 & F3 & _). cbn [field_ok] in *. unfold fits_u in *. change (Z.of_nat 8) with 8 in *.
  cbn [app] in D. rewrite !enc_cons in D. cbn [field_bits] in D. rewrite <- !app_assoc in D.
  assert (O : forall l v rest, bytes l -> 0 <= v < 2 ^ 8 -> bits_of l = be 8 v ++ rest -> exists l', l = v :: l' /\ bytes l' /\ bits_of l' = rest).
  { clear. intros l v rest Bl V H. destruct l as [|x l]; [apply (f_equal (@length bool)) in H; rewrite app_length, be_length in H; discriminate H|].
    rewrite bits_of_cons in H. apply app_len_inj in H as [H1 H2]; [|rewrite !be_length; reflexivity]. apply Forall_cons_iff in Bl as [Bx Bl]. exists l.
    apply (f_equal bits_to_Z) in H1. rewrite !bits_to_Z_be in H1. unfold is_byte in Bx. change (Z.of_nat 8) with 8 in H1. rewrite !Z.mod_small in H1 by lia. subst x. auto. }
  destruct (O _ _ _ B F0 D) as (d1 & -> & B1 & D1). destruct (O _ _ _ B1 F1 D1) as (d2 & -> & B2 & D2).
  destruct (O _ _ _ B2 F2 D2) as (d3 & -> & B3 & D3). destruct (O _ _ _ B3 F3 D3) as (d4 & -> & B4 & D4).
  destruct (octets8 _ _ _ B4 D4 C) as (cs & l1 & -> & Lc & Vc & D5). unfold bytes in B4. apply Forall_app in B4 as [_ B5].
  destruct (octets8 _ _ _ B5 D5 M) as (ms & l2 & -> & Lm & Vm & _).
  exists (fb_version fb), (fb_f0 fb), (fb_f1 fb), (fb_f2 fb), cs, ms, l2. rewrite Vc, Vm. split; [reflexivity|]. auto.
Qed.
Lemma kind_timed t : let k := BoxMap_getBoxInstance BoxMap_registered t in (k = K_mvhd \/ k = K_tkhd \/ k = K_mdhd) ->
  t = [109; 118; 104; 100] \/ t = [116; 107; 104; 100] \/ t = [109; 100; 104; 100].
Proof.
  cbv zeta. unfold BoxMap_getBoxInstance. destruct (BoxMap_find BoxMap_registered t) as [[k v]|] eqn:E; [|intros [H|[H|H]]; discriminate H]. apply find_in in E.
  assert (A : Forall (fun '(t, (k, _)) => (k = K_mvhd \/ k = K_tkhd \/ k = K_mdhd) -> t = [109; 118; 104; 100] \/ t = [116; 107; 104; 100] \/ t = [109; 100; 104; 100]) BoxMap_registered).
  { set (l := BoxMap_registered). vm_compute in l. subst l. repeat (apply Forall_cons; [first [intros _; solve [auto]|intros [H|[H|H]]; discriminate H]|]). apply Forall_nil. }
  rewrite Forall_forall in A. specialize (A _ E). exact A.
Qed.

(** * The reader *)
Lemma node_times data n : bytes data -> forall uw, from_file data uw n -> all_boxes box_times (tree_of n).
Proof.
  intros B uw F. apply occurs_all. intros k O. destruct (occurs_from data k n O uw F) as (uw' & G). destruct k as [t [h|] b l]; [|destruct G as [[] _]].
  rewrite from_file_eq in G. destruct G as ((_ & _ & _ & _ & _ & (r & bits & G) & _) & _). cbn [n_box]. eapply read_times; [|exact G].
  unfold payload_at, bytes in *. rewrite Forall_forall in B |- *. intros x Hx. apply B. eapply In_firstn_aux; exact Hx.
Qed.
Lemma parsed_times file data ns : bytes data -> Zlen data < 2 ^ 63 -> SimpleReader_parse file data = Some (Ok ns) -> Forall (fun n => all_boxes box_times (tree_of n)) ns.
Proof.
  intros B L E. destruct (SimpleReader_reports _ _ _ B L E) as [F _]. eapply Forall_impl; [|exact F]. intros n G. eapply node_times; [exact B|exact G].
Qed.
Lemma undated_place data n k : bytes data -> Zlen data < 2 ^ 63 -> forall uw, from_file data uw n -> occurs k n -> ~ box_printable (n_box k) -> has_undated_time data.
Proof.
  intros B L uw F O N. destruct (occurs_from data k n O uw F) as (uw' & G). destruct k as [t [h|] b l]; [|destruct G as [[] _]].
  rewrite from_file_eq in G. destruct G as ((G0 & G1 & G2 & G3 & G4 & (r & bits & G) & _) & _). cbn [n_box] in *.
  assert (Bp : bytes (payload_at data h)).
  { unfold payload_at, bytes in *. rewrite Forall_forall in B |- *. intros x Hx. apply B. eapply In_firstn_aux; exact Hx. }
  destruct (read_undated _ _ _ _ _ _ _ Bp G N) as (K & v & f0 & f1 & f2 & c & m & rest & H).
  destruct (header_read_octets data _ h B G0 ltac:(lia) G1) as (_ & Hs & Hr & _).
  exists (h_offset h), h, v, f0, f1, f2, c, m, rest. split; [lia|]. split; [exact G1|]. rewrite <- G2 in K. apply kind_timed in K. split; [exact K|exact H].
Qed.
Lemma printable_dec b : {box_printable b} + {~ box_printable b}.
Proof.
  assert (T : forall t, {time_printable t} + {~ time_printable t}).
  { intros t. unfold time_printable. destruct (Z_le_dec 0 t), (Z_lt_dec t (2 ^ 63 + 2082844800)), (Z_le_dec (2 ^ 64 + year_min_second + 2082844800) t), (Z_lt_dec t (2 ^ 64)); (left; tauto) || (right; tauto). }
  destruct b; try (left; exact I); cbn [box_printable]; match goal with |- {time_printable ?x /\ time_printable ?y} + {_} => destruct (T x), (T y); (left; tauto) || (right; tauto) end.
Qed.
Lemma undated_box n : all_boxes box_printable (tree_of n) \/ exists k, occurs k n /\ ~ box_printable (n_box k).
Proof.
  induction n as [t h b l IH] using node_ind'. cbn [tree_of]. rewrite all_boxes_eq, Forall_map.
  destruct (printable_dec b) as [P|P]; [|right; exists (Node t h b l); split; [constructor|exact P]].
  assert (L : Forall (fun n => all_boxes box_printable (tree_of n)) l \/ exists k k', In k l /\ occurs k' k /\ ~ box_printable (n_box k')).
  { clear P. induction IH as [|k l [A|(k' & A)] _ IHl]; [left; constructor| |right; exists k, k'; split; [left; reflexivity|exact A]].
    destruct IHl as [B|(k0 & k' & B & C)]; [left; constructor; assumption|right; exists k0, k'; split; [right; exact B|exact C]]. }
  destruct L as [L|(k & k' & I & O & Q)]; [left; auto|]. right. exists k'. split; [eapply occurs_below; [exact I|exact O]|exact Q].
Qed.
Lemma undated_boxes ns : ~ Forall (fun n => all_boxes box_printable (tree_of n)) ns -> exists m k, In m ns /\ occurs k m /\ ~ box_printable (n_box k).
Proof.
  induction ns as [|n ns IH]; intros N; [exfalso; apply N; constructor|]. destruct (undated_box n) as [A|(k & A)]; [|exists n, k; split; [left; reflexivity|exact A]].
  destruct IH as (m & k & I & B); [intros F; apply N; constructor; assumption|]. exists m, k. split; [right; exact I|exact B].
Qed.
(** What read() does with the boxes parsed. *)
Lemma read_total file data ns : bytes data -> Zlen data < 2 ^ 63 -> SimpleReader_parse file data = Some (Ok ns) ->
  (Forall (fun n => all_boxes box_printable (tree_of n)) ns /\ exists text, SimpleReader_read file data = Some (Ok (ns, text)) /\ print_boxes ns = Ok text) \/
  (exists m k, In m ns /\ occurs k m /\ ~ box_printable (n_box k)) /\ has_undated_time data /\ SimpleReader_read file data = Some UB.
Proof.
  intros B L E. unfold SimpleReader_read. rewrite E. destruct (print_total ns (parsed_times file data ns B L E)) as [(P & text & T)|(P & T)]; rewrite T; cbn [obind].
  - left. split; [exact P|]. exists text. auto.
  - right. destruct (undated_boxes ns P) as (m & k & I & O & N). split; [exists m, k; auto|]. split; [|reflexivity].
    destruct (SimpleReader_reports _ _ _ B L E) as [F _]. rewrite Forall_forall in F. eapply undated_place; [exact B|exact L|exact (F m I)|exact O|exact N].
Qed.
Lemma reader_comes_back' file data : bytes data -> Zlen data < 2 ^ 63 ->
  (match SimpleReader_read file data with
   | None => False
   | Some (Ok (ns, _)) => Forall (within (Zlen data)) ns
   | Some (Throw _) => True
   | Some UB => has_unversioned_alst data \/ (file = true /\ has_overreporting data) \/ has_undated_time data
   end) /\
  exists r, forall fuel, (length data + 2 <= fuel)%nat -> readLeafs fuel file data false (Zlen data) 0 0 = Some r.
Proof.
  intros B L. destruct (reader_comes_back file data B L) as [A R]. split; [|exact R].
  destruct (SimpleReader_parse file data) as [[ns|e|]|] eqn:E.
  - destruct (read_total file data ns B L E) as [(_ & text & -> & _)|(_ & U & ->)]; [exact A|tauto].
  - unfold SimpleReader_read. rewrite E. exact I.
  - unfold SimpleReader_read. rewrite E. tauto.
  - contradiction.
Qed.
Lemma read_back file ts : Forall (tree_wf false) ts -> Forall (all_boxes box_printable) ts -> Zlen (flat_map serialize ts) < 2 ^ 64 - 16 ->
  exists ns text, SimpleReader_read file (flat_map serialize ts) = Some (Ok (ns, text)) /\ print_boxes ns = Ok text /\ map tree_of ns = ts /\ laid_out_all ns 0 /\
             total_announced ns = Zlen (flat_map serialize ts) /\ Forall headers_ok ns.
Proof.
  intros W P L. destruct (reader_roundtrip file ts W L) as (ns & E & M & H1 & H2 & H3). destruct (read_ok file _ ns E) as (text & R & T).
  - apply Forall_forall. intros n I. apply printable_prints. rewrite Forall_forall in P. apply P. rewrite <- M. apply in_map. exact I.
  - exists ns, text. auto 8.
Qed.

(** * Writing a tree *)
Lemma write_total n : forall o, all_boxes writable (tree_of n) -> all_boxes box_times (tree_of n) -> (forall k, occurs k n -> n_header k <> None) ->
  (all_boxes box_printable (tree_of n) /\ exists r, BoxInfo_write n o = Ok r) \/ (~ all_boxes box_printable (tree_of n) /\ BoxInfo_write n o = UB).
Proof.
  induction n as [t h b l IH] using node_ind'. intros o W T H. cbn [tree_of] in *. rewrite !all_boxes_eq, !Forall_map in *. destruct T as [Tb Tl]. destruct W as [Wb Wl].
  destruct (box_total h b Tb) as [(P & s & E)|(P & E)]; [|right; split; [tauto|]; cbn [BoxInfo_write]; rewrite E; reflexivity].
  rewrite BoxInfo_write_eq by (apply printable_ok; exact P). destruct h as [h|]; [|exfalso; exact (H _ (occurs_here _) eq_refl)].
  destruct (header_write h o) as [h' o1]. rewrite os_writeData_ok by (destruct Wb as [W1 W2]; apply shape_of; assumption).
  assert (L : forall o, (Forall (fun n => all_boxes box_printable (tree_of n)) l /\ exists r, BoxInfo_write_all l o = Ok r) \/
    (~ Forall (fun n => all_boxes box_printable (tree_of n)) l /\ BoxInfo_write_all l o = UB)).
  { assert (Hl : Forall (fun k => forall j, occurs j k -> n_header j <> None) l) by (apply Forall_forall; intros k I j O; apply H; eapply occurs_below; [exact I|exact O]).
    clear -IH Tl Wl Hl. induction IH as [|k l Hk _ IHl]; intros o; [left; split; [constructor|eexists; reflexivity]|].
    apply Forall_cons_iff in Tl as [Tk Tl]. apply Forall_cons_iff in Wl as [Wk Wl]. apply Forall_cons_iff in Hl as [Hhk Hl]. cbn [BoxInfo_write_all]. rewrite Forall_cons_iff.
    destruct (Hk o Wk Tk Hhk) as [(P & [n' o'] & E)|(P & E)]; rewrite E; [|right; tauto].
    destruct (IHl Wl Tl Hl o') as [(Q & [r o''] & F)|(Q & F)]; rewrite F; [left; split; [tauto|eexists; reflexivity]|right; tauto]. }
  match goal with |- context [BoxInfo_write_all l ?o'] => destruct (L o') as [(Q & [l' o''] & F)|(Q & F)]; rewrite F end; [left; split; [tauto|eexists; reflexivity]|right; tauto].
Qed.
