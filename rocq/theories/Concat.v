(** Reading two files one after the other in a single file (C71). *)
From Verif Require Import Base BitIO BitFacts BitIOProofs Boxes WireFormat Box BoxSpec Print PrintSpec PrintProofs BoxTree TreeSpec TreeProofs TreeLayout TreePrint TreeRead
  ReaderTotal ReaderTiling TreeLemmas ConcatSpec.

Definition hmoved (d : Z) (h : boxheader) : boxheader := mk_header (h_offset h + d) (h_size h) (h_header_size h) (h_type h) (h_extend_to_eof h).
Lemma moved_eq d t h b l : moved d (Node t (Some h) b l) = Node t (Some (hmoved d h)) b (map (moved d) l).
Proof. reflexivity. Qed.
Lemma closed_eq t h b l : closed (Node t (Some h) b l) <-> h_extend_to_eof h = false /\ Forall closed l.
Proof.
  cbn [closed]. assert (E : forall l, (fix all (l : list node) : Prop := match l with [] => True | k :: l' => closed k /\ all l' end) l <-> Forall closed l).
  { clear. induction l as [|k l IH]; [split; [constructor|trivial]|]. rewrite IH. split; [intros [A B]; constructor; assumption|intros F; inversion F; auto]. }
  rewrite E. reflexivity.
Qed.

(** * The second file: everything happens [Zlen f] octets later *)
Section Second.
  Variables (file : bool) (f g : list Z).
  Lemma skipn_second p : 0 <= p -> skipn (Z.to_nat (p + Zlen f)) (f ++ g) = skipn (Z.to_nat p) g.
  Proof. intros P. rewrite skipn_app, skipn_all2 by (unfold Zlen; lia). cbn [app]. f_equal. unfold Zlen. lia. Qed.
  Lemma header_second p : 0 <= p ->
    read_box_header (f ++ g) (p + Zlen f) = match read_box_header g p with Ok h => Ok (hmoved (Zlen f) h) | Throw e => Throw e | UB => UB end.
  Proof.
    intros P. unfold read_box_header. rewrite skipn_second by exact P. rewrite Zlen_app.
    replace (Zlen f + Zlen g - (p + Zlen f)) with (Zlen g - p) by lia.
    destruct (_ <? SMALL_HEADER_SIZE); [reflexivity|].
    destruct (skipn (Z.to_nat p) g) as [|b0 [|b1 [|b2 [|b3 [|t0 [|t1 [|t2 [|t3 rest]]]]]]]]; try reflexivity.
    cbv zeta. destruct (be_to_uint32 b0 b1 b2 b3 =? 0); [reflexivity|]. destruct (be_to_uint32 b0 b1 b2 b3 =? 1); [|reflexivity].
    destruct (_ <? LARGE_HEADER_SIZE); [reflexivity|].
    destruct rest as [|c0 [|c1 [|c2 [|c3 [|c4 [|c5 [|c6 [|c7 rest]]]]]]]]; reflexivity.
  Qed.
  Definition box_moved (r : option (outcome (node * Z * Z))) : option (outcome (node * Z * Z)) :=
    match r with Some (Ok (n, p, s)) => Some (Ok (moved (Zlen f) n, p + Zlen f, s)) | r => r end.
  Definition leafs_moved (r : option (outcome (list node * Z))) : option (outcome (list node * Z)) :=
    match r with Some (Ok (l, p)) => Some (Ok (map (moved (Zlen f)) l, p + Zlen f)) | r => r end.
  Hypothesis Hg : bytes g.
  Hypothesis Hl : Zlen g < 2 ^ 63.
  Lemma reader_second : forall fuel,
    (forall uw p, 0 <= p -> readBox fuel file (f ++ g) uw (p + Zlen f) = box_moved (readBox fuel file g uw p)) /\
    (forall uw bound rbytes p, 0 <= p -> readLeafs fuel file (f ++ g) uw bound rbytes (p + Zlen f) = leafs_moved (readLeafs fuel file g uw bound rbytes p)).
  Proof.
    induction fuel as [|fu [IHb IHl]]; split; try reflexivity.
    - intros uw p P. cbn [readBox]. rewrite header_second by exact P.
      destruct (Z_gt_le_dec p (Zlen g)) as [Pl|Pl].
      { pose proof (read_header_past g p ltac:(lia)) as R. destruct (read_box_header g p); [contradiction|reflexivity|reflexivity]. }
      pose proof (read_header_cases g p ltac:(lia) ltac:(lia) Hg) as R.
      destruct (read_box_header g p) as [h|e|]; [|reflexivity|reflexivity].
      destruct R as (R1 & R2 & R3 & _). cbv zeta. unfold hmoved, header_getDataSize. cbn [h_offset h_size h_header_size h_type h_extend_to_eof]. fold (header_getDataSize h).
      rewrite Zlen_app. rewrite R1.
      replace (p + Zlen f + h_header_size h) with (p + h_header_size h + Zlen f) by lia.
      replace (p + h_header_size h + Zlen f >? Zlen f + Zlen g) with (p + h_header_size h >? Zlen g) by lia.
      destruct (negb file && _); [reflexivity|].
      replace (Zlen f + Zlen g - (p + Zlen f)) with (Zlen g - p) by lia.
      destruct (_ >? u64 _); [reflexivity|].
      replace (p + h_header_size h + Zlen f + header_getDataSize h >? Zlen f + Zlen g) with (p + h_header_size h + header_getDataSize h >? Zlen g) by lia.
      destruct (p + h_header_size h + header_getDataSize h >? Zlen g); [reflexivity|].
      rewrite skipn_second by lia. set (payload := firstn _ _).
      assert (Bp : bytes payload) by (unfold payload, bytes in *; rewrite Forall_forall in Hg |- *; intros x Hx; apply Hg; eapply In_firstn_aux; exact Hx).
      pose proof (readData_facts (BoxMap_getBoxInstance BoxMap_registered (h_type h)) (h_type h) uw payload Bp) as Rd.
      destruct (Box_readData _ _ _ _) as [[[r n] b]|e|]; [|reflexivity|reflexivity]. destruct Rd as [Rn _].
      replace (p + h_header_size h + Zlen f + n / 8) with (p + h_header_size h + n / 8 + Zlen f) by lia.
      replace (p + h_header_size h + n / 8 + Zlen f >? Zlen f + Zlen g) with (p + h_header_size h + n / 8 >? Zlen g) by lia.
      destruct (negb file && _); [reflexivity|].
      rewrite IHl by lia.
      destruct (readLeafs fu file g _ _ _ _) as [[[l p2]|e|]|]; try reflexivity.
      cbn [leafs_moved box_moved]. rewrite moved_eq. unfold hmoved. rewrite R1. reflexivity.
    - intros uw bound rbytes p P. cbn [readLeafs]. destruct (bound >? rbytes); [|reflexivity].
      rewrite IHb by exact P. pose proof (proj1 (reader_reports file g Hg Hl fu) uw p) as Rr.
      destruct (readBox fu file g uw p) as [[[[n p1] s]|e|]|]; cbn [box_moved]; try reflexivity.
      specialize (Rr n p1 s P eq_refl). rewrite IHl by lia.
      destruct (readLeafs fu file g uw bound _ p1) as [[[l p2]|e|]|]; reflexivity.
  Qed.
  (** the loop of read(), whose counter has advanced too *)
  Lemma loop_second uw : Zlen (f ++ g) < 2 ^ 63 -> forall fuel rbytes p, 0 <= p -> 0 <= rbytes ->
    readLeafs fuel file (f ++ g) uw (Zlen f + Zlen g) (rbytes + Zlen f) (p + Zlen f) = leafs_moved (readLeafs fuel file g uw (Zlen g) rbytes p).
  Proof.
    intros L. rewrite Zlen_app in L. pose proof (Zlen_nonneg f) as Nf. pose proof (Zlen_nonneg g) as Ng.
    induction fuel as [|fu IH]; intros rbytes p P Nr; [reflexivity|]. cbn [readLeafs].
    replace (Zlen f + Zlen g >? rbytes + Zlen f) with (Zlen g >? rbytes) by lia. destruct (Z.gtb_spec (Zlen g) rbytes) as [C|C]; [|reflexivity].
    rewrite (proj1 (reader_second fu)) by exact P. pose proof (proj1 (reader_reports file g Hg Hl fu) uw p) as Rr.
    destruct (readBox fu file g uw p) as [[[[n p1] s]|e|]|] eqn:E; cbn [box_moved]; try reflexivity.
    specialize (Rr n p1 s P eq_refl). destruct Rr as (F & R1 & R2 & _).
    assert (Sz : 0 <= s <= Zlen g).
    { destruct fu as [|fu]; [discriminate|]. cbn [readBox] in E. cbv zeta in E.
      destruct (read_box_header g p) as [h|e|]; try discriminate. destruct (negb file && _); [discriminate|]. destruct (_ >? u64 _); [discriminate|].
      destruct (_ >? Zlen g); [discriminate|]. destruct (Box_readData _ _ _ _) as [[[r nb] b]|e|]; try discriminate.
      destruct (negb file && _); [discriminate|]. destruct (readLeafs fu file g _ _ _ _) as [[[l p2]|e|]|]; try discriminate. injection E as <- <- <-.
      rewrite from_file_eq in F. destruct F as ((F0 & F1 & _ & F3 & F4 & _) & _). pose proof (read_header_cases g (h_offset h)) as Q.
      assert (h_offset h <= Zlen g) by (destruct (Z_gt_le_dec (h_offset h) (Zlen g)) as [X|X]; [|exact X]; pose proof (read_header_past g (h_offset h) ltac:(lia)) as Y; rewrite F1 in Y; contradiction).
      specialize (Q ltac:(lia) ltac:(lia) Hg). rewrite F1 in Q. lia. }
    rewrite (u64_small (rbytes + Zlen f + s)), (u64_small (rbytes + s)) by lia.
    replace (rbytes + Zlen f + s) with (rbytes + s + Zlen f) by lia. rewrite IH by lia.
    destruct (readLeafs fu file g uw (Zlen g) _ p1) as [[[l p2]|e|]|]; reflexivity.
  Qed.
End Second.

(** * The first file: what follows it does not matter *)
Section First.
  Variables (file : bool) (f g : list Z).
  Hypothesis Hb : bytes f.
  Hypothesis Hl : Zlen (f ++ g) < 2 ^ 63.
  Lemma header_first p h : 0 <= p -> read_box_header f p = Ok h -> h_extend_to_eof h = false -> read_box_header (f ++ g) p = Ok h.
  Proof.
    intros P. pose proof (Zlen_nonneg f) as Nf. pose proof (Zlen_nonneg g) as Ng. pose proof Hl as L. rewrite Zlen_app in L.
    destruct (Z_gt_le_dec p (Zlen f)) as [Pl|Pl].
    { pose proof (read_header_past f p ltac:(lia)) as R. intros E. rewrite E in R. contradiction. }
    unfold read_box_header. rewrite Zlen_app. rewrite !u64_small by lia. unfold SMALL_HEADER_SIZE, LARGE_HEADER_SIZE.
    destruct (Z.ltb_spec (Zlen f - p) 8) as [C|C]; [discriminate|]. destruct (Z.ltb_spec (Zlen f + Zlen g - p) 8) as [C'|_]; [lia|].
    rewrite skipn_app. replace (Z.to_nat p - length f)%nat with 0%nat by (unfold Zlen in *; lia). cbn [skipn].
    destruct (skipn (Z.to_nat p) f) as [|b0 [|b1 [|b2 [|b3 [|t0 [|t1 [|t2 [|t3 rest]]]]]]]]; try discriminate. cbn [app].
    destruct (be_to_uint32 b0 b1 b2 b3 =? 0); [intros E; injection E as <-; discriminate|]. destruct (be_to_uint32 b0 b1 b2 b3 =? 1); [|intros E _; exact E].
    destruct (Z.ltb_spec (Zlen f - p) 16) as [D|D]; [discriminate|]. destruct (Z.ltb_spec (Zlen f + Zlen g - p) 16) as [D'|_]; [lia|].
    destruct rest as [|c0 [|c1 [|c2 [|c3 [|c4 [|c5 [|c6 [|c7 rest]]]]]]]]; try discriminate. intros E _. exact E.
  Qed.
  Lemma reader_first : forall fuel,
    (forall uw p n p1 s, 0 <= p -> readBox fuel file f uw p = Some (Ok (n, p1, s)) -> closed n -> readBox fuel file (f ++ g) uw p = Some (Ok (n, p1, s))) /\
    (forall uw bound rbytes p l p1, 0 <= p -> readLeafs fuel file f uw bound rbytes p = Some (Ok (l, p1)) -> Forall closed l ->
       readLeafs fuel file (f ++ g) uw bound rbytes p = Some (Ok (l, p1))).
  Proof.
    pose proof (Zlen_nonneg f) as Nf. pose proof (Zlen_nonneg g) as Ng. pose proof Hl as L. rewrite Zlen_app in L.
    induction fuel as [|fu [IHb IHl]]; split; try discriminate.
    - intros uw p n p1 s P. cbn [readBox]. cbv zeta.
      destruct (Z_gt_le_dec p (Zlen f)) as [Pl|Pl].
      { pose proof (read_header_past f p ltac:(lia)) as R. destruct (read_box_header f p); [contradiction|discriminate|discriminate]. }
      pose proof (read_header_cases f p ltac:(lia) ltac:(lia) Hb) as R.
      destruct (read_box_header f p) as [h|e|] eqn:Eh; [|discriminate|discriminate]. destruct R as (R1 & R2 & R3 & _). rewrite R1.
      destruct (negb file && _) eqn:C0; [discriminate|].
      rewrite (u64_small (Zlen f - p)) by lia. rewrite (u64_small (Zlen f - p - h_header_size h)) by lia.
      destruct (Z.gtb_spec (header_getDataSize h) (Zlen f - p - h_header_size h)) as [C1|C1]; [discriminate|].
      destruct (Z.gtb_spec (p + h_header_size h + header_getDataSize h) (Zlen f)) as [C2|C2]; [discriminate|].
      assert (Dn : 0 <= header_getDataSize h) by (unfold header_getDataSize, u64; apply Z.mod_pos_bound; lia).
      set (payload := firstn (Z.to_nat (header_getDataSize h)) (skipn (Z.to_nat (p + h_header_size h)) f)).
      assert (Bp : bytes payload) by (unfold payload, bytes in *; rewrite Forall_forall in Hb |- *; intros x Hx; apply Hb; eapply In_firstn_aux; exact Hx).
      pose proof (readData_facts (BoxMap_getBoxInstance BoxMap_registered (h_type h)) (h_type h) uw payload Bp) as Rd.
      destruct (Box_readData _ _ _ _) as [[[r nb] b]|e|] eqn:Ed; [|discriminate|discriminate]. destruct Rd as [Rn _].
      destruct (negb file && (p + h_header_size h + nb / 8 >? Zlen f)) eqn:C3; [discriminate|].
      destruct (readLeafs fu file f _ _ _ _) as [[[l p2]|e|]|] eqn:El; try discriminate. intros E. injection E as <- <- <-. rewrite closed_eq. intros [Cl Cs].
      rewrite (header_first p h P Eh Cl). rewrite R1. rewrite Zlen_app.
      rewrite (u64_small (Zlen f + Zlen g - p)), (u64_small (Zlen f + Zlen g - p - h_header_size h)) by lia.
      replace (p + h_header_size h >? Zlen f + Zlen g) with false by lia. rewrite andb_false_r.
      replace (header_getDataSize h >? Zlen f + Zlen g - p - h_header_size h) with false by lia.
      replace (p + h_header_size h + header_getDataSize h >? Zlen f + Zlen g) with false by lia.
      assert (Ep : firstn (Z.to_nat (header_getDataSize h)) (skipn (Z.to_nat (p + h_header_size h)) (f ++ g)) = payload).
      { unfold payload. rewrite skipn_app. replace (Z.to_nat (p + h_header_size h) - length f)%nat with 0%nat by (unfold Zlen in *; lia). cbn [skipn].
        rewrite firstn_app. rewrite skipn_length. replace (Z.to_nat (header_getDataSize h) - (length f - Z.to_nat (p + h_header_size h)))%nat with 0%nat by (unfold Zlen in *; lia).
        cbn [firstn]. apply app_nil_r. }
      rewrite Ep, Ed.
      assert (C4 : negb file && (p + h_header_size h + nb / 8 >? Zlen f + Zlen g) = false).
      { destruct file; [reflexivity|]. cbn [negb andb] in *. lia. }
      rewrite C4. assert (P2 : 0 <= p + h_header_size h + nb / 8) by lia. rewrite (IHl _ _ _ _ _ _ P2 El Cs). reflexivity.
    - intros uw bound rbytes p l p1 P. cbn [readLeafs]. destruct (bound >? rbytes); [|auto].
      destruct (readBox fu file f uw p) as [[[[n p2] s]|e|]|] eqn:Eb; try discriminate.
      destruct (readLeafs fu file f uw bound _ p2) as [[[l' p3]|e|]|] eqn:El; try discriminate. intros E F. injection E as <- <-. inversion F as [|? ? Fn Fl]; subst.
      destruct (proj1 (reader_reports file f Hb ltac:(lia) fu) uw p n p2 s P Eb) as (_ & R1 & R2 & _).
      assert (P2 : 0 <= p2) by lia. rewrite (IHb _ _ _ _ _ P Eb Fn), (IHl _ _ _ _ _ _ P2 El Fl). reflexivity.
  Qed.
  Definition prepend (l : list node) (r : outcome (list node * Z)) : outcome (list node * Z) :=
    match r with Ok (l', p) => Ok (l ++ l', p) | Throw e => Throw e | UB => UB end.
  (** the loop of read() goes on with the second file where the loop over the first one ended *)
  Lemma loop_first fuel2 R : readLeafs fuel2 file (f ++ g) false (Zlen f + Zlen g) (Zlen f) (Zlen f) = Some R ->
    forall fuel1 l rbytes p, 0 <= p -> 0 <= rbytes -> readLeafs fuel1 file f false (Zlen f) rbytes p = Some (Ok (l, Zlen f)) -> Forall closed l ->
      rbytes + total_announced l = Zlen f ->
      readLeafs (fuel1 + fuel2) file (f ++ g) false (Zlen f + Zlen g) rbytes p = Some (prepend l R).
  Proof.
    intros E2. pose proof (Zlen_nonneg f) as Nf. pose proof (Zlen_nonneg g) as Ng. pose proof Hl as L. rewrite Zlen_app in L.
    induction fuel1 as [|fu IH]; intros l rbytes p P Nr; [discriminate|]. cbn [readLeafs].
    destruct (Z.gtb_spec (Zlen f) rbytes) as [C|C].
    - destruct (readBox fu file f false p) as [[[[n p2] s]|e|]|] eqn:Eb; try discriminate.
      destruct (readLeafs fu file f false (Zlen f) _ p2) as [[[l' p3]|e|]|] eqn:El; try discriminate. intros E F T. injection E as <- ->. inversion F as [|? ? Fn Fl]; subst.
      destruct (proj1 (reader_reports file f Hb ltac:(lia) fu) false p n p2 s P Eb) as (Fr & R1 & R2 & _).
      assert (Sz : s = announced_size n /\ 0 <= s <= Zlen f).
      { destruct fu as [|fu0]; [discriminate|]. cbn [readBox] in Eb. cbv zeta in Eb.
        destruct (read_box_header f p) as [h|e|]; try discriminate. destruct (negb file && _); [discriminate|]. destruct (_ >? u64 _); [discriminate|].
        destruct (_ >? Zlen f); [discriminate|]. destruct (Box_readData _ _ _ _) as [[[r nb] b]|e|]; try discriminate.
        destruct (negb file && _); [discriminate|]. destruct (readLeafs fu0 file f _ _ _ _) as [[[l2 p4]|e|]|]; try discriminate. injection Eb as <- <- <-.
        split; [reflexivity|].
        rewrite from_file_eq in Fr. destruct Fr as ((F0 & F1 & _ & F3 & F4 & _) & _). pose proof (read_header_cases f (h_offset h)) as Q.
        assert (h_offset h <= Zlen f) by (destruct (Z_gt_le_dec (h_offset h) (Zlen f)) as [X|X]; [|exact X]; pose proof (read_header_past f (h_offset h) ltac:(lia)) as Y; rewrite F1 in Y; contradiction).
        specialize (Q ltac:(lia) ltac:(lia) Hb). rewrite F1 in Q. lia. }
      destruct Sz as [Sn Sz]. rewrite (u64_small (rbytes + s)) in El by lia.
      cbn [total_announced fold_right] in T. fold (total_announced l') in T. rewrite <- Sn in T.
      specialize (IH l' (rbytes + s) p2 ltac:(lia) ltac:(lia) El Fl ltac:(lia)).
      cbn [Nat.add readLeafs]. replace (Zlen f + Zlen g >? rbytes) with true by lia.
      assert (Eb' : readBox (fu + fuel2) file (f ++ g) false p = Some (Ok (n, p2, s))).
      { apply (proj1 (reader_fuel_mono file (f ++ g) fu (fu + fuel2) ltac:(lia))). apply (proj1 (reader_first fu)); assumption. }
      rewrite Eb'. rewrite u64_small by lia. rewrite IH. destruct R as [[l2 p4]|e|]; reflexivity.
    - intros E _ T. injection E as <- ->. cbn [total_announced fold_right] in T. replace rbytes with (Zlen f) by lia.
      cbn [Nat.add]. destruct R as [[l2 p4]|e|]; cbn [prepend app]; apply (proj2 (reader_fuel_mono file (f ++ g) fuel2 (S (fu + fuel2)) ltac:(lia))); exact E2.
  Qed.
End First.

(** * Both *)
Lemma parse_concat file f g ns : bytes f -> bytes g -> Zlen (f ++ g) < 2 ^ 63 -> (file = true -> ~ has_overreporting f /\ ~ has_unversioned_alst f) ->
  SimpleReader_parse file f = Some (Ok ns) -> Forall closed ns ->
  SimpleReader_parse file (f ++ g) =
    match SimpleReader_parse file g with Some (Ok ms) => Some (Ok (ns ++ map (moved (Zlen f)) ms)) | r => r end.
Proof.
  intros Bf Bg L Hf E F. pose proof (Zlen_nonneg f) as Nf. pose proof (Zlen_nonneg g) as Ng. pose proof L as L'. rewrite Zlen_app in L'.
  destruct (SimpleReader_tiles file f ns Bf ltac:(lia) Hf E) as [_ T].
  unfold SimpleReader_parse in *.
  destruct (readLeafs (length f + 2) file f false (Zlen f) 0 0) as [[[l p]|e|]|] eqn:E1; try discriminate. injection E as ->.
  assert (Pp : p = Zlen f).
  { destruct (reader_tiles file f Bf ltac:(lia) Hf (length f + 2)) as [_ R]. specialize (R false (Zlen f) 0 0 ltac:(lia) ltac:(lia) ltac:(lia)). rewrite E1 in R. cbn [leafs_t] in R. lia. }
  subst p.
  destruct (reader_comes_back file g Bg ltac:(lia)) as (T2 & r & Rr). specialize (Rr (length g + 2)%nat ltac:(lia)).
  pose proof (loop_second file f g Bg ltac:(lia) false L (length g + 2) 0 0 ltac:(lia) ltac:(lia)) as E2. rewrite Rr in *. rewrite !Z.add_0_l in E2.
  destruct (reader_comes_back file (f ++ g)) as (_ & r' & Rr'); [apply bytes_app; assumption|exact L|].
  assert (E2' : exists R, leafs_moved f (Some r) = Some R) by (destruct r as [[? ?]|?|]; eexists; reflexivity). destruct E2' as (R & ER). rewrite ER in E2.
  pose proof (loop_first file f g Bf L _ R E2 _ ns 0 0 ltac:(lia) ltac:(lia) E1 F ltac:(lia)) as E3.
  rewrite Rr' by lia. rewrite <- Zlen_app in E3. rewrite Rr' in E3 by (rewrite app_length; lia). injection E3 as ->.
  destruct r as [[ms q]|e|]; cbn [leafs_moved] in ER; injection ER as <-; reflexivity.
Qed.

(** * Printing *)
(** the same kind of outcome, whatever is returned *)
Definition alike {A B} (x : outcome A) (y : outcome B) : Prop :=
  match x, y with Ok _, Ok _ => True | Throw e, Throw e' => e = e' | UB, UB => True | _, _ => False end.
Lemma alike_bind {A B C D} (x : outcome A) (y : outcome B) (k : A -> outcome C) (k' : B -> outcome D) : alike x y ->
  (forall a b, x = Ok a -> y = Ok b -> alike (k a) (k' b)) -> alike (obind x k) (obind y k').
Proof. destruct x, y; cbn; intros H1 H2; try contradiction; auto. Qed.
Lemma alike_leafs d l : Forall (fun n => forall depth, alike (BoxInfo_toString depth (moved d n)) (BoxInfo_toString depth n)) l -> forall depth,
  alike ((fix leafs_toString (l : list node) : outcome (list (list Z)) :=
            match l with
            | [] => Ok []
            | k :: l' => obind (BoxInfo_toString (S depth) k) (fun s => obind (leafs_toString l') (fun r => Ok (s :: r)))
            end) (map (moved d) l))
        ((fix leafs_toString (l : list node) : outcome (list (list Z)) :=
            match l with
            | [] => Ok []
            | k :: l' => obind (BoxInfo_toString (S depth) k) (fun s => obind (leafs_toString l') (fun r => Ok (s :: r)))
            end) l).
Proof.
  induction 1 as [|k l Hk Hl IH]; intros depth; cbn [map]; [exact I|].
  apply alike_bind; [apply Hk|]. intros a b _ _. apply alike_bind; [apply IH|]. intros. exact I.
Qed.
Lemma toString_moved d n : forall depth, alike (BoxInfo_toString depth (moved d n)) (BoxInfo_toString depth n).
Proof.
  induction n as [t h b l IH] using node_ind'. intros depth. cbn [moved BoxInfo_toString].
  apply alike_bind; [apply alike_leafs; exact IH|]. intros ls ls' _ _.
  apply alike_bind; [|intros; exact I]. unfold Box_toString. apply alike_bind; [|intros; exact I].
  destruct (Box_toStringOnlyData b); cbn; auto.
Qed.
Lemma print_moved d l : alike (print_boxes (map (moved d) l)) (print_boxes l).
Proof.
  induction l as [|n l IH]; cbn [map print_boxes]; [exact I|]. apply alike_bind; [apply toString_moved|]. intros a b _ _. apply alike_bind; [exact IH|]. intros. exact I.
Qed.
Lemma print_app a b : print_boxes (a ++ b) = obind (print_boxes a) (fun s => obind (print_boxes b) (fun t => Ok (s ++ t))).
Proof.
  induction a as [|n a IH]; cbn [print_boxes app obind]; [destruct (print_boxes b); reflexivity|].
  destruct (BoxInfo_toString 0 n) as [s|e|]; cbn [obind]; [|reflexivity|reflexivity]. rewrite IH.
  destruct (print_boxes a) as [s'|e|]; cbn [obind]; [|reflexivity|reflexivity]. destruct (print_boxes b) as [t|e|]; cbn [obind]; [|reflexivity|reflexivity].
  rewrite <- app_assoc. reflexivity.
Qed.
Lemma read_concat file f g ns text : bytes f -> bytes g -> Zlen (f ++ g) < 2 ^ 63 -> (file = true -> ~ has_overreporting f /\ ~ has_unversioned_alst f) ->
  SimpleReader_read file f = Some (Ok (ns, text)) -> Forall closed ns ->
  match SimpleReader_read file g with
  | Some (Ok (ms, _)) => exists text', SimpleReader_read file (f ++ g) = Some (Ok (ns ++ map (moved (Zlen f)) ms, text ++ text')) /\
      print_boxes (map (moved (Zlen f)) ms) = Ok text'
  | r => SimpleReader_read file (f ++ g) = r
  end.
Proof.
  intros Bf Bg L Hf E F. apply read_inv in E. destruct E as [E T].
  unfold SimpleReader_read. rewrite (parse_concat file f g ns Bf Bg L Hf E F).
  destruct (SimpleReader_parse file g) as [[ms|e|]|]; [|reflexivity|reflexivity|reflexivity].
  pose proof (print_moved (Zlen f) ms) as A. rewrite print_app, T. cbn [obind].
  destruct (print_boxes (map (moved (Zlen f)) ms)) as [t|e|] eqn:Em, (print_boxes ms) as [t'|e'|]; cbn in A |- *; try contradiction; try reflexivity.
  - exists t. split; [reflexivity|exact Em].
  - rewrite A. reflexivity.
Qed.
