(** Proofs about streams that cannot be read (C77). *)
From Verif Require Import Base BitIO BitFacts BitIOProofs Boxes WireFormat Box BoxSpec BoxIO BoxTree TreeSpec TreeProofs TreeLayout TreeRead ReaderTotal TreeLemmas Cost CostProofs ReadErrors.
From Coq Require Import List.
Import ListNotations.
Open Scope Z_scope.

Lemma readable_spec bad pos n : readable bad pos n = true <-> (forall i, pos <= i < pos + n -> bad i = false).
Proof.
  unfold readable. rewrite forallb_forall. split.
  - intros H i Hi. specialize (H (Z.to_nat (i - pos))). rewrite in_seq in H. specialize (H ltac:(lia)).
    replace (pos + Z.of_nat (Z.to_nat (i - pos))) with i in H by lia. destruct (bad i); [discriminate|reflexivity].
  - intros H i Hi. rewrite in_seq in Hi. rewrite H by lia. reflexivity.
Qed.

Section Any.
  Variables (bad : Z -> bool) (file : bool) (data : list Z).
  (** Either the error shows, or nothing is different. *)
  Definition same_or_error {A} (x y : outcome A) : Prop := x = Throw RuntimeError \/ x = y.
  Lemma header_e pos : same_or_error (read_box_header_e bad data pos) (read_box_header data pos).
  Proof.
    unfold same_or_error, read_box_header_e, read_box_header. cbv zeta. destruct (_ <? _); [right; reflexivity|]. destruct (negb _); [left; reflexivity|].
    destruct (skipn _ data) as [|b0 [|b1 [|b2 [|b3 [|t0 [|t1 [|t2 [|t3 rest]]]]]]]]; try (right; reflexivity).
    destruct (_ =? 0); [right; reflexivity|]. destruct (_ =? 1); [|right; reflexivity]. destruct (_ <? _); [right; reflexivity|]. destruct (negb _); [left; reflexivity|right; reflexivity].
  Qed.
  Lemma same_e : forall fuel,
    (forall uw pos, readBox_e bad fuel file data uw pos = Some (Throw RuntimeError) \/ readBox_e bad fuel file data uw pos = readBox fuel file data uw pos) /\
    (forall uw bound rb pos, readLeafs_e bad fuel file data uw bound rb pos = Some (Throw RuntimeError) \/ readLeafs_e bad fuel file data uw bound rb pos = readLeafs fuel file data uw bound rb pos).
  Proof.
    induction fuel as [|f [IHb IHl]]; [split; right; reflexivity|]. split.
    - intros uw pos. cbn [readBox readBox_e]. destruct (header_e pos) as [->| ->]; [left; reflexivity|]. destruct (read_box_header data pos) as [h|e|]; [|right; reflexivity..]. cbv zeta.
      destruct (negb file && _); [right; reflexivity|]. destruct (_ >? _); [right; reflexivity|]. destruct (negb (readable _ _ _)); [left; reflexivity|].
      destruct (_ >? _); [right; reflexivity|]. destruct (Box_readData _ _ _ _) as [[[r n] b]|e|]; [|right; reflexivity..]. destruct (negb file && _); [right; reflexivity|].
      match goal with |- context [readLeafs_e bad f file data ?a ?b ?c ?d] => destruct (IHl a b c d) as [->| ->] end; [left; reflexivity|right; reflexivity].
    - intros uw bound rb pos. cbn [readLeafs readLeafs_e]. destruct (bound >? rb); [|right; reflexivity].
      destruct (IHb uw pos) as [->| ->]; [left; reflexivity|]. destruct (readBox f _ _ _ _) as [[[[n p] s]|e|]|]; [|right; reflexivity..].
      destruct (IHl uw bound (u64 (rb + s)) p) as [->| ->]; [left; reflexivity|right; reflexivity].
  Qed.
  (** Without bad octets it is the reader. *)
  Hypothesis Hb : bytes data.
  Hypothesis Hl : Zlen data < 2 ^ 63.
  Lemma header_clean pos : 0 <= pos -> (forall i, 0 <= i < Zlen data -> bad i = false) -> read_box_header_e bad data pos = read_box_header data pos.
  Proof.
    intros P C. unfold read_box_header_e, read_box_header. cbv zeta. unfold SMALL_HEADER_SIZE, LARGE_HEADER_SIZE.
    assert (R1 : readable bad pos (Z.min 8 (Zlen data - pos)) = true) by (apply readable_spec; intros; apply C; lia).
    assert (R2 : readable bad (pos + 8) (Z.min (16 - 8) (Zlen data - (pos + 8))) = true) by (apply readable_spec; intros; apply C; lia).
    rewrite R1, R2. reflexivity.
  Qed.
  Lemma clean_e : (forall i, 0 <= i < Zlen data -> bad i = false) -> forall fuel,
    (forall uw pos, 0 <= pos -> readBox_e bad fuel file data uw pos = readBox fuel file data uw pos) /\
    (forall uw bound rb pos, 0 <= pos -> readLeafs_e bad fuel file data uw bound rb pos = readLeafs fuel file data uw bound rb pos).
  Proof.
    intros C. induction fuel as [|f [IHb IHl]]; [split; reflexivity|]. split.
    - intros uw pos P. cbn [readBox readBox_e]. rewrite header_clean by assumption. destruct (read_box_header data pos) as [h|e|] eqn:E; [|reflexivity..]. cbv zeta.
      destruct (negb file && _); [reflexivity|]. destruct (Z.gtb_spec (header_getDataSize h) (u64 (u64 (Zlen data - h_offset h) - h_header_size h))) as [G|G]; [reflexivity|].
      destruct (sizes_read data Hb Hl h pos P E G) as (S1 & S2 & S3 & S4 & S5).
      assert (R : readable bad (h_offset h + h_header_size h) (Z.min (header_getDataSize h) (Zlen data - (h_offset h + h_header_size h))) = true) by (apply readable_spec; intros; apply C; lia).
      rewrite R. cbn [negb]. destruct (_ >? _); [reflexivity|]. destruct (Box_readData _ _ _ _) as [[[r m] b]|e|] eqn:Er; [|reflexivity..]. destruct (negb file && _); [reflexivity|].
      assert (P1 : 0 <= h_offset h + h_header_size h + m / 8).
      { assert (0 <= m); [|lia]. fold (payload_at data h) in Er. pose proof (readData_facts (BoxMap_getBoxInstance BoxMap_registered (h_type h)) (h_type h) uw (payload_at data h)) as F.
        rewrite Er in F. apply F. unfold payload_at, bytes in *. rewrite Forall_forall in Hb |- *. intros x Hx. apply Hb. eapply In_firstn_aux; exact Hx. }
      rewrite IHl by exact P1. reflexivity.
    - intros uw bound rb pos P. cbn [readLeafs readLeafs_e]. destruct (bound >? rb); [|reflexivity]. rewrite IHb by exact P.
      destruct (readBox f _ _ _ _) as [[[[n p] s]|e|]|] eqn:E; [|reflexivity..].
      pose proof (proj1 (cost_erase file data f) uw pos) as Er. rewrite E in Er. destruct (readBox_c f file data uw pos) as [[c r]|] eqn:Ec; [|discriminate].
      cbn [option_map snd] in Er. inversion Er. subst r. destruct (proj1 (cost_parsed file data Hb Hl f) _ _ _ _ _ _ P Ec) as [_ P1]. rewrite IHl by exact P1. reflexivity.
  Qed.
  (** A box that was read: it is inside the file, none of its octets is bad, and the position is not before its end. *)
  Lemma covered : forall fuel,
    (forall uw pos n p s, 0 <= pos -> readBox_e bad fuel file data uw pos = Some (Ok (n, p, s)) ->
       8 <= s /\ pos + s <= Zlen data /\ pos + s <= p /\ (forall i, pos <= i < pos + s -> bad i = false)) /\
    (forall uw bound rb pos l p, 0 <= pos -> 0 <= rb -> bound <= Zlen data -> readLeafs_e bad fuel file data uw bound rb pos = Some (Ok (l, p)) ->
       pos <= p /\ pos + (bound - rb) <= p).
  Proof.
    induction fuel as [|f [IHb IHl]]; [split; intros; discriminate|]. split.
    - intros uw pos n p s P. cbn [readBox_e]. destruct (read_box_header_e bad data pos) as [h|e|] eqn:E; [|discriminate..]. cbv zeta.
      assert (E0 : read_box_header data pos = Ok h) by (destruct (header_e pos) as [Q|Q]; rewrite E in Q; [discriminate|symmetry; exact Q]).
      destruct (negb file && _); [discriminate|]. destruct (Z.gtb_spec (header_getDataSize h) (u64 (u64 (Zlen data - h_offset h) - h_header_size h))) as [G|G]; [discriminate|].
      destruct (sizes_read data Hb Hl h pos P E0 G) as (S1 & S2 & S3 & S4 & S5).
      destruct (readable bad (h_offset h + h_header_size h) _) eqn:R; [|discriminate]. cbn [negb]. destruct (_ >? _); [discriminate|].
      destruct (Box_readData _ _ _ _) as [[[r m] b]|e|] eqn:Er; [|discriminate..]. destruct (negb file && _); [discriminate|].
      assert (M : 0 <= m).
      { fold (payload_at data h) in Er. pose proof (readData_facts (BoxMap_getBoxInstance BoxMap_registered (h_type h)) (h_type h) uw (payload_at data h)) as F.
        rewrite Er in F. apply F. unfold payload_at, bytes in *. rewrite Forall_forall in Hb |- *. intros x Hx. apply Hb. eapply In_firstn_aux; exact Hx. }
      destruct (readLeafs_e bad f _ _ _ _ _ _) as [[[l p']|e|]|] eqn:El; [|discriminate..]. intros Q. inversion Q; subst n p' s. clear Q.
      apply IHl in El; [|lia..]. rewrite readable_spec in R.
      split; [lia|]. split; [lia|]. split; [lia|].
      intros i Hi. destruct (Z_lt_le_dec i (pos + h_header_size h)) as [Q|Q]; [|apply R; lia].
      (* the header *)
      clear R El Er. unfold read_box_header_e in E. cbv zeta in E. unfold SMALL_HEADER_SIZE, LARGE_HEADER_SIZE in E. destruct (u64 _ <? 8); [discriminate|].
      destruct (readable bad pos _) eqn:R; [|discriminate]. rewrite readable_spec in R. cbn [negb] in E.
      destruct (skipn _ data) as [|b0 [|b1 [|b2 [|b3 [|t0 [|t1 [|t2 [|t3 rest]]]]]]]]; try discriminate.
      destruct (_ =? 0); [inversion E; subst h; cbn [h_header_size] in *; apply R; lia|].
      destruct (_ =? 1); [|inversion E; subst h; cbn [h_header_size] in *; apply R; lia].
      destruct (u64 _ <? 16); [discriminate|]. destruct (readable bad (pos + 8) _) eqn:R'; [|discriminate]. rewrite readable_spec in R'. cbn [negb] in E.
      destruct rest as [|c0 [|c1 [|c2 [|c3 [|c4 [|c5 [|c6 [|c7 rest]]]]]]]]; try discriminate. inversion E; subst h; cbn [h_header_size] in *.
      destruct (Z_lt_le_dec i (pos + 8)); [apply R; lia|apply R'; lia].
    - intros uw bound rb pos l p P B T. cbn [readLeafs_e]. destruct (Z.gtb_spec bound rb) as [G|G].
      2:{ intros Q. inversion Q; subst. lia. }
      destruct (readBox_e bad f _ _ _ _) as [[[[n p1] s]|e|]|] eqn:E1; [|discriminate..].
      destruct (IHb _ _ _ _ _ P E1) as (A1 & A2 & A3 & _).
      destruct (readLeafs_e bad f _ _ _ _ _ _) as [[[l2 p2]|e|]|] eqn:E2; [|discriminate..]. intros Q. inversion Q; subst. clear Q.
      rewrite u64_small in E2 by lia. assert (Q1 : 0 <= p1) by lia. assert (Q2 : 0 <= rb + s) by lia. destruct (IHl _ _ _ _ _ _ Q1 Q2 T E2) as [U1 U2]. lia.
  Qed.
  Lemma covers_all : forall fuel uw rb pos l p, 0 <= rb <= pos -> readLeafs_e bad fuel file data uw (Zlen data) rb pos = Some (Ok (l, p)) -> rb < Zlen data ->
    pos = rb /\ forall i, rb <= i < Zlen data -> bad i = false.
  Proof.
    induction fuel as [|f IH]; [discriminate|]. intros uw rb pos l p P. cbn [readLeafs_e]. destruct (Z.gtb_spec (Zlen data) rb) as [G|G]; [|lia]. intros E _.
    destruct (readBox_e bad f _ _ _ _) as [[[[n p1] s]|e|]|] eqn:E1; [|discriminate..].
    assert (P0 : 0 <= pos) by lia. destruct (proj1 (covered f) _ _ _ _ _ P0 E1) as (A1 & A2 & A3 & A4).
    destruct (readLeafs_e bad f _ _ _ _ _ _) as [[[l2 p2]|e|]|] eqn:E2; [|discriminate..]. rewrite u64_small in E2 by lia.
    destruct (Z_lt_le_dec (rb + s) (Zlen data)) as [L|L].
    - assert (Q1 : 0 <= rb + s <= p1) by lia. destruct (IH _ _ _ _ _ Q1 E2 L) as [B1 B2]. assert (pos = rb) by lia. subst pos. split; [reflexivity|]. intros i Hi.
      destruct (Z_lt_le_dec i (rb + s)); [apply A4; lia|apply B2; lia].
    - assert (pos = rb) by lia. subst pos. split; [reflexivity|]. intros i Hi. apply A4. lia.
  Qed.
  (** The three together. *)
  Lemma read_e_cases :
    SimpleReader_read_e file (Opened data bad) = Some (Throw RuntimeError) \/
    (SimpleReader_read_e file (Opened data bad) = SimpleReader_read file data /\
     ((exists i, 0 <= i < Zlen data /\ bad i = true) -> forall x, SimpleReader_read file data <> Some (Ok x))).
  Proof.
    unfold SimpleReader_read_e, SimpleReader_read, SimpleReader_parse. destruct (proj2 (same_e (length data + 2)) false (Zlen data) 0 0) as [->|E]; [left; reflexivity|right].
    rewrite E. split; [destruct (readLeafs _ _ _ _ _ _ _) as [[[l p]|e|]|]; reflexivity|]. intros (i & Hi & Bi) x.
    destruct (readLeafs _ _ _ _ _ _ _) as [[[l p]|e|]|] eqn:Er; [|discriminate..]. assert (Q1 : 0 <= 0 <= 0) by lia. assert (Q2 : 0 < Zlen data) by lia. destruct (covers_all _ _ _ _ _ _ Q1 E Q2) as [_ C]. rewrite C in Bi by lia. discriminate.
  Qed.
  Lemma read_clean : (forall i, 0 <= i < Zlen data -> bad i = false) -> SimpleReader_read_e file (Opened data bad) = SimpleReader_read file data.
  Proof.
    intros C. unfold SimpleReader_read_e, SimpleReader_read, SimpleReader_parse. rewrite (proj2 (clean_e C _)) by lia. destruct (readLeafs _ _ _ _ _ _ _) as [[[l p]|e|]|]; reflexivity.
  Qed.
End Any.
