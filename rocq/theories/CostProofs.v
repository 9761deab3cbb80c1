(** Proofs about what reading costs (C75). *)
From Verif Require Import Base BitIO BitFacts BitIOProofs Boxes WireFormat Box BoxSpec BoxIO BoxSize BoxSafe BoxRead BoxTree TreeSpec TreeProofs TreeLayout TreeRead ReaderTotal ReaderTiling Cost CostSpec.
From Coq Require Import List.
Import ListNotations.
Open Scope Z_scope.

(** Without the costs, it is the reader. *)
Lemma cost_erase file data : forall fuel,
  (forall uw pos, option_map snd (readBox_c fuel file data uw pos) = readBox fuel file data uw pos) /\
  (forall uw bound rb pos, option_map snd (readLeafs_c fuel file data uw bound rb pos) = readLeafs fuel file data uw bound rb pos).
Proof.
  induction fuel as [|f [IHb IHl]]; [split; reflexivity|]. split.
  - intros uw pos. cbn [readBox readBox_c]. destruct (read_box_header data pos) as [h|e|]; [|reflexivity..]. cbv zeta.
    destruct (negb file && _); [reflexivity|]. destruct (_ >? _); [reflexivity|]. destruct (_ >? _); [reflexivity|].
    destruct (Box_readData _ _ _ _) as [[[r n] b]|e|]; [|reflexivity..]. destruct (negb file && _); [reflexivity|].
    rewrite <- IHl. destruct (readLeafs_c f _ _ _ _ _ _) as [[c [[l p]|e|]]|]; reflexivity.
  - intros uw bound rb pos. cbn [readLeafs readLeafs_c]. destruct (bound >? rb); [|reflexivity].
    rewrite <- IHb. destruct (readBox_c f _ _ _ _) as [[c [[[n p] s]|e|]]|]; cbn [option_map snd]; [|reflexivity..].
    rewrite <- IHl. destruct (readLeafs_c f _ _ _ _ _ _) as [[c' [[l p']|e|]]|]; reflexivity.
Qed.
(** What a tree costs when it was read. *)
Definition tree_cost (n : node) : cost := mk_cost (boxes n) (height n) (contents n) (deepest n).
Definition forest_cost (l : list node) : cost := mk_cost (sumZ boxes l) (maximum (map height l)) (sumZ contents l) (maximum (map deepest l)).
Lemma header_sizes h : header_getDataSize h <= 2 ^ 63 -> 0 <= h_size h < 2 ^ 64 -> 8 <= h_header_size h <= 16 -> header_getDataSize h = h_size h - h_header_size h.
Proof.
  intros A B C. unfold header_getDataSize, u64 in *. destruct (Z_lt_ge_dec (h_size h) (h_header_size h)) as [Q|Q]; [|apply Z.mod_small; lia].
  assert (E : (h_size h - h_header_size h) mod 2 ^ 64 = h_size h - h_header_size h + 2 ^ 64) by (rewrite <- (Z.mod_add _ 1) by lia; rewrite Z.mul_1_l; apply Z.mod_small; lia).
  lia.
Qed.
Lemma maximum_nonneg l : 0 <= maximum l. Proof. induction l as [|x l IH]; [unfold maximum; cbn [fold_right]; lia|]. change (maximum (x :: l)) with (Z.max x (maximum l)). lia. Qed.
Lemma boxes_eq t h b l : boxes (Node t h b l) = 1 + sumZ boxes l. Proof. reflexivity. Qed.

Section Any.
  Variables (file : bool) (data : list Z).
  Hypothesis Hb : bytes data.
  Hypothesis Hl : Zlen data < 2 ^ 63.
  Lemma sizes_read h pos : 0 <= pos -> read_box_header data pos = Ok h -> header_getDataSize h <= u64 (u64 (Zlen data - h_offset h) - h_header_size h) ->
    h_offset h = pos /\ 8 <= h_header_size h /\ header_getDataSize h = h_size h - h_header_size h /\ 0 <= header_getDataSize h /\ pos + h_header_size h + header_getDataSize h <= Zlen data.
  Proof.
    intros P E G. destruct (Z_le_gt_dec pos (Zlen data)) as [Q|Q].
    2:{ pose proof (read_header_past data pos ltac:(lia)) as R. rewrite E in R. contradiction. }
    pose proof (read_header_cases data pos ltac:(lia) ltac:(lia) Hb) as R. rewrite E in R. destruct R as (R1 & R2 & R3 & R4 & R5).
    rewrite R1 in G. rewrite (u64_small (Zlen data - pos)) in G by lia. rewrite (u64_small (Zlen data - pos - h_header_size h)) in G by lia.
    assert (Ds : header_getDataSize h = h_size h - h_header_size h) by (apply header_sizes; lia).
    assert (0 <= header_getDataSize h) by (unfold header_getDataSize, u64; apply Z.mod_pos_bound; lia). lia.
  Qed.
  Lemma cost_parsed : forall fuel,
    (forall uw pos c n p s, 0 <= pos -> readBox_c fuel file data uw pos = Some (c, Ok (n, p, s)) -> c = tree_cost n /\ 0 <= p) /\
    (forall uw bound rb pos c l p, 0 <= pos -> readLeafs_c fuel file data uw bound rb pos = Some (c, Ok (l, p)) -> c = forest_cost l /\ 0 <= p).
  Proof.
    induction fuel as [|f [IHb IHl]]; [split; intros; discriminate|]. split.
    - intros uw pos c n p s P. cbn [readBox_c]. destruct (read_box_header data pos) as [h|e|] eqn:E; [|discriminate..]. cbv zeta.
      destruct (negb file && _); [discriminate|].
      destruct (Z.gtb_spec (header_getDataSize h) (u64 (u64 (Zlen data - h_offset h) - h_header_size h))) as [G|G]; [discriminate|].
      destruct (sizes_read h pos P E G) as (S1 & S2 & S3 & S4 & S5).
      destruct (_ >? _); [discriminate|].
      destruct (Box_readData _ _ _ _) as [[[r m] b]|e|] eqn:Er; [|discriminate..]. destruct (negb file && _); [discriminate|].
      assert (P1 : 0 <= h_offset h + h_header_size h + m / 8).
      { assert (0 <= m); [|lia]. fold (payload_at data h) in Er. pose proof (readData_facts (BoxMap_getBoxInstance BoxMap_registered (h_type h)) (h_type h) uw (payload_at data h)) as F.
        rewrite Er in F. apply F. unfold payload_at, bytes in *. rewrite Forall_forall in Hb |- *. intros x Hx. apply Hb. eapply In_firstn_aux; exact Hx. }
      destruct (readLeafs_c f _ _ _ _ _ _) as [[c' [[l p']|e|]]|] eqn:El; [|discriminate..]. intros Q. inversion Q; subst. clear Q.
      apply IHl in El; [|exact P1]. destruct El as [-> El]. split; [|exact El].
      unfold one_call, forest_cost, tree_cost. cbn [calls nested copied held]. rewrite boxes_eq. cbn [height contents deepest content_size]. rewrite <- S3. reflexivity.
    - intros uw bound rb pos c l p P. cbn [readLeafs_c]. destruct (bound >? rb).
      2:{ intros Q. inversion Q; subst. split; [reflexivity|exact P]. }
      destruct (readBox_c f _ _ _ _) as [[c1 [[[n p1] s]|e|]]|] eqn:E1; [|discriminate..].
      destruct (IHb _ _ _ _ _ _ P E1) as [-> P1].
      destruct (readLeafs_c f _ _ _ _ _ _) as [[c2 [[l2 p2]|e|]]|] eqn:E2; [|discriminate..]. intros Q. inversion Q; subst. clear Q.
      destruct (IHl _ _ _ _ _ _ _ P1 E2) as [-> P2]. split; [reflexivity|exact P2].
  Qed.

  (** Bounds, whatever happens.  [slots x]: how many headers of 8 octets there is room for from [x] on. *)
  Definition left_from (x : Z) : Z := Z.max 0 (Zlen data - x).
  Definition slots (x : Z) : Z := left_from x / 8.
  Lemma nested_octets_mono a b : 0 <= a <= b -> nested_octets a <= nested_octets b.
  Proof.
    intros H. unfold nested_octets. set (q := a / 8). set (q' := b / 8). assert (Q : a = 8 * q + a mod 8) by (apply Z.div_mod; lia). assert (Q' : b = 8 * q' + b mod 8) by (apply Z.div_mod; lia).
    pose proof (Z.mod_pos_bound a 8 ltac:(lia)). pose proof (Z.mod_pos_bound b 8 ltac:(lia)). set (r := a mod 8) in *. set (r' := b mod 8) in *. clearbody q q' r r'. subst a b.
    assert (Q0 : 0 <= q) by lia. destruct (Z_lt_le_dec q q') as [L|L]; [|assert (q = q') by lia; subst q'; apply Z.mul_le_mono_nonneg_l; lia].
    assert (0 <= q) by lia. assert (q * (8 * q + r - 4 * (q + 1)) <= 4 * q * q + 3 * q) by nia. assert (4 * (q + 1) * q <= 4 * q' * (q' - 1)) by nia.
    assert (4 * q' * (q' - 1) <= q' * (8 * q' + r' - 4 * (q' + 1))) by nia. nia.
  Qed.
  Lemma nested_octets_step a : 0 <= a -> nested_octets (a + 8) = a + nested_octets a.
  Proof. intros H. unfold nested_octets. replace (a + 8) with (a + 1 * 8) by lia. rewrite Z.div_add by lia. nia. Qed.
  Lemma nested_octets_nonneg a : 0 <= a -> 0 <= nested_octets a.
  Proof. intros H. pose proof (nested_octets_mono 0 a ltac:(lia)) as M. exact M. Qed.
  Definition shape (c : cost) : Prop := 0 <= nested c <= calls c /\ 0 <= held c <= copied c.
  Definition upto {A} (pos : Z) (c : cost) (r : outcome A) (last : A -> Z) : Prop := shape c /\
    match r with
    | Ok x => pos <= last x /\ calls c + slots (last x) <= slots pos /\ copied c + nested_octets (left_from (last x)) <= nested_octets (left_from pos)
    | _ => calls c <= slots pos + 1 /\ copied c <= nested_octets (left_from pos)
    end.
  Lemma slots_mono a b : a <= b -> slots b <= slots a. Proof. intros. apply Z.div_le_mono; unfold left_from; lia. Qed.
  Lemma octets_mono a b : a <= b -> nested_octets (left_from b) <= nested_octets (left_from a). Proof. intros. apply nested_octets_mono; unfold left_from; lia. Qed.
  Lemma slots_step a : a + 8 <= Zlen data -> slots a = slots (a + 8) + 1.
  Proof. intros. unfold slots, left_from. rewrite !Z.max_r by lia. replace (Zlen data - a) with (Zlen data - (a + 8) + 1 * 8) by lia. rewrite Z.div_add by lia. lia. Qed.
  Lemma octets_step a : a + 8 <= Zlen data -> nested_octets (left_from a) = (Zlen data - (a + 8)) + nested_octets (left_from (a + 8)).
  Proof. intros. unfold left_from. rewrite !Z.max_r by lia. rewrite <- nested_octets_step by lia. f_equal. lia. Qed.
  Lemma cost_bounds : forall fuel,
    (forall uw pos, 0 <= pos -> match readBox_c fuel file data uw pos with Some (c, r) => upto pos c r (fun x => snd (fst x)) | None => True end) /\
    (forall uw bound rb pos, 0 <= pos -> match readLeafs_c fuel file data uw bound rb pos with Some (c, r) => upto pos c r snd | None => True end).
  Proof.
    assert (S0 : shape no_cost) by (unfold shape; cbn; lia).
    assert (Z0 : forall pos, 0 <= nested_octets (left_from pos)) by (intros; apply nested_octets_nonneg; unfold left_from; lia).
    assert (Z1 : forall pos, 0 <= slots pos) by (intros; apply Z.div_pos; unfold left_from; lia).
    induction fuel as [|f [IHb IHl]]; [split; intros; exact I|]. split.
    - intros uw pos P. cbn [readBox_c].
      assert (F : forall A (e : outcome A) l, match e with Ok _ => False | _ => True end -> upto pos (one_call 0 no_cost) e l).
      { intros A e l He. specialize (Z0 pos). specialize (Z1 pos). split; [unfold shape; cbn; lia|]. destruct e; [contradiction|cbn; lia..]. }
      destruct (read_box_header data pos) as [h|e|] eqn:E; [|apply F; exact I..]. cbv zeta.
      destruct (negb file && _); [apply F; exact I|].
      destruct (Z.gtb_spec (header_getDataSize h) (u64 (u64 (Zlen data - h_offset h) - h_header_size h))) as [G|G]; [apply F; exact I|].
      destruct (sizes_read h pos P E G) as (S1 & S2 & S3 & S4 & S5).
      destruct (_ >? _); [apply F; exact I|]. clear F.
      pose proof (slots_step pos ltac:(lia)) as T1. pose proof (octets_step pos ltac:(lia)) as T2.
      assert (F : forall A (e : outcome A) l, match e with Ok _ => False | _ => True end -> upto pos (one_call (header_getDataSize h) no_cost) e l).
      { intros A e l He. pose proof (Z0 (pos + 8)). pose proof (Z1 (pos + 8)). split; [unfold shape; cbn; lia|]. destruct e; [contradiction|cbn [calls copied one_call no_cost]; lia..]. }
      destruct (Box_readData _ _ _ _) as [[[r m] b]|e|] eqn:Er; [|apply F; exact I..]. destruct (negb file && _); [apply F; exact I|].
      assert (P1 : pos + 8 <= h_offset h + h_header_size h + m / 8).
      { assert (0 <= m); [|lia]. fold (payload_at data h) in Er. pose proof (readData_facts (BoxMap_getBoxInstance BoxMap_registered (h_type h)) (h_type h) uw (payload_at data h)) as Fa.
        rewrite Er in Fa. apply Fa. unfold payload_at, bytes in *. rewrite Forall_forall in Hb |- *. intros x Hx. apply Hb. eapply In_firstn_aux; exact Hx. }
      specialize (IHl (list_eqb (h_type h) type_wave) (header_getDataSize h) (m / 8) (h_offset h + h_header_size h + m / 8) ltac:(lia)).
      pose proof (slots_mono _ _ P1) as M1. pose proof (octets_mono _ _ P1) as M2. set (q := h_offset h + h_header_size h + m / 8) in *. clearbody q.
      destruct (readLeafs_c f _ _ _ _ _ _) as [[c r']|]; [|exact I]. destruct IHl as (U1 & U2). unfold shape in U1.
      split; [unfold shape; cbn [one_call nested calls held copied]; lia|]. destruct r' as [[l p]|e|]; cbn [fst snd one_call nested calls held copied] in *; lia.
    - intros uw bound rb pos P. cbn [readLeafs_c]. destruct (bound >? rb).
      2:{ split; [exact S0|]. cbn [snd no_cost calls copied]. lia. }
      specialize (IHb uw pos P). destruct (readBox_c f _ _ _ _) as [[c1 r1]|]; [|exact I]. destruct IHb as (U1 & U2). destruct r1 as [[[n p1] s]|e|]; [|split; [exact U1|exact U2]..].
      cbn [fst snd] in U2. specialize (IHl uw bound (u64 (rb + s)) p1 ltac:(lia)).
      destruct (readLeafs_c f _ _ _ _ _ _) as [[c2 r2]|]; [|exact I]. destruct IHl as (V1 & V2). unfold shape in *.
      split; [unfold shape; cbn [then_ nested calls held copied]; lia|]. destruct r2 as [[l p]|e|]; cbn [fst snd then_ nested calls held copied] in *; lia.
  Qed.
End Any.

(** * Boxes nested as deeply as possible *)
Lemma nested_len k : Zlen (nested_file k) = 8 * Z.of_nat k.
Proof. induction k as [|k IH]; [reflexivity|]. unfold nested_file in *. cbn [repeat concat]. rewrite Zlen_app, IH. change (Zlen [0; 0; 0; 0; 109; 111; 111; 118]) with 8. lia. Qed.
Lemma nested_bytes k : bytes (nested_file k).
Proof. induction k as [|k IH]; [constructor|]. unfold nested_file in *. cbn [repeat concat]. apply bytes_app; [unfold bytes; repeat constructor; unfold is_byte; lia|exact IH]. Qed.
Lemma nested_skip k j : (j <= k)%nat -> skipn (8 * (k - j)) (nested_file k) = nested_file j.
Proof.
  intros H. remember (k - j)%nat as d eqn:D. assert (k = d + j)%nat by lia. subst k. clear H D. induction d as [|d IH]; [reflexivity|].
  replace (8 * S d)%nat with (8 + 8 * d)%nat by lia. unfold nested_file in *. cbn [Nat.add repeat concat app skipn]. exact IH.
Qed.
Lemma nested_header k j : (1 <= j <= k)%nat -> 8 * Z.of_nat k < 2 ^ 63 ->
  read_box_header (nested_file k) (8 * Z.of_nat (k - j)) = Ok (mk_header (8 * Z.of_nat (k - j)) (8 * Z.of_nat j) 8 [109; 111; 111; 118] true).
Proof.
  intros J L. unfold read_box_header. cbv zeta. rewrite nested_len. rewrite u64_small by lia. unfold SMALL_HEADER_SIZE.
  destruct (Z.ltb_spec (8 * Z.of_nat k - 8 * Z.of_nat (k - j)) 8); [lia|].
  replace (Z.to_nat (8 * Z.of_nat (k - j))) with (8 * (k - j))%nat by lia. rewrite nested_skip by lia.
  destruct j as [|j]; [lia|]. unfold nested_file. cbn [repeat concat app]. change (be_to_uint32 0 0 0 0 =? 0) with true. cbv iota. f_equal. f_equal. lia.
Qed.
Lemma nested_cost file k : 8 * Z.of_nat k < 2 ^ 63 -> forall j, (j <= k)%nat -> forall fuel uw, (2 * j + 1 <= fuel)%nat ->
  exists l, readLeafs_c fuel file (nested_file k) uw (8 * Z.of_nat j) 0 (8 * Z.of_nat (k - j)) =
    Some (mk_cost (Z.of_nat j) (Z.of_nat j) (nested_octets (8 * Z.of_nat j)) (nested_octets (8 * Z.of_nat j)), Ok (l, 8 * Z.of_nat k)).
Proof.
  intros L. induction j as [|j IH]; intros J fuel uw F.
  - destruct fuel as [|f]; [lia|]. exists []. cbn [readLeafs_c]. change (8 * Z.of_nat 0 >? 0) with false. cbv iota. rewrite Nat.sub_0_r. reflexivity.
  - destruct fuel as [|[|f]]; [lia..|]. specialize (IH ltac:(lia) f (list_eqb [109; 111; 111; 118] type_wave) ltac:(lia)). destruct IH as (l & IH).
    replace (8 * Z.of_nat (k - j)) with (8 * Z.of_nat (k - S j) + 8) in IH by lia.
    eexists. remember (S f) as f1 eqn:F1. cbn [readLeafs_c]. destruct (Z.gtb_spec (8 * Z.of_nat (S j)) 0); [|lia].
    assert (B : readBox_c f1 file (nested_file k) uw (8 * Z.of_nat (k - S j)) =
      Some (mk_cost (Z.of_nat (S j)) (Z.of_nat (S j)) (nested_octets (8 * Z.of_nat (S j))) (nested_octets (8 * Z.of_nat (S j))),
            Ok (Node [109; 111; 111; 118] (Some (mk_header (8 * Z.of_nat (k - S j)) (8 * Z.of_nat (S j)) 8 [109; 111; 111; 118] true)) B_container l, 8 * Z.of_nat k, 8 * Z.of_nat (S j)))).
    { subst f1. cbn [readBox_c]. rewrite nested_header by lia. cbv zeta. unfold header_getDataSize. cbn [h_offset h_header_size h_size h_type]. rewrite nested_len.
      rewrite (u64_small (8 * Z.of_nat k - 8 * Z.of_nat (k - S j))) by lia. rewrite (u64_small (8 * Z.of_nat k - 8 * Z.of_nat (k - S j) - 8)) by lia. rewrite (u64_small (8 * Z.of_nat (S j) - 8)) by lia.
      destruct (Z.gtb_spec (8 * Z.of_nat (k - S j) + 8) (8 * Z.of_nat k)); [lia|]. rewrite andb_false_r.
      destruct (Z.gtb_spec (8 * Z.of_nat (S j) - 8) (8 * Z.of_nat k - 8 * Z.of_nat (k - S j) - 8)); [lia|].
      destruct (Z.gtb_spec (8 * Z.of_nat (k - S j) + 8 + (8 * Z.of_nat (S j) - 8)) (8 * Z.of_nat k)); [lia|].
      change (BoxMap_getBoxInstance BoxMap_registered [109; 111; 111; 118]) with K_container. unfold Box_readData, rmap, rbind, Container_readData, rret. change ((0 + 0) / 8) with 0. rewrite Z.add_0_r.
      destruct (Z.gtb_spec (8 * Z.of_nat (k - S j) + 8) (8 * Z.of_nat k)); [lia|]. rewrite andb_false_r.
      replace (8 * Z.of_nat (S j) - 8) with (8 * Z.of_nat j) by lia. rewrite IH. unfold one_call. cbn [calls nested copied held].
      pose proof (nested_octets_step (8 * Z.of_nat j) ltac:(lia)) as N. replace (8 * Z.of_nat (S j)) with (8 * Z.of_nat j + 8) by lia. rewrite N. replace (Z.of_nat (S j)) with (1 + Z.of_nat j) by lia. reflexivity. }
    rewrite B. cbv iota beta. rewrite Z.add_0_l. rewrite u64_small by lia. subst f1. cbn [readLeafs_c]. replace (8 * Z.of_nat (S j) >? 8 * Z.of_nat (S j)) with false by lia.
    unfold then_, no_cost. cbn [calls nested copied held]. rewrite !Z.add_0_r, !Z.max_l; [reflexivity| |lia]. apply nested_octets_nonneg. lia.
Qed.

(** * Files whose boxes fill each other: copies are at most height times size *)
Fixpoint packed (n : node) : Prop :=
  let 'Node _ h _ l := n in
  total_announced l <= content_size h <= announced_size n /\ (fix all (l : list node) : Prop := match l with [] => True | k :: l' => packed k /\ all l' end) l.
Lemma packed_eq t h b l : packed (Node t h b l) <-> total_announced l <= content_size h <= announced_size (Node t h b l) /\ Forall packed l.
Proof.
  cbn [packed]. assert (forall l, (fix all (l : list node) : Prop := match l with [] => True | k :: l' => packed k /\ all l' end) l <-> Forall packed l) as E.
  { clear. induction l as [|k l IH]; [split; [constructor|trivial]|]. rewrite IH. split; [intros [A B]; constructor; assumption|intros F; inversion F; auto]. }
  rewrite E. reflexivity.
Qed.
Lemma packed_bound_list l : Forall (fun n => 0 <= announced_size n /\ 0 <= height n /\ contents n <= height n * announced_size n) l ->
  0 <= total_announced l /\ sumZ contents l <= maximum (map height l) * total_announced l.
Proof.
  induction 1 as [|n l (A & H & C) F (IH0 & IH)]; [unfold total_announced, sumZ; cbn; lia|]. cbn [map]. change (total_announced (n :: l)) with (announced_size n + total_announced l). change (sumZ contents (n :: l)) with (contents n + sumZ contents l).
  change (maximum (height n :: map height l)) with (Z.max (height n) (maximum (map height l))). split; [lia|].
  pose proof (maximum_nonneg (map height l)). set (m := maximum (map height l)) in *. set (x := height n) in *. assert (x * announced_size n <= Z.max x m * announced_size n) by (apply Z.mul_le_mono_nonneg_r; lia).
  assert (m * total_announced l <= Z.max x m * total_announced l) by (apply Z.mul_le_mono_nonneg_r; lia). lia.
Qed.
Lemma packed_bound n : packed n -> 0 <= announced_size n /\ 0 <= height n /\ contents n <= height n * announced_size n.
Proof.
  induction n as [t h b l IH] using node_ind'. rewrite packed_eq. intros ((P1 & P2) & F).
  assert (B : Forall (fun n => 0 <= announced_size n /\ 0 <= height n /\ contents n <= height n * announced_size n) l) by (rewrite Forall_forall in *; auto).
  destruct (packed_bound_list l B) as (T0 & T1). cbn [height contents]. pose proof (maximum_nonneg (map height l)) as M. split; [lia|]. split; [lia|].
  set (m := maximum (map height l)) in *. assert (m * total_announced l <= m * announced_size (Node t h b l)) by (apply Z.mul_le_mono_nonneg_l; lia). lia.
Qed.
Lemma tiled_packed data : bytes data -> Zlen data < 2 ^ 63 -> forall n uw off, 0 <= off -> tiled data uw n off -> packed n.
Proof.
  intros Hb Hl. induction n as [t h b l IH] using node_ind'. intros uw off O T. destruct h as [h|]; [|contradiction]. rewrite tiled_eq in T. destruct T as ((E & _ & Eo) & r & bits & R & S & T).
  assert (B : 0 <= bits).
  { pose proof (readData_facts (BoxMap_getBoxInstance BoxMap_registered t) t uw (payload_at data h)) as F. rewrite R in F. apply F. unfold payload_at, bytes in *. rewrite Forall_forall in Hb |- *. intros x Hx. apply Hb. eapply In_firstn_aux; exact Hx. }
  assert (H8 : 8 <= h_header_size h).
  { destruct (Z_le_gt_dec off (Zlen data)) as [Q|Q]; [|pose proof (read_header_past data off ltac:(lia)) as X; rewrite E in X; contradiction].
    pose proof (read_header_cases data off ltac:(lia) ltac:(lia) Hb) as X. rewrite E in X. lia. }
  assert (L : forall p, 0 <= p -> tiled_all data (list_eqb t [119; 97; 118; 101]) l p -> Forall packed l).
  { clear -IH. induction IH as [|k l K IH' IHl]; intros p P T; [constructor|]. cbn [tiled_all] in T. destruct T as (T1 & T2). pose proof (K _ _ P T1) as Pk. constructor; [exact Pk|]. apply packed_bound in Pk. eapply IHl; [|exact T2]. lia. }
  rewrite packed_eq. unfold announced_size. cbn [content_size n_header]. split; [lia|]. eapply L; [|exact T]. lia.
Qed.
Lemma laid_packed n : forall off, sized n -> laid_out n off -> packed n.
Proof.
  induction n as [t h b l IH] using node_ind'. intros off S T. destruct h as [h|]; [|contradiction]. rewrite laid_out_eq in T. destruct T as (_ & _ & E1 & E2 & T). rewrite sized_eq in S. destruct S as (S0 & S).
  pose proof (frame_hs (Box_getDataSize b + total_announced l)) as F.
  assert (L : forall p, laid_out_all l p -> Forall packed l).
  { clear -IH S. induction IH as [|k l K IH' IHl]; intros p T; [constructor|]. cbn [laid_out_all] in T. destruct T as (T1 & T2). inversion S; subst. constructor; [eapply K; eauto|eapply IHl; eauto]. }
  rewrite packed_eq. unfold announced_size. cbn [content_size n_header]. split; [lia|]. eapply L. exact T.
Qed.
Lemma tiled_all_packed data : bytes data -> Zlen data < 2 ^ 63 -> forall ns uw off, 0 <= off -> tiled_all data uw ns off -> Forall packed ns.
Proof.
  intros Hb Hl. induction ns as [|n ns IH]; intros uw off O T; [constructor|]. cbn [tiled_all] in T. destruct T as (T1 & T2). pose proof (tiled_packed data Hb Hl n uw off O T1) as P. constructor; [exact P|]. apply packed_bound in P. eapply IH; [|exact T2]. lia.
Qed.
Lemma laid_all_packed ns : forall off, Forall sized ns -> laid_out_all ns off -> Forall packed ns.
Proof. induction ns as [|n ns IH]; intros off S T; [constructor|]. cbn [laid_out_all] in T. destruct T as (T1 & T2). inversion S; subst. constructor; [eapply laid_packed; eauto|eapply IH; eauto]. Qed.
Lemma wf_sized n : forall uw, tree_wf uw (tree_of n) -> sized n.
Proof.
  induction n as [t h b l IH] using node_ind'. intros uw W. cbn [tree_of] in W. rewrite tree_wf_eq in W. destruct W as (_ & _ & _ & W & _ & F). rewrite sized_eq. split.
  - destruct (wire_payload_facts _ _ W) as (_ & _ & E). rewrite <- E. apply Zlen_nonneg.
  - rewrite Forall_map in F. rewrite Forall_forall in *. intros k Hk. eapply IH; [exact Hk|]. apply F. exact Hk.
Qed.
(** The reader comes back, with a cost. *)
Lemma cost_total file data : bytes data -> Zlen data < 2 ^ 63 -> exists c r, SimpleReader_cost file data = Some (c, r) /\ SimpleReader_parse file data = Some r.
Proof.
  intros Hb Hl. pose proof (SimpleReader_total file data Hb Hl) as T. unfold SimpleReader_parse, SimpleReader_cost in *. rewrite <- (proj2 (cost_erase file data (length data + 2))) in *.
  destruct (readLeafs_c _ _ _ _ _ _ _) as [[c [[l p]|e|]]|]; cbn [option_map snd] in *; [eauto..|contradiction].
Qed.
Lemma cost_of_parse file data c ns : bytes data -> Zlen data < 2 ^ 63 -> SimpleReader_cost file data = Some (c, Ok ns) -> c = forest_cost ns.
Proof.
  intros Hb Hl. unfold SimpleReader_cost. destruct (readLeafs_c _ _ _ _ _ _ _) as [[c' [[l p]|e|]]|] eqn:E; intros Q; try discriminate. inversion Q; subst.
  eapply (proj2 (cost_parsed file data Hb Hl (length data + 2))); [|exact E]. lia.
Qed.
