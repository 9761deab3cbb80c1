(** Proofs about the bit-level model: abstraction of writer and reader states to lists of bits. *)
From Verif Require Import Base BitFacts BitIO.
From Verif Require Export BitSpec.

Lemma bytes_in l x : bytes l -> In x l -> is_byte x.
Proof. intros H. apply (proj1 (Forall_forall _ _) H). Qed.

(* ------------------------------------------------------------------------------------------------------------- *)
(** * Writer *)

(** Invariant of Writer: fewer than 8 pending bits, unused low bits of the pending octet are zero. *)
Definition wwf (w : writer) : Prop :=
  0 <= w_width w < 8 /\ is_byte (w_octet w) /\ (w_octet w) mod 2 ^ (8 - w_width w) = 0 /\ bytes (w_os w).

Lemma wwf_init : wwf writer_init.
Proof. repeat split; cbn; try lia. constructor. Qed.

Lemma wbits_init : wbits writer_init = [].
Proof. reflexivity. Qed.

(** Finite sweep for one writeBit: 8 widths x 256 octets x 2 bits. *)
Definition wb_check (width octet : Z) (b : bool) : bool :=
  implb (octet mod 2 ^ (8 - width) =? 0)
    (let o := if b then (Z.lor octet (Z.shiftl 1 (7 - width))) mod 256 else octet in
     (0 <=? o) && (o <? 256) &&
     (if width + 1 =? 8 then true else o mod 2 ^ (8 - (width + 1)) =? 0) &&
     (if list_eq_dec bool_dec (firstn (Z.to_nat (width + 1)) (be 8 o))
                              (firstn (Z.to_nat width) (be 8 octet) ++ [b]) then true else false)).

Definition zseq (n : nat) : list Z := map Z.of_nat (seq 0 n).
Lemma in_zseq n x : 0 <= x < Z.of_nat n -> In x (zseq n).
Proof. intros H. unfold zseq. apply in_map_iff. exists (Z.to_nat x). split; [lia|]. apply in_seq. lia. Qed.

Lemma wb_check_all :
  forallb (fun width => forallb (fun octet => wb_check width octet true && wb_check width octet false) (zseq 256)) (zseq 8) = true.
Proof. vm_compute. reflexivity. Qed.

Lemma wb_check_ok width octet b : 0 <= width < 8 -> is_byte octet -> wb_check width octet b = true.
Proof.
  intros Hw Ho. pose proof wb_check_all as H. rewrite forallb_forall in H.
  specialize (H width (in_zseq 8 width ltac:(lia))). rewrite forallb_forall in H.
  specialize (H octet (in_zseq 256 octet ltac:(unfold is_byte in *; lia))).
  apply andb_true_iff in H. destruct H, b; assumption.
Qed.

Lemma writeBit_spec b w : wwf w -> wwf (writeBit b w) /\ wbits (writeBit b w) = wbits w ++ [b].
Proof.
  intros (Hw & Ho & Hz & Hos).
  pose proof (wb_check_ok (w_width w) (w_octet w) b Hw Ho) as C.
  unfold wb_check in C. rewrite (proj2 (Z.eqb_eq _ _) Hz) in C. cbn [implb] in C.
  unfold writeBit, wbits, wwf.
  set (o := if b then Z.lor (w_octet w) (Z.shiftl 1 (7 - w_width w)) mod 256 else w_octet w) in *.
  apply andb_true_iff in C as [C C4]. apply andb_true_iff in C as [C C3]. apply andb_true_iff in C as [C1 C2].
  destruct (list_eq_dec _ _ _) as [E|]; [|discriminate C4].
  destruct (w_width w + 1 =? 8) eqn:E8; cbn [w_os w_octet w_width].
  - split.
    + repeat split; try (cbn; lia). apply Forall_app; split; [assumption|]. constructor; [|constructor].
      unfold is_byte; lia.
    + rewrite bits_of_app. cbn [firstn]. change (Z.to_nat 0) with 0%nat. rewrite firstn_O, app_nil_r.
      rewrite <- app_assoc. f_equal.
      rewrite firstn_all2 in E by (rewrite be_length; lia). rewrite <- E.
      unfold bits_of. cbn [flat_map]. rewrite app_nil_r. reflexivity.
  - split.
    + repeat split; try lia; try assumption.
    + rewrite <- app_assoc. f_equal. exact E.
Qed.

Lemma nth_error_be n v k : (k < n)%nat -> nth k (be n v) false = Z.testbit v (Z.of_nat (n - 1 - k)).
Proof.
  revert k; induction n as [|n IH]; intros k Hk; [lia|].
  destruct k; cbn [be nth].
  - f_equal; lia.
  - rewrite IH by lia. f_equal; lia.
Qed.

Lemma nth_bits_of data i : (i < 8 * length data)%nat ->
  nth i (bits_of data) false = Z.testbit (nth (i / 8) data 0) (Z.of_nat (7 - i mod 8)).
Proof.
  revert i; induction data as [|d data IH]; intros i Hi; [simpl in Hi; lia|].
  unfold bits_of; cbn [flat_map]; fold (bits_of data).
  destruct (Nat.lt_ge_cases i 8) as [L|L].
  - rewrite app_nth1 by (rewrite be_length; lia). rewrite nth_error_be by lia.
    rewrite Nat.div_small, Nat.mod_small by lia. cbn [nth]. f_equal; lia.
  - rewrite app_nth2 by (rewrite be_length; lia). rewrite be_length, IH by (simpl in Hi; lia).
    replace i with ((i - 8) + 1 * 8)%nat at 3 4 by lia.
    rewrite Nat.div_add, Nat.mod_add by lia.
    replace ((i - 8) / 8 + 1)%nat with (S ((i - 8) / 8)) by lia. reflexivity.
Qed.

Lemma fold_writeBit (f : nat -> bool) (l : list nat) w : wwf w ->
  let w' := fold_left (fun w k => writeBit (f k) w) l w in
  wwf w' /\ wbits w' = wbits w ++ map f l.
Proof.
  revert w; induction l as [|k l IH]; intros w Hw; cbn [fold_left map].
  - split; [assumption|]. rewrite app_nil_r. reflexivity.
  - destruct (writeBit_spec (f k) w Hw) as [H1 H2]. destruct (IH _ H1) as [H3 H4].
    split; [exact H3|]. rewrite H4, H2, <- app_assoc. reflexivity.
Qed.

Lemma fold_left_ext_in {A B} (f g : A -> B -> A) l a :
  (forall x b, In b l -> f x b = g x b) -> fold_left f l a = fold_left g l a.
Proof.
  revert a; induction l as [|b l IH]; intros a H; [reflexivity|].
  cbn [fold_left]. rewrite H by (left; reflexivity). apply IH. intros; apply H; right; assumption.
Qed.

Lemma writeBits_spec data width w : wwf w -> 0 <= width <= 8 * Zlen data -> 8 * Zlen data < 2 ^ 64 ->
  wwf (writeBits data width w) /\
  wbits (writeBits data width w) = wbits w ++ skipn (Z.to_nat (8 * Zlen data - width)) (bits_of data).
Proof.
  intros Hw Hd Hb. unfold writeBits.
  rewrite Z.mod_small by lia.
  set (offset := 8 * Zlen data - width) in *.
  rewrite (fold_left_ext_in _
     (fun w k => writeBit (nth (Z.to_nat offset + k) (bits_of data) false) w)).
  - destruct (fold_writeBit (fun k => nth (Z.to_nat offset + k) (bits_of data) false)
               (seq 0 (Z.to_nat (8 * Zlen data - offset))) w Hw) as [H1 H2].
    split; [exact H1|]. rewrite H2. f_equal.
    apply nth_ext with (d := false) (d' := false).
    + rewrite map_length, seq_length, skipn_length, bits_of_length. unfold Zlen in *; lia.
    + intros n Hn. rewrite map_length, seq_length in Hn.
      rewrite nth_indep with (d' := nth (Z.to_nat offset + 0) (bits_of data) false)
        by (rewrite map_length, seq_length; exact Hn).
      rewrite (map_nth (fun k => nth (Z.to_nat offset + k) (bits_of data) false)).
      rewrite seq_nth by exact Hn. cbn [Nat.add].
      rewrite <- (firstn_skipn (Z.to_nat offset) (bits_of data)) at 1.
      assert (L : length (firstn (Z.to_nat offset) (bits_of data)) = Z.to_nat offset)
        by (rewrite firstn_length, bits_of_length; unfold Zlen in *; lia).
      rewrite app_nth2 by lia. f_equal. lia.
  - intros w0 k Hk. apply in_seq in Hk. f_equal.
    rewrite land1_testbit by lia.
    rewrite nth_bits_of by (unfold Zlen in *; lia).
    rewrite Z.shiftr_div_pow2 by lia. change (2 ^ 3) with 8. f_equal.
    + f_equal. lia.
    + lia.
Qed.

Lemma writeBits_one d k w : wwf w -> (k <= 8)%nat ->
  wwf (writeBits [d] (Z.of_nat k) w) /\ wbits (writeBits [d] (Z.of_nat k) w) = wbits w ++ be k d.
Proof.
  intros Hw Hk. destruct (writeBits_spec [d] (Z.of_nat k) w Hw) as [H1 H2]; try (cbn; lia).
  split; [exact H1|]. rewrite H2. f_equal.
  change (8 * Zlen [d]) with 8. unfold bits_of; cbn [flat_map]; rewrite app_nil_r.
  replace 8%nat with ((8 - k) + k)%nat at 1 by lia. rewrite be_app.
  rewrite skipn_app, be_length.
  replace (Z.to_nat (8 - Z.of_nat k) - (8 - k))%nat with 0%nat by lia.
  rewrite skipn_all2 by (rewrite be_length; lia). reflexivity.
Qed.

(** [wspec m bs]: from every state, [m] returns normally, reports [length bs] bits, appends exactly [bs]. *)
Definition wspec (m : W) (bs : list bool) : Prop :=
  forall w, wwf w -> exists w', m w = Ok (w', Zlen bs) /\ wwf w' /\ wbits w' = wbits w ++ bs.

Lemma wspec_skip : wspec wskip [].
Proof. intros w Hw. exists w. rewrite app_nil_r. auto. Qed.

Lemma Zlen_app {A} (a b : list A) : Zlen (a ++ b) = Zlen a + Zlen b.
Proof. unfold Zlen. rewrite app_length. lia. Qed.
Lemma Zlen_cons {A} (x : A) l : Zlen (x :: l) = 1 + Zlen l.
Proof. unfold Zlen; cbn [length]; lia. Qed.
Lemma Zlen_nil {A} : Zlen (@nil A) = 0.
Proof. reflexivity. Qed.
Lemma Zlen_nonneg {A} (l : list A) : 0 <= Zlen l.
Proof. unfold Zlen; lia. Qed.
Lemma Zlen_map {A B} (f : A -> B) l : Zlen (map f l) = Zlen l.
Proof. unfold Zlen. rewrite map_length. reflexivity. Qed.
Lemma Zlen_be n v : Zlen (be n v) = Z.of_nat n.
Proof. unfold Zlen. rewrite be_length. reflexivity. Qed.
Lemma Zlen_bits_of l : Zlen (bits_of l) = 8 * Zlen l.
Proof. unfold Zlen. rewrite bits_of_length. lia. Qed.

Lemma wspec_seq a b x y : wspec a x -> wspec b y -> wspec (a ;; b) (x ++ y).
Proof.
  intros Ha Hb w Hw. destruct (Ha w Hw) as (w1 & E1 & W1 & B1). destruct (Hb w1 W1) as (w2 & E2 & W2 & B2).
  exists w2. unfold wseq. rewrite E1, E2. split; [|split; [exact W2|]].
  - rewrite Zlen_app. reflexivity.
  - rewrite B2, B1, app_assoc. reflexivity.
Qed.

Lemma wspec_list {A} (f : A -> W) (g : A -> list bool) (l : list A) :
  (forall x, In x l -> wspec (f x) (g x)) -> wspec (wlist f l) (flat_map g l).
Proof.
  induction l as [|x l IH]; intros H; cbn [wlist flat_map].
  - apply wspec_skip.
  - apply wspec_seq; [apply H; left; reflexivity | apply IH; intros; apply H; right; assumption].
Qed.

Lemma write_chunk_le size i : (write_chunk size i <= 8)%nat.
Proof. unfold write_chunk. destruct (size >? i + 8) eqn:?; [lia|]. destruct (size <? i + 8) eqn:?; lia. Qed.

Lemma write_loop_spec octet size f : 
  (forall i, 0 <= i < size -> exists hi lo, f i = hi ++ lo /\ be (write_chunk size i) (octet i) = hi /\ f (i + 8) = lo) ->
  (forall i, size <= i -> f i = []) ->
  forall k i, 0 <= i -> k = iterations (size - i) -> wspec (write_loop octet size i k) (f i).
Proof.
  intros Hf Hn. induction k as [|k IH]; intros i Hi Hk w Hw.
  - cbn [write_loop]. rewrite Hn by (unfold iterations in Hk; lia).
    exists w. rewrite app_nil_r. auto.
  - cbn [write_loop]. 
    assert (Hlt : i < size) by (unfold iterations in Hk; lia).
    destruct (writeBits_one (octet i) (write_chunk size i) w Hw (write_chunk_le size i)) as [H1 H2].
    destruct (Hf i ltac:(lia)) as (hi & lo & E1 & E2 & E3).
    assert (Hk' : k = iterations (size - (i + 8))) by (unfold iterations in *; lia).
    destruct (IH (i + 8) ltac:(lia) Hk' _ H1) as (w' & F1 & F2 & F3).
    rewrite F1. exists w'. split; [|split].
    + f_equal. f_equal. rewrite E1, Zlen_app, <- E2, Zlen_be, E3. reflexivity.
    + exact F2.
    + rewrite F3, H2, E1, E2, E3, app_assoc. reflexivity.
Qed.

(** Splitting an n-bit field at an octet. *)
Lemma be_split size i v : 0 <= i < size ->
  be (Z.to_nat (size - i)) v =
  be (write_chunk size i) (Z.shiftr v (size - i - Z.of_nat (write_chunk size i))) ++ be (Z.to_nat (size - (i + 8))) v.
Proof.
  intros H.
  assert (E : Z.to_nat (size - i) = (write_chunk size i + Z.to_nat (size - (i + 8)))%nat).
  { unfold write_chunk. destruct (size >? i + 8) eqn:?; [lia|]. destruct (size <? i + 8) eqn:?; lia. }
  rewrite E, be_app. do 2 f_equal. f_equal. lia.
Qed.

Lemma be_octet n v : (n <= 8)%nat -> be n (v mod 256) = be n v.
Proof. intros H. change 256 with (2 ^ 8). apply be_mod. lia. Qed.

Lemma write_uint_spec val size : 0 <= size -> wspec (write_uint val size) (be (Z.to_nat size) val).
Proof.
  intros Hs. unfold write_uint.
  replace (be (Z.to_nat size) val) with ((fun i => be (Z.to_nat (size - i)) val) 0) by (cbv beta; f_equal; lia).
  apply (write_loop_spec _ size (fun i => be (Z.to_nat (size - i)) val)).
  - intros i Hi. eexists _, _. split; [apply be_split; exact Hi|]. split; [|reflexivity].
    unfold write_uint_octet. rewrite be_octet by apply write_chunk_le.
    unfold write_chunk. destruct (size >? i + 8) eqn:E1.
    + do 2 f_equal. lia.
    + destruct (size <? i + 8) eqn:E2.
      * replace (size - i - Z.of_nat (Z.to_nat (size - i))) with 0 by lia. rewrite Z.shiftr_0_r. reflexivity.
      * replace (size - i - Z.of_nat 8) with 0 by lia. rewrite Z.shiftr_0_r. reflexivity.
  - intros i Hi. replace (Z.to_nat (size - i)) with 0%nat by lia. reflexivity.
  - lia.
  - f_equal. lia.
Qed.

(** The bits written by write_int for an arbitrary value: sign, then the low size-1 bits. *)
Definition sbits (n : nat) (v : Z) : list bool :=
  match n with O => [] | S k => (v <? 0) :: be k v end.

Lemma Ztestbit_ones_land v n k : 0 <= n -> 0 <= k < n -> Z.testbit (Z.land v (Z.shiftl 1 n - 1)) k = Z.testbit v k.
Proof.
  intros Hn Hk. rewrite Z.shiftl_1_l. replace (2 ^ n - 1) with (Z.ones n) by (rewrite Z.ones_equiv; lia).
  rewrite Z.land_ones by lia. apply Z.mod_pow2_bits_low. lia.
Qed.

Lemma write_int_spec_gen val size : 0 <= size -> wspec (write_int val size) (sbits (Z.to_nat size) val).
Proof.
  intros Hs. unfold write_int.
  set (f := fun i => if i =? 0 then sbits (Z.to_nat size) val else be (Z.to_nat (size - i)) val).
  change (sbits (Z.to_nat size) val) with (f 0).
  apply (write_loop_spec _ size f).
  - intros i Hi. unfold f.
    replace (i + 8 =? 0) with false by lia.
    destruct (i =? 0) eqn:E0.
    + assert (i = 0) by lia; subst i.
      assert (Hc : (0 < write_chunk size 0)%nat).
      { unfold write_chunk. destruct (size >? 0 + 8) eqn:?; [lia|]. destruct (size <? 0 + 8) eqn:?; lia. }
      pose proof (be_split size 0 val Hi) as S. rewrite Z.sub_0_r in S.
      destruct (Z.to_nat size) as [|n] eqn:En; [lia|]. cbn [sbits].
      destruct (write_chunk size 0) as [|c] eqn:Ec; [lia|].
      cbn [be] in S. rewrite <- app_comm_cons in S. injection S as _ S.
      exists ((val <? 0) :: be c (Z.shiftr val (size - Z.of_nat (Datatypes.S c)))), (be (Z.to_nat (size - (0 + 8))) val).
      split; [rewrite S; reflexivity|]. split; [|reflexivity].
      assert (Hc8 : (Datatypes.S c <= 8)%nat) by (rewrite <- Ec; apply write_chunk_le).
      unfold write_int_octet. rewrite Ec. cbn [Z.eqb].
      set (v := if size >? 0 + 8 then Z.shiftr val (size - (0 + 8)) else val).
      assert (Hv : v = Z.shiftr val (size - Z.of_nat (Datatypes.S c))).
      { unfold v. unfold write_chunk in Ec. destruct (size >? 0 + 8) eqn:?; [f_equal; lia|].
        destruct (size <? 0 + 8) eqn:?; [replace (size - Z.of_nat (Datatypes.S c)) with 0 by lia|
          replace (size - Z.of_nat (Datatypes.S c)) with 0 by lia]; rewrite Z.shiftr_0_r; reflexivity. }
      rewrite <- Hv. change (0 =? 0) with true. cbv iota.
      replace (Z.of_nat (Datatypes.S c) - 1) with (Z.of_nat c) by lia.
      rewrite be_octet by exact Hc8.
      destruct (val <? 0).
      * cbn [be]. f_equal.
        -- rewrite Z.lor_spec, Z.shiftl_spec by lia. rewrite Z.sub_diag. cbn. apply orb_true_r.
        -- apply be_ext; intros k Hk. rewrite Z.lor_spec, Z.shiftl_spec by lia.
           rewrite (Z.testbit_neg_r 1) by lia. apply orb_false_r.
      * cbn [be]. f_equal.
        -- rewrite Z.shiftl_1_l. replace (2 ^ Z.of_nat c - 1) with (Z.ones (Z.of_nat c)) by (rewrite Z.ones_equiv; lia).
           rewrite Z.land_ones by lia. apply Z.mod_pow2_bits_high. lia.
        -- apply be_ext; intros k Hk. apply Ztestbit_ones_land; lia.
    + eexists _, _. split; [apply be_split; exact Hi|]. split; [|reflexivity].
      unfold write_int_octet. rewrite E0. rewrite be_octet by apply write_chunk_le.
      unfold write_chunk. destruct (size >? i + 8) eqn:E1.
      * do 2 f_equal. lia.
      * destruct (size <? i + 8) eqn:E2.
        -- replace (size - i - Z.of_nat (Z.to_nat (size - i))) with 0 by lia. rewrite Z.shiftr_0_r. reflexivity.
        -- replace (size - i - Z.of_nat 8) with 0 by lia. rewrite Z.shiftr_0_r. reflexivity.
  - intros i Hi. unfold f. destruct (i =? 0) eqn:E.
    + replace (Z.to_nat size) with 0%nat by lia. reflexivity.
    + replace (Z.to_nat (size - i)) with 0%nat by lia. reflexivity.
  - lia.
  - f_equal. lia.
Qed.

Lemma sbits_be n v : fits_s (Z.of_nat n) v -> sbits n v = be n v.
Proof.
  destruct n as [|n]; [reflexivity|]. intros [H1 H2]. cbn [sbits be]. f_equal.
  replace (Z.of_nat (S n) - 1) with (Z.of_nat n) in * by lia.
  apply Z.b2z_inj. rewrite Z.testbit_spec' by lia.
  destruct (Z.ltb_spec v 0) as [L|L]; cbn [Z.b2z].
  - replace (v / 2 ^ Z.of_nat n) with (-1). reflexivity.
    apply Z.div_unique with (r := v + 2 ^ Z.of_nat n); lia.
  - rewrite Z.div_small by lia. reflexivity.
Qed.

Lemma write_int_spec val size : 0 <= size -> fits_s size val -> wspec (write_int val size) (be (Z.to_nat size) val).
Proof.
  intros Hs Hf. rewrite <- sbits_be by (rewrite Z2Nat.id by lia; exact Hf). apply write_int_spec_gen. exact Hs.
Qed.

Lemma write_bool_spec b : wspec (write_bool b) [b].
Proof.
  intros w Hw. unfold write_bool. destruct (writeBits_one (if b then 255 else 0) 1 w Hw ltac:(lia)) as [H1 H2].
  change (Z.of_nat 1) with 1 in *. eexists. split; [reflexivity|]. split; [exact H1|]. rewrite H2. f_equal. destruct b; reflexivity.
Qed.

Lemma write_octet8_spec c : wspec (write_octet8 c) (be 8 c).
Proof.
  intros w Hw. unfold write_octet8. destruct (writeBits_one (c mod 256) 8 w Hw ltac:(lia)) as [H1 H2].
  change (Z.of_nat 8) with 8 in *. eexists. split; [reflexivity|]. split; [exact H1|]. rewrite H2. f_equal.
  apply be_octet. lia.
Qed.

Lemma write_string_spec s : wspec (write_string s) (bits_of (s ++ [0])).
Proof.
  unfold write_string. rewrite bits_of_app. apply wspec_seq.
  - apply wspec_list. intros; apply write_octet8_spec.
  - apply write_octet8_spec.
Qed.

Lemma write_pascal_string_spec s : Zlen s <= 255 -> wspec (write_pascal_string s) (bits_of (Zlen s :: s)).
Proof.
  intros H. unfold write_pascal_string. replace (Zlen s >? 255) with false by lia.
  change (bits_of (Zlen s :: s)) with (be 8 (Zlen s) ++ bits_of s). apply wspec_seq.
  - apply write_octet8_spec.
  - apply wspec_list. intros; apply write_octet8_spec.
Qed.

Lemma write_vector_uint_spec n v : wspec (write_vector_uint (Z.of_nat n) v) (flat_map (be n) v).
Proof.
  apply wspec_list. intros x _. pose proof (write_uint_spec x (Z.of_nat n) ltac:(lia)) as H.
  rewrite Nat2Z.id in H. exact H.
Qed.

Lemma write_array_uint8_spec v : wspec (write_array_uint8 v) (bits_of v).
Proof. exact (write_vector_uint_spec 8 v). Qed.

(** Octets of a fixed-length base-128 number, most significant group first, continuation bit on all but the last. *)
Fixpoint uvarint_octets (k : nat) (v : Z) : list Z :=
  match k with
  | O => []
  | S k' => ((v / 2 ^ (7 * Z.of_nat k')) mod 128 + (if (0 <? Z.of_nat k') then 128 else 0)) :: uvarint_octets k' v
  end.

Lemma lor128 d : 0 <= d < 128 -> Z.lor d 128 = d + 128.
Proof.
  intros H.
  assert (E : forallb (fun d => Z.lor d 128 =? d + 128) (zseq 128) = true) by (vm_compute; reflexivity).
  rewrite forallb_forall in E. specialize (E d (in_zseq 128 d ltac:(lia))). lia.
Qed.

Lemma write_uvarint_loop_spec val k : wspec (write_uvarint_loop val k) (bits_of (uvarint_octets k val)).
Proof.
  induction k as [|k IH]; cbn [write_uvarint_loop uvarint_octets].
  - apply wspec_skip.
  - change (bits_of (?x :: ?y)) with (be 8 x ++ bits_of y).
    apply wspec_seq; [|exact IH].
    replace ((val / 2 ^ (7 * Z.of_nat k)) mod 128 + (if 0 <? Z.of_nat k then 128 else 0))
      with (if 7 * Z.of_nat k >? 0 then Z.lor (Z.land (Z.shiftr val (7 * Z.of_nat k)) 127) 128
                                 else Z.land (Z.shiftr val (7 * Z.of_nat k)) 127).
    + apply write_octet8_spec.
    + change 127 with (Z.ones 7). rewrite Z.land_ones by lia. rewrite Z.shiftr_div_pow2 by lia.
      change (2 ^ 7) with 128.
      pose proof (Z.mod_pos_bound (val / 2 ^ (7 * Z.of_nat k)) 128 ltac:(lia)).
      destruct (7 * Z.of_nat k >? 0) eqn:E.
      * rewrite lor128 by assumption. destruct (0 <? Z.of_nat k) eqn:?; lia.
      * destruct (0 <? Z.of_nat k) eqn:?; lia.
Qed.

Lemma uvarint_octets_length k v : length (uvarint_octets k v) = k.
Proof. induction k; cbn [uvarint_octets length]; congruence. Qed.

Lemma write_uvarint_spec k v : wspec (write_uvarint k v) (bits_of (uvarint_octets k v)).
Proof.
  intros w Hw. destruct (write_uvarint_loop_spec v k w Hw) as (w' & E & H1 & H2).
  unfold write_uvarint. rewrite E. exists w'. split; [|auto]. f_equal. f_equal.
  rewrite Zlen_bits_of. unfold Zlen. rewrite uvarint_octets_length. lia.
Qed.

(* ------------------------------------------------------------------------------------------------------------- *)
(** * Reader *)

Definition rwf (r : reader) : Prop :=
  0 <= r_width r < 8 /\ (r_pos r <= length (r_data r))%nat /\ bytes (r_data r).

Lemma rwf_init l : bytes l -> rwf (reader_init l).
Proof. intros H. repeat split; cbn; try lia. exact H. Qed.

Lemma rbits_init l : rbits (reader_init l) = bits_of l.
Proof. reflexivity. Qed.

Lemma rbits_length r : rwf r -> Zlen (rbits r) = r_width r + 8 * (Zlen (r_data r) - Z.of_nat (r_pos r)).
Proof.
  intros (H1 & H2 & H3). unfold rbits. rewrite Zlen_app, Zlen_be, Zlen_bits_of. unfold Zlen. rewrite skipn_length. lia.
Qed.

Lemma skipn_nth_error {A} (l : list A) n : (n < length l)%nat ->
  exists x, nth_error l n = Some x /\ skipn n l = x :: skipn (S n) l /\ In x l.
Proof.
  revert n; induction l as [|y l IH]; intros n H; [simpl in H; lia|].
  destruct n; cbn [nth_error skipn].
  - exists y; repeat split. left; reflexivity.
  - destruct (IH n) as (x & E1 & E2 & E3); [simpl in H; lia|]. exists x; repeat split; auto. right; exact E3.
Qed.

Lemma readBit_spec r : rwf r ->
  match rbits r with
  | [] => readBit r = Throw RuntimeError
  | b :: rest => exists r', readBit r = Ok (r', b) /\ rwf r' /\ rbits r' = rest /\ r_data r' = r_data r
  end.
Proof.
  intros (H1 & H2 & H3). unfold rbits, readBit.
  destruct (r_width r =? 0) eqn:E0.
  - assert (Ew : r_width r = 0) by lia. rewrite Ew. cbn [Z.to_nat be app].
    destruct (Nat.eq_dec (r_pos r) (length (r_data r))) as [E|E].
    + rewrite skipn_all2 by lia. cbn [bits_of flat_map].
      rewrite (proj2 (nth_error_None _ _)) by lia. reflexivity.
    + destruct (skipn_nth_error (r_data r) (r_pos r)) as (x & N & S & I); [lia|].
      rewrite N, S. assert (Bx : is_byte x) by (exact (bytes_in _ _ H3 I)).
      rewrite (Z.mod_small x) by exact Bx.
      unfold bits_of; cbn [flat_map]; fold (bits_of (skipn (Datatypes.S (r_pos r)) (r_data r))).
      cbn [be app r_width r_octet r_data r_pos].
      change (8 - 1) with 7. rewrite land1_testbit by lia. change (Z.of_nat 7) with 7.
      eexists. split; [reflexivity|]. cbn [r_width r_octet r_data r_pos]. split; [|split; [|reflexivity]].
      * repeat split; cbn [r_width r_pos r_data]; try lia. exact H3.
      * reflexivity.
  - destruct (Z.to_nat (r_width r)) as [|k] eqn:Ek; [lia|]. cbn [be app].
    rewrite land1_testbit by lia. replace (Z.of_nat k) with (r_width r - 1) by lia.
    eexists. split; [reflexivity|]. cbn [r_width r_octet r_data r_pos]. split; [|split; [|reflexivity]].
    + repeat split; cbn [r_width r_pos r_data]; try lia. exact H3.
    + do 2 f_equal. lia.
Qed.

Lemma lor_bit b j : is_byte b -> 0 <= j < 8 -> Z.testbit b j = false -> Z.lor b (2 ^ j) mod 256 = b + 2 ^ j.
Proof.
  intros Hb Hj Ht.
  assert (E : forallb (fun j => forallb (fun b => Z.testbit b j || (Z.lor b (2 ^ j) mod 256 =? b + 2 ^ j)) (zseq 256)) (zseq 8) = true)
    by (vm_compute; reflexivity).
  rewrite forallb_forall in E. specialize (E j (in_zseq 8 j ltac:(lia))).
  rewrite forallb_forall in E. specialize (E b (in_zseq 256 b ltac:(unfold is_byte in *; lia))).
  rewrite Ht in E. cbn in E. lia.
Qed.

Lemma or_nth_pack n pre l : length (pre ++ false :: l) = (8 * n)%nat ->
  or_nth (pack n (pre ++ false :: l)) (Z.to_nat (Z.shiftr (Zlen pre) 3)) (Z.shiftl 1 (7 - Zlen pre mod 8))
  = pack n (pre ++ true :: l).
Proof.
  revert pre; induction n as [|n IH]; intros pre H.
  - rewrite app_length in H; cbn in H; lia.
  - cbn [pack]. rewrite Z.shiftr_div_pow2 by lia. change (2 ^ 3) with 8.
    destruct (Nat.lt_ge_cases (length pre) 8) as [L|L].
    + replace (Z.to_nat (Zlen pre / 8)) with 0%nat by (unfold Zlen; lia). cbn [or_nth].
      set (m := (8 - 1 - length pre)%nat).
      assert (F : forall b, firstn 8 (pre ++ b :: l) = pre ++ b :: firstn m l).
      { intros b. rewrite firstn_app. rewrite firstn_all2 by lia. f_equal.
        replace (8 - length pre)%nat with (Datatypes.S m) by lia. reflexivity. }
      assert (G : forall b, skipn 8 (pre ++ b :: l) = skipn m l).
      { intros b. rewrite skipn_app. rewrite skipn_all2 by lia. 
        replace (8 - length pre)%nat with (Datatypes.S m) by lia. reflexivity. }
      rewrite !F, !G. f_equal.
      rewrite app_length in H; cbn in H.
      assert (Lm : Zlen (firstn m l) = 7 - Zlen pre) by (unfold Zlen; rewrite firstn_length; lia).
      rewrite !bits_to_Z_app, !bits_to_Z_cons. cbn [Z.b2z].
      rewrite !Zlen_cons, Lm.
      rewrite (Z.mod_small (Zlen pre) 8) by (unfold Zlen; lia). rewrite Z.shiftl_1_l.
      pose proof (bits_to_Z_bound (pre ++ false :: firstn m l)) as Bd.
      rewrite Zlen_app, Zlen_cons, Lm in Bd. replace (Zlen pre + (1 + (7 - Zlen pre))) with 8 in Bd by lia.
      rewrite !bits_to_Z_app, !bits_to_Z_cons in Bd. cbn [Z.b2z] in Bd.
      rewrite !Zlen_cons, Lm in Bd.
      pose proof (bits_to_Z_bound (firstn m l)) as Bl. rewrite Lm in Bl.
      pose proof (Zlen_nonneg pre). assert (Zlen pre < 8) by (unfold Zlen; lia).
      rewrite lor_bit.
      * ring.
      * exact Bd.
      * lia.
      * apply Z.b2z_inj. rewrite Z.testbit_spec' by lia. cbn [Z.b2z].
        replace (1 + (7 - Zlen pre)) with (Z.succ (7 - Zlen pre)) by lia. rewrite Z.pow_succ_r by lia.
        replace (bits_to_Z pre * (2 * 2 ^ (7 - Zlen pre)) + (0 * 2 ^ (7 - Zlen pre) + bits_to_Z (firstn m l)))
          with ((2 * bits_to_Z pre) * 2 ^ (7 - Zlen pre) + bits_to_Z (firstn m l)) by ring.
        rewrite Z.div_add_l by lia. rewrite (Z.div_small (bits_to_Z (firstn m l))) by lia.
        rewrite Z.add_0_r, Z.mul_comm. apply Z.mod_mul. lia.
    + replace (Z.to_nat (Zlen pre / 8)) with (Datatypes.S (Z.to_nat ((Zlen pre - 8) / 8))) by (unfold Zlen; lia).
      cbn [or_nth].
      assert (F : forall x, firstn 8 (pre ++ x) = firstn 8 pre).
      { intros x. rewrite firstn_app. replace (8 - length pre)%nat with 0%nat by lia. rewrite firstn_O, app_nil_r. reflexivity. }
      assert (G : forall x, skipn 8 (pre ++ x) = skipn 8 pre ++ x).
      { intros x. rewrite skipn_app. replace (8 - length pre)%nat with 0%nat by lia. reflexivity. }
      rewrite !F, !G. f_equal.
      assert (Lp : Zlen (skipn 8 pre) = Zlen pre - 8) by (unfold Zlen; rewrite skipn_length; lia).
      specialize (IH (skipn 8 pre)). rewrite Lp, Z.shiftr_div_pow2 in IH by lia. change (2 ^ 3) with 8 in IH.
      replace ((Zlen pre - 8) mod 8) with (Zlen pre mod 8) in IH by lia.
      apply IH. rewrite app_length in *. rewrite skipn_length. lia.
Qed.

Lemma readBits_loop_spec n k : forall r pre bs rest, rwf r -> rbits r = bs ++ rest -> length bs = k ->
  (length pre + k = 8 * n)%nat ->
  exists r', readBits_loop (pack n (pre ++ repeat false k)) (Zlen pre) k r = Ok (r', pack n (pre ++ bs))
             /\ rwf r' /\ rbits r' = rest /\ r_data r' = r_data r.
Proof.
  induction k as [|k IH]; intros r pre bs rest Hr Hb Hk Hn.
  - destruct bs; [|discriminate Hk]. exists r. cbn [readBits_loop repeat]. auto.
  - destruct bs as [|b bs]; [discriminate Hk|]. cbn [readBits_loop].
    pose proof (readBit_spec r Hr) as S. rewrite Hb in S. cbn [app] in S.
    destruct S as (r1 & E1 & W1 & B1 & D1). rewrite E1.
    destruct (IH r1 (pre ++ [b]) bs rest W1 B1) as (r' & E & W' & B' & D').
    + simpl in Hk; lia.
    + rewrite app_length; simpl; lia.
    + exists r'. split; [|split; [exact W'|split; [exact B'|congruence]]].
      replace (Zlen (pre ++ [b])) with (Zlen pre + 1) in E by (rewrite Zlen_app; reflexivity).
      rewrite <- !app_assoc in E. cbn [app] in E.
      destruct b.
      * cbn [repeat]. rewrite or_nth_pack; [exact E|].
        rewrite app_length; cbn [length]; rewrite repeat_length; lia.
      * exact E.
Qed.

Lemma readBits_loop_fail k : forall data p r, rwf r -> (length (rbits r) < k)%nat ->
  readBits_loop data p k r = Throw RuntimeError.
Proof.
  induction k as [|k IH]; intros data p r Hr Hl; [lia|].
  cbn [readBits_loop]. pose proof (readBit_spec r Hr) as S.
  destruct (rbits r) as [|b rest]; [rewrite S; reflexivity|].
  destruct S as (r1 & E1 & W1 & B1 & D1). rewrite E1. apply IH; [exact W1|]. rewrite B1. simpl in Hl; lia.
Qed.

Lemma repeat_app {A} (x : A) n m : repeat x (n + m) = repeat x n ++ repeat x m.
Proof. induction n; cbn [repeat Nat.add app]; congruence. Qed.

Lemma firstn_repeat {A} (x : A) n m : firstn n (repeat x m) = repeat x (Nat.min n m).
Proof. revert m; induction n; destruct m; cbn; congruence. Qed.
Lemma skipn_repeat {A} (x : A) n m : skipn n (repeat x m) = repeat x (m - n).
Proof. revert m; induction n; destruct m; cbn; auto. Qed.

Lemma pack_zero n : pack n (repeat false (8 * n)) = repeat 0 n.
Proof.
  induction n as [|n IH]; [reflexivity|].
  cbn [pack]. rewrite firstn_repeat, skipn_repeat.
  replace (8 * S n - 8)%nat with (8 * n)%nat by lia. rewrite IH.
  replace (Nat.min 8 (8 * S n)) with 8%nat by lia. reflexivity.
Qed.

(** Octets of an n-bit big-endian number, right-aligned. *)
Definition right_octets (bs : list bool) : list Z :=
  let n := ((length bs + 7) / 8)%nat in pack n (repeat false (8 * n - length bs) ++ bs).

Lemma readBits_spec size r bs rest : rwf r -> rbits r = bs ++ rest -> Zlen bs = size ->
  exists r', readBits size r = Ok (r', right_octets bs) /\ rwf r' /\ rbits r' = rest /\ r_data r' = r_data r.
Proof.
  intros Hr Hb Hs. unfold readBits, right_octets. rewrite Z.shiftr_div_pow2, Z.shiftl_mul_pow2 by lia.
  change (2 ^ 3) with 8.
  set (n := ((length bs + 7) / 8)%nat).
  assert (Hn : Z.to_nat ((size + 7) / 8) = n) by (unfold n, Zlen in *; lia).
  rewrite Hn.
  set (pre := repeat false (8 * n - length bs)).
  assert (Lp : length pre = (8 * n - length bs)%nat) by apply repeat_length.
  assert (Hge : (length bs <= 8 * n)%nat) by (unfold n; lia).
  rewrite <- pack_zero. replace (8 * n)%nat with ((8 * n - length bs) + length bs)%nat by lia.
  rewrite repeat_app. fold pre.
  replace ((size + 7) / 8 * 8 - size) with (Zlen pre) by (unfold Zlen in *; lia).
  replace (Z.to_nat size) with (length bs) by (unfold Zlen in *; lia).
  apply (readBits_loop_spec n (length bs) r pre bs rest Hr Hb eq_refl). lia.
Qed.

Lemma readBits_fail size r : rwf r -> Zlen (rbits r) < size -> readBits size r = Throw RuntimeError.
Proof. intros Hr Hl. unfold readBits. apply readBits_loop_fail; [exact Hr|]. unfold Zlen in Hl. lia. Qed.

Lemma bits_to_Z_bits_of_snoc l b : is_byte b -> bits_to_Z (bits_of (l ++ [b])) = bits_to_Z (bits_of l) * 256 + b.
Proof.
  intros Hb. rewrite bits_of_app, bits_to_Z_app. unfold bits_of at 2 3; cbn [flat_map]. rewrite app_nil_r, Zlen_be, bits_to_Z_be.
  change (2 ^ Z.of_nat 8) with 256. rewrite Z.mod_small by exact Hb. reflexivity.
Qed.

Lemma lor_add_disjoint a b n : 0 <= n -> 0 <= b < 2 ^ n -> Z.lor (a * 2 ^ n) b = a * 2 ^ n + b.
Proof.
  intros Hn Hb. rewrite <- Z.shiftl_mul_pow2 by lia. symmetry. 
  assert (E : Z.land (Z.shiftl a n) b = 0).
  { apply Z.bits_inj'. intros k Hk. rewrite Z.land_spec, Z.bits_0.
    destruct (Z.lt_ge_cases k n) as [L|L].
    - rewrite Z.shiftl_spec_low by lia. reflexivity.
    - rewrite <- (Z.mod_small b (2 ^ n)) by lia. rewrite Z.mod_pow2_bits_high by lia. apply andb_false_r. }
  rewrite Z.add_nocarry_lxor by exact E. symmetry.
  apply Z.bits_inj'. intros k Hk. rewrite Z.lor_spec, Z.lxor_spec.
  apply (f_equal (fun x => Z.testbit x k)) in E. rewrite Z.land_spec, Z.bits_0 in E.
  destruct (Z.testbit (Z.shiftl a n) k), (Z.testbit b k); try reflexivity; discriminate.
Qed.

Lemma octets_to_u64_step data : forall init, bytes data ->
  octets_to_u64 init data mod 2 ^ 64 = (init * 2 ^ (8 * Zlen data) + bits_to_Z (bits_of data)) mod 2 ^ 64.
Proof.
  induction data as [|d data IH]; intros init H.
  - cbn -[Z.pow]. f_equal. change (2 ^ 0) with 1. lia.
  - inversion_clear H as [|? ? Hd Hds]. unfold octets_to_u64 in *. cbn [fold_left]. rewrite IH by exact Hds.
    rewrite Z.shiftl_mul_pow2 by lia.
    replace ((init * 2 ^ 8) mod 2 ^ 64) with ((init mod 2 ^ 56) * 2 ^ 8).
    2:{ change (2 ^ 64) with (2 ^ 56 * 2 ^ 8). rewrite Z.mul_mod_distr_r by lia. reflexivity. }
    rewrite lor_add_disjoint by (unfold is_byte in Hd; lia).
    change (bits_of (d :: data)) with (be 8 d ++ bits_of data).
    rewrite bits_to_Z_app, bits_to_Z_be, Zlen_bits_of, Zlen_cons.
    change (2 ^ Z.of_nat 8) with 256. rewrite (Z.mod_small d) by exact Hd.
    rewrite Z.mul_add_distr_l, Z.pow_add_r by (pose proof (Zlen_nonneg data); lia).
    rewrite !Z.mul_add_distr_r.
    rewrite <- !Z.add_assoc. rewrite (Z.add_mod (_ * 2 ^ 8 * _)) by lia. rewrite (Z.add_mod (init * _)) by lia.
    f_equal. f_equal.
    rewrite (Z.mod_eq init (2 ^ 56)) by lia. change (2 ^ (8 * 1)) with (2 ^ 8).
    replace ((init - 2 ^ 56 * (init / 2 ^ 56)) * 2 ^ 8 * 2 ^ (8 * Zlen data))
      with (init * (2 ^ 8 * 2 ^ (8 * Zlen data)) + (- (init / 2 ^ 56) * 2 ^ (8 * Zlen data)) * 2 ^ 64)
      by (change (2 ^ 64) with (2 ^ 56 * 2 ^ 8); ring).
    apply Z.mod_add. lia.
Qed.

Lemma octets_to_u64_range data init : bytes data -> 0 <= init < 2 ^ 64 -> 0 <= octets_to_u64 init data < 2 ^ 64.
Proof.
  revert init; induction data as [|d data IH]; intros init H Hi; [exact Hi|].
  inversion_clear H as [|? ? Hd Hds]. unfold octets_to_u64 in *. cbn [fold_left]. apply IH; [exact Hds|].
  rewrite Z.shiftl_mul_pow2 by lia.
  replace ((init * 2 ^ 8) mod 2 ^ 64) with ((init mod 2 ^ 56) * 2 ^ 8).
  2:{ change (2 ^ 64) with (2 ^ 56 * 2 ^ 8). rewrite Z.mul_mod_distr_r by lia. reflexivity. }
  rewrite lor_add_disjoint by (unfold is_byte in Hd; lia).
  pose proof (Z.mod_pos_bound init (2 ^ 56)). unfold is_byte in Hd. lia.
Qed.

Lemma bits_to_Z_repeat_false n l : bits_to_Z (repeat false n ++ l) = bits_to_Z l.
Proof. induction n as [|n IH]; [reflexivity|]. cbn [repeat app]. rewrite bits_to_Z_cons, IH. cbn [Z.b2z]. lia. Qed.

Lemma right_octets_facts bs :
  bytes (right_octets bs) /\ bits_to_Z (bits_of (right_octets bs)) = bits_to_Z bs.
Proof.
  unfold right_octets. set (n := ((length bs + 7) / 8)%nat).
  assert (L : length (repeat false (8 * n - length bs) ++ bs) = (8 * n)%nat)
    by (rewrite app_length, repeat_length; unfold n; lia).
  split; [apply pack_bytes; exact L|]. rewrite pack_bits by exact L. apply bits_to_Z_repeat_false.
Qed.

Lemma octets_u64_value bs : Zlen bs <= 64 -> octets_to_u64 0 (right_octets bs) = bits_to_Z bs.
Proof.
  intros Hl. destruct (right_octets_facts bs) as [H1 H2].
  pose proof (octets_to_u64_step _ 0 H1) as S. rewrite H2 in S.
  pose proof (octets_to_u64_range _ 0 H1 ltac:(lia)) as Rg.
  pose proof (bits_to_Z_bound bs) as B.
  assert (2 ^ Zlen bs <= 2 ^ 64) by (apply Z.pow_le_mono_r; lia).
  rewrite (Z.mod_small (octets_to_u64 _ _)) in S by exact Rg. rewrite S, Z.mul_0_l, Z.add_0_l.
  apply Z.mod_small. lia.
Qed.

(** [rspec m bs rest a]: whenever exactly [bs ++ rest] is left, [m] consumes exactly [bs], reports [length bs]
    bits and yields [a]. *)
Definition rspec {A} (m : R A) (bs rest : list bool) (a : A) : Prop :=
  forall r, rwf r -> rbits r = bs ++ rest ->
  exists r', m r = Ok (r', Zlen bs, a) /\ rwf r' /\ rbits r' = rest /\ r_data r' = r_data r.

Lemma rspec_ret {A} (a : A) rest : rspec (rret a) [] rest a.
Proof. intros r Hr Hb. exists r. auto. Qed.

Lemma rspec_bind {A B} (m : R A) (f : A -> R B) x y rest a b :
  rspec m x (y ++ rest) a -> rspec (f a) y rest b -> rspec (rbind m f) (x ++ y) rest b.
Proof.
  intros Hm Hf r Hr Hb. rewrite <- app_assoc in Hb.
  destruct (Hm r Hr Hb) as (r1 & E1 & W1 & B1 & D1). destruct (Hf r1 W1 B1) as (r2 & E2 & W2 & B2 & D2).
  exists r2. unfold rbind. rewrite E1, E2. rewrite Zlen_app. split; [reflexivity|]. split; [exact W2|]. split; [exact B2|congruence].
Qed.

Lemma rspec_read_uint w size bs rest : 0 < size <= w -> w <= 64 -> Zlen bs = size ->
  rspec (read_uint w size) bs rest (bits_to_Z bs).
Proof.
  intros Hs Hw Hl r Hr Hb. unfold read_uint. replace (size =? 0) with false by lia.
  destruct (readBits_spec size r bs rest Hr Hb Hl) as (r' & E & W' & B' & D'). rewrite E.
  exists r'. split; [|auto]. rewrite octets_u64_value by lia. rewrite to_u_id; [congruence|].
  pose proof (bits_to_Z_bound bs) as B. unfold fits_u. rewrite Hl in B.
  assert (2 ^ size <= 2 ^ w) by (apply Z.pow_le_mono_r; lia). lia.
Qed.

Lemma read_uint_be w n v rest : 0 < Z.of_nat n <= w -> w <= 64 -> fits_u (Z.of_nat n) v ->
  rspec (read_uint w (Z.of_nat n)) (be n v) rest v.
Proof.
  intros Hn Hw Hv. 
  replace v with (bits_to_Z (be n v)) at 2 by (rewrite bits_to_Z_be; apply fits_u_mod; exact Hv).
  apply rspec_read_uint; try lia. apply Zlen_be.
Qed.

Lemma read_uint_fail w size r : 0 < size -> rwf r -> Zlen (rbits r) < size -> read_uint w size r = Throw RuntimeError.
Proof.
  intros Hs Hr Hl. unfold read_uint. replace (size =? 0) with false by lia. rewrite readBits_fail by assumption. reflexivity.
Qed.

Lemma right_octets_head b bs : exists d ds, right_octets (b :: bs) = d :: ds /\ is_byte d /\ bytes ds /\
   Zlen ds = Zlen bs / 8 /\
   Z.testbit d (Zlen bs mod 8) = b /\ d < 2 ^ (Zlen bs mod 8 + 1) /\
   d * 2 ^ (8 * Zlen ds) + bits_to_Z (bits_of ds) = bits_to_Z (b :: bs).
Proof.
  destruct (right_octets_facts (b :: bs)) as [H1 H2].
  unfold right_octets in *. cbn [length] in *.
  set (n := ((S (length bs) + 7) / 8)%nat) in *.
  destruct n as [|n'] eqn:En; [lia|]. cbn [pack] in *.
  set (l := repeat false (8 * S n' - S (length bs)) ++ b :: bs) in *.
  assert (Ll : length l = (8 * S n')%nat) by (unfold l; rewrite app_length, repeat_length; cbn [length]; lia).
  exists (bits_to_Z (firstn 8 l)), (pack n' (skipn 8 l)).
  inversion H1 as [|? ? Hd Hds]; subst.
  split; [reflexivity|]. split; [exact Hd|]. split; [exact Hds|].
  assert (Lds : Zlen (pack n' (skipn 8 l)) = Zlen bs / 8) by (unfold Zlen; rewrite pack_length; lia).
  split; [exact Lds|].
  change (bits_of (?x :: ?y)) with (be 8 x ++ bits_of y) in H2.
  rewrite bits_to_Z_app, bits_to_Z_be, Zlen_bits_of in H2.
  change (2 ^ Z.of_nat 8) with 256 in H2. rewrite Z.mod_small in H2 by exact Hd.
  assert (E : bits_to_Z (firstn 8 l) = Z.b2z b * 2 ^ (Zlen bs mod 8) + bits_to_Z (firstn (Z.to_nat (Zlen bs mod 8)) bs)).
  { unfold l. rewrite firstn_app. rewrite firstn_all2 by (rewrite repeat_length; lia).
    rewrite repeat_length, bits_to_Z_repeat_false.
    replace (8 - (8 * S n' - S (length bs)))%nat with (S (Z.to_nat (Zlen bs mod 8))) by (unfold Zlen; lia).
    cbn [firstn]. rewrite bits_to_Z_cons. f_equal. f_equal. f_equal. unfold Zlen at 1. rewrite firstn_length. unfold Zlen; lia. }
  pose proof (bits_to_Z_bound (firstn (Z.to_nat (Zlen bs mod 8)) bs)) as B.
  replace (Zlen (firstn (Z.to_nat (Zlen bs mod 8)) bs)) with (Zlen bs mod 8) in B by (unfold Zlen; rewrite firstn_length; lia).
  split; [|split].
  - rewrite E. apply Z.b2z_inj. rewrite Z.testbit_spec' by lia. rewrite Z.div_add_l by lia. rewrite (Z.div_small _ _ B).
    destruct b; reflexivity.
  - rewrite E. rewrite Z.pow_add_r by lia. destruct b; cbn [Z.b2z]; lia.
  - exact H2.
Qed.

Lemma sign_sweep : forallb (fun k => forallb (fun d =>
   let m := to_s 8 (Z.shiftl 1 k) in
   Bool.eqb (negb (Z.land d m =? 0)) (Z.testbit d k) &&
   implb (Z.testbit d k && (d <? 2 ^ (k + 1))) (Z.lor d (Z.lnot (m - 1)) mod 256 =? d + 256 - 2 ^ (k + 1)))
   (zseq 256)) (zseq 8) = true.
Proof. vm_compute. reflexivity. Qed.

(** Signed value of an n-bit two's complement number. *)
Definition sbits_to_Z (l : list bool) : Z :=
  match l with [] => 0 | b :: _ => bits_to_Z l - (if b then 2 ^ Zlen l else 0) end.

Lemma rspec_read_int w size bs rest : 0 < size <= w -> w <= 64 -> Zlen bs = size ->
  rspec (read_int w size) bs rest (sbits_to_Z bs).
Proof.
  intros Hs Hw Hl r Hr Hb. unfold read_int. replace (size =? 0) with false by lia.
  destruct (readBits_spec size r bs rest Hr Hb Hl) as (r' & E & W' & B' & D'). rewrite E.
  destruct bs as [|b bs]; [rewrite @Zlen_nil in Hl; lia|].
  destruct (right_octets_head b bs) as (d & ds & Ed & Hd & Hds & Lds & Ht & Hlt & Hv). rewrite Ed.
  rewrite Zlen_cons in Hl.
  replace ((size - 1) mod 8) with (Zlen bs mod 8) by (f_equal; lia).
  set (k := Zlen bs mod 8) in *.
  assert (Hk : 0 <= k < 8) by (unfold k; lia).
  pose proof sign_sweep as S. rewrite forallb_forall in S. specialize (S k (in_zseq 8 k ltac:(lia))).
  rewrite forallb_forall in S. specialize (S d (in_zseq 256 d ltac:(unfold is_byte in *; lia))).
  cbv zeta in S. apply andb_true_iff in S as [S1 S2]. apply eqb_prop in S1. rewrite S1, Ht in *.
  rewrite Zlen_cons. replace (1 + Zlen bs) with size by lia.
  eexists. split; [|split; [exact W'|split; [exact B'|exact D']]].
  f_equal. f_equal.
  unfold sbits_to_Z. rewrite Zlen_cons. replace (1 + Zlen bs) with size by lia.
  pose proof (bits_to_Z_bound (b :: bs)) as Bd. rewrite Zlen_cons in Bd. replace (1 + Zlen bs) with size in Bd by lia.
  assert (P2 : 2 ^ size = 2 * 2 ^ (size - 1)) by (apply pow2_half; lia).
  assert (Pm : 2 ^ (size - 1) <= 2 ^ (w - 1)) by (apply Z.pow_le_mono_r; lia).
  assert (Hfit : fits_s w (bits_to_Z (b :: bs) - (if b then 2 ^ size else 0))).
  { assert (Lz : Zlen bs = size - 1) by lia. clear - Lz P2 Pm. unfold fits_s. rewrite bits_to_Z_cons.
    pose proof (bits_to_Z_bound bs) as Bb. rewrite Lz in *.
    destruct b; cbn [Z.b2z]; lia. }
  rewrite <- (to_s_id w _ ltac:(lia) Hfit).
  assert (Hmod : forall x y, x mod 2 ^ 64 = y mod 2 ^ 64 -> to_s w x = to_s w y).
  { intros x y H. unfold to_s. replace (x mod 2 ^ w) with (y mod 2 ^ w); [reflexivity|].
    assert (Dv : (2 ^ w | 2 ^ 64)%Z).
    { exists (2 ^ (64 - w)). rewrite <- Z.pow_add_r by lia. f_equal; lia. }
    assert (Pw : 0 < 2 ^ w) by lia.
    rewrite (Znumtheory.Zmod_div_mod (2 ^ w) (2 ^ 64) x Pw ltac:(lia) Dv).
    rewrite (Znumtheory.Zmod_div_mod (2 ^ w) (2 ^ 64) y Pw ltac:(lia) Dv). congruence. }
  apply Hmod.
  destruct b.
  - cbn [implb andb] in S2. replace (d <? 2 ^ (k + 1)) with true in S2 by lia. cbn [implb] in S2.
    apply Z.eqb_eq in S2. rewrite S2.
    assert (Pk : 2 ^ (k + 1) <= 256) by (change 256 with (2 ^ 8); apply Z.pow_le_mono_r; lia).
    rewrite octets_to_u64_step.
    2:{ constructor; [|exact Hds]. unfold is_byte in *. lia. }
    change (bits_of (?x :: ?y)) with (be 8 x ++ bits_of y).
    rewrite bits_to_Z_app, bits_to_Z_be, Zlen_bits_of, Zlen_cons. change (2 ^ Z.of_nat 8) with 256.
    rewrite (Z.mod_small (d + 256 - _)) by (unfold is_byte in *; lia).
    rewrite <- Hv.
    assert (Ps : 2 ^ size = 2 ^ (k + 1) * 2 ^ (8 * Zlen ds)).
    { rewrite <- Z.pow_add_r by (pose proof (Zlen_nonneg ds); lia). f_equal. rewrite Lds. unfold k. lia. }
    rewrite Ps. replace (8 * (1 + Zlen ds)) with (8 + 8 * Zlen ds) by lia.
    rewrite Z.pow_add_r by (pose proof (Zlen_nonneg ds); lia). change (2 ^ 8) with 256.
    set (P := 2 ^ (8 * Zlen ds)). set (Q := 2 ^ (k + 1)).
    replace ((2 ^ 64 - 1) * (256 * P) + ((d + 256 - Q) * P + bits_to_Z (bits_of ds)))
      with (d * P + bits_to_Z (bits_of ds) - Q * P + (256 * P) * 2 ^ 64) by ring.
    apply Z.mod_add. lia.
  - rewrite <- Hv. rewrite octets_to_u64_step by (constructor; assumption).
    change (bits_of (d :: ds)) with (be 8 d ++ bits_of ds).
    rewrite bits_to_Z_app, bits_to_Z_be, Zlen_bits_of. change (2 ^ Z.of_nat 8) with 256.
    rewrite (Z.mod_small d) by exact Hd. f_equal. ring.
Qed.

Lemma sbits_to_Z_be n v : (0 < n)%nat -> fits_s (Z.of_nat n) v -> sbits_to_Z (be n v) = v.
Proof.
  destruct n as [|n]; [lia|]. intros _ Hf. rewrite <- sbits_be by exact Hf. cbn [sbits sbits_to_Z].
  change ((v <? 0) :: be n v) with (sbits (S n) v). rewrite sbits_be by exact Hf. rewrite bits_to_Z_be, Zlen_be.
  destruct Hf as [H1 H2]. rewrite (pow2_half (Z.of_nat (S n))) in * by lia.
  destruct (Z.ltb_spec v 0).
  - rewrite <- (Z.mod_add v 1) by lia. rewrite Z.mod_small by lia. lia.
  - rewrite Z.mod_small by lia. lia.
Qed.

Lemma read_int_be w n v rest : 0 < Z.of_nat n <= w -> w <= 64 -> fits_s (Z.of_nat n) v ->
  rspec (read_int w (Z.of_nat n)) (be n v) rest v.
Proof.
  intros Hn Hw Hv. rewrite <- (sbits_to_Z_be n v) at 2 by (lia || exact Hv).
  apply rspec_read_int; try lia. apply Zlen_be.
Qed.

Lemma read_int_fail w size r : 0 < size -> rwf r -> Zlen (rbits r) < size -> read_int w size r = Throw RuntimeError.
Proof.
  intros Hs Hr Hl. unfold read_int. replace (size =? 0) with false by lia. rewrite readBits_fail by assumption. reflexivity.
Qed.

Lemma read_octet8_spec b rest : is_byte b -> rspec read_octet8 (be 8 b) rest b.
Proof.
  intros Hb r Hr H. unfold read_octet8.
  destruct (readBits_spec 8 r (be 8 b) rest Hr H) as (r' & E & W' & B' & D'); [apply Zlen_be|].
  rewrite E. assert (X : right_octets (be 8 b) = [b]).
  { apply bits_of_inj.
    - apply right_octets_facts.
    - constructor; [exact Hb|constructor].
    - unfold right_octets. rewrite be_length. cbn [Nat.add Nat.div Nat.divmod fst Nat.mul Nat.sub repeat app].
      rewrite pack_bits by (rewrite be_length; reflexivity). unfold bits_of; cbn [flat_map]. rewrite app_nil_r. reflexivity. }
  rewrite X. exists r'. rewrite Zlen_be. auto.
Qed.

Lemma read_octet8_fail r : rwf r -> Zlen (rbits r) < 8 -> read_octet8 r = Throw RuntimeError.
Proof. intros Hr Hl. unfold read_octet8. rewrite readBits_fail by assumption. reflexivity. Qed.

Lemma read_bool_spec b rest : rspec read_bool [b] rest b.
Proof.
  intros r Hr H. unfold read_bool.
  destruct (readBits_spec 1 r [b] rest Hr H) as (r' & E & W' & B' & D'); [reflexivity|].
  rewrite E. destruct b; cbn; exists r'; auto.
Qed.

Lemma rspec_repeat {A} (m : R A) (g : A -> list bool) (l : list A) rest :
  (forall x rest', In x l -> rspec m (g x) rest' x) -> rspec (rrepeat (length l) m) (flat_map g l) rest l.
Proof.
  induction l as [|x l IH]; intros H; cbn [rrepeat flat_map length].
  - apply rspec_ret.
  - eapply rspec_bind; [apply H; left; reflexivity|].
    rewrite <- (app_nil_r (flat_map g l)). eapply rspec_bind.
    + apply IH. intros; apply H; right; assumption.
    + apply rspec_ret.
Qed.

Lemma read_vector_uint_spec n l rest : 0 < Z.of_nat n <= 64 -> Forall (fits_u (Z.of_nat n)) l ->
  rspec (read_vector_uint (Z.of_nat n) (length l)) (flat_map (be n) l) rest l.
Proof.
  intros Hn Hf. apply rspec_repeat. intros x rest' Hx. rewrite Forall_forall in Hf.
  apply read_uint_be; try lia. apply Hf. exact Hx.
Qed.

Lemma bytes_fits l : bytes l -> Forall (fits_u (Z.of_nat 8)) l.
Proof. intros H. eapply Forall_impl; [|exact H]. intros a Ha. exact Ha. Qed.

Lemma read_bytes_spec l rest : bytes l -> rspec (read_vector_uint 8 (length l)) (bits_of l) rest l.
Proof. intros H. apply (read_vector_uint_spec 8 l rest); [lia|]. apply bytes_fits; exact H. Qed.

Lemma read_array4_spec l rest : bytes l -> length l = 4%nat -> rspec read_array_uint8_4 (bits_of l) rest l.
Proof. intros H L. unfold read_array_uint8_4. rewrite <- L. apply (read_bytes_spec l rest H). Qed.

Lemma rspec_offset_to_end rest : rspec offset_to_end [] rest (Zlen rest / 8).
Proof.
  intros r Hr H. exists r. split; [|auto]. unfold offset_to_end. cbn [app] in H. f_equal. f_equal.
  rewrite <- H, rbits_length by exact Hr. destruct Hr as (H1 & H2 & H3). lia.
Qed.

(** Strings. *)
Lemma read_string_loop_spec s : forall fuel n m rest, bytes s -> ~ In 0 s -> (length s < fuel)%nat -> n + 8 * Zlen s < m ->
  rspec (read_string_loop fuel n m) (bits_of (s ++ [0])) rest s.
Proof.
  induction s as [|c s IH]; intros fuel n m rest Hs Hz Hf Hm.
  - destruct fuel as [|f]; [lia|]. cbn [read_string_loop app]. rewrite @Zlen_nil in Hm.
    replace (n <? m) with true by lia.
    rewrite <- (app_nil_r (bits_of [0])). eapply rspec_bind.
    + change (bits_of [0]) with (be 8 0). apply read_octet8_spec. unfold is_byte; lia.
    + apply rspec_ret.
  - destruct fuel as [|f]; [lia|]. cbn [read_string_loop app]. rewrite Zlen_cons in Hm. pose proof (Zlen_nonneg s).
    replace (n <? m) with true by lia. inversion_clear Hs as [|? ? Hc Hs'].
    change (bits_of (c :: s ++ [0])) with (be 8 c ++ bits_of (s ++ [0])).
    eapply rspec_bind; [apply read_octet8_spec; exact Hc|].
    replace (c =? 0) with false by (symmetry; apply Z.eqb_neq; intros ->; apply Hz; left; reflexivity).
    rewrite <- (app_nil_r (bits_of (s ++ [0]))). eapply rspec_bind.
    + apply IH; auto; [intros X; apply Hz; right; exact X| cbn [length] in Hf; lia |lia].
    + apply rspec_ret.
Qed.

Lemma rspec_fun {A} (m : reader -> R A) bs rest a :
  (forall r, rwf r -> rbits r = bs ++ rest -> rspec (m r) bs rest a) -> rspec (fun r => m r r) bs rest a.
Proof. intros H r Hr Hb. exact (H r Hr Hb r Hr Hb). Qed.

Lemma read_string_spec s m rest : bytes s -> ~ In 0 s -> 8 * Zlen s < m ->
  rspec (read_string m) (bits_of (s ++ [0])) rest s.
Proof.
  intros Hs Hz Hm. unfold read_string.
  apply (rspec_fun (fun r => read_string_loop (S (S (length (r_data r) - r_pos r))) 0 m)).
  intros r Hr Hb. apply read_string_loop_spec; auto; try lia.
  pose proof (rbits_length r Hr) as L. rewrite Hb, Zlen_app, Zlen_bits_of, Zlen_app in L.
  pose proof (Zlen_nonneg rest). destruct Hr as (H1 & H2 & H3). unfold Zlen in *. cbn [length] in *. lia.
Qed.

(** A string cut off by the bound (no terminator read). *)
Lemma read_string_bound_loop s : forall fuel n m rest, bytes s -> ~ In 0 s -> (length s < fuel)%nat ->
  n + 8 * Zlen s >= m -> (s <> [] -> n + 8 * Zlen s < m + 8) ->
  rspec (read_string_loop fuel n m) (bits_of s) rest s.
Proof.
  induction s as [|c s IH]; intros fuel n m rest Hs Hz Hf Hm Hm2.
  - destruct fuel as [|f]; [lia|]. cbn [read_string_loop]. rewrite @Zlen_nil in Hm.
    replace (n <? m) with false by lia. apply rspec_ret.
  - destruct fuel as [|f]; [lia|]. cbn [read_string_loop]. rewrite Zlen_cons in *. pose proof (Zlen_nonneg s).
    specialize (Hm2 ltac:(discriminate)).
    replace (n <? m) with true by lia. inversion_clear Hs as [|? ? Hc Hs'].
    change (bits_of (c :: s)) with (be 8 c ++ bits_of s).
    eapply rspec_bind; [apply read_octet8_spec; exact Hc|].
    replace (c =? 0) with false by (symmetry; apply Z.eqb_neq; intros ->; apply Hz; left; reflexivity).
    rewrite <- (app_nil_r (bits_of s)). eapply rspec_bind.
    + apply IH; auto; [intros X; apply Hz; right; exact X| cbn [length] in Hf; lia |lia|lia].
    + apply rspec_ret.
Qed.

Lemma read_string_bound_spec s m rest : bytes s -> ~ In 0 s -> m = 8 * Zlen s ->
  rspec (read_string m) (bits_of s) rest s.
Proof.
  intros Hs Hz Hm. unfold read_string.
  apply (rspec_fun (fun r => read_string_loop (S (S (length (r_data r) - r_pos r))) 0 m)).
  intros r Hr Hb. apply read_string_bound_loop; auto; try lia.
  pose proof (rbits_length r Hr) as L. rewrite Hb, Zlen_app, Zlen_bits_of in L.
  pose proof (Zlen_nonneg rest). destruct Hr as (H1 & H2 & H3). unfold Zlen in *. lia.
Qed.

Lemma rspec_octets8 l rest : bytes l -> rspec (rrepeat (length l) read_octet8) (bits_of l) rest l.
Proof.
  intros H. apply rspec_repeat. intros x rest' Hx. apply read_octet8_spec. unfold bytes in H. rewrite Forall_forall in H. auto.
Qed.

(** A Pascal string whose bound is exactly its encoded size. *)
Lemma read_pascal_string_spec s rest : bytes s -> 1 <= Zlen s <= 255 ->
  rspec (read_pascal_string (8 + 8 * Zlen s)) (bits_of (Zlen s :: s)) rest s.
Proof.
  intros Hs Hl r Hr Hb. unfold read_pascal_string. replace (8 + 8 * Zlen s <? 2 * 8) with false by lia.
  change (bits_of (Zlen s :: s)) with (be 8 (Zlen s) ++ bits_of s) in Hb. rewrite <- app_assoc in Hb.
  destruct (read_octet8_spec (Zlen s) (bits_of s ++ rest) ltac:(unfold is_byte; lia) r Hr Hb) as (r1 & E1 & W1 & B1 & D1).
  rewrite E1. replace (negb (Zlen s * 8 =? 8 + 8 * Zlen s - 8)) with false by lia.
  replace (Z.to_nat (Zlen s)) with (length s) by (unfold Zlen; lia).
  destruct (rspec_octets8 s rest Hs r1 W1 B1) as (r2 & E2 & W2 & B2 & D2).
  unfold rbind. rewrite E2. cbn [rtick rret]. exists r2. split; [|split; [exact W2|split; [exact B2|congruence]]].
  f_equal. f_equal. f_equal. rewrite !Zlen_bits_of, Zlen_cons. lia.
Qed.

(** read_pascal_string falls back to a C string when the first octet is not the exact length. *)
Lemma read_pascal_fallback s m rest : bytes s -> ~ In 0 s -> 8 * Zlen s < m -> 
  (forall c s', s = c :: s' -> c * 8 <> m - 8) ->
  Zlen (bits_of (s ++ [0]) ++ rest) mod 8 = 0 ->
  rspec (read_pascal_string m) (bits_of (s ++ [0])) rest s.
Proof.
  intros Hs Hz Hm Hc Hal r Hr Hb. unfold read_pascal_string.
  destruct (m <? 2 * 8) eqn:Em.
  - apply read_string_spec; auto.
  - assert (Hc0 : exists c t, bits_of (s ++ [0]) = be 8 c ++ bits_of t /\ is_byte c /\ c * 8 <> m - 8).
    { destruct s as [|c s'].
      - exists 0, []. split; [reflexivity|]. unfold is_byte; lia.
      - exists c, (s' ++ [0]). split; [reflexivity|]. inversion Hs; subst. split; [assumption|]. eapply Hc; reflexivity. }
    destruct Hc0 as (c & t & Ec & Bc & Nc).
    pose proof Hb as Hb0. rewrite Ec, <- app_assoc in Hb0.
    destruct (read_octet8_spec c _ Bc r Hr Hb0) as (r1 & E1 & W1 & B1 & D1). rewrite E1.
    replace (negb (c * 8 =? m - 8)) with true by lia.
    rewrite Hb in *. 
    pose proof (rbits_length r Hr) as L. rewrite Hb in L.
    assert (Hw0 : r_width r = 0) by (destruct Hr as (? & ? & ?); lia).
    pose proof (rbits_length r1 W1) as L1. rewrite B1 in L1.
    assert (Hw1 : r_width r1 = 0).
    { rewrite Ec, <- app_assoc, Zlen_app, Zlen_be in L. destruct W1 as (? & ? & ?). lia. }
    destruct (read_string_spec s m rest Hs Hz Hm (mkReader (r_data r1) (r_pos r) (r_octet r1) (r_width r1)))
      as (r2 & E2 & W2 & B2 & D2).
    + destruct Hr as (? & ? & ?). repeat split; cbn [r_width r_pos r_data]; try lia; rewrite D1; auto.
    + unfold rbits in *. cbn [r_width r_pos r_data r_octet]. rewrite Hw0 in Hb. rewrite Hw1, D1. exact Hb.
    + exists r2. split; [exact E2|]. split; [exact W2|]. split; [exact B2|]. rewrite D2. exact D1.
Qed.

(** Variable-length integers. *)
Lemma read_uvarint_loop_spec w v : 0 <= w -> 0 <= v -> forall k fuel acc rest, (k <= fuel)%nat -> (0 < k)%nat -> 
  acc * 2 ^ (7 * Z.of_nat k) + v mod 2 ^ (7 * Z.of_nat k) < 2 ^ w -> 0 <= acc ->
  rspec (read_uvarint_loop w fuel acc) (bits_of (uvarint_octets k v)) rest
        (acc * 2 ^ (7 * Z.of_nat k) + v mod 2 ^ (7 * Z.of_nat k)).
Proof.
  intros Hw Hv. induction k as [|k IH]; intros fuel acc rest Hf Hk Hlt Ha; [lia|].
  destruct fuel as [|f]; [lia|]. cbn [read_uvarint_loop uvarint_octets].
  change (bits_of (?x :: ?y)) with (be 8 x ++ bits_of y).
  set (g := (v / 2 ^ (7 * Z.of_nat k)) mod 128).
  assert (Hg : 0 <= g < 128) by (unfold g; apply Z.mod_pos_bound; lia).
  eapply rspec_bind.
  { apply read_octet8_spec. unfold is_byte. destruct (0 <? Z.of_nat k); lia. }
  assert (E127 : Z.land (g + (if 0 <? Z.of_nat k then 128 else 0)) 127 = g).
  { change 127 with (Z.ones 7). rewrite Z.land_ones by lia. change (2 ^ 7) with 128. destruct (0 <? Z.of_nat k); lia. }
  assert (E128 : (Z.land (g + (if 0 <? Z.of_nat k then 128 else 0)) 128 =? 0) = negb (0 <? Z.of_nat k)).
  { assert (Sw : forallb (fun g => (Z.land g 128 =? 0) && negb (Z.land (g + 128) 128 =? 0)) (zseq 128) = true) by (vm_compute; reflexivity).
    rewrite forallb_forall in Sw. specialize (Sw g (in_zseq 128 g ltac:(lia))). apply andb_true_iff in Sw as [S1 S2].
    destruct (0 <? Z.of_nat k); [cbn; destruct (Z.land (g + 128) 128 =? 0); [discriminate|reflexivity]|
      rewrite Z.add_0_r; rewrite S1; reflexivity]. }
  cbv zeta. rewrite E127, E128, Z.shiftl_mul_pow2 by lia. change (2 ^ 7) with 128.
  assert (P1 : 2 ^ (7 * Z.of_nat (S k)) = 128 * 2 ^ (7 * Z.of_nat k)).
  { replace (7 * Z.of_nat (S k)) with (7 + 7 * Z.of_nat k) by lia. rewrite Z.pow_add_r by lia. reflexivity. }
  assert (P2 : v mod 2 ^ (7 * Z.of_nat (S k)) = g * 2 ^ (7 * Z.of_nat k) + v mod 2 ^ (7 * Z.of_nat k)).
  { rewrite P1, (Z.mul_comm 128), Z.rem_mul_r by lia. unfold g. lia. }
  pose proof (Z.mod_pos_bound v (2 ^ (7 * Z.of_nat k)) ltac:(lia)) as Bm.
  assert (P0 : 0 < 2 ^ (7 * Z.of_nat k)) by lia.
  assert (Hbig : (acc * 128 + g) * 2 ^ (7 * Z.of_nat k) + v mod 2 ^ (7 * Z.of_nat k) < 2 ^ w).
  { rewrite P2, P1 in Hlt. nia. }
  assert (Hfit : to_u w (acc * 128 + g) = acc * 128 + g).
  { apply to_u_id. unfold fits_u. nia. }
  rewrite Hfit.
  replace (acc * 2 ^ (7 * Z.of_nat (S k)) + v mod 2 ^ (7 * Z.of_nat (S k)))
    with ((acc * 128 + g) * 2 ^ (7 * Z.of_nat k) + v mod 2 ^ (7 * Z.of_nat k)) by (rewrite P2, P1; ring).
  destruct (Nat.eq_dec k 0) as [->|Nk].
  - cbn [uvarint_octets negb]. change (0 <? Z.of_nat 0) with false. cbn [negb]. change (7 * Z.of_nat 0) with 0.
    change (2 ^ 0) with 1. rewrite Z.mod_1_r.
    replace ((acc * 128 + g) * 1 + 0) with (acc * 128 + g) by lia. apply rspec_ret.
  - replace (negb (0 <? Z.of_nat k)) with false by lia. apply IH; lia.
Qed.

Lemma read_uvarint_spec v rest : 0 <= v < 2 ^ 28 ->
  rspec (read_uvarint 32) (bits_of (uvarint_octets 4 v)) rest v.
Proof.
  intros Hv. unfold read_uvarint.
  apply (rspec_fun (fun r => read_uvarint_loop 32 (S (S (length (r_data r) - r_pos r))) 0)).
  intros r Hr Hb. 
  pose proof (read_uvarint_loop_spec 32 v ltac:(lia) ltac:(lia) 4 (S (S (length (r_data r) - r_pos r))) 0 rest) as H.
  change (7 * Z.of_nat 4) with 28 in H. rewrite Z.mod_small in H by lia. apply H; try lia.
  pose proof (rbits_length r Hr) as L. rewrite Hb, Zlen_app, Zlen_bits_of in L.
  assert (L4 : Zlen (uvarint_octets 4 v) = 4) by (unfold Zlen; rewrite uvarint_octets_length; reflexivity).
  rewrite L4 in L.
  pose proof (Zlen_nonneg rest). destruct Hr as (H1 & H2 & H3). unfold Zlen in *. lia.
Qed.

(* ------------------------------------------------------------------------------------------------------------- *)
(** * Safety: every reader either throws or consumes what it reports; never undefined behaviour *)

(** [rsafe m]: on every state, [m] throws, or returns after consuming exactly the number of bits it reports. *)
Definition rsafe {A} (m : R A) : Prop :=
  forall r, rwf r ->
  match m r with
  | Ok (r', n, _) => rwf r' /\ r_data r' = r_data r /\ exists bs, rbits r = bs ++ rbits r' /\ Zlen bs = n
  | Throw _ => True
  | UB => False
  end.

Lemma rsafe_ret {A} (a : A) : rsafe (rret a).
Proof. intros r Hr. cbn. split; [exact Hr|split; [reflexivity|]]. exists []. auto. Qed.

Lemma rsafe_throw {A} e : rsafe (@rthrow A e).
Proof. intros r Hr. exact I. Qed.

Lemma rsafe_bind {A B} (m : R A) (f : A -> R B) : rsafe m -> (forall a, rsafe (f a)) -> rsafe (rbind m f).
Proof.
  intros Hm Hf r Hr. specialize (Hm r Hr). unfold rbind. destruct (m r) as [[[r1 n1] a]|e|]; auto.
  destruct Hm as (W1 & D1 & bs & E & L). specialize (Hf a r1 W1). destruct (f a r1) as [[[r2 n2] b]|e|]; auto.
  destruct Hf as (W2 & D2 & bs2 & E2 & L2). split; [exact W2|]. split; [congruence|].
  exists (bs ++ bs2). rewrite E, E2, app_assoc, Zlen_app. split; [reflexivity|lia].
Qed.

Lemma readBits_cases size r : rwf r -> 0 <= size ->
  match readBits size r with
  | Ok (r', data) => rwf r' /\ r_data r' = r_data r /\ exists bs, rbits r = bs ++ rbits r' /\ Zlen bs = size /\ data = right_octets bs
  | Throw e => e = RuntimeError /\ Zlen (rbits r) < size
  | UB => False
  end.
Proof.
  intros Hr Hs. destruct (Z.lt_ge_cases (Zlen (rbits r)) size) as [L|L].
  - rewrite readBits_fail by assumption. auto.
  - destruct (readBits_spec size r (firstn (Z.to_nat size) (rbits r)) (skipn (Z.to_nat size) (rbits r)) Hr) as (r' & E & W' & B' & D').
    + symmetry; apply firstn_skipn.
    + unfold Zlen in *; rewrite firstn_length; lia.
    + rewrite E. split; [exact W'|]. split; [exact D'|]. eexists. split; [rewrite B'; symmetry; apply firstn_skipn|].
      split; [|reflexivity]. unfold Zlen in *; rewrite firstn_length; lia.
Qed.

Lemma rsafe_read_uint w size : 0 < size -> rsafe (read_uint w size).
Proof.
  intros Hs r Hr. unfold read_uint. replace (size =? 0) with false by lia.
  pose proof (readBits_cases size r Hr ltac:(lia)) as C. destruct (readBits size r) as [[r' d]|e|]; auto.
  destruct C as (W & D & bs & E & L & _). split; [exact W|split; [exact D|]]. exists bs; auto.
Qed.

Lemma rsafe_read_int w size : 0 < size -> rsafe (read_int w size).
Proof.
  intros Hs r Hr. unfold read_int. replace (size =? 0) with false by lia.
  pose proof (readBits_cases size r Hr ltac:(lia)) as C. destruct (readBits size r) as [[r' d]|e|]; auto.
  destruct C as (W & D & bs & E & L & _). destruct d; (split; [exact W|split; [exact D|]]; exists bs; auto).
Qed.

Lemma right_octets_nonempty bs : bs <> [] -> right_octets bs <> [].
Proof. destruct bs as [|b bs]; [congruence|]. intros _. destruct (right_octets_head b bs) as (d & ds & E & _). congruence. Qed.

Lemma rsafe_octet8 : rsafe read_octet8.
Proof.
  intros r Hr. unfold read_octet8.
  pose proof (readBits_cases 8 r Hr ltac:(lia)) as C. destruct (readBits 8 r) as [[r' d]|e|]; auto.
  destruct C as (W & D & bs & E & L & ->). destruct (right_octets bs) eqn:F.
  - apply right_octets_nonempty in F; [exact F|]. intros ->. rewrite @Zlen_nil in L. lia.
  - split; [exact W|split; [exact D|]]; exists bs; auto.
Qed.

Lemma rsafe_bool : rsafe read_bool.
Proof.
  intros r Hr. unfold read_bool.
  pose proof (readBits_cases 1 r Hr ltac:(lia)) as C. destruct (readBits 1 r) as [[r' d]|e|]; auto.
  destruct C as (W & D & bs & E & L & ->). destruct (right_octets bs) eqn:F.
  - apply right_octets_nonempty in F; [exact F|]. intros ->. rewrite @Zlen_nil in L. lia.
  - split; [exact W|split; [exact D|]]; exists bs; auto.
Qed.

Lemma rsafe_repeat {A} n (m : R A) : rsafe m -> rsafe (rrepeat n m).
Proof.
  intros H. induction n as [|n IH]; cbn [rrepeat]; [apply rsafe_ret|].
  apply rsafe_bind; [exact H|]. intros a. apply rsafe_bind; [exact IH|]. intros; apply rsafe_ret.
Qed.

Lemma rsafe_offset_to_end : rsafe offset_to_end.
Proof. intros r Hr. cbn. split; [exact Hr|split; [reflexivity|]]. exists []. auto. Qed.

(** Loops whose fuel exceeds the number of whole octets left. *)
Lemma rsafe_string_loop fuel : forall n m r, rwf r -> (length (r_data r) - r_pos r + 1 < fuel + (if (r_width r =? 0)%Z then 0 else 0))%nat ->
  match read_string_loop fuel n m r with
  | Ok (r', k, _) => rwf r' /\ r_data r' = r_data r /\ exists bs, rbits r = bs ++ rbits r' /\ Zlen bs = k
  | Throw _ => True
  | UB => False
  end.
Proof.
  induction fuel as [|f IH]; intros n m r Hr Hf; [destruct (r_width r =? 0); lia|].
  cbn [read_string_loop]. destruct (n <? m); [|apply rsafe_ret; exact Hr].
  unfold rbind at 1. pose proof (rsafe_octet8 r Hr) as S.
  destruct (read_octet8 r) as [[[r1 n1] b]|e|] eqn:E8; auto.
  assert (N1 : n1 = 8). { unfold read_octet8 in E8. destruct (readBits 8 r) as [[? [|? ?]]|?|]; congruence. }
  subst n1.
  destruct S as (W1 & D1 & bs & E & L).
  destruct (b =? 0).
  - cbn [rret]. split; [exact W1|split; [exact D1|]]. exists bs. split; [exact E|lia].
  - assert (P : (length (r_data r1) - r_pos r1 + 1 < f + 0)%nat).
    { pose proof (rbits_length r Hr) as L0. pose proof (rbits_length r1 W1) as L1.
      apply (f_equal Zlen) in E. rewrite Zlen_app in E. rewrite D1 in *. 
      destruct Hr as (? & ? & ?), W1 as (? & ? & ?). unfold Zlen in *. rewrite D1 in *. destruct (r_width r =? 0); lia. }
    specialize (IH (n + 8) m r1 W1). replace (if r_width r1 =? 0 then 0%nat else 0%nat) with 0%nat in IH by (destruct (r_width r1 =? 0); reflexivity).
    specialize (IH P). unfold rbind. destruct (read_string_loop f (n + 8) m r1) as [[[r2 n2] s]|e|]; auto.
    destruct IH as (W2 & D2 & bs2 & E2 & L2). cbn [rret]. split; [exact W2|split; [congruence|]].
    exists (bs ++ bs2). rewrite E, E2, app_assoc, Zlen_app. split; [reflexivity|lia].
Qed.

Lemma rsafe_string m : rsafe (read_string m).
Proof.
  intros r Hr. unfold read_string. apply rsafe_string_loop; [exact Hr|]. destruct (r_width r =? 0); lia.
Qed.

Lemma rsafe_uvarint_loop w fuel : forall acc r, rwf r -> (length (r_data r) - r_pos r + 1 < fuel)%nat ->
  match read_uvarint_loop w fuel acc r with
  | Ok (r', k, _) => rwf r' /\ r_data r' = r_data r /\ exists bs, rbits r = bs ++ rbits r' /\ Zlen bs = k
  | Throw _ => True
  | UB => False
  end.
Proof.
  induction fuel as [|f IH]; intros acc r Hr Hf; [lia|].
  cbn [read_uvarint_loop].
  unfold rbind at 1. pose proof (rsafe_octet8 r Hr) as S.
  destruct (read_octet8 r) as [[[r1 n1] b]|e|] eqn:E8; auto.
  assert (N1 : n1 = 8). { unfold read_octet8 in E8. destruct (readBits 8 r) as [[? [|? ?]]|?|]; congruence. }
  subst n1.
  destruct S as (W1 & D1 & bs & E & L). cbv zeta.
  destruct (Z.land b 128 =? 0).
  - cbn [rret]. split; [exact W1|split; [exact D1|]]. exists bs. split; [exact E|lia].
  - assert (P : (length (r_data r1) - r_pos r1 + 1 < f)%nat).
    { pose proof (rbits_length r Hr) as L0. pose proof (rbits_length r1 W1) as L1.
      apply (f_equal Zlen) in E. rewrite Zlen_app in E. rewrite D1 in *. 
      destruct Hr as (? & ? & ?), W1 as (? & ? & ?). unfold Zlen in *. rewrite D1 in *. lia. }
    specialize (IH (to_u w (Z.shiftl acc 7 + Z.land b 127)) r1 W1 P).
    destruct (read_uvarint_loop w f _ r1) as [[[r2 n2] s]|e|]; auto.
    destruct IH as (W2 & D2 & bs2 & E2 & L2). split; [exact W2|split; [congruence|]].
    exists (bs ++ bs2). rewrite E, E2, app_assoc, Zlen_app. split; [reflexivity|lia].
Qed.

Lemma rsafe_uvarint w : rsafe (read_uvarint w).
Proof. intros r Hr. unfold read_uvarint. apply rsafe_uvarint_loop; [exact Hr|]. lia. Qed.

Lemma rsafe_vector w n : 0 < w -> rsafe (read_vector_uint w n).
Proof. intros H. apply rsafe_repeat, rsafe_read_uint. exact H. Qed.

Lemma rsafe_array4 : rsafe read_array_uint8_4.
Proof. apply rsafe_repeat, rsafe_read_uint. lia. Qed.
