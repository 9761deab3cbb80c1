(** Facts about bit lists (proofs only). *)
From Verif Require Import Base.
From Coq Require Export ZifyBool ZifyNat.
Ltac Zify.zify_post_hook ::= Z.div_mod_to_equations.

Lemma be_length n v : length (be n v) = n.
Proof. induction n; simpl; congruence. Qed.

Lemma be_ext n v v' : (forall k, 0 <= k < Z.of_nat n -> Z.testbit v k = Z.testbit v' k) -> be n v = be n v'.
Proof.
  induction n as [|n IH]; intros H; [reflexivity|]. cbn [be]. f_equal.
  - apply H; lia.
  - apply IH; intros k Hk; apply H; lia.
Qed.

Lemma be_mod n w v : Z.of_nat n <= w -> be n (v mod 2 ^ w) = be n v.
Proof. intros H. apply be_ext; intros k Hk. apply Z.mod_pow2_bits_low; lia. Qed.

Lemma be_app n m v : be (n + m) v = be n (Z.shiftr v (Z.of_nat m)) ++ be m v.
Proof.
  induction n as [|n IH]; [reflexivity|].
  cbn [be Nat.add app]. f_equal; [|exact IH].
  rewrite Z.shiftr_spec by lia. f_equal; lia.
Qed.

Lemma land1_testbit o k : 0 <= k -> negb (Z.land (Z.shiftr o k) 1 =? 0) = Z.testbit o k.
Proof.
  intros Hk. change 1 with (Z.ones 1). rewrite Z.land_ones by lia.
  replace (Z.testbit o k) with (Z.testbit (Z.shiftr o k) 0) by (rewrite Z.shiftr_spec by lia; f_equal; lia).
  rewrite Z.bit0_odd. change (2 ^ 1) with 2. rewrite Zmod_odd.
  destruct (Z.odd (Z.shiftr o k)); reflexivity.
Qed.

Lemma bits_of_app a b : bits_of (a ++ b) = bits_of a ++ bits_of b.
Proof. apply flat_map_app. Qed.

Lemma bits_of_length l : length (bits_of l) = (8 * length l)%nat.
Proof. induction l as [|x l IH]; [reflexivity|]. unfold bits_of in *; cbn [flat_map]. rewrite app_length, be_length, IH. simpl; lia. Qed.

Lemma bits_to_Z_acc l acc :
  fold_left (fun acc b => 2 * acc + Z.b2z b) l acc = acc * 2 ^ Zlen l + bits_to_Z l.
Proof.
  unfold bits_to_Z, Zlen. revert acc. induction l as [|b l IH]; intros acc.
  - simpl. lia.
  - cbn [fold_left length]. rewrite IH, (IH (2 * 0 + Z.b2z b)).
    rewrite Nat2Z.inj_succ, Z.pow_succ_r by lia. ring.
Qed.

Lemma bits_to_Z_cons b l : bits_to_Z (b :: l) = Z.b2z b * 2 ^ Zlen l + bits_to_Z l.
Proof. unfold bits_to_Z at 1. cbn [fold_left]. rewrite bits_to_Z_acc. f_equal. Qed.

Lemma bits_to_Z_app a b : bits_to_Z (a ++ b) = bits_to_Z a * 2 ^ Zlen b + bits_to_Z b.
Proof. unfold bits_to_Z at 1. rewrite fold_left_app, bits_to_Z_acc. reflexivity. Qed.

Lemma bits_to_Z_bound l : 0 <= bits_to_Z l < 2 ^ Zlen l.
Proof.
  induction l as [|b l IH]; [cbn; lia|].
  rewrite bits_to_Z_cons. unfold Zlen in *. cbn [length]. rewrite Nat2Z.inj_succ, Z.pow_succ_r by lia.
  destruct b; cbn [Z.b2z]; lia.
Qed.

Lemma pow2_split k : 2 ^ Z.of_nat (S k) = 2 * 2 ^ Z.of_nat k.
Proof. rewrite Nat2Z.inj_succ, Z.pow_succ_r by lia. reflexivity. Qed.

Lemma bits_to_Z_be n v : bits_to_Z (be n v) = v mod 2 ^ Z.of_nat n.
Proof.
  induction n as [|n IH].
  - cbn. rewrite Z.mod_1_r. reflexivity.
  - cbn [be]. rewrite bits_to_Z_cons, IH. unfold Zlen. rewrite be_length, pow2_split.
    rewrite (Z.mul_comm 2), Z.rem_mul_r by lia.
    rewrite Z.testbit_spec' by lia. lia.
Qed.

Lemma be_bits_to_Z l : be (length l) (bits_to_Z l) = l.
Proof.
  induction l as [|b l IH]; [reflexivity|].
  cbn [length be]. f_equal.
  - pose proof (bits_to_Z_bound l) as Hb. rewrite bits_to_Z_cons.
    assert (E : Z.testbit (Z.b2z b * 2 ^ Zlen l + bits_to_Z l) (Zlen l) = b).
    { apply Z.b2z_inj. rewrite Z.testbit_spec' by (unfold Zlen; lia).
      rewrite Z.div_add_l by (unfold Zlen; lia). rewrite (Z.div_small (bits_to_Z l)) by lia.
      destruct b; reflexivity. }
    exact E.
  - transitivity (be (length l) (bits_to_Z l)); [|exact IH].
    rewrite <- (be_mod (length l) (Zlen l) (bits_to_Z (b :: l))) by (unfold Zlen; lia).
    rewrite bits_to_Z_cons. rewrite Z.add_comm, Z.mod_add by (unfold Zlen; lia).
    rewrite Z.mod_small by apply bits_to_Z_bound. reflexivity.
Qed.

Lemma be_inj n a b : 0 <= a < 2 ^ Z.of_nat n -> 0 <= b < 2 ^ Z.of_nat n -> be n a = be n b -> a = b.
Proof.
  intros Ha Hb H. apply (f_equal bits_to_Z) in H. rewrite !bits_to_Z_be in H.
  rewrite !Z.mod_small in H by lia. exact H.
Qed.

Lemma bits_of_inj a b : bytes a -> bytes b -> bits_of a = bits_of b -> a = b.
Proof.
  intros Ha; revert b. induction Ha as [|x a Hx Ha IH]; intros b Hb H.
  - apply (f_equal (@length bool)) in H. rewrite !bits_of_length in H. destruct b; [reflexivity|simpl in H; lia].
  - destruct Hb as [|y b Hy Hb]; [simpl in H; discriminate|].
    unfold bits_of in H. cbn [flat_map] in H.
    assert (E : be 8 x = be 8 y /\ bits_of a = bits_of b).
    { apply (f_equal (firstn 8)) in H as H1. apply (f_equal (skipn 8)) in H as H2.
      rewrite !firstn_app, !be_length, Nat.sub_diag, !firstn_O, !app_nil_r in H1.
      rewrite !skipn_app, !be_length, Nat.sub_diag in H2.
      rewrite !(skipn_all2 (n := 8)), !app_nil_l in H2 by (rewrite be_length; lia).
      rewrite !firstn_all2 in H1 by (rewrite be_length; lia).
      split; assumption. }
    destruct E as [E1 E2]. f_equal.
    + eapply (be_inj 8); eauto; unfold is_byte in *; cbn; lia.
    + apply IH; assumption.
Qed.

(** A list of bits whose length is a multiple of 8 is a list of octets. *)
Fixpoint pack (n : nat) (l : list bool) : list Z :=
  match n with O => [] | S n' => bits_to_Z (firstn 8 l) :: pack n' (skipn 8 l) end.

Lemma pack_bits n l : length l = (8 * n)%nat -> bits_of (pack n l) = l.
Proof.
  revert l; induction n as [|n IH]; intros l H.
  - destruct l; [reflexivity|simpl in H; lia].
  - cbn [pack bits_of flat_map]. fold (bits_of (pack n (skipn 8 l))). rewrite IH by (rewrite skipn_length; lia).
    assert (E : length (firstn 8 l) = 8%nat) by (rewrite firstn_length; lia).
    rewrite <- E at 1. rewrite be_bits_to_Z. apply firstn_skipn.
Qed.

Lemma pack_bytes n l : length l = (8 * n)%nat -> bytes (pack n l).
Proof.
  revert l; induction n as [|n IH]; intros l H; constructor.
  - unfold is_byte. pose proof (bits_to_Z_bound (firstn 8 l)) as B. unfold Zlen in B. rewrite firstn_length in B.
    replace (Nat.min 8 (length l)) with 8%nat in B by lia. exact B.
  - apply IH. rewrite skipn_length; lia.
Qed.

Lemma pack_length n l : length (pack n l) = n.
Proof. revert l; induction n; intros; simpl; auto. Qed.

Lemma fits_u_mod w v : fits_u w v -> v mod 2 ^ w = v.
Proof. intros H. apply Z.mod_small. exact H. Qed.

Lemma to_u_id w v : fits_u w v -> to_u w v = v.
Proof. apply fits_u_mod. Qed.

Lemma to_u_range w v : 0 <= w -> fits_u w (to_u w v).
Proof. intros; unfold fits_u, to_u. apply Z.mod_pos_bound. lia. Qed.

Lemma to_s_mod w v : 0 < w -> to_s w v mod 2 ^ w = v mod 2 ^ w.
Proof.
  intros Hw. unfold to_s.
  destruct (_ <? _).
  - apply Z.mod_mod. lia.
  - rewrite <- (Z.mod_mod v (2 ^ w)) at 2 by lia.
    replace (v mod 2 ^ w - 2 ^ w) with (v mod 2 ^ w + (-1) * 2 ^ w) by ring.
    apply Z.mod_add. lia.
Qed.

Lemma pow2_half w : 0 < w -> 2 ^ w = 2 * 2 ^ (w - 1).
Proof. intros. rewrite <- Z.pow_succ_r by lia. f_equal; lia. Qed.

Lemma to_s_range w v : 0 < w -> fits_s w (to_s w v).
Proof.
  intros Hw. unfold fits_s, to_s. pose proof (Z.mod_pos_bound v (2 ^ w) ltac:(lia)) as B.
  rewrite (pow2_half w) in * by lia. destruct (_ <? _) eqn:E; lia.
Qed.

Lemma to_s_id w v : 0 < w -> fits_s w v -> to_s w v = v.
Proof.
  intros Hw [H1 H2]. unfold to_s. pose proof (pow2_half w Hw) as P.
  destruct (Z.ltb_spec (v mod 2 ^ w) (2 ^ (w - 1))) as [L|L]; destruct (Z.le_gt_cases 0 v) as [C|C].
  - rewrite Z.mod_small in *; lia.
  - exfalso. rewrite <- (Z.mod_add v 1) in L by lia. rewrite Z.mod_small in L; lia.
  - rewrite Z.mod_small in *; lia.
  - rewrite <- (Z.mod_add v 1) by lia. rewrite Z.mod_small; lia.
Qed.
