(** Proofs about headers, streams, layout and serialisation of box trees (C08, C14-C17). *)
From Verif Require Import Base BitIO BitFacts BitIOProofs Boxes WireFormat BoxTac BoxWrite BoxRead Box BoxSpec BoxIO BoxSize
  BoxTree TreeSpec.

(** * Octets *)
Lemma bits8 (b0 b1 b2 b3 b4 b5 b6 b7 : bool) : let l := [b0; b1; b2; b3; b4; b5; b6; b7] in
  be 8 (bits_to_Z l) = l /\ is_byte (bits_to_Z l).
Proof.
  cbv zeta. split; [apply (be_bits_to_Z [b0; b1; b2; b3; b4; b5; b6; b7])|].
  pose proof (bits_to_Z_bound [b0; b1; b2; b3; b4; b5; b6; b7]) as B. exact B.
Qed.
Lemma octets_fuel_bits n : forall fuel bs, length bs = (8 * n)%nat -> (length bs <= fuel)%nat ->
  bits_of (octets_fuel fuel bs) = bs /\ bytes (octets_fuel fuel bs) /\ length (octets_fuel fuel bs) = n.
Proof.
  induction n as [|n IH]; intros fuel bs L F.
  - destruct bs; [|cbn in L; lia]. destruct fuel; cbn; repeat split; constructor.
  - do 8 (destruct bs as [|? bs]; [cbn in L; lia|]). destruct fuel as [|fuel]; [cbn in F; lia|].
    cbn [octets_fuel]. destruct (IH fuel bs) as (A & B & C); [cbn in L; lia|cbn in F; lia|].
    match goal with |- context[bits_to_Z [?a; ?b; ?c; ?d; ?e; ?f; ?g; ?h]] => destruct (bits8 a b c d e f g h) as (P & Q) end.
    unfold bits_of in *. cbn [flat_map]. rewrite A, P. split; [reflexivity|]. split; [constructor; assumption|cbn; congruence].
Qed.
Lemma octets_bits bs : Zlen bs mod 8 = 0 -> bits_of (octets bs) = bs /\ bytes (octets bs) /\ Zlen (octets bs) = Zlen bs / 8.
Proof.
  intros H. destruct (octets_fuel_bits (Z.to_nat (Zlen bs / 8)) (length bs) bs) as (A & B & C); [unfold Zlen in *; lia|lia|].
  split; [exact A|]. split; [exact B|]. unfold octets. unfold Zlen in *. rewrite C. lia.
Qed.
Lemma octets_of_bits l : bytes l -> octets (bits_of l) = l.
Proof.
  intros H. destruct (octets_bits (bits_of l)) as (A & B & C); [rewrite Zlen_bits_of; lia|].
  apply bits_of_inj; assumption.
Qed.

(** Octets sent by a Writer that wrote whole octets. *)
Lemma w_os_octets w bs : wwf w -> wbits w = bs -> Zlen bs mod 8 = 0 -> w_os w = octets bs /\ w_width w = 0.
Proof.
  intros (H1 & H2 & H3 & H4) E H. unfold wbits in E.
  assert (W0 : w_width w = 0).
  { apply (f_equal Zlen) in E. rewrite Zlen_app, Zlen_bits_of in E. unfold Zlen in *. rewrite firstn_length, be_length in E. lia. }
  split; [|exact W0]. rewrite W0 in E. cbn [Z.to_nat firstn] in E. rewrite app_nil_r in E. subst bs. symmetry. apply octets_of_bits. exact H4.
Qed.

(** * Big-endian integers *)
Lemma land255 v : Z.land v 255 = v mod 256.
Proof. change 255 with (Z.ones 8). rewrite Z.land_ones by lia. reflexivity. Qed.
Lemma uint32_to_be_octets v : uint32_to_be v = be_octets 4 v.
Proof.
  unfold uint32_to_be, be_octets. cbn [seq rev app map]. rewrite !land255, !Z.shiftr_div_pow2 by lia.
  repeat (f_equal; try reflexivity). change (256 ^ Z.of_nat 0) with 1. rewrite Z.div_1_r. reflexivity.
Qed.
Lemma uint64_to_be_octets v : uint64_to_be v = be_octets 8 v.
Proof.
  unfold uint64_to_be, be_octets. cbn [seq rev app map]. rewrite !land255, !Z.shiftr_div_pow2 by lia.
  repeat (f_equal; try reflexivity). change (256 ^ Z.of_nat 0) with 1. rewrite Z.div_1_r. reflexivity.
Qed.
Lemma be_octets_S n v : be_octets (S n) v = ((v / 256 ^ Z.of_nat n) mod 256) :: be_octets n v.
Proof. unfold be_octets. rewrite seq_S, rev_app_distr. cbn [rev app map]. rewrite Nat.add_0_l. reflexivity. Qed.
Lemma be_octets_length n v : length (be_octets n v) = n.
Proof. unfold be_octets. rewrite map_length, rev_length, seq_length. reflexivity. Qed.
Lemma be_octets_bytes n v : bytes (be_octets n v).
Proof. unfold be_octets, bytes. apply Forall_map, Forall_forall. intros k _. unfold is_byte. apply Z.mod_pos_bound. lia. Qed.
Lemma be_value_acc l acc : fold_left (fun acc b => 256 * acc + b) l acc = acc * 256 ^ Zlen l + be_value l.
Proof.
  revert acc. unfold be_value. induction l as [|b l IH]; intros acc; [cbn; lia|].
  cbn [fold_left]. rewrite IH, (IH (256 * 0 + b)), Zlen_cons, Z.pow_add_r; try lia. unfold Zlen; lia.
Qed.
Lemma be_value_cons b l : be_value (b :: l) = b * 256 ^ Zlen l + be_value l.
Proof. unfold be_value at 1. cbn [fold_left]. rewrite be_value_acc. f_equal. Qed.
Lemma be_value_be_octets n v : 0 <= v -> be_value (be_octets n v) = v mod 256 ^ Z.of_nat n.
Proof.
  intros Hv. induction n as [|n IH]; [cbn; rewrite Z.mod_1_r; reflexivity|].
  rewrite be_octets_S, be_value_cons, IH. unfold Zlen. rewrite be_octets_length.
  rewrite Nat2Z.inj_succ, Z.pow_succ_r by lia. set (p := 256 ^ Z.of_nat n).
  assert (0 < p) by (apply Z.pow_pos_nonneg; lia). rewrite (Z.mul_comm 256 p), Z.rem_mul_r by lia. lia.
Qed.
Lemma be_octets_be_value l : bytes l -> be_octets (length l) (be_value l) = l /\ 0 <= be_value l < 256 ^ Zlen l.
Proof.
  induction 1 as [|b l Hb Hl IH]; [cbn; repeat split; lia|]. destruct IH as [IH1 IH2].
  rewrite be_value_cons, Zlen_cons, Z.pow_add_r by (unfold Zlen; lia). cbn [length]. rewrite be_octets_S.
  assert (P : 0 < 256 ^ Zlen l) by (apply Z.pow_pos_nonneg; [lia|unfold Zlen; lia]). fold (Zlen l).
  unfold is_byte in Hb. split; [|nia]. f_equal.
  - rewrite Z.div_add_l, (Z.div_small (be_value l)), Z.add_0_r, Z.mod_small by lia. reflexivity.
  - transitivity (be_octets (length l) (be_value l)); [|exact IH1]. unfold be_octets. apply map_ext_in. intros k Hk. apply in_rev, in_seq in Hk.
    replace (b * 256 ^ Zlen l) with (b * 256 ^ (Zlen l - Z.of_nat k - 1) * 256 * 256 ^ Z.of_nat k).
    + rewrite Z.div_add_l by (apply Z.pow_nonzero; lia). rewrite Z.add_comm, Z.mod_add by lia. reflexivity.
    + replace (Zlen l) with ((Zlen l - Z.of_nat k - 1) + 1 + Z.of_nat k) at 2 by lia.
      rewrite !Z.pow_add_r by (unfold Zlen; lia). change (256 ^ 1) with 256. ring.
Qed.
Lemma be_to_uint32_value a b c d : is_byte a -> is_byte b -> is_byte c -> is_byte d -> be_to_uint32 a b c d = be_value [a; b; c; d].
Proof.
  unfold is_byte, be_to_uint32, be_value. intros. cbn [fold_left]. rewrite !Z.shiftl_mul_pow2 by lia. rewrite Z.mod_small; lia.
Qed.
Lemma be_to_uint64_value a b c d e f g h : is_byte a -> is_byte b -> is_byte c -> is_byte d -> is_byte e -> is_byte f -> is_byte g -> is_byte h ->
  be_to_uint64 a b c d e f g h = be_value [a; b; c; d; e; f; g; h].
Proof.
  unfold is_byte, be_to_uint64, be_value. intros. cbn [fold_left]. rewrite !Z.shiftl_mul_pow2 by lia. rewrite Z.mod_small; lia.
Qed.
Lemma be_octets_value n v : 0 <= v < 256 ^ Z.of_nat n -> be_value (be_octets n v) = v.
Proof. intros H. rewrite be_value_be_octets by lia. apply Z.mod_small. exact H. Qed.

(** * Files *)
Lemma firstn_exact {A} (a b : list A) n : length a = n -> firstn n (a ++ b) = a.
Proof. intros <-. rewrite firstn_app, firstn_all, Nat.sub_diag, firstn_O. apply app_nil_r. Qed.
Lemma skipn_exact {A} (a b : list A) n : length a = n -> skipn n (a ++ b) = b.
Proof. intros <-. rewrite skipn_app, skipn_all, Nat.sub_diag. reflexivity. Qed.
Lemma skipn_skipn {A} (l : list A) : forall a b, skipn a (skipn b l) = skipn (b + a) l.
Proof. induction l as [|x l IH]; intros a b; [rewrite !skipn_nil; reflexivity|]. destruct b; [reflexivity|]. cbn [skipn Nat.add]. apply IH. Qed.
Lemma nth_error_firstn {A} (l : list A) : forall n i, (i < n)%nat -> nth_error (firstn n l) i = nth_error l i.
Proof. induction l as [|x l IH]; intros n i H; [rewrite firstn_nil; reflexivity|]. destruct n; [lia|]. destruct i; [reflexivity|]. cbn. apply IH. lia. Qed.
Lemma nth_error_skipn {A} (l : list A) : forall n i, nth_error (skipn n l) i = nth_error l (n + i).
Proof. induction l as [|x l IH]; intros n i; [rewrite skipn_nil; destruct i, n; reflexivity|]. destruct n; [reflexivity|]. cbn. apply IH. Qed.
Lemma splice_at (a c b : list Z) p : Zlen a = p -> splice (a ++ c) p b = a ++ b ++ skipn (length b) c.
Proof.
  intros H. unfold Zlen in H. unfold splice. destruct b as [|x b]; [reflexivity|].
  replace (Z.to_nat p - length (a ++ c))%nat with 0%nat by (rewrite app_length; lia). cbn [repeat]. rewrite app_nil_r.
  rewrite firstn_exact by lia. f_equal. f_equal. rewrite skipn_app. replace (length a) with (Z.to_nat p) by lia.
  rewrite skipn_all2 by lia. cbn [app]. f_equal. lia.
Qed.
Lemma splice_form l p b : b <> [] -> 0 <= p -> exists a, Zlen a = p /\ splice l p b = a ++ b ++ skipn (Z.to_nat p + length b) l.
Proof.
  intros Hb Hp. unfold splice. destruct b as [|x b]; [congruence|]. eexists. split; [|reflexivity].
  unfold Zlen. rewrite firstn_length, app_length, repeat_length. lia.
Qed.
Lemma splice_app l p a b : 0 <= p -> a <> [] -> splice (splice l p a) (p + Zlen a) b = splice l p (a ++ b).
Proof.
  intros Hp Ha. unfold splice at 2. destruct a as [|x a]; [congruence|]. set (u := x :: a) in *.
  set (pre := firstn (Z.to_nat p) (l ++ repeat 0 (Z.to_nat p - length l))).
  assert (Lp : Zlen pre = p). { unfold pre, Zlen. rewrite firstn_length, app_length, repeat_length. lia. }
  rewrite app_assoc, splice_at by (rewrite Zlen_app; lia).
  transitivity (pre ++ (u ++ b) ++ skipn (Z.to_nat p + length (u ++ b)) l); [|reflexivity].
  rewrite <- !app_assoc. f_equal. f_equal. f_equal. rewrite skipn_skipn, app_length. f_equal. lia.
Qed.
Lemma splice_nil l p : splice l p [] = l. Proof. reflexivity. Qed.
Lemma splice_length l p b : 0 <= p -> b <> [] -> Zlen (splice l p b) = Z.max (Zlen l) (p + Zlen b).
Proof.
  intros Hp Hb. destruct (splice_form l p b Hb Hp) as (a & La & ->). rewrite !Zlen_app, La. unfold Zlen. rewrite skipn_length. lia.
Qed.
(** What was written is there, and the rest of the file is untouched. *)
Lemma splice_inside l p b : 0 <= p -> firstn (length b) (skipn (Z.to_nat p) (splice l p b)) = b.
Proof.
  intros Hp. destruct b as [|x b]; [reflexivity|]. destruct (splice_form l p (x :: b)) as (a & La & ->); [congruence|exact Hp|].
  rewrite skipn_exact by (unfold Zlen in La; lia). apply firstn_exact. reflexivity.
Qed.
Lemma splice_outside l p b i : 0 <= p -> (i < length l)%nat -> (Z.of_nat i < p \/ p + Zlen b <= Z.of_nat i) ->
  nth_error (splice l p b) i = nth_error l i.
Proof.
  intros Hp Hi H. unfold splice. destruct b as [|x b]; [reflexivity|]. set (u := x :: b) in *.
  set (pre := firstn (Z.to_nat p) (l ++ repeat 0 (Z.to_nat p - length l))).
  assert (Lp : length pre = Z.to_nat p). { unfold pre. rewrite firstn_length, app_length, repeat_length. lia. }
  destruct H as [H|H].
  - rewrite nth_error_app1 by lia. unfold pre. rewrite nth_error_firstn by lia. apply nth_error_app1. lia.
  - unfold Zlen in H. rewrite nth_error_app2 by lia. rewrite nth_error_app2 by lia.
    rewrite nth_error_skipn, Lp. f_equal. lia.
Qed.
