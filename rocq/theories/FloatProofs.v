(** Proofs about Float.v. *)
From Verif Require Import Base BitSpec Boxes WireFormat Float.
From Flocq Require Import Core IEEE754.BinarySingleNaN Relative.
From Coq Require Import Reals Lra Lia.
Open Scope R_scope.

Lemma fin_lt_emax : forall prec emax x, FLX.Prec_gt_0 prec -> Prec_lt_emax prec emax -> (0 < prec)%Z -> Rabs x <= bpow radix2 (emax - 1) ->
  Rabs (round radix2 (SpecFloat.fexp prec emax) ZnearestE x) < bpow radix2 emax.
Proof.
  intros prec emax x P1 P2 P3 H. apply Rle_lt_trans with (bpow radix2 (emax - 1)).
  - apply abs_round_le_generic; [apply (fexp_correct prec emax); assumption|apply valid_rnd_N| |exact H].
    apply generic_format_bpow. unfold SpecFloat.fexp, SpecFloat.emin. unfold Prec_lt_emax in P2. apply Z.max_lub; lia.
  - apply bpow_lt. lia.
Qed.

Lemma of_int_exact : forall prec emax (P1 : FLX.Prec_gt_0 prec) (P2 : Prec_lt_emax prec emax) z, (Z.abs z <= 2 ^ prec)%Z -> (prec + 3 <= emax)%Z ->
  B2R (binary_normalize prec emax P1 P2 mode_NE z 0 false) = IZR z /\ is_finite (binary_normalize prec emax P1 P2 mode_NE z 0 false) = true.
Proof.
  intros prec emax P1 P2 z Hz He. pose proof (binary_normalize_correct prec emax P1 P2 mode_NE z 0 false) as H. cbv zeta in H.
  assert (P3 : (0 < prec)%Z) by exact P1.
  assert (F : F2R (Float radix2 z 0) = IZR z) by (unfold F2R; cbn [Fnum Fexp bpow]; lra).
  rewrite F in H. change (round_mode mode_NE) with ZnearestE in H.
  assert (G : generic_format radix2 (SpecFloat.fexp prec emax) (IZR z)).
  { destruct (Z.eq_dec (Z.abs z) (2 ^ prec)) as [E|N].
    - assert (A : generic_format radix2 (SpecFloat.fexp prec emax) (bpow radix2 prec)).
      { apply generic_format_bpow. unfold SpecFloat.fexp, SpecFloat.emin. unfold Prec_lt_emax in P2. apply Z.max_lub; lia. }
      assert (B : bpow radix2 prec = IZR (2 ^ prec)) by (rewrite <- IZR_Zpower by lia; reflexivity).
      destruct (Z.abs_spec z) as [[_ X]|[_ X]].
      + rewrite X in E. rewrite E, <- B. exact A.
      + replace z with (- (2 ^ prec))%Z by lia. rewrite opp_IZR, <- B. apply generic_format_opp, A.
    - change (SpecFloat.fexp prec emax) with (FLT_exp (SpecFloat.emin prec emax) prec). apply generic_format_FLT. exists (Float radix2 z 0); [symmetry; exact F| |].
      + cbn [Fnum]. change (radix_val radix2) with 2%Z. lia.
      + cbn [Fexp]. unfold SpecFloat.emin. unfold Prec_lt_emax in P2. lia. }
  rewrite (round_generic radix2 _ _ _ G) in H. rewrite Rlt_bool_true in H.
  - tauto.
  - rewrite <- abs_IZR. apply Rle_lt_trans with (IZR (2 ^ prec)); [apply IZR_le; exact Hz|].
    change 2%Z with (radix_val radix2). rewrite IZR_Zpower by lia. apply bpow_lt. lia.
Qed.

(** Conversion of an unsigned 32-bit integer to float *)
Lemma f32_of_u32 : forall t, (0 <= t < 2 ^ 32)%Z -> is_finite (f32_of_int t) = true /\
  exists e, Rabs e <= / 16777216 /\ B2R (f32_of_int t) = IZR t * (1 + e).
Proof.
  intros t Ht. unfold f32_of_int. pose proof (binary_normalize_correct 24 128 prec24 emax128 mode_NE t 0 false) as H. cbv zeta in H.
  assert (F : F2R (Float radix2 t 0) = IZR t) by (unfold F2R; cbn [Fnum Fexp bpow]; lra).
  rewrite F in H. change (round_mode mode_NE) with ZnearestE in H.
  assert (B : IZR t <= bpow radix2 32) by (change (bpow radix2 32) with (IZR (2 ^ 32)); apply IZR_le; lia).
  assert (A : Rabs (round radix2 (SpecFloat.fexp 24 128) ZnearestE (IZR t)) < bpow radix2 128).
  { apply fin_lt_emax; [exact prec24|exact emax128|reflexivity|]. rewrite Rabs_pos_eq by (apply IZR_le; lia). apply Rle_trans with (1 := B). apply bpow_le. lia. }
  rewrite Rlt_bool_true in H by exact A. destruct H as (H1 & H2 & _). split; [exact H2|]. rewrite H1.
  destruct (Z.eq_dec t 0) as [->|N].
  - exists 0. rewrite round_0 by apply valid_rnd_N. rewrite Rabs_R0. split; lra.
  - destruct (relative_error_N_FLT_ex radix2 (-149) 24 prec24 (fun x => negb (Z.even x)) (IZR t)) as (e & E1 & E2).
    + apply Rle_trans with 1; [change 1 with (bpow radix2 0); apply bpow_le; lia|]. rewrite <- abs_IZR. apply IZR_le. lia.
    + exists e. split; [|exact E2]. apply Rle_trans with (1 := E1). change (bpow radix2 (- (24) + 1)) with (/ 8388608). lra.
Qed.

(** Truncation *)
Lemma trunc_spec : forall x : f32, Btrunc x = Ztrunc (B2R x).
Proof.
  intros x. apply eq_IZR. rewrite Btrunc_correct. unfold round, F2R, scaled_mantissa, cexp, FIX_exp. cbn [Fnum Fexp bpow Z.opp]. rewrite !Rmult_1_r. reflexivity.
  exact emax128.
Qed.

(** The product of a timescale and a finite duration *)
Lemma product_spec : forall t (d : f32), (0 <= t < 2 ^ 32)%Z -> is_finite d = true -> 0 <= B2R d -> IZR t * B2R d <= 36893488147419103232 ->
  let p := Bmult mode_NE (f32_of_int t) d in
  is_finite p = true /\ 0 <= B2R p /\
  ((B2R p < 1 /\ IZR t * B2R d < 1 + / 4194304) \/
   (IZR t * B2R d * (1 - / 4194304) <= B2R p <= IZR t * B2R d * (1 + / 4194304))).
Proof.
  intros t d Ht Fd Hd Hb. cbv zeta. destruct (f32_of_u32 t Ht) as (Ft & e & He & Et).
  pose proof (Bmult_correct 24 128 prec24 emax128 mode_NE (f32_of_int t) d) as H. change (round_mode mode_NE) with ZnearestE in H.
  set (q := B2R (f32_of_int t) * B2R d) in *.
  assert (T0 : 0 <= IZR t) by (apply IZR_le; lia).
  apply Rabs_le_inv in He. 
  assert (T1 : 0 <= IZR t * B2R d) by (apply Rmult_le_pos; assumption).
  assert (Q : q = IZR t * B2R d * (1 + e)) by (unfold q; rewrite Et; ring).
  assert (Q0 : 0 <= q) by (rewrite Q; apply Rmult_le_pos; lra).
  assert (Q1 : q <= 2 * 36893488147419103232) by (rewrite Q; nra).
  assert (A : Rabs (round radix2 (SpecFloat.fexp 24 128) ZnearestE q) < bpow radix2 128).
  { apply fin_lt_emax; [exact prec24|exact emax128|reflexivity|]. rewrite Rabs_pos_eq by exact Q0. apply Rle_trans with (1 := Q1).
    apply Rle_trans with (bpow radix2 66); [|apply bpow_le; lia]. change (bpow radix2 66) with 73786976294838206464. lra. }
  rewrite Rlt_bool_true in H by exact A. destruct H as (H1 & H2 & _). rewrite Ft, Fd in H2. split; [exact H2|]. rewrite H1.
  assert (R0 : 0 <= round radix2 (SpecFloat.fexp 24 128) ZnearestE q).
  { rewrite <- (round_0 radix2 (SpecFloat.fexp 24 128) ZnearestE) at 1. apply round_le; [apply (fexp_correct 24 128); exact prec24|apply valid_rnd_N|exact Q0]. }
  split; [exact R0|]. destruct (Rlt_or_le q (bpow radix2 (-149 + 24 - 1))) as [S|S].
  - left. split.
    + apply Rle_lt_trans with (bpow radix2 (-149 + 24 - 1)).
      * apply round_le_generic; [apply (fexp_correct 24 128); exact prec24|apply valid_rnd_N| |lra]. apply generic_format_bpow. vm_compute. discriminate.
      * change 1 with (bpow radix2 0). apply bpow_lt. lia.
    + assert (X : q < 1) by (apply Rlt_trans with (1 := S); change 1 with (bpow radix2 0); apply bpow_lt; lia). rewrite Q in X.
      destruct (Rlt_or_le (IZR t * B2R d) (1 + / 4194304)) as [Y|Y]; [exact Y|exfalso].
      assert (Z1 : (1 + / 4194304) * (1 - / 16777216) <= IZR t * B2R d * (1 + e)) by (apply Rmult_le_compat; lra). lra.
  - right. destruct (relative_error_N_FLT_ex radix2 (-149) 24 prec24 (fun x => negb (Z.even x)) q) as (f & E1 & E2).
    { rewrite Rabs_pos_eq by exact Q0. exact S. }
    change (SpecFloat.fexp 24 128) with (FLT_exp (-149) 24). rewrite E2. change (bpow radix2 (- (24) + 1)) with (/ 8388608) in E1.
    assert (E1' : Rabs f <= / 16777216) by (apply Rle_trans with (1 := E1); lra). apply Rabs_le_inv in E1'. rewrite Q. revert T1. generalize (IZR t * B2R d). intros x T1. rewrite Rmult_assoc.
    assert (L : (1 - / 16777216) * (1 - / 16777216) <= (1 + e) * (1 + f)) by (apply Rmult_le_compat; lra).
    assert (U : (1 + e) * (1 + f) <= (1 + / 16777216) * (1 + / 16777216)) by (apply Rmult_le_compat; lra).
    split; apply Rmult_le_compat_l; lra.
Qed.

Lemma trunc_pos : forall x, 0 <= x -> IZR (Ztrunc x) <= x < IZR (Ztrunc x) + 1 /\ (0 <= Ztrunc x)%Z.
Proof.
  intros x H. rewrite Ztrunc_floor by exact H. split; [split; [apply Zfloor_lb|apply Zfloor_ub]|]. apply Zfloor_lub. exact H.
Qed.

Lemma duration_close : forall t (d : f32), (0 <= t < 2 ^ 32)%Z -> is_finite d = true -> 0 <= B2R d -> IZR t * B2R d * (1 + / 4194304) < 18446744073709551616 ->
  exists v, duration_in t d = Ok v /\ (0 <= v < 2 ^ 64)%Z /\ IZR t * B2R d * (1 - / 4194304) - 1 < IZR v <= IZR t * B2R d * (1 + / 4194304).
Proof.
  intros t d Ht Fd Hd Hb.
  assert (T0 : 0 <= IZR t) by (apply IZR_le; lia).
  assert (T1 : 0 <= IZR t * B2R d) by (apply Rmult_le_pos; assumption).
  destruct (product_spec t d Ht Fd Hd ltac:(lra)) as (P1 & P2 & P3). cbv zeta in *.
  unfold duration_in, u64_of_f32. rewrite P1. rewrite trunc_spec. revert P2 P3. generalize (B2R (Bmult mode_NE (f32_of_int t) d)). intros p P2 P3.
  destruct (trunc_pos p P2) as (A & B).
  assert (C : IZR (Ztrunc p) < 18446744073709551616) by (destruct P3; lra). apply lt_IZR in C.
  exists (Ztrunc p). assert (D : ((0 <=? Ztrunc p) && (Ztrunc p <? 2 ^ 64))%Z = true) by lia. rewrite D. split; [reflexivity|]. split; [lia|].
  destruct P3 as [[P3 P4]|P3].
  - assert (E : Ztrunc p = 0%Z) by (assert (Ztrunc p < 1)%Z by (apply lt_IZR; lra); lia). rewrite E. split; [|lra].
    assert (IZR t * B2R d * (1 - / 4194304) < (1 + / 4194304) * (1 - / 4194304)) by (apply Rmult_lt_compat_r; lra). lra.
  - lra.
Qed.

Lemma duration_not_finite : forall t (d : f32), is_finite d = false -> duration_in t d = UB.
Proof.
  intros t d H. unfold duration_in, u64_of_f32. replace (is_finite (Bmult mode_NE (f32_of_int t) d)) with false; [reflexivity|]. symmetry.
  pose proof (Bmult_correct 24 128 prec24 emax128 mode_NE (f32_of_int t) d) as M.
  assert (Z0 : B2R d = 0) by (destruct d; try reflexivity; discriminate H). rewrite Z0, Rmult_0_r, round_0, Rabs_R0 in M by apply valid_rnd_N.
  rewrite Rlt_bool_true in M by apply bpow_gt_0. destruct M as (_ & M & _). rewrite M, H. apply Bool.andb_false_r.
Qed.

(** The product, whatever the duration: either infinite, or the rounded product *)
Lemma product_cases : forall t (d : f32), (0 <= t < 2 ^ 32)%Z -> is_finite d = true ->
  let p := Bmult mode_NE (f32_of_int t) d in
  let q := B2R (f32_of_int t) * B2R d in
  is_finite p = false \/ (is_finite p = true /\ B2R p = round radix2 (FLT_exp (-149) 24) ZnearestE q).
Proof.
  intros t d Ht Fd. cbv zeta. destruct (f32_of_u32 t Ht) as (Ft & _).
  pose proof (Bmult_correct 24 128 prec24 emax128 mode_NE (f32_of_int t) d) as H. change (round_mode mode_NE) with ZnearestE in H.
  destruct (Rlt_bool (Rabs (round radix2 (SpecFloat.fexp 24 128) ZnearestE (B2R (f32_of_int t) * B2R d))) (bpow radix2 128)).
  - right. destruct H as (H1 & H2 & _). rewrite Ft, Fd in H2. split; [exact H2|exact H1].
  - left. rewrite <- is_finite_SF_B2SF, H. reflexivity.
Qed.

Lemma product_large : forall t (d : f32), (0 <= t < 2 ^ 32)%Z -> is_finite d = true -> 1 <= Rabs (IZR t * B2R d) * (1 - / 4194304) ->
  let p := Bmult mode_NE (f32_of_int t) d in
  is_finite p = false \/ (is_finite p = true /\ exists e, - / 4194304 <= e <= / 4194304 /\ B2R p = IZR t * B2R d * (1 + e)).
Proof.
  intros t d Ht Fd Hb. cbv zeta. destruct (product_cases t d Ht Fd) as [P|(P1 & P2)]; [left; exact P|right]. split; [exact P1|]. cbv zeta in P2.
  destruct (f32_of_u32 t Ht) as (_ & e & He & Et). rewrite Et in P2. apply Rabs_le_inv in He.
  destruct (relative_error_N_FLT_ex radix2 (-149) 24 prec24 (fun x => negb (Z.even x)) (IZR t * (1 + e) * B2R d)) as (f & E1 & E2).
  { apply Rle_trans with (/ 2). { apply Rle_trans with (bpow radix2 (-1)); [apply bpow_le; lia|]. change (bpow radix2 (-1)) with (/ 2). lra. }
    replace (IZR t * (1 + e) * B2R d) with (IZR t * B2R d * (1 + e)) by ring. rewrite Rabs_mult, (Rabs_pos_eq (1 + e)) by lra.
    apply Rle_trans with (1 * / 2); [lra|]. apply Rmult_le_compat; lra. }
  change (bpow radix2 (- (24) + 1)) with (/ 8388608) in E1.
  assert (E1' : Rabs f <= / 16777216) by (apply Rle_trans with (1 := E1); lra). apply Rabs_le_inv in E1'.
  exists ((1 + e) * (1 + f) - 1). rewrite P2, E2. split; [|ring].
  assert (L : (1 - / 16777216) * (1 - / 16777216) <= (1 + e) * (1 + f)) by (apply Rmult_le_compat; lra).
  assert (U : (1 + e) * (1 + f) <= (1 + / 16777216) * (1 + / 16777216)) by (apply Rmult_le_compat; lra).
  lra.
Qed.

Lemma duration_too_long : forall t (d : f32), (0 <= t < 2 ^ 32)%Z -> is_finite d = true -> 18446744073709551616 <= IZR t * B2R d * (1 - / 4194304) -> duration_in t d = UB.
Proof.
  intros t d Ht Fd Hb. unfold duration_in, u64_of_f32. destruct (product_large t d Ht Fd) as [P|(P1 & e & E1 & E2)].
  - rewrite Rabs_pos_eq; lra.
  - rewrite P. reflexivity.
  - rewrite P1, trunc_spec, E2. assert (X : 18446744073709551616 <= IZR t * B2R d * (1 + e)).
    { apply Rle_trans with (1 := Hb). apply Rmult_le_compat_l; lra. }
    assert (X0 : 0 <= IZR t * B2R d * (1 + e)) by lra. destruct (trunc_pos _ X0) as ((A & B) & C).
    assert (D : (18446744073709551616 < Ztrunc (IZR t * B2R d * (1 + e)) + 1)%Z) by (apply lt_IZR; rewrite plus_IZR; lra).
    replace (Ztrunc (IZR t * B2R d * (1 + e)) <? 2 ^ 64)%Z with false by lia. rewrite Bool.andb_false_r. reflexivity.
Qed.
Lemma duration_negative : forall t (d : f32), (0 <= t < 2 ^ 32)%Z -> is_finite d = true -> IZR t * B2R d * (1 - / 4194304) <= - 1 -> duration_in t d = UB.
Proof.
  intros t d Ht Fd Hb. unfold duration_in, u64_of_f32. destruct (product_large t d Ht Fd) as [P|(P1 & e & E1 & E2)].
  - rewrite Rabs_left; lra.
  - rewrite P. reflexivity.
  - rewrite P1, trunc_spec, E2. assert (X : IZR t * B2R d * (1 + e) <= - 1).
    { apply Rle_trans with (2 := Hb). apply Rmult_le_compat_neg_l; lra. }
    rewrite Ztrunc_ceil by lra.
    assert (D : (Zceil (IZR t * B2R d * (1 + e)) <= - 1)%Z) by (apply Zceil_glb; exact X).
    replace (0 <=? Zceil (IZR t * B2R d * (1 + e)))%Z with false by lia. reflexivity.
Qed.

(** Exact products *)
Lemma duration_exact : forall t (d : f32) m k, (0 <= t <= 2 ^ 24)%Z -> is_finite d = true -> (0 <= m <= 2 ^ 24)%Z -> (0 <= k)%Z -> (m * 2 ^ k < 2 ^ 64)%Z ->
  IZR t * B2R d = IZR (m * 2 ^ k) -> duration_in t d = Ok (m * 2 ^ k)%Z.
Proof.
  intros t d m k Ht Fd Hm Hk Hn E. destruct (of_int_exact 24 128 prec24 emax128 t ltac:(lia) ltac:(lia)) as (T1 & T2). fold (f32_of_int t) in T1, T2.
  pose proof (Bmult_correct 24 128 prec24 emax128 mode_NE (f32_of_int t) d) as H. change (round_mode mode_NE) with ZnearestE in H. rewrite T1, E, T2, Fd in H.
  assert (N0 : (0 <= m * 2 ^ k)%Z) by (apply Z.mul_nonneg_nonneg; [lia|apply Z.pow_nonneg; lia]).
  assert (B : IZR (m * 2 ^ k) = IZR m * bpow radix2 k) by (rewrite mult_IZR; f_equal; change 2%Z with (radix_val radix2); apply IZR_Zpower; exact Hk).
  assert (G : generic_format radix2 (SpecFloat.fexp 24 128) (IZR (m * 2 ^ k))).
  { rewrite B. destruct (Z.eq_dec m (2 ^ 24)) as [->|N].
    - change (IZR (2 ^ 24)) with (bpow radix2 24). rewrite <- bpow_plus. apply generic_format_bpow. unfold SpecFloat.fexp, SpecFloat.emin. lia.
    - change (SpecFloat.fexp 24 128) with (FLT_exp (-149) 24). apply generic_format_FLT. exists (Float radix2 m k); [reflexivity| |].
      + cbn [Fnum]. change (radix_val radix2) with 2%Z. lia.
      + cbn [Fexp]. lia. }
  rewrite (round_generic radix2 _ _ _ G) in H. rewrite Rlt_bool_true in H.
  - destruct H as (H1 & H2 & _). unfold duration_in, u64_of_f32. rewrite H2. cbn [andb]. rewrite trunc_spec, H1, Ztrunc_IZR.
    replace ((0 <=? m * 2 ^ k) && (m * 2 ^ k <? 2 ^ 64))%Z with true by lia. reflexivity.
  - rewrite Rabs_pos_eq by (apply IZR_le; exact N0). apply Rlt_trans with (IZR (2 ^ 64)); [apply IZR_lt; exact Hn|]. change (IZR (2 ^ 64)) with (bpow radix2 64). apply bpow_lt. lia.
Qed.

(** A longer duration is never announced as a shorter one. *)
Lemma duration_monotone : forall t (d d' : f32) v v', (0 <= t < 2 ^ 32)%Z -> is_finite d = true -> is_finite d' = true -> B2R d <= B2R d' ->
  duration_in t d = Ok v -> duration_in t d' = Ok v' -> (v <= v')%Z.
Proof.
  intros t d d' v v' Ht Fd Fd' L. unfold duration_in, u64_of_f32.
  destruct (product_cases t d Ht Fd) as [P|(P1 & P2)]; cbv zeta in *; [rewrite P; discriminate|].
  destruct (product_cases t d' Ht Fd') as [P'|(P1' & P2')]; cbv zeta in *; [rewrite P'; discriminate|].
  rewrite P1, P1', !trunc_spec, P2, P2'. destruct (f32_of_u32 t Ht) as (_ & e & He & Et). apply Rabs_le_inv in He.
  assert (Q : B2R (f32_of_int t) * B2R d <= B2R (f32_of_int t) * B2R d').
  { apply Rmult_le_compat_l; [|exact L]. rewrite Et. apply Rmult_le_pos; [apply IZR_le; lia|lra]. }
  intros E E'. destruct ((0 <=? _) && _)%Z in E; [|discriminate E]. injection E as <-. destruct ((0 <=? _) && _)%Z in E'; [|discriminate E']. injection E' as <-.
  apply Ztrunc_le. apply round_le; [apply FLT_exp_valid; exact prec24|apply valid_rnd_N|exact Q].
Qed.

(** * Getters of fixed point members *)
Lemma getter_exact : forall prec emax (P1 : FLX.Prec_gt_0 prec) (P2 : Prec_lt_emax prec emax) z k, (Z.abs z <= 2 ^ (prec - 1))%Z -> (0 <= k <= prec)%Z -> (2 * prec + 3 <= emax)%Z ->
  let x := Bdiv mode_NE (binary_normalize prec emax P1 P2 mode_NE z 0 false) (binary_normalize prec emax P1 P2 mode_NE (2 ^ k) 0 false) in
  is_finite x = true /\ B2R x = IZR z / IZR (2 ^ k).
Proof.
  intros prec emax P1 P2 z k Hz Hk He. cbv zeta. assert (P3 : (0 < prec)%Z) by exact P1.
  assert (W : (2 ^ (prec - 1) < 2 ^ prec)%Z) by (apply Z.pow_lt_mono_r; lia).
  assert (K0 : (0 < 2 ^ k)%Z) by (apply Z.pow_pos_nonneg; lia).
  destruct (of_int_exact prec emax P1 P2 z ltac:(lia) ltac:(lia)) as (A1 & A2).
  destruct (of_int_exact prec emax P1 P2 (2 ^ k) ltac:(rewrite Z.abs_eq by lia; apply Z.pow_le_mono_r; lia) ltac:(lia)) as (B1 & B2).
  pose proof (Bdiv_correct prec emax P1 P2 mode_NE (binary_normalize prec emax P1 P2 mode_NE z 0 false) (binary_normalize prec emax P1 P2 mode_NE (2 ^ k) 0 false)) as H.
  rewrite A1, B1, A2 in H. change (round_mode mode_NE) with ZnearestE in H.
  assert (B : IZR (2 ^ k) = bpow radix2 k) by (change 2%Z with (radix_val radix2); apply IZR_Zpower; lia).
  specialize (H ltac:(apply Rgt_not_eq, IZR_lt; exact K0)).
  assert (Q : IZR z / IZR (2 ^ k) = F2R (Float radix2 z (- k))) by (unfold F2R; cbn [Fnum Fexp]; rewrite bpow_opp, B; reflexivity).
  assert (G : generic_format radix2 (SpecFloat.fexp prec emax) (IZR z / IZR (2 ^ k))).
  { change (SpecFloat.fexp prec emax) with (FLT_exp (SpecFloat.emin prec emax) prec). apply generic_format_FLT. exists (Float radix2 z (- k)); [exact Q| |].
    - cbn [Fnum]. change (radix_val radix2) with 2%Z. lia.
    - cbn [Fexp]. unfold SpecFloat.emin. lia. }
  rewrite (round_generic radix2 _ _ _ G) in H. rewrite Rlt_bool_true in H.
  - tauto.
  - unfold Rdiv. rewrite Rabs_mult, <- abs_IZR. rewrite Rabs_inv, (Rabs_pos_eq (IZR (2 ^ k))) by (apply IZR_le; lia).
    apply Rle_lt_trans with (IZR (Z.abs z) * 1).
    + apply Rmult_le_compat_l; [apply IZR_le; lia|]. rewrite <- Rinv_1. apply Rinv_le; [lra|]. apply IZR_le. lia.
    + rewrite Rmult_1_r. apply Rlt_le_trans with (IZR (2 ^ prec)); [apply IZR_lt; lia|]. change 2%Z with (radix_val radix2). rewrite IZR_Zpower by lia. apply bpow_le. lia.
Qed.

Lemma duration_ok_close : forall t (d : f32) v, (0 <= t < 2 ^ 32)%Z -> 0 <= B2R d -> duration_in t d = Ok v ->
  is_finite d = true /\ (0 <= v < 2 ^ 64)%Z /\ IZR t * B2R d * (1 - / 4194304) - 1 < IZR v <= IZR t * B2R d * (1 + / 4194304).
Proof.
  intros t d v Ht Hd E. destruct (is_finite d) eqn:Fd; [|rewrite duration_not_finite in E by exact Fd; discriminate E]. split; [reflexivity|].
  assert (T0 : 0 <= IZR t) by (apply IZR_le; lia).
  assert (T1 : 0 <= IZR t * B2R d) by (apply Rmult_le_pos; assumption).
  destruct (Rle_or_lt (IZR t * B2R d) 36893488147419103232) as [L|L]; [|rewrite duration_too_long in E by (assumption || lra); discriminate E].
  destruct (product_spec t d Ht Fd Hd L) as (P1 & P2 & P3). cbv zeta in *.
  revert E. unfold duration_in, u64_of_f32. rewrite P1, trunc_spec. revert P2 P3. generalize (B2R (Bmult mode_NE (f32_of_int t) d)). intros p P2 P3 E.
  destruct (trunc_pos p P2) as (A & B).
  destruct ((0 <=? Ztrunc p) && (Ztrunc p <? 2 ^ 64))%Z eqn:D; [|discriminate E]. injection E as <-. split; [lia|].
  destruct P3 as [[P3 P4]|P3].
  - assert (E : Ztrunc p = 0%Z) by (assert (Ztrunc p < 1)%Z by (apply lt_IZR; lra); lia). rewrite E. split; [|lra].
    assert (IZR t * B2R d * (1 - / 4194304) < (1 + / 4194304) * (1 - / 4194304)) by (apply Rmult_lt_compat_r; lra). lra.
  - lra.
Qed.

Lemma getters_exact :
  (forall b, fits_u 32 (tkhd_width b) -> B2R (Tkhd_getWidth b) = IZR (tkhd_width b) / IZR (2 ^ 16) /\ is_finite (Tkhd_getWidth b) = true) /\
  (forall b, fits_u 32 (tkhd_height b) -> B2R (Tkhd_getHeight b) = IZR (tkhd_height b) / IZR (2 ^ 16) /\ is_finite (Tkhd_getHeight b) = true) /\
  (forall b, fits_s 32 (mvhd_rate b) -> B2R (Mvhd_getRate b) = IZR (mvhd_rate b) / IZR (2 ^ 16) /\ is_finite (Mvhd_getRate b) = true) /\
  (forall e, fits_s 32 (elste_media_rate e) -> B2R (ElstEntry_getMediaRate e) = IZR (elste_media_rate e) / IZR (2 ^ 16) /\ is_finite (ElstEntry_getMediaRate e) = true) /\
  (forall b, fits_s 16 (smhd_balance b) -> B2R (Smhd_getBalance b) = IZR (smhd_balance b) / IZR (2 ^ 8) /\ is_finite (Smhd_getBalance b) = true).
Proof.
  assert (G64 : forall z, (- 2 ^ 32 < z < 2 ^ 32)%Z -> B2R (Bdiv mode_NE (f64_of_int z) (f64_of_int 65536)) = IZR z / IZR (2 ^ 16) /\ is_finite (Bdiv mode_NE (f64_of_int z) (f64_of_int 65536)) = true).
  { intros z Hz. destruct (getter_exact 53 1024 prec53 emax1024 z 16 ltac:(lia) ltac:(lia) ltac:(lia)) as (A & B). split; [exact B|exact A]. }
  assert (G32 : forall z, (- 2 ^ 16 < z < 2 ^ 16)%Z -> B2R (Bdiv mode_NE (f32_of_int z) (f32_of_int 256)) = IZR z / IZR (2 ^ 8) /\ is_finite (Bdiv mode_NE (f32_of_int z) (f32_of_int 256)) = true).
  { intros z Hz. destruct (getter_exact 24 128 prec24 emax128 z 8 ltac:(lia) ltac:(lia) ltac:(lia)) as (A & B). split; [exact B|exact A]. }
  unfold fits_u, fits_s. repeat split; intros; try apply G64; try apply G32; try lia.
  all: idtac.
Qed.
