(** A value is written in one way only. *)
From Coq Require Import ZifyBool.
From Verif Require Import Base BitIO BitFacts BitIOProofs Boxes Box Time TimeProofs Print TextSpec TextProofs.
From Coq Require Import Ascii String List.
Import ListNotations.
Open Scope string_scope.
Open Scope Z_scope.
Open Scope list_scope.

Lemma digit_one base c d : is_digit base c -> is_digit base d -> digit c = digit d -> c = d.
Proof. unfold is_digit, digit. destruct (Z.ltb_spec c 58), (Z.ltb_spec d 58); lia. Qed.
Lemma digit_range base c : is_digit base c -> 0 <= digit c < base.
Proof. unfold is_digit, digit. destruct (Z.ltb_spec c 58); lia. Qed.
Lemma number_nonneg base l : 2 <= base -> Forall (is_digit base) l -> 0 <= number_of base l.
Proof.
  intros B. induction l as [|c l IH] using rev_ind; intros H; [cbn; lia|]. apply Forall_app in H as [H1 H2]. apply Forall_cons_iff in H2 as [H2 _].
  rewrite number_of_app. change (Zlen [c]) with 1. pose proof (digit_range _ _ H2). specialize (IH H1). unfold number_of at 2. cbn [fold_left]. rewrite Z.pow_1_r. nia.
Qed.
Lemma number_positive base l : 2 <= base -> Forall (is_digit base) l -> l <> [] -> hd 0 l <> 48 -> 0 < number_of base l.
Proof.
  intros B H N Z0. destruct l as [|c r]; [contradiction|]. cbn [hd] in Z0. apply Forall_cons_iff in H as [H1 H2]. change (c :: r) with ([c] ++ r). rewrite number_of_app.
  pose proof (number_nonneg _ _ B H2). assert (D : 0 < digit c) by (unfold is_digit, digit in *; destruct (Z.ltb_spec c 58); lia).
  change (number_of base [c]) with (base * 0 + digit c). pose proof (Z.pow_pos_nonneg base (Zlen r) ltac:(lia) (Zlen_nonneg r)). nia.
Qed.
Lemma parts_one b x y c d : 0 <= c < b -> 0 <= d < b -> x * b + c = y * b + d -> x = y /\ c = d.
Proof. intros C D E. apply (Z.div_mod_unique b x y c d); [lia|lia|]. rewrite (Z.mul_comm b x), (Z.mul_comm b y). exact E. Qed.
Lemma digits_one base a : 2 <= base -> forall b, Forall (is_digit base) a -> Forall (is_digit base) b -> hd 0 a <> 48 -> hd 0 b <> 48 -> number_of base a = number_of base b -> a = b.
Proof.
  intros B. induction a as [|c a IH] using rev_ind; intros b A D Ha Hb E.
  - destruct b as [|x b]; [reflexivity|]. pose proof (number_positive _ _ B D ltac:(discriminate) Hb) as P. change (number_of base []) with 0 in E. lia.
  - destruct b as [|x b _] using rev_ind.
    + assert (N : a ++ [c] <> []) by (destruct a; discriminate). pose proof (number_positive _ _ B A N Ha) as P. change (number_of base []) with 0 in E. lia.
    + apply Forall_app in A as [A1 A2]. apply Forall_cons_iff in A2 as [A2 _]. apply Forall_app in D as [D1 D2]. apply Forall_cons_iff in D2 as [D2 _].
      rewrite !number_of_app in E. change (Zlen [c]) with 1 in E. change (Zlen [x]) with 1 in E. rewrite Z.pow_1_r in E. change (number_of base [c]) with (base * 0 + digit c) in E. change (number_of base [x]) with (base * 0 + digit x) in E.
      pose proof (digit_range _ _ A2) as R1. pose proof (digit_range _ _ D2) as R2. rewrite !Z.mul_0_r, !Z.add_0_l in E. destruct (parts_one _ _ _ _ _ R1 R2 E) as (Q1 & Q2).
      rewrite (digit_one _ _ _ A2 D2 Q2). f_equal. apply IH; try assumption.
      * destruct a as [|y a]; [discriminate|exact Ha].
      * destruct b as [|y b]; [discriminate|exact Hb].
Qed.
Lemma numeral_one base a b : 2 <= base -> numeral base a -> numeral base b -> number_of base a = number_of base b -> a = b.
Proof.
  intros B (A1 & A2 & A3) (B1 & B2 & B3) E. destruct (Z.eq_dec (hd 0 a) 48) as [Ha|Ha], (Z.eq_dec (hd 0 b) 48) as [Hb|Hb].
  - rewrite (A3 Ha), (B3 Hb). reflexivity.
  - exfalso. rewrite (A3 Ha) in E. pose proof (number_positive _ _ B B2 B1 Hb) as P. rewrite <- E in P. change (number_of base [48]) with (base * 0 + 0) in P. lia.
  - exfalso. rewrite (B3 Hb) in E. pose proof (number_positive _ _ B A2 A1 Ha) as P. rewrite E in P. change (number_of base [48]) with (base * 0 + 0) in P. lia.
  - apply (digits_one base); assumption.
Qed.
(** Digits of the same number: leading zeros allowed *)
Lemma fixed_one base a : 2 <= base -> forall b, length a = length b -> Forall (is_digit base) a -> Forall (is_digit base) b -> number_of base a = number_of base b -> a = b.
Proof.
  intros B. induction a as [|c a IH] using rev_ind; intros b L A D E.
  - destruct b; [reflexivity|discriminate L].
  - destruct b as [|x b _] using rev_ind; [rewrite app_length in L; cbn in L; lia|]. rewrite !app_length in L. cbn [length] in L.
    apply Forall_app in A as [A1 A2]. apply Forall_cons_iff in A2 as [A2 _]. apply Forall_app in D as [D1 D2]. apply Forall_cons_iff in D2 as [D2 _].
    rewrite !number_of_app in E. change (Zlen [c]) with 1 in E. change (Zlen [x]) with 1 in E. rewrite Z.pow_1_r in E. change (number_of base [c]) with (base * 0 + digit c) in E. change (number_of base [x]) with (base * 0 + digit x) in E.
    pose proof (digit_range _ _ A2) as R1. pose proof (digit_range _ _ D2) as R2. rewrite !Z.mul_0_r, !Z.add_0_l in E. destruct (parts_one _ _ _ _ _ R1 R2 E) as (Q1 & Q2).
    rewrite (digit_one _ _ _ A2 D2 Q2). f_equal. apply IH; try assumption. lia.
Qed.
Lemma number_below base l : 2 <= base -> Forall (is_digit base) l -> number_of base l < base ^ Zlen l.
Proof.
  intros B. induction l as [|c l IH] using rev_ind; intros H; [cbn; lia|]. apply Forall_app in H as [H1 H2]. apply Forall_cons_iff in H2 as [H2 _].
  rewrite number_of_app, Zlen_app. change (Zlen [c]) with 1. pose proof (digit_range _ _ H2). specialize (IH H1). change (number_of base [c]) with (base * 0 + digit c). rewrite Z.pow_add_r, Z.pow_1_r by (try apply Zlen_nonneg; lia). nia.
Qed.
Lemma nearest_one q q' m d : 0 < d ->
  (2 * Z.abs (q * d - m) < d \/ (2 * Z.abs (q * d - m) = d /\ Z.even q = true)) -> (2 * Z.abs (q' * d - m) < d \/ (2 * Z.abs (q' * d - m) = d /\ Z.even q' = true)) -> q = q'.
Proof.
  intros D H H'. assert (C : q' = q \/ q' = q + 1 \/ q' = q - 1) by nia. destruct C as [C|[C|C]]; subst q'; [reflexivity| |]; exfalso.
  - assert (2 * Z.abs (q * d - m) = d /\ 2 * Z.abs ((q + 1) * d - m) = d) as [X Y] by nia. destruct H as [H|[_ H]]; [lia|]. destruct H' as [H'|[_ H']]; [lia|].
    rewrite Z.add_1_r, Z.even_succ, <- Z.negb_even, H in H'. discriminate H'.
  - assert (2 * Z.abs (q * d - m) = d /\ 2 * Z.abs ((q - 1) * d - m) = d) as [X Y] by nia. destruct H as [H|[_ H]]; [lia|]. destruct H' as [H'|[_ H']]; [lia|].
    rewrite Z.sub_1_r, Z.even_pred, <- Z.negb_even, H in H'. discriminate H'.
Qed.

Lemma printed_one : forall v, definite v -> forall t t', printed v t -> printed v t' -> t = t'.
Proof.
  fix IH 1. intros v D t t' P P'. destruct v as [n|n|b|w|l|fb|n d places|t0|v|sep l|l].
  - assert (X : forall t, printed (Dec n) t -> exists l, numeral 10 l /\ number_of 10 l = Z.abs n /\ t = sign n ++ l) by (clear; intros t P; inversion P; eauto).
    destruct (X _ P) as (l & N & V & ->). destruct (X _ P') as (l' & N' & V' & ->). f_equal. apply (numeral_one 10); [lia|exact N|exact N'|congruence].
  - assert (X : forall t, printed (Hex n) t -> exists l, numeral 16 l /\ number_of 16 l = Z.abs n /\ t = sign n ++ characters "0x" ++ l) by (clear; intros t P; inversion P; eauto).
    destruct (X _ P) as (l & N & V & ->). destruct (X _ P') as (l' & N' & V' & ->). do 2 f_equal. apply (numeral_one 16); [lia|exact N|exact N'|congruence].
  - destruct b; inversion P; inversion P'; congruence.
  - inversion P; inversion P'; congruence.
  - cbn [definite] in D. assert (X : forall t, printed (Octets l) t -> exists ds, Forall2 (fun x d => length d = 2%nat /\ Forall (is_digit 16) d /\ number_of 16 d = x) l ds /\ t = concat ds).
    { clear - D. intros t P. inversion P. eauto. }
    destruct (X _ P) as (ds & F & ->). destruct (X _ P') as (ds' & F' & ->). f_equal. clear - F F'. revert ds' F'. induction F as [|x e l ds (L & W & V) _ IHF]; intros ds' F'; inversion F' as [|x' e' l' r' H' F2]; subst; [reflexivity|]. destruct H' as (L' & W' & V').
    f_equal; [|apply IHF; exact F2]. apply (fixed_one 16); try assumption; try lia; congruence.
  - cbn [definite] in D. assert (X : forall t, printed (Flags fb) t -> exists d, length d = 6%nat /\ Forall (is_digit 16) d /\ number_of 16 d = 65536 * fb_f0 fb + 256 * fb_f1 fb + fb_f2 fb /\ t = characters "0x" ++ d).
    { clear - D. intros t P. inversion P as [| | | | | |fb0 e H| | | | | ]; subst. destruct (H D) as (A & B & C). eauto. }
    destruct (X _ P) as (e & L & W & V & ->). destruct (X _ P') as (e' & L' & W' & V' & ->). f_equal. apply (fixed_one 16); try assumption; try lia; congruence.
  - cbn [definite] in D. assert (G : forall t, printed (Quotient n d places) t -> exists whole part, numeral 10 whole /\ length part = places /\ Forall (is_digit 10) part /\
        (let q := number_of 10 (whole ++ part) in let e := 2 * Z.abs (q * d - Z.abs n * 10 ^ Z.of_nat places) in e < d \/ (e = d /\ Z.even q = true)) /\
        t = sign n ++ whole ++ characters "." ++ part) by (clear; intros t P; inversion P; eauto 10).
    destruct (G _ P) as (w & p & N & L & W & V & ->). destruct (G _ P') as (w' & p' & N' & L' & W' & V' & ->). cbv zeta in V, V'.
    pose proof (nearest_one _ _ _ _ D V V') as Q. rewrite !number_of_app in Q. assert (LL : Zlen p = Zlen p') by (unfold Zlen; congruence). rewrite <- LL in Q.
    pose proof (number_below 10 p ltac:(lia) W) as B1. pose proof (number_below 10 p' ltac:(lia) W') as B2. rewrite <- LL in B2. pose proof (number_nonneg 10 p ltac:(lia) W) as C1. pose proof (number_nonneg 10 p' ltac:(lia) W') as C2.
    destruct (parts_one _ _ _ _ _ (conj C1 B1) (conj C2 B2) Q) as (E1 & E2).
    rewrite (numeral_one 10 w w' ltac:(lia) N N' E1), (fixed_one 10 p ltac:(lia) p' ltac:(congruence) W W' E2). reflexivity.
  - cbn [definite] in D. assert (X : forall s, printed (Time t0) s -> (0 <= t0 < 2082844800 + 2 ^ 32 -> s = TimeSpec.instant (1904, 1, 1) t0) /\ (2082844800 + 2 ^ 32 <= t0 < 2 ^ 63 + 2082844800 -> s = TimeSpec.iso8601 (0, 0, 0) 0 0 0))
      by (clear; intros s P; inversion P; auto).
    destruct (X _ P) as (A & B). destruct (X _ P') as (A' & B').
    destruct (Z_lt_ge_dec t0 (2082844800 + 2 ^ 32)) as [C|C]; [rewrite A, A' by lia; reflexivity|rewrite B, B' by lia; reflexivity].
  - cbn [definite] in D. assert (X : forall s, printed (Quoted v) s -> exists u, printed v u /\ s = [34] ++ u ++ [34]) by (clear; intros s P; inversion P; eauto).
    destruct (X _ P) as (u & A & ->). destruct (X _ P') as (u' & A' & ->). do 2 f_equal. apply (IH v D); assumption.
  - assert (X : forall t, printed (Items sep l) t -> exists ts, Forall2 printed l ts /\ t = characters "[" ++ separated (characters sep) ts ++ characters "]") by (clear; intros t P; inversion P; eauto).
    destruct (X _ P) as (ts & F & ->). destruct (X _ P') as (ts' & F' & ->). clear X P P'. replace ts' with ts; [reflexivity|]. cbn [definite] in D. revert D ts ts' F F'.
    induction l as [|x l IHl]; intros D ts ts' F F'; inversion F; inversion F'; subst; [reflexivity|]. destruct D as (D1 & D2). f_equal; [apply (IH x D1); assumption|apply (IHl D2); assumption].
  - assert (X : forall t, printed (Fields l) t -> exists ts, Forall2 printed (map snd l) ts /\ t = characters "{" ++ separated (characters " ") (named (map fst l) ts) ++ characters "}") by (clear; intros t P; inversion P; eauto).
    destruct (X _ P) as (ts & F & ->). destruct (X _ P') as (ts' & F' & ->). clear X P P'. replace ts' with ts; [reflexivity|]. cbn [definite] in D. revert D ts ts' F F'.
    induction l as [|x l IHl]; intros D ts ts' F F'; cbn [map] in F, F'; inversion F; inversion F'; subst; [reflexivity|]. destruct D as (D1 & D2). f_equal; [apply (IH (snd x) D1); assumption|apply (IHl D2); assumption].
Qed.
Lemma text_one l : Forall (fun f => definite (snd f)) l -> forall t t', text_of l t -> text_of l t' -> t = t'.
Proof.
  intros D t t' (ts & F & ->) (ts' & F' & ->). replace ts' with ts; [reflexivity|]. revert ts ts' F F'. induction D as [|x l D1 _ IH]; intros ts ts' F F'; cbn [map] in F, F'; inversion F; inversion F'; subst; [reflexivity|].
  f_equal; [apply (printed_one _ D1); assumption|apply IH; assumption].
Qed.
Lemma date_total a b f : definite (Quoted (Time a)) -> definite (Quoted (Time b)) -> exists t, with_times a b f = Ok t.
Proof.
  cbn [definite]. intros A B. assert (F : forall n, 0 <= n < 2 ^ 63 + 2082844800 -> exists s, format_epoch_19040101 n = Ok s).
  { intros n N. destruct (Z_lt_ge_dec n (2082844800 + 2 ^ 32)); [rewrite format_ok by lia|rewrite format_far by lia]; eauto. }
  unfold with_times. destruct (F a A) as (s & ->). destruct (F b B) as (r & ->). eauto.
Qed.
Lemma text_total b : Forall (fun f => definite (snd f)) (fields_of b) -> exists t, Box_toStringOnlyData b = Ok t.
Proof.
  assert (T : forall fb x y l f, Forall (fun f => definite (snd f)) (full fb ++ ("CreationTime", Quoted (Time x)) :: ("ModificationTime", Quoted (Time y)) :: l) -> exists t, with_times x y f = Ok t).
  { intros fb x y l f H. apply Forall_app in H as [_ H]. apply Forall_cons_iff in H as [H1 H]. apply Forall_cons_iff in H as [H2 _]. apply date_total; assumption. }
  destruct b; cbn [Box_toStringOnlyData fields_of]; intros H; eauto.
Qed.
