(** C38 *)
From Coq Require Import ZifyBool.
From Verif Require Import Base BitFacts TimeSpec Time.

(** One era, by computation; the other eras by periodicity. *)
Definition era_date (era doe : Z) : Z * Z * Z :=
  let yoe := (doe - doe / 1460 + doe / 36524 - doe / 146096) / 365 in
  let doy := doe - (365 * yoe + yoe / 4 - yoe / 100) in
  let mp := (5 * doy + 2) / 153 in
  let d := doy - (153 * mp + 2) / 5 + 1 in
  let m := if mp <? 10 then mp + 3 else mp - 9 in
  (yoe + era * 400 + (if m <=? 2 then 1 else 0), m, d).
Definition date_eqb (a b : Z * Z * Z) : bool := let '(y, m, d) := a in let '(y', m', d') := b in (y =? y') && (m =? m') && (d =? d').
(** [x] is the date of day [z] of the era: the next [n] days are as [next_day] says. *)
Fixpoint sweep (n : nat) (z : Z) (x : Z * Z * Z) : bool :=
  match n with
  | O => true
  | S k => let x' := era_date 0 (z + 1) in date_eqb (next_day x) x' && sweep k (z + 1) x'
  end.
Lemma sweep_all : sweep (Z.to_nat 146096) 0 (era_date 0 0) = true. Proof. vm_compute. reflexivity. Qed.
Lemma date_eqb_eq a b : date_eqb a b = true -> a = b.
Proof.
  destruct a as [[y m] x], b as [[y' m'] x']. cbn [date_eqb]. intros S.
  apply andb_true_iff in S as [S S3]. apply andb_true_iff in S as [S1 S2]. apply Z.eqb_eq in S1, S2, S3. subst. reflexivity.
Qed.
Lemma sweep_ok n : forall z x, sweep n z (era_date 0 z) = true -> z <= x < z + Z.of_nat n -> next_day (era_date 0 x) = era_date 0 (x + 1).
Proof.
  induction n as [|n IH]; intros z x H B; [lia|]. cbn [sweep] in H. cbv zeta in H. apply andb_true_iff in H as [H1 H2].
  destruct (Z.eq_dec x z) as [->|N]; [apply date_eqb_eq; exact H1|]. apply (IH (z + 1)); [exact H2|lia].
Qed.
Lemma leap_shift y k : leap (y + k * 400) = leap y.
Proof.
  unfold leap. replace ((y + k * 400) mod 400) with (y mod 400) by (rewrite Z_mod_plus_full; reflexivity).
  replace ((y + k * 400) mod 100) with (y mod 100) by (replace (k * 400) with (k * 4 * 100) by lia; rewrite Z_mod_plus_full; reflexivity).
  replace ((y + k * 400) mod 4) with (y mod 4) by (replace (k * 400) with (k * 100 * 4) by lia; rewrite Z_mod_plus_full; reflexivity).
  reflexivity.
Qed.
Definition shift_years (k : Z) (x : Z * Z * Z) : Z * Z * Z := let '(y, m, d) := x in (y + k * 400, m, d).
Lemma next_day_shift k x : next_day (shift_years k x) = shift_years k (next_day x).
Proof.
  destruct x as [[y m] d]. cbn [shift_years next_day]. unfold month_length. rewrite leap_shift.
  destruct (_ <? _); [reflexivity|]. destruct (_ <? _); cbn [shift_years]; [reflexivity|]. f_equal. f_equal. lia.
Qed.
Lemma era_date_shift k e doe : era_date (e + k) doe = shift_years k (era_date e doe).
Proof. unfold era_date, shift_years. cbv zeta. f_equal. f_equal. lia. Qed.
Lemma civil_era z : civil z = era_date ((z + 719468) / 146097) ((z + 719468) mod 146097). Proof. reflexivity. Qed.
Lemma civil_next z : next_day (civil z) = civil (z + 1).
Proof.
  rewrite !civil_era. set (e := (z + 719468) / 146097). set (d := (z + 719468) mod 146097).
  assert (B : 0 <= d < 146097) by (subst d; apply Z.mod_pos_bound; lia).
  assert (E : z + 719468 = 146097 * e + d) by (subst e d; apply Z.div_mod; lia). clearbody e d.
  replace e with (0 + e) at 1 by lia. rewrite era_date_shift, next_day_shift.
  assert (S' : next_day (era_date 0 d) = if d =? 146096 then era_date 1 0 else era_date 0 (d + 1)).
  { destruct (Z.eqb_spec d 146096) as [->|N]; [vm_compute; reflexivity|]. apply (sweep_ok _ 0 d sweep_all). lia. }
  rewrite S'. destruct (Z.eqb_spec d 146096) as [->|N].
  - rewrite <- era_date_shift. f_equal; [|].
    + apply Z.div_unique with 0; lia.
    + apply Z.mod_unique with (1 + e); lia.
  - rewrite <- era_date_shift. f_equal; [|].
    + apply Z.div_unique with (d + 1); lia.
    + apply Z.mod_unique with (0 + e); lia.
Qed.
Lemma civil_after n : forall z, 0 <= n -> days_after n (civil z) = civil (z + n).
Proof.
  intros z H. unfold days_after. rewrite <- (Z2Nat.id n H) at 2. generalize (Z.to_nat n). clear. intros n.
  induction n as [|n IH]; [cbn [Nat.iter nat_rect]; replace (z + Z.of_nat 0) with z by lia; reflexivity|]. cbn [Nat.iter nat_rect]. change (next_day (Nat.iter n next_day (civil z)) = civil (z + Z.of_nat (S n))).
  rewrite IH, civil_next. f_equal. lia.
Qed.
Lemma civil_1904 : civil (-24107) = (1904, 1, 1). Proof. reflexivity. Qed.
Lemma year_step z : let '(y, _, _) := civil z in let '(y', _, _) := civil (z + 1) in y <= y' <= y + 1.
Proof.
  rewrite <- civil_next. destruct (civil z) as [[y m] d]. unfold next_day. destruct (_ <? _); [lia|]. destruct (_ <? _); lia.
Qed.
Lemma year_after n : forall z, let '(y, _, _) := civil z in let '(y', _, _) := civil (z + Z.of_nat n) in y <= y' <= y + Z.of_nat n.
Proof.
  induction n as [|n IH]; intros z.
  - replace (z + Z.of_nat 0) with z by lia. destruct (civil z) as [[? ?] ?]. lia.
  - specialize (IH z). pose proof (year_step (z + Z.of_nat n)) as Y. replace (z + Z.of_nat n + 1) with (z + Z.of_nat (S n)) in Y by lia.
    destruct (civil z) as [[? ?] ?], (civil (z + Z.of_nat n)) as [[? ?] ?], (civil (z + Z.of_nat (S n))) as [[? ?] ?]. lia.
Qed.

Lemma format_ok t : 0 <= t < 2082844800 + 2 ^ 32 -> format_epoch_19040101 t = Ok (instant (1904, 1, 1) t).
Proof.
  intros H. unfold format_epoch_19040101, SECONDS_19040101_to_19700101. set (f := if _ <? 2 ^ 63 then _ else _).
  assert (F : f = t - 2082844800).
  { subst f. destruct (Z_lt_ge_dec t 2082844800).
    - replace ((t - 2082844800) mod 2 ^ 64) with (t - 2082844800 + 2 ^ 64) by (apply Z.mod_unique with (-1); lia).
      destruct (_ <? _) eqn:E; [lia|]. lia.
    - rewrite Z.mod_small by lia. destruct (_ <? _) eqn:E; lia. }
  clearbody f. cbv zeta. destruct (f >? 2 ^ 32 - 1) eqn:G; [lia|]. unfold gmtime_r.
  assert (D : f / 86400 = -24107 + t / 86400) by (subst f; replace (t - 2082844800) with (t + (-24107) * 86400) by lia; rewrite Z_div_plus_full by lia; lia).
  assert (M : forall k, 0 < k -> (86400 mod k = 0) -> f mod k = t mod k).
  { intros k K1 K2. subst f. replace 2082844800 with (24107 * (86400 / k) * k) by (pose proof (Z.div_mod 86400 k); lia).
    replace (t - 24107 * (86400 / k) * k) with (t + (- (24107 * (86400 / k))) * k) by lia. apply Z_mod_plus_full. }
  rewrite !M by (try lia; reflexivity). rewrite D, <- civil_after by (apply Z.div_pos; lia). rewrite civil_1904.
  pose proof (year_after (Z.to_nat (t / 86400)) (-24107)) as Y. rewrite civil_1904 in Y. rewrite Z2Nat.id in Y by (apply Z.div_pos; lia).
  rewrite <- civil_after in Y by (apply Z.div_pos; lia). rewrite civil_1904 in Y. unfold instant.
  destruct (days_after (t / 86400) (1904, 1, 1)) as [[y m] d].
  assert (t / 86400 <= 100000) by (apply Z.div_le_upper_bound; lia).
  destruct (_ && _) eqn:C; [reflexivity|]. lia.
Qed.
Lemma epoch_add : days_after 24107 (1904, 1, 1) = (1970, 1, 1).
Proof. rewrite <- civil_1904. rewrite civil_after by lia. reflexivity. Qed.
Lemma days_after_add a b x : 0 <= a -> 0 <= b -> days_after a (days_after b x) = days_after (b + a) x.
Proof.
  intros A B. unfold days_after. rewrite Z2Nat.inj_add by assumption. rewrite Nat.add_comm. generalize (Z.to_nat a), (Z.to_nat b). clear. intros a b.
  induction a as [|a IH]; [reflexivity|]. cbn [Nat.add Nat.iter nat_rect]. change (next_day (Nat.iter a next_day (Nat.iter b next_day x)) = next_day (Nat.iter (a + b) next_day x)). rewrite IH. reflexivity.
Qed.
Lemma convert_format u : 0 <= u < 2 ^ 32 -> convert_to_epoch_19040101 u = u + 2082844800 /\
  format_epoch_19040101 (convert_to_epoch_19040101 u) = Ok (instant (1970, 1, 1) u).
Proof.
  intros H. assert (C : convert_to_epoch_19040101 u = u + 2082844800) by (unfold convert_to_epoch_19040101, SECONDS_19040101_to_19700101; apply Z.mod_small; lia).
  split; [exact C|]. rewrite C, format_ok by lia. f_equal. unfold instant. rewrite <- epoch_add, days_after_add by (try (apply Z.div_pos); lia).
  assert (M : forall k, 0 < k -> (86400 mod k = 0) -> (u + 2082844800) mod k = u mod k).
  { intros k K1 K2. replace 2082844800 with (24107 * (86400 / k) * k) by (pose proof (Z.div_mod 86400 k); lia). apply Z_mod_plus_full. }
  rewrite !M by (try lia; reflexivity). f_equal. f_equal. replace 2082844800 with (24107 * 86400) by lia. rewrite Z_div_plus_full by lia. lia.
Qed.
Lemma convert_injective a b : 0 <= a < 2 ^ 64 -> 0 <= b < 2 ^ 64 -> convert_to_epoch_19040101 a = convert_to_epoch_19040101 b -> a = b.
Proof. unfold convert_to_epoch_19040101, SECONDS_19040101_to_19700101. intros. lia. Qed.
Lemma format_far t : 2082844800 + 2 ^ 32 <= t < 2 ^ 63 + 2082844800 -> format_epoch_19040101 t = Ok (iso8601 (0, 0, 0) 0 0 0).
Proof.
  intros H. unfold format_epoch_19040101, SECONDS_19040101_to_19700101. rewrite Z.mod_small by lia. cbv zeta.
  destruct (_ <? 2 ^ 63) eqn:E; [|lia]. destruct (_ >? _) eqn:G; [reflexivity|lia].
Qed.
