(** When printing succeeds. *)
From Verif Require Import Base BitIO Boxes Box TimeSpec Time TimeProofs Print PrintSpec.

Definition year_min_day : Z := -784352321872.
Lemma year_min : civil (-784352321872) = (1900 - 2 ^ 31, 1, 1) /\ civil (-784352321872 - 1) = (1900 - 2 ^ 31 - 1, 12, 31) /\ year_min_second = -784352321872 * 86400.
Proof. repeat split; vm_compute; reflexivity. Qed.
Lemma format_total t : 0 <= t < 2 ^ 64 ->
  (time_printable t /\ exists s, format_epoch_19040101 t = Ok s) \/ (~ time_printable t /\ format_epoch_19040101 t = UB).
Proof.
  intros H. unfold format_epoch_19040101, SECONDS_19040101_to_19700101, time_printable, year_min_second.
  set (f := if _ <? 2 ^ 63 then _ else _).
  assert (F : (t < 2 ^ 63 + 2082844800 /\ f = t - 2082844800) \/ (2 ^ 63 + 2082844800 <= t /\ f = t - 2082844800 - 2 ^ 64)).
  { subst f. destruct (Z_lt_ge_dec t 2082844800).
    - left. split; [lia|]. replace ((t - 2082844800) mod 2 ^ 64) with (t - 2082844800 + 2 ^ 64) by (apply Z.mod_unique with (-1); lia). destruct (_ <? _) eqn:E; lia.
    - rewrite Z.mod_small by lia. destruct (_ <? _) eqn:E; lia. }
  clearbody f. destruct (f >? 2 ^ 32 - 1) eqn:G; [left; split; [lia|eexists; reflexivity]|].
  destruct year_min as (Y1 & Y2 & Y3). unfold year_min_second in Y3.
  assert (R : gmtime_r f = None <-> f < -67768040609740800).
  { unfold gmtime_r. destruct (Z_lt_ge_dec f (-67768040609740800)) as [L|L].
    - split; [intros _; lia|]. intros _. assert (D : f / 86400 <= -784352321872 - 1) by lia.
      pose proof (year_after (Z.to_nat (-784352321872 - 1 - f / 86400)) (f / 86400)) as Y.
      replace (f / 86400 + Z.of_nat (Z.to_nat (-784352321872 - 1 - f / 86400))) with (-784352321872 - 1) in Y by lia. rewrite Y2 in Y.
      destruct (civil (f / 86400)) as [[y m] d]. destruct (_ && _) eqn:A; [|reflexivity]. apply andb_true_iff in A as [A _]. apply Z.leb_le in A. lia.
    - split; [|lia]. intros N. exfalso. revert N. assert (D : -784352321872 <= f / 86400) by lia.
      pose proof (year_after (Z.to_nat (f / 86400 - -784352321872)) (-784352321872)) as Y.
      replace (-784352321872 + Z.of_nat (Z.to_nat (f / 86400 - -784352321872))) with (f / 86400) in Y by lia. rewrite Y1 in Y.
      assert (U : let '(y, _, _) := civil (f / 86400) in y <= 2107).
      { pose proof (year_after (Z.to_nat (49711 - f / 86400)) (f / 86400)) as X. replace (f / 86400 + Z.of_nat (Z.to_nat (49711 - f / 86400))) with 49711 in X by lia.
        assert (Q : civil 49711 = (2106, 2, 8)) by (vm_compute; reflexivity). rewrite Q in X. destruct (civil (f / 86400)) as [[y m] d]. lia. }
      destruct (civil (f / 86400)) as [[y m] d]. destruct (_ && _) eqn:A; [discriminate|]. apply andb_false_iff in A. rewrite Z.leb_gt, Z.ltb_ge in A. lia. }
  destruct (gmtime_r f) as [tm|] eqn:E.
  - left. split; [|eexists; reflexivity]. assert (~ f < -67768040609740800) by (intros L; apply R in L; discriminate). lia.
  - right. split; [|reflexivity]. assert (f < -67768040609740800) by (apply R; reflexivity). lia.
Qed.
Lemma with_times_ok c m f : 0 <= c < 2 ^ 64 -> 0 <= m < 2 ^ 64 ->
  (time_printable c /\ time_printable m /\ exists s, with_times c m f = Ok s) \/ (~ (time_printable c /\ time_printable m) /\ with_times c m f = UB).
Proof.
  intros Hc Hm. unfold with_times. destruct (format_total c Hc) as [(P & s & E)|(P & E)]; rewrite E; [|right; tauto].
  destruct (format_total m Hm) as [(P' & s' & E')|(P' & E')]; rewrite E'; [left; eauto|right; tauto].
Qed.
Lemma toStringOnlyData_total b : box_times b ->
  (box_printable b /\ exists s, Box_toStringOnlyData b = Ok s) \/ (~ box_printable b /\ Box_toStringOnlyData b = UB).
Proof.
  destruct b; cbn [box_times box_printable Box_toStringOnlyData]; intros H; try (left; split; [exact I|eexists; reflexivity]).
  all: destruct H as [H1 H2]; unfold Mdhd_toString, Mvhd_toString, Tkhd_toString;
    match goal with |- context [with_times ?c ?m ?f] => destruct (with_times_ok c m f H1 H2) as [(A & B & C)|(A & B)] end; [left; auto|right; auto].
Qed.
Lemma printable_times b : box_printable b -> box_times b.
Proof. destruct b; cbn [box_times box_printable]; try (intros _; exact I); unfold time_printable, year_min_second; lia. Qed.
Lemma printable_ok b : box_printable b -> exists s, Box_toStringOnlyData b = Ok s.
Proof. intros P. destruct (toStringOnlyData_total b (printable_times b P)) as [(_ & H)|(N & _)]; [exact H|contradiction]. Qed.
Lemma unprintable_UB b : box_times b -> ~ box_printable b -> Box_toStringOnlyData b = UB.
Proof. intros T N. destruct (toStringOnlyData_total b T) as [(P & _)|(_ & H)]; [contradiction|exact H]. Qed.
