(** Proofs about the NAL unit scanner (H264.v against AnnexBSpec.v). *)
From Verif Require Import Base BitIO BitFacts BitIOProofs Boxes Box BoxTree TreeSpec TreeProofs H264 AnnexBSpec.

(** * Safety and termination on every input (C36) *)
Lemma at_ok data i : 0 <= i < Zlen data -> exists v, at_ data i = Ok v /\ nth_error data (Z.to_nat i) = Some v.
Proof.
  intros H. unfold at_. replace (i <? 0) with false by lia. destruct (nth_error data (Z.to_nat i)) eqn:E; [eauto|].
  apply nth_error_None in E. unfold Zlen in H. lia.
Qed.
Lemma start_code4_ok data i : 0 <= i -> i + 3 < Zlen data -> exists b, start_code4 data i = Ok b.
Proof.
  intros H B. unfold start_code4. destruct (at_ok data i) as (a & -> & _); [lia|]. cbn [obind]. destruct (negb _); [eauto|].
  destruct (at_ok data (i + 1)) as (b & -> & _); [lia|]. cbn [obind]. destruct (negb _); [eauto|].
  destruct (at_ok data (i + 2)) as (c & -> & _); [lia|]. destruct (at_ok data (i + 3)) as (d & -> & _); [lia|]. cbn [obind]. eauto.
Qed.
Lemma start_code3_ok data i : 0 <= i -> i + 2 < Zlen data -> exists b, start_code3 data i = Ok b.
Proof.
  intros H B. unfold start_code3. destruct (at_ok data i) as (a & -> & _); [lia|]. cbn [obind]. destruct (negb _); [eauto|].
  destruct (at_ok data (i + 1)) as (b & -> & _); [lia|]. cbn [obind]. destruct (negb _); [eauto|].
  destruct (at_ok data (i + 2)) as (c & -> & _); [lia|]. cbn [obind]. eauto.
Qed.

Definition nal_in (data : list Z) (start : Z) (r : outcome nal) : Prop :=
  match r with
  | Ok n => nal_start n = start /\ (nal_start_code_size n = 3 \/ nal_start_code_size n = 4) /\
            start + nal_start_code_size n <= nal_end n <= Zlen data
  | Throw e => e = RuntimeError
  | UB => False
  end.
Lemma find_loop_safe data start : 0 <= start <= Zlen data -> forall fuel index scs header,
  start <= index <= Zlen data -> (header <> 0 -> exists s, scs = Some s /\ (s = 3 \/ s = 4) /\ start + s <= index) ->
  (length data < fuel + Z.to_nat index)%nat ->
  exists r, find_loop fuel data start index scs header = Some r /\ nal_in data start r.
Proof.
  intros Hs. induction fuel as [|f IH]; intros index scs header Hi Hh F; [exfalso; unfold Zlen in *; lia|].
  cbn [find_loop]. destruct (Z.ltb_spec (index + 5) (Zlen data)) as [L|L].
  - destruct (start_code4_ok data index) as ([] & ->); [lia|lia| |].
    + destruct (Z.eqb_spec header 0) as [->|N].
      * destruct (at_ok data (index + 4)) as (h & -> & _); [lia|]. apply IH; [lia| |lia]. intros _. exists 4. split; [reflexivity|lia].
      * destruct (Hh N) as (s & -> & S1 & S2). eexists. split; [reflexivity|]. cbn. repeat split; try lia.
    + destruct (start_code3_ok data index) as ([] & ->); [lia|lia| |].
      * destruct (Z.eqb_spec header 0) as [->|N].
        -- destruct (at_ok data (index + 3)) as (h & -> & _); [lia|]. apply IH; [lia| |lia]. intros _. exists 3. split; [reflexivity|lia].
        -- destruct (Hh N) as (s & -> & S1 & S2). eexists. split; [reflexivity|]. cbn. repeat split; try lia.
      * destruct ((index =? start) && (header =? 0)) eqn:E; [eexists; split; [reflexivity|reflexivity]|].
        apply IH; [lia| |lia]. intros N. destruct (Hh N) as (s & -> & S1 & S2). exists s. repeat split; lia.
  - destruct (Z.eqb_spec header 0) as [->|N]; [eexists; split; [reflexivity|reflexivity]|].
    destruct (Hh N) as (s & -> & S1 & S2). eexists. split; [reflexivity|]. cbn. repeat split; try lia.
Qed.
Lemma find_next_safe data start : 0 <= start <= Zlen data -> exists r, find_next_nal_unit data start = Some r /\ nal_in data start r.
Proof. intros H. apply find_loop_safe; [exact H|lia|congruence|unfold Zlen in *; lia]. Qed.
Lemma nal_payload_ok data start n : 0 <= start -> nal_in data start (Ok n) -> exists p, nal_payload data n = Ok p.
Proof.
  intros H (A & B & C). unfold nal_payload. rewrite A. set (s := nal_end n - start - nal_start_code_size n).
  assert (0 <= s mod 2 ^ 64 <= s). { split; [apply Z.mod_pos_bound; lia|apply Z.mod_le; subst s; lia]. }
  replace ((0 <=? start + nal_start_code_size n) && (start + nal_start_code_size n + s mod 2 ^ 64 <=? Zlen data)) with true by (subst s; lia). eauto.
Qed.
Lemma split_loop_safe data : forall fuel start, 0 <= start <= Zlen data -> (length data < fuel + Z.to_nat start)%nat ->
  exists acts r, split_loop fuel data start = Some (acts, r) /\ (r = Ok tt \/ r = Throw RuntimeError).
Proof.
  induction fuel as [|f IH]; intros start H F; [exfalso; unfold Zlen in *; lia|]. cbn [split_loop].
  destruct (find_next_safe data start H) as (r & -> & Hr). destruct r as [n|e|]; [| |destruct Hr].
  2: { cbn in Hr. subst e. eauto. }
  destruct (nal_payload_ok data start n) as (p & ->); [lia|exact Hr|]. destruct Hr as (A & B & C).
  assert (Next : forall acts, exists a r, (if nal_end n >=? Zlen data then Some (acts, Ok tt)
     else match split_loop f data (nal_end n) with Some (r, o) => Some (acts ++ r, o) | None => None end) = Some (a, r) /\ (r = Ok tt \/ r = Throw RuntimeError)).
  { intros acts. destruct (Z.geb_spec (nal_end n) (Zlen data)); [eauto|]. destruct (IH (nal_end n)) as (a & r & -> & Hr); [lia|lia|]. eauto. }
  destruct (_ && _); [apply Next|]. destruct (_ =? 6); [apply Next|]. destruct (_ =? 7); [apply Next|]. destruct (_ =? 8); [apply Next|]. eauto.
Qed.
Theorem h264_split_total data : exists acts r, h264_split data = Some (acts, r) /\ (r = Ok tt \/ r = Throw RuntimeError).
Proof. apply split_loop_safe; [unfold Zlen; lia|lia]. Qed.

(** * Byte streams of NAL units (C35) *)
Lemma at_nth data i v : 0 <= i -> nth_error data (Z.to_nat i) = Some v -> at_ data i = Ok v.
Proof. intros H E. unfold at_. replace (i <? 0) with false by lia. rewrite E. reflexivity. Qed.
Definition oct (data : list Z) (i : Z) : Z := nth (Z.to_nat i) data 0.
Lemma at_oct data i : 0 <= i < Zlen data -> at_ data i = Ok (oct data i).
Proof. intros H. apply at_nth; [lia|]. apply nth_error_nth'. unfold Zlen in H. lia. Qed.
Lemma start_code4_eq data i : 0 <= i -> i + 3 < Zlen data ->
  start_code4 data i = Ok ((oct data i =? 0) && (oct data (i + 1) =? 0) && (oct data (i + 2) =? 0) && (oct data (i + 3) =? 1)).
Proof.
  intros H B. unfold start_code4. rewrite !at_oct by lia. cbn [obind]. destruct (oct data i =? 0); [|reflexivity]. cbn [negb].
  destruct (oct data (i + 1) =? 0); reflexivity.
Qed.
Lemma start_code3_eq data i : 0 <= i -> i + 2 < Zlen data ->
  start_code3 data i = Ok ((oct data i =? 0) && (oct data (i + 1) =? 0) && (oct data (i + 2) =? 1)).
Proof.
  intros H B. unfold start_code3. rewrite !at_oct by lia. cbn [obind]. destruct (oct data i =? 0); [|reflexivity]. cbn [negb].
  destruct (oct data (i + 1) =? 0); reflexivity.
Qed.
Lemma oct_mid pre p rest i : Zlen pre <= i < Zlen pre + Zlen p -> oct (pre ++ p ++ rest) i = nth (Z.to_nat (i - Zlen pre)) p 0.
Proof.
  intros H. unfold oct, Zlen in *. rewrite app_nth2 by lia. rewrite app_nth1 by lia. f_equal. lia.
Qed.
Lemma last_nth {A} (l : list A) d : l <> [] -> last l d = nth (length l - 1) l d.
Proof.
  intros H. destruct (exists_last H) as (l' & a & ->). rewrite last_last, app_length. cbn [length].
  rewrite app_nth2 by lia. replace (length l' + 1 - 1 - length l')%nat with 0%nat by lia. reflexivity.
Qed.
Lemma skipn_cons_nth {A} (d : A) l : forall k, (k < length l)%nat -> skipn k l = nth k l d :: skipn (S k) l.
Proof. induction l as [|x l IH]; intros [|k] H; cbn in H; try lia; [reflexivity|]. cbn [skipn nth]. apply IH. lia. Qed.
Lemma no_code_inside p k : (k + 2 < length p)%nat -> (forall a b, p <> a ++ [0; 0; 1] ++ b) ->
  ~ (nth k p 0 = 0 /\ nth (k + 1) p 0 = 0 /\ nth (k + 2) p 0 = 1).
Proof.
  intros L H (A & B & C). apply (H (firstn k p) (skipn (k + 3) p)). rewrite <- (firstn_skipn k p) at 1. f_equal.
  rewrite (skipn_cons_nth 0 p k), (skipn_cons_nth 0 p (S k)), (skipn_cons_nth 0 p (S (S k))) by lia.
  cbn [app]. replace (k + 3)%nat with (S (S (S k))) by lia. replace (k + 1)%nat with (S k) in B by lia. replace (k + 2)%nat with (S (S k)) in C by lia.
  rewrite A, B, C. reflexivity.
Qed.

(** no start code begins inside the octets of a NAL unit *)
Definition code3 (data : list Z) (i : Z) : bool := (oct data i =? 0) && (oct data (i + 1) =? 0) && (oct data (i + 2) =? 1).
Definition code4 (data : list Z) (i : Z) : bool := (oct data i =? 0) && (oct data (i + 1) =? 0) && (oct data (i + 2) =? 0) && (oct data (i + 3) =? 1).
Lemma no_code u pre rest i : unit_ok u -> let p := u_octets u in Zlen pre <= i < Zlen pre + Zlen p ->
  code3 (pre ++ p ++ rest) i = false /\ code4 (pre ++ p ++ rest) i = false.
Proof.
  intros (_ & (h & r & Hp & _) & Hl & Hn) p Hi. fold p in Hp, Hl, Hn. set (data := pre ++ p ++ rest).
  set (k := Z.to_nat (i - Zlen pre)). assert (Hk : (k < length p)%nat) by (unfold Zlen in *; lia).
  assert (P : forall j, (k + j < length p)%nat -> oct data (i + Z.of_nat j) = nth (k + j) p 0).
  { intros j Hj. unfold data. rewrite oct_mid by (unfold Zlen in *; lia). f_equal. lia. }
  pose proof (P 0%nat ltac:(lia)) as P0. rewrite Z.add_0_r, Nat.add_0_r in P0.
  assert (Hne : p <> []) by (rewrite Hp; congruence). rewrite last_nth in Hl by exact Hne.
  assert (Z1 : nth k p 0 = 0 -> (k + 1 < length p)%nat). { intros E. destruct (Nat.eq_dec (k + 1) (length p)); [|lia]. exfalso. apply Hl. replace (length p - 1)%nat with k by lia. exact E. }
  assert (Z2 : (k + 1 < length p)%nat -> nth (k + 1) p 0 = 0 -> (k + 2 < length p)%nat).
  { intros L E. destruct (Nat.eq_dec (k + 2) (length p)); [|lia]. exfalso. apply Hl. replace (length p - 1)%nat with (k + 1)%nat by lia. exact E. }
  unfold code3, code4. rewrite P0. destruct (Z.eqb_spec (nth k p 0) 0) as [E0|]; [|split; reflexivity]. specialize (Z1 E0).
  pose proof (P 1%nat Z1) as P1. change (Z.of_nat 1) with 1 in P1. rewrite P1. cbn [andb].
  destruct (Z.eqb_spec (nth (k + 1) p 0) 0) as [E1|]; [|split; reflexivity]. specialize (Z2 Z1 E1).
  pose proof (P 2%nat Z2) as P2. change (Z.of_nat 2) with 2 in P2. rewrite P2. cbn [andb]. split.
  - apply Z.eqb_neq. intros E2. apply (no_code_inside p k Z2 Hn). auto.
  - destruct (Z.eqb_spec (nth (k + 2) p 0) 0) as [E2|]; [|reflexivity]. cbn [andb].
    assert (Z3 : (k + 3 < length p)%nat). { destruct (Nat.eq_dec (k + 3) (length p)); [|lia]. exfalso. apply Hl. replace (length p - 1)%nat with (k + 2)%nat by lia. exact E2. }
    pose proof (P 3%nat Z3) as P3. change (Z.of_nat 3) with 3 in P3. rewrite P3. apply Z.eqb_neq. intros E3.
    apply (no_code_inside p (k + 1)); [lia|exact Hn|]. replace (k + 1 + 1)%nat with (k + 2)%nat by lia. replace (k + 1 + 2)%nat with (k + 3)%nat by lia. auto.
Qed.
(** what follows a unit: nothing, or another start code with at least six octets left *)
Definition follows (rest : list Z) : Prop := rest = [] \/ (5 < Zlen rest /\ exists four r, rest = start_code four ++ r).
Lemma code_seen data pre rest : data = pre ++ rest -> 5 < Zlen rest -> (exists four r, rest = start_code four ++ r) ->
  code4 data (Zlen pre) = true \/ code3 data (Zlen pre) = true.
Proof.
  intros -> B (four & r & ->). unfold code3, code4.
  assert (P : forall j, 0 <= j < 5 -> oct (pre ++ start_code four ++ r) (Zlen pre + j) = nth (Z.to_nat j) (start_code four ++ r) 0).
  { intros j Hj. rewrite <- (app_nil_r (start_code four ++ r)) at 1. rewrite oct_mid by lia. f_equal. lia. }
  pose proof (P 0 ltac:(lia)) as P0. rewrite Z.add_0_r in P0. rewrite P0, !P by lia. destruct four; [left|right]; reflexivity.
Qed.
Lemma scan_unit u pre rest : unit_ok u -> follows rest -> forall L start fuel index h,
  let p := u_octets u in let data := pre ++ p ++ rest in
  start < Zlen pre -> 0 <= start -> h <> 0 -> Zlen pre <= index <= Zlen pre + Zlen p -> (length data < fuel + Z.to_nat index)%nat ->
  find_loop fuel data start index (Some L) h = Some (Ok (mk_nal L start (Zlen pre + Zlen p) h)).
Proof.
  intros Hu Hf L start fuel. cbv zeta. set (p := u_octets u). set (data := pre ++ p ++ rest).
  assert (Ld : Zlen data = Zlen pre + Zlen p + Zlen rest) by (unfold data; rewrite !Zlen_app; lia).
  pose proof (Zlen_nonneg rest). pose proof (Zlen_nonneg pre). pose proof (Zlen_nonneg p).
  induction fuel as [|f IH]; intros index h Hs Hs0 Hh Hi F; [exfalso; unfold Zlen in *; lia|].
  cbn [find_loop].
  replace (h =? 0) with false by lia. destruct (Z.ltb_spec (index + 5) (Zlen data)) as [B|B].
  - rewrite start_code4_eq, start_code3_eq by lia. fold (code4 data index) (code3 data index).
    destruct (Z.eq_dec index (Zlen pre + Zlen p)) as [->|N].
    + destruct Hf as [->|(B2 & Hr)]; [exfalso; change (Zlen []) with 0 in *; lia|].
      assert (code4 data (Zlen (pre ++ p)) = true \/ code3 data (Zlen (pre ++ p)) = true) as C.
      { eapply code_seen; [unfold data; rewrite app_assoc; reflexivity|exact B2|exact Hr]. }
      rewrite Zlen_app in C. destruct (code4 data (Zlen pre + Zlen p)); [reflexivity|]. destruct C as [C|C]; [discriminate|]. rewrite C. reflexivity.
    + destruct (no_code u pre rest index Hu) as [C3 C4]; [fold p; lia|]. fold p in C3, C4. fold data in C3, C4. rewrite C3, C4.
      rewrite Bool.andb_false_r. apply IH; lia.
  - destruct Hf as [->|(B2 & _)]; [|exfalso; lia]. change (Zlen []) with 0 in Ld. rewrite Ld, Z.add_0_r. reflexivity.
Qed.
Lemma find_unit u pre rest : unit_ok u -> follows rest -> 5 < Zlen (start_code (u_four u) ++ u_octets u ++ rest) ->
  let data := pre ++ start_code (u_four u) ++ u_octets u ++ rest in
  let L := Zlen (start_code (u_four u)) in
  find_next_nal_unit data (Zlen pre) = Some (Ok (mk_nal L (Zlen pre) (Zlen pre + L + Zlen (u_octets u)) (hd 0 (u_octets u)))).
Proof.
  intros Hu Hf B. cbv zeta. set (data := pre ++ _). unfold find_next_nal_unit.
  assert (Ld : Zlen data = Zlen pre + Zlen (start_code (u_four u) ++ u_octets u ++ rest)) by (unfold data; rewrite Zlen_app; reflexivity).
  pose proof (Zlen_nonneg pre). pose proof Hu as (_ & (h & r & Hp & Hh) & _).
  rewrite Nat.add_1_r. cbn [find_loop]. replace (Zlen pre + 5 <? Zlen data) with true by lia.
  rewrite start_code4_eq, start_code3_eq by lia. fold (code4 data (Zlen pre)) (code3 data (Zlen pre)).
  assert (P : forall j, 0 <= j < 5 -> oct data (Zlen pre + j) = nth (Z.to_nat j) (start_code (u_four u) ++ u_octets u ++ rest) 0).
  { intros j Hj. unfold data. rewrite <- (app_nil_r (start_code (u_four u) ++ u_octets u ++ rest)) at 1. rewrite oct_mid by lia. f_equal. lia. }
  assert (Hd : hd 0 (u_octets u) = h) by (rewrite Hp; reflexivity). rewrite Hd.
  assert (Step : forall f, (length data < S f + Z.to_nat (Zlen pre))%nat ->
     find_loop f data (Zlen pre) (Zlen pre + Zlen (start_code (u_four u))) (Some (Zlen (start_code (u_four u)))) h =
     Some (Ok (mk_nal (Zlen (start_code (u_four u))) (Zlen pre) (Zlen pre + Zlen (start_code (u_four u)) + Zlen (u_octets u)) h))).
  { intros f Ff. unfold data. rewrite (app_assoc pre). rewrite <- Zlen_app. pose proof (Zlen_nonneg (u_octets u)).
    assert (3 <= Zlen (start_code (u_four u))) by (destruct (u_four u); cbn; lia).
    apply scan_unit; auto; try (rewrite Zlen_app; lia). unfold data in Ff. rewrite <- app_assoc. unfold Zlen in *. rewrite !app_length in *. destruct (u_four u); cbn [start_code length] in *; lia. }
  destruct (u_four u) eqn:Ef.
  - assert (C : code4 data (Zlen pre) = true).
    { unfold code4. pose proof (P 0 ltac:(lia)) as P0. rewrite Z.add_0_r in P0. rewrite P0, !P by lia. reflexivity. }
    rewrite C. cbn [Z.eqb]. rewrite at_oct by lia. assert (E : oct data (Zlen pre + 4) = h) by (rewrite P by lia; rewrite Hp; reflexivity). rewrite E.
    change 4 with (Zlen (start_code true)). apply Step. lia.
  - assert (C : code4 data (Zlen pre) = false /\ code3 data (Zlen pre) = true).
    { unfold code4, code3. pose proof (P 0 ltac:(lia)) as P0. rewrite Z.add_0_r in P0. rewrite P0, !P by lia. split; reflexivity. }
    destruct C as [C4 C3]. rewrite C4, C3. cbn [Z.eqb]. rewrite at_oct by lia. assert (E : oct data (Zlen pre + 3) = h) by (rewrite P by lia; rewrite Hp; reflexivity). rewrite E.
    change 3 with (Zlen (start_code false)). apply Step. lia.
Qed.

Lemma payload_unit u pre rest h : let data := pre ++ start_code (u_four u) ++ u_octets u ++ rest in
  let L := Zlen (start_code (u_four u)) in Zlen data < 2 ^ 64 ->
  nal_payload data (mk_nal L (Zlen pre) (Zlen pre + L + Zlen (u_octets u)) h) = Ok (u_octets u).
Proof.
  cbv zeta. intros B. unfold nal_payload. cbn [nal_start nal_start_code_size nal_end].
  pose proof (Zlen_nonneg pre). pose proof (Zlen_nonneg (u_octets u)). pose proof (Zlen_nonneg rest). pose proof (Zlen_nonneg (start_code (u_four u))).
  rewrite !Zlen_app in *. set (L := Zlen (start_code (u_four u))) in *.
  replace (Zlen pre + L + Zlen (u_octets u) - Zlen pre - L) with (Zlen (u_octets u)) by lia. rewrite Z.mod_small by lia.
  replace ((0 <=? Zlen pre + L) && (Zlen pre + L + Zlen (u_octets u) <=? Zlen pre + (L + (Zlen (u_octets u) + Zlen rest)))) with true by lia.
  rewrite app_assoc, skipn_exact by (rewrite app_length; unfold L, Zlen; lia). rewrite firstn_exact by (unfold Zlen; lia). reflexivity.
Qed.
Lemma length_prefixed_avc p : length_prefixed p = avc_sample p.
Proof.
  unfold length_prefixed, avc_sample. f_equal. rewrite <- uint32_to_be_octets. unfold uint32_to_be, to_u.
  rewrite !land255. change (2 ^ 8) with 256. reflexivity.
Qed.
Lemma nal_type_land p : Z.land (hd 0 p) 31 = nal_type p.
Proof. unfold nal_type. change 31 with (Z.ones 5). rewrite Z.land_ones by lia. reflexivity. Qed.
Lemma annexb_cons u l : annexb (u :: l) = start_code (u_four u) ++ u_octets u ++ annexb l.
Proof. unfold annexb. cbn [flat_map]. rewrite app_assoc. reflexivity. Qed.
Lemma annexb_ge l : access_unit_ok l -> 5 < Zlen (annexb l).
Proof.
  intros (_ & l' & u & -> & H). unfold annexb. rewrite flat_map_app. cbn [flat_map]. rewrite app_nil_r, Zlen_app. unfold last_unit_ok in H.
  pose proof (Zlen_nonneg (flat_map (fun u => start_code (u_four u) ++ u_octets u) l')). lia.
Qed.
Lemma access_tail u l : access_unit_ok (u :: l) -> l = [] \/ access_unit_ok l.
Proof.
  intros (F & l' & x & E & H). destruct l as [|y l]; [auto|]. right. inversion F; subst. split; [assumption|]. destruct l' as [|z l']; [discriminate|].
  cbn [app] in E. injection E as _ E. eauto.
Qed.
Lemma split_units : forall units pre fuel, access_unit_ok units -> let data := pre ++ annexb units in Zlen data < 2 ^ 64 ->
  (length data < fuel + length pre)%nat -> split_loop fuel data (Zlen pre) = Some (expected_actions units).
Proof.
  induction units as [|u l IH]; intros pre fuel H; cbv zeta; intros B F.
  { exfalso. destruct H as (_ & l & x & E & _). destruct l; discriminate. }
  destruct fuel as [|f]; [exfalso; rewrite app_length in F; lia|].
  pose proof (annexb_ge _ H) as G. rewrite annexb_cons in *. pose proof H as ((Hu & _)%Forall_cons_iff & _).
  assert (Hf : follows (annexb l)).
  { destruct (access_tail u l H) as [->|Hl]; [left; reflexivity|]. right. split; [apply annexb_ge; exact Hl|]. destruct l as [|y l]; [destruct Hl as (_ & l' & x & E & _); destruct l'; discriminate|].
    rewrite annexb_cons. eauto. }
  cbn [split_loop]. rewrite (find_unit u pre (annexb l) Hu Hf G). cbn [nal_header nal_end]. rewrite nal_type_land, payload_unit by exact B.
  set (data := pre ++ _) in *. set (L := Zlen (start_code (u_four u))).
  assert (Next : forall acts, (if Zlen pre + L + Zlen (u_octets u) >=? Zlen data then Some (acts, Ok tt)
    else match split_loop f data (Zlen pre + L + Zlen (u_octets u)) with Some (r, o) => Some (acts ++ r, o) | None => None end) =
    Some (acts ++ fst (expected_actions l), snd (expected_actions l))).
  { intros acts. assert (Ld : Zlen data = Zlen pre + L + Zlen (u_octets u) + Zlen (annexb l)) by (unfold data, L; rewrite !Zlen_app; lia). rewrite Ld.
    destruct (access_tail u l H) as [->|Hl].
    - replace (_ >=? _) with true by (change (Zlen (annexb [])) with 0; lia). cbn [expected_actions fst snd]. rewrite app_nil_r. reflexivity.
    - pose proof (annexb_ge _ Hl). replace (_ >=? _) with false by lia.
      assert (Ed : data = (pre ++ start_code (u_four u) ++ u_octets u) ++ annexb l) by (unfold data; rewrite <- !app_assoc; reflexivity).
      replace (Zlen pre + L + Zlen (u_octets u)) with (Zlen (pre ++ start_code (u_four u) ++ u_octets u)) by (rewrite !Zlen_app; unfold L; lia).
      rewrite Ed, IH; [destruct (expected_actions l); reflexivity|exact Hl|rewrite <- Ed; exact B|].
      rewrite <- Ed. rewrite !app_length. assert (3 <= length (start_code (u_four u)))%nat by (destruct (u_four u); cbn; lia). lia. }
  cbn [expected_actions]. rewrite length_prefixed_avc. destruct (expected_actions l) as [acts r] eqn:E. cbn [fst snd] in Next.
  destruct (_ && _); [rewrite Next; reflexivity|]. destruct (_ =? 6); [rewrite Next; reflexivity|]. destruct (_ =? 7); [rewrite Next; reflexivity|].
  destruct (_ =? 8); [rewrite Next; reflexivity|reflexivity].
Qed.
Theorem h264_split_units units : access_unit_ok units -> Zlen (annexb units) < 2 ^ 64 -> h264_split (annexb units) = Some (expected_actions units).
Proof. intros H B. apply (split_units units [] _ H); [exact B|cbn [app length]; lia]. Qed.
