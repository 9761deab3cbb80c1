(** Proofs about the NAL unit scanner on arbitrary buffers (C72). *)
From Verif Require Import Base BitIO BitFacts BitIOProofs Boxes Box BoxTree TreeSpec TreeProofs H264 AnnexBSpec H264Proofs ScanSpec.

Lemma oct_cons data i : 0 <= i < Zlen data -> skipn (Z.to_nat i) data = oct data i :: skipn (Z.to_nat (i + 1)) data.
Proof. intros H. unfold oct. rewrite (skipn_cons_nth 0) by (unfold Zlen in H; lia). f_equal. f_equal. lia. Qed.
Lemma code3_skipn data i : 0 <= i -> i + 2 < Zlen data -> code3 data i = true -> skipn (Z.to_nat i) data = [0; 0; 1] ++ skipn (Z.to_nat (i + 3)) data.
Proof.
  intros I B C. unfold code3 in C. rewrite (oct_cons data i), (oct_cons data (i + 1)), (oct_cons data (i + 1 + 1)) by lia.
  replace (i + 1 + 1) with (i + 2) by lia. replace (i + 2 + 1) with (i + 3) by lia.
  replace (oct data i) with 0 by lia. replace (oct data (i + 1)) with 0 by lia. replace (oct data (i + 2)) with 1 by lia. reflexivity.
Qed.
Lemma code4_skipn data i : 0 <= i -> i + 3 < Zlen data -> code4 data i = true -> skipn (Z.to_nat i) data = [0; 0; 0; 1] ++ skipn (Z.to_nat (i + 4)) data.
Proof.
  intros I B C. assert (C3 : code3 data (i + 1) = true) by (unfold code4, code3 in *; replace (i + 1 + 1) with (i + 2) by lia; replace (i + 1 + 2) with (i + 3) by lia; lia).
  rewrite (oct_cons data i) by lia. rewrite (code3_skipn data (i + 1)) by (try lia; exact C3). replace (i + 1 + 3) with (i + 4) by lia.
  unfold code4 in C. replace (oct data i) with 0 by lia. reflexivity.
Qed.
Lemma oct_skipn data s k x r : 0 <= s -> (k < length x)%nat -> skipn (Z.to_nat s) data = x ++ r -> oct data (s + Z.of_nat k) = nth k x 0.
Proof.
  intros S0 K E. unfold oct. replace (Z.to_nat (s + Z.of_nat k)) with (Z.to_nat s + k)%nat by lia.
  rewrite <- (firstn_skipn (Z.to_nat s) data), E.
  assert (L : length (firstn (Z.to_nat s) data) = Z.to_nat s).
  { apply firstn_length_le. apply (f_equal (@length Z)) in E. rewrite skipn_length, app_length in E. lia. }
  rewrite app_nth2 by lia. rewrite L. replace (Z.to_nat s + k - Z.to_nat s)%nat with k by lia. apply app_nth1. exact K.
Qed.
Lemma skipn_code3 data s r : 0 <= s -> skipn (Z.to_nat s) data = [0; 0; 1] ++ r -> code3 data s = true.
Proof.
  intros S0 E. unfold code3. pose proof (oct_skipn data s 0 [0; 0; 1] _ S0 ltac:(cbn; lia) E) as A. pose proof (oct_skipn data s 1 [0; 0; 1] _ S0 ltac:(cbn; lia) E) as B.
  pose proof (oct_skipn data s 2 [0; 0; 1] _ S0 ltac:(cbn; lia) E) as C. cbn [nth] in *. change (Z.of_nat 0) with 0 in A. change (Z.of_nat 1) with 1 in B. change (Z.of_nat 2) with 2 in C.
  rewrite Z.add_0_r in A. rewrite A, B, C. reflexivity.
Qed.
Lemma skipn_code4 data s r : 0 <= s -> skipn (Z.to_nat s) data = [0; 0; 0; 1] ++ r -> code4 data s = true.
Proof.
  intros S0 E. unfold code4. pose proof (oct_skipn data s 0 [0; 0; 0; 1] _ S0 ltac:(cbn; lia) E) as A. pose proof (oct_skipn data s 1 [0; 0; 0; 1] _ S0 ltac:(cbn; lia) E) as B.
  pose proof (oct_skipn data s 2 [0; 0; 0; 1] _ S0 ltac:(cbn; lia) E) as C. pose proof (oct_skipn data s 3 [0; 0; 0; 1] _ S0 ltac:(cbn; lia) E) as D.
  cbn [nth] in *. change (Z.of_nat 0) with 0 in A. change (Z.of_nat 1) with 1 in B. change (Z.of_nat 2) with 2 in C. change (Z.of_nat 3) with 3 in D.
  rewrite Z.add_0_r in A. rewrite A, B, C, D. reflexivity.
Qed.

(** * What one search finds *)
Definition coded (data : list Z) (i : Z) : Prop := code4 data i = true \/ code3 data i = true.
(** the search for the end of a unit whose header is known *)
Lemma find_end data start : 0 <= start -> forall fuel index s h, start < index <= Zlen data -> h <> 0 -> (length data < fuel + Z.to_nat index)%nat ->
  exists e, find_loop fuel data start index (Some s) h = Some (Ok (mk_nal s start e h)) /\ index <= e <= Zlen data /\
    (e = Zlen data \/ (e + 5 < Zlen data /\ coded data e)) /\ forall j, index <= j < e -> j + 5 < Zlen data -> ~ coded data j.
Proof.
  intros S0. induction fuel as [|f IH]; intros index s h Hi Hh F; [exfalso; unfold Zlen in *; lia|]. cbn [find_loop]. replace (h =? 0) with false by lia.
  destruct (Z.ltb_spec (index + 5) (Zlen data)) as [B|B].
  - rewrite start_code4_eq, start_code3_eq by lia. fold (code4 data index) (code3 data index).
    destruct (code4 data index) eqn:C4.
    { exists index. split; [reflexivity|]. split; [lia|]. split; [right; split; [lia|left; exact C4]|]. intros; lia. }
    destruct (code3 data index) eqn:C3.
    { exists index. split; [reflexivity|]. split; [lia|]. split; [right; split; [lia|right; exact C3]|]. intros; lia. }
    rewrite andb_false_r. destruct (IH (index + 1) s h ltac:(lia) Hh ltac:(lia)) as (e & E & R & O & N). exists e. split; [exact E|]. split; [lia|]. split; [exact O|].
    intros j Hj Bj. destruct (Z.eq_dec j index) as [->|D]; [unfold coded; rewrite C4, C3; intros [X|X]; discriminate|]. apply N; lia.
  - exists (Zlen data). split; [reflexivity|]. split; [lia|]. split; [left; reflexivity|]. intros; lia.
Qed.
Definition code_size (data : list Z) (start : Z) : Z := if code4 data start then 4 else 3.
Lemma find_known data start : 0 <= start <= Zlen data -> no_null_unit data ->
  (start + 5 < Zlen data /\ coded data start /\ exists e h, find_next_nal_unit data start = Some (Ok (mk_nal (code_size data start) start e h)) /\
     h = oct data (start + code_size data start) /\ start + code_size data start < e <= Zlen data /\
     (e = Zlen data \/ (e + 5 < Zlen data /\ coded data e)) /\ forall j, start + code_size data start <= j < e -> j + 5 < Zlen data -> ~ coded data j) \/
  (~ (start + 5 < Zlen data /\ coded data start) /\ find_next_nal_unit data start = Some (Throw RuntimeError)).
Proof.
  intros S0 NN. unfold find_next_nal_unit. rewrite Nat.add_1_r. cbn [find_loop]. cbn [Z.eqb].
  destruct (Z.ltb_spec (start + 5) (Zlen data)) as [B|B].
  2:{ right. split; [lia|]. reflexivity. }
  rewrite start_code4_eq, start_code3_eq by lia. fold (code4 data start) (code3 data start).
  assert (NZ : forall i, 0 <= i -> i + 3 < Zlen data -> code3 data i = true -> oct data (i + 3) <> 0).
  { intros i I Bi C Zr. apply (NN (firstn (Z.to_nat i) data) (skipn (Z.to_nat (i + 4)) data)).
    rewrite <- (firstn_skipn (Z.to_nat i) data) at 1. f_equal. rewrite (code3_skipn data i) by (try lia; exact C). rewrite (oct_cons data (i + 3)) by lia. rewrite Zr. replace (i + 3 + 1) with (i + 4) by lia. reflexivity. }
  assert (Step : forall s, (s = 3 \/ s = 4) -> code_size data start = s -> coded data start -> oct data (start + s) <> 0 ->
    (start + 5 < Zlen data /\ coded data start /\ exists e h, match at_ data (start + s) with Ok h => find_loop (length data) data start (start + s) (Some s) h | _ => Some UB end = Some (Ok (mk_nal (code_size data start) start e h)) /\
     h = oct data (start + code_size data start) /\ start + code_size data start < e <= Zlen data /\
     (e = Zlen data \/ (e + 5 < Zlen data /\ coded data e)) /\ forall j, start + code_size data start <= j < e -> j + 5 < Zlen data -> ~ coded data j)).
  { intros s Hs Cs Cd Hz. split; [lia|]. split; [exact Cd|]. rewrite Cs. rewrite at_oct by lia.
    destruct (find_end data start (proj1 S0) (length data) (start + s) s (oct data (start + s)) ltac:(lia) Hz ltac:(unfold Zlen in *; lia)) as (e & E & R & O & N).
    exists e, (oct data (start + s)). split; [exact E|]. split; [reflexivity|].
    assert (start + s <> e).
    { intros X. destruct O as [O|[O [O'|O']]]; [lia| |]; rewrite <- X in O'; unfold code4, code3 in O'; lia. }
    split; [lia|]. split; assumption. }
  destruct (code4 data start) eqn:C4.
  { left. apply Step; [lia|unfold code_size; rewrite C4; reflexivity|left; exact C4|].
    assert (C3 : code3 data (start + 1) = true) by (unfold code4, code3 in *; replace (start + 1 + 1) with (start + 2) by lia; replace (start + 1 + 2) with (start + 3) by lia; lia).
    replace (start + 4) with (start + 1 + 3) by lia. apply NZ; [lia|lia|exact C3]. }
  destruct (code3 data start) eqn:C3.
  { left. apply Step; [lia|unfold code_size; rewrite C4; reflexivity|right; exact C3|]. apply NZ; [lia|lia|exact C3]. }
  right. split; [unfold coded; rewrite C4, C3; intros [_ [X|X]]; discriminate|]. rewrite Z.eqb_refl. reflexivity.
Qed.

(** * All the units *)
Definition unit_at (data : list Z) (start e : Z) : unit_ :=
  mk_unit (code4 data start) (firstn (Z.to_nat (e - start - code_size data start)) (skipn (Z.to_nat (start + code_size data start)) data)).
Lemma unit_split data start e : 0 <= start -> start + 5 < Zlen data -> coded data start -> start + code_size data start < e <= Zlen data ->
  skipn (Z.to_nat start) data = start_code (u_four (unit_at data start e)) ++ u_octets (unit_at data start e) ++ skipn (Z.to_nat e) data /\
  Zlen (start_code (u_four (unit_at data start e))) = code_size data start /\ Zlen (u_octets (unit_at data start e)) = e - start - code_size data start.
Proof.
  intros S0 B C R. unfold unit_at, code_size in *. cbn [u_four u_octets].
  assert (E : forall s, 0 <= s -> s <= e -> firstn (Z.to_nat (e - s)) (skipn (Z.to_nat s) data) ++ skipn (Z.to_nat e) data = skipn (Z.to_nat s) data).
  { intros s A1 A2. rewrite <- (firstn_skipn (Z.to_nat (e - s)) (skipn (Z.to_nat s) data)) at 2. f_equal. rewrite skipn_skipn. f_equal. lia. }
  assert (Lu : forall s, 0 <= s -> s <= e -> Zlen (firstn (Z.to_nat (e - s)) (skipn (Z.to_nat s) data)) = e - s).
  { intros s A1 A2. unfold Zlen in *. rewrite firstn_length, skipn_length. lia. }
  destruct (code4 data start) eqn:C4.
  - rewrite (code4_skipn data start S0) by (try lia; exact C4). replace (e - start - 4) with (e - (start + 4)) by lia. rewrite E by lia. rewrite Lu by lia. repeat split; cbn; lia.
  - destruct C as [C|C]; [rewrite C in C4; discriminate|]. rewrite (code3_skipn data start S0) by (try lia; exact C). replace (e - start - 3) with (e - (start + 3)) by lia. rewrite E by lia. rewrite Lu by lia. repeat split; cbn; lia.
Qed.
Lemma unit_header data start e : 0 <= start -> start + 5 < Zlen data -> coded data start -> start + code_size data start < e <= Zlen data ->
  exists r, u_octets (unit_at data start e) = oct data (start + code_size data start) :: r.
Proof.
  intros S0 B C R. unfold unit_at. cbn [u_octets]. assert (code_size data start = 3 \/ code_size data start = 4) by (unfold code_size; destruct (code4 _ _); lia).
  rewrite (oct_cons data (start + code_size data start)) by lia. replace (Z.to_nat (e - start - code_size data start)) with (S (Z.to_nat (e - start - code_size data start - 1))) by lia.
  cbn [firstn]. eexists. reflexivity.
Qed.
Lemma skipn_at_0 {A} (l : list A) k x r : skipn k l = x ++ r -> skipn (k + length x) l = r.
Proof. intros E. rewrite <- skipn_skipn, E. apply skipn_exact. reflexivity. Qed.

Lemma split_any data : Zlen data < 2 ^ 64 -> no_null_unit data -> forall fuel start, 0 <= start <= Zlen data -> (length data < fuel + Z.to_nat start)%nat ->
  exists units rest r, split_loop fuel data start = Some (fst (expected_actions units), r) /\ skipn (Z.to_nat start) data = annexb units ++ rest /\
    Forall known_unit units /\ maximal units rest /\
    ((r = Ok tt /\ rest = [] /\ units <> []) \/ (r = Throw RuntimeError /\ ~ starts_unit rest /\ (units = [] \/ rest <> []))).
Proof.
  intros L64 NN. induction fuel as [|f IH]; intros start S0 F; [exfalso; unfold Zlen in *; lia|]. cbn [split_loop].
  assert (Stop : forall four h r, skipn (Z.to_nat start) data = start_code four ++ h :: r -> 6 <= Zlen (skipn (Z.to_nat start) data) ->
            start + 5 < Zlen data /\ coded data start /\ h = oct data (start + code_size data start)).
  { intros four h r E B. assert (start + 5 < Zlen data) by (unfold Zlen in *; rewrite skipn_length in B; lia). split; [lia|]. destruct four.
    - pose proof (skipn_code4 data start (h :: r) ltac:(lia) E) as C. split; [left; exact C|]. unfold code_size. rewrite C.
      pose proof (oct_skipn data start 4 [0; 0; 0; 1; h] r ltac:(lia) ltac:(cbn; lia) E) as O. cbn [nth] in O. change (Z.of_nat 4) with 4 in O. symmetry. exact O.
    - pose proof (skipn_code3 data start (h :: r) ltac:(lia) E) as C. split; [right; exact C|]. unfold code_size.
      assert (C4 : code4 data start = false) by (unfold code4, code3 in *; lia). rewrite C4.
      pose proof (oct_skipn data start 3 [0; 0; 1; h] r ltac:(lia) ltac:(cbn; lia) E) as O. cbn [nth] in O. change (Z.of_nat 3) with 3 in O. symmetry. exact O. }
  destruct (find_known data start S0 NN) as [(B & C & e & h & E & Eh & R & O & N)|(B & E)]; rewrite E.
  2:{ exists [], (skipn (Z.to_nat start) data), (Throw RuntimeError). split; [reflexivity|]. split; [reflexivity|]. split; [constructor|]. split; [exact I|]. right. split; [reflexivity|]. split; [|left; reflexivity].
      intros (four & h & r & E' & B6 & T). apply B. destruct (Stop four h r E' B6) as (X & Y & _). split; assumption. }
  destruct (unit_split data start e ltac:(lia) B C R) as (U1 & U2 & U3). destruct (unit_header data start e ltac:(lia) B C R) as (tl & U4).
  set (u := unit_at data start e) in *. rewrite <- Eh in U4.
  assert (Cs : code_size data start = 3 \/ code_size data start = 4) by (unfold code_size; destruct (code4 _ _); lia).
  assert (Py : nal_payload data (mk_nal (code_size data start) start e h) = Ok (u_octets u)).
  { unfold nal_payload. cbn [nal_start nal_start_code_size nal_end]. rewrite Z.mod_small by lia.
    replace ((0 <=? start + code_size data start) && (start + code_size data start + (e - start - code_size data start) <=? Zlen data)) with true by lia. reflexivity. }
  rewrite Py. cbn [nal_end nal_header]. rewrite length_prefixed_avc.
  assert (Nt : Z.land h 31 = nal_type (u_octets u)) by (rewrite <- nal_type_land, U4; reflexivity). rewrite Nt.
  assert (Hm : h mod 32 = nal_type (u_octets u)) by (unfold nal_type; rewrite U4; reflexivity).
  assert (Rest : exists units rest r, (if e >=? Zlen data then Some ([], Ok tt) else match split_loop f data e with Some (r, o) => Some (r, o) | None => None end) = Some (fst (expected_actions units), r) /\
     skipn (Z.to_nat e) data = annexb units ++ rest /\ Forall known_unit units /\ maximal units rest /\ ((r = Ok tt /\ rest = []) \/ (r = Throw RuntimeError /\ ~ starts_unit rest /\ rest <> []))).
  { destruct (Z.geb_spec e (Zlen data)) as [G|G].
    - exists [], [], (Ok tt). split; [reflexivity|]. split; [rewrite skipn_all2 by (unfold Zlen in *; lia); reflexivity|]. split; [constructor|]. split; [exact I|]. left. split; reflexivity.
    - destruct (IH e ltac:(lia) ltac:(lia)) as (units & rest & r & E1 & E2 & E3 & E4 & E5). exists units, rest, r. rewrite E1. split; [reflexivity|]. split; [exact E2|]. split; [exact E3|]. split; [exact E4|].
      destruct E5 as [(E5 & E6 & _)|(E5 & E6 & E7)]; [left; split; assumption|right]. split; [exact E5|]. split; [exact E6|]. destruct E7 as [->|E7]; [|exact E7].
      cbn [annexb flat_map app] in E2. rewrite <- E2. rewrite (oct_cons data e) by lia. discriminate. }
  destruct Rest as (units & rest & r & E1 & E2 & E3 & E4 & E5).
  assert (Mx : maximal (u :: units) rest).
  { cbn [maximal]. cbv zeta. rewrite <- E2. split; [rewrite <- U1; unfold Zlen in *; rewrite skipn_length; lia|]. split; [|split; [|split; [|exact E4]]].
    - destruct O as [O|[O C']]; [left; apply skipn_all2; unfold Zlen in *; lia|]. right. split; [unfold Zlen in *; rewrite skipn_length; lia|].
      destruct C' as [C'|C']; [exists true|exists false]; eexists; [apply code4_skipn|apply code3_skipn]; try lia; exact C'.
    - intros four a b Ea. destruct (Z_le_gt_dec (Zlen (start_code four ++ b ++ skipn (Z.to_nat e) data)) 5) as [G|G]; [exact G|]. exfalso.
      assert (Es : skipn (Z.to_nat (start + code_size data start + Zlen a)) data = start_code four ++ b ++ skipn (Z.to_nat e) data).
      { rewrite Ea in U1. rewrite <- !app_assoc, app_assoc in U1. apply skipn_at_0 in U1. rewrite <- U1. f_equal. rewrite app_length. unfold Zlen in *. lia. }
      assert (Lf : 3 <= Zlen (start_code four)) by (destruct four; cbn; lia).
      assert (La : Zlen a + 3 <= Zlen (u_octets u)) by (rewrite Ea, !Zlen_app; pose proof (Zlen_nonneg b); lia). pose proof (Zlen_nonneg a).
      assert (Ld : Zlen (start_code four ++ b ++ skipn (Z.to_nat e) data) = Zlen data - (start + code_size data start + Zlen a)) by (rewrite <- Es; unfold Zlen in *; rewrite skipn_length; lia).
      apply (N (start + code_size data start + Zlen a)); [lia|lia|]. destruct four; [left; eapply skipn_code4; [lia|exact Es]|right; eapply skipn_code3; [lia|exact Es]].
    - intros Lz r0 Er. assert (Eb : e + 5 < Zlen data).
      { destruct O as [O|[O _]]; [|exact O]. exfalso. rewrite skipn_all2 in Er by (unfold Zlen in *; lia). discriminate. }
      assert (C3 : code3 data e = true) by (eapply skipn_code3; [lia|exact Er]).
      assert (Oz : oct data (e - 1) = 0).
      { destruct (exists_last (l := u_octets u) ltac:(rewrite U4; discriminate)) as (l' & z & El). rewrite El in U1, U3, Lz. rewrite last_last in Lz. subst z. rewrite Zlen_app in U3. change (Zlen [0]) with 1 in U3.
        rewrite <- !app_assoc, app_assoc in U1. apply skipn_at_0 in U1. rewrite app_length in U1.
        replace (Z.to_nat start + (length (start_code (u_four u)) + length l'))%nat with (Z.to_nat (e - 1)) in U1 by (unfold Zlen in *; lia).
        pose proof (oct_skipn data (e - 1) 0 [0] _ ltac:(lia) ltac:(cbn; lia) U1) as X. change (Z.of_nat 0) with 0 in X. rewrite Z.add_0_r in X. exact X. }
      apply (N (e - 1)); [lia|lia|]. left. unfold code4. replace (e - 1 + 1) with e by lia. replace (e - 1 + 2) with (e + 1) by lia. replace (e - 1 + 3) with (e + 2) by lia. unfold code3 in C3. lia. }
  assert (Go : forall acts, expected_actions (u :: units) = (acts ++ fst (expected_actions units), snd (expected_actions units)) -> 1 <= nal_type (u_octets u) <= 8 ->
    exists units0 rest0 r0, (if e >=? Zlen data then Some (acts, Ok tt) else match split_loop f data e with Some (r, o) => Some (acts ++ r, o) | None => None end) = Some (fst (expected_actions units0), r0) /\
      skipn (Z.to_nat start) data = annexb units0 ++ rest0 /\ Forall known_unit units0 /\ maximal units0 rest0 /\ ((r0 = Ok tt /\ rest0 = [] /\ units0 <> []) \/ (r0 = Throw RuntimeError /\ ~ starts_unit rest0 /\ (units0 = [] \/ rest0 <> [])))).
  { intros acts Ea Kn. exists (u :: units), rest, r. rewrite Ea. cbn [fst]. split.
    { destruct (e >=? Zlen data); [injection E1 as E1a E1b; rewrite <- E1a, <- E1b, app_nil_r; reflexivity|].
      destruct (split_loop f data e) as [[a o]|]; [injection E1 as E1a E1b; rewrite <- E1a, <- E1b; reflexivity|discriminate]. }
    split; [rewrite annexb_cons, <- !app_assoc, <- E2; exact U1|]. split; [constructor; [exists h, tl; split; [exact U4|lia]|exact E3]|]. split; [exact Mx|].
    destruct E5 as [[E5 E6]|(E5 & E6 & E7)]; [left; split; [exact E5|split; [exact E6|discriminate]]|right; split; [exact E5|split; [exact E6|right; exact E7]]]. }
  set (n := nal_type (u_octets u)) in *. clear Mx.
  assert (Ex : expected_actions (u :: units) =
      let (acts, r) := expected_actions units in
      if (1 <=? n) && (n <=? 5) then (StoreSample (avc_sample (u_octets u)) :: acts, r) else if n =? 6 then (acts, r)
      else if n =? 7 then (AppendSPS (u_octets u) :: acts, r) else if n =? 8 then (AppendPPS (u_octets u) :: acts, r) else ([], Throw RuntimeError)) by reflexivity.
  destruct (expected_actions units) as [acts' r'] eqn:Eu. cbn [fst snd] in *.
  destruct ((1 <=? n) && (n <=? 5)) eqn:T1; [apply Go; [exact Ex|lia]|].
  destruct (n =? 6) eqn:T6; [apply Go; [exact Ex|lia]|].
  destruct (n =? 7) eqn:T7; [apply Go; [exact Ex|lia]|].
  destruct (n =? 8) eqn:T8; [apply Go; [exact Ex|lia]|].
  exists [], (skipn (Z.to_nat start) data), (Throw RuntimeError). split; [reflexivity|]. split; [reflexivity|]. split; [constructor|]. split; [exact I|]. right. split; [reflexivity|]. split; [|left; reflexivity].
  intros (four & h' & r'' & E' & B6 & T). destruct (Stop four h' r'' E' B6) as (_ & _ & X). rewrite <- X in Eh. rewrite <- Eh in T. lia.
Qed.
Lemma known_actions units : Forall known_unit units -> snd (expected_actions units) = Ok tt.
Proof.
  induction 1 as [|u l (h & r & Hu & Ht) H IH]; [reflexivity|]. cbn [expected_actions]. destruct (expected_actions l) as [acts o]. cbn [snd] in *. subst o.
  assert (En : nal_type (u_octets u) = h mod 32) by (rewrite Hu; reflexivity). rewrite En.
  destruct ((1 <=? h mod 32) && (h mod 32 <=? 5)) eqn:E1; [reflexivity|]. destruct (h mod 32 =? 6) eqn:E6; [reflexivity|]. destruct (h mod 32 =? 7) eqn:E7; [reflexivity|].
  destruct (h mod 32 =? 8) eqn:E8; [reflexivity|]. exfalso. lia.
Qed.
Lemma split_any_buffer data : Zlen data < 2 ^ 64 -> no_null_unit data ->
  exists units rest r, h264_split data = Some (fst (expected_actions units), r) /\ data = annexb units ++ rest /\ Forall known_unit units /\ maximal units rest /\
    ((r = Ok tt /\ rest = [] /\ units <> []) \/ (r = Throw RuntimeError /\ ~ starts_unit rest /\ (units = [] \/ rest <> []))).
Proof. intros L NN. apply (split_any data L NN (length data + 1) 0); [unfold Zlen; lia|lia]. Qed.

(** * There is only one such decomposition *)
Lemma start_code_inj f f' a a' : start_code f ++ a = start_code f' ++ a' -> f = f' /\ a = a'.
Proof. destruct f, f'; cbn [start_code app]; intros E; injection E; intros; subst; try discriminate; auto. Qed.
(** a unit cannot be shorter than another in the same place *)
Lemma no_shorter (u v A B : list Z) : u ++ A = v ++ B -> (length u < length v)%nat ->
  (A = [] \/ (6 <= Zlen A /\ exists four r, A = start_code four ++ r)) -> (B = [] \/ (6 <= Zlen B /\ exists four r, B = start_code four ++ r)) ->
  (forall four a b, v = a ++ start_code four ++ b -> Zlen (start_code four ++ b ++ B) <= 5) -> (last v 0 = 0 -> forall r, B <> [0; 0; 1] ++ r) -> False.
Proof.
  intros E L FA FB M1 M2.
  assert (W : exists w, v = u ++ w /\ A = w ++ B).
  { exists (skipn (length u) v). assert (Eu : firstn (length u) v = u).
    { apply (f_equal (firstn (length u))) in E. rewrite firstn_exact in E by reflexivity. rewrite firstn_app in E. replace (length u - length v)%nat with 0%nat in E by lia. cbn [firstn] in E. rewrite app_nil_r in E. symmetry. exact E. }
    split; [rewrite <- Eu at 1; symmetry; apply firstn_skipn|]. rewrite <- (firstn_skipn (length u) v), Eu, <- app_assoc in E. apply app_inv_head in E. exact E. }
  destruct W as (w & -> & EA). rewrite app_length in L.
  assert (B0 : forall b r, B = b :: r -> b = 0) by (intros b r Eb; destruct FB as [->|(_ & f & r' & ->)]; [discriminate|]; destruct f; cbn in Eb; congruence).
  assert (B1 : forall b c r, B = b :: c :: r -> c = 0) by (intros b c r Eb; destruct FB as [->|(_ & f & r' & ->)]; [discriminate|]; destruct f; cbn in Eb; congruence).
  destruct FA as [->|(A6 & four & r & ->)]; [destruct w; [cbn in L; lia|discriminate]|].
  pose proof EA as EA'.
  destruct four; cbn [start_code app] in EA.
  - destruct w as [|w0 [|w1 [|w2 [|w3 w]]]]; cbn [app] in EA; [cbn in L; lia| | | |].
    + injection EA as <- EB. apply (M2 (last_last _ _ _) r). symmetry. exact EB.
    + injection EA as <- <- EB. symmetry in EB. apply B1 in EB. discriminate.
    + injection EA as <- <- <- EB. symmetry in EB. apply B0 in EB. discriminate.
    + injection EA as <- <- <- <- EB. specialize (M1 true u w eq_refl). cbn [start_code app] in *. rewrite <- EB in M1. lia.
  - destruct w as [|w0 [|w1 [|w2 w]]]; cbn [app] in EA; [cbn in L; lia| | |].
    + injection EA as <- EB. symmetry in EB. apply B1 in EB. discriminate.
    + injection EA as <- <- EB. symmetry in EB. apply B0 in EB. discriminate.
    + injection EA as <- <- <- EB. specialize (M1 false u w eq_refl). cbn [start_code app] in *. rewrite <- EB in M1. lia.
Qed.
Lemma maximal_starts u l rest : known_unit u -> maximal (u :: l) rest -> starts_unit (annexb (u :: l) ++ rest).
Proof.
  intros (h & r & E & T) (M & _). rewrite annexb_cons, <- !app_assoc. exists (u_four u), h, (r ++ annexb l ++ rest). split; [rewrite E; reflexivity|]. split; [exact M|exact T].
Qed.
Lemma only_one : forall l m rest rest', Forall known_unit l -> Forall known_unit m -> maximal l rest -> maximal m rest' -> ~ starts_unit rest -> ~ starts_unit rest' ->
  annexb l ++ rest = annexb m ++ rest' -> l = m /\ rest = rest'.
Proof.
  induction l as [|u l IH]; intros m rest rest' Kl Km Ml Mm Sl Sm E.
  - destruct m as [|v m]; [split; [reflexivity|exact E]|]. exfalso. apply Sl. cbn [annexb flat_map app] in E. rewrite E. apply maximal_starts; [inversion Km; assumption|exact Mm].
  - destruct m as [|v m].
    { exfalso. apply Sm. change (annexb [] ++ rest') with rest' in E. rewrite <- E. apply maximal_starts; [inversion Kl; assumption|exact Ml]. }
    inversion Kl as [|? ? Ku Kl']; inversion Km as [|? ? Kv Km']; subst. rewrite !annexb_cons, <- !app_assoc in E. apply start_code_inj in E. destruct E as [Ef E].
    cbn [maximal] in Ml, Mm. cbv zeta in Ml, Mm. destruct Ml as (_ & Fl & L1 & L2 & Ml). destruct Mm as (_ & Fm & M1 & M2 & Mm).
    assert (Le : length (u_octets u) = length (u_octets v)).
    { destruct (Nat.lt_trichotomy (length (u_octets u)) (length (u_octets v))) as [G|[G|G]]; [exfalso|exact G|exfalso].
      - exact (no_shorter _ _ _ _ E G Fl Fm M1 M2).
      - exact (no_shorter _ _ _ _ (eq_sym E) G Fm Fl L1 L2). }
    assert (Eo : u_octets u = u_octets v /\ annexb l ++ rest = annexb m ++ rest').
    { split; [apply (f_equal (firstn (length (u_octets u)))) in E; rewrite firstn_exact in E by reflexivity; rewrite firstn_exact in E by (symmetry; exact Le); exact E|].
      apply (f_equal (skipn (length (u_octets u)))) in E. rewrite skipn_exact in E by reflexivity. rewrite skipn_exact in E by (symmetry; exact Le). exact E. }
    destruct Eo as [Eo Er]. destruct (IH m rest rest' Kl' Km' Ml Mm Sl Sm Er) as [-> ->]. split; [|reflexivity]. f_equal. destruct u, v. cbn in *. subst. reflexivity.
Qed.
Lemma nothing_starts : ~ starts_unit [].
Proof. intros (four & h & r & E & _). destruct four; discriminate. Qed.

(** * Without any hypothesis on the octets *)
Lemma split_pieces data : Zlen data < 2 ^ 64 -> forall fuel start, 0 <= start <= Zlen data -> (length data < fuel + Z.to_nat start)%nat ->
  exists pieces rest r, split_loop fuel data start = Some (flat_map piece_action pieces, r) /\ skipn (Z.to_nat start) data = flat_map piece_octets pieces ++ rest /\
    Forall (fun p => length (p_code p) = 3%nat \/ length (p_code p) = 4%nat) pieces /\ (r = Ok tt \/ r = Throw RuntimeError) /\ (r = Ok tt -> rest = []).
Proof.
  intros L64. induction fuel as [|f IH]; intros start S0 F; [exfalso; unfold Zlen in *; lia|]. cbn [split_loop].
  destruct (find_next_safe data start S0) as (r & -> & Hr). destruct r as [n|e|]; [| |destruct Hr].
  2: { cbn in Hr. subst e. exists [], (skipn (Z.to_nat start) data), (Throw RuntimeError). repeat split; auto. discriminate. }
  destruct Hr as (A & B & C). set (p := mk_piece (firstn (Z.to_nat (nal_start_code_size n)) (skipn (Z.to_nat start) data))
    (firstn (Z.to_nat (nal_end n - start - nal_start_code_size n)) (skipn (Z.to_nat (start + nal_start_code_size n)) data)) (nal_header n)).
  assert (Py : nal_payload data n = Ok (p_unit p)).
  { unfold nal_payload. rewrite A. rewrite Z.mod_small by lia.
    replace ((0 <=? start + nal_start_code_size n) && (start + nal_start_code_size n + (nal_end n - start - nal_start_code_size n) <=? Zlen data)) with true by lia. reflexivity. }
  rewrite Py, length_prefixed_avc.
  assert (Sp : skipn (Z.to_nat start) data = piece_octets p ++ skipn (Z.to_nat (nal_end n)) data).
  { unfold piece_octets, p. cbn [p_code p_unit]. rewrite <- app_assoc.
    rewrite <- (firstn_skipn (Z.to_nat (nal_start_code_size n)) (skipn (Z.to_nat start) data)) at 1. f_equal. rewrite skipn_skipn.
    replace (Z.to_nat start + Z.to_nat (nal_start_code_size n))%nat with (Z.to_nat (start + nal_start_code_size n)) by lia.
    rewrite <- (firstn_skipn (Z.to_nat (nal_end n - start - nal_start_code_size n)) (skipn (Z.to_nat (start + nal_start_code_size n)) data)) at 1. f_equal.
    rewrite skipn_skipn. f_equal. lia. }
  assert (Lc : length (p_code p) = 3%nat \/ length (p_code p) = 4%nat).
  { unfold p. cbn [p_code]. rewrite firstn_length, skipn_length. unfold Zlen in *. lia. }
  assert (Next : exists pieces rest r, (if nal_end n >=? Zlen data then Some ([], Ok tt) else match split_loop f data (nal_end n) with Some (r, o) => Some (r, o) | None => None end) = Some (flat_map piece_action pieces, r) /\
     skipn (Z.to_nat (nal_end n)) data = flat_map piece_octets pieces ++ rest /\ Forall (fun p => length (p_code p) = 3%nat \/ length (p_code p) = 4%nat) pieces /\ (r = Ok tt \/ r = Throw RuntimeError) /\ (r = Ok tt -> rest = [])).
  { destruct (Z.geb_spec (nal_end n) (Zlen data)) as [G|G].
    - exists [], [], (Ok tt). rewrite skipn_all2 by (unfold Zlen in *; lia). repeat split; auto.
    - destruct (IH (nal_end n) ltac:(lia) ltac:(lia)) as (ps & rest & r & E1 & E2 & E3 & E4 & E5). exists ps, rest, r. rewrite E1. repeat split; auto. }
  destruct Next as (ps & rest & r & E1 & E2 & E3 & E4 & E5).
  assert (Go : forall acts, piece_action p = acts ->
    exists ps0 rest0 r0, (if nal_end n >=? Zlen data then Some (acts, Ok tt) else match split_loop f data (nal_end n) with Some (r, o) => Some (acts ++ r, o) | None => None end) = Some (flat_map piece_action ps0, r0) /\
      skipn (Z.to_nat start) data = flat_map piece_octets ps0 ++ rest0 /\ Forall (fun p => length (p_code p) = 3%nat \/ length (p_code p) = 4%nat) ps0 /\ (r0 = Ok tt \/ r0 = Throw RuntimeError) /\ (r0 = Ok tt -> rest0 = [])).
  { intros acts Ea. exists (p :: ps), rest, r. cbn [flat_map]. rewrite Ea. split.
    { destruct (nal_end n >=? Zlen data); [injection E1 as E1a E1b; rewrite <- E1a, <- E1b, app_nil_r; reflexivity|].
      destruct (split_loop f data (nal_end n)) as [[a o]|]; [injection E1 as E1a E1b; rewrite <- E1a, <- E1b; reflexivity|discriminate]. }
    split; [rewrite <- app_assoc, <- E2; exact Sp|]. split; [constructor; assumption|]. split; assumption. }
  assert (Nt : Z.land (nal_header n) 31 = p_header p mod 32) by (unfold p; cbn [p_header]; change 31 with (Z.ones 5); rewrite Z.land_ones by lia; reflexivity).
  rewrite Nt. unfold piece_action in Go at 1. cbv zeta in Go.
  destruct ((1 <=? p_header p mod 32) && (p_header p mod 32 <=? 5)); [apply Go; reflexivity|].
  destruct (Z.eqb_spec (p_header p mod 32) 6) as [T6|T6]; [apply Go; rewrite T6; reflexivity|].
  destruct (p_header p mod 32 =? 7); [apply Go; reflexivity|].
  destruct (p_header p mod 32 =? 8); [apply Go; reflexivity|].
  exists [], (skipn (Z.to_nat start) data), (Throw RuntimeError). repeat split; auto. discriminate.
Qed.
Lemma split_pieces_buffer data : Zlen data < 2 ^ 64 ->
  exists pieces rest r, h264_split data = Some (flat_map piece_action pieces, r) /\ data = flat_map piece_octets pieces ++ rest /\
    Forall (fun p => length (p_code p) = 3%nat \/ length (p_code p) = 4%nat) pieces /\ (r = Ok tt \/ r = Throw RuntimeError) /\ (r = Ok tt -> rest = []).
Proof. intros L. apply (split_pieces data L (length data + 1) 0); [unfold Zlen; lia|lia]. Qed.
