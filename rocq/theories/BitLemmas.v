(** Proofs of the bit-level properties (C01-C08) in the form stated in PropBits.v. *)
From Verif Require Import Base BitFacts BitIO BitSpec BitIOProofs.

Lemma writer_reachable_wf w : writer_reachable w -> wwf w.
Proof.
  induction 1 as [|w b H IH|w data width H IH Hd Hl Hw|w p w' n H IH Hp E].
  - apply wwf_init.
  - apply writeBit_spec. exact IH.
  - destruct (Z_le_gt_dec width (8 * Zlen data)) as [L|L].
    + apply writeBits_spec; auto; lia.
    + unfold writeBits. destruct (Z_lt_ge_dec (2 ^ 64) (width - 8 * Zlen data)) as [B|B].
      * apply (fold_writeBit _ _ w IH).
      * apply (fold_writeBit _ _ w IH).
  - unfold Writer_write in E. destruct (Z.eqb_spec (w_width w) 0) as [Z0|]; cbn [negb] in E; [|discriminate]. injection E as <- <-.
    destruct IH as (A & B & C & D). repeat split; cbn [w_width w_octet w_os]; try apply A; try apply B; auto. apply Forall_app. auto.
Qed.
Lemma reader_reachable_wf input r : bytes input -> reader_reachable input r -> rwf r /\ r_data r = input.
Proof.
  intros Hi. induction 1 as [|r r' b H [IH D] E|r r' n d H [IH D] Hn E|r r' n d H [IH D] E|r r' cur off p H [IH D] E].
  - split; [apply rwf_init; exact Hi|reflexivity].
  - pose proof (readBit_spec r IH) as S. destruct (rbits r) as [|b0 rest]; [congruence|]. destruct S as (r1 & E1 & W & _ & D1). rewrite E in E1. injection E1 as -> ->. split; [exact W|congruence].
  - pose proof (readBits_cases n r IH Hn) as S. rewrite E in S. destruct S as (W & D1 & _). split; [exact W|congruence].
  - unfold Reader_read in E. destruct (negb _); [discriminate|]. destruct (Nat.leb_spec (r_pos r + n) (length (r_data r))) as [L|]; [|discriminate]. injection E as <- <-.
    destruct IH as (A & B & C). split; [|exact D]. repeat split; cbn [r_width r_pos r_data]; auto; try apply A.
  - unfold Reader_seek in E. destruct (cur && _); [discriminate|]. cbv zeta in E. destruct (_ && _) eqn:Q; [|discriminate]. injection E as <- <-.
    destruct IH as (A & B & C). split; [|exact D]. repeat split; cbn [r_width r_pos r_data]; auto; try lia. unfold Zlen in Q. destruct cur; lia.
Qed.

Lemma fits_mod n v : 0 <= n -> fits_u n (v mod 2 ^ n).
Proof. intros H. unfold fits_u. apply Z.mod_pos_bound. apply Z.pow_pos_nonneg; lia. Qed.
Lemma be_mod_self n v : be n (v mod 2 ^ Z.of_nat n) = be n v. Proof. apply be_mod. lia. Qed.

Lemma bits_uint w v n : writer_reachable w -> 1 <= n <= 64 ->
  exists w', write_uint v n w = Ok (w', n) /\ wbits w' = wbits w ++ be (Z.to_nat n) (v mod 2 ^ n) /\
  forall input r width rest, bytes input -> reader_reachable input r -> n <= width <= 64 -> rbits r = be (Z.to_nat n) (v mod 2 ^ n) ++ rest ->
  exists r', read_uint width n r = Ok (r', n, v mod 2 ^ n) /\ rbits r' = rest.
Proof.
  intros Hw Hn. destruct (write_uint_spec v n ltac:(lia) w (writer_reachable_wf w Hw)) as (w' & E & W & B). exists w'.
  rewrite Zlen_be, Z2Nat.id in E by lia. split; [exact E|]. split.
  { rewrite B. f_equal. rewrite <- (be_mod_self _ v). rewrite Z2Nat.id by lia. reflexivity. }
  intros input r width rest Hi Hr Hwd Hb. destruct (reader_reachable_wf input r Hi Hr) as [Wr _].
  pose proof (read_uint_be width (Z.to_nat n) (v mod 2 ^ n) rest) as R. rewrite Z2Nat.id in R by lia.
  destruct (R ltac:(lia) ltac:(lia) ltac:(apply fits_mod; lia) r Wr Hb) as (r' & E' & _ & B' & _). rewrite Zlen_be, Z2Nat.id in E' by lia. eauto.
Qed.
Lemma bits_int w v n : writer_reachable w -> 1 <= n <= 64 -> fits_s n v ->
  exists w', write_int v n w = Ok (w', n) /\ wbits w' = wbits w ++ be (Z.to_nat n) (v mod 2 ^ n) /\
  forall input r width rest, bytes input -> reader_reachable input r -> n <= width <= 64 -> rbits r = be (Z.to_nat n) (v mod 2 ^ n) ++ rest ->
  exists r', read_int width n r = Ok (r', n, v) /\ rbits r' = rest.
Proof.
  intros Hw Hn Hf. destruct (write_int_spec v n ltac:(lia) Hf w (writer_reachable_wf w Hw)) as (w' & E & W & B). exists w'.
  assert (X : be (Z.to_nat n) (v mod 2 ^ n) = be (Z.to_nat n) v) by (rewrite <- (be_mod_self _ v); rewrite Z2Nat.id by lia; reflexivity).
  rewrite Zlen_be, Z2Nat.id in E by lia. rewrite X. split; [exact E|]. split; [exact B|].
  intros input r width rest Hi Hr Hwd Hb. destruct (reader_reachable_wf input r Hi Hr) as [Wr _].
  pose proof (read_int_be width (Z.to_nat n) v rest) as R. rewrite Z2Nat.id in R by lia.
  destruct (R ltac:(lia) ltac:(lia) Hf r Wr Hb) as (r' & E' & _ & B' & _). rewrite Zlen_be, Z2Nat.id in E' by lia. eauto.
Qed.

(** * C03 *)
Lemma writeBit_os b w : exists t, w_os (writeBit b w) = w_os w ++ t.
Proof. unfold writeBit. destruct (_ =? 8); cbn [w_os]; [eauto|exists []; rewrite app_nil_r; reflexivity]. Qed.
Lemma fold_os (f : nat -> bool) l w : exists t, w_os (fold_left (fun w k => writeBit (f k) w) l w) = w_os w ++ t.
Proof.
  revert w. induction l as [|k l IH]; intros w; cbn [fold_left]; [exists []; rewrite app_nil_r; reflexivity|].
  destruct (IH (writeBit (f k) w)) as (t & ->). destruct (writeBit_os (f k) w) as (t' & ->). exists (t' ++ t). rewrite app_assoc. reflexivity.
Qed.
Lemma bits_append_only calls : forall w, writer_reachable w ->
  Forall (fun c => bytes (fst c) /\ 0 <= snd c <= 8 * Zlen (fst c) /\ 8 * Zlen (fst c) < 2 ^ 64) calls ->
  let w' := fold_left (fun w c => writeBits (fst c) (snd c) w) calls w in
  let all := wbits w ++ flat_map (fun c => low_bits (fst c) (snd c)) calls in
  wbits w' = all /\ (exists t, w_os w' = w_os w ++ t) /\ bits_of (w_os w') = firstn (8 * (length all / 8)) all.
Proof.
  intros w Hw Hc. cbv zeta.
  assert (G : wwf (fold_left (fun w c => writeBits (fst c) (snd c) w) calls w) /\
    wbits (fold_left (fun w c => writeBits (fst c) (snd c) w) calls w) = wbits w ++ flat_map (fun c => low_bits (fst c) (snd c)) calls /\
    exists t, w_os (fold_left (fun w c => writeBits (fst c) (snd c) w) calls w) = w_os w ++ t).
  { apply writer_reachable_wf in Hw. revert w Hw. induction Hc as [|[d n] calls (H1 & H2 & H3) Hc IH]; intros w Hw; cbn [fold_left flat_map fst snd] in *.
    - rewrite app_nil_r. split; [exact Hw|]. split; [reflexivity|]. exists []. rewrite app_nil_r. reflexivity.
    - destruct (writeBits_spec d n w Hw H2 H3) as (W & B). destruct (IH _ W) as (W' & B' & t & T). split; [exact W'|]. split; [rewrite B', B, <- app_assoc; reflexivity|].
      rewrite T. destruct (fold_os (fun k => let i := (8 * Zlen d - n) mod 2 ^ 64 + Z.of_nat k in negb (Z.land (Z.shiftr (nth (Z.to_nat (Z.shiftr i 3)) d 0) (7 - i mod 8)) 1 =? 0)) (seq 0 (Z.to_nat (8 * Zlen d - (8 * Zlen d - n) mod 2 ^ 64))) w) as (t' & T').
      unfold writeBits. cbv zeta in *. rewrite T'. exists (t' ++ t). rewrite app_assoc. reflexivity. }
  destruct G as ((W1 & W2) & B & T). split; [exact B|]. split; [exact T|]. rewrite <- B. unfold wbits.
  set (w' := fold_left _ calls w) in *.
  assert (L8 : length (bits_of (w_os w')) = (8 * length (w_os w'))%nat) by (pose proof (Zlen_bits_of (w_os w')) as L; unfold Zlen in L; lia).
  assert (Lp : length (firstn (Z.to_nat (w_width w')) (be 8 (w_octet w'))) = Z.to_nat (w_width w')) by (rewrite firstn_length, be_length; lia).
  rewrite app_length, Lp, L8. replace ((8 * length (w_os w') + Z.to_nat (w_width w')) / 8)%nat with (length (w_os w')).
  - rewrite <- L8, firstn_app, Nat.sub_diag, firstn_all. cbn [firstn]. rewrite app_nil_r. reflexivity.
  - rewrite Nat.mul_comm, Nat.div_add_l by lia. rewrite Nat.div_small by lia. lia.
Qed.

(** * C04 *)
Lemma octets_value_bits l : bytes l -> octets_value l = bits_to_Z (bits_of l).
Proof.
  intros H. induction l as [|b l IH] using rev_ind; [reflexivity|]. apply Forall_app in H. destruct H as [H1 H2].
  rewrite bits_to_Z_bits_of_snoc by (inversion H2; assumption). unfold octets_value in *. rewrite fold_left_app. cbn [fold_left]. rewrite IH by exact H1. lia.
Qed.
Lemma bits_read input r n : bytes input -> reader_reachable input r -> 0 <= n ->
  (n <= Zlen (rbits r) -> exists r' d, readBits n r = Ok (r', d) /\ rbits r = firstn (Z.to_nat n) (rbits r) ++ rbits r' /\
     Zlen d = (n + 7) / 8 /\ bytes d /\ octets_value d = bits_to_Z (firstn (Z.to_nat n) (rbits r))) /\
  (Zlen (rbits r) < n -> readBits n r = Throw RuntimeError).
Proof.
  intros Hi Hr Hn. destruct (reader_reachable_wf input r Hi Hr) as [W _]. split; intros L.
  - set (bs := firstn (Z.to_nat n) (rbits r)). assert (Lb : Zlen bs = n) by (unfold bs, Zlen in *; rewrite firstn_length; lia).
    destruct (readBits_spec n r bs (skipn (Z.to_nat n) (rbits r)) W) as (r' & E & W' & B & D); [unfold bs; rewrite firstn_skipn; reflexivity|exact Lb|].
    exists r', (right_octets bs). split; [exact E|]. split; [rewrite B; unfold bs; rewrite firstn_skipn; reflexivity|].
    destruct (right_octets_facts bs) as [F1 F2]. split; [|split; [exact F1|rewrite octets_value_bits by exact F1; exact F2]].
    unfold right_octets, Zlen. rewrite pack_length. unfold Zlen in Lb. rewrite <- Lb. rewrite Nat2Z.inj_div. f_equal; lia.
  - apply readBits_fail; assumption.
Qed.

(** * C05 *)
Lemma skipn_plus {A} (a b : nat) (l : list A) : skipn (b + a) l = skipn a (skipn b l).
Proof. revert l. induction b as [|b IH]; intros l; [reflexivity|]. destruct l; cbn [skipn Nat.add]; [rewrite skipn_nil; reflexivity|]. apply IH. Qed.
Lemma aligned_write w p : writer_reachable w ->
  if Zlen (wbits w) mod 8 =? 0 then exists w', Writer_write p w = Ok (w', Zlen p) /\ w_os w' = w_os w ++ p /\ wbits w' = wbits w ++ bits_of p
  else Writer_write p w = Throw InvalidArgument.
Proof.
  intros Hw. destruct (writer_reachable_wf w Hw) as (A & _).
  assert (L : Zlen (wbits w) mod 8 = w_width w).
  { unfold wbits. rewrite Zlen_app, Zlen_bits_of. unfold Zlen at 2. rewrite firstn_length, be_length. replace (Z.of_nat (Nat.min (Z.to_nat (w_width w)) 8)) with (w_width w) by lia.
    rewrite Z.add_comm, Z.mul_comm, Z_mod_plus_full. apply Z.mod_small. lia. }
  rewrite L. unfold Writer_write. destruct (Z.eqb_spec (w_width w) 0) as [E|E]; cbn [negb]; [|reflexivity].
  eexists. split; [reflexivity|]. split; [reflexivity|]. unfold wbits. cbn [w_os w_width w_octet]. rewrite E. cbn [Z.to_nat firstn]. rewrite !app_nil_r. apply bits_of_app.
Qed.
Lemma rbits_width r : rwf r -> Zlen (rbits r) mod 8 = r_width r.
Proof. intros W. rewrite rbits_length by exact W. destruct W as (A & _). rewrite Z.mul_comm, Z_mod_plus_full. apply Z.mod_small. lia. Qed.
Lemma aligned_read input r n : bytes input -> reader_reachable input r ->
  if Zlen (rbits r) mod 8 =? 0
  then if 8 * Z.of_nat n <=? Zlen (rbits r)
       then exists r' d, Reader_read n r = Ok (r', d) /\ length d = n /\ rbits r = bits_of d ++ rbits r'
       else Reader_read n r = Throw RuntimeError
  else Reader_read n r = Throw InvalidArgument.
Proof.
  intros Hi Hr. destruct (reader_reachable_wf input r Hi Hr) as [W _]. rewrite (rbits_width r W). pose proof (rbits_length r W) as L. unfold Reader_read.
  destruct (Z.eqb_spec (r_width r) 0) as [E|E]; cbn [negb]; [|reflexivity]. destruct W as (A & B & C). unfold Zlen in L at 2.
  destruct (Nat.leb_spec (r_pos r + n) (length (r_data r))) as [Q|Q]; destruct (Z.leb_spec (8 * Z.of_nat n) (Zlen (rbits r))) as [P|P]; try lia; [|reflexivity].
  eexists _, _. split; [reflexivity|]. split; [rewrite firstn_length, skipn_length; lia|]. unfold rbits. cbn [r_width r_octet r_pos r_data]. rewrite E. cbn [Z.to_nat be app].
  rewrite <- bits_of_app. f_equal. rewrite skipn_plus. symmetry. apply firstn_skipn.
Qed.
Lemma aligned_seek input r off : bytes input -> reader_reachable input r ->
  if Zlen (rbits r) mod 8 =? 0
  then let target := Z.of_nat (r_pos r) + off in
       if (0 <=? target) && (target <=? Zlen input)
       then exists r', Reader_seek true off r = Ok (r', target) /\ rbits r' = bits_of (skipn (Z.to_nat target) input)
       else Reader_seek true off r = Throw RuntimeError
  else Reader_seek true off r = Throw InvalidArgument.
Proof.
  intros Hi Hr. destruct (reader_reachable_wf input r Hi Hr) as [W D]. rewrite (rbits_width r W). unfold Reader_seek. cbn [andb]. rewrite D.
  destruct (Z.eqb_spec (r_width r) 0) as [E|E]; cbn [negb]; [|reflexivity]. cbv zeta. destruct (_ && _); [|reflexivity].
  eexists. split; [reflexivity|]. unfold rbits. cbn [r_width r_octet r_pos r_data Z.to_nat be app]. reflexivity.
Qed.

(** * C06 *)
Lemma uvarint_ok w v : writer_reachable w -> 0 <= v < 2 ^ 32 ->
  let field := bits_of (expandable [(v / 2 ^ 21) mod 128; (v / 2 ^ 14) mod 128; (v / 2 ^ 7) mod 128] (v mod 128)) in
  exists w', write_uvarint 4 v w = Ok (w', 32) /\ wbits w' = wbits w ++ field /\
  forall input r rest, bytes input -> reader_reachable input r -> rbits r = field ++ rest ->
  exists r', read_uvarint 32 r = Ok (r', 32, v mod 2 ^ 28) /\ rbits r' = rest.
Proof.
  intros Hw Hv field. destruct (write_uvarint_spec 4 v w (writer_reachable_wf w Hw)) as (w' & E & _ & B).
  assert (L : Zlen (bits_of (uvarint_octets 4 v)) = 32) by (rewrite Zlen_bits_of; unfold Zlen; rewrite uvarint_octets_length; reflexivity).
  assert (F : field = bits_of (uvarint_octets 4 v)).
  { unfold field, expandable. f_equal. cbn [uvarint_octets map app]. change (Z.of_nat 3) with 3. change (Z.of_nat 2) with 2. change (Z.of_nat 1) with 1. change (Z.of_nat 0) with 0.
    change (7 * 3) with 21. change (7 * 2) with 14. change (7 * 1) with 7. change (7 * 0) with 0. change (0 <? 3) with true. change (0 <? 2) with true. change (0 <? 1) with true. change (0 <? 0) with false.
    change (2 ^ 0) with 1. rewrite Z.div_1_r, Z.add_0_r. rewrite !(Z.add_comm 128). reflexivity. }
  exists w'. rewrite L in E. split; [exact E|]. rewrite F. split; [exact B|].
  intros input r rest Hi Hr Hb. destruct (reader_reachable_wf input r Hi Hr) as [W _].
  assert (X : uvarint_octets 4 v = uvarint_octets 4 (v mod 2 ^ 28)).
  { cbn [uvarint_octets]. change (Z.of_nat 3) with 3. change (Z.of_nat 2) with 2. change (Z.of_nat 1) with 1. change (Z.of_nat 0) with 0.
    change (7 * 3) with 21. change (7 * 2) with 14. change (7 * 1) with 7. change (7 * 0) with 0. change (2 ^ 28) with 268435456. change (2 ^ 21) with 2097152. change (2 ^ 14) with 16384. change (2 ^ 7) with 128. change (2 ^ 0) with 1.
    repeat (apply (f_equal2 cons); [f_equal; lia|]). reflexivity. }
  rewrite X in Hb. destruct (read_uvarint_spec (v mod 2 ^ 28) rest ltac:(apply Z.mod_pos_bound; lia) r W Hb) as (r' & E' & _ & B' & _).
  rewrite <- X, L in E'. eauto.
Qed.
Lemma group_low g : 0 <= g < 128 -> Z.land (128 + g) 127 = g /\ Z.land g 127 = g /\ (Z.land (128 + g) 128 =? 0) = false /\ (Z.land g 128 =? 0) = true.
Proof.
  intros Hg.
  assert (Sw : forallb (fun g => (Z.land (128 + g) 127 =? g) && (Z.land g 127 =? g) && negb (Z.land (128 + g) 128 =? 0) && (Z.land g 128 =? 0)) (zseq 128) = true) by (vm_compute; reflexivity).
  rewrite forallb_forall in Sw. specialize (Sw g (in_zseq 128 g ltac:(lia))). rewrite !andb_true_iff, negb_true_iff in Sw.
  destruct Sw as [[[A B] C] D]. apply Z.eqb_eq in A, B. auto.
Qed.
Lemma fold_mod w : 0 <= w -> forall gs a b, a mod 2 ^ w = b mod 2 ^ w ->
  fold_left (fun acc g => 128 * acc + g) gs a mod 2 ^ w = fold_left (fun acc g => 128 * acc + g) gs b mod 2 ^ w.
Proof.
  intros Hw. induction gs as [|g gs IH]; intros a b E; cbn [fold_left]; [exact E|]. apply IH.
  assert (M : 2 ^ w <> 0) by (apply Z.pow_nonzero; lia). revert M E. generalize (2 ^ w) as m. intros m M E.
  rewrite <- (Z.add_mod_idemp_l (128 * a) g m M), <- (Z.mul_mod_idemp_r 128 a m M), E, (Z.mul_mod_idemp_r 128 b m M). apply Z.add_mod_idemp_l. exact M.
Qed.
Lemma uvarint_loop w l rest : 0 <= w -> 0 <= l < 128 -> forall gs fuel acc, Forall (fun g => 0 <= g < 128) gs -> (length gs < fuel)%nat ->
  rspec (read_uvarint_loop w fuel acc) (bits_of (expandable gs l)) rest (fold_left (fun acc g => 128 * acc + g) (gs ++ [l]) acc mod 2 ^ w).
Proof.
  intros Hw Hl. induction gs as [|g gs IH]; intros fuel acc G F; (destruct fuel as [|f]; [cbn in F; lia|]); cbn [read_uvarint_loop expandable map app fold_left];
    change (bits_of (?x :: ?y)) with (be 8 x ++ bits_of y).
  - destruct (group_low l Hl) as (_ & A & _ & B). eapply rspec_bind; [apply read_octet8_spec; unfold is_byte; lia|]. cbv zeta. rewrite A, B, Z.shiftl_mul_pow2 by lia.
    change (2 ^ 7) with 128. rewrite (Z.mul_comm acc). apply rspec_ret.
  - inversion G; subst. destruct (group_low g H1) as (A & _ & B & _). eapply rspec_bind; [apply read_octet8_spec; unfold is_byte; lia|]. cbv zeta. rewrite A, B, Z.shiftl_mul_pow2 by lia.
    change (2 ^ 7) with 128. rewrite (Z.mul_comm acc).
    rewrite (fold_mod w Hw (gs ++ [l]) (128 * acc + g) (to_u w (128 * acc + g))) by (unfold to_u; symmetry; apply Z.mod_mod; apply Z.pow_nonzero; lia).
    apply IH; [assumption|cbn in F; lia].
Qed.
Lemma uvarint_groups input r gs l rest : bytes input -> reader_reachable input r -> Forall (fun g => 0 <= g < 128) (gs ++ [l]) ->
  rbits r = bits_of (expandable gs l) ++ rest ->
  exists r', read_uvarint 32 r = Ok (r', 8 * (Zlen gs + 1), groups_value (gs ++ [l]) mod 2 ^ 32) /\ rbits r' = rest.
Proof.
  intros Hi Hr G Hb. destruct (reader_reachable_wf input r Hi Hr) as [W _]. apply Forall_app in G as [G Gl]. inversion Gl; subst.
  assert (L : Zlen (bits_of (expandable gs l)) = 8 * (Zlen gs + 1)) by (rewrite Zlen_bits_of; unfold expandable; rewrite Zlen_app, Zlen_map; unfold Zlen; cbn [length]; lia).
  assert (F : (length gs < S (S (length (r_data r) - r_pos r)))%nat).
  { pose proof (rbits_length r W) as Q. rewrite Hb, Zlen_app, L in Q. pose proof (Zlen_nonneg rest). destruct W as (? & ? & ?). unfold Zlen in *. lia. }
  destruct (uvarint_loop 32 l rest ltac:(lia) H1 gs _ 0 G F r W Hb) as (r' & E & _ & B & _). rewrite L in E. exists r'. split; [exact E|exact B].
Qed.
Lemma uvarint_unfinished input r gs rest : bytes input -> reader_reachable input r -> Forall (fun g => 0 <= g < 128) gs ->
  rbits r = bits_of (map (fun g => 128 + g) gs) ++ rest -> Zlen rest < 8 -> read_uvarint 32 r = Throw RuntimeError.
Proof.
  intros Hi Hr G Hb Hl. destruct (reader_reachable_wf input r Hi Hr) as [W _]. unfold read_uvarint.
  assert (F : (length gs < S (S (length (r_data r) - r_pos r)))%nat).
  { pose proof (rbits_length r W) as Q. rewrite Hb, Zlen_app, Zlen_bits_of, Zlen_map in Q. pose proof (Zlen_nonneg rest). destruct W as (? & ? & ?). unfold Zlen in *. lia. }
  revert F. generalize (S (S (length (r_data r) - r_pos r))) as fuel, 0 as acc. clear Hr Hi. revert r W Hb. induction gs as [|g gs IH]; intros r W Hb fuel acc F;
    (destruct fuel as [|f]; [cbn in F; lia|]); cbn [read_uvarint_loop]; unfold rbind.
  - rewrite read_octet8_fail; [reflexivity|exact W|]. rewrite Hb. cbn [map]. exact Hl.
  - inversion G; subst. cbn [map] in Hb. change (bits_of (?x :: ?y)) with (be 8 x ++ bits_of y) in Hb. rewrite <- app_assoc in Hb.
    destruct (read_octet8_spec (128 + g) _ ltac:(unfold is_byte; lia) r W Hb) as (r1 & E1 & W1 & B1 & _). rewrite E1.
    destruct (group_low g H1) as (A & _ & B & _). cbv zeta. rewrite B, (IH H2 r1 W1 B1); [reflexivity|cbn in F; lia].
Qed.

(** * C07 *)
Lemma string_ok w s : writer_reachable w -> bytes s ->
  exists w', write_string s w = Ok (w', 8 * (Zlen s + 1)) /\ wbits w' = wbits w ++ bits_of (s ++ [0]) /\
  (~ In 0 s -> forall input r bound rest, bytes input -> reader_reachable input r -> rbits r = bits_of (s ++ [0]) ++ rest -> 8 * Zlen s < bound ->
   exists r', read_string bound r = Ok (r', 8 * (Zlen s + 1), s) /\ rbits r' = rest).
Proof.
  intros Hw Hs. destruct (write_string_spec s w (writer_reachable_wf w Hw)) as (w' & E & _ & B). exists w'.
  assert (L : Zlen (bits_of (s ++ [0])) = 8 * (Zlen s + 1)) by (rewrite Zlen_bits_of, Zlen_app, Zlen_cons, (@Zlen_nil Z); lia).
  rewrite L in E. split; [exact E|]. split; [exact B|]. intros Nz input r bound rest Hi Hr Hb Bd. destruct (reader_reachable_wf input r Hi Hr) as [W _].
  destruct (read_string_spec s bound rest Hs Nz Bd r W Hb) as (r' & E' & _ & B' & _). rewrite L in E'. eauto.
Qed.
Lemma pascal_ok w s : writer_reachable w -> bytes s ->
  if Zlen s <=? 255 then
    exists w', write_pascal_string s w = Ok (w', 8 * (1 + Zlen s)) /\ wbits w' = wbits w ++ bits_of (Zlen s :: s) /\
    forall input r rest, s <> [] -> bytes input -> reader_reachable input r -> rbits r = bits_of (Zlen s :: s) ++ rest ->
    exists r', read_pascal_string (8 * (1 + Zlen s)) r = Ok (r', 8 * (1 + Zlen s), s) /\ rbits r' = rest
  else write_pascal_string s w = Throw RuntimeError.
Proof.
  intros Hw Hs. destruct (Z.leb_spec (Zlen s) 255) as [Ls|Ls].
  - destruct (write_pascal_string_spec s Ls w (writer_reachable_wf w Hw)) as (w' & E & _ & B). exists w'.
    assert (L : Zlen (bits_of (Zlen s :: s)) = 8 * (1 + Zlen s)) by (rewrite Zlen_bits_of, Zlen_cons; reflexivity).
    rewrite L in E. split; [exact E|]. split; [exact B|]. intros input r rest Ne Hi Hr Hb. destruct (reader_reachable_wf input r Hi Hr) as [W _].
    assert (1 <= Zlen s) by (destruct s; [congruence|rewrite Zlen_cons; pose proof (Zlen_nonneg s); lia]).
    destruct (read_pascal_string_spec s rest Hs ltac:(lia) r W Hb) as (r' & E' & _ & B' & _). rewrite L in E'. replace (8 + 8 * Zlen s) with (8 * (1 + Zlen s)) in E' by lia. eauto.
  - unfold write_pascal_string. replace (Zlen s >? 255) with true by lia. reflexivity.
Qed.

(** * C08 *)
Lemma shift_land v k : 0 <= k -> Z.land (Z.shiftr v k) 255 = (v / 2 ^ k) mod 256.
Proof. intros H. change 255 with (Z.ones 8). rewrite Z.land_ones by lia. rewrite Z.shiftr_div_pow2 by lia. reflexivity. Qed.
Lemma land255 v : Z.land v 255 = v mod 256. Proof. change 255 with (Z.ones 8). rewrite Z.land_ones by lia. reflexivity. Qed.
Lemma be32_bytes i : bytes (uint32_to_be i) /\ length (uint32_to_be i) = 4%nat.
Proof. unfold uint32_to_be. rewrite !shift_land, land255 by lia. split; [|reflexivity]. repeat constructor; apply Z.mod_pos_bound; lia. Qed.
Lemma be64_bytes i : bytes (uint64_to_be i) /\ length (uint64_to_be i) = 8%nat.
Proof. unfold uint64_to_be. rewrite !shift_land, land255 by lia. split; [|reflexivity]. repeat constructor; apply Z.mod_pos_bound; lia. Qed.
Ltac pow_lit := repeat match goal with |- context [2 ^ ?k] => let v := eval vm_compute in (2 ^ k) in change (2 ^ k) with v end.
Lemma be32_value l : bytes l -> length l = 4%nat -> from32 l = octets_value l.
Proof.
  intros H L. destruct l as [|a [|b [|c [|d [|]]]]]; try discriminate. repeat match goal with H : bytes (_ :: _) |- _ => inversion_clear H | H : Forall _ (_ :: _) |- _ => inversion_clear H end.
  unfold is_byte in *. unfold from32, be_to_uint32, octets_value. cbn [nth fold_left]. rewrite !Z.shiftl_mul_pow2 by lia. pow_lit. rewrite Z.mod_small by lia. lia.
Qed.
Lemma be64_value l : bytes l -> length l = 8%nat -> from64 l = octets_value l.
Proof.
  intros H L. destruct l as [|a [|b [|c [|d [|e [|f [|g [|h [|]]]]]]]]]; try discriminate. repeat match goal with H : bytes (_ :: _) |- _ => inversion_clear H | H : Forall _ (_ :: _) |- _ => inversion_clear H end.
  unfold is_byte in *. unfold from64, be_to_uint64, octets_value. cbn [nth fold_left]. rewrite !Z.shiftl_mul_pow2 by lia. pow_lit. rewrite Z.mod_small by lia. lia.
Qed.
Lemma be32_octets i : 0 <= i < 2 ^ 32 -> octets_value (uint32_to_be i) = i.
Proof. intros H. unfold uint32_to_be. rewrite !shift_land, land255 by lia. unfold octets_value. cbn [fold_left]. change (2 ^ 32) with 4294967296 in H. pow_lit. lia. Qed.
Lemma be64_octets i : 0 <= i < 2 ^ 64 -> octets_value (uint64_to_be i) = i.
Proof. intros H. unfold uint64_to_be. rewrite !shift_land, land255 by lia. unfold octets_value. cbn [fold_left]. change (2 ^ 64) with 18446744073709551616 in H. pow_lit. lia. Qed.
Lemma octets_value_inj l : forall l', bytes l -> bytes l' -> length l = length l' -> octets_value l = octets_value l' -> l = l'.
Proof.
  induction l as [|x l IH] using rev_ind; intros l' H H' L E; [destruct l'; [reflexivity|discriminate]|].
  destruct (exists_last (l := l')) as (m & y & ->); [intros ->; rewrite app_length in L; cbn in L; lia|].
  rewrite !app_length in L. cbn [length] in L. apply Forall_app in H, H'. destruct H as [H1 H2], H' as [H1' H2']. inversion H2; inversion H2'; subst. unfold is_byte in *.
  unfold octets_value in E. rewrite !fold_left_app in E. cbn [fold_left] in E. fold (octets_value l) (octets_value m) in E.
  assert (x = y) by lia. subst. f_equal. apply IH; auto; lia.
Qed.
Lemma be32_ok : (forall i, 0 <= i < 2 ^ 32 -> bytes (uint32_to_be i) /\ length (uint32_to_be i) = 4%nat /\ octets_value (uint32_to_be i) = i /\ from32 (uint32_to_be i) = i) /\
  (forall l, bytes l -> length l = 4%nat -> from32 l = octets_value l /\ 0 <= from32 l < 2 ^ 32 /\ uint32_to_be (from32 l) = l).
Proof.
  split.
  - intros i H. destruct (be32_bytes i) as [B L]. rewrite be32_value by assumption. rewrite be32_octets by exact H. auto.
  - intros l B L. assert (R : 0 <= from32 l < 2 ^ 32) by (unfold from32, be_to_uint32; apply Z.mod_pos_bound; lia). split; [apply be32_value; assumption|]. split; [exact R|].
    destruct (be32_bytes (from32 l)) as [B' L']. apply octets_value_inj; [exact B'|exact B|congruence|]. rewrite be32_octets by exact R. apply be32_value; assumption.
Qed.
Lemma be64_ok : (forall i, 0 <= i < 2 ^ 64 -> bytes (uint64_to_be i) /\ length (uint64_to_be i) = 8%nat /\ octets_value (uint64_to_be i) = i /\ from64 (uint64_to_be i) = i) /\
  (forall l, bytes l -> length l = 8%nat -> from64 l = octets_value l /\ 0 <= from64 l < 2 ^ 64 /\ uint64_to_be (from64 l) = l).
Proof.
  split.
  - intros i H. destruct (be64_bytes i) as [B L]. rewrite be64_value by assumption. rewrite be64_octets by exact H. auto.
  - intros l B L. assert (R : 0 <= from64 l < 2 ^ 64) by (unfold from64, be_to_uint64; apply Z.mod_pos_bound; lia). split; [apply be64_value; assumption|]. split; [exact R|].
    destruct (be64_bytes (from64 l)) as [B' L']. apply octets_value_inj; [exact B'|exact B|congruence|]. rewrite be64_octets by exact R. apply be64_value; assumption.
Qed.
