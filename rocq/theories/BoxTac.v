(** Lemmas and tactics that prove writeData/readData functions against field layouts. *)
From Coq Require Import ZifyBool.
From Verif Require Import Base BitIO BitFacts BitIOProofs Boxes WireFormat.

(** The codes of the format and those of the code are the same. *)
Ltac same_codes :=
  change code_nclx with cc_nclx in *; change code_rICC with cc_rICC in *; change code_prof with cc_prof in *; change code_Opus with cc_Opus in *;
  change roll_group with gt_is_roll in *; change code_alst with gt_alst in *; change code_rap with gt_rap in *; change code_tele with gt_tele in *.
Lemma enc_cons f l : enc (f :: l) = field_bits f ++ enc l. Proof. reflexivity. Qed.
Lemma enc_app a b : enc (a ++ b) = enc a ++ enc b. Proof. apply flat_map_app. Qed.
Lemma enc_one f : enc [f] = field_bits f. Proof. unfold enc; cbn. apply app_nil_r. Qed.
Lemma enc_flat_map {A} (g : A -> list field) l : enc (flat_map g l) = flat_map (fun x => enc (g x)) l.
Proof. induction l as [|x l IH]; [reflexivity|]. cbn [flat_map]. rewrite enc_app, IH. reflexivity. Qed.
Lemma enc_map {A} (g : A -> field) l : enc (map g l) = flat_map (fun x => field_bits (g x)) l.
Proof. induction l as [|x l IH]; [reflexivity|]. cbn [map flat_map]. rewrite enc_cons, IH. reflexivity. Qed.
Lemma fields_ok_cons f l : fields_ok (f :: l) -> field_ok f /\ fields_ok l.
Proof. intros H; inversion H; auto. Qed.
Lemma fields_ok_app a b : fields_ok (a ++ b) -> fields_ok a /\ fields_ok b.
Proof. intros H; apply Forall_app in H; exact H. Qed.
Lemma fields_ok_flat_map {A} (g : A -> list field) l x : fields_ok (flat_map g l) -> In x l -> fields_ok (g x).
Proof.
  unfold fields_ok. intros H Hi. rewrite Forall_forall in *. intros f Hf. apply H. apply in_flat_map. exists x; auto.
Qed.
Lemma fields_ok_map {A} (g : A -> field) l x : fields_ok (map g l) -> In x l -> field_ok (g x).
Proof. unfold fields_ok. intros H Hi. rewrite Forall_forall in H. apply H. apply in_map; exact Hi. Qed.

(** * Writing *)
Definition wenc (m : W) (l : list field) : Prop := fields_ok l -> wspec m (enc l).

Lemma wenc_nil : wenc wskip []. Proof. intros _. apply wspec_skip. Qed.
Lemma wenc_cons a b f l : wenc a [f] -> wenc b l -> wenc (a ;; b) (f :: l).
Proof.
  intros Ha Hb H. apply fields_ok_cons in H as [H1 H2]. rewrite enc_cons, <- enc_one. apply wspec_seq; [apply Ha|apply Hb; exact H2].
  constructor; [exact H1|constructor].
Qed.
Lemma wenc_app a b x y : wenc a x -> wenc b y -> wenc (a ;; b) (x ++ y).
Proof. intros Ha Hb H. apply fields_ok_app in H as [H1 H2]. rewrite enc_app. apply wspec_seq; auto. Qed.
Lemma wenc_uint v size n : n = Z.to_nat size -> 0 <= size -> wenc (write_uint v size) [FU n v].
Proof. intros -> H _. rewrite enc_one. apply write_uint_spec; exact H. Qed.
Lemma wenc_uint_cast v w size n : n = Z.to_nat size -> 0 <= size <= w -> wenc (write_uint (to_u w v) size) [FU n v].
Proof.
  intros -> H _. rewrite enc_one. cbn [field_bits]. unfold to_u. rewrite <- (be_mod _ w v) by lia. apply write_uint_spec; lia.
Qed.
Lemma wenc_uint_signed v size n : n = Z.to_nat size -> 0 <= size -> wenc (write_uint v size) [FI n v].
Proof. intros -> H _. rewrite enc_one. apply write_uint_spec; exact H. Qed.
Lemma wenc_int v size n : n = Z.to_nat size -> 0 <= size -> wenc (write_int v size) [FI n v].
Proof.
  intros -> H Hok. apply fields_ok_cons in Hok as [Hf _]. cbn in Hf. rewrite Z2Nat.id in Hf by exact H.
  rewrite enc_one. apply write_int_spec; assumption.
Qed.
Lemma wenc_bool b : wenc (write_bool b) [FB b].
Proof. intros _. rewrite enc_one. apply write_bool_spec. Qed.
Lemma wenc_vec8 l : wenc (write_vector_uint 8 l) [FO l].
Proof. intros _. rewrite enc_one. apply (write_vector_uint_spec 8). Qed.
Lemma wenc_arr8 l : wenc (write_array_uint8 l) [FO l].
Proof. intros _. rewrite enc_one. apply write_array_uint8_spec. Qed.
Lemma wenc_list8 l : wenc (wlist (fun c => write_uint c 8) l) [FO l].
Proof. apply wenc_vec8. Qed.
Lemma wenc_string s : wenc (write_string s) [FS s].
Proof. intros _. rewrite enc_one. apply write_string_spec. Qed.
Lemma wenc_list {A} (f : A -> W) g l : (forall x, In x l -> wenc (f x) (g x)) -> wenc (wlist f l) (flat_map g l).
Proof. intros H Hok. rewrite enc_flat_map. apply wspec_list. intros x Hx. apply H; [exact Hx|]. eapply fields_ok_flat_map; eauto. Qed.
Lemma wenc_map {A} (f : A -> W) g l : (forall x, wenc (f x) [g x]) -> wenc (wlist f l) (map g l).
Proof.
  intros H Hok. rewrite enc_map. apply wspec_list. intros x Hx. rewrite <- enc_one. apply H.
  constructor; [|constructor]. eapply fields_ok_map; eauto.
Qed.
Lemma wenc_vec size n l : n = Z.to_nat size -> 0 <= size -> wenc (write_vector_uint size l) (map (FU n) l).
Proof. intros. apply wenc_map. intros; apply wenc_uint; assumption. Qed.
Lemma wenc_when c m l : wenc m l -> wenc (wwhen c m) (opt c l).
Proof. intros H. destruct c; [exact H|apply wenc_nil]. Qed.
Lemma wenc_if (c : bool) a b x y : wenc a x -> wenc b y -> wenc (if c then a else b) (if c then x else y).
Proof. destruct c; auto. Qed.
Lemma wenc_if_opt (c : bool) b y : wenc b y -> wenc (if c then wskip else b) (opt (negb c) y).
Proof. destruct c; cbn; auto. intros; apply wenc_nil. Qed.
Lemma wenc_if_opt' (c : bool) b y : (c = true -> wenc b y) -> wenc (if negb c then wskip else b) (opt c y).
Proof. destruct c; cbn; auto. intros; apply wenc_nil. Qed.
Lemma wenc_fb fb : wenc (writeVersionAndFlag fb) (fb_layout fb).
Proof. unfold writeVersionAndFlag, fb_layout. repeat first [apply wenc_cons | apply wenc_uint; [reflexivity|lia]]. Qed.

(** Bits of a fixed 4-octet length. *)
Lemma uvarint_bits v : 0 <= v < 2 ^ 28 -> bits_of (uvarint_octets 4 v) = field_bits (FV v).
Proof.
  intros H. assert (G : forall x, be 8 (x mod 128 + 128) = true :: be 7 x).
  { intros x. change (be 8 (x mod 128 + 128)) with (Z.testbit (x mod 128 + 128) 7 :: be 7 (x mod 128 + 128)).
    assert (0 <= x mod 128 < 128) by (apply Z.mod_pos_bound; lia). f_equal.
    - rewrite <- lor128 by lia. rewrite Z.lor_spec. replace (Z.testbit 128 7) with true by reflexivity. apply orb_true_r.
    - rewrite <- (be_mod 7 7 (_ + _)) by lia. change (2 ^ 7) with 128.
      rewrite Z.add_mod, Z_mod_same_full, Z.add_0_r, Z.mod_mod, Z.mod_mod by lia. apply (be_mod 7 7 x); lia. }
  assert (G0 : forall x, be 8 (x mod 128 + 0) = false :: be 7 x).
  { intros x. rewrite Z.add_0_r. change (be 8 (x mod 128)) with (Z.testbit (x mod 128) 7 :: be 7 (x mod 128)).
    f_equal. - change 128 with (2 ^ 7). apply Z.mod_pow2_bits_high; lia. - apply (be_mod 7 7 x); lia. }
  cbn [uvarint_octets]. unfold bits_of; cbn [flat_map].
  replace (0 <? Z.of_nat 3) with true by reflexivity. replace (0 <? Z.of_nat 2) with true by reflexivity.
  replace (0 <? Z.of_nat 1) with true by reflexivity. replace (0 <? Z.of_nat 0) with false by reflexivity.
  rewrite !G, G0. cbn [field_bits]. rewrite app_nil_r.
  change (2 ^ (7 * Z.of_nat 0)) with 1. rewrite Z.div_1_r.
  change (2 ^ (7 * Z.of_nat 3)) with (2 ^ 21). change (2 ^ (7 * Z.of_nat 2)) with (2 ^ 14). change (2 ^ (7 * Z.of_nat 1)) with (2 ^ 7).
  reflexivity.
Qed.
Lemma wenc_uvarint v : wenc (write_uvarint 4 v) [FV v].
Proof.
  intros H. apply fields_ok_cons in H as [H _]. cbn [field_ok] in H. rewrite enc_one, <- uvarint_bits by exact H. apply write_uvarint_spec.
Qed.

Lemma tsize_tbits fb : tbits fb = Z.to_nat (tsize fb).
Proof. unfold tbits, tsize, v0. destruct (_ =? 0); reflexivity. Qed.
Lemma tsize_nonneg fb : 0 <= tsize fb. Proof. unfold tsize. destruct (v0 fb); lia. Qed.

Ltac nat_side := first [reflexivity | apply tsize_tbits | unfold tbits, tsize, v0; match goal with |- context[if ?c then _ else _] => destruct c end; reflexivity].
Ltac pos_side := first [lia | apply tsize_nonneg].

Ltac wstep :=
  match goal with
  | |- wenc _ ((_ :: _) ++ _) => cbn [app]
  | |- wenc (writeVersionAndFlag _) (fb_layout _) => apply wenc_fb
  | |- wenc (_ ;; _) (_ :: _) => apply wenc_cons
  | |- wenc (_ ;; _) (_ ++ _) => apply wenc_app
  | |- wenc (write_uint (to_u _ _) _) [FU _ _] => apply wenc_uint_cast; [nat_side|lia]
  | |- wenc (write_uint _ _) [FU _ _] => apply wenc_uint; [nat_side|pos_side]
  | |- wenc (write_uint _ _) [FI _ _] => apply wenc_uint_signed; [nat_side|pos_side]
  | |- wenc (write_int _ _) [FI _ _] => apply wenc_int; [nat_side|pos_side]
  | |- wenc (write_bool _) [FB _] => apply wenc_bool
  | |- wenc (write_vector_uint 8 _) [FO _] => apply wenc_vec8
  | |- wenc (write_array_uint8 _) [FO _] => apply wenc_arr8
  | |- wenc (wlist (fun c : Z => write_uint c 8) _) [FO _] => apply wenc_list8
  | |- wenc (write_string _) [FS _] => apply wenc_string
  | |- wenc (write_uvarint 4 _) [FV _] => apply wenc_uvarint
  | |- wenc (write_vector_uint _ _) (map (FU _) _) => apply wenc_vec; [nat_side|pos_side]
  | |- wenc (wlist _ _) (flat_map _ _) => apply wenc_list; intros ? ?
  | |- wenc (wlist _ _) (map _ _) => apply wenc_map; intros ?
  | |- wenc (wwhen ?c _) (opt ?c _) => apply wenc_when
  | |- wenc wskip [] => apply wenc_nil
  | |- wenc (if ?c then wskip else _) (opt (negb ?c) _) => apply wenc_if_opt
  | |- wenc (if negb ?c then wskip else _) (opt ?c _) => apply wenc_if_opt'; intros ?
  | |- wenc (if ?c then _ else _) (if ?c then _ else _) => apply wenc_if
  end.
Ltac wgo := repeat wstep.

(** * Reading *)
Definition renc {A} (m : R A) (l : list field) (rest : list bool) (a : A) : Prop := fields_ok l -> rspec m (enc l) rest a.

Lemma renc_ret {A} (a : A) rest : renc (rret a) [] rest a.
Proof. intros _. apply rspec_ret. Qed.
Lemma renc_ret_eq {A} (a b : A) rest : a = b -> renc (rret a) [] rest b.
Proof. intros ->. apply renc_ret. Qed.
Lemma renc_bind_cons {A B} (m : R A) (k : A -> R B) f l rest a b :
  renc m [f] (enc l ++ rest) a -> (field_ok f -> renc (k a) l rest b) -> renc (rbind m k) (f :: l) rest b.
Proof.
  intros Hm Hk Hok. apply fields_ok_cons in Hok as [H1 H2]. rewrite enc_cons. eapply rspec_bind; [|apply Hk; assumption].
  rewrite <- enc_one. apply Hm. constructor; [exact H1|constructor].
Qed.
Lemma renc_bind_app {A B} (m : R A) (k : A -> R B) x y rest a b :
  renc m x (enc y ++ rest) a -> (fields_ok x -> renc (k a) y rest b) -> renc (rbind m k) (x ++ y) rest b.
Proof. intros Hm Hk Hok. apply fields_ok_app in Hok as [H1 H2]. rewrite enc_app. eapply rspec_bind; [apply Hm|apply Hk]; assumption. Qed.
Lemma renc_bind_last {A B} (m : R A) (k : A -> R B) x rest a b :
  renc m x rest a -> (fields_ok x -> renc (k a) [] rest b) -> renc (rbind m k) x rest b.
Proof.
  intros Hm Hk Hok. rewrite <- (app_nil_r (enc x)). eapply rspec_bind; [exact (Hm Hok)|apply Hk; [exact Hok|constructor]].
Qed.
Lemma renc_bind0 {A B} (m : R A) (k : A -> R B) l rest a b :
  renc m [] (enc l ++ rest) a -> renc (k a) l rest b -> renc (rbind m k) l rest b.
Proof. intros Hm Hk Hok. change (enc l) with ([] ++ enc l). eapply rspec_bind; [apply Hm; constructor|apply Hk; exact Hok]. Qed.
Lemma renc_count {A} (m : R A) l rest a : renc m l rest a -> renc (rcount m) l rest (Zlen (enc l), a).
Proof.
  intros H Hok r W E. destruct (H Hok r W E) as (r' & E1 & R). exists r'. unfold rcount. rewrite E1. split; [reflexivity|exact R].
Qed.
Lemma renc_uint w size n v rest : n = Z.to_nat size -> 0 < size <= w -> w <= 64 -> renc (read_uint w size) [FU n v] rest v.
Proof.
  intros -> H1 H2 Hok. apply fields_ok_cons in Hok as [Hok _]. cbn in Hok. rewrite enc_one. cbn [field_bits].
  pose proof (read_uint_be w (Z.to_nat size) v rest) as G. rewrite Z2Nat.id in * by lia. apply G; assumption.
Qed.
Lemma renc_int w size n v rest : n = Z.to_nat size -> 0 < size <= w -> w <= 64 -> renc (read_int w size) [FI n v] rest v.
Proof.
  intros -> H1 H2 Hok. apply fields_ok_cons in Hok as [Hok _]. cbn in Hok. rewrite enc_one. cbn [field_bits].
  pose proof (read_int_be w (Z.to_nat size) v rest) as G. rewrite Z2Nat.id in * by lia. apply G; assumption.
Qed.
Lemma renc_bool b rest : renc read_bool [FB b] rest b.
Proof. intros _. rewrite enc_one. apply read_bool_spec. Qed.
Lemma renc_vec8 n l rest : n = length l -> renc (read_vector_uint 8 n) [FO l] rest l.
Proof. intros -> H. apply fields_ok_cons in H as [H _]. rewrite enc_one. apply read_bytes_spec; exact H. Qed.
Lemma renc_rep8 n l rest : n = length l -> renc (rrepeat n (read_uint 8 8)) [FO l] rest l.
Proof. apply renc_vec8. Qed.
Lemma renc_arr4 l rest : length l = 4%nat -> renc read_array_uint8_4 [FO l] rest l.
Proof. intros E H. apply fields_ok_cons in H as [H _]. rewrite enc_one. apply read_array4_spec; assumption. Qed.
Lemma renc_string m s rest : 8 * Zlen s < m -> renc (read_string m) [FS s] rest s.
Proof. intros E H. apply fields_ok_cons in H as [[H1 H2] _]. rewrite enc_one. apply read_string_spec; assumption. Qed.
Lemma renc_uvarint v rest : renc (read_uvarint 32) [FV v] rest v.
Proof.
  intros H. apply fields_ok_cons in H as [H _]. cbn [field_ok] in H. rewrite enc_one, <- uvarint_bits by exact H.
  apply read_uvarint_spec; exact H.
Qed.
Lemma renc_repeat {A} (m : R A) g (l : list A) n rest : n = length l ->
  (forall x rest', In x l -> renc m (g x) rest' x) -> renc (rrepeat n m) (flat_map g l) rest l.
Proof.
  intros -> H Hok. rewrite enc_flat_map. apply rspec_repeat. intros x rest' Hx. apply H; [exact Hx|]. eapply fields_ok_flat_map; eauto.
Qed.
Lemma renc_repeat_map {A} (m : R A) g (l : list A) n rest : n = length l ->
  (forall x rest', In x l -> renc m [g x] rest' x) -> renc (rrepeat n m) (map g l) rest l.
Proof.
  intros -> H Hok. rewrite enc_map. apply rspec_repeat. intros x rest' Hx. rewrite <- enc_one. apply H; [exact Hx|].
  constructor; [|constructor]. eapply fields_ok_map; eauto.
Qed.
Lemma renc_vec size k n l rest : k = Z.to_nat size -> 0 < size <= 64 -> n = length l ->
  renc (read_vector_uint size n) (map (FU k) l) rest l.
Proof. intros. apply renc_repeat_map; [assumption|]. intros; apply renc_uint; [assumption|lia|lia]. Qed.
Lemma renc_rwhen c m l rest v : (c = true -> renc m l rest v) -> absent c (v = 0) -> renc (rwhen c m) (opt c l) rest v.
Proof. unfold absent. destruct c; intros H1 H2; [apply H1; reflexivity|]. rewrite (H2 eq_refl). apply renc_ret. Qed.
Lemma renc_fb fb rest : renc readVersionAndFlag (fb_layout fb) rest fb.
Proof.
  unfold readVersionAndFlag, fb_layout.
  repeat (eapply renc_bind_cons; [apply renc_uint; [reflexivity|lia|lia]|intros _]).
  destruct fb; apply renc_ret.
Qed.
Lemma renc_offset rest n : n = Zlen rest / 8 -> renc offset_to_end [] rest n.
Proof. intros -> _. apply rspec_offset_to_end. Qed.
(** The remaining octets: the field must be the last one and the payload must end there. *)
Lemma renc_rest l : renc read_rest [FO l] [] l.
Proof.
  unfold read_rest. eapply renc_bind0; [apply renc_offset; reflexivity|].
  replace (Z.to_nat (Zlen (enc [FO l] ++ []) / 8)) with (length l); [apply renc_vec8; reflexivity|].
  rewrite app_nil_r, enc_one. cbn [field_bits]. rewrite Zlen_bits_of. unfold Zlen. lia.
Qed.

Lemma to_nat_Zlen {A} (l : list A) : Z.to_nat (Zlen l) = length l. Proof. unfold Zlen. lia. Qed.

Ltac len_side := first [reflexivity | apply to_nat_Zlen | assumption | symmetry; assumption | unfold len_is in *; congruence | unfold len_is, Zlen in *; lia].
Ltac size_side := first [lia | unfold tsize; match goal with |- context[if ?c then _ else _] => destruct c end; lia].

Ltac rstep :=
  match goal with
  | |- renc (rbind offset_to_end _) _ _ _ => fail 1
  | |- renc readVersionAndFlag (fb_layout _) _ _ => apply renc_fb
  | |- renc (read_uint _ _) [FU _ _] _ _ => apply renc_uint; [nat_side|size_side|lia]
  | |- renc (read_int _ _) [FI _ _] _ _ => apply renc_int; [nat_side|size_side|lia]
  | |- renc read_bool [FB _] _ _ => apply renc_bool
  | |- renc read_array_uint8_4 [FO _] _ _ => apply renc_arr4; len_side
  | |- renc (read_vector_uint 8 _) [FO _] _ _ => apply renc_vec8; len_side
  | |- renc (rrepeat _ (read_uint 8 8)) [FO _] _ _ => apply renc_rep8; len_side
  | |- renc (read_uvarint 32) [FV _] _ _ => apply renc_uvarint
  | |- renc (read_vector_uint _ _) (map (FU _) _) _ _ => apply renc_vec; [nat_side|lia|len_side]
  | |- renc (rrepeat _ _) (flat_map _ _) _ _ => apply renc_repeat; [len_side|intros ? ? ?]
  | |- renc (rrepeat _ _) (map _ _) _ _ => apply renc_repeat_map; [len_side|intros ? ? ?]
  | |- renc (rwhen ?c _) (opt ?c [FU _ ?v]) _ _ => apply (renc_rwhen c _ _ _ v); [intros ?|try assumption]
  | |- renc (rwhen ?c _) (opt ?c [FI _ ?v]) _ _ => apply (renc_rwhen c _ _ _ v); [intros ?|try assumption]
  | |- renc (rwhen ?c _) (opt ?c _) _ _ => eapply renc_rwhen; [intros ?|try assumption]
  | |- renc read_rest [FO _] [] _ => apply renc_rest
  | |- renc read_rest [FO _] (enc [] ++ []) _ => apply renc_rest
  | |- renc (rret _) [] _ _ => apply renc_ret
  | |- renc (rbind _ _) ((_ :: _) ++ _) _ _ => cbn [app]
  | |- renc (rbind _ _) (_ :: _) _ _ => eapply renc_bind_cons; [|intros ?; cbn beta iota]
  | |- renc (rbind _ _) (_ ++ _) _ _ => eapply renc_bind_app; [|intros ?; cbn beta iota]
  | |- renc (rbind _ _) (flat_map _ _) _ _ => eapply renc_bind_last; [|intros ?; cbn beta iota]
  | |- renc (rbind _ _) (map _ _) _ _ => eapply renc_bind_last; [|intros ?; cbn beta iota]
  | |- renc (rbind _ _) (opt _ _) _ _ => eapply renc_bind_last; [|intros ?; cbn beta iota]
  end.
Ltac rgo := repeat rstep.

(** * Flags *)
Lemma flag_checkFlag fb k : field_ok (FU 8 (fb_f0 fb)) -> field_ok (FU 8 (fb_f1 fb)) -> field_ok (FU 8 (fb_f2 fb)) ->
  0 <= k -> checkFlag fb (2 ^ k) = flag fb k.
Proof.
  cbn. unfold fits_u. intros H0 H1 H2 Hk. unfold checkFlag, flag.
  assert (E : getFlags fb = fb_f0 fb * 65536 + fb_f1 fb * 256 + fb_f2 fb).
  { unfold getFlags. rewrite Z.lor_comm. rewrite !Z.shiftl_mul_pow2 by lia.
    assert (E1 : Z.lor (fb_f0 fb * 2 ^ 16) (fb_f1 fb * 2 ^ 8) = fb_f0 fb * 2 ^ 16 + fb_f1 fb * 2 ^ 8)
      by (apply lor_add_disjoint; lia).
    rewrite E1. rewrite Z.lor_comm. replace (fb_f0 fb * 2 ^ 16 + fb_f1 fb * 2 ^ 8) with ((fb_f0 fb * 2 ^ 8 + fb_f1 fb) * 2 ^ 8) by lia.
    rewrite lor_add_disjoint by lia. lia. }
  rewrite E. set (x := _ + _ + _). clearbody x. clear.
  destruct (Z.testbit x k) eqn:T.
  - apply negb_true_iff. apply Z.eqb_neq. intros C.
    assert (F : Z.testbit (Z.land x (2 ^ k)) k = false) by (rewrite C; apply Z.bits_0).
    rewrite Z.land_spec, T in F. destruct (Z_lt_dec k 0) as [L|L]; [rewrite Z.testbit_neg_r in T by lia; discriminate|].
    rewrite Z.pow2_bits_true in F by lia. discriminate.
  - apply negb_false_iff. apply Z.eqb_eq. apply Z.bits_inj'. intros j Hj. rewrite Z.land_spec, Z.bits_0.
    destruct (Z.eq_dec j k) as [->|N]; [rewrite T; reflexivity|]. rewrite Z.pow2_bits_false by lia. apply andb_false_r.
Qed.

Lemma checkFlag_fb fb : fields_ok (fb_layout fb) -> forall k, 0 <= k -> checkFlag fb (2 ^ k) = flag fb k.
Proof.
  intros H k Hk. unfold fb_layout, fields_ok in H. rewrite !Forall_cons_iff in H. apply flag_checkFlag; tauto.
Qed.

(** Replace checkFlag fb 2^k by flag fb k. *)
Ltac flagrw F k :=
  let H := fresh in
  pose proof (F k ltac:(lia)) as H; let p := eval vm_compute in (2 ^ k) in change (2 ^ k) with p in H; rewrite !H; clear H.
