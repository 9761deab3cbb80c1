(** Readers run backwards: whatever the octets, if a reader succeeds then the bits it consumed are the wire format of what
    it returns (and the values returned fit their fields). *)
From Coq Require Import ZifyBool.
From Verif Require Import Base BitIO BitFacts BitIOProofs Boxes WireFormat BoxTac BoxWrite BoxRead Box BoxSpec BoxSafe.

(** [rinv pre m Q]: after fields [pre], if [m] succeeds, it consumed the bits of some well-formed fields [fs] and
    [Q (pre ++ fs) result] holds. *)
Definition rinv {A} (pre : list field) (m : R A) (Q : list field -> A -> Prop) : Prop :=
  fields_ok pre -> forall r, rwf r ->
  match m r with
  | Ok (r', _, a) => rwf r' /\ r_data r' = r_data r /\ exists fs, rbits r = enc fs ++ rbits r' /\ fields_ok (pre ++ fs) /\ Q (pre ++ fs) a
  | _ => True
  end.

Lemma rinv_ret {A} pre (a : A) (Q : list field -> A -> Prop) : (fields_ok pre -> Q pre a) -> rinv pre (rret a) Q.
Proof.
  intros H Hp r Hr. cbn. split; [exact Hr|split; [reflexivity|]]. exists []. rewrite app_nil_r.
  split; [reflexivity|]. split; [exact Hp|apply H; exact Hp].
Qed.
Lemma rinv_throw {A} pre e (Q : list field -> A -> Prop) : rinv pre (rthrow e) Q.
Proof. intros _ r _. exact I. Qed.
Lemma rinv_bind {A B} pre (m : R A) (f : A -> R B) Q1 Q :
  rinv [] m Q1 -> (forall a fs, Q1 fs a -> fields_ok fs -> rinv (pre ++ fs) (f a) Q) -> rinv pre (rbind m f) Q.
Proof.
  intros Hm Hf Hp r Hr. specialize (Hm ltac:(constructor) r Hr). unfold rbind. destruct (m r) as [[[r1 n1] a]|e|]; auto.
  destruct Hm as (W1 & D1 & fs & E & K & Hq). cbn [app] in *. specialize (Hf a fs Hq K).
  assert (Hp' : fields_ok (pre ++ fs)) by (apply Forall_app; auto). specialize (Hf Hp' r1 W1).
  destruct (f a r1) as [[[r2 n2] b]|e|]; auto. destruct Hf as (W2 & D2 & fs2 & E2 & K2 & Hq2).
  split; [exact W2|]. split; [congruence|]. exists (fs ++ fs2). rewrite enc_app, <- app_assoc, <- E2. rewrite app_assoc. auto.
Qed.
Lemma rinv_tail {A} pre (m : R A) (Q1 Q : list field -> A -> Prop) : rinv [] m Q1 ->
  (forall a fs, Q1 fs a -> fields_ok fs -> fields_ok (pre ++ fs) -> Q (pre ++ fs) a) -> rinv pre m Q.
Proof.
  intros Hm HQ Hp r Hr. specialize (Hm ltac:(constructor) r Hr). destruct (m r) as [[[r1 n1] a]|e|]; auto.
  destruct Hm as (W1 & D1 & fs & E & K & Hq). cbn [app] in *. split; [exact W1|split; [exact D1|]]. exists fs. split; [exact E|].
  assert (Hp' : fields_ok (pre ++ fs)) by (apply Forall_app; auto). auto.
Qed.
Lemma rinv_weaken {A} pre (m : R A) (Q1 Q : list field -> A -> Prop) : rinv pre m Q1 -> (forall fs a, fields_ok fs -> Q1 fs a -> Q fs a) -> rinv pre m Q.
Proof.
  intros H HQ Hp r Hr. specialize (H Hp r Hr). destruct (m r) as [[[r1 n1] a]|e|]; auto.
  destruct H as (W & D & fs & E & K & Hq). split; [exact W|split; [exact D|]]. exists fs. auto.
Qed.
Lemma rinv_count {A} (m : R A) Q : rinv [] m Q -> rinv [] (rcount m) (fun fs p => Q fs (snd p)).
Proof.
  intros H Hp r Hr. specialize (H Hp r Hr). unfold rcount. destruct (m r) as [[[r1 n1] a]|e|]; auto.
Qed.
Lemma rinv_tick n : rinv [] (rtick n) (fun fs _ => fs = []).
Proof. intros _ r Hr. cbn. split; [exact Hr|split; [reflexivity|]]. exists []. repeat split. constructor. Qed.
Lemma rinv_offset : rinv [] offset_to_end (fun fs n => fs = [] /\ 0 <= n).
Proof.
  intros _ r Hr. cbn. split; [exact Hr|split; [reflexivity|]]. exists []. repeat split; [constructor|].
  destruct Hr as (_ & H & _). unfold Zlen. lia.
Qed.

Lemma rinv_of {A} (m : R A) (f : A -> field) (v : list bool -> A) size : 0 < size -> rsafe m ->
  (forall r r' n a, m r = Ok (r', n, a) -> n = size) ->
  (forall bs rest, Zlen bs = size -> rspec m bs rest (v bs)) ->
  (forall bs, Zlen bs = size -> field_bits (f (v bs)) = bs /\ field_ok (f (v bs))) ->
  rinv [] m (fun fs a => fs = [f a]).
Proof.
  intros Hs Sf Hn Hsp Hf _ r Hr. specialize (Sf r Hr). destruct (m r) as [[[r1 n1] a]|e|] eqn:E; auto.
  destruct Sf as (W & D & bs & Eb & L). pose proof (Hn _ _ _ _ E) as N. subst n1.
  destruct (Hsp bs (rbits r1) N r Hr Eb) as (r2 & E2 & W2 & B2 & D2). rewrite E in E2.
  assert (Ea : a = v bs) by congruence. split; [exact W|split; [exact D|]]. exists [f a]. cbn [app].
  destruct (Hf bs N) as [F1 F2]. rewrite enc_one, Ea, F1. split; [exact Eb|]. split; [|reflexivity].
  constructor; [exact F2|constructor].
Qed.
Lemma rinv_uint w size : 0 < size <= w -> w <= 64 -> rinv [] (read_uint w size) (fun fs a => fs = [FU (Z.to_nat size) a]).
Proof.
  intros H1 H2. apply (rinv_of _ _ bits_to_Z size); [lia|apply rsafe_read_uint; lia| |intros; apply rspec_read_uint; lia|].
  - intros r r' n a. unfold read_uint. destruct (size =? 0); [discriminate|]. destruct (readBits size r) as [[? ?]|?|]; congruence.
  - intros bs L. assert (N : Z.to_nat size = length bs) by (unfold Zlen in L; lia). cbn [field_bits field_ok]. rewrite N.
    split; [apply be_bits_to_Z|]. pose proof (bits_to_Z_bound bs) as B. unfold fits_u. exact B.
Qed.
Lemma sbits_facts bs : bs <> [] -> be (length bs) (sbits_to_Z bs) = bs /\ fits_s (Zlen bs) (sbits_to_Z bs).
Proof.
  intros Hn. pose proof (bits_to_Z_bound bs) as B. destruct bs as [|b bs]; [congruence|]. set (l := b :: bs) in *.
  assert (Hb : 2 ^ Zlen l = 2 * 2 ^ (Zlen l - 1)).
  { rewrite <- Z.pow_succ_r by (unfold l; rewrite Zlen_cons; pose proof (Zlen_nonneg bs); lia). f_equal. lia. }
  assert (S : bits_to_Z l = (if b then 2 ^ (Zlen l - 1) else 0) + bits_to_Z bs).
  { unfold l. rewrite bits_to_Z_cons, Zlen_cons. replace (1 + Zlen bs - 1) with (Zlen bs) by lia. destruct b; cbn [Z.b2z]; lia. }
  pose proof (bits_to_Z_bound bs) as B'. replace (Zlen bs) with (Zlen l - 1) in B' by (unfold l; rewrite Zlen_cons; lia).
  assert (V : sbits_to_Z l = bits_to_Z l - (if b then 2 ^ Zlen l else 0)).
  { unfold sbits_to_Z, l. destruct b; lia. }
  rewrite V. split.
  - rewrite <- (be_mod (length l) (Zlen l)) by (unfold Zlen; lia).
    replace ((bits_to_Z l - (if b then 2 ^ Zlen l else 0)) mod 2 ^ Zlen l) with (bits_to_Z l mod 2 ^ Zlen l).
    + rewrite be_mod by (unfold Zlen; lia). apply be_bits_to_Z.
    + destruct b; [|rewrite Z.sub_0_r; reflexivity]. rewrite <- (Z.mod_add (_ - _) 1) by lia. f_equal. lia.
  - unfold fits_s. destruct b; lia.
Qed.
Lemma rinv_int w size : 0 < size <= w -> w <= 64 -> rinv [] (read_int w size) (fun fs a => fs = [FI (Z.to_nat size) a]).
Proof.
  intros H1 H2. apply (rinv_of _ _ sbits_to_Z size); [lia|apply rsafe_read_int; lia| |intros; apply rspec_read_int; lia|].
  - intros r r' n a. unfold read_int. destruct (size =? 0); [discriminate|]. destruct (readBits size r) as [[? [|? ?]]|?|]; congruence.
  - intros bs L. assert (N : Z.to_nat size = length bs) by (unfold Zlen in L; lia). cbn [field_bits field_ok]. rewrite N.
    apply sbits_facts. intros ->. unfold Zlen in L. cbn in L. lia.
Qed.
Lemma rinv_bool : rinv [] read_bool (fun fs a => fs = [FB a]).
Proof.
  apply (rinv_of _ _ (hd false) 1); [lia|apply rsafe_bool| | |].
  - intros r r' n a. unfold read_bool. destruct (readBits 1 r) as [[? [|? ?]]|?|]; congruence.
  - intros bs rest L. destruct bs as [|b [|? ?]]; unfold Zlen in L; cbn [length] in L; [lia| |lia]. apply read_bool_spec.
  - intros bs L. destruct bs as [|b [|? ?]]; unfold Zlen in L; cbn [length] in L; [lia| |lia]. split; [reflexivity|exact I].
Qed.
Lemma rinv_octet8 : rinv [] read_octet8 (fun fs a => fs = [FU 8 a]).
Proof.
  apply (rinv_of _ _ bits_to_Z 8); [lia|apply rsafe_octet8| | |].
  - intros r r' n a. unfold read_octet8. destruct (readBits 8 r) as [[? [|? ?]]|?|]; congruence.
  - intros bs rest L. assert (N : length bs = 8%nat) by (unfold Zlen in L; lia).
    pose proof (read_octet8_spec (bits_to_Z bs) rest) as S. rewrite <- N, be_bits_to_Z in S. apply S.
    pose proof (bits_to_Z_bound bs) as B. rewrite L in B. exact B.
  - intros bs L. assert (N : length bs = 8%nat) by (unfold Zlen in L; lia). cbn [field_bits field_ok]. rewrite <- N.
    split; [apply be_bits_to_Z|]. exact (bits_to_Z_bound bs).
Qed.
Lemma rinv_uint_s w : 0 < w <= 64 -> rinv [] (read_uint_s w w) (fun fs a => fs = [FI (Z.to_nat w) a]).
Proof.
  intros H Hp r Hr. unfold read_uint_s. pose proof (rinv_uint 64 w ltac:(lia) ltac:(lia) Hp r Hr) as S. unfold rbind, rret.
  destruct (read_uint 64 w r) as [[[r1 n1] a]|e|]; auto. destruct S as (W & D & fs & E & K & Hfs). cbn [app] in Hfs. subst fs. cbv beta iota. split; [exact W|split; [exact D|]].
  exists [FI (Z.to_nat w) (to_s w a)]. cbn [app] in *. apply fields_ok_cons in K as [K _]. cbn [field_ok] in K. rewrite Z2Nat.id in K by lia.
  assert (P : 2 ^ w = 2 * 2 ^ (w - 1)) by (rewrite <- Z.pow_succ_r by lia; f_equal; lia).
  assert (M : to_s w a mod 2 ^ w = a mod 2 ^ w /\ fits_s w (to_s w a)).
  { unfold to_s, fits_s, fits_u in *. cbv zeta. rewrite (Z.mod_small a) by lia. destruct (Z.ltb_spec a (2 ^ (w - 1))); [rewrite Z.mod_small by lia; lia|].
    split; [|lia]. rewrite <- (Z.mod_add (_ - _) 1) by lia. rewrite Z.mod_small; lia. }
  split; [|split; [|reflexivity]].
  - rewrite E, !enc_one. cbn [field_bits]. f_equal. rewrite <- (be_mod _ w a), <- (be_mod _ w (to_s w a)) by lia. f_equal. symmetry. apply M.
  - constructor; [|constructor]. cbn [field_ok]. rewrite Z2Nat.id by lia. apply M.
Qed.
Lemma rinv_repeat {A} n (m : R A) g (P : A -> Prop) : rinv [] m (fun fs a => fs = g a /\ P a) ->
  rinv [] (rrepeat n m) (fun fs l => fs = flat_map g l /\ length l = n /\ Forall P l).
Proof.
  intros H. induction n as [|n IH]; cbn [rrepeat].
  - apply rinv_ret. intros _. repeat split; constructor.
  - eapply rinv_bind; [exact H|]. intros a fs [-> Pa] _. eapply rinv_bind; [exact IH|]. intros l fs (-> & L & Pl) _.
    apply rinv_ret. intros _. cbn [flat_map length]. repeat split; [congruence|constructor; assumption].
Qed.
Lemma flat_map_single {A} (g : A -> field) l : flat_map (fun a => [g a]) l = map g l.
Proof. induction l as [|x l IH]; [reflexivity|]. cbn. rewrite IH. reflexivity. Qed.
Lemma rinv_repeat_map {A} n (m : R A) g : rinv [] m (fun fs a => fs = [g a]) ->
  rinv [] (rrepeat n m) (fun fs l => fs = map g l /\ length l = n).
Proof.
  intros H. eapply rinv_weaken; [apply (rinv_repeat n m (fun a => [g a]) (fun _ => True))|].
  - eapply rinv_weaken; [exact H|]. auto.
  - cbv beta. intros fs l _ (-> & L & _). split; [apply flat_map_single|exact L].
Qed.
(** Octets are one field. *)
Lemma rinv_octets {A} (m : R A) (l : A -> list Z) (P : A -> Prop) : rinv [] m (fun fs a => fs = map (FU 8) (l a) /\ P a) ->
  rinv [] m (fun fs a => fs = [FO (l a)] /\ P a).
Proof.
  intros H Hp r Hr. specialize (H Hp r Hr). destruct (m r) as [[[r1 n1] a]|e|]; auto. destruct H as (W & D & fs & E & K & Hfs & Hq). cbn [app] in Hfs. subst fs.
  split; [exact W|split; [exact D|]]. exists [FO (l a)]. cbn [app] in *. split; [|split; [|split; [reflexivity|exact Hq]]].
  - rewrite E, enc_one. f_equal. rewrite enc_map. reflexivity.
  - constructor; [|constructor]. cbn [field_ok]. unfold fields_ok in K. rewrite Forall_map in K. unfold bytes.
    eapply Forall_impl; [|exact K]. intros x Hx. exact Hx.
Qed.
Lemma rinv_rep8 n : rinv [] (rrepeat n (read_uint 8 8)) (fun fs l => fs = [FO l] /\ length l = n).
Proof. apply (rinv_octets _ (fun l => l)). apply rinv_repeat_map. apply rinv_uint; lia. Qed.
Lemma rinv_vec8 n : rinv [] (read_vector_uint 8 n) (fun fs l => fs = [FO l] /\ length l = n).
Proof. apply rinv_rep8. Qed.
Lemma rinv_arr4 : rinv [] read_array_uint8_4 (fun fs l => fs = [FO l] /\ length l = 4%nat).
Proof. apply rinv_rep8. Qed.
Lemma rinv_vec w n : 0 < w <= 64 -> rinv [] (read_vector_uint w n) (fun fs l => fs = map (FU (Z.to_nat w)) l /\ length l = n).
Proof. intros H. apply rinv_repeat_map. apply rinv_uint; lia. Qed.
Lemma rinv_rest : rinv [] read_rest (fun fs l => fs = [FO l]).
Proof. unfold read_rest. eapply rinv_bind; [apply rinv_offset|]. intros n fs [-> Hn] _. eapply rinv_weaken; [apply rinv_vec8|]. intros fs l _ [-> _]. reflexivity. Qed.
Lemma rinv_rwhen c m f : rinv [] m (fun fs a => fs = [f a]) -> rinv [] (rwhen c m) (fun fs a => fs = opt c [f a] /\ absent c (a = 0)).
Proof.
  intros H. unfold rwhen, absent. destruct c; cbn [opt].
  - eapply rinv_weaken; [exact H|]. intros fs a _ ->. split; [reflexivity|discriminate].
  - apply rinv_ret. auto.
Qed.
Lemma rinv_fb : rinv [] readVersionAndFlag (fun fs fb => fs = fb_layout fb).
Proof.
  unfold readVersionAndFlag. repeat (eapply rinv_bind; [apply rinv_uint; lia|intros ? ? -> _]). apply rinv_ret. reflexivity.
Qed.
Lemma bits_of_cons x l : bits_of (x :: l) = be 8 x ++ bits_of l. Proof. reflexivity. Qed.
(** A string: terminated, or ended by the end of the bits it may take. *)
Lemma rinv_string_loop fuel : forall n m, rinv [] (read_string_loop fuel n m) (fun fs s => bytes s /\ ~ In 0 s /\ (fs = [FS s] \/ fs = [FO s])).
Proof.
  induction fuel as [|fuel IH]; intros n m; cbn [read_string_loop]; [intros _ r _; exact I|].
  destruct (n <? m).
  - intros Hp r Hr. pose proof (rinv_octet8 Hp r Hr) as O. unfold rbind. destruct (read_octet8 r) as [[[r1 n1] b]|e|]; auto.
    destruct O as (W & D & fs & E & K & Hfs). cbn [app] in *. subst fs. apply fields_ok_cons in K as [K _]. cbn [field_ok] in K.
    assert (Kb : is_byte b) by exact K. rewrite enc_one in E. cbn [field_bits] in E.
    destruct (Z.eqb_spec b 0) as [->|Nb]; cbn [rret].
    + split; [exact W|split; [exact D|]]. exists [FS []]. cbn [app]. split; [exact E|]. split; [repeat constructor; tauto|].
      split; [constructor|]. split; [tauto|left; reflexivity].
    + specialize (IH (n + 8) m Hp r1 W). destruct (read_string_loop fuel (n + 8) m r1) as [[[r2 n2] s]|e|]; auto.
      destruct IH as (W2 & D2 & fs & E2 & K2 & Hb & Hz & Hf). cbn [app] in *. split; [exact W2|split; [congruence|]].
      assert (B' : bytes (b :: s)) by (constructor; assumption).
      assert (Z' : ~ In 0 (b :: s)) by (intros [H|H]; [congruence|exact (Hz H)]).
      destruct Hf as [->| ->].
      * exists [FS (b :: s)]. split; [|split; [constructor; [split; assumption|constructor]|auto]].
        rewrite E, E2, !enc_one. cbn [field_bits]. change ((b :: s) ++ [0]) with (b :: (s ++ [0])). rewrite bits_of_cons, <- app_assoc. reflexivity.
      * exists [FO (b :: s)]. split; [|split; [constructor; [exact B'|constructor]|auto]].
        rewrite E, E2, !enc_one. cbn [field_bits]. rewrite bits_of_cons, <- app_assoc. reflexivity.
  - intros Hp r Hr. cbn. split; [exact Hr|split; [reflexivity|]]. exists [FO []]. cbn [app]. split; [reflexivity|].
    split; [repeat constructor|]. split; [constructor|]. split; [tauto|right; reflexivity].
Qed.
Lemma rinv_string m : rinv [] (read_string m) (fun fs s => bytes s /\ ~ In 0 s /\ (fs = [FS s] \/ fs = [FO s])).
Proof. intros Hp r Hr. unfold read_string. apply rinv_string_loop; assumption. Qed.

(** * The classes *)
(** The usual result: exactly the layout of the members was consumed. *)
Definition exactly {A} (lay : A -> list field) (P : A -> Prop) : list field -> A -> Prop :=
  fun fs b => enc fs = enc (lay b) /\ fields_ok (lay b) /\ P b.
Lemma exactly_eq {A} (lay : A -> list field) (P : A -> Prop) fs b : fs = lay b -> fields_ok fs -> P b -> exactly lay P fs b.
Proof. intros -> K H. split; [reflexivity|split; assumption]. Qed.

Lemma count_eq {A} w n (l : list A) : fields_ok [FU w n] -> length l = Z.to_nat n -> n = Zlen l.
Proof. intros K L. apply fields_ok_cons in K as [K _]. cbn [field_ok] in K. destruct K. unfold Zlen. lia. Qed.
Ltac prim :=
  match goal with
  | |- rinv [] (read_uint _ (tsize ?fb)) _ => eapply rinv_weaken; [apply rinv_uint; [unfold tsize; destruct (v0 fb); lia|lia]|cbv beta; intros ? ? _; rewrite <- tsize_tbits; let H := fresh in intros H; exact H]
  | |- rinv [] (read_int _ (tsize ?fb)) _ => eapply rinv_weaken; [apply rinv_int; [unfold tsize; destruct (v0 fb); lia|lia]|cbv beta; intros ? ? _; rewrite <- tsize_tbits; let H := fresh in intros H; exact H]
  | |- rinv [] (read_uint _ _) _ => apply rinv_uint; lia
  | |- rinv [] (read_int _ _) _ => apply rinv_int; lia
  | |- rinv [] (read_uint_s _ _) _ => apply rinv_uint_s; lia
  | |- rinv [] read_bool _ => apply rinv_bool
  | |- rinv [] readVersionAndFlag _ => apply rinv_fb
  | |- rinv [] read_rest _ => apply rinv_rest
  | |- rinv [] read_array_uint8_4 _ => apply rinv_arr4
  | |- rinv [] (read_vector_uint 8 _) _ => apply rinv_vec8
  | |- rinv [] (read_vector_uint _ _) _ => apply rinv_vec; lia
  | |- rinv [] (rrepeat _ (read_uint 8 8)) _ => apply rinv_rep8
  | |- rinv [] (rrepeat _ (read_uint _ _)) _ => apply rinv_repeat_map; prim
  | |- rinv [] (rrepeat _ (read_int _ _)) _ => apply rinv_repeat_map; prim
  | |- rinv [] (rwhen _ _) _ => apply rinv_rwhen; prim
  | |- rinv [] offset_to_end _ => apply rinv_offset
  | |- rinv [] (read_string _) _ => apply rinv_string
  | |- rinv [] (rcount _) _ => apply rinv_count; prim
  end.
Ltac break :=
  cbv beta in *;
  repeat match goal with
  | H : _ /\ _ |- _ => destruct H
  | H : ?fs = _ |- _ => is_var fs; match type of fs with list field => subst fs end
  end.
Ltac counts :=
  repeat match goal with
  | K : fields_ok [FU ?w ?n], L : length ?l = Z.to_nat ?n |- _ => is_var n; let E := fresh "E" in assert (E : n = Zlen l) by exact (count_eq w n l K L); clear L; subst n
  end.
Ltac inv1 := eapply rinv_bind; [prim|intros ? ? ? ?; break].
Ltac fin := apply rinv_ret; intros; counts; apply exactly_eq;
  [unfold fb_layout, opt; cbn [app flat_map map]; repeat rewrite <- app_assoc; cbn [app]; try reflexivity|assumption|try exact I].
Ltac invgo := repeat inv1; fin.

Lemma btrt_inv : rinv [] Btrt_readData (exactly btrt_layout (fun _ => True)). Proof. unfold Btrt_readData. invgo. Qed.
Lemma co64_inv : rinv [] Co64_readData (exactly co64_layout (fun _ => True)). Proof. unfold Co64_readData. invgo. Qed.
(** Entries. *)
Definition is_layout {A} (lay : A -> list field) (P : A -> Prop) : list field -> A -> Prop := fun fs e => fs = lay e /\ P e.
Ltac fin_entry := apply rinv_ret; intros; counts; split;
  [unfold fb_layout; cbn [app flat_map map]; repeat rewrite <- app_assoc; cbn [app]; try reflexivity|try exact I].
Ltac entry := repeat inv1; fin_entry.
Ltac rep L := eapply rinv_bind; [apply (rinv_repeat _ _ _ _ L)|intros ? ? ? ?; break].
Lemma ctts_entry_inv : rinv [] CttsEntry_readData (is_layout ctts_entry_layout (fun _ => True)).
Proof. unfold CttsEntry_readData. entry. Qed.
Lemma ctts_inv : rinv [] Ctts_readData (exactly ctts_layout (fun _ => True)).
Proof. unfold Ctts_readData. do 2 inv1. rep ctts_entry_inv. fin. Qed.
Lemma dref_inv : rinv [] Dref_readData (exactly dref_layout (fun _ => True)). Proof. unfold Dref_readData. invgo. Qed.
Lemma data_inv : rinv [] Data_readData (exactly data_layout (fun _ => True)). Proof. unfold Data_readData. invgo. Qed.
Lemma elst_entry_inv fb : rinv [] (ElstEntry_readData fb) (is_layout (elst_entry_layout fb) (fun _ => True)).
Proof. unfold ElstEntry_readData. entry. Qed.
Lemma elst_inv : rinv [] Elst_readData (exactly elst_layout (fun _ => True)).
Proof. unfold Elst_readData. do 2 inv1. rep (elst_entry_inv a). fin. Qed.
Lemma fiel_inv : rinv [] Fiel_readData (exactly fiel_layout (fun _ => True)). Proof. unfold Fiel_readData. invgo. Qed.
Lemma raw_inv : rinv [] read_rest (exactly raw_layout (fun _ => True)).
Proof. eapply rinv_weaken; [apply rinv_rest|]. cbv beta. intros fs l K ->. apply exactly_eq; [reflexivity|exact K|exact I]. Qed.
Lemma mehd_inv : rinv [] Mehd_readData (exactly mehd_layout (fun _ => True)). Proof. unfold Mehd_readData. invgo. Qed.
Lemma mfhd_inv : rinv [] Mfhd_readData (exactly mfhd_layout (fun _ => True)). Proof. unfold Mfhd_readData. invgo. Qed.
Lemma mfro_inv : rinv [] Mfro_readData (exactly mfro_layout (fun _ => True)). Proof. unfold Mfro_readData. invgo. Qed.
Lemma mvhd_inv : rinv [] Mvhd_readData (exactly mvhd_layout (fun b => len_is 9 (mvhd_matrix b) /\ len_is 6 (mvhd_pre_defined b))).
Proof. unfold Mvhd_readData. invgo. split; assumption. Qed.
Lemma pasp_inv : rinv [] PixelAspectRatio_readData (exactly pasp_layout (fun _ => True)). Proof. unfold PixelAspectRatio_readData. invgo. Qed.
Lemma sbgp_entry_inv : rinv [] SbgpEntry_readData (is_layout sbgp_entry_layout (fun _ => True)).
Proof. unfold SbgpEntry_readData. entry. Qed.
Lemma sidx_ref_inv : rinv [] SidxReference_readData (is_layout sidx_ref_layout (fun _ => True)).
Proof. unfold SidxReference_readData. entry. Qed.
Lemma sidx_inv : rinv [] Sidx_readData (exactly sidx_layout (fun _ => True)).
Proof. unfold Sidx_readData. do 7 inv1. rep sidx_ref_inv. fin. Qed.
Lemma smhd_inv : rinv [] Smhd_readData (exactly smhd_layout (fun _ => True)). Proof. unfold Smhd_readData. invgo. Qed.
Lemma stco_inv : rinv [] Stco_readData (exactly stco_layout (fun _ => True)). Proof. unfold Stco_readData. invgo. Qed.
Lemma stsc_entry_inv : rinv [] StscEntry_readData (is_layout stsc_entry_layout (fun _ => True)).
Proof. unfold StscEntry_readData. entry. Qed.
Lemma stsc_inv : rinv [] Stsc_readData (exactly stsc_layout (fun _ => True)).
Proof. unfold Stsc_readData. do 2 inv1. rep stsc_entry_inv. fin. Qed.
Lemma stsd_inv : rinv [] Stsd_readData (exactly stsd_layout (fun _ => True)). Proof. unfold Stsd_readData. invgo. Qed.
Lemma stss_inv : rinv [] Stss_readData (exactly stss_layout (fun _ => True)). Proof. unfold Stss_readData. invgo. Qed.
Lemma stts_entry_inv : rinv [] SttsEntry_readData (is_layout stts_entry_layout (fun _ => True)).
Proof. unfold SttsEntry_readData. entry. Qed.
Lemma stts_inv : rinv [] Stts_readData (exactly stts_layout (fun _ => True)).
Proof. unfold Stts_readData. do 2 inv1. rep stts_entry_inv. fin. Qed.
Lemma tfdt_inv : rinv [] Tfdt_readData (exactly tfdt_layout (fun _ => True)). Proof. unfold Tfdt_readData. invgo. Qed.
Lemma tkhd_inv : rinv [] Tkhd_readData (exactly tkhd_layout (fun b => len_is 9 (tkhd_matrix b))).
Proof. unfold Tkhd_readData. invgo. assumption. Qed.
Lemma trex_inv : rinv [] Trex_readData (exactly trex_layout (fun _ => True)). Proof. unfold Trex_readData. invgo. Qed.
Lemma vmhd_inv : rinv [] Vmhd_readData (exactly vmhd_layout (fun b => len_is 3 (vmhd_opcolor b))).
Proof. unfold Vmhd_readData. invgo. assumption. Qed.
Lemma av1c_inv : rinv [] AV1CodecConfiguration_readData (exactly av1c_layout (fun _ => True)).
Proof. unfold AV1CodecConfiguration_readData. invgo. Qed.
Lemma visual_entry_inv : rinv [] VisualSampleEntry_readData (exactly visual_entry_layout visual_entry_shape).
Proof. unfold VisualSampleEntry_readData. invgo. repeat split; assumption. Qed.
Lemma sdtp_sample_inv : rinv [] SdtpSample_readData (is_layout sdtp_sample_layout (fun _ => True)).
Proof. unfold SdtpSample_readData. entry. Qed.
Lemma sdtp_inv : rinv [] Sdtp_readData (exactly sdtp_layout (fun _ => True)).
Proof. unfold Sdtp_readData. do 2 inv1. rep sdtp_sample_inv. fin. Qed.
Lemma sbgp_inv : rinv [] Sbgp_readData (exactly sbgp_layout (fun b => len_is 4 (sbgp_grouping_type b) /\
  absent (negb (fb_version (sbgp_fb b) =? 0)) (sbgp_grouping_type_parameter b = 0))).
Proof.
  unfold Sbgp_readData. do 2 inv1. match goal with |- context[if ?c then read_uint 32 32 else rret 0] => change (if c then read_uint 32 32 else rret 0) with (rwhen c (read_uint 32 32)) end.
  do 2 inv1. rep sbgp_entry_inv. fin. split; assumption.
Qed.
Lemma stsz_inv : rinv [] Stsz_readData (fun fs b => (stsz_sample_size b = 0 -> enc fs = enc (stsz_layout b)) /\ fields_ok (stsz_layout b) /\
  absent (stsz_sample_size b =? 0) (stsz_entry_sizes b = [])).
Proof.
  unfold Stsz_readData. do 3 inv1. destruct (a0 =? 0) eqn:E.
  - inv1. apply rinv_ret; intros K. counts. unfold stsz_layout. cbn [stsz_fb stsz_sample_size stsz_entry_sizes]. rewrite E. cbn [opt].
    unfold fb_layout in *. repeat rewrite <- app_assoc in K. cbn [app] in *. unfold absent.
    repeat split; try (repeat rewrite <- app_assoc; reflexivity); [exact K|discriminate].
  - eapply rinv_bind; [apply (rinv_ret [] [] (fun fs l => fs = [] /\ l = [])); auto|]. intros l fs [-> ->] _.
    apply rinv_ret; intros K. unfold stsz_layout. cbn [stsz_fb stsz_sample_size stsz_entry_sizes]. rewrite E. cbn [opt].
    unfold fb_layout in *. repeat rewrite <- app_assoc in K. cbn [app] in *. split; [lia|]. split; [|intros _; reflexivity].
    repeat (apply fields_ok_cons in K as [? K]). repeat (constructor; [assumption|]). constructor; [|constructor].
    unfold Zlen; cbn. split; lia.
Qed.
Lemma kid_inv : rinv [] PsshKID_readData (is_layout (fun k => [FO k]) (len_is 16)).
Proof. unfold PsshKID_readData. eapply rinv_weaken; [apply rinv_rep8|]. cbv beta. intros fs l _ [-> L]. split; [reflexivity|exact L]. Qed.
Lemma pssh_inv : rinv [] Pssh_readData (exactly pssh_layout (fun b => len_is 16 (pssh_system_id b) /\ Forall (len_is 16) (pssh_kids b) /\
  absent (negb (fb_version (pssh_fb b) =? 0)) (pssh_kids b = []))).
Proof.
  unfold Pssh_readData. do 2 inv1.
  eapply (rinv_bind _ _ _ (fun fs k => fs = opt (negb (fb_version a =? 0)) (FU 32 (Zlen k) :: map FO k) /\ Forall (len_is 16) k /\ absent (negb (fb_version a =? 0)) (k = []))).
  - unfold absent. change (v0 a) with (fb_version a =? 0). destruct (negb (fb_version a =? 0)).
    + inv1. eapply rinv_tail; [apply (rinv_repeat _ _ _ _ kid_inv)|]. cbv beta. intros k fs (-> & L & F) _ _. counts.
      split; [|split; [exact F|discriminate]]. rewrite flat_map_single. reflexivity.
    + apply rinv_ret. intros _. repeat split; constructor.
  - intros k fs (-> & F & Ab) Kk. do 2 inv1. fin. auto.
Qed.
Lemma colr_inv : rinv [] Colr_readData (fun fs b => enc fs = enc (colr_layout b) /\ colr_wf b).
Proof.
  unfold Colr_readData. do 4 inv1. cbv zeta.
  assert (E4 : forall l : list field, enc (FU (Z.to_nat 8) a :: FU (Z.to_nat 8) a0 :: FU (Z.to_nat 8) a1 :: FU (Z.to_nat 8) a2 :: l) = enc (FO [a; a0; a1; a2] :: l)).
  { intros l. rewrite !enc_cons. change (Z.to_nat 8) with 8%nat. cbn [field_bits]. unfold bits_of. cbn [flat_map]. rewrite app_nil_r, <- !app_assoc. reflexivity. }
  assert (K4 : field_ok (FO [a; a0; a1; a2])).
  { repeat match goal with K : fields_ok [FU (Z.to_nat 8) _] |- _ => apply fields_ok_cons in K as [K _]; cbn [field_ok] in K end.
    change (Z.of_nat (Z.to_nat 8)) with 8 in *. cbn [field_ok]. do 4 (apply Forall_cons; [assumption|]). apply Forall_nil. }
  assert (G : forall l (K : fields_ok (((([] ++ [FU (Z.to_nat 8) a]) ++ [FU (Z.to_nat 8) a0]) ++ [FU (Z.to_nat 8) a1]) ++ [FU (Z.to_nat 8) a2])), fields_ok l -> fields_ok (FO [a; a0; a1; a2] :: l)) by (intros; constructor; assumption).
  destruct (list_eqb [a; a0; a1; a2] cc_nclx) eqn:N.
  - repeat inv1. apply rinv_ret. intros K. unfold colr_wf, colr_layout, colr_is_nclx, len_is. cbn [colr_colour_type]. same_codes. rewrite N.
    cbn [colr_colour_primaries colr_transfer_characteristics colr_matrix_coefficients colr_full_range_flag colr_reserved colr_profile colr_unknown].
    cbn [app] in *. rewrite E4. split; [reflexivity|]. split; [reflexivity|]. split; [|auto].
    do 4 apply fields_ok_cons in K as [_ K]. constructor; [exact K4|exact K].
  - destruct (list_eqb [a; a0; a1; a2] cc_rICC || list_eqb [a; a0; a1; a2] cc_prof) eqn:P;
    (inv1; apply rinv_ret; intros K; unfold colr_wf, colr_layout, colr_is_nclx, colr_is_icc, len_is; cbn [colr_colour_type]; same_codes; rewrite N, P;
     cbn [colr_colour_primaries colr_transfer_characteristics colr_matrix_coefficients colr_full_range_flag colr_reserved colr_profile colr_unknown];
     cbn [app] in *; rewrite E4; split; [reflexivity|]; split; [reflexivity|]; split; [|repeat split];
     do 4 apply fields_ok_cons in K as [_ K]; constructor; [exact K4|exact K]).
Qed.
Lemma dops_inv : rinv [] DOps_readData (fun fs b => enc fs = enc (dops_layout b) /\ dops_wf b).
Proof.
  unfold DOps_readData. do 6 inv1. destruct (a4 =? 0) eqn:E.
  - apply rinv_ret. intros K. unfold dops_wf, dops_layout. cbn [dops_channel_mapping_family dops_table_]. rewrite E. cbn [negb opt].
    cbn [app] in *. split; [reflexivity|]. split; [exact K|reflexivity].
  - unfold DOpsChannelMappingTable_readData. eapply rinv_bind with (Q1 := fun fs t => fs = [FU 8 (dopst_stream_count t); FU 8 (dopst_coupled_count t); FO (dopst_channel_mapping t)] /\ length (dopst_channel_mapping t) = Z.to_nat a0).
    { do 3 inv1. apply rinv_ret. intros _. split; [reflexivity|assumption]. }
    intros t fs [-> L] K'. apply rinv_ret. intros K. unfold dops_wf, dops_layout. cbn [dops_channel_mapping_family dops_table_ dops_output_channel_count]. rewrite E. cbn [negb opt].
    repeat rewrite <- app_assoc in *. cbn [app] in *. split; [reflexivity|]. split; [exact K|]. unfold Zlen. rewrite L.
    match goal with K : fields_ok [FU _ a0] |- _ => apply fields_ok_cons in K as [[? _] _] end. lia.
Qed.
Lemma ftyp_inv : rinv [] Ftyp_readData (fun fs b => enc fs = enc (ftyp_layout b) /\ ftyp_wf b).
Proof.
  unfold Ftyp_readData. do 3 inv1. destruct (negb _); [apply rinv_throw|].
  assert (A4 : rinv [] read_array_uint8_4 (is_layout (fun l => [FO l]) (len_is 4))).
  { eapply rinv_weaken; [apply rinv_arr4|]. cbv beta. intros fs l _ [-> L]. split; [reflexivity|exact L]. }
  rep A4. apply rinv_ret. intros K. unfold ftyp_wf, ftyp_layout. cbn [ftyp_major_brand ftyp_minor_version ftyp_compatible_brands].
  repeat rewrite <- app_assoc in *. cbn [app] in *. rewrite flat_map_single in *. repeat split; assumption.
Qed.
Lemma mdhd_inv : rinv [] Mdhd_readData (exactly mdhd_layout (fun b => len_is 3 (mdhd_language b))).
Proof.
  unfold Mdhd_readData. repeat inv1. apply rinv_ret. intros K.
  match goal with K : fields_ok [FU (Z.to_nat 15) ?x] |- _ => rename x into e; rename K into Ke end.
  apply fields_ok_cons in Ke as [Ke _]. cbn [field_ok] in Ke. change (Z.of_nat (Z.to_nat 15)) with 15 in Ke.
  destruct (encode_decode_language e Ke) as [[L C] EE].
  assert (E3 : exists x y z, decode_language e = [x; y; z] /\ fits_u 5 (x - 96) /\ fits_u 5 (y - 96) /\ fits_u 5 (z - 96) /\
    be 15 e = be 5 (x - 96) ++ be 5 (y - 96) ++ be 5 (z - 96)).
  { unfold len_is in L. destruct (decode_language e) as [|x [|y [|z [|? ?]]]]; try discriminate L. exists x, y, z.
    rewrite !Forall_cons_iff in C. destruct C as (C1 & C2 & C3 & _). unfold fits_u. change (2 ^ 5) with 32.
    split; [reflexivity|]. split; [lia|]. split; [lia|]. split; [lia|]. transitivity (be 15 (encode_language [x; y; z])); [rewrite EE; reflexivity|].
    rewrite encode_language_bits; [reflexivity|reflexivity|]. unfold fits_u. change (2 ^ 5) with 32. intros [|[|[|k]]] Hk; cbn [nth]; lia. }
  destruct E3 as (x & y & z & EL & F1 & F2 & F3 & EB). unfold exactly, mdhd_layout. cbn [mdhd_fb mdhd_language mdhd_creation_time mdhd_modification_time mdhd_timescale mdhd_duration mdhd_pad mdhd_pre_defined]. rewrite EL. cbn [nth].
  repeat rewrite <- app_assoc in *. cbn [app] in *. split; [|split; [|reflexivity]].
  - rewrite !enc_app. f_equal. rewrite !enc_cons. cbn [field_bits]. change (Z.to_nat 15) with 15%nat. rewrite EB, <- !app_assoc. reflexivity.
  - apply fields_ok_app in K as [K0 K]. apply Forall_app. split; [exact K0|].
    repeat (apply fields_ok_cons in K as [? K]). repeat (constructor; [assumption|]). constructor.
Qed.

(** When a string ended with the input rather than with a zero octet, the octets differ from the wire format in length. *)
Definition upto {A} (lay : A -> list field) (P : A -> Prop) : list field -> A -> Prop :=
  fun fs b => fields_ok (lay b) /\ P b /\ (Zlen (enc fs) = Zlen (enc (lay b)) -> enc fs = enc (lay b)).
Lemma exactly_upto {A} (lay : A -> list field) P (m : R A) : rinv [] m (exactly lay P) -> rinv [] m (upto lay P).
Proof. intros H. eapply rinv_weaken; [exact H|]. intros fs a _ (E & K & Q). split; [exact K|split; [exact Q|auto]]. Qed.

Lemma meta_inv : rinv [] Meta_readData (fun fs fb => meta_wf fb).
Proof.
  unfold Meta_readData. inv1. destruct (negb _) eqn:E; apply rinv_ret; intros K; [reflexivity|].
  unfold meta_wf. cbn [app] in *. unfold fb_layout, fields_ok in K. rewrite !Forall_cons_iff in K. destruct K as (K1 & K2 & K3 & K4 & _).
  cbn [field_ok] in *. unfold fits_u in *. destruct a as [v x y z]. cbn in *. apply negb_false_iff, Z.eqb_eq in E.
  apply Z.lor_eq_0_iff in E as [E E4]. apply Z.lor_eq_0_iff in E as [E E3]. apply Z.lor_eq_0_iff in E as [E1 E2]. subst. reflexivity.
Qed.
Ltac flags fb :=
  match goal with K : fields_ok (fb_layout fb) |- _ =>
    let CF := fresh "CF" in pose proof (checkFlag_fb fb K) as CF;
    change 1 with (2 ^ 0) in *; change 2 with (2 ^ 1) in *
  end.
Lemma tfhd_inv : rinv [] Tfhd_readData (fun fs b => enc fs = enc (tfhd_layout b) /\ tfhd_wf b).
Proof.
  unfold Tfhd_readData. inv1. match goal with K : fields_ok (fb_layout a) |- _ => pose proof (checkFlag_fb a K) as CF end.
  pose proof (CF 0 ltac:(lia)) as C0. pose proof (CF 1 ltac:(lia)) as C1. pose proof (CF 3 ltac:(lia)) as C3. pose proof (CF 4 ltac:(lia)) as C4. pose proof (CF 5 ltac:(lia)) as C5.
  change (2 ^ 0) with 1 in C0. change (2 ^ 1) with 2 in C1. change (2 ^ 3) with 8 in C3. change (2 ^ 4) with 16 in C4. change (2 ^ 5) with 32 in C5.
  rewrite C0, C1, C3, C4, C5. repeat inv1. apply rinv_ret. intros K. unfold tfhd_wf, tfhd_layout. cbn [tfhd_fb tfhd_track_id tfhd_base_data_offset tfhd_sample_description_index tfhd_default_sample_duration tfhd_default_sample_size tfhd_default_sample_flags].
  repeat rewrite <- app_assoc in *. cbn [app] in *. split; [reflexivity|]. repeat (split; [assumption|]). assumption.
Qed.
Lemma trun_entry_inv fb : fields_ok (fb_layout fb) -> rinv [] (TrunEntry_readData fb) (is_layout (trun_entry_layout fb) (fun e =>
  absent (flag fb 8) (trune_sample_duration e = 0) /\ absent (flag fb 9) (trune_sample_size e = 0) /\
  absent (flag fb 10) (trune_sample_flags e = 0) /\ absent (flag fb 11) (trune_composition_time_offset e = 0))).
Proof.
  intros K. unfold TrunEntry_readData. pose proof (checkFlag_fb fb K) as CF.
  pose proof (CF 8 ltac:(lia)) as C0. pose proof (CF 9 ltac:(lia)) as C1. pose proof (CF 10 ltac:(lia)) as C3. pose proof (CF 11 ltac:(lia)) as C4.
  change (2 ^ 8) with 256 in C0. change (2 ^ 9) with 512 in C1. change (2 ^ 10) with 1024 in C3. change (2 ^ 11) with 2048 in C4.
  rewrite C0, C1, C3, C4. repeat inv1. apply rinv_ret. intros _. unfold is_layout, trun_entry_layout. cbn [trune_sample_duration trune_sample_size trune_sample_flags trune_composition_time_offset].
  repeat rewrite <- app_assoc. cbn [app]. split; [reflexivity|]. auto.
Qed.
Lemma trun_inv : rinv [] Trun_readData (fun fs b => enc fs = enc (trun_layout b) /\ trun_wf b).
Proof.
  unfold Trun_readData. inv1. match goal with K : fields_ok (fb_layout a) |- _ => pose proof (checkFlag_fb a K) as CF; rename K into Kfb end.
  pose proof (CF 0 ltac:(lia)) as C0. pose proof (CF 2 ltac:(lia)) as C1.
  change (2 ^ 0) with 1 in C0. change (2 ^ 2) with 4 in C1. rewrite C0, C1. do 3 inv1. rep (trun_entry_inv a Kfb). apply rinv_ret. intros K. counts.
  unfold trun_wf, trun_layout. cbn [trun_fb trun_data_offset trun_first_sample_flags trun_entries].
  repeat rewrite <- app_assoc in *. cbn [app] in *. split; [reflexivity|]. repeat (split; [assumption|]). assumption.
Qed.
Lemma tfra_entry_inv fb a b c : fields_ok [FU 2 a] -> fields_ok [FU 2 b] -> fields_ok [FU 2 c] ->
  rinv [] (TfraEntry_readData fb a b c) (is_layout (tfra_entry_layout fb a b c) (fun _ => True)).
Proof.
  intros Ha Hb Hc. apply fields_ok_cons in Ha as [Ha _], Hb as [Hb _], Hc as [Hc _]. cbn [field_ok] in *. unfold fits_u in *. change (2 ^ Z.of_nat 2) with 4 in *.
  unfold TfraEntry_readData. do 2 inv1.
  eapply rinv_bind; [apply rinv_uint; lia|intros ? ? -> _]. eapply rinv_bind; [apply rinv_uint; lia|intros ? ? -> _]. eapply rinv_bind; [apply rinv_uint; lia|intros ? ? -> _].
  fin_entry.
Qed.
Lemma tfra_inv : rinv [] Tfra_readData (exactly tfra_layout (fun b => box_typed (B_tfra b))).
Proof.
  unfold Tfra_readData. do 7 inv1.
  eapply rinv_bind; [apply (rinv_repeat _ _ _ _ (tfra_entry_inv a a2 a3 a4 ltac:(assumption) ltac:(assumption) ltac:(assumption)))|intros ? ? ? ?; break]. fin.
  cbn [box_typed tfra_length_size_of_traf_num tfra_length_size_of_trun_num tfra_length_size_of_sample_num].
  repeat match goal with K : fields_ok [FU _ _] |- _ => apply fields_ok_cons in K as [K _]; cbn [field_ok] in K; unfold fits_u in K end.
  change (2 ^ Z.of_nat (Z.to_nat 2)) with 4 in *. lia.
Qed.
Lemma vpcc_inv : rinv [] VPCodecConfiguration_readData (exactly vpcc_layout (fun b => absent (negb (fb_version (vpcc_fb b) =? 0)) (vpcc_codec_initialization_data b = []))).
Proof.
  unfold VPCodecConfiguration_readData. do 9 inv1. change (v0 a) with (fb_version a =? 0). destruct (fb_version a =? 0) eqn:E.
  - fin; unfold vpcc_layout; cbn [vpcc_fb vpcc_profile vpcc_level vpcc_bit_depth vpcc_chroma_sub_sampling vpcc_video_full_range_flag vpcc_colour_primaries vpcc_transfer_characteristics vpcc_matrix_coefficients vpcc_codec_initialization_data]; rewrite E; [reflexivity|]. intros _. reflexivity.
  - do 2 inv1. fin; unfold vpcc_layout; cbn [vpcc_fb vpcc_profile vpcc_level vpcc_bit_depth vpcc_chroma_sub_sampling vpcc_video_full_range_flag vpcc_colour_primaries vpcc_transfer_characteristics vpcc_matrix_coefficients vpcc_codec_initialization_data]; rewrite E; [reflexivity|discriminate].
Qed.
Lemma avcc_ps_inv : rinv [] AVCParameterSet_readData (is_layout avcc_ps_layout (fun _ => True)).
Proof.
  unfold AVCParameterSet_readData. inv1. eapply rinv_tail; [apply rinv_vec8|]. cbv beta. intros l fs [-> L] _ _. counts. split; [reflexivity|exact I].
Qed.
Lemma avcc_inv : rinv [] AVCDecoderConfiguration_readData (fun fs b => enc fs = enc (avcc_layout b) /\ avcc_wf b).
Proof.
  unfold AVCDecoderConfiguration_readData. do 8 inv1. rep avcc_ps_inv. inv1. rep avcc_ps_inv.
  destruct (negb (is_avc_high_profile a0)) eqn:E.
  - apply rinv_ret. intros K. counts. unfold avcc_wf, avcc_layout. cbn [avcc_configuration_version avcc_profile avcc_profile_compatibility avcc_level avcc_reserved avcc_length_size_minus_one avcc_reserved2 avcc_sps avcc_pps avcc_high_profile_fields_enabled opt avcc_reserved3 avcc_chroma_format avcc_reserved4 avcc_bit_depth_luma_minus8 avcc_reserved5 avcc_bit_depth_chroma_minus8 avcc_sps_ext].
    repeat rewrite <- app_assoc in *. cbn [app] in *. rewrite !app_nil_r. split; [reflexivity|]. split; [exact K|]. split; [discriminate|]. intros _. repeat split.
  - inv1. destruct (a10 <? 4).
    + eapply rinv_bind; [apply rinv_tick|intros [] ? -> _]. apply rinv_ret. intros K. counts. unfold avcc_wf, avcc_layout. cbn [avcc_configuration_version avcc_profile avcc_profile_compatibility avcc_level avcc_reserved avcc_length_size_minus_one avcc_reserved2 avcc_sps avcc_pps avcc_high_profile_fields_enabled opt avcc_reserved3 avcc_chroma_format avcc_reserved4 avcc_bit_depth_luma_minus8 avcc_reserved5 avcc_bit_depth_chroma_minus8 avcc_sps_ext].
      rewrite !app_nil_r in *. repeat rewrite <- app_assoc in *. cbn [app] in *. split; [reflexivity|]. split; [exact K|]. split; [discriminate|]. intros _. repeat split.
    + do 7 inv1. rep avcc_ps_inv. apply rinv_ret. intros K. counts. unfold avcc_wf, avcc_layout. cbn [avcc_configuration_version avcc_profile avcc_profile_compatibility avcc_level avcc_reserved avcc_length_size_minus_one avcc_reserved2 avcc_sps avcc_pps avcc_high_profile_fields_enabled opt avcc_reserved3 avcc_chroma_format avcc_reserved4 avcc_bit_depth_luma_minus8 avcc_reserved5 avcc_bit_depth_chroma_minus8 avcc_sps_ext].
      repeat rewrite <- app_assoc in *. cbn [app] in *. split; [reflexivity|]. split; [exact K|]. split; [|discriminate]. intros _. apply avc_high_spec. apply negb_false_iff. exact E.
Qed.

(** Boxes with strings. *)
Lemma Zlen_enc_FS s : Zlen (enc [FS s]) = Zlen (enc [FO s]) + 8.
Proof. rewrite !enc_one. cbn [field_bits]. rewrite !Zlen_bits_of, Zlen_app. unfold Zlen at 2. cbn [length]. lia. Qed.
Definition is_string (f : list field) (s : list Z) : Prop := bytes s /\ ~ In 0 s /\ (f = [FS s] \/ f = [FO s]).
Lemma is_string_ok f s : is_string f s -> field_ok (FS s).
Proof. intros (H1 & H2 & _). split; assumption. Qed.
Lemma is_string_len f s : is_string f s -> Zlen (enc f) <= Zlen (enc [FS s]) /\ (Zlen (enc f) = Zlen (enc [FS s]) -> f = [FS s]).
Proof.
  intros (_ & _ & [->| ->]).
  - split; [lia|reflexivity].
  - rewrite Zlen_enc_FS. split; [lia|]. intros E. exfalso. lia.
Qed.
Lemma Zlen_enc_app a b : Zlen (enc (a ++ b)) = Zlen (enc a) + Zlen (enc b).
Proof. rewrite enc_app, Zlen_app. reflexivity. Qed.
Lemma upto_one pre f s suf : is_string f s -> Zlen (enc (pre ++ f ++ suf)) = Zlen (enc (pre ++ [FS s] ++ suf)) -> enc (pre ++ f ++ suf) = enc (pre ++ [FS s] ++ suf).
Proof. intros H E. destruct (is_string_len _ _ H) as [_ L]. rewrite L; [reflexivity|]. rewrite !Zlen_enc_app in E. lia. Qed.
Lemma upto_two pre f s g t suf : is_string f s -> is_string g t -> Zlen (enc (pre ++ f ++ g ++ suf)) = Zlen (enc (pre ++ [FS s] ++ [FS t] ++ suf)) ->
  enc (pre ++ f ++ g ++ suf) = enc (pre ++ [FS s] ++ [FS t] ++ suf).
Proof.
  intros H G E. destruct (is_string_len _ _ H) as [L1 L1']. destruct (is_string_len _ _ G) as [L2 L2']. rewrite !Zlen_enc_app in E.
  rewrite L1', L2' by lia. reflexivity.
Qed.
Lemma url_inv : rinv [] Url_readData (upto url_layout (fun b => absent (negb (flag (url_fb b) 0)) (url_location b = []))).
Proof.
  unfold Url_readData. inv1. match goal with K : fields_ok (fb_layout a) |- _ => pose proof (checkFlag_fb a K 0 ltac:(lia)) as C0 end.
  change (2 ^ 0) with 1 in C0. rewrite C0. destruct (negb (flag a 0)) eqn:E.
  - inv1. eapply rinv_bind; [apply rinv_string|intros s fs Hs _]. change (is_string fs s) in Hs. apply rinv_ret. intros K.
    unfold upto, url_layout, absent. cbn [url_fb url_location]. rewrite E. cbn [opt]. rewrite app_nil_r in *. cbn [app] in *.
    apply fields_ok_app in K as [K _]. split; [|split; [discriminate|]].
    + apply Forall_app. split; [exact K|]. constructor; [apply (is_string_ok _ _ Hs)|constructor].
    + pose proof (upto_one (fb_layout a) fs s [] Hs) as U. rewrite !app_nil_r in U. exact U.
  - apply rinv_ret. intros K. unfold upto, url_layout, absent. cbn [url_fb url_location]. rewrite E. cbn [opt app] in *. rewrite app_nil_r.
    repeat split; assumption.
Qed.
Lemma urn_inv : rinv [] Urn_readData (upto urn_layout (fun b => absent (negb (flag (urn_fb b) 0)) (urn_name b = [] /\ urn_location b = []))).
Proof.
  unfold Urn_readData. inv1. match goal with K : fields_ok (fb_layout a) |- _ => pose proof (checkFlag_fb a K 0 ltac:(lia)) as C0 end.
  change (2 ^ 0) with 1 in C0. rewrite C0. destruct (flag a 0) eqn:E.
  - apply rinv_ret. intros K. unfold upto, urn_layout, absent. cbn [urn_fb urn_name urn_location]. rewrite E. cbn [negb opt app] in *. rewrite app_nil_r.
    repeat split; assumption.
  - inv1. eapply rinv_bind; [apply rinv_count, rinv_string|intros [k s] fs Hs _]. cbn [snd] in Hs. change (is_string fs s) in Hs.
    eapply rinv_bind; [apply rinv_string|intros l fs' Hl _]. change (is_string fs' l) in Hl. apply rinv_ret. intros K.
    unfold upto, urn_layout, absent. cbn [urn_fb urn_name urn_location]. rewrite E. cbn [negb opt]. rewrite app_nil_r in *. cbn [app] in *.
    rewrite <- app_assoc in *. apply fields_ok_app in K as [K _]. split; [|split; [discriminate|]].
    + apply Forall_app. split; [exact K|]. constructor; [apply (is_string_ok _ _ Hs)|]. constructor; [apply (is_string_ok _ _ Hl)|constructor].
    + pose proof (upto_two (fb_layout a) fs s fs' l [] Hs Hl) as U. rewrite !app_nil_r in U. exact U.
Qed.
Lemma emsg_inv : rinv [] Emsg_readData (upto emsg_layout (fun _ => True)).
Proof.
  unfold Emsg_readData. inv1. change (v0 a) with (fb_version a =? 0). destruct (fb_version a =? 0) eqn:E.
  - inv1. eapply rinv_bind; [apply rinv_count, rinv_string|intros [k s] fs Hs _]. cbn [snd] in Hs. change (is_string fs s) in Hs.
    eapply rinv_bind; [apply rinv_string|intros l fs' Hl _]. change (is_string fs' l) in Hl. repeat inv1. apply rinv_ret. intros K.
    unfold upto, emsg_layout. cbn [emsg_fb emsg_scheme_uri emsg_value emsg_timescale emsg_presentation_time emsg_event_duration emsg_id emsg_message_data]. rewrite E.
    rewrite !app_nil_r in *. repeat rewrite <- app_assoc in *. cbn [app] in *.
    apply fields_ok_app in K as [K K']. apply fields_ok_app in K' as [_ K']. apply fields_ok_app in K' as [_ K']. split; [|split; [exact I|]].
    + apply Forall_app. split; [exact K|]. constructor; [apply (is_string_ok _ _ Hs)|]. constructor; [apply (is_string_ok _ _ Hl)|exact K'].
    + exact (upto_two (fb_layout a) fs s fs' l _ Hs Hl).
  - do 5 inv1. eapply rinv_bind; [apply rinv_count, rinv_string|intros [k s] fs Hs _]. cbn [snd] in Hs. change (is_string fs s) in Hs.
    eapply rinv_bind; [apply rinv_string|intros l fs' Hl _]. change (is_string fs' l) in Hl. repeat inv1. apply rinv_ret. intros K.
    unfold upto, emsg_layout. cbn [emsg_fb emsg_scheme_uri emsg_value emsg_timescale emsg_presentation_time emsg_event_duration emsg_id emsg_message_data]. rewrite E.
    set (pre := fb_layout a ++ [FU 32 a0; FU 64 a1; FU 32 a2; FU 32 a3]).
    match goal with |- fields_ok ?x /\ _ => assert (E1 : x = pre ++ [FS s] ++ [FS l] ++ [FO a5]) by (unfold pre; rewrite <- app_assoc; reflexivity); rewrite E1 end.
    match type of K with fields_ok ?x => assert (E2 : x = pre ++ fs ++ fs' ++ [FO a5]) by (unfold pre; rewrite !app_nil_r, <- !app_assoc; reflexivity); rewrite E2 in * end.
    apply fields_ok_app in K as [K K']. apply fields_ok_app in K' as [_ K']. apply fields_ok_app in K' as [_ K']. split; [|split; [exact I|]].
    + apply Forall_app. split; [exact K|]. constructor; [apply (is_string_ok _ _ Hs)|]. constructor; [apply (is_string_ok _ _ Hl)|exact K'].
    + exact (upto_two pre fs s fs' l _ Hs Hl).
Qed.

Lemma audio_inv type : rinv [] (AudioSampleEntry_readData type false) (fun fs b => enc fs = enc (audio_entry_layout b) /\ audio_entry_wf 0 b /\ ase_type b = type).
Proof.
  unfold AudioSampleEntry_readData. do 9 inv1.
  assert (G : forall qt q, (qt = false -> q = []) ->
    (if list_eqb type cc_Opus || (a1 =? 0) then qt = false
     else if qt then if a1 =? 1 then Zlen q = 16 else if a1 =? 2 then Zlen q = 36 else q <> [] else True) ->
    forall fs, fs = opt qt [FO q] -> fields_ok fs -> rinv (((((((((([] ++ [FO a]) ++ [FU (Z.to_nat 16) a0]) ++ [FU (Z.to_nat 16) a1]) ++ map (FU (Z.to_nat 16)) a2) ++ [FU (Z.to_nat 16) a3]) ++
         [FU (Z.to_nat 16) a4]) ++ [FU (Z.to_nat 16) a5]) ++ [FU (Z.to_nat 16) a6]) ++ [FU (Z.to_nat 32) a7]) ++ fs) (rret (mk_audio_entry type a a0 a1 a2 a3 a4 a5 a6 a7 qt q false))
         (fun fs b => enc fs = enc (audio_entry_layout b) /\ audio_entry_wf 0 b /\ ase_type b = type)).
  { intros qt q Hq Hc fs -> _. apply rinv_ret. intros K. unfold audio_entry_wf, audio_entry_layout, audio_entry_shape, absent.
    cbn [ase_type ase_reserved ase_data_reference_index ase_entry_version ase_reserved2 ase_channel_count ase_sample_size ase_pre_defined ase_reserved3 ase_sample_rate ase_is_quick_time_compatible ase_quick_time_data ase_under_wave].
    repeat rewrite <- app_assoc in *. cbn [app] in *. split; [reflexivity|]. split; [|reflexivity]. split; [split; assumption|]. split; [exact K|]. split; [reflexivity|]. split; [exact Hq|].
    same_codes. destruct (list_eqb type cc_Opus || (a1 =? 0)); [exact Hc|]. destruct qt; [|reflexivity]. destruct (a1 =? 1); [exact Hc|]. destruct (a1 =? 2); [exact Hc|]. auto. }
  destruct (list_eqb type cc_Opus || (a1 =? 0)) eqn:E.
  - rewrite <- (app_nil_r (_ ++ [FU (Z.to_nat 32) a7])). apply G; [reflexivity|reflexivity|reflexivity|constructor].
  - inv1. rewrite app_nil_r. destruct (Z.eqb_spec a8 0) as [->|Nz].
    + rewrite <- (app_nil_r (_ ++ [FU (Z.to_nat 32) a7])). apply G; [reflexivity|exact I|reflexivity|constructor].
    + eapply rinv_bind; [apply rinv_vec8|intros q fs [-> Lq] Kq]. apply G; [discriminate| |reflexivity|exact Kq].
      destruct (a1 =? 1); [unfold Zlen; rewrite Lq; reflexivity|]. destruct (a1 =? 2); [unfold Zlen; rewrite Lq; reflexivity|]. intros ->. cbn in Lq. lia.
Qed.

Lemma roll_inv wl : rinv [] (RollDistance_readData wl) (is_layout roll_distance_layout (fun e => rd_with_length e = wl /\ absent wl (rd_description_length e = 0))).
Proof. unfold RollDistance_readData. entry. auto. Qed.
Lemma vra_inv wl : rinv [] (VraEntry_readData wl) (is_layout vra_entry_layout (fun e => vra_with_length e = wl /\ absent wl (vra_description_length e = 0))).
Proof. unfold VraEntry_readData. entry. auto. Qed.
Lemma tele_inv wl : rinv [] (TeleEntry_readData wl) (is_layout tele_entry_layout (fun e => tele_with_length e = wl /\ absent wl (tele_description_length e = 0))).
Proof. unfold TeleEntry_readData. entry. auto. Qed.
Lemma alst_opt_inv : rinv [] AlstOpt_readData (is_layout alst_opt_layout (fun _ => True)).
Proof. unfold AlstOpt_readData. entry. Qed.
Lemma rinv_count_n {A} (m : R A) Q : rsafe m -> rinv [] m Q -> rinv [] (rcount m) (fun fs p => fst p = Zlen (enc fs) /\ Q fs (snd p)).
Proof.
  intros S H Hp r Hr. specialize (H Hp r Hr). specialize (S r Hr). unfold rcount. destruct (m r) as [[[r1 n1] a]|e|]; auto.
  destruct H as (W & D & fs & E & K & Hq). destruct S as (_ & _ & bs & Eb & L). split; [exact W|split; [exact D|]]. exists fs. split; [exact E|].
  split; [exact K|]. cbn [fst snd app] in *. split; [|exact Hq]. assert (EE : enc fs = bs) by (rewrite E in Eb; exact (app_inv_tail _ _ _ Eb)). rewrite EE. symmetry; exact L.
Qed.
Lemma Zlen_enc_map32 l : Zlen (enc (map (FU 32) l)) = 32 * Zlen l.
Proof. induction l as [|x l IH]; [reflexivity|]. cbn [map]. rewrite enc_cons, Zlen_app, IH, Zlen_cons. cbn [field_bits]. unfold Zlen at 1. rewrite be_length. lia. Qed.
Lemma Zlen_be n x : Zlen (be n x) = Z.of_nat n. Proof. unfold Zlen. rewrite be_length. reflexivity. Qed.
Lemma alst_inv len wl : rinv [] (AlstEntry_readData (Some len) wl) (is_layout alst_entry_layout (fun e =>
  alste_with_length e = wl /\ absent wl (alste_description_length e = 0) /\ Zlen (alste_sample_offsets e) = alste_roll_count e /\
  (8 * (if wl then alste_description_length e else len)) mod 2 ^ 32 = 8 * (4 + 4 * Zlen (alste_sample_offsets e) + 4 * Zlen (alste_opts e)))).
Proof.
  unfold AlstEntry_readData.
  eapply (rinv_bind _ _ _ (fun fs (p : Z * (Z * Z * Z * list Z)) => fst p = Zlen (enc fs) /\ (let '(n, c, f, offs) := snd p in
    fs = opt wl [FU 32 n] ++ [FU 16 c; FU 16 f] ++ map (FU 32) offs /\ absent wl (n = 0) /\ Zlen offs = c))).
  - apply (rinv_count_n _ (fun fs p => let '(n, c, f, offs) := p in fs = opt wl [FU 32 n] ++ [FU 16 c; FU 16 f] ++ map (FU 32) offs /\ absent wl (n = 0) /\ Zlen offs = c)).
    + apply rsafe_bind; [apply rsafe_rwhen, rsafe_read_uint; lia|intros n]. apply rsafe_bind; [apply rsafe_read_uint; lia|intros c]. apply rsafe_bind; [apply rsafe_read_uint; lia|intros f].
      apply rsafe_bind; [apply rsafe_vector; lia|intros offs]. apply rsafe_ret.
    + repeat inv1. counts. apply rinv_ret. intros _. repeat split; try assumption. repeat rewrite <- app_assoc. reflexivity.
  - intros [bits [[[n c] f] offs]] fs [Eb (-> & Ab & Ec)] Kf. cbn [fst snd] in *. cbv zeta.
    destruct (_ || _) eqn:G; [apply rinv_throw|]. apply orb_false_iff in G as [G1 G2]. apply negb_false_iff in G2.
    rep alst_opt_inv. apply rinv_ret. intros K. split; [unfold alst_entry_layout; cbn [alste_with_length alste_description_length alste_roll_count alste_first_output_sample alste_sample_offsets alste_opts app]; repeat rewrite <- app_assoc; reflexivity|].
    cbn [alste_with_length alste_description_length alste_roll_count alste_sample_offsets alste_opts]. split; [reflexivity|]. split; [exact Ab|]. split; [exact Ec|].
    set (X := to_u 32 ((if wl then n else len) * 8)).
    assert (B : bits = (if wl then 32 else 0) + 32 + 32 * Zlen offs).
    { rewrite Eb, !Zlen_enc_app, Zlen_enc_map32. rewrite enc_cons, Zlen_app, enc_one. cbn [field_bits]. rewrite !Zlen_be.
      destruct wl; cbn [opt]; [rewrite enc_one; cbn [field_bits]; rewrite Zlen_be|change (Zlen (enc [])) with 0]; lia. }
    assert (Of : (if wl then to_u 32 (n * 8) - (bits - 32) else to_u 32 (len * 8) - bits) = X - 32 - 32 * Zlen offs) by (unfold X; destruct wl; lia).
    rewrite Of in *. apply Z.ltb_ge in G1. apply Z.eqb_eq in G2. rewrite Z.rem_mod_nonneg in G2 by lia.
    match goal with L : length ?o = Z.to_nat _ |- _ => assert (Lo : 32 * Zlen o = X - 32 - 32 * Zlen offs) by (unfold Zlen at 1; rewrite L; pose proof (Z.div_mod (X - 32 - 32 * Zlen offs) 32 ltac:(lia)); pose proof (Z.div_pos (X - 32 - 32 * Zlen offs) 32 ltac:(lia) ltac:(lia)); lia) end.
    replace ((8 * (if wl then n else len)) mod 2 ^ 32) with X by (unfold X, to_u; f_equal; lia). lia.
Qed.
Lemma gt_excl g : (list_eqb g gt_alst = true -> gt_is_roll g = false) /\ (list_eqb g gt_rap = true -> gt_is_roll g = false /\ list_eqb g gt_alst = false) /\
  (list_eqb g gt_tele = true -> gt_is_roll g = false /\ list_eqb g gt_alst = false /\ list_eqb g gt_rap = false) /\
  (gt_is_roll g = true -> list_eqb g gt_alst = false /\ list_eqb g gt_rap = false /\ list_eqb g gt_tele = false).
Proof.
  unfold gt_is_roll. split; [|split; [|split]]; intros E; repeat (apply orb_true_iff in E as [E|E]); apply list_eqb_eq in E; subst g; repeat split; reflexivity.
Qed.
Ltac sgpd_case :=
  apply rinv_ret; intros K; counts; unfold sgpd_wf, sgpd_layout, sgpd_explicit;
  cbn [sgpd_fb sgpd_grouping_type sgpd_default_length sgpd_default_sample_description_index sgpd_roll_distances sgpd_alternative_startup_entries sgpd_visual_random_access_entries sgpd_temporal_level_entries]; same_codes.
Lemma sgpd_inv : rinv [] Sgpd_readData (fun fs b => enc fs = enc (sgpd_layout b) /\ sgpd_wf b).
Proof.
  unfold Sgpd_readData. do 3 inv1. cbv zeta. destruct (gt_excl a0) as (X1 & X2 & X3 & X4).
  assert (V : (if fb_version a =? 1 then (if fb_version a =? 1 then a1 else 0) else (if fb_version a =? 1 then 0 else a1)) = a1) by (destruct (fb_version a =? 1); reflexivity).
  assert (S0 : if fb_version a =? 1 then (if fb_version a =? 1 then 0 else a1) = 0 else (if fb_version a =? 1 then a1 else 0) = 0) by (destruct (fb_version a =? 1); reflexivity).
  destruct (gt_is_roll a0) eqn:E1; [|destruct (list_eqb a0 gt_alst) eqn:E2; [|destruct (list_eqb a0 gt_rap) eqn:E3; [|destruct (list_eqb a0 gt_tele) eqn:E4]]].
  - inv1. rep (roll_inv ((fb_version a =? 1) && ((if fb_version a =? 1 then a1 else 0) =? 0))). destruct (X4 eq_refl) as (E2 & E3 & E4).
    sgpd_case. rewrite V, E1, E2, E3, E4. repeat rewrite <- app_assoc in *. cbn [app] in *. split; [reflexivity|].
    repeat (split; [first [assumption|constructor|discriminate|reflexivity|intros; first [reflexivity|discriminate]]|]). intros; discriminate.
  - inv1. destruct (fb_version a =? 1) eqn:Ev.
    2:{ eapply (rinv_bind _ _ _ (fun fs l => fs = [] /\ l = [] /\ Z.to_nat a2 = O)).
        - destruct (Z.to_nat a2) as [|k] eqn:Ek; cbn [rrepeat]; [apply rinv_ret; auto|]. intros _ r Hr. exact I.
        - intros l fs (-> & -> & En) _. match goal with K : fields_ok [FU (Z.to_nat 32) a2] |- _ => apply fields_ok_cons in K as [K _]; cbn [field_ok] in K; unfold fits_u in K end.
          assert (a2 = 0) by lia. subst a2. sgpd_case. rewrite Ev, E1, E2. cbn [flat_map] in *. repeat rewrite <- app_assoc in *. cbn [app] in *. split; [reflexivity|].
          repeat (split; [first [assumption|constructor|discriminate|reflexivity|intros; first [reflexivity|discriminate]]|]). congruence. }
    rep (alst_inv a1 (true && (a1 =? 0))). sgpd_case. rewrite Ev, E1, E2. repeat rewrite <- app_assoc in *. cbn [app] in *. split; [reflexivity|].
    split; [assumption|]. split; [assumption|]. split; [reflexivity|]. do 3 (split; [constructor|]). split.
    { unfold alst_entry_wf, sgpd_explicit. cbn [sgpd_fb sgpd_default_length]. rewrite Ev. assumption. }
    do 4 (split; [intros; first [reflexivity|discriminate]|]). intros _ _. lia.
  - inv1. rep (vra_inv ((fb_version a =? 1) && ((if fb_version a =? 1 then a1 else 0) =? 0))).
    sgpd_case. rewrite V, E1, E2, E3. repeat rewrite <- app_assoc in *. cbn [app] in *. split; [reflexivity|].
    repeat (split; [first [assumption|constructor|discriminate|reflexivity|intros; first [reflexivity|discriminate]]|]). intros; discriminate.
  - inv1. rep (tele_inv ((fb_version a =? 1) && ((if fb_version a =? 1 then a1 else 0) =? 0))).
    sgpd_case. rewrite V, E1, E2, E3, E4. repeat rewrite <- app_assoc in *. cbn [app] in *. split; [reflexivity|].
    repeat (split; [first [assumption|constructor|discriminate|reflexivity|intros; first [reflexivity|discriminate]]|]). intros; discriminate.
  - sgpd_case. rewrite V, E1, E2, E3, E4. repeat rewrite <- app_assoc in *. rewrite app_nil_r. cbn [app] in *. split; [reflexivity|].
    repeat (split; [first [assumption|constructor|discriminate|reflexivity|intros; first [reflexivity|discriminate]]|]). intros; discriminate.
Qed.

(** hdlr: the reader is aligned to octets. *)
Definition ainv {A} (pre : list field) (m : R A) (Q : list field -> A -> Prop) : Prop :=
  fields_ok pre -> forall r, rwf r -> r_width r = 0 ->
  match m r with
  | Ok (r', _, a) => rwf r' /\ r_width r' = 0 /\ r_data r' = r_data r /\ exists fs, rbits r = enc fs ++ rbits r' /\ fields_ok (pre ++ fs) /\ Q (pre ++ fs) a
  | _ => True
  end.
Lemma ainv_of {A} pre (m : R A) Q : rinv pre m Q -> asafe m -> ainv pre m Q.
Proof.
  intros H S Hp r Hr W. specialize (H Hp r Hr). specialize (S r Hr W). destruct (m r) as [[[r1 n1] a]|e|]; auto.
  destruct H as (H1 & H2 & H3). destruct S as (_ & S2 & _). auto.
Qed.
Lemma ainv_bind {A B} pre (m : R A) (f : A -> R B) Q1 Q :
  ainv [] m Q1 -> (forall a fs, Q1 fs a -> fields_ok fs -> ainv (pre ++ fs) (f a) Q) -> ainv pre (rbind m f) Q.
Proof.
  intros Hm Hf Hp r Hr W. specialize (Hm ltac:(constructor) r Hr W). unfold rbind. destruct (m r) as [[[r1 n1] a]|e|]; auto.
  destruct Hm as (W1 & V1 & D1 & fs & E & K & Hq). cbn [app] in *. specialize (Hf a fs Hq K).
  assert (Hp' : fields_ok (pre ++ fs)) by (apply Forall_app; auto). specialize (Hf Hp' r1 W1 V1).
  destruct (f a r1) as [[[r2 n2] b]|e|]; auto. destruct Hf as (W2 & V2 & D2 & fs2 & E2 & K2 & Hq2).
  split; [exact W2|]. split; [exact V2|]. split; [congruence|]. exists (fs ++ fs2). rewrite enc_app, <- app_assoc, <- E2. rewrite app_assoc. auto.
Qed.
Lemma ainv_tail {A} pre (m : R A) (Q1 Q : list field -> A -> Prop) : ainv [] m Q1 ->
  (forall a fs, Q1 fs a -> fields_ok fs -> fields_ok (pre ++ fs) -> Q (pre ++ fs) a) -> ainv pre m Q.
Proof.
  intros Hm HQ Hp r Hr W. specialize (Hm ltac:(constructor) r Hr W). destruct (m r) as [[[r1 n1] a]|e|]; auto.
  destruct Hm as (W1 & V1 & D1 & fs & E & K & Hq). cbn [app] in *. split; [exact W1|split; [exact V1|split; [exact D1|]]]. exists fs. split; [exact E|].
  assert (Hp' : fields_ok (pre ++ fs)) by (apply Forall_app; auto). auto.
Qed.
Lemma app_len_inj {A} (a b x y : list A) : length a = length b -> a ++ x = b ++ y -> a = b /\ x = y.
Proof.
  revert b. induction a as [|u a IH]; intros [|v b] L E; try discriminate L; [split; [reflexivity|exact E]|].
  cbn [app] in E. injection E as -> E. cbn [length] in L. destruct (IH b ltac:(lia) E) as [-> ->]. split; reflexivity.
Qed.
Definition pascal_or_string (m : Z) (fs : list field) (s : list Z) : Prop :=
  bytes s /\ ((is_string fs s /\ (16 <= m -> forall c t, enc fs = be 8 c ++ t -> is_byte c -> c * 8 <> m - 8)) \/ (fs = [FO (Zlen s :: s)] /\ s <> [])).
Lemma pascal_inv m : ainv [] (read_pascal_string m) (pascal_or_string m).
Proof.
  intros Hp r Hr W. pose proof (asafe_pascal m r Hr W) as S. unfold read_pascal_string in *. destruct (m <? 2 * 8) eqn:M.
  - pose proof (rinv_string m Hp r Hr) as X. destruct (read_string m r) as [[[r1 n1] s]|e|]; auto. destruct X as (X1 & X2 & fs & X3 & X4 & X5). destruct S as (_ & S2 & _).
    split; [exact X1|]. split; [exact S2|]. split; [exact X2|]. exists fs. split; [exact X3|]. split; [exact X4|]. split; [apply X5|]. left. split; [exact X5|lia].
  - pose proof (rinv_octet8 Hp r Hr) as O. pose proof (asafe_octet8 r Hr W) as A8. destruct (read_octet8 r) as [[[r1 n1] v]|e|]; auto.
    destruct O as (O1 & O2 & fs & O3 & O4 & O5). cbn [app] in O4, O5. subst fs. destruct A8 as (_ & V1 & _).
    apply fields_ok_cons in O4 as [O4 _]. cbn [field_ok] in O4. rewrite enc_one in O3. cbn [field_bits] in O3. assert (Bv : is_byte v) by exact O4.
    destruct (negb (v * 8 =? m - 8)) eqn:Nv.
    + assert (F : rbits (mkReader (r_data r1) (r_pos r) (r_octet r1) (r_width r1)) = rbits r).
      { unfold rbits. cbn [r_width r_pos r_data r_octet]. rewrite V1, W, O2. reflexivity. }
      assert (Hr' : rwf (mkReader (r_data r1) (r_pos r) (r_octet r1) (r_width r1))).
      { destruct Hr as (H1 & H2 & H3). unfold rwf. cbn [r_width r_pos r_data]. rewrite O2, V1. split; [lia|split; [exact H2|exact H3]]. }
      pose proof (rinv_string m Hp _ Hr') as X. rewrite F in X. cbn [r_data] in X. destruct (read_string m _) as [[[r2 n2] s]|e|]; auto.
      destruct X as (X1 & X2 & fs & X3 & X4 & X5). destruct S as (_ & S2 & _). split; [exact X1|]. split; [exact S2|]. split; [congruence|]. exists fs. split; [exact X3|]. split; [exact X4|].
      split; [apply X5|]. left. split; [exact X5|]. intros _ c t Ec Hc. cbn [app] in *.
      assert (Eq : be 8 v = be 8 c).
      { rewrite X3, Ec, <- app_assoc in O3. apply app_len_inj in O3; [symmetry; apply O3|rewrite !be_length; reflexivity]. }
      assert (v = c). { apply (f_equal bits_to_Z) in Eq. rewrite !bits_to_Z_be in Eq. change (Z.of_nat 8) with 8 in Eq. unfold is_byte in *. change (2 ^ 8) with 256 in Eq. rewrite !Z.mod_small in Eq by assumption. exact Eq. }
      subst c. apply negb_true_iff, Z.eqb_neq in Nv. exact Nv.
    + apply negb_false_iff, Z.eqb_eq in Nv.
      pose proof (rinv_octets (rrepeat (Z.to_nat v) read_octet8) (fun l => l) (fun l => length l = Z.to_nat v)) as Y.
      specialize (Y ltac:(apply rinv_repeat_map; apply rinv_octet8) Hp r1 O1). unfold rbind in *. destruct (rrepeat (Z.to_nat v) read_octet8 r1) as [[[r2 n2] s]|e|]; auto.
      cbn [rtick rret] in *. destruct Y as (Y1 & Y2 & fs & Y3 & Y4 & Y5 & Y6). cbn [app] in *. subst fs. destruct S as (_ & S2 & _).
      assert (Ev : v = Zlen s) by (unfold Zlen; rewrite Y6; destruct Bv; lia).
      split; [exact Y1|]. split; [exact S2|]. split; [congruence|]. apply fields_ok_cons in Y4 as [Y4 _].
      exists [FO (Zlen s :: s)]. rewrite <- Ev. split; [|split; [|split; [exact Y4|right; split; [rewrite Ev; reflexivity|]]]].
      * rewrite O3, Y3, !enc_one. cbn [field_bits]. rewrite bits_of_cons, <- app_assoc. reflexivity.
      * constructor; [|constructor]. constructor; assumption.
      * intros ->. unfold Zlen in Ev. cbn in Ev. lia.
Qed.
Definition handler_name (p : Z) (fs : list field) (name : list Z) : Prop :=
  bytes name /\ ((is_string fs name /\ (fs = [FS name] -> p = 0 \/ name = [] \/ hd 0 name <> Zlen name)) \/ (fs = [FO (Zlen name :: name)] /\ p <> 0 /\ name <> [])).
Lemma Zlen_bits_FS s : Zlen (enc [FS s]) = 8 * (Zlen s + 1).
Proof. rewrite enc_one. cbn [field_bits]. rewrite Zlen_bits_of, Zlen_app. unfold Zlen at 2. cbn [length]. lia. Qed.
Lemma hdlr_tail_inv p (k : list Z -> list Z -> hdlr) :
  ainv [] (n <- offset_to_end;
           ' (nb, name) <- rcount (if negb (p =? 0) then read_pascal_string (n * 8) else read_string (n * 8));
           if (n * 8 <? nb) || negb (nb mod 8 =? 0) then rthrow RuntimeError
           else pad <- read_vector_uint 8 (Z.to_nat (n * 8 - nb)); rret (k name pad))
    (fun fs b => exists name, b = k name [] /\ handler_name p fs name).
Proof.
  intros Hp r Hr W. unfold rbind at 1. unfold offset_to_end. set (n := Zlen (r_data r) - Z.of_nat (r_pos r)).
  assert (Nb : Zlen (rbits r) = n * 8) by (rewrite (rbits_length r Hr), W; unfold n; lia).
  unfold rbind at 1, rcount.
  set (m := if negb (p =? 0) then read_pascal_string (n * 8) else read_string (n * 8)).
  assert (X : match m r with
    | Ok (r1, nb, name) => rwf r1 /\ r_width r1 = 0 /\ r_data r1 = r_data r /\ Zlen (rbits r) = nb + Zlen (rbits r1) /\
        exists fs, rbits r = enc fs ++ rbits r1 /\ fields_ok fs /\ bytes name /\
          ((is_string fs name /\ (p <> 0 -> 16 <= n * 8 -> forall c t, enc fs = be 8 c ++ t -> is_byte c -> c * 8 <> n * 8 - 8)) \/ (fs = [FO (Zlen name :: name)] /\ p <> 0 /\ name <> []))
    | _ => True end).
  { unfold m. destruct (negb (p =? 0)) eqn:P.
    - apply negb_true_iff, Z.eqb_neq in P. pose proof (asafe_pascal (n * 8) r Hr W) as S. pose proof (pascal_inv (n * 8) Hp r Hr W) as I. destruct (read_pascal_string (n * 8) r) as [[[r1 n1] s]|e|]; auto.
      destruct S as (_ & _ & _ & bs & S1 & S2). destruct I as (I1 & I2 & I3 & fs & I4 & I5 & I6 & I7). cbn [app] in *. split; [exact I1|]. split; [exact I2|]. split; [exact I3|]. split; [rewrite S1, Zlen_app; lia|].
      exists fs. split; [exact I4|]. split; [exact I5|]. split; [exact I6|]. destruct I7 as [[I7 I8]|[I7 I8]]; [left|right]; auto.
    - apply negb_false_iff, Z.eqb_eq in P. pose proof (asafe_string (n * 8) r Hr W) as S. pose proof (rinv_string (n * 8) Hp r Hr) as I. destruct (read_string (n * 8) r) as [[[r1 n1] s]|e|]; auto.
      destruct S as (_ & S0 & _ & bs & S1 & S2). destruct I as (I1 & I2 & fs & I4 & I5 & I6). cbn [app] in *. split; [exact I1|]. split; [exact S0|]. split; [exact I2|]. split; [rewrite S1, Zlen_app; lia|].
      exists fs. split; [exact I4|]. split; [exact I5|]. split; [apply I6|]. left. split; [exact I6|]. intros; contradiction. }
  destruct (m r) as [[[r1 nb] name]|e|]; auto. destruct X as (X1 & X2 & X3 & X4 & fs & X5 & X6 & X7 & X8). cbv beta iota.
  destruct ((n * 8 <? nb) || negb (nb mod 8 =? 0)) eqn:G; [exact I|]. apply orb_false_iff in G as [G1 G2]. apply Z.ltb_ge in G1.
  unfold rbind. assert (K : Z.to_nat (n * 8 - nb) = 0%nat \/ forall r2 n2 pad, read_vector_uint 8 (Z.to_nat (n * 8 - nb)) r1 <> Ok (r2, n2, pad)).
  { destruct (Z.to_nat (n * 8 - nb)) as [|q] eqn:Eq; [left; reflexivity|right]. intros r2 n2 pad E.
    pose proof (rinv_vec8 (S q) ltac:(constructor) r1 X1) as V. pose proof (rsafe_vector 8 (S q) ltac:(lia) r1 X1) as V'. rewrite E in V, V'.
    destruct V as (_ & _ & gs & V1 & _ & V2 & V3). cbn [app] in V2. subst gs. apply (f_equal Zlen) in V1. rewrite Zlen_app, enc_one in V1. cbn [field_bits] in V1. rewrite Zlen_bits_of in V1.
    unfold Zlen at 2 in V1. rewrite V3 in V1. pose proof (Zlen_nonneg (rbits r2)). lia. }
  destruct K as [K|K].
  - rewrite K. unfold read_vector_uint. cbn [rrepeat rret]. split; [exact X1|]. split; [exact X2|]. split; [exact X3|]. exists fs. split; [exact X5|]. split; [exact X6|].
    exists name. split; [reflexivity|]. split; [exact X7|]. cbn [app]. destruct X8 as [[X8 X9]|X8]; [left|right; exact X8]. split; [exact X8|]. intros ->.
    assert (R0 : Zlen (rbits r1) = 0) by lia. apply (f_equal Zlen) in X5. rewrite Zlen_app, Zlen_bits_FS in X5.
    destruct (Z.eq_dec p 0) as [->|Np]; [left; reflexivity|right]. destruct name as [|c s]; [left; reflexivity|right]. cbn [hd].
    assert (Bc : is_byte c) by (inversion X7; assumption). rewrite Zlen_cons in *. pose proof (Zlen_nonneg s).
    specialize (X9 Np ltac:(lia) c (bits_of (s ++ [0]))). rewrite enc_one in X9. cbn [field_bits] in X9. change ((c :: s) ++ [0]) with (c :: (s ++ [0])) in X9. rewrite bits_of_cons in X9. specialize (X9 eq_refl Bc). lia.
  - destruct (read_vector_uint 8 (Z.to_nat (n * 8 - nb)) r1) as [[[r2 n2] pad]|e|]; auto. exfalso. exact (K r2 n2 pad eq_refl).
Qed.
(** What follows the four-character codes, before the name. *)
Definition hdlr_head (b : hdlr) : list field :=
  fb_layout (hdlr_fb b) ++ [FU 32 (hdlr_pre_defined b); FO (hdlr_handler_type b); FO (hdlr_manufacturer b); FO (hdlr_flags b); FO (hdlr_flags_mask b)].
Lemma hdlr_inv : ainv [] Hdlr_readData (fun fs b => exists gs, fs = hdlr_head b ++ gs /\ hdlr_shape b /\ hdlr_padding b = [] /\ handler_name (hdlr_pre_defined b) gs (hdlr_name b)).
Proof.
  unfold Hdlr_readData.
  eapply ainv_bind; [apply ainv_of; [prim|apply asafe_of; [apply rsafe_fb|apply oct_fb]]|intros fb fs -> _].
  eapply ainv_bind; [apply ainv_of; [prim|apply asafe_of; [safe|apply oct_uint; reflexivity]]|intros p fs -> _].
  do 4 (eapply ainv_bind; [apply ainv_of; [prim|apply asafe_of; [safe|apply oct_repeat, oct_uint; reflexivity]]|intros ? ? [-> ?] _]).
  eapply ainv_tail; [apply (hdlr_tail_inv p (fun name pad => mk_hdlr fb p a a0 a1 a2 name pad))|]. cbv beta.
  intros b fs (name & -> & Hn) _ K. exists fs. unfold hdlr_head, hdlr_shape. cbn [hdlr_fb hdlr_pre_defined hdlr_handler_type hdlr_manufacturer hdlr_flags hdlr_flags_mask hdlr_name hdlr_padding].
  split; [cbn [app]; repeat rewrite <- app_assoc; reflexivity|]. split; [repeat split; assumption|]. split; [reflexivity|exact Hn].
Qed.

(** iods and esds: the written length keeps 28 bits. *)
Definition rval {A} (m : R A) (P : A -> Prop) : Prop := forall r, rwf r -> match m r with Ok (r', _, a) => rwf r' /\ P a | _ => True end.
Lemma rval_inv {A} (m : R A) Q (P : A -> Prop) : rinv [] m Q -> (forall fs a, fields_ok fs -> Q fs a -> P a) -> rval m P.
Proof. intros H I r Hr. specialize (H ltac:(constructor) r Hr). destruct (m r) as [[[r1 n] a]|e|]; auto. destruct H as (W & _ & fs & _ & K & Hq). split; [exact W|eauto]. Qed.
Lemma rval_safe {A} (m : R A) : rsafe m -> rval m (fun _ => True).
Proof. intros H r Hr. specialize (H r Hr). destruct (m r) as [[[r1 n] a]|e|]; auto. split; [apply H|exact I]. Qed.
Lemma rval_bind {A B} (m : R A) (f : A -> R B) P Q : rval m P -> (forall a, P a -> rval (f a) Q) -> rval (rbind m f) Q.
Proof.
  intros Hm Hf r Hr. specialize (Hm r Hr). unfold rbind. destruct (m r) as [[[r1 n] a]|e|]; auto. destruct Hm as [W Pa]. specialize (Hf a Pa r1 W).
  destruct (f a r1) as [[[r2 n2] b]|e|]; auto.
Qed.
Lemma rval_ret {A} (a : A) (P : A -> Prop) : P a -> rval (rret a) P. Proof. intros H r Hr. cbn. auto. Qed.
Lemma rval_uint w s : 0 < s <= w -> w <= 64 -> rval (read_uint w s) (fun a => field_ok (FU (Z.to_nat s) a)).
Proof. intros H1 H2. eapply rval_inv; [apply rinv_uint; lia|]. intros fs a K ->. apply fields_ok_cons in K. apply K. Qed.
Lemma rval_int w s : 0 < s <= w -> w <= 64 -> rval (read_int w s) (fun a => field_ok (FI (Z.to_nat s) a)).
Proof. intros H1 H2. eapply rval_inv; [apply rinv_int; lia|]. intros fs a K ->. apply fields_ok_cons in K. apply K. Qed.
Lemma rval_bool : rval read_bool (fun _ => True). Proof. apply rval_safe, rsafe_bool. Qed.
Lemma rval_vec8 n : rval (read_vector_uint 8 n) (fun l => bytes l /\ length l = n).
Proof. eapply rval_inv; [apply rinv_vec8|]. intros fs a K [-> L]. apply fields_ok_cons in K as [K _]. split; assumption. Qed.
Lemma rval_rwhen c m (P : Z -> Prop) : rval m P -> rval (rwhen c m) (fun a => (c = true -> P a) /\ absent c (a = 0)).
Proof. intros H r Hr. specialize (H r Hr). unfold rwhen, absent. destruct c; [|cbn; split; [exact Hr|split; [discriminate|reflexivity]]].
  destruct (m r) as [[[r1 n] a]|e|]; auto. destruct H. split; [assumption|]. split; [auto|discriminate]. Qed.
Lemma rval_fb : rval readVersionAndFlag (fun fb => fields_ok (fb_layout fb)).
Proof. eapply rval_inv; [apply rinv_fb|]. intros fs a K ->. exact K. Qed.

Lemma uvarint_octets_mod v : uvarint_octets 4 v = uvarint_octets 4 (v mod 2 ^ 28).
Proof.
  cbn [uvarint_octets].
  assert (G : forall j, 0 <= j <= 21 -> (v / 2 ^ j) mod 128 = ((v mod 2 ^ 28) / 2 ^ j) mod 128).
  { intros j Hj. change 128 with (2 ^ 7). change (2 ^ 28) with (2 ^ (28 - 0)). rewrite <- !Z.shiftr_div_pow2 by lia. rewrite <- !Z.land_ones by lia.
    apply Z.bits_inj'. intros i Hi. rewrite !Z.land_spec, !Z.shiftr_spec, Z.land_spec by lia. rewrite !Z.testbit_ones by lia.
    destruct (Z.ltb_spec i 7); rewrite ?andb_false_r; [|reflexivity]. replace (i + j <? 28 - 0) with true by lia. replace (0 <=? i + j) with true by lia. cbn [andb]. rewrite !andb_true_r. reflexivity. }
  change (7 * Z.of_nat 3) with 21. change (7 * Z.of_nat 2) with 14. change (7 * Z.of_nat 1) with 7. change (7 * Z.of_nat 0) with 0.
  rewrite <- !G by lia. reflexivity.
Qed.
Lemma wenc_uvarint_mod v u : u = v mod 2 ^ 28 -> wenc (write_uvarint 4 v) [FV u].
Proof.
  intros -> Hok. apply fields_ok_cons in Hok as [H _]. cbn [field_ok] in H. rewrite enc_one, <- uvarint_bits by exact H. rewrite <- uvarint_octets_mod. apply write_uvarint_spec.
Qed.
Lemma field_ok_FV_mod v : field_ok (FV (v mod 2 ^ 28)).
Proof. cbn [field_ok]. apply Z.mod_pos_bound. lia. Qed.

(** iods *)
Definition iods_wire (b : iods) : list field :=
  fb_layout (iods_fb b) ++
  [FU 8 (iods_type_tag b); FV (iods_descriptor_length b mod 2 ^ 28); FU 16 (iods_OD_ID b); FU 8 (iods_OD_profile_level b);
   FU 8 (iods_scene_profile_level b); FU 8 (iods_audio_profile_level b); FU 8 (iods_video_profile_level b);
   FU 8 (iods_graphics_profile_level b)].
Lemma iods_wire_write b : wenc (Iods_writeData b) (iods_wire b).
Proof.
  unfold Iods_writeData, iods_wire. wgo. apply wenc_uvarint_mod. reflexivity.
Qed.
Lemma iods_val : rval Iods_readData (fun b => fields_ok (iods_wire b)).
Proof.
  unfold Iods_readData. eapply rval_bind; [apply rval_fb|intros fb Hfb]. eapply rval_bind; [apply rval_uint; lia|intros t Ht].
  eapply rval_bind; [apply rval_safe, rsafe_uvarint|intros l _]. do 6 (eapply rval_bind; [apply rval_uint; lia|intros ? ?]).
  eapply rval_bind; [apply (rval_inv _ (fun _ _ => True) (fun _ => True)); [eapply rinv_weaken; [apply rinv_tick|]; auto|auto]|intros _ _].
  apply rval_ret. unfold iods_wire. cbn [iods_fb iods_type_tag iods_descriptor_length iods_OD_ID iods_OD_profile_level iods_scene_profile_level iods_audio_profile_level iods_video_profile_level iods_graphics_profile_level].
  apply Forall_app. split; [exact Hfb|]. constructor; [exact Ht|]. constructor; [apply field_ok_FV_mod|]. repeat (constructor; [assumption|]). constructor.
Qed.
Definition iods_core : R iods :=
  fb <- readVersionAndFlag; t <- read_uint 8 8; l <- read_uvarint 32; i <- read_uint 16 16; o <- read_uint 8 8;
  s <- read_uint 8 8; a <- read_uint 8 8; v <- read_uint 8 8; g <- read_uint 8 8; rret (mk_iods fb t l i o s a v g).
Definition adds {A} (g : A -> Z) (m m' : R A) : Prop := forall r, m r = match m' r with Ok (r', n, b) => Ok (r', n + g b, b) | Throw e => Throw e | UB => UB end.
Lemma adds_bind {A B} (g : B -> Z) (m : R A) f f' : (forall a, adds g (f a) (f' a)) -> adds g (rbind m f) (rbind m f').
Proof.
  intros H r. unfold rbind. destruct (m r) as [[[r1 n1] a]|e|]; [|reflexivity|reflexivity]. rewrite (H a r1). destruct (f' a r1) as [[[r2 n2] b]|e|]; [|reflexivity|reflexivity].
  rewrite Z.add_assoc. reflexivity.
Qed.
Lemma iods_core_eq r : Iods_readData r = match iods_core r with Ok (r', n, b) => Ok (r', n + to_u 32 ((iods_descriptor_length b - 7) * 8), b) | Throw e => Throw e | UB => UB end.
Proof.
  revert r. change (adds (fun b => to_u 32 ((iods_descriptor_length b - 7) * 8)) Iods_readData iods_core). unfold Iods_readData, iods_core.
  do 9 (apply adds_bind; intros ?). intros r. unfold rbind, rtick, rret. cbn [iods_descriptor_length]. f_equal. f_equal. f_equal. lia.
Qed.
Definition iods_on_wire (b : iods) : iods :=
  mk_iods (iods_fb b) (iods_type_tag b) (iods_descriptor_length b mod 2 ^ 28) (iods_OD_ID b) (iods_OD_profile_level b) (iods_scene_profile_level b) (iods_audio_profile_level b) (iods_video_profile_level b) (iods_graphics_profile_level b).
Lemma iods_core_read b rest : renc iods_core (iods_wire b) rest (iods_on_wire b).
Proof. unfold iods_core, iods_wire. rgo. Qed.
Lemma iods_exact b r rest r' : rwf r -> fields_ok (iods_wire b) -> rbits r = enc (iods_wire b) ++ rest -> Iods_readData r = Ok (r', Zlen (enc (iods_wire b)), b) -> iods_wf b.
Proof.
  intros Hr K E X. destruct (iods_core_read b rest K r Hr E) as (r2 & E2 & _). rewrite iods_core_eq, E2 in X. cbn [iods_descriptor_length iods_on_wire] in X.
  assert (EB : iods_on_wire b = b) by congruence. assert (EN : Zlen (enc (iods_wire b)) + to_u 32 ((iods_descriptor_length b mod 2 ^ 28 - 7) * 8) = Zlen (enc (iods_wire b))) by congruence.
  clear X. assert (EL : iods_descriptor_length b mod 2 ^ 28 = iods_descriptor_length b) by (rewrite <- EB at 2; reflexivity).
  unfold iods_wf. split.
  - unfold iods_wire in K. rewrite EL in K. exact K.
  - rewrite EL in EN. pose proof (Z.mod_pos_bound (iods_descriptor_length b) (2 ^ 28) ltac:(lia)) as B. rewrite EL in B.
    unfold to_u in EN. assert (M : ((iods_descriptor_length b - 7) * 8) mod 2 ^ 32 = 0) by lia.
    destruct (Z_lt_dec (iods_descriptor_length b) 7) as [L|L]; [|rewrite Z.mod_small in M by lia; lia].
    rewrite <- (Z.mod_add _ 1) in M by lia. rewrite Z.mod_small in M by lia. lia.
Qed.

(** esds *)
Definition wire_size (d : descriptor) : Z := announced d mod 2 ^ 28.
Definition esds_wire (ds : list descriptor) : list field := flat_map (fun d => descriptor_layout (wire_size d) d) ds.
Lemma mod_mod_28 v : v mod 2 ^ 32 mod 2 ^ 28 = v mod 2 ^ 28.
Proof. change (2 ^ 32) with (2 ^ 28 * 2 ^ 4). rewrite Z.rem_mul_r by lia. rewrite Z.mul_comm, Z.mod_add, Z.mod_mod by lia. reflexivity. Qed.
Lemma descriptor_wire_write d : wenc (Descriptor_writeData d) (descriptor_layout (wire_size d) d).
Proof.
  assert (W : wenc (write_uvarint 4 (getDataSizeWithSubDescriptors d)) [FV (wire_size d)]).
  { apply wenc_uvarint_mod. unfold wire_size. rewrite announced_mod, mod_mod_28. reflexivity. }
  destruct d as [f s subs|f s subs|l|l]; unfold Descriptor_writeData, descriptor_layout.
  - unfold es_layout. cbn [app]. apply wenc_cons; [apply wenc_tag; [reflexivity|unfold ESDescrTag; lia]|].
    apply wenc_cons; [exact W|].
    wgo. intros Hok. pose proof Hok as Hok'. apply fields_ok_cons in Hok' as [Hf _]. cbn [field_ok] in Hf. unfold fits_u in Hf.
    change (2 ^ Z.of_nat 8) with 256 in Hf. destruct (Zlen (es_url_string f) >? 255) eqn:G; [lia|]. revert Hok.
    match goal with |- fields_ok ?l -> wspec ?m (enc ?l) => change (wenc m l) end. wgo.
  - unfold dcd_layout. apply wenc_cons; [apply wenc_tag; [reflexivity|unfold DecoderConfigDescrTag; lia]|].
    apply wenc_cons; [exact W|]. wgo.
  - apply wenc_cons; [apply wenc_tag; [reflexivity|unfold DecSpecificInfoTag; lia]|].
    apply wenc_cons; [exact W|]. wgo.
  - apply wenc_cons; [apply wenc_tag; [reflexivity|unfold SLConfigDescrTag; lia]|].
    apply wenc_cons; [exact W|]. wgo.
Qed.
Lemma esds_wire_write b : wenc (Esds_writeData b) (fb_layout (esds_fb b) ++ esds_wire (esds_descriptors b)).
Proof. unfold Esds_writeData, esds_wire. wgo. apply descriptor_wire_write. Qed.

(** Members of what is read are in range. *)
Definition own_ok (d : descriptor) : Prop := (forall n, field_ok (FV n) -> fields_ok (descriptor_layout n d)) /\ descriptor_absent d /\
  match d with DES f _ subs => subs = [] /\ ESDescriptor_getDataSize f = es_body f | DCD _ _ subs => subs = [] | _ => True end.
Lemma es_val : rval ESDescriptor_readData own_ok.
Proof.
  unfold ESDescriptor_readData. eapply rval_bind; [apply rval_safe, rsafe_uvarint|intros n _]. eapply rval_bind; [apply rval_uint; lia|intros i Hi].
  do 3 (eapply rval_bind; [apply rval_bool|intros ? _]). eapply rval_bind; [apply rval_int; lia|intros p Hp].
  eapply rval_bind; [apply rval_rwhen, rval_uint; lia|intros d [Hd Ad]].
  eapply (rval_bind _ _ (fun u => (a0 = true -> field_ok (FU 8 (Zlen u)) /\ bytes u) /\ absent a0 (u = []))).
  { unfold absent. destruct a0.
    - eapply rval_bind; [apply rval_uint; lia|intros k Hk]. intros r Hr. pose proof (rval_vec8 (Z.to_nat k) r Hr) as V. destruct (read_vector_uint 8 (Z.to_nat k) r) as [[[r1 n1] u]|e|]; auto.
      destruct V as [W [B L]]. split; [exact W|]. split; [intros _|discriminate]. split; [|exact B]. cbn [field_ok] in *. unfold fits_u in *. change (Z.of_nat (Z.to_nat 8)) with 8 in Hk. change (Z.of_nat 8) with 8. unfold Zlen. rewrite L. lia.
    - apply rval_ret. split; [discriminate|reflexivity]. }
  intros u [Hu Au]. eapply rval_bind; [apply rval_rwhen, rval_uint; lia|intros o [Ho Ao]]. cbv zeta. apply rval_ret.
  set (f := mk_es_fields i a a0 a1 p d u o).
  assert (K : forall n, field_ok (FV n) -> fields_ok (es_layout n f)).
  { intros m Hm. unfold es_layout, f. cbn [es_ESID es_stream_dependence_flag es_url_flag es_ocr_stream_flag es_stream_priority es_depends_on_esid es_url_string es_OCRESID].
    apply Forall_app. split; [constructor; [cbn [field_ok]; unfold fits_u; lia|]; constructor; [exact Hm|]; constructor; [exact Hi|]; do 3 (constructor; [exact I|]); constructor; [exact Hp|constructor]|].
    apply Forall_app. split; [destruct a; cbn [opt]; [constructor; [apply Hd; reflexivity|constructor]|constructor]|].
    apply Forall_app. split; [destruct a0; cbn [opt]; [destruct (Hu eq_refl); constructor; [assumption|constructor; [assumption|constructor]]|constructor]|].
    destruct a1; cbn [opt]; [constructor; [apply Ho; reflexivity|constructor]|constructor]. }
  split; [exact K|]. split; [cbn [descriptor_absent]; unfold f; cbn; auto|]. split; [reflexivity|].
  apply (Zlen_es_getDataSize f 0); [apply K; cbn [field_ok]; lia|exact Au].
Qed.
Lemma dcd_val : rval DecoderConfigDescriptor_readData own_ok.
Proof.
  unfold DecoderConfigDescriptor_readData. eapply rval_bind; [apply rval_safe, rsafe_uvarint|intros n _]. eapply rval_bind; [apply rval_uint; lia|intros o Ho].
  eapply rval_bind; [apply rval_int; lia|intros s Hs]. do 2 (eapply rval_bind; [apply rval_bool|intros ? _]). do 3 (eapply rval_bind; [apply rval_uint; lia|intros ? ?]).
  apply rval_ret. split; [|split; [exact I|reflexivity]]. intros m Hm. cbn [descriptor_layout]. unfold dcd_layout. cbn [dcd_object_type_indication dcd_stream_type dcd_upstream dcd_reserved dcd_buffer_size_db dcd_max_bitrate dcd_avg_bitrate].
  constructor; [cbn [field_ok]; unfold fits_u; lia|]. constructor; [exact Hm|]. constructor; [exact Ho|]. constructor; [exact Hs|]. do 2 (constructor; [exact I|]). repeat (constructor; [assumption|]). constructor.
Qed.
Lemma dsi_val : rval DecSpecificInfo_readData own_ok.
Proof.
  unfold DecSpecificInfo_readData. eapply rval_bind; [apply rval_safe, rsafe_uvarint|intros n _]. eapply rval_bind; [apply rval_vec8|intros l [Hl _]].
  apply rval_ret. split; [|split; exact I]. intros m Hm. cbn [descriptor_layout]. constructor; [cbn [field_ok]; unfold fits_u; lia|]. constructor; [exact Hm|]. constructor; [exact Hl|constructor].
Qed.
Lemma dsl_val : rval SLConfigDescr_readData own_ok.
Proof.
  unfold SLConfigDescr_readData. eapply rval_bind; [apply rval_safe, rsafe_uvarint|intros n _]. eapply rval_bind; [apply rval_vec8|intros l [Hl _]].
  apply rval_ret. split; [|split; exact I]. intros m Hm. cbn [descriptor_layout]. constructor; [cbn [field_ok]; unfold fits_u; lia|]. constructor; [exact Hm|]. constructor; [exact Hl|constructor].
Qed.
Lemma rval_weaken {A} (m : R A) (P Q : A -> Prop) : rval m P -> (forall a, P a -> Q a) -> rval m Q.
Proof. intros H I r Hr. specialize (H r Hr). destruct (m r) as [[[r1 n] a]|e|]; auto. destruct H; split; auto. Qed.
Lemma esds_loop_val fuel : forall acc, rval (Esds_loop fuel acc) (fun l => exists more, l = acc ++ more /\ Forall own_ok more).
Proof.
  induction fuel as [|k IH]; intros acc; cbn [Esds_loop]; [intros r _; exact I|].
  eapply rval_bind; [apply (rval_inv _ _ (fun _ => True) rinv_offset); auto|intros n _].
  assert (Z0 : exists more, acc = acc ++ more /\ Forall own_ok more) by (exists []; rewrite app_nil_r; split; [reflexivity|constructor]).
  destruct (n =? 0); [apply rval_ret; exact Z0|]. eapply rval_bind; [apply rval_int; lia|intros t _].
  assert (St : forall m, rval m own_ok -> rval (rbind m (fun d => Esds_loop k (acc ++ [d]))) (fun l => exists more, l = acc ++ more /\ Forall own_ok more)).
  { intros m Hm. eapply rval_bind; [exact Hm|intros d Hd]. eapply rval_weaken; [apply IH|]. intros l (more & -> & F). exists (d :: more). rewrite <- app_assoc. split; [reflexivity|constructor; assumption]. }
  destruct (t =? ESDescrTag); [apply St, es_val|]. destruct (t =? DecoderConfigDescrTag); [apply St, dcd_val|]. destruct (t =? DecSpecificInfoTag); [apply St, dsi_val|]. destruct (t =? SLConfigDescrTag); [apply St, dsl_val|].
  eapply rval_bind; [apply (rval_inv _ _ (fun _ => True) (rinv_tick _)); auto|intros _ _]. apply rval_ret. exact Z0.
Qed.
Definition fits_wire (n : Z) (d : descriptor) : Prop :=
  match d with DES f s _ => s = to_u 32 (n - es_body f) | DCD _ s _ => s = to_u 32 (n - 13) | DSI l => n = Zlen l | DSL l => n = Zlen l end.
Lemma tag_read k rest : 0 <= k < 128 -> rspec (read_int 8 8) (be 8 k) rest k.
Proof.
  intros Hk. pose proof (renc_int 8 8 8 k rest) as G. unfold renc in G.
  assert (Hok' : fields_ok [FI 8 k]) by (constructor; [|constructor]; cbn; unfold fits_s; lia).
  specialize (G eq_refl ltac:(lia) ltac:(lia) Hok'). rewrite enc_one in G. exact G.
Qed.
Lemma es_core n f rest : ESDescriptor_getDataSize f = es_body f -> absent (es_stream_dependence_flag f) (es_depends_on_esid f = 0) ->
  absent (es_url_flag f) (es_url_string f = []) -> absent (es_ocr_stream_flag f) (es_OCRESID f = 0) ->
  renc ESDescriptor_readData (tl (es_layout n f)) rest (DES f (to_u 32 (n - es_body f)) []).
Proof.
  intros Es A1 A2 A3. unfold es_layout. cbn [app tl]. unfold ESDescriptor_readData.
  eapply renc_bind_cons; [rgo|intros Hn]. do 5 (eapply renc_bind_cons; [rgo|intros _]).
  eapply renc_bind_app; [rgo|intros _]. eapply renc_bind_app with (a := es_url_string f); [|intros _].
  { destruct (es_url_flag f); cbn [opt].
    - eapply renc_bind_cons; [rgo|intros _]. rgo.
    - rewrite A2 by reflexivity. apply renc_ret. }
  eapply renc_bind_last; [rgo|intros _]. apply renc_ret_eq. rewrite <- Es.
  replace (mk_es_fields _ _ _ _ _ _ _ _) with f by (destruct f; reflexivity). reflexivity.
Qed.
Lemma dcd_core n f rest : renc DecoderConfigDescriptor_readData (tl (dcd_layout n f)) rest (DCD f (to_u 32 (n - 13)) []).
Proof.
  unfold dcd_layout. cbn [tl]. unfold DecoderConfigDescriptor_readData. eapply renc_bind_cons; [rgo|intros Hn].
  do 7 (eapply renc_bind_cons; [rgo|intros _]). apply renc_ret_eq. replace (mk_dcd_fields _ _ _ _ _ _ _) with f by (destruct f; reflexivity). reflexivity.
Qed.
Lemma raw_step (C : list Z -> descriptor) (Ci : forall a b, C a = C b -> a = b) n l rest r : field_ok (FV n) -> bytes l -> rwf r -> rbits r = enc [FV n; FO l] ++ rest ->
  match (n <- read_uvarint 32; l <- read_vector_uint 8 (Z.to_nat n); rret (C l)) r with
  | Ok (r1, _, d') => rwf r1 /\ (d' = C l -> rbits r1 = rest /\ n = Zlen l)
  | _ => True end.
Proof.
  intros Hn Hl Hr E. rewrite enc_cons, <- app_assoc in E.
  assert (K : fields_ok [FV n]) by (constructor; [exact Hn|constructor]).
  destruct (renc_uvarint n (enc [FO l] ++ rest) K r Hr ltac:(rewrite enc_one; exact E)) as (r1 & E1 & W1 & B1 & _).
  unfold rbind. rewrite E1. pose proof (rinv_vec8 (Z.to_nat n) ltac:(constructor) r1 W1) as V. destruct (read_vector_uint 8 (Z.to_nat n) r1) as [[[r2 n2] l']|e|]; auto.
  cbn [rret]. destruct V as (W2 & _ & fs & B2 & K2 & Ef & L2). cbn [app] in *. subst fs. split; [exact W2|]. intros Eq. apply Ci in Eq. subst l'.
  rewrite B1 in B2. apply app_inv_head in B2. split; [symmetry; exact B2|]. unfold Zlen. rewrite L2. cbn [field_ok] in Hn. lia.
Qed.
Lemma descriptor_step n d rest r : field_ok (FV n) -> own_ok d -> rwf r -> rbits r = enc (descriptor_layout n d) ++ rest ->
  exists r0 t, read_int 8 8 r = Ok (r0, 8, t) /\ In t [3; 4; 5; 6] /\ rwf r0 /\
  match Descriptor_readData t r0 with Ok (r1, _, d') => rwf r1 /\ (d' = d -> rbits r1 = rest /\ fits_wire n d) | _ => True end.
Proof.
  intros Hn (Ko & Ab & Sh) Hr E. specialize (Ko n Hn). pose proof Ko as Ko'.
  assert (T : exists t, descriptor_layout n d = FU 8 t :: tl (descriptor_layout n d) /\ In t [3; 4; 5; 6] /\
    Descriptor_readData t = match d with DES _ _ _ => ESDescriptor_readData | DCD _ _ _ => DecoderConfigDescriptor_readData | DSI _ => DecSpecificInfo_readData | DSL _ => SLConfigDescr_readData end).
  { destruct d; cbn [descriptor_layout]; unfold es_layout, dcd_layout; cbn [app tl]; eexists; (split; [reflexivity|split; [cbn; lia|reflexivity]]). }
  destruct T as (t & El & Ht & Er). rewrite El, enc_cons, <- app_assoc in E. cbn [field_bits] in E.
  assert (Ht' : 0 <= t < 128) by (cbn in Ht; lia).
  destruct (tag_read t (enc (tl (descriptor_layout n d)) ++ rest) Ht' r Hr E) as (r0 & E0 & W0 & B0 & _). exists r0, t.
  split; [rewrite E0; f_equal; f_equal; f_equal; unfold Zlen; rewrite be_length; reflexivity|]. split; [exact Ht|]. split; [exact W0|]. rewrite Er.
  rewrite El in Ko'. apply fields_ok_cons in Ko' as [_ Kt].
  destruct d as [f s subs|f s subs|l|l]; cbn [descriptor_layout fits_wire] in *.
  - destruct Sh as [-> Sz]. destruct Ab as (A1 & A2 & A3). destruct (es_core n f rest Sz A1 A2 A3 Kt r0 W0 B0) as (r1 & E1 & W1 & B1 & _). rewrite E1. split; [exact W1|]. intros Eq. split; [exact B1|]. congruence.
  - subst subs. destruct (dcd_core n f rest Kt r0 W0 B0) as (r1 & E1 & W1 & B1 & _). rewrite E1. split; [exact W1|]. intros Eq. split; [exact B1|]. congruence.
  - cbn [tl] in *. apply fields_ok_cons in Kt as [_ Kt]. apply fields_ok_cons in Kt as [Kl _]. apply (raw_step DSI ltac:(congruence) n l rest r0 Hn Kl W0 B0).
  - cbn [tl] in *. apply fields_ok_cons in Kt as [_ Kt]. apply fields_ok_cons in Kt as [Kl _]. apply (raw_step DSL ltac:(congruence) n l rest r0 Hn Kl W0 B0).
Qed.
Lemma esds_loop_exact ds : forall fuel acc r r' n, Forall own_ok ds -> rwf r -> rbits r = enc (esds_wire ds) -> Esds_loop fuel acc r = Ok (r', n, acc ++ ds) ->
  Forall (fun d => fits_wire (wire_size d) d) ds.
Proof.
  induction ds as [|d ds IH]; intros fuel acc r r' n F Hr E X; [constructor|]. inversion F as [|? ? Fd Fds]; subst.
  destruct fuel as [|k]; cbn [Esds_loop] in X; [discriminate X|]. unfold esds_wire in E. cbn [flat_map] in E. rewrite enc_app in E. fold (esds_wire ds) in E.
  destruct (descriptor_step (wire_size d) d (enc (esds_wire ds)) r (field_ok_FV_mod _) Fd Hr E) as (r0 & t & E0 & Ht & W0 & St).
  unfold rbind at 1, offset_to_end in X. 
  destruct (_ =? 0) eqn:G in X.
  { cbn [rret] in X. exfalso. assert (A : acc = acc ++ d :: ds) by congruence. apply (f_equal (@length _)) in A. rewrite app_length in A. cbn in A. lia. }
  unfold rbind at 1 in X. rewrite E0 in X. cbv beta iota in X.
  assert (Y : exists r1 n1, (rbind (Descriptor_readData t) (fun d => Esds_loop k (acc ++ [d]))) r0 = Ok (r1, n1, acc ++ d :: ds)).
  { unfold Descriptor_readData. cbn in Ht. destruct Ht as [<-|[<-|[<-|[<-|[]]]]]; cbn [Z.eqb Pos.eqb ESDescrTag DecoderConfigDescrTag DecSpecificInfoTag SLConfigDescrTag] in X |- *;
    match type of X with match ?x with _ => _ end = _ => destruct x as [[[r1 n1] l]|e|] eqn:Ex; [|discriminate X|discriminate X] end;
    match type of Ex with match ?x with _ => _ end = _ => destruct x as [[[r2 n2] l2]|e2|] eqn:Ex2; [|discriminate Ex|discriminate Ex] end; exists r2, n2;
    assert (l2 = acc ++ d :: ds) by congruence; subst l2; first [exact Ex2|reflexivity]. }
  clear X. destruct Y as (r1 & n1 & Y). unfold rbind in Y. destruct (Descriptor_readData t r0) as [[[r2 n2] d']|e|]; [|discriminate Y|discriminate Y].
  destruct St as [W2 St]. destruct (Esds_loop k (acc ++ [d']) r2) as [[[r3 n3] l]|e|] eqn:El; [|discriminate Y|discriminate Y].
  assert (l = acc ++ d :: ds) by congruence. subst l. pose proof (esds_loop_val k (acc ++ [d']) r2 W2) as V. rewrite El in V. destruct V as [_ (more & V & _)].
  rewrite <- app_assoc in V. apply app_inv_head in V. cbn [app] in V. assert (d' = d) by congruence. subst d'. destruct (St eq_refl) as [B2 Fw]. constructor; [exact Fw|].
  apply (IH k (acc ++ [d]) r2 r3 n3 Fds W2 B2). rewrite El, <- app_assoc. reflexivity.
Qed.
(** No size computed for a descriptor exceeds the 32 bits it is held in. *)
Definition descriptor_sizes_fit (b : esds) : Prop := Forall (fun d => announced d < 2 ^ 32) (esds_descriptors b).
Lemma fits_wire_ok d : own_ok d -> announced d < 2 ^ 32 -> fits_wire (wire_size d) d -> field_ok (FV (announced d)) /\
  match d with DES _ s subs => 0 <= s /\ subs = [] | DCD _ s subs => 0 <= s /\ subs = [] | _ => True end.
Proof.
  intros (_ & _ & Sh) L Fw. unfold wire_size in Fw. pose proof (announced_own d) as Ow. pose proof (own_body_nonneg d) as On.
  pose proof (Z.mod_pos_bound (announced d) (2 ^ 28) ltac:(lia)) as Bm.
  assert (G : forall s body, announced d = body + s -> 0 <= body -> s = to_u 32 (announced d mod 2 ^ 28 - body) -> 0 <= s /\ field_ok (FV (announced d))).
  { intros s body Ea Hb Es. cbn [field_ok]. set (x := announced d mod 2 ^ 28) in *. unfold to_u in Es.
    pose proof (Z.mod_pos_bound (x - body) (2 ^ 32) ltac:(lia)). split; [lia|].
    assert (Q : exists q, x - body = s + q * 2 ^ 32). { exists ((x - body) / 2 ^ 32). rewrite Es. pose proof (Z.div_mod (x - body) (2 ^ 32) ltac:(lia)). lia. }
    destruct Q as [q Q]. assert (q = 0) by (change (2 ^ 32) with (16 * 2 ^ 28) in *; nia). lia. }
  destruct d as [f s subs|f s subs|l|l]; cbn [fits_wire] in Fw.
  - destruct Sh as [-> Sz]. assert (0 <= s) by (rewrite Fw; unfold to_u; apply Z.mod_pos_bound; lia).
    assert (Ea : announced (DES f s []) = es_body f + s) by (cbn [announced fold_right]; destruct (Z.ltb_spec 0 s); lia). pose proof (es_body_nonneg f).
    destruct (G s (es_body f) Ea ltac:(lia) Fw). auto.
  - subst subs. assert (0 <= s) by (rewrite Fw; unfold to_u; apply Z.mod_pos_bound; lia).
    assert (Ea : announced (DCD f s []) = 13 + s) by (cbn [announced fold_right]; destruct (Z.ltb_spec 0 s); lia).
    destruct (G s 13 Ea ltac:(lia) Fw). auto.
  - cbn [announced field_ok] in *. split; [|exact I]. pose proof (Zlen_nonneg l). lia.
  - cbn [announced field_ok] in *. split; [|exact I]. pose proof (Zlen_nonneg l). lia.
Qed.
Lemma esds_val : rval Esds_readData (fun b => fields_ok (fb_layout (esds_fb b)) /\ Forall own_ok (esds_descriptors b)).
Proof.
  intros r Hr. unfold Esds_readData. revert r Hr.
  assert (G : forall k, rval (fb <- readVersionAndFlag; l <- Esds_loop k []; rret (mk_esds fb l)) (fun b => fields_ok (fb_layout (esds_fb b)) /\ Forall own_ok (esds_descriptors b))).
  { intros k. eapply rval_bind; [apply rval_fb|intros fb Hfb]. eapply rval_bind; [apply esds_loop_val|intros l (more & -> & F)]. apply rval_ret. split; [exact Hfb|exact F]. }
  intros r Hr. apply G. exact Hr.
Qed.
Lemma esds_exact b r r' n : rwf r -> fields_ok (fb_layout (esds_fb b)) -> Forall own_ok (esds_descriptors b) -> descriptor_sizes_fit b ->
  rbits r = enc (fb_layout (esds_fb b) ++ esds_wire (esds_descriptors b)) -> Esds_readData r = Ok (r', n, b) -> esds_wf b.
Proof.
  intros Hr Kfb Ko Fit E X. rewrite enc_app in E. unfold Esds_readData in X. unfold rbind in X.
  destruct (renc_fb (esds_fb b) (enc (esds_wire (esds_descriptors b))) Kfb r Hr E) as (r1 & E1 & W1 & B1 & _). rewrite E1 in X.
  destruct (Esds_loop _ [] r1) as [[[r2 n2] l]|e|] eqn:El in X; [|discriminate X|discriminate X]. cbn [rret] in X.
  assert (Eb : b = mk_esds (esds_fb b) l) by congruence. assert (l = esds_descriptors b) by (rewrite Eb; reflexivity). subst l.
  pose proof (esds_loop_exact _ _ [] r1 r2 n2 Ko W1 B1 El) as Fw. unfold descriptor_sizes_fit in Fit.
  unfold esds_wf, esds_writable, esds_layout.
  assert (All : Forall (fun d => own_ok d /\ field_ok (FV (announced d)) /\ match d with DES _ s subs => 0 <= s /\ subs = [] | DCD _ s subs => 0 <= s /\ subs = [] | _ => True end) (esds_descriptors b)).
  { clear - Ko Fit Fw. induction (esds_descriptors b) as [|d l IH]; [constructor|]. inversion Ko; inversion Fit; inversion Fw; subst. constructor; [|apply IH; assumption]. split; [assumption|apply fits_wire_ok; assumption]. }
  split; [split|].
  - apply Forall_app. split; [exact Kfb|]. apply Forall_flat_map. eapply Forall_impl; [|exact All]. intros d (O & V & _). apply O. exact V.
  - eapply Forall_impl; [|exact All]. intros d (O & _). apply O.
  - eapply Forall_impl; [|exact All]. intros d (_ & _ & S). exact S.
Qed.
