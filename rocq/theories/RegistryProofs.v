(** C13, C22, C37: full-box flags, box types and the registry. *)
From Coq Require Import ZifyBool.
From Verif Require Import Base BitIO BitFacts BitIOProofs Boxes WireFormat BoxTac BoxRead Box RegistrySpec TreeProofs.

(** * C13 *)
Lemma getFlags_value b : fb_typed b -> getFlags b = fb_f0 b * 65536 + fb_f1 b * 256 + fb_f2 b.
Proof.
  intros (V & A & B & C). unfold is_byte in *. unfold getFlags. rewrite Z.lor_comm. rewrite !Z.shiftl_mul_pow2 by lia.
  assert (E1 : Z.lor (fb_f0 b * 2 ^ 16) (fb_f1 b * 2 ^ 8) = fb_f0 b * 2 ^ 16 + fb_f1 b * 2 ^ 8) by (apply lor_add_disjoint; lia).
  rewrite E1. rewrite Z.lor_comm. replace (fb_f0 b * 2 ^ 16 + fb_f1 b * 2 ^ 8) with ((fb_f0 b * 2 ^ 8 + fb_f1 b) * 2 ^ 8) by lia.
  rewrite lor_add_disjoint by lia. lia.
Qed.
Lemma set_flags f b : fb_typed b -> fb_typed (setFlags f b) /\ getFlags (setFlags f b) = f mod 2 ^ 24 /\ fb_version (setFlags f b) = fb_version b.
Proof.
  intros T. assert (T' : fb_typed (setFlags f b)).
  { destruct T as (V & _). unfold fb_typed, setFlags, is_byte. cbn [fb_version fb_f0 fb_f1 fb_f2]. rewrite !land255. split; [exact V|]. lia. }
  split; [exact T'|]. split; [|reflexivity]. rewrite (getFlags_value _ T'). cbn [setFlags fb_f0 fb_f1 fb_f2].
  rewrite !land255, !Z.shiftr_div_pow2 by lia. change (2 ^ 16) with 65536. change (2 ^ 8) with 256. change (2 ^ 24) with 16777216. lia.
Qed.
Lemma flags_bits f b k : fb_typed b -> 0 <= k < 24 ->
  Z.testbit (getFlags (addFlag f b)) k = Z.testbit (getFlags b) k || Z.testbit f k /\
  Z.testbit (getFlags (removeFlag f b)) k = xorb (Z.testbit (getFlags b) k) (Z.testbit f k).
Proof.
  intros T K. unfold addFlag, removeFlag.
  destruct (set_flags (Z.lor (getFlags b) f) b T) as (_ & -> & _). destruct (set_flags (Z.lxor (getFlags b) f) b T) as (_ & -> & _).
  rewrite !Z.mod_pow2_bits_low by lia. rewrite Z.lor_spec, Z.lxor_spec. auto.
Qed.
Lemma check_flag b f : 0 <= f -> checkFlag b f = true <-> exists k, Z.testbit (getFlags b) k = true /\ Z.testbit f k = true.
Proof.
  intros F. unfold checkFlag. rewrite negb_true_iff, Z.eqb_neq. split.
  - intros N. assert (H : exists k, Z.testbit (Z.land (getFlags b) f) k = true).
    { destruct (Z.land (getFlags b) f) as [|p|p] eqn:E; [contradiction| |].
      - exists (Z.log2 (Z.pos p)). apply Z.bit_log2. lia.
      - exfalso. pose proof (proj2 (Z.land_nonneg (getFlags b) f) (or_intror F)) as N'. lia. }
    destruct H as (k & H). rewrite Z.land_spec in H. apply andb_true_iff in H. eauto.
  - intros (k & A & B) C. assert (F' : Z.testbit (Z.land (getFlags b) f) k = false) by (rewrite C; apply Z.bits_0).
    rewrite Z.land_spec, A, B in F'. discriminate.
Qed.
Lemma full_box_flags b f : fb_typed b -> 0 <= f < 2 ^ 32 ->
  (getFlags (setFlags f b) = f mod 2 ^ 24 /\ 0 <= getFlags b < 2 ^ 24) /\
  (checkFlag b f = true <-> exists k, Z.testbit (getFlags b) k = true /\ Z.testbit f k = true) /\
  (forall k, 0 <= k < 24 -> Z.testbit (getFlags (addFlag f b)) k = Z.testbit (getFlags b) k || Z.testbit f k) /\
  (forall k, 0 <= k < 24 -> Z.testbit (getFlags (removeFlag f b)) k = xorb (Z.testbit (getFlags b) k) (Z.testbit f k)) /\
  (forall g, In g [setFlags f; addFlag f; removeFlag f] -> fb_typed (g b) /\ fb_version (g b) = fb_version b) /\
  (forall v, is_byte v -> fb_typed (setVersion v b) /\ fb_version (setVersion v b) = v /\ getFlags (setVersion v b) = getFlags b).
Proof.
  intros T F. split; [split; [exact (proj1 (proj2 (set_flags f b T)))|]|].
  { rewrite (getFlags_value b T). destruct T as (_ & A & B & C). unfold is_byte in *. lia. }
  split; [apply check_flag; lia|]. split; [intros k K; exact (proj1 (flags_bits f b k T K))|]. split; [intros k K; exact (proj2 (flags_bits f b k T K))|]. split.
  - intros g [<-|[<-|[<-|[]]]]; unfold addFlag, removeFlag; (split; [apply (proj1 (set_flags _ b T))|reflexivity]).
  - intros v V. split; [|split; reflexivity]. destruct T as (_ & T). split; [exact V|exact T].
Qed.
Lemma remove_flag_set b f : fb_typed b ->
  (forall k, 0 <= k < 24 -> Z.testbit f k = true -> Z.testbit (getFlags b) k = true) <->
  (forall k, 0 <= k < 24 -> Z.testbit (getFlags (removeFlag f b)) k = Z.testbit (getFlags b) k && negb (Z.testbit f k)).
Proof.
  intros T. split; intros H k K; specialize (H k K); destruct (flags_bits f b k T K) as [_ E].
  - rewrite E. destruct (Z.testbit f k), (Z.testbit (getFlags b) k); try reflexivity. discriminate (H eq_refl).
  - intros F. rewrite E, F in H. destruct (Z.testbit (getFlags b) k); [reflexivity|discriminate H].
Qed.

(** * C22 *)
Lemma list_eqb_spec a : forall b, list_eqb a b = true <-> a = b.
Proof.
  induction a as [|x a IH]; intros [|y b]; cbn [list_eqb]; split; intros H; try discriminate; auto.
  - apply andb_true_iff in H as [H1 H2]. apply Z.eqb_eq in H1. apply IH in H2. congruence.
  - injection H as -> ->. rewrite Z.eqb_refl. apply IH. reflexivity.
Qed.
Lemma box_type_string s : (length s = 4%nat -> BoxType_of_string s = Ok s) /\ (length s <> 4%nat -> BoxType_of_string s = Throw InvalidArgument).
Proof. unfold BoxType_of_string, Zlen. split; intros H; destruct (_ =? _) eqn:E; try reflexivity; lia. Qed.
Lemma match_with a b : BoxType_matchWith a b = true <-> a = b \/ a = [0; 0; 0; 0] \/ b = [0; 0; 0; 0].
Proof.
  unfold BoxType_matchWith. destruct (list_eqb a box_type_any || list_eqb b box_type_any) eqn:E.
  - apply orb_true_iff in E. rewrite !list_eqb_spec in E. unfold box_type_any in E. tauto.
  - rewrite list_eqb_spec. apply orb_false_iff in E as [E1 E2]. split; [auto|]. intros [H|[->| ->]]; [exact H| |]; discriminate.
Qed.
(** The binding of a type after any sequence of addBoxDef calls is that of the last call for the type. *)
Definition last_def (defs : list (list Z * kind * list Z)) (t : list Z) : option (kind * list Z) :=
  match find (fun d => list_eqb (fst (fst d)) t) (rev defs) with Some (_, k, v) => Some (k, v) | None => None end.
Lemma find_last defs t : BoxMap_find (fold_left (fun m '(t, k, v) => BoxMap_addBoxDef m k t v) defs []) t = last_def defs t.
Proof.
  unfold last_def. rewrite <- fold_left_rev_right. induction (rev defs) as [|[[t' k] v] l IH]; [reflexivity|].
  cbn [fold_right BoxMap_addBoxDef BoxMap_find find fst]. destruct (list_eqb t' t); [reflexivity|exact IH].
Qed.
Definition entry_eqb (a b : list Z * kind * list Z) : bool := list_eqb (fst (fst a)) (fst (fst b)).
Fixpoint distinct (l : list (list Z * kind * list Z)) : bool := match l with [] => true | x :: r => forallb (fun y => negb (entry_eqb x y)) r && distinct r end.
Lemma find_unique (l : list (list Z * kind * list Z)) t k v : distinct l = true -> In (t, k, v) l -> find (fun d => list_eqb (fst (fst d)) t) l = Some (t, k, v).
Proof.
  induction l as [|[[t' k'] v'] l IH]; intros D H; [destruct H|]. cbn [distinct] in D. apply andb_true_iff in D as [D1 D2].
  cbn [find fst]. destruct H as [H|H]; [injection H as -> -> ->; rewrite (proj2 (list_eqb_spec t t) eq_refl); reflexivity|].
  destruct (list_eqb t' t) eqn:E; [|auto]. apply list_eqb_spec in E. subst t'. rewrite forallb_forall in D1. specialize (D1 _ H).
  unfold entry_eqb in D1. cbn [fst] in D1. rewrite (proj2 (list_eqb_spec t t) eq_refl) in D1. discriminate.
Qed.
Lemma find_sound (l : list (list Z * kind * list Z)) t d : find (fun d => list_eqb (fst (fst d)) t) l = Some d -> In (t, snd (fst d), snd d) l.
Proof.
  intros H. apply find_some in H as [H1 H2]. apply list_eqb_spec in H2. destruct d as [[t' k] v]. cbn [fst snd] in *. subst. exact H1.
Qed.
Lemma registered_iff t k v : BoxMap_find BoxMap_registered t = Some (k, v) <-> In (t, k, v) registry.
Proof.
  unfold BoxMap_registered. rewrite find_last. unfold last_def. split.
  - destruct (find _ _) as [[[t' k'] v']|] eqn:E; [|discriminate]. intros H. injection H as <- <-. apply find_sound in E. cbn [fst snd] in E. apply in_rev. exact E.
  - intros H. rewrite (find_unique _ t k v); [reflexivity|vm_compute; reflexivity|rewrite <- in_rev; exact H].
Qed.
(** the code's table is the documented one, up to order and order of versions *)
Definition same_def (a b : list Z * kind * list Z) : Prop := fst a = fst b /\ forall v, In v (snd a) <-> In v (snd b).
Fixpoint Zinb (v : Z) (l : list Z) : bool := match l with [] => false | x :: r => (v =? x) || Zinb v r end.
Lemma Zinb_in v l : Zinb v l = true <-> In v l.
Proof. induction l as [|x l IH]; cbn; [split; [discriminate|tauto]|]. rewrite orb_true_iff, IH. split; intros [H|H]; auto; [left; lia|left; lia]. Qed.
Definition kind_eq_dec (a b : kind) : {a = b} + {a <> b}. Proof. decide equality. Defined.
Definition same_defb (a b : list Z * kind * list Z) : bool :=
  list_eqb (fst (fst a)) (fst (fst b)) && (if kind_eq_dec (snd (fst a)) (snd (fst b)) then true else false) &&
  forallb (fun v => Zinb v (snd b)) (snd a) && forallb (fun v => Zinb v (snd a)) (snd b).
Lemma same_defb_ok a b : same_defb a b = true -> same_def a b.
Proof.
  unfold same_defb. intros H. apply andb_true_iff in H as [H H4]. apply andb_true_iff in H as [H H3]. apply andb_true_iff in H as [H1 H2].
  apply list_eqb_spec in H1. destruct (kind_eq_dec _ _) as [E|]; [|discriminate]. rewrite forallb_forall in H3, H4. split.
  - destruct a as [[? ?] ?], b as [[? ?] ?]. cbn in *. congruence.
  - intros v. rewrite <- !Zinb_in. split; intros K; apply Zinb_in; [apply Zinb_in, H3, Zinb_in, K|apply Zinb_in, H4, Zinb_in, K].
Qed.
Lemma tables_agree : forallb (fun a => existsb (same_defb a) table) registry = true /\ forallb (fun a => existsb (same_defb a) registry) table = true.
Proof. split; vm_compute; reflexivity. Qed.
Lemma registry_lookup t :
  (forall k accepts, documented t k accepts ->
     BoxMap_getBoxInstance BoxMap_registered t = k /\ BoxMap_isSupported BoxMap_registered t = true /\
     (exists vs, BoxMap_getSupportedVersions BoxMap_registered t = Ok vs /\ forall v, accepts v <-> vs = [] \/ In v vs) /\
     forall v, BoxMap_isSupportedVersion BoxMap_registered t v = true <-> accepts v) /\
  ((forall k accepts, ~ documented t k accepts) ->
     BoxMap_getBoxInstance BoxMap_registered t = K_unsupported /\ BoxMap_isSupported BoxMap_registered t = false /\
     BoxMap_getSupportedVersions BoxMap_registered t = Throw RuntimeError /\
     forall v, BoxMap_isSupportedVersion BoxMap_registered t v = false).
Proof.
  destruct tables_agree as [A1 A2]. rewrite forallb_forall in A1, A2. split.
  - intros k accepts (vs & H & Ha). pose proof (A2 _ H) as E. apply existsb_exists in E as ([[t' k'] vs'] & R & S).
    apply same_defb_ok in S as [S1 S2]. cbn [fst snd] in S1, S2. injection S1 as <- <-.
    apply registered_iff in R. unfold BoxMap_getBoxInstance, BoxMap_isSupported, BoxMap_getSupportedVersions, BoxMap_isSupportedVersion. rewrite R.
    assert (Ha' : forall v, accepts v <-> vs' = [] \/ In v vs').
    { intros v. rewrite Ha, S2. enough (vs = [] <-> vs' = []) by tauto. split; intros ->; [destruct vs' as [|x ?]|destruct vs as [|x ?]]; auto; exfalso; apply (S2 x); left; reflexivity. }
    split; [reflexivity|]. split; [reflexivity|]. split; [exists vs'; split; [reflexivity|exact Ha']|].
    intros v. rewrite Ha'. destruct vs' as [|x l]; [tauto|]. rewrite existsb_exists. split.
    + intros (y & Y & E). apply Z.eqb_eq in E. subst y. auto.
    + intros [D|I]; [discriminate|]. exists v. split; [exact I|lia].
  - intros N. unfold BoxMap_getBoxInstance, BoxMap_isSupported, BoxMap_getSupportedVersions, BoxMap_isSupportedVersion.
    destruct (BoxMap_find BoxMap_registered t) as [[k vs]|] eqn:E; [|auto]. exfalso. apply registered_iff in E. specialize (A1 _ E).
    apply existsb_exists in A1 as ([[t' k'] vs'] & R & S). apply same_defb_ok in S as [S1 S2]. cbn [fst snd] in S1, S2. injection S1 as <- <-.
    apply (N k (fun v => vs' = [] \/ In v vs')). exists vs'. split; [exact R|]. intros v; tauto.
Qed.

(** * toString *)
Lemma hex_digit_inj a b : 0 <= a < 16 -> 0 <= b < 16 -> hex_digit a = hex_digit b -> a = b.
Proof. unfold hex_digit. intros. destruct (a <? 10) eqn:E, (b <? 10) eqn:F; lia. Qed.
Lemma to_string_injective a b : bytes a -> bytes b -> length a = 4%nat -> length b = 4%nat -> BoxType_toString a = BoxType_toString b -> a = b.
Proof.
  intros Ba Bb La Lb. unfold BoxType_toString.
  set (p := fun c => isprint c || (c =? 169)). set (g := fun c => if c =? 169 then [194; 169] else [c]).
  assert (G : forall l m, forallb p l = true -> forallb p m = true -> flat_map g l = flat_map g m -> l = m).
  { induction l as [|x l IH]; intros [|y m] Hl Hm E; cbn [forallb flat_map] in *; auto.
    - unfold g in E. destruct (y =? 169); discriminate.
    - unfold g in E. destruct (x =? 169); discriminate.
    - apply andb_true_iff in Hl as [P1 Hl]. apply andb_true_iff in Hm as [P2 Hm]. unfold p, isprint in P1, P2. unfold g at 1 3 in E.
      destruct (x =? 169) eqn:X, (y =? 169) eqn:Y; cbn [app] in E; injection E; intros; try lia; f_equal; try lia; auto. }
  assert (Lg : forall l, (length (flat_map g l) <= 2 * length l)%nat).
  { induction l as [|x l IH]; [cbn; lia|]. cbn [flat_map length]. rewrite app_length. unfold g at 1. destruct (x =? 169); cbn [length]; lia. }
  assert (H2 : forall l, length (flat_map hex2 l) = (2 * length l)%nat).
  { induction l as [|x l IH]; [reflexivity|]. cbn [flat_map length]. rewrite app_length, IH. cbn [hex2 length]. lia. }
  assert (H1 : forall l m, bytes l -> bytes m -> flat_map hex2 l = flat_map hex2 m -> l = m).
  { induction l as [|x l IH]; intros [|y m] Hl Hm E; cbn [flat_map hex2 app] in *; auto; try discriminate.
    apply Forall_cons_iff in Hl as [X Hl]. apply Forall_cons_iff in Hm as [Y Hm]. unfold is_byte in X, Y. injection E. intros E1 E2 E3.
    apply hex_digit_inj in E2; [|lia|lia]. apply hex_digit_inj in E3; [|lia|lia]. f_equal; [lia|auto]. }
  destruct (forallb p a) eqn:Pa, (forallb p b) eqn:Pb; intros E.
  - apply G; assumption.
  - exfalso. apply (f_equal (@length Z)) in E. cbn [app length] in E. rewrite H2, Lb in E. specialize (Lg a). lia.
  - exfalso. apply (f_equal (@length Z)) in E. cbn [app length] in E. rewrite H2, La in E. specialize (Lg b). lia.
  - cbn [app] in E. injection E as E. apply H1; assumption.
Qed.

Lemma hex_digit_nth a : 0 <= a < 16 -> nth_error (hex_alphabet) (Z.to_nat a) = Some (hex_digit a).
Proof.
  intros H. assert (D : a = 0 \/ a = 1 \/ a = 2 \/ a = 3 \/ a = 4 \/ a = 5 \/ a = 6 \/ a = 7 \/ a = 8 \/ a = 9 \/ a = 10 \/ a = 11 \/ a = 12 \/ a = 13 \/ a = 14 \/ a = 15) by lia.
  repeat (destruct D as [->|D]; [reflexivity|]). subst a. reflexivity.
Qed.
Lemma to_string_text t : bytes t -> length t = 4%nat ->
  (Forall shown t -> BoxType_toString t = flat_map utf8 t) /\
  (~ Forall shown t -> exists digits, BoxType_toString t = hex_prefix ++ digits /\ length digits = 8%nat /\ hexadecimal (fold_left (fun a c => 256 * a + c) t 0) digits).
Proof.
  intros B L. assert (S : forall c, (isprint c || (c =? 169))%bool = true <-> shown c) by (intros c; unfold isprint, shown; lia).
  assert (F : forallb (fun c => isprint c || (c =? 169))%bool t = true <-> Forall shown t).
  { rewrite forallb_forall, Forall_forall. split; intros H c I; apply S; auto. }
  unfold BoxType_toString. split; intros H.
  - rewrite (proj2 F H). apply flat_map_ext. intros c. unfold utf8. destruct (Z.eqb_spec c 169), (Z.eq_dec c 169); reflexivity || contradiction.
  - destruct (forallb _ t) eqn:E; [exfalso; apply H, F, eq_refl|]. eexists. split; [reflexivity|].
    destruct t as [|a [|b [|c [|d [|? ?]]]]]; try discriminate L. split; [reflexivity|].
    repeat (apply Forall_cons_iff in B as [? B]). unfold is_byte in *.
    exists [Z.to_nat (a / 16); Z.to_nat (a mod 16); Z.to_nat (b / 16); Z.to_nat (b mod 16); Z.to_nat (c / 16); Z.to_nat (c mod 16); Z.to_nat (d / 16); Z.to_nat (d mod 16)].
    split; [cbn [fold_left]; rewrite !Z2Nat.id by lia; lia|]. cbn [flat_map hex2 app]. repeat (apply Forall2_cons; [apply hex_digit_nth; lia|]). apply Forall2_nil.
Qed.

(** * C37 *)
Lemma language_ok : (forall l, language_code l -> 0 <= encode_language l < 2 ^ 15 /\ decode_language (encode_language l) = l) /\
  (forall e, 0 <= e < 2 ^ 15 -> language_code (decode_language e) /\ encode_language (decode_language e) = e).
Proof.
  split; [|exact encode_decode_language]. intros l H. split; [|apply decode_encode_language, H].
  destruct H as [L F]. destruct l as [|a [|b [|c [|? ?]]]]; try discriminate L. rewrite !Forall_cons_iff in F.
  rewrite (encode_language_value _ a b c) by (try reflexivity; tauto). lia.
Qed.
