(** Texts that determine what was printed. *)
From Coq Require Import ZifyBool.
From Verif Require Import Base BitIO BitFacts BitIOProofs Boxes WireFormat BoxTac BoxRead BoxWrite BoxInv Box BoxSpec Print PrintSpec PrintProofs.
From Coq Require Import Ascii String List.
Import ListNotations.
Open Scope Z_scope.
Open Scope list_scope.

(** * Numbers *)
Definition word (c : Z) : bool := ((48 <=? c) && (c <? 58)) || ((97 <=? c) && (c <? 103)).
Definition digit_of (c : Z) : Z := if c <? 58 then c - 48 else c - 87.
Definition value (base : Z) (l : list Z) : Z := fold_left (fun a c => base * a + digit_of c) l 0.
Lemma hex_digit_facts d : 0 <= d < 16 -> word (hex_digit d) = true /\ digit_of (hex_digit d) = d.
Proof. intros H. unfold word, digit_of, hex_digit. destruct (Z.ltb_spec d 10); split; try lia. destruct (Z.ltb_spec (48 + d) 58); lia. destruct (Z.ltb_spec (87 + d) 58); lia. Qed.
Lemma digits_facts base : 2 <= base <= 16 -> forall fuel n acc, 0 <= n < base ^ Z.of_nat fuel -> forallb word acc = true -> (0 < fuel)%nat ->
  forallb word (digits base fuel n acc) = true /\ value base (digits base fuel n acc) = value base (digits base fuel n []) * base ^ Zlen acc + value base acc /\
  value base (digits base fuel n []) = n /\ digits base fuel n acc = digits base fuel n [] ++ acc.
Proof.
  intros B. assert (V : forall l a, fold_left (fun a c => base * a + digit_of c) l a = a * base ^ Zlen l + value base l).
  { induction l as [|c l IH]; intros a; [unfold value; cbn [fold_left]; rewrite Zlen_nil; lia|]. unfold value. cbn [fold_left]. rewrite IH, (IH (base * 0 + _)), Zlen_cons.
    pose proof (Zlen_nonneg l). rewrite Z.pow_add_r, Z.pow_1_r by lia. ring. }
  induction fuel as [|fuel IH]; intros n acc N A F; [lia|]. cbn [digits]. destruct (Z.ltb_spec n base) as [L|L].
  - destruct (hex_digit_facts n ltac:(lia)) as [W D]. cbn [forallb app]. rewrite W, A. split; [reflexivity|].
    assert (E1 : value base [hex_digit n] = n) by (unfold value; cbn [fold_left]; rewrite D; lia). rewrite E1.
    split; [|split; reflexivity]. unfold value at 1. cbn [fold_left]. rewrite V, D. lia.
  - rewrite Nat2Z.inj_succ, Z.pow_succ_r in N by lia.
    assert (Nd : 0 <= n / base < base ^ Z.of_nat fuel) by (split; [apply Z.div_pos; lia|apply Z.div_lt_upper_bound; lia]).
    assert (Fp : (0 < fuel)%nat) by (destruct fuel; [change (base ^ Z.of_nat 0) with 1 in N; lia|lia]).
    destruct (hex_digit_facts (n mod base) ltac:(pose proof (Z.mod_pos_bound n base); lia)) as [W D].
    destruct (IH (n / base) (hex_digit (n mod base) :: acc) Nd) as (I1 & I2 & I3 & I4); [cbn [forallb]; rewrite W; exact A|exact Fp|].
    destruct (IH (n / base) [hex_digit (n mod base)] Nd) as (J1 & J2 & J3 & J4); [cbn [forallb]; rewrite W; reflexivity|exact Fp|].
    split; [exact I1|]. assert (Vn : value base (digits base fuel (n / base) [hex_digit (n mod base)]) = n).
    { rewrite J2, I3. unfold value. cbn [fold_left]. rewrite D. change (Zlen [hex_digit (n mod base)]) with 1. rewrite Z.pow_1_r. pose proof (Z.div_mod n base). lia. }
    split; [|split; [exact Vn|rewrite I4, J4, <- app_assoc; reflexivity]].
    assert (Vc : value base (hex_digit (n mod base) :: acc) = n mod base * base ^ Zlen acc + value base acc) by (unfold value at 1; cbn [fold_left]; rewrite V, D; lia).
    rewrite I2, I3, Vn, Vc, Zlen_cons. pose proof (Zlen_nonneg acc). rewrite Z.pow_add_r, Z.pow_1_r by lia.
    pose proof (Z.div_mod n base ltac:(lia)). nia.
Qed.
Lemma number_facts base n : 2 <= base <= 16 -> 0 <= n -> forallb word (number base n) = true /\ value base (number base n) = n /\ number base n <> [].
Proof.
  intros B N. unfold number. assert (U : 0 <= n < base ^ Z.of_nat (S (Z.to_nat (Z.log2 n)))).
  { rewrite Nat2Z.inj_succ, Z2Nat.id by apply Z.log2_nonneg. destruct (Z.eq_dec n 0) as [->|Z]; [split; [lia|apply Z.pow_pos_nonneg; cbn; lia]|].
    split; [lia|]. pose proof (Z.log2_spec n ltac:(lia)) as [_ H]. eapply Z.lt_le_trans; [exact H|]. apply Z.pow_le_mono_l. lia. }
  destruct (digits_facts base B _ n [] U eq_refl ltac:(lia)) as (A & _ & C & _). split; [exact A|]. split; [exact C|].
  cbn [digits]. destruct (_ <? _); [discriminate|]. clear. generalize (Z.to_nat (Z.log2 n)), (n / base), (hex_digit (n mod base)). intros f. assert (E : forall f m acc, acc <> [] -> digits base f m acc <> []).
  { clear. induction f as [|f IH]; intros m acc H; cbn [digits]; [exact H|]. destruct (_ <? _); [discriminate|]. apply IH. discriminate. }
  intros m c. apply E. discriminate.
Qed.

(** * Printers whose text ends where a character that is not part of a number follows *)
Definition stop (s : list Z) : bool := match s with [] => true | c :: _ => negb (word c) end.
Definition readable {A} (D : A -> Prop) (f : A -> list Z) : Prop :=
  forall a b s t, D a -> D b -> stop s = true -> stop t = true -> f a ++ s = f b ++ t -> a = b /\ s = t.
Lemma words_split a : forall b s t, forallb word a = true -> forallb word b = true -> stop s = true -> stop t = true -> a ++ s = b ++ t -> a = b /\ s = t.
Proof.
  induction a as [|x a IH]; intros [|y b] s t Wa Wb Ss St E; cbn [app forallb] in *.
  - auto.
  - subst s. cbn [stop] in Ss. apply andb_prop in Wb as [W _]. rewrite W in Ss. discriminate.
  - subst t. cbn [stop] in St. apply andb_prop in Wa as [W _]. rewrite W in St. discriminate.
  - apply andb_prop in Wa as [_ Wa]. apply andb_prop in Wb as [_ Wb]. injection E as -> E. destruct (IH b s t Wa Wb Ss St E) as [-> ->]. auto.
Qed.
Lemma number_readable base : 2 <= base <= 16 -> readable (fun n => 0 <= n) (number base).
Proof.
  intros B a b s t Ha Hb Ss St E. destruct (number_facts base a B Ha) as (Wa & Va & _). destruct (number_facts base b B Hb) as (Wb & Vb & _).
  destruct (words_split _ _ _ _ Wa Wb Ss St E) as [E1 E2]. split; [congruence|exact E2].
Qed.
Lemma number_head base n : 2 <= base <= 16 -> 0 <= n -> exists c r, number base n = c :: r /\ word c = true.
Proof. intros B N. destruct (number_facts base n B N) as (W & _ & X). destruct (number base n) as [|c r]; [contradiction|]. cbn [forallb] in W. apply andb_prop in W as [W _]. eauto. Qed.
Lemma dec_readable : readable (fun _ => True) dec.
Proof.
  intros a b s t _ _ Ss St E. unfold dec in E. destruct (Z.ltb_spec a 0) as [A|A], (Z.ltb_spec b 0) as [B|B]; cbn [app] in E.
  - assert (E' := f_equal (@tl Z) E). cbn [tl] in E'. destruct (number_readable 10 ltac:(lia) (- a) (- b) _ _ ltac:(cbv beta; lia) ltac:(cbv beta; lia) Ss St E') as [X Y]. split; [lia|exact Y].
  - destruct (number_head 10 b ltac:(lia) B) as (c & r & X & W). rewrite X in E. cbn [app] in E. injection E as <- _. discriminate W.
  - destruct (number_head 10 a ltac:(lia) A) as (c & r & X & W). rewrite X in E. cbn [app] in E. injection E as -> _. discriminate W.
  - exact (number_readable 10 ltac:(lia) _ _ _ _ A B Ss St E).
Qed.
Lemma hex_readable : readable (fun _ => True) hex.
Proof.
  intros a b s t _ _ Ss St E. unfold hex in E. destruct (Z.ltb_spec a 0) as [A|A], (Z.ltb_spec b 0) as [B|B]; rewrite <- !app_assoc in E.
  - apply app_inv_head in E. destruct (number_readable 16 ltac:(lia) (- a) (- b) _ _ ltac:(cbv beta; lia) ltac:(cbv beta; lia) Ss St E) as [X Y]. split; [lia|exact Y].
  - discriminate E.
  - discriminate E.
  - apply app_inv_head in E. exact (number_readable 16 ltac:(lia) _ _ _ _ A B Ss St E).
Qed.
Lemma hex2_readable : readable is_byte hex2.
Proof.
  intros a b s t Ha Hb _ _ E. unfold is_byte in *. unfold hex2 in E. cbn [app] in E. injection E as E1 E2 E3. split; [|exact E3].
  destruct (hex_digit_facts (a / 16) ltac:(lia)) as [_ A1]. destruct (hex_digit_facts (b / 16) ltac:(lia)) as [_ B1]. destruct (hex_digit_facts (a mod 16) ltac:(lia)) as [_ A2]. destruct (hex_digit_facts (b mod 16) ltac:(lia)) as [_ B2].
  rewrite E1 in A1. rewrite E2 in A2. lia.
Qed.
Lemma bool_readable : readable (fun _ => True) boolean.
Proof. intros [] [] s t _ _ _ _ E; cbn in E; try discriminate E; [split; congruence|split; congruence]. Qed.

Lemma dec_peel a b s t : dec a ++ s = dec b ++ t -> stop s = true -> stop t = true -> a = b /\ s = t.
Proof. intros E S T. exact (dec_readable a b s t I I S T E). Qed.
Lemma hex_peel a b s t : hex a ++ s = hex b ++ t -> stop s = true -> stop t = true -> a = b /\ s = t.
Proof. intros E S T. exact (hex_readable a b s t I I S T E). Qed.
Lemma bool_peel a b s t : boolean a ++ s = boolean b ++ t -> a = b /\ s = t.
Proof. destruct a, b; intros E; cbn in E; try discriminate E; split; congruence. Qed.

(** * Lists *)
Lemma join_cons sep x r : join sep (x :: r) = x ++ flat_map (fun y => sep ++ y) r.
Proof. revert x. induction r as [|y r IH]; intros x; [cbn; rewrite app_nil_r; reflexivity|]. change (join sep (x :: y :: r)) with (x ++ sep ++ join sep (y :: r)). rewrite IH. cbn [flat_map]. rewrite <- app_assoc. reflexivity. Qed.
Lemma texts_readable {A} (D : A -> Prop) (f : A -> list Z) : readable D f -> (forall a, D a -> exists c r, f a = c :: r /\ c <> 93) ->
  forall l l' s t, Forall D l -> Forall D l' -> texts f l ++ 93 :: s = texts f l' ++ 93 :: t -> l = l' /\ s = t.
Proof.
  intros R H. assert (T : forall l l' s t, Forall D l -> Forall D l' ->
    flat_map (fun y => lit ", " ++ y) (map f l) ++ 93 :: s = flat_map (fun y => lit ", " ++ y) (map f l') ++ 93 :: t -> l = l' /\ s = t).
  { induction l as [|a l IH]; intros [|b l'] s t Fl Fl' E; cbn [map flat_map app] in E.
    - injection E as ->. auto.
    - discriminate E.
    - discriminate E.
    - rewrite <- !app_assoc in E. apply app_inv_head in E. apply Forall_cons_iff in Fl as [Da Fl]. apply Forall_cons_iff in Fl' as [Db Fl'].
      assert (S : forall (k : list A) u, stop (flat_map (fun y => lit ", " ++ y) (map f k) ++ 93 :: u) = true) by (intros [|? ?] u; reflexivity).
      destruct (R a b _ _ Da Db (S _ _) (S _ _) E) as [-> E']. destruct (IH l' s t Fl Fl' E') as [-> ->]. auto. }
  intros l l' s t Fl Fl' E. unfold texts in E. destruct l as [|a l], l' as [|b l']; cbn [map] in E; rewrite ?join_cons in E.
  - cbn in E. injection E as ->. auto.
  - apply Forall_cons_iff in Fl' as [Db _]. destruct (H b Db) as (c & r & X & N). rewrite X in E. cbn in E. congruence.
  - apply Forall_cons_iff in Fl as [Da _]. destruct (H a Da) as (c & r & X & N). rewrite X in E. cbn in E. congruence.
  - rewrite <- !app_assoc in E. apply Forall_cons_iff in Fl as [Da Fl]. apply Forall_cons_iff in Fl' as [Db Fl'].
    assert (S : forall (k : list A) u, stop (flat_map (fun y => lit ", " ++ y) (map f k) ++ 93 :: u) = true) by (intros [|? ?] u; reflexivity).
    destruct (R a b _ _ Da Db (S _ _) (S _ _) E) as [-> E']. destruct (T l l' s t Fl Fl' E') as [-> ->]. auto.
Qed.
Definition ends (s : list Z) : bool := match s with 93 :: _ => true | _ => false end.
Lemma ends_inv s : ends s = true -> s = 93 :: tl s.
Proof. unfold ends. destruct s as [|z s]; [discriminate|]. destruct (Z.eqb_spec z 93) as [->|N]; [reflexivity|]. destruct z as [|p|p]; try discriminate. repeat (destruct p as [p|p|]; try discriminate). exfalso. apply N. reflexivity. Qed.
Lemma list_readable {A} (D : A -> Prop) (f : A -> list Z) : readable D f -> (forall a, D a -> exists c r, f a = c :: r /\ c <> 93) ->
  forall l l' s t, Forall D l -> Forall D l' -> texts f l ++ s = texts f l' ++ t -> ends s = true -> ends t = true -> l = l' /\ s = t.
Proof.
  intros R H l l' s t Fl Fl' E Es Et. apply ends_inv in Es. apply ends_inv in Et. rewrite Es, Et in E. destruct (texts_readable D f R H l l' _ _ Fl Fl' E) as [-> X]. split; [reflexivity|]. congruence.
Qed.
Lemma decs_readable l l' s t : decs l ++ s = decs l' ++ t -> ends s = true -> ends t = true -> l = l' /\ s = t.
Proof.
  apply (list_readable (fun _ => True) dec dec_readable); try (apply Forall_forall; auto). intros a _. unfold dec. destruct (Z.ltb_spec a 0); [eexists _, _; split; [reflexivity|discriminate]|].
  destruct (number_head 10 a ltac:(lia) ltac:(assumption)) as (c & r & X & W). exists c, r. split; [exact X|]. intros ->. discriminate W.
Qed.
Lemma hexs_readable l l' s t : hexs l ++ s = hexs l' ++ t -> ends s = true -> ends t = true -> l = l' /\ s = t.
Proof.
  apply (list_readable (fun _ => True) hex hex_readable); try (apply Forall_forall; auto). intros a _. unfold hex. destruct (Z.ltb_spec a 0); eexists _, _; (split; [reflexivity|discriminate]).
Qed.
Lemma fixed_readable {A} (f : A -> list Z) n (D : A -> Prop) : (forall a, D a -> length (f a) = n) -> (forall a b, D a -> D b -> f a = f b -> a = b) ->
  forall a b s t, D a -> D b -> f a ++ s = f b ++ t -> a = b /\ s = t.
Proof.
  intros L J a b s t Da Db E. assert (X : f a = f b /\ s = t) by (apply app_len_inj; [rewrite (L a Da), (L b Db); reflexivity|exact E]).
  destruct X as [X Y]. split; [exact (J a b Da Db X)|exact Y].
Qed.
Lemma octets_readable n (l l' s t : list Z) : len_is n l -> len_is n l' -> l ++ s = l' ++ t -> l = l' /\ s = t.
Proof. intros L L'. apply (fixed_readable (fun l => l) n (len_is n)); auto. Qed.
Lemma flags_readable fb fb' s t : version_flags fb ++ s = version_flags fb' ++ t -> fields_ok (fb_layout fb) -> fields_ok (fb_layout fb') -> fb = fb' /\ s = t.
Proof.
  intros E F F'. unfold fields_ok, fb_layout in F, F'. rewrite !Forall_cons_iff in F, F'. cbn [field_ok] in F, F'. unfold fits_u in F, F'. change (2 ^ Z.of_nat 8) with 256 in F, F'.
  unfold version_flags in E. rewrite <- !app_assoc in E. apply app_inv_head in E. destruct (dec_peel _ _ _ _ E eq_refl eq_refl) as [V E1]. apply app_inv_head in E1.
  assert (H2 : forall a b u v, hex2 a ++ u = hex2 b ++ v -> 0 <= a < 256 -> 0 <= b < 256 -> a = b /\ u = v).
  { intros a b u v X Ha Hb. assert (Y : hex2 a ++ [] ++ [] = hex2 b ++ [] ++ [] /\ u = v) by (unfold hex2 in *; cbn [app] in *; injection X as X1 X2 X3; rewrite X1, X2; auto).
    destruct Y as [Y ->]. destruct (hex2_readable a b [] [] Ha Hb eq_refl eq_refl Y) as [-> _]. auto. }
  destruct (H2 _ _ _ _ E1 ltac:(tauto) ltac:(tauto)) as [A0 E2]. destruct (H2 _ _ _ _ E2 ltac:(tauto) ltac:(tauto)) as [A1 E3]. destruct (H2 _ _ _ _ E3 ltac:(tauto) ltac:(tauto)) as [A2 E4].
  split; [|exact E4]. destruct fb as [v0 x0 y0 z0], fb' as [v1 x1 y1 z1]. cbn [fb_version fb_f0 fb_f1 fb_f2] in *. congruence.
Qed.

(** * Classes *)
Arguments lit : simpl never. Arguments dec : simpl never. Arguments hex : simpl never. Arguments boolean : simpl never. Arguments decs : simpl never.
Arguments hexs : simpl never. Arguments texts : simpl never. Arguments version_flags : simpl never. Arguments Z.eqb : simpl never. Arguments fields_ok : simpl never.
Arguments checkFlag : simpl never. Arguments v0 : simpl never.
Ltac peel E :=
  lazymatch type of E with
  | lit _ ++ _ = lit _ ++ _ => apply app_inv_head in E
  | dec _ ++ _ = dec _ ++ _ => let H := fresh "P" in let E' := fresh "E" in destruct (dec_peel _ _ _ _ E eq_refl eq_refl) as [H E']; clear E; rename E' into E
  | hex _ ++ _ = hex _ ++ _ => let H := fresh "P" in let E' := fresh "E" in destruct (hex_peel _ _ _ _ E eq_refl eq_refl) as [H E']; clear E; rename E' into E
  | boolean _ ++ _ = boolean _ ++ _ => let H := fresh "P" in let E' := fresh "E" in destruct (bool_peel _ _ _ _ E) as [H E']; clear E; rename E' into E
  | decs _ ++ _ = decs _ ++ _ => let H := fresh "P" in let E' := fresh "E" in destruct (decs_readable _ _ _ _ E eq_refl eq_refl) as [H E']; clear E; rename E' into E
  | hexs _ ++ _ = hexs _ ++ _ => let H := fresh "P" in let E' := fresh "E" in destruct (hexs_readable _ _ _ _ E eq_refl eq_refl) as [H E']; clear E; rename E' into E
  | version_flags _ ++ _ = version_flags _ ++ _ =>
      let H := fresh "P" in let E' := fresh "E" in destruct (flags_readable _ _ _ _ E ltac:(assumption) ltac:(assumption)) as [H E']; clear E; rename E' into E
  end.
Ltac open E := apply (f_equal (fun l => l ++ [])) in E; cbv beta in E; rewrite <- ?app_assoc in E.
Ltac peels E := repeat peel E.
Ltac fb_ok L H := assert (L := proj1 (proj1 (Forall_app field_ok _ _) H)).

Lemma btrt_text b b' : Btrt_toString b = Btrt_toString b' -> b = b'.
Proof. destruct b, b'. unfold Btrt_toString. cbn. intros E. open E. peels E. congruence. Qed.
Ltac full L H := assert (L : fields_ok (fb_layout _)) by (exact (proj1 (proj1 (Forall_app field_ok _ _) H))).
Ltac text1 W W' := let L := fresh "L" in let L' := fresh "L'" in full L W; full L' W'; cbn in *; intros E; open E; peels E; congruence.
Lemma co64_text b b' : co64_wf b -> co64_wf b' -> Co64_toString b = Co64_toString b' -> b = b'.
Proof. destruct b, b'. intros W W'. unfold Co64_toString. text1 W W'. Qed.
Lemma dref_text b b' : dref_wf b -> dref_wf b' -> Dref_toString b = Dref_toString b' -> b = b'.
Proof. destruct b, b'. intros W W'. unfold Dref_toString. text1 W W'. Qed.
Lemma stsd_text b b' : stsd_wf b -> stsd_wf b' -> Stsd_toString b = Stsd_toString b' -> b = b'.
Proof. destruct b, b'. intros W W'. unfold Stsd_toString. text1 W W'. Qed.
Lemma fiel_text b b' : Fiel_toString b = Fiel_toString b' -> b = b'.
Proof. destruct b, b'. unfold Fiel_toString. cbn. intros E. open E. peels E. congruence. Qed.
Lemma raw_text b b' : Raw_toString b = Raw_toString b' -> b = b'.
Proof. unfold Raw_toString. intros E. open E. peels E. congruence. Qed.
Lemma unsupported_text b b' : Unsupported_toString b = Unsupported_toString b' -> b = b'.
Proof. unfold Unsupported_toString. intros E. open E. peels E. congruence. Qed.
Lemma iods_text b b' : iods_wf b -> iods_wf b' -> Iods_toString b = Iods_toString b' -> b = b'.
Proof. destruct b, b'. intros [W D] [W' D']. unfold Iods_toString. text1 W W'. Qed.
Lemma mehd_text b b' : mehd_wf b -> mehd_wf b' -> Mehd_toString b = Mehd_toString b' -> b = b'.
Proof. destruct b, b'. intros W W'. unfold Mehd_toString. text1 W W'. Qed.
Lemma mfhd_text b b' : mfhd_wf b -> mfhd_wf b' -> Mfhd_toString b = Mfhd_toString b' -> b = b'.
Proof. destruct b, b'. intros W W'. unfold Mfhd_toString. text1 W W'. Qed.
Lemma mfro_text b b' : mfro_wf b -> mfro_wf b' -> Mfro_toString b = Mfro_toString b' -> b = b'.
Proof. destruct b, b'. intros W W'. unfold Mfro_toString. text1 W W'. Qed.
Lemma pasp_text b b' : PixelAspectRatio_toString b = PixelAspectRatio_toString b' -> b = b'.
Proof. destruct b, b'. unfold PixelAspectRatio_toString. cbn. intros E. open E. peels E. congruence. Qed.
Lemma stco_text b b' : stco_wf b -> stco_wf b' -> Stco_toString b = Stco_toString b' -> b = b'.
Proof. destruct b, b'. intros W W'. unfold Stco_toString. text1 W W'. Qed.
Lemma stss_text b b' : stss_wf b -> stss_wf b' -> Stss_toString b = Stss_toString b' -> b = b'.
Proof. destruct b, b'. intros W W'. unfold Stss_toString. text1 W W'. Qed.
Lemma stsz_text b b' : stsz_wf b -> stsz_wf b' -> Stsz_toString b = Stsz_toString b' -> b = b'.
Proof. destruct b, b'. intros [W _] [W' _]. unfold Stsz_toString. text1 W W'. Qed.
Lemma tfdt_text b b' : tfdt_wf b -> tfdt_wf b' -> Tfdt_toString b = Tfdt_toString b' -> b = b'.
Proof. destruct b, b'. intros W W'. unfold Tfdt_toString. text1 W W'. Qed.
Lemma trex_text b b' : trex_wf b -> trex_wf b' -> Trex_toString b = Trex_toString b' -> b = b'.
Proof. destruct b, b'. intros W W'. unfold Trex_toString. text1 W W'. Qed.
Lemma vmhd_text b b' : vmhd_wf b -> vmhd_wf b' -> Vmhd_toString b = Vmhd_toString b' -> b = b'.
Proof. destruct b, b'. intros [_ W] [_ W']. unfold Vmhd_toString. text1 W W'. Qed.
Lemma vpcc_text b b' : vpcc_wf b -> vpcc_wf b' -> VPCodecConfiguration_toString b = VPCodecConfiguration_toString b' -> b = b'.
Proof. destruct b, b'. intros [W _] [W' _]. unfold VPCodecConfiguration_toString. text1 W W'. Qed.
Lemma meta_text fb fb' : meta_wf fb -> meta_wf fb' -> fb = fb'.
Proof. unfold meta_wf. congruence. Qed.

(** ** Entries in braces *)
Definition reads {A} (D : A -> Prop) (f : A -> list Z) : Prop :=
  forall l l' s t, Forall D l -> Forall D l' -> texts f l ++ s = texts f l' ++ t -> ends s = true -> ends t = true -> l = l' /\ s = t.
Lemma entries_readable {A} (D : A -> Prop) (f : A -> list Z) : (forall e e' s t, D e -> D e' -> f e ++ s = f e' ++ t -> e = e' /\ s = t) -> (forall e, exists r, f e = 123 :: r) -> reads D f.
Proof.
  intros R H l l' s t Fl Fl' E Es Et. refine (list_readable D f _ _ l l' s t Fl Fl' E Es Et).
  - intros a b u v Da Db _ _. apply R; assumption.
  - intros a Da. destruct (H a) as [r X]. exists 123, r. split; [exact X|discriminate].
Qed.
Lemma all_true {A} (l : list A) : Forall (fun _ => True) l.
Proof. apply Forall_forall. auto. Qed.
Ltac entry := intros e e' s t _ _ E; destruct e, e'; cbn in E; rewrite <- ?app_assoc in E; peels E; split; congruence.
Ltac brace := intros e; eexists; reflexivity.
Lemma ctts_entries : reads (fun _ => True) CttsEntry_toString.
Proof. apply entries_readable; unfold CttsEntry_toString; [entry|brace]. Qed.
Lemma ctts_text b b' : ctts_wf b -> ctts_wf b' -> Ctts_toString b = Ctts_toString b' -> b = b'.
Proof.
  destruct b, b'. intros W W'. unfold Ctts_toString. full L W. full L' W'. cbn in *. intros E. open E. peels E.
  destruct (ctts_entries _ _ _ _ (all_true _) (all_true _) E eq_refl eq_refl). congruence.
Qed.
Lemma stsc_entries : reads (fun _ => True) StscEntry_toString.
Proof. apply entries_readable; unfold StscEntry_toString; [entry|brace]. Qed.
Lemma stsc_text b b' : stsc_wf b -> stsc_wf b' -> Stsc_toString b = Stsc_toString b' -> b = b'.
Proof.
  destruct b, b'. intros W W'. unfold Stsc_toString. full L W. full L' W'. cbn in *. intros E. open E. peels E.
  destruct (stsc_entries _ _ _ _ (all_true _) (all_true _) E eq_refl eq_refl). congruence.
Qed.
Lemma stts_entries : reads (fun _ => True) SttsEntry_toString.
Proof. apply entries_readable; unfold SttsEntry_toString; [entry|brace]. Qed.
Lemma stts_text b b' : stts_wf b -> stts_wf b' -> Stts_toString b = Stts_toString b' -> b = b'.
Proof.
  destruct b, b'. intros W W'. unfold Stts_toString. full L W. full L' W'. cbn in *. intros E. open E. peels E.
  destruct (stts_entries _ _ _ _ (all_true _) (all_true _) E eq_refl eq_refl). congruence.
Qed.
Lemma sdtp_entries : reads (fun _ => True) SdtpSample_toString.
Proof. apply entries_readable; unfold SdtpSample_toString; [entry|brace]. Qed.
Lemma sdtp_text b b' : sdtp_wf b -> sdtp_wf b' -> Sdtp_toString b = Sdtp_toString b' -> b = b'.
Proof.
  destruct b, b'. intros W W'. unfold Sdtp_toString. full L W. full L' W'. cbn in *. intros E. open E. peels E.
  destruct (sdtp_entries _ _ _ _ (all_true _) (all_true _) E eq_refl eq_refl). congruence.
Qed.
Lemma sidx_entries : reads (fun _ => True) SidxReference_toString.
Proof. apply entries_readable; unfold SidxReference_toString; [entry|brace]. Qed.
Lemma sidx_text b b' : sidx_wf b -> sidx_wf b' -> sidx_reserved b = sidx_reserved b' -> Sidx_toString b = Sidx_toString b' -> b = b'.
Proof.
  destruct b, b'. intros W W' R. unfold Sidx_toString. full L W. full L' W'. cbn in *. intros E. open E. peels E.
  destruct (sidx_entries _ _ _ _ (all_true _) (all_true _) E eq_refl eq_refl). congruence.
Qed.
Lemma tfra_entries : reads (fun _ => True) TfraEntry_toString.
Proof. apply entries_readable; unfold TfraEntry_toString; [entry|brace]. Qed.
Lemma tfra_text b b' : tfra_wf b -> tfra_wf b' -> tfra_reserved b = tfra_reserved b' -> Tfra_toString b = Tfra_toString b' -> b = b'.
Proof.
  destruct b, b'. intros W W' R. unfold Tfra_toString. full L W. full L' W'. cbn in *. intros E. open E. peels E.
  destruct (tfra_entries _ _ _ _ (all_true _) (all_true _) E eq_refl eq_refl). congruence.
Qed.
Lemma sbgp_entries : reads (fun _ => True) SbgpEntry_toString.
Proof. apply entries_readable; unfold SbgpEntry_toString; [entry|brace]. Qed.
Lemma sbgp_text b b' : sbgp_wf b -> sbgp_wf b' -> Sbgp_toString b = Sbgp_toString b' -> b = b'.
Proof.
  destruct b, b'. intros (G & W & A) (G' & W' & A'). unfold Sbgp_toString. full L W. full L' W'. cbn in *. intros E. open E. peels E.
  destruct (octets_readable 4 _ _ _ _ G G' E) as [P2 E2]. clear E. rename E2 into E. peels E. subst sbgp_fb0. unfold absent, v0 in *.
  destruct (fb_version sbgp_fb =? 0); rewrite <- ?app_assoc in E; cbn [negb] in *; peels E.
  - change ([] ++ ?x) with x in E. peels E. destruct (sbgp_entries _ _ _ _ (all_true _) (all_true _) E eq_refl eq_refl). rewrite A, A' by reflexivity. congruence.
  - destruct (sbgp_entries _ _ _ _ (all_true _) (all_true _) E eq_refl eq_refl). congruence.
Qed.
Lemma avc_sets : reads (fun _ => True) AVCParameterSet_toString.
Proof. apply entries_readable; unfold AVCParameterSet_toString; [|brace]. intros e e' s t _ _ E. rewrite <- ?app_assoc in E. peels E. split; congruence. Qed.
Lemma ftyp_text b b' : ftyp_wf b -> ftyp_wf b' -> Ftyp_toString b = Ftyp_toString b' -> b = b'.
Proof.
  destruct b, b'. intros (M & B & _) (M' & B' & _). unfold Ftyp_toString. cbn in *. intros E. open E. peels E.
  destruct (octets_readable 4 _ _ _ _ M M' E) as [P2 E2]. clear E. rename E2 into E. peels E.
  assert (R : reads (len_is 4) (fun x : list Z => lit "{CompatibleBrand=""" ++ x ++ lit """}")).
  { apply entries_readable; [|brace]. intros e e' s t De De' X. rewrite <- ?app_assoc in X. peels X. destruct (octets_readable 4 _ _ _ _ De De' X) as [-> Y]. peels Y. auto. }
  destruct (R _ _ _ _ B B' E eq_refl eq_refl). congruence.
Qed.
Lemma hdlr_text b b' : hdlr_wf b -> hdlr_wf b' -> hdlr_manufacturer b = hdlr_manufacturer b' -> hdlr_flags b = hdlr_flags b' -> hdlr_flags_mask b = hdlr_flags_mask b' ->
  Hdlr_toString b = Hdlr_toString b' -> b = b'.
Proof.
  destruct b, b'. intros ((T & _) & W & P & _) ((T' & _) & W' & P' & _). unfold Hdlr_toString. full L W. full L' W'. cbn in *. intros H1 H2 H3 E. rewrite <- ?app_assoc in E. peels E.
  destruct (octets_readable 4 _ _ _ _ T T' E) as [P2 E2]. clear E. rename E2 into E. peels E. apply app_inv_tail in E. congruence.
Qed.
Lemma colr_text b b' : colr_wf b -> colr_wf b' -> colr_reserved b = colr_reserved b' -> Colr_toString b = Colr_toString b' -> b = b'.
Proof.
  destruct b, b'. intros (T & _ & W) (T' & _ & W') R. unfold Colr_toString, colr_is_nclx, colr_is_icc, code_nclx, code_rICC, code_prof, cc_nclx, cc_rICC, cc_prof in *. cbn in *. intros E. open E. peels E.
  destruct (octets_readable 4 _ _ _ _ T T' E) as [P2 E2]. clear E. rename E2 into E. peels E. subst colr_colour_type0.
  change (lit "nclx") with [110; 99; 108; 120] in E. change (lit "rICC") with [114; 73; 67; 67] in E. change (lit "prof") with [112; 114; 111; 102] in E.
  destruct (list_eqb _ _); [|destruct (_ || _)]; rewrite <- ?app_assoc in E; peels E; intuition congruence.
Qed.
Lemma dops_text b b' : dops_wf b -> dops_wf b' -> DOps_toString b = DOps_toString b' -> b = b'.
Proof.
  destruct b as [a1 a2 a3 a4 a5 a6 [t1 t2 t3]], b' as [b1 b2 b3 b4 b5 b6 [u1 u2 u3]]. intros (_ & W) (_ & W'). unfold DOps_toString. cbn in *. intros E. open E.
  do 11 peel E. assert (S : forall c s, stop ((if c : bool then [] else lit " StreamCount=" ++ s) ++ []) = true) by (intros [] s; reflexivity).
  destruct (dec_peel _ _ _ _ E (S _ _) (S _ _)) as [Q E2]. clear E. rename E2 into E. subst b6. destruct (a6 =? 0).
  - congruence.
  - rewrite <- ?app_assoc in E. peels E. congruence.
Qed.
Lemma url_text b b' : url_wf b -> url_wf b' -> Url_toString b = Url_toString b' -> b = b'.
Proof.
  destruct b as [fb l], b' as [fb' l']. intros (W & A) (W' & A') E. full L W. full L' W'. cbn [url_fb url_location] in L, L', A, A'. pose proof (checkFlag_fb fb L 0 ltac:(lia)) as C. pose proof (checkFlag_fb fb' L' 0 ltac:(lia)) as C'.
  change (2 ^ 0) with 1 in C, C'. unfold Url_toString in E. cbn in E. rewrite C, C' in E. unfold absent in *.
  assert (X : forall c k, (if c : bool then version_flags k else version_flags k ++ lit " Location=""" ++ l ++ lit """") = version_flags k ++ if c then [] else lit " Location=""" ++ l ++ lit """") by (intros [] k; rewrite ?app_nil_r; reflexivity).
  assert (X' : forall c k, (if c : bool then version_flags k else version_flags k ++ lit " Location=""" ++ l' ++ lit """") = version_flags k ++ if c then [] else lit " Location=""" ++ l' ++ lit """") by (intros [] k; rewrite ?app_nil_r; reflexivity).
  rewrite X, X' in E. destruct (flags_readable _ _ _ _ E L L') as [<- E2]. destruct (flag fb 0).
  - rewrite A, A' by reflexivity. reflexivity.
  - apply app_inv_head in E2. apply app_inv_tail in E2. congruence.
Qed.
Ltac empties E := repeat change ([] ++ ?x) with x in E.
Lemma tfhd_text b b' : tfhd_wf b -> tfhd_wf b' -> Tfhd_toString b = Tfhd_toString b' -> b = b'.
Proof.
  destruct b as [fb t1 t2 t3 t4 t5 t6], b' as [fb' u1 u2 u3 u4 u5 u6]. intros (W & A) (W' & A') E. full L W. full L' W'. unfold absent in *.
  cbn [tfhd_fb tfhd_track_id tfhd_base_data_offset tfhd_sample_description_index tfhd_default_sample_duration tfhd_default_sample_size tfhd_default_sample_flags] in L, L', A, A'.
  unfold Tfhd_toString in E. cbn in E. open E. destruct (flags_readable _ _ _ _ E L L') as [<- E2]. clear E. rename E2 into E.
  pose proof (checkFlag_fb fb L 0 ltac:(lia)) as C0. pose proof (checkFlag_fb fb L 1 ltac:(lia)) as C1. pose proof (checkFlag_fb fb L 3 ltac:(lia)) as C3.
  pose proof (checkFlag_fb fb L 4 ltac:(lia)) as C4. pose proof (checkFlag_fb fb L 5 ltac:(lia)) as C5.
  change (2 ^ 0) with 1 in C0. change (2 ^ 1) with 2 in C1. change (2 ^ 3) with 8 in C3. change (2 ^ 4) with 16 in C4. change (2 ^ 5) with 32 in C5. rewrite C0, C1, C3, C4, C5 in E. clear -E A A'.
  destruct A as (A0 & A1 & A3 & A4 & A5), A' as (B0 & B1 & B3 & B4 & B5).
  destruct (flag fb 0), (flag fb 1), (flag fb 3), (flag fb 4), (flag fb 5); rewrite <- ?app_assoc in E; empties E; peels E; repeat match goal with H : false = false -> _ |- _ => specialize (H eq_refl) end; congruence.
Qed.
Lemma trun_entry_text fb : fields_ok (fb_layout fb) ->
  reads (fun e => (flag fb 8 = false -> trune_sample_duration e = 0) /\ (flag fb 9 = false -> trune_sample_size e = 0) /\ (flag fb 10 = false -> trune_sample_flags e = 0) /\
                  (flag fb 11 = false -> trune_composition_time_offset e = 0)) (TrunEntry_toString fb).
Proof.
  intros L. apply entries_readable; [|unfold TrunEntry_toString; brace]. intros [a b c d] [a' b' c' d'] s t A A' E. cbn [trune_sample_duration trune_sample_size trune_sample_flags trune_composition_time_offset] in A, A'. unfold TrunEntry_toString in E. cbn in E.
  pose proof (checkFlag_fb fb L 8 ltac:(lia)) as C0. pose proof (checkFlag_fb fb L 9 ltac:(lia)) as C1. pose proof (checkFlag_fb fb L 10 ltac:(lia)) as C3. pose proof (checkFlag_fb fb L 11 ltac:(lia)) as C4.
  change (2 ^ 8) with 256 in C0. change (2 ^ 9) with 512 in C1. change (2 ^ 10) with 1024 in C3. change (2 ^ 11) with 2048 in C4. rewrite C0, C1, C3, C4 in E. clear -E A A'.
  destruct A as (A0 & A1 & A3 & A4), A' as (B0 & B1 & B3 & B4).
  destruct (flag fb 8), (flag fb 9), (flag fb 10), (flag fb 11); cbn [app join] in E; rewrite <- ?app_assoc in E; empties E; peels E;
    repeat match goal with H : false = false -> _ |- _ => specialize (H eq_refl) end; split; congruence.
Qed.
Lemma trun_text b b' : trun_wf b -> trun_wf b' -> Trun_toString b = Trun_toString b' -> b = b'.
Proof.
  destruct b as [fb t1 t2 t3], b' as [fb' u1 u2 u3]. intros (W & A & B & C) (W' & A' & B' & C') E. full L W. full L' W'. unfold absent in *.
  cbn [trun_fb trun_data_offset trun_first_sample_flags trun_entries] in L, L', A, A', B, B', C, C'.
  unfold Trun_toString in E. cbn in E. open E. destruct (flags_readable _ _ _ _ E L L') as [<- E2]. clear E. rename E2 into E.
  pose proof (checkFlag_fb fb L 0 ltac:(lia)) as C0. pose proof (checkFlag_fb fb L 2 ltac:(lia)) as C1.
  change (2 ^ 0) with 1 in C0. change (2 ^ 2) with 4 in C1. rewrite C0, C1 in E. pose proof (trun_entry_text fb L) as R. clear -E A A' B B' C C' R.
  destruct (flag fb 0), (flag fb 2); rewrite <- ?app_assoc in E; empties E; peels E; repeat match goal with H : false = false -> _ |- _ => specialize (H eq_refl) end;
    destruct (R _ _ _ _ C C' E eq_refl eq_refl); congruence.
Qed.
Lemma av1c_text b b' : av1c_reserved b = av1c_reserved b' -> av1c_initial_presentation_delay_minus_one b = av1c_initial_presentation_delay_minus_one b' ->
  AV1CodecConfiguration_toString b = AV1CodecConfiguration_toString b' -> b = b'.
Proof.
  destruct b as [a1 a2 a3 a4 a5 a6 a7 a8 a9 a10 a11 a12 p a14 o], b' as [b1 b2 b3 b4 b5 b6 b7 b8 b9 b10 b11 b12 p' b14 o']. unfold AV1CodecConfiguration_toString. cbn. intros R D E. open E. peels E.
  assert (X : p = p') by assumption. subst p'. subst b14.
  assert (Y : o = o') by (destruct p; rewrite <- ?app_assoc in E; empties E; peels E; assumption). clear E. subst. reflexivity.
Qed.
Lemma avcc_text b b' : avcc_wf b -> avcc_wf b' -> avcc_reserved b = avcc_reserved b' -> avcc_reserved2 b = avcc_reserved2 b' -> avcc_reserved3 b = avcc_reserved3 b' ->
  avcc_reserved4 b = avcc_reserved4 b' -> avcc_reserved5 b = avcc_reserved5 b' -> AVCDecoderConfiguration_toString b = AVCDecoderConfiguration_toString b' -> b = b'.
Proof.
  destruct b as [a1 a2 a3 a4 a5 a6 a7 a8 a9 ah a10 a11 a12 a13 a14 a15 a16], b' as [b1 b2 b3 b4 b5 b6 b7 b8 b9 bh b10 b11 b12 b13 b14 b15 b16].
  intros (_ & H & A) (_ & H' & A'). unfold AVCDecoderConfiguration_toString, absent in *.
  cbn [avcc_configuration_version avcc_profile avcc_profile_compatibility avcc_level avcc_reserved avcc_length_size_minus_one avcc_reserved2 avcc_sps avcc_pps avcc_high_profile_fields_enabled
       avcc_reserved3 avcc_chroma_format avcc_reserved4 avcc_bit_depth_luma_minus8 avcc_reserved5 avcc_bit_depth_chroma_minus8 avcc_sps_ext] in *.
  intros R1 R2 R3 R4 R5 E. open E. peels E.
  destruct (avc_sets _ _ _ _ (all_true _) (all_true _) E eq_refl eq_refl) as [S1 E2]. clear E. rename E2 into E. peels E.
  destruct (avc_sets _ _ _ _ (all_true _) (all_true _) E eq_refl eq_refl) as [S2 E2]. clear E. rename E2 into E. peels E.
  assert (I : forall p, avc_high p -> is_avc_high_profile p = true) by (intros p X; unfold is_avc_high_profile; apply existsb_exists; exists p; split; [exact X|apply Z.eqb_refl]).
  assert (G : forall (h : bool) p, (h = true -> avc_high p) -> is_avc_high_profile p && h = h) by (intros [] p X; [rewrite I by auto; reflexivity|apply andb_false_r]).
  rewrite (G _ _ H), (G _ _ H') in E. destruct ah, bh; rewrite <- ?app_assoc in E; empties E.
  - peels E. destruct (avc_sets _ _ _ _ (all_true _) (all_true _) E eq_refl eq_refl) as [S3 _]. clear E. subst. reflexivity.
  - discriminate E.
  - discriminate E.
  - specialize (A eq_refl). specialize (A' eq_refl). clear E. decompose [and] A. decompose [and] A'. subst. reflexivity.
Qed.
Lemma octets_hex2 l : forall l' s t, length l = length l' -> bytes l -> bytes l' -> flat_map hex2 l ++ s = flat_map hex2 l' ++ t -> l = l' /\ s = t.
Proof.
  induction l as [|a l IH]; intros [|b l'] s t N Bl Bl' E; try discriminate N; [auto|]. cbn [flat_map] in E. rewrite <- !app_assoc in E. apply Forall_cons_iff in Bl as [Ba Bl]. apply Forall_cons_iff in Bl' as [Bb Bl'].
  assert (Y : hex2 a ++ [] = hex2 b ++ [] /\ flat_map hex2 l ++ s = flat_map hex2 l' ++ t) by (unfold hex2 in *; cbn [app] in *; injection E as X1 X2 X3; rewrite X1, X2; auto).
  destruct Y as [Y Z]. destruct (hex2_readable a b [] [] Ba Bb eq_refl eq_refl Y) as [-> _]. destruct (IH l' s t ltac:(cbn in N; lia) Bl Bl' Z) as [-> ->]. auto.
Qed.
Lemma pssh_text b b' : pssh_wf b -> pssh_wf b' -> Pssh_toString b = Pssh_toString b' -> b = b'.
Proof.
  destruct b as [fb i k d], b' as [fb' i' k' d']. intros (I & K & W & A) (I' & K' & W' & A') E. assert (Wc := W). assert (Wc' := W'). full L W. full L' W'. unfold absent in *.
  unfold fields_ok, pssh_layout in Wc, Wc'. cbn [pssh_fb pssh_system_id pssh_kids pssh_data] in *. apply Forall_app in Wc as [_ Wc]. apply Forall_app in Wc' as [_ Wc']. cbn [app] in Wc, Wc'.
  apply Forall_cons_iff in Wc as [Bi Wc]. apply Forall_cons_iff in Wc' as [Bi' Wc']. apply Forall_app in Wc as [Wk _]. apply Forall_app in Wc' as [Wk' _]. cbn [field_ok] in Bi, Bi'.
  unfold Pssh_toString, v0 in E. cbn [pssh_fb pssh_system_id pssh_kids pssh_data] in E. open E. peels E. subst fb'.
  destruct (octets_hex2 i i' _ _ ltac:(unfold len_is in *; congruence) Bi Bi' E) as [<- E2]. clear E. rename E2 into E. peels E.
  destruct (fb_version fb =? 0); cbn [negb opt] in *.
  - rewrite A, A' in * by reflexivity. rewrite <- ?app_assoc in E. empties E. peels E. congruence.
  - rewrite <- ?app_assoc in E. peels E. assert (N : length k = length k') by (unfold Zlen in *; lia).
    apply Forall_cons_iff in Wk as [_ Wk]. apply Forall_cons_iff in Wk' as [_ Wk']. rewrite Forall_map in Wk, Wk'. cbn [field_ok] in Wk, Wk'.
    set (f := fun k : list Z => lit """" ++ flat_map hex2 k ++ lit """") in E.
    assert (F : forall x y s t, len_is 16 x -> len_is 16 y -> bytes x -> bytes y -> f x ++ s = f y ++ t -> x = y /\ s = t).
    { intros x y s t Hx Hy Bx By X. unfold f in X. rewrite <- ?app_assoc in X. apply app_inv_head in X. destruct (octets_hex2 x y _ _ ltac:(unfold len_is in *; congruence) Bx By X) as [-> Y]. apply app_inv_head in Y. auto. }
    assert (T : forall l l' s t, length l = length l' -> Forall (len_is 16) l -> Forall (len_is 16) l' -> Forall bytes l -> Forall bytes l' ->
      flat_map (fun y => lit " " ++ y) (map f l) ++ s = flat_map (fun y => lit " " ++ y) (map f l') ++ t -> l = l' /\ s = t).
    { clear -F. induction l as [|x l IH]; intros [|y l'] s t N Hl Hl' Bl Bl' E; try discriminate N; [auto|]. cbn [map flat_map] in E. rewrite <- ?app_assoc in E. apply app_inv_head in E.
      apply Forall_cons_iff in Hl as [Hx Hl]. apply Forall_cons_iff in Hl' as [Hy Hl']. apply Forall_cons_iff in Bl as [Bx Bl]. apply Forall_cons_iff in Bl' as [By Bl'].
      destruct (F x y _ _ Hx Hy Bx By E) as [-> E2]. cbn [length] in N. destruct (IH l' s t ltac:(lia) Hl Hl' Bl Bl' E2) as [-> ->]. auto. }
    assert (J : k = k' /\ lit "]" ++ lit " DataSize=" ++ dec (Zlen d) ++ lit " Data=[" ++ hexs d ++ lit "]" ++ [] = lit "]" ++ lit " DataSize=" ++ dec (Zlen d') ++ lit " Data=[" ++ hexs d' ++ lit "]" ++ []).
    { destruct k as [|x k], k' as [|y k']; try discriminate N; [split; [reflexivity|exact E]|]. cbn [map] in E. rewrite !join_cons, <- ?app_assoc in E.
      apply Forall_cons_iff in K as [Hx Hl]. apply Forall_cons_iff in K' as [Hy Hl']. apply Forall_cons_iff in Wk as [Bx Bl]. apply Forall_cons_iff in Wk' as [By Bl'].
      destruct (F x y _ _ Hx Hy Bx By E) as [-> E2]. cbn [length] in N. destruct (T k k' _ _ ltac:(lia) Hl Hl' Bl Bl' E2) as [-> E3]. split; [reflexivity|exact E3]. }
    destruct J as [-> E2]. peels E2. congruence.
Qed.
Arguments lit : simpl nomatch.

(** * All of them *)
Theorem text_determines ch ch' b b' h : box_kind b = box_kind b' -> box_wf ch b -> box_wf ch' b' -> hidden b = Some h -> hidden b' = Some h ->
  Box_toStringOnlyData b = Box_toStringOnlyData b' -> b = b'.
Proof.
  intros K W W' H H' E. destruct b, b'; try discriminate K; cbn [hidden] in H, H'; try discriminate H; cbn [box_wf] in W, W'; unfold Box_toStringOnlyData in E; try reflexivity.
  all: assert (E' := f_equal (fun o => match o with Ok s => s | _ => [] end) E); cbv beta iota in E'; clear E; rename E' into E.
  all: try rewrite <- H' in H; clear H'; f_equal.
  all: first [ exact (btrt_text _ _ E) | exact (raw_text _ _ E) | exact (unsupported_text _ _ E) | exact (fiel_text _ _ E) | exact (pasp_text _ _ E) | exact (meta_text _ _ W W')
    | exact (co64_text _ _ W W' E) | exact (ctts_text _ _ W W' E) | exact (dops_text _ _ W W' E) | exact (dref_text _ _ W W' E) | exact (ftyp_text _ _ (proj1 W) (proj1 W') E) | exact (iods_text _ _ W W' E)
    | exact (mehd_text _ _ W W' E) | exact (mfhd_text _ _ W W' E) | exact (mfro_text _ _ W W' E) | exact (pssh_text _ _ W W' E) | exact (sbgp_text _ _ W W' E) | exact (sdtp_text _ _ (proj1 W) (proj1 W') E)
    | exact (stco_text _ _ W W' E) | exact (stsc_text _ _ W W' E) | exact (stsd_text _ _ W W' E) | exact (stss_text _ _ W W' E) | exact (stsz_text _ _ W W' E) | exact (stts_text _ _ W W' E)
    | exact (tfdt_text _ _ W W' E) | exact (tfhd_text _ _ W W' E) | exact (trex_text _ _ W W' E) | exact (trun_text _ _ W W' E) | exact (url_text _ _ (proj1 W) (proj1 W') E)
    | exact (vmhd_text _ _ W W' E) | exact (vpcc_text _ _ W W' E) | idtac ].
  - injection H as H. exact (colr_text _ _ (proj1 W) (proj1 W') H E).
  - injection H as H1 H2 H3. exact (hdlr_text _ _ (proj1 W) (proj1 W') H1 H2 H3 E).
  - injection H as H. exact (sidx_text _ _ W W' H E).
  - injection H as H. exact (tfra_text _ _ W W' H E).
  - injection H as H1 H2. exact (av1c_text _ _ H1 H2 E).
  - injection H as H1 H2 H3 H4 H5. exact (avcc_text _ _ (proj1 W) (proj1 W') H1 H2 H3 H4 H5 E).
Qed.
