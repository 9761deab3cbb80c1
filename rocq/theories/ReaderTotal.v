(** SimpleReader on arbitrary octets: it terminates, stays in bounds, and its undefined behaviour is confined (C19, C20, C42). *)
From Verif Require Import Base BitIO BitFacts BitIOProofs Boxes WireFormat BoxTac BoxWrite BoxRead Box BoxSpec BoxIO BoxSize BoxSafe
  BoxTree TreeSpec TreeProofs TreeLayout TreeRead.

Lemma within_eq len t h b l : within len (Node t h b l) <->
  match h with None => False | Some h => 0 <= h_offset h /\ h_header_size h <= h_size h /\ h_offset h + h_size h <= len end /\ Forall (within len) l.
Proof.
  cbn [within]. assert (forall l, (fix all (l : list node) : Prop := match l with [] => True | k :: l' => within len k /\ all l' end) l <-> Forall (within len) l) as E.
  { clear. induction l as [|k l IH]; [split; [constructor|trivial]|]. rewrite IH. split; [intros [A B]; constructor; assumption|intros F; inversion F; auto]. }
  rewrite E. reflexivity.
Qed.

(** Classes of registered types. *)
Lemma find_in m t d : BoxMap_find m t = Some d -> In (t, d) m.
Proof.
  induction m as [|[t' d'] m IH]; [discriminate|]. cbn [BoxMap_find]. destruct (list_eqb t' t) eqn:E; intros H.
  - injection H as ->. apply list_eqb_eq in E. subst. left. reflexivity.
  - right. auto.
Qed.
Definition is_sgpd k := match k with K_sgpd => true | _ => false end.
Lemma kind_sgpd t : BoxMap_getBoxInstance BoxMap_registered t = K_sgpd -> t = [115; 103; 112; 100].
Proof.
  unfold BoxMap_getBoxInstance. destruct (BoxMap_find BoxMap_registered t) as [[k v]|] eqn:E; [|discriminate]. intros ->. apply find_in in E.
  assert (F : forallb (fun x => match fst (snd x) with K_sgpd => list_eqb (fst x) [115; 103; 112; 100] | _ => true end) BoxMap_registered = true) by (vm_compute; reflexivity).
  rewrite forallb_forall in F. specialize (F _ E). cbn in F. apply list_eqb_eq. exact F.
Qed.
Lemma kind_overreports t : overreports (BoxMap_getBoxInstance BoxMap_registered t) = true ->
  t = [105; 111; 100; 115] \/ t = [101; 115; 100; 115] \/ t = [97; 118; 99; 67].
Proof.
  unfold BoxMap_getBoxInstance. destruct (BoxMap_find BoxMap_registered t) as [[k v]|] eqn:E; [|discriminate]. intros O. apply find_in in E.
  assert (F : forallb (fun x => if overreports (fst (snd x)) then list_eqb (fst x) [105; 111; 100; 115] || list_eqb (fst x) [101; 115; 100; 115] || list_eqb (fst x) [97; 118; 99; 67] else true) BoxMap_registered = true) by (vm_compute; reflexivity).
  rewrite forallb_forall in F. specialize (F _ E). cbn [fst snd] in F. rewrite O in F. apply orb_prop in F. destruct F as [F|F].
  - apply orb_prop in F. destruct F as [F|F]; apply list_eqb_eq in F; auto.
  - apply list_eqb_eq in F. auto.
Qed.

(** Counts reported by sgpd are never negative, whatever the payload. *)
Definition rnn {A} (m : R A) : Prop := forall r, match m r with Ok (_, n, _) => 0 <= n | _ => True end.
Lemma rnn_ret {A} (a : A) : rnn (rret a). Proof. intros r. cbn. lia. Qed.
Lemma rnn_bind {A B} (m : R A) (f : A -> R B) : rnn m -> (forall a, rnn (f a)) -> rnn (rbind m f).
Proof. intros H1 H2 r. specialize (H1 r). unfold rbind. destruct (m r) as [[[r1 n1] a]|e|]; auto. specialize (H2 a r1). destruct (f a r1) as [[[r2 n2] b]|e|]; auto. lia. Qed.
Lemma rnn_uint w s : 0 <= s -> rnn (read_uint w s).
Proof. intros H r. unfold read_uint. destruct (s =? 0); [exact I|]. destruct (readBits s r) as [[? ?]|?|]; auto. Qed.
Lemma rnn_int w s : 0 <= s -> rnn (read_int w s).
Proof. intros H r. unfold read_int. destruct (s =? 0); [exact I|]. destruct (readBits s r) as [[? d]|?|]; auto. destruct d; auto. Qed.
Lemma rnn_octet8 : rnn read_octet8. Proof. intros r. unfold read_octet8. destruct (readBits 8 r) as [[? [|? ?]]|?|]; auto. lia. Qed.
Lemma rnn_bool : rnn read_bool. Proof. intros r. unfold read_bool. destruct (readBits 1 r) as [[? [|? ?]]|?|]; auto. lia. Qed.
Lemma rnn_repeat {A} n (m : R A) : rnn m -> rnn (rrepeat n m).
Proof. intros H. induction n as [|n IH]; [apply rnn_ret|]. cbn [rrepeat]. apply rnn_bind; [exact H|intros]. apply rnn_bind; [exact IH|intros; apply rnn_ret]. Qed.
Lemma rnn_rcount {A} (m : R A) : rnn m -> rnn (rcount m).
Proof. intros H r. specialize (H r). unfold rcount. destruct (m r) as [[[? ?] ?]|?|]; auto. Qed.
Lemma rnn_throw {A} e : rnn (@rthrow A e). Proof. intros r. exact I. Qed.
Lemma rnn_rub {A} : rnn (@rub A). Proof. intros r. exact I. Qed.
Ltac rnnstep :=
  match goal with
  | |- rnn (rret _) => apply rnn_ret
  | |- rnn (rthrow _) => apply rnn_throw
  | |- rnn rub => apply rnn_rub
  | |- rnn (rbind _ _) => apply rnn_bind; [|intros ?]
  | |- rnn (match ?p with (_, _) => _ end) => destruct p
  | |- rnn (if ?c then _ else _) => destruct c
  | |- rnn (match ?c with Some _ => _ | None => _ end) => destruct c
  | |- rnn (read_uint _ _) => apply rnn_uint; lia
  | |- rnn (read_int _ _) => apply rnn_int; lia
  | |- rnn read_octet8 => apply rnn_octet8
  | |- rnn read_bool => apply rnn_bool
  | |- rnn (rrepeat _ _) => apply rnn_repeat
  | |- rnn (rcount _) => apply rnn_rcount
  | |- rnn ?m => let h := head m in unfold h; cbv zeta
  end.
Lemma sgpd_rnn : rnn Sgpd_readData. Proof. repeat rnnstep. Qed.

Lemma readData_facts k type uw data : bytes data ->
  match Box_readData k type uw (reader_init data) with
  | Ok (_, n, _) => 0 <= n /\ (n / 8 <= Zlen data \/ overreports k = true \/ (k = K_sgpd /\ sgpd_reads_uninitialised data))
  | Throw _ => True
  | UB => k = K_sgpd /\ sgpd_reads_uninitialised data
  end.
Proof.
  intros Hb.
  assert (D : {k = K_sgpd} + {k <> K_sgpd}) by (destruct k; ((left; reflexivity) || (right; discriminate))).
  assert (C : (k = K_sgpd /\ sgpd_reads_uninitialised data) \/ (k = K_sgpd -> ~ sgpd_reads_uninitialised data)).
  { destruct D as [->|D]; [|right; congruence]. unfold sgpd_reads_uninitialised.
    destruct (list_eqb (firstn 4 (skipn 4 data)) code_alst); [|right; intros _ [? _]; discriminate].
    destruct (Z.eq_dec (nth 0 data 0) 1) as [E|E]; [right; intros _ [_ N]; contradiction|left; auto]. }
  destruct C as [[-> U]|C].
  - pose proof (sgpd_rnn (reader_init data)) as N. cbn [Box_readData]. unfold rmap, rbind. destruct (Sgpd_readData (reader_init data)) as [[[r n] x]|e|]; auto.
    cbn [rret]. rewrite Z.add_0_r. split; [exact N|]. right. right. auto.
  - pose proof (box_safe k type uw data Hb C) as S. destruct (Box_readData k type uw (reader_init data)) as [[[r n] x]|e|]; auto; [|contradiction].
    destruct S as (W & Dd & bs & E & L & O). split; [pose proof (Zlen_nonneg bs); lia|].
    destruct (overreports k); [right; left; reflexivity|]. left. specialize (O eq_refl). apply (f_equal Zlen) in E. rewrite Zlen_bits_of, Zlen_app in E.
    pose proof (Zlen_nonneg (rbits r)). lia.
Qed.

Lemma In_firstn_aux {A} (l : list A) a b x : In x (firstn a (skipn b l)) -> In x l.
Proof. intros H. rewrite <- (firstn_skipn b l). apply in_or_app. right. rewrite <- (firstn_skipn a (skipn b l)). apply in_or_app. left. exact H. Qed.

Section Total.
  Variables (file : bool) (data : list Z).
  Hypothesis Hb : bytes data.
  Hypothesis Hl : Zlen data < 2 ^ 63.
  Definition bad : Prop := has_unversioned_alst data \/ (file = true /\ has_overreporting data).
  Definition good_pos (pos : Z) : Prop := 0 <= pos /\ (pos <= Zlen data \/ bad).
  Definition box_post (pos : Z) (res : option (outcome (node * Z * Z))) : Prop :=
    match res with
    | None => False
    | Some (Ok (n, pos1, size)) => (pos + 8 <= pos1 /\ pos + 8 <= Zlen data) /\ good_pos pos1 /\ 8 <= size <= Zlen data /\ within (Zlen data) n
    | Some (Throw _) => True
    | Some UB => bad
    end.
  Definition leafs_post (pos : Z) (res : option (outcome (list node * Z))) : Prop :=
    match res with
    | None => False
    | Some (Ok (ns, pos1)) => pos <= pos1 /\ good_pos pos1 /\ Forall (within (Zlen data)) ns
    | Some (Throw _) => True
    | Some UB => bad
    end.
  Lemma reader_total : forall fuel,
    (forall uw pos, good_pos pos -> 2 * (Z.max 0 (Zlen data - pos) / 8) + 1 <= Z.of_nat fuel -> box_post pos (readBox fuel file data uw pos)) /\
    (forall uw bound rbytes pos, good_pos pos -> 2 * (Z.max 0 (Zlen data - pos) / 8) + 2 <= Z.of_nat fuel ->
       leafs_post pos (readLeafs fuel file data uw bound rbytes pos)).
  Proof.
    induction fuel as [|f [IHb IHl]]; split; try (intros; lia).
    - intros uw pos [P0 P1] F. cbn [readBox].
      assert (Dec : {pos <= Zlen data} + {Zlen data < pos}) by (destruct (Z_le_gt_dec pos (Zlen data)); [left|right]; lia).
      destruct Dec as [Pl|Pl].
      2:{ pose proof (read_header_past data pos Pl) as R. destruct (read_box_header data pos) as [h|e|]; [contradiction|exact I|].
          destruct P1 as [P1|P1]; [lia|exact P1]. }
      pose proof (read_header_cases data pos ltac:(lia) ltac:(lia) Hb) as R.
      destruct (read_box_header data pos) as [h|e|] eqn:Eh; [|exact I|contradiction].
      destruct R as (R1 & R2 & R3 & R4 & R5). cbv zeta. rewrite R1.
      destruct (negb file && _); [exact I|].
      rewrite (u64_small (Zlen data - pos)) by lia. rewrite (u64_small (Zlen data - pos - h_header_size h)) by lia.
      destruct (Z.gtb_spec (header_getDataSize h) (Zlen data - pos - h_header_size h)) as [C|C]; [exact I|].
      assert (Ds : h_size h = header_getDataSize h + h_header_size h /\ 0 <= header_getDataSize h).
      { unfold header_getDataSize, u64 in *. destruct (Z_lt_ge_dec (h_size h) (h_header_size h)) as [Q|Q].
        - exfalso. assert (E : (h_size h - h_header_size h) mod 2 ^ 64 = h_size h - h_header_size h + 2 ^ 64).
          { rewrite <- (Z.mod_add _ 1) by lia. rewrite Z.mul_1_l. apply Z.mod_small. lia. }
          rewrite E in C. lia.
        - rewrite Z.mod_small by lia. lia. }
      destruct Ds as [Ds Dn].
      destruct (Z.gtb_spec (pos + h_header_size h + header_getDataSize h) (Zlen data)) as [C2|C2]; [exfalso; lia|].
      fold (BoxMap_getBoxInstance BoxMap_registered (h_type h)).
      assert (Epl : firstn (Z.to_nat (header_getDataSize h)) (skipn (Z.to_nat (pos + h_header_size h)) data) = payload_at data h) by (unfold payload_at; rewrite R1; reflexivity).
      rewrite Epl.
      assert (Bp : bytes (payload_at data h)).
      { unfold payload_at, bytes in *. rewrite Forall_forall in Hb |- *. intros x Hx. apply Hb. eapply In_firstn_aux; exact Hx. }
      assert (Lp : Zlen (payload_at data h) = header_getDataSize h).
      { unfold payload_at, Zlen in *. rewrite R1, firstn_length, skipn_length. lia. }
      pose proof (readData_facts (BoxMap_getBoxInstance BoxMap_registered (h_type h)) (h_type h) uw (payload_at data h) Bp) as Rd.
      destruct (Box_readData _ _ _ _) as [[[r n] b]|e|]; [|exact I|].
      2:{ destruct Rd as [Ks U]. left. exists pos, h. apply kind_sgpd in Ks. repeat split; auto; try lia; apply U. }
      destruct Rd as [Rn Rd]. destruct (Z.gtb_spec (pos + h_header_size h + n / 8) (Zlen data)) as [C3|C3].
      + destruct file eqn:Ef; cbn [negb andb]; [|exact I].
        assert (Bad : bad).
        { destruct Rd as [Rd|[Rd|[Ks U]]]; [lia| |].
          - right. split; [exact Ef|]. exists pos, h. apply kind_overreports in Rd. repeat split; auto; lia.
          - left. exists pos, h. apply kind_sgpd in Ks. repeat split; auto; try lia; apply U. }
        specialize (IHl (list_eqb (h_type h) type_wave) (header_getDataSize h) (n / 8) (pos + h_header_size h + n / 8)).
        assert (Gp : good_pos (pos + h_header_size h + n / 8)) by (split; [lia|right; exact Bad]). specialize (IHl Gp ltac:(lia)).
        destruct (readLeafs _ _ _ _ _ _ _) as [[[ns pos2]|e|]|]; cbn [leafs_post box_post] in *; auto.
        destruct IHl as (L1 & L2 & L3). split; [lia|]. split; [exact L2|]. split; [lia|]. rewrite within_eq. split; [lia|exact L3].
      + rewrite andb_false_r.
        specialize (IHl (list_eqb (h_type h) type_wave) (header_getDataSize h) (n / 8) (pos + h_header_size h + n / 8)).
        assert (Gp : good_pos (pos + h_header_size h + n / 8)) by (split; [lia|left; lia]). specialize (IHl Gp ltac:(lia)).
        destruct (readLeafs _ _ _ _ _ _ _) as [[[ns pos2]|e|]|]; cbn [leafs_post box_post] in *; auto.
        destruct IHl as (L1 & L2 & L3). split; [lia|]. split; [exact L2|]. split; [lia|]. rewrite within_eq. split; [lia|exact L3].
    - intros uw bound rbytes pos G F. cbn [readLeafs]. destruct (bound >? rbytes).
      2:{ cbn. split; [lia|]. split; [exact G|constructor]. }
      specialize (IHb uw pos G ltac:(lia)). destruct (readBox f file data uw pos) as [[[[n pos1] size]|e|]|]; cbn [box_post leafs_post] in *; auto.
      destruct IHb as (B1 & B2 & B3 & B4). specialize (IHl uw bound (u64 (rbytes + size)) pos1 B2 ltac:(lia)).
      destruct (readLeafs f file data uw bound _ pos1) as [[[ns pos2]|e|]|]; cbn [leafs_post] in *; auto.
      destruct IHl as (L1 & L2 & L3). split; [lia|]. split; [exact L2|]. constructor; assumption.
  Qed.
End Total.

Lemma SimpleReader_total file data : bytes data -> Zlen data < 2 ^ 63 ->
  match SimpleReader_parse file data with
  | None => False
  | Some (Ok ns) => Forall (within (Zlen data)) ns
  | Some (Throw _) => True
  | Some UB => has_unversioned_alst data \/ (file = true /\ has_overreporting data)
  end.
Proof.
  intros Hb Hl. destruct (reader_total file data Hb Hl (length data + 2)) as [_ R].
  assert (G : good_pos file data 0) by (split; [lia|left; apply Zlen_nonneg]).
  specialize (R false (Zlen data) 0 0 G). specialize (R ltac:(unfold Zlen; lia)). unfold SimpleReader_parse.
  destruct (readLeafs _ _ _ _ _ _ _) as [[[ns pos]|e|]|]; cbn [leafs_post] in R; auto. apply R.
Qed.
(** More fuel changes nothing: the model's fuel is not a limit of the code. *)
Lemma reader_fuel_mono file data : forall f1 f2, (f1 <= f2)%nat ->
  (forall uw pos r, readBox f1 file data uw pos = Some r -> readBox f2 file data uw pos = Some r) /\
  (forall uw bound rb pos r, readLeafs f1 file data uw bound rb pos = Some r -> readLeafs f2 file data uw bound rb pos = Some r).
Proof.
  induction f1 as [|f1 IH]; intros f2 L; [split; intros; discriminate|]. destruct f2 as [|f2]; [lia|].
  destruct (IH f2 ltac:(lia)) as [IHb IHl]. split.
  - intros uw pos r. cbn [readBox]. destruct (read_box_header data pos) as [h|e|]; auto.
    destruct (negb file && _); auto. destruct (_ >? _); auto. destruct (_ >? _); auto.
    destruct (Box_readData _ _ _ _) as [[[r0 n] b]|e|]; auto. destruct (negb file && _); auto.
    destruct (readLeafs f1 _ _ _ _ _ _) as [x|] eqn:E; [|discriminate]. apply IHl in E. rewrite E. auto.
  - intros uw bound rb pos r. cbn [readLeafs]. destruct (bound >? rb); auto.
    destruct (readBox f1 file data uw pos) as [x|] eqn:E; [|discriminate]. apply IHb in E. rewrite E.
    destruct x as [[[n pos1] size]|e|]; auto.
    destruct (readLeafs f1 _ _ _ _ _ pos1) as [y|] eqn:E2; [|discriminate]. apply IHl in E2. rewrite E2. auto.
Qed.
(** Oversized (or undersized) boxes are rejected. *)
Lemma readBox_rejects fuel file data uw pos h : bytes data -> Zlen data < 2 ^ 63 -> 0 <= pos <= Zlen data ->
  read_box_header data pos = Ok h -> h_size h < h_header_size h \/ Zlen data < pos + h_size h ->
  readBox (S fuel) file data uw pos = Some (Throw RuntimeError).
Proof.
  intros Hb Hl P E C. pose proof (read_header_cases data pos P ltac:(lia) Hb) as R. rewrite E in R. destruct R as (R1 & R2 & R3 & _).
  cbn [readBox]. rewrite E. cbv zeta. rewrite R1. rewrite (u64_small (Zlen data - pos)) by lia. rewrite (u64_small (Zlen data - pos - h_header_size h)) by lia.
  destruct (negb file && _); [reflexivity|].
  assert (G : header_getDataSize h > Zlen data - pos - h_header_size h).
  { unfold header_getDataSize, u64. destruct (Z_lt_ge_dec (h_size h) (h_header_size h)) as [Q|Q].
    - assert (X : (h_size h - h_header_size h) mod 2 ^ 64 = h_size h - h_header_size h + 2 ^ 64).
      { rewrite <- (Z.mod_add _ 1) by lia. rewrite Z.mul_1_l. apply Z.mod_small. lia. }
      rewrite X. lia.
    - rewrite Z.mod_small by lia. lia. }
  destruct (Z.gtb_spec (header_getDataSize h) (Zlen data - pos - h_header_size h)); [reflexivity|lia].
Qed.
