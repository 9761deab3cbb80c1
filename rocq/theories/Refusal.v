(** Output that is refused (C59). *)
From Coq Require Import ZifyBool.
From Verif Require Import Base BitIO BitFacts BitIOProofs Boxes WireFormat Box BoxSpec BoxSize Print PrintSpec PrintProofs BoxTree TreeSpec TreeProofs TreeLayout TreePrint H264 Track Writers MovieSpec AnnexBSpec H264Proofs TrackProofs TrakProofs SessionProofs MovieShape Completion MovieSize FileProofs SimpleFile FaststartFile Device FailureSpec DeviceProofs Interrupt.
From Coq Require Import String List.
Import ListNotations.
Open Scope Z_scope.
Open Scope list_scope.

(** Something at or before position [p] was refused before time [t]. *)
Definition lost (e : fates) (t : nat) (p : Z) : Prop := exists t0 p0, e t0 p0 = Refused /\ (t0 <= t)%nat /\ p0 <= p.
Lemma lost_mono e t p t' p' : lost e t p -> (t <= t')%nat -> p <= p' -> lost e t' p'.
Proof. intros (t0 & p0 & A & B & C) D E. exists t0, p0. split; [exact A|]. split; lia. Qed.

Lemma offer_refused e : forall n t p k, offer e t p n = (k, Refused) -> e (t + k)%nat (p + Z.of_nat k) = Refused.
Proof.
  induction n as [|n IH]; intros t p k; cbn [offer]; [discriminate|]. destruct (e t p) eqn:Ee.
  - destruct (offer e (S t) (p + 1) n) as [k0 f] eqn:E0. intros E. injection E as <- ->. apply IH in E0. rewrite <- E0. f_equal; lia.
  - intros E. injection E as <-. rewrite <- Ee. f_equal; lia.
  - discriminate.
Qed.
Lemma offer_lost e t p n k f : stays_refused e -> lost e t p -> offer e t p n = (k, f) -> k = 0%nat /\ (n <> 0%nat -> f <> Stored).
Proof.
  intros St (t0 & p0 & A & B & C). destruct n as [|n]; cbn [offer]; [intros E; injection E as <- <-; split; [reflexivity|congruence]|].
  pose proof (St _ _ t p A B C) as N. destruct (e t p); [congruence|intros E; injection E as <- <-; split; [reflexivity|discriminate]..].
Qed.
Lemma os_write_nil o : os_write [] o = o.
Proof. unfold os_write. cbn [splice]. rewrite (@Zlen_nil Z), Z.add_0_r. destruct o; reflexivity. Qed.
Lemma transfer_time e t bs o f t' o' : transfer e t bs o = (f, t', o') -> (t <= t')%nat.
Proof. unfold transfer. destruct (offer e t (os_pos o) (length bs)) as [k g]. intros E. injection E as _ <- _. lia. Qed.
Lemma transfer_refused e t bs o t' o' : transfer e t bs o = (Refused, t', o') -> exists k, (k < length bs)%nat /\ o' = os_write (firstn k bs) o /\
  lost e t' (os_pos o') /\ os_pos o' = os_pos o + Z.of_nat k.
Proof.
  unfold transfer. destruct (offer e t (os_pos o) (length bs)) as [k g] eqn:E. intros X. injection X as -> <- <-. destruct (offer_spec _ _ _ _ _ _ E) as (A & _ & C).
  assert (L : (k < length bs)%nat) by (destruct (Nat.eq_dec k (length bs)) as [Ek|]; [specialize (C Ek); discriminate|lia]).
  assert (P : os_pos (os_write (firstn k bs) o) = os_pos o + Z.of_nat k) by (cbn [os_write os_pos]; unfold Zlen; rewrite firstn_length; lia).
  exists k. split; [exact L|]. split; [reflexivity|]. split; [|exact P]. rewrite P. eexists. eexists. split; [exact (offer_refused _ _ _ _ _ E)|]. split; lia.
Qed.
Lemma transfer_lost e t bs o f t' o' : stays_refused e -> lost e t (os_pos o) -> transfer e t bs o = (f, t', o') -> o' = o /\ (bs <> [] -> f <> Stored).
Proof.
  intros St L. unfold transfer. destruct (offer e t (os_pos o) (length bs)) as [k g] eqn:E. intros X. injection X as -> <- <-. destruct (offer_lost _ _ _ _ _ _ St L E) as (-> & N).
  cbn [firstn]. rewrite os_write_nil. split; [reflexivity|]. intros H. apply N. intros Z. apply length_zero_iff_nil in Z. contradiction.
Qed.

(** ** After a loss *)
Definition seeks_from (p : Z) (l : list cmd) : Prop := Forall (fun c => match c with Seek q => p <= q | _ => True end) l.
Definition has_write (l : list cmd) : Prop := Exists (fun c => match c with Write b => b <> [] | _ => False end) l.
Lemma exec_time e : forall l t o st t' o', exec e t l o = (st, t', o') -> (t <= t')%nat.
Proof.
  induction l as [|c l IH]; intros t o st t' o'; cbn [exec]; [intros E; injection E as _ <- _; lia|]. destruct c as [q|b|b]; [apply IH| |].
  - destruct (transfer e t b o) as [[f t1] o1] eqn:Et. apply transfer_time in Et. destruct f; intros E; [apply IH in E; lia|injection E as _ <- _; lia..].
  - destruct (transfer e t b o) as [[f t1] o1] eqn:Et. apply transfer_time in Et. destruct f; intros E; [apply IH in E; lia|apply IH in E; lia|injection E as _ <- _; lia].
Qed.
Lemma exec_lost e p : stays_refused e -> forall l t o st t' o', seeks_from p l -> lost e t p -> p <= os_pos o -> exec e t l o = (st, t', o') ->
  os_data o' = os_data o /\ p <= os_pos o' /\ (st = Running -> ~ has_write l).
Proof.
  intros St. induction l as [|c l IH]; intros t o st t' o' Sk L P; cbn [exec].
  - intros E. injection E as <- <- <-. split; [reflexivity|]. split; [exact P|]. intros _ H. inversion H.
  - inversion Sk as [|? ? S1 S2]; subst. destruct c as [q|b|b].
    + intros E. destruct (IH t (os_seekp q o) st t' o' S2 L S1 E) as (A & B & C). split; [exact A|]. split; [exact B|]. intros R H. inversion H as [? ? X|? ? X]; [contradiction|]. exact (C R X).
    + destruct (transfer e t b o) as [[f t1] o1] eqn:Et. destruct (transfer_lost _ _ _ _ _ _ _ St (lost_mono _ _ _ _ _ L (le_n t) P) Et) as (-> & N). apply transfer_time in Et.
      destruct f; intros E; [|injection E as <- <- <-; split; [reflexivity|split; [exact P|discriminate]]..].
      destruct (IH _ _ _ _ _ S2 (lost_mono _ _ _ _ _ L Et (Z.le_refl p)) P E) as (A & B & C). split; [exact A|]. split; [exact B|]. intros R H. inversion H as [? ? X|? ? X]; [exact (N X eq_refl)|exact (C R X)].
    + destruct (transfer e t b o) as [[f t1] o1] eqn:Et. destruct (transfer_lost _ _ _ _ _ _ _ St (lost_mono _ _ _ _ _ L (le_n t) P) Et) as (-> & N). apply transfer_time in Et.
      assert (G : exec e t1 l o = (st, t', o') -> os_data o' = os_data o /\ p <= os_pos o' /\ (st = Running -> ~ has_write (Put b :: l))).
      { intros E. destruct (IH _ _ _ _ _ S2 (lost_mono _ _ _ _ _ L Et (Z.le_refl p)) P E) as (A & B & C). split; [exact A|]. split; [exact B|]. intros R H. inversion H as [? ? X|? ? X]; [contradiction|exact (C R X)]. }
      destruct f; [exact G|exact G|]. intros E. injection E as <- <- <-. split; [reflexivity|split; [exact P|discriminate]].
Qed.
Lemma seeks_mono p q l : p <= q -> seeks_from q l -> seeks_from p l.
Proof. intros H. apply Forall_impl. intros [x|b|b]; auto. lia. Qed.
Lemma flow_seeks p l bs : flow p l bs -> seeks_from p l.
Proof.
  intros H. induction H as [p|p l bs H IH|p b l bs H IH|p b l bs H IH]; constructor; auto; [lia|..]; (eapply seeks_mono; [|exact IH]; pose proof (Zlen_nonneg b); lia).
Qed.

(** ** One stretch *)
Definition missing (p : Z) (bs : list Z) (e : fates) (t' : nat) (o o' : ostream) : Prop :=
  exists k, (k < length bs)%nat /\ os_data o' = splice (os_data o) p (firstn k bs) /\ lost e t' (p + Z.of_nat k) /\ p + Z.of_nat k <= os_pos o'.
Lemma exec_flow e p l bs : stays_refused e -> flow p l bs -> forall t o t' o', 0 <= p -> os_pos o = p -> exec e t l o = (Running, t', o') ->
  o' = plain l o \/ missing p bs e t' o o'.
Proof.
  intros St H. induction H as [p|p l bs H IH|p b l bs H IH|p b l bs H IH]; intros t o t' o' P E; cbn [exec plain do1].
  - intros X. injection X as _ <-. auto.
  - intros X. exact (IH t (os_seekp p o) t' o' P eq_refl X).
  - pose proof (Zlen_nonneg b). destruct (transfer e t b o) as [[f t1] o1] eqn:Et. destruct f; [|discriminate..]. destruct (transfer_spec _ _ _ _ _ _ _ Et) as (k0 & _ & _ & _ & Ew & _). specialize (Ew eq_refl). clear k0. subst o1.
    intros X. destruct (IH t1 (os_write b o) t' o' ltac:(lia) ltac:(cbn [os_write os_pos]; lia) X) as [->|(k & L & D & Lo & Po)]; [auto|right].
    exists (length b + k)%nat. rewrite app_length, firstn_app_2. split; [lia|]. rewrite D. cbn [os_write os_data]. rewrite E, splice_chain by exact P. split; [reflexivity|]. unfold Zlen in *. split; [eapply lost_mono; [exact Lo|lia|lia]|lia].
  - pose proof (Zlen_nonneg b). destruct (transfer e t b o) as [[f t1] o1] eqn:Et. destruct f; [| |discriminate].
    + destruct (transfer_spec _ _ _ _ _ _ _ Et) as (k0 & _ & _ & _ & Ew & _). specialize (Ew eq_refl). clear k0. subst o1.
      intros X. destruct (IH t1 (os_write b o) t' o' ltac:(lia) ltac:(cbn [os_write os_pos]; lia) X) as [->|(k & L & D & Lo & Po)]; [auto|right].
      exists (length b + k)%nat. rewrite app_length, firstn_app_2. split; [lia|]. rewrite D. cbn [os_write os_data]. rewrite E, splice_chain by exact P. split; [reflexivity|]. unfold Zlen in *. split; [eapply lost_mono; [exact Lo|lia|lia]|lia].
    + destruct (transfer_refused _ _ _ _ _ _ Et) as (k & L & -> & Lo & Po). intros X. right.
      assert (Sk : seeks_from (p + Z.of_nat k) l) by (apply (seeks_mono _ (p + Zlen b)); [unfold Zlen; lia|exact (flow_seeks _ _ _ H)]).
      rewrite Po, E in Lo. destruct (exec_lost e (p + Z.of_nat k) St l t1 (os_write (firstn k b) o) _ _ _ Sk Lo ltac:(lia) X) as (D & Q & _).
      pose proof (exec_time _ _ _ _ _ _ _ X) as T. exists k. rewrite app_length, firstn_app. replace (k - length b)%nat with 0%nat by lia. cbn [firstn]. rewrite app_nil_r. split; [lia|]. split; [rewrite D; cbn [os_write os_data]; rewrite E; reflexivity|].
      split; [eapply lost_mono; [exact Lo|exact T|lia]|exact Q].
Qed.
Lemma exec_flow_seek e p l bs t o t' o' : stays_refused e -> flow p (Seek p :: l) bs -> 0 <= p -> exec e t (Seek p :: l) o = (Running, t', o') ->
  o' = plain (Seek p :: l) o \/ missing p bs e t' o o'.
Proof. intros St F P X. exact (exec_flow e p _ _ St F t (os_seekp p o) t' o' P eq_refl X). Qed.

(** every unchecked output is followed by a checked one *)
Fixpoint guarded (l : list cmd) : Prop := match l with [] => True | Put _ :: l' => has_write l' /\ guarded l' | _ :: l' => guarded l' end.
Lemma guarded_app l1 l2 : has_write l2 -> guarded l2 -> guarded (l1 ++ l2) /\ has_write (l1 ++ l2).
Proof.
  intros H G. induction l1 as [|c l1 (A & B)]; [auto|]. cbn [app guarded]. split; [destruct c; auto|]. apply Exists_cons_tl. exact B.
Qed.
Lemma exec_guarded e p l bs : stays_refused e -> flow p l bs -> guarded l -> forall t o t' o', 0 <= p -> os_pos o = p -> exec e t l o = (Running, t', o') -> o' = plain l o.
Proof.
  intros St H. induction H as [p|p l bs H IH|p b l bs H IH|p b l bs H IH]; intros G t o t' o' P E; cbn [exec plain do1 guarded] in *.
  - intros X. injection X as _ <-. auto.
  - intros X. exact (IH G t (os_seekp p o) t' o' P eq_refl X).
  - pose proof (Zlen_nonneg b). destruct (transfer e t b o) as [[f t1] o1] eqn:Et. destruct f; [|discriminate..]. destruct (transfer_spec _ _ _ _ _ _ _ Et) as (k0 & _ & _ & _ & Ew & _). specialize (Ew eq_refl). clear k0. subst o1.
    intros X. exact (IH G t1 (os_write b o) t' o' ltac:(lia) ltac:(cbn [os_write os_pos]; lia) X).
  - pose proof (Zlen_nonneg b). destruct G as (Hw & G). destruct (transfer e t b o) as [[f t1] o1] eqn:Et. destruct f; [| |discriminate].
    + destruct (transfer_spec _ _ _ _ _ _ _ Et) as (k0 & _ & _ & _ & Ew & _). specialize (Ew eq_refl). clear k0. subst o1. intros X. exact (IH G t1 (os_write b o) t' o' ltac:(lia) ltac:(cbn [os_write os_pos]; lia) X).
    + destruct (transfer_refused _ _ _ _ _ _ Et) as (k & L & -> & Lo & Po). intros X. exfalso.
      assert (Sk : seeks_from (p + Z.of_nat k) l) by (apply (seeks_mono _ (p + Zlen b)); [unfold Zlen; lia|exact (flow_seeks _ _ _ H)]).
      rewrite Po, E in Lo. destruct (exec_lost e (p + Z.of_nat k) St l t1 (os_write (firstn k b) o) _ _ _ Sk Lo ltac:(lia) X) as (_ & _ & N). exact (N eq_refl Hw).
Qed.

(** ** Trees *)
(** the last box of the tree has contents *)
Inductive ends : node -> Prop :=
  | ends_leaf t h b : payload_octets b <> [] -> ends (Node t h b [])
  | ends_node t h b l k : ends k -> ends (Node t h b (l ++ [k])).
Lemma place_all_last l k : forall base acc, exists l' off, place_all place (l ++ [k]) base acc = l' ++ [place k off].
Proof.
  induction l as [|x l IH]; intros base acc; cbn [app place_all]; [exists []; eexists; reflexivity|]. destruct (IH base (u64 (acc + nsize x))) as (l' & off & ->). exists (place x (u64 (base + acc)) :: l'), off. reflexivity.
Qed.
Lemma ends_place n : ends n -> forall off, ends (place n off).
Proof.
  intros H. induction H as [t h b P|t h b l k H IH]; intros off; rewrite place_eq; cbv zeta; [apply ends_leaf; exact P|].
  destruct (place_all_last l k (u64 (off + frame_header_size (Box_getDataSize b + sum_by nsize (l ++ [k])) + Box_getDataSize b)) 0) as (l' & o & ->). apply ends_node, IH.
Qed.
Lemma ends_guarded n : ends n -> guarded (BoxInfo_cmds n) /\ has_write (BoxInfo_cmds n).
Proof.
  intros H. induction H as [t h b P|t h b l k H (G & W)].
  - cbn [BoxInfo_cmds flat_map]. apply guarded_app; [apply Exists_cons_hd; exact P|cbn [guarded]; auto].
  - cbn [BoxInfo_cmds]. rewrite flat_map_app. cbn [flat_map]. rewrite app_nil_r.
    replace (match h with Some h => header_cmds h | None => [] end ++ Write (payload_octets b) :: flat_map BoxInfo_cmds l ++ BoxInfo_cmds k)
      with ((match h with Some h => header_cmds h | None => [] end ++ Write (payload_octets b) :: flat_map BoxInfo_cmds l) ++ BoxInfo_cmds k) by (rewrite <- app_assoc; reflexivity).
    apply guarded_app; assumption.
Qed.
Lemma ends_udta : ends make_udta.
Proof.
  unfold make_udta, new_info. apply (ends_node _ _ _ []). match goal with |- ends (Node _ _ _ [?a; ?b]) => apply (ends_node _ _ _ [a] b) end.
  apply (ends_node _ _ _ []), (ends_node _ _ _ []), ends_leaf. vm_compute. discriminate.
Qed.
Lemma ends_moov timescale duration time id traks : ends (moov_node timescale duration time id traks).
Proof. unfold moov_node, new_info. rewrite app_comm_cons. apply ends_node, ends_udta. Qed.

(** * Recording with SimpleWriter *)
(** The program runs beside an undisturbed one: everything but the stream and the offsets it tells is the same. *)
Definition beside_w (e : fates) (t : nat) (w wp : mwriter) : Prop := w = set_os (mw_os w) wp.
Definition beside (e : fates) (t : nat) (s sp : session) : Prop :=
  beside_w e t (s_writer s) (s_writer sp) /\ Forall2 (fun a b => t_codec a = t_codec b) (s_tracks s) (s_tracks sp) /\
  (s = sp \/ lost e t (os_pos (mw_os (s_writer sp)))).
Lemma dev_add_beside e t d w wp t' r : mw_class wp = Simple -> dev_addMdatData e t d w = (Running, t', r) -> beside_w (on_output e) t w wp -> (w = wp \/ lost (on_output e) t (os_pos (mw_os wp))) ->
  exists w' wp', r = Ok w' /\ Writer_addMdatData d wp = Ok wp' /\ beside_w (on_output e) t' w' wp' /\ mw_class wp' = Simple /\
    ((w = wp /\ w' = wp') \/ lost (on_output e) t' (os_pos (mw_os wp'))).
Proof.
  intros C E B L. unfold beside_w in *. unfold dev_addMdatData, Writer_addMdatData in *. assert (C' : mw_class w = Simple) by (rewrite B; exact C). rewrite C, C' in *.
  destruct (exec (on_output e) t [Put d] (mw_os w)) as [[st t1] o] eqn:X. injection E as -> <- <-. eexists. eexists. split; [reflexivity|]. split; [reflexivity|].
  split; [rewrite B; reflexivity|]. split; [exact C|]. pose proof (exec_time _ _ _ _ _ _ _ X) as T. pose proof (Zlen_nonneg d).
  destruct L as [->|L]; [|right; eapply lost_mono; [exact L|exact T|cbn; lia]].
  cbn [exec] in X. destruct (transfer (on_output e) t d (mw_os wp)) as [[f t2] o2] eqn:Y. destruct f; [| |discriminate]; injection X as <- <-.
  - left. split; [reflexivity|]. destruct (transfer_spec _ _ _ _ _ _ _ Y) as (k0 & _ & _ & _ & Ew & _). rewrite (Ew eq_refl). reflexivity.
  - right. destruct (transfer_refused _ _ _ _ _ _ Y) as (k & Lk & _ & Lo & Po). eapply lost_mono; [exact Lo|lia|]. rewrite Po. cbn. unfold Zlen. lia.
Qed.
Lemma dev_add_time e t d w st t' r : dev_addMdatData e t d w = (st, t', r) -> (t <= t')%nat.
Proof.
  intros Ed. unfold dev_addMdatData in Ed. destruct (Writer_addMdatData d w); [|injection Ed as _ <- _; lia|injection Ed as _ <- _; lia]. destruct (mw_class w).
  - destruct (exec _ t _ _) as [[st1 t2] o] eqn:X. injection Ed as _ <- _. exact (exec_time _ _ _ _ _ _ _ X).
  - destruct (exec _ t _ _) as [[st1 t2] o] eqn:X. injection Ed as _ <- _. exact (exec_time _ _ _ _ _ _ _ X).
Qed.
Lemma dev_actions_time e ts key : forall acts t tr w st t' r, dev_actions e t ts key acts tr w = (st, t', r) -> (t <= t')%nat.
Proof.
  induction acts as [|a acts IH]; intros t tr w st t' r E; cbn [dev_actions] in E; [injection E as _ <- _; lia|]. destruct a as [d|p|p]; [|exact (IH _ _ _ _ _ _ E)..].
  destruct (dev_addMdatData e t d w) as [[st1 t1] r1] eqn:Ed. apply dev_add_time in Ed. destruct st1, r1; try (injection E as _ <- _; exact Ed). apply IH in E. lia.
Qed.
Lemma track_actions_pos ts key : forall acts tr w tr' w', mw_class w = Simple -> track_actions ts key acts tr w = Ok (tr', w') -> os_pos (mw_os w) <= os_pos (mw_os w').
Proof.
  induction acts as [|a acts IH]; intros tr w tr' w' C E; cbn [track_actions] in E; [injection E as _ <-; lia|]. destruct a as [d|p|p]; [|exact (IH _ _ _ _ C E)..].
  unfold track_store, Writer_addMdatData in E. rewrite C in E. refine (Z.le_trans _ _ _ _ (IH _ _ _ _ _ E)); [|exact C]. cbn. pose proof (Zlen_nonneg d). lia.
Qed.
Lemma dev_actions_beside e ts key : forall acts t tr trp w wp t' r, mw_class wp = Simple -> dev_actions e t ts key acts tr w = (Running, t', r) ->
  beside_w (on_output e) t w wp -> t_codec tr = t_codec trp -> ((tr = trp /\ w = wp) \/ lost (on_output e) t (os_pos (mw_os wp))) ->
  exists tr' w' trp' wp', r = Ok (tr', w') /\ track_actions ts key acts trp wp = Ok (trp', wp') /\ beside_w (on_output e) t' w' wp' /\ t_codec tr' = t_codec trp' /\ mw_class wp' = Simple /\
    ((tr' = trp' /\ w' = wp') \/ lost (on_output e) t' (os_pos (mw_os wp'))).
Proof.
  induction acts as [|a acts IH]; intros t tr trp w wp t' r C E B Ct L; cbn [dev_actions track_actions] in *.
  - injection E as <- <-. exists tr, w, trp, wp. auto 10.
  - destruct a as [d|p|p].
    + destruct (dev_addMdatData e t d w) as [[st t1] r1] eqn:Ed.
      assert (St : st = Running) by (destruct st; [reflexivity|destruct r1; discriminate E..]). subst st.
      destruct (dev_add_beside _ _ _ _ wp _ _ C Ed B) as (w' & wp' & -> & Ep & B' & C' & L'); [tauto|]. unfold track_store. rewrite Ep.
      apply (IH _ _ _ _ _ _ _ C' E B'); [exact Ct|]. destruct L' as [(-> & ->)|L']; [|auto]. destruct L as [(-> & _)|L]; [auto|]. right.
      unfold Writer_addMdatData in Ep. rewrite C in Ep. injection Ep as <-. apply lost_mono with (1 := L); [exact (dev_add_time _ _ _ _ _ _ _ Ed)|cbn; pose proof (Zlen_nonneg d); lia].
    + apply (IH _ _ _ _ _ _ _ C E B); [|destruct L as [(-> & ->)|L]; auto]. unfold H264_appendSPS. rewrite Ct. destruct (t_codec trp) eqn:Q; cbv zeta; try destruct (_ && _)%bool; cbn [t_codec Track_set_codec]; rewrite ?Ct, ?Q; reflexivity.
    + apply (IH _ _ _ _ _ _ _ C E B); [|destruct L as [(-> & ->)|L]; auto]. unfold H264_appendPPS. rewrite Ct. destruct (t_codec trp) eqn:Q; cbv zeta; try destruct (_ && _)%bool; cbn [t_codec Track_set_codec]; rewrite ?Ct, ?Q; reflexivity.
Qed.
Lemma f2_nth {A B} (R : A -> B -> Prop) l l' : Forall2 R l l' -> forall i, match nth_error l i, nth_error l' i with Some a, Some b => R a b | None, None => True | _, _ => False end.
Proof. intros H. induction H as [|a b l l' Hab H IH]; intros [|i]; cbn; auto. apply IH. Qed.
Lemma f2_update {A B} (R : A -> B -> Prop) a b : R a b -> forall i l l', Forall2 R l l' -> Forall2 R (update_nth i a l) (update_nth i b l').
Proof. intros Hab. induction i as [|i IH]; intros l l' H; destruct H; cbn; constructor; auto. Qed.
Lemma dev_step_beside e t s sp o t' s' r sp' rp : mw_class (s_writer sp) = Simple -> media_op o = true -> 0 <= os_pos (mw_os (s_writer sp)) ->
  beside (on_output e) t s sp -> dev_step e t s o = (Running, t', s', r) -> step sp o = (sp', rp) -> beside (on_output e) t' s' sp' /\ r = rp.
Proof.
  intros C M P (B & Fa & L) E Ep. unfold beside.
  assert (Htime : mw_time (s_writer s) = mw_time (s_writer sp)) by (rewrite B; reflexivity).
  assert (On : forall i f, (forall a b, t_codec a = t_codec b -> t_codec (f a) = t_codec (f b)) ->
     match on_track i f s with
      | (s', Ok _) =>
          let '(st, t', os) := exec (on_output e) t [] (mw_os (s_writer s)) in
          match st with
          | Running => (st, t', mk_session (set_os os (s_writer s')) (s_tracks s'), Ok tt)
          | _ => (st, t', mk_session (set_os os (s_writer s)) (s_tracks s), Ok tt)
          end
      | (s', r) => (Running, t, s', r)
      end = (Running, t', s', r) -> on_track i f sp = (sp', rp) -> 
     (beside_w (on_output e) t' (s_writer s') (s_writer sp') /\ Forall2 (fun a b => t_codec a = t_codec b) (s_tracks s') (s_tracks sp') /\ (s' = sp' \/ lost (on_output e) t' (os_pos (mw_os (s_writer sp'))))) /\ r = rp).
  { clear E Ep. intros i f Hf E Ep. unfold on_track in *. pose proof (f2_nth _ _ _ Fa i) as N. destruct (nth_error (s_tracks s) i) as [a|] eqn:Ea, (nth_error (s_tracks sp) i) as [b|] eqn:Eb; try contradiction.
    - cbn [exec] in E. injection E as <- <- <-. injection Ep as <- <-. cbn [s_writer s_tracks]. rewrite set_os_same. split; [|reflexivity]. split; [exact B|]. split; [apply f2_update; auto|].
      destruct L as [->|L]; [|auto]. left. rewrite Ea in Eb. injection Eb as <-. reflexivity.
    - injection E as <- <- <-. injection Ep as <- <-. auto. }
  destruct o; try discriminate M; cbn [dev_step step call_cmds] in E, Ep.
  - unfold Track_new in *. rewrite Htime in E. destruct (id =? 0); [injection E as <- <- <-; injection Ep as <- <-; auto|]. cbn [exec] in E. injection E as <- <- <-. injection Ep as <- <-. cbn [s_writer s_tracks]. rewrite set_os_same.
    split; [|reflexivity]. split; [exact B|]. split; [apply Forall2_app; [exact Fa|constructor; [reflexivity|constructor]]|]. destruct L as [->|L]; auto.
  - cbn [exec] in E. injection E as <- <- <-. injection Ep as <- <-. cbn [s_writer s_tracks]. split; [|reflexivity]. split; [unfold beside_w in *; rewrite B; reflexivity|]. split; [exact Fa|]. destruct L as [->|L]; [left; reflexivity|right; exact L].
  - pose proof (f2_nth _ _ _ Fa i) as N. destruct (nth_error (s_tracks s) i) as [a|] eqn:Ea, (nth_error (s_tracks sp) i) as [b|] eqn:Eb; try contradiction; [|injection E as <- <- <-; injection Ep as <- <-; auto].
    rewrite N in E. destruct (addData_actions (t_codec b) data) as [[acts r0]|]; [|injection E as <- <- <-; injection Ep as <- <-; auto].
    destruct (dev_actions e t timestamp is_key acts a (s_writer s)) as [[st1 t1] r1] eqn:Ed.
    assert (St : st1 = Running) by (destruct r1 as [[]| |]; congruence). subst st1.
    destruct (dev_actions_beside _ _ _ _ _ _ b _ (s_writer sp) _ _ C Ed B N) as (tr' & w' & trp' & wp' & -> & Ea2 & B' & Ct & _ & L').
    { destruct L as [->|L]; [|auto]. left. split; [congruence|reflexivity]. }
    rewrite Ea2 in Ep. injection E as <- <- <-. injection Ep as <- <-. cbn [s_writer s_tracks]. split; [|reflexivity]. split; [exact B'|]. split; [apply f2_update; auto|].
    destruct L' as [(-> & ->)|L']; [|auto]. destruct L as [->|L]; [auto|]. right.
    assert (T : (t <= t1)%nat) by exact (dev_actions_time _ _ _ _ _ _ _ _ _ _ Ed). apply lost_mono with (1 := L); [exact T|]. exact (track_actions_pos _ _ _ _ _ _ _ C Ea2).
  - refine (On _ _ _ E Ep); intros a b H. unfold Track_terminateCurrentChunk. destruct (c_samples (t_current a) >? 0), (c_samples (t_current b) >? 0); exact H.
  - refine (On _ _ _ E Ep); intros a b H. exact H.
  - destruct (dev_addMdatData e t data (s_writer s)) as [[st1 t1] r1] eqn:Ed. assert (St : st1 = Running) by (destruct r1; cbn [lift] in E; congruence). subst st1.
    destruct (dev_add_beside _ _ _ _ (s_writer sp) _ _ C Ed B) as (w' & wp' & -> & Ea2 & B' & _ & L'); [destruct L as [->|L]; auto|].
    rewrite Ea2 in Ep. cbn [lift] in E, Ep. injection E as <- <- <-. injection Ep as <- <-. cbn [s_writer s_tracks]. split; [|reflexivity]. split; [exact B'|]. split; [exact Fa|].
    destruct L' as [(Ew & ->)|L']; [|auto]. destruct L as [->|L]; [auto|]. right.
    unfold Writer_addMdatData in Ea2. rewrite C in Ea2. injection Ea2 as <-. apply lost_mono with (1 := L); [exact (dev_add_time _ _ _ _ _ _ _ Ed)|cbn; pose proof (Zlen_nonneg data); lia].
Qed.

Lemma exec_split e : forall l1 l2 t t' o os, exec e t (l1 ++ l2) o = (Running, t', os) -> exists t1 o1, exec e t l1 o = (Running, t1, o1) /\ exec e t1 l2 o1 = (Running, t', os).
Proof.
  induction l1 as [|c l1 IH]; intros l2 t t' o os X; cbn [app exec] in *; [eauto|]. destruct c as [q|b|b]; [exact (IH _ _ _ _ _ X)| |];
  destruct (transfer e t b o) as [[f t2] o2]; destruct f; try discriminate; exact (IH _ _ _ _ _ X).
Qed.

(** * A layout, whatever the sizes: the first box inside a box comes after its header *)
Lemma adjust_head f n off n' s : adjust f n off = Some (n', s) -> n_box n' = n_box n /\ exists h, n_header n' = Some h /\ h_offset h = off.
Proof.
  revert n off n' s. induction f as [|f IH]; intros [t h b l] off n' s E; cbn [adjust] in E; [discriminate|]. cbv zeta in E.
  destruct (adjust_leafs _ _ _ l) as [[l' z]|]; [|discriminate]. destruct (negb _).
  - destruct (adjust f _ off) as [[n2 s2]|] eqn:E2; [|discriminate]. injection E as <- _. apply IH in E2. exact E2.
  - injection E as <- _. cbn [n_box n_header]. split; [reflexivity|]. eexists. split; reflexivity.
Qed.
Lemma adjust_first off : 0 <= off -> off + 16 < 2 ^ 64 -> forall f t h k r n' s, h_header_size (makeHeader t h) = 8 \/ h_header_size (makeHeader t h) = 16 ->
  adjust f (Node t h B_container (k :: r)) off = Some (n', s) ->
  exists t' h' k' r' hk, n' = Node t' (Some h') B_container (k' :: r') /\ h_offset h' = off /\ n_box k' = n_box k /\ n_header k' = Some hk /\ off <= h_offset hk.
Proof.
  intros O B. induction f as [|f IH]; intros t h k r n' s Hs E; cbn [adjust] in E; [discriminate|]. cbv zeta in E.
  change (Box_getDataSize B_container) with 0 in E. cbn [adjust_leafs] in E. set (hs := h_header_size (makeHeader t h)) in *.
  rewrite !Z.add_0_r in E. rewrite (u64_small (off + hs)) in E by lia. rewrite (u64_small (off + hs)) in E by lia.
  destruct (adjust f k (off + hs)) as [[k' sk]|] eqn:Ek; [|discriminate]. destruct (adjust_leafs _ _ _ r) as [[r' z]|]; [|discriminate].
  destruct (adjust_head _ _ _ _ _ Ek) as (Bk & hk & Hk & Ok). set (h1 := header_setOffsetAndDataSize _ _ _) in E. destruct (negb _).
  - destruct (adjust f _ off) as [[n2 s2]|] eqn:E2; [|discriminate]. injection E as <- _.
    destruct (IH t (Some h1) k' r' n2 s2) as (t2 & h2 & k2 & r2 & hk2 & A & C & D & F & G).
    { cbn [makeHeader]. unfold h1, header_setOffsetAndDataSize. cbn [h_header_size]. destruct (_ >? _); auto. } { exact E2. }
    exists t2, h2, k2, r2, hk2. rewrite D. auto 10.
  - injection E as <- _. exists t, h1, k', r', hk. split; [reflexivity|]. split; [reflexivity|]. split; [exact Bk|]. split; [exact Hk|]. lia.
Qed.
Lemma set_id_kid id t h k r : exists k', set_next_track_id id (Node t h B_container (k :: r)) = Node t h B_container (k' :: r) /\ n_header k' = n_header k /\
  (forall v, n_box k = B_mvhd v -> exists v', n_box k' = B_mvhd v' /\ v' = mk_mvhd (mvhd_fb v) (mvhd_creation_time v) (mvhd_modification_time v) (mvhd_timescale v)
        (mvhd_duration v) (mvhd_rate v) (mvhd_volume v) (mvhd_reserved v) (mvhd_reserved2 v) (mvhd_reserved3 v) (mvhd_matrix v) (mvhd_pre_defined v) id).
Proof.
  destruct k as [t1 h1 b1 l1]. destruct b1; try (eexists; split; [reflexivity|]; split; [reflexivity|]; intros v0 E; discriminate E).
  eexists. split; [reflexivity|]. split; [reflexivity|]. intros v0 E. cbn [n_box] in E. injection E as <-. eexists. split; reflexivity.
Qed.

Section S.
Variables (timescale duration time : Z) (ft : ftyp) (ops : list op) (sel : list nat).
Hypothesis (Fok : ftyp_ok ft) (Rec : recording ops) (Sel : chosen ops sel) (Bnd : movie_fits ft ops sel).
Notation fb := (ftyp_octets ft).
Notation F := (Zlen fb).
Notation m := (media ops).
Notation nid := (u32 (1 + ids_issued ops)).
Variables (e : devices).
Hypothesis St : stays_refused (on_output e).

Lemma run_dev_split a : forall b t s t' s' rs, run_dev e t s (a ++ b) = (Running, t', s', rs) ->
  exists t1 s1 rs1 rs2, run_dev e t s a = (Running, t1, s1, rs1) /\ run_dev e t1 s1 b = (Running, t', s', rs2) /\ rs = rs1 ++ rs2.
Proof.
  induction a as [|o a IH]; intros b t s t' s' rs E; cbn [app run_dev] in *; [exists t, s, [], rs; auto|].
  destruct (dev_step e t s o) as [[[st t1] s1] r]. destruct st; [|discriminate..]. destruct (run_dev e t1 s1 (a ++ b)) as [[[st2 t2] s2] rs2] eqn:E2. injection E as -> -> -> <-.
  destruct (IH _ _ _ _ _ _ E2) as (t3 & s3 & ra & rb & Ea & Eb & ->). exists t3, s3, (r :: ra), rb. rewrite Ea. auto.
Qed.
Lemma run_dev_one o t s t' s' rs : run_dev e t s [o] = (Running, t', s', rs) -> exists r, dev_step e t s o = (Running, t', s', r) /\ rs = [r].
Proof. cbn [run_dev]. destruct (dev_step e t s o) as [[[st t1] s1] r]. destruct st; [|discriminate..]. intros E. injection E as <- <- <-. eauto. Qed.
Lemma run_dev_cons o l t s t' s' rs : run_dev e t s (o :: l) = (Running, t', s', rs) ->
  exists t1 s1 r rs2, dev_step e t s o = (Running, t1, s1, r) /\ run_dev e t1 s1 l = (Running, t', s', rs2) /\ rs = r :: rs2.
Proof. cbn [run_dev]. destruct (dev_step e t s o) as [[[st t1] s1] r]. destruct st; [|discriminate..]. destruct (run_dev e t1 s1 l) as [[[st2 t2] s2] rs2] eqn:E2. intros E. injection E as -> -> -> <-. exists t1, s1, r, rs2. auto. Qed.

(** a call whose requests are either all carried out or not: *)
Lemma dev_simple o t s t' s' r : simple_call o = true -> dev_step e t s o = (Running, t', s', r) ->
  (exists s1 os, step s o = (s1, Ok tt) /\ r = Ok tt /\ exec (on_output e) t (call_cmds o (s_writer s)) (mw_os (s_writer s)) = (Running, t', os) /\ s' = mk_session (set_os os (s_writer s1)) (s_tracks s1)) \/
  ((s', r) = step s o /\ r <> Ok tt /\ t' = t).
Proof.
  intros Sc E. assert (X : match step s o with
      | (s', Ok _) =>
          let '(st, t', os) := exec (on_output e) t (call_cmds o (s_writer s)) (mw_os (s_writer s)) in
          match st with
          | Running => (st, t', mk_session (set_os os (s_writer s')) (s_tracks s'), Ok tt)
          | _ => (st, t', mk_session (set_os os (s_writer s)) (s_tracks s), Ok tt)
          end
      | (s', r) => (Running, t, s', r)
      end = (Running, t', s', r)) by (destruct o; try discriminate Sc; exact E). clear E.
  destruct (step s o) as [s1 [[]|x|]]; [left|right; injection X as <- <- <-; repeat split; discriminate..].
  destruct (exec _ t _ _) as [[st t1] os]. destruct st; [|discriminate..]. injection X as <- <- <-. exists s1, os. auto.
Qed.
Lemma dev_same o t s s1 t' os : simple_call o = true -> step s o = (s1, Ok tt) -> exec (on_output e) t (call_cmds o (s_writer s)) (mw_os (s_writer s)) = (Running, t', os) ->
  os = plain (call_cmds o (s_writer s)) (mw_os (s_writer s)) -> mk_session (set_os os (s_writer s1)) (s_tracks s1) = s1.
Proof. intros Sc E X ->. rewrite <- (step_cmds _ _ _ _ Sc E), set_os_same. destruct s1; reflexivity. Qed.

(** ** The ftyp box *)
Lemma ftyp_done cls t t' s' r : dev_step e t (start cls timescale duration time ft) O_WriteFtyp = (Running, t', s', r) -> (s', r) = step (start cls timescale duration time ft) O_WriteFtyp.
Proof.
  intros E. destruct (movie_fits_media _ _ _ Fok Bnd) as (B1 & _). pose proof (sound_ftyp ft Fok) as Sf. pose proof (sound_size _ Sf) as Ls. fold fb in Ls.
  destruct (dev_simple O_WriteFtyp _ _ _ _ _ eq_refl E) as [(s1 & os & E1 & -> & X & ->)|(-> & _)]; [|reflexivity]. rewrite E1. f_equal. apply (dev_same O_WriteFtyp t _ _ t' _ eq_refl E1 X). clear E E1.
  cbn [call_cmds] in *. unfold writeFtypBox_cmds in *.
  assert (Ew : mw_ftyp (s_writer (start cls timescale duration time ft)) = ft) by (destruct cls; reflexivity). rewrite Ew in *. fold (ftyp_node ft) in *. rewrite sound_adjust in * by (auto; lia).
  assert (Eo : mw_os (s_writer (start cls timescale duration time ft)) = mkOS [] 0) by (destruct cls; reflexivity). rewrite Eo in *.
  pose proof (flow_place (ftyp_node ft) 0 Sf ltac:(lia) ltac:(lia)) as Fl. set (l := BoxInfo_cmds (place (ftyp_node ft) 0)) in *.
  assert (G : guarded l).
  { apply ends_guarded, ends_place. unfold ftyp_node. apply ends_leaf. intros N. assert (Zlen (payload_octets (B_ftyp ft)) = 0) by (rewrite N; reflexivity).
    destruct Sf as (Sh & _). cbn [tree_of ftyp_node new_info] in Sh. rewrite all_boxes_eq in Sh. destruct (written_spec _ (proj1 Sh)) as (_ & _ & W). change (written (B_ftyp ft)) with (payload_octets (B_ftyp ft)) in W.
    pose proof (Zlen_nonneg (ftyp_compatible_brands ft)). cbn [Box_getDataSize] in W. unfold Ftyp_getDataSize in W. lia. }
  assert (K : forall l2, Forall (fun c => match c with Seek _ => True | _ => False end) l2 -> forall o1, exec (on_output e) t (l ++ l2) o1 = (Running, t', os) -> os_pos o1 = 0 -> os = plain (l ++ l2) o1).
  { intros l2 H2 o1 X1 P1. rewrite plain_app.
    assert (Ex : exists t1 o2, exec (on_output e) t l o1 = (Running, t1, o2) /\ exec (on_output e) t1 l2 o2 = (Running, t', os)).
    { exact (exec_split _ _ _ _ _ _ _ X1). }
    destruct Ex as (t1 & o2 & X2 & X3). rewrite (exec_guarded _ _ _ _ St Fl G _ _ _ _ (Z.le_refl 0) P1 X2) in X3. clear -X3 H2. revert X3. generalize (plain l o1).
    clear -H2. induction H2 as [|c l2 Hc H2 IH]; intros o X; cbn [exec plain] in *; [congruence|]. destruct c; try contradiction. apply IH. exact X. }
  destruct (mw_class _); apply K; auto.
Qed.

(** ** Recording *)
Lemma record_beside a : forall t s sp t' s' rs, forallb media_op a = true -> mw_class (s_writer sp) = Simple -> 0 <= os_pos (mw_os (s_writer sp)) ->
  beside (on_output e) t s sp -> run_dev e t s a = (Running, t', s', rs) -> beside (on_output e) t' s' (fst (run sp a)) /\ rs = snd (run sp a).
Proof.
  induction a as [|o a IH]; intros t s sp t' s' rs M C P B E.
  - injection E as <- <- <-. auto.
  - cbn [forallb] in M. apply andb_prop in M. destruct M as (M1 & M2). destruct (run_dev_cons _ _ _ _ _ _ _ E) as (t1 & s1 & r & rs2 & E1 & E2 & ->). cbn [run].
    destruct (step sp o) as [sp1 rp] eqn:Ep. destruct (dev_step_beside _ _ _ _ _ _ _ _ _ _ C M1 P B E1 Ep) as (B1 & ->).
    assert (K : mw_class (s_writer sp1) = Simple /\ 0 <= os_pos (mw_os (s_writer sp1))).
    { clear -Ep M1 C P. destruct o; try discriminate M1; cbn [step] in Ep.
      - unfold Track_new in Ep. destruct (id =? 0); injection Ep as <- _; auto.
      - injection Ep as <- _. auto.
      - destruct (nth_error (s_tracks sp) i) as [tr|]; [|injection Ep as <- _; auto]. destruct (addData_actions _ data) as [[acts r]|]; [|injection Ep as <- _; auto].
        destruct (track_actions timestamp is_key acts tr (s_writer sp)) as [[tr' w']| |] eqn:Ea; injection Ep as <- _; auto. cbn [s_writer].
        pose proof (track_actions_pos _ _ _ _ _ _ _ C Ea). split; [|lia]. clear -C Ea. revert tr Ea. generalize dependent (s_writer sp). induction acts as [|a acts IH]; intros w C tr Ea; cbn [track_actions] in Ea; [congruence|].
        destruct a; [|exact (IH _ C _ Ea)..]. unfold track_store, Writer_addMdatData in Ea. rewrite C in Ea. refine (IH _ _ _ Ea). exact C.
      - unfold on_track in Ep. destruct (nth_error (s_tracks sp) i); injection Ep as <- _; auto.
      - unfold on_track in Ep. destruct (nth_error (s_tracks sp) i); injection Ep as <- _; auto.
      - unfold Writer_addMdatData in Ep. rewrite C in Ep. injection Ep as <- _. cbn. pose proof (Zlen_nonneg data). split; [exact C|lia]. }
    destruct K as (C1 & P1). destruct (IH _ _ _ _ _ _ M2 C1 P1 B1 E2) as (B2 & ->). destruct (run sp1 a) as [sp2 rsp]. auto.
Qed.

(** ** After a loss, the file is not completed *)
Record doomed (t : nat) (s : session) : Prop := {
  do_class : mw_class (s_writer s) = Simple; do_ftyp : mw_ftyp_size (s_writer s) = Some F; do_size : mw_mdat_size (s_writer s) = Zlen m;
  do_moov : exists r, mw_moov (s_writer s) = Some (Node (str "moov") None B_container (new_info (str "mvhd") (B_mvhd (mvhd_of timescale duration time 1)) [] :: r));
  do_lost : lost (on_output e) t (F + 16 + Zlen m) }.
Lemma append_shape d : forall sel0 t h b l ts n' ts', append_traks d sel0 (Node t h b l) ts = Ok (n', ts') -> exists r, n' = Node t h b (l ++ r).
Proof.
  induction sel0 as [|i sel0 IH]; intros t h b l ts n' ts' E; cbn [append_traks] in E; [injection E as <- _; exists []; rewrite app_nil_r; reflexivity|].
  destruct (nth_error ts i) as [tr|]; [|discriminate]. cbv zeta in E. unfold Track_appendTrakBoxInfo in E. cbn [node_add_leaf] in E. apply IH in E. destruct E as (r & ->). eexists. rewrite <- app_assoc. reflexivity.
Qed.
Lemma doomed_append t s t' s' r : doomed t s -> dev_step e t s (O_AppendTrakAndUdta sel) = (Running, t', s', r) -> doomed t' s'.
Proof.
  intros [D1 D2 D3 (q & D4) D5] E. destruct (dev_simple (O_AppendTrakAndUdta sel) _ _ _ _ _ eq_refl E) as [(s1 & os & E1 & -> & X & ->)|(Es & N & ->)].
  - cbn [call_cmds exec] in X. injection X as <- <-. cbn [step] in E1. rewrite D1 in E1. unfold Simple_append in E1. rewrite D4 in E1.
    destruct (append_traks None sel _ (s_tracks s)) as [[n' ts']| |] eqn:Ea; cbn [obind lift_s] in E1; try discriminate. injection E1 as <-.
    destruct (append_shape _ _ _ _ _ _ _ _ _ Ea) as (r & ->). constructor; auto. eexists. reflexivity.
  - cbn [step] in Es. rewrite D1 in Es. unfold Simple_append in Es. rewrite D4 in Es.
    destruct (append_traks None sel _ (s_tracks s)) as [[n' ts']| |] eqn:Ea; cbn [obind lift_s] in Es; injection Es as -> ->; [congruence|constructor; eauto..].
Qed.
Lemma doomed_header t s t' s' r : doomed t s -> dev_step e t s O_WriteFreeAndMdatHeader = (Running, t', s', r) -> doomed t' s'.
Proof.
  intros [D1 D2 D3 D4 D5] E. destruct (dev_simple O_WriteFreeAndMdatHeader _ _ _ _ _ eq_refl E) as [(s1 & os & E1 & -> & X & ->)|(Es & N & ->)].
  - pose proof (exec_time _ _ _ _ _ _ _ X) as T.
    assert (Hs : exists o', s_writer s1 = set_os o' (s_writer s)).
    { cbn [step] in E1. unfold SimpleWriter_writeFreeBoxAndMdatHeader in E1. rewrite D2 in E1. destruct (_ >? _); [cbn [lift] in E1; injection E1 as <-; eexists; reflexivity|].
      destruct (BoxInfo_adjustOffsetAndSize _ F) as [[n z]| |]; try (cbn [lift] in E1; discriminate). destruct (BoxInfo_write n _) as [[n' o']| |]; try (cbn [lift] in E1; discriminate).
      destruct (BoxInfo_getSize n'); try (cbn [lift] in E1; discriminate). cbn [lift] in E1. injection E1 as <-. eexists. reflexivity. }
    destruct Hs as (o' & Hs). constructor; cbn [s_writer]; rewrite ?Hs; auto. eapply lost_mono; [exact D5|exact T|lia].
  - cbn [step] in Es. destruct (SimpleWriter_writeFreeBoxAndMdatHeader (s_writer s)); cbn [lift] in Es; injection Es as -> ->; [congruence|constructor; auto..].
Qed.
Lemma payload_some b : box_shape b -> 0 < Box_getDataSize b -> payload_octets b <> [].
Proof. intros A P N. destruct (written_spec b A) as (_ & _ & W). change (written b) with (payload_octets b) in W. rewrite N in W. cbn in W. lia. Qed.
Lemma mvhd_writes id : payload_octets (B_mvhd (mvhd_of timescale duration time id)) <> [].
Proof.
  destruct (sound_moov timescale duration time id) as (Sh & _). unfold moov_with in Sh. cbn [tree_of new_info map] in Sh. rewrite all_boxes_eq in Sh. destruct Sh as (_ & Sh). inversion Sh as [|? ? Sk _]; subst. rewrite all_boxes_eq in Sk.
  apply payload_some; [exact (proj1 Sk)|]. cbn [Box_getDataSize]. unfold Mvhd_getDataSize. destruct (v0 _); reflexivity.
Qed.
Lemma doomed_moov t s t' s' r : doomed t s -> dev_step e t s O_WriteMoov = (Running, t', s', r) -> r <> Ok tt.
Proof.
  intros [D1 D2 D3 (q & D4) D5] E ->. destruct (dev_simple O_WriteMoov _ _ _ _ _ eq_refl E) as [(s1 & os & E1 & _ & X & _)|(_ & N & _)]; [|congruence].
  destruct (movie_fits_media _ _ _ Fok Bnd) as (B1 & B2 & B3). pose proof (ftyp_size ft Fok) as Bf. unfold movie_fits in Bnd. pose proof (Zlen_nonneg fb). pose proof (Zlen_nonneg m). pose proof (Zlen_nonneg (ftyp_compatible_brands ft)).
  cbn [step] in E1. unfold Writer_writeMoovBox in E1. cbn [call_cmds] in X. unfold writeMoovBox_cmds in X. rewrite D1 in *. unfold Writer_setOffsetAndSize in *. rewrite D4, D2, D1, D3 in *. unfold LARGE_HEADER_SIZE in *. rewrite u64_small in * by lia.
  unfold BoxInfo_adjustOffsetAndSize in *. set (n0 := Node _ _ _ _) in *. destruct (adjust (adjust_fuel n0) n0 (F + 16 + Zlen m)) as [[n' z]|] eqn:Ea; [|discriminate]. clear E1.
  destruct (adjust_first (F + 16 + Zlen m) ltac:(lia) ltac:(lia) _ (str "moov") None _ _ _ _ (or_introl eq_refl) Ea) as (t2 & h2 & k2 & r2 & hk & -> & Q1 & Q2 & Q3 & Q4).
  unfold moov_tree_cmds in X. cbn [set_moov mw_moov mw_next_id] in X. destruct (set_id_kid (mw_next_id (s_writer s)) t2 (Some h2) k2 r2) as (k3 & Q0 & Q5 & Q6). rewrite Q0 in X.
  destruct (Q6 _ Q2) as (v & Hb & Hv). clear Q6. rewrite BoxInfo_cmds_eq in X. cbn [flat_map] in X. destruct k3 as [t3 h3 b3 l3]. cbn [n_header n_box] in *. rewrite Q3 in Q5. subst h3 b3. rewrite BoxInfo_cmds_eq, Q1 in X.
  assert (Nw : payload_octets (B_mvhd v) <> []) by (rewrite Hv; exact (mvhd_writes (mw_next_id (s_writer s)))).
  set (off := F + 16 + Zlen m) in *. set (l1 := [Put (header_octets h2); Write (payload_octets B_container); Seek (h_offset hk); Put (header_octets hk); Write (payload_octets (B_mvhd v))]).
  destruct (exec_split (on_output e) l1 (flat_map BoxInfo_cmds l3 ++ flat_map BoxInfo_cmds r2) t t' (os_seekp off (mw_os (s_writer s))) os) as (t1 & o2 & X1 & _); [rewrite <- X; reflexivity|].
  destruct (exec_lost (on_output e) off St l1 t (os_seekp off (mw_os (s_writer s))) Running t1 o2) as (_ & _ & N); [|exact D5|exact (Z.le_refl off)|exact X1|].
  { repeat constructor. exact Q4. }
  apply (N eq_refl). unfold l1. do 4 apply Exists_cons_tl. apply Exists_cons_hd. exact Nw.
Qed.

(** ** SimpleWriter *)
Lemma dev_silent o t s t' s' r : simple_call o = true -> call_cmds o (s_writer s) = [] -> dev_step e t s o = (Running, t', s', r) -> (s', r) = step s o /\ t' = t.
Proof.
  intros Sc Cc E. destruct (dev_simple o _ _ _ _ _ Sc E) as [(s1 & os & E1 & -> & X & ->)|(A & _ & ->)]; [|auto]. rewrite E1. pose proof (dev_same o t s s1 t' os Sc E1 X) as D.
  rewrite Cc in *. injection X as <- <-. rewrite D by reflexivity. auto.
Qed.
Lemma simple_refused t t' s rs : run_dev e t (start Simple timescale duration time ft) (simple_program ops sel) = (Running, t', s, rs) -> last rs UB = Ok tt ->
  (s, rs) = run (start Simple timescale duration time ft) (simple_program ops sel).
Proof.
  intros E La. unfold simple_program in *. destruct (run_dev_cons _ _ _ _ _ _ _ E) as (t1 & s1 & r1 & rs1 & E1 & E2 & ->). clear E.
  pose proof (ftyp_done _ _ _ _ _ E1) as D1. destruct (run_dev_split _ _ _ _ _ _ _ E2) as (t2 & s2 & rs2 & rs3 & E3 & E4 & ->). clear E2.
  destruct (movie_fits_media _ _ _ Fok Bnd) as (B1 & B2 & B3). destruct (start_sinv Simple timescale duration time ft Fok B1) as (S1 & S2). cbv zeta in *. rewrite <- D1 in S1, S2. cbn [fst snd] in S1, S2. subst r1.
  destruct Rec as [R1 R2 R3 R4]. pose proof (si_w _ _ _ _ _ _ _ _ _ S2) as W2. destruct (wi_streams _ _ _ _ _ _ _ _ _ _ W2) as (_ & _ & Pos & _). pose proof (Zlen_nonneg fb). pose proof (Zlen_nonneg m).
  destruct (record_beside ops t1 s1 s1 t2 s2 rs2 R1 (wi_class _ _ _ _ _ _ _ _ _ _ W2)) as (Be & Er); [rewrite Pos; change (media []) with (@nil Z); rewrite (@Zlen_nil Z); cbn [base_of]; lia| |exact E3|].
  { split; [symmetry; apply set_os_same|]. split; [|left; reflexivity]. clear. induction (s_tracks s1); constructor; auto. }
  destruct (run_sinv _ _ _ _ _ _ _ s1 ops S2 R1 R2 R3 R4 B2) as (S3 & _).
  assert (Run : run (start Simple timescale duration time ft) (O_WriteFtyp :: ops ++ [O_AppendTrakAndUdta sel; O_WriteFreeAndMdatHeader; O_WriteMoov]) =
     (fst (run (fst (run s1 ops)) [O_AppendTrakAndUdta sel; O_WriteFreeAndMdatHeader; O_WriteMoov]), Ok tt :: snd (run s1 ops) ++ snd (run (fst (run s1 ops)) [O_AppendTrakAndUdta sel; O_WriteFreeAndMdatHeader; O_WriteMoov]))).
  { cbn [run]. rewrite <- D1, run_app. reflexivity. }
  rewrite Run. clear Run. rewrite Er in *. clear Er E3 D1 E1. set (sp := fst (run s1 ops)) in *. clearbody sp. set (rr := snd (run s1 ops)) in *. clearbody rr. clear S2 W2 Pos s1.
  destruct (run_dev_cons _ _ _ _ _ _ _ E4) as (ta & sa & ra & rsa & Ea & Ea' & ->). destruct (run_dev_cons _ _ _ _ _ _ _ Ea') as (tb & sb & rb & rsb & Eb & Eb' & ->).
  destruct (run_dev_one _ _ _ _ _ _ Eb') as (rc & Ec & ->). clear E4 Ea' Eb'.
  assert (Lc : rc = Ok tt) by (rewrite <- La; replace (Ok tt :: rr ++ [ra; rb; rc]) with ((Ok tt :: rr ++ [ra; rb]) ++ [rc]) by (cbn [app]; rewrite <- app_assoc; reflexivity); rewrite last_last; reflexivity). subst rc.
  pose proof (ftyp_size ft Fok) as Bf. pose proof Bnd as Bnd'. unfold movie_fits in Bnd'. pose proof (Zlen_nonneg (ftyp_compatible_brands ft)).
  destruct (si_w _ _ _ _ _ _ _ _ _ S3) as [C1 C2 C3 C4 C5 C6 C7 C8 (D1 & D2 & D3 & pad & D4 & D5)].
  destruct Be as (Bw & _ & [->|L]).
  2: { exfalso. assert (Dm : doomed t2 s2).
       { unfold beside_w in Bw. constructor; [rewrite Bw; exact C1|rewrite Bw; exact C6|rewrite Bw; exact C7|exists []; rewrite Bw; exact D2|]. rewrite D3, D1 in L. exact L. }
       pose proof (doomed_append _ _ _ _ _ Dm Ea) as Da. pose proof (doomed_header _ _ _ _ _ Da Eb) as Db. exact (doomed_moov _ _ _ _ _ Db Ec eq_refl). }
  destruct (dev_silent (O_AppendTrakAndUdta sel) _ _ _ _ _ eq_refl eq_refl Ea) as (Sa & ->). destruct (simple_append timescale duration time ft ops sel Sel sp S3) as (s2 & ts0 & E2 & HT & W1).
  rewrite E2 in Sa. injection Sa as -> ->. cbn [run]. rewrite E2.
  assert (Hw : mw_class (s_writer s2) = Simple /\ mw_ftyp_size (s_writer s2) = Some F /\ mw_mdat_size (s_writer s2) = Zlen m /\ mw_os (s_writer s2) = mw_os (s_writer sp) /\ mw_next_id (s_writer s2) = nid) by (rewrite W1; cbn; auto).
  destruct Hw as (V1 & V2 & V3 & V4 & V5).
  destruct (simple_header ft ops (s_writer s2) _ V1 V2 V3 ltac:(lia) V4 ltac:(exists pad; auto)) as (o' & Eh & O').
  assert (Es : step s2 O_WriteFreeAndMdatHeader = (mk_session (set_os o' (s_writer s2)) (s_tracks s2), Ok tt)) by (cbn [step]; rewrite Eh; reflexivity). rewrite Es.
  set (s3 := mk_session (set_os o' (s_writer s2)) (s_tracks s2)) in *.
  set (traks := map (fun t => make_trak (Track_finalize t)) ts0) in *.
  destruct (dev_simple O_WriteFreeAndMdatHeader _ _ _ _ _ eq_refl Eb) as [(sx & os & Ex & -> & X & ->)|(A & N & _)]; [|rewrite Es in A; injection A as _ A; congruence].
  rewrite Es in Ex. injection Ex as <-. cbn [call_cmds] in X. destruct (free_flow ft ops _ V1 V2 V3 ltac:(lia)) as (l & El & Fl).
  pose proof (exec_flow_seek (on_output e) F l _ t2 (mw_os (s_writer s2)) tb os St Fl ltac:(lia)) as XF. rewrite <- El in XF.
  destruct (XF X) as [Eo|(k & Lk & _ & Lo & _)].
  2: { exfalso. eapply doomed_moov; [|exact Ec|reflexivity].
       assert (L16 : length (free_header m ++ frame_header (str "mdat") (Zlen m)) = 16%nat) by (apply Nat2Z.inj; exact (free_mdat_length m)). rewrite L16 in Lk.
       constructor; cbn [s_writer]; unfold s3; cbn [s_writer set_os mw_class mw_ftyp_size mw_mdat_size mw_moov]; auto; [|eapply lost_mono; [exact Lo|lia|lia]].
       rewrite W1. cbn [set_moov mw_moov]. eexists. reflexivity. }
  pose proof (dev_same O_WriteFreeAndMdatHeader t2 s2 s3 tb os eq_refl Es X Eo) as Esb. rewrite Esb in Ec. clear Eb X Eo Esb os XF El Fl l.
  destruct (dev_simple O_WriteMoov _ _ _ _ _ eq_refl Ec) as [(sx & os & Ex & _ & X & ->)|(_ & N & _)]; [|congruence].
  rewrite Ex. cbn [run fst snd]. f_equal. apply (dev_same O_WriteMoov tb s3 sx t' os eq_refl Ex X).
  assert (Bt : sum_by nsize traks <= moov_bound ops sel - 4096).
  { apply (traks_bound time ops sel Track_finalize). clear -HT. induction HT as [|i t0 sel ts0 (_ & T) H IH]; constructor; auto. exists (F + 16), (F + 16). split; [exact T|]. split; [apply recorded_finalize, (ti_rec _ _ _ _ _ T)|].
    unfold Track_finalize. destruct (t_finalized t0); reflexivity. }
  assert (So : forall id, sound (moov_node timescale duration time id traks)).
  { intros id. apply sound_moov_node. subst traks. apply Forall_map, Forall_forall. intros t0 _. apply sound_trak. }
  pose proof (fun id => moov_size timescale duration time id traks) as Ms.
  assert (Ec2 : call_cmds O_WriteMoov (s_writer s3) = BoxInfo_cmds (place (moov_node timescale duration time nid traks) (F + 16 + Zlen m))).
  { cbn [call_cmds]. unfold writeMoovBox_cmds, s3. cbn [s_writer set_os mw_class]. rewrite V1. unfold Writer_setOffsetAndSize. cbn [set_os mw_moov mw_ftyp_size mw_class mw_mdat_size]. rewrite W1 at 1. cbn [set_moov mw_moov]. rewrite V2, V1, V3.
    unfold LARGE_HEADER_SIZE. rewrite u64_small by lia. rewrite sound_adjust by (auto; specialize (Ms 1); lia).
    unfold moov_tree_cmds. cbn [set_moov set_os mw_moov mw_next_id mw_os]. rewrite V5, set_id_place. reflexivity. }
  rewrite Ec2 in *. pose proof (flow_place (moov_node timescale duration time nid traks) (F + 16 + Zlen m) (So nid) ltac:(lia) ltac:(specialize (Ms nid); lia)) as Fl.
  pose proof (proj1 (ends_guarded _ (ends_place _ (ends_moov timescale duration time nid traks) (F + 16 + Zlen m)))) as G.
  destruct (place_cmds (moov_node timescale duration time nid traks) (F + 16 + Zlen m) (So nid)) as (l & El). rewrite El in *.
  exact (exec_guarded _ _ _ _ St Fl G tb (os_seekp (F + 16 + Zlen m) (mw_os (s_writer s3))) t' os ltac:(lia) eq_refl X).
Qed.

(** ** FaststartWriter *)
Lemma fast_add t d w t' r : mw_class w = Faststart -> dev_addMdatData e t d w = (Running, t', r) -> r = Writer_addMdatData d w.
Proof.
  intros C E. unfold dev_addMdatData in E. destruct (Writer_addMdatData d w) as [w'| |] eqn:Ea; [|injection E as _ <-; reflexivity..]. rewrite C in E. cbn [exec] in E.
  destruct (transfer (on_tmp e) t d (mw_tmp w)) as [[f t1] o1] eqn:T. destruct f; [|discriminate..]. injection E as _ <-.
  destruct (transfer_spec _ _ _ _ _ _ _ T) as (k0 & _ & _ & _ & Ew & _). rewrite (Ew eq_refl). unfold Writer_addMdatData in Ea. rewrite C in Ea. destruct (mw_tmp_open w); [|discriminate]. injection Ea as <-. reflexivity.
Qed.
Lemma fast_class d w w' : mw_class w = Faststart -> Writer_addMdatData d w = Ok w' -> mw_class w' = Faststart.
Proof. intros C E. unfold Writer_addMdatData in E. rewrite C in E. destruct (mw_tmp_open w); [|discriminate]. injection E as <-. exact C. Qed.
Lemma fast_actions ts key : forall acts t tr w t' r, mw_class w = Faststart -> dev_actions e t ts key acts tr w = (Running, t', r) -> r = track_actions ts key acts tr w.
Proof.
  induction acts as [|a acts IH]; intros t tr w t' r C E; cbn [dev_actions track_actions] in *; [injection E as _ <-; reflexivity|]. destruct a as [d|p|p]; [|exact (IH _ _ _ _ _ C E)..].
  destruct (dev_addMdatData e t d w) as [[st t1] r1] eqn:Ed. assert (Hs : st = Running) by (destruct st; [reflexivity|destruct r1; discriminate E..]). subst st.
  pose proof (fast_add _ _ _ _ _ C Ed) as ->. unfold track_store. destruct (Writer_addMdatData d w) as [w'| |] eqn:Ea; [|injection E as _ <-; reflexivity..]. exact (IH _ _ _ _ _ (fast_class _ _ _ C Ea) E).
Qed.
Lemma fast_step o t s t' s' r : media_op o = true -> mw_class (s_writer s) = Faststart -> dev_step e t s o = (Running, t', s', r) -> (s', r) = step s o.
Proof.
  intros M C E. destruct o; try discriminate M; try (refine (proj1 (dev_silent _ _ _ _ _ _ _ _ E)); reflexivity); cbn [dev_step step] in *.
  - destruct (nth_error (s_tracks s) i) as [tr|]; [|injection E as _ <- <-; reflexivity]. destruct (addData_actions (t_codec tr) data) as [[acts r0]|]; [|injection E as _ <- <-; reflexivity].
    destruct (dev_actions e t timestamp is_key acts tr (s_writer s)) as [[st t1] r1] eqn:Ed. assert (Hs : st = Running) by (destruct r1 as [[]| |]; congruence). subst st.
    rewrite <- (fast_actions _ _ _ _ _ _ _ _ C Ed). destruct r1 as [[]| |]; injection E as _ <- <-; reflexivity.
  - destruct (dev_addMdatData e t data (s_writer s)) as [[st t1] r1] eqn:Ed. assert (Hs : st = Running) by (destruct r1; cbn [lift] in E; congruence). subst st. rewrite <- (fast_add _ _ _ _ _ C Ed).
    destruct (lift s r1). injection E as _ <- <-. reflexivity.
Qed.
Lemma fast_record a : forall t s t' s' rs, forallb media_op a = true -> mw_class (s_writer s) = Faststart -> run_dev e t s a = (Running, t', s', rs) -> (s', rs) = run s a.
Proof.
  induction a as [|o a IH]; intros t s t' s' rs M C E; [injection E as <- <- <-; reflexivity|].
  cbn [forallb] in M. apply andb_prop in M. destruct M as (M1 & M2). destruct (run_dev_cons _ _ _ _ _ _ _ E) as (t1 & s1 & r & rs2 & E1 & E2 & ->). cbn [run]. pose proof (fast_step _ _ _ _ _ _ M1 C E1) as Es. rewrite <- Es.
  assert (C1 : mw_class (s_writer s1) = Faststart).
  { symmetry in Es. clear -Es M1 C. destruct o; try discriminate M1; cbn [step] in Es.
    - unfold Track_new in Es. destruct (id =? 0); injection Es as <- _; auto.
    - injection Es as <- _. auto.
    - destruct (nth_error (s_tracks s) i) as [tr|]; [|injection Es as <- _; auto]. destruct (addData_actions _ data) as [[acts r0]|]; [|injection Es as <- _; auto].
      destruct (track_actions timestamp is_key acts tr (s_writer s)) as [[tr' w']| |] eqn:Ea; injection Es as <- _; auto. cbn [s_writer].
      clear -C Ea. revert tr Ea. generalize dependent (s_writer s). induction acts as [|a acts IH]; intros w C tr Ea; cbn [track_actions] in Ea; [congruence|].
      destruct a as [d|p|p]; [|exact (IH _ C _ Ea)..]. unfold track_store in Ea. destruct (Writer_addMdatData d w) as [w1| |] eqn:E1; try discriminate. exact (IH _ (fast_class _ _ _ C E1) _ Ea).
    - unfold on_track in Es. destruct (nth_error (s_tracks s) i); injection Es as <- _; auto.
    - unfold on_track in Es. destruct (nth_error (s_tracks s) i); injection Es as <- _; auto.
    - destruct (Writer_addMdatData data (s_writer s)) as [w1| |] eqn:E1; cbn [lift] in Es; injection Es as <- _; auto. exact (fast_class _ _ _ C E1). }
  rewrite <- (IH _ _ _ _ _ M2 C1 E2). reflexivity.
Qed.
Hypothesis Tp : time_printable time.
#[local] Opaque COPY_MDAT_DATA_BUFFER_SIZE.
Lemma faststart_refused t t' s rs : run_dev e t (start Faststart timescale duration time ft) (faststart_program ops sel) = (Running, t', s, rs) ->
  let whole := run (start Faststart timescale duration time ft) (faststart_program ops sel) in
  rs = snd whole /\ ((s, rs) = whole \/
    exists n, (n < length (output (fst whole)))%nat /\ Zlen (output (fst whole)) - Zlen m - 16 <= Z.of_nat n /\ output s = firstn n (output (fst whole))).
Proof.
  intros E. cbv zeta. unfold faststart_program in *. destruct (run_dev_cons _ _ _ _ _ _ _ E) as (t1 & s1 & r1 & rs1 & E1 & E2 & ->). clear E.
  pose proof (ftyp_done _ _ _ _ _ E1) as D1. destruct (run_dev_split _ _ _ _ _ _ _ E2) as (t2 & s2 & rs2 & rs3 & E3 & E4 & ->). clear E2.
  destruct (movie_fits_media _ _ _ Fok Bnd) as (B1 & B2 & B3). destruct (start_sinv Faststart timescale duration time ft Fok B1) as (S1 & S2). cbv zeta in *. rewrite <- D1 in S1, S2. cbn [fst snd] in S1, S2. subst r1.
  destruct Rec as [R1 R2 R3 R4]. pose proof (si_w _ _ _ _ _ _ _ _ _ S2) as W2. pose proof (fast_record _ _ _ _ _ _ R1 (wi_class _ _ _ _ _ _ _ _ _ _ W2) E3) as Er.
  destruct (run_sinv _ _ _ _ _ _ _ s1 ops S2 R1 R2 R3 R4 B2) as (S3 & _). rewrite <- Er in S3. cbn [fst base_of] in S3.
  assert (Run : run (start Faststart timescale duration time ft) (O_WriteFtyp :: ops ++ [O_AppendTrakAndUdta sel; O_WriteMoov; O_WriteMdatHeader; O_CopyMdatData]) =
     (fst (run s2 [O_AppendTrakAndUdta sel; O_WriteMoov; O_WriteMdatHeader; O_CopyMdatData]), Ok tt :: rs2 ++ snd (run s2 [O_AppendTrakAndUdta sel; O_WriteMoov; O_WriteMdatHeader; O_CopyMdatData]))).
  { cbn [run]. rewrite <- D1, run_app, <- Er. reflexivity. }
  rewrite Run. clear Run. cbn [fst snd]. clear Er E3 D1 E1 S2 W2 s1.
  destruct (faststart_calls timescale duration time ft ops sel Fok (Build_recording _ R1 R2 R3 R4) Sel Bnd Tp s2 S3) as (sa & sb & sc & sd & mv & Ea & Eb & Ec & Ed & (lm & Cm) & Fm & (lh & Ch) & Fh & Fc & V1 & V2 & V3 & V4 & Tm). cbv zeta in *. set (hd := frame_header (str "mdat") (Zlen m)) in *.
  cbn [run]. rewrite Ea, Eb, Ec, Ed. cbn [fst snd].
  destruct (run_dev_cons _ _ _ _ _ _ _ E4) as (t3 & s3 & r3 & rs4 & X1 & E5 & ->). destruct (dev_silent (O_AppendTrakAndUdta sel) _ _ _ _ _ eq_refl eq_refl X1) as (Y1 & ->). rewrite Ea in Y1. injection Y1 as -> ->. clear X1 E4.
  destruct (run_dev_cons _ _ _ _ _ _ _ E5) as (t4 & s4 & r4 & rs5 & X2 & E6 & ->). clear E5.
  pose proof (Zlen_nonneg fb). pose proof (Zlen_nonneg mv). pose proof (Zlen_nonneg m). assert (Lh : 0 < Zlen hd <= 16) by (unfold hd; rewrite frame_header_length by reflexivity; pose proof (frame_hs (Zlen m)); lia).
  (* writeMoovBox *)
  destruct (dev_simple O_WriteMoov _ _ _ _ _ eq_refl X2) as [(sx & os & Ex & -> & X & ->)|(A & N & _)]; [|rewrite Eb in A; injection A as _ A; congruence]. rewrite Eb in Ex. injection Ex as <-.
  assert (Gm : guarded (call_cmds O_WriteMoov (s_writer sa))).
  { clear -Cm Eb Ea S3 Fok Sel Bnd. destruct (select_tracks _ _ _ _ _ _ _ ops s2 sel S3 (proj2 Sel)) as (ts0 & H0).
    destruct (faststart_append timescale duration time ft ops sel Fok Sel Bnd s2 ts0 S3 H0) as (s1 & S & E1 & O & ES & W1). rewrite Ea in E1. injection E1 as <-.
    destruct (si_w _ _ _ _ _ _ _ _ _ S3) as [C1 C2 C3 C4 C5 C6 C7 C8 _]. cbn [call_cmds]. unfold writeMoovBox_cmds. rewrite W1. cbn [set_moov mw_class mw_ftyp_size]. rewrite C1, C6. unfold moov_tree_cmds. cbn [set_moov mw_moov mw_next_id]. rewrite C8, set_id_place.
    cbn [guarded]. apply ends_guarded, ends_place, ends_moov. }
  assert (Es4 : mk_session (set_os os (s_writer sb)) (s_tracks sb) = sb).
  { apply (dev_same O_WriteMoov t2 sa sb t4 os eq_refl Eb X). rewrite Cm in *. exact (exec_guarded _ _ _ _ St Fm Gm t2 (os_seekp F (mw_os (s_writer sa))) t4 os ltac:(lia) eq_refl X). }
  rewrite Es4 in *. clear Es4 X X2 Gm os.
  destruct (run_dev_cons _ _ _ _ _ _ _ E6) as (t5 & s5 & r5 & rs6 & X3 & E7 & ->). destruct (run_dev_one _ _ _ _ _ _ E7) as (r6 & X4 & ->). clear E6 E7.
  assert (Hf : output sd = fb ++ mv ++ hd ++ m) by (unfold output; rewrite V4; reflexivity).
  destruct (dev_simple O_WriteMdatHeader _ _ _ _ _ eq_refl X3) as [(sx & os & Ex & -> & X & ->)|(A & N & _)]; [|rewrite Ec in A; injection A as _ A; congruence]. rewrite Ec in Ex. injection Ex as <-.
  pose proof (exec_flow_seek (on_output e) (F + Zlen mv) lh hd t4 (mw_os (s_writer sb)) t5 os St) as XF. rewrite <- Ch in XF. specialize (XF Fh ltac:(lia) X).
  destruct XF as [Eo|(k & Lk & Dk & Lo & Po)].
  - rewrite (dev_same O_WriteMdatHeader t4 sb sc t5 os eq_refl Ec X Eo) in *. clear X X3 Eo os.
    destruct (dev_simple O_CopyMdatData _ _ _ _ _ eq_refl X4) as [(sx & os & Ex & -> & X & ->)|(A & N & _)]; [|rewrite Ed in A; injection A as _ A; congruence]. rewrite Ed in Ex. injection Ex as <-.
    split; [reflexivity|]. destruct (exec_flow (on_output e) _ _ _ St Fc t5 (mw_os (s_writer sc)) t' os ltac:(lia) ltac:(rewrite V3; reflexivity) X) as [Eo|(k & Lk & Dk & _)].
    + left. rewrite (dev_same O_CopyMdatData t5 sc sd t' os eq_refl Ed X Eo). reflexivity.
    + right. exists (length (fb ++ mv ++ hd) + k)%nat. rewrite Hf. split; [rewrite !app_length; lia|]. split; [rewrite !Zlen_app; unfold Zlen; rewrite !app_length; lia|].
      unfold output. cbn [s_writer set_os mw_os]. rewrite Dk, V3. cbn [os_data]. replace (F + Zlen mv + Zlen hd) with (Zlen (fb ++ mv ++ hd)) by (rewrite !Zlen_app; lia). rewrite splice_end.
      replace (fb ++ mv ++ hd ++ m) with ((fb ++ mv ++ hd) ++ m) by (rewrite <- !app_assoc; reflexivity). rewrite firstn_app_2. reflexivity.
  - (* the header of mdat is not complete: nothing of the media data is stored *)
    set (s5 := mk_session (set_os os (s_writer sc)) (s_tracks sc)) in *.
    assert (E5 : step s5 O_CopyMdatData = (mk_session (s_writer (fst (step s5 O_CopyMdatData))) (s_tracks (fst (step s5 O_CopyMdatData))), Ok tt)).
    { destruct (Tm sc (or_intror (or_intror eq_refl))) as (T1 & T2). cbn [step]. unfold Faststart_copyMdatData, s5. cbn [s_writer set_os mw_tmp_open mw_tmp mw_os]. rewrite T1, T2. cbn [os_data].
      rewrite copy_file by lia. reflexivity. }
    destruct (dev_simple O_CopyMdatData _ _ _ _ _ eq_refl X4) as [(sx & os2 & Ex & -> & X5 & ->)|(A & N & _)]; [|rewrite E5 in A; injection A as _ A; congruence]. split; [reflexivity|right].
    assert (Cc : call_cmds O_CopyMdatData (s_writer s5) = call_cmds O_CopyMdatData (s_writer sc)) by reflexivity. rewrite Cc in X5.
    assert (Sk : seeks_from (F + Zlen mv + Z.of_nat k) (call_cmds O_CopyMdatData (s_writer sc))) by (apply (seeks_mono _ (F + Zlen mv + Zlen hd)); [unfold Zlen; lia|exact (flow_seeks _ _ _ Fc)]).
    destruct (exec_lost (on_output e) (F + Zlen mv + Z.of_nat k) St _ t5 (mw_os (s_writer s5)) Running t' os2 Sk Lo Po X5) as (Do & _).
    exists (length (fb ++ mv) + k)%nat. rewrite Hf. split; [rewrite !app_length; lia|]. split; [rewrite !Zlen_app; unfold Zlen in *; rewrite !app_length; lia|].
    unfold output. cbn [s_writer set_os mw_os]. rewrite Do. unfold s5. cbn [s_writer set_os mw_os]. rewrite Dk, V2. cbn [os_data]. replace (F + Zlen mv) with (Zlen (fb ++ mv)) by (rewrite !Zlen_app; lia). rewrite splice_end.
    replace (fb ++ mv ++ hd ++ m) with ((fb ++ mv) ++ hd ++ m) by (rewrite <- !app_assoc; reflexivity). rewrite firstn_app_2. f_equal. rewrite firstn_app. replace (k - length hd)%nat with 0%nat by lia. rewrite app_nil_r. reflexivity.
Qed.
End S.
