(** What is kept when output is refused (C59). *)
From Coq Require Import ZifyBool.
From Verif Require Import Base BitIO BitFacts BitIOProofs Boxes WireFormat Box BoxSpec BoxSize Print PrintSpec PrintProofs BoxTree TreeSpec TreeProofs TreeLayout TreePrint H264 Track Writers MovieSpec AnnexBSpec H264Proofs TrackProofs TrakProofs SessionProofs MovieShape Completion MovieSize FileProofs SimpleFile FaststartFile Device FailureSpec DeviceProofs Interrupt InterruptLemmas Refusal.
From Coq Require Import String List.
Import ListNotations.
Open Scope Z_scope.
Open Scope list_scope.

Lemma os_write_chain a b o : 0 <= os_pos o -> os_write b (os_write a o) = os_write (a ++ b) o.
Proof. intros P. unfold os_write. cbn [os_data os_pos]. rewrite splice_chain by exact P. rewrite Zlen_app, Z.add_assoc. reflexivity. Qed.

(** a stream that ends where it is written, or stands 16 octets after an end at [F] *)
Definition tidy (F : Z) (o : ostream) : Prop := 0 <= F /\ F + 16 <= os_pos o /\ (Zlen (os_data o) = os_pos o \/ (Zlen (os_data o) = F /\ os_pos o = F + 16)).
Lemma tidy_write F d o : tidy F o -> tidy F (os_write d o).
Proof.
  intros (P & A & B). destruct d as [|x d]; [rewrite os_write_nil; exact (conj P (conj A B))|]. unfold tidy. cbn [os_write os_pos os_data]. pose proof (Zlen_nonneg (x :: d)).
  split; [exact P|]. split; [lia|]. left. rewrite splice_length by (congruence || lia). lia.
Qed.

(** [op] is [o] with the octets that [o] lacks; [o] lacks nothing before [b] unless something was refused *)
Definition short (e : fates) (t : nat) (b : Z) (o op : ostream) : Prop := exists r, op = os_write r o /\ (lost e t (os_pos o) \/ b <= os_pos o).
Lemma short_more e t b o op d : 0 <= os_pos o -> short e t b o op -> short e t b o (os_write d op).
Proof. intros P (r & -> & L). exists (r ++ d). rewrite os_write_chain by exact P. auto. Qed.
Lemma short_weak e t b b' o op : b' <= b -> short e t b o op -> short e t b' o op.
Proof. intros H (r & -> & L). exists r. split; [reflexivity|]. destruct L; [left; assumption|right; lia]. Qed.
Lemma short_time e t t' b o op : (t <= t')%nat -> short e t b o op -> short e t' b o op.
Proof. intros H (r & -> & L). exists r. split; [reflexivity|]. destruct L as [L|L]; [left; eapply lost_mono; [exact L|exact H|lia]|right; lia]. Qed.

Lemma put_short e F t d o op st t' o' : stays_refused e -> tidy F o -> short e t (os_pos op) o op -> exec e t [Put d] o = (st, t', o') ->
  st <> Raised /\ tidy F o' /\ short e t' (match st with Running => os_pos op + Zlen d | _ => os_pos op end) o' (os_write d op).
Proof.
  intros St Ti (r & Er & L) X. pose proof Ti as (P0 & P1 & _). assert (P : 0 <= os_pos o) by lia. cbn [exec] in X. destruct (transfer e t d o) as [[f t1] o1] eqn:Et. pose proof (transfer_time _ _ _ _ _ _ _ Et) as T.
  assert (Eo : o' = o1 /\ t' = t1 /\ (st = match f with Killed => Dead | _ => Running end)) by (destruct f; injection X as <- <- <-; auto). destruct Eo as (-> & -> & ->). clear X.
  split; [destruct f; discriminate|].
  destruct L as [L|L].
  - destruct (transfer_lost _ _ _ _ _ _ _ St L Et) as (-> & _). split; [exact Ti|]. exists (r ++ d). rewrite Er, os_write_chain by exact P. split; [reflexivity|]. left. eapply lost_mono; [exact L|exact T|lia].
  - assert (r = []) by (rewrite Er in L; cbn [os_write os_pos] in L; destruct r as [|x r]; [reflexivity|rewrite Zlen_cons in L; pose proof (Zlen_nonneg r); lia]). subst r. rewrite os_write_nil in Er. subst op.
    destruct (transfer_spec _ _ _ _ _ _ _ Et) as (k & _ & Lk & Ek & Ef & _). split; [rewrite Ek; apply tidy_write; exact Ti|].
    exists (skipn k d). split; [rewrite Ek, os_write_chain, firstn_skipn by exact P; reflexivity|]. destruct f.
    + right. rewrite (Ef eq_refl). cbn [os_write os_pos]. lia.
    + left. destruct (transfer_refused _ _ _ _ _ _ Et) as (_ & _ & _ & Lo & _). exact Lo.
    + right. rewrite Ek. cbn [os_write os_pos]. pose proof (Zlen_nonneg (firstn k d)). lia.
Qed.

(** ** Media calls *)
Lemma add_short e F t d w op st t' r : stays_refused (on_output e) -> mw_class w = Simple -> tidy F (mw_os w) -> short (on_output e) t (os_pos op) (mw_os w) op ->
  dev_addMdatData e t d w = (st, t', r) ->
  st <> Raised /\ exists w', r = Ok w' /\ mw_class w' = Simple /\ tidy F (mw_os w') /\ short (on_output e) t' (match st with Running => os_pos op + Zlen d | _ => os_pos op end) (mw_os w') (os_write d op).
Proof.
  intros St C Ti Sh E. unfold dev_addMdatData, Writer_addMdatData in E. rewrite C in E. destruct (exec (on_output e) t [Put d] (mw_os w)) as [[st1 t1] o1] eqn:X. injection E as <- <- <-.
  destruct (put_short _ F _ _ _ _ _ _ _ St Ti Sh X) as (N & Ti' & Sh'). split; [exact N|]. eexists. split; [reflexivity|]. split; [destruct st1; exact C|]. split; [destruct st1; exact Ti'|destruct st1; exact Sh'].
Qed.
Fixpoint acts_octets (l : list nal_action) : list Z := match l with [] => [] | StoreSample d :: l' => d ++ acts_octets l' | _ :: l' => acts_octets l' end.
Lemma actions_short e F ts key : stays_refused (on_output e) -> forall acts t tr w op st t' r, mw_class w = Simple -> tidy F (mw_os w) -> 0 <= os_pos op -> short (on_output e) t (os_pos op) (mw_os w) op ->
  dev_actions e t ts key acts tr w = (st, t', r) ->
  st <> Raised /\ exists tr' w', r = Ok (tr', w') /\ mw_class w' = Simple /\ tidy F (mw_os w') /\
    short (on_output e) t' (match st with Running => os_pos op + Zlen (acts_octets acts) | _ => os_pos op end) (mw_os w') (os_write (acts_octets acts) op).
Proof.
  intros St. induction acts as [|a acts IH]; intros t tr w op st t' r C Ti Po Sh E; cbn [dev_actions acts_octets] in *.
  - injection E as <- <- <-. split; [discriminate|]. exists tr, w. rewrite (@Zlen_nil Z), Z.add_0_r, os_write_nil. auto.
  - destruct a as [d|p|p].
    + destruct (dev_addMdatData e t d w) as [[st1 t1] r1] eqn:Ed. destruct (add_short _ F _ _ _ _ _ _ _ St C Ti Sh Ed) as (N & w' & -> & C' & Ti' & Sh'). pose proof (Zlen_nonneg d).
      destruct st1; [| contradiction |].
      * destruct (IH _ _ _ (os_write d op) _ _ _ C' Ti' ltac:(cbn [os_write os_pos]; lia) Sh' E) as (N' & tr' & w2 & -> & C2 & Ti2 & Sh2). split; [exact N'|]. exists tr', w2. split; [reflexivity|]. split; [exact C2|]. split; [exact Ti2|].
        rewrite os_write_chain in Sh2 by exact Po. cbn [os_write os_pos] in Sh2. rewrite Zlen_app. eapply short_weak; [|exact Sh2]. destruct st; lia.
      * injection E as <- <- <-. split; [discriminate|]. exists tr, w'. split; [reflexivity|]. split; [exact C'|]. split; [exact Ti'|]. rewrite <- os_write_chain by exact Po. apply short_more; [destruct Ti' as (? & ? & _); lia|exact Sh'].
    + exact (IH _ _ _ _ _ _ _ C Ti Po Sh E).
    + exact (IH _ _ _ _ _ _ _ C Ti Po Sh E).
Qed.
Lemma actions_plain ts key : forall acts tr w, mw_class w = Simple -> 0 <= os_pos (mw_os w) -> exists tr' w', track_actions ts key acts tr w = Ok (tr', w') /\ mw_class w' = Simple /\ mw_os w' = os_write (acts_octets acts) (mw_os w).
Proof.
  induction acts as [|a acts IH]; intros tr w C P; cbn [track_actions acts_octets]; [exists tr, w; rewrite os_write_nil; auto|]. destruct a as [d|p|p]; [|exact (IH _ _ C P)..].
  unfold track_store, Writer_addMdatData. rewrite C. pose proof (Zlen_nonneg d). edestruct (IH) as (tr' & w' & E & C' & Eo); [| |exists tr', w'; rewrite E; split; [reflexivity|]; split; [exact C'|]].
  - exact C.
  - cbn. lia.
  - rewrite Eo. cbn [set_mdat_size set_os mw_os]. apply os_write_chain. exact P.
Qed.

(** one call of the recording: the octets it stores *)
Definition call_octets (s : session) (o : op) : list Z :=
  match o with
  | O_AddData i _ data _ => match nth_error (s_tracks s) i with Some tr => match addData_actions (t_codec tr) data with Some (acts, _) => acts_octets acts | None => [] end | None => [] end
  | O_AddRaw data => data
  | _ => []
  end.
Lemma call_octets_beside e t s sp o : beside e t s sp -> call_octets s o = call_octets sp o.
Proof.
  intros (_ & Fa & _). destruct o; try reflexivity. cbn [call_octets]. pose proof (f2_nth _ _ _ Fa i) as N. destruct (nth_error (s_tracks s) i), (nth_error (s_tracks sp) i); try contradiction; [rewrite N|]; reflexivity.
Qed.
Lemma step_plain sp o : mw_class (s_writer sp) = Simple -> media_op o = true -> 0 <= os_pos (mw_os (s_writer sp)) ->
  mw_class (s_writer (fst (step sp o))) = Simple /\ mw_os (s_writer (fst (step sp o))) = os_write (call_octets sp o) (mw_os (s_writer sp)).
Proof.
  intros C M P. destruct o; try discriminate M; cbn [step call_octets]; rewrite ?os_write_nil.
  - unfold Track_new. destruct (id =? 0); cbn; rewrite ?os_write_nil; auto.
  - cbn; rewrite ?os_write_nil; auto.
  - destruct (nth_error (s_tracks sp) i) as [tr|]; [|cbn; rewrite os_write_nil; auto]. destruct (addData_actions _ data) as [[acts r]|]; [|cbn; rewrite os_write_nil; auto].
    destruct (actions_plain timestamp is_key acts tr (s_writer sp) C P) as (tr' & w' & -> & C' & Eo). cbn. auto.
  - unfold on_track. destruct (nth_error (s_tracks sp) i); cbn; rewrite ?os_write_nil; auto.
  - unfold on_track. destruct (nth_error (s_tracks sp) i); cbn; rewrite ?os_write_nil; auto.
  - unfold Writer_addMdatData. rewrite C. cbn. auto.
Qed.
Lemma step_short e F t s o op st t' s' r : stays_refused (on_output e) -> mw_class (s_writer s) = Simple -> media_op o = true -> tidy F (mw_os (s_writer s)) -> 0 <= os_pos op ->
  short (on_output e) t (os_pos op) (mw_os (s_writer s)) op -> dev_step e t s o = (st, t', s', r) ->
  st <> Raised /\ mw_class (s_writer s') = Simple /\ tidy F (mw_os (s_writer s')) /\
  short (on_output e) t' (match st with Running => os_pos op + Zlen (call_octets s o) | _ => os_pos op end) (mw_os (s_writer s')) (os_write (call_octets s o) op).
Proof.
  intros St C M Ti Po Sh E.
  assert (On : forall s1 (r1 : outcome unit), s_writer s1 = s_writer s -> (Running, t, s1, r1) = (st, t', s', r) -> call_octets s o = [] -> st <> Raised /\ mw_class (s_writer s') = Simple /\ tidy F (mw_os (s_writer s')) /\
     short (on_output e) t' (match st with Running => os_pos op + Zlen (call_octets s o) | _ => os_pos op end) (mw_os (s_writer s')) (os_write (call_octets s o) op)).
  { intros s1 r1 Ew X K. injection X as <- <- <- <-. rewrite K, Ew, os_write_nil, (@Zlen_nil Z), Z.add_0_r. split; [discriminate|]. auto. }
  destruct o; try discriminate M; cbn [dev_step step call_cmds] in E.
  - unfold Track_new in E. destruct (id =? 0); [exact (On _ _ eq_refl E eq_refl)|]. cbn [exec] in E. refine (On _ _ _ E eq_refl). cbn [s_writer]. apply set_os_same.
  - cbn [exec] in E. injection E as <- <- <- <-. cbn [call_octets s_writer]. rewrite os_write_nil, (@Zlen_nil Z), Z.add_0_r. split; [discriminate|]. split; [exact C|]. split; [exact Ti|exact Sh].
  - cbn [call_octets] in *. destruct (nth_error (s_tracks s) i) as [tr|]; [|exact (On _ _ eq_refl E eq_refl)]. destruct (addData_actions (t_codec tr) data) as [[acts r0]|]; [|exact (On _ _ eq_refl E eq_refl)]. clear On.
    destruct (dev_actions e t timestamp is_key acts tr (s_writer s)) as [[st1 t1] r1] eqn:Ed. destruct (actions_short e F timestamp is_key St acts t tr _ op _ _ _ C Ti Po Sh Ed) as (N & tr' & w' & -> & C' & Ti' & Sh').
    injection E as <- <- <- <-. cbn [s_writer]. auto.
  - unfold on_track in E. destruct (nth_error (s_tracks s) i); [|exact (On _ _ eq_refl E eq_refl)]. cbn [exec] in E. refine (On _ _ _ E eq_refl). cbn [s_writer]. apply set_os_same.
  - unfold on_track in E. destruct (nth_error (s_tracks s) i); [|exact (On _ _ eq_refl E eq_refl)]. cbn [exec] in E. refine (On _ _ _ E eq_refl). cbn [s_writer]. apply set_os_same.
  - clear On. destruct (dev_addMdatData e t data (s_writer s)) as [[st1 t1] r1] eqn:Ed. destruct (add_short e F _ _ _ op _ _ _ St C Ti Sh Ed) as (N & w' & -> & C' & Ti' & Sh'). cbn [lift] in E. injection E as <- <- <- <-. cbn [s_writer call_octets]. auto.
Qed.
Lemma record_short e F : stays_refused (on_output e) -> forall a t s sp st t' s' rs, forallb media_op a = true -> mw_class (s_writer sp) = Simple -> 0 <= os_pos (mw_os (s_writer sp)) ->
  beside (on_output e) t s sp -> tidy F (mw_os (s_writer s)) -> short (on_output e) t (os_pos (mw_os (s_writer sp))) (mw_os (s_writer s)) (mw_os (s_writer sp)) ->
  run_dev e t s a = (st, t', s', rs) ->
  st <> Raised /\ tidy F (mw_os (s_writer s')) /\
  match st with
  | Running => beside (on_output e) t' s' (fst (run sp a)) /\ rs = snd (run sp a) /\ short (on_output e) t' (os_pos (mw_os (s_writer (fst (run sp a))))) (mw_os (s_writer s')) (mw_os (s_writer (fst (run sp a))))
  | _ => exists a1 o a2, a = a1 ++ o :: a2 /\ length rs = length a1 /\
      short (on_output e) t' (os_pos (mw_os (s_writer (fst (run sp a1))))) (mw_os (s_writer s')) (mw_os (s_writer (fst (run sp (a1 ++ [o])))))
  end.
Proof.
  intros St. induction a as [|o a IH]; intros t s sp st t' s' rs M C P B Ti Sh E; cbn [run_dev] in E.
  - injection E as <- <- <- <-. cbn [run fst snd]. split; [discriminate|]. auto.
  - cbn [forallb] in M. apply andb_prop in M. destruct M as (M1 & M2). destruct (dev_step e t s o) as [[[st1 t1] s1] r1] eqn:E1.
    assert (Cs : mw_class (s_writer s) = Simple) by (destruct B as (Bw & _); unfold beside_w in Bw; rewrite Bw; exact C).
    destruct (step_short e F t s o _ _ _ _ _ St Cs M1 Ti P Sh E1) as (N & C1 & Ti1 & Sh1). rewrite (call_octets_beside _ _ _ _ o B) in Sh1.
    destruct (step_plain sp o C M1 P) as (Cp & Eo). cbn [run]. destruct (step sp o) as [sp1 rp] eqn:Ep. cbn [fst] in Cp, Eo.
    destruct st1; [|contradiction|].
    + destruct (run_dev e t1 s1 a) as [[[st2 t2] s2] rs2] eqn:E2. injection E as <- <- <- <-.
      destruct (dev_step_beside _ _ _ _ _ _ _ _ _ _ C M1 P B E1 Ep) as (B1 & ->).
      assert (Pp : os_pos (mw_os (s_writer sp1)) = os_pos (mw_os (s_writer sp)) + Zlen (call_octets sp o)) by (rewrite Eo; reflexivity). pose proof (Zlen_nonneg (call_octets sp o)).
      rewrite <- Eo, <- Pp in Sh1. destruct (IH _ _ sp1 _ _ _ _ M2 Cp ltac:(lia) B1 Ti1 Sh1 E2) as (N2 & Ti2 & R). split; [exact N2|]. split; [exact Ti2|]. destruct st2; [|contradiction|].
      * destruct (run sp1 a) as [sp2 rsp]. cbn [fst snd] in *. destruct R as (R1 & -> & R2). auto.
      * destruct R as (a1 & o2 & a2 & -> & L & R). exists (o :: a1), o2, a2. split; [reflexivity|]. split; [cbn [length]; lia|]. cbn [app run]. rewrite Ep. destruct (run sp1 a1), (run sp1 (a1 ++ [o2])). exact R.
    + injection E as <- <- <- <-. split; [discriminate|]. split; [exact Ti1|]. exists [], o, a. split; [reflexivity|]. split; [reflexivity|]. cbn [app run fst]. rewrite Ep. cbn [fst]. rewrite Eo. exact Sh1.
Qed.

(** ** What a stream that lacks something has *)
Lemma short_shape fb m m0 o op e t : let F := Zlen fb in
  tidy F o -> os_pos op = F + 16 + Zlen m -> (exists pad, os_data op = fb ++ pad ++ m /\ (pad = repeat 0 16 \/ (pad = [] /\ m = []))) ->
  prefix_of m0 m -> short e t (F + 16 + Zlen m0) o op ->
  exists p, prefix_of p m /\ os_pos o = F + 16 + Zlen p /\ (prefix_of m0 p \/ lost e t (F + 16 + Zlen p)) /\
    ((p = m /\ o = op) \/ (os_data o = fb ++ repeat 0 16 ++ p) \/ (os_data o = fb /\ p = [])).
Proof.
  intros F (P0 & P1 & Ti) Pp (pad & D & Hp) (m1 & Em) (r & Er & L). destruct r as [|x r].
  { rewrite os_write_nil in Er. subst op. exists m. split; [exists []; rewrite app_nil_r; reflexivity|]. split; [exact Pp|]. split; [left; exists m1; exact Em|]. auto. }
  pose proof (f_equal os_data Er) as Ed. pose proof (f_equal os_pos Er) as Ep. cbn [os_write os_data os_pos] in Ed, Ep. rewrite D in Ed. rewrite Pp in Ep.
  assert (Ln : Zlen (x :: r) <= Zlen m) by lia.
  destruct Hp as [->|(-> & ->)]; [|rewrite Zlen_cons, (@Zlen_nil Z) in Ln; pose proof (Zlen_nonneg r); lia].
  assert (Hs : exists p, m = p ++ x :: r /\ os_pos o = F + 16 + Zlen p).
  { exists (firstn (length m - length (x :: r)) m). unfold Zlen in Ln.
    assert (Em2 : splice (os_data o) (os_pos o) (x :: r) = firstn (Z.to_nat (os_pos o)) (os_data o ++ repeat 0 (Z.to_nat (os_pos o) - length (os_data o))) ++ x :: r).
    { unfold splice. rewrite skipn_all2; [rewrite app_nil_r; reflexivity|]. unfold Zlen in Ti. lia. }
    rewrite Em2 in Ed.
    assert (Sk : skipn (length m - length (x :: r)) m = x :: r).
    { assert (Le : (length (x :: r) <= length m)%nat) by lia. clear -Ed Le. set (q := firstn _ _) in Ed. clearbody q.
      assert (A : (fb ++ repeat 0 16 ++ firstn (length m - length (x :: r)) m) ++ skipn (length m - length (x :: r)) m = q ++ x :: r) by (rewrite <- !app_assoc, firstn_skipn; exact Ed).
      set (y := fb ++ _) in A. clearbody y. clear -A Le. pose proof (f_equal (@length Z) A) as La. rewrite !app_length, skipn_length in La. apply (f_equal (skipn (length q))) in A. rewrite (skipn_app (length q) q), Nat.sub_diag, skipn_all, skipn_O in A. cbn [app] in A.
      replace (length q) with (length y) in A by lia. rewrite skipn_app, Nat.sub_diag, skipn_all in A. exact A. }
    split; [rewrite <- Sk at 2; symmetry; apply firstn_skipn|]. unfold Zlen in *. rewrite firstn_length. lia. }
  destruct Hs as (p & -> & Pos). exists p. split; [exists (x :: r); reflexivity|]. split; [exact Pos|]. split.
  { destruct L as [L|L]; [right; rewrite <- Pos; exact L|left]. exists (skipn (length m0) p). assert (Le : (length m0 <= length p)%nat) by (unfold Zlen in *; lia).
    rewrite <- (firstn_skipn (length m0) p) at 1. f_equal. apply (f_equal (firstn (length m0))) in Em. rewrite firstn_app, firstn_app, Nat.sub_diag, firstn_all, firstn_O, app_nil_r in Em. replace (length m0 - length p)%nat with 0%nat in Em by lia. rewrite firstn_O, app_nil_r in Em. exact Em. }
  right. destruct Ti as [Ti|(Ti & Tp)].
  - left. replace (os_pos o) with (Zlen (os_data o)) in Ed by exact Ti. rewrite splice_end in Ed. rewrite !app_assoc in Ed. apply app_inv_tail in Ed. rewrite <- Ed, app_assoc. reflexivity.
  - right. assert (p = []) by (destruct p as [|y p]; [reflexivity|rewrite Zlen_cons in Pos; pose proof (Zlen_nonneg p); lia]). subst p. split; [|reflexivity]. cbn [app] in *.
    rewrite Tp, <- Ti in Ed. change 16 with (Z.of_nat 16) in Ed. rewrite splice_gap in Ed by discriminate. rewrite !app_assoc in Ed. apply app_inv_tail in Ed. apply app_inv_tail in Ed. symmetry. exact Ed.
Qed.

(** ** A stretch of requests, however it ends *)
Lemma exec_any e p l bs : stays_refused e -> flow p l bs -> forall t o st t' o', 0 <= p -> os_pos o = p -> exec e t l o = (st, t', o') ->
  exists k, (k <= length bs)%nat /\ os_data o' = splice (os_data o) p (firstn k bs).
Proof.
  intros St H. induction H as [p|p l bs H IH|p b l bs H IH|p b l bs H IH]; intros t o st t' o' P E; cbn [exec].
  - intros X. injection X as _ _ <-. exists 0%nat. auto.
  - intros X. exact (IH t (os_seekp p o) st t' o' P eq_refl X).
  - pose proof (Zlen_nonneg b). destruct (transfer e t b o) as [[f t1] o1] eqn:Et. destruct (transfer_spec _ _ _ _ _ _ _ Et) as (k0 & _ & Lk & Ek & Ew & _).
    assert (Stop : o' = o1 -> exists k, (k <= length (b ++ bs))%nat /\ os_data o' = splice (os_data o) p (firstn k (b ++ bs))).
    { intros ->. exists k0. rewrite app_length, firstn_app. replace (k0 - length b)%nat with 0%nat by lia. rewrite firstn_O, app_nil_r, Ek. cbn [os_write os_data]. rewrite E. split; [lia|reflexivity]. }
    destruct f; intros X; [|injection X as _ _ <-; exact (Stop eq_refl)..]. rewrite (Ew eq_refl) in X.
    destruct (IH t1 (os_write b o) st t' o' ltac:(lia) ltac:(cbn [os_write os_pos]; lia) X) as (k & L & D). exists (length b + k)%nat. rewrite app_length, firstn_app_2. split; [lia|]. rewrite D. cbn [os_write os_data]. rewrite E, splice_chain by exact P. reflexivity.
  - pose proof (Zlen_nonneg b). destruct (transfer e t b o) as [[f t1] o1] eqn:Et. destruct (transfer_spec _ _ _ _ _ _ _ Et) as (k0 & _ & Lk & Ek & Ew & _).
    assert (Stop : os_data o' = os_data o1 -> exists k, (k <= length (b ++ bs))%nat /\ os_data o' = splice (os_data o) p (firstn k (b ++ bs))).
    { intros ->. exists k0. rewrite app_length, firstn_app. replace (k0 - length b)%nat with 0%nat by lia. rewrite firstn_O, app_nil_r, Ek. cbn [os_write os_data]. rewrite E. split; [lia|reflexivity]. }
    destruct f; intros X.
    + rewrite (Ew eq_refl) in X.
      destruct (IH t1 (os_write b o) st t' o' ltac:(lia) ltac:(cbn [os_write os_pos]; lia) X) as (k & L & D). exists (length b + k)%nat. rewrite app_length, firstn_app_2. split; [lia|]. rewrite D. cbn [os_write os_data]. rewrite E, splice_chain by exact P. reflexivity.
    + apply Stop. destruct (transfer_refused _ _ _ _ _ _ Et) as (k & L & -> & Lo & Po).
      assert (Sk : seeks_from (p + Z.of_nat k) l) by (apply (seeks_mono _ (p + Zlen b)); [unfold Zlen; lia|exact (flow_seeks _ _ _ H)]).
      rewrite Po, E in Lo. destruct (exec_lost e (p + Z.of_nat k) St l t1 (os_write (firstn k b) o) _ _ _ Sk Lo ltac:(lia) X) as (D & _). exact D.
    + injection X as _ _ <-. exact (Stop eq_refl).
Qed.
Lemma exec_any_seek e p l bs t o st t' o' : stays_refused e -> flow p (Seek p :: l) bs -> 0 <= p -> exec e t (Seek p :: l) o = (st, t', o') -> exists k, (k <= length bs)%nat /\ os_data o' = splice (os_data o) p (firstn k bs).
Proof. intros St F P X. exact (exec_any e p _ _ St F t (os_seekp p o) st t' o' P eq_refl X). Qed.

(** ** What the file keeps *)
(** the whole ftyp box, and [p] 16 octets after it *)
Definition has (fb p d : list Z) : Prop := octets_at d (0, Zlen fb) = fb /\ octets_at d (Zlen fb + 16, Zlen p) = p.
Lemma has_intro fb pad p rest : Zlen pad = 16 -> has fb p (fb ++ pad ++ p ++ rest).
Proof.
  intros L. split; [apply at_zero|]. rewrite app_assoc. apply at_middle. rewrite Zlen_app. lia.
Qed.
Lemma has_nil fb rest : has fb [] (fb ++ rest).
Proof. split; [apply at_zero|reflexivity]. Qed.
Lemma has_form fb p d : has fb p d -> (p = [] /\ exists rest, d = fb ++ rest) \/ exists pad rest, Zlen pad = 16 /\ d = fb ++ pad ++ p ++ rest.
Proof.
  intros (A & B). unfold octets_at in *. cbn [fst snd] in *. change (Z.to_nat 0) with 0%nat in A. rewrite skipn_O in A. 
  assert (Ed : d = fb ++ skipn (length fb) d) by (rewrite <- (firstn_skipn (length fb) d) at 1; f_equal; unfold Zlen in A; rewrite Nat2Z.id in A; exact A).
  destruct p as [|x p]; [left; split; [reflexivity|eauto]|right]. 
  assert (B' : firstn (length (x :: p)) (skipn (length fb + 16) d) = x :: p) by (rewrite <- B at 2; f_equal; unfold Zlen; f_equal; lia).
  set (y := x :: p) in *. assert (Ly : (length y >= 1)%nat) by (cbn; lia).
  pose proof (f_equal (@length Z) B') as Lb. rewrite firstn_length, skipn_length in Lb.
  exists (firstn 16 (skipn (length fb) d)), (skipn (length y) (skipn (length fb + 16) d)). split; [unfold Zlen; rewrite firstn_length, skipn_length; lia|].
  rewrite Ed at 1. f_equal. rewrite <- (firstn_skipn 16 (skipn (length fb) d)) at 1. f_equal. rewrite skipn_skipn. rewrite <- B' at 1. rewrite firstn_skipn. f_equal.
Qed.
Lemma has_header fb p d b : has fb p d -> Zlen b <= 16 -> has fb p (splice d (Zlen fb) b).
Proof.
  intros H L. destruct (has_form _ _ _ H) as [(-> & rest & ->)|(pad & rest & Lp & ->)]; rewrite splice_at by reflexivity; [apply has_nil|].
  rewrite skipn_app. replace (length b - length pad)%nat with 0%nat by (unfold Zlen in *; lia). rewrite skipn_O, (app_assoc b). apply has_intro. unfold Zlen in *. rewrite app_length, skipn_length. lia.
Qed.
Lemma has_beyond fb p d q b : has fb p d -> Zlen fb + 16 + Zlen p <= q -> has fb p (splice d q b).
Proof.
  intros H Q. destruct b as [|x b]; [exact H|]. pose proof (Zlen_nonneg fb). pose proof (Zlen_nonneg p).
  destruct (has_form _ _ _ H) as [(-> & rest & ->)|(pad & rest & Lp & ->)]; unfold splice.
  - rewrite <- app_assoc, firstn_app, firstn_all2 by (unfold Zlen in *; lia). rewrite <- app_assoc. apply has_nil.
  - rewrite (app_assoc pad), (app_assoc fb), <- (app_assoc (fb ++ _)), firstn_app, firstn_all2 by (rewrite !app_length; unfold Zlen in *; lia). rewrite <- !app_assoc. apply has_intro. exact Lp.
Qed.

Lemma exec_stop e l2 : forall l1 t o st1 t1 o1, exec e t l1 o = (st1, t1, o1) -> st1 <> Running -> exec e t (l1 ++ l2) o = (st1, t1, o1).
Proof.
  induction l1 as [|c l1 IH]; intros t o st1 t1 o1; cbn [app exec]; [intros E; injection E as <- _ _; congruence|]. destruct c as [q|b|b]; [apply IH| |];
    destruct (transfer e t b o) as [[f t2] o2]; destruct f; auto.
Qed.
Lemma exec_through e l2 : forall l1 t o t1 o1, exec e t l1 o = (Running, t1, o1) -> exec e t (l1 ++ l2) o = exec e t1 l2 o1.
Proof.
  induction l1 as [|c l1 IH]; intros t o t1 o1; cbn [app exec]; [intros E; injection E as <- <-; reflexivity|]. destruct c as [q|b|b]; [apply IH| |];
    destruct (transfer e t b o) as [[f t2] o2]; destruct f; try discriminate; auto.
Qed.

Section S.
Variables (timescale duration time : Z) (ft : ftyp) (ops : list op) (sel : list nat).
Hypothesis (Fok : ftyp_ok ft) (Rec : recording ops) (Sel : chosen ops sel) (Bnd : movie_fits ft ops sel).
Notation fb := (ftyp_octets ft).
Notation F := (Zlen fb).
Notation m := (media ops).
Notation nid := (u32 (1 + ids_issued ops)).
Variables (e : devices).
Hypothesis St : stays_refused (on_output e).

Lemma dev_any o t s st t' s' r : simple_call o = true -> dev_step e t s o = (st, t', s', r) ->
  (exists s1 os, step s o = (s1, Ok tt) /\ exec (on_output e) t (call_cmds o (s_writer s)) (mw_os (s_writer s)) = (st, t', os) /\ mw_os (s_writer s') = os /\ (st <> Running -> s_writer s' = set_os os (s_writer s))) \/
  (st = Running /\ (s', r) = step s o /\ r <> Ok tt).
Proof.
  intros Sc E. assert (X : match step s o with
      | (s', Ok _) =>
          let '(st, t', os) := exec (on_output e) t (call_cmds o (s_writer s)) (mw_os (s_writer s)) in
          match st with
          | Running => (st, t', mk_session (set_os os (s_writer s')) (s_tracks s'), Ok tt)
          | _ => (st, t', mk_session (set_os os (s_writer s)) (s_tracks s), Ok tt)
          end
      | (s', r) => (Running, t, s', r)
      end = (st, t', s', r)) by (destruct o; try discriminate Sc; exact E). clear E.
  destruct (step s o) as [s1 [[]|x|]]; [left|right; injection X as <- <- <- <-; repeat split; discriminate..].
  destruct (exec _ t _ _) as [[st1 t1] os]. destruct st1; injection X as <- <- <- <-; exists s1, os; cbn [s_writer set_os mw_os]; repeat split; auto; congruence.
Qed.
Lemma run_dev_app_any a : forall b t s st t' s' rs, run_dev e t s (a ++ b) = (st, t', s', rs) ->
  (st <> Running /\ run_dev e t s a = (st, t', s', rs)) \/
  exists t1 s1 rs1 rs2, run_dev e t s a = (Running, t1, s1, rs1) /\ run_dev e t1 s1 b = (st, t', s', rs2) /\ rs = rs1 ++ rs2.
Proof.
  induction a as [|o a IH]; intros b t s st t' s' rs E; cbn [app run_dev] in *; [right; exists t, s, [], rs; auto|].
  destruct (dev_step e t s o) as [[[st1 t1] s1] r]. destruct st1; [|left; injection E as <- <- <- <-; split; [discriminate|reflexivity]..]. destruct (run_dev e t1 s1 (a ++ b)) as [[[st2 t2] s2] rs2] eqn:E2. injection E as <- <- <- <-.
  destruct (IH _ _ _ _ _ _ _ E2) as [(N & ->)|(t3 & s3 & ra & rb & -> & Eb & ->)]; [left; auto|]. right. exists t3, s3, (r :: ra), rb. auto.
Qed.

(** a failing call leaves the stream alone *)
Lemma fail_append s s' r : mw_class (s_writer s) = Simple -> (s', r) = step s (O_AppendTrakAndUdta sel) -> r <> Ok tt -> s' = s.
Proof. intros C E N. cbn [step] in E. rewrite C in E. destruct (Simple_append sel s); cbn [lift_s] in E; injection E as -> ->; congruence. Qed.
Lemma fail_header s s' r : (s', r) = step s O_WriteFreeAndMdatHeader -> r <> Ok tt -> s' = s.
Proof. intros E N. cbn [step] in E. destruct (SimpleWriter_writeFreeBoxAndMdatHeader (s_writer s)); cbn [lift] in E; injection E as -> ->; congruence. Qed.
Lemma fail_moov s s' r : (s', r) = step s O_WriteMoov -> r <> Ok tt -> s' = s.
Proof. intros E N. cbn [step] in E. destruct (Writer_writeMoovBox (s_writer s)); cbn [lift] in E; injection E as -> ->; congruence. Qed.

(** after a loss writeMoovBox stores nothing *)
Lemma moov_doomed t s st t' s' r : doomed timescale duration time ft ops e t s -> dev_step e t s O_WriteMoov = (st, t', s', r) -> output s' = output s.
Proof.
  intros [D1 D2 D3 (q & D4) D5] E. destruct (dev_any O_WriteMoov _ _ _ _ _ _ eq_refl E) as [(s1 & os & E1 & X & Eo & _)|(_ & Es & N)]; [|rewrite (fail_moov _ _ _ Es N); reflexivity].
  unfold output. rewrite Eo. clear Eo E.
  destruct (movie_fits_media _ _ _ Fok Bnd) as (B1 & B2 & B3). pose proof (SimpleFile.ftyp_size ft Fok) as Bf. unfold movie_fits in Bnd. pose proof (Zlen_nonneg fb). pose proof (Zlen_nonneg m). pose proof (Zlen_nonneg (ftyp_compatible_brands ft)).
  cbn [step] in E1. unfold Writer_writeMoovBox in E1. cbn [call_cmds] in X. unfold writeMoovBox_cmds in X. rewrite D1 in *. unfold Writer_setOffsetAndSize in *. rewrite D4, D2, D1, D3 in *. unfold LARGE_HEADER_SIZE in *. rewrite u64_small in * by lia.
  unfold BoxInfo_adjustOffsetAndSize in *. set (n0 := Node _ _ _ _) in *. destruct (adjust (adjust_fuel n0) n0 (F + 16 + Zlen m)) as [[n' z]|] eqn:Ea; [|discriminate]. clear E1.
  destruct (adjust_first (F + 16 + Zlen m) ltac:(lia) ltac:(lia) _ (str "moov") None _ _ _ _ (or_introl eq_refl) Ea) as (t2 & h2 & k2 & r2 & hk & -> & Q1 & Q2 & Q3 & Q4).
  unfold moov_tree_cmds in X. cbn [set_moov mw_moov mw_next_id] in X. destruct (set_id_kid (mw_next_id (s_writer s)) t2 (Some h2) k2 r2) as (k3 & Q0 & Q5 & Q6). rewrite Q0 in X.
  destruct (Q6 _ Q2) as (v & Hb & Hv). clear Q6. rewrite BoxInfo_cmds_eq in X. cbn [flat_map] in X. destruct k3 as [t3 h3 b3 l3]. cbn [n_header n_box] in *. rewrite Q3 in Q5. subst h3 b3. rewrite BoxInfo_cmds_eq, Q1 in X.
  assert (Nw : payload_octets (B_mvhd v) <> []) by (rewrite Hv; exact (mvhd_writes timescale duration time (mw_next_id (s_writer s)))).
  set (off := F + 16 + Zlen m) in *. set (l1 := [Put (header_octets h2); Write (payload_octets B_container); Seek (h_offset hk); Put (header_octets hk); Write (payload_octets (B_mvhd v))]).
  destruct (exec (on_output e) t l1 (os_seekp off (mw_os (s_writer s)))) as [[st1 t1] o2] eqn:X1.
  destruct (exec_lost (on_output e) off St l1 t (os_seekp off (mw_os (s_writer s))) st1 t1 o2) as (D & _ & N); [|exact D5|exact (Z.le_refl off)|exact X1|].
  { repeat constructor. exact Q4. }
  assert (Ns : st1 <> Running). { intros ->. apply (N eq_refl). unfold l1. do 4 apply Exists_cons_tl. apply Exists_cons_hd. exact Nw. }
  pose proof (exec_stop (on_output e) (flat_map BoxInfo_cmds l3 ++ flat_map BoxInfo_cmds r2) l1 _ _ _ _ _ X1 Ns) as X2.
  assert (Y : (st, t', os) = (st1, t1, o2)) by (rewrite <- X, <- X2; reflexivity). injection Y as _ _ ->. exact D.
Qed.
Lemma header_any t s st t' s' r p : mw_class (s_writer s) = Simple -> mw_ftyp_size (s_writer s) = Some F -> mw_mdat_size (s_writer s) = Zlen m ->
  has fb p (output s) -> dev_step e t s O_WriteFreeAndMdatHeader = (st, t', s', r) -> has fb p (output s').
Proof.
  intros V1 V2 V3 H E. destruct (dev_any O_WriteFreeAndMdatHeader _ _ _ _ _ _ eq_refl E) as [(s1 & os & E1 & X & Eo & _)|(_ & Es & N)]; [|rewrite (fail_header _ _ _ Es N); exact H].
  destruct (movie_fits_media _ _ _ Fok Bnd) as (B1 & B2 & B3). pose proof (Zlen_nonneg fb). cbn [call_cmds] in X. destruct (free_flow ft ops _ V1 V2 V3 ltac:(unfold movie_fits in Bnd; pose proof (SimpleFile.ftyp_size ft Fok); lia)) as (l & El & Fl). rewrite El in X.
  destruct (exec_any_seek _ _ _ _ _ _ _ _ _ St Fl ltac:(lia) X) as (k & Lk & D). unfold output in *. rewrite Eo, D. apply has_header; [exact H|].
  assert (L16 : length (free_header m ++ frame_header (str "mdat") (Zlen m)) = 16%nat) by (apply Nat2Z.inj; exact (free_mdat_length m)). unfold Zlen. rewrite firstn_length. lia.
Qed.

(** the call writeMoovBox when nothing has been lost before it *)
Lemma moov_sound t s3 st t' s' r p ts0 (traks := map (fun t => make_trak (Track_finalize t)) ts0) :
  mw_class (s_writer s3) = Simple -> mw_ftyp_size (s_writer s3) = Some F -> mw_mdat_size (s_writer s3) = Zlen m -> mw_next_id (s_writer s3) = nid ->
  mw_moov (s_writer s3) = Some (moov_node timescale duration time 1 traks) -> sum_by nsize traks <= moov_bound ops sel - 4096 ->
  prefix_of p m -> has fb p (output s3) -> dev_step e t s3 O_WriteMoov = (st, t', s', r) -> has fb p (output s').
Proof.
  intros V1 V2 V3 V5 W1 Bt (x & Ep) H E. destruct (dev_any O_WriteMoov _ _ _ _ _ _ eq_refl E) as [(s1 & os & E1 & X & Eo & _)|(_ & Es & N)]; [|rewrite (fail_moov _ _ _ Es N); exact H].
  destruct (movie_fits_media _ _ _ Fok Bnd) as (B1 & B2 & B3). pose proof (SimpleFile.ftyp_size ft Fok) as Bf. pose proof Bnd as Bnd'. unfold movie_fits in Bnd'. pose proof (Zlen_nonneg fb). pose proof (Zlen_nonneg m). pose proof (Zlen_nonneg (ftyp_compatible_brands ft)).
  assert (So : forall id, sound (moov_node timescale duration time id traks)).
  { intros id. apply sound_moov_node. subst traks. apply Forall_map, Forall_forall. intros t0 _. apply sound_trak. }
  pose proof (fun id => moov_size timescale duration time id traks) as Ms.
  assert (Ec2 : call_cmds O_WriteMoov (s_writer s3) = BoxInfo_cmds (place (moov_node timescale duration time nid traks) (F + 16 + Zlen m))).
  { cbn [call_cmds]. unfold writeMoovBox_cmds. rewrite V1. unfold Writer_setOffsetAndSize. rewrite W1, V2, V1, V3.
    unfold LARGE_HEADER_SIZE. rewrite u64_small by lia. rewrite sound_adjust by (auto; specialize (Ms 1); lia).
    unfold moov_tree_cmds. cbn [set_moov mw_moov mw_next_id]. rewrite V5, set_id_place. reflexivity. }
  rewrite Ec2 in X. pose proof (flow_place (moov_node timescale duration time nid traks) (F + 16 + Zlen m) (So nid) ltac:(lia) ltac:(specialize (Ms nid); lia)) as Fl.
  destruct (place_cmds (moov_node timescale duration time nid traks) (F + 16 + Zlen m) (So nid)) as (l & El). rewrite El in *.
  destruct (exec_any_seek _ _ _ _ _ _ _ _ _ St Fl ltac:(lia) X) as (k & _ & D). unfold output in *. rewrite Eo, D. apply has_beyond; [exact H|]. rewrite Ep, Zlen_app. pose proof (Zlen_nonneg x). lia.
Qed.

Lemma prefix_trans a b c : prefix_of a b -> prefix_of b c -> prefix_of a c.
Proof. intros (x & ->) (y & ->). exists (x ++ y). rewrite app_assoc. reflexivity. Qed.

Lemma simple_kept t st t' s rs : run_dev e t (start Simple timescale duration time ft) (simple_program ops sel) = (st, t', s, rs) ->
  (rs = [] -> prefix_of (output s) fb) /\
  (rs <> [] -> exists p, prefix_of p m /\ has fb p (output s) /\
     (prefix_of (media (firstn (length rs - 1) ops)) p \/ exists t0 pos, on_output e t0 pos = Refused /\ pos <= F + 16 + Zlen p)).
Proof.
  intros E. unfold simple_program in E. cbn [run_dev] in E. destruct (dev_step e t (start Simple timescale duration time ft) O_WriteFtyp) as [[[st1 t1] s1] r1] eqn:E1.
  destruct (movie_fits_media _ _ _ Fok Bnd) as (B1 & B2 & B3). pose proof (Zlen_nonneg fb). pose proof (Zlen_nonneg m).
  assert (Hn : st1 = Running \/ st1 <> Running) by (destruct st1; auto; right; discriminate). destruct Hn as [->|Ns].
  2: { assert (X : (st, t', s, rs) = (st1, t1, s1, [])) by (rewrite <- E; destruct st1; [congruence|reflexivity..]). injection X as -> -> -> ->. split; [intros _|congruence].
       destruct (dev_any O_WriteFtyp _ _ _ _ _ _ eq_refl E1) as [(s2 & os & _ & X & Eo & _)|(Y & _)]; [|congruence].
       pose proof (sound_ftyp ft Fok) as Sf. pose proof (sound_size _ Sf) as Ls. fold fb in Ls. cbn [call_cmds] in X. unfold writeFtypBox_cmds in X. 
       assert (Ew : mw_ftyp (s_writer (start Simple timescale duration time ft)) = ft) by reflexivity. rewrite Ew in X. assert (Eo2 : mw_os (s_writer (start Simple timescale duration time ft)) = mkOS [] 0) by reflexivity. rewrite Eo2 in X.
       fold (ftyp_node ft) in X. rewrite sound_adjust in X by (auto; lia). set (l := BoxInfo_cmds _) in X.
       match type of X with exec _ _ (l ++ ?l2) ?o = _ => destruct (exec (on_output e) t l o) as [[st2 t2] o2] eqn:X2; destruct st2 end.
       - rewrite (exec_through _ _ _ _ _ _ _ X2) in X. cbn [exec] in X. injection X as <- _ _. congruence.
       - rewrite (exec_stop _ _ _ _ _ _ _ _ X2) in X by discriminate. injection X as <- <- <-. destruct (exec_any _ 0 l _ St (flow_place (ftyp_node ft) 0 Sf ltac:(lia) ltac:(lia)) t (mkOS [] 0) _ _ _ ltac:(lia) eq_refl X2) as (k & _ & D).
         cbn [os_data] in D. fold fb in D. pose proof (splice_end [] (firstn k fb)) as Se. change (Zlen (@nil Z)) with 0 in Se. cbn [app] in Se. rewrite Se in D. unfold output. rewrite Eo, D. exists (skipn k fb). symmetry. apply firstn_skipn.
       - rewrite (exec_stop _ _ _ _ _ _ _ _ X2) in X by discriminate. injection X as <- <- <-. destruct (exec_any _ 0 l _ St (flow_place (ftyp_node ft) 0 Sf ltac:(lia) ltac:(lia)) t (mkOS [] 0) _ _ _ ltac:(lia) eq_refl X2) as (k & _ & D).
         cbn [os_data] in D. fold fb in D. pose proof (splice_end [] (firstn k fb)) as Se. change (Zlen (@nil Z)) with 0 in Se. cbn [app] in Se. rewrite Se in D. unfold output. rewrite Eo, D. exists (skipn k fb). symmetry. apply firstn_skipn. }
  pose proof (ftyp_done timescale duration time ft ops sel Fok Bnd e St _ _ _ _ _ E1) as D1.
  destruct (run_dev e t1 s1 _) as [[[st2 t2] s2] rs1] eqn:E2. injection E as <- <- <- <-. split; [discriminate|intros _]. cbn [length]. replace (S (length rs1) - 1)%nat with (length rs1) by lia.
  destruct (start_sinv Simple timescale duration time ft Fok B1) as (S1 & S2). cbv zeta in S1, S2. rewrite <- D1 in S1, S2. cbn [fst snd] in S1, S2. subst r1.
  assert (After : forall a b, ops = a ++ b -> sinv Simple timescale duration time ft fb (base_of Simple ft) a (fst (run s1 a))).
  { intros a b Eq. destruct (after_calls timescale duration time ft ops sel Fok Rec Bnd Simple a b Eq) as (sa & Ea & Sa). cbn [run] in Ea. rewrite <- D1 in Ea. destruct (run s1 a). cbn [fst] in *. subst sa. exact Sa. }
  assert (Shape : forall a b a0 o t0, ops = a ++ b -> prefix_of (media a0) (media a) -> tidy F o -> short (on_output e) t0 (F + 16 + Zlen (media a0)) o (mw_os (s_writer (fst (run s1 a)))) ->
     exists p, prefix_of p (media a) /\ has fb p (os_data o) /\ (prefix_of (media a0) p \/ exists t0 pos, on_output e t0 pos = Refused /\ pos <= F + 16 + Zlen p)).
  { intros a b a0 o t0 Eq Pf Ti Sh. destruct (si_w _ _ _ _ _ _ _ _ _ (After a b Eq)) as [_ _ _ _ _ _ _ _ (D2 & _ & D3 & D4)]. rewrite D2 in D3.
    destruct (short_shape fb (media a) (media a0) _ _ (on_output e) t0 Ti D3 D4 Pf Sh) as (p & P1 & P2 & P3 & P4). exists p. split; [exact P1|]. split.
    - assert (P5 : os_data o = fb ++ repeat 0 16 ++ p \/ (exists rest, os_data o = fb ++ rest) /\ p = []).
      { destruct P4 as [(-> & ->)|[P4|(P4 & ->)]]; [|auto|right; split; [exists []; rewrite app_nil_r; exact P4|reflexivity]]. destruct D4 as (pad & D4 & [->|(-> & Em)]); [auto|]. right. rewrite Em in *. split; [exists []; exact D4|reflexivity]. }
      destruct P5 as [->|((rest & ->) & ->)]; [|apply has_nil]. rewrite <- (app_nil_r p) at 2. apply has_intro. reflexivity.
    - destruct P3 as [P3|(t3 & p3 & Q1 & _ & Q2)]; [auto|]. right. exists t3, p3. auto. }
  destruct Rec as [R1 R2 R3 R4]. pose proof (si_w _ _ _ _ _ _ _ _ _ S2) as W2. destruct (wi_streams _ _ _ _ _ _ _ _ _ _ W2) as (Bs & _ & Pos & pad0 & Dt0 & Pd0). rewrite Bs in Pos. change (media []) with (@nil Z) in *. rewrite (@Zlen_nil Z), Z.add_0_r in Pos.
  assert (T0 : tidy F (mw_os (s_writer s1))).
  { split; [lia|]. split; [lia|]. rewrite Dt0, Pos. rewrite app_nil_r, Zlen_app. destruct Pd0 as [->|(-> & _)]; [left; change (Zlen (repeat 0 16)) with 16; lia|right; rewrite (@Zlen_nil Z); lia]. }
  assert (Be0 : beside (on_output e) t1 s1 s1).
  { split; [symmetry; apply set_os_same|]. split; [|left; reflexivity]. clear. induction (s_tracks s1); constructor; auto. }
  assert (Sh0 : short (on_output e) t1 (os_pos (mw_os (s_writer s1))) (mw_os (s_writer s1)) (mw_os (s_writer s1))) by (exists []; rewrite os_write_nil; split; [reflexivity|right; lia]).
  destruct (run_dev_app_any ops _ _ _ _ _ _ _ E2) as [(Ns & E3)|(t3 & s3 & ra & rb & E3 & E4 & ->)]; clear E2.
  { destruct (record_short e F St ops _ _ s1 _ _ _ _ R1 (wi_class _ _ _ _ _ _ _ _ _ _ W2) ltac:(lia) Be0 T0 Sh0 E3) as (_ & Ti & K).
    assert (K' : exists a1 o a2, ops = a1 ++ o :: a2 /\ length rs1 = length a1 /\ short (on_output e) t2 (os_pos (mw_os (s_writer (fst (run s1 a1))))) (mw_os (s_writer s2)) (mw_os (s_writer (fst (run s1 (a1 ++ [o])))))) by (destruct st2; [congruence|exact K..]).
    destruct K' as (a1 & o & a2 & Eq & L & Sh). assert (Eq2 : ops = (a1 ++ [o]) ++ a2) by (rewrite <- app_assoc; exact Eq).
    destruct (si_w _ _ _ _ _ _ _ _ _ (After a1 _ Eq)) as [_ _ _ _ _ _ _ _ (D2 & _ & D3 & _)]. rewrite D3, D2 in Sh.
    destruct (Shape (a1 ++ [o]) a2 a1 _ _ Eq2 ltac:(destruct (media_app a1 [o]) as (r & ->); exists r; reflexivity) Ti Sh) as (p & P1 & P2 & P3). exists p.
    split; [eapply prefix_trans; [exact P1|]; rewrite Eq2; destruct (media_app (a1 ++ [o]) a2) as (r & ->); exists r; reflexivity|]. split; [exact P2|].
    assert (Fn : firstn (length rs1) ops = a1) by (rewrite L, Eq, firstn_app, Nat.sub_diag, firstn_all, firstn_O, app_nil_r; reflexivity). rewrite Fn. exact P3. }
  destruct (record_short e F St ops _ _ s1 _ _ _ _ R1 (wi_class _ _ _ _ _ _ _ _ _ _ W2) ltac:(lia) Be0 T0 Sh0 E3) as (_ & Ti & Be & Er & Sh).
  assert (Lr : length ra = length ops) by (rewrite Er; apply run_length).
  assert (Fn : firstn (length (ra ++ rb)) ops = ops) by (rewrite firstn_all2; [reflexivity|rewrite app_length; lia]). rewrite Fn. clear Fn.
  pose proof (After ops [] (eq_sym (app_nil_r _))) as S3. set (sp := fst (run s1 ops)) in *.
  destruct (si_w _ _ _ _ _ _ _ _ _ S3) as [C1 C2 C3 C4 C5 C6 C7 C8 (Q1 & Q2 & Q3 & pad & Q4 & Q5)]. rewrite Q3, Q1 in Sh.
  destruct (Shape ops [] ops _ _ (eq_sym (app_nil_r _)) (prefix_refl _) Ti Sh) as (p & P1 & P2 & P3). exists p. split; [exact P1|]. split; [|exact P3].
  clear Shape After E1 E3 Sh0 Be0 T0 Er S2 W2 D1 Lr Sh Ti P3. clearbody sp. change (has fb p (output s3)) in P2.
  (* the finishing calls *)
  assert (Cl : mw_class (s_writer s3) = Simple) by (destruct Be as (Bw & _); unfold beside_w in Bw; rewrite Bw; exact C1).
  cbn [run_dev] in E4. destruct (dev_step e t3 s3 (O_AppendTrakAndUdta sel)) as [[[sta ta] sa] rra] eqn:Ea.
  assert (Sa : sta = Running).
  { destruct (dev_any (O_AppendTrakAndUdta sel) _ _ _ _ _ _ eq_refl Ea) as [(sx & os & _ & X & _ & _)|(Y & _)]; [cbn [call_cmds exec] in X; injection X as <- _ _; reflexivity|exact Y]. }
  subst sta.
  assert (Pa : has fb p (output sa)).
  { destruct (dev_any (O_AppendTrakAndUdta sel) _ _ _ _ _ _ eq_refl Ea) as [(sx & os & _ & X & Eo & _)|(Y & Es & N)]; [cbn [call_cmds exec] in X; injection X as _ <-; unfold output; rewrite Eo; exact P2|rewrite (fail_append _ _ _ Cl Es N); exact P2]. }
  destruct (dev_step e ta sa O_WriteFreeAndMdatHeader) as [[[stb tb] sb] rrb] eqn:Eb.
  assert (L16 : length (free_header m ++ frame_header (str "mdat") (Zlen m)) = 16%nat) by (apply Nat2Z.inj; exact (free_mdat_length m)).
  pose proof (SimpleFile.ftyp_size ft Fok) as Bf. pose proof Bnd as Bnd'. unfold movie_fits in Bnd'. pose proof (Zlen_nonneg (ftyp_compatible_brands ft)).
  destruct Be as (Bw & _ & [->|L]).
  - (* nothing lost so far *)
    destruct (dev_silent e (O_AppendTrakAndUdta sel) _ _ _ _ _ eq_refl eq_refl Ea) as (Sta & ->). destruct (simple_append timescale duration time ft ops sel Sel sp S3) as (s4 & ts0 & E5 & HT & W1).
    rewrite E5 in Sta. injection Sta as -> ->.
    assert (Hw : mw_class (s_writer s4) = Simple /\ mw_ftyp_size (s_writer s4) = Some F /\ mw_mdat_size (s_writer s4) = Zlen m /\ mw_os (s_writer s4) = mw_os (s_writer sp) /\ mw_next_id (s_writer s4) = nid) by (rewrite W1; cbn; auto).
    destruct Hw as (V1 & V2 & V3 & V4 & V5). pose proof (header_any _ _ _ _ _ _ _ V1 V2 V3 Pa Eb) as Pb.
    destruct stb; [|injection E4 as _ _ <- _; exact Pb..].
    destruct (dev_step e tb sb O_WriteMoov) as [[[stc tc] sc] rrc] eqn:Ec. assert (Esc : s2 = sc) by (destruct stc; injection E4 as _ _ <- _; reflexivity). subst s2. clear E4.
    destruct (simple_header ft ops (s_writer s4) _ V1 V2 V3 ltac:(lia) V4 ltac:(exists pad; auto)) as (o' & Eh & O').
    assert (Es : step s4 O_WriteFreeAndMdatHeader = (mk_session (set_os o' (s_writer s4)) (s_tracks s4), Ok tt)) by (cbn [step]; rewrite Eh; reflexivity).
    destruct (dev_simple e O_WriteFreeAndMdatHeader _ _ _ _ _ eq_refl Eb) as [(sx & os & Ex & -> & X & Esb)|(A & N & _)]; [|rewrite Es in A; injection A as _ A; congruence].
    rewrite Es in Ex. injection Ex as <-. cbn [s_writer s_tracks] in Esb. subst sb. apply (moov_sound tb _ stc tc sc rrc p ts0) in Ec; auto; cbn [s_writer set_os mw_class mw_ftyp_size mw_mdat_size mw_next_id mw_moov]; auto.
    + rewrite W1. cbn [set_moov mw_moov]. reflexivity.
    + apply (traks_bound time ops sel Track_finalize). clear -HT. induction HT as [|i t0 sel ts0 (_ & T) H IH]; constructor; auto. exists (F + 16), (F + 16). split; [exact T|]. split; [apply recorded_finalize, (ti_rec _ _ _ _ _ T)|].
      unfold Track_finalize. destruct (t_finalized t0); reflexivity.
  - assert (Dm : doomed timescale duration time ft ops e t3 s3).
    { unfold beside_w in Bw. constructor; [rewrite Bw; exact C1|rewrite Bw; exact C6|rewrite Bw; exact C7|exists []; rewrite Bw; exact Q2|]. rewrite Q3, Q1 in L. exact L. }
    pose proof (doomed_append timescale duration time ft ops sel e _ _ _ _ _ Dm Ea) as Da. destruct Da as [G1 G2 G3 G4 G5].
    pose proof (header_any _ _ _ _ _ _ _ G1 G2 G3 Pa Eb) as Pb. destruct stb; [|injection E4 as _ _ <- _; exact Pb..].
    destruct (dev_step e tb sb O_WriteMoov) as [[[stc tc] sc] rrc] eqn:Ec. assert (Esc : s2 = sc) by (destruct stc; injection E4 as _ _ <- _; reflexivity). subst s2. clear E4.
    pose proof (doomed_header timescale duration time ft ops e _ _ _ _ _ (Build_doomed _ _ _ _ _ _ _ _ G1 G2 G3 G4 G5) Eb) as Db. rewrite (moov_doomed _ _ _ _ _ _ Db Ec). exact Pb.
Qed.
End S.

(** * FaststartWriter *)
Lemma tmp_set_offset w w' : Writer_setOffsetAndSize w = Ok w' -> mw_tmp w' = mw_tmp w /\ mw_tmp_open w' = mw_tmp_open w.
Proof.
  unfold Writer_setOffsetAndSize. destruct (mw_moov w) as [m|]; [|discriminate]. destruct (mw_ftyp_size w); [|discriminate]. cbv zeta.
  destruct (BoxInfo_adjustOffsetAndSize m _) as [[m' zz]| |]; try discriminate. intros E. injection E as <-. auto.
Qed.
Lemma tmp_iter sel s p z s' z' : Faststart_iter sel s p z = Ok (s', z') -> mw_tmp (s_writer s') = mw_tmp (s_writer s) /\ mw_tmp_open (s_writer s') = mw_tmp_open (s_writer s).
Proof.
  unfold Faststart_iter, Faststart_recreateMoovBoxInfo. intros E.
  destruct (Writer_setOffsetAndSize (set_moov _ (s_writer s))) as [w1| |] eqn:E1; cbn [obind] in E; try discriminate.
  destruct (mw_moov w1) as [m|]; [|discriminate]. destruct (append_traks _ sel m (s_tracks s)) as [[m' ts]| |]; cbn [obind] in E; try discriminate.
  destruct (Writer_setOffsetAndSize (set_moov _ w1)) as [w2| |] eqn:E2; cbn [obind] in E; try discriminate.
  destruct (Faststart_size w2) as [z2| |]; cbn [obind] in E; try discriminate. destruct (z2 <? z); [discriminate|]. injection E as <- _. cbn [s_writer].
  destruct (tmp_set_offset _ _ E2) as (-> & ->). cbn [set_moov mw_tmp mw_tmp_open]. destruct (tmp_set_offset _ _ E1) as (-> & ->). auto.
Qed.
Lemma tmp_loop sel : forall fuel s p z s', Faststart_loop fuel sel s p z = Some (Ok s') -> mw_tmp (s_writer s') = mw_tmp (s_writer s) /\ mw_tmp_open (s_writer s') = mw_tmp_open (s_writer s).
Proof.
  induction fuel as [|f IH]; intros s p z s'; cbn [Faststart_loop]; [discriminate|]. destruct (Faststart_iter sel s p z) as [[s1 z1]| |] eqn:E; try discriminate.
  destruct (tmp_iter _ _ _ _ _ _ E) as (H1 & H2). destruct (negb _); [|intros X; injection X as <-; auto]. intros X. destruct (IH _ _ _ _ X) as (-> & ->). auto.
Qed.
(** the finishing calls before copyMdatData leave the intermediate file alone *)
Definition finishing (o : op) : bool := match o with O_AppendTrakAndUdta _ | O_WriteMoov | O_WriteMdatHeader => true | _ => false end.
Lemma step_tmp s o : finishing o = true -> mw_class (s_writer s) = Faststart ->
  mw_tmp (s_writer (fst (step s o))) = mw_tmp (s_writer s) /\ mw_tmp_open (s_writer (fst (step s o))) = mw_tmp_open (s_writer s).
Proof.
  intros Fi C. destruct o; try discriminate Fi; cbn [step].
  - rewrite C. unfold Faststart_append. destruct (Faststart_size (s_writer s)) as [z| |]; try (cbn [lift_s fst]; auto).
    destruct (Faststart_loop _ sel s 0 z) as [[s1| |]|] eqn:El; cbn [lift_s fst]; auto. exact (tmp_loop _ _ _ _ _ _ El).
  - unfold Faststart_writeMdatHeader. destruct (mw_ftyp_size (s_writer s)) as [f|]; [|cbn; auto]. destruct (Faststart_getMoovSize (s_writer s)) as [m| |]; cbn; auto.
  - unfold Writer_writeMoovBox. rewrite C. destruct (mw_ftyp_size (s_writer s)) as [f|]; [|cbn; auto]. unfold write_moov_tree. cbn [set_os mw_moov mw_next_id mw_os]. destruct (mw_moov (s_writer s)) as [m|]; [|cbn; auto].
    destruct (BoxInfo_write _ _) as [[n' o']| |]; cbn; auto.
Qed.
Lemma class_set_offset w w' : Writer_setOffsetAndSize w = Ok w' -> mw_class w' = mw_class w.
Proof.
  unfold Writer_setOffsetAndSize. destruct (mw_moov w) as [m|]; [|discriminate]. destruct (mw_ftyp_size w); [|discriminate]. cbv zeta.
  destruct (BoxInfo_adjustOffsetAndSize m _) as [[m' zz]| |]; try discriminate. intros E. injection E as <-. auto.
Qed.
Lemma class_loop sel : forall fuel s p z s', Faststart_loop fuel sel s p z = Some (Ok s') -> mw_class (s_writer s') = mw_class (s_writer s).
Proof.
  induction fuel as [|f IH]; intros s p z s'; cbn [Faststart_loop]; [discriminate|]. destruct (Faststart_iter sel s p z) as [[s1 z1]| |] eqn:E0; try discriminate.
  assert (H : mw_class (s_writer s1) = mw_class (s_writer s)).
  { revert E0. unfold Faststart_iter, Faststart_recreateMoovBoxInfo. intros E.
    destruct (Writer_setOffsetAndSize (set_moov _ (s_writer s))) as [w1| |] eqn:E1; cbn [obind] in E; try discriminate.
    destruct (mw_moov w1) as [m|]; [|discriminate]. destruct (append_traks _ sel m (s_tracks s)) as [[m' ts]| |]; cbn [obind] in E; try discriminate.
    destruct (Writer_setOffsetAndSize (set_moov _ w1)) as [w2| |] eqn:E2; cbn [obind] in E; try discriminate.
    destruct (Faststart_size w2) as [z2| |]; cbn [obind] in E; try discriminate. destruct (z2 <? z); [discriminate|]. injection E as <- _. cbn [s_writer].
    rewrite (class_set_offset _ _ E2). cbn [set_moov mw_class]. rewrite (class_set_offset _ _ E1). reflexivity. }
  destruct (negb _); [|intros X; injection X as <-; exact H]. intros X. rewrite (IH _ _ _ _ X). exact H.
Qed.
Lemma step_class s o : finishing o = true -> mw_class (s_writer s) = Faststart -> mw_class (s_writer (fst (step s o))) = Faststart.
Proof.
  intros Fi C. destruct o; try discriminate Fi; cbn [step].
  - rewrite C. unfold Faststart_append. destruct (Faststart_size (s_writer s)) as [z| |]; try (cbn [lift_s fst]; auto).
    destruct (Faststart_loop _ sel s 0 z) as [[s1| |]|] eqn:El; cbn [lift_s fst]; auto. rewrite (class_loop _ _ _ _ _ _ El). exact C.
  - unfold Faststart_writeMdatHeader. destruct (mw_ftyp_size (s_writer s)) as [f|]; [|cbn; auto]. destruct (Faststart_getMoovSize (s_writer s)) as [m| |]; cbn; auto.
  - unfold Writer_writeMoovBox. rewrite C. destruct (mw_ftyp_size (s_writer s)) as [f|]; [|cbn; auto]. unfold write_moov_tree. cbn [set_os mw_moov mw_next_id mw_os]. destruct (mw_moov (s_writer s)) as [m|]; [|cbn; auto].
    destruct (BoxInfo_write _ _) as [[n' o']| |]; cbn; auto.
Qed.
Lemma dev_tmp e t s o st t' s' r : finishing o = true -> mw_class (s_writer s) = Faststart -> dev_step e t s o = (st, t', s', r) ->
  mw_class (s_writer s') = Faststart /\ mw_tmp (s_writer s') = mw_tmp (s_writer s) /\ mw_tmp_open (s_writer s') = mw_tmp_open (s_writer s).
Proof.
  intros Fi C E. pose proof (step_tmp s o Fi C) as (T1 & T2). pose proof (step_class s o Fi C) as T3. assert (X : match step s o with
      | (s', Ok _) =>
          let '(st, t', os) := exec (on_output e) t (call_cmds o (s_writer s)) (mw_os (s_writer s)) in
          match st with
          | Running => (st, t', mk_session (set_os os (s_writer s')) (s_tracks s'), Ok tt)
          | _ => (st, t', mk_session (set_os os (s_writer s)) (s_tracks s), Ok tt)
          end
      | (s', r) => (Running, t, s', r)
      end = (st, t', s', r)) by (destruct o; try discriminate Fi; exact E). clear E.
  destruct (step s o) as [s1 [[]|x|]]; cbn [fst] in *; [|injection X as _ _ <- _; auto..].
  destruct (exec _ t _ _) as [[st1 t1] os]. destruct st1; injection X as _ _ <- _; cbn [s_writer set_os mw_tmp mw_tmp_open mw_class]; auto.
Qed.

(** interrupted while recording: raised or killed alike *)
Lemma fast_stop e t s o st t' s' r : media_op o = true -> mw_class (s_writer s) = Faststart -> st <> Running -> dev_step e t s o = (st, t', s', r) -> interrupted s o s'.
Proof.
  intros M C N E.
  assert (Add : forall d w st1 t0 t1 r1, mw_class w = Faststart -> dev_addMdatData e t0 d w = (st1, t1, r1) ->
     (st1 = Running /\ r1 = Writer_addMdatData d w) \/ (st1 <> Running /\ exists k, (k < length d)%nat /\ r1 = Ok (cut_store k d w))).
  { clear. intros d w st1 t0 t1 r1 C E. unfold dev_addMdatData in E. destruct (Writer_addMdatData d w) as [w'| |] eqn:Ea; [|left; injection E as <- _ <-; auto..]. rewrite C in E. cbn [exec] in E.
    destruct (transfer (on_tmp e) t0 d (mw_tmp w)) as [[f t2] o2] eqn:Et. destruct (transfer_spec _ _ _ _ _ _ _ Et) as (k & _ & _ & Ek & Ew & Lk).
    destruct f; injection E as <- _ <-.
    - left. split; [reflexivity|]. rewrite (Ew eq_refl). unfold Writer_addMdatData in Ea. rewrite C in Ea. destruct (mw_tmp_open w); [|discriminate]. injection Ea as <-. reflexivity.
    - right. split; [discriminate|]. exists k. split; [apply Lk; discriminate|]. unfold cut_store. rewrite C, Ek. reflexivity.
    - right. split; [discriminate|]. exists k. split; [apply Lk; discriminate|]. unfold cut_store. rewrite C, Ek. reflexivity. }
  destruct o; try discriminate M; cbn [dev_step step call_cmds] in E.
  - exfalso. apply N. destruct (Track_new _ _ _ _ _ _); cbn [exec] in E; injection E as <- _ _ _; reflexivity.
  - exfalso. apply N. cbn [exec] in E. injection E as <- _ _ _. reflexivity.
  - cbn [interrupted]. destruct (nth_error (s_tracks s) i) as [tr|]; [|injection E as <- _ _ _; congruence]. destruct (addData_actions (t_codec tr) data) as [[acts r0]|] eqn:Ea; [|injection E as <- _ _ _; congruence].
    destruct (dev_actions e t timestamp is_key acts tr (s_writer s)) as [[st1 t1] r1] eqn:Ed.
    assert (K : st1 <> Running -> exists a1 d a2 tr1 w1 k, acts = a1 ++ StoreSample d :: a2 /\ track_actions timestamp is_key a1 tr (s_writer s) = Ok (tr1, w1) /\ (k < length d)%nat /\ r1 = Ok (tr1, cut_store k d w1)).
    { clear -Ed Add C. revert Ed. generalize t. generalize dependent tr. generalize dependent (s_writer s). induction acts as [|a acts IH]; intros w C tr t0 Ed Ns; cbn [dev_actions] in Ed; [injection Ed as <- _ _; congruence|].
      destruct a as [d|p|p].
      - destruct (dev_addMdatData e t0 d w) as [[st2 t2] r2] eqn:Eadd. destruct (Add _ _ _ _ _ _ C Eadd) as [(-> & ->)|(N2 & k & L & ->)].
        + destruct (Writer_addMdatData d w) as [w'| |] eqn:Ew; [|injection Ed as <- _ _; congruence..]. pose proof (fast_class _ _ _ C Ew) as C'.
          destruct (IH _ C' _ _ Ed Ns) as (a1 & d1 & a2 & tr1 & w1 & k & E1 & E2 & L & ->). exists (StoreSample d :: a1), d1, a2, tr1, w1, k. split; [rewrite E1; reflexivity|]. split; [|auto]. cbn [track_actions]. unfold track_store. rewrite Ew. exact E2.
        + exists [], d, acts, tr, w, k. split; [reflexivity|]. split; [reflexivity|]. split; [exact L|]. destruct st2; [congruence|injection Ed as _ _ <-; reflexivity..].
      - destruct (IH _ C _ _ Ed Ns) as (a1 & d1 & a2 & tr1 & w1 & k & E1 & E2 & L & ->). exists (AppendSPS p :: a1), d1, a2, tr1, w1, k. rewrite E1. auto.
      - destruct (IH _ C _ _ Ed Ns) as (a1 & d1 & a2 & tr1 & w1 & k & E1 & E2 & L & ->). exists (AppendPPS p :: a1), d1, a2, tr1, w1, k. rewrite E1. auto. }
    assert (S1 : st1 = st) by (destruct r1 as [[]| |]; injection E as <- _ _ _; reflexivity). subst st1. destruct (K N) as (a1 & d & a2 & tr1 & w1 & k & E1 & E2 & L & ->). injection E as _ <- _.
    exists tr, acts, r0, a1, d, a2, tr1, w1, k. auto 10.
  - exfalso. apply N. destruct (on_track _ _ _) as [sx [| |]]; cbn [exec] in E; injection E as <- _ _ _; reflexivity.
  - exfalso. apply N. destruct (on_track _ _ _) as [sx [| |]]; cbn [exec] in E; injection E as <- _ _ _; reflexivity.
  - cbn [interrupted]. destruct (dev_addMdatData e t data (s_writer s)) as [[st1 t1] r1] eqn:Ed. destruct (Add _ _ _ _ _ _ C Ed) as [(-> & ->)|(N2 & k & L & ->)].
    + exfalso. apply N. destruct (lift s _). injection E as <- _ _ _. reflexivity.
    + cbn [lift] in E. injection E as _ _ <- _. exists k. auto.
Qed.

Section Fast.
Variables (timescale duration time : Z) (ft : ftyp) (ops : list op) (sel : list nat).
Hypothesis (Fok : ftyp_ok ft) (Rec : recording ops) (Bnd : movie_fits ft ops sel).
Notation fb := (ftyp_octets ft).
Variables (e : devices).
Hypothesis St : stays_refused (on_output e).

Lemma fast_record_stop a : forall t s st t' s' rs, forallb media_op a = true -> mw_class (s_writer s) = Faststart -> run_dev e t s a = (st, t', s', rs) -> st <> Running ->
  exists a1 o a2, a = a1 ++ o :: a2 /\ length rs = length a1 /\ interrupted (fst (run s a1)) o s'.
Proof.
  induction a as [|o a IH]; intros t s st t' s' rs M C E N; cbn [run_dev] in E; [injection E as <- _ _ _; congruence|].
  cbn [forallb] in M. apply andb_prop in M. destruct M as (M1 & M2). destruct (dev_step e t s o) as [[[st1 t1] s1] r1] eqn:E1.
  assert (Hn : st1 = Running \/ st1 <> Running) by (destruct st1; auto; right; discriminate). destruct Hn as [->|Ns].
  - destruct (run_dev e t1 s1 a) as [[[st2 t2] s2] rs2] eqn:E2. injection E as <- <- <- <-.
    assert (E3 : run_dev e t s [o] = (Running, t1, s1, [r1])) by (cbn [run_dev]; rewrite E1; reflexivity).
    pose proof (fast_step e _ _ _ _ _ _ M1 C E1) as Es.
    assert (C1 : mw_class (s_writer s1) = Faststart).
    { symmetry in Es. clear -Es M1 C. destruct o; try discriminate M1; cbn [step] in Es.
      - unfold Track_new in Es. destruct (id =? 0); injection Es as <- _; auto.
      - injection Es as <- _. auto.
      - destruct (nth_error (s_tracks s) i) as [tr|]; [|injection Es as <- _; auto]. destruct (addData_actions _ data) as [[acts r0]|]; [|injection Es as <- _; auto].
        destruct (track_actions timestamp is_key acts tr (s_writer s)) as [[tr' w']| |] eqn:Ea; injection Es as <- _; auto. cbn [s_writer].
        clear -C Ea. revert tr Ea. generalize dependent (s_writer s). induction acts as [|a acts IH]; intros w C tr Ea; cbn [track_actions] in Ea; [congruence|].
        destruct a as [d|p|p]; [|exact (IH _ C _ Ea)..]. unfold track_store in Ea. destruct (Writer_addMdatData d w) as [w1| |] eqn:E1; try discriminate. exact (IH _ (fast_class _ _ _ C E1) _ Ea).
      - unfold on_track in Es. destruct (nth_error (s_tracks s) i); injection Es as <- _; auto.
      - unfold on_track in Es. destruct (nth_error (s_tracks s) i); injection Es as <- _; auto.
      - destruct (Writer_addMdatData data (s_writer s)) as [w1| |] eqn:E1; cbn [lift] in Es; injection Es as <- _; auto. exact (fast_class _ _ _ C E1). }
    destruct (IH _ _ _ _ _ _ M2 C1 E2 N) as (a1 & o2 & a2 & -> & L & I). exists (o :: a1), o2, a2. split; [reflexivity|]. split; [cbn [length]; lia|]. cbn [run]. rewrite <- Es. destruct (run s1 a1). exact I.
  - assert (X : (st, t', s', rs) = (st1, t1, s1, [])) by (rewrite <- E; destruct st1; [congruence|reflexivity..]). injection X as -> -> -> ->. exists [], o, a. split; [reflexivity|]. split; [reflexivity|]. exact (fast_stop _ _ _ _ _ _ _ _ M1 C Ns E1).
Qed.

Lemma faststart_kept t st t' s rs : run_dev e t (start Faststart timescale duration time ft) (faststart_program ops sel) = (st, t', s, rs) -> st <> Running -> rs <> [] ->
  mw_tmp_open (s_writer s) = true /\ prefix_of (media (firstn (length rs - 1) ops)) (os_data (mw_tmp (s_writer s))) /\ prefix_of (os_data (mw_tmp (s_writer s))) (media (firstn (length rs) ops)).
Proof.
  intros E N Nr. unfold faststart_program in E. cbn [run_dev] in E. destruct (dev_step e t (start Faststart timescale duration time ft) O_WriteFtyp) as [[[st1 t1] s1] r1] eqn:E1.
  destruct (movie_fits_media _ _ _ Fok Bnd) as (B1 & B2 & B3).
  assert (Hn : st1 = Running) by (destruct st1; [reflexivity|injection E as _ _ _ <-; congruence..]). subst st1.
  pose proof (ftyp_done timescale duration time ft ops sel Fok Bnd e St _ _ _ _ _ E1) as D1.
  destruct (run_dev e t1 s1 _) as [[[st2 t2] s2] rs1] eqn:E2. injection E as <- <- <- <-. clear Nr. cbn [length]. replace (S (length rs1) - 1)%nat with (length rs1) by lia.
  destruct (start_sinv Faststart timescale duration time ft Fok B1) as (S1 & S2). cbv zeta in S1, S2. rewrite <- D1 in S1, S2. cbn [fst snd] in S1, S2. subst r1.
  assert (After : forall a b, ops = a ++ b -> sinv Faststart timescale duration time ft fb (base_of Faststart ft) a (fst (run s1 a))).
  { intros a b Eq. destruct (after_calls timescale duration time ft ops sel Fok Rec Bnd Faststart a b Eq) as (sa & Ea & Sa). cbn [run] in Ea. rewrite <- D1 in Ea. destruct (run s1 a). cbn [fst] in *. subst sa. exact Sa. }
  pose proof Rec as [R1 R2 R3 R4]. pose proof (wi_class _ _ _ _ _ _ _ _ _ _ (si_w _ _ _ _ _ _ _ _ _ S2)) as C1.
  destruct (run_dev_app_any e ops _ _ _ _ _ _ _ E2) as [(Ns & E3)|(t3 & s3 & ra & rb & E3 & E4 & ->)]; clear E2.
  - destruct (fast_record_stop _ _ _ _ _ _ _ R1 C1 E3 Ns) as (a1 & o & a2 & Eq & L & I).
    destruct (interrupted_call timescale duration time ft ops sel Fok Rec Bnd Faststart a1 o a2 _ _ Eq (After a1 _ Eq) I) as (q & w & Pq & W & _ & Tm & To).
    destruct W as [_ _ _ _ _ _ _ _ (_ & _ & _ & W1 & W2)]. rewrite Tm, To, W1, W2. cbn [os_data]. rewrite L. destruct (firstn_middle a1 o a2 (length a1) eq_refl) as (F1 & F2). rewrite Eq, F1, F2, media_snoc.
    split; [reflexivity|]. split; [exists q; reflexivity|]. destruct Pq as (x & ->). exists x. rewrite app_assoc. reflexivity.
  - pose proof (fast_record e _ _ _ _ _ _ R1 C1 E3) as Er. pose proof (After ops [] (eq_sym (app_nil_r _))) as S3. rewrite <- Er in S3. cbn [fst] in S3.
    assert (Lr : length ra = length ops) by (pose proof (f_equal snd Er) as X; cbn [snd] in X; rewrite X; apply run_length).
    rewrite !firstn_all2 by (rewrite app_length; lia).
    assert (G : mw_tmp_open (s_writer s2) = mw_tmp_open (s_writer s3) /\ mw_tmp (s_writer s2) = mw_tmp (s_writer s3)).
    { pose proof (wi_class _ _ _ _ _ _ _ _ _ _ (si_w _ _ _ _ _ _ _ _ _ S3)) as C3. clear -E4 C3 N. cbn [run_dev] in E4.
      destruct (dev_step e t3 s3 (O_AppendTrakAndUdta sel)) as [[[sta ta] sa] rra] eqn:Ea. destruct (dev_tmp _ _ _ (O_AppendTrakAndUdta sel) _ _ _ _ eq_refl C3 Ea) as (Ca & Ta & Oa). rewrite <- Ta, <- Oa.
      destruct sta; [|injection E4 as _ _ <- _; auto..].
      destruct (dev_step e ta sa O_WriteMoov) as [[[stb tb] sb] rrb] eqn:Eb. destruct (dev_tmp _ _ _ O_WriteMoov _ _ _ _ eq_refl Ca Eb) as (Cb & Tb & Ob). rewrite <- Tb, <- Ob.
      destruct stb; [|injection E4 as _ _ <- _; auto..].
      destruct (dev_step e tb sb O_WriteMdatHeader) as [[[stc tc] sc] rrc] eqn:Ec. destruct (dev_tmp _ _ _ O_WriteMdatHeader _ _ _ _ eq_refl Cb Ec) as (Cc & Tc & Oc). rewrite <- Tc, <- Oc.
      destruct stc; [|injection E4 as _ _ <- _; auto..].
      destruct (dev_step e tc sc O_CopyMdatData) as [[[std td] sd] rrd] eqn:Ed. assert (Std : st2 = std /\ s2 = sd) by (destruct std; injection E4 as <- _ <- _; auto). destruct Std as (-> & ->).
      destruct (dev_any e O_CopyMdatData _ _ _ _ _ _ eq_refl Ed) as [(sx & os & _ & _ & _ & W)|(Y & _)]; [|congruence]. rewrite (W N). auto. }
    destruct G as (-> & ->). destruct (wi_streams _ _ _ _ _ _ _ _ _ _ (si_w _ _ _ _ _ _ _ _ _ S3)) as (_ & _ & _ & -> & ->). cbn [os_data]. split; [reflexivity|]. split; apply prefix_refl.
Qed.
End Fast.
