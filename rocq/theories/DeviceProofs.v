(** Proofs about output that fails (C57, C58). *)
From Coq Require Import ZifyBool.
From Verif Require Import Base BitIO BitFacts BitIOProofs Boxes WireFormat Box BoxSpec BoxSize Print PrintSpec PrintProofs BoxTree TreeSpec TreeProofs TreeLayout TreePrint H264 Track Writers MovieSpec AnnexBSpec H264Proofs TrackProofs TrakProofs SessionProofs MovieShape Completion MovieSize FileProofs SimpleFile FaststartFile Device.
From Coq Require Import String List.
Import ListNotations.
Open Scope Z_scope.
Open Scope list_scope.

(** * Requests that are all carried out *)
Definition do1 (c : cmd) (o : ostream) : ostream := match c with Seek p => os_seekp p o | Write bs | Put bs => os_write bs o end.
Fixpoint plain (l : list cmd) (o : ostream) : ostream := match l with [] => o | c :: l' => plain l' (do1 c o) end.
Lemma plain_app a : forall b o, plain (a ++ b) o = plain b (plain a o).
Proof. induction a as [|c a IH]; intros b o; [reflexivity|]. cbn [app plain]. apply IH. Qed.

Lemma offer_spec e : forall n t pos k f, offer e t pos n = (k, f) -> (k <= n)%nat /\ (f = Stored -> k = n) /\ (k = n -> f = Stored).
Proof.
  induction n as [|n IH]; intros t pos k f; cbn [offer]; [intros E; injection E as <- <-; auto|].
  destruct (e t pos) eqn:Ee; [|intros E; injection E as <- <-; repeat split; [lia|discriminate|lia]..].
  destruct (offer e (S t) (pos + 1) n) as [k0 f0] eqn:E0. intros E. injection E as <- <-. destruct (IH _ _ _ _ E0) as (A & B & C). repeat split; [lia|intros H; rewrite (B H); reflexivity|intros H; apply C; lia].
Qed.
Lemma transfer_spec e t bs o f t' o' : transfer e t bs o = (f, t', o') ->
  exists k, offer e t (os_pos o) (length bs) = (k, f) /\ (k <= length bs)%nat /\ o' = os_write (firstn k bs) o /\ (f = Stored -> o' = os_write bs o) /\ (f <> Stored -> (k < length bs)%nat).
Proof.
  unfold transfer. destruct (offer e t (os_pos o) (length bs)) as [k g] eqn:E. intros X. injection X as <- _ <-. exists k. destruct (offer_spec _ _ _ _ _ _ E) as (A & B & C).
  split; [reflexivity|]. split; [exact A|]. split; [reflexivity|]. split; [intros H; rewrite (B H), firstn_all; reflexivity|]. intros H. destruct (Nat.eq_dec k (length bs)) as [Ek|]; [|lia]. exfalso. auto.
Qed.

(** Fates without refusal: the program runs normally until it is killed, if it is. *)
Definition never_refuses (e : fates) : Prop := forall t p, e t p <> Refused.
Definition partial (l : list cmd) (o o' : ostream) : Prop :=
  exists l1 bs l2 k, (l = l1 ++ Write bs :: l2 \/ l = l1 ++ Put bs :: l2) /\ (k < length bs)%nat /\ o' = os_write (firstn k bs) (plain l1 o).
Lemma offer_no e : never_refuses e -> forall n t pos k f, offer e t pos n = (k, f) -> f <> Refused.
Proof.
  intros H. induction n as [|n IH]; intros t pos k f; cbn [offer]; [intros E; injection E as <- <-; discriminate|].
  destruct (e t pos) eqn:Ee; [|exfalso; eapply H; exact Ee|intros E; injection E as <- <-; discriminate].
  destruct (offer e (S t) (pos + 1) n) as [k0 f0] eqn:E0. intros E. injection E as <- <-. exact (IH _ _ _ _ E0).
Qed.
Lemma exec_kill e : never_refuses e -> forall l t o st t' o', exec e t l o = (st, t', o') ->
  (st = Running /\ o' = plain l o) \/ (st = Dead /\ partial l o o').
Proof.
  intros H. induction l as [|c l IH]; intros t o st t' o'; cbn [exec]; [intros E; injection E as <- _ <-; left; auto|].
  assert (K : forall bs t1 o1 f, c = Write bs \/ c = Put bs -> transfer e t bs o = (f, t1, o1) -> (f = Stored /\ o1 = os_write bs o) \/ (f = Killed /\ partial (c :: l) o o1)).
  { intros bs t1 o1 f Hc E. destruct (transfer_spec _ _ _ _ _ _ _ E) as (k & Eo & _ & E1 & E2 & E3). pose proof (offer_no e H _ _ _ _ _ Eo) as N.
    destruct f; [left; auto|congruence|]. right. split; [reflexivity|]. exists [], bs, l, k. split; [destruct Hc as [->| ->]; [left|right]; reflexivity|]. split; [apply E3; discriminate|exact E1]. }
  assert (P : forall o1, partial l (do1 c o) o1 -> partial (c :: l) o o1).
  { intros o1 (l1 & bs & l2 & k & [->| ->] & A & B); exists (c :: l1), bs, l2, k; (split; [|split; [exact A|exact B]]); [left|right]; reflexivity. }
  destruct c as [p|bs|bs].
  - intros E. destruct (IH _ _ _ _ _ E) as [A|(A & B)]; [left; exact A|right; split; [exact A|apply P; exact B]].
  - destruct (transfer e t bs o) as [[f t1] o1] eqn:E. destruct (K bs t1 o1 f (or_introl eq_refl) E) as [(-> & ->)|(-> & Pa)].
    + intros X. destruct (IH _ _ _ _ _ X) as [A|(A & B)]; [left; exact A|right; split; [exact A|apply P; exact B]].
    + intros X. injection X as <- _ <-. right. auto.
  - destruct (transfer e t bs o) as [[f t1] o1] eqn:E. destruct (K bs t1 o1 f (or_intror eq_refl) E) as [(-> & ->)|(-> & Pa)].
    + intros X. destruct (IH _ _ _ _ _ X) as [A|(A & B)]; [left; exact A|right; split; [exact A|apply P; exact B]].
    + intros X. injection X as <- _ <-. right. auto.
Qed.

(** * The requests of a call have the effect of the call *)
Lemma written_prints t h b l o r : BoxInfo_write (Node t h b l) o = Ok r -> prints b.
Proof.
  intros E. assert (H : exists x, Box_toString h b = Ok x) by (cbn [BoxInfo_write] in E; destruct (Box_toString h b); [eauto|discriminate|discriminate]).
  destruct H as (x & H). unfold Box_toString in H. unfold prints. destruct (Box_toStringOnlyData b); [eauto|discriminate|discriminate].
Qed.
Lemma BoxInfo_cmds_eq t h b l : BoxInfo_cmds (Node t (Some h) b l) = Seek (h_offset h) :: Put (header_octets h) :: Write (payload_octets b) :: flat_map BoxInfo_cmds l.
Proof. reflexivity. Qed.
Lemma writeData_payload b o o' : os_writeData b o = Ok o' -> o' = os_write (payload_octets b) o.
Proof. unfold os_writeData, payload_octets. destruct (Box_writeData b writer_init) as [[w nn]|e|]; intros E; [congruence|congruence|congruence]. Qed.
Lemma header_write_snd h o : snd (header_write h o) = os_write (header_octets h) (os_seekp (h_offset h) o).
Proof. reflexivity. Qed.
Lemma write_cmds n : forall o n' o', BoxInfo_write n o = Ok (n', o') -> o' = plain (BoxInfo_cmds n) o.
Proof.
  induction n as [t h b l IH] using node_ind'. intros o n' o' E.
  pose proof (written_prints _ _ _ _ _ _ E) as P. rewrite (BoxInfo_write_eq t h b l o P) in E. destruct h as [h|]; [|congruence].
  rewrite BoxInfo_cmds_eq. cbn [plain do1]. rewrite <- header_write_snd. destruct (header_write h o) as [h' o1]. cbn [snd].
  destruct (os_writeData b o1) as [o2|e|] eqn:Ed; [|congruence|congruence]. rewrite <- (writeData_payload _ _ _ Ed).
  assert (G : forall o2 l' o3, BoxInfo_write_all l o2 = Ok (l', o3) -> o3 = plain (flat_map BoxInfo_cmds l) o2).
  { clear -IH. induction IH as [|k l Hk Hl IHl]; intros o2 l' o3 Ea; cbn [BoxInfo_write_all flat_map plain] in *; [congruence|].
    destruct (BoxInfo_write k o2) as [[k' o4]|e|] eqn:Ek; [|congruence|congruence]. destruct (BoxInfo_write_all l o4) as [[l'' o5]|e|] eqn:El; [|congruence|congruence].
    rewrite plain_app, <- (Hk _ _ _ Ek). rewrite <- (IHl _ _ _ El). congruence. }
  destruct (BoxInfo_write_all l o2) as [[l' o3]|e|] eqn:Ea; [|congruence|congruence]. rewrite <- (G _ _ _ Ea). congruence.
Qed.
#[local] Opaque COPY_MDAT_DATA_BUFFER_SIZE.
Lemma copy_plain file : forall fuel pos o o', copy_loop fuel file pos o = Some o' -> o' = plain (copy_cmds fuel file pos) o.
Proof.
  induction fuel as [|f IH]; intros pos o o'; cbn [copy_loop copy_cmds]; [discriminate|]. cbv zeta. set (chunk := firstn _ _). cbn [plain do1].
  destruct (Zlen chunk <? _); [intros E; injection E as <-; reflexivity|apply IH].
Qed.
Lemma set_offset_os w w' : Writer_setOffsetAndSize w = Ok w' -> mw_os w' = mw_os w.
Proof.
  unfold Writer_setOffsetAndSize. destruct (mw_moov w) as [m|]; [|discriminate]. destruct (mw_ftyp_size w); [|discriminate]. cbv zeta.
  destruct (BoxInfo_adjustOffsetAndSize m _) as [[m' zz]| |]; try discriminate. intros E. injection E as <-. reflexivity.
Qed.
Lemma iter_os sel s p z s' z' : Faststart_iter sel s p z = Ok (s', z') -> mw_os (s_writer s') = mw_os (s_writer s).
Proof.
  unfold Faststart_iter, Faststart_recreateMoovBoxInfo. intros E.
  destruct (Writer_setOffsetAndSize (set_moov _ (s_writer s))) as [w1| |] eqn:E1; cbn [obind] in E; try discriminate.
  destruct (mw_moov w1) as [m|]; [|discriminate]. destruct (append_traks _ sel m (s_tracks s)) as [[m' ts]| |]; cbn [obind] in E; try discriminate.
  destruct (Writer_setOffsetAndSize (set_moov _ w1)) as [w2| |] eqn:E2; cbn [obind] in E; try discriminate.
  destruct (Faststart_size w2) as [z2| |]; cbn [obind] in E; try discriminate. destruct (z2 <? z); [discriminate|]. injection E as <- _. cbn [s_writer].
  rewrite (set_offset_os _ _ E2). cbn [set_moov mw_os]. rewrite (set_offset_os _ _ E1). reflexivity.
Qed.
Lemma loop_os sel : forall fuel s p z s', Faststart_loop fuel sel s p z = Some (Ok s') -> mw_os (s_writer s') = mw_os (s_writer s).
Proof.
  induction fuel as [|f IH]; intros s p z s'; cbn [Faststart_loop]; [discriminate|]. destruct (Faststart_iter sel s p z) as [[s1 z1]| |] eqn:E; try discriminate.
  pose proof (iter_os _ _ _ _ _ _ E) as H. destruct (negb _); [|intros X; injection X as <-; exact H]. intros X. rewrite (IH _ _ _ _ X). exact H.
Qed.
Lemma seek_end_cmds l p o : plain (l ++ [Seek p]) o = os_seekp p (plain l o). Proof. rewrite plain_app. reflexivity. Qed.
Lemma size_after n o n' o' s : BoxInfo_write n o = Ok (n', o') -> BoxInfo_getSize n' = Ok s -> size_after_write n o = s.
Proof. intros A B. unfold size_after_write. rewrite A, B. reflexivity. Qed.

Definition simple_call (o : op) : bool := match o with O_AddData _ _ _ _ | O_AddRaw _ => false | _ => true end.
Lemma step_cmds s o s' r : simple_call o = true -> step s o = (s', Ok r) -> mw_os (s_writer s') = plain (call_cmds o (s_writer s)) (mw_os (s_writer s)).
Proof.
  intros S E. destruct o; try discriminate S; cbn [step call_cmds plain] in *.
  - unfold Track_new in E. destruct (id =? 0); [discriminate|]. injection E as <- _. reflexivity.
  - injection E as <- _. reflexivity.
  - unfold on_track in E. destruct (nth_error (s_tracks s) i); [injection E as <- _; reflexivity|discriminate].
  - unfold on_track in E. destruct (nth_error (s_tracks s) i); [injection E as <- _; reflexivity|discriminate].
  - unfold on_track in E. destruct (nth_error (s_tracks s) i); [injection E as <- _; reflexivity|discriminate].
  - unfold Writer_writeFtypBox, writeFtypBox_cmds in *. destruct (BoxInfo_adjustOffsetAndSize _ 0) as [[n z]| |]; try (cbn [lift] in E; discriminate).
    destruct (BoxInfo_write n (mw_os (s_writer s))) as [[n' o']| |] eqn:Ew; try (cbn [lift] in E; discriminate).
    destruct (BoxInfo_getSize n') as [sz| |] eqn:Es; try (cbn [lift] in E; discriminate). pose proof (write_cmds _ _ _ _ Ew) as Hw. cbv zeta in E. rewrite (size_after _ _ _ _ _ Ew Es).
    destruct (mw_class (s_writer s)); cbn [lift] in E; injection E as <- _; cbn [s_writer set_os set_ftyp_size mw_os]; [rewrite seek_end_cmds, <- Hw; reflexivity|rewrite app_nil_r; exact Hw].
  - destruct (mw_class (s_writer s)).
    + unfold Simple_append in E. destruct (mw_moov (s_writer s)) as [m|]; [|discriminate]. destruct (append_traks None sel m (s_tracks s)) as [[m' ts]| |]; cbn [obind lift_s] in E; try discriminate.
      injection E as <- _. reflexivity.
    + unfold Faststart_append in E. destruct (Faststart_size (s_writer s)) as [z| |]; try (cbn [lift_s] in E; discriminate).
      destruct (Faststart_loop _ sel s 0 z) as [[s1| |]|] eqn:El; cbn [lift_s] in E; try discriminate. injection E as <- _. exact (loop_os _ _ _ _ _ _ El).
  - unfold SimpleWriter_writeFreeBoxAndMdatHeader, writeFreeBoxAndMdatHeader_cmds in *. destruct (mw_ftyp_size (s_writer s)) as [f|]; [|discriminate].
    destruct (mw_mdat_size (s_writer s) >? UINT32_MAX - 8); [cbn [lift] in E; injection E as <- _; reflexivity|].
    destruct (BoxInfo_adjustOffsetAndSize _ f) as [[n z]| |]; try (cbn [lift] in E; discriminate).
    destruct (BoxInfo_write n (os_seekp f (mw_os (s_writer s)))) as [[n' o']| |] eqn:Ew; try (cbn [lift] in E; discriminate).
    destruct (BoxInfo_getSize n') as [sz| |] eqn:Es; try (cbn [lift] in E; discriminate). pose proof (write_cmds _ _ _ _ Ew) as Hw. rewrite (size_after _ _ _ _ _ Ew Es).
    cbn [lift] in E. injection E as <- _. cbn [plain do1]. rewrite plain_app, <- Hw. reflexivity.
  - unfold Faststart_writeMdatHeader, writeMdatHeader_cmds in *. destruct (mw_ftyp_size (s_writer s)) as [f|]; [|discriminate].
    destruct (Faststart_getMoovSize (s_writer s)) as [m| |]; cbn [obind lift] in E; try discriminate. injection E as <- _. reflexivity.
  - unfold Writer_writeMoovBox, writeMoovBox_cmds in *. destruct (mw_class (s_writer s)).
    + destruct (Writer_setOffsetAndSize (s_writer s)) as [w1| |] eqn:E1; cbn [obind lift] in E; try discriminate. rewrite <- (set_offset_os _ _ E1).
      unfold write_moov_tree, moov_tree_cmds in *. destruct (mw_moov w1) as [m|]; [|discriminate].
      destruct (BoxInfo_write (set_next_track_id (mw_next_id w1) m) (mw_os w1)) as [[n' o']| |] eqn:Ew; try discriminate. cbn [lift] in E. injection E as <- _. exact (write_cmds _ _ _ _ Ew).
    + destruct (mw_ftyp_size (s_writer s)) as [f|]; [|discriminate].
      unfold write_moov_tree, moov_tree_cmds in *. change (mw_moov (set_os (os_seekp f (mw_os (s_writer s))) (s_writer s))) with (mw_moov (s_writer s)) in E.
      change (mw_next_id (set_os (os_seekp f (mw_os (s_writer s))) (s_writer s))) with (mw_next_id (s_writer s)) in E. change (mw_os (set_os (os_seekp f (mw_os (s_writer s))) (s_writer s))) with (os_seekp f (mw_os (s_writer s))) in E. destruct (mw_moov (s_writer s)) as [m|]; [|discriminate].
      destruct (BoxInfo_write (set_next_track_id (mw_next_id (s_writer s)) m) (os_seekp f (mw_os (s_writer s)))) as [[n' o']| |] eqn:Ew; try discriminate. cbn [lift] in E. injection E as <- _. cbn [plain do1]. exact (write_cmds _ _ _ _ Ew).
  - unfold Faststart_copyMdatData, copyMdatData_cmds in *. destruct (mw_tmp_open (s_writer s)); [|discriminate].
    destruct (copy_loop _ _ 0 (mw_os (s_writer s))) as [o'|] eqn:Ec; [|discriminate]. cbn [lift] in E. injection E as <- _. exact (copy_plain _ _ _ _ _ Ec).
Qed.

(** * Killed programs *)
Definition survives (e : devices) : Prop := never_refuses (on_output e) /\ never_refuses (on_tmp e).
(** the writer when the program is killed while it stores [d]: [k] octets were stored *)
Definition cut_store (k : nat) (d : list Z) (w : mwriter) : mwriter :=
  match mw_class w with Simple => set_os (os_write (firstn k d) (mw_os w)) w | Faststart => set_tmp (os_write (firstn k d) (mw_tmp w)) true w end.
Lemma exec_one e : never_refuses e -> forall c d t o st t' o', (c = Put d \/ c = Write d) -> exec e t [c] o = (st, t', o') ->
  (st = Running /\ o' = os_write d o) \/ (st = Dead /\ exists k, (k < length d)%nat /\ o' = os_write (firstn k d) o).
Proof.
  intros H c d t o st t' o' Hc E. destruct (exec_kill e H _ _ _ _ _ _ E) as [(-> & ->)|(-> & l1 & bs & l2 & k & E1 & L & ->)].
  - left. split; [reflexivity|]. destruct Hc as [->| ->]; reflexivity.
  - right. split; [reflexivity|]. exists k. destruct Hc as [->| ->]; destruct E1 as [E1|E1]; (destruct l1 as [|x l1]; [injection E1 as <- _ || discriminate|exfalso; injection E1 as _ E1; destruct l1; discriminate]); auto.
Qed.
Lemma set_os_same w : set_os (mw_os w) w = w. Proof. destruct w; reflexivity. Qed.
Lemma dev_add_kill e t d w st t' r : survives e -> dev_addMdatData e t d w = (st, t', r) ->
  (st = Running /\ r = Writer_addMdatData d w) \/ (st = Dead /\ exists k, (k < length d)%nat /\ r = Ok (cut_store k d w) /\ (exists w', Writer_addMdatData d w = Ok w')).
Proof.
  intros (H1 & H2) E. unfold dev_addMdatData in E. destruct (Writer_addMdatData d w) as [w'| |] eqn:Ea; [|injection E as <- _ <-; left; auto|injection E as <- _ <-; left; auto].
  pose proof Ea as Ea'. unfold Writer_addMdatData in Ea'. unfold cut_store. destruct (mw_class w) eqn:C.
  - destruct (exec (on_output e) t [Put d] (mw_os w)) as [[st1 t1] o1] eqn:Ex. destruct (exec_one _ H1 _ _ _ _ _ _ _ (or_introl eq_refl) Ex) as [(-> & ->)|(-> & k & L & ->)]; injection E as <- _ <-.
    + left. split; [reflexivity|]. injection Ea' as <-. reflexivity.
    + right. split; [reflexivity|]. exists k. eauto.
  - destruct (exec (on_tmp e) t [Write d] (mw_tmp w)) as [[st1 t1] o1] eqn:Ex. destruct (exec_one _ H2 _ _ _ _ _ _ _ (or_intror eq_refl) Ex) as [(-> & ->)|(-> & k & L & ->)]; injection E as <- _ <-.
    + left. split; [reflexivity|]. destruct (mw_tmp_open w); [|discriminate]. injection Ea' as <-. reflexivity.
    + right. split; [reflexivity|]. exists k. eauto.
Qed.
Lemma dev_actions_kill e ts key : survives e -> forall acts t tr w st t' r, dev_actions e t ts key acts tr w = (st, t', r) ->
  (st = Running /\ r = track_actions ts key acts tr w) \/
  (st = Dead /\ exists a1 d a2 tr1 w1 k, acts = a1 ++ StoreSample d :: a2 /\ track_actions ts key a1 tr w = Ok (tr1, w1) /\ (k < length d)%nat /\ r = Ok (tr1, cut_store k d w1)).
Proof.
  intros H. induction acts as [|a acts IH]; intros t tr w st t' r E; cbn [dev_actions track_actions] in *; [injection E as <- _ <-; left; auto|].
  destruct a as [d|p|p].
  - destruct (dev_addMdatData e t d w) as [[st1 t1] r1] eqn:Ed. destruct (dev_add_kill _ _ _ _ _ _ _ H Ed) as [(-> & ->)|(-> & k & L & -> & w' & Ew)].
    + unfold track_store. destruct (Writer_addMdatData d w) as [w'| |] eqn:Ew; [|injection E as <- _ <-; left; auto|injection E as <- _ <-; left; auto].
      destruct (IH _ _ _ _ _ _ E) as [A|(A & a1 & d1 & a2 & tr1 & w1 & k & E1 & E2 & L & ->)]; [left; exact A|]. right. split; [exact A|].
      exists (StoreSample d :: a1), d1, a2, tr1, w1, k. split; [rewrite E1; reflexivity|]. split; [|auto]. cbn [track_actions]. unfold track_store. rewrite Ew. exact E2.
    + injection E as <- _ <-. right. split; [reflexivity|]. exists [], d, acts, tr, w, k. auto.
  - destruct (IH _ _ _ _ _ _ E) as [A|(A & a1 & d1 & a2 & tr1 & w1 & k & E1 & E2 & L & ->)]; [left; exact A|]. right. split; [exact A|].
    exists (AppendSPS p :: a1), d1, a2, tr1, w1, k. rewrite E1. auto.
  - destruct (IH _ _ _ _ _ _ E) as [A|(A & a1 & d1 & a2 & tr1 & w1 & k & E1 & E2 & L & ->)]; [left; exact A|]. right. split; [exact A|].
    exists (AppendPPS p :: a1), d1, a2, tr1, w1, k. rewrite E1. auto.
Qed.
(** how a call can be interrupted *)
Definition interrupted (s : session) (o : op) (s' : session) : Prop :=
  match o with
  | O_AddData i ts data key => exists tr acts r a1 d a2 tr1 w1 k, nth_error (s_tracks s) i = Some tr /\ addData_actions (t_codec tr) data = Some (acts, r) /\
      acts = a1 ++ StoreSample d :: a2 /\ track_actions ts key a1 tr (s_writer s) = Ok (tr1, w1) /\ (k < length d)%nat /\ s_writer s' = cut_store k d w1
  | O_AddRaw data => exists k, (k < length data)%nat /\ s_writer s' = cut_store k data (s_writer s)
  | _ => exists s1 os, step s o = (s1, Ok tt) /\ partial (call_cmds o (s_writer s)) (mw_os (s_writer s)) os /\ s_writer s' = set_os os (s_writer s)
  end.
Lemma lift_ok s o s' r : lift s o = (s', Ok r) -> r = tt. Proof. destruct r; reflexivity. Qed.
Lemma dev_step_kill e t s o st t' s' r : survives e -> dev_step e t s o = (st, t', s', r) ->
  (st = Running /\ (s', r) = step s o) \/ (st = Dead /\ interrupted s o s').
Proof.
  intros H E.
  assert (Other : simple_call o = true -> match step s o with
      | (s', Ok _) =>
          let '(st, t', os) := exec (on_output e) t (call_cmds o (s_writer s)) (mw_os (s_writer s)) in
          match st with
          | Running => (st, t', mk_session (set_os os (s_writer s')) (s_tracks s'), Ok tt)
          | _ => (st, t', mk_session (set_os os (s_writer s)) (s_tracks s), Ok tt)
          end
      | (s', r) => (Running, t, s', r)
      end = (st, t', s', r) -> (st = Running /\ (s', r) = step s o) \/ (st = Dead /\ exists s1 os, step s o = (s1, Ok tt) /\ partial (call_cmds o (s_writer s)) (mw_os (s_writer s)) os /\ s_writer s' = set_os os (s_writer s))).
  { clear E. intros Sc E. destruct (step s o) as [s1 [[]| |]] eqn:Es; [|injection E as <- _ <- <-; left; auto|injection E as <- _ <- <-; left; auto].
    destruct (exec (on_output e) t (call_cmds o (s_writer s)) (mw_os (s_writer s))) as [[st1 t1] os] eqn:Ex.
    destruct (exec_kill _ (proj1 H) _ _ _ _ _ _ Ex) as [(-> & ->)|(-> & P)]; injection E as <- _ <- <-.
    - left. split; [reflexivity|]. rewrite <- (step_cmds _ _ _ _ Sc Es), set_os_same. destruct s1; reflexivity.
    - right. split; [reflexivity|]. exists s1, os. auto. }
  destruct o; try (exact (Other eq_refl E)); clear Other; cbn [dev_step step interrupted] in *.
  - destruct (nth_error (s_tracks s) i) as [tr|]; [|injection E as <- _ <- <-; left; auto]. destruct (addData_actions (t_codec tr) data) as [[acts r0]|] eqn:Ea; [|injection E as <- _ <- <-; left; auto].
    destruct (dev_actions e t timestamp is_key acts tr (s_writer s)) as [[st1 t1] r1] eqn:Ed.
    destruct (dev_actions_kill _ _ _ H _ _ _ _ _ _ _ Ed) as [(-> & ->)|(-> & a1 & d & a2 & tr1 & w1 & k & E1 & E2 & L & ->)].
    + left. destruct (track_actions timestamp is_key acts tr (s_writer s)) as [[tr' w']| |]; injection E as <- _ <- <-; auto.
    + right. injection E as <- _ <- <-. split; [reflexivity|]. exists tr, acts, r0, a1, d, a2, tr1, w1, k. auto 10.
  - destruct (dev_addMdatData e t data (s_writer s)) as [[st1 t1] r1] eqn:Ed. destruct (dev_add_kill _ _ _ _ _ _ _ H Ed) as [(-> & ->)|(-> & k & L & -> & _)].
    + left. destruct (lift s (Writer_addMdatData data (s_writer s))) as [s1 r2]. injection E as <- _ <- <-. auto.
    + right. cbn [lift] in E. injection E as <- _ <- <-. split; [reflexivity|]. exists k. auto.
Qed.
Lemma run_dev_kill e : survives e -> forall ops t s st t' s' rs, run_dev e t s ops = (st, t', s', rs) ->
  (st = Running /\ (s', rs) = run s ops) \/
  (st = Dead /\ exists pre o post, ops = pre ++ o :: post /\ rs = snd (run s pre) /\ interrupted (fst (run s pre)) o s').
Proof.
  intros H. induction ops as [|o ops IH]; intros t s st t' s' rs E; cbn [run_dev run] in *; [injection E as <- _ <- <-; left; auto|].
  destruct (dev_step e t s o) as [[[st1 t1] s1] r1] eqn:Ed. destruct (dev_step_kill _ _ _ _ _ _ _ _ H Ed) as [(-> & Es)|(-> & I)].
  - destruct (run_dev e t1 s1 ops) as [[[st2 t2] s2] rs2] eqn:Er. injection E as <- _ <- <-. rewrite <- Es. destruct (IH _ _ _ _ _ _ Er) as [(A & B)|(A & pre & o' & post & B & C & D)].
    + left. split; [exact A|]. rewrite <- B. reflexivity.
    + right. split; [exact A|]. exists (o :: pre), o', post. split; [rewrite B; reflexivity|]. cbn [run]. rewrite <- Es. destruct (run s1 pre) as [s3 rs3]. cbn [fst snd] in *. split; [congruence|exact D].
  - injection E as <- _ <- <-. right. split; [reflexivity|]. exists [], o, ops. cbn [run fst snd app]. auto.
Qed.

(** nobody dies where everything is stored *)
Lemma exec_alive e : (forall t p, e t p = Stored) -> forall l t o, exists t', exec e t l o = (Running, t', plain l o).
Proof.
  intros H. assert (O : forall n t p, offer e t p n = (n, Stored)) by (induction n as [|n IH]; intros t p; cbn [offer]; [reflexivity|]; rewrite H, IH; reflexivity).
  induction l as [|c l IH]; intros t o; cbn [exec plain do1]; [eauto|]. destruct c as [p|b|b]; [apply IH|..]; unfold transfer; rewrite O, firstn_all; apply IH.
Qed.
Lemma run_dev_alive e : (forall t p, on_output e t p = Stored) -> (forall t p, on_tmp e t p = Stored) -> forall ops t s st t' s' rs, run_dev e t s ops = (st, t', s', rs) -> st = Running.
Proof.
  intros H1 H2. assert (Add : forall t d w st t' r, dev_addMdatData e t d w = (st, t', r) -> st = Running).
  { intros t d w st t' r E. unfold dev_addMdatData in E. destruct (Writer_addMdatData d w); [|injection E as <- _ _; reflexivity..]. destruct (mw_class w).
    - destruct (exec_alive _ H1 [Put d] t (mw_os w)) as (t1 & X). rewrite X in E. injection E as <- _ _. reflexivity.
    - destruct (exec_alive _ H2 [Write d] t (mw_tmp w)) as (t1 & X). rewrite X in E. injection E as <- _ _. reflexivity. }
  assert (Act : forall ts key acts t tr w st t' r, dev_actions e t ts key acts tr w = (st, t', r) -> st = Running).
  { intros ts key. induction acts as [|a acts IH]; intros t tr w st t' r E; cbn [dev_actions] in E; [injection E as <- _ _; reflexivity|]. destruct a as [d|p|p]; [|exact (IH _ _ _ _ _ _ E)..].
    destruct (dev_addMdatData e t d w) as [[st1 t1] r1] eqn:Ed. pose proof (Add _ _ _ _ _ _ Ed) as ->. destruct r1; [exact (IH _ _ _ _ _ _ E)|injection E as <- _ _; reflexivity..]. }
  induction ops as [|o ops IH]; intros t s st t' s' rs E; cbn [run_dev] in E; [injection E as <- _ _ _; reflexivity|].
  destruct (dev_step e t s o) as [[[st1 t1] s1] r] eqn:Ed.
  assert (R1 : st1 = Running).
  { clear E. assert (Oth : match step s o with
      | (s', Ok _) =>
          let '(st, t', os) := exec (on_output e) t (call_cmds o (s_writer s)) (mw_os (s_writer s)) in
          match st with
          | Running => (st, t', mk_session (set_os os (s_writer s')) (s_tracks s'), Ok tt)
          | _ => (st, t', mk_session (set_os os (s_writer s)) (s_tracks s), Ok tt)
          end
      | (s', r) => (Running, t, s', r)
      end = (st1, t1, s1, r) -> st1 = Running).
    { intros E. destruct (step s o) as [s2 [u|x|]]; [|injection E as <- _ _ _; reflexivity..]. destruct (exec_alive _ H1 (call_cmds o (s_writer s)) t (mw_os (s_writer s))) as (t2 & X). rewrite X in E. injection E as <- _ _ _. reflexivity. }
    destruct o; try (exact (Oth Ed)); clear Oth; cbn [dev_step] in Ed.
    - destruct (nth_error (s_tracks s) i) as [tr|]; [|injection Ed as <- _ _ _; reflexivity]. destruct (addData_actions (t_codec tr) data) as [[acts r0]|]; [|injection Ed as <- _ _ _; reflexivity].
      destruct (dev_actions e t timestamp is_key acts tr (s_writer s)) as [[st2 t2] r2] eqn:Ea. pose proof (Act _ _ _ _ _ _ _ _ _ Ea) as ->. destruct r2 as [[]| |]; injection Ed as <- _ _ _; reflexivity.
    - destruct (dev_addMdatData e t data (s_writer s)) as [[st2 t2] r2] eqn:Ea. pose proof (Add _ _ _ _ _ _ Ea) as ->. destruct (lift s r2). injection Ed as <- _ _ _. reflexivity. }
  subst st1. destruct (run_dev e t1 s1 ops) as [[[st2 t2] s2] rs2] eqn:E2. injection E as <- _ _ _. exact (IH _ _ _ _ _ _ E2).
Qed.

(** * Requests that write one stretch of octets from front to back *)
Inductive flow : Z -> list cmd -> list Z -> Prop :=
  | flow_nil p : flow p [] []
  | flow_seek p l bs : flow p l bs -> flow p (Seek p :: l) bs
  | flow_write p b l bs : flow (p + Zlen b) l bs -> flow p (Write b :: l) (b ++ bs)
  | flow_put p b l bs : flow (p + Zlen b) l bs -> flow p (Put b :: l) (b ++ bs).
Lemma flow_app p l1 b1 l2 b2 : flow p l1 b1 -> flow (p + Zlen b1) l2 b2 -> flow p (l1 ++ l2) (b1 ++ b2).
Proof.
  intros H. induction H as [p|p l bs H IH|p b l bs H IH|p b l bs H IH]; intros F; cbn [app].
  - rewrite (@Zlen_nil Z), Z.add_0_r in F. exact F.
  - constructor. auto.
  - rewrite <- app_assoc. constructor. apply IH. rewrite Zlen_app in F. replace (p + Zlen b + Zlen bs) with (p + (Zlen b + Zlen bs)) by lia. exact F.
  - rewrite <- app_assoc. constructor. apply IH. rewrite Zlen_app in F. replace (p + Zlen b + Zlen bs) with (p + (Zlen b + Zlen bs)) by lia. exact F.
Qed.
Lemma splice_chain l p a b : 0 <= p -> splice (splice l p a) (p + Zlen a) b = splice l p (a ++ b).
Proof. intros H. destruct a as [|x a]; [cbn [app splice]; rewrite (@Zlen_nil Z), Z.add_0_r; reflexivity|]. apply splice_app; [exact H|discriminate]. Qed.
Lemma flow_plain p l bs : flow p l bs -> forall o, 0 <= p -> os_pos o = p -> plain l o = mkOS (splice (os_data o) p bs) (p + Zlen bs).
Proof.
  intros H. induction H as [p|p l bs H IH|p b l bs H IH|p b l bs H IH]; intros o P E; cbn [plain do1].
  - cbn [splice]. rewrite (@Zlen_nil Z), Z.add_0_r, <- E. destruct o; reflexivity.
  - rewrite IH by auto. reflexivity.
  - pose proof (Zlen_nonneg b). rewrite IH; [|lia|cbn [os_write os_pos]; lia]. cbn [os_write os_data]. rewrite E, splice_chain by exact P. rewrite Zlen_app. f_equal. lia.
  - pose proof (Zlen_nonneg b). rewrite IH; [|lia|cbn [os_write os_pos]; lia]. cbn [os_write os_data]. rewrite E, splice_chain by exact P. rewrite Zlen_app. f_equal. lia.
Qed.
(** interrupted: a part of the stretch, from its beginning, has been stored *)
Lemma flow_partial p l bs : flow p l bs -> forall o o', 0 <= p -> os_pos o = p -> partial l o o' -> exists k, (k < length bs)%nat /\ os_data o' = splice (os_data o) p (firstn k bs).
Proof.
  intros H. induction H as [p|p l bs H IH|p b l bs H IH|p b l bs H IH]; intros o o' P E (l1 & x & l2 & k & E1 & L & ->).
  - exfalso. destruct E1 as [E1|E1]; destruct l1; discriminate.
  - destruct l1 as [|y l1]; [exfalso; destruct E1; discriminate|]. cbn [app] in E1.
    assert (Y : y = Seek p) by (destruct E1 as [E1|E1]; injection E1 as <- _; reflexivity). subst y. cbn [plain do1].
    apply (IH (os_seekp p o)); auto. exists l1, x, l2, k. split; [destruct E1 as [E1|E1]; injection E1 as ->; auto|auto].
  - pose proof (Zlen_nonneg b). destruct l1 as [|y l1].
    + destruct E1 as [E1|E1]; [|discriminate]. cbn [app] in E1. injection E1 as <- _. exists k. rewrite app_length. split; [lia|]. cbn [plain os_write os_data]. rewrite firstn_app, E. replace (k - length b)%nat with 0%nat by lia. rewrite app_nil_r. reflexivity.
    + cbn [app] in E1. assert (Y : y = Write b) by (destruct E1 as [E1|E1]; injection E1 as <- _; reflexivity). subst y. cbn [plain do1].
      destruct (IH (os_write b o) (os_write (firstn k x) (plain l1 (os_write b o)))) as (j & Lj & Ej); [lia|cbn [os_write os_pos]; lia| |].
      * exists l1, x, l2, k. split; [destruct E1 as [E1|E1]; injection E1 as ->; auto|auto].
      * exists (length b + j)%nat. rewrite app_length. split; [lia|]. rewrite Ej. cbn [os_write os_data]. rewrite E, splice_chain by exact P. rewrite firstn_app_2. reflexivity.
  - pose proof (Zlen_nonneg b). destruct l1 as [|y l1].
    + destruct E1 as [E1|E1]; [discriminate|]. cbn [app] in E1. injection E1 as <- _. exists k. rewrite app_length. split; [lia|]. cbn [plain os_write os_data]. rewrite firstn_app, E. replace (k - length b)%nat with 0%nat by lia. rewrite app_nil_r. reflexivity.
    + cbn [app] in E1. assert (Y : y = Put b) by (destruct E1 as [E1|E1]; injection E1 as <- _; reflexivity). subst y. cbn [plain do1].
      destruct (IH (os_write b o) (os_write (firstn k x) (plain l1 (os_write b o)))) as (j & Lj & Ej); [lia|cbn [os_write os_pos]; lia| |].
      * exists l1, x, l2, k. split; [destruct E1 as [E1|E1]; injection E1 as ->; auto|auto].
      * exists (length b + j)%nat. rewrite app_length. split; [lia|]. rewrite Ej. cbn [os_write os_data]. rewrite E, splice_chain by exact P. rewrite firstn_app_2. reflexivity.
Qed.
(** a stretch that begins with a seek can be written from any position *)
Lemma flow_partial_seek p l bs o o' : flow p (Seek p :: l) bs -> 0 <= p -> partial (Seek p :: l) o o' -> exists k, (k < length bs)%nat /\ os_data o' = splice (os_data o) p (firstn k bs).
Proof.
  intros F P H. apply (flow_partial _ _ _ F (os_seekp p o)); [exact P|reflexivity|]. destruct H as (l1 & x & l2 & k & E1 & L & ->).
  exists l1, x, l2, k. split; [exact E1|]. split; [exact L|]. destruct l1 as [|y l1]; [exfalso; destruct E1; discriminate|]. cbn [app] in E1.
  assert (Y : y = Seek p) by (destruct E1 as [E1|E1]; injection E1 as <- _; reflexivity). subst y. reflexivity.
Qed.

(** ** Trees *)
Lemma flow_place n : forall off, sound n -> 0 <= off -> off + nsize n < 2 ^ 64 -> flow off (BoxInfo_cmds (place n off)) (serialize_with written (tree_of n)).
Proof.
  induction n as [t h b l IH] using node_ind'. intros off (A & C & H) O B. pose proof (shape_sized _ A) as S.
  rewrite sized_eq in S. rewrite headers_ok_eq in H. destruct S as [S1 S2], H as [H1 H2].
  cbn [tree_of] in A, C. rewrite all_boxes_eq in A. rewrite types_ok_eq in C. rewrite Forall_map in A, C. destruct A as [A1 A2], C as [C1 C2].
  pose proof (sum_nsize_nonneg l S2) as S3. rewrite place_eq. cbv zeta. destruct (makeHeader_ok t h H1) as [M1 M2]. rewrite M1, M2.
  destruct (written_spec b A1) as (_ & _ & W).
  set (d := Box_getDataSize b + sum_by nsize l) in *. cbn [nsize] in B. fold d in B. pose proof (frame_hs d) as Fd.
  assert (Lf : Zlen (flat_map (serialize_with written) (map tree_of l)) = sum_by nsize l).
  { rewrite Zlen_flat_map. clear -A2 C2. induction A2 as [|k l Hk Hl IHl]; [reflexivity|]. inversion C2; subst. unfold sum_by in *. cbn [map fold_right].
    rewrite nsize_serialize, IHl; auto. }
  assert (Ser : serialize_with written (tree_of (Node t h b l)) = frame_header t d ++ written b ++ flat_map (serialize_with written) (map tree_of l)).
  { cbn [tree_of serialize_with]. rewrite Zlen_app, W, Lf. reflexivity. }
  pose proof (frame_header_length t d C1) as Lh. rewrite BoxInfo_cmds_eq, Ser. cbn [h_offset]. rewrite header_octets_frame by lia. change (payload_octets b) with (written b).
  constructor. constructor. rewrite Lh. constructor. rewrite W. set (hs := frame_header_size d) in *. rewrite (u64_small (off + hs + Box_getDataSize b)) by lia.
  assert (G : forall base acc, 0 <= base -> 0 <= acc -> base + acc + sum_by nsize l < 2 ^ 64 ->
     flow (base + acc) (flat_map BoxInfo_cmds (place_all place l base acc)) (flat_map (serialize_with written) (map tree_of l))).
  { clear -IH S2 H2 A2 C2. induction IH as [|k l Hk Hl IHl]; intros base acc Hb Ha B; [constructor|].
    inversion S2 as [|? ? Sk Sl]; inversion H2 as [|? ? Hhk Hhl]; inversion A2 as [|? ? Ak Al]; inversion C2 as [|? ? Ck Cl]; subst.
    cbn [place_all sum_by fold_right map flat_map] in *. fold (sum_by nsize l) in *. pose proof (nsize_pos k Sk). pose proof (sum_nsize_nonneg l Sl).
    rewrite (u64_small (base + acc)), (u64_small (acc + nsize k)) by lia. apply flow_app; [apply Hk; [split; [exact Ak|split; [exact Ck|exact Hhk]]|lia|lia]|].
    rewrite nsize_serialize by assumption. replace (base + acc + nsize k) with (base + (acc + nsize k)) by lia. apply IHl; auto; lia. }
  specialize (G (off + hs + Box_getDataSize b) 0). rewrite Z.add_0_r in G. apply G; lia.
Qed.
Lemma place_cmds n off : sound n -> exists l, BoxInfo_cmds (place n off) = Seek off :: l.
Proof. destruct n as [t h b l]. intros _. rewrite place_eq. cbv zeta. rewrite BoxInfo_cmds_eq. cbn [h_offset]. eauto. Qed.
