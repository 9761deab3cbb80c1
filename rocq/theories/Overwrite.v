(** What the output stream held before the writer was given it (C73). *)
From Coq Require Import ZifyBool.
From Verif Require Import Base BitIO BitFacts BitIOProofs Boxes WireFormat Box BoxSpec BoxSize Print PrintSpec PrintProofs BoxTree TreeSpec TreeProofs TreeLayout TreePrint H264 Track Writers MovieSpec AnnexBSpec H264Proofs TrackProofs TrakProofs SessionProofs MovieShape Completion MovieSize FileProofs SimpleFile FaststartFile Device FailureSpec DeviceProofs Interrupt InterruptLemmas Appending Refusal OverwriteSpec.
From Coq Require Import String List.
Import ListNotations.
Open Scope Z_scope.
Open Scope list_scope.
#[local] Opaque COPY_MDAT_DATA_BUFFER_SIZE.

Definition re (o : ostream) (s : session) : session := mk_session (set_os o (s_writer s)) (s_tracks s).

(** ** What is written does not depend on the stream *)
Lemma write_unfold t h b l o : BoxInfo_write (Node t h b l) o =
  obind (Box_toString h b) (fun _ => match h with
  | None => UB
  | Some h => let '(h', o1) := header_write h o in
      match os_writeData b o1 with
      | Ok o2 => match BoxInfo_write_all l o2 with Ok (leafs', o3) => Ok (Node t (Some h') b leafs', o3) | Throw e => Throw e | UB => UB end
      | Throw e => Throw e
      | UB => UB
      end
  end).
Proof. reflexivity. Qed.
Lemma write_any n : forall o o2, BoxInfo_write n o2 = match BoxInfo_write n o with Ok (n', _) => Ok (n', plain (BoxInfo_cmds n) o2) | Throw e => Throw e | UB => UB end.
Proof.
  induction n as [t h b l IH] using node_ind'. intros o o2. rewrite !write_unfold. destruct (Box_toString h b); cbn [obind]; [|reflexivity..]. destruct h as [h|]; [|reflexivity].
  rewrite BoxInfo_cmds_eq. cbn [plain do1]. unfold header_write. cbv zeta. unfold os_writeData, payload_octets. destruct (Box_writeData b writer_init) as [[w nn]|e|]; [|reflexivity..].
  assert (G : forall o o2, BoxInfo_write_all l o2 = match BoxInfo_write_all l o with Ok (l', _) => Ok (l', plain (flat_map BoxInfo_cmds l) o2) | Throw e => Throw e | UB => UB end).
  { clear -IH. induction IH as [|k l Hk Hl IHl]; intros o o2; cbn [BoxInfo_write_all flat_map plain]; [reflexivity|].
    rewrite (Hk o o2). destruct (BoxInfo_write k o) as [[k' o4]|e|]; [|reflexivity..]. rewrite (IHl o4). destruct (BoxInfo_write_all l o4) as [[l'' o5]|e|]; [|reflexivity..]. rewrite plain_app. reflexivity. }
  rewrite (G (os_write (w_os w) (os_write (header_octets h) (os_seekp (h_offset h) o)))).
  destruct (BoxInfo_write_all l _) as [[l' o3]|e|]; reflexivity.
Qed.
Lemma copy_any file : forall fuel pos o o2, copy_loop fuel file pos o2 = match copy_loop fuel file pos o with Some _ => Some (plain (copy_cmds fuel file pos) o2) | None => None end.
Proof.
  induction fuel as [|f IH]; intros pos o o2; cbn [copy_loop copy_cmds]; [reflexivity|]. cbv zeta. set (chunk := firstn _ _). cbn [plain do1].
  destruct (Zlen chunk <? _); [reflexivity|apply IH].
Qed.
Lemma offset_any o w : Writer_setOffsetAndSize (set_os o w) = match Writer_setOffsetAndSize w with Ok w' => Ok (set_os o w') | Throw e => Throw e | UB => UB end.
Proof.
  unfold Writer_setOffsetAndSize. cbn [set_os mw_moov mw_ftyp_size mw_class mw_mdat_size]. destruct (mw_moov w); [|reflexivity]. destruct (mw_ftyp_size w); [|reflexivity].
  cbv zeta. destruct (BoxInfo_adjustOffsetAndSize _ _) as [[m' z']| |]; reflexivity.
Qed.
Lemma iter_any o sel s p z : Faststart_iter sel (re o s) p z = match Faststart_iter sel s p z with Ok (s', z') => Ok (re o s', z') | Throw e => Throw e | UB => UB end.
Proof.
  unfold Faststart_iter, Faststart_recreateMoovBoxInfo. cbn [re s_writer s_tracks].
  change (set_moov (Some (make_moov (set_os o (s_writer s)))) (set_os o (s_writer s))) with (set_os o (set_moov (Some (make_moov (s_writer s))) (s_writer s))).
  rewrite offset_any. destruct (Writer_setOffsetAndSize (set_moov (Some (make_moov (s_writer s))) (s_writer s))) as [w1| |]; cbn [obind]; [|reflexivity..].
  change (mw_moov (set_os o w1)) with (mw_moov w1). destruct (mw_moov w1) as [m|]; [|reflexivity]. destruct (append_traks _ sel m (s_tracks s)) as [[m' ts]| |]; cbn [obind]; [|reflexivity..].
  change (set_moov (Some (node_add_leaf m' make_udta)) (set_os o w1)) with (set_os o (set_moov (Some (node_add_leaf m' make_udta)) w1)).
  rewrite offset_any. destruct (Writer_setOffsetAndSize (set_moov _ w1)) as [w2| |]; cbn [obind]; [|reflexivity..].
  change (Faststart_size (set_os o w2)) with (Faststart_size w2). destruct (Faststart_size w2) as [z2| |]; cbn [obind]; [|reflexivity..]. destruct (z2 <? z); reflexivity.
Qed.
Lemma loop_any o sel : forall fuel s p z, Faststart_loop fuel sel (re o s) p z = match Faststart_loop fuel sel s p z with Some (Ok s') => Some (Ok (re o s')) | r => r end.
Proof.
  induction fuel as [|f IH]; intros s p z; cbn [Faststart_loop]; [reflexivity|]. rewrite iter_any. destruct (Faststart_iter sel s p z) as [[s1 z1]| |]; [|reflexivity..].
  destruct (negb _); [apply IH|reflexivity].
Qed.

(** ** The requests of a call *)
Fixpoint acts_cmds (l : list nal_action) : list cmd := match l with [] => [] | StoreSample d :: l' => Put d :: acts_cmds l' | _ :: l' => acts_cmds l' end.
Definition all_cmds (s : session) (o : op) : list cmd :=
  match o with
  | O_AddData i _ data _ => match mw_class (s_writer s) with
      | Simple => match nth_error (s_tracks s) i with Some tr => match addData_actions (t_codec tr) data with Some (acts, _) => acts_cmds acts | None => [] end | None => [] end
      | Faststart => [] end
  | O_AddRaw data => match mw_class (s_writer s) with Simple => [Put data] | Faststart => [] end
  | _ => match snd (step s o) with Ok _ => call_cmds o (s_writer s) | _ => [] end
  end.
Lemma actions_any ts key : forall acts o tr w, (mw_class w = Simple -> os_pos o = os_pos (mw_os w)) ->
  track_actions ts key acts tr (set_os o w) =
  match track_actions ts key acts tr w with
  | Ok (tr', w') => Ok (tr', set_os (plain (match mw_class w with Simple => acts_cmds acts | Faststart => [] end) o) w')
  | Throw e => Throw e
  | UB => UB
  end.
Proof.
  induction acts as [|a acts IH]; intros o tr w P; cbn [track_actions acts_cmds]; [destruct (mw_class w); reflexivity|]. destruct a as [d|p|p].
  - unfold track_store, Writer_addMdatData, Writer_tellCurrentMdatOffset. change (mw_class (set_os o w)) with (mw_class w). change (mw_os (set_os o w)) with o. change (mw_tmp_open (set_os o w)) with (mw_tmp_open w). change (mw_tmp (set_os o w)) with (mw_tmp w). change (mw_mdat_size (set_os o w)) with (mw_mdat_size w). destruct (mw_class w) eqn:C.
    + rewrite (P eq_refl). change (set_mdat_size (u64 (mw_mdat_size w + Zlen d)) (set_os (os_write d o) (set_os o w))) with (set_os (os_write d o) (set_mdat_size (u64 (mw_mdat_size w + Zlen d)) (set_os (os_write d (mw_os w)) w))).
      rewrite IH by (intros _; cbn [set_mdat_size set_os mw_os os_write os_pos]; rewrite (P eq_refl); reflexivity).
      cbn [set_mdat_size set_os mw_class]. rewrite C. cbn [plain do1]. destruct (track_actions _ _ _ _ _) as [[tr' w']| |]; reflexivity.
    + destruct (mw_tmp_open w); [|reflexivity].
      change (set_mdat_size (u64 (mw_mdat_size w + Zlen d)) (set_tmp (os_write d (mw_tmp w)) true (set_os o w))) with (set_os o (set_mdat_size (u64 (mw_mdat_size w + Zlen d)) (set_tmp (os_write d (mw_tmp w)) true w))).
      rewrite IH by (cbn [set_mdat_size set_tmp mw_class]; congruence). cbn [set_mdat_size set_tmp mw_class]. rewrite C. cbn [plain]. destruct (track_actions _ _ _ _ _) as [[tr' w']| |]; reflexivity.
  - exact (IH _ _ _ P).
  - exact (IH _ _ _ P).
Qed.
Lemma step_over o' s o : (match o with O_AddData _ _ _ _ => os_pos o' = os_pos (mw_os (s_writer s)) | _ => True end) ->
  step (re o' s) o = (re (plain (all_cmds s o) o') (fst (step s o)), snd (step s o)).
Proof.
  intros P. destruct o; cbn [step all_cmds s_writer s_tracks]; change (s_writer (re o' s)) with (set_os o' (s_writer s)); change (s_tracks (re o' s)) with (s_tracks s).
  - unfold Track_new. cbn [set_os mw_time]. destruct (id =? 0); reflexivity.
  - reflexivity.
  - destruct (nth_error (s_tracks s) i) as [tr|]; [|destruct (mw_class (s_writer s)); reflexivity]. destruct (addData_actions (t_codec tr) data) as [[acts r]|]; [|destruct (mw_class (s_writer s)); reflexivity].
    rewrite actions_any by (intros _; exact P). destruct (track_actions timestamp is_key acts tr (s_writer s)) as [[tr' w']| |] eqn:Ea; [reflexivity|..]; cbn [fst snd];
      (destruct (mw_class (s_writer s)) eqn:C; [|reflexivity]); exfalso; revert Ea; clear -C; generalize dependent (s_writer s); revert tr; induction acts as [|a acts IH]; intros tr w C; cbn [track_actions]; try discriminate;
      (destruct a; [|apply IH; exact C..]); unfold track_store, Writer_addMdatData; rewrite C; apply IH; exact C.
  - unfold on_track. cbn [re s_tracks s_writer]. destruct (nth_error (s_tracks s) i); reflexivity.
  - unfold on_track. cbn [re s_tracks s_writer]. destruct (nth_error (s_tracks s) i); reflexivity.
  - unfold on_track. cbn [re s_tracks s_writer]. destruct (nth_error (s_tracks s) i); reflexivity.
  - unfold Writer_addMdatData. cbn [set_os mw_class mw_tmp_open mw_mdat_size mw_os mw_tmp]. destruct (mw_class (s_writer s)); [reflexivity|]. destruct (mw_tmp_open (s_writer s)); reflexivity.
  - cbn [call_cmds]. unfold Writer_writeFtypBox, writeFtypBox_cmds, size_after_write. cbn [set_os mw_ftyp mw_os mw_class]. destruct (BoxInfo_adjustOffsetAndSize _ 0) as [[n z]| |]; [|reflexivity..].
    rewrite (write_any n (mw_os (s_writer s)) o'). destruct (BoxInfo_write n (mw_os (s_writer s))) as [[n' o1]| |] eqn:Ew; [|reflexivity..].
    destruct (BoxInfo_getSize n') as [sz| |]; [|reflexivity..]. cbv zeta. destruct (mw_class (s_writer s)); cbn [lift fst snd]; [rewrite plain_app; reflexivity|rewrite app_nil_r; reflexivity].
  - change (mw_class (set_os o' (s_writer s))) with (mw_class (s_writer s)). destruct (mw_class (s_writer s)).
    + unfold Simple_append. cbn [re set_os s_writer s_tracks mw_moov]. destruct (mw_moov (s_writer s)) as [m|]; [|reflexivity]. destruct (append_traks None sel m (s_tracks s)) as [[m' ts]| |]; reflexivity.
    + unfold Faststart_append. change (Faststart_size (s_writer (re o' s))) with (Faststart_size (s_writer s)).
      destruct (Faststart_size (s_writer s)) as [z| |]; [|reflexivity..]. rewrite loop_any. destruct (Faststart_loop _ sel s 0 z) as [[s1| |]|]; reflexivity.
  - cbn [call_cmds]. unfold SimpleWriter_writeFreeBoxAndMdatHeader, writeFreeBoxAndMdatHeader_cmds, size_after_write. cbn [set_os mw_ftyp_size mw_mdat_size mw_os]. destruct (mw_ftyp_size (s_writer s)) as [f|]; [|reflexivity].
    destruct (mw_mdat_size (s_writer s) >? UINT32_MAX - 8); [reflexivity|]. destruct (BoxInfo_adjustOffsetAndSize _ f) as [[n z]| |]; [|reflexivity..].
    cbv zeta. rewrite (write_any n (os_seekp f (mw_os (s_writer s))) (os_seekp f o')). destruct (BoxInfo_write n (os_seekp f (mw_os (s_writer s)))) as [[n' o1]| |]; [|reflexivity..].
    destruct (BoxInfo_getSize n') as [sz| |]; [|reflexivity..]. cbn [lift fst snd plain do1]. rewrite plain_app. reflexivity.
  - cbn [call_cmds]. unfold Faststart_writeMdatHeader, writeMdatHeader_cmds. change (mw_ftyp_size (set_os o' (s_writer s))) with (mw_ftyp_size (s_writer s)). destruct (mw_ftyp_size (s_writer s)) as [f|]; [|reflexivity].
    change (Faststart_getMoovSize (set_os o' (s_writer s))) with (Faststart_getMoovSize (s_writer s)). destruct (Faststart_getMoovSize (s_writer s)) as [z| |]; [|reflexivity..].
    cbn [obind lift fst snd]. reflexivity.
  - cbn [call_cmds]. unfold Writer_writeMoovBox, writeMoovBox_cmds. change (mw_class (set_os o' (s_writer s))) with (mw_class (s_writer s)). change (mw_ftyp_size (set_os o' (s_writer s))) with (mw_ftyp_size (s_writer s)). destruct (mw_class (s_writer s)).
    + rewrite offset_any. destruct (Writer_setOffsetAndSize (s_writer s)) as [w1| |]; cbn [obind]; [|reflexivity..].
      unfold write_moov_tree, moov_tree_cmds. cbn [set_os mw_moov mw_next_id mw_os]. destruct (mw_moov w1) as [m|]; [|reflexivity].
      rewrite (write_any _ (mw_os w1) o'). destruct (BoxInfo_write _ (mw_os w1)) as [[n' o1]| |]; reflexivity.
    + destruct (mw_ftyp_size (s_writer s)) as [f|]; [|reflexivity]. unfold write_moov_tree, moov_tree_cmds. cbn [set_os mw_moov mw_next_id mw_os]. destruct (mw_moov (s_writer s)) as [m|]; [|reflexivity].
      rewrite (write_any _ (os_seekp f (mw_os (s_writer s))) (os_seekp f o')). destruct (BoxInfo_write _ (os_seekp f (mw_os (s_writer s)))) as [[n' o1]| |]; reflexivity.
  - cbn [call_cmds]. unfold Faststart_copyMdatData, copyMdatData_cmds. cbn [set_os mw_tmp_open mw_tmp mw_os]. destruct (mw_tmp_open (s_writer s)); [|reflexivity].
    rewrite (copy_any _ _ _ (mw_os (s_writer s)) o'). destruct (copy_loop _ _ 0 (mw_os (s_writer s))); reflexivity.
Qed.
Lemma re_same s : re (mw_os (s_writer s)) s = s.
Proof. unfold re. rewrite set_os_same. destruct s; reflexivity. Qed.
Lemma step_os s o : mw_os (s_writer (fst (step s o))) = plain (all_cmds s o) (mw_os (s_writer s)).
Proof.
  assert (P : match o with O_AddData _ _ _ _ => os_pos (mw_os (s_writer s)) = os_pos (mw_os (s_writer s)) | _ => True end) by (destruct o; reflexivity || exact I).
  pose proof (step_over (mw_os (s_writer s)) s o P) as E. rewrite re_same in E. rewrite E at 1. reflexivity.
Qed.
Lemma plain_pos l : forall o o', os_pos o = os_pos o' -> os_pos (plain l o) = os_pos (plain l o').
Proof. induction l as [|c l IH]; intros o o' E; [exact E|]. cbn [plain]. apply IH. destruct c; cbn [do1 os_seekp os_write os_pos]; congruence. Qed.

Fixpoint run_cmds (s : session) (ops : list op) : list cmd := match ops with [] => [] | o :: l => all_cmds s o ++ run_cmds (fst (step s o)) l end.
Lemma run_over ops : forall o' s, os_pos o' = os_pos (mw_os (s_writer s)) ->
  run (re o' s) ops = (re (plain (run_cmds s ops) o') (fst (run s ops)), snd (run s ops)) /\ mw_os (s_writer (fst (run s ops))) = plain (run_cmds s ops) (mw_os (s_writer s)).
Proof.
  induction ops as [|o ops IH]; intros o' s P; cbn [run run_cmds]; [auto|]. rewrite step_over by (destruct o; auto). pose proof (step_os s o) as Eo. destruct (step s o) as [s1 r]. cbn [fst snd] in *.
  destruct (IH (plain (all_cmds s o) o') s1) as (E1 & E2); [rewrite Eo; apply plain_pos; exact P|]. rewrite E1, plain_app. destruct (run s1 ops) as [s2 rs]. cbn [fst snd] in *. split; [reflexivity|]. rewrite E2, Eo, plain_app. reflexivity.
Qed.
Lemma run_cmds_app a : forall b s, run_cmds s (a ++ b) = run_cmds s a ++ run_cmds (fst (run s a)) b.
Proof.
  induction a as [|o a IH]; intros b s; [reflexivity|]. cbn [app run_cmds run]. rewrite IH. destruct (step s o) as [s1 r]. cbn [fst]. destruct (run s1 a) as [s2 rs]. cbn [fst]. apply app_assoc.
Qed.
Lemma all_cmds_ok s o s1 : step s o = (s1, Ok tt) -> simple_call o = true -> all_cmds s o = call_cmds o (s_writer s).
Proof. intros E Sc. destruct o; try discriminate Sc; unfold all_cmds; rewrite E; reflexivity. Qed.

(** ** The calls of a recording *)
Lemma acts_put l : forall o, 0 <= os_pos o -> exists c, forall o2, 0 <= os_pos o2 -> plain (acts_cmds l) o2 = os_write c o2.
Proof.
  induction l as [|a l IH]; intros o P; cbn [acts_cmds plain]; [exists []; intros; rewrite os_write_nil; reflexivity|]. destruct (IH o P) as (c & H). destruct a as [d|p|p]; [|exists c; exact H..].
  exists (d ++ c). intros o2 P2. cbn [plain do1]. pose proof (Zlen_nonneg d). rewrite H by (cbn [os_write os_pos]; lia). unfold os_write. cbn [os_data os_pos]. rewrite splice_chain by exact P2. rewrite Zlen_app, Z.add_assoc. reflexivity.
Qed.
Lemma media_cmds s o : media_op o = true -> (mw_class (s_writer s) = Faststart -> all_cmds s o = []) /\ (exists c, forall o2, 0 <= os_pos o2 -> plain (all_cmds s o) o2 = os_write c o2).
Proof.
  intros M. assert (N : all_cmds s o = [] -> (mw_class (s_writer s) = Faststart -> all_cmds s o = []) /\ (exists c, forall o2, 0 <= os_pos o2 -> plain (all_cmds s o) o2 = os_write c o2)).
  { intros ->. split; [reflexivity|]. exists []. intros. rewrite os_write_nil. reflexivity. }
  destruct o; try discriminate M; unfold all_cmds in *; cbn [call_cmds] in *.
  1, 2, 4, 5: apply N; destruct (snd _); reflexivity.
  - destruct (mw_class (s_writer s)); [|apply N; reflexivity]. destruct (nth_error (s_tracks s) i) as [tr|]; [|apply N; reflexivity]. destruct (addData_actions _ _) as [[acts r]|]; [|apply N; reflexivity].
    split; [discriminate|]. apply (acts_put acts (mkOS [] 0)). cbn. lia.
  - destruct (mw_class (s_writer s)); [|apply N; reflexivity]. split; [discriminate|]. exists data. reflexivity.
Qed.
Lemma add_class d w w' : Writer_addMdatData d w = Ok w' -> mw_class w' = mw_class w.
Proof. unfold Writer_addMdatData. destruct (mw_class w) eqn:C; [intros E; injection E as <-; exact C|]. destruct (mw_tmp_open w); [intros E; injection E as <-; exact C|discriminate]. Qed.
Lemma actions_class ts key : forall acts tr w tr' w', track_actions ts key acts tr w = Ok (tr', w') -> mw_class w' = mw_class w.
Proof.
  induction acts as [|a acts IH]; intros tr w tr' w' E; cbn [track_actions] in E; [congruence|]. destruct a as [d|p|p]; [|exact (IH _ _ _ _ E)..].
  unfold track_store in E. destruct (Writer_addMdatData d w) as [w1| |] eqn:Ew; try discriminate. rewrite (IH _ _ _ _ E). exact (add_class _ _ _ Ew).
Qed.
Lemma media_class s o : media_op o = true -> mw_class (s_writer (fst (step s o))) = mw_class (s_writer s).
Proof.
  intros M. destruct o; try discriminate M; cbn [step].
  - unfold Track_new. destruct (id =? 0); reflexivity.
  - reflexivity.
  - destruct (nth_error (s_tracks s) i) as [tr|]; [|reflexivity]. destruct (addData_actions _ data) as [[acts r]|]; [|reflexivity].
    destruct (track_actions timestamp is_key acts tr (s_writer s)) as [[tr' w']| |] eqn:Ea; [|reflexivity..]. exact (actions_class _ _ _ _ _ _ _ Ea).
  - unfold on_track. destruct (nth_error (s_tracks s) i); reflexivity.
  - unfold on_track. destruct (nth_error (s_tracks s) i); reflexivity.
  - destruct (Writer_addMdatData data (s_writer s)) as [w'| |] eqn:Ew; [|reflexivity..]. exact (add_class _ _ _ Ew).
Qed.
Lemma recording_cmds ops : forall s, forallb media_op ops = true ->
  (mw_class (s_writer s) = Faststart -> run_cmds s ops = []) /\ (exists c, forall o2, 0 <= os_pos o2 -> plain (run_cmds s ops) o2 = os_write c o2).
Proof.
  induction ops as [|o ops IH]; intros s M; cbn [run_cmds]; [split; [reflexivity|exists []; intros; rewrite os_write_nil; reflexivity]|]. cbn [forallb] in M. apply andb_prop in M. destruct M as (M1 & M2).
  destruct (media_cmds s o M1) as (A1 & c1 & B1). destruct (IH (fst (step s o)) M2) as (A2 & c2 & B2). split; [intros C; rewrite A1 by exact C; apply A2; rewrite media_class by exact M1; exact C|].
  exists (c1 ++ c2). intros o2 P. pose proof (Zlen_nonneg c1). rewrite plain_app, B1, B2 by (cbn [os_write os_pos]; lia). unfold os_write. cbn [os_data os_pos]. rewrite splice_chain by exact P. rewrite Zlen_app, Z.add_assoc. reflexivity.
Qed.

(** ** Octets over octets *)
Lemma over_app f b old : splice (over f old) (Zlen f) b = over (f ++ b) old.
Proof. unfold over. rewrite splice_at by reflexivity. rewrite skipn_skipn, app_length, <- app_assoc. reflexivity. Qed.
Lemma over_start b old : splice old 0 b = over b old.
Proof. pose proof (over_app [] b old) as H. exact H. Qed.
Lemma over_hole f h b old : length h = 16%nat -> splice (splice (over f old) (Zlen f + 16) b) (Zlen f) h = over (f ++ h ++ b) old.
Proof.
  intros Lh. destruct b as [|x b]; [rewrite splice_nil, app_nil_r; apply over_app|]. set (u := x :: b). assert (Nu : u <> []) by discriminate. clearbody u.
  assert (Es : exists g, length g = 16%nat /\ splice (over f old) (Zlen f + 16) u = (f ++ g) ++ u ++ skipn (Z.to_nat (Zlen f + 16) + length u) (over f old)).
  { unfold splice. destruct u as [|y u]; [congruence|]. replace (Z.to_nat (Zlen f + 16)) with (length f + 16)%nat by (unfold Zlen; lia). unfold over at 1 2.
    rewrite <- app_assoc, firstn_app_2. eexists. split; [|reflexivity]. rewrite firstn_length, !app_length, repeat_length, !skipn_length. lia. }
  destruct Es as (g & Lg & Es). rewrite Es, <- app_assoc, splice_at by reflexivity. unfold over. rewrite <- !app_assoc. f_equal. f_equal. rewrite Lh, <- Lg, skipn_app, Nat.sub_diag, skipn_O, skipn_all. cbn [app]. f_equal.
  rewrite !app_length, skipn_app, skipn_all2 by (unfold Zlen; lia). cbn [app]. rewrite skipn_skipn. f_equal. unfold Zlen. lia.
Qed.

Lemma start_re old p cls timescale duration time ft : start_on old p cls timescale duration time ft = re (mkOS old p) (start cls timescale duration time ft).
Proof. destruct cls; reflexivity. Qed.

Section Program.
Variables (timescale duration time : Z) (ft : ftyp) (ops : list op) (sel : list nat).
Hypothesis (Fok : ftyp_ok ft) (Rec : recording ops) (Sel : chosen ops sel) (Bnd : movie_fits ft ops sel) (Tp : time_printable time).
Variables (old : list Z) (p : Z).
Notation fb := (ftyp_octets ft).
Notation F := (Zlen fb).
Notation m := (media ops).

Lemma seek_flow o q l bs : 0 <= q -> flow q (Seek q :: l) bs -> plain (Seek q :: l) o = mkOS (splice (os_data o) q bs) (q + Zlen bs).
Proof. intros Q Fl. change (plain (Seek q :: l) o) with (plain (Seek q :: l) (os_seekp q o)). rewrite (flow_plain _ _ _ Fl) by (auto; reflexivity). reflexivity. Qed.

Lemma ftyp_over cls : let s0 := start cls timescale duration time ft in
  plain (all_cmds s0 O_WriteFtyp) (mkOS old p) = mkOS (over fb old) (base_of cls ft + match cls with Simple => 0 | Faststart => F end) /\
  mw_os (s_writer (fst (step s0 O_WriteFtyp))) = mkOS fb (base_of cls ft + match cls with Simple => 0 | Faststart => F end).
Proof.
  cbv zeta. destruct (movie_fits_media _ _ _ Fok Bnd) as (B1 & _). destruct (start_sinv cls timescale duration time ft Fok B1) as (S1 & _). cbv zeta in S1.
  destruct (ftyp_flow StringStream.append_only (fun n => Z.eqb_refl n) timescale duration time ft ops sel Fok Bnd cls) as (Fl & _ & _ & Eo & Ec). pose proof (sound_ftyp ft Fok) as Sf. pose proof (Zlen_nonneg fb). cbv zeta in *.
  pose proof (step_os (start cls timescale duration time ft) O_WriteFtyp) as So. rewrite Eo in So. destruct (step (start cls timescale duration time ft) O_WriteFtyp) as [s1 r] eqn:Es. cbn [fst snd] in *. subst r.
  rewrite (all_cmds_ok _ _ _ Es eq_refl), Ec in *. destruct (place_cmds (ftyp_node ft) 0 Sf) as (l & El). rewrite El in *. rewrite !plain_app in *.
  rewrite (seek_flow _ 0 l fb) in So by (lia || exact Fl). rewrite (seek_flow _ 0 l fb) by (lia || exact Fl). cbn [os_data] in *. rewrite over_start in *. assert (On : over fb [] = fb) by (unfold over; rewrite skipn_nil, app_nil_r; reflexivity). rewrite On in So. rewrite So.
  destruct cls; cbn [plain do1 os_seekp os_data base_of]; rewrite ?Z.add_0_r, ?Z.add_0_l; auto.
Qed.

(** the calls after the ones of a recording, on the fresh stream and on the other one *)
Lemma program_over cls fin : let s0 := start cls timescale duration time ft in let s1 := fst (step s0 O_WriteFtyp) in
  let pos := base_of cls ft + match cls with Simple => 0 | Faststart => F end in
  run (start_on old p cls timescale duration time ft) (O_WriteFtyp :: ops ++ fin) =
    (re (plain (run_cmds s1 (ops ++ fin)) (mkOS (over fb old) pos)) (fst (run s0 (O_WriteFtyp :: ops ++ fin))), snd (run s0 (O_WriteFtyp :: ops ++ fin))).
Proof.
  cbv zeta. rewrite start_re. cbn [run]. rewrite step_over by exact I. destruct (ftyp_over cls) as (E1 & E2). cbv zeta in *. rewrite E1.
  destruct (step (start cls timescale duration time ft) O_WriteFtyp) as [s1 r]. cbn [fst snd] in *.
  destruct (run_over (ops ++ fin) (mkOS (over fb old) (base_of cls ft + match cls with Simple => 0 | Faststart => F end)) s1) as (E3 & _); [rewrite E2; reflexivity|]. rewrite E3.
  destruct (run s1 (ops ++ fin)). reflexivity.
Qed.

Lemma simple_over : let s0 := start Simple timescale duration time ft in
  exists s', run (start_on old p Simple timescale duration time ft) (simple_program ops sel) = (s', snd (run s0 (simple_program ops sel))) /\ s_tracks s' = s_tracks (fst (run s0 (simple_program ops sel))) /\
  output s' = over (output (fst (run s0 (simple_program ops sel)))) old.
Proof.
  cbv zeta. unfold simple_program. rewrite program_over. eexists. split; [reflexivity|]. split; [reflexivity|]. unfold output at 1. cbn [re s_writer set_os mw_os].
  destruct (movie_fits_media _ _ _ Fok Bnd) as (B1 & B2 & B3). destruct (start_sinv Simple timescale duration time ft Fok B1) as (R0 & S0). destruct (ftyp_over Simple) as (_ & O1). cbv zeta in *. cbn [run].
  destruct (step (start Simple timescale duration time ft) O_WriteFtyp) as [s1 r] eqn:Es. cbn [fst snd] in *. subst r.
  destruct Rec as [R1 R2 R3 R4]. destruct (run_sinv _ _ _ _ _ _ _ s1 ops S0 R1 R2 R3 R4 B2) as (S1 & _). cbn [base_of] in *. rewrite Z.add_0_r in *.
  rewrite run_cmds_app, plain_app, run_app. destruct (recording_cmds ops s1 R1) as (_ & c & Hc). destruct (run_over ops (mw_os (s_writer s1)) s1 eq_refl) as (_ & Ef).
  destruct (simple_finish timescale duration time ft ops sel Fok R4 Sel Bnd _ Tp S1) as (Rf & _).
  destruct (run s1 ops) as [s2 rs] eqn:Er. cbn [fst snd] in *. pose proof (Zlen_nonneg fb). pose proof (Zlen_nonneg m).
  rewrite Hc in Ef by (rewrite O1; cbn [os_pos]; lia). rewrite Hc by (cbn [os_pos]; lia). rewrite O1 in Ef.
  destruct (simple_append timescale duration time ft ops sel Sel s2 S1) as (s3 & ts0 & E2 & HT & W1).
  destruct (si_w _ _ _ _ _ _ _ _ _ S1) as [C1 C2 C3 C4 C5 C6 C7 C8 (D1 & D2 & D3 & pad & D4 & D5)].
  assert (Ec : c = m).
  { rewrite Ef in D4. cbn [os_write os_data os_pos] in D4. destruct c as [|x c].
    - rewrite splice_nil in D4. rewrite <- (app_nil_r fb) in D4 at 1. apply app_inv_head in D4. symmetry in D4. apply app_eq_nil in D4. destruct D4 as (_ & ->). reflexivity.
    - unfold splice in D4. replace (Z.to_nat (F + 16) - length fb)%nat with 16%nat in D4 by (unfold Zlen; lia). rewrite firstn_all2 in D4 by (rewrite app_length, repeat_length; unfold Zlen; lia).
      rewrite skipn_all2, app_nil_r, <- app_assoc in D4 by (unfold Zlen; lia). apply app_inv_head in D4. destruct D5 as [->|(-> & Em)]; [apply app_inv_head in D4; exact D4|]. rewrite Em in D4. discriminate D4. }
  subst c. clear Hc.
  assert (Hw : mw_class (s_writer s3) = Simple /\ mw_ftyp_size (s_writer s3) = Some F /\ mw_mdat_size (s_writer s3) = Zlen m /\ mw_os (s_writer s3) = mw_os (s_writer s2) /\ mw_next_id (s_writer s3) = u32 (1 + ids_issued ops)) by (rewrite W1; cbn; auto).
  destruct Hw as (V1 & V2 & V3 & V4 & V5). pose proof (SimpleFile.ftyp_size ft Fok) as Bf. pose proof Bnd as Bnd'. unfold movie_fits in Bnd'. pose proof (Zlen_nonneg (ftyp_compatible_brands ft)).
  destruct (free_flow ft ops (s_writer s3) V1 V2 V3 ltac:(lia)) as (lf & Elf & Flf).
  destruct (simple_header ft ops (s_writer s3) _ V1 V2 V3 ltac:(lia) V4 ltac:(exists pad; auto)) as (o' & E3 & O').
  assert (Es3 : step s3 O_WriteFreeAndMdatHeader = (mk_session (set_os o' (s_writer s3)) (s_tracks s3), Ok tt)) by (cbn [step]; rewrite E3; reflexivity).
  set (s4 := mk_session (set_os o' (s_writer s3)) (s_tracks s3)) in *. cbn [run run_cmds] in *. rewrite E2 in *. cbn [fst] in *. rewrite Es3 in *. cbn [fst] in *.
  destruct (step s4 O_WriteMoov) as [s5 r5] eqn:E5. cbn [snd fst] in *. assert (r5 = Ok tt) by congruence. subst r5. clear Rf.
  rewrite (all_cmds_ok _ _ _ E2 eq_refl), (all_cmds_ok _ _ _ Es3 eq_refl), (all_cmds_ok _ _ _ E5 eq_refl). 
  set (traks := map (fun t => make_trak (Track_finalize t)) ts0) in *.
  assert (Bt : sum_by nsize traks <= moov_bound ops sel - 4096).
  { apply (traks_bound time ops sel Track_finalize). clear -HT. induction HT as [|i t0 sel ts0 (_ & T) H IH]; constructor; auto. exists (F + 16), (F + 16). split; [exact T|]. split; [apply recorded_finalize, (ti_rec _ _ _ _ _ T)|].
    unfold Track_finalize. destruct (t_finalized t0); reflexivity. }
  assert (So : forall id, sound (moov_node timescale duration time id traks)).
  { intros id. apply sound_moov_node. subst traks. apply Forall_map, Forall_forall. intros t0 _. apply sound_trak. }
  pose proof (fun id => moov_size timescale duration time id traks) as Ms.
  assert (Ec : call_cmds O_WriteMoov (s_writer s4) = BoxInfo_cmds (place (moov_node timescale duration time (u32 (1 + ids_issued ops)) traks) (F + 16 + Zlen m))).
  { cbn [call_cmds]. unfold writeMoovBox_cmds, s4. cbn [s_writer set_os mw_class]. rewrite V1. unfold Writer_setOffsetAndSize. cbn [set_os mw_moov mw_ftyp_size mw_class mw_mdat_size]. rewrite W1 at 1. cbn [set_moov mw_moov]. rewrite V2, V1, V3.
    unfold LARGE_HEADER_SIZE. rewrite u64_small by lia. rewrite sound_adjust by (auto; specialize (Ms 1); lia).
    unfold moov_tree_cmds. cbn [set_moov set_os mw_moov mw_next_id mw_os]. rewrite V5, set_id_place. reflexivity. }
  pose proof (flow_place (moov_node timescale duration time (u32 (1 + ids_issued ops)) traks) (F + 16 + Zlen m) (So _) ltac:(lia) ltac:(specialize (Ms (u32 (1 + ids_issued ops))); lia)) as Fl. rewrite <- Ec in Fl.
  destruct (place_cmds (moov_node timescale duration time (u32 (1 + ids_issued ops)) traks) (F + 16 + Zlen m) (So _)) as (l & El). rewrite <- Ec in El.
  set (mo := serialize_with written _) in Fl. clearbody mo. rewrite El in Fl.
  pose proof (step_cmds _ O_WriteMoov _ _ eq_refl E5) as Full. cbn [call_cmds] in Elf |- *. rewrite Elf. change (writeMoovBox_cmds (s_writer s4)) with (call_cmds O_WriteMoov (s_writer s4)). rewrite El in Full |- *.
  rewrite (seek_flow _ (F + 16 + Zlen m) _ _ ltac:(lia) Fl) in Full. cbn [app]. rewrite app_nil_r, app_comm_cons, plain_app. rewrite (seek_flow _ (F + 16 + Zlen m) _ _ ltac:(lia) Fl), (seek_flow _ F _ _ ltac:(lia) Flf). cbn [os_write os_data os_pos].
  unfold output. destruct (run s4 [O_WriteMoov]) eqn:Ex. cbn [run] in Ex. rewrite E5 in Ex. cbn [fst]. injection Ex as <- _. rewrite Full. unfold s4. cbn [s_writer set_os mw_os os_data]. rewrite O'.
  pose proof (free_mdat_length m) as L16. rewrite over_hole by (apply Nat2Z.inj; exact L16).
  set (pre := fb ++ (free_header m ++ frame_header (str "mdat") (Zlen m)) ++ m). assert (Lp : F + 16 + Zlen m = Zlen pre) by (unfold pre; rewrite !Zlen_app in *; lia). rewrite Lp, over_app.
  replace (fb ++ free_header m ++ frame_header (str "mdat") (Zlen m) ++ m) with pre by (unfold pre; rewrite <- !app_assoc; reflexivity). rewrite splice_end. reflexivity.
Qed.
Lemma faststart_over : let s0 := start Faststart timescale duration time ft in
  exists s', run (start_on old p Faststart timescale duration time ft) (faststart_program ops sel) = (s', snd (run s0 (faststart_program ops sel))) /\ s_tracks s' = s_tracks (fst (run s0 (faststart_program ops sel))) /\
  output s' = over (output (fst (run s0 (faststart_program ops sel)))) old.
Proof.
  cbv zeta. unfold faststart_program. rewrite program_over. eexists. split; [reflexivity|]. split; [reflexivity|]. unfold output at 1. cbn [re s_writer set_os mw_os].
  destruct (movie_fits_media _ _ _ Fok Bnd) as (B1 & B2 & B3). destruct (start_sinv Faststart timescale duration time ft Fok B1) as (R0 & S0). cbv zeta in *. cbn [run].
  destruct (step (start Faststart timescale duration time ft) O_WriteFtyp) as [s1 r] eqn:Es. cbn [fst snd] in *. subst r.
  pose proof Rec as [R1 R2 R3 R4]. destruct (run_sinv _ _ _ _ _ _ _ s1 ops S0 R1 R2 R3 R4 B2) as (S1 & _). cbn [base_of] in *.
  rewrite run_cmds_app, plain_app, run_app. destruct (recording_cmds ops s1 R1) as (Hc & _). rewrite Hc by exact (wi_class _ _ _ _ _ _ _ _ _ _ (si_w _ _ _ _ _ _ _ _ _ S0)). cbn [plain].
  destruct (run s1 ops) as [s2 rs] eqn:Er. cbn [fst snd] in *. pose proof (Zlen_nonneg fb). pose proof (Zlen_nonneg m).
  destruct (faststart_calls timescale duration time ft ops sel Fok Rec Sel Bnd Tp s2 S1) as (sa & sb & sc & sd & mv & Ea & Eb & Ec & Ed & (lm & Cm) & Fm & (lh & Ch) & Fh & Fc & V1 & V2 & V3 & V4 & Tm). cbv zeta in *. set (hd := frame_header (str "mdat") (Zlen m)) in *.
  pose proof (Zlen_nonneg mv). pose proof (Zlen_nonneg hd).
  cbn [run_cmds run]. rewrite Ea. cbn [fst]. rewrite Eb. cbn [fst]. rewrite Ec. cbn [fst]. rewrite Ed. cbn [fst].
  rewrite (all_cmds_ok _ _ _ Ea eq_refl), (all_cmds_ok _ _ _ Eb eq_refl), (all_cmds_ok _ _ _ Ec eq_refl), (all_cmds_ok _ _ _ Ed eq_refl).
  rewrite app_nil_r, !plain_app. change (plain (call_cmds (O_AppendTrakAndUdta sel) (s_writer s2)) (mkOS (over fb old) (0 + F))) with (mkOS (over fb old) (0 + F)).
  rewrite Cm in *. rewrite Ch in *. rewrite (seek_flow _ F _ _ ltac:(lia) Fm), (seek_flow _ (F + Zlen mv) _ _ ltac:(lia) Fh). cbn [os_data]. rewrite (flow_plain _ _ _ Fc) by (cbn [os_pos]; lia). cbn [os_data].
  rewrite over_app. replace (F + Zlen mv) with (Zlen (fb ++ mv)) by (rewrite Zlen_app; lia). rewrite over_app. rewrite <- Zlen_app, over_app. unfold output. rewrite V4. cbn [os_data]. rewrite <- !app_assoc. reflexivity.
Qed.
End Program.

(** ** Any calls whatever, after writeFtypBox *)
Lemma splice_nth l p b i : b <> [] -> nth_error (splice l p b) i =
  if (i <? Z.to_nat p)%nat then (if (i <? length l)%nat then nth_error l i else Some 0)
  else if (i <? Z.to_nat p + length b)%nat then nth_error b (i - Z.to_nat p) else nth_error l i.
Proof.
  intros Nb. unfold splice. destruct b as [|x b]; [congruence|]. set (u := x :: b). clearbody u. set (n := Z.to_nat p).
  assert (Lf : length (firstn n (l ++ repeat 0 (n - length l))) = n) by (rewrite firstn_length, app_length, repeat_length; lia).
  destruct (Nat.ltb_spec i n).
  - rewrite nth_error_app1 by lia. assert (Ef : nth_error (firstn n (l ++ repeat 0 (n - length l))) i = nth_error (l ++ repeat 0 (n - length l)) i).
    { rewrite <- (firstn_skipn n (l ++ repeat 0 (n - length l))) at 2. rewrite nth_error_app1 by lia. reflexivity. }
    rewrite Ef. destruct (Nat.ltb_spec i (length l)); [apply nth_error_app1; lia|]. rewrite nth_error_app2 by lia. apply nth_error_repeat. lia.
  - rewrite nth_error_app2, Lf by lia. destruct (Nat.ltb_spec i (n + length u)); [apply nth_error_app1; lia|]. rewrite nth_error_app2 by lia.
    rewrite <- (firstn_skipn (n + length u) l) at 2. destruct (Nat.le_gt_cases (n + length u) (length l)).
    + rewrite nth_error_app2 by (rewrite firstn_length; lia). rewrite firstn_length. f_equal. lia.
    + rewrite skipn_all2, app_nil_r by lia. rewrite firstn_all2 by lia. transitivity (@None Z); [apply nth_error_None; cbn; lia|symmetry; apply nth_error_None; lia].
Qed.
Lemma splice_len l p b : b <> [] -> length (splice l p b) = Nat.max (length l) (Z.to_nat p + length b).
Proof.
  intros Nb. unfold splice. destruct b as [|x b]; [congruence|]. rewrite !app_length, firstn_length, app_length, repeat_length, skipn_length. cbn [length]. lia.
Qed.
Definition mixed (old d d' : list Z) : Prop := length d' = Nat.max (length d) (length old) /\ forall i, nth_error d' i = nth_error d i \/ nth_error d' i = nth_error old i.
Lemma mixed_splice old d d' p b : mixed old d d' -> mixed old (splice d p b) (splice d' p b).
Proof.
  intros (L & H). destruct b as [|x b]; [split; assumption|]. assert (Nb : x :: b <> []) by discriminate. split; [rewrite !splice_len by exact Nb; lia|]. intros i. rewrite !splice_nth by exact Nb.
  destruct (Nat.ltb_spec i (Z.to_nat p)); [|destruct (i <? _)%nat; [left; reflexivity|apply H]].
  destruct (Nat.ltb_spec i (length d')).
  - destruct (Nat.ltb_spec i (length d)); [apply H|]. destruct (H i) as [E|E]; [|right; exact E]. exfalso. rewrite (proj2 (nth_error_None d i)) in E by lia. apply nth_error_None in E. lia.
  - replace (i <? length d)%nat with false by lia. left. reflexivity.
Qed.
Lemma mixed_plain old l : forall o o', os_pos o = os_pos o' -> mixed old (os_data o) (os_data o') -> mixed old (os_data (plain l o)) (os_data (plain l o')).
Proof.
  induction l as [|c l IH]; intros o o' P H; [exact H|]. cbn [plain]. apply IH; destruct c; cbn [do1 os_seekp os_write os_pos os_data]; try congruence; try exact H; rewrite P; apply mixed_splice; exact H.
Qed.
Lemma any_over old p cls timescale duration time ft ops : ftyp_ok ft -> movie_fits ft [] [] ->
  let r := run (start cls timescale duration time ft) (O_WriteFtyp :: ops) in
  let r' := run (start_on old p cls timescale duration time ft) (O_WriteFtyp :: ops) in
  snd r' = snd r /\ s_tracks (fst r') = s_tracks (fst r) /\ mixed old (output (fst r)) (output (fst r')).
Proof.
  intros Fok Bnd. cbv zeta. rewrite start_re. cbn [run]. rewrite step_over by exact I. destruct (ftyp_over timescale duration time ft [] [] Fok Bnd old p cls) as (E1 & E2). cbv zeta in *. rewrite E1.
  destruct (step (start cls timescale duration time ft) O_WriteFtyp) as [s1 r]. cbn [fst snd] in *. set (pos := base_of cls ft + _) in *.
  destruct (run_over ops (mkOS (over (ftyp_octets ft) old) pos) s1) as (E3 & E4); [rewrite E2; reflexivity|]. rewrite E3. unfold output.
  destruct (run s1 ops) as [s2 rs]. cbn [fst snd re s_writer s_tracks set_os mw_os] in *. split; [reflexivity|]. split; [reflexivity|]. rewrite E4, E2.
  apply mixed_plain; [reflexivity|]. cbn [os_data]. split; [unfold over; rewrite app_length, skipn_length; lia|]. intros i. unfold over.
  destruct (Nat.lt_ge_cases i (length (ftyp_octets ft))); [left; apply nth_error_app1; lia|]. right. rewrite nth_error_app2 by lia. set (k := length (ftyp_octets ft)) in *.
  rewrite <- (firstn_skipn k old) at 2. destruct (Nat.le_gt_cases k (length old)).
  - rewrite nth_error_app2 by (rewrite firstn_length; lia). rewrite firstn_length. f_equal. lia.
  - rewrite skipn_all2, app_nil_r by lia. rewrite firstn_all2 by lia. transitivity (@None Z); [apply nth_error_None; cbn; lia|symmetry; apply nth_error_None; lia].
Qed.
