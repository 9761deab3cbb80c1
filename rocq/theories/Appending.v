(** Output to a std::stringstream (C61). *)
From Coq Require Import ZifyBool.
From Verif Require Import Base BitIO BitFacts BitIOProofs Boxes WireFormat Box BoxSpec BoxSize Print PrintSpec PrintProofs BoxTree TreeSpec TreeProofs TreeLayout TreePrint H264 Track Writers MovieSpec AnnexBSpec H264Proofs TrackProofs TrakProofs SessionProofs MovieShape Completion MovieSize FileProofs SimpleFile FaststartFile Device FailureSpec DeviceProofs Interrupt StringStream.
From Coq Require Import String List.
Import ListNotations.
Open Scope Z_scope.
Open Scope list_scope.

Section A.
Variable allowed : seeks.
Notation exec_str := (exec_str allowed). Notation str_step := (str_step allowed). Notation run_str := (run_str allowed).
Hypothesis At : forall n, allowed n n = true.
Lemma write_end b o : os_pos o = Zlen (os_data o) -> os_pos (os_write b o) = Zlen (os_data (os_write b o)).
Proof. intros H. cbn [os_write os_pos os_data]. rewrite H, splice_end, Zlen_app. reflexivity. Qed.
Lemma flow_str p l bs : flow p l bs -> forall o, os_pos o = p -> p = Zlen (os_data o) -> exec_str l o = (Running, plain l o).
Proof.
  intros Fl. induction Fl as [p|p l bs H IH|p b l bs H IH|p b l bs H IH]; intros o Hp Lp; cbn [StringStream.exec_str plain do1]; [reflexivity|..].
  - rewrite Lp at 1. rewrite At. apply IH; [reflexivity|exact Lp].
  - apply IH; [cbn [os_write os_pos]; lia|]. rewrite <- write_end by lia. cbn [os_write os_pos]. lia.
  - apply IH; [cbn [os_write os_pos]; lia|]. rewrite <- write_end by lia. cbn [os_write os_pos]. lia.
Qed.
Lemma flow_str_seek p l bs l' : flow p l bs -> l = Seek p :: l' -> forall o, p = Zlen (os_data o) -> exec_str l o = (Running, plain l o).
Proof.
  intros Fl E o Lp. rewrite E in *. inversion Fl; subst. cbn [StringStream.exec_str plain do1]. rewrite At. eapply flow_str; [eassumption|reflexivity|reflexivity].
Qed.
Lemma str_same s o s' : simple_call o = true -> step s o = (s', Ok tt) -> exec_str (call_cmds o (s_writer s)) (mw_os (s_writer s)) = (Running, plain (call_cmds o (s_writer s)) (mw_os (s_writer s))) ->
  str_step s o = (Running, s', Ok tt).
Proof.
  intros S E X. pose proof (step_cmds _ _ _ _ S E) as Os. assert (K : mk_session (set_os (mw_os (s_writer s')) (s_writer s')) (s_tracks s') = s') by (rewrite set_os_same; destruct s'; reflexivity).
  destruct o; try discriminate S; cbn [StringStream.str_step]; rewrite E, X, <- Os, K; reflexivity.
Qed.
Lemma str_other s o : call_cmds o (s_writer s) = [] -> simple_call o = true -> (let '(s', r) := step s o in (Running, s', r)) = str_step s o.
Proof.
  intros C S. destruct (step s o) as [s' r] eqn:E. destruct r as [[]|x|].
  - symmetry. apply str_same; [exact S|exact E|]. rewrite C. reflexivity.
  - destruct o; try discriminate S; cbn [StringStream.str_step]; rewrite E; reflexivity.
  - destruct o; try discriminate S; cbn [StringStream.str_step]; rewrite E; reflexivity.
Qed.
Lemma run_str_app l1 l2 : forall s st s1 rs, run_str s l1 = (st, s1, rs) -> st = Running -> run_str s (l1 ++ l2) = (let '(st2, s2, rs2) := run_str s1 l2 in (st2, s2, rs ++ rs2)).
Proof.
  induction l1 as [|o l IH]; intros s st s1 rs E ->; cbn [StringStream.run_str app] in *.
  - injection E as <- <-. destruct (run_str s l2) as [[st2 s2] rs2]. reflexivity.
  - destruct (str_step s o) as [[[| |] sa] r]; [|discriminate E..]. destruct (run_str sa l) as [[stb sb] rsb] eqn:Eb. injection E as -> -> <-. rewrite (IH _ _ _ _ Eb eq_refl). destruct (run_str s1 l2) as [[st2 s2] rs2]. reflexivity.
Qed.

Section S.
Variables (timescale duration time : Z) (ft : ftyp) (ops : list op) (sel : list nat).
Hypothesis (Fok : ftyp_ok ft) (Rec : recording ops) (Sel : chosen ops sel) (Bnd : movie_fits ft ops sel) (Tp : time_printable time).
Notation fb := (ftyp_octets ft).
Notation F := (Zlen fb).
Notation m := (media ops).

Lemma ftyp_flow cls : let l := BoxInfo_cmds (place (ftyp_node ft) 0) in
  flow 0 l fb /\ exec_str l (mkOS [] 0) = (Running, mkOS fb F) /\ plain l (mkOS [] 0) = mkOS fb F /\ mw_os (s_writer (start cls timescale duration time ft)) = mkOS [] 0 /\
  call_cmds O_WriteFtyp (s_writer (start cls timescale duration time ft)) = l ++ match cls with Simple => [Seek (F + 16)] | Faststart => [] end.
Proof.
  destruct (movie_fits_media _ _ _ Fok Bnd) as (B1 & _). pose proof (sound_ftyp ft Fok) as Sf. pose proof (sound_size _ Sf) as Ls. fold fb in Ls. pose proof (Zlen_nonneg fb).
  cbv zeta. pose proof (flow_place (ftyp_node ft) 0 Sf ltac:(lia) ltac:(lia)) as Fl. fold fb in Fl. split; [exact Fl|].
  assert (Pl : plain (BoxInfo_cmds (place (ftyp_node ft) 0)) (mkOS [] 0) = mkOS fb F).
  { rewrite (flow_plain _ _ _ Fl) by (try reflexivity; lia). cbn [os_data]. change 0 with (Zlen (@nil Z)). rewrite splice_end. reflexivity. }
  split; [rewrite (flow_str _ _ _ Fl), Pl; reflexivity|]. split; [exact Pl|].
  split; [destruct cls; reflexivity|]. cbn [call_cmds]. unfold writeFtypBox_cmds.
  assert (Ew : mw_ftyp (s_writer (start cls timescale duration time ft)) = ft /\ mw_class (s_writer (start cls timescale duration time ft)) = cls) by (destruct cls; auto). destruct Ew as (Ew & ->). rewrite Ew. fold (ftyp_node ft).
  rewrite sound_adjust by (auto; lia). f_equal. destruct cls; [|reflexivity]. unfold size_after_write. rewrite sound_write by (auto using printed_ftyp; lia). rewrite getSize_place, <- Ls.
  unfold LARGE_HEADER_SIZE. rewrite u64_small by lia. reflexivity.
Qed.
Lemma media_str a : forall s, forallb media_op a = true -> run_str s a = (let '(s', rs) := run s a in (Running, s', rs)).
Proof.
  induction a as [|o a IH]; intros s M; [reflexivity|]. cbn [forallb] in M. apply andb_prop in M. destruct M as (M1 & M2). cbn [run StringStream.run_str].
  assert (E : str_step s o = (let '(s', r) := step s o in (Running, s', r))).
  { destruct o; try discriminate M1; try reflexivity; symmetry; apply str_other; reflexivity. }
  rewrite E. destruct (step s o) as [s1 r]. rewrite (IH s1 M2). destruct (run s1 a). reflexivity.
Qed.
Lemma faststart_stream : run_str (start Faststart timescale duration time ft) (faststart_program ops sel) =
  (let '(s, rs) := run (start Faststart timescale duration time ft) (faststart_program ops sel) in (Running, s, rs)).
Proof.
  destruct (ftyp_flow Faststart) as (Fl & X & Pl & Os & Cc). cbv zeta in *. rewrite app_nil_r in Cc. destruct (movie_fits_media _ _ _ Fok Bnd) as (B1 & _). destruct (start_sinv Faststart timescale duration time ft Fok B1) as (E0 & _). cbv zeta in E0.
  destruct (after_calls timescale duration time ft ops sel Fok Rec Bnd Faststart ops [] (eq_sym (app_nil_r ops))) as (s0 & Es & S0). pose proof (Zlen_nonneg fb) as Lf.
  destruct (faststart_calls timescale duration time ft ops sel Fok Rec Sel Bnd Tp s0 S0) as (s1 & s2 & s3 & s4 & mv & E1 & E2 & E3 & E4 & (l1 & Cm) & Fm & (l2 & Ch) & Fh & Fc & V1 & V2 & V3 & V4 & _). cbv zeta in *.
  pose proof (Zlen_nonneg mv) as Lm. pose proof (Zlen_nonneg (frame_header (str "mdat") (Zlen m))) as Lh.
  unfold faststart_program. destruct (step (start Faststart timescale duration time ft) O_WriteFtyp) as [sa ra] eqn:Ea. cbn [fst snd] in *. subst ra.
  assert (Q : str_step (start Faststart timescale duration time ft) O_WriteFtyp = (Running, sa, Ok tt)).
  { apply str_same; [reflexivity|exact Ea|]. rewrite Cc, Os, Pl. exact X. }
  cbn [run StringStream.run_str]. rewrite Q, Ea. assert (M : run_str sa ops = (let '(s', rs) := run sa ops in (Running, s', rs))) by (apply media_str; destruct Rec; assumption).
  rewrite run_app. destruct (run sa ops) as [sb rb] eqn:Eb. assert (Eq : sb = s0) by (rewrite Es; cbn [run]; rewrite Ea, Eb; reflexivity). subst sb. rewrite (run_str_app _ _ _ _ _ _ M eq_refl). cbn [fst snd].
  assert (T1 : str_step s0 (O_AppendTrakAndUdta sel) = (Running, s1, Ok tt)) by (rewrite <- str_other by reflexivity; rewrite E1; reflexivity).
  assert (T2 : str_step s1 O_WriteMoov = (Running, s2, Ok tt)).
  { apply str_same; [reflexivity|exact E2|]. apply (flow_str_seek _ _ _ _ Fm Cm). rewrite V1. reflexivity. }
  assert (T3 : str_step s2 O_WriteMdatHeader = (Running, s3, Ok tt)).
  { apply str_same; [reflexivity|exact E3|]. apply (flow_str_seek _ _ _ _ Fh Ch). rewrite V2. cbn [os_data]. rewrite Zlen_app. reflexivity. }
  assert (T4 : str_step s3 O_CopyMdatData = (Running, s4, Ok tt)).
  { apply str_same; [reflexivity|exact E4|]. apply (flow_str _ _ _ Fc); rewrite V3; [reflexivity|]. cbn [os_data]. rewrite !Zlen_app. lia. }
  cbn [run StringStream.run_str]. rewrite T1, T2, T3, T4, E1, E2, E3, E4. reflexivity.
Qed.
Lemma simple_stream rest : (forall n, allowed (n + 16) n = false) -> exists s, run_str (start Simple timescale duration time ft) (O_WriteFtyp :: rest) = (Raised, s, []) /\ output s = fb.
Proof.
  intros Past.
  destruct (ftyp_flow Simple) as (Fl & X & Pl & Os & Cc). cbv zeta in *. destruct (movie_fits_media _ _ _ Fok Bnd) as (B1 & _). destruct (start_sinv Simple timescale duration time ft Fok B1) as (E0 & _). cbv zeta in E0.
  destruct (step (start Simple timescale duration time ft) O_WriteFtyp) as [sa ra] eqn:Ea. cbn [fst snd] in *. subst ra.
  assert (Y : exec_str (call_cmds O_WriteFtyp (s_writer (start Simple timescale duration time ft))) (mkOS [] 0) = (Raised, mkOS fb F)).
  { rewrite Cc. revert X. generalize (mkOS [] 0). clear Cc Fl Pl. induction (BoxInfo_cmds (place (ftyp_node ft) 0)) as [|c l IH]; intros o X; cbn [app StringStream.exec_str] in *.
    - injection X as ->. cbn [os_data]. rewrite Past. reflexivity.
    - destruct c; [destruct (allowed p (Zlen (os_data o))); [|discriminate]|..]; apply IH; exact X. }
  cbn [StringStream.run_str StringStream.str_step]. rewrite Ea, Os, Y. eexists. split; [reflexivity|]. reflexivity.
Qed.
End S.
End A.
