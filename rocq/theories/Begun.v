(** When FaststartWriter stops early, its output is a beginning of the finished file (C59). *)
From Coq Require Import ZifyBool.
From Verif Require Import Base BitIO BitFacts BitIOProofs Boxes WireFormat Box BoxSpec BoxSize Print PrintSpec PrintProofs BoxTree TreeSpec TreeProofs TreeLayout TreePrint H264 Track Writers MovieSpec AnnexBSpec H264Proofs TrackProofs TrakProofs SessionProofs MovieShape Completion MovieSize FileProofs SimpleFile FaststartFile Device FailureSpec DeviceProofs Interrupt InterruptLemmas Refusal Kept.
From Coq Require Import String List.
Import ListNotations.
Open Scope Z_scope.
Open Scope list_scope.


Section Begun.
Variables (timescale duration time : Z) (ft : ftyp) (ops : list op) (sel : list nat).
Hypothesis (Fok : ftyp_ok ft) (Rec : recording ops) (Sel : chosen ops sel) (Bnd : movie_fits ft ops sel) (Tp : time_printable time).
Notation fb := (ftyp_octets ft).
Notation F := (Zlen fb).
Notation m := (media ops).
Variables (e : devices).
Hypothesis St : stays_refused (on_output e).
#[local] Opaque COPY_MDAT_DATA_BUFFER_SIZE.

Lemma ftyp_begun cls t st t' s' r : dev_step e t (start cls timescale duration time ft) O_WriteFtyp = (st, t', s', r) -> st <> Running -> prefix_of (output s') fb.
Proof.
  intros E1 Ns. destruct (movie_fits_media _ _ _ Fok Bnd) as (B1 & B2 & B3). pose proof (Zlen_nonneg fb).
  destruct (dev_any e O_WriteFtyp _ _ _ _ _ _ eq_refl E1) as [(s2 & os & _ & X & Eo & _)|(Y & _)]; [|congruence].
  pose proof (sound_ftyp ft Fok) as Sf. pose proof (sound_size _ Sf) as Ls. fold fb in Ls. cbn [call_cmds] in X. unfold writeFtypBox_cmds in X.
  assert (Ew : mw_ftyp (s_writer (start cls timescale duration time ft)) = ft) by (destruct cls; reflexivity). rewrite Ew in X. assert (Eo2 : mw_os (s_writer (start cls timescale duration time ft)) = mkOS [] 0) by (destruct cls; reflexivity). rewrite Eo2 in X.
  fold (ftyp_node ft) in X. rewrite sound_adjust in X by (auto; lia). set (l := BoxInfo_cmds _) in X.
  match type of X with exec _ _ (l ++ ?l2) ?o = _ => destruct (exec (on_output e) t l o) as [[st2 t2] o2] eqn:X2; assert (Hn : st2 = Running \/ st2 <> Running) by (destruct st2; auto; right; discriminate) end.
  destruct Hn as [->|N2].
  - exfalso. rewrite (exec_through _ _ _ _ _ _ _ X2) in X. destruct (mw_class (s_writer (start cls timescale duration time ft))); cbn [exec] in X; injection X as <- _ _; congruence.
  - rewrite (exec_stop _ _ _ _ _ _ _ _ X2) in X by exact N2. injection X as <- <- <-. destruct (exec_any _ 0 l _ St (flow_place (ftyp_node ft) 0 Sf ltac:(lia) ltac:(lia)) t (mkOS [] 0) _ _ _ ltac:(lia) eq_refl X2) as (k & _ & D).
    cbn [os_data] in D. fold fb in D. pose proof (splice_end [] (firstn k fb)) as Se. change (Zlen (@nil Z)) with 0 in Se. cbn [app] in Se. rewrite Se in D. unfold output. rewrite Eo, D. exists (skipn k fb). symmetry. apply firstn_skipn.
Qed.

Lemma faststart_begun t st t' s rs : run_dev e t (start Faststart timescale duration time ft) (faststart_program ops sel) = (st, t', s, rs) -> st <> Running ->
  prefix_of (output s) (output (fst (run (start Faststart timescale duration time ft) (faststart_program ops sel)))).
Proof.
  intros E Nr. unfold faststart_program in *. cbn [run_dev] in E. destruct (dev_step e t (start Faststart timescale duration time ft) O_WriteFtyp) as [[[st1 t1] s1] r1] eqn:E1.
  destruct (movie_fits_media _ _ _ Fok Bnd) as (B1 & B2 & B3). pose proof (Zlen_nonneg fb). pose proof (Zlen_nonneg m).
  (* the file *)
  destruct (step (start Faststart timescale duration time ft) O_WriteFtyp) as [s1' r1'] eqn:Es1.
  destruct (start_sinv Faststart timescale duration time ft Fok B1) as (S1 & S2). cbv zeta in S1, S2. rewrite Es1 in S1, S2. cbn [fst snd] in S1, S2. subst r1'.
  assert (After : forall a b, ops = a ++ b -> sinv Faststart timescale duration time ft fb (base_of Faststart ft) a (fst (run s1' a))).
  { intros a b Eq. destruct (after_calls timescale duration time ft ops sel Fok Rec Bnd Faststart a b Eq) as (sa & Ea & Sa). cbn [run] in Ea. rewrite Es1 in Ea. destruct (run s1' a). cbn [fst] in *. subst sa. exact Sa. }
  pose proof (After ops [] (eq_sym (app_nil_r _))) as S3. set (s2 := fst (run s1' ops)) in *. cbn [base_of] in S3.
  destruct (faststart_calls timescale duration time ft ops sel Fok Rec Sel Bnd Tp s2 S3) as (sa & sb & sc & sd & mv & Ea & Eb & Ec & Ed & (lm & Cm) & Fm & (lh & Ch) & Fh & Fc & V1 & V2 & V3 & V4 & Tm). cbv zeta in *. set (hd := frame_header (str "mdat") (Zlen m)) in *.
  assert (Hf : output (fst (run (start Faststart timescale duration time ft) (O_WriteFtyp :: ops ++ [O_AppendTrakAndUdta sel; O_WriteMoov; O_WriteMdatHeader; O_CopyMdatData]))) = fb ++ mv ++ hd ++ m).
  { cbn [run]. rewrite Es1, run_app. destruct (run s1' ops) as [sx rx] eqn:Ex. unfold s2 in *. cbn [fst] in *. cbn [run]. rewrite Ea, Eb, Ec, Ed. cbn [fst]. unfold output. rewrite V4. reflexivity. }
  rewrite Hf. clear Hf. pose proof (Zlen_nonneg mv). pose proof (Zlen_nonneg hd).
  assert (Hn : st1 = Running \/ st1 <> Running) by (destruct st1; auto; right; discriminate). destruct Hn as [->|Ns].
  2: { assert (X : (st, t', s, rs) = (st1, t1, s1, [])) by (rewrite <- E; destruct st1; [congruence|reflexivity..]). injection X as -> -> -> ->. destruct (ftyp_begun _ _ _ _ _ _ E1 Ns) as (x & ->). exists (x ++ mv ++ hd ++ m). rewrite <- app_assoc. reflexivity. }
  pose proof (ftyp_done timescale duration time ft ops sel Fok Bnd e St _ _ _ _ _ E1) as D1. rewrite Es1 in D1. injection D1 as -> ->.
  destruct (run_dev e t1 s1' _) as [[[st2 t2] s2x] rs1] eqn:E2. injection E as <- <- <- <-.
  pose proof Rec as [R1 R2 R3 R4]. pose proof (wi_class _ _ _ _ _ _ _ _ _ _ (si_w _ _ _ _ _ _ _ _ _ S2)) as C1.
  destruct (run_dev_app_any e ops _ _ _ _ _ _ _ E2) as [(Ns & E3)|(t3 & s3 & ra & rb & E3 & E4 & ->)]; clear E2.
  { destruct (fast_record_stop e _ _ _ _ _ _ _ R1 C1 E3 Ns) as (a1 & o & a2 & Eq & L & I).
    destruct (interrupted_call timescale duration time ft ops sel Fok Rec Bnd Faststart a1 o a2 _ _ Eq (After a1 _ Eq) I) as (q & w & Pq & W & Ew & _).
    destruct W as [_ _ _ _ _ _ _ _ (_ & _ & D3 & _)]. unfold output. rewrite Ew, D3. cbn [os_data]. exists (mv ++ hd ++ m). reflexivity. }
  pose proof (fast_record e _ _ _ _ _ _ R1 C1 E3) as Er. assert (E5 : s3 = s2) by (unfold s2; rewrite <- Er; reflexivity). subst s3. clear E3 Er After.
  cbn [run_dev] in E4. destruct (dev_step e t3 s2 (O_AppendTrakAndUdta sel)) as [[[sta ta] sa'] rra] eqn:Xa.
  assert (Sa : sta = Running).
  { destruct (dev_any e (O_AppendTrakAndUdta sel) _ _ _ _ _ _ eq_refl Xa) as [(sx & os & _ & X & _ & _)|(Y & _)]; [cbn [call_cmds exec] in X; injection X as <- _ _; reflexivity|exact Y]. }
  subst sta. destruct (dev_silent e (O_AppendTrakAndUdta sel) _ _ _ _ _ eq_refl eq_refl Xa) as (Y1 & ->). rewrite Ea in Y1. injection Y1 as -> ->. clear Xa.
  (* writeMoovBox *)
  destruct (dev_step e t3 sa O_WriteMoov) as [[[stb tb] sb'] rrb] eqn:Xb.
  destruct (dev_any e O_WriteMoov _ _ _ _ _ _ eq_refl Xb) as [(sx & os & Ex & X & Eo & Eo2)|(_ & A & N)]; [|rewrite Eb in A; injection A as _ A; congruence]. rewrite Eb in Ex. injection Ex as <-.
  assert (Hn : stb = Running \/ stb <> Running) by (destruct stb; auto; right; discriminate). destruct Hn as [->|Ns].
  2: { assert (Y : st2 = stb /\ s2x = sb') by (destruct stb; [congruence|injection E4 as <- _ <- _; auto..]). destruct Y as (-> & ->). rewrite Cm in X, Fm. destruct (exec_any_seek _ _ _ _ _ _ _ _ _ St Fm ltac:(lia) X) as (k & _ & D).
       unfold output. rewrite Eo, D, V1. cbn [os_data]. rewrite splice_end. exists (skipn k mv ++ hd ++ m). rewrite <- app_assoc. f_equal. rewrite (app_assoc (firstn k _)), firstn_skipn. reflexivity. }
  destruct (dev_simple e O_WriteMoov _ _ _ _ _ eq_refl Xb) as [(sx & os' & Ex & -> & X' & ->)|(A & N & _)]; [|rewrite Eb in A; injection A as _ A; congruence]. rewrite Eb in Ex. injection Ex as <-.
  rewrite X in X'. injection X' as <-. clear Eo Eo2.
  assert (Gm : guarded (call_cmds O_WriteMoov (s_writer sa))).
  { clear -Cm Eb Ea S3 Fok Sel Bnd. destruct (select_tracks _ _ _ _ _ _ _ ops s2 sel S3 (proj2 Sel)) as (ts0 & H0).
    destruct (faststart_append timescale duration time ft ops sel Fok Sel Bnd s2 ts0 S3 H0) as (s1 & S & E1 & O & ES & W1). rewrite Ea in E1. injection E1 as <-.
    destruct (si_w _ _ _ _ _ _ _ _ _ S3) as [C1 C2 C3 C4 C5 C6 C7 C8 _]. cbn [call_cmds]. unfold writeMoovBox_cmds. rewrite W1. cbn [set_moov mw_class mw_ftyp_size]. rewrite C1, C6. unfold moov_tree_cmds. cbn [set_moov mw_moov mw_next_id]. rewrite C8, set_id_place.
    cbn [guarded]. apply ends_guarded, ends_place, ends_moov. }
  assert (Es4 : mk_session (set_os os (s_writer sb)) (s_tracks sb) = sb).
  { apply (dev_same e O_WriteMoov t3 sa sb tb os eq_refl Eb X). rewrite Cm in *. exact (exec_guarded _ _ _ _ St Fm Gm t3 (os_seekp F (mw_os (s_writer sa))) tb os ltac:(lia) eq_refl X). }
  rewrite Es4 in *. clear Es4 X Xb Gm os.
  (* writeMdatHeader *)
  destruct (dev_step e tb sb O_WriteMdatHeader) as [[[stc tc] sc'] rrc] eqn:Xc.
  destruct (dev_any e O_WriteMdatHeader _ _ _ _ _ _ eq_refl Xc) as [(sx & os & Ex & X & Eo & Eo2)|(_ & A & N)]; [|rewrite Ec in A; injection A as _ A; congruence]. rewrite Ec in Ex. injection Ex as <-.
  assert (Hh : exists k, os_data os = (fb ++ mv) ++ firstn k hd).
  { rewrite Ch in X, Fh. destruct (exec_any_seek _ _ _ _ _ _ _ _ _ St Fh ltac:(lia) X) as (k & _ & D). exists k. rewrite D, V2. cbn [os_data]. replace (F + Zlen mv) with (Zlen (fb ++ mv)) by (rewrite !Zlen_app; lia). apply splice_end. }
  assert (Ph : prefix_of (os_data os) (fb ++ mv ++ hd ++ m)).
  { destruct Hh as (k & ->). exists (skipn k hd ++ m). rewrite <- !app_assoc. do 2 f_equal. rewrite (app_assoc (firstn k _)), firstn_skipn. reflexivity. }
  assert (Hn : stc = Running \/ stc <> Running) by (destruct stc; auto; right; discriminate). destruct Hn as [->|Ns].
  2: { assert (Y : st2 = stc /\ s2x = sc') by (destruct stc; [congruence|injection E4 as <- _ <- _; auto..]). destruct Y as (-> & ->). unfold output. rewrite Eo. exact Ph. }
  destruct (dev_simple e O_WriteMdatHeader _ _ _ _ _ eq_refl Xc) as [(sx & os' & Ex & -> & X' & ->)|(A & N & _)]; [|rewrite Ec in A; injection A as _ A; congruence]. rewrite Ec in Ex. injection Ex as <-.
  rewrite X in X'. injection X' as <-. clear Eo Eo2.
  (* copyMdatData *)
  set (s5 := mk_session (set_os os (s_writer sc)) (s_tracks sc)) in *.
  destruct (dev_step e tc s5 O_CopyMdatData) as [[[std td] sd'] rrd] eqn:Xd. assert (Y : st2 = std /\ s2x = sd') by (destruct std; injection E4 as <- _ <- _; auto). destruct Y as (-> & ->). clear E4.
  pose proof (exec_flow_seek (on_output e) (F + Zlen mv) lh hd tb (mw_os (s_writer sb)) tc os St) as XF. rewrite <- Ch in XF. specialize (XF Fh ltac:(lia) X).
  assert (E5 : exists sx, step s5 O_CopyMdatData = (sx, Ok tt)).
  { destruct XF as [Eos|(k & Lk & Dk & Lo & Po)]; [unfold s5; rewrite (dev_same e O_WriteMdatHeader tb sb sc tc os eq_refl Ec X Eos); eauto|].
    destruct (Tm sc (or_intror (or_intror eq_refl))) as (T1 & T2). cbn [step]. unfold Faststart_copyMdatData, s5. cbn [s_writer set_os mw_tmp_open mw_tmp mw_os]. rewrite T1, T2. cbn [os_data].
    rewrite copy_file by lia. cbn [lift]. eauto. }
  destruct E5 as (sx0 & E5).
  destruct (dev_any e O_CopyMdatData _ _ _ _ _ _ eq_refl Xd) as [(sx & os2 & Ex & X5 & Eo & _)|(_ & A & N)]; [|rewrite E5 in A; injection A as _ A; congruence].
  assert (Cc : call_cmds O_CopyMdatData (s_writer s5) = call_cmds O_CopyMdatData (s_writer sc)) by reflexivity. rewrite Cc in X5. unfold output. rewrite Eo.
  destruct XF as [Eos|(k & Lk & Dk & Lo & Po)].
  - pose proof (dev_same e O_WriteMdatHeader tb sb sc tc os eq_refl Ec X Eos) as Sm. unfold s5 in X5. rewrite Sm in X5.
    destruct (exec_any _ _ _ _ St Fc tc (mw_os (s_writer sc)) _ _ _ ltac:(lia) ltac:(rewrite V3; reflexivity) X5) as (k & _ & D). rewrite D, V3. cbn [os_data].
    replace (F + Zlen mv + Zlen hd) with (Zlen (fb ++ mv ++ hd)) by (rewrite !Zlen_app; lia). rewrite splice_end. exists (skipn k m). rewrite <- !app_assoc, firstn_skipn. reflexivity.
  - assert (Sk : seeks_from (F + Zlen mv + Z.of_nat k) (call_cmds O_CopyMdatData (s_writer sc))) by (apply (seeks_mono _ (F + Zlen mv + Zlen hd)); [unfold Zlen; lia|exact (flow_seeks _ _ _ Fc)]).
    destruct (exec_lost (on_output e) (F + Zlen mv + Z.of_nat k) St _ tc (mw_os (s_writer s5)) _ _ os2 Sk Lo Po X5) as (Do & _). rewrite Do. exact Ph.
Qed.
End Begun.
