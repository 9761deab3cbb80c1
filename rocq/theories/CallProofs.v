(** How the calls of a session end (C62). *)
From Verif Require Import Base BitFacts BitIOProofs Boxes Box BoxSpec BoxSize BoxTree TreeSpec PrintSpec AnnexBSpec H264 H264Proofs Track Writers MovieSpec TrackProofs TrakProofs SessionProofs MovieShape Completion SimpleFile FaststartFile FileLemmas CallSpec.
From Coq Require Import List.
Import ListNotations.
Open Scope Z_scope.
Open Scope list_scope.

Lemma expected_result units : snd (expected_actions units) = Ok tt <-> Forall handled units.
Proof.
  induction units as [|u l IH]; [split; [constructor|reflexivity]|]. cbn [expected_actions]. destruct (expected_actions l) as [acts r]. cbn [snd] in IH. unfold handled at 1.
  assert (K : forall P : Prop, (P <-> Forall handled l) -> 1 <= nal_type (u_octets u) <= 8 -> (P <-> Forall handled (u :: l))).
  { intros P E H. rewrite E. split; [intros X; constructor; assumption|intros X; inversion X; assumption]. }
  destruct (Z.leb_spec 1 (nal_type (u_octets u))), (Z.leb_spec (nal_type (u_octets u)) 5); cbn [andb]; try (apply K; [exact IH|lia]).
  - destruct (Z.eqb_spec (nal_type (u_octets u)) 6); [apply K; [exact IH|lia]|]. destruct (Z.eqb_spec (nal_type (u_octets u)) 7); [apply K; [exact IH|lia]|]. destruct (Z.eqb_spec (nal_type (u_octets u)) 8); [apply K; [exact IH|lia]|].
    cbn [snd]. split; [discriminate|]. intros X. inversion X as [|? ? Hu]. unfold handled in Hu. lia.
  - destruct (Z.eqb_spec (nal_type (u_octets u)) 6); [lia|]. destruct (Z.eqb_spec (nal_type (u_octets u)) 7); [lia|]. destruct (Z.eqb_spec (nal_type (u_octets u)) 8); [lia|].
    cbn [snd]. split; [discriminate|]. intros X. inversion X as [|? ? Hu]. unfold handled in Hu. lia.
  - lia.
Qed.
Lemma split_ends data : exists acts r, h264_split data = Some (acts, r) /\ (r = Ok tt \/ r = Throw RuntimeError) /\
  forall units, data = annexb units -> access_unit_ok units -> Zlen data < 2 ^ 64 -> (r = Ok tt <-> Forall handled units).
Proof.
  destruct (h264_split_total data) as (acts & r & E & R). exists acts, r. split; [exact E|]. split; [exact R|]. intros units -> A B. rewrite (h264_split_units units A B) in E. injection E as E. rewrite <- expected_result, E. reflexivity.
Qed.

Section S.
Variables (cls : wclass) (timescale duration time : Z) (ft : ftyp) (fb : list Z) (base : Z).
Notation sinv := (sinv cls timescale duration time ft fb base).

Lemma step_ends ops s o : sinv ops s -> media_op o = true -> (forall i, about i o -> (i < length (created ops))%nat) -> snd (step s o) <> UB -> call_ends ops o (snd (step s o)).
Proof.
  intros [Sw Sl St] M K U.
  assert (Known : forall i, about i o -> exists t, nth_error (s_tracks s) i = Some t).
  { intros i H. specialize (K i H). rewrite <- Sl in K. apply nth_error_Some in K. destruct (nth_error (s_tracks s) i); [eauto|congruence]. }
  destruct o; try discriminate M; cbn [step call_ends] in *.
  - unfold Track_new. destruct (id =? 0); reflexivity.
  - reflexivity.
  - destruct (Known i eq_refl) as (t & Et). rewrite Et in *. destruct (St i t Et) as [(o & Eo & So) _ _ _ _].
    assert (A : exists acts r, addData_actions (t_codec t) data = Some (acts, r) /\ match codec_of ops i with
      | Some (H264 _ _ _ _ _ _ _ _) => (r = Ok tt \/ r = Throw RuntimeError) /\ forall units, data = annexb units -> access_unit_ok units -> Zlen data < 2 ^ 64 -> (r = Ok tt <-> Forall handled units)
      | _ => r = Ok tt end).
    { unfold codec_of. rewrite Eo. destruct o; try (destruct So; fail). destruct So as (_ & _ & _ & _ & _ & _ & So). destruct c; cbn [codec_like] in So; try (rewrite So; cbn [addData_actions]; eauto; fail).
      destruct (t_codec t); try contradiction. cbn [addData_actions]. exact (split_ends data). }
    destruct A as (acts & r & Ea & A). rewrite Ea in *. destruct (track_actions timestamp is_key acts t (s_writer s)) as [[t' w']|x|] eqn:E; cbn [snd] in *; [exact A| |congruence].
    exfalso. clear -E. revert t E. generalize (s_writer s). induction acts as [|a acts IH]; intros w t E; cbn [track_actions] in E; [discriminate|].
    destruct a; [|exact (IH _ _ E)..]. unfold track_store, Writer_addMdatData in E. destruct (mw_class w); [exact (IH _ _ E)|]. destruct (mw_tmp_open w); [exact (IH _ _ E)|discriminate].
  - destruct (Known i eq_refl) as (t & Et). unfold on_track. rewrite Et. reflexivity.
  - destruct (Known i eq_refl) as (t & Et). unfold on_track. rewrite Et. reflexivity.
  - unfold Writer_addMdatData in *. destruct (mw_class (s_writer s)); [reflexivity|]. destruct (mw_tmp_open (s_writer s)); [reflexivity|]. cbn [lift snd] in U. congruence.
Qed.
Lemma calls_end_app a : forall b before r r', calls_end before a r -> calls_end (before ++ a) b r' -> calls_end before (a ++ b) (r ++ r').
Proof.
  induction a as [|o a IH]; intros b before r r' A B; destruct r as [|x r]; cbn [calls_end app] in *; try contradiction; [rewrite app_nil_r in B; exact B|].
  destruct A as (A1 & A2). split; [exact A1|]. apply IH; [exact A2|]. rewrite <- app_assoc. exact B.
Qed.
Lemma run_ends s0 ops : sinv [] s0 -> forallb media_op ops = true -> known_tracks ops -> chunks_ended ops -> samples_fit ops -> Zlen (media ops) < 2 ^ 64 -> calls_end [] ops (snd (run s0 ops)).
Proof.
  intros S0. induction ops as [|o ops IH] using rev_ind; intros M K C F B; [exact I|].
  assert (B' : Zlen (media ops) < 2 ^ 64) by (rewrite media_snoc, Zlen_app in B; pose proof (Zlen_nonneg (octets_of (stores ops o))); lia).
  pose proof (run_sinv _ _ _ _ _ _ _ s0 (ops ++ [o]) S0 M K C F B) as (_ & U). rewrite run_app in *. cbn [snd] in U. apply Forall_app in U. destruct U as (_ & U).
  rewrite forallb_app in M. apply andb_prop in M. destruct M as [M1 M2]. cbn [forallb] in M2. rewrite Bool.andb_true_r in M2.
  assert (K' : known_tracks ops) by (intros pre x post i E; apply (K pre x (post ++ [o]) i); rewrite E, <- app_assoc; reflexivity).
  assert (C' : chunks_ended ops) by (intros pre mid post i ts d k ts' d' k' E; apply (C pre mid (post ++ [o]) i ts d k ts' d' k'); rewrite E, <- !app_assoc; cbn [app]; rewrite <- app_assoc; reflexivity).
  assert (F' : samples_fit ops) by (eapply samples_fit_prefix; exact F).
  destruct (run_sinv _ _ _ _ _ _ _ s0 ops S0 M1 K' C' F' B') as (S1 & _). apply calls_end_app; [apply IH; assumption|]. cbn [run]. cbn [run] in U. destruct (step (fst (run s0 ops)) o) as [s2 r2] eqn:E2. cbn [snd] in *.
  assert (X : snd (step (fst (run s0 ops)) o) <> UB) by (rewrite E2; inversion U; assumption).
  pose proof (step_ends ops _ o S1 M2 ltac:(intros i H; refine (K ops o [] i eq_refl _); destruct o; exact H) X) as G. rewrite E2 in G. cbn [app calls_end]. auto.
Qed.
End S.

Lemma skipn_split {A} n (l r : list A) : skipn n l = r -> length l = (n + length r)%nat -> exists p, l = p ++ r /\ length p = n.
Proof. intros E L. exists (firstn n l). split; [rewrite <- E; symmetry; apply firstn_skipn|]. rewrite firstn_length. lia. Qed.

Lemma session_ends cls timescale duration time ft ops sel fin : ftyp_ok ft -> recording ops -> movie_fits ft ops sel -> 
  let p := O_WriteFtyp :: ops ++ fin in forall rf,
  skipn (length (O_WriteFtyp :: ops)) (snd (run (start cls timescale duration time ft) p)) = rf ->
  exists rs, snd (run (start cls timescale duration time ft) p) = Ok tt :: rs ++ rf /\ calls_end [] ops rs.
Proof.
  intros Fo [R1 R2 R3 R4] B. cbv zeta. intros rf E. destruct (movie_fits_media _ _ _ Fo B) as (B1 & B2 & B3). destruct (start_sinv cls timescale duration time ft Fo B1) as (E0 & S0). cbv zeta in *.
  cbn [run length skipn] in *. destruct (step (start cls timescale duration time ft) O_WriteFtyp) as [s0 r0]. cbn [fst snd] in *. subst r0. rewrite run_app in *. cbn [snd] in *. cbn [skipn] in E.
  exists (snd (run s0 ops)). split; [|exact (run_ends _ _ _ _ _ _ _ s0 ops S0 R1 R2 R3 R4 B2)]. f_equal. f_equal.
  assert (L : length (snd (run s0 ops)) = length ops). { clear. revert s0. induction ops as [|o l IH]; intros s0; [reflexivity|]. cbn [run]. destruct (step s0 o) as [sa ra]. specialize (IH sa). destruct (run sa l). cbn [snd length] in *. lia. }
  rewrite skipn_app, <- L, skipn_all, Nat.sub_diag in E. exact E.
Qed.
