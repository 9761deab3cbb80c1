(** Proofs about the objects of the writers (C64): the calls. *)
From Verif Require Import Base BitIO Boxes Box Print BoxTree TreeLayout H264 Track Writers Memory MemoryProofs WriterMemory WriterMemoryProofs.
From Coq Require Import String List Arith Lia.
Import ListNotations.
Open Scope Z_scope.
Open Scope list_scope.

(** * The moov tree, m_mvhd_box, and objects that nothing points to any more *)
Definition mvhd_at (H : heap) (moov mvhd : addr) : Prop :=
  exists b l0 ls k hd t v, at_ H moov = Some (A_info b (l0 :: ls)) /\ at_ H l0 = Some (A_info mvhd k) /\ at_ H mvhd = Some (A_box hd t (Some (B_mvhd v))).
Definition covers (H : heap) (fp lost : list addr) : Prop := forall x, at_ H x <> None -> In x fp \/ In x lost.
Definition objects (H : heap) (moov mvhd : option addr) (n : option node) (lost : list addr) : Prop :=
  fresh H /\
  match moov, n with
  | None, None => mvhd = None /\ covers H [] lost
  | Some a, Some n => exists fp mv, mvhd = Some mv /\ repn H a fp n /\ NoDup fp /\ mvhd_at H a mv /\ covers H fp lost
  | _, _ => False
  end.
Lemma mvhd_kept H H' a mv : kept H H' -> mvhd_at H a mv -> mvhd_at H' a mv.
Proof.
  intros (A & B & _) (b & l0 & ls & k & hd & t & v & E1 & E2 & E3). destruct (A _ _ _ E1) as (l1 & F1). destruct (A _ _ _ E2) as (l2 & F2). destruct (B _ _ _ _ E3) as (h3 & F3).
  exists b, l0, (ls ++ l1), (k ++ l2), h3, t, v. auto.
Qed.
Lemma covers_chg H H' fp fp' lost : chg H H' fp fp' -> covers H fp lost -> covers H' fp' lost.
Proof.
  intros (L & F & _ & O & P) C x X. destruct (Nat.lt_ge_cases x (next H)) as [Lx|Lx].
  - destruct (in_dec Nat.eq_dec x fp) as [I|I]; [left; apply P; auto|]. rewrite (O x Lx I) in X. destruct (C x X) as [J|J]; [contradiction|auto].
  - left. apply P. right. split; [exact Lx|]. destruct (at_ H' x) eqn:E; [exact (in_use _ _ _ F E)|congruence].
Qed.
(** The moov tree changes, nothing is deleted. *)
Lemma objects_chg H H' a mv fp fp' n' lost : chg H H' fp fp' -> repn H' a fp' n' -> NoDup fp' -> mvhd_at H a mv -> covers H fp lost ->
  objects H' (Some a) (Some mv) (Some n') lost.
Proof.
  intros C R N M V. split; [apply C|]. exists fp', mv. split; [reflexivity|]. split; [exact R|]. split; [exact N|]. split; [exact (mvhd_kept _ _ _ _ (proj1 (proj2 (proj2 C))) M)|].
  exact (covers_chg _ _ _ _ _ C V).
Qed.
(** Objects elsewhere come and go; those of [more] stay. *)
Lemma objects_beside H H' moov mvhd n lost more : fresh H' -> (next H <= next H')%nat -> (forall x, (x < next H)%nat -> at_ H' x = at_ H x) ->
  (forall x, (next H <= x)%nat -> at_ H' x <> None -> In x more) -> objects H moov mvhd n lost -> objects H' moov mvhd n (more ++ lost).
Proof.
  intros F' L S M (F & O). split; [exact F'|].
  assert (V : forall fp, covers H fp lost -> covers H' fp (more ++ lost)).
  { intros fp C x X. destruct (Nat.lt_ge_cases x (next H)) as [Lx|Lx]; [|right; apply in_app_iff; left; exact (M x Lx X)].
    rewrite (S x Lx) in X. destruct (C x X); [auto|]. right. apply in_app_iff. auto. }
  destruct moov as [a|], n as [n|]; try (destruct O; fail).
  - destruct O as (fp & mv & E & R & N & (b & l0 & ls & k & hd & t & v & E1 & E2 & E3) & C). exists fp, mv. split; [exact E|]. split; [|split; [exact N|split; [|exact (V fp C)]]].
    + apply (proj1 (repn_same H H')) with (1 := R). intros x I. apply S. exact (below _ _ _ _ F R x I).
    + exists b, l0, ls, k, hd, t, v. rewrite !S; [auto|exact (in_use _ _ _ F E3)|exact (in_use _ _ _ F E2)|exact (in_use _ _ _ F E1)].
  - destruct O as (E & C). split; [exact E|exact (V [] C)].
Qed.

(** * A box of its own: allocated, written, deleted *)
Lemma local_box n0 off H : n_leafs n0 = [] -> strip n0 = n0 -> fresh H ->
  exists a H1 n1 s1 H2 fp, new_tree None n0 H = Ok (a, H1) /\ BoxInfo_adjustOffsetAndSize n0 off = Ok (n1, s1) /\ adjustOffsetAndSize_m a off H1 = Ok (s1, H2) /\
    forall o k, exists H3 r n3, BoxInfo_write_m a o k H2 = (H3, r) /\ agrees k (BoxInfo_write n1 o) r n3 /\ getSize_m a H3 = BoxInfo_getSize n3 /\ (length fp <= 3)%nat /\
      (forall moov mvhd n lost, objects H moov mvhd n lost -> objects H3 moov mvhd n (fp ++ lost)) /\
      exists H4, BoxInfo_delete_m a H3 = Ok H4 /\ forall moov mvhd n lost, objects H moov mvhd n lost -> objects H4 moov mvhd n lost.
Proof.
  intros Lf St F. destruct (new_tree_ok n0 None 0%nat [] H F I) as (a & H1 & fp1 & E1 & R1 & N1 & F1 & L1 & I1 & O1 & _). rewrite St in R1.
  destruct (adjust_ptr H1 a fp1 n0 off R1 N1 F1) as (n1 & s1 & H2 & fp & E2 & E3 & R2 & N2 & C2). exists a, H1, n1, s1, H2, fp. split; [exact E1|]. split; [exact E2|]. split; [exact E3|].
  intros o k. assert (F2 : fresh H2) by apply C2. destruct (write_ptr H2 a fp n1 o k R2 N2 F2) as (H3 & r & n3 & E4 & R3 & C3 & A). exists H3, r, n3. split; [exact E4|]. split; [exact A|].
  split; [exact (repn_getSize _ _ _ _ R3)|]. assert (F3 : fresh H3) by apply C3.
  assert (P : chg H1 H3 fp1 fp) by (exact (chg_trans _ _ _ _ _ _ (below _ _ _ _ F1 R1) C2 C3)).
  assert (S3 : forall x, (x < next H)%nat -> at_ H3 x = at_ H x).
  { intros x L. destruct P as (_ & _ & _ & O & _). rewrite O; [apply O1; [exact L|discriminate]|lia|]. rewrite I1. lia. }
  assert (M3 : forall x, (next H <= x)%nat -> at_ H3 x <> None -> In x fp).
  { intros x L X. apply P. destruct (Nat.lt_ge_cases x (next H1)); [left; apply I1; lia|]. right. split; [lia|]. destruct (at_ H3 x) eqn:E; [exact (in_use _ _ _ F3 E)|congruence]. }
  assert (L3 : (next H <= next H3)%nat) by (pose proof (proj1 P); lia).
  split; [|split].
  - assert (n_leafs n1 = []).
    { unfold BoxInfo_adjustOffsetAndSize in E2. destruct n0 as [t h b l]. cbn [n_leafs] in Lf. subst l. cbn [adjust_fuel height fold_right Nat.mul Nat.add] in E2. cbn [adjust adjust_leafs] in E2.
      destruct (negb _); [destruct (negb _); [discriminate E2|]|]; injection E2 as <- <-; reflexivity. }
    destruct n1 as [t h b l]. cbn [n_leafs] in H0. subst l. inversion R2 as [? bx ls hd ? ? ? fh fps ? Ea Eb Eh Rl]; subst. inversion Rl; subst. rewrite app_nil_r. cbn [length].
    destruct hd as [x|]; destruct Eh as (-> & _); cbn [length]; lia.
  - intros moov mvhd n lost O. apply objects_beside with H; assumption.
  - destruct (delete_ptr H3 a fp n3 R3 N2 F3) as (H4 & E5 & N5 & D5). exists H4. split; [exact E5|]. intros moov mvhd n lost O.
    assert (F4 : fresh H4).
    { intros x L. rewrite N5 in L. destruct (D5 x) as (Y & Q). destruct (in_dec Nat.eq_dec x fp) as [J|J]; [exact (Y J)|]. rewrite (Q J). apply F3. lia. }
    apply (objects_beside H H4 moov mvhd n lost []); [exact F4|lia| |  |exact O].
    + intros x L. rewrite (proj2 (D5 x)); [exact (S3 x L)|]. intros J. apply P in J as [J|J]; [apply I1 in J|pose proof (proj1 P)]; lia.
    + intros x L X. exfalso. destruct (D5 x) as (Y & Q). destruct (in_dec Nat.eq_dec x fp) as [J|J]; [exact (X (Y J))|]. apply J, (M3 x L). rewrite <- (Q J). exact X.
Qed.

(** * Pieces of the writers *)
Lemma make_moov_ptr w H : fresh H ->
  exists a mv H' fp, make_moov_m w H = Ok (a, mv, H') /\ repn H' a fp (make_moov w) /\ NoDup fp /\ fresh H' /\ (next H <= next H')%nat /\
    (forall x, In x fp <-> (next H <= x < next H')%nat) /\ (forall x, (x < next H)%nat -> at_ H' x = at_ H x) /\ mvhd_at H' a mv.
Proof.
  intros F. unfold make_moov_m. cbn [new]. unfold BoxInfo_new at 1. cbn [new obind]. unfold BoxInfo_new. cbn [new at_ next].
  set (b := next H). replace (Nat.eqb (S b) (S (S (S b)))) with false by (symmetry; apply Nat.eqb_neq; lia). replace (Nat.eqb (S b) (S (S b))) with false by (symmetry; apply Nat.eqb_neq; lia).
  rewrite Nat.eqb_refl. replace (Nat.eqb b (S (S (S b)))) with false by (symmetry; apply Nat.eqb_neq; lia). replace (Nat.eqb b (S (S b))) with false by (symmetry; apply Nat.eqb_neq; lia).
  replace (Nat.eqb b (S b)) with false by (symmetry; apply Nat.eqb_neq; lia). rewrite Nat.eqb_refl. cbn [obind app]. set (H' := put _ _ _).
  assert (A : forall x, at_ H' x = if Nat.eqb x (S b) then Some (A_info b [S (S (S b))]) else if Nat.eqb x (S (S (S b))) then Some (A_info (S (S b)) []) else
     if Nat.eqb x (S (S b)) then Some (A_box None (str "mvhd") (Some (B_mvhd (make_mvhd w)))) else if Nat.eqb x b then Some (A_box None (str "moov") (Some B_container)) else at_ H x).
  { intros x. unfold H'. rewrite put_at. cbn [at_]. destruct (Nat.eqb_spec x (S b)); [reflexivity|]. destruct (Nat.eqb_spec x (S (S (S b)))); [reflexivity|]. destruct (Nat.eqb_spec x (S (S b))); [reflexivity|].
    reflexivity. }
  assert (N : next H' = S (S (S (S b)))) by reflexivity. clearbody H'.
  assert (A1 : at_ H' (S b) = Some (A_info b [S (S (S b))])) by (rewrite A, Nat.eqb_refl; reflexivity).
  assert (A2 : at_ H' b = Some (A_box None (str "moov") (Some B_container))).
  { rewrite A. repeat (match goal with |- context[Nat.eqb ?x ?y] => destruct (Nat.eqb_spec x y); [try lia|] end); [reflexivity|lia]. }
  assert (A3 : at_ H' (S (S (S b))) = Some (A_info (S (S b)) [])).
  { rewrite A. destruct (Nat.eqb_spec (S (S (S b))) (S b)); [lia|]. rewrite Nat.eqb_refl. reflexivity. }
  assert (A4 : at_ H' (S (S b)) = Some (A_box None (str "mvhd") (Some (B_mvhd (make_mvhd w))))).
  { rewrite A. destruct (Nat.eqb_spec (S (S b)) (S b)); [lia|]. destruct (Nat.eqb_spec (S (S b)) (S (S (S b)))); [lia|]. rewrite Nat.eqb_refl. reflexivity. }
  exists (S b), (S (S b)), H', (S b :: b :: [] ++ (S (S (S b)) :: S (S b) :: [] ++ []) ++ []). split; [reflexivity|]. split; [|split; [|split; [|split; [|split; [|split]]]]].
  - unfold make_moov, new_info. apply repn_info with [S (S (S b))] None; [exact A1|exact A2|split; reflexivity|]. apply repn_cons; [|apply repn_nil].
    apply repn_info with [] None; [exact A3|exact A4|split; reflexivity|apply repn_nil].
  - cbn [app]. repeat constructor; cbn [In]; lia.
  - intros x L. rewrite A. repeat (match goal with |- context[Nat.eqb ?x ?y] => destruct (Nat.eqb_spec x y); [lia|] end). apply F. fold b. lia.
  - lia.
  - intros x. rewrite N. cbn [app In]. fold b. lia.
  - intros x L. fold b in L. rewrite A. repeat (match goal with |- context[Nat.eqb ?x ?y] => destruct (Nat.eqb_spec x y); [lia|] end). reflexivity.
  - do 7 eexists. split; [exact A1|]. split; [exact A3|exact A4].
Qed.
Lemma strip_trak t : strip (make_trak t) = make_trak t.
Proof.
  unfold make_trak, make_stbl, make_stsd, make_sample_entry, make_tkhd, make_edts, make_media_header, make_offset_box. destruct (use_co64 (t_chunks t)), (t_codec t); reflexivity.
Qed.
Lemma traks_ptr diff sel : forall H a fp n ts, repn H a fp n -> NoDup fp -> fresh H ->
  match append_traks diff sel n ts with
  | Ok (n', ts') => exists H' fp', append_traks_m diff sel a ts H = Ok (ts', H') /\ repn H' a fp' n' /\ NoDup fp' /\ chg H H' fp fp'
  | Throw e => append_traks_m diff sel a ts H = Throw e
  | UB => append_traks_m diff sel a ts H = UB
  end.
Proof.
  induction sel as [|i sel IH]; intros H a fp n ts R N F; cbn [append_traks append_traks_m].
  { exists H, fp. split; [reflexivity|]. split; [exact R|]. split; [exact N|apply chg_refl, F]. }
  destruct (nth_error ts i) as [t|]; [|reflexivity]. set (t0 := match diff with Some d => Track_resetChunkOffsets d t | None => t end). cbn [Track_appendTrakBoxInfo].
  unfold Track_appendTrakBoxInfo. cbv zeta. destruct n as [ty h b ns]. cbn [node_add_leaf].
  destruct (new_leaf a fp ty h b ns (make_trak (Track_finalize t0)) H R N F) as (c & H1 & fp1 & E1 & R1 & N1 & C1). rewrite E1. cbn [obind]. rewrite strip_trak in R1.
  assert (F1 : fresh H1) by apply C1. specialize (IH H1 a fp1 _ (update_nth i (Track_finalize t0) ts) R1 N1 F1).
  destruct (append_traks diff sel _ _) as [[n' ts']| |]; [|exact IH..]. destruct IH as (H2 & fp2 & E2 & R2 & N2 & C2). exists H2, fp2. split; [exact E2|]. split; [exact R2|]. split; [exact N2|].
  exact (chg_trans _ _ _ _ _ _ (below _ _ _ _ F R) C1 C2).
Qed.
Lemma traks_throw diff sel : forall n ts e, append_traks diff sel n ts = Throw e -> False.
Proof.
  induction sel as [|i sel IH]; intros n ts e E; cbn [append_traks] in E; [discriminate E|]. destruct (nth_error ts i); [|discriminate E]. destruct (Track_appendTrakBoxInfo _ _). exact (IH _ _ _ E).
Qed.
Lemma udta_ptr H a fp n : repn H a fp n -> NoDup fp -> fresh H ->
  exists c H' fp', new_tree (Some a) make_udta H = Ok (c, H') /\ repn H' a fp' (node_add_leaf n make_udta) /\ NoDup fp' /\ chg H H' fp fp'.
Proof. intros R N F. destruct n as [ty h b ns]. exact (new_leaf a fp ty h b ns make_udta H R N F). Qed.
(** m_mvhd_box->setNextTrackID *)
Lemma setNext_ptr H a mv n lost id : objects H (Some a) (Some mv) (Some n) lost ->
  exists H', setNextTrackID_m (Some mv) id H = Ok H' /\ objects H' (Some a) (Some mv) (Some (set_next_track_id id n)) lost.
Proof.
  intros (F & fp & mv' & X & R & N & (b & l0 & ls & kl & hd & t & v & E1 & E2 & E3) & C). injection X as <-.
  inversion R as [? bx ls' hd0 t0 mb h fh fps ns Ea Eb Eh Rl]; subst. rewrite E1 in Ea. injection Ea as <- <-.
  inversion Rl as [|? ? fk fr k nr Rk Rr]; subst. inversion Rk as [? bk kl' hdk tk mbk hk fhk fpk nk Eka Ekb Ekh Rkl]; subst. rewrite E2 in Eka. injection Eka as <- <-.
  rewrite E3 in Ekb. injection Ekb as <- <- <-. cbn [setNextTrackID_m]. rewrite E3. set (v' := mk_mvhd _ _ _ _ _ _ _ _ _ _ _ _ _). set (H' := put mv _ H). exists H'. split; [reflexivity|].
  cbn [set_next_track_id]. fold v'.
  assert (O : forall y, y <> mv -> at_ H' y = at_ H y). { intros y D. unfold H'. rewrite put_at. destruct (Nat.eqb_spec y mv); [congruence|reflexivity]. }
  assert (Om : at_ H' mv = Some (A_box hd t (Some (B_mvhd v')))) by (unfold H'; rewrite put_at, Nat.eqb_refl; reflexivity). assert (Nx : next H' = next H) by reflexivity. clearbody H'.
  assert (Nmv : a <> mv /\ b <> mv /\ (forall y, In y fh -> y <> mv) /\ l0 <> mv /\ (forall y, In y fhk -> y <> mv) /\ (forall y, In y fpk -> y <> mv) /\ (forall y, In y fr -> y <> mv)).
  { clear -N. change (a :: b :: fh ++ (l0 :: mv :: fhk ++ fpk) ++ fr) with ([a; b] ++ fh ++ ([l0; mv] ++ fhk ++ fpk) ++ fr) in N. rewrite !nodup_app in N. cbn [In] in N.
    destruct N as (N1 & (N2 & (N3 & N4 & N5) & N6) & N7). destruct N3 as (N8 & N9 & N10).
    assert (Im : In mv (([l0; mv] ++ fhk ++ fpk) ++ fr)) by (cbn [app In]; auto).
    repeat split.
    - intros ->. apply (N7 mv); [auto|]. apply in_app_iff. auto.
    - intros ->. apply (N7 mv); [auto|]. apply in_app_iff. auto.
    - intros y Iy ->. exact (N6 mv Iy Im).
    - intros ->. apply NoDup_cons_iff in N8 as (N8 & _). apply N8. left. reflexivity.
    - intros y Iy ->. apply (N10 mv); [auto|]. apply in_app_iff. auto.
    - intros y Iy ->. apply (N10 mv); [auto|]. apply in_app_iff. auto.
    - intros y Iy ->. apply (N5 mv); [cbn [app In]; auto|exact Iy]. }
  destruct Nmv as (M1 & M2 & M3 & M4 & M5 & M6 & M7).
  assert (HI : forall hd fh h, (forall y, In y fh -> y <> mv) -> header_is H hd fh h -> header_is H' hd fh h).
  { intros hd' fh' h' D. destruct hd' as [x|]; [|auto]. intros (-> & h2 & K & E). split; [reflexivity|]. exists h2. split; [exact K|]. rewrite O; [exact E|]. apply D. left. reflexivity. }
  assert (F' : fresh H').
  { intros y L. rewrite Nx in L. rewrite O; [exact (F y L)|]. intros ->. pose proof (in_use _ _ _ F E3). lia. }
  split; [exact F'|]. exists (a :: b :: fh ++ (l0 :: mv :: fhk ++ fpk) ++ fr), mv. split; [reflexivity|]. split; [|split; [exact N|split]].
  - apply repn_info with (l0 :: ls) hd0; [rewrite O by exact M1; exact E1|rewrite O by exact M2; exact Eb|exact (HI _ _ _ M3 Eh)|]. apply repn_cons.
    + apply repn_info with kl hd; [rewrite O by exact M4; exact E2|exact Om|exact (HI _ _ _ M5 Ekh)|]. apply (proj2 (repn_same H H')) with (1 := Rkl). intros y Iy. apply O. exact (M6 y Iy).
    + apply (proj2 (repn_same H H')) with (1 := Rr). intros y Iy. apply O. exact (M7 y Iy).
  - exists b, l0, ls, kl, hd, t, v'. rewrite (O a M1), (O l0 M4). auto.
  - intros y Y. apply C. destruct (Nat.eq_dec y mv) as [->|D]; [rewrite E3; discriminate|]. rewrite <- (O y D). exact Y.
Qed.
(** Writer_setOffsetAndSize *)
Lemma offset_ptr H a mv n lost w : objects H (Some a) (Some mv) (Some n) lost ->
  match Writer_setOffsetAndSize (set_moov (Some n) w) with
  | Ok w' => exists n' H', w' = set_moov (Some n') w /\ n_header n' <> None /\ setOffsetAndSize_m w (Some a) H = Ok H' /\ objects H' (Some a) (Some mv) (Some n') lost
  | Throw e => setOffsetAndSize_m w (Some a) H = Throw e
  | UB => setOffsetAndSize_m w (Some a) H = UB
  end.
Proof.
  intros (F & fp & mv' & X & R & N & M & C). injection X as <-. unfold Writer_setOffsetAndSize, setOffsetAndSize_m. cbn [set_moov mw_moov mw_ftyp_size mw_class mw_mdat_size].
  destruct (mw_ftyp_size w) as [f|]; [|reflexivity]. set (off := match mw_class w with Simple => _ | Faststart => _ end).
  destruct (adjust_ptr H a fp n off R N F) as (n' & s & H' & fp' & E1 & E2 & R' & N' & C'). rewrite E1, E2. cbn [obind]. exists n', H'. split; [reflexivity|]. split.
  { unfold BoxInfo_adjustOffsetAndSize in E1. destruct (adjust (adjust_fuel n) n off) as [[n2 s2]|] eqn:E; [|discriminate E1]. injection E1 as <- <-.
    destruct (adjust_size _ _ _ _ _ E) as (h & -> & _). discriminate. }
  split; [reflexivity|]. exact (objects_chg _ _ _ _ _ _ _ _ C' R' N' M C).
Qed.

(** * Calls *)
Definition with_moov (n : option node) (q : session) : session := mk_session (set_moov n (s_writer q)) (s_tracks q).
Definition holds (m : mwstate) (s : session) (lost : list addr) : Prop :=
  exists n, s = with_moov n (ms_session m) /\ mw_moov (s_writer (ms_session m)) = None /\ objects (ms_heap m) (ms_moov m) (ms_mvhd m) n lost.
Lemma with_moov_id q n : mw_moov (s_writer q) = n -> with_moov n q = q.
Proof. intros <-. destruct q as [[] ?]. reflexivity. Qed.
Lemma with_moov_twice n n' q : with_moov n (with_moov n' q) = with_moov n q.
Proof. reflexivity. Qed.

Definition plain_op (o : op) : bool :=
  match o with O_NewTrack _ _ _ _ _ _ | O_NextTrackID | O_AddData _ _ _ _ | O_Terminate _ | O_SetMediaTime _ _ | O_ResetChunkOffsets _ _ | O_AddRaw _ => true | _ => false end.
Lemma actions_moov ts key acts n : forall t w, track_actions ts key acts t (set_moov n w) =
  match track_actions ts key acts t w with Ok (t', w') => Ok (t', set_moov n w') | Throw e => Throw e | UB => UB end.
Proof.
  induction acts as [|[d|p|p] acts IH]; intros t w; cbn [track_actions]; [reflexivity| |apply IH..].
  unfold track_store, Writer_addMdatData, Writer_tellCurrentMdatOffset. cbn [set_moov mw_class mw_tmp_open mw_os mw_tmp mw_mdat_size].
  destruct (mw_class w).
  - match goal with |- track_actions _ _ _ ?t1 _ = match track_actions _ _ _ _ ?w1 with _ => _ end => exact (IH t1 w1) end.
  - destruct (mw_tmp_open w); [|reflexivity]. match goal with |- track_actions _ _ _ ?t1 _ = match track_actions _ _ _ _ ?w1 with _ => _ end => exact (IH t1 w1) end.
Qed.
Lemma actions_none ts key acts : forall t w t' w', track_actions ts key acts t w = Ok (t', w') -> mw_moov w' = mw_moov w.
Proof.
  induction acts as [|[d|p|p] acts IH]; intros t w t' w' E; cbn [track_actions] in E; [injection E as <- <-; reflexivity| |exact (IH _ _ _ _ E)..].
  unfold track_store, Writer_addMdatData in E. destruct (mw_class w).
  - rewrite (IH _ _ _ _ E). reflexivity.
  - destruct (mw_tmp_open w); [|discriminate E]. rewrite (IH _ _ _ _ E). reflexivity.
Qed.
Lemma plain_step n q o : plain_op o = true -> mw_moov (s_writer q) = None ->
  step (with_moov n q) o = (with_moov n (fst (step q o)), snd (step q o)) /\ mw_moov (s_writer (fst (step q o))) = None.
Proof.
  intros P E. destruct o; try discriminate P; cbn [step with_moov s_writer s_tracks set_moov mw_time mw_class].
  - destruct (Track_new _ _ _ _ _ _ _); split; try reflexivity; exact E.
  - split; [reflexivity|exact E].
  - destruct (nth_error (s_tracks q) i) as [t|]; [|split; [reflexivity|exact E]]. destruct (addData_actions (t_codec t) data) as [[acts r]|]; [|split; [reflexivity|exact E]].
    rewrite actions_moov. destruct (track_actions timestamp is_key acts t (s_writer q)) as [[t' w']| |] eqn:Ea; [|split; [reflexivity|exact E]..].
    split; [reflexivity|]. cbn [fst s_writer]. rewrite (actions_none _ _ _ _ _ _ _ Ea). exact E.
  - unfold on_track. cbn [with_moov s_tracks s_writer]. destruct (nth_error (s_tracks q) i); split; try reflexivity; exact E.
  - unfold on_track. cbn [with_moov s_tracks s_writer]. destruct (nth_error (s_tracks q) i); split; try reflexivity; exact E.
  - unfold on_track. cbn [with_moov s_tracks s_writer]. destruct (nth_error (s_tracks q) i); split; try reflexivity; exact E.
  - unfold Writer_addMdatData. cbn [set_moov mw_class mw_tmp_open]. destruct (mw_class (s_writer q)); [split; [reflexivity|exact E]|]. destruct (mw_tmp_open (s_writer q)); split; try reflexivity; exact E.
Qed.

(** Which calls lose objects when they raise. *)
Definition leaks (o : op) (r : outcome unit) : nat :=
  match o, r with (O_WriteFtyp | O_WriteFreeAndMdatHeader), Throw _ => 3%nat | _, _ => 0%nat end.
(** Which calls leave the session as Writers.v has it. *)
Definition clean (o : op) (r : outcome unit) : Prop :=
  r = Ok tt \/ (r <> UB /\ match o with O_NewTrack _ _ _ _ _ _ | O_AddData _ _ _ _ => True | _ => False end).
Definition call_ok (s : session) (lost : list addr) (o : op) (x : fault) (m' : mwstate) (r : outcome unit) : Prop :=
  (x = None -> r = snd (step s o)) /\
  (r <> UB -> exists s' lost', holds m' s' lost' /\ (length lost' <= leaks o r + length lost)%nat /\ (x = None -> clean o r -> s' = fst (step s o))).
Lemma holds_faulted q m s lost : holds m s lost -> exists s', holds (faulted q m) s' lost.
Proof. intros (n & _ & _ & O). exists (with_moov n (ms_session (faulted q m))), n. split; [reflexivity|]. split; [reflexivity|exact O]. Qed.
(** A call that raises: what it leaves in the heap. *)
Lemma raised_ok s lost o x e m m' r more : raised x e m = (m', r) -> (x = None -> Throw e = snd (step s o)) -> (match o with O_NewTrack _ _ _ _ _ _ | O_AddData _ _ _ _ => False | _ => True end) ->
  (exists s0, holds m s0 (more ++ lost)) -> (length more <= leaks o (Throw e))%nat -> call_ok s lost o x m' r.
Proof.
  intros E A K (s0 & Hs) L. unfold raised in E. injection E as <- <-. split; [exact A|]. intros _.
  assert (G : exists s', holds (match x with Some (_, q) => faulted q m | None => m end) s' (more ++ lost)).
  { destruct x as [[k q]|]; [exact (holds_faulted q m s0 _ Hs)|exists s0; exact Hs]. }
  destruct G as (s' & G). exists s', (more ++ lost). split; [exact G|]. rewrite app_length. split; [lia|].
  intros _ [C|[_ C]]; [discriminate C|]. destruct o; contradiction.
Qed.
Lemma ub_ok s lost o x (m m' : mwstate) r : (m, UB) = (m', r) -> (x = None -> UB = snd (step s o)) -> call_ok s lost o x m' r.
Proof. intros E A. injection E as <- <-. split; [exact A|]. intros X. exfalso. apply X. reflexivity. Qed.
Lemma done_ok s lost o x m m' (r : outcome unit) s' : (m, Ok tt) = (m', r) -> holds m s' lost -> (x = None -> step s o = (s', Ok tt)) -> call_ok s lost o x m' r.
Proof.
  intros E Hs A. injection E as <- <-. split; [intros X; rewrite (A X); reflexivity|]. intros _. exists s', lost. split; [exact Hs|]. split; [lia|]. intros X _. rewrite (A X). reflexivity.
Qed.

(** ** writeFtypBox *)
Lemma ftyp_call m s lost x m' r : holds m s lost -> writeFtypBox_m x m = (m', r) -> call_ok s lost O_WriteFtyp x m' r.
Proof.
  intros (n & -> & E0 & O) E. unfold writeFtypBox_m in E. set (w := s_writer (ms_session m)) in *. set (nf := new_info (str "ftyp") (B_ftyp (mw_ftyp w)) []) in *.
  destruct (local_box nf 0 (ms_heap m) eq_refl eq_refl (proj1 O)) as (a & H1 & n1 & s1 & H2 & fp & E1 & E2 & E3 & K). rewrite E1, E3 in E.
  destruct (K (mw_os w) (fault_budget x)) as (H3 & r3 & n3 & E4 & A & Sz & L & O3 & H4 & E5 & O4). rewrite E4 in E.
  assert (St : step (with_moov n (ms_session m)) O_WriteFtyp = lift (with_moov n (ms_session m)) (Writer_writeFtypBox (set_moov n w))) by reflexivity.
  assert (Bx : x = None -> fault_budget x = None) by (intros ->; reflexivity).
  assert (P : forall Hx more, objects Hx (ms_moov m) (ms_mvhd m) n (more ++ lost) -> exists s0, holds (set_heap Hx m) s0 (more ++ lost)).
  { intros Hx more Ox. exists (with_moov n (ms_session m)), n. split; [reflexivity|]. split; [exact E0|exact Ox]. }
  assert (W : forall n2 o2, BoxInfo_write n1 (mw_os w) = Ok (n2, o2) -> Writer_writeFtypBox (set_moov n w) =
     match BoxInfo_getSize n2 with
     | Ok z => let w' := set_ftyp_size (Some z) (set_os o2 (set_moov n w)) in
               match mw_class w with Simple => Ok (set_os (os_seekp (u64 (z + LARGE_HEADER_SIZE)) (mw_os w')) w') | Faststart => Ok w' end
     | Throw e => Throw e | UB => UB end).
  { intros n2 o2 Ew. unfold Writer_writeFtypBox. cbn [set_moov mw_ftyp mw_os]. fold nf. rewrite E2, Ew. reflexivity. }
  destruct r3 as [[o3 k3]|e|].
  - rewrite Sz in E. unfold BoxInfo_getSize in E. destruct (n_header n3) as [h3|] eqn:Eh.
    + rewrite E5 in E.
      assert (Pure : x = None -> k3 = None /\ Writer_writeFtypBox (set_moov n w) = let w' := set_ftyp_size (Some (h_size h3)) (set_os o3 (set_moov n w)) in
               match mw_class w with Simple => Ok (set_os (os_seekp (u64 (h_size h3 + LARGE_HEADER_SIZE)) (mw_os w')) w') | Faststart => Ok w' end).
      { intros X. specialize (A (Bx X)). destruct (BoxInfo_write n1 (mw_os w)) as [[n2 o2]| |] eqn:Ew; [|discriminate A..]. destruct A as (A & ->). injection A as -> ->. split; [reflexivity|].
        rewrite (W _ _ eq_refl). unfold BoxInfo_getSize. rewrite Eh. reflexivity. }
      destruct (mw_class w) eqn:Ec.
      * destruct (tick k3) as [k4|] eqn:T.
        -- refine (done_ok _ _ _ _ _ _ _ (with_moov n (ms_session (fst (set_writer (set_os (os_seekp (u64 (h_size h3 + LARGE_HEADER_SIZE)) o3) (set_ftyp_size (Some (h_size h3)) (set_os o3 w))) (set_heap H4 m), Ok tt)))) E _ _).
           ++ exists n. split; [reflexivity|]. split; [exact E0|]. exact (O4 _ _ _ _ O).
           ++ intros X. rewrite St, (proj2 (Pure X)). reflexivity.
        -- apply (raised_ok _ _ _ _ _ _ _ _ [] E); [|exact I|exact (P H4 [] (O4 _ _ _ _ O))|cbn; lia].
           intros X. rewrite (proj1 (Pure X)) in T. discriminate T.
      * refine (done_ok _ _ _ _ _ _ _ (with_moov n (ms_session (set_writer (set_ftyp_size (Some (h_size h3)) (set_os o3 w)) (set_heap H4 m)))) E _ _).
        ++ exists n. split; [reflexivity|]. split; [exact E0|]. exact (O4 _ _ _ _ O).
        ++ intros X. rewrite St, (proj2 (Pure X)). reflexivity.
    + apply (raised_ok _ _ _ _ _ _ _ _ fp E); [|exact I|exact (P H3 fp (O3 _ _ _ _ O))|cbn [leaks]; lia].
      intros X. specialize (A (Bx X)). destruct (BoxInfo_write n1 (mw_os w)) as [[n2 o2]| |] eqn:Ew; [|discriminate A..]. destruct A as (A & ->). rewrite St, (W _ _ eq_refl). unfold BoxInfo_getSize. rewrite Eh. reflexivity.
  - apply (raised_ok _ _ _ _ _ _ _ _ fp E); [|exact I|exact (P H3 fp (O3 _ _ _ _ O))|cbn [leaks]; lia].
    intros X. specialize (A (Bx X)). rewrite St. unfold Writer_writeFtypBox. cbn [set_moov mw_ftyp mw_os]. fold nf. rewrite E2.
    destruct (BoxInfo_write n1 (mw_os w)) as [[n2 o2]| |]; [destruct A as (A & _); discriminate A|injection A as <-; reflexivity|discriminate A].
  - apply (ub_ok _ _ _ _ _ _ _ E). intros X. specialize (A (Bx X)). rewrite St. unfold Writer_writeFtypBox. cbn [set_moov mw_ftyp mw_os]. fold nf. rewrite E2.
    destruct (BoxInfo_write n1 (mw_os w)) as [[n2 o2]| |]; [destruct A as (A & _); discriminate A|discriminate A|reflexivity].
Qed.
(** ** writeFreeBoxAndMdatHeader *)
Lemma free_call m s lost x m' r : holds m s lost -> writeFreeBoxAndMdatHeader_m x m = (m', r) -> call_ok s lost O_WriteFreeAndMdatHeader x m' r.
Proof.
  intros (n & -> & E0 & O) E. unfold writeFreeBoxAndMdatHeader_m in E. set (w := s_writer (ms_session m)) in *.
  assert (St : step (with_moov n (ms_session m)) O_WriteFreeAndMdatHeader = lift (with_moov n (ms_session m)) (SimpleWriter_writeFreeBoxAndMdatHeader (set_moov n w))) by reflexivity.
  unfold SimpleWriter_writeFreeBoxAndMdatHeader in St. cbn [set_moov mw_ftyp_size mw_os mw_mdat_size] in St.
  destruct (mw_ftyp_size w) as [f|]; [|apply (ub_ok _ _ _ _ _ _ _ E); intros _; rewrite St; reflexivity].
  assert (Bx : x = None -> fault_budget x = None) by (intros ->; reflexivity).
  assert (P : forall Hx more, objects Hx (ms_moov m) (ms_mvhd m) n (more ++ lost) -> exists s0, holds (set_heap Hx m) s0 (more ++ lost)).
  { intros Hx more Ox. exists (with_moov n (ms_session m)), n. split; [reflexivity|]. split; [exact E0|exact Ox]. }
  assert (P0 : exists s0, holds m s0 ([] ++ lost)) by (exists (with_moov n (ms_session m)), n; split; [reflexivity|]; split; [exact E0|exact O]).
  destruct (tick (fault_budget x)) as [k|] eqn:T0.
  2: { apply (raised_ok _ _ _ _ _ _ _ _ [] E); [|exact I|exact P0|cbn; lia]. intros X. rewrite (Bx X) in T0. discriminate T0. }
  assert (Kx : x = None -> k = None) by (intros X; rewrite (Bx X) in T0; injection T0 as <-; reflexivity).
  destruct (mw_mdat_size w >? UINT32_MAX - 8).
  { destruct (tick k) as [k1|] eqn:T1.
    - refine (done_ok _ _ _ _ _ _ _ (with_moov n (ms_session (set_writer _ m))) E _ _).
      + exists n. split; [reflexivity|]. split; [exact E0|exact O].
      + intros X. rewrite St. reflexivity.
    - apply (raised_ok _ _ _ _ _ _ _ _ [] E); [|exact I|exact P0|cbn; lia]. intros X. rewrite (Kx X) in T1. discriminate T1. }
  set (nf := new_info (str "free") (B_free []) []) in *. set (o := os_seekp f (mw_os w)) in *.
  destruct (local_box nf f (ms_heap m) eq_refl eq_refl (proj1 O)) as (a & H1 & n1 & s1 & H2 & fp & E1 & E2 & E3 & K). rewrite E1, E3 in E. rewrite E2 in St.
  destruct (K o k) as (H3 & r3 & n3 & E4 & A & Sz & L & O3 & H4 & E5 & O4). rewrite E4 in E.
  destruct r3 as [[o3 k3]|e|].
  - assert (A' : x = None -> k3 = None /\ BoxInfo_write n1 o = Ok (n3, o3)).
    { intros X. specialize (A (Kx X)). destruct (BoxInfo_write n1 o) as [[n2 o2]| |]; [|discriminate A..]. destruct A as (A & ->). injection A as -> ->. auto. }
    destruct (tick k3) as [k4|] eqn:T3.
    2: { apply (raised_ok _ _ _ _ _ _ _ _ fp E); [|exact I|exact (P H3 fp (O3 _ _ _ _ O))|cbn [leaks]; lia]. intros X. rewrite (proj1 (A' X)) in T3. discriminate T3. }
    assert (K4 : x = None -> k4 = None) by (intros X; rewrite (proj1 (A' X)) in T3; injection T3 as <-; reflexivity).
    rewrite Sz in E. unfold BoxInfo_getSize in E. destruct (n_header n3) as [h3|] eqn:Eh.
    + rewrite E5 in E. destruct (tick k4) as [k5|] eqn:T4.
      * refine (done_ok _ _ _ _ _ _ _ (with_moov n (ms_session (set_writer _ (set_heap H4 m)))) E _ _).
        -- exists n. split; [reflexivity|]. split; [exact E0|]. exact (O4 _ _ _ _ O).
        -- intros X. rewrite St, (proj2 (A' X)). unfold BoxInfo_getSize. rewrite Eh. reflexivity.
      * apply (raised_ok _ _ _ _ _ _ _ _ [] E); [|exact I|exact (P H4 [] (O4 _ _ _ _ O))|cbn; lia]. intros X. rewrite (K4 X) in T4. discriminate T4.
    + apply (raised_ok _ _ _ _ _ _ _ _ fp E); [|exact I|exact (P H3 fp (O3 _ _ _ _ O))|cbn [leaks]; lia]. intros X. rewrite St, (proj2 (A' X)). unfold BoxInfo_getSize. rewrite Eh. reflexivity.
  - apply (raised_ok _ _ _ _ _ _ _ _ fp E); [|exact I|exact (P H3 fp (O3 _ _ _ _ O))|cbn [leaks]; lia].
    intros X. specialize (A (Kx X)). rewrite St. destruct (BoxInfo_write n1 o) as [[n2 o2]| |]; [destruct A as (A & _); discriminate A|injection A as <-; reflexivity|discriminate A].
  - apply (ub_ok _ _ _ _ _ _ _ E). intros X. specialize (A (Kx X)). rewrite St. destruct (BoxInfo_write n1 o) as [[n2 o2]| |]; [destruct A as (A & _); discriminate A|discriminate A|reflexivity].
Qed.

(** ** writeMoovBox *)
(** The moov tree is there, whatever [n]. *)
Lemma objects_cases H moov mvhd n lost : objects H moov mvhd n lost ->
  (moov = None /\ n = None /\ mvhd = None) \/ (exists a mv k, moov = Some a /\ mvhd = Some mv /\ n = Some k /\ objects H (Some a) (Some mv) (Some k) lost).
Proof.
  intros O. destruct moov as [a|], n as [k|]; try (destruct O as (_ & []); fail).
  - right. pose proof O as (_ & fp & mv & -> & _). exists a, mv, k. auto.
  - left. destruct O as (_ & -> & _). auto.
Qed.
Lemma moov_tree_call m q n lost x k m' r : mw_moov (s_writer (ms_session m)) = None -> objects (ms_heap m) (ms_moov m) (ms_mvhd m) n lost -> (x = None -> k = None) ->
  (x = None -> lift q (write_moov_tree (set_moov n (s_writer (ms_session m)))) = step q O_WriteMoov) ->
  s_tracks q = s_tracks (ms_session m) ->
  write_moov_tree_m x k m = (m', r) -> call_ok q lost O_WriteMoov x m' r.
Proof.
  intros E0 O Kx St Tq E. unfold write_moov_tree_m in E. set (w := s_writer (ms_session m)) in *. unfold write_moov_tree in St. cbn [set_moov mw_moov mw_next_id mw_os] in St.
  destruct (objects_cases _ _ _ _ _ O) as [(Ea & -> & Em)|(a & mv & nd & Ea & Em & -> & O1)].
  { rewrite Em in E. cbn [setNextTrackID_m] in E. apply (ub_ok _ _ _ _ _ _ _ E). intros X. rewrite <- (St X). reflexivity. }
  rewrite Ea, Em in E. destruct (setNext_ptr _ _ _ _ _ (mw_next_id w) O1) as (H1 & E1 & (F1 & fp & mv' & X & R & N & M & C)). injection X as <-. rewrite E1 in E.
  destruct (write_ptr H1 a fp _ (mw_os w) k R N F1) as (H2 & r2 & n2 & E2 & R2 & C2 & A). rewrite E2 in E.
  assert (O2 : objects H2 (ms_moov m) (ms_mvhd m) (Some n2) lost) by (rewrite Ea, Em; exact (objects_chg _ _ _ _ _ _ _ _ C2 R2 N M C)).
  assert (P : exists s0, holds (set_heap H2 m) s0 ([] ++ lost)) by (exists (with_moov (Some n2) (ms_session m)), (Some n2); split; [reflexivity|]; split; [exact E0|exact O2]).
  destruct r2 as [[o3 k3]|e|].
  - refine (done_ok _ _ _ _ _ _ _ (with_moov (Some n2) (ms_session (set_writer (set_os o3 w) (set_heap H2 m)))) E _ _).
    + exists (Some n2). split; [reflexivity|]. split; [exact E0|exact O2].
    + intros X. rewrite <- (St X). specialize (A (Kx X)). destruct (BoxInfo_write _ (mw_os w)) as [[n3 o4]| |]; [|discriminate A..]. destruct A as (A & ->). injection A as -> ->.
      unfold lift, with_moov. cbn [ms_session set_writer set_heap s_writer s_tracks]. rewrite Tq. reflexivity.
  - apply (raised_ok _ _ _ _ _ _ _ _ [] E); [|exact I|exact P|cbn; lia].
    intros X. rewrite <- (St X). specialize (A (Kx X)). destruct (BoxInfo_write _ (mw_os w)) as [[n3 o4]| |]; [destruct A as (A & _); discriminate A|injection A as <-; reflexivity|discriminate A].
  - apply (ub_ok _ _ _ _ _ _ _ E). intros X. rewrite <- (St X). specialize (A (Kx X)). destruct (BoxInfo_write _ (mw_os w)) as [[n3 o4]| |]; [destruct A as (A & _); discriminate A|discriminate A|reflexivity].
Qed.
Lemma moov_call m s lost x m' r : holds m s lost -> writeMoovBox_m x m = (m', r) -> call_ok s lost O_WriteMoov x m' r.
Proof.
  intros (n & -> & E0 & O) E. unfold writeMoovBox_m in E. set (w := s_writer (ms_session m)) in *.
  assert (St : step (with_moov n (ms_session m)) O_WriteMoov = lift (with_moov n (ms_session m)) (Writer_writeMoovBox (set_moov n w))) by reflexivity.
  unfold Writer_writeMoovBox in St. cbn [set_moov mw_class mw_ftyp_size mw_os] in St.
  assert (P0 : exists s0, holds m s0 ([] ++ lost)) by (exists (with_moov n (ms_session m)), n; split; [reflexivity|]; split; [exact E0|exact O]).
  assert (Bx : x = None -> fault_budget x = None) by (intros ->; reflexivity).
  destruct (mw_class w) eqn:Ec.
  - destruct (objects_cases _ _ _ _ _ O) as [(Ea & -> & Em)|(a & mv & nd & Ea & Em & -> & O1)].
    { rewrite Ea in E. cbn [setOffsetAndSize_m] in E. apply (ub_ok _ _ _ _ _ _ _ E). intros _. rewrite St. reflexivity. }
    rewrite Ea in E. pose proof (offset_ptr _ _ _ _ _ w O1) as K. destruct (Writer_setOffsetAndSize (set_moov (Some nd) w)) as [w1|e|] eqn:Ew.
    + destruct K as (n' & H' & -> & _ & E1 & O'). rewrite E1 in E.
      apply (moov_tree_call (set_heap H' m) (with_moov (Some nd) (ms_session m)) (Some n') lost x (fault_budget x) m' r); [exact E0| |exact Bx| |reflexivity|exact E].
      * cbn [set_heap ms_heap ms_moov ms_mvhd]. rewrite Ea, Em. exact O'.
      * intros _. rewrite St. reflexivity.
    + rewrite K in E. apply (raised_ok _ _ _ _ _ _ _ _ [] E); [|exact I|exact P0|cbn; lia]. intros _. rewrite St. reflexivity.
    + rewrite K in E. apply (ub_ok _ _ _ _ _ _ _ E). intros _. rewrite St. reflexivity.
  - destruct (mw_ftyp_size w) as [f|]; [|apply (ub_ok _ _ _ _ _ _ _ E); intros _; rewrite St; reflexivity].
    destruct (tick (fault_budget x)) as [k|] eqn:T0.
    + apply (moov_tree_call (set_writer (set_os (os_seekp f (mw_os w)) w) m) (with_moov n (ms_session m)) n lost x k m' r); [exact E0|exact O| | |reflexivity|exact E].
      * intros X. rewrite (Bx X) in T0. injection T0 as <-. reflexivity.
      * intros _. rewrite St. reflexivity.
    + apply (raised_ok _ _ _ _ _ _ _ _ [] E); [|exact I|exact P0|cbn; lia]. intros X. rewrite (Bx X) in T0. discriminate T0.
Qed.

(** ** appendTrakAndUdtaBoxInfo *)
Lemma simple_append_call m s lost x sel m' r : holds m s lost -> mw_class (s_writer (ms_session m)) = Simple -> Simple_append_m sel m = (m', r) -> call_ok s lost (O_AppendTrakAndUdta sel) x m' r.
Proof.
  intros (n & -> & E0 & O) Ec E. set (w := s_writer (ms_session m)) in *. set (q := with_moov n (ms_session m)).
  assert (St : step q (O_AppendTrakAndUdta sel) = lift_s q (Simple_append sel q)).
  { cbn [step q with_moov s_writer set_moov mw_class]. fold w. rewrite Ec. reflexivity. }
  unfold Simple_append in St. cbn [q with_moov s_writer set_moov mw_moov s_tracks] in St. fold q in St. unfold Simple_append_m in E.
  destruct (objects_cases _ _ _ _ _ O) as [(Ea & -> & Em)|(a & mv & nd & Ea & Em & -> & O1)].
  { rewrite Ea in E. apply (ub_ok _ _ _ _ _ _ _ E). intros _. rewrite St. reflexivity. }
  rewrite Ea in E. destruct O1 as (F & fp & mv' & X & R & N & M & C). injection X as <-.
  pose proof (traks_ptr None sel _ _ _ _ (s_tracks (ms_session m)) R N F) as K.
  destruct (append_traks None sel nd (s_tracks (ms_session m))) as [[n1 ts]|e|] eqn:Et.
  - destruct K as (H1 & fp1 & E1 & R1 & N1 & C1). rewrite E1 in E. cbn [obind] in E. assert (F1 : fresh H1) by apply C1.
    destruct (udta_ptr H1 a fp1 n1 R1 N1 F1) as (c & H2 & fp2 & E2 & R2 & N2 & C2). rewrite E2 in E. cbn [obind] in E.
    refine (done_ok _ _ _ _ _ _ _ (with_moov (Some (node_add_leaf n1 make_udta)) (mk_session w ts)) E _ _).
    + exists (Some (node_add_leaf n1 make_udta)). split; [reflexivity|]. split; [exact E0|]. cbn [ms_heap ms_moov ms_mvhd]. rewrite Em.
      exact (objects_chg _ _ _ _ _ _ _ _ (chg_trans _ _ _ _ _ _ (below _ _ _ _ F R) C1 C2) R2 N2 M C).
    + intros _. rewrite St. reflexivity.
  - exfalso. exact (traks_throw _ _ _ _ _ Et).
  - rewrite K in E. cbn [obind] in E. apply (ub_ok _ _ _ _ _ _ _ E). intros _. rewrite St. reflexivity.
Qed.
Lemma recreate_ptr m n lost : mw_moov (s_writer (ms_session m)) = None -> objects (ms_heap m) (ms_moov m) (ms_mvhd m) n lost ->
  match Faststart_recreateMoovBoxInfo (set_moov n (s_writer (ms_session m))) with
  | Ok w' => exists a mv n' H', w' = set_moov (Some n') (s_writer (ms_session m)) /\ objects H' (Some a) (Some mv) (Some n') lost /\
      recreateMoovBoxInfo_m m = Ok (mk_ms (ms_session m) H' (Some a) (Some mv) (ms_file m))
  | Throw e => recreateMoovBoxInfo_m m = Throw e
  | UB => recreateMoovBoxInfo_m m = UB
  end.
Proof.
  intros E0 O. unfold recreateMoovBoxInfo_m, Faststart_recreateMoovBoxInfo. set (w := s_writer (ms_session m)) in *.
  assert (D : exists H1, match ms_moov m with Some a => BoxInfo_delete_m a (ms_heap m) | None => Ok (ms_heap m) end = Ok H1 /\ fresh H1 /\ covers H1 [] lost).
  { destruct (objects_cases _ _ _ _ _ O) as [(Ea & -> & Em)|(a & mv & nd & Ea & Em & -> & O1)].
    - rewrite Ea in O |- *. exists (ms_heap m). destruct O as (F & _ & C). auto.
    - rewrite Ea. destruct O1 as (F & fp & mv' & X & R & N & M & C). destruct (delete_ptr _ _ _ _ R N F) as (H1 & E1 & Nx & D1). exists H1. split; [exact E1|]. split.
      + intros x L. destruct (D1 x) as (Y & Q). destruct (in_dec Nat.eq_dec x fp) as [J|J]; [exact (Y J)|]. rewrite (Q J). apply F. lia.
      + intros x X'. right. destruct (D1 x) as (Y & Q). destruct (in_dec Nat.eq_dec x fp) as [J|J]; [contradiction (X' (Y J))|]. rewrite (Q J) in X'. destruct (C x X'); [contradiction|assumption]. }
  destruct D as (H1 & E1 & F1 & C1). rewrite E1. cbn [obind].
  destruct (make_moov_ptr w H1 F1) as (a & mv & H2 & fp & E2 & R2 & N2 & F2 & L2 & I2 & S2 & M2). rewrite E2. cbn [obind].
  assert (O2 : objects H2 (Some a) (Some mv) (Some (make_moov w)) lost).
  { split; [exact F2|]. exists fp, mv. split; [reflexivity|]. split; [exact R2|]. split; [exact N2|]. split; [exact M2|].
    intros x X. destruct (Nat.lt_ge_cases x (next H1)) as [Lx|Lx].
    - right. rewrite (S2 x Lx) in X. destruct (C1 x X) as [[]|J]. exact J.
    - left. apply I2. split; [exact Lx|]. destruct (at_ H2 x) eqn:Ex; [exact (in_use _ _ _ F2 Ex)|congruence]. }
  pose proof (offset_ptr _ _ _ _ _ w O2) as K.
  change (set_moov (Some (make_moov (set_moov n w))) (set_moov n w)) with (set_moov (Some (make_moov w)) w).
  destruct (Writer_setOffsetAndSize (set_moov (Some (make_moov w)) w)) as [w1|e|].
  - destruct K as (n' & H' & -> & _ & E3 & O3). rewrite E3. cbn [obind]. exists a, mv, n', H'. auto.
  - rewrite K. reflexivity.
  - rewrite K. reflexivity.
Qed.
Lemma offset_throw w e : Writer_setOffsetAndSize w <> Throw e.
Proof.
  unfold Writer_setOffsetAndSize, BoxInfo_adjustOffsetAndSize. destruct (mw_moov w) as [n|]; [|discriminate]. destruct (mw_ftyp_size w) as [f|]; [|discriminate].
  destruct (adjust _ _ _) as [[? ?]|]; discriminate.
Qed.
(** One iteration: as in Writers.v; the exception of a shrinking moov leaves the new tree. *)
Lemma iter_ptr sel m n lost prev size : mw_moov (s_writer (ms_session m)) = None -> objects (ms_heap m) (ms_moov m) (ms_mvhd m) n lost ->
  match Faststart_iter sel (with_moov n (ms_session m)) prev size with
  | Ok (s', size') => exists m', Faststart_iter_m sel m prev size = Ok (m', size', false) /\ holds m' s' lost
  | Throw e => e = RuntimeError /\ exists m' size' s', Faststart_iter_m sel m prev size = Ok (m', size', true) /\ holds m' s' lost
  | UB => Faststart_iter_m sel m prev size = UB
  end.
Proof.
  intros E0 O. unfold Faststart_iter, Faststart_iter_m. cbn [with_moov s_writer s_tracks]. set (w := s_writer (ms_session m)) in *.
  pose proof (recreate_ptr m n lost E0 O) as K. fold w in K.
  assert (NT : forall e, Faststart_recreateMoovBoxInfo (set_moov n w) <> Throw e) by (intros e; apply offset_throw).
  destruct (Faststart_recreateMoovBoxInfo (set_moov n w)) as [w1|e|]; [|contradiction (NT e); reflexivity|rewrite K; reflexivity]. clear NT.
  destruct K as (a & mv & n1 & H1 & -> & O1 & K). rewrite K. cbn [obind ms_moov ms_session ms_heap set_moov mw_moov].
  destruct O1 as (F & fp & mv' & X & R & N & M & C). injection X as <-.
  pose proof (traks_ptr (Some (u64 (size - prev))) sel _ _ _ _ (s_tracks (ms_session m)) R N F) as Kt.
  destruct (append_traks (Some (u64 (size - prev))) sel n1 (s_tracks (ms_session m))) as [[n2 ts]|e|] eqn:Et; [|exfalso; exact (traks_throw _ _ _ _ _ Et)|rewrite Kt; reflexivity].
  destruct Kt as (H2 & fp2 & E2 & R2 & N2 & C2). rewrite E2. cbn [obind]. assert (F2 : fresh H2) by apply C2.
  destruct (udta_ptr H2 a fp2 n2 R2 N2 F2) as (c & H3 & fp3 & E3 & R3 & N3 & C3). rewrite E3. cbn [obind].
  pose proof (objects_chg _ _ _ _ _ _ _ _ (chg_trans _ _ _ _ _ _ (below _ _ _ _ F R) C2 C3) R3 N3 M C) as O3.
  pose proof (offset_ptr _ _ _ _ _ w O3) as Ko. change (set_moov (Some (node_add_leaf n2 make_udta)) (set_moov (Some n1) w)) with (set_moov (Some (node_add_leaf n2 make_udta)) w).
  assert (NT : forall e, Writer_setOffsetAndSize (set_moov (Some (node_add_leaf n2 make_udta)) w) <> Throw e) by (intros e; apply offset_throw).
  destruct (Writer_setOffsetAndSize (set_moov (Some (node_add_leaf n2 make_udta)) w)) as [w2|e|]; [|contradiction (NT e); reflexivity|fold w; rewrite Ko; reflexivity]. clear NT.
  destruct Ko as (n4 & H4 & -> & Hn & E4 & O4). fold w. rewrite E4. cbn [obind ms_mvhd ms_file].
  set (m2 := mk_ms (mk_session w ts) H4 (Some a) (Some mv) (ms_file m)).
  assert (Hm : holds m2 (with_moov (Some n4) (mk_session w ts)) lost) by (exists (Some n4); split; [reflexivity|]; split; [exact E0|exact O4]).
  assert (Sz : Faststart_size_m m2 = Faststart_size (set_moov (Some n4) w)).
  { unfold Faststart_size_m, Faststart_size. cbn [m2 ms_session s_writer set_moov mw_ftyp_size]. destruct (mw_ftyp_size w) as [f|]; [|reflexivity].
    unfold getMoovSize_m, Faststart_getMoovSize. cbn [m2 ms_moov ms_heap set_moov mw_moov]. destruct O4 as (_ & fp4 & _ & _ & R4 & _). rewrite (repn_getSize _ _ _ _ R4). reflexivity. }
  rewrite Sz. unfold Faststart_size. cbn [set_moov mw_ftyp_size]. destruct (mw_ftyp_size w) as [f|]; [|reflexivity]. unfold Faststart_getMoovSize. cbn [set_moov mw_moov]. unfold BoxInfo_getSize.
  destruct (n_header n4) as [h4|]; [|contradiction Hn; reflexivity]. cbn [obind].
  set (size' := u64 _). destruct (size' <? size).
  - split; [reflexivity|]. eexists _, _, _. split; [reflexivity|exact Hm].
  - eexists. split; [reflexivity|exact Hm].
Qed.
Lemma loop_ptr sel lost fuel : forall m s prev size, holds m s lost ->
  match Faststart_loop fuel sel s prev size with
  | None => snd (Faststart_loop_m fuel sel m prev size) = UB
  | Some (Ok s') => exists m', Faststart_loop_m fuel sel m prev size = (m', Ok tt) /\ holds m' s' lost
  | Some (Throw e) => exists m' s', Faststart_loop_m fuel sel m prev size = (m', Throw e) /\ holds m' s' lost
  | Some UB => snd (Faststart_loop_m fuel sel m prev size) = UB
  end.
Proof.
  induction fuel as [|f IH]; intros m s prev size Hs; cbn [Faststart_loop Faststart_loop_m]; [reflexivity|]. destruct Hs as (n & -> & E0 & O).
  pose proof (iter_ptr sel m n lost prev size E0 O) as K. destruct (Faststart_iter sel (with_moov n (ms_session m)) prev size) as [[s1 size1]|e|].
  - destruct K as (m1 & E1 & H1). rewrite E1. destruct (negb (size =? size1)); [exact (IH m1 s1 size size1 H1)|]. exists m1. auto.
  - destruct K as (-> & m1 & size1 & s1 & E1 & H1). rewrite E1. eauto.
  - rewrite K. reflexivity.
Qed.
Lemma faststart_append_call m s lost x sel m' r : holds m s lost -> mw_class (s_writer (ms_session m)) = Faststart -> Faststart_append_m sel m = (m', r) -> call_ok s lost (O_AppendTrakAndUdta sel) x m' r.
Proof.
  intros (n & -> & E0 & O) Ec E. set (w := s_writer (ms_session m)) in *. set (q := with_moov n (ms_session m)) in *.
  assert (St : step q (O_AppendTrakAndUdta sel) = match Faststart_append sel q with Some r => lift_s q r | None => (q, UB) end).
  { cbn [step q with_moov s_writer set_moov mw_class]. fold w. rewrite Ec. reflexivity. }
  unfold Faststart_append in St. unfold Faststart_append_m in E.
  assert (Hs : holds m q lost) by (exists n; split; [reflexivity|]; split; [exact E0|exact O]).
  assert (Sz : Faststart_size_m m = Faststart_size (s_writer q)).
  { unfold Faststart_size_m, Faststart_size. cbn [q with_moov s_writer set_moov mw_ftyp_size]. fold w. destruct (mw_ftyp_size w) as [f|]; [|reflexivity].
    unfold getMoovSize_m, Faststart_getMoovSize. cbn [set_moov mw_moov]. destruct (objects_cases _ _ _ _ _ O) as [(Ea & -> & Em)|(a & mv & nd & Ea & Em & -> & O1)]; rewrite Ea; [reflexivity|].
    destruct O1 as (_ & fp4 & _ & _ & R4 & _). rewrite (repn_getSize _ _ _ _ R4). reflexivity. }
  rewrite Sz in E. destruct (Faststart_size (s_writer q)) as [size|e|].
  - pose proof (loop_ptr sel lost (Faststart_append_fuel sel) m q 0 size Hs) as K. destruct (Faststart_loop (Faststart_append_fuel sel) sel q 0 size) as [[s'|e|]|].
    + destruct K as (m1 & K & H1). rewrite K in E. exact (done_ok _ _ _ _ _ _ _ s' E H1 (fun _ => St)).
    + destruct K as (m1 & s1 & K & H1). rewrite K in E. injection E as <- <-. split; [intros _; rewrite St; reflexivity|]. intros _. exists s1, lost. split; [exact H1|]. split; [cbn; lia|].
      intros _ [Z|[_ []]]. discriminate Z.
    + rewrite E in K. cbn [snd] in K. subst r. split; [intros _; rewrite St; reflexivity|]. intros Z. contradiction Z. reflexivity.
    + rewrite E in K. cbn [snd] in K. subst r. split; [intros _; rewrite St; reflexivity|]. intros Z. contradiction Z. reflexivity.
  - injection E as <- <-. split; [intros _; rewrite St; reflexivity|]. intros _. exists q, lost. split; [exact Hs|]. split; [cbn; lia|]. intros _ [Z|[_ []]]. discriminate Z.
  - apply (ub_ok _ _ _ _ _ _ _ E). intros _. rewrite St. reflexivity.
Qed.

(** ** writeMdatHeader, copyMdatData, deleteIntermediateFile *)
Lemma mdat_header_call m s lost x m' r : holds m s lost -> writeMdatHeader_m x m = (m', r) -> call_ok s lost O_WriteMdatHeader x m' r.
Proof.
  intros (n & -> & E0 & O) E. unfold writeMdatHeader_m in E. set (w := s_writer (ms_session m)) in *.
  assert (St : step (with_moov n (ms_session m)) O_WriteMdatHeader = lift (with_moov n (ms_session m)) (Faststart_writeMdatHeader (set_moov n w))) by reflexivity.
  unfold Faststart_writeMdatHeader in St. cbn [set_moov mw_ftyp_size mw_os mw_mdat_size] in St.
  assert (P0 : exists s0, holds m s0 ([] ++ lost)) by (exists (with_moov n (ms_session m)), n; split; [reflexivity|]; split; [exact E0|exact O]).
  destruct (mw_ftyp_size w) as [f|]; [|apply (ub_ok _ _ _ _ _ _ _ E); intros _; rewrite St; reflexivity].
  assert (Sz : getMoovSize_m m = Faststart_getMoovSize (set_moov n w)).
  { unfold getMoovSize_m, Faststart_getMoovSize. cbn [set_moov mw_moov]. destruct (objects_cases _ _ _ _ _ O) as [(Ea & -> & Em)|(a & mv & nd & Ea & Em & -> & O1)]; rewrite Ea; [reflexivity|].
    destruct O1 as (_ & fp4 & _ & _ & R4 & _). rewrite (repn_getSize _ _ _ _ R4). reflexivity. }
  rewrite Sz in E. destruct (Faststart_getMoovSize (set_moov n w)) as [z|e|].
  - cbn [obind] in St. destruct x as [[k q]|].
    + apply (raised_ok _ _ _ _ _ _ _ _ [] E); [discriminate|exact I|exact P0|cbn; lia].
    + refine (done_ok _ _ _ _ _ _ _ (with_moov n (ms_session (set_writer _ m))) E _ _).
      * exists n. split; [reflexivity|]. split; [exact E0|exact O].
      * intros _. rewrite St. reflexivity.
  - apply (raised_ok _ _ _ _ _ _ _ _ [] E); [|exact I|exact P0|cbn; lia]. intros _. rewrite St. reflexivity.
  - apply (ub_ok _ _ _ _ _ _ _ E). intros _. rewrite St. reflexivity.
Qed.
Lemma copy_call m s lost x m' r : holds m s lost -> (x = None -> mw_tmp_open (s_writer (ms_session m)) = true -> ms_file m = true) -> copyMdatData_m x m = (m', r) -> call_ok s lost O_CopyMdatData x m' r.
Proof.
  intros (n & -> & E0 & O) Fi E. unfold copyMdatData_m in E. set (w := s_writer (ms_session m)) in *.
  assert (St : step (with_moov n (ms_session m)) O_CopyMdatData = lift (with_moov n (ms_session m)) (Faststart_copyMdatData (set_moov n w))) by reflexivity.
  assert (P : forall w1, mw_moov w1 = None -> exists s0, holds (set_writer w1 m) s0 ([] ++ lost)).
  { intros w1 N1. exists (with_moov n (ms_session (set_writer w1 m))), n. split; [reflexivity|]. split; [exact N1|exact O]. }
  assert (P0 : exists s0, holds m s0 ([] ++ lost)) by (exists (with_moov n (ms_session m)), n; split; [reflexivity|]; split; [exact E0|exact O]).
  unfold Faststart_copyMdatData in *. cbn [set_moov mw_tmp_open mw_tmp mw_os] in St. destruct (mw_tmp_open w) eqn:Eo; [|apply (ub_ok _ _ _ _ _ _ _ E); intros _; rewrite St; reflexivity].
  destruct (copy_loop _ _ _ _) as [o|]; [|apply (ub_ok _ _ _ _ _ _ _ E); intros _; rewrite St; reflexivity].
  destruct x as [[k q]|].
  - cbn [fault_budget option_map fst] in E. destruct k as [|[|k]]; (apply (raised_ok _ _ _ _ _ _ _ _ [] E); [discriminate|exact I|first [exact P0|exact (P (close_file w) E0)]|cbn; lia]).
  - cbn [fault_budget option_map] in E. unfold deleteIntermediateFile_m in E. cbn [andb set_writer ms_file] in E. rewrite (Fi eq_refl eq_refl) in E. cbn [andb] in E.
    refine (done_ok _ _ _ _ _ _ _ (with_moov n (mk_session (set_tmp (mw_tmp w) false (set_os o w)) (s_tracks (ms_session m)))) E _ _).
    + exists n. split; [reflexivity|]. split; [exact E0|exact O].
    + intros _. rewrite St. reflexivity.
Qed.

(** ** Every call *)
Lemma data_call m s lost o x m' r : holds m s lost -> match o with O_AddData _ _ _ _ | O_AddRaw _ => True | _ => False end ->
  (match snd (step (ms_session m) o), x with
   | UB, _ => (m, UB)
   | _, Some _ => raised x RuntimeError m
   | r, None => (mk_ms (fst (step (ms_session m) o)) (ms_heap m) (ms_moov m) (ms_mvhd m) (ms_file m), r)
   end) = (m', r) -> call_ok s lost o x m' r.
Proof.
  intros (n & -> & E0 & O) D E. assert (P : plain_op o = true) by (destruct o; try contradiction; reflexivity). destruct (plain_step n (ms_session m) o P E0) as (A & B).
  assert (G : forall r0, r0 = snd (step (ms_session m) o) -> (mk_ms (fst (step (ms_session m) o)) (ms_heap m) (ms_moov m) (ms_mvhd m) (ms_file m), r0) = (m', r) ->
     call_ok (with_moov n (ms_session m)) lost o x m' r).
  { intros r0 -> E'. injection E' as <- <-. split; [intros _; rewrite A; reflexivity|]. intros _.
    exists (with_moov n (fst (step (ms_session m) o))), lost. split; [exists n; split; [reflexivity|]; split; [exact B|exact O]|]. split; [lia|]. intros _ _. rewrite A. reflexivity. }
  assert (Q : forall k q, raised (Some (k, q)) RuntimeError m = (m', r) -> call_ok (with_moov n (ms_session m)) lost o (Some (k, q)) m' r).
  { intros k q Er. unfold raised in Er. injection Er as <- <-. split; [discriminate|]. intros _.
    destruct (holds_faulted q m (with_moov n (ms_session m)) lost) as (s' & Hf); [exists n; split; [reflexivity|]; split; [exact E0|exact O]|].
    exists s', lost. split; [exact Hf|]. split; [lia|discriminate]. }
  destruct (snd (step (ms_session m) o)) as [u|e|] eqn:Es.
  - destruct x as [[k q]|]; [exact (Q k q E)|exact (G _ eq_refl E)].
  - destruct x as [[k q]|]; [exact (Q k q E)|exact (G _ eq_refl E)].
  - apply (ub_ok _ _ _ _ _ _ _ E). intros _. rewrite A. reflexivity.
Qed.
Lemma call_holds m s lost o x m' r : holds m s lost -> (o = O_CopyMdatData -> x = None -> mw_tmp_open (s_writer (ms_session m)) = true -> ms_file m = true) ->
  mstep m (Call o x) = (m', r) -> call_ok s lost o x m' r.
Proof.
  intros Hs Fi E. cbn [mstep] in E.
  assert (Pl : plain_op o = true -> (mk_ms (fst (step (ms_session m) o)) (ms_heap m) (ms_moov m) (ms_mvhd m) (ms_file m), snd (step (ms_session m) o)) = (m', r) -> call_ok s lost o x m' r).
  { intros P E'. destruct Hs as (n & -> & E0 & O). destruct (plain_step n (ms_session m) o P E0) as (A & B). injection E' as <- <-. split; [intros _; rewrite A; reflexivity|]. intros _.
    exists (with_moov n (fst (step (ms_session m) o))), lost. split; [exists n; split; [reflexivity|]; split; [exact B|exact O]|]. split; [lia|]. intros _ _. rewrite A. reflexivity. }
  destruct o; try exact (Pl eq_refl E).
  - refine (data_call m s lost (O_AddData i timestamp data is_key) x m' r Hs I _). exact E.
  - refine (data_call m s lost (O_AddRaw data) x m' r Hs I _). exact E.
  - exact (ftyp_call _ _ _ _ _ _ Hs E).
  - destruct (mw_class (s_writer (ms_session m))) eqn:Ec; [exact (simple_append_call _ _ _ _ _ _ _ Hs Ec E)|exact (faststart_append_call _ _ _ _ _ _ _ Hs Ec E)].
  - exact (free_call _ _ _ _ _ _ Hs E).
  - exact (mdat_header_call _ _ _ _ _ _ Hs E).
  - exact (moov_call _ _ _ _ _ _ Hs E).
  - exact (copy_call _ _ _ _ _ _ Hs (Fi eq_refl) E).
Qed.

(** * Any calls, any faults: what is not in the tree of moov any more *)
Definition call_leaks (c : call) (r : outcome unit) : nat := match c with Call o _ => leaks o r | DeleteIntermediateFile _ => 0%nat end.
Lemma copy_keeps m s lost x m' r : holds m s lost -> copyMdatData_m x m = (m', r) -> r <> UB -> exists s', holds m' s' lost.
Proof.
  intros (n & -> & E0 & O) E U. unfold copyMdatData_m, deleteIntermediateFile_m, raised in E. unfold Faststart_copyMdatData in E. set (w := s_writer (ms_session m)) in *.
  assert (P : forall w1 f, mw_moov w1 = None -> exists s', holds (mk_ms (mk_session w1 (s_tracks (ms_session m))) (ms_heap m) (ms_moov m) (ms_mvhd m) f) s' lost).
  { intros w1 f N1. eexists. exists n. split; [reflexivity|]. split; [exact N1|exact O]. }
  assert (Q : forall q w1, mw_moov w1 = None -> exists s', holds (faulted q (set_writer w1 m)) s' lost).
  { intros q w1 N1. eexists. exists n. split; [reflexivity|]. split; [reflexivity|exact O]. }
  assert (Q0 : forall q, exists s', holds (faulted q m) s' lost).
  { intros q. eexists. exists n. split; [reflexivity|]. split; [reflexivity|exact O]. }
  destruct (mw_tmp_open w); [|injection E as <- <-; contradiction U; reflexivity].
  destruct (copy_loop _ _ _ _) as [o|]; [|injection E as <- <-; contradiction U; reflexivity].
  destruct x as [[k q]|]; cbn [fault_budget option_map fst] in E.
  - destruct k as [|[|k]]; injection E as <- <-; [apply Q0|apply Q; exact E0..].
  - cbn [andb] in E. cbn [set_writer ms_file] in E. destruct (ms_file m); injection E as <- <-; apply P; exact E0.
Qed.
Lemma any_call m s lost c m' r : holds m s lost -> mstep m c = (m', r) -> r <> UB -> exists s' lost', holds m' s' lost' /\ (length lost' <= call_leaks c r + length lost)%nat.
Proof.
  intros Hs E U. destruct c as [o x|ok].
  - assert (D : o = O_CopyMdatData \/ o <> O_CopyMdatData) by (destruct o; ((left; reflexivity) || (right; discriminate))). destruct D as [->|D].
    + destruct (copy_keeps _ _ _ _ _ _ Hs E U) as (s' & Hs'). exists s', lost. split; [exact Hs'|lia].
    + destruct (call_holds _ _ _ _ _ _ _ Hs (fun Z => False_ind _ (D Z)) E) as (_ & K). destruct (K U) as (s' & lost' & Hs' & L & _). exists s', lost'. split; [exact Hs'|exact L].
  - cbn [mstep] in E. destruct (mw_class _); [injection E as <- <-; contradiction U; reflexivity|]. exists s, lost. split; [|lia]. unfold deleteIntermediateFile_m in E.
    destruct Hs as (n & Z & E0 & O). destruct (ok && ms_file m); injection E as <- <-; exists n; (split; [exact Z|split; [exact E0|exact O]]).
Qed.
Fixpoint lost_objects (cs : list call) (rs : list (outcome unit)) : nat :=
  match cs, rs with c :: cs, r :: rs => (call_leaks c r + lost_objects cs rs)%nat | _, _ => 0%nat end.
Lemma any_run cs : forall m s lost m' rs, holds m s lost -> mrun m cs = (m', rs) -> ~ In UB rs ->
  exists s' lost', holds m' s' lost' /\ (length lost' <= lost_objects cs rs + length lost)%nat.
Proof.
  induction cs as [|c cs IH]; intros m s lost m' rs Hs E U; cbn [mrun] in E.
  - injection E as <- <-. exists s, lost. split; [exact Hs|cbn; lia].
  - destruct (mstep m c) as [m1 r] eqn:E1. destruct (mrun m1 cs) as [m2 rs1] eqn:E2. injection E as <- <-.
    destruct (any_call _ _ _ _ _ _ Hs E1) as (s1 & lost1 & H1 & L1); [intros ->; apply U; left; reflexivity|].
    destruct (IH _ _ _ _ _ H1 E2) as (s2 & lost2 & H2 & L2); [intros Z; apply U; right; exact Z|]. exists s2, lost2. split; [exact H2|]. cbn [lost_objects]. lia.
Qed.
Lemma destroy_ok m s lost : holds m s lost -> exists H, Writer_destroy m = Ok H /\ forall x, at_ H x <> None -> In x lost.
Proof.
  intros (n & _ & _ & O). unfold Writer_destroy. destruct O as (F & O). destruct (ms_moov m) as [a|], n as [n|]; try contradiction.
  - destruct O as (fp & mv & _ & R & N & _ & C). destruct (delete_ptr _ _ _ _ R N F) as (H4 & E5 & N5 & D5). exists H4. split; [exact E5|]. intros x X. destruct (D5 x) as (Y & Q).
    destruct (in_dec Nat.eq_dec x fp) as [J|J]; [contradiction (X (Y J))|]. rewrite (Q J) in X. destruct (C x X); [contradiction|assumption].
  - destruct O as (_ & C). eexists. split; [reflexivity|]. intros x X. destruct (C x X) as [[]|I]. exact I.
Qed.
Lemma simple_start timescale duration time ft os : exists m, SimpleWriter_new_m timescale duration time ft os = Ok m /\
  holds m (mk_session (SimpleWriter_new timescale duration time ft os) []) [] /\ mw_tmp_open (s_writer (ms_session m)) = false /\ ms_file m = false /\ mw_class (s_writer (ms_session m)) = Simple.
Proof.
  unfold SimpleWriter_new_m. cbv zeta. set (w := set_moov None _).
  destruct (make_moov_ptr w empty_heap) as (a & mv & H & fp & E & R & N & F & _ & I & _ & M); [intros x _; reflexivity|].
  rewrite E. cbn [obind]. eexists. split; [reflexivity|]. split; [|repeat split]. exists (Some (make_moov w)). split; [reflexivity|]. split; [reflexivity|].
  cbn [ms_heap ms_moov ms_mvhd]. split; [exact F|]. exists fp, mv. split; [reflexivity|]. split; [exact R|]. split; [exact N|]. split; [exact M|].
  intros x X. left. apply I. split; [cbn; lia|]. destruct (at_ H x) eqn:Ex; [exact (in_use _ _ _ F Ex)|congruence].
Qed.
Lemma faststart_start timescale duration time ft os : holds (FaststartWriter_new_m timescale duration time ft os) (mk_session (FaststartWriter_new timescale duration time ft os) []) [].
Proof.
  exists None. split; [reflexivity|]. split; [reflexivity|]. split; [intros x _; reflexivity|]. split; [reflexivity|]. intros x X. contradiction X. reflexivity.
Qed.

(** * The intermediate file *)
Definition copied (c : call) (r : outcome unit) : bool := match c, r with Call O_CopyMdatData _, Ok _ => true | _, _ => false end.
Definition file_step (m m' : mwstate) (c : call) (r : outcome unit) : Prop :=
  mw_class (s_writer (ms_session m')) = mw_class (s_writer (ms_session m)) /\
  (mw_tmp_open (s_writer (ms_session m')) = true -> mw_tmp_open (s_writer (ms_session m)) = true) /\
  match copied c r with
  | true => ms_file m = true /\ ms_file m' = false /\ mw_tmp_open (s_writer (ms_session m')) = false
  | false => ms_file m' = ms_file m
  end.
Lemma file_same m m' c r : copied c r = false -> mw_class (s_writer (ms_session m')) = mw_class (s_writer (ms_session m)) ->
  mw_tmp_open (s_writer (ms_session m')) = mw_tmp_open (s_writer (ms_session m)) -> ms_file m' = ms_file m -> file_step m m' c r.
Proof. intros C A B D. unfold file_step. rewrite C, A, B. auto. Qed.
Lemma actions_file ts key acts : forall t w t' w', track_actions ts key acts t w = Ok (t', w') -> mw_class w' = mw_class w /\ mw_tmp_open w' = mw_tmp_open w.
Proof.
  induction acts as [|[d|p|p] acts IH]; intros t w t' w' E; cbn [track_actions] in E; [injection E as <- <-; auto| |exact (IH _ _ _ _ E)..].
  unfold track_store in E. destruct (Writer_addMdatData d w) as [w1| |] eqn:E1; try discriminate E.
  assert (K : mw_class w1 = mw_class w /\ mw_tmp_open w1 = mw_tmp_open w).
  { unfold Writer_addMdatData in E1. destruct (mw_class w) eqn:Ec; [injection E1 as <-; split; [exact Ec|reflexivity]|]. destruct (mw_tmp_open w) eqn:Eo; [|discriminate E1]. injection E1 as <-. split; [exact Ec|exact (eq_refl true)]. }
  destruct (IH _ _ _ _ E) as (A & B). destruct K as (C & D). split; congruence.
Qed.
Lemma plain_file q o : plain_op o = true -> mw_class (s_writer (fst (step q o))) = mw_class (s_writer q) /\ mw_tmp_open (s_writer (fst (step q o))) = mw_tmp_open (s_writer q).
Proof.
  intros P. destruct o; try discriminate P; cbn [step].
  - destruct (Track_new _ _ _ _ _ _ _); split; reflexivity.
  - split; reflexivity.
  - destruct (nth_error _ _) as [t|]; [|split; reflexivity]. destruct (addData_actions _ _) as [[acts r]|]; [|split; reflexivity].
    destruct (track_actions _ _ _ _ _) as [[t' w']| |] eqn:Ea; [exact (actions_file _ _ _ _ _ _ _ Ea)|split; reflexivity..].
  - unfold on_track. destruct (nth_error _ _) as [t|]; split; reflexivity.
  - unfold on_track. destruct (nth_error _ _) as [t|]; split; reflexivity.
  - unfold on_track. destruct (nth_error _ _) as [t|]; split; reflexivity.
  - unfold lift, Writer_addMdatData. destruct (mw_class (s_writer q)) eqn:Ec; [split; [exact Ec|reflexivity]|]. destruct (mw_tmp_open (s_writer q)) eqn:Eo; cbn; auto.
Qed.
Lemma raised_file m0 m x e m' r c : raised x e m = (m', r) -> mw_class (s_writer (ms_session m)) = mw_class (s_writer (ms_session m0)) ->
  mw_tmp_open (s_writer (ms_session m)) = mw_tmp_open (s_writer (ms_session m0)) -> ms_file m = ms_file m0 -> file_step m0 m' c r.
Proof.
  intros E A B D. unfold raised in E. injection E as <- <-. apply file_same; [destruct c as [[]|]; reflexivity|..]; destruct x as [[k q]|]; assumption.
Qed.
Ltac file_end E U :=
  first [ (injection E as <- <-; first [contradiction U; reflexivity | apply file_same; reflexivity]) | (apply (raised_file _ _ _ _ _ _ _ E); reflexivity) ].
Lemma ftyp_file x m m' r : writeFtypBox_m x m = (m', r) -> r <> UB -> file_step m m' (Call O_WriteFtyp x) r.
Proof.
  intros E U. unfold writeFtypBox_m in E. destruct (new_tree _ _ _) as [[a H]|e|]; [|file_end E U..].
  destruct (adjustOffsetAndSize_m _ _ _) as [[z H1]|e|]; [|file_end E U..]. destruct (BoxInfo_write_m _ _ _ _) as [H2 [[o k]|e|]]; [|file_end E U..].
  destruct (getSize_m _ _) as [s|e|]; [|file_end E U..]. destruct (BoxInfo_delete_m _ _) as [H3|e|]; [|file_end E U..].
  destruct (mw_class _) eqn:Ec; [destruct (tick k)|]; file_end E U.
Qed.
Lemma free_file x m m' r : writeFreeBoxAndMdatHeader_m x m = (m', r) -> r <> UB -> file_step m m' (Call O_WriteFreeAndMdatHeader x) r.
Proof.
  intros E U. unfold writeFreeBoxAndMdatHeader_m in E. destruct (mw_ftyp_size _) as [f|]; [|file_end E U]. destruct (tick _) as [k|]; [|file_end E U].
  destruct (_ >? _); [destruct (tick k); file_end E U|]. destruct (new_tree _ _ _) as [[a H]|e|]; [|file_end E U..].
  destruct (adjustOffsetAndSize_m _ _ _) as [[z H1]|e|]; [|file_end E U..]. destruct (BoxInfo_write_m _ _ _ _) as [H2 [[o k2]|e|]]; [|file_end E U..].
  destruct (tick k2) as [k3|]; [|file_end E U]. destruct (getSize_m _ _) as [s|e|]; [|file_end E U..]. destruct (BoxInfo_delete_m _ _) as [H3|e|]; [|file_end E U..].
  destruct (tick k3); file_end E U.
Qed.
Lemma moov_file x m m' r : writeMoovBox_m x m = (m', r) -> r <> UB -> file_step m m' (Call O_WriteMoov x) r.
Proof.
  intros E U. unfold writeMoovBox_m, write_moov_tree_m in E. destruct (mw_class _) eqn:Ec.
  - destruct (setOffsetAndSize_m _ _ _) as [H|e|]; [|file_end E U..]. destruct (setNextTrackID_m _ _ _) as [H1|e|]; [|file_end E U..]. destruct (ms_moov _) as [a|]; [|file_end E U].
    destruct (BoxInfo_write_m _ _ _ _) as [H2 [[o k]|e|]]; file_end E U.
  - destruct (mw_ftyp_size _) as [f|]; [|file_end E U]. destruct (tick _) as [k|]; [|file_end E U]. destruct (setNextTrackID_m _ _ _) as [H1|e|]; [|file_end E U..].
    destruct (ms_moov _) as [a|]; [|file_end E U]. destruct (BoxInfo_write_m _ _ _ _) as [H2 [[o k2]|e|]]; file_end E U.
Qed.
Lemma loop_file sel fuel : forall m p z m' r, Faststart_loop_m fuel sel m p z = (m', r) ->
  mw_class (s_writer (ms_session m')) = mw_class (s_writer (ms_session m)) /\ mw_tmp_open (s_writer (ms_session m')) = mw_tmp_open (s_writer (ms_session m)) /\ ms_file m' = ms_file m.
Proof.
  induction fuel as [|f IH]; intros m p z m' r E; cbn [Faststart_loop_m] in E; [injection E as <- <-; auto|].
  destruct (Faststart_iter_m sel m p z) as [[[m1 z1] b]|e|] eqn:E1; [|injection E as <- <-; auto..].
  assert (K : s_writer (ms_session m1) = s_writer (ms_session m) /\ ms_file m1 = ms_file m).
  { unfold Faststart_iter_m in E1. destruct (recreateMoovBoxInfo_m m) as [m0| |] eqn:E2; cbn [obind] in E1; try discriminate E1.
    assert (K0 : s_writer (ms_session m0) = s_writer (ms_session m) /\ ms_file m0 = ms_file m).
    { unfold recreateMoovBoxInfo_m in E2. destruct (match ms_moov m with Some a => _ | None => _ end) as [H| |]; cbn [obind] in E2; try discriminate E2.
      destruct (make_moov_m _ _) as [[[a mv] H1]| |]; cbn [obind] in E2; try discriminate E2. destruct (setOffsetAndSize_m _ _ _) as [H2| |]; cbn [obind] in E2; try discriminate E2. injection E2 as <-. auto. }
    destruct (ms_moov m0) as [a|]; [|discriminate E1]. destruct (append_traks_m _ _ _ _ _) as [[ts H]| |]; cbn [obind] in E1; try discriminate E1.
    destruct (new_tree _ _ _) as [[c H1]| |]; cbn [obind] in E1; try discriminate E1. destruct (setOffsetAndSize_m _ _ _) as [H2| |]; cbn [obind] in E1; try discriminate E1.
    destruct (Faststart_size_m _) as [z2| |]; cbn [obind] in E1; try discriminate E1. injection E1 as <- _ _. exact K0. }
  destruct K as (K1 & K2). destruct b; [injection E as <- <-; rewrite K1; auto|]. destruct (negb _); [|injection E as <- <-; rewrite K1; auto].
  destruct (IH _ _ _ _ _ E) as (A & B & C). rewrite A, B, C, K1. auto.
Qed.
Lemma append_file sel x m m' r : (match mw_class (s_writer (ms_session m)) with Simple => Simple_append_m sel m | Faststart => Faststart_append_m sel m end) = (m', r) -> r <> UB ->
  file_step m m' (Call (O_AppendTrakAndUdta sel) x) r.
Proof.
  intros E U. destruct (mw_class _) eqn:Ec.
  - unfold Simple_append_m in E. destruct (ms_moov m) as [a|]; [|file_end E U]. destruct (obind _ _) as [[ts H]|e|]; file_end E U.
  - unfold Faststart_append_m in E. destruct (Faststart_size_m m) as [z|e|]; [|file_end E U..]. destruct (loop_file _ _ _ _ _ _ _ E) as (A & B & C). apply file_same; [reflexivity|assumption..].
Qed.
Lemma header_file x m m' r : writeMdatHeader_m x m = (m', r) -> r <> UB -> file_step m m' (Call O_WriteMdatHeader x) r.
Proof.
  intros E U. unfold writeMdatHeader_m in E. destruct (mw_ftyp_size _) as [f|]; [|file_end E U]. destruct (getMoovSize_m m) as [z|e|]; [|file_end E U..]. destruct x; file_end E U.
Qed.
Lemma copy_file x m m' r : copyMdatData_m x m = (m', r) -> r <> UB -> file_step m m' (Call O_CopyMdatData x) r.
Proof.
  intros E U. unfold copyMdatData_m in E. unfold Faststart_copyMdatData in E. destruct (mw_tmp_open (s_writer (ms_session m))) eqn:Eo; [|file_end E U].
  destruct (copy_loop _ _ _ _) as [o|]; [|file_end E U]. destruct x as [[k q]|]; cbn [fault_budget option_map fst] in E.
  - destruct k as [|[|k]]; [file_end E U|..]; unfold raised in E; injection E as <- <-; (split; [reflexivity|]; split; [intros _; exact Eo|reflexivity]).
  - unfold deleteIntermediateFile_m in E. cbn [andb set_writer ms_file] in E. destruct (ms_file m) eqn:Ef; injection E as <- <-; (split; [reflexivity|]; split; [intros _; exact Eo|]; cbn [copied]); [split; [exact Ef|split; reflexivity]|reflexivity].
Qed.
Lemma call_file m o x m' r : mstep m (Call o x) = (m', r) -> r <> UB -> file_step m m' (Call o x) r.
Proof.
  intros E U. assert (Pl : plain_op o = true -> (mk_ms (fst (step (ms_session m) o)) (ms_heap m) (ms_moov m) (ms_mvhd m) (ms_file m), snd (step (ms_session m) o)) = (m', r) -> file_step m m' (Call o x) r).
  { intros P E'. injection E' as <- <-. destruct (plain_file (ms_session m) o P) as (A & B). apply file_same; [destruct o; try reflexivity; discriminate P|exact A|exact B|reflexivity]. }
  assert (Da : plain_op o = true -> (match snd (step (ms_session m) o), x with UB, _ => (m, UB) | _, Some _ => raised x RuntimeError m
      | r, None => (mk_ms (fst (step (ms_session m) o)) (ms_heap m) (ms_moov m) (ms_mvhd m) (ms_file m), r) end) = (m', r) -> file_step m m' (Call o x) r).
  { intros P E'. destruct (snd (step (ms_session m) o)) as [u|e|] eqn:Es; [| |injection E' as <- <-; contradiction U; reflexivity].
    - destruct x as [[k q]|]; [file_end E' U|]. apply (Pl P). exact E'.
    - destruct x as [[k q]|]; [file_end E' U|]. apply (Pl P). exact E'. }
  cbn [mstep] in E. destruct o; try exact (Pl eq_refl E).
  - refine (Da eq_refl _). exact E.
  - refine (Da eq_refl _). exact E.
  - exact (ftyp_file _ _ _ _ E U).
  - exact (append_file _ _ _ _ _ E U).
  - exact (free_file _ _ _ _ E U).
  - exact (header_file _ _ _ _ E U).
  - exact (moov_file _ _ _ _ E U).
  - exact (copy_file _ _ _ _ E U).
Qed.
Definition open_there (m : mwstate) : Prop := mw_tmp_open (s_writer (ms_session m)) = true -> ms_file m = true.
Lemma open_step m m' c r : file_step m m' c r -> open_there m -> open_there m'.
Proof.
  intros (_ & A & B) O Z. destruct (copied c r); [destruct B as (_ & _ & B); congruence|]. rewrite B. exact (O (A Z)).
Qed.
Definition removes (c : call) : Prop := match c with DeleteIntermediateFile _ | Call O_CopyMdatData _ => True | _ => False end.
Definition removed_by (cs : list call) (rs : list (outcome unit)) (i : nat) : Prop := exists c, nth_error cs i = Some c /\ removes c /\ nth_error rs i = Some (Ok tt).
Lemma removed_cons c cs r rs i : removed_by (c :: cs) (r :: rs) (S i) <-> removed_by cs rs i.
Proof. split; intros (d & A & B & C); exists d; auto. Qed.
Lemma removed_zero c cs r rs : removed_by (c :: cs) (r :: rs) 0 <-> removes c /\ r = Ok tt.
Proof. split; [intros (d & A & B & C); injection A as <-; injection C as ->; auto|]. intros (A & ->). exists c. auto. Qed.
(** fclose was called: copyMdatData returned, or what failed is fclose itself (1) or what comes after it (more) *)
Definition fclosed (x : fault) (r : outcome unit) : Prop := r = Ok tt \/ exists k s, x = Some (S k, s).
Lemma copy_closed m k s m' r : mstep m (Call O_CopyMdatData (Some (S k, s))) = (m', r) -> r <> UB -> mw_tmp_open (s_writer (ms_session m')) = false.
Proof.
  cbn [mstep]. unfold copyMdatData_m, Faststart_copyMdatData. destruct (mw_tmp_open _); [|intros E U; injection E as <- <-; contradiction U; reflexivity].
  destruct (copy_loop _ _ _ _); [|intros E U; injection E as <- <-; contradiction U; reflexivity]. cbn [fault_budget option_map fst]. destruct k; intros E _; injection E as <- <-; reflexivity.
Qed.
Lemma file_call m c m' r : mstep m c = (m', r) -> r <> UB ->
  (mw_tmp_open (s_writer (ms_session m')) = true -> mw_tmp_open (s_writer (ms_session m)) = true) /\
  (removes c /\ r = Ok tt -> ms_file m = true /\ ms_file m' = false) /\ (~ (removes c /\ r = Ok tt) -> ms_file m' = ms_file m) /\
  (forall x, c = Call O_CopyMdatData x -> fclosed x r -> mw_tmp_open (s_writer (ms_session m')) = false).
Proof.
  intros E U. assert (Cl : forall x, c = Call O_CopyMdatData x -> fclosed x r -> r <> Ok tt -> mw_tmp_open (s_writer (ms_session m')) = false).
  { intros x -> [Z|(k & s & ->)] N; [contradiction|]. exact (copy_closed _ _ _ _ _ E U). }
  destruct c as [o x|ok].
  - destruct (call_file _ _ _ _ _ E U) as (_ & A & B). split; [exact A|]. destruct (copied (Call o x) r) eqn:Ec.
    + destruct B as (B1 & B2 & B3). split; [auto|]. split; [|intros; exact B3]. intros N. exfalso. apply N. destruct o; try discriminate Ec. destruct r as [[]| |]; try discriminate Ec. split; [exact I|reflexivity].
    + split; [|split; [auto|]].
      * intros (P & ->). destruct o; try contradiction P. discriminate Ec.
      * intros y Z F. apply (Cl y Z F). intros ->. injection Z as -> _. discriminate Ec.
  - cbn [mstep] in E. destruct (mw_class _); [injection E as <- <-; contradiction U; reflexivity|]. unfold deleteIntermediateFile_m in E. destruct ok, (ms_file m) eqn:Ef; injection E as <- <-; cbn [ms_session ms_file].
    + split; [auto|]. split; [auto|]. split; [|discriminate]. intros N. exfalso. apply N. split; [exact I|reflexivity].
    + split; [auto|]. split; [intros (_ & Z); discriminate Z|]. split; [auto|discriminate].
    + split; [auto|]. split; [intros (_ & Z); discriminate Z|]. split; [auto|discriminate].
    + split; [auto|]. split; [intros (_ & Z); discriminate Z|]. split; [auto|discriminate].
Qed.
Lemma file_run cs : forall m m' rs, mrun m cs = (m', rs) -> ~ In UB rs ->
  (mw_tmp_open (s_writer (ms_session m')) = true -> mw_tmp_open (s_writer (ms_session m)) = true) /\
  (ms_file m' = false <-> ms_file m = false \/ exists i, removed_by cs rs i) /\ (ms_file m = false -> forall i, ~ removed_by cs rs i) /\
  (forall i j, removed_by cs rs i -> removed_by cs rs j -> i = j) /\
  (forall i x r, nth_error cs i = Some (Call O_CopyMdatData x) -> nth_error rs i = Some r -> fclosed x r -> mw_tmp_open (s_writer (ms_session m')) = false).
Proof.
  induction cs as [|c cs IH]; intros m m' rs E U; cbn [mrun] in E.
  - injection E as <- <-. assert (N : forall i, ~ removed_by [] [] i) by (intros [|i] (d & Z & _); discriminate Z).
    split; [auto|]. split; [split; [auto|intros [Z|(i & Z)]; [exact Z|contradiction (N i Z)]]|]. split; [auto|]. split; [intros i j Z; contradiction (N i Z)|]. intros [|i] x r Z; discriminate Z.
  - destruct (mstep m c) as [m1 r] eqn:E1. destruct (mrun m1 _) as [m2 rs1] eqn:E2. injection E as <- <-.
    destruct (file_call _ _ _ _ E1) as (A1 & A2 & A3 & A4); [intros ->; apply U; left; reflexivity|].
    destruct (IH m1 m2 rs1 E2) as (B1 & B2 & B3 & B4 & B5); [intros Z; apply U; right; exact Z|].
    assert (D : (removes c /\ r = Ok tt) \/ ~ (removes c /\ r = Ok tt)).
    { destruct r as [[]|e|]; [|right; intros (_ & Z); discriminate Z..]. destruct c as [[]|]; try (left; split; [exact I|reflexivity]); right; intros (Z & _); exact Z. }
    assert (First : forall i x r0, nth_error (c :: cs) i = Some (Call O_CopyMdatData x) -> nth_error (r :: rs1) i = Some r0 -> fclosed x r0 -> mw_tmp_open (s_writer (ms_session m2)) = false).
    { intros [|i] x r0 Zc Zr Zf; [|exact (B5 _ _ _ Zc Zr Zf)]. cbn in Zc, Zr. injection Zc as Zc. injection Zr as <-. destruct (mw_tmp_open (s_writer (ms_session m2))) eqn:Eo; [|reflexivity].
      rewrite (A4 x Zc Zf) in B1. discriminate (B1 eq_refl). }
    split; [auto|]. destruct D as [D|D].
    + destruct (A2 D) as (F & F1). split; [|split; [|split]].
      * rewrite B2, F. split; [|auto]. intros _. right. exists 0%nat. apply removed_zero. exact D.
      * rewrite F. discriminate.
      * intros [|i] [|j] Zi Zj; [reflexivity|rewrite removed_cons in Zj; contradiction (B3 F1 _ Zj)|rewrite removed_cons in Zi; contradiction (B3 F1 _ Zi)..].
      * exact First.
    + split; [|split; [|split]].
      * rewrite B2, (A3 D). split; (intros [Z|(i & Z)]; [left; exact Z|]); right; [exists (S i); rewrite removed_cons; exact Z|]. destruct i as [|i]; [rewrite removed_zero in Z; contradiction|]. exists i. rewrite removed_cons in Z. exact Z.
      * intros F i Z. rewrite <- (A3 D) in F. destruct i as [|i]; [rewrite removed_zero in Z; contradiction|]. rewrite removed_cons in Z. exact (B3 F i Z).
      * intros [|i] [|j] Zi Zj; [reflexivity|rewrite removed_zero in Zi; contradiction|rewrite removed_zero in Zj; contradiction|]. f_equal. rewrite removed_cons in Zi. rewrite removed_cons in Zj. exact (B4 _ _ Zi Zj).
      * exact First.
Qed.

(** * No faults: the model without pointers *)
Definition no_fault (ops : list op) : list call := map (fun o => Call o None) ops.
Lemma clean_leaks o r : clean o r -> leaks o r = 0%nat.
Proof. intros [->|(_ & K)]; destruct o; try reflexivity; try contradiction K. Qed.
Lemma refine_run ops : forall m s s' rs, run s ops = (s', rs) -> Forall2 clean ops rs -> holds m s [] -> open_there m ->
  exists m', mrun m (no_fault ops) = (m', rs) /\ holds m' s' [].
Proof.
  induction ops as [|o ops IH]; intros m s s' rs E C Hs O; cbn [run] in E.
  - injection E as <- <-. exists m. split; [reflexivity|exact Hs].
  - destruct (step s o) as [s1 r] eqn:E1. destruct (run s1 ops) as [s2 rs1] eqn:E2. injection E as <- <-. inversion C as [|? ? ? ? C1 C2]; subst.
    destruct (mstep m (Call o None)) as [m1 r1] eqn:E3. destruct (call_holds _ _ _ _ _ _ _ Hs (fun _ _ => O) E3) as (A & B). rewrite E1 in A. cbn [snd] in A. specialize (A eq_refl). subst r1.
    assert (U : r <> UB) by (destruct C1 as [->|(K & _)]; [discriminate|exact K]). destruct (B U) as (q & l & Hq & L & S). rewrite E1 in S. cbn [fst] in S. specialize (S eq_refl C1). subst q.
    rewrite (clean_leaks _ _ C1) in L. destruct l as [|? ?]; [|cbn in L; lia].
    destruct (IH m1 s1 s2 rs1 E2 C2 Hq (open_step _ _ _ _ (call_file _ _ _ _ _ E3 U) O)) as (m' & E4 & H4). exists m'. cbn [no_fault map mrun]. rewrite E3. unfold no_fault in E4. rewrite E4. split; [reflexivity|exact H4].
Qed.
Lemma holds_load m s lost : holds m s lost -> ms_session m = no_moov s /\ match ms_moov m with Some a => load_tree (S (next (ms_heap m))) (ms_heap m) a = mw_moov (s_writer s) | None => mw_moov (s_writer s) = None end.
Proof.
  intros (n & -> & E & F & O). split.
  - destruct (ms_session m) as [[] ?]. cbn in E. subst. reflexivity.
  - cbn [with_moov s_writer set_moov mw_moov]. destruct (ms_moov m) as [a|], n as [n|]; try contradiction; [|reflexivity]. destruct O as (fp & mv & _ & R & N & _). apply (proj1 (repn_load _)) with fp; [exact R|].
    pose proof (range_len fp (next (ms_heap m)) N (below _ _ _ _ F R)). lia.
Qed.
Lemma all_gone m s H : holds m s [] -> Writer_destroy m = Ok H -> forall x, at_ H x = None.
Proof. intros Hs E x. destruct (destroy_ok _ _ _ Hs) as (H1 & E1 & K). rewrite E in E1. injection E1 as <-. destruct (at_ H x) eqn:Ex; [|reflexivity]. destruct (K x); congruence. Qed.
