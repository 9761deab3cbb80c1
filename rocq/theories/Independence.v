(** A track depends only on its own calls (C68). *)
From Coq Require Import ZifyBool.
From Verif Require Import Base BitIO BitFacts BitIOProofs Boxes WireFormat Box BoxSpec BoxSize Print PrintSpec PrintProofs BoxTree TreeSpec TreeProofs TreeLayout H264 Track Writers MovieSpec AnnexBSpec H264Proofs TrackProofs TrakProofs SessionProofs MovieShape Completion MovieSize FileProofs SimpleFile FaststartFile FileLemmas CompareSpec Compare IndependenceSpec.
From Coq Require Import String List.
Import ListNotations.
Open Scope Z_scope.
Open Scope list_scope.

(** A track without the places of its chunks ([ends]) or without its chunks. *)
Definition unplaced (c : chunk) : chunk := mk_chunk 0 (c_samples c) (c_initialized c).
Definition norm (ends : bool) (t : track) : track :=
  mk_track (t_timescale t) (t_duration_ts t) (t_duration_mvhd t) (t_time t) (t_media_time t) (t_id t) (t_codec t) (t_finalized t) (t_sizes t)
    (if ends then map unplaced (t_chunks t) else []) (if ends then unplaced (t_current t) else chunk0) (t_prev t) (t_durations t) (t_keys t).
Ltac fields := cbn [t_timescale t_duration_ts t_duration_mvhd t_time t_media_time t_id t_codec t_finalized t_sizes t_chunks t_current t_prev t_durations t_keys].
Lemma unplaced_twice c : unplaced (unplaced c) = unplaced c. Proof. reflexivity. Qed.
Lemma norm_terminate t : norm true (Track_terminateCurrentChunk t) = norm true (Track_terminateCurrentChunk (norm true t)).
Proof.
  destruct t as [a1 a2 a3 a4 a5 a6 a7 a8 a9 ch cur a12 a13 a14]. unfold Track_terminateCurrentChunk, norm. fields. cbn [unplaced c_samples].
  destruct (c_samples cur >? 0); fields; rewrite ?map_app, map_map; reflexivity.
Qed.
Lemma norm_terminate_false t : norm false (Track_terminateCurrentChunk t) = norm false t.
Proof. unfold Track_terminateCurrentChunk. destruct (_ >? _); reflexivity. Qed.
Lemma norm_finalize e t : norm e (Track_finalize t) = norm e (Track_finalize (norm e t)).
Proof.
  destruct t as [a1 a2 a3 a4 a5 a6 a7 fin a9 ch cur a12 a13 a14]. unfold Track_finalize, norm. fields. destruct fin; destruct e; fields; try reflexivity.
  - rewrite map_map. reflexivity.
  - cbn [unplaced c_samples]. destruct (c_samples cur >? 0); rewrite ?map_app, map_map; reflexivity.
Qed.
Lemma norm_add e tell tell' ts d k t : norm e (Track_addMdatData tell ts d k t) = norm e (Track_addMdatData tell' ts d k (norm e t)).
Proof.
  destruct t as [a1 a2 a3 a4 a5 a6 a7 a8 a9 ch cur a12 a13 a14]. unfold Track_addMdatData, norm. fields. destruct e; fields; [|reflexivity].
  rewrite map_map. destruct cur as [o n [|]]; cbn [unplaced c_initialized negb c_offset c_samples]; reflexivity.
Qed.
Lemma norm_media e v t : norm e (Track_setMediaTime v t) = norm e (Track_setMediaTime v (norm e t)).
Proof. destruct t as [a1 a2 a3 a4 a5 a6 a7 a8 a9 ch cur a12 a13 a14]. unfold Track_setMediaTime, norm. fields. destruct e; rewrite ?map_map; reflexivity. Qed.
Lemma norm_codec e c t : norm e (Track_set_codec c t) = norm e (Track_set_codec c (norm e t)).
Proof. destruct t as [a1 a2 a3 a4 a5 a6 a7 a8 a9 ch cur a12 a13 a14]. unfold Track_set_codec, norm. fields. destruct e; rewrite ?map_map; reflexivity. Qed.
Lemma norm_twice e t : norm e (norm e t) = norm e t.
Proof. destruct t as [a1 a2 a3 a4 a5 a6 a7 a8 a9 ch cur a12 a13 a14]. unfold norm. fields. destruct e; rewrite ?map_map; reflexivity. Qed.
Lemma norm_sps e p t : norm e (H264_appendSPS p t) = norm e (H264_appendSPS p (norm e t)).
Proof. unfold H264_appendSPS. change (t_codec (norm e t)) with (t_codec t). destruct (t_codec t); try (symmetry; apply norm_twice). cbv zeta. destruct (_ && _)%bool; apply norm_codec. Qed.
Lemma norm_pps e p t : norm e (H264_appendPPS p t) = norm e (H264_appendPPS p (norm e t)).
Proof. unfold H264_appendPPS. change (t_codec (norm e t)) with (t_codec t). destruct (t_codec t); try (symmetry; apply norm_twice). apply norm_codec. Qed.

(** * Replaying the calls on one track *)
Fixpoint act (ts : Z) (key : bool) (acts : list nal_action) (t : track) : track :=
  match acts with
  | [] => t
  | StoreSample d :: l => act ts key l (Track_addMdatData 0 ts d key t)
  | AppendSPS p :: l => act ts key l (H264_appendSPS p t)
  | AppendPPS p :: l => act ts key l (H264_appendPPS p t)
  end.
Definition replay1 (t : track) (o : op) : track :=
  match o with
  | O_AddData _ ts data key => match addData_actions (t_codec t) data with Some (acts, _) => act ts key acts t | None => t end
  | O_SetMediaTime _ v => Track_setMediaTime v t
  | O_Terminate _ => Track_terminateCurrentChunk t
  | _ => t
  end.
Lemma norm_act e ts key : forall acts t t', norm e t = norm e t' -> norm e (act ts key acts t) = norm e (act ts key acts t').
Proof.
  induction acts as [|[d|p|p] acts IH]; intros t t' E; cbn [act]; [exact E| | |]; apply IH.
  - rewrite (norm_add e 0 0 ts d key t), (norm_add e 0 0 ts d key t'), E. reflexivity.
  - rewrite (norm_sps e p t), (norm_sps e p t'), E. reflexivity.
  - rewrite (norm_pps e p t), (norm_pps e p t'), E. reflexivity.
Qed.
Lemma norm_track_codec e t t' : norm e t = norm e t' -> t_codec t = t_codec t'.
Proof. intros E. change (t_codec (norm e t) = t_codec (norm e t')). rewrite E. reflexivity. Qed.
Lemma norm_replay1 e t t' o : (e = false -> match o with O_Terminate _ => False | _ => True end) -> norm e t = norm e t' -> norm e (replay1 t o) = norm e (replay1 t' o).
Proof.
  intros N E. destruct o; cbn [replay1]; try exact E.
  - rewrite <- (norm_track_codec e t t' E). destruct (addData_actions (t_codec t) data) as [[acts r]|]; [apply norm_act; exact E|exact E].
  - destruct e; [|destruct (N eq_refl)]. rewrite (norm_terminate t), (norm_terminate t'), E. reflexivity.
  - rewrite (norm_media e v t), (norm_media e v t'), E. reflexivity.
Qed.
(** what the model of a session does to the track of a call *)
Lemma actions_replay e ts key : forall acts t w t1 w1, track_actions ts key acts t w = Ok (t1, w1) -> norm e t1 = norm e (act ts key acts t).
Proof.
  induction acts as [|[d|p|p] acts IH]; intros t w t1 w1 E; cbn [track_actions act] in *.
  - injection E as <- <-. reflexivity.
  - unfold track_store in E. destruct (Writer_addMdatData d w) as [w'| |]; try discriminate. rewrite (IH _ _ _ _ E). apply norm_act.
    rewrite (norm_add e 0 0 ts d key t). apply norm_add.
  - exact (IH _ _ _ _ E).
  - exact (IH _ _ _ _ E).
Qed.

Lemma nth_update {A} (x : A) : forall l i j, nth_error (update_nth i x l) j = if (Nat.eqb i j && (i <? length l)%nat)%bool then Some x else nth_error l j.
Proof.
  induction l as [|y l IH]; intros [|i] [|j]; cbn [update_nth nth_error Nat.eqb andb length]; try reflexivity.
  - rewrite Bool.andb_false_r. reflexivity.
  - rewrite IH. reflexivity.
Qed.
Definition no_ub (r : outcome unit) : Prop := r <> UB.
Definition new_of (time : Z) (o : option op) (t : track) : Prop :=
  match o with Some (O_NewTrack c timescale dts dmv media_time id) => Track_new c timescale dts dmv time media_time id = Ok t | _ => False end.
(** the invariant: every track is the replay of its own calls *)
Definition replayed (e : bool) (time : Z) (ops : list op) (s : session) : Prop :=
  mw_time (s_writer s) = time /\ length (s_tracks s) = length (created ops) /\ (forall i, (length (created ops) <= i)%nat -> flat_map (on e i) ops = []) /\
  forall i t, nth_error (s_tracks s) i = Some t -> exists t0, new_of time (fst (own_calls e i ops)) t0 /\ norm e t = norm e (fold_left replay1 (snd (own_calls e i ops)) t0).
Lemma add_time d w : match Writer_addMdatData d w with Ok w' => mw_time w' = mw_time w | Throw _ => False | UB => True end.
Proof. unfold Writer_addMdatData. destruct (mw_class w); [reflexivity|]. destruct (mw_tmp_open w); [reflexivity|exact I]. Qed.
Lemma actions_time ts key : forall acts t w, match track_actions ts key acts t w with Ok (_, w') => mw_time w' = mw_time w | Throw _ => False | UB => True end.
Proof.
  induction acts as [|[d|p|p] acts IH]; intros t w; cbn [track_actions]; try apply IH; [reflexivity|].
  unfold track_store. pose proof (add_time d w) as A. destruct (Writer_addMdatData d w) as [w'| |]; try exact A. rewrite <- A. apply IH.
Qed.
Lemma step_replayed e time ops s o : replayed e time ops s -> media_op o = true -> snd (step s o) <> UB ->
  (forall i, about i o -> (i < length (created ops))%nat) -> replayed e time (ops ++ [o]) (fst (step s o)).
Proof.
  intros (Et & El & Hn & H) Mo U K.
  assert (Same : forall w, mw_time w = time -> created (ops ++ [o]) = created ops -> (forall i, on e i o = []) -> replayed e time (ops ++ [o]) (mk_session w (s_tracks s))).
  { intros w Ew Ec En. split; [exact Ew|]. cbn [s_tracks]. rewrite Ec. split; [exact El|]. split; [intros i Li; rewrite flat_map_app, (Hn i Li); cbn [flat_map app]; rewrite En; reflexivity|]. intros i t E. destruct (H i t E) as (t0 & A & B). exists t0.
    unfold own_calls in *. cbn [fst snd] in *. rewrite Ec, flat_map_app. cbn [flat_map]. rewrite En, !app_nil_r. auto. }
  assert (One : forall i f w, mw_time w = time -> nth_error (s_tracks s) i = Some f \/ True -> created (ops ++ [o]) = created ops -> (forall j, j <> i -> on e j o = []) ->
     forall t, nth_error (s_tracks s) i = Some t -> norm e f = norm e (fold_left replay1 (on e i o) t) -> replayed e time (ops ++ [o]) (mk_session w (update_nth i f (s_tracks s)))).
  { intros i f w Ew _ Ec En t Ht Hf. split; [exact Ew|]. cbn [s_tracks]. rewrite Ec. split; [rewrite <- El; clear; revert i; induction (s_tracks s) as [|y l IH]; intros [|i]; cbn [update_nth length]; auto|].
    split; [intros j Lj; rewrite flat_map_app, (Hn j Lj); cbn [flat_map app]; rewrite En; [reflexivity|]; intros ->; apply nth_error_None in Lj as Lj'; assert (i < length (s_tracks s))%nat by (apply nth_error_Some; congruence); lia|].
    intros j t' E. rewrite nth_update in E. unfold own_calls. cbn [fst snd]. rewrite Ec, flat_map_app. cbn [flat_map]. rewrite app_nil_r.
    destruct (Nat.eqb_spec i j) as [<-|Nj].
    - assert (L : (i < length (s_tracks s))%nat) by (apply nth_error_Some; congruence). replace (i <? length (s_tracks s))%nat with true in E by (symmetry; apply Nat.ltb_lt; exact L).
      cbn [andb] in E. injection E as <-. destruct (H i t Ht) as (t0 & A & B). exists t0. split; [exact A|]. rewrite fold_left_app, Hf.
      assert (Q : forall l a b, (e = false -> Forall (fun x => match x with O_Terminate _ => False | _ => True end) l) -> norm e a = norm e b -> norm e (fold_left replay1 l a) = norm e (fold_left replay1 l b)).
      { clear. induction l as [|x l IH]; intros a b N E; [exact E|]. cbn [fold_left]. apply IH; [intros Z; specialize (N Z); inversion N; assumption|]. apply norm_replay1; [|exact E]. intros Z. specialize (N Z). inversion N; assumption. }
      apply Q; [|exact B]. intros ->. clear. destruct o; cbn [on]; try constructor; rewrite ?Bool.andb_false_r; try constructor; destruct (Nat.eqb _ _); repeat constructor.
    - cbn [andb] in E. destruct (H j t' E) as (t0 & A & B). exists t0. split; [exact A|]. rewrite En by congruence. rewrite app_nil_r. exact B. }
  destruct o; try discriminate; cbn [step] in *.
  - unfold Track_new in *. rewrite Et in *. destruct (id =? 0) eqn:Ei; cbn [fst snd] in *.
    + assert (Ec : created (ops ++ [O_NewTrack c timescale duration_ts duration_mvhd media_time id]) = created ops) by (rewrite created_snoc; cbn [created filter]; rewrite Ei; apply app_nil_r).
      destruct s as [w l]. apply Same; auto.
    + assert (Ec : created (ops ++ [O_NewTrack c timescale duration_ts duration_mvhd media_time id]) = created ops ++ [O_NewTrack c timescale duration_ts duration_mvhd media_time id]) by (rewrite created_snoc; cbn [created filter]; rewrite Ei; reflexivity).
      split; [exact Et|]. cbn [s_tracks]. rewrite Ec, !app_length, El. split; [reflexivity|]. split; [intros i Li; rewrite flat_map_app, Hn by lia; reflexivity|]. intros i t E. unfold own_calls. cbn [fst snd]. rewrite flat_map_app. cbn [flat_map on]. rewrite !app_nil_r, Ec.
      destruct (Nat.lt_ge_cases i (length (s_tracks s))) as [L|L].
      * rewrite nth_error_app1 in E by exact L. destruct (H i t E) as (t0 & A & B). exists t0. rewrite nth_error_app1 by lia. auto.
      * rewrite nth_error_app2 in E by exact L. destruct (i - length (s_tracks s))%nat eqn:D; [|destruct n; discriminate]. cbn [nth_error] in E. injection E as <-.
        rewrite nth_error_app2 by lia. replace (i - length (created ops))%nat with 0%nat by lia. cbn [nth_error]. eexists. split; [unfold new_of, Track_new; rewrite Ei; reflexivity|].
        rewrite Hn by lia. reflexivity.
  - cbn [fst]. apply Same; auto. rewrite created_snoc. apply app_nil_r.
  - destruct (nth_error (s_tracks s) i) as [t|] eqn:E; [|cbn [snd] in U; congruence]. destruct (addData_actions (t_codec t) data) as [[acts r]|] eqn:Ea; [|cbn [snd] in U; congruence].
    destruct (track_actions timestamp is_key acts t (s_writer s)) as [[t1 w1]|x|] eqn:Eq; pose proof (actions_time timestamp is_key acts t (s_writer s)) as At; rewrite Eq in At; cbn [fst snd] in *; [|contradiction|congruence].
    apply (One i t1 w1) with (t := t); auto.
    + congruence.
    + rewrite created_snoc. apply app_nil_r.
    + intros j Nj. cbn [on]. destruct (Nat.eqb_spec j i); congruence.
    + cbn [on]. rewrite Nat.eqb_refl. cbn [fold_left replay1]. rewrite Ea. eapply actions_replay. exact Eq.
  - unfold on_track in *. destruct (nth_error (s_tracks s) i) as [t|] eqn:E; [|cbn [snd] in U; congruence]. cbn [fst snd] in *. apply (One i _ _) with (t := t); auto.
    + rewrite created_snoc. apply app_nil_r.
    + intros j Nj. cbn [on]. destruct (Nat.eqb_spec j i); [congruence|reflexivity].
    + cbn [on]. rewrite Nat.eqb_refl. cbn [andb]. destruct e; [reflexivity|]. apply norm_terminate_false.
  - unfold on_track in *. destruct (nth_error (s_tracks s) i) as [t|] eqn:E; [|cbn [snd] in U; congruence]. cbn [fst snd] in *. apply (One i _ _) with (t := t); auto.
    + rewrite created_snoc. apply app_nil_r.
    + intros j Nj. cbn [on]. destruct (Nat.eqb_spec j i); [congruence|reflexivity].
    + cbn [on]. rewrite Nat.eqb_refl. reflexivity.
  - pose proof (add_time data (s_writer s)) as At. destruct (Writer_addMdatData data (s_writer s)) as [w'|x|]; cbn [lift fst snd] in *; [|contradiction|congruence].
    apply Same; auto; [congruence|]. rewrite created_snoc. apply app_nil_r.
Qed.
Lemma run_replayed e time s : s_tracks s = [] -> mw_time (s_writer s) = time -> forall ops, forallb media_op ops = true -> known_tracks ops -> Forall (fun r => r <> UB) (snd (run s ops)) ->
  replayed e time ops (fst (run s ops)).
Proof.
  intros E0 T0. induction ops as [|o ops IH] using rev_ind; intros M K U.
  { cbn [run fst]. split; [exact T0|]. rewrite E0. split; [reflexivity|]. split; [reflexivity|]. intros [|i] t E; discriminate E. }
  rewrite forallb_app in M. apply andb_prop in M. destruct M as [M1 M2]. cbn [forallb] in M2. rewrite Bool.andb_true_r in M2.
  assert (K' : known_tracks ops) by (intros pre x post i E; apply (K pre x (post ++ [o]) i); rewrite E, <- app_assoc; reflexivity).
  rewrite run_app in U |- *. cbn [fst snd run] in *. destruct (step (fst (run s ops)) o) as [s1 r1] eqn:Es. cbn [fst snd] in *. apply Forall_app in U as [U1 U2]. inversion U2 as [|? ? U3 _]; subst.
  specialize (IH M1 K' U1). change s1 with (fst (s1, r1)). rewrite <- Es. apply step_replayed; auto; [rewrite Es; exact U3|].
  intros i A. apply (K ops o [] i eq_refl). destruct o; cbn in A; auto.
Qed.

(** * The trak boxes *)
Ltac same_all' := first [assumption|apply same; repeat (first [apply Forall2_nil|apply Forall2_cons]); same_all'].
Lemma norm_trak e t t' : norm e t = norm e t' -> same_except (but_chunks e) (tree_of (make_trak t)) (tree_of (make_trak t')).
Proof.
  intros E.
  assert (Off : same_except (but_chunks e) (tree_of (make_offset_box (t_chunks t))) (tree_of (make_offset_box (t_chunks t')))).
  { apply excepted. destruct e; cbn [but_chunks].
    - exists (offsets_of t), (offsets_of t'). split; [apply offsets_box; reflexivity|]. split; [apply offsets_box; reflexivity|].
      assert (L : length (t_chunks t) = length (t_chunks t')).
      { transitivity (length (t_chunks (norm true t))); [cbn [norm t_chunks]; rewrite map_length; reflexivity|]. rewrite E. cbn [norm t_chunks]. apply map_length. }
      unfold offsets_of. destruct (use_co64 (t_chunks t)), (use_co64 (t_chunks t')); rewrite !map_length; exact L.
    - left. exists (offsets_of t), (offsets_of t'). split; apply offsets_box; reflexivity. }
  assert (Sc : same_except (but_chunks e) (tree_of (make_stsc t)) (tree_of (make_stsc t'))).
  { destruct e; cbn [but_chunks].
    - replace (make_stsc t') with (make_stsc t); [apply same; constructor|]. unfold make_stsc. do 3 f_equal. apply stsc_samples.
      transitivity (map c_samples (t_chunks (norm true t))); [cbn [norm t_chunks]; rewrite map_map; reflexivity|]. rewrite E. cbn [norm t_chunks]. rewrite map_map. reflexivity.
    - apply excepted. right. exists (make_stsc_entries (t_chunks t)), (make_stsc_entries (t_chunks t')). split; reflexivity. }
  assert (Fd : forall A (f : track -> A), f (norm e t) = f (norm e t')) by (intros; rewrite E; reflexivity).
  pose proof (Fd _ t_timescale) as F1. pose proof (Fd _ t_duration_ts) as F2. pose proof (Fd _ t_duration_mvhd) as F3. pose proof (Fd _ t_time) as F4. pose proof (Fd _ t_media_time) as F5.
  pose proof (Fd _ t_id) as F6. pose proof (Fd _ t_codec) as F7. pose proof (Fd _ t_sizes) as F8. pose proof (Fd _ t_durations) as F9. pose proof (Fd _ t_keys) as F10. clear Fd E.
  cbn [norm t_timescale t_duration_ts t_duration_mvhd t_time t_media_time t_id t_codec t_finalized t_sizes t_chunks t_current t_prev t_durations t_keys] in *.
  assert (G1 : make_tkhd t = make_tkhd t') by (unfold make_tkhd; rewrite F3, F4, F6, F7; reflexivity).
  assert (G2 : make_edts t = make_edts t') by (unfold make_edts; rewrite F3, F5; reflexivity).
  assert (G3 : make_mdhd t = make_mdhd t') by (unfold make_mdhd; rewrite F1, F2, F4; reflexivity).
  assert (G4 : make_stsd t = make_stsd t') by (unfold make_stsd, make_sample_entry; rewrite F1, F6, F7; reflexivity).
  assert (G5 : make_stts t = make_stts t') by (unfold make_stts; rewrite F9; reflexivity).
  assert (G6 : make_stss t = make_stss t') by (unfold make_stss; rewrite F10; reflexivity).
  assert (G7 : make_stsz t = make_stsz t') by (unfold make_stsz; rewrite F8; reflexivity).
  assert (G8 : make_sbgp t = make_sbgp t') by (unfold make_sbgp; rewrite F8; reflexivity).
  unfold make_trak, make_stbl. rewrite F7, G1, G2, G3, G4, G5, G6, G7, G8. clear - Off Sc.
  revert Off Sc. generalize (make_offset_box (t_chunks t)) (make_offset_box (t_chunks t')) (make_stsc t) (make_stsc t'). intros o1 o2 s1 s2 Off Sc.
  assert (Refl : forall n, same_except (but_chunks e) (tree_of n) (tree_of n)).
  { induction n as [ty h b l IH] using node_ind'. cbn [tree_of]. apply same. induction IH; constructor; auto. }
  assert (Cat : forall a a' b b', Forall2 (fun x y => same_except (but_chunks e) (tree_of x) (tree_of y)) a a' -> Forall2 (fun x y => same_except (but_chunks e) (tree_of x) (tree_of y)) b b' -> Forall2 (fun x y => same_except (but_chunks e) (tree_of x) (tree_of y)) (a ++ b) (a' ++ b')) by (intros; apply Forall2_app; assumption).
  assert (New : forall ty bx l l', Forall2 (fun x y => same_except (but_chunks e) (tree_of x) (tree_of y)) l l' -> same_except (but_chunks e) (tree_of (new_info ty bx l)) (tree_of (new_info ty bx l'))).
  { intros ty bx l l' H. unfold new_info. cbn [tree_of]. apply same. induction H; constructor; auto. }
  apply New. repeat (first [apply Forall2_nil|apply Forall2_cons]); auto. apply New. repeat (first [apply Forall2_nil|apply Forall2_cons]); auto. apply New. repeat (first [apply Forall2_nil|apply Forall2_cons]); auto.
  apply New. destruct (t_codec t'); repeat (first [apply Forall2_nil|apply Forall2_cons]); auto.
Qed.

(** * Sessions *)
Lemma F_norm e S t : norm e (F S t) = norm e (Track_finalize t).
Proof.
  unfold F, Track_resetChunkOffsets. cbv zeta. destruct (Track_finalize t) as [a1 a2 a3 a4 a5 a6 a7 a8 a9 ch cur a12 a13 a14]. unfold norm. fields. destruct e; [rewrite map_map|]; reflexivity.
Qed.
Definition boxes_of (cls : wclass) (timescale duration time : Z) (ft : ftyp) (ops : list op) (traks : list tree) : list tree :=
  match cls with
  | Simple => [ftyp_tree ft] ++ free_trees (media ops) ++ [mdat_tree (media ops)] ++ [moov_tree timescale duration time (u32 (1 + ids_issued ops)) traks]
  | Faststart => [ftyp_tree ft] ++ [moov_tree timescale duration time (u32 (1 + ids_issued ops)) traks] ++ [mdat_tree (media ops)]
  end.
Definition replay_of (e : bool) (time : Z) (i : nat) (ops : list op) (tr : tree) : Prop :=
  exists t0 t, new_of time (fst (own_calls e i ops)) t0 /\ norm e t = norm e (Track_finalize (fold_left replay1 (snd (own_calls e i ops)) t0)) /\ tr = tree_of (make_trak t).
Lemma session_replay e cls timescale duration time ft ops sel : time_printable time -> ftyp_ok ft -> recording ops -> chosen ops sel -> movie_fits ft ops sel -> bytes (media ops) ->
  exists traks,
    output (fst (run (start cls timescale duration time ft) (program cls ops sel))) = flat_map (serialize_with written) (boxes_of cls timescale duration time ft ops traks) /\
    Forall2 (fun i tr => replay_of e time i ops tr) sel traks.
Proof.
  intros Tp Fo R Ch B Hb. destruct (movie_fits_media _ _ _ Fo B) as (B1 & B2 & B3). pose proof R as [R1 R2 R3 R4].
  assert (Rp : replayed e time ops (fst (run (start cls timescale duration time ft) (O_WriteFtyp :: ops)))).
  { destruct (start_sinv cls timescale duration time ft Fo B1) as (Es & Is). cbn [run].
    assert (Ts : s_tracks (fst (step (start cls timescale duration time ft) O_WriteFtyp)) = []) by (apply length_zero_iff_nil; exact (si_len _ _ _ _ _ _ _ _ _ Is)).
    destruct (step (start cls timescale duration time ft) O_WriteFtyp) as [s0 r0]. cbn [fst snd] in *.
    destruct (run_sinv _ _ _ _ _ _ _ s0 ops Is R1 R2 R3 R4 B2) as (_ & U).
    pose proof (run_replayed e time s0 Ts (wi_time _ _ _ _ _ _ _ _ _ _ (si_w _ _ _ _ _ _ _ _ _ Is)) ops R1 R2 U) as Q. destruct (run s0 ops) as [x1 x2]. exact Q. }
  destruct Rp as (_ & _ & _ & Rp).
  assert (One : forall i t t1, nth_error (s_tracks (fst (run (start cls timescale duration time ft) (O_WriteFtyp :: ops)))) i = Some t -> norm e t1 = norm e (Track_finalize t) -> replay_of e time i ops (tree_of (make_trak t1))).
  { intros i t t1 E N. destruct (Rp i t E) as (t0 & A & C). exists t0, t1. split; [exact A|]. split; [|reflexivity]. rewrite N, (norm_finalize e t), C. symmetry. apply norm_finalize. }
  clear Rp. destruct cls; cbn [program boxes_of].
  - destruct (simple_session timescale duration time ft ops sel Tp Fo R Ch B) as (_ & _ & traks & E & _ & T). cbv zeta in *. exists traks. split.
    + unfold output. rewrite E. rewrite flat_map4, free_octets. rewrite mdat_octets by exact Hb.
      change (serialize_with written (ftyp_tree ft)) with (ftyp_octets ft). unfold moov_tree. rewrite <- udta_ok. rewrite <- !app_assoc. reflexivity.
    + eapply f2_impl; [|exact T]. intros i tr (t & Et & _ & ->). apply (One i t); [exact Et|reflexivity].
  - destruct (faststart_session timescale duration time ft ops sel Tp Fo R Ch B) as (_ & _ & S & traks & E & _ & T & _). cbv zeta in *. exists traks. split.
    + unfold output. rewrite E. rewrite flat_map3. rewrite mdat_octets by exact Hb.
      change (serialize_with written (ftyp_tree ft)) with (ftyp_octets ft). unfold moov_tree. rewrite <- udta_ok. rewrite <- !app_assoc. reflexivity.
    + eapply f2_impl; [|exact T]. intros i tr (t & Et & _ & ->). apply (One i t); [exact Et|]. apply F_norm.
Qed.
Lemma replays_alike e time i j ops ops' a b : own_calls e i ops = own_calls e j ops' -> replay_of e time i ops a -> replay_of e time j ops' b -> same_except (but_chunks e) a b.
Proof.
  intros E (t0 & t & A1 & A2 & ->) (t0' & t' & B1 & B2 & ->). rewrite E in A1, A2. apply norm_trak. rewrite A2, B2.
  assert (t0 = t0'). { unfold new_of in *. destruct (fst (own_calls e j ops')) as [[]|]; try contradiction. congruence. } subst t0'. reflexivity.
Qed.
