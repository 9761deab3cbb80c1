(** Proofs about chunks (C69). *)
From Coq Require Import Sorted.
From Verif Require Import Base BitIO BitFacts BitIOProofs Boxes WireFormat Box BoxSpec BoxSize Print PrintSpec PrintProofs BoxTree TreeSpec TreeProofs TreeLayout H264 Track Writers MovieSpec AnnexBSpec H264Proofs TrackProofs TrakProofs SessionProofs MovieShape Completion MovieSize FileProofs SimpleFile FaststartFile TrackLemmas FileLemmas CompareSpec Compare IndependenceSpec Independence ChunkSpec.
From Coq Require Import Ascii String List.
Import ListNotations.
Open Scope Z_scope.
Open Scope list_scope.

(** * Counting *)
Definition cstep (x : list Z * Z) (m : option sample) : list Z * Z :=
  let (cs, n) := x in match m with None => if n >? 0 then (cs ++ [n], 0) else (cs, n) | Some _ => (cs, u32 (n + 1)) end.
Definition counts (t : track) : list Z * Z := (map c_samples (t_chunks t), c_samples (t_current t)).
Definition same_kind (c c' : codec) : Prop := forall data, addData_actions c data = addData_actions c' data.
Lemma kind_effects c data : match addData_actions c data with Some (acts, _) => acts | None => [] end = effects c data.
Proof. destruct c; try reflexivity. Qed.
Lemma act_counts ts key c : forall acts t, same_kind (t_codec t) c ->
  counts (act ts key acts t) = fold_left cstep (map (fun d => Some (mk_sample ts d key)) (stored_in acts)) (counts t) /\ same_kind (t_codec (act ts key acts t)) c.
Proof.
  induction acts as [|[d|p|p] acts IH]; intros t K; cbn [act stored_in flat_map app map fold_left].
  - auto.
  - destruct (IH (Track_addMdatData 0 ts d key t) K) as (A & B). split; [|exact B]. rewrite A. f_equal. unfold counts, Track_addMdatData. cbn [t_chunks t_current c_samples cstep].
    destruct (negb (c_initialized (t_current t))); reflexivity.
  - assert (X : counts (H264_appendSPS p t) = counts t /\ same_kind (t_codec (H264_appendSPS p t)) c).
    { unfold H264_appendSPS. revert K. destruct (t_codec t) eqn:E; intros K; try (split; [reflexivity|rewrite E; exact K]); cbv zeta. split; [destruct (_ && _)%bool; reflexivity|]. destruct (_ && _)%bool; exact K. }
    destruct X as (X1 & X2). rewrite <- X1. apply IH. exact X2.
  - assert (X : counts (H264_appendPPS p t) = counts t /\ same_kind (t_codec (H264_appendPPS p t)) c).
    { unfold H264_appendPPS. revert K. destruct (t_codec t) eqn:E; intros K; try (split; [reflexivity|rewrite E; exact K]); cbv zeta. split; [reflexivity|exact K]. }
    destruct X as (X1 & X2). rewrite <- X1. apply IH. exact X2.
Qed.
Lemma replay_counts c i : forall ops t, same_kind (t_codec t) c ->
  counts (fold_left replay1 (flat_map (on true i) ops) t) = fold_left cstep (flat_map (mark c i) ops) (counts t).
Proof.
  induction ops as [|o ops IH]; intros t K; [reflexivity|]. cbn [flat_map]. rewrite !fold_left_app.
  assert (X : counts (fold_left replay1 (on true i o) t) = fold_left cstep (mark c i o) (counts t) /\ same_kind (t_codec (fold_left replay1 (on true i o) t)) c).
  { destruct o; cbn [on mark fold_left]; auto; destruct (Nat.eqb i i0); cbn [andb fold_left replay1]; auto.
    - rewrite (K data). unfold stored. rewrite <- kind_effects. destruct (addData_actions c data) as [[acts r]|]; [apply act_counts; exact K|auto].
    - unfold Track_terminateCurrentChunk, counts. cbn [cstep]. destruct (_ >? 0); [|auto]. cbn [t_chunks t_current t_codec]. rewrite map_app. auto. }
  destruct X as (X1 & X2). rewrite IH by exact X2. rewrite X1. reflexivity.
Qed.
Definition samples_in (l : list (option sample)) : list sample := flat_map (fun m => match m with Some s => [s] | None => [] end) l.
Lemma close_concat g : concat (close g) = g. Proof. destruct g; [reflexivity|]. cbn [close concat]. apply app_nil_r. Qed.
Lemma close_sizes g : map Zlen (close g) = if Zlen g >? 0 then [Zlen g] else [].
Proof. destruct g as [|s g]; [reflexivity|]. cbn [close map]. rewrite Zlen_cons. pose proof (Zlen_nonneg g). destruct (Z.gtb_spec (1 + Zlen g) 0); [reflexivity|lia]. Qed.
Lemma divide_concat : forall l g, concat (divide g l) = g ++ samples_in l.
Proof.
  induction l as [|[s|] l IH]; intros g; cbn [divide samples_in flat_map].
  - rewrite app_nil_r. apply close_concat.
  - rewrite IH, <- app_assoc. reflexivity.
  - rewrite concat_app, close_concat, IH. reflexivity.
Qed.
Lemma divide_counts : forall l cs g, Zlen g + Zlen (samples_in l) < 2 ^ 32 ->
  let (cs', n) := fold_left cstep l (cs, Zlen g) in cs' ++ (if n >? 0 then [n] else []) = cs ++ map Zlen (divide g l).
Proof.
  induction l as [|[s|] l IH]; intros cs g B; cbn [fold_left cstep divide].
  - rewrite close_sizes. reflexivity.
  - unfold samples_in in B. cbn [flat_map] in B. rewrite Zlen_app in B. change (Zlen [s]) with 1 in B. fold (samples_in l) in B. pose proof (Zlen_nonneg g). pose proof (Zlen_nonneg (samples_in l)).
    rewrite u32_small by lia. replace (Zlen g + 1) with (Zlen (g ++ [s])) by (rewrite Zlen_app; reflexivity). apply IH. rewrite Zlen_app. change (Zlen [s]) with 1. lia.
  - change (samples_in (None :: l)) with (samples_in l) in B. rewrite map_app, close_sizes, app_assoc. pose proof (Zlen_nonneg g).
    destruct (Z.gtb_spec (Zlen g) 0).
    + change 0 with (Zlen (@nil sample)). apply IH. change (Zlen (@nil sample)) with 0. lia.
    + replace (Zlen g) with (Zlen (@nil sample)) by (change (Zlen (@nil sample)) with 0; lia). rewrite app_nil_r. apply IH. change (Zlen (@nil sample)) with 0. lia.
Qed.

(** * The samples of a track, by its own calls *)
Lemma codec_snoc ops o i : (i < length (created ops))%nat -> codec_of (ops ++ [o]) i = codec_of ops i.
Proof. intros L. unfold codec_of. rewrite created_snoc, nth_error_app1 by exact L. reflexivity. Qed.
Lemma marks_samples i : forall ops c, forallb media_op ops = true -> known_tracks ops -> codec_of ops i = Some c -> samples_in (flat_map (mark c i) ops) = samples_of i ops.
Proof.
  induction ops as [|o ops IH] using rev_ind; intros c M K E; [reflexivity|].
  rewrite forallb_app in M. apply andb_prop in M as [M1 _].
  assert (K' : known_tracks ops) by (intros pre x post j Ej; apply (K pre x (post ++ [o]) j); rewrite Ej, <- app_assoc; reflexivity).
  rewrite flat_map_app. unfold samples_in. rewrite flat_map_app. fold (samples_in (flat_map (mark c i) ops)).
  rewrite samples_select, history_snoc, select_app, <- samples_select. cbn [flat_map]. rewrite app_nil_r.
  destruct (Nat.lt_ge_cases i (length (created ops))) as [L|L].
  - rewrite codec_snoc in E by exact L. rewrite (IH c M1 K' E). f_equal. destruct o; cbn [mark stores]; try reflexivity.
    + destruct (Nat.eqb_spec i i0) as [->|N].
      * rewrite E. clear. induction (stored c data) as [|d l IH]; [reflexivity|]. cbn [map flat_map app]. unfold select in *. cbn [map flat_map fst snd app]. rewrite Nat.eqb_refl. cbn [app]. f_equal. exact IH.
      * cbn [flat_map]. destruct (codec_of ops i0) as [c'|]; [|reflexivity]. symmetry. clear - N. induction (stored c' data) as [|d l IH]; [reflexivity|]. unfold select in *. cbn [map flat_map fst snd app].
        apply Nat.eqb_neq in N. rewrite N. exact IH.
    + destruct (Nat.eqb i i0); reflexivity.
  - assert (Out : forall x pre post, ops ++ [o] = pre ++ x :: post -> (match x with O_AddData j _ _ _ | O_Terminate j | O_SetMediaTime j _ => j = i | _ => False end) -> (length pre <= length ops)%nat -> False).
    { intros x pre post Ex A Lp. specialize (K pre x post i Ex A).
      assert (length (created pre) <= length (created ops))%nat; [|lia].
      assert (P : exists q, ops = pre ++ q).
      { exists (firstn (length ops - length pre) (x :: post)). rewrite <- (firstn_all pre) at 1. pose proof (f_equal (firstn (length ops)) Ex) as Y. rewrite firstn_app, Nat.sub_diag, firstn_all, app_nil_r in Y.
        rewrite firstn_app, (firstn_all2 pre) in Y by exact Lp. rewrite firstn_all. exact Y. }
      destruct P as (q & ->). unfold created. rewrite filter_app, app_length. lia. }
    assert (None_ : forall l, (forall pre x post, l = pre ++ x :: post -> exists pre', ops ++ [o] = pre' ++ x :: post /\ (length pre' <= length ops)%nat) -> flat_map (mark c i) l = []).
    { induction l as [|x l IHl]; intros H; [reflexivity|]. cbn [flat_map]. destruct (H [] x l eq_refl) as (p & Ep & Lp).
      rewrite IHl. 2:{ intros pre y post Ey. apply (H (x :: pre) y post). rewrite Ey. reflexivity. }
      rewrite app_nil_r. specialize (Out x p l Ep). destruct x; cbn [mark]; try reflexivity; destruct (Nat.eqb_spec i i0); try reflexivity; subst; exfalso; apply Out; auto. }
    assert (A : flat_map (mark c i) (ops ++ [o]) = []).
    { apply None_. intros pre x post Ex. exists pre. split; [exact Ex|]. apply (f_equal (@length op)) in Ex. rewrite !app_length in Ex. cbn [length] in Ex. lia. }
    rewrite flat_map_app in A. apply app_eq_nil in A as [A1 A2]. cbn [flat_map] in A2. rewrite app_nil_r in A2. rewrite A1, A2. cbn [samples_in flat_map app].
    rewrite samples_unknown by exact L. symmetry. destruct o; cbn [stores]; try reflexivity. destruct (Nat.eqb_spec i i0) as [->|N].
    + unfold codec_of. replace (nth_error (created ops) i0) with (@None op) by (symmetry; apply nth_error_None; exact L). reflexivity.
    + destruct (codec_of ops i0) as [c'|]; [|reflexivity]. clear - N. induction (stored c' data) as [|d l IH]; [reflexivity|]. unfold select in *. cbn [map flat_map fst snd app].
      apply Nat.eqb_neq in N. rewrite N. exact IH.
Qed.

(** * Tables *)
Lemma division_unique {A} : forall (a b : list (list A)), concat a = concat b -> map Zlen a = map Zlen b -> a = b.
Proof.
  induction a as [|x a IH]; intros [|y b] E L; try discriminate; [reflexivity|]. cbn [concat map] in *. injection L as L1 L2.
  assert (Q : x = y /\ concat a = concat b).
  { apply (f_equal (firstn (length x))) in E as E1. apply (f_equal (skipn (length x))) in E as E2. assert (Le : length x = length y) by (unfold Zlen in L1; lia).
    rewrite !firstn_app, Nat.sub_diag, firstn_all in E1. rewrite Le, Nat.sub_diag, firstn_all in E1. cbn [firstn] in E1. rewrite !app_nil_r in E1.
    rewrite !skipn_app, Nat.sub_diag, skipn_all in E2. rewrite Le, Nat.sub_diag, skipn_all in E2. cbn [skipn app] in E2. auto. }
  destruct Q as (-> & Q). f_equal. auto.
Qed.
Lemma stsc_loop_neighbours l : forall p no, 0 <= no -> no + Zlen l <= 2 ^ 32 ->
  match stsc_loop p no l with [] => True | e :: _ => stsce_sample_per_chunk e <> p end /\
  neighbours (fun a b => stsce_sample_per_chunk a <> stsce_sample_per_chunk b) (stsc_loop p no l).
Proof.
  induction l as [|c l IH]; intros p no H B; [split; [exact I|intros [|? ?] a b post E; discriminate E]|]. rewrite Zlen_cons in B. pose proof (Zlen_nonneg l). cbn [stsc_loop]. rewrite !stsc_loop_u32 by lia.
  destruct (Z.eqb_spec p (c_samples c)) as [E|N]; cbn [negb]; [apply IH; lia|]. split; [cbn [stsce_sample_per_chunk]; congruence|].
  destruct (IH (c_samples c) (no + 1)) as (A1 & A2); [lia|lia|]. intros [|x pre] a b post E; cbn [app] in E.
  - injection E as <- E. rewrite E in A1. cbn [stsce_sample_per_chunk]. congruence.
  - injection E as _ E. exact (A2 pre a b post E).
Qed.
Lemma sorted_neighbours {A} (R : A -> A -> Prop) l : StronglySorted R l -> neighbours R l.
Proof.
  intros S pre a b post ->. apply sorted_app in S. destruct S as (_ & S & _). inversion S as [|? ? _ F]; subst. inversion F; subst. assumption.
Qed.
Lemma octets_split file o a b : 0 <= o -> 0 <= a -> 0 <= b -> octets_at file (o, a + b) = octets_at file (o, a) ++ octets_at file (o + a, b).
Proof.
  intros O A B. unfold octets_at. cbn [fst snd]. rewrite !Z2Nat.inj_add by lia. rewrite <- skipn_skipn. generalize (skipn (Z.to_nat o) file) as l. intros l.
  rewrite <- (firstn_skipn (Z.to_nat a) l) at 1. rewrite firstn_app. rewrite firstn_firstn. rewrite Nat.min_r by lia. f_equal.
  destruct (Nat.le_gt_cases (Z.to_nat a) (length l)).
  - rewrite firstn_length, Nat.min_l by lia. f_equal. lia.
  - rewrite (skipn_all2 l) by lia. rewrite !firstn_nil. reflexivity.
Qed.
Lemma chunk_at file : forall g o, 0 <= o -> map loc g = consecutive o (map (fun r => Zlen (sm_data (snd r))) g) -> Forall (fun r => octets_at file (loc r) = sm_data (snd r)) g ->
  octets_at file (o, Zlen (chunk_octets (map snd g))) = chunk_octets (map snd g).
Proof.
  induction g as [|r g IH]; intros o O L F; [reflexivity|]. cbn [map consecutive] in L. injection L as L1 L2. inversion F as [|? ? F1 F2]; subst. unfold chunk_octets in *. cbn [map flat_map]. rewrite Zlen_app.
  pose proof (Zlen_nonneg (sm_data (snd r))). rewrite octets_split by (try lia; apply Zlen_nonneg). f_equal; [exact F1|]. apply IH; [lia|exact L2|exact F2].
Qed.

Lemma tables_ok t : exists stbl, stbl_kids (tree_of (make_trak t)) = Some stbl /\ chunk_offsets stbl = Some (offsets_of t) /\
  stsc_table stbl = Some (make_stsc_entries (t_chunks t)) /\ stts_table stbl = Some (make_stts_entries (t_durations t)) /\ (kids_of_type t_co64 stbl <> [] <-> use_co64 (t_chunks t) = true).
Proof.
  eexists. split; [apply stbl_kids_ok|]. unfold offsets_of.
  destruct (use_co64 (t_chunks t)) eqn:E; destruct (t_codec t) eqn:C; unfold make_stbl, make_offset_box; rewrite E, C;
    (split; [reflexivity|]; split; [reflexivity|]; split; [reflexivity|]; split; intros X; try discriminate X; try reflexivity; try (intros Y; discriminate Y); exfalso; apply X; reflexivity).
Qed.
Lemma finished_divided i ops B pre post t : samples_fit ops -> finished t (recs_of i B (history ops)) -> Zlen pre = B -> B + Zlen (media ops) < 2 ^ 64 ->
  concat (chunks_of i ops) = samples_of i ops -> map c_samples (t_chunks t) = map Zlen (chunks_of i ops) ->
  exists stbl, stbl_kids (tree_of (make_trak t)) = Some stbl /\ divided (pre ++ media ops ++ post) (chunks_of i ops) stbl.
Proof.
  intros Fit Fi Ep Hb Hc Hn. destruct (tables_ok t) as (stbl & E1 & E2 & E3 & E4 & E5). exists stbl. split; [exact E1|].
  destruct (Fit i) as [N1 N2]. pose proof (Zlen_nonneg pre). pose proof (Zlen_nonneg (media ops)).
  pose proof (recs_of_samples i (history ops) B) as Er. rewrite <- samples_select in Er.
  assert (Bo : Forall (fun r => 0 <= fst r < 2 ^ 64) (recs_of i B (history ops))).
  { eapply Forall_impl; [|apply recs_bounds]. cbv beta. intros r (H1 & H2). rewrite <- media_octets in H2. pose proof (Zlen_nonneg (sm_data (snd r))). unfold size_of in H2. lia. }
  destruct (finished_offsets t _ Fi (recs_sorted i B (history ops)) Bo) as (O1 & O2). rewrite O1 in E2.
  pose proof Fi as [_ _ Fd _ (gs & Hg & Ho)].
  assert (Eg : map (map snd) gs = chunks_of i ops).
  { apply division_unique; [rewrite <- concat_map, Hg, Er, Hc; reflexivity|]. rewrite <- Hn, map_map. clear - Ho. induction Ho as [|c g cs gs (G1 & G2 & G3) H IH]; [reflexivity|]. cbn [map]. rewrite IH, Zlen_map, G2. reflexivity. }
  assert (Lc : Zlen (t_chunks t) = Zlen (chunks_of i ops)) by (rewrite <- (Zlen_map c_samples), Hn, Zlen_map; reflexivity).
  assert (Nc : Zlen (t_chunks t) < 2 ^ 32).
  { pose proof (chunk_count _ _ Ho) as X. rewrite Hg in X. rewrite <- (Zlen_map snd (recs_of i B (history ops))), Er in X. lia. }
  assert (Pos : Forall (fun c => 0 <= c_samples c) (t_chunks t)).
  { clear - Ho. induction Ho as [|c g cs gs (G1 & G2 & G3) H IH]; constructor; [rewrite G2; apply Zlen_nonneg|exact IH]. }
  destruct (stsc_table_ok _ Pos Nc) as (S1 & _ & S3 & S4).
  assert (Nd : Zlen (t_durations t) < 2 ^ 32).
  { rewrite Fd, expected_durations_length, Zlen_map. rewrite <- (Zlen_map snd (recs_of i B (history ops))), Er. exact N1. }
  destruct (stts_table_ok _ Nd) as (_ & _ & T3 & T4).
  exists (map c_offset (t_chunks t)), (make_stsc_entries (t_chunks t)), (make_stts_entries (t_durations t)).
  split; [exact E2|]. split; [exact E3|]. split; [exact E4|]. split; [|split; [|split; [|split; [|split; [|split]]]]].
  - pose proof (recs_octets i B (history ops) pre post Ep) as Oc. rewrite <- media_octets, <- Hg in Oc. rewrite <- Eg.
    assert (Bp : Forall (fun r => 0 <= fst r) (concat gs)) by (rewrite Hg; eapply Forall_impl; [|exact Bo]; cbv beta; intros; lia).
    clear - Ho Oc Bp. revert Oc Bp. induction Ho as [|c g cs gs G H IH]; intros Oc Bp; [constructor|]. cbn [map concat] in *. apply Forall_app in Oc as [Oc1 Oc2]. apply Forall_app in Bp as [Bp1 Bp2].
    constructor; [|apply IH; assumption]. pose proof G as (G1 & G2 & G3). apply chunk_at; [|exact G3|exact Oc1]. destruct (chunk_first _ _ G) as (s & g' & ->). inversion Bp1; subst. assumption.
  - rewrite E5, O2. rewrite !Exists_exists. split; intros (x & X1 & X2); [exists (c_offset x); split; [apply in_map; exact X1|exact X2]|].
    apply in_map_iff in X1 as (c & <- & X1). eauto.
  - intros k ch K. rewrite <- Eg in K.
    assert (Nk : nth_error (map c_samples (t_chunks t)) k = Some (Zlen ch)) by (rewrite Hn, <- Eg; rewrite nth_error_map, K; reflexivity).
    rewrite nth_error_map in Nk. destruct (nth_error (t_chunks t) k) as [c|] eqn:Ck; [|discriminate]. cbn [option_map] in Nk. injection Nk as Nk. rewrite <- Nk. apply S1. exact Ck.
  - rewrite <- Lc. exact S4.
  - intros p a b q E. split; [exact (sorted_neighbours _ _ S3 p a b q E)|]. exact (proj2 (stsc_loop_neighbours (t_chunks t) (-1) 1 ltac:(lia) ltac:(lia)) p a b q E).
  - eapply Forall_impl; [|exact T3]. cbv beta. intros. lia.
  - exact T4.
Qed.

(** * Sessions *)
Lemma norm_counts t t' : norm true t = norm true t' -> map c_samples (t_chunks t) = map c_samples (t_chunks t').
Proof. intros E. apply (f_equal (fun t => map c_samples (t_chunks t))) in E. cbn [norm t_chunks] in E. rewrite !map_map in E. exact E. Qed.
Lemma finalize_counts t : t_finalized t = false -> map c_samples (t_chunks (Track_finalize t)) = fst (counts t) ++ (if snd (counts t) >? 0 then [snd (counts t)] else []).
Proof. intros E. unfold Track_finalize, counts. rewrite E. cbn [t_chunks fst snd]. destruct (_ >? 0); [apply map_app|symmetry; apply app_nil_r]. Qed.
Lemma new_counts time c tsc dts dmv mt id t : Track_new c tsc dts dmv time mt id = Ok t -> counts t = ([], 0) /\ same_kind (t_codec t) c /\ t_finalized t = false.
Proof. unfold Track_new. destruct (id =? 0); [discriminate|]. intros E. injection E as <-. split; [reflexivity|]. split; [|reflexivity]. intros data. destruct c; reflexivity. Qed.
Lemma replay_unfinished ops : forall t, t_finalized t = false -> t_finalized (fold_left replay1 ops t) = false.
Proof.
  assert (A : forall ts key acts t, t_finalized (act ts key acts t) = t_finalized t).
  { induction acts as [|[d|p|p] acts IH]; intros t; cbn [act]; [reflexivity|rewrite IH; reflexivity| |]; rewrite IH; unfold H264_appendSPS, H264_appendPPS; destruct (t_codec t); try reflexivity; cbv zeta; destruct (_ && _)%bool; reflexivity. }
  induction ops as [|o ops IH]; intros t E; [exact E|]. cbn [fold_left]. apply IH. destruct o; cbn [replay1]; try exact E.
  - destruct (addData_actions (t_codec t) data) as [[acts r]|]; [rewrite A|]; exact E.
  - unfold Track_terminateCurrentChunk. destruct (_ >? 0); exact E.
Qed.
Lemma session_counts cls timescale duration time ft ops sel : ftyp_ok ft -> recording ops -> movie_fits ft ops sel ->
  forall i t, nth_error (s_tracks (fst (run (start cls timescale duration time ft) (O_WriteFtyp :: ops)))) i = Some t ->
  map c_samples (t_chunks (Track_finalize t)) = map Zlen (chunks_of i ops) /\ concat (chunks_of i ops) = samples_of i ops.
Proof.
  intros Fo R B. destruct (movie_fits_media _ _ _ Fo B) as (B1 & B2 & B3). pose proof R as [R1 R2 R3 R4].
  assert (Rp : replayed true time ops (fst (run (start cls timescale duration time ft) (O_WriteFtyp :: ops)))).
  { destruct (start_sinv cls timescale duration time ft Fo B1) as (Es & Is). cbn [run].
    assert (Ts : s_tracks (fst (step (start cls timescale duration time ft) O_WriteFtyp)) = []) by (apply length_zero_iff_nil; exact (si_len _ _ _ _ _ _ _ _ _ Is)).
    destruct (step (start cls timescale duration time ft) O_WriteFtyp) as [s0 r0]. cbn [fst snd] in *.
    destruct (run_sinv _ _ _ _ _ _ _ s0 ops Is R1 R2 R3 R4 B2) as (_ & U).
    pose proof (run_replayed true time s0 Ts (wi_time _ _ _ _ _ _ _ _ _ _ (si_w _ _ _ _ _ _ _ _ _ Is)) ops R1 R2 U) as Q. destruct (run s0 ops) as [x1 x2]. exact Q. }
  destruct Rp as (_ & _ & _ & Rp). intros i t E. destruct (Rp i t E) as (t0 & A & C). unfold own_calls, new_of in A, C. cbn [fst snd] in A, C.
  destruct (nth_error (created ops) i) as [[c tsc dts dmv mt id| | | | | | | | | | | |]|] eqn:Ec; try contradiction. destruct (new_counts _ _ _ _ _ _ _ _ A) as (N1 & N2 & N3).
  assert (Eco : codec_of ops i = Some c) by (unfold codec_of; rewrite Ec; reflexivity).
  unfold chunks_of. rewrite Eco. pose proof (marks_samples i ops c R1 R2 Eco) as Em. split; [|rewrite divide_concat, Em; reflexivity].
  rewrite (norm_counts (Track_finalize t) (Track_finalize (fold_left replay1 (flat_map (on true i) ops) t0))) by (rewrite (norm_finalize true t), C; symmetry; apply norm_finalize).
  rewrite finalize_counts by (apply replay_unfinished; exact N3). rewrite (replay_counts c i ops t0 N2), N1.
  pose proof (divide_counts (flat_map (mark c i) ops) [] []) as D. cbn [app] in D. change (Zlen (@nil sample)) with 0 in D. destruct (fold_left cstep (flat_map (mark c i) ops) ([], 0)) as [cs n]. cbn [fst snd]. apply D.
  rewrite Em. apply (R4 i).
Qed.
Lemma F_counts S t : map c_samples (t_chunks (F S t)) = map c_samples (t_chunks (Track_finalize t)).
Proof. apply norm_counts. apply F_norm. Qed.

Lemma chunks_session cls timescale duration time ft ops sel : time_printable time -> ftyp_ok ft -> recording ops -> chosen ops sel -> movie_fits ft ops sel -> bytes (media ops) ->
  let r := run (start cls timescale duration time ft) (program cls ops sel) in
  exists traks,
    output (fst r) = flat_map (serialize_with written) (boxes_of cls timescale duration time ft ops traks) /\
    Forall2 (fun i tr => exists stbl, stbl_kids tr = Some stbl /\ divided (output (fst r)) (chunks_of i ops) stbl) sel traks.
Proof.
  intros Tp Fo R Ch B Hb. destruct (movie_fits_media _ _ _ Fo B) as (B1 & B2 & B3). pose proof (session_counts cls timescale duration time ft ops sel Fo R B) as Sc. pose proof R as [R1 R2 R3 R4].
  cbv zeta. destruct cls; cbn [program boxes_of].
  - destruct (simple_session timescale duration time ft ops sel Tp Fo R Ch B) as (_ & _ & traks & E & _ & T). cbv zeta in *. exists traks. split.
    + unfold output. rewrite E. rewrite flat_map4, free_octets. rewrite mdat_octets by exact Hb.
      change (serialize_with written (ftyp_tree ft)) with (ftyp_octets ft). unfold moov_tree. rewrite <- udta_ok. rewrite <- !app_assoc. reflexivity.
    + unfold output. rewrite E. eapply f2_impl; [|exact T]. intros i tr (t & Et & Ti & ->). destruct (Sc i t Et) as (C1 & C2).
      apply (finished_divided i ops (Zlen (ftyp_octets ft) + 16)); auto; [apply recorded_finalize, (ti_rec _ _ _ _ _ Ti)| |].
      * rewrite Zlen_app, free_mdat_length. reflexivity.
      * unfold movie_fits in B. pose proof (SimpleFile.ftyp_size ft Fo). lia.
  - destruct (faststart_session timescale duration time ft ops sel Tp Fo R Ch B) as (_ & _ & S & traks & E & _ & T & S0 & S1 & S2). cbv zeta in *. exists traks. split.
    + unfold output. rewrite E. rewrite flat_map3. rewrite mdat_octets by exact Hb.
      change (serialize_with written (ftyp_tree ft)) with (ftyp_octets ft). unfold moov_tree. rewrite <- udta_ok. rewrite <- !app_assoc. reflexivity.
    + unfold output. rewrite E. eapply f2_impl; [|exact T]. intros i tr (t & Et & Ti & ->). destruct (Sc i t Et) as (C1 & C2).
      match goal with |- exists stbl, _ /\ divided (?pre ++ media ops) _ _ => pose proof (finished_divided i ops S pre []) as X end. rewrite app_nil_r in X.
      apply X; auto; [|rewrite F_counts; exact C1]. apply (tinv_shift_finished time 0 ops i t S Ti); lia.
Qed.
