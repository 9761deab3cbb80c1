(** Invariant of a recording session: a writer and its tracks before the file is completed. *)
From Verif Require Import Base BitIO BitFacts BitIOProofs Boxes Box BoxTree TreeSpec TreeProofs TreeLayout H264 Track Writers MovieSpec AnnexBSpec H264Proofs TrackProofs TrakProofs.
From Coq Require Import Sorted String List.
Import ListNotations.
Open Scope Z_scope.
Open Scope list_scope.

(** * Where everything stored goes *)
Fixpoint placed {A} (off : Z) (h : list (A * sample)) : list (A * (Z * sample)) :=
  match h with [] => [] | (i, s) :: l => (i, (off, s)) :: placed (off + Zlen (sm_data s)) l end.
Definition octets_of {A} (h : list (A * sample)) : list Z := flat_map (fun x => sm_data (snd x)) h.
Lemma octets_of_app {A} (a b : list (A * sample)) : octets_of (a ++ b) = octets_of a ++ octets_of b. Proof. apply flat_map_app. Qed.
Lemma placed_app {A} (a b : list (A * sample)) : forall off, placed off (a ++ b) = placed off a ++ placed (off + Zlen (octets_of a)) b.
Proof.
  induction a as [|[i s] a IH]; intros off; [cbn [app placed octets_of flat_map]; rewrite (@Zlen_nil Z), Z.add_0_r; reflexivity|].
  cbn [app placed]. rewrite IH. unfold octets_of. cbn [flat_map snd]. rewrite Zlen_app. cbn [app]. do 2 f_equal. f_equal. lia.
Qed.
Lemma placed_snd {A} (h : list (A * sample)) : forall off, map (fun x => (fst x, snd (snd x))) (placed off h) = h.
Proof. induction h as [|[i s] h IH]; intros off; [reflexivity|]. cbn [placed map fst snd]. rewrite IH. reflexivity. Qed.
Lemma placed_bounds {A} (h : list (A * sample)) : forall off, Forall (fun x => off <= fst (snd x) /\ fst (snd x) + size_of (snd x) <= off + Zlen (octets_of h)) (placed off h).
Proof.
  induction h as [|[i s] h IH]; intros off; [constructor|]. cbn [placed]. unfold octets_of. cbn [flat_map snd]. rewrite Zlen_app. fold (octets_of h).
  pose proof (Zlen_nonneg (octets_of h)). pose proof (Zlen_nonneg (sm_data s)). constructor; [cbn [fst snd size_of]; unfold size_of; cbn [snd]; lia|].
  eapply Forall_impl; [|apply IH]. cbv beta. intros. lia.
Qed.
Lemma placed_sorted {A} (h : list (A * sample)) : forall off, StronglySorted (fun a b => fst (snd a) <= fst (snd b)) (placed off h).
Proof.
  induction h as [|[i s] h IH]; intros off; [constructor|]. cbn [placed]. constructor; [apply IH|].
  eapply Forall_impl; [|apply placed_bounds]. cbv beta. intros a H. cbn [fst snd]. pose proof (Zlen_nonneg (sm_data s)). lia.
Qed.
(** at its offset, the octets of the sample *)
Lemma placed_octets {A} (h : list (A * sample)) : forall off pre post, Zlen pre = off ->
  Forall (fun x => octets_at (pre ++ octets_of h ++ post) (loc (snd x)) = sm_data (snd (snd x))) (placed off h).
Proof.
  induction h as [|[i s] h IH]; intros off pre post E; [constructor|]. cbn [placed]. unfold octets_of. cbn [flat_map snd]. fold (octets_of h). constructor.
  - unfold octets_at, loc. cbn [fst snd]. rewrite skipn_exact by (unfold Zlen in E; lia). rewrite <- app_assoc, firstn_exact by (unfold Zlen; lia). reflexivity.
  - rewrite <- app_assoc, app_assoc. apply IH. rewrite Zlen_app. lia.
Qed.

(** the samples of one track *)
Definition select {X} (i : nat) (l : list (option nat * X)) : list X :=
  flat_map (fun x => match fst x with Some j => if Nat.eqb i j then [snd x] else [] | None => [] end) l.
Lemma select_app {X} i (a b : list (option nat * X)) : select i (a ++ b) = select i a ++ select i b. Proof. apply flat_map_app. Qed.
Definition recs_of (i : nat) (off : Z) (h : list (option nat * sample)) : list (Z * sample) := select i (placed off h).
Lemma recs_of_app i off a b : recs_of i off (a ++ b) = recs_of i off a ++ recs_of i (off + Zlen (octets_of a)) b.
Proof. unfold recs_of. rewrite placed_app, select_app. reflexivity. Qed.
Lemma recs_of_samples i h : forall off, map snd (recs_of i off h) = select i h.
Proof.
  induction h as [|[[j|] s] h IH]; intros off; [reflexivity| |].
  - unfold recs_of, select in *. cbn [placed flat_map fst snd]. destruct (Nat.eqb i j); cbn [app map snd]; rewrite IH; reflexivity.
  - unfold recs_of, select in *. cbn [placed flat_map fst]. apply IH.
Qed.
Lemma select_Forall {X} (P : X -> Prop) i (l : list (option nat * X)) : Forall (fun x => P (snd x)) l -> Forall P (select i l).
Proof.
  induction 1 as [|[[j|] x] l Hx H IH]; [constructor| |]; unfold select in *; cbn [flat_map fst snd]; [|exact IH].
  destruct (Nat.eqb i j); [constructor; assumption|exact IH].
Qed.
Lemma recs_sorted i off h : sorted_offsets (recs_of i off h).
Proof.
  unfold recs_of. pose proof (placed_sorted h off) as S. induction S as [|[[j|] r] l S IH F]; [constructor| |].
  - unfold select in *. cbn [flat_map fst snd]. destruct (Nat.eqb i j); [|exact IH]. cbn [app]. constructor; [exact IH|].
    apply (select_Forall (fun b => fst r <= fst b) i l F).
  - exact IH.
Qed.
Lemma recs_bounds i off h : Forall (fun r => off <= fst r /\ fst r + size_of r <= off + Zlen (octets_of h)) (recs_of i off h).
Proof. apply (select_Forall (fun r => off <= fst r /\ fst r + size_of r <= off + Zlen (octets_of h)) i (placed off h)). apply placed_bounds. Qed.
Lemma recs_octets i off h pre post : Zlen pre = off ->
  Forall (fun r => octets_at (pre ++ octets_of h ++ post) (loc r) = sm_data (snd r)) (recs_of i off h).
Proof.
  intros E. apply (select_Forall (fun r => octets_at (pre ++ octets_of h ++ post) (loc r) = sm_data (snd r)) i (placed off h)). apply placed_octets. exact E.
Qed.
Lemma recs_shift i h : forall off d, map (shift d) (recs_of i off h) = recs_of i (off + d) h.
Proof.
  induction h as [|[[j|] s] h IH]; intros off d; [reflexivity| |]; unfold recs_of, select in *; cbn [placed flat_map fst snd].
  - replace (off + d + Zlen (sm_data s)) with (off + Zlen (sm_data s) + d) by lia. rewrite <- (IH (off + Zlen (sm_data s)) d). destruct (Nat.eqb i j); reflexivity.
  - replace (off + d + Zlen (sm_data s)) with (off + Zlen (sm_data s) + d) by lia. rewrite <- (IH (off + Zlen (sm_data s)) d). reflexivity.
Qed.

(** * Histories *)
Lemma history_from_snoc ops : forall b o, history_from b (ops ++ [o]) = history_from b ops ++ stores (b ++ ops) o.
Proof.
  induction ops as [|x ops IH]; intros b o; cbn [app history_from]; [rewrite !app_nil_r; reflexivity|].
  rewrite IH, <- !app_assoc. reflexivity.
Qed.
Lemma history_snoc ops o : history (ops ++ [o]) = history ops ++ stores ops o. Proof. apply history_from_snoc. Qed.
Lemma media_octets ops : media ops = octets_of (history ops). Proof. reflexivity. Qed.
Lemma samples_select i ops : samples_of i ops = select i (history ops). Proof. reflexivity. Qed.
Lemma media_snoc ops o : media (ops ++ [o]) = media ops ++ octets_of (stores ops o).
Proof. rewrite !media_octets, history_snoc, octets_of_app. reflexivity. Qed.
Lemma created_snoc ops o : created (ops ++ [o]) = created ops ++ match o with O_NewTrack _ _ _ _ _ id => if id =? 0 then [] else [o] | _ => [] end.
Proof. unfold created. rewrite filter_app. f_equal. cbn [filter]. destruct o; try reflexivity. destruct (id =? 0); reflexivity. Qed.
Lemma ids_issued_snoc ops o : ids_issued (ops ++ [o]) = ids_issued ops + match o with O_NextTrackID => 1 | _ => 0 end.
Proof. unfold ids_issued. rewrite filter_app, Zlen_app. f_equal. cbn [filter]. destruct o; reflexivity. Qed.

(** ** Writing at the end *)
Lemma splice_end l d : splice l (Zlen l) d = l ++ d.
Proof. rewrite <- (app_nil_r l) at 1. rewrite splice_at by reflexivity. rewrite skipn_nil, app_nil_r. reflexivity. Qed.
Lemma splice_gap l n d : d <> [] -> splice l (Zlen l + Z.of_nat n) d = l ++ repeat 0 n ++ d.
Proof.
  intros H. unfold splice. destruct d as [|x d]; [congruence|]. set (u := x :: d). unfold Zlen.
  replace (Z.to_nat (Z.of_nat (length l) + Z.of_nat n)) with (length l + n)%nat by lia. replace (length l + n - length l)%nat with n by lia.
  rewrite firstn_all2 by (rewrite app_length, repeat_length; lia). rewrite skipn_all2 by lia. rewrite app_nil_r, <- app_assoc. reflexivity.
Qed.

(** * The invariant *)
Section Session.
Variables (cls : wclass) (timescale duration time : Z) (ft : ftyp) (fb : list Z) (base : Z).

Definition moov_with (id : Z) : node :=
  new_info (str "moov") B_container [new_info (str "mvhd") (B_mvhd (mk_mvhd (fbox 0 0) time time timescale duration 65536 256 0 0 0 unity_matrix [0;0;0;0;0;0] id)) []].

(** the writer after [m] was stored and [nid - 1] identifiers were handed out *)
Record winv (m : list Z) (nid : Z) (w : mwriter) : Prop := mk_winv {
  wi_class : mw_class w = cls; wi_timescale : mw_timescale w = timescale; wi_duration : mw_duration w = duration; wi_time : mw_time w = time;
  wi_ftyp : mw_ftyp w = ft; wi_ftyp_size : mw_ftyp_size w = Some (Zlen fb); wi_mdat : mw_mdat_size w = Zlen m; wi_next : mw_next_id w = nid;
  wi_streams : match cls with
    | Simple => base = Zlen fb + 16 /\ mw_moov w = Some (moov_with 1) /\ os_pos (mw_os w) = base + Zlen m /\
                exists pad, os_data (mw_os w) = fb ++ pad ++ m /\ (pad = repeat 0 16 \/ (pad = [] /\ m = []))
    | Faststart => base = 0 /\ mw_moov w = None /\ mw_os w = mkOS fb (Zlen fb) /\ mw_tmp w = mkOS m (Zlen m) /\ mw_tmp_open w = true
    end }.

Lemma add_mdat m nid w d : winv m nid w -> Zlen m + Zlen d < 2 ^ 64 ->
  Writer_tellCurrentMdatOffset w = base + Zlen m /\ exists w', Writer_addMdatData d w = Ok w' /\ winv (m ++ d) nid w'.
Proof.
  intros [C1 C2 C3 C4 C5 C6 C7 C8 C9] B. unfold Writer_tellCurrentMdatOffset, Writer_addMdatData. rewrite C1. pose proof (Zlen_nonneg m). pose proof (Zlen_nonneg d).
  revert C1 C9; case_eq cls; intros Ec C1 C9.
  - destruct C9 as (D1 & D2 & D3 & pad & D4 & D5). split; [exact D3|]. eexists. split; [reflexivity|].
    constructor; cbn [set_mdat_size set_os mw_class mw_timescale mw_duration mw_time mw_ftyp mw_ftyp_size mw_mdat_size mw_next_id mw_moov mw_os]; rewrite ?Ec; auto.
    + rewrite C7, Zlen_app. apply u64_small. lia.
    + split; [exact D1|]. split; [exact D2|]. unfold os_write. cbn [os_pos os_data]. split; [rewrite D3, Zlen_app; lia|].
      rewrite D4, D3. destruct D5 as [->|(-> & ->)].
      * exists (repeat 0 16). split; [|auto]. replace (base + Zlen m) with (Zlen (fb ++ repeat 0 16 ++ m)) by (rewrite !Zlen_app, D1; change (Zlen (repeat 0 16)) with 16; lia).
        rewrite splice_end, <- !app_assoc. reflexivity.
      * cbn [app] in *. rewrite app_nil_r. destruct d as [|x d]; [exists []; split; [rewrite splice_nil; symmetry; apply app_nil_r|auto]|].
        exists (repeat 0 16). split; [|auto]. rewrite (@Zlen_nil Z), Z.add_0_r, D1. apply (splice_gap fb 16). congruence.
  - destruct C9 as (D1 & D2 & D3 & D4 & D5). rewrite D4, D5. cbn [os_pos]. split; [lia|]. eexists. split; [reflexivity|].
    constructor; cbn [set_mdat_size set_tmp mw_class mw_timescale mw_duration mw_time mw_ftyp mw_ftyp_size mw_mdat_size mw_next_id mw_moov mw_os mw_tmp mw_tmp_open]; rewrite ?Ec; auto.
    + rewrite C7, Zlen_app. apply u64_small. lia.
    + split; [exact D1|]. split; [exact D2|]. split; [exact D3|]. split; [|reflexivity]. unfold os_write. cbn [os_pos os_data]. rewrite splice_end, Zlen_app. reflexivity.
Qed.

(** ** addData *)
Notation stored_of := stored_in.
Fixpoint put (off : Z) (l : list sample) : list (Z * sample) := match l with [] => [] | s :: r => (off, s) :: put (off + Zlen (sm_data s)) r end.
Lemma recs_of_put i l : forall off, recs_of i off (map (pair (Some i)) l) = put off l.
Proof.
  induction l as [|s l IH]; intros off; [reflexivity|]. unfold recs_of, select in *. cbn [map placed flat_map fst snd put]. rewrite Nat.eqb_refl, IH. reflexivity.
Qed.
Lemma recs_of_other i j l : i <> j -> forall off, recs_of i off (map (pair (Some j)) l) = [].
Proof.
  intros N. induction l as [|s l IH]; intros off; [reflexivity|]. unfold recs_of, select in *. cbn [map placed flat_map fst snd].
  replace (Nat.eqb i j) with false by (symmetry; apply Nat.eqb_neq; exact N). apply IH.
Qed.
Lemma put_length l : forall off, Zlen (put off l) = Zlen l.
Proof. induction l as [|s l IH]; intros off; [reflexivity|]. cbn [put]. rewrite !Zlen_cons, IH. reflexivity. Qed.

Lemma static_add o tell ts d k t : static o time t -> static o time (Track_addMdatData tell ts d k t).
Proof. unfold static. destruct o; auto. Qed.
Lemma static_sps o p t : static o time t -> static o time (H264_appendSPS p t).
Proof.
  unfold static, H264_appendSPS. destruct o; auto. intros (A1 & A2 & A3 & A4 & A5 & A6 & A7). destruct (t_codec t) eqn:E; [rewrite E; auto 10..|].
  destruct (_ && _); cbn [Track_set_codec t_timescale t_duration_ts t_duration_mvhd t_time t_id t_codec]; destruct c; cbn [codec_like] in *; auto 10; discriminate.
Qed.
Lemma static_pps o p t : static o time t -> static o time (H264_appendPPS p t).
Proof.
  unfold static, H264_appendPPS. destruct o; auto. intros (A1 & A2 & A3 & A4 & A5 & A6 & A7). destruct (t_codec t) eqn:E; [rewrite E; auto 10..|].
  cbn [Track_set_codec t_timescale t_duration_ts t_duration_mvhd t_time t_id t_codec]; destruct c; cbn [codec_like] in *; auto 10; discriminate.
Qed.
Lemma recorded_sps p t recs : recorded t recs -> recorded (H264_appendSPS p t) recs /\ t_current (H264_appendSPS p t) = t_current t.
Proof.
  intros H. unfold H264_appendSPS. destruct (t_codec t) eqn:E; try (split; [exact H|reflexivity]).
  destruct (_ && _); (split; [apply recorded_set_codec; [exact H|rewrite E; reflexivity]|reflexivity]).
Qed.
Lemma recorded_pps p t recs : recorded t recs -> recorded (H264_appendPPS p t) recs /\ t_current (H264_appendPPS p t) = t_current t.
Proof.
  intros H. unfold H264_appendPPS. destruct (t_codec t) eqn:E; try (split; [exact H|reflexivity]).
  (split; [apply recorded_set_codec; [exact H|rewrite E; reflexivity]|reflexivity]).
Qed.

Lemma actions_ok o ts key nid : forall acts t w m recs,
  let l := map (fun d => mk_sample ts d key) (stored_of acts) in
  winv m nid w -> recorded t recs -> static o time t -> continues t recs (base + Zlen m) ->
  Zlen recs + Zlen l < 2 ^ 32 -> Forall (fun s => Zlen (sm_data s) < 2 ^ 32) l -> Zlen (m ++ concat (stored_of acts)) < 2 ^ 64 ->
  exists t' w', track_actions ts key acts t w = Ok (t', w') /\ winv (m ++ concat (stored_of acts)) nid w' /\ static o time t' /\
    recorded t' (recs ++ put (base + Zlen m) l) /\ continues t' (recs ++ put (base + Zlen m) l) (base + Zlen (m ++ concat (stored_of acts))) /\
    (l = [] -> t_current t' = t_current t).
Proof.
  induction acts as [|a acts IH]; intros t w m recs; cbv zeta; intros W R S C N F B.
  - exists t, w. cbn [stored_in flat_map concat map put track_actions]. rewrite !app_nil_r. auto 10.
  - destruct a as [d|p|p]; cbn [stored_in flat_map app concat map track_actions] in *; fold (stored_of acts) in *.
    + inversion F as [|? ? F1 F2]; subst. cbn [sm_data] in F1. rewrite !Zlen_app in B. rewrite Zlen_cons in N.
      pose proof (Zlen_nonneg (concat (stored_of acts))). pose proof (Zlen_nonneg (map (fun d => mk_sample ts d key) (stored_of acts))).
      destruct (add_mdat m nid w d W) as (Et & w' & Ew & W'); [lia|]. unfold track_store. rewrite Ew, Et.
      set (s := mk_sample ts d key). pose proof (recorded_add t recs (base + Zlen m) s R C) as R'. cbn [s sm_data sm_ts sm_key] in R'.
      specialize (R' ltac:(lia) F1).
      assert (C' : continues (Track_addMdatData (base + Zlen m) ts d key t) (recs ++ [(base + Zlen m, s)]) (base + Zlen (m ++ d))).
      { intros _. exists (base + Zlen m, s), recs. split; [reflexivity|]. unfold size_of. cbn [fst snd sm_data s]. rewrite Zlen_app. lia. }
      destruct (IH _ w' (m ++ d) _ W' R' (static_add _ _ _ _ _ _ S) C') as (t' & w2 & E2 & W2 & S2 & R2 & C2 & _).
      { rewrite Zlen_app. change (Zlen [(base + Zlen m, s)]) with 1. lia. } { exact F2. } { rewrite !Zlen_app. lia. }
      exists t', w2. split; [exact E2|]. rewrite <- app_assoc in W2, C2, R2. rewrite <- (app_assoc m d) in C2. cbn [put sm_data]. fold s. cbn [app] in R2, C2.
      replace (base + Zlen (m ++ d)) with (base + Zlen m + Zlen d) in R2, C2 by (rewrite Zlen_app; lia).
      split; [exact W2|]. split; [exact S2|]. split; [exact R2|]. split; [|discriminate]. exact C2.
    + destruct (recorded_sps p t recs R) as [R1 R2]. rewrite <- R2. apply IH; auto using static_sps. unfold continues. rewrite R2. exact C.
    + destruct (recorded_pps p t recs R) as [R1 R2]. rewrite <- R2. apply IH; auto using static_pps. unfold continues. rewrite R2. exact C.
Qed.

(** ** Sessions *)
Definition clean (i : nat) (ops : list op) : Prop :=
  forall a mid ts d k, ops = a ++ O_AddData i ts d k :: mid -> Exists (foreign i) mid -> In (O_Terminate i) mid.
Record tinv (i : nat) (ops : list op) (t : track) : Prop := mk_tinv {
  ti_static : exists o, nth_error (created ops) i = Some o /\ static o time t;
  ti_rec : recorded t (recs_of i base (history ops));
  ti_codec : forall c, codec_of ops i = Some c -> t_codec t = expected_codec c (sps_of i ops) (pps_of i ops);
  ti_open : c_samples (t_current t) > 0 -> exists a mid ts d k, ops = a ++ O_AddData i ts d k :: mid /\ ~ In (O_Terminate i) mid;
  ti_cont : clean i ops -> continues t (recs_of i base (history ops)) (base + Zlen (media ops)) }.
Record sinv (ops : list op) (s : session) : Prop := mk_sinv {
  si_w : winv (media ops) (u32 (1 + ids_issued ops)) (s_writer s);
  si_len : length (s_tracks s) = length (created ops);
  si_tracks : forall i t, nth_error (s_tracks s) i = Some t -> tinv i ops t }.

Lemma codec_of_created ops i c : codec_of ops i = Some c -> (i < length (created ops))%nat.
Proof. unfold codec_of. intros H. apply nth_error_Some. destruct (nth_error (created ops) i); congruence. Qed.
Lemma history_known ops : Forall (fun x => match fst x with Some j => (j < length (created ops))%nat | None => True end) (history ops).
Proof.
  induction ops as [|o ops IH] using rev_ind; [constructor|]. rewrite history_snoc, created_snoc, app_length. apply Forall_app. split.
  - eapply Forall_impl; [|exact IH]. intros [[j|] s]; cbn; [lia|auto].
  - unfold stores. destruct o; try (constructor; fail); [|repeat constructor]. destruct (codec_of ops i) eqn:E; [|constructor]. apply codec_of_created in E.
    apply Forall_map, Forall_forall. intros d _. cbn. lia.
Qed.
Lemma recs_unknown i ops off : (length (created ops) <= i)%nat -> recs_of i off (history ops) = [].
Proof.
  intros H. pose proof (history_known ops) as K. revert off. induction K as [|[[j|] s] l Hx Hl IH]; intros off; [reflexivity| |]; unfold recs_of, select in *; cbn [placed flat_map fst snd].
  - replace (Nat.eqb i j) with false; [apply IH|]. symmetry. apply Nat.eqb_neq. cbn in Hx. lia.
  - apply IH.
Qed.
Lemma clean_snoc i ops o : clean i (ops ++ [o]) -> o <> O_Terminate i -> clean i ops.
Proof.
  intros H N a mid ts d k E X. specialize (H a (mid ++ [o]) ts d k). rewrite E, <- app_assoc in H. specialize (H eq_refl).
  assert (I : In (O_Terminate i) (mid ++ [o])) by (apply H; apply Exists_app; auto). apply in_app_or in I. destruct I as [I|[I|[]]]; congruence.
Qed.
Definition about (i : nat) (o : op) : Prop :=
  match o with O_AddData j _ _ _ | O_Terminate j | O_SetMediaTime j _ => j = i | _ => False end.
Lemma sets_from_snoc f i ops : forall b o, sets_from f i b (ops ++ [o]) = sets_from f i b ops ++
  match o with O_AddData j _ data _ => if Nat.eqb i j then match codec_of (b ++ ops) i with Some c => f (effects c data) | None => [] end else [] | _ => [] end.
Proof.
  induction ops as [|x ops IH]; intros b o; cbn [app sets_from]; [rewrite !app_nil_r; reflexivity|]. rewrite IH, <- !app_assoc. reflexivity.
Qed.
Lemma sets_other f i ops o : ~ about i o -> sets_from f i [] (ops ++ [o]) = sets_from f i [] ops.
Proof.
  intros H. rewrite sets_from_snoc. destruct o; try apply app_nil_r. destruct (Nat.eqb_spec i i0); [subst; exfalso; apply H; reflexivity|apply app_nil_r].
Qed.
Lemma sets_unknown f i ops : (length (created ops) <= i)%nat -> sets_from f i [] ops = [].
Proof.
  induction ops as [|o ops IH] using rev_ind; intros H; [reflexivity|]. rewrite created_snoc, app_length in H. rewrite sets_from_snoc, IH by lia.
  destruct o; try reflexivity. destruct (Nat.eqb i i0); [|reflexivity]. destruct (codec_of ([] ++ ops) i) eqn:E; [|reflexivity]. apply codec_of_created in E. cbn [app] in E. lia.
Qed.
Lemma track_actions_codec ts key c : forall acts t w t' w' sps pps, track_actions ts key acts t w = Ok (t', w') ->
  t_codec t = expected_codec c sps pps -> t_codec t' = expected_codec c (sps ++ sps_in acts) (pps ++ pps_in acts).
Proof.
  induction acts as [|a acts IH]; intros t w t' w' sps pps E H; cbn [track_actions] in E.
  - injection E as <- <-. cbn [sps_in pps_in flat_map]. rewrite !app_nil_r. exact H.
  - destruct a as [d|p|p]; unfold sps_in, pps_in; cbn [flat_map]; fold (sps_in acts) (pps_in acts).
    + destruct (track_store ts d key t w) as [[t1 w1]| |] eqn:Es; try discriminate. eapply IH; [exact E|].
      unfold track_store in Es. destruct (Writer_addMdatData d w); try discriminate. injection Es as <- _. exact H.
    + cbn [app]. replace (sps ++ p :: sps_in acts) with ((sps ++ [p]) ++ sps_in acts) by (rewrite <- app_assoc; reflexivity). eapply IH; [exact E|]. unfold H264_appendSPS. rewrite H. destruct c; cbn [expected_codec]; try exact H.
      destruct sps as [|q sps]; cbn [app].
      * change (Zlen [p]) with 1. cbn [Z.eqb Pos.eqb andb]. destruct (Zlen p >? 4); reflexivity.
      * assert (Q : (Zlen (q :: sps ++ [p]) =? 1) = false) by (rewrite Zlen_cons, Zlen_app; change (Zlen [p]) with 1; pose proof (Zlen_nonneg sps); lia).
        destruct (Zlen q >? 4); cbn [app] in *; rewrite Q; reflexivity.
    + cbn [app]. replace (pps ++ p :: pps_in acts) with ((pps ++ [p]) ++ pps_in acts) by (rewrite <- app_assoc; reflexivity). eapply IH; [exact E|]. unfold H264_appendPPS. rewrite H. destruct c; cbn [expected_codec]; try exact H.
      destruct sps as [|q sps]; [reflexivity|]. destruct (Zlen q >? 4); reflexivity.
Qed.
(** a call about something else *)
Lemma tinv_other i ops o t : tinv i ops t -> media_op o = true -> ~ about i o -> tinv i (ops ++ [o]) t.
Proof.
  intros [(c & T1 & T1') T2 T5 T3 T4] M A.
  assert (Er : recs_of i base (history (ops ++ [o])) = recs_of i base (history ops)).
  { rewrite history_snoc, recs_of_app. rewrite <- (app_nil_r (recs_of i base (history ops))) at 2. f_equal. unfold stores. destruct o; try reflexivity.
    destruct (codec_of ops i0); [|reflexivity]. rewrite <- (map_map (fun d => mk_sample timestamp d is_key) (pair (Some i0))). apply recs_of_other.
    cbn in A. congruence. }
  constructor.
  - exists c. split; [|exact T1']. rewrite created_snoc, nth_error_app1; [exact T1|]. apply nth_error_Some. congruence.
  - rewrite Er. exact T2.
  - unfold codec_of. rewrite created_snoc, nth_error_app1 by (apply nth_error_Some; congruence). intros c' Ec.
    unfold sps_of, pps_of. rewrite !sets_other by exact A. apply T5. exact Ec.
  - intros H. destruct (T3 H) as (a & mid & ts & d & k & E & N). exists a, (mid ++ [o]), ts, d, k. rewrite E, <- app_assoc. split; [reflexivity|].
    intros I. apply in_app_or in I. destruct I as [I|[I|[]]]; [auto|]. subst o. apply A. reflexivity.
  - intros C. rewrite Er. assert (D : foreign i o \/ ~ foreign i o) by (unfold foreign; destruct o; try tauto; destruct (Nat.eq_dec i0 i); tauto).
    destruct D as [D|D].
    + intros H. destruct (T3 H) as (a & mid & ts & d & k & E & N). exfalso. specialize (C a (mid ++ [o]) ts d k). rewrite E, <- app_assoc in C. specialize (C eq_refl).
      assert (I : In (O_Terminate i) (mid ++ [o])) by (apply C; apply Exists_app; right; constructor; exact D).
      apply in_app_or in I. destruct I as [I|[I|[]]]; [auto|]. subst o. apply A. reflexivity.
    + assert (Em : media (ops ++ [o]) = media ops).
      { rewrite media_snoc. unfold stores. destruct o; try (cbn; apply app_nil_r); exfalso; apply D; cbn; auto. }
      rewrite Em. apply T4. apply (clean_snoc i ops o C). intros ->. apply A. reflexivity.
Qed.

Lemma nth_error_update {A} (l : list A) : forall i j x, nth_error (update_nth i x l) j = if Nat.eqb i j then (if (i <? length l)%nat then Some x else None) else nth_error l j.
Proof.
  induction l as [|y l IH]; intros [|i] [|j] x; cbn [update_nth nth_error Nat.eqb length]; try reflexivity.
  - destruct (Nat.eqb i j); reflexivity.
  - rewrite IH. destruct (Nat.eqb i j); [|reflexivity]. reflexivity.
Qed.
Lemma update_nth_length {A} (l : list A) : forall i x, length (update_nth i x l) = length l.
Proof. induction l as [|y l IH]; intros [|i] x; cbn [update_nth length]; auto. Qed.

Lemma samples_fit_prefix a b : samples_fit (a ++ b) -> samples_fit a.
Proof.
  revert a. induction b as [|o b IH]; intros a H; [rewrite app_nil_r in H; exact H|].
  replace (a ++ o :: b) with ((a ++ [o]) ++ b) in H by (rewrite <- app_assoc; reflexivity). apply IH in H. intros i. specialize (H i).
  rewrite !samples_select in *. rewrite history_snoc, select_app in H. rewrite Zlen_app in H. destruct H as [H1 H2]. apply Forall_app in H2.
  split; [|tauto]. pose proof (Zlen_nonneg (select i (stores a o))). lia.
Qed.

Lemma codec_of_static ops i o t : nth_error (created ops) i = Some o -> static o time t -> forall data, exists acts r,
  addData_actions (t_codec t) data = Some (acts, r) /\ r <> UB /\ exists c, codec_of ops i = Some c /\ effects c data = acts.
Proof.
  intros E S data. unfold codec_of. rewrite E. unfold static in S. destruct o; try contradiction. destruct S as (_ & _ & _ & _ & _ & _ & S).
  destruct (h264_split_total data) as (acts & r & Es & Er).
  destruct c; cbn [codec_like] in S;
    try (rewrite S; exists [StoreSample data], (Ok tt); cbn [addData_actions]; split; [reflexivity|]; split; [congruence|]; eexists; split; reflexivity).
  destruct (t_codec t); try contradiction. exists acts, r. cbn [addData_actions]. split; [exact Es|]. split; [destruct Er; congruence|]. eexists. split; [reflexivity|].
  cbn [effects]. rewrite Es. reflexivity.
Qed.

Lemma step_sinv ops s o : sinv ops s -> media_op o = true -> (forall i, about i o -> (i < length (created ops))%nat) ->
  (forall i ts d k, o = O_AddData i ts d k -> clean i ops) -> samples_fit (ops ++ [o]) -> Zlen (media (ops ++ [o])) < 2 ^ 64 ->
  sinv (ops ++ [o]) (fst (step s o)) /\ snd (step s o) <> UB.
Proof.
  intros [Sw Sl St] M K C F B.
  assert (Others : forall i t, ~ about i o -> nth_error (s_tracks s) i = Some t -> tinv i (ops ++ [o]) t) by (intros; apply tinv_other; auto).
  assert (Known : forall i, about i o -> exists t, nth_error (s_tracks s) i = Some t).
  { intros i H. specialize (K i H). rewrite <- Sl in K. apply nth_error_Some in K. destruct (nth_error (s_tracks s) i); [eauto|congruence]. }
  (* updating the track the call is about *)
  assert (Upd : forall i t', about i o -> (forall j, about j o -> j = i) -> created (ops ++ [o]) = created ops -> tinv i (ops ++ [o]) t' ->
     forall w', winv (media (ops ++ [o])) (u32 (1 + ids_issued (ops ++ [o]))) w' ->
     sinv (ops ++ [o]) (mk_session w' (update_nth i t' (s_tracks s)))).
  { intros i t' Ha Hj Ec Ht w' Hw. constructor; cbn [s_writer s_tracks]; [exact Hw|rewrite update_nth_length, Sl, Ec; reflexivity|].
    intros j t. rewrite nth_error_update. destruct (Nat.eqb_spec i j) as [->|N].
    - destruct (_ <? _)%nat; [|discriminate]. intros E; injection E as <-. exact Ht.
    - intros E. apply Others; [|exact E]. intros A. apply N. symmetry. apply Hj. exact A. }
  assert (Em0 : stores ops o = [] -> media (ops ++ [o]) = media ops) by (intros E; rewrite media_snoc, E; apply app_nil_r).
  assert (Er0 : forall i, stores ops o = [] -> recs_of i base (history (ops ++ [o])) = recs_of i base (history ops)) by (intros i E; rewrite history_snoc, E, app_nil_r; reflexivity).
  destruct o; try discriminate; cbn [step].
  - (* NewTrack *)
    unfold Track_new. destruct (Z.eqb_spec id 0) as [->|N]; cbn [fst snd]; (split; [|congruence]).
    + constructor; [rewrite Em0 by reflexivity; rewrite ids_issued_snoc, Z.add_0_r; exact Sw|rewrite created_snoc, app_nil_r; exact Sl|].
      intros i t E. apply Others; [cbn; auto|exact E].
    + constructor; cbn [s_writer s_tracks]; [rewrite Em0 by reflexivity; rewrite ids_issued_snoc, Z.add_0_r; exact Sw| |].
      * rewrite created_snoc. replace (id =? 0) with false by lia. rewrite !app_length, Sl. reflexivity.
      * intros i t E. destruct (Nat.lt_ge_cases i (length (s_tracks s))) as [L|L].
        -- rewrite nth_error_app1 in E by exact L. apply Others; [cbn; auto|exact E].
        -- rewrite nth_error_app2 in E by exact L. destruct (i - length (s_tracks s))%nat as [|n] eqn:En; [|destruct n; discriminate].
           cbn [nth_error] in E. injection E as <-. assert (Ei : i = length (created ops)) by lia.
           assert (Er : recs_of i base (history (ops ++ [O_NewTrack c timescale0 duration_ts duration_mvhd media_time id])) = []).
           { rewrite Er0 by reflexivity. apply recs_unknown. lia. }
           constructor; rewrite ?Er.
           ++ exists (O_NewTrack c timescale0 duration_ts duration_mvhd media_time id). split.
              ** rewrite created_snoc. replace (id =? 0) with false by lia. rewrite Ei, nth_error_app2, Nat.sub_diag by lia. reflexivity.
              ** cbn [static t_timescale t_duration_ts t_duration_mvhd t_time t_id t_codec]. rewrite (wi_time _ _ _ Sw). repeat split; auto. destruct c; cbn; auto.
           ++ constructor; cbn [t_finalized t_sizes t_durations t_keys t_codec t_chunks t_current]; auto.
              ** destruct (is_video _); reflexivity.
              ** exists [], []. split; [reflexivity|]. split; [constructor|left; auto].
           ++ intros c'. unfold codec_of. rewrite created_snoc. replace (id =? 0) with false by lia. rewrite Ei, nth_error_app2, Nat.sub_diag by lia.
              cbn [nth_error]. intros X; injection X as <-. unfold sps_of, pps_of. rewrite !sets_other by (cbn; auto). rewrite !sets_unknown by lia.
              cbn [t_codec]. destruct c; reflexivity.
           ++ cbn. lia.
           ++ intros _ H. cbn in H. lia.
  - (* NextTrackID *)
    cbn [fst snd]. split; [|congruence]. constructor; cbn [s_writer s_tracks]; [|rewrite created_snoc, app_nil_r; exact Sl|intros i t E; apply Others; [cbn; auto|exact E]].
    rewrite Em0 by reflexivity. rewrite ids_issued_snoc. destruct Sw as [C1 C2 C3 C4 C5 C6 C7 C8 C9].
    constructor; cbn [Writer_getAndUpdateNextTrackID fst set_next_id mw_class mw_timescale mw_duration mw_time mw_ftyp mw_ftyp_size mw_mdat_size mw_next_id mw_moov mw_os mw_tmp mw_tmp_open]; auto.
    rewrite C8. unfold u32. rewrite Zplus_mod_idemp_l. f_equal. lia.
  - (* AddData *)
    destruct (Known i eq_refl) as (t & Et). rewrite Et. destruct (St i t Et) as [(o & Eo & So) Tr Tk To Tc].
    destruct (codec_of_static ops i o t Eo So data) as (acts & r & -> & Hr & c & Ec & Es).
    assert (Est : stores ops (O_AddData i timestamp data is_key) = map (pair (Some i)) (map (fun d => mk_sample timestamp d is_key) (stored_of acts))).
    { unfold stores, stored. rewrite Ec, map_map, Es. reflexivity. }
    assert (Eoct : octets_of (stores ops (O_AddData i timestamp data is_key)) = concat (stored_of acts)).
    { rewrite Est. unfold octets_of. rewrite map_map, flat_map_concat_map, map_map. cbn [snd sm_data]. rewrite map_id. reflexivity. }
    rewrite media_snoc, Eoct in B.
    destruct (F i) as [F1 F2]. rewrite samples_select, history_snoc, select_app in F1, F2.
    rewrite <- (recs_of_samples i (history ops) base), <- (recs_of_samples i (stores ops _) 0), Est, recs_of_put in F1, F2.
    rewrite Zlen_app, !Zlen_map, put_length in F1. apply Forall_app in F2. destruct F2 as [_ F2].
    assert (Ep : forall l off, map snd (put off l) = l) by (clear; induction l as [|s l IH]; intros off; [reflexivity|]; cbn [put map snd]; rewrite IH; reflexivity).
    rewrite Ep in F2.
    destruct (actions_ok o timestamp is_key (u32 (1 + ids_issued ops)) acts t (s_writer s) (media ops) (recs_of i base (history ops)) Sw Tr So (Tc (C _ _ _ _ eq_refl)) F1 F2 B)
      as (t' & w' & Ea & W' & S' & R' & C' & _).
    rewrite Ea. cbn [fst snd]. split; [|exact Hr].
    apply Upd; [reflexivity|cbn; auto|rewrite created_snoc; apply app_nil_r| |].
    + assert (Er : recs_of i base (history (ops ++ [O_AddData i timestamp data is_key])) = recs_of i base (history ops) ++ put (base + Zlen (media ops)) (map (fun d => mk_sample timestamp d is_key) (stored_of acts))).
      { rewrite history_snoc, recs_of_app, Est, recs_of_put. reflexivity. }
      constructor; rewrite ?Er.
      * exists o. rewrite created_snoc, app_nil_r. auto.
      * exact R'.
      * intros c'. unfold codec_of. rewrite created_snoc, app_nil_r. fold (codec_of ops i). rewrite Ec. intros X; injection X as <-.
        unfold sps_of, pps_of. rewrite !sets_from_snoc. cbn [app]. rewrite Nat.eqb_refl, Ec, Es.
        apply (track_actions_codec _ _ _ _ _ _ _ _ _ _ Ea). apply Tk. exact Ec.
      * intros _. exists ops, [], timestamp, data, is_key. split; [reflexivity|auto].
      * intros _. rewrite media_snoc, Eoct. exact C'.
    + rewrite media_snoc, Eoct, ids_issued_snoc, Z.add_0_r. exact W'.
  - (* Terminate *)
    destruct (Known i eq_refl) as (t & Et). unfold on_track. rewrite Et. cbn [fst snd]. split; [|congruence].
    destruct (St i t Et) as [(o & Eo & So) Tr Tk To Tc]. destruct (recorded_terminate t _ Tr) as [Tr' T0].
    apply Upd; [reflexivity|cbn; auto|rewrite created_snoc; apply app_nil_r| |].
    + constructor; rewrite ?Er0 by reflexivity.
      * exists o. rewrite created_snoc, app_nil_r. split; [exact Eo|]. clear -So. unfold static, Track_terminateCurrentChunk in *. destruct o; auto. destruct (_ >? _); exact So.
      * exact Tr'.
      * intros c'. unfold codec_of. rewrite created_snoc, app_nil_r. fold (codec_of ops i). unfold sps_of, pps_of. rewrite !sets_from_snoc, !app_nil_r.
        intros X. apply Tk in X. unfold sps_of, pps_of in X. rewrite <- X. unfold Track_terminateCurrentChunk. destruct (_ >? _); reflexivity.
      * rewrite T0. lia.
      * intros _ H. rewrite T0 in H. lia.
    + rewrite Em0, ids_issued_snoc, Z.add_0_r by reflexivity. exact Sw.
  - (* SetMediaTime *)
    destruct (Known i eq_refl) as (t & Et). unfold on_track. rewrite Et. cbn [fst snd]. split; [|congruence].
    destruct (St i t Et) as [(o & Eo & So) Tr Tk To Tc].
    apply Upd; [reflexivity|cbn; auto|rewrite created_snoc; apply app_nil_r| |].
    + constructor; rewrite ?Er0 by reflexivity.
      * exists o. rewrite created_snoc, app_nil_r. split; [exact Eo|]. clear -So. unfold static, Track_setMediaTime in *. destruct o; auto.
      * apply recorded_setMediaTime. exact Tr.
      * intros c'. unfold codec_of. rewrite created_snoc, app_nil_r. fold (codec_of ops i). unfold sps_of, pps_of. rewrite !sets_from_snoc, !app_nil_r.
        intros X. apply Tk in X. exact X.
      * intros H. destruct (To H) as (a & mid & ts & d & k & E & N). exists a, (mid ++ [O_SetMediaTime i v]), ts, d, k. rewrite E, <- app_assoc. split; [reflexivity|].
        intros X. apply in_app_or in X. destruct X as [X|[X|[]]]; [auto|discriminate].
      * intros H. rewrite Em0 by reflexivity. apply Tc. apply (clean_snoc i ops _ H). discriminate.
    + rewrite Em0, ids_issued_snoc, Z.add_0_r by reflexivity. exact Sw.
  - (* AddRaw *)
    assert (Eo : octets_of (stores ops (O_AddRaw data)) = data) by (cbn; apply app_nil_r).
    rewrite media_snoc, Eo, Zlen_app in B. destruct (add_mdat (media ops) _ _ data Sw) as (_ & w' & -> & W'); [lia|]. cbn [lift fst snd]. split; [|congruence].
    constructor; cbn [s_writer s_tracks]; [rewrite media_snoc, Eo, ids_issued_snoc, Z.add_0_r; exact W'|rewrite created_snoc, app_nil_r; exact Sl|].
    intros i t E. apply Others; [cbn; auto|exact E].
Qed.

Lemma run_app a : forall s b, run s (a ++ b) = (fst (run (fst (run s a)) b), snd (run s a) ++ snd (run (fst (run s a)) b)).
Proof.
  induction a as [|o a IH]; intros s b; cbn [app run fst snd]; [destruct (run s b); reflexivity|].
  destruct (step s o) as [s1 r]. rewrite IH. destruct (run s1 a) as [s2 rs]. reflexivity.
Qed.
Lemma run_sinv s0 ops : sinv [] s0 -> forallb media_op ops = true -> known_tracks ops -> chunks_ended ops -> samples_fit ops -> Zlen (media ops) < 2 ^ 64 ->
  sinv ops (fst (run s0 ops)) /\ Forall (fun r => r <> UB) (snd (run s0 ops)).
Proof.
  intros S0. induction ops as [|o ops IH] using rev_ind; intros M K C F B; [split; [exact S0|constructor]|].
  rewrite forallb_app in M. apply andb_prop in M. destruct M as [M1 M2]. cbn [forallb] in M2. rewrite Bool.andb_true_r in M2.
  assert (B' : Zlen (media ops) < 2 ^ 64) by (rewrite media_snoc, Zlen_app in B; pose proof (Zlen_nonneg (octets_of (stores ops o))); lia).
  destruct IH as [S R]; auto.
  { intros pre x post i E. apply (K pre x (post ++ [o]) i). rewrite E, <- app_assoc. reflexivity. }
  { intros pre mid post i ts d k ts' d' k' E. apply (C pre mid (post ++ [o]) i ts d k ts' d' k'). rewrite E, <- !app_assoc. cbn [app]. rewrite <- app_assoc. reflexivity. }
  { eapply samples_fit_prefix. exact F. }
  rewrite run_app. cbn [fst snd run]. destruct (step_sinv ops (fst (run s0 ops)) o S M2) as [S' R']; auto.
  { intros i A. apply (K ops o [] i eq_refl). destruct o; cbn in A; auto. }
  { intros i ts d k -> a mid ts' d' k' E X. apply (C a mid [] i ts' d' k' ts d k); [rewrite E, <- app_assoc; reflexivity|exact X]. }
  destruct (step (fst (run s0 ops)) o) as [s1 r]. cbn [fst snd] in *. split; [exact S'|]. apply Forall_app. split; [exact R|constructor; [exact R'|constructor]].
Qed.
End Session.
