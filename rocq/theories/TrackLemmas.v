(** Sample tables of a track, and what a track holds after any sequence of calls (C23-C27, C34, C40, C41). *)
From Coq Require Import ZifyBool Sorted FinFun.
From Verif Require Import Base BitIO BitFacts BitIOProofs Boxes WireFormat Box BoxSpec BoxSize BoxTree TreeSpec TreeProofs TreeLayout H264 Track Writers MovieSpec AnnexBSpec H264Proofs TrackProofs TrakProofs SessionProofs.
From Coq Require Import Ascii String List.
Import ListNotations.
Open Scope Z_scope.
Open Scope list_scope.

(** * Tables *)
Lemma stts_counts ds : Zlen ds < 2 ^ 32 -> total sttse_sample_count (make_stts_entries ds) = Zlen ds.
Proof.
  intros B. destruct (stts_entries_ok ds B) as (P & _). pose proof (stts_expand ds B) as E. rewrite <- E at 2. clear E B. unfold sample_durations.
  induction P as [|e l He H IH]; [reflexivity|]. unfold total. cbn [fold_right flat_map]. rewrite Zlen_app. fold (total sttse_sample_count l). rewrite IH. f_equal. unfold Zlen. rewrite repeat_length. lia.
Qed.
Lemma stts_table_ok ds : Zlen ds < 2 ^ 32 ->
  sample_durations (make_stts_entries ds) = ds /\
  total sttse_sample_count (make_stts_entries ds) = Zlen ds /\
  Forall (fun e => 0 < sttse_sample_count e < 2 ^ 32) (make_stts_entries ds) /\
  (forall pre a b post, make_stts_entries ds = pre ++ a :: b :: post -> sttse_sample_duration a <> sttse_sample_duration b).
Proof.
  intros B. destruct (stts_entries_ok ds B) as (P & Q). split; [exact (stts_expand ds B)|]. split; [exact (stts_counts ds B)|]. auto.
Qed.
Lemma stsc_table_ok chunks : Forall (fun c => 0 <= c_samples c) chunks -> Zlen chunks < 2 ^ 32 ->
  (forall i c, nth_error chunks i = Some c -> samples_in_chunk (make_stsc_entries chunks) (1 + Z.of_nat i) = c_samples c) /\
  (chunks <> [] -> exists n r, make_stsc_entries chunks = mk_stsc_entry 1 n 1 :: r) /\
  StronglySorted (fun a b => stsce_first_chunk a < stsce_first_chunk b) (make_stsc_entries chunks) /\
  Forall (fun e => 1 <= stsce_first_chunk e <= Zlen chunks /\ stsce_sample_description_index e = 1) (make_stsc_entries chunks).
Proof.
  intros F B. split; [intros i c; exact (stsc_expand chunks i c F B)|]. split; [exact (stsc_first chunks F)|].
  destruct (stsc_loop_sorted chunks (-1) 1) as (S & A); [lia|lia|]. split; [exact S|]. eapply Forall_impl; [|exact A]. cbv beta. intros e (H1 & H2 & _). lia.
Qed.
Lemma sorted_last (l : list chunk) : StronglySorted (fun a b => c_offset a <= c_offset b) l -> Forall (fun c => c_offset c <= c_offset (last l chunk0)) l.
Proof.
  induction 1 as [|c l S IH F]; [constructor|]. destruct l as [|d l]; [constructor; [cbn [last]; lia|constructor]|].
  change (last (c :: d :: l) chunk0) with (last (d :: l) chunk0). constructor; [|exact IH].
  inversion F; subst. inversion IH; subst. lia.
Qed.
Lemma offset_table_ok chunks : StronglySorted (fun a b => c_offset a <= c_offset b) chunks -> Forall (fun c => 0 <= c_offset c < 2 ^ 64) chunks ->
  let t := tree_of (make_offset_box chunks) in
  chunk_offsets [t] = Some (map c_offset chunks) /\
  (tree_type t = t_co64 <-> Exists (fun c => 2 ^ 32 <= c_offset c) chunks) /\ (tree_type t = t_co64 \/ tree_type t = t_stco).
Proof.
  intros S B. pose proof (sorted_last chunks S) as L. cbv zeta. unfold make_offset_box.
  assert (U : use_co64 chunks = true <-> Exists (fun c => 2 ^ 32 <= c_offset c) chunks).
  { unfold use_co64, UINT32_MAX. destruct chunks as [|c0 cs]; [split; [discriminate|intros X; inversion X]|]. set (l := last (c0 :: cs) chunk0) in *.
    split.
    - intros G. apply Exists_exists. exists l. split; [|lia]. subst l. destruct (exists_last (l := c0 :: cs)) as (x & y & Ey); [congruence|]. rewrite Ey, last_last. apply in_or_app. right. left. reflexivity.
    - intros X. apply Exists_exists in X. destruct X as (c & Hin & Hl). rewrite Forall_forall in L. specialize (L c Hin). lia. }
  destruct (use_co64 chunks) eqn:E.
  - split; [reflexivity|]. split; [|left; reflexivity]. split; [intros _; apply U; reflexivity|reflexivity].
  - split.
    + change (Some (map (fun c => u32 (c_offset c)) chunks) = Some (map c_offset chunks)). f_equal. apply map_ext_in. intros c Hin. apply u32_small.
      rewrite Forall_forall in B, L. specialize (B c Hin). assert (N : ~ 2 ^ 32 <= c_offset c); [|lia]. intros X. assert (false = true); [|discriminate]. apply U. apply Exists_exists. eauto.
    + split; [|right; reflexivity]. split; [intros X; discriminate X|intros X; apply U in X; discriminate].
Qed.

(** ** Sums of durations *)
Lemma sum_durations ts : forall d t, (sum (expected_durations (t :: ts) d) - (d - t)) mod 2 ^ 32 = 0.
Proof.
  induction ts as [|t' l IH]; intros d t.
  - cbn [expected_durations]. unfold sum. cbn [fold_right]. lia.
  - change (expected_durations (t :: t' :: l) d) with ((t' - t) mod 2 ^ 32 :: expected_durations (t' :: l) d). unfold sum. cbn [fold_right]. fold (sum (expected_durations (t' :: l) d)). specialize (IH d t'). lia.
Qed.
Lemma sum_durations_exact ts : forall d t, increasing (t :: ts) d -> sum (expected_durations (t :: ts) d) = d - t.
Proof.
  induction ts as [|t' l IH]; intros d t H.
  - cbn [expected_durations]. unfold sum. cbn [fold_right]. destruct H as (H & _). rewrite Z.mod_small by lia. lia.
  - change (expected_durations (t :: t' :: l) d) with ((t' - t) mod 2 ^ 32 :: expected_durations (t' :: l) d). unfold sum. cbn [fold_right]. fold (sum (expected_durations (t' :: l) d)).
    destruct H as (H & H'). rewrite (IH d t' H'). rewrite Z.mod_small by lia. lia.
Qed.
(** ** Key frames *)
Lemma sync_numbers_in l n : In n (sync_numbers l) <-> 1 <= n <= Zlen l /\ exists s, nth_error l (Z.to_nat n - 1) = Some s /\ sm_key s = true.
Proof.
  unfold sync_numbers. rewrite filter_In, in_map_iff. split.
  - intros ((k & <- & Hk) & H). apply in_seq in Hk. split; [unfold Zlen; lia|]. destruct (nth_error l (Z.to_nat (Z.of_nat k) - 1)) as [s|]; [eauto|discriminate].
  - intros (B & s & E & K). split; [|rewrite E; exact K]. exists (Z.to_nat n). split; [lia|]. apply in_seq. unfold Zlen in B. lia.
Qed.
Lemma seq_sorted n : forall a, StronglySorted Z.lt (map Z.of_nat (seq a n)).
Proof.
  induction n as [|n IH]; intros a; [constructor|]. cbn [seq map]. constructor; [apply IH|]. apply Forall_map, Forall_forall. intros x Hx. apply in_seq in Hx. lia.
Qed.
Lemma filter_sorted {A} (R : A -> A -> Prop) f l : StronglySorted R l -> StronglySorted R (filter f l).
Proof.
  induction 1 as [|x l S IH F]; [constructor|]. cbn [filter]. destruct (f x); [|exact IH]. constructor; [exact IH|].
  apply Forall_forall. intros y Hy. apply filter_In in Hy. rewrite Forall_forall in F. apply F. tauto.
Qed.
Lemma sync_numbers_sorted l : StronglySorted Z.lt (sync_numbers l).
Proof. apply filter_sorted, seq_sorted. Qed.

(** * A track after any calls *)
Definition accepting (w : mwriter) : Prop := mw_class w = Simple \/ mw_tmp_open w = true.
Lemma accepting_add d w : accepting w -> exists w', Writer_addMdatData d w = Ok w' /\ accepting w' /\ mw_time w' = mw_time w.
Proof.
  intros A. unfold Writer_addMdatData. destruct (mw_class w) eqn:E.
  - eexists. split; [reflexivity|]. split; [left; exact E|reflexivity].
  - destruct A as [A|A]; [congruence|]. rewrite A. eexists. split; [reflexivity|]. split; [right; reflexivity|reflexivity].
Qed.
(** what does not depend on the offsets of the chunks *)
Record holds (t : track) (l : list sample) : Prop := mk_holds {
  ho_fin : t_finalized t = false;
  ho_sizes : t_sizes t = map (fun s => Zlen (sm_data s)) l;
  ho_durs : forall d, t_durations t ++ (match l with [] => [] | _ => [u32 (d - t_prev t)] end) = expected_durations (map sm_ts l) d;
  ho_keys : t_keys t = if is_video (t_codec t) then sync_numbers l else [] }.
Lemma holds_add t l tell s : holds t l -> Zlen l + 1 < 2 ^ 32 -> Zlen (sm_data s) < 2 ^ 32 ->
  holds (Track_addMdatData tell (sm_ts s) (sm_data s) (sm_key s) t) (l ++ [s]).
Proof.
  intros [Hf Hs Hd Hk] B Bs. pose proof (Zlen_nonneg (sm_data s)). pose proof (Zlen_nonneg l).
  constructor; cbn [Track_addMdatData t_finalized t_sizes t_durations t_prev t_keys t_codec].
  - exact Hf.
  - rewrite Hs, map_app. cbn [map]. rewrite u32_small by lia. reflexivity.
  - intros d. rewrite Hs, map_app. cbn [map]. destruct l as [|a l].
    + cbn [map app]. specialize (Hd d). cbn [map expected_durations] in Hd. rewrite app_nil_r in Hd. rewrite Hd. reflexivity.
    + rewrite expected_durations_snoc by (cbn; congruence). rewrite <- (Hd (sm_ts s)). cbn [map app]. reflexivity.
  - rewrite is_video_handler. rewrite Hs, Hk. rewrite sync_numbers_snoc. rewrite Zlen_app, Zlen_map. cbn [Zlen].
    destruct (is_video (t_codec t)); [|reflexivity]. destruct (sm_key s); [|rewrite app_nil_r; reflexivity]. change (Zlen [u32 (Zlen (sm_data s))]) with 1. rewrite u32_small by lia. reflexivity.
Qed.
Lemma holds_terminate t l : holds t l -> holds (Track_terminateCurrentChunk t) l.
Proof. intros [Hf Hs Hd Hk]. unfold Track_terminateCurrentChunk. destruct (_ >? _); constructor; auto. Qed.
Lemma holds_media_time v t l : holds t l -> holds (Track_setMediaTime v t) l.
Proof. intros [Hf Hs Hd Hk]. constructor; auto. Qed.
Lemma holds_codec c t l : holds t l -> is_video c = is_video (t_codec t) -> holds (Track_set_codec c t) l.
Proof. intros [Hf Hs Hd Hk] E. constructor; auto. cbn [Track_set_codec t_keys t_codec]. rewrite E. exact Hk. Qed.
Lemma holds_sps p t l : holds t l -> holds (H264_appendSPS p t) l.
Proof. intros H. unfold H264_appendSPS. destruct (t_codec t) eqn:E; auto. destruct (_ && _); apply holds_codec; auto; rewrite E; reflexivity. Qed.
Lemma holds_pps p t l : holds t l -> holds (H264_appendPPS p t) l.
Proof. intros H. unfold H264_appendPPS. destruct (t_codec t) eqn:E; auto. apply holds_codec; auto; rewrite E; reflexivity. Qed.
Lemma holds_actions o time ts key : forall acts t w l,
  let n := map (fun d => mk_sample ts d key) (stored_in acts) in
  accepting w -> holds t l -> static o time t -> Zlen l + Zlen n < 2 ^ 32 -> Forall (fun s => Zlen (sm_data s) < 2 ^ 32) n ->
  exists t' w', track_actions ts key acts t w = Ok (t', w') /\ accepting w' /\ mw_time w' = mw_time w /\ holds t' (l ++ n) /\ static o time t'.
Proof.
  induction acts as [|a acts IH]; intros t w l; cbv zeta; intros A H S B F.
  - exists t, w. cbn [stored_in flat_map map track_actions]. rewrite app_nil_r. auto.
  - destruct a as [d|p|p].
    + unfold stored_in in *. cbn [flat_map] in *. fold (stored_in acts) in *. cbn [app map] in *. rewrite Zlen_cons in B. pose proof (Zlen_nonneg (map (fun d => mk_sample ts d key) (stored_in acts))). inversion F as [|? ? F1 F2]; subst. cbn [track_actions].
      destruct (accepting_add d w A) as (w' & E & A' & T'). unfold track_store. rewrite E.
      destruct (IH (Track_addMdatData (Writer_tellCurrentMdatOffset w) ts d key t) w' (l ++ [mk_sample ts d key])) as (t2 & w2 & E2 & A2 & T2 & H2 & S2); auto.
      * apply (holds_add t l _ (mk_sample ts d key)); auto. lia.
      * rewrite Zlen_app. change (Zlen [mk_sample ts d key]) with 1. lia.
      * exists t2, w2. rewrite <- app_assoc in H2. split; [exact E2|]. split; [exact A2|]. split; [congruence|]. split; [exact H2|exact S2].
    + cbn [track_actions]. apply (IH (H264_appendSPS p t) w l); auto using holds_sps. apply static_sps. exact S.
    + cbn [track_actions]. apply (IH (H264_appendPPS p t) w l); auto using holds_pps. apply static_pps. exact S.
Qed.

Lemma actions_mtime ts key : forall acts t w t' w', track_actions ts key acts t w = Ok (t', w') -> t_media_time t' = t_media_time t.
Proof.
  induction acts as [|a acts IH]; intros t w t' w' E; cbn [track_actions] in E; [injection E as <- <-; reflexivity|].
  destruct a as [d|p|p].
  - unfold track_store in E. destruct (Writer_addMdatData d w); try discriminate. apply IH in E. exact E.
  - apply IH in E. rewrite E. unfold H264_appendSPS. destruct (t_codec t); try reflexivity. destruct (_ && _); reflexivity.
  - apply IH in E. rewrite E. unfold H264_appendPPS. destruct (t_codec t); reflexivity.
Qed.
Section Any.
Variable time : Z.
(** the media time too *)
Definition mtime (i : nat) (ops : list op) (t : track) : Prop :=
  forall c tsc dts dmv mt id, nth_error (created ops) i = Some (O_NewTrack c tsc dts dmv mt id) -> t_media_time t = media_time_of i ops mt.
Record sholds (ops : list op) (s : session) : Prop := mk_sholds {
  sh_acc : accepting (s_writer s); sh_time : mw_time (s_writer s) = time;
  sh_len : length (s_tracks s) = length (created ops);
  sh_unset : forall i v, (length (created ops) <= i)%nat -> media_time_of i ops v = v;
  sh_tracks : forall i t, nth_error (s_tracks s) i = Some t ->
    (exists o, nth_error (created ops) i = Some o /\ static o time t) /\ holds t (samples_of i ops) /\
    (forall c, codec_of ops i = Some c -> t_codec t = expected_codec c (sps_of i ops) (pps_of i ops)) /\ mtime i ops t }.

Lemma codec_of_snoc ops o i : (i < length (created ops))%nat -> codec_of (ops ++ [o]) i = codec_of ops i.
Proof. intros H. unfold codec_of. rewrite created_snoc, nth_error_app1 by exact H. reflexivity. Qed.
Lemma samples_other ops o i : (match o with O_AddData j _ _ _ => j <> i | _ => True end) -> samples_of i (ops ++ [o]) = samples_of i ops.
Proof.
  intros N. rewrite !samples_select, history_snoc, select_app. rewrite <- (app_nil_r (select i (history ops))) at 2. f_equal. unfold stores. destruct o; try reflexivity.
  destruct (codec_of ops i0); [|reflexivity]. generalize (stored c data). clear -N. induction l as [|x l IH]; [reflexivity|]. cbn [map]. unfold select in *. cbn [flat_map fst]. replace (Nat.eqb i i0) with false by (symmetry; apply Nat.eqb_neq; congruence). exact IH.
Qed.
Lemma samples_unknown ops i : (length (created ops) <= i)%nat -> samples_of i ops = [].
Proof. intros H. rewrite samples_select, <- (recs_of_samples i (history ops) 0), recs_unknown by exact H. reflexivity. Qed.

Lemma mt_snoc i ops o v : media_time_of i (ops ++ [o]) v = match o with O_SetMediaTime j x => if Nat.eqb i j then x else media_time_of i ops v | _ => media_time_of i ops v end.
Proof. unfold media_time_of. rewrite fold_left_app. reflexivity. Qed.
Lemma mt_other i ops o v : ~ about i o -> media_time_of i (ops ++ [o]) v = media_time_of i ops v.
Proof. intros N. rewrite mt_snoc. destruct o; auto. destruct (Nat.eqb_spec i i0) as [->|]; [exfalso; apply N; reflexivity|reflexivity]. Qed.
Lemma step_sholds ops s o : sholds ops s -> media_op o = true -> (forall i, about i o -> (i < length (created ops))%nat) -> samples_fit (ops ++ [o]) ->
  sholds (ops ++ [o]) (fst (step s o)) /\ snd (step s o) <> UB.
Proof.
  intros [Sa Sm Sl Su St] M K F.
  assert (Others : forall i t, ~ about i o -> nth_error (s_tracks s) i = Some t ->
    (exists c, nth_error (created (ops ++ [o])) i = Some c /\ static c time t) /\ holds t (samples_of i (ops ++ [o])) /\
    (forall c, codec_of (ops ++ [o]) i = Some c -> t_codec t = expected_codec c (sps_of i (ops ++ [o])) (pps_of i (ops ++ [o]))) /\ mtime i (ops ++ [o]) t).
  { intros i t N E. destruct (St i t E) as ((c & Ec & Sc) & H & Hc & Hm). assert (L : (i < length (created ops))%nat) by (apply nth_error_Some; congruence).
    split; [exists c; split; [rewrite created_snoc, nth_error_app1 by exact L; exact Ec|exact Sc]|]. split; [|split].
    - rewrite samples_other; [exact H|]. destruct o; auto.
    - intros c' E'. rewrite codec_of_snoc in E' by exact L. unfold sps_of, pps_of. rewrite !sets_other by exact N. apply Hc. exact E'.
    - intros c' tsc dts dmv mt id E'. rewrite created_snoc, nth_error_app1 in E' by exact L. rewrite mt_other by exact N. eapply Hm. exact E'. }
  assert (Un : forall i v, (length (created (ops ++ [o])) <= i)%nat -> media_time_of i (ops ++ [o]) v = v).
  { intros i v L. rewrite created_snoc, app_length in L. rewrite mt_other; [apply Su; lia|]. intros A. apply K in A. lia. }
  assert (Known : forall i, about i o -> exists t, nth_error (s_tracks s) i = Some t).
  { intros i H. specialize (K i H). rewrite <- Sl in K. apply nth_error_Some in K. destruct (nth_error (s_tracks s) i); [eauto|congruence]. }
  assert (Upd : forall i t' w', about i o -> (forall j, about j o -> j = i) -> created (ops ++ [o]) = created ops -> accepting w' -> mw_time w' = time ->
     ((exists c, nth_error (created (ops ++ [o])) i = Some c /\ static c time t') /\ holds t' (samples_of i (ops ++ [o])) /\
     (forall c, codec_of (ops ++ [o]) i = Some c -> t_codec t' = expected_codec c (sps_of i (ops ++ [o])) (pps_of i (ops ++ [o]))) /\ mtime i (ops ++ [o]) t') ->
     sholds (ops ++ [o]) (mk_session w' (update_nth i t' (s_tracks s)))).
  { intros i t' w' Ab U Cr A' T' H. constructor; cbn [s_writer s_tracks]; auto; [rewrite update_nth_length, Cr; exact Sl|].
    intros j t E. rewrite nth_error_update in E. destruct (Nat.eqb_spec i j) as [<-|N].
    - destruct (_ <? _)%nat; [|discriminate]. injection E as <-. exact H.
    - apply Others; [|exact E]. intros X. apply U in X. congruence. }
  assert (Same : (forall i, ~ about i o) -> created (ops ++ [o]) = created ops -> forall w', accepting w' -> mw_time w' = time -> sholds (ops ++ [o]) (mk_session w' (s_tracks s))).
  { intros N Cr w' A' T'. constructor; cbn [s_writer s_tracks]; auto; rewrite Cr; exact Sl. }
  destruct o; try discriminate; cbn [step].
  - (* NewTrack *)
    unfold Track_new. pose proof (created_snoc ops (O_NewTrack c timescale duration_ts duration_mvhd media_time id)) as Cr. destruct (Z.eqb_spec id 0) as [->|Nz]; cbn [fst snd].
    + split; [|discriminate]. rewrite app_nil_r in Cr. replace s with (mk_session (s_writer s) (s_tracks s)) by (destruct s; reflexivity). apply Same; auto.
    + cbv beta iota in Cr. replace (id =? 0) with false in Cr by lia. split; [|discriminate]. constructor; cbn [s_writer s_tracks]; auto; [rewrite Cr, !app_length; cbn [length]; lia|].
      intros i t E. assert (L : (i < length (s_tracks s ++ [t]))%nat). { rewrite app_length. cbn [length]. assert (L : (i < length (s_tracks s ++ [mk_track (match c with Opus _ _ => 48000 | _ => timescale end) duration_ts duration_mvhd (mw_time (s_writer s)) media_time id (initial_codec c) false [] [] chunk0 0 [] []]))%nat) by (apply nth_error_Some; congruence). rewrite app_length in L. exact L. }
      rewrite app_length in L. cbn [length] in L. destruct (Nat.eq_dec i (length (s_tracks s))) as [->|Ni].
      * rewrite nth_error_app2, Nat.sub_diag in E by lia. injection E as <-. rewrite Sl. split; [|split; [|split]].
        -- eexists. split; [rewrite Cr, nth_error_app2, Nat.sub_diag by lia; reflexivity|]. unfold static. cbn [t_timescale t_duration_ts t_duration_mvhd t_time t_id t_codec]. repeat split; auto. destruct c; cbn; auto.
        -- rewrite samples_other by exact I. rewrite samples_unknown by lia. constructor; try reflexivity. cbn [t_keys]. destruct (is_video _); reflexivity.
        -- intros c' E'. unfold codec_of in E'. rewrite Cr, nth_error_app2, Nat.sub_diag in E' by lia. injection E' as <-.
           unfold sps_of, pps_of. rewrite !sets_other by (intros X; exact X). rewrite !sets_unknown by lia. cbn [t_codec]. destruct c; reflexivity.
        -- intros c' tsc dts dmv mt id' E'. rewrite Cr, nth_error_app2, Nat.sub_diag in E' by lia. injection E' as <- <- <- <- <- <-. cbn [t_media_time]. rewrite mt_other by (intros X; exact X). rewrite Su by lia. reflexivity.
      * rewrite nth_error_app1 in E by lia. apply Others; [intros X; exact X|exact E].
  - (* NextTrackID *)
    split; [|discriminate]. cbn [fst Writer_getAndUpdateNextTrackID]. apply Same; auto; [rewrite created_snoc; apply app_nil_r].
  - (* AddData *)
    destruct (Known i eq_refl) as (t & Et). rewrite Et. destruct (St i t Et) as ((c & Ec & Sc) & H & Hc & Hm).
    assert (L : (i < length (created ops))%nat) by (apply nth_error_Some; congruence).
    destruct (codec_of_static _ _ _ _ _ Ec Sc data) as (acts & r & Ea & Er & c0 & E0 & Ef). rewrite Ea.
    assert (Es : samples_of i (ops ++ [O_AddData i timestamp data is_key]) = samples_of i ops ++ map (fun d => mk_sample timestamp d is_key) (stored_in acts)).
    { rewrite !samples_select, history_snoc, select_app. f_equal. unfold stores. rewrite E0. unfold stored. rewrite Ef. generalize (stored_in acts). clear. induction l as [|x l IH]; [reflexivity|]. cbn [map]. unfold select in *. cbn [flat_map fst snd]. rewrite Nat.eqb_refl, IH. reflexivity. }
    destruct (F i) as (F1 & F2). rewrite Es in F1, F2. rewrite Zlen_app in F1. apply Forall_app in F2. destruct F2 as (_ & F2).
    destruct (holds_actions c time timestamp is_key acts t (s_writer s) (samples_of i ops) Sa H Sc F1 F2) as (t' & w' & E' & A' & T' & H' & S'). rewrite E'. cbn [fst snd].
    split; [|exact Er]. assert (Cr : created (ops ++ [O_AddData i timestamp data is_key]) = created ops) by (rewrite created_snoc; apply app_nil_r). apply Upd; auto; [reflexivity|congruence|]. split; [exists c; split; [rewrite Cr; exact Ec|exact S']|]. split; [rewrite Es; exact H'|].
    split; [|intros c' tsc dts dmv mt id' E2; rewrite Cr in E2; rewrite mt_snoc, (actions_mtime _ _ _ _ _ _ _ E'); eapply Hm; exact E2].
    intros c' Ec'. rewrite codec_of_snoc in Ec' by exact L. assert (c' = c0) by congruence. subst c'. unfold sps_of, pps_of. rewrite !sets_from_snoc. cbn [app]. rewrite Nat.eqb_refl, E0, Ef.
    eapply track_actions_codec; [exact E'|]. apply Hc. exact E0.
  - (* Terminate *)
    destruct (Known i eq_refl) as (t & Et). unfold on_track. rewrite Et. destruct (St i t Et) as ((c & Ec & Sc) & H & Hc & Hm). cbn [fst snd]. split; [|discriminate].
    assert (L : (i < length (created ops))%nat) by (apply nth_error_Some; congruence). assert (Cr : created (ops ++ [O_Terminate i]) = created ops) by (rewrite created_snoc; apply app_nil_r).
    apply Upd; auto; [reflexivity|]. rewrite Cr. split; [exists c; split; [exact Ec|]|split; [|split]].
    + unfold Track_terminateCurrentChunk. destruct (_ >? _); [|exact Sc]. unfold static in *. destruct c; auto.
    + rewrite samples_other by exact I. apply holds_terminate. exact H.
    + intros c' Ec'. rewrite codec_of_snoc in Ec' by exact L. unfold sps_of, pps_of. rewrite !sets_from_snoc, !app_nil_r. unfold Track_terminateCurrentChunk. destruct (_ >? _); apply Hc; exact Ec'.
    + intros c' tsc dts dmv mt id' E2. rewrite Cr in E2. rewrite mt_snoc. unfold Track_terminateCurrentChunk. destruct (_ >? _); eapply Hm; exact E2.
  - (* SetMediaTime *)
    destruct (Known i eq_refl) as (t & Et). unfold on_track. rewrite Et. destruct (St i t Et) as ((c & Ec & Sc) & H & Hc & Hm). cbn [fst snd]. split; [|discriminate].
    assert (L : (i < length (created ops))%nat) by (apply nth_error_Some; congruence). assert (Cr : created (ops ++ [O_SetMediaTime i v]) = created ops) by (rewrite created_snoc; apply app_nil_r).
    apply Upd; auto; [reflexivity|]. rewrite Cr. split; [exists c; split; [exact Ec|]|split; [|split]].
    + unfold static in *. destruct c; auto.
    + rewrite samples_other by exact I. apply holds_media_time. exact H.
    + intros c' Ec'. rewrite codec_of_snoc in Ec' by exact L. unfold sps_of, pps_of. rewrite !sets_from_snoc, !app_nil_r. apply Hc; exact Ec'.
    + intros c' tsc dts dmv mt id' E2. rewrite mt_snoc, Nat.eqb_refl. reflexivity.
  - (* AddRaw *)
    destruct (accepting_add data (s_writer s) Sa) as (w' & E & A' & T'). rewrite E. cbn [lift fst snd]. split; [|discriminate]. apply Same; auto; [|congruence]. rewrite created_snoc. apply app_nil_r.
Qed.
Lemma run_sholds l : forall ops s, sholds ops s -> forallb media_op l = true -> 
  (forall pre o post i, l = pre ++ o :: post -> about i o -> (i < length (created (ops ++ pre)))%nat) -> samples_fit (ops ++ l) ->
  sholds (ops ++ l) (fst (run s l)) /\ Forall (fun r => r <> UB) (snd (run s l)).
Proof.
  induction l as [|o l IH]; intros ops s H M K F; [cbn [run fst snd]; rewrite app_nil_r; auto|]. cbn [forallb] in M. apply andb_true_iff in M as (M1 & M2).
  assert (F1 : samples_fit (ops ++ [o])). { apply (samples_fit_prefix (ops ++ [o]) l). rewrite <- app_assoc. exact F. }
  destruct (step_sholds ops s o H M1) as (H1 & U1); [intros i A; specialize (K [] o l i eq_refl A); rewrite app_nil_r in K; exact K|exact F1|].
  cbn [run]. destruct (step s o) as (s1 & r) eqn:Es. cbn [fst snd] in *. destruct (IH (ops ++ [o]) s1 H1 M2) as (H2 & U2).
  - intros pre o' post i E A. rewrite <- app_assoc. apply (K (o :: pre) o' post i); [cbn [app]; rewrite E; reflexivity|exact A].
  - rewrite <- app_assoc. exact F.
  - destruct (run s1 l) as (s2 & rs). cbn [fst snd] in *. rewrite <- app_assoc in H2. split; [exact H2|constructor; assumption].
Qed.
End Any.
Lemma start_sholds cls timescale duration time ft : sholds time [] (start cls timescale duration time ft).
Proof.
  constructor; [destruct cls; [left|right]; reflexivity|destruct cls; reflexivity|reflexivity|intros; reflexivity|]. intros [|i] t E; discriminate.
Qed.

(** * The trak box *)
Ltac sizes_eval :=
  lazy beta iota zeta delta [trak_sizes trak_entry the_kid kids_of_type filter is_type tree_type tree_kids tree_box list_eqb obnd
    t_tkhd t_mdia t_mdhd t_minf t_stbl t_stsd t_stts t_stsc t_stsz t_stco t_co64 t_stss t_trak sample_sizes
    make_tkhd make_edts make_mdhd make_hdlr handler_array make_media_header make_dinf make_stsd make_stts make_stss make_stsc make_stsz
    make_sgpd make_sbgp make_stbl make_trak make_offset_box codec_handler tree_of new_info map
    str list_ascii_of_string nat_of_ascii N_of_ascii N_of_digits N.to_nat N.add N.mul Pos.add Pos.mul Pos.to_nat Pos.iter_op Nat.add Z.of_nat Pos.of_succ_nat Pos.succ
    Z.eqb Pos.eqb andb negb stsz_sample_size stsz_entry_sizes].
Lemma trak_sizes_ok t : trak_sizes (tree_of (make_trak t)) = Some (t_sizes t).
Proof.
  destruct t as [a b c d e f co g h ch i j k l]. destruct (use_co64 ch) eqn:E; destruct co; unfold make_trak, make_stbl, make_offset_box; cbn [t_chunks t_codec]; rewrite E; cbn [t_codec]; sizes_eval; reflexivity.
Qed.
Lemma trak_entry_ok t : trak_entry (tree_of (make_trak t)) = Some (tree_of (make_sample_entry t)).
Proof.
  destruct t as [a b c d e f co g h ch i j k l]. destruct (use_co64 ch) eqn:E; destruct co; unfold make_trak, make_stbl, make_offset_box; cbn [t_chunks t_codec]; rewrite E; cbn [t_codec]; sizes_eval; reflexivity.
Qed.
(** the boxes of a given type in a tree *)
Lemma appended moov t : exists k, Track_appendTrakBoxInfo moov t = (node_add_leaf moov k, Track_finalize t) /\ k = make_trak (Track_finalize t).
Proof. eexists. split; reflexivity. Qed.

Lemma finalize_holds t l : holds t l -> let f := Track_finalize t in
  t_sizes f = map (fun s => Zlen (sm_data s)) l /\ t_durations f = expected_durations (map sm_ts l) (t_duration_ts t) /\
  t_keys f = (if is_video (t_codec t) then sync_numbers l else []) /\ t_codec f = t_codec t /\ t_id f = t_id t /\ t_timescale f = t_timescale t.
Proof.
  intros [Hf Hs Hd Hk]. unfold Track_finalize. rewrite Hf. cbn [t_sizes t_durations t_keys t_codec t_id t_timescale]. repeat split; auto.
  rewrite Hs, <- Hd. destruct l; cbn [map]; [rewrite app_nil_r|]; reflexivity.
Qed.

(** What is appended to moov for track [i] after any calls. *)
Definition recorded_calls (ops : list op) : Prop := forallb media_op ops = true /\ known_tracks ops /\ samples_fit ops.
Lemma samples_fit_len ops i : samples_fit ops -> Zlen (samples_of i ops) < 2 ^ 32. Proof. intros F. apply (F i). Qed.
Lemma is_video_expected c a b : is_video (expected_codec c a b) = is_video c.
Proof. destruct c; try reflexivity. cbn [expected_codec]. destruct a; [reflexivity|]. destruct (_ >? _); reflexivity. Qed.
Lemma appended_trak cls timescale duration time ft ops i c tsc dts dmv mt id moov :
  recorded_calls ops -> nth_error (created ops) i = Some (O_NewTrack c tsc dts dmv mt id) ->
  let s := fst (run (start cls timescale duration time ft) ops) in
  exists t k info,
    nth_error (s_tracks s) i = Some t /\ fst (Track_appendTrakBoxInfo moov t) = node_add_leaf moov k /\
    read_trak (tree_of k) = Some info /\ tree_type (tree_of k) = t_trak /\
    i_track_id info = id /\ i_timescale info = (match c with Opus _ _ => 48000 | _ => tsc end) /\
    trak_sizes (tree_of k) = Some (map (fun s => Zlen (sm_data s)) (samples_of i ops)) /\
    i_durations info = expected_durations (map sm_ts (samples_of i ops)) dts /\
    i_sync info = (if is_video c then Some (sync_numbers (samples_of i ops)) else None) /\
    t_codec (Track_finalize t) = expected_codec c (sps_of i ops) (pps_of i ops) /\ k = make_trak (Track_finalize t).
Proof.
  intros (M & K & F) E. cbv zeta. destruct (run_sholds time ops [] _ (start_sholds cls timescale duration time ft) M) as ([_ _ Sl _ St] & _).
  - intros pre o post j Eq A. cbn [app]. apply (K pre o post j Eq). exact A.
  - exact F.
  - cbn [app] in *. set (s := fst (run _ ops)) in *.
    destruct (nth_error (s_tracks s) i) as [t|] eqn:Et; [|apply nth_error_None in Et; assert (i < length (created ops))%nat by (apply nth_error_Some; congruence); lia].
    destruct (St i t Et) as ((o & Eo & So) & H & Hc & Hm). assert (o = O_NewTrack c tsc dts dmv mt id) by congruence. subst o. destruct So as (A1 & A2 & A3 & A4 & A5 & A6 & A7).
    assert (Ec : codec_of ops i = Some c) by (unfold codec_of; rewrite E; reflexivity). specialize (Hc c Ec).
    destruct (finalize_holds t _ H) as (B1 & B2 & B3 & B4 & B5 & B6). exists t, (make_trak (Track_finalize t)). eexists. split; [reflexivity|]. split; [reflexivity|]. split; [apply read_make_trak|].
    cbn [i_track_id i_timescale i_durations i_sync]. split; [reflexivity|]. split; [congruence|]. split; [congruence|].
    split; [rewrite trak_sizes_ok, B1; reflexivity|]. split; [|split; [|split; [congruence|reflexivity]]].
    + rewrite B2, A2. apply stts_expand. rewrite expected_durations_length, Zlen_map. apply (F i).
    + rewrite B3, B4, Hc, is_video_expected. destruct (is_video c); reflexivity.
Qed.

(** * Identifiers *)
Lemma lift_next s o : (forall w, o = Ok w -> mw_next_id w = mw_next_id (s_writer s)) -> mw_next_id (s_writer (fst (lift s o))) = mw_next_id (s_writer s).
Proof. intros H. destruct o as [w| |]; cbn [lift fst s_writer]; auto. Qed.
Lemma setOffset_next w w' : Writer_setOffsetAndSize w = Ok w' -> mw_next_id w' = mw_next_id w.
Proof.
  unfold Writer_setOffsetAndSize. destruct (mw_moov w); [|discriminate]. destruct (mw_ftyp_size w); [|discriminate]. destruct (BoxInfo_adjustOffsetAndSize _ _) as [[m' z']| |]; try discriminate. intros E. injection E as <-. reflexivity.
Qed.
Lemma addMdat_next d w w' : Writer_addMdatData d w = Ok w' -> mw_next_id w' = mw_next_id w.
Proof. unfold Writer_addMdatData. destruct (mw_class w); [|destruct (mw_tmp_open w); [|discriminate]]; intros E; injection E as <-; reflexivity. Qed.
Lemma actions_next ts key : forall acts t w t' w', track_actions ts key acts t w = Ok (t', w') -> mw_next_id w' = mw_next_id w.
Proof.
  induction acts as [|a acts IH]; intros t w t' w' E; cbn [track_actions] in E; [injection E as <- <-; reflexivity|].
  destruct a; [|eapply IH; exact E|eapply IH; exact E]. unfold track_store in E. destruct (Writer_addMdatData d w) as [w1| |] eqn:Ea; try discriminate.
  apply IH in E. apply addMdat_next in Ea. congruence.
Qed.
Lemma write_moov_next w w' : write_moov_tree w = Ok w' -> mw_next_id w' = mw_next_id w.
Proof. unfold write_moov_tree. destruct (mw_moov w); [|discriminate]. destruct (BoxInfo_write _ _) as [[m' o']| |]; try discriminate. intros E. injection E as <-. reflexivity. Qed.
Lemma iter_next sel s p z s' z' : Faststart_iter sel s p z = Ok (s', z') -> mw_next_id (s_writer s') = mw_next_id (s_writer s).
Proof.
  unfold Faststart_iter, Faststart_recreateMoovBoxInfo, obind. destruct (Writer_setOffsetAndSize (set_moov _ (s_writer s))) as [w1| |] eqn:E1; try discriminate. apply setOffset_next in E1.
  destruct (mw_moov w1); [|discriminate]. destruct (append_traks _ _ _ _) as [[m' ts']| |]; try discriminate. destruct (Writer_setOffsetAndSize (set_moov _ w1)) as [w2| |] eqn:E2; try discriminate. apply setOffset_next in E2.
  destruct (Faststart_size w2) as [sz| |]; try discriminate. destruct (_ <? _); [discriminate|]. intros E. injection E as <- <-. cbn [s_writer]. cbn in E1, E2. congruence.
Qed.
Lemma loop_next fuel : forall sel s p z s', Faststart_loop fuel sel s p z = Some (Ok s') -> mw_next_id (s_writer s') = mw_next_id (s_writer s).
Proof.
  induction fuel as [|f IH]; intros sel s p z s' E; [discriminate|]. cbn [Faststart_loop] in E. destruct (Faststart_iter sel s p z) as [[s1 z1]| |] eqn:Ei; try discriminate.
  apply iter_next in Ei. destruct (negb _); [apply IH in E; congruence|]. injection E as <-. exact Ei.
Qed.
Lemma step_next s o : mw_next_id (s_writer (fst (step s o))) = (match o with O_NextTrackID => u32 (mw_next_id (s_writer s) + 1) | _ => mw_next_id (s_writer s) end).
Proof.
  assert (T : forall i f, mw_next_id (s_writer (fst (on_track i f s))) = mw_next_id (s_writer s)) by (intros i f; unfold on_track; destruct (nth_error _ _); reflexivity).
  destruct o; cbn [step]; try apply T.
  - unfold Track_new. destruct (id =? 0); reflexivity.
  - reflexivity.
  - destruct (nth_error _ _); [|reflexivity]. destruct (addData_actions _ _) as [[acts r]|]; [|reflexivity]. destruct (track_actions _ _ _ _ _) as [[t' w']| |] eqn:E; try reflexivity. apply actions_next in E. exact E.
  - apply lift_next. intros w. apply addMdat_next.
  - apply lift_next. unfold Writer_writeFtypBox. intros w. destruct (BoxInfo_adjustOffsetAndSize _ _) as [[n z]| |]; try discriminate. destruct (BoxInfo_write _ _) as [[n' o']| |]; try discriminate. destruct (BoxInfo_getSize _); try discriminate. destruct (mw_class (s_writer s)); intros E; injection E as <-; reflexivity.
  - destruct (mw_class (s_writer s)).
    + unfold Simple_append, obind. destruct (mw_moov _); [|reflexivity]. destruct (append_traks _ _ _ _) as [[m' ts']| |]; reflexivity.
    + unfold Faststart_append. destruct (Faststart_size _) as [z| |]; try reflexivity. destruct (Faststart_loop _ _ _ _ _) as [[s'| |]|] eqn:E; try reflexivity. apply loop_next in E. exact E.
  - apply lift_next. unfold SimpleWriter_writeFreeBoxAndMdatHeader. intros w. destruct (mw_ftyp_size _); [|discriminate]. destruct (_ >? _); [intros E; injection E as <-; reflexivity|].
    destruct (BoxInfo_adjustOffsetAndSize _ _) as [[n z']| |]; try discriminate. destruct (BoxInfo_write _ _) as [[n' o']| |]; try discriminate. destruct (BoxInfo_getSize _); try discriminate. intros E; injection E as <-; reflexivity.
  - apply lift_next. unfold Faststart_writeMdatHeader, obind. intros w. destruct (mw_ftyp_size _); [|discriminate]. destruct (Faststart_getMoovSize _); try discriminate. intros E; injection E as <-; reflexivity.
  - apply lift_next. unfold Writer_writeMoovBox, obind. intros w. destruct (mw_class _).
    + destruct (Writer_setOffsetAndSize _) eqn:E1; try discriminate. intros E. apply write_moov_next in E. apply setOffset_next in E1. congruence.
    + destruct (mw_ftyp_size _); [|discriminate]. intros E. apply write_moov_next in E. exact E.
  - apply lift_next. unfold Faststart_copyMdatData. intros w. destruct (mw_tmp_open _); [|discriminate]. destruct (copy_loop _ _ _ _); [|discriminate]. intros E; injection E as <-; reflexivity.
Qed.
Lemma issued_from ops : forall s n, 0 <= n -> mw_next_id (s_writer s) = u32 n ->
  issued s ops = map (fun k => u32 (n + Z.of_nat k)) (seq 0 (Z.to_nat (ids_issued ops))) /\
  mw_next_id (s_writer (fst (run s ops))) = u32 (n + ids_issued ops).
Proof.
  induction ops as [|o l IH]; intros s n H E; [cbn [issued run fst]; split; [reflexivity|rewrite E; f_equal; change (ids_issued []) with 0; lia]|].
  cbn [issued run]. pose proof (step_next s o) as Sn. destruct (step s o) as [s1 r1] eqn:Es. cbn [fst] in *.
  assert (Nn : 0 <= ids_issued l) by apply Zlen_nonneg.
  destruct o; try (assert (En : ids_issued (O_NextTrackID :: l) = 1 + ids_issued l) by (unfold ids_issued; cbn [filter]; apply Zlen_cons)).
  2: { destruct (IH s1 (n + 1)) as (I1 & I2); [lia|rewrite Sn, E; unfold u32; rewrite Zplus_mod_idemp_l; reflexivity|].
    rewrite En. split.
    - rewrite I1. cbn [Writer_getAndUpdateNextTrackID snd app]. replace (Z.to_nat (1 + ids_issued l)) with (S (Z.to_nat (ids_issued l))) by lia. cbn [seq map]. f_equal; [rewrite E; f_equal; lia|].
      rewrite <- seq_shift, map_map. apply map_ext. intros k. f_equal. lia.
    - destruct (run s1 l). cbn [fst] in *. rewrite I2. f_equal. lia. }
  all: match goal with |- context [ids_issued (?o :: ?l)] => change (ids_issued (o :: l)) with (ids_issued l) end; match goal with |- context [run ?s1 ?l] => destruct (IH s1 n) as (I1 & I2); [lia|congruence|]; split; [exact I1|]; destruct (run s1 l); exact I2 end.
Qed.
Lemma issued_ok cls timescale duration time ft ops : ids_issued ops < 2 ^ 32 ->
  issued (start cls timescale duration time ft) ops = map Z.of_nat (seq 1 (Z.to_nat (ids_issued ops))).
Proof.
  intros B. destruct (issued_from ops (start cls timescale duration time ft) 1) as (I & _); [lia|destruct cls; reflexivity|]. rewrite I, <- seq_shift, map_map. apply map_ext_in. intros k Hk. apply in_seq in Hk.
  pose proof (Zlen_nonneg (filter (fun o => match o with O_NextTrackID => true | _ => false end) ops)). unfold ids_issued in *. rewrite u32_small; lia.
Qed.
Lemma ids_ok cls timescale duration time ft ops : ids_issued ops < 2 ^ 32 ->
  let l := issued (start cls timescale duration time ft) ops in
  l = map Z.of_nat (seq 1 (Z.to_nat (ids_issued ops))) /\ NoDup l /\ ~ In 0 l /\ Forall (fun id => id <= ids_issued ops) l.
Proof.
  intros B. cbv zeta. rewrite (issued_ok cls timescale duration time ft ops B). assert (0 <= ids_issued ops) by apply Zlen_nonneg.
  split; [reflexivity|]. split; [|split].
  - apply FinFun.Injective_map_NoDup; [intros a b E; lia|apply seq_NoDup].
  - intros X. apply in_map_iff in X. destruct X as (k & E & Hk). apply in_seq in Hk. lia.
  - apply Forall_map, Forall_forall. intros k Hk. apply in_seq in Hk. lia.
Qed.
Lemma trak_box_ok moov t : exists k info,
  fst (Track_appendTrakBoxInfo moov t) = node_add_leaf moov k /\ tree_type (tree_of k) = t_trak /\ read_trak (tree_of k) = Some info /\
  i_track_id info = t_id t /\ i_timescale info = t_timescale t /\ (i_sync info <> None <-> is_video (t_codec t) = true).
Proof.
  exists (make_trak (Track_finalize t)). eexists. split; [reflexivity|]. split; [reflexivity|]. split; [apply read_make_trak|]. cbn [i_track_id i_timescale i_sync].
  unfold Track_finalize. destruct (t_finalized t); cbn [t_id t_timescale t_codec t_keys]; (split; [reflexivity|]; split; [reflexivity|]; destruct (is_video (t_codec t)); split; congruence).
Qed.
Lemma zero_refused c timescale dts dmv time mt id : (exists t, Track_new c timescale dts dmv time mt id = Ok t) <-> id <> 0.
Proof. unfold Track_new. destruct (Z.eqb_spec id 0); split; [intros (t & E); discriminate|congruence|auto|eauto]. Qed.
