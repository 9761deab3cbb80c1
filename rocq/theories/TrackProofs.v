(** Proofs about sample tables and recording (Track.v against MovieSpec.v). *)
From Verif Require Import Base BitIO BitFacts BitIOProofs Boxes Box BoxTree TreeSpec TreeProofs TreeLayout H264 Track Writers MovieSpec.
From Coq Require Import Sorted.

Lemma u32_small v : 0 <= v < 2 ^ 32 -> u32 v = v. Proof. apply Z.mod_small. Qed.

(** * Time to sample *)
Lemma stts_loop_expand l : forall d c, 0 < c -> c + Zlen l < 2 ^ 32 ->
  sample_durations (stts_loop d c l) = repeat d (Z.to_nat c) ++ l.
Proof.
  induction l as [|x l IH]; intros d c H B; cbn [stts_loop].
  - replace (c >? 0) with true by lia. unfold sample_durations. cbn [flat_map sttse_sample_duration sttse_sample_count]. reflexivity.
  - rewrite Zlen_cons in B. pose proof (Zlen_nonneg l). destruct (Z.eqb_spec d x) as [->|N].
    + rewrite u32_small by lia. rewrite IH by lia. replace (Z.to_nat (c + 1)) with (Z.to_nat c + 1)%nat by lia.
      rewrite repeat_app, <- app_assoc. reflexivity.
    + unfold sample_durations in *. cbn [flat_map sttse_sample_duration sttse_sample_count]. rewrite IH by lia. reflexivity.
Qed.
Lemma stts_expand ds : Zlen ds < 2 ^ 32 -> sample_durations (make_stts_entries ds) = ds.
Proof.
  destruct ds as [|d l]; intros B; [reflexivity|]. rewrite Zlen_cons in B. cbn [make_stts_entries]. rewrite stts_loop_expand by lia. reflexivity.
Qed.
Lemma stts_loop_head l : forall d c, 0 < c -> c + Zlen l < 2 ^ 32 ->
  exists n r, stts_loop d c l = mk_stts_entry n d :: r /\ 0 < n < 2 ^ 32 /\
    Forall (fun e => 0 < sttse_sample_count e < 2 ^ 32) r /\
    (forall pre a b post, mk_stts_entry n d :: r = pre ++ a :: b :: post -> sttse_sample_duration a <> sttse_sample_duration b).
Proof.
  induction l as [|x l IH]; intros d c H B; cbn [stts_loop].
  - replace (c >? 0) with true by lia. exists c, []. rewrite (@Zlen_nil Z) in B. repeat split; try constructor; try lia.
    intros [|? [|]] ? ? ? E; inversion E.
  - rewrite Zlen_cons in B. pose proof (Zlen_nonneg l). destruct (Z.eqb_spec d x) as [->|N].
    + rewrite u32_small by lia. apply IH; lia.
    + destruct (IH x 1) as (n & r & E & Hn & Hr & Hd); [lia|lia|]. rewrite E. exists c, (mk_stts_entry n x :: r).
      repeat split; try lia; [constructor; [cbn; lia|exact Hr]|].
      intros [|p pre] a b post E'.
      * cbn [app] in E'. injection E' as <- <- _. exact N.
      * cbn [app] in E'. injection E' as _ E'. eapply Hd. exact E'.
Qed.
Lemma stts_entries_ok ds : Zlen ds < 2 ^ 32 ->
  Forall (fun e => 0 < sttse_sample_count e < 2 ^ 32) (make_stts_entries ds) /\
  (forall pre a b post, make_stts_entries ds = pre ++ a :: b :: post -> sttse_sample_duration a <> sttse_sample_duration b).
Proof.
  destruct ds as [|d l]; intros B; [split; [constructor|intros [|] ? ? ? E; inversion E]|]. rewrite Zlen_cons in B. cbn [make_stts_entries].
  destruct (stts_loop_head l d 1) as (n & r & E & Hn & Hr & Hd); [lia|lia|]. rewrite E. split; [constructor; [exact Hn|exact Hr]|exact Hd].
Qed.

(** * Sample to chunk *)
Definition sic (k n : Z) (e : stsc_entry) : Z := if stsce_first_chunk e <=? k then stsce_sample_per_chunk e else n.
Lemma stsc_loop_u32 l q no : 0 <= no -> no + (1 + Zlen l) <= 2 ^ 32 -> stsc_loop q (u32 (no + 1)) l = stsc_loop q (no + 1) l.
Proof. intros H B. destruct l; [reflexivity|]. rewrite Zlen_cons in B. pose proof (Zlen_nonneg l). rewrite u32_small by lia. reflexivity. Qed.
Lemma stsc_loop_before l : forall p no k acc, 0 <= no -> no + Zlen l <= 2 ^ 32 -> k < no -> fold_left (sic k) (stsc_loop p no l) acc = acc.
Proof.
  induction l as [|c l IH]; intros p no k acc H B K; [reflexivity|]. rewrite Zlen_cons in B. pose proof (Zlen_nonneg l). cbn [stsc_loop].
  rewrite !stsc_loop_u32 by lia. destruct (negb _); [|apply IH; lia]. cbn [fold_left]. rewrite IH by lia. unfold sic. cbn [stsce_first_chunk].
  replace (no <=? k) with false by lia. reflexivity.
Qed.
Lemma stsc_loop_at l : forall p no i c, 0 <= no -> no + Zlen l <= 2 ^ 32 -> nth_error l i = Some c ->
  fold_left (sic (no + Z.of_nat i)) (stsc_loop p no l) p = c_samples c.
Proof.
  induction l as [|x l IH]; intros p no i c H B K; [destruct i; discriminate|]. rewrite Zlen_cons in B. pose proof (Zlen_nonneg l). cbn [stsc_loop].
  rewrite !stsc_loop_u32 by lia.
  assert (E : fold_left (sic (no + Z.of_nat i)) (if negb (p =? c_samples x) then mk_stsc_entry no (c_samples x) 1 :: stsc_loop (c_samples x) (no + 1) l
      else stsc_loop p (no + 1) l) p = fold_left (sic (no + Z.of_nat i)) (stsc_loop (c_samples x) (no + 1) l) (c_samples x)).
  { destruct (Z.eqb_spec p (c_samples x)) as [->|N]; [reflexivity|]. cbn [negb fold_left]. f_equal. unfold sic. cbn [stsce_first_chunk stsce_sample_per_chunk].
    replace (no <=? no + Z.of_nat i) with true by lia. reflexivity. }
  rewrite E. destruct i as [|i].
  - injection K as <-. apply stsc_loop_before; lia.
  - cbn [nth_error] in K. replace (no + Z.of_nat (S i)) with (no + 1 + Z.of_nat i) by lia. apply IH; try lia. exact K.
Qed.
Lemma stsc_expand chunks i c : Forall (fun c => 0 <= c_samples c) chunks -> Zlen chunks < 2 ^ 32 -> nth_error chunks i = Some c ->
  samples_in_chunk (make_stsc_entries chunks) (1 + Z.of_nat i) = c_samples c.
Proof.
  intros F B K. unfold make_stsc_entries, samples_in_chunk. change (fold_left (sic (1 + Z.of_nat i)) (stsc_loop (-1) 1 chunks) 0 = c_samples c).
  destruct chunks as [|x l]; [destruct i; discriminate|]. inversion F; subst. rewrite <- (stsc_loop_at (x :: l) (-1) 1 i c); try lia; [|exact K].
  cbn [stsc_loop]. replace (-1 =? c_samples x) with false by lia. cbn [negb fold_left]. f_equal. unfold sic. cbn [stsce_first_chunk stsce_sample_per_chunk].
  replace (1 <=? 1 + Z.of_nat i) with true by lia. reflexivity.
Qed.
(** chunk numbers strictly increase from 1, within the chunks *)
Lemma stsc_loop_sorted l : forall p no, 0 <= no -> no + Zlen l <= 2 ^ 32 ->
  StronglySorted (fun a b => stsce_first_chunk a < stsce_first_chunk b) (stsc_loop p no l) /\
  Forall (fun e => no <= stsce_first_chunk e < no + Zlen l /\ stsce_sample_description_index e = 1 /\ In (stsce_sample_per_chunk e) (map c_samples l)) (stsc_loop p no l).
Proof.
  induction l as [|c l IH]; intros p no H B; [split; constructor|]. rewrite Zlen_cons in *. pose proof (Zlen_nonneg l). cbn [stsc_loop].
  rewrite !stsc_loop_u32 by lia.
  assert (W : forall q, Forall (fun e => no <= stsce_first_chunk e < no + (1 + Zlen l) /\ stsce_sample_description_index e = 1 /\ In (stsce_sample_per_chunk e) (map c_samples (c :: l))) (stsc_loop q (no + 1) l)).
  { intros q. destruct (IH q (no + 1)) as [_ F]; try lia. eapply Forall_impl; [|exact F]. cbv beta. intros e (A1 & A2 & A3). split; [lia|]. split; [exact A2|]. right. exact A3. }
  destruct (negb _).
  - destruct (IH (c_samples c) (no + 1)) as [S F]; try lia. split.
    + constructor; [exact S|]. eapply Forall_impl; [|exact F]. cbv beta. cbn [stsce_first_chunk]. intros. lia.
    + constructor; [cbn [stsce_first_chunk stsce_sample_description_index stsce_sample_per_chunk map]; split; [lia|]; split; [reflexivity|left; reflexivity]|apply W].
  - destruct (IH p (no + 1)) as [S F]; try lia. split; [exact S|apply W].
Qed.
Lemma stsc_first chunks : Forall (fun c => 0 <= c_samples c) chunks -> chunks <> [] ->
  exists n r, make_stsc_entries chunks = mk_stsc_entry 1 n 1 :: r.
Proof.
  intros F N. destruct chunks as [|c l]; [congruence|]. inversion F; subst. unfold make_stsc_entries. cbn [stsc_loop].
  replace (-1 =? c_samples c) with false by lia. cbn [negb]. eauto.
Qed.

(** * Locating samples *)
Definition loc (r : Z * sample) : Z * Z := (fst r, Zlen (sm_data (snd r))).
Definition chunk_ok (c : chunk) (g : list (Z * sample)) : Prop :=
  g <> [] /\ c_samples c = Zlen g /\ map loc g = consecutive (c_offset c) (map (fun r => Zlen (sm_data (snd r))) g).

Lemma locate_groups stsc cs gs : Forall2 chunk_ok cs gs -> forall k rest,
  (forall i g, nth_error gs i = Some g -> samples_in_chunk stsc (k + Z.of_nat i) = Zlen g) ->
  locate stsc k (map c_offset cs) (map (fun r => Zlen (sm_data (snd r))) (concat gs ++ rest)) = map loc (concat gs).
Proof.
  induction 1 as [|c g cs gs (Hg & Hn & Hc) H IH]; intros k rest HS; [reflexivity|]. cbn [map locate concat].
  pose proof (HS 0%nat g eq_refl) as S0. rewrite Z.add_0_r in S0. rewrite S0. rewrite <- app_assoc, map_app.
  rewrite firstn_exact, skipn_exact by (rewrite map_length; unfold Zlen; lia).
  rewrite (map_app loc), <- Hc. f_equal. apply IH. intros i g' Hi. replace (k + 1 + Z.of_nat i) with (k + Z.of_nat (S i)) by lia. apply (HS (S i)). exact Hi.
Qed.
Lemma Forall2_nth_r {A B} (P : A -> B -> Prop) l l' : Forall2 P l l' -> forall i y, nth_error l' i = Some y -> exists x, nth_error l i = Some x /\ P x y.
Proof. induction 1 as [|a b l l' Hab H IH]; intros [|i] y E; try discriminate; [injection E as <-; exists a; auto|apply IH; exact E]. Qed.
Lemma locations_groups cs gs : Forall2 chunk_ok cs gs -> Zlen cs < 2 ^ 32 ->
  sample_locations (make_stsc_entries cs) (map c_offset cs) (map (fun r => Zlen (sm_data (snd r))) (concat gs)) = map loc (concat gs).
Proof.
  intros H B. unfold sample_locations. rewrite <- (app_nil_r (concat gs)) at 1. apply locate_groups; [exact H|].
  intros i g Hg. destruct (Forall2_nth_r _ _ _ H i g Hg) as (c & Hc & (_ & Hn & _)). rewrite <- Hn. apply stsc_expand; [|exact B|exact Hc].
  clear -H. induction H as [|c g cs gs (_ & E & _) H IH]; constructor; [rewrite E; unfold Zlen; lia|exact IH].
Qed.

(** * Recording *)

Definition codec_like (c0 c : codec) : Prop :=
  match c0, c with
  | H264 w h cv _ _ _ _ _, H264 w' h' cv' _ _ _ _ _ => w' = w /\ h' = h /\ cv' = cv
  | H264 _ _ _ _ _ _ _ _, _ => False
  | _, _ => c = c0
  end.
(** The parameters of a track are those of its constructor call. *)
Definition static (o : op) (time : Z) (t : track) : Prop :=
  match o with
  | O_NewTrack c tsc dts dmv mt id =>
      t_timescale t = (match c with Opus _ _ => 48000 | _ => tsc end) /\ t_duration_ts t = dts /\ t_duration_mvhd t = dmv /\
      t_time t = time /\ t_id t = id /\ id <> 0 /\ codec_like c (t_codec t)
  | _ => False
  end.


Definition size_of (r : Z * sample) : Z := Zlen (sm_data (snd r)).
(** [recorded t recs]: what the members of an unfinished track are after storing [recs] at the given offsets, not counting
    its constant members. *)
Record recorded (t : track) (recs : list (Z * sample)) : Prop := mk_recorded {
  rec_fin : t_finalized t = false;
  rec_sizes : t_sizes t = map size_of recs;
  rec_durs : forall d, t_durations t ++ (match recs with [] => [] | _ => [u32 (d - t_prev t)] end) = expected_durations (map (fun r => sm_ts (snd r)) recs) d;
  rec_keys : t_keys t = if is_video (t_codec t) then sync_numbers (map snd recs) else [];
  rec_groups : exists gs g, concat gs ++ g = recs /\ Forall2 chunk_ok (t_chunks t) gs /\
     ((g = [] /\ t_current t = chunk0) \/ (chunk_ok (t_current t) g /\ c_initialized (t_current t) = true)) }.

Lemma consecutive_snoc l : forall o s, consecutive o (l ++ [s]) = consecutive o l ++ [(o + fold_right Z.add 0 l, s)].
Proof.
  induction l as [|x l IH]; intros o s; cbn [app consecutive fold_right]; [rewrite Z.add_0_r; reflexivity|]. rewrite IH. cbn [app]. do 4 f_equal. lia.
Qed.
Lemma expected_durations_snoc ts : forall d t, ts <> [] ->
  expected_durations (ts ++ [t]) d = expected_durations ts t ++ [u32 (d - t)].
Proof.
  induction ts as [|x l IH]; intros d t N; [congruence|]. destruct l as [|y l]; [reflexivity|].
  change ((x :: y :: l) ++ [t]) with (x :: (y :: l) ++ [t]). cbn [expected_durations]. cbn [app]. f_equal.
  change (y :: l ++ [t]) with ((y :: l) ++ [t]). change (expected_durations ((y :: l) ++ [t]) d = expected_durations (y :: l) t ++ [u32 (d - t)]).
  apply IH. congruence.
Qed.
Lemma filter_ext_in' {A} (f g : A -> bool) l : (forall x, In x l -> f x = g x) -> filter f l = filter g l.
Proof. apply filter_ext_in. Qed.
Lemma sync_numbers_snoc l s : sync_numbers (l ++ [s]) = sync_numbers l ++ (if sm_key s then [Zlen l + 1] else []).
Proof.
  unfold sync_numbers. rewrite app_length. cbn [length]. rewrite seq_app, map_app, filter_app. f_equal.
  - apply filter_ext_in. intros n Hn. apply in_map_iff in Hn. destruct Hn as (k & <- & Hk). apply in_seq in Hk.
    rewrite nth_error_app1 by lia. reflexivity.
  - cbn [seq map filter]. rewrite nth_error_app2 by lia. replace (Z.to_nat (Z.of_nat (1 + length l)) - 1 - length l)%nat with 0%nat by lia.
    cbn [nth_error]. unfold Zlen. destruct (sm_key s); [|reflexivity]. do 2 f_equal. lia.
Qed.
Lemma sync_numbers_nil : sync_numbers [] = []. Proof. reflexivity. Qed.
Lemma is_video_handler c : codec_handler c = if is_video c then vide else soun. Proof. destruct c; reflexivity. Qed.

(** where the open chunk ends, if there is one *)
Definition continues (t : track) (recs : list (Z * sample)) (tell : Z) : Prop :=
  c_samples (t_current t) > 0 -> exists r l, recs = l ++ [r] /\ fst r + size_of r = tell.

Lemma map_snoc_inv {A B} (f : A -> B) l x y : map f l = x ++ [y] -> exists l' z, l = l' ++ [z] /\ map f l' = x /\ f z = y.
Proof.
  intros H. destruct (rev l) as [|z l'] eqn:E.
  - apply (f_equal (@rev A)) in E. rewrite rev_involutive in E. subst l. destruct x; discriminate.
  - apply (f_equal (@rev A)) in E. rewrite rev_involutive in E. cbn [rev] in E. subst l. rewrite map_app in H. cbn [map] in H.
    apply app_inj_tail in H. destruct H. eauto.
Qed.
Lemma chunk_end c g r l : chunk_ok c g -> g = l ++ [r] -> fst r + size_of r = c_offset c + fold_right Z.add 0 (map size_of g).
Proof.
  intros (_ & _ & H) ->. change (map (fun r => Zlen (sm_data (snd r))) (l ++ [r])) with (map size_of (l ++ [r])) in H. rewrite !map_app in H. cbn [map] in H. rewrite consecutive_snoc in H.
  apply app_inj_tail in H. destruct H as [_ H]. unfold loc in H. injection H as H. rewrite H.
  rewrite map_app, fold_right_app. cbn [map fold_right].
  assert (E : forall x y, fold_right Z.add y x = y + fold_right Z.add 0 x) by (clear; induction x as [|a x IH]; intros y; cbn [fold_right]; [lia|rewrite IH; lia]).
  rewrite (E _ (size_of r + 0)). lia.
Qed.

Lemma recorded_add t recs tell s : recorded t recs -> continues t recs tell -> Zlen recs + 1 < 2 ^ 32 -> Zlen (sm_data s) < 2 ^ 32 ->
  recorded (Track_addMdatData tell (sm_ts s) (sm_data s) (sm_key s) t) (recs ++ [(tell, s)]).
Proof.
  intros [Hf Hs Hd Hk (gs & g & Hr & Hc & Hg)] Hcont B Bs. pose proof (Zlen_nonneg (sm_data s)).
  constructor; cbn [Track_addMdatData t_finalized t_sizes t_durations t_prev t_keys t_codec t_chunks t_current].
  - exact Hf.
  - rewrite Hs, map_app. cbn [map size_of snd]. rewrite u32_small by lia. reflexivity.
  - intros d. rewrite map_app. cbn [map snd]. destruct recs as [|r0 recs0] eqn:E.
    + rewrite Hs. cbn [map app]. specialize (Hd d). cbn in Hd. rewrite app_nil_r in Hd. rewrite Hd. reflexivity.
    + rewrite Hs. cbn [map]. specialize (Hd (sm_ts s)). cbn [map] in Hd.
      rewrite expected_durations_snoc by congruence. rewrite <- Hd. cbn [app]. reflexivity.
  - rewrite is_video_handler. rewrite map_app. cbn [map snd]. rewrite sync_numbers_snoc, Hk, Hs. rewrite !Zlen_app, !Zlen_map. cbn [Zlen].
    destruct (is_video (t_codec t)); [|reflexivity]. destruct (sm_key s); [|rewrite app_nil_r; reflexivity].
    change (Zlen [u32 (Zlen (sm_data s))]) with 1. rewrite u32_small by (pose proof (Zlen_nonneg recs); lia). reflexivity.
  - exists gs, (g ++ [(tell, s)]). split; [rewrite app_assoc, Hr; reflexivity|]. split; [exact Hc|]. right.
    destruct Hg as [(-> & Hcur)|(Hg & Hi)].
    + rewrite Hcur. cbn [chunk0 c_initialized negb c_samples c_offset app]. split; [|reflexivity]. split; [congruence|]. split; [reflexivity|reflexivity].
    + rewrite Hi. cbn [negb c_initialized]. split; [|exact Hi].
      assert (Lg : Zlen g <= Zlen recs) by (rewrite <- Hr, Zlen_app; pose proof (Zlen_nonneg (concat gs)); lia).
      pose proof Hg as (G1 & G2 & G3). unfold chunk_ok. cbn [c_offset c_samples]. split; [destruct g; discriminate|].
      split; [rewrite Zlen_app, G2, u32_small; [reflexivity|]; pose proof (Zlen_nonneg g); lia|].
      rewrite !map_app. cbn [map]. rewrite consecutive_snoc, G3. f_equal. unfold loc. cbn [fst snd]. f_equal. f_equal.
      destruct Hcont as (r & l & E & Et). { destruct g; [congruence|]. rewrite G2, Zlen_cons. pose proof (Zlen_nonneg g). lia. }
      destruct (exists_last G1) as (l' & r' & Eg). assert (r' = r).
      { rewrite <- Hr, Eg, app_assoc in E. apply app_inj_tail in E. tauto. }
      subst r'. rewrite <- Et. apply (chunk_end _ _ _ _ Hg Eg).
Qed.
Lemma recorded_terminate t recs : recorded t recs -> recorded (Track_terminateCurrentChunk t) recs /\ c_samples (t_current (Track_terminateCurrentChunk t)) = 0.
Proof.
  intros [Hf Hs Hd Hk (gs & g & Hr & Hc & Hg)]. unfold Track_terminateCurrentChunk. destruct Hg as [(-> & Hcur)|(Hg & Hi)].
  - rewrite Hcur. cbn [chunk0 c_samples Z.gtb Z.compare]. rewrite Hcur. split; [|reflexivity]. constructor; auto. exists gs, []. auto.
  - pose proof Hg as (G1 & G2 & G3). replace (c_samples (t_current t) >? 0) with true by (destruct g; [congruence|]; rewrite G2, Zlen_cons; pose proof (Zlen_nonneg g); lia).
    split; [|reflexivity]. constructor; auto. cbn [t_chunks t_current]. exists (gs ++ [g]), []. split.
    + rewrite concat_app. cbn [concat]. rewrite !app_nil_r. exact Hr.
    + split; [apply Forall2_app; [exact Hc|constructor; [exact Hg|constructor]]|left; auto].
Qed.
Lemma recorded_setMediaTime v t recs : recorded t recs -> recorded (Track_setMediaTime v t) recs.
Proof. intros [Hf Hs Hd Hk Hg]. constructor; auto. Qed.
Lemma recorded_set_codec c t recs : recorded t recs -> is_video c = is_video (t_codec t) -> recorded (Track_set_codec c t) recs.
Proof. intros [Hf Hs Hd Hk Hg] E. constructor; auto. cbn [Track_set_codec t_keys t_codec]. rewrite E. exact Hk. Qed.

(** * A finished track *)
Record finished (t : track) (recs : list (Z * sample)) : Prop := mk_finished {
  fin_fin : t_finalized t = true;
  fin_sizes : t_sizes t = map size_of recs;
  fin_durs : t_durations t = expected_durations (map (fun r => sm_ts (snd r)) recs) (t_duration_ts t);
  fin_keys : t_keys t = if is_video (t_codec t) then sync_numbers (map snd recs) else [];
  fin_groups : exists gs, concat gs = recs /\ Forall2 chunk_ok (t_chunks t) gs }.
Lemma recorded_finalize t recs : recorded t recs -> finished (Track_finalize t) recs.
Proof.
  intros [Hf Hs Hd Hk (gs & g & Hr & Hc & Hg)]. unfold Track_finalize. rewrite Hf. constructor; cbn [t_finalized t_sizes t_durations t_keys t_codec t_chunks t_duration_ts]; auto.
  - rewrite Hs, <- Hd. destruct recs; cbn [map]; [rewrite app_nil_r|]; reflexivity.
  - destruct Hg as [(-> & Hcur)|(Hg & Hi)].
    + rewrite Hcur. cbn [chunk0 c_samples Z.gtb Z.compare]. exists gs. rewrite app_nil_r in Hr. auto.
    + pose proof Hg as (G1 & G2 & G3). replace (c_samples (t_current t) >? 0) with true by (destruct g; [congruence|]; rewrite G2, Zlen_cons; pose proof (Zlen_nonneg g); lia).
      exists (gs ++ [g]). split; [rewrite concat_app; cbn [concat]; rewrite app_nil_r; exact Hr|]. apply Forall2_app; [exact Hc|constructor; [exact Hg|constructor]].
Qed.
Lemma finished_finalize t recs : finished t recs -> Track_finalize t = t.
Proof. intros [Hf _ _ _ _]. unfold Track_finalize. rewrite Hf. reflexivity. Qed.
Lemma static_finalize o time t : static o time t -> static o time (Track_finalize t).
Proof. unfold Track_finalize, static. destruct o; auto. destruct (t_finalized t); cbn; auto. Qed.

(** Shifting all offsets. *)
Definition shift (d : Z) (r : Z * sample) : Z * sample := (fst r + d, snd r).
Lemma consecutive_shift d l : forall o, consecutive (o + d) l = map (fun x => (fst x + d, snd x)) (consecutive o l).
Proof. induction l as [|x l IH]; intros o; [reflexivity|]. cbn [consecutive map fst snd]. f_equal. rewrite <- IH. f_equal. lia. Qed.
Lemma map_size_shift d g : map size_of (map (shift d) g) = map size_of g.
Proof. rewrite map_map. reflexivity. Qed.
Lemma finished_reset t recs d : finished t recs -> Forall (fun r => 0 <= fst r /\ 0 <= fst r + d < 2 ^ 64) recs ->
  finished (Track_resetChunkOffsets (u64 d) t) (map (shift d) recs).
Proof.
  intros F HB. pose proof (finished_finalize t recs F) as Ef. destruct F as [Hf Hs Hd Hk (gs & Hr & Hc)].
  unfold Track_resetChunkOffsets. rewrite Ef. constructor; cbn [t_finalized t_sizes t_durations t_keys t_codec t_chunks t_duration_ts]; auto.
  - rewrite map_size_shift. exact Hs.
  - rewrite map_map. exact Hd.
  - rewrite map_map. cbn [shift snd]. exact Hk.
  - exists (map (map (shift d)) gs). split; [rewrite <- Hr, concat_map; reflexivity|].
    subst recs. clear -Hc HB. induction Hc as [|c g cs gs (G1 & G2 & G3) Hc IH]; [constructor|]. cbn [concat] in HB. apply Forall_app in HB. destruct HB as [B1 B2].
    cbn [map]. constructor; [|apply IH; exact B2]. destruct g as [|r g]; [congruence|]. split; [cbn; congruence|]. cbn [c_samples c_offset]. split; [rewrite Zlen_map; exact G2|].
    inversion B1 as [|? ? [B3 B4] _]; subst. assert (Ec : fst r = c_offset c) by (cbn [map consecutive] in G3; unfold loc in G3 at 1; congruence). rewrite Ec in *.
    assert (Eu : u64 (c_offset c + u64 d) = c_offset c + d). { unfold u64. rewrite Zplus_mod_idemp_r. apply Z.mod_small. lia. }
    rewrite Eu, consecutive_shift. change (map (fun r => Zlen (sm_data (snd r))) (map (shift d) (r :: g))) with (map size_of (map (shift d) (r :: g))).
    rewrite map_size_shift. change (map size_of (r :: g)) with (map (fun r => Zlen (sm_data (snd r))) (r :: g)). rewrite <- G3, !map_map. reflexivity.
Qed.
