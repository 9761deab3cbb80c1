(** The trak box of a finished track, read as a player would. *)
From Verif Require Import Base BitIO BitFacts BitIOProofs Boxes Box BoxTree TreeSpec TreeProofs TreeLayout H264 Track Writers MovieSpec TrackProofs.
From Coq Require Import Ascii String Sorted List.
Import ListNotations.
Open Scope Z_scope.
Open Scope list_scope.

Definition offsets_of (t : track) : list Z := if use_co64 (t_chunks t) then map c_offset (t_chunks t) else map (fun c => u32 (c_offset c)) (t_chunks t).
Ltac trak_eval :=
  lazy beta iota zeta delta [read_trak the_kid kids_of_type filter is_type tree_type tree_kids tree_box list_eqb obnd
    t_tkhd t_mdia t_mdhd t_minf t_stbl t_stsd t_stts t_stsc t_stsz t_stco t_co64 t_stss t_trak
    chunk_offsets sample_sizes stsc_table stts_table sync_table
    make_tkhd make_edts make_mdhd make_hdlr handler_array make_media_header make_dinf make_sample_entry make_stsd make_stts make_stss make_stsc make_stsz
    make_sgpd make_sbgp make_stbl make_trak make_offset_box codec_handler tree_of new_info map
    str list_ascii_of_string nat_of_ascii N_of_ascii N_of_digits N.to_nat N.add N.mul Pos.add Pos.mul Pos.to_nat Pos.iter_op Nat.add Z.of_nat Pos.of_succ_nat Pos.succ
    Z.eqb Pos.eqb andb negb stco_chunk_offsets co64_chunk_offsets stsz_sample_size stsz_entry_sizes stsc_entries stts_entries stss_sample_numbers
    tkhd_track_id mdhd_timescale].
Lemma read_make_trak t :
  read_trak (tree_of (make_trak t)) = Some (mk_info (t_id t) (t_timescale t)
    (sample_locations (make_stsc_entries (t_chunks t)) (offsets_of t) (t_sizes t)) (sample_durations (make_stts_entries (t_durations t)))
    (if is_video (t_codec t) then Some (t_keys t) else None)).
Proof.
  unfold offsets_of. destruct t as [a b c d e f co g h ch i j k l]. cbn [t_codec t_id t_timescale t_chunks t_sizes t_durations t_keys].
  destruct (use_co64 ch) eqn:E; destruct co; unfold make_trak, make_stbl, make_offset_box; cbn [t_chunks t_codec]; rewrite E; cbn [t_codec is_video]; trak_eval; reflexivity.
Qed.

(** * Chunk offsets *)
Definition sorted_offsets (recs : list (Z * sample)) : Prop := StronglySorted (fun a b => fst a <= fst b) recs.
Lemma sorted_app {A} (R : A -> A -> Prop) a b : StronglySorted R (a ++ b) <-> StronglySorted R a /\ StronglySorted R b /\ Forall (fun x => Forall (R x) b) a.
Proof.
  induction a as [|x a IH]; cbn [app].
  - split; [intros H; repeat split; [constructor|exact H|constructor]|tauto].
  - split.
    + intros H. inversion H as [|? ? H1 H2]; subst. apply IH in H1. destruct H1 as (A1 & A2 & A3). apply Forall_app in H2. destruct H2.
      repeat split; try constructor; auto.
    + intros (H1 & H2 & H3). inversion H1; inversion H3; subst. constructor; [apply IH; auto|apply Forall_app; auto].
Qed.
Lemma chunk_first c g : chunk_ok c g -> exists s g', g = (c_offset c, s) :: g'.
Proof.
  intros (G1 & _ & G3). destruct g as [|[o s] g]; [congruence|]. cbn [map consecutive] in G3. unfold loc in G3 at 1. cbn [fst snd] in G3.
  exists s, g. do 2 f_equal. congruence.
Qed.
Lemma chunks_le_last cs gs : Forall2 chunk_ok cs gs -> sorted_offsets (concat gs) -> Forall (fun c => c_offset c <= c_offset (last cs chunk0)) cs.
Proof.
  induction 1 as [|c g cs gs Hc H IH]; intros S; [constructor|]. cbn [concat] in S. apply sorted_app in S. destruct S as (S1 & S2 & S3).
  destruct cs as [|c' cs]; [constructor; [cbn [last]; lia|constructor]|]. specialize (IH S2). change (last (c :: c' :: cs) chunk0) with (last (c' :: cs) chunk0).
  constructor; [|exact IH]. destruct (chunk_first _ _ Hc) as (s & g' & ->). inversion H as [|? g2 ? gs2 Hc' H']; subst.
  destruct (chunk_first _ _ Hc') as (s2 & g2' & ->). inversion S3 as [|? ? F _]; subst. cbn [concat app] in F. inversion F as [|? ? F1 _]; subst. cbn [fst] in F1.
  inversion IH; subst. lia.
Qed.
Lemma chunk_offsets_in cs gs : Forall2 chunk_ok cs gs -> forall c, In c cs -> exists s, In (c_offset c, s) (concat gs).
Proof.
  induction 1 as [|c g cs gs Hc H IH]; intros x []; [subst|].
  - destruct (chunk_first _ _ Hc) as (s & g' & ->). exists s. left. reflexivity.
  - destruct (IH x H0) as (s & Hs). exists s. cbn [concat]. apply in_or_app. auto.
Qed.
Lemma chunk_count cs gs : Forall2 chunk_ok cs gs -> Zlen cs <= Zlen (concat gs).
Proof.
  induction 1 as [|c g cs gs (G1 & _) H IH]; [cbn; lia|]. cbn [concat]. rewrite Zlen_app, Zlen_cons. destruct g; [congruence|]. rewrite Zlen_cons. pose proof (Zlen_nonneg g). lia.
Qed.
(** 64-bit entries are used exactly when some chunk needs them. *)
Lemma finished_offsets t recs : finished t recs -> sorted_offsets recs -> Forall (fun r => 0 <= fst r < 2 ^ 64) recs ->
  offsets_of t = map c_offset (t_chunks t) /\ (use_co64 (t_chunks t) = true <-> Exists (fun c => 2 ^ 32 <= c_offset c) (t_chunks t)).
Proof.
  intros [_ _ _ _ (gs & <- & Hc)] S B. unfold offsets_of.
  pose proof (chunks_le_last _ _ Hc S) as L. pose proof (chunk_offsets_in _ _ Hc) as I. rewrite Forall_forall in B.
  unfold use_co64, UINT32_MAX. destruct (t_chunks t) as [|c0 cs] eqn:E; [split; [reflexivity|split; [discriminate|intros X; inversion X]]|].
  set (l := last (c0 :: cs) chunk0) in *. rewrite Forall_forall in L. destruct (Z.gtb_spec (c_offset l) (2 ^ 32 - 1)) as [G|G].
  - split; [reflexivity|]. split; [|reflexivity]. intros _. apply Exists_exists. exists l. split; [|lia]. subst l.
    destruct (exists_last (l := c0 :: cs)) as (l' & a & Ea); [congruence|]. rewrite Ea, last_last. apply in_or_app. right. left. reflexivity.
  - split.
    + apply map_ext_in. intros c Hin. specialize (L c Hin). destruct (I c Hin) as (s & Hs). specialize (B _ Hs). cbn [fst] in B. apply u32_small. lia.
    + split; [discriminate|]. intros X. apply Exists_exists in X. destruct X as (c & Hin & Hl). specialize (L c Hin). lia.
Qed.
Lemma expected_durations_length ts : forall d, Zlen (expected_durations ts d) = Zlen ts.
Proof. induction ts as [|t l IH]; intros d; [reflexivity|]. cbn [expected_durations]. rewrite !Zlen_cons, IH. reflexivity. Qed.

(** The whole trak box of a finished track. *)
Lemma finished_trak t recs : finished t recs -> sorted_offsets recs -> Forall (fun r => 0 <= fst r < 2 ^ 64) recs -> Zlen recs < 2 ^ 32 ->
  read_trak (tree_of (make_trak t)) = Some (mk_info (t_id t) (t_timescale t) (map loc recs)
    (expected_durations (map (fun r => sm_ts (snd r)) recs) (t_duration_ts t))
    (if is_video (t_codec t) then Some (sync_numbers (map snd recs)) else None)).
Proof.
  intros F S B N. rewrite read_make_trak. destruct (finished_offsets t recs F S B) as [-> _]. destruct F as [_ Hs Hd Hk (gs & Hr & Hc)].
  pose proof (chunk_count _ _ Hc) as Nc. rewrite Hr in Nc.
  rewrite Hs, Hd. rewrite stts_expand by (rewrite expected_durations_length, Zlen_map; exact N).
  subst recs. change (map size_of (concat gs)) with (map (fun r => Zlen (sm_data (snd r))) (concat gs)). rewrite (locations_groups _ _ Hc) by lia.
  rewrite Hk. destruct (is_video (t_codec t)); reflexivity.
Qed.
