(** Finished files as sequences of boxes; contents of the trak boxes (C28-C32, C41, C45, C46). *)
From Coq Require Import ZifyBool Sorted.
From Verif Require Import Base BitIO BitFacts BitIOProofs Boxes WireFormat Box BoxSpec BoxSize Print PrintSpec PrintProofs BoxTree TreeSpec TreeProofs TreeLayout H264 Track Writers MovieSpec AnnexBSpec H264Proofs TrackProofs TrakProofs SessionProofs MovieShape Completion MovieSize FileProofs SimpleFile FaststartFile TrackLemmas.
From Coq Require Import Ascii String List.
Import ListNotations.
Open Scope Z_scope.
Open Scope list_scope.

(** * Contents of a trak box *)
Lemma shift_mod a : u32 (Z.shiftl a 16) = (a * 2 ^ 16) mod 2 ^ 32.
Proof. unfold u32. rewrite Z.shiftl_mul_pow2 by lia. reflexivity. Qed.
Lemma entry_ok t : entry_describes (t_timescale t) (t_id t) (t_codec t) (tree_of (make_sample_entry t)).
Proof.
  unfold make_sample_entry. destruct (t_codec t) as [b m a|b m a|p r|v8 w h m a|w h p l ti cx cy cp obus|w h cv pr co lv sps pps]; unfold entry_describes; cbn [tree_of new_info map];
    unfold audio_sample_entry, audio_entry_of, es_descriptor, dc_descriptor, es_of, decoder_config_of; try rewrite shift_mod.
  - do 2 eexists. split; [reflexivity|]. split; [|eexists; reflexivity]. eexists. do 2 f_equal. unfold to_u.
    rewrite Z.land_comm. change 65535 with (Z.ones 16). rewrite Z.land_ones by lia. apply Z.mod_mod. lia.
  - do 2 eexists. split; [reflexivity|]. split; eexists; reflexivity.
  - reflexivity.
  - reflexivity.
  - reflexivity.
  - eexists. split; [reflexivity|]. repeat split.
Qed.
Ltac headers_eval :=
  lazy beta iota zeta delta [trak_headers the_kid kids_of_type filter is_type tree_type tree_kids tree_box list_eqb obnd
    t_tkhd t_mdia t_mdhd t_edts t_elst t_hdlr
    make_tkhd make_edts make_mdhd make_hdlr handler_array make_media_header make_trak codec_handler tree_of new_info map
    str list_ascii_of_string nat_of_ascii N_of_ascii N_of_digits N.to_nat N.add N.mul Pos.add Pos.mul Pos.to_nat Pos.iter_op Nat.add Z.of_nat Pos.of_succ_nat Pos.succ
    Z.eqb Pos.eqb andb negb].
Lemma headers_ok_ time ops i c tsc dts dmv mt id t : nth_error (created ops) i = Some (O_NewTrack c tsc dts dmv mt id) -> static (O_NewTrack c tsc dts dmv mt id) time t -> t_media_time t = media_time_of i ops mt ->
  exists h, trak_headers (tree_of (make_trak t)) = Some h /\ headers_describe time ops i h.
Proof.
  intros E (A1 & A2 & A3 & A4 & A5 & A6 & A7) M. unfold headers_describe.
  assert (Ev : codec_handler (t_codec t) = codec_handler c) by (destruct c, (t_codec t); cbn [codec_like codec_handler] in *; auto; try contradiction; discriminate).
  assert (Ep : picture_size (t_codec t) = picture_size c) by (destruct c, (t_codec t); cbn [codec_like picture_size] in *; try contradiction; try (injection A7; intros; subst; reflexivity); try discriminate; destruct A7 as (-> & -> & _); reflexivity).
  destruct (t_codec t) eqn:Et; cbn [codec_handler picture_size] in Ev, Ep;
    (eexists; split; [unfold make_trak, make_tkhd; rewrite !Et; headers_eval; reflexivity|]);
    exists c, tsc, dts, dmv, mt, id; (split; [exact E|]);
    cbn [tkhd_track_id tkhd_creation_time tkhd_modification_time tkhd_duration tkhd_fb tkhd_width tkhd_height tkhd_volume tkhd_matrix tkhd_layer tkhd_alternate_group tkhd_reserved tkhd_reserved2 tkhd_reserved3 tkhd_reserved4
      mdhd_timescale mdhd_duration mdhd_creation_time mdhd_modification_time mdhd_fb mdhd_pad mdhd_language mdhd_pre_defined];
    (assert (Iv : is_video c = is_video (t_codec t)) by (rewrite Et; rewrite is_video_handler in Ev; cbn [is_video]; destruct (is_video c); congruence); rewrite Et in Iv; cbn [is_video] in Iv; rewrite Iv, <- Ep; cbn [fst snd];
     repeat split; auto; try apply shift_mod; rewrite A3, M; reflexivity).
Qed.
Ltac media_eval :=
  lazy beta iota zeta delta [minf_kids stbl_kids the_kid kids_of_type filter is_type tree_type tree_kids tree_box list_eqb obnd
    t_tkhd t_mdia t_mdhd t_minf t_stbl t_stsd t_stts t_stsc t_stsz t_stco t_co64 t_stss t_trak
    make_tkhd make_edts make_mdhd make_hdlr handler_array make_media_header make_dinf make_stsd make_stts make_stss make_stsc make_stsz
    make_sgpd make_sbgp make_stbl make_trak make_offset_box codec_handler tree_of new_info map
    str list_ascii_of_string nat_of_ascii N_of_ascii N_of_digits N.to_nat N.add N.mul Pos.add Pos.mul Pos.to_nat Pos.iter_op Nat.add Z.of_nat Pos.of_succ_nat Pos.succ
    Z.eqb Pos.eqb andb negb].
Lemma minf_kids_ok t : exists stbl, stbl = tree_of (make_stbl t) /\ minf_kids (tree_of (make_trak t)) = Some [tree_of (make_media_header (codec_handler (t_codec t))); tree_of make_dinf; stbl].
Proof. eexists. split; [reflexivity|]. unfold make_trak, make_tkhd, make_stbl. destruct (codec_handler (t_codec t)); destruct (t_codec t); media_eval; reflexivity. Qed.
Lemma stbl_kids_ok t : stbl_kids (tree_of (make_trak t)) = Some (tree_kids (tree_of (make_stbl t))).
Proof.
  unfold stbl_kids. destruct (minf_kids_ok t) as (stbl & Es & ->). cbn [obnd].
  assert (K : the_kid t_stbl [tree_of (make_media_header (codec_handler (t_codec t))); tree_of make_dinf; stbl] = Some stbl)
    by (rewrite Es; unfold the_kid, kids_of_type, make_stbl, make_media_header; destruct (codec_handler (t_codec t)); reflexivity).
  rewrite K, Es. reflexivity.
Qed.
Lemma media_ok ops i c t : codec_handler (t_codec t) = codec_handler c -> roll_distance_of (t_codec t) = roll_distance_of c ->
  u32 (Zlen (t_sizes t)) = Zlen (samples_of i ops) -> media_described ops i c (tree_of (make_trak t)).
Proof.
  intros Hh Hr Hn. destruct (minf_kids_ok t) as (stbl & Es & Em). do 4 eexists. split; [exact Em|]. split; [apply stbl_kids_ok|].
  assert (Ev : is_video (t_codec t) = is_video c) by (rewrite !is_video_handler in Hh; destruct (is_video (t_codec t)), (is_video c); congruence).
  split; [|split].
  - rewrite Es, Hh. unfold media_header_of, self_reference. rewrite is_video_handler. destruct (is_video c); reflexivity.
  - unfold make_stbl, make_offset_box. destruct (use_co64 (t_chunks t)), (t_codec t); reflexivity.
  - unfold roll_groups_of. rewrite <- Hr, <- Hn. unfold make_stbl, make_offset_box. destruct (use_co64 (t_chunks t)), (t_codec t); reflexivity.
Qed.

(** * The tracks of the whole session *)
Lemma ftyp_sholds cls timescale duration time ft : ftyp_ok ft -> Zlen (ftyp_octets ft) + 16 < 2 ^ 64 ->
  sholds time [] (fst (step (start cls timescale duration time ft) O_WriteFtyp)).
Proof.
  intros F B. destruct (start_sinv cls timescale duration time ft F B) as (E & S).
  set (s := fst (step _ _)) in *. destruct (si_w _ _ _ _ _ _ _ _ _ S) as [C1 C2 C3 C4 C5 C6 C7 C8 C9].
  constructor; auto.
  - unfold accepting. destruct cls; [left; exact C1|right; apply C9].
  - exact (si_len _ _ _ _ _ _ _ _ _ S).
  - intros [|i] t Et; exfalso; pose proof (si_len _ _ _ _ _ _ _ _ _ S) as L; cbn in L; destruct (s_tracks s); discriminate.
Qed.
Lemma session_tracks cls timescale duration time ft ops : ftyp_ok ft -> Zlen (ftyp_octets ft) + 16 < 2 ^ 64 -> recording ops ->
  sholds time ops (fst (run (start cls timescale duration time ft) (O_WriteFtyp :: ops))).
Proof.
  intros F B [R1 R2 R3 R4]. pose proof (ftyp_sholds cls timescale duration time ft F B) as H. cbn [run].
  destruct (step (start cls timescale duration time ft) O_WriteFtyp) as [s0 r0]. cbn [fst] in H.
  destruct (run_sholds time ops [] s0 H R1) as (H1 & _); [intros pre o post i E A; apply (R2 pre o post i E); exact A|exact R4|].
  destruct (run s0 ops). exact H1.
Qed.
Lemma static_F S o time t : static o time t -> static o time (F S t).
Proof. intros H. pose proof (static_finalize _ _ _ H) as X. unfold F, Track_resetChunkOffsets. unfold static in *. destruct o; exact X. Qed.
Lemma finalize_same t : t_codec (Track_finalize t) = t_codec t /\ t_media_time (Track_finalize t) = t_media_time t /\ t_sizes (Track_finalize t) = t_sizes t.
Proof. unfold Track_finalize. destruct (t_finalized t); auto. Qed.

Lemma configured_ok time ops s i t t' : sholds time ops s -> samples_fit ops -> nth_error (s_tracks s) i = Some t ->
  (forall o, static o time t -> static o time t') -> t_codec t' = t_codec t -> t_media_time t' = t_media_time t -> t_sizes t' = t_sizes t -> configured time ops i (tree_of (make_trak t')).
Proof.
  intros H Fit E S C M Z. destruct (sh_tracks _ _ _ H i t E) as ((o & Eo & So) & Hh & Hc & Hm). pose proof So as So'. destruct o as [c tsc dts dmv mt id| | | | | | | | | | | |]; try contradiction.
  specialize (S _ So). destruct (headers_ok_ time ops i c tsc dts dmv mt id t' Eo S) as (h & Eh & Dh); [rewrite M; exact (Hm _ _ _ _ _ _ Eo)|].
  exists c, tsc, dts, dmv, mt, id, (tree_of (make_sample_entry t')), h. split; [exact Eo|]. split; [apply trak_entry_ok|]. split; [|split; [exact Eh|split; [exact Dh|]]].
  - pose proof (entry_ok t') as X. destruct S as (A1 & _ & _ & _ & A5 & _). rewrite A1, A5, C in X. rewrite (Hc c) in X; [exact X|]. unfold codec_of. rewrite Eo. reflexivity.
  - destruct S as (_ & _ & _ & _ & _ & _ & L). apply media_ok.
    + destruct c, (t_codec t'); cbn [codec_like codec_handler] in *; auto; try contradiction; discriminate.
    + destruct c, (t_codec t'); cbn [codec_like roll_distance_of] in *; auto; try contradiction; try discriminate; congruence.
    + rewrite Z, (ho_sizes _ _ Hh). rewrite Zlen_map. pose proof (Zlen_nonneg (samples_of i ops)). apply u32_small. pose proof (samples_fit_len ops i Fit). lia.
Qed.

(** * Files as boxes *)
Lemma written_raw b m : bytes m -> b = B_mdat m -> written b = m.
Proof.
  intros H ->. assert (Wf : box_wf 0 (B_mdat m)) by (cbn [box_wf]; split; [exact H|reflexivity]).
  rewrite (written_wire 0 _ Wf). unfold wire_payload. cbn [box_layout]. unfold raw_layout, enc. cbn [flat_map field_bits]. rewrite app_nil_r. apply octets_of_bits. exact H.
Qed.
Lemma serialize_leaf ty b : serialize_with written (T ty b []) = frame_header ty (Zlen (written b)) ++ written b.
Proof. cbn [serialize_with flat_map]. rewrite app_nil_r. reflexivity. Qed.
Lemma mdat_octets m : bytes m -> serialize_with written (mdat_tree m) = frame_header (str "mdat") (Zlen m) ++ m.
Proof. intros H. unfold mdat_tree. rewrite serialize_leaf, (written_raw _ m H eq_refl). reflexivity. Qed.
Lemma free_octets m : flat_map (serialize_with written) (free_trees m) = free_header m.
Proof. unfold free_trees, free_header. destruct (_ <? _); [|reflexivity]. vm_compute. reflexivity. Qed.
Lemma udta_ok : tree_of make_udta = udta_tree. Proof. reflexivity. Qed.

Lemma kids_of_traks (traks : list tree) : Forall (fun t => tree_type t = str "trak") traks ->
  kids_of_type t_trak traks = traks.
Proof. induction 1 as [|t l Ht H IH]; [reflexivity|]. unfold kids_of_type in *. cbn [filter]. unfold is_type at 1. rewrite Ht. change (list_eqb (str "trak") t_trak) with true. cbv iota. rewrite IH. reflexivity. Qed.
Lemma read_moov pre post timescale duration time id traks : Forall (fun t => is_type t_moov t = false) pre -> Forall (fun t => is_type t_moov t = false) post ->
  Forall (fun t => tree_type t = str "trak") traks -> read_movie (pre ++ [moov_tree timescale duration time id traks] ++ post) = Some (map read_trak traks).
Proof.
  intros A B C. unfold read_movie, the_kid, kids_of_type. rewrite !filter_app. 
  assert (N : forall l, Forall (fun t => is_type t_moov t = false) l -> filter (is_type t_moov) l = []) by (induction 1 as [|x l Hx H IH]; [reflexivity|]; cbn [filter]; rewrite Hx; exact IH).
  rewrite (N _ A), (N _ B). change (filter (is_type t_moov) [moov_tree timescale duration time id traks]) with [moov_tree timescale duration time id traks]. cbn [app obnd].
  unfold moov_tree. cbn [tree_kids filter]. change (is_type t_trak (T (str "mvhd") (B_mvhd (mvhd_of timescale duration time id)) [])) with false. cbv iota. rewrite filter_app.
  fold (kids_of_type t_trak traks). rewrite kids_of_traks by exact C. change (filter (is_type t_trak) [udta_tree]) with (@nil tree). rewrite app_nil_r. reflexivity.
Qed.

Lemma describes_read time file ops sel traks pre post timescale duration id :
  describes_all time file ops sel traks -> Forall (fun t => is_type t_moov t = false) pre -> Forall (fun t => is_type t_moov t = false) post ->
  exists infos, read_movie (pre ++ [moov_tree timescale duration time id traks] ++ post) = Some (map Some infos) /\ Forall2 (describes file ops) sel infos.
Proof.
  intros D A B. rewrite read_moov; auto; [|clear -D; induction D as [|i tr l l' (H & _) D IH]; constructor; auto].
  clear -D. induction D as [|i tr l l' (_ & (info & E & H) & _) D (infos & E' & H')]; [exists []; split; [reflexivity|constructor]|].
  exists (info :: infos). split; [cbn [map]; rewrite E; injection E' as ->; reflexivity|constructor; assumption].
Qed.
Lemma f2_and {A B} (P Q : A -> B -> Prop) l l' : Forall2 P l l' -> Forall2 Q l l' -> Forall2 (fun a b => P a b /\ Q a b) l l'.
Proof. induction 1 as [|a b l l' Hab H IH]; intros X; inversion X; subst; constructor; auto. Qed.

Lemma flat_map4 {A B} (f : A -> list B) a b c d : flat_map f ([a] ++ b ++ [c] ++ [d]) = f a ++ flat_map f b ++ f c ++ f d.
Proof. cbn [app flat_map]. rewrite flat_map_app. cbn [flat_map]. rewrite app_nil_r. reflexivity. Qed.
Lemma flat_map3 {A B} (f : A -> list B) a b c : flat_map f ([a] ++ [b] ++ [c]) = f a ++ f b ++ f c.
Proof. cbn [app flat_map]. rewrite app_nil_r. reflexivity. Qed.
Lemma simple_movie timescale duration time ft ops sel : time_printable time -> ftyp_ok ft -> recording ops -> chosen ops sel -> movie_fits ft ops sel -> bytes (media ops) ->
  let r := run (start Simple timescale duration time ft) (simple_program ops sel) in
  Forall (fun x => x <> UB) (snd r) /\ skipn (length (O_WriteFtyp :: ops)) (snd r) = [Ok tt; Ok tt; Ok tt] /\
  exists traks, let m := media ops in
    output (fst r) = flat_map (serialize_with written) ([ftyp_tree ft] ++ free_trees m ++ [mdat_tree m] ++ [moov_tree timescale duration time (u32 (1 + ids_issued ops)) traks]) /\
    describes_all time (output (fst r)) ops sel traks.
Proof.
  intros Tp Fo R C B Hb. cbv zeta. destruct (simple_session timescale duration time ft ops sel Tp Fo R C B) as (U & O & traks & E & D & T). cbv zeta in *.
  set (r := run (start Simple timescale duration time ft) (simple_program ops sel)) in *. split; [exact U|]. split; [exact O|]. exists traks.
  destruct (movie_fits_media _ _ _ Fo B) as (B1 & _). pose proof (session_tracks Simple timescale duration time ft ops Fo B1 R) as H.
  unfold output. split.
  - rewrite E. rewrite flat_map4, free_octets. rewrite mdat_octets by exact Hb.
    change (serialize_with written (ftyp_tree ft)) with (ftyp_octets ft). unfold moov_tree. rewrite <- udta_ok. rewrite <- !app_assoc. reflexivity.
  - rewrite E. unfold describes_all. pose proof (f2_and _ _ _ _ D T) as X. eapply f2_impl; [|exact X]. cbv beta. intros i tr ((A1 & A2) & t & Et & _ & ->). split; [exact A1|]. split; [exact A2|].
    eapply configured_ok; [exact H|exact (rec_fit _ R)|exact Et|intros o; apply static_finalize|apply finalize_same..].
Qed.
Lemma faststart_movie timescale duration time ft ops sel : time_printable time -> ftyp_ok ft -> recording ops -> chosen ops sel -> movie_fits ft ops sel -> bytes (media ops) ->
  let r := run (start Faststart timescale duration time ft) (faststart_program ops sel) in
  Forall (fun x => x <> UB) (snd r) /\ skipn (length (O_WriteFtyp :: ops)) (snd r) = [Ok tt; Ok tt; Ok tt; Ok tt] /\
  exists traks, let m := media ops in
    output (fst r) = flat_map (serialize_with written) ([ftyp_tree ft] ++ [moov_tree timescale duration time (u32 (1 + ids_issued ops)) traks] ++ [mdat_tree m]) /\
    describes_all time (output (fst r)) ops sel traks.
Proof.
  intros Tp Fo R C B Hb. cbv zeta. destruct (faststart_session timescale duration time ft ops sel Tp Fo R C B) as (U & O & S & traks & E & D & T & _). cbv zeta in *.
  set (r := run (start Faststart timescale duration time ft) (faststart_program ops sel)) in *. split; [exact U|]. split; [exact O|]. exists traks.
  destruct (movie_fits_media _ _ _ Fo B) as (B1 & _). pose proof (session_tracks Faststart timescale duration time ft ops Fo B1 R) as H.
  unfold output. split.
  - rewrite E. rewrite flat_map3. rewrite mdat_octets by exact Hb.
    change (serialize_with written (ftyp_tree ft)) with (ftyp_octets ft). unfold moov_tree. rewrite <- udta_ok. rewrite <- !app_assoc. reflexivity.
  - rewrite E. unfold describes_all. pose proof (f2_and _ _ _ _ D T) as X. eapply f2_impl; [|exact X]. cbv beta. intros i tr ((A1 & A2) & t & Et & _ & ->). split; [exact A1|]. split; [exact A2|].
    eapply configured_ok; [exact H|exact (rec_fit _ R)|exact Et|intros o; apply static_F| | |]; unfold F, Track_resetChunkOffsets; cbn [t_codec t_media_time t_sizes]; apply finalize_same.
Qed.

(** * The loop of FaststartWriter, for any fuel *)
Lemma loop_mono f : forall sel s p z r, Faststart_loop f sel s p z = Some r -> forall f', (f <= f')%nat -> Faststart_loop f' sel s p z = Some r.
Proof.
  induction f as [|f IH]; intros sel s p z r E f' L; [discriminate|]. destruct f' as [|f']; [lia|]. cbn [Faststart_loop] in *.
  destruct (Faststart_iter sel s p z) as [[s' z']| |]; auto. destruct (negb _); auto. apply IH; [exact E|lia].
Qed.
Lemma faststart_loop_ends timescale duration time ft ops sel : ftyp_ok ft -> recording ops -> chosen ops sel -> movie_fits ft ops sel ->
  let s := fst (run (start Faststart timescale duration time ft) (O_WriteFtyp :: ops)) in
  exists size s', Faststart_size (s_writer s) = Ok size /\ forall fuel, (length sel + 4 <= fuel)%nat -> Faststart_loop fuel sel s 0 size = Some (Ok s').
Proof.
  intros Fo [R1 R2 R3 R4] Ch B. cbv zeta. destruct (movie_fits_media _ _ _ Fo B) as (B1 & B2 & B3).
  destruct (start_sinv Faststart timescale duration time ft Fo B1) as (E0 & S0).
  cbn [run]. destruct (step (start Faststart timescale duration time ft) O_WriteFtyp) as [s0 r0] eqn:Es. cbn [fst snd] in *. subst r0.
  destruct (run_sinv _ _ _ _ _ _ _ s0 ops S0 R1 R2 R3 R4 B2) as (S1 & U1). cbn [base_of] in S1. destruct (run s0 ops) as [s1 rs] eqn:Er. cbn [fst snd] in *.
  destruct (select_tracks _ _ _ _ _ _ _ ops s1 sel S1 (proj2 Ch)) as (ts0 & H0).
  destruct (faststart_append timescale duration time ft ops sel Fo Ch B s1 ts0 S1 H0) as (s2 & S & E & _).
  cbn [step] in E. rewrite (wi_class _ _ _ _ _ _ _ _ _ _ (si_w _ _ _ _ _ _ _ _ _ S1)) in E. unfold Faststart_append in E.
  destruct (Faststart_size (s_writer s1)) as [size| |]; try discriminate. exists size.
  destruct (Faststart_loop (Faststart_append_fuel sel) sel s1 0 size) as [[s3| |]|] eqn:El; try discriminate. exists s3. split; [reflexivity|].
  intros fuel L. eapply loop_mono; [exact El|]. unfold Faststart_append_fuel. exact L.
Qed.

(** * One track alone *)
Lemma media_single i ops : (forall x, In x (history ops) -> fst x = Some i) -> media ops = concat (map sm_data (samples_of i ops)).
Proof.
  intros H. unfold media, samples_of. induction (history ops) as [|[o s] l IH]; [reflexivity|]. cbn [flat_map].
  pose proof (H (o, s) (or_introl eq_refl)) as E. cbn [fst] in E. subst o. cbn [fst snd]. rewrite Nat.eqb_refl. cbn [app map concat]. rewrite IH; [reflexivity|]. intros x Hx. apply H. right. exact Hx.
Qed.

(** * Before and inside the media data (C32, C33) *)
Lemma mdat_start_ok m : free_header m ++ frame_header (str "mdat") (Zlen m) = mdat_start m.
Proof. unfold mdat_start, free_header, frame_header. destruct (_ <? _); [|reflexivity]. change (0 + 8 <? 2 ^ 32) with true. reflexivity. Qed.
Lemma simple_media_start timescale duration time ft ops sel : time_printable time -> ftyp_ok ft -> recording ops -> chosen ops sel -> movie_fits ft ops sel ->
  exists post, output (fst (run (start Simple timescale duration time ft) (simple_program ops sel))) =
    serialize_with written (ftyp_tree ft) ++ mdat_start (media ops) ++ media ops ++ post /\ Zlen (mdat_start (media ops)) = 16.
Proof.
  intros Tp Fo R C B. destruct (simple_session timescale duration time ft ops sel Tp Fo R C B) as (_ & _ & traks & E & _). cbv zeta in E. unfold output. rewrite E. eexists. split.
  - rewrite <- mdat_start_ok, <- !app_assoc. reflexivity.
  - rewrite <- mdat_start_ok. apply free_mdat_length.
Qed.
Lemma copy_appends w : mw_tmp_open w = true -> os_pos (mw_os w) = Zlen (os_data (mw_os w)) ->
  exists w', Faststart_copyMdatData w = Ok w' /\ os_data (mw_os w') = os_data (mw_os w) ++ os_data (mw_tmp w).
Proof.
  intros O P. unfold Faststart_copyMdatData. rewrite O. rewrite copy_file by (rewrite P; apply Zlen_nonneg). eexists. split; [reflexivity|].
  cbn [set_tmp set_os mw_os]. unfold os_write. cbn [os_data]. rewrite P. apply splice_end.
Qed.
