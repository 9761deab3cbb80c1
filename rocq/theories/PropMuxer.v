(** The example program mp4-muxer: C63. *)
From Verif Require Import Base Boxes Box BoxSpec BoxTree TreeSpec PrintSpec AnnexBSpec Track Writers MovieSpec TrackLemmas FileLemmas RoundTrip PropFile PropH264 Float Muxer MuxerSpec MuxerProofs.
From Coq Require Import List.
Import ListNotations.
Open Scope Z_scope.
Open Scope list_scope.

(** The durations of 16, 4 and 15.36 seconds (single precision) in ticks. *)
Lemma ticks_16 : ticks 1000 f16_0 = 16000 /\ ticks 48000 f16_0 = 768000 /\ ticks 16000 f16_0 = 256000.
Proof. vm_compute. auto. Qed.
Lemma ticks_4 : ticks 1000 f4_0 = 4000 /\ ticks 48000 f4_0 = 192000 /\ ticks 16000 f4_0 = 64000.
Proof. vm_compute. auto. Qed.
Lemma ticks_15_36 : ticks 1000 f15_36 = 15360 /\ ticks 48000 f15_36 = 737280 /\ ticks 16000 f15_36 = 245760.
Proof. vm_compute. auto. Qed.
Global Opaque ticks f16_0 f4_0 f15_36.
Lemma firstn_all {A} (Q : A -> Prop) n l : Forall Q l -> Forall Q (firstn n l).
Proof. intros H. rewrite <- (firstn_skipn n l) in H. apply Forall_app in H. exact (proj1 H). Qed.
Lemma plain_expected k ts d id n rs : not_h264 k = true -> track_expected k ts d id (firstn n rs) = mk_expected id (match k with Opus _ _ => 48000 | _ => ts end) d k (first n rs).
Proof. intros E. unfold track_expected. rewrite (plain_samples k _ E). f_equal. destruct k; try reflexivity. discriminate E. Qed.
Ltac by_value := first [apply fits_u_check; reflexivity|apply fits_s_check; reflexivity|apply bytes_check; reflexivity|reflexivity].
Lemma codecs_fit : Forall (fun k => not_h264 k = true /\ codec_fits k /\ config_octets k [] [] <= 2 ^ 32) [muxer_opus; muxer_vp9; muxer_vp8; muxer_av1; muxer_mp3; muxer_aac].
Proof. repeat (apply Forall_cons; [split; [reflexivity|split; [|vm_compute; discriminate]]|]); [..|apply Forall_nil]; hnf; repeat match goal with |- _ /\ _ => split end; by_value. Qed.

Lemma codec_fit k : In k [muxer_opus; muxer_vp9; muxer_vp8; muxer_av1; muxer_mp3; muxer_aac] -> not_h264 k = true /\ codec_fits k /\ config_octets k [] [] <= 2 ^ 32.
Proof. exact (proj1 (Forall_forall _ _) codecs_fit k). Qed.
Lemma codec_fit1 k : In k [muxer_opus; muxer_vp9; muxer_vp8; muxer_av1; muxer_mp3; muxer_aac] -> codec_fits k. Proof. intros H. apply codec_fit. exact H. Qed.
Lemma codec_fit2 k : In k [muxer_opus; muxer_vp9; muxer_vp8; muxer_av1; muxer_mp3; muxer_aac] -> config_octets k [] [] <= 2 ^ 32. Proof. intros H. apply codec_fit. exact H. Qed.
Ltac codec := first [reflexivity|apply codec_fit1; cbn [In]; auto 10; fail|apply codec_fit2; cbn [In]; auto 10; fail].
Lemma reads_plays cmd time file xs m m' : m_class (the_command cmd) = (if is_faststart cmd then Faststart else Simple) -> m_ftyp (the_command cmd) = brands cmd ->
  ticks 1000 (m_duration (the_command cmd)) = milliseconds cmd -> m = m' -> reads_back cmd time file xs m -> plays cmd time file xs m'.
Proof.
  intros E1 E2 E3 <- R seekable. destruct (R seekable) as (ns & text & infos & traks & R1 & R2 & R3 & R4 & R5). exists ns, text, infos, traks. rewrite E1, E2, E3 in R4. unfold expected_boxes. destruct (is_faststart cmd); auto 6.
Qed.
Lemma file_exact cmd time a v file : m_class (the_command cmd) = (if is_faststart cmd then Faststart else Simple) -> m_ftyp (the_command cmd) = brands cmd ->
  muxer_tracks (the_command cmd) = (match cmd with opus => [0%nat] | _ => [0%nat; 1%nat] end) -> ticks 1000 (m_duration (the_command cmd)) = milliseconds cmd ->
  exact_file (m_class (the_command cmd)) (ticks 1000 (m_duration (the_command cmd))) time (m_ftyp (the_command cmd)) (muxer_ops (the_command cmd) a v) (muxer_tracks (the_command cmd)) file ->
  exact_contents cmd time a v file.
Proof. intros E1 E2 E3 E4 X. unfold exact_contents. rewrite E1, E2, E3, E4 in X. cbv zeta. destruct (is_faststart cmd); exact X. Qed.
Ltac reduce := cbn [the_command m_class m_ftyp m_duration m_audio m_audio_timescale m_audio_samples m_video m_chunks Nat.mul Nat.add] in *.

(** C63.  The file each subcommand of mp4-muxer writes: for every list of resources that is long enough and whose elements are
    octets, the program ends without an exception or undefined behaviour, SimpleReader reads the file without error, and a player
    finds every resource the subcommand uses, octet by octet, with its time and, for video, key frame mark. *)
Ltac two cmd time a v A B C := 
  edestruct (two_tracks cmd time a v) as (file & E & R & X); [reflexivity|assumption|apply ftyp_wf_check; reflexivity|apply Z.leb_le; reflexivity|apply Nat.leb_le; reflexivity|..];
  [cbn [the_command m_duration]; rewrite A; by_value|cbn [the_command m_duration m_audio_timescale]; rewrite B; by_value|cbn [the_command m_duration]; rewrite C; by_value|by_value|by_value|assumption|..].
Theorem C63_muxer : forall cmd time a v, has_h264 cmd = false ->
  (fst (resources_used cmd) <= length a)%nat -> (snd (resources_used cmd) <= length v)%nat -> Forall resource_ok a -> Forall resource_ok v -> fits_u 32 time ->
  exists file, muxer cmd time a v = Ok file /\ plays cmd time file (expected_tracks cmd a v) (expected_media cmd a r_data v) /\ exact_contents cmd time a v file.
Proof.
  intros cmd time a v H La Lv Ra Rv T. destruct ticks_16 as (A1 & A2 & A3). destruct ticks_4 as (B1 & B2 & B3). destruct ticks_15_36 as (C1 & C2 & C3).
  assert (Fa : forall n, Nat.leb n 2000 = true -> forall k, not_h264 k = true -> codec_fits k -> config_octets k [] [] <= 2 ^ 32 -> track_ok k (firstn n a)).
  { intros n Hn k K1 K2 K3. apply Nat.leb_le in Hn. apply plain_ok; auto; [pose proof (firstn_le_length n a); lia|apply firstn_all; exact Ra]. }
  assert (Fv : forall n, Nat.leb n 2000 = true -> forall k, not_h264 k = true -> codec_fits k -> config_octets k [] [] <= 2 ^ 32 -> track_ok k (firstn n v)).
  { intros n Hn k K1 K2 K3. apply Nat.leb_le in Hn. apply plain_ok; auto; [pose proof (firstn_le_length n v); lia|apply firstn_all; exact Rv]. }
  assert (En : enough (the_command cmd) a v = true) by (unfold enough; apply andb_true_intro; split; [apply Nat.leb_le; destruct cmd; exact La|destruct cmd; try reflexivity; apply Nat.leb_le; exact Lv]).
  destruct cmd; try discriminate H; cbn [expected_tracks].
  - destruct (one_track opus time a v) as (file & E & R & X); cbv zeta; cbn [the_command m_class m_ftyp m_duration m_audio m_audio_timescale m_audio_samples m_video m_chunks] in *; rewrite ?A1, ?A2, ?A3; auto; try by_value;
    [apply ftyp_wf_check; reflexivity|apply Z.leb_le; reflexivity|apply Nat.leb_le; reflexivity|apply Fa; codec|].
    exists file. split; [exact E|]. split; [|eapply file_exact; [reflexivity|reflexivity|reflexivity|first [exact A1|exact B1|exact C1]|exact X]]. rewrite A2, plain_expected in R by reflexivity. eapply reads_plays; [reflexivity|reflexivity|exact A1| |exact R]; apply plain_flat; reflexivity.
  - two opusvp9 time a v A1 A2 A3; [apply Fa; codec|apply Fv; codec|].
    exists file. split; [exact E|]. split; [|eapply file_exact; [reflexivity|reflexivity|reflexivity|first [exact A1|exact B1|exact C1]|exact X]]. cbn [the_command m_duration m_audio m_audio_timescale m_audio_samples m_chunks] in R. rewrite A2, A3, !plain_expected in R by reflexivity. eapply reads_plays; [reflexivity|reflexivity|exact A1| |exact R]; apply plain_media; reflexivity.
  - two opusav1 time a v B1 B2 B3; [apply Fa; codec|apply Fv; codec|].
    exists file. split; [exact E|]. split; [|eapply file_exact; [reflexivity|reflexivity|reflexivity|first [exact A1|exact B1|exact C1]|exact X]]. cbn [the_command m_duration m_audio m_audio_timescale m_audio_samples m_chunks] in R. rewrite B2, B3, !plain_expected in R by reflexivity. eapply reads_plays; [reflexivity|reflexivity|exact B1| |exact R]; apply plain_media; reflexivity.
  - two mp3vp8 time a v C1 C2 C3; [apply Fa; codec|apply Fv; codec|].
    exists file. split; [exact E|]. split; [|eapply file_exact; [reflexivity|reflexivity|reflexivity|first [exact A1|exact B1|exact C1]|exact X]]. cbn [the_command m_duration m_audio m_audio_timescale m_audio_samples m_chunks] in R. rewrite C2, C3, !plain_expected in R by reflexivity. eapply reads_plays; [reflexivity|reflexivity|exact C1| |exact R]; apply plain_media; reflexivity.
  - two aacvp9 time a v C1 C2 C3; [apply Fa; codec|apply Fv; codec|].
    exists file. split; [exact E|]. split; [|eapply file_exact; [reflexivity|reflexivity|reflexivity|first [exact A1|exact B1|exact C1]|exact X]]. cbn [the_command m_duration m_audio m_audio_timescale m_audio_samples m_chunks] in R. rewrite C2, C3, !plain_expected in R by reflexivity. eapply reads_plays; [reflexivity|reflexivity|exact C1| |exact R]; apply plain_media; reflexivity.
  - two opusvp9_faststart time a v A1 A2 A3; [apply Fa; codec|apply Fv; codec|].
    exists file. split; [exact E|]. split; [|eapply file_exact; [reflexivity|reflexivity|reflexivity|first [exact A1|exact B1|exact C1]|exact X]]. cbn [the_command m_duration m_audio m_audio_timescale m_audio_samples m_chunks] in R. rewrite A2, A3, !plain_expected in R by reflexivity. eapply reads_plays; [reflexivity|reflexivity|exact A1| |exact R]; apply plain_media; reflexivity.
  - two aacvp9_faststart time a v C1 C2 C3; [apply Fa; codec|apply Fv; codec|].
    exists file. split; [exact E|]. split; [|eapply file_exact; [reflexivity|reflexivity|reflexivity|first [exact A1|exact B1|exact C1]|exact X]]. cbn [the_command m_duration m_audio m_audio_timescale m_audio_samples m_chunks] in R. rewrite C2, C3, !plain_expected in R by reflexivity. eapply reads_plays; [reflexivity|reflexivity|exact C1| |exact R]; apply plain_media; reflexivity.
Qed.
Print Assumptions C63_muxer.
(** With H.264 the video resources are access units in Annex B format: every slice is found, prefixed with its length. *)
Theorem C63_muxer_h264 : forall cmd time a l, has_h264 cmd = true ->
  (720 <= length a)%nat -> (384 <= length l)%nat -> Forall resource_ok a -> Forall picture_ok l -> pictures_fit (firstn 384 l) -> fits_u 32 time ->
  exists file, muxer cmd time a (map picture_resource l) = Ok file /\ plays cmd time file (expected_h264 a l) (expected_media cmd a picture_octets l) /\ exact_contents cmd time a (map picture_resource l) file.
Proof.
  intros cmd time a l H La Ll Ra Rl Fit T. destruct ticks_15_36 as (C1 & C2 & C3).
  assert (Fa : track_ok muxer_aac (firstn (16 * 45) a)) by (apply plain_ok; [reflexivity|codec|codec|pose proof (firstn_le_length (16 * 45) a); lia|apply firstn_all; exact Ra]).
  assert (Fv : track_ok muxer_h264 (firstn (16 * 24) (map picture_resource l))) by (rewrite firstn_map; apply pictures_ok; [by_value..|apply firstn_all; exact Rl|exact Fit]).
  assert (Ev : flat_map (samples_from muxer_h264) (firstn (16 * 24) (map picture_resource l)) = flat_map picture_samples (firstn 384 l)) by (rewrite firstn_map; apply pictures_samples; apply firstn_all; exact Rl).
  assert (Es : Forall picture_ok (firstn 384 l)) by (apply firstn_all; exact Rl).
  assert (E7 : flat_map (fun r => sps_in (effects muxer_h264 (r_data r))) (firstn (16 * 24) (map picture_resource l)) = flat_map (fun p => units_of 7 7 (p_units p)) (firstn 384 l)) by (rewrite firstn_map; exact (proj1 (pictures_sets _ _ _ _ _ _ _ Es))).
  assert (E8 : flat_map (fun r => pps_in (effects muxer_h264 (r_data r))) (firstn (16 * 24) (map picture_resource l)) = flat_map (fun p => units_of 8 8 (p_units p)) (firstn 384 l)) by (rewrite firstn_map; exact (proj2 (pictures_sets _ _ _ _ _ _ _ Es))).
  assert (En : enough (the_command cmd) a (map picture_resource l) = true) by (unfold enough; apply andb_true_intro; split; [apply Nat.leb_le; destruct cmd; try discriminate H; exact La|destruct cmd; try discriminate H; apply Nat.leb_le; rewrite map_length; exact Ll]).
  destruct cmd; try discriminate H.
  - two aach264 time a (map picture_resource l) C1 C2 C3; [exact Fa|exact Fv|].
    exists file. split; [exact E|]. split; [|eapply file_exact; [reflexivity|reflexivity|reflexivity|first [exact A1|exact B1|exact C1]|exact X]]. cbn [the_command m_duration m_audio m_audio_timescale m_audio_samples m_chunks] in R. rewrite C2, C3, plain_expected in R by reflexivity. unfold track_expected in R. rewrite Ev, E7, E8 in R. eapply reads_plays; [reflexivity|reflexivity|exact C1| |exact R]; apply pictures_media; [reflexivity|exact Rl].
  - two aach264_faststart time a (map picture_resource l) C1 C2 C3; [exact Fa|exact Fv|].
    exists file. split; [exact E|]. split; [|eapply file_exact; [reflexivity|reflexivity|reflexivity|first [exact A1|exact B1|exact C1]|exact X]]. cbn [the_command m_duration m_audio m_audio_timescale m_audio_samples m_chunks] in R. rewrite C2, C3, plain_expected in R by reflexivity. unfold track_expected in R. rewrite Ev, E7, E8 in R. eapply reads_plays; [reflexivity|reflexivity|exact C1| |exact R]; apply pictures_media; [reflexivity|exact Rl].
Qed.
Print Assumptions C63_muxer_h264.

(** Resources that meet the hypotheses, and the files written for them, evaluated. *)
Definition tones : list resource := map (fun i => mk_resource (960 * Z.of_nat i) [Z.of_nat (Nat.modulo i 256); 7] true) (seq 0 800).
Definition frames : list resource := map (fun i => mk_resource (640 * Z.of_nat i) [Z.of_nat (Nat.modulo i 256); 8; 9] (Nat.eqb (Nat.modulo i 100) 0)) (seq 0 400).
Example tones_ok : Forall resource_ok tones /\ Forall resource_ok frames /\ length tones = 800%nat /\ length frames = 400%nat.
Proof.
  assert (K : forall rs, forallb (fun r => forallb (fun x => (0 <=? x) && (x <? 256)) (r_data r) && (Zlen (r_data r) <? 2 ^ 32)) rs = true -> Forall resource_ok rs).
  { intros rs H. apply Forall_forall. intros r I. rewrite forallb_forall in H. specialize (H r I). apply andb_true_iff in H. destruct H as (H1 & H2). split; [apply bytes_check; exact H1|apply Z.ltb_lt; exact H2]. }
  split; [apply K; vm_compute; reflexivity|]. split; [apply K; vm_compute; reflexivity|]. split; reflexivity.
Qed.
Example C63_case : match muxer opusvp9_faststart 0 tones frames with
  | Ok file => match SimpleReader_read true file with
    | Some (Ok (ns, _)) => match read_movie (map tree_of ns) with
      | Some [Some x; Some y] => firstn 3 (i_durations x) = [960; 960; 960] /\ octets_at file (nth 51 (i_locations x) (0, 0)) = [51; 7] /\
          octets_at file (nth 26 (i_locations y) (0, 0)) = [26; 8; 9] /\ i_sync y = Some [1; 101; 201; 301] /\ length (i_locations y) = 400%nat
      | _ => False end
    | _ => False end
  | _ => False end.
Proof. vm_compute. repeat split; reflexivity. Qed.
Definition pictures : list picture := mk_picture 0 sample_units true :: map (fun i => mk_picture (640 * Z.of_nat i) (skipn 3 sample_units) false) (seq 1 383).
Example pictures_case : Forall picture_ok pictures /\ pictures_fit (firstn 384 pictures) /\ length pictures = 384%nat /\ Nat.leb 720 (length tones) = true.
Proof.
  destruct C35_case as ((A1 & A2) & _ & A4 & _). split; [|split; [|split; reflexivity]].
  - assert (X : picture_ok (mk_picture 0 sample_units true)).
    { split; [split; assumption|]. split; [reflexivity|exact A4]. }
    constructor; [exact X|]. apply Forall_forall. intros p I. apply in_map_iff in I. destruct I as (i & <- & _). split; [|split; [reflexivity|]]; cbn [p_units].
    + split; [rewrite <- (firstn_skipn 3 sample_units) in A1; apply Forall_app in A1; exact (proj2 A1)|]. exists [], (mk_unit true [101; 136; 0; 0; 3; 1; 132]). split; [reflexivity|]. apply Z.leb_le. reflexivity.
    + rewrite <- (firstn_skipn 3 sample_units) in A4. apply Forall_app in A4. exact (proj2 A4).
  - unfold pictures_fit. cbv zeta. split; [vm_compute; reflexivity|]. split; [vm_compute; reflexivity|]. split; [vm_compute; reflexivity|]. apply Forall_forall. intros s I. apply Z.ltb_lt. revert s I. apply (proj1 (forallb_forall _ _)). vm_compute. reflexivity.
Qed.
