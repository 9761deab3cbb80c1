(** Properties C54 (durations in seconds) and C55 (getters of fixed point members). *)
From Verif Require Import Base BitIO Boxes WireFormat DescriptorSpec Box BoxSpec BoxTree TreeSpec AnnexBSpec H264 Track Writers MovieSpec FaststartFile TrackLemmas FileLemmas RoundTrip PropFile PropTrack PropRoundTrip Float FloatProofs DurationSpec DurationProofs.
From Flocq Require Import IEEE754.BinarySingleNaN.
From Coq Require Import Reals Lra Lia Ascii String List.
Import ListNotations.
Open Scope Z_scope.
Open Scope list_scope.

(** C54: the ticks computed from a duration in seconds announce it; the computation is defined whenever the result is a
    64-bit number, with the tolerance of the rounding, and is undefined behaviour for NaN, infinities, durations that are too
    long, and negative ones. *)
Theorem C54_ticks : forall timescale d v, 0 <= timescale < 2 ^ 32 -> (0 <= seconds d)%R -> duration_in timescale d = Ok v ->
  0 <= v < 2 ^ 64 /\ announces v timescale (seconds d).
Proof. intros t d v A B C. destruct (duration_ok_close t d v A B C) as (_ & H1 & H2). exact (conj H1 H2). Qed.
Theorem C54_defined : forall timescale d, 0 <= timescale < 2 ^ 32 -> is_finite d = true -> (0 <= seconds d)%R ->
  (IZR timescale * seconds d * (1 + / IZR (2 ^ 22)) < IZR (2 ^ 64))%R -> exists v, duration_in timescale d = Ok v.
Proof. intros t d A B C D. destruct (duration_close t d A B C D) as (v & H & _). exists v. exact H. Qed.
Theorem C54_undefined : forall timescale d, 0 <= timescale < 2 ^ 32 ->
  is_finite d = false \/ (IZR (2 ^ 64) <= IZR timescale * seconds d * (1 - / IZR (2 ^ 22)))%R \/ (IZR timescale * seconds d * (1 - / IZR (2 ^ 22)) <= - 1)%R ->
  duration_in timescale d = UB.
Proof.
  intros t d A H. destruct (is_finite d) eqn:F; [|apply duration_not_finite; exact F].
  destruct H as [H|[H|H]]; [discriminate H|apply duration_too_long; assumption|apply duration_negative; assumption].
Qed.
(** C54: a whole number of ticks that fits in 24 bits, up to a power of two, is announced exactly (timescales up to 2^24). *)
Theorem C54_exact : forall timescale d m k, 0 <= timescale <= 2 ^ 24 -> is_finite d = true -> 0 <= m <= 2 ^ 24 -> 0 <= k -> m * 2 ^ k < 2 ^ 64 ->
  (IZR timescale * seconds d = IZR (m * 2 ^ k))%R -> duration_in timescale d = Ok (m * 2 ^ k).
Proof. exact duration_exact. Qed.
(** C54: a longer duration is never announced as a shorter one. *)
Theorem C54_monotone : forall timescale d d' v v', 0 <= timescale < 2 ^ 32 -> is_finite d = true -> is_finite d' = true -> (seconds d <= seconds d')%R ->
  duration_in timescale d = Ok v -> duration_in timescale d' = Ok v' -> v <= v'.
Proof. exact duration_monotone. Qed.

(** C54: in a finished file, as the library's reader reads it, movie and track headers announce the durations given to the
    constructors. *)
Theorem C54_simple_file : forall seekable timescale duration time ft ops sel d dur,
  box_wf 0 (B_ftyp ft) -> recording ops -> chosen ops sel -> movie_fits ft ops sel -> bytes (media ops) ->
  fits_u 32 timescale -> fits_u 32 duration -> fits_u 32 time -> Forall (track_fits ops) sel ->
  duration_in timescale d = Ok duration -> (0 <= seconds d)%R ->
  Forall (fun i => exists o, nth_error (created ops) i = Some o /\ lasting timescale (dur i) o /\ (0 <= seconds (dur i))%R) sel ->
  let file := output (fst (run (start Simple timescale duration time ft) (simple_program ops sel))) in
  exists ns text, SimpleReader_read seekable file = Some (Ok (ns, text)) /\
    movie_announces timescale (seconds d) (map tree_of ns) /\
    Forall2 (fun i trak => track_announces timescale (seconds (dur i)) trak) sel (trak_boxes (map tree_of ns)).
Proof.
  intros seekable timescale duration time ft ops sel d dur A B C D E P1 P2 P3 P4 L1 L2 L3.
  destruct (simple_back timescale duration time ft ops sel A B C D E P1 P2 P3 P4 seekable) as (ns & text & traks & H1 & H2 & H3 & H4 & _). cbv zeta in *.
  exists ns, text. split; [exact H3|]. rewrite H4.
  pose proof (movie_ok timescale duration time ops sel d dur P1 L1 L2 P4 L3 ([ftyp_tree ft] ++ free_trees (media ops) ++ [mdat_tree (media ops)]) [] _ traks (no_moov_simple ft (media ops)) (Forall_nil _) H2) as X.
  cbv zeta in X. rewrite app_nil_r, <- !app_assoc in X. exact X.
Qed.
Theorem C54_faststart_file : forall seekable timescale duration time ft ops sel d dur,
  box_wf 0 (B_ftyp ft) -> recording ops -> chosen ops sel -> movie_fits ft ops sel -> bytes (media ops) ->
  fits_u 32 timescale -> fits_u 32 duration -> fits_u 32 time -> Forall (track_fits ops) sel ->
  duration_in timescale d = Ok duration -> (0 <= seconds d)%R ->
  Forall (fun i => exists o, nth_error (created ops) i = Some o /\ lasting timescale (dur i) o /\ (0 <= seconds (dur i))%R) sel ->
  let file := output (fst (run (start Faststart timescale duration time ft) (faststart_program ops sel))) in
  exists ns text, SimpleReader_read seekable file = Some (Ok (ns, text)) /\
    movie_announces timescale (seconds d) (map tree_of ns) /\
    Forall2 (fun i trak => track_announces timescale (seconds (dur i)) trak) sel (trak_boxes (map tree_of ns)).
Proof.
  intros seekable timescale duration time ft ops sel d dur A B C D E P1 P2 P3 P4 L1 L2 L3.
  destruct (faststart_back timescale duration time ft ops sel A B C D E P1 P2 P3 P4 seekable) as (ns & text & traks & H1 & H2 & H3 & H4 & _). cbv zeta in *.
  exists ns, text. split; [exact H3|]. rewrite H4.
  apply (movie_ok timescale duration time ops sel d dur P1 L1 L2 P4 L3 [ftyp_tree ft] [mdat_tree (media ops)] (output (fst (run (start Faststart timescale duration time ft) (faststart_program ops sel)))) traks);
    [repeat constructor..|exact H2].
Qed.

(** C54: the durations of the samples of a track add up to the duration given to its constructor, if the samples do not start
    closer to the end than the rounding. *)
Theorem C54_samples : forall cls timescale duration time ft ops i c tsc dts dmv mt id moov d last,
  forallb media_op ops = true -> known_tracks ops -> samples_fit ops ->
  nth_error (created ops) i = Some (O_NewTrack c tsc dts dmv mt id) -> 0 <= tsc < 2 ^ 32 ->
  lasting timescale d (O_NewTrack c tsc dts dmv mt id) -> (0 <= seconds d)%R -> dts < 2 ^ 32 ->
  let timestamps := map sm_ts (samples_of i ops) in
  let ticks_per_second := match c with Opus _ _ => 48000 | _ => tsc end in
  Forall (fun t => 0 <= t) timestamps -> MovieSpec.increasing timestamps last ->
  (IZR last <= IZR ticks_per_second * seconds d * (1 - / IZR (2 ^ 22)) - 1)%R ->
  exists k info, appended_to moov (fst (run (start cls timescale duration time ft) ops)) i k /\ read_trak (tree_of k) = Some info /\
    match timestamps with
    | [] => i_durations info = []
    | first :: _ => announces (first + sum (i_durations info)) (i_timescale info) (seconds d)
    end.
Proof.
  intros cls timescale duration time ft ops i c tsc dts dmv mt id moov d last M K F E Ht L P B. cbv zeta. intros N I1 I2.
  destruct (appended_trak cls timescale duration time ft ops i c tsc dts dmv mt id moov (conj M (conj K F)) E) as (t & k & info & A1 & A2 & A3 & X).
  exists k, info. split; [exists t; auto|]. split; [exact A3|]. destruct X as (_ & _ & X2 & _ & A4 & _).
  destruct L as (L1 & _).
  assert (R : 0 <= match c with Opus _ _ => 48000 | _ => tsc end < 2 ^ 32) by (destruct c; try exact Ht; split; [discriminate|reflexivity]).
  pose proof (announced _ _ _ R P L1) as H.
  assert (Q : last <= dts) by (apply le_IZR; unfold announces in H; lra).
  rewrite A4. destruct (map sm_ts (samples_of i ops)) as [|t0 l]; [reflexivity|].
  rewrite (sum_durations_exact l dts t0 (increasing_longer _ _ _ I1 Q B N)). replace (t0 + (dts - t0)) with dts by lia.
  rewrite X2. exact H.
Qed.

(** C55: the getters of fixed point members return exactly the number the member stands for. *)
Theorem C55_getters :
  (forall b, fits_u 32 (tkhd_width b) -> B2R (Tkhd_getWidth b) = (IZR (tkhd_width b) / IZR (2 ^ 16))%R /\ is_finite (Tkhd_getWidth b) = true) /\
  (forall b, fits_u 32 (tkhd_height b) -> B2R (Tkhd_getHeight b) = (IZR (tkhd_height b) / IZR (2 ^ 16))%R /\ is_finite (Tkhd_getHeight b) = true) /\
  (forall b, fits_s 32 (mvhd_rate b) -> B2R (Mvhd_getRate b) = (IZR (mvhd_rate b) / IZR (2 ^ 16))%R /\ is_finite (Mvhd_getRate b) = true) /\
  (forall e, fits_s 32 (elste_media_rate e) -> B2R (ElstEntry_getMediaRate e) = (IZR (elste_media_rate e) / IZR (2 ^ 16))%R /\ is_finite (ElstEntry_getMediaRate e) = true) /\
  (forall b, fits_s 16 (smhd_balance b) -> B2R (Smhd_getBalance b) = (IZR (smhd_balance b) / IZR (2 ^ 8))%R /\ is_finite (Smhd_getBalance b) = true).
Proof. exact getters_exact. Qed.
(** C55: and the printed text of the box shows the decimal closest to it. *)
Theorem C55_printed :
  (forall b, fits_s 32 (mvhd_rate b) -> text_shows (B_mvhd b) "Rate" 4 (B2R (Mvhd_getRate b))) /\
  (forall b, fits_u 32 (tkhd_width b) -> text_shows (B_tkhd b) "Width" 4 (B2R (Tkhd_getWidth b))) /\
  (forall b, fits_u 32 (tkhd_height b) -> text_shows (B_tkhd b) "Height" 4 (B2R (Tkhd_getHeight b))) /\
  (forall b, fits_s 16 (smhd_balance b) -> text_shows (B_smhd b) "Balance" 2 (B2R (Smhd_getBalance b))) /\
  (forall b e, In e (elst_entries b) -> fits_s 32 (elste_media_rate e) -> text_shows (B_elst b) "MediaRate" 4 (B2R (ElstEntry_getMediaRate e))).
Proof. exact printed_fields. Qed.

(** The session of PropFile.v is a program that passes 64 ms, 0.064f, everywhere. *)
Definition ms64 : f32 := Bdiv mode_NE (f32_of_int 64) (f32_of_int 1000).
Example session_durations : duration_in 1000 ms64 = Ok 64 /\ duration_in 48000 ms64 = Ok 3072.
Proof. vm_compute. auto. Qed.
Example ms64_positive : (0 <= seconds ms64)%R.
Proof.
  unfold seconds. rewrite <- (SF2R_B2SF 24 128). replace (B2SF ms64) with (SpecFloat.S754_finite false 8589935 (-27)) by (vm_compute; reflexivity).
  cbn [SF2R]. unfold Defs.F2R. cbn [Defs.Fnum Defs.Fexp SpecFloat.cond_Zopp]. apply Rmult_le_pos; [apply IZR_le; discriminate|apply Raux.bpow_ge_0].
Qed.
Example session_lasting : Forall (fun i => exists o, nth_error (created session_ops) i = Some o /\ lasting 1000 ms64 o /\ (0 <= seconds ms64)%R) [1%nat; 0%nat].
Proof.
  constructor; [|constructor; [|constructor]]; eexists; (split; [vm_compute; reflexivity|]); (split; [vm_compute; auto|exact ms64_positive]).
Qed.
(** The audio track of that session: the last sample starts at 2048; any time up to 3000 will do. *)
Example ms64_value : (63 / 1000 <= seconds ms64)%R.
Proof.
  unfold seconds. rewrite <- (SF2R_B2SF 24 128). replace (B2SF ms64) with (SpecFloat.S754_finite false 8589935 (-27)) by (vm_compute; reflexivity).
  cbn [SF2R]. unfold Defs.F2R. cbn [Defs.Fnum Defs.Fexp SpecFloat.cond_Zopp]. change (Raux.bpow Zaux.radix2 (-27)) with (/ 134217728)%R. lra.
Qed.
Example session_last : map sm_ts (samples_of 0 session_ops) = [0; 1024; 2048] /\ MovieSpec.increasing [0; 1024; 2048] 3000 /\
  (IZR 3000 <= IZR 48000 * seconds ms64 * (1 - / IZR (2 ^ 22)) - 1)%R.
Proof.
  split; [vm_compute; reflexivity|]. split; [cbn [MovieSpec.increasing]; lia|]. pose proof ms64_value as H. change (IZR (2 ^ 22)) with 4194304%R.
  assert (48000 * (63 / 1000) <= 48000 * seconds ms64)%R by lra.
  assert ((48000 * (63 / 1000)) * (1 - / 4194304) <= 48000 * seconds ms64 * (1 - / 4194304))%R by (apply Rmult_le_compat_r; lra). lra.
Qed.
(** 16 pixels of a 16.16 width; a rate of -1/2 *)
Example fixed_point_values : fits_u 32 (16 * 2 ^ 16) /\ fits_s 32 (- 32768).
Proof. unfold fits_u, fits_s. lia. Qed.

Print Assumptions C54_ticks.
Print Assumptions C54_defined.
Print Assumptions C54_undefined.
Print Assumptions C54_exact.
Print Assumptions C54_monotone.
Print Assumptions C54_simple_file.
Print Assumptions C54_faststart_file.
Print Assumptions C54_samples.
Print Assumptions C55_getters.
Print Assumptions C55_printed.
