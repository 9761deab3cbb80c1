(** Behaviour of the code that a user might not expect, as theorems: each refutes a plausible strengthening of a property
    by a concrete execution of the model (the hypotheses of the property theorems exclude exactly these situations). *)
From Verif Require Import Print Base BitIO Boxes WireFormat DescriptorSpec Box BoxSpec BoxTree TreeSpec Time H264 Track Writers MovieSpec RegistrySpec.
From Coq Require Import String List.
Import ListNotations.
Open Scope Z_scope.
Open Scope list_scope.

(** A box survives being written and read back by a fresh object of the same class. *)
Definition survives (b : box) : Prop :=
  exists w n r, Box_writeData b writer_init = Ok (w, n) /\ Box_readData (box_kind b) [] false (reader_init (w_os w)) = Ok (r, n, b).
(** What comes back from writing and reading. *)
Definition comes_back (b : box) : outcome (Z * box) :=
  match Box_writeData b writer_init with
  | Ok (w, _) => match Box_readData (box_kind b) [] false (reader_init (w_os w)) with Ok (_, n, b') => Ok (n, b') | Throw e => Throw e | UB => UB end
  | Throw e => Throw e
  | UB => UB
  end.
Lemma survives_back b : survives b -> exists n, comes_back b = Ok (n, b).
Proof. intros (w & n & r & A & B). exists n. unfold comes_back. rewrite A, B. reflexivity. Qed.
Ltac lost := intros [n H]%survives_back; vm_compute in H; discriminate H.

(** ** Bits *)
(** Descriptor lengths of 2^28 or more do not survive (C06). *)
Theorem C06_uvarint_large_refuted : exists w r n, write_uvarint 4 (2 ^ 28) writer_init = Ok (w, n) /\ read_uvarint 32 (reader_init (w_os w)) = Ok (r, n, 0).
Proof. exists (mkWriter [128; 128; 128; 0] 0 0), (mkReader [128; 128; 128; 0] 4 0 0), 32. split; vm_compute; reflexivity. Qed.
(** A Pascal string is only recognised when it fills the bound; otherwise its length octet is read as a character (C07). *)
Theorem C07_pascal_bound_refuted : exists w n r m, write_pascal_string [65; 66] writer_init = Ok (w, n) /\
  read_pascal_string 40 (reader_init (w_os w ++ [0; 0])) = Ok (r, m, [2; 65; 66]).
Proof. exists (mkWriter [2; 65; 66] 0 0), 24, (mkReader [2; 65; 66; 0; 0] 4 0 0), 32. split; vm_compute; reflexivity. Qed.

(** ** Flags *)
(** removeFlag sets a flag that was not set (C13). *)
Theorem C13_remove_flag_refuted : exists b f, fb_typed b /\ checkFlag b f = false /\ checkFlag (removeFlag f b) f = true.
Proof. exists (mk_fullbox 0 0 0 0), 4. split; [|split; reflexivity]. unfold fb_typed, is_byte. cbn [fb_version fb_f0 fb_f1 fb_f2]. lia. Qed.

(** ** Payloads: the restrictions of [box_wf] are necessary (C12) *)
(** hdlr with padding cannot be read back: the reader takes eight times as many octets. *)
Definition padded_hdlr := mk_hdlr fullbox0 0 (str "vide") [0;0;0;0] [0;0;0;0] [0;0;0;0] (str "x") [0].
Theorem C12_hdlr_padding_refuted : box_typed (B_hdlr padded_hdlr) /\ comes_back (B_hdlr padded_hdlr) = Throw RuntimeError.
Proof. split; [repeat split|vm_compute; reflexivity]. Qed.
(** hdlr with pre_defined <> 0 and a name whose first octet is its length: taken for a Pascal string. *)
Definition pascal_hdlr := mk_hdlr fullbox0 1 (str "vide") [0;0;0;0] [0;0;0;0] [0;0;0;0] [3; 65; 66] [].
Theorem C12_hdlr_pascal_refuted : box_typed (B_hdlr pascal_hdlr) /\ ~ survives (B_hdlr pascal_hdlr).
Proof. split; [repeat split|lost]. Qed.
(** stsz with a fixed sample size loses the number of samples. *)
Theorem C12_stsz_fixed_refuted : comes_back (B_stsz (mk_stsz fullbox0 4 [4; 4; 4])) = Ok (96, B_stsz (mk_stsz fullbox0 4 [])).
Proof. vm_compute. reflexivity. Qed.
(** ctts offsets and version-0 elst entries are cut to 32 bits. *)
Theorem C12_ctts_truncated_refuted : comes_back (B_ctts (mk_ctts fullbox0 [mk_ctts_entry 1 (2 ^ 32 + 5)])) = Ok (128, B_ctts (mk_ctts fullbox0 [mk_ctts_entry 1 5])).
Proof. vm_compute. reflexivity. Qed.
Theorem C12_elst_truncated_refuted : comes_back (B_elst (mk_elst fullbox0 [mk_elst_entry (2 ^ 32 + 7) 0 65536])) = Ok (160, B_elst (mk_elst fullbox0 [mk_elst_entry 7 0 65536])).
Proof. vm_compute. reflexivity. Qed.
(** Times of version-0 headers after 6 February 2040 (2^32 seconds after 1904) wrap around. *)
Theorem C12_mvhd_time_refuted : comes_back (B_mvhd (mvhd_of 1000 0 (2 ^ 32) 1)) = Ok (800, B_mvhd (mvhd_of 1000 0 0 1)).
Proof. vm_compute. reflexivity. Qed.
(** avcC with 32 sequence parameter sets announces none; the sets are then parsed as picture parameter sets. *)
Definition many_sps := mk_avcc 1 66 0 30 63 3 7 (repeat [] 32) [] false 63 0 31 0 31 0 [].
Theorem C12_avcC_32_sps_refuted : ~ survives (B_avcC many_sps) /\ exists n, comes_back (B_avcC many_sps) = Ok (n, B_avcC (mk_avcc 1 66 0 30 63 3 7 [] [] false 63 0 31 0 31 0 [])).
Proof. split; [lost|]. eexists. vm_compute. reflexivity. Qed.
(** meta: version and flags other than zero are replaced by zero. *)
Theorem C12_meta_flags_refuted : comes_back (B_meta (mk_fullbox 0 0 0 1)) = Ok (32, B_meta fullbox0).
Proof. vm_compute. reflexivity. Qed.
(** An AudioSampleEntry directly under 'wave' is read as opaque data and written as a full sample entry. *)
Theorem C12_audio_under_wave_refuted : exists a w r n, ase_type a = str "mp4a" /\
  Box_readData K_audio (str "mp4a") true (reader_init [1; 2; 3; 4]) = Ok (r, 32, B_audio a) /\
  Box_writeData (B_audio a) writer_init = Ok (w, n) /\ w_os w = repeat 0 28.
Proof.
  exists (mk_audio_entry (str "mp4a") [0;0;0;0;0;0] 0 0 [0;0;0] 0 0 0 0 0 false [1; 2; 3; 4] true), (mkWriter (repeat 0 28) 0 0), (mkReader [1; 2; 3; 4] 4 4 0), 224.
  repeat split; vm_compute; reflexivity.
Qed.

(** ** Payloads that are not written back as they were read (C49): the exclusions of [lossless] are necessary *)
Definition written_from (k : kind) (data : list Z) : outcome (list Z) :=
  match Box_readData k [] false (reader_init data) with
  | Ok (_, _, b) => match Box_writeData b writer_init with Ok (w, _) => Ok (w_os w) | Throw e => Throw e | UB => UB end
  | Throw e => Throw e
  | UB => UB
  end.
(** the flags of meta are cleared; a fixed-size stsz forgets its sample count; an unknown descriptor is dropped; a Pascal handler
    name is rewritten as a C string of the same length; the continuation bits of an iods length are normalised. *)
Theorem C49_meta_refuted : written_from K_meta [0; 0; 0; 1] = Ok [0; 0; 0; 0].
Proof. vm_compute. reflexivity. Qed.
Theorem C49_stsz_refuted : written_from K_stsz [0; 0; 0; 0; 0; 0; 0; 4; 0; 0; 0; 3] = Ok [0; 0; 0; 0; 0; 0; 0; 4; 0; 0; 0; 0].
Proof. vm_compute. reflexivity. Qed.
Theorem C49_esds_refuted : written_from K_esds [0; 0; 0; 0; 99; 1; 2] = Ok [0; 0; 0; 0].
Proof. vm_compute. reflexivity. Qed.
Theorem C49_hdlr_refuted : written_from K_hdlr ([0; 0; 0; 0; 0; 0; 0; 1] ++ str "vide" ++ repeat 0 12 ++ [2; 65; 66]) =
  Ok ([0; 0; 0; 0; 0; 0; 0; 1] ++ str "vide" ++ repeat 0 12 ++ [65; 66; 0]).
Proof. vm_compute. reflexivity. Qed.
Theorem C49_iods_refuted : written_from K_iods [0; 0; 0; 0; 16; 7; 0; 79; 255; 255; 255; 255; 255] = Ok [0; 0; 0; 0; 16; 128; 128; 128; 7; 0; 79; 255; 255; 255; 255; 255].
Proof. vm_compute. reflexivity. Qed.
(** An unterminated string grows by a terminator. *)
Theorem C49_unterminated_refuted : written_from K_url [0; 0; 0; 0; 65; 66] = Ok [0; 0; 0; 0; 65; 66; 0].
Proof. vm_compute. reflexivity. Qed.

(** ** Counts reported by readers (C11, C42) *)
(** esds: an unknown descriptor tag is counted twice (the reader reports 8 bits more than the payload has). *)
Theorem C11_esds_overcount_refuted : exists r b, Box_readData K_esds (str "esds") false (reader_init [0; 0; 0; 0; 99; 1; 2]) = Ok (r, 64, b).
Proof. do 2 eexists. vm_compute. reflexivity. Qed.
(** iods: whatever the payload contains, the announced descriptor length is believed. *)
Definition long_iods : list Z := [0; 0; 0; 0; 16; 128; 128; 128; 100; 0; 79; 255; 255; 255; 255; 255].
Theorem C11_iods_overcount_refuted : exists r n b, Box_readData K_iods (str "iods") false (reader_init long_iods) = Ok (r, n, b) /\ n > 8 * Zlen long_iods.
Proof. do 3 eexists. split; [vm_compute; reflexivity|reflexivity]. Qed.
(** sgpd: 'alst' in a version other than 1 uses an uninitialised length. *)
Theorem C42_sgpd_uninitialised_refuted :
  Box_readData K_sgpd (str "sgpd") false (reader_init ([2; 0; 0; 0] ++ str "alst" ++ [0; 0; 0; 0; 0; 0; 0; 1; 0; 0; 0; 1; 0; 0; 0; 1])) = UB.
Proof. vm_compute. reflexivity. Qed.

(** ** Headers and trees *)
(** BoxHeader::write with a size that has outgrown an 8-octet header (setSize called directly): the 16-octet form is
    written but the size field still counts 8 octets of header (C14 requires headers made by setOffsetAndDataSize). *)
Theorem C14_stale_header_refuted : let h := mk_header 0 (2 ^ 32) 8 (str "mdat") false in let '(h', o) := header_write h (mkOS [] 0) in
  h_size h' = 2 ^ 32 + 8 /\ h_header_size h' = 16 /\ os_data o = [0; 0; 0; 1] ++ str "mdat" ++ be_octets 8 (2 ^ 32).
Proof. vm_compute. repeat split. Qed.
(** With std::ifstream, an iods whose announced length goes beyond the end of the file makes the reader look for the next
    box header there: reading past the end (C19 excludes these files). *)
Theorem C19_iods_beyond_end_refuted : SimpleReader_read true (be_octets 4 24 ++ str "iods" ++ long_iods ++ be_octets 4 8 ++ str "free") = Some UB /\
  SimpleReader_read false (be_octets 4 24 ++ str "iods" ++ long_iods ++ be_octets 4 8 ++ str "free") = Some (Throw RuntimeError).
Proof. split; vm_compute; reflexivity. Qed.

(** ** Tracks and writers *)
(** Without ending the chunk when another track writes, samples are not found (C28 requires [chunks_ended]). *)
Definition interleaved : list op :=
  [O_NewTrack (MP3 0 0 0) 48000 0 0 0 1; O_NewTrack (MP3 0 0 0) 48000 0 0 0 2; O_AddData 0 0 [1] false; O_AddData 1 0 [2] false; O_AddData 0 1 [3] false].
Theorem C28_interleaving_refuted : exists boxes info other file,
  file = output (fst (run (start Simple 1 0 0 (mk_ftyp (str "isom") 0 [])) (simple_program interleaved [0%nat; 1%nat]))) /\
  file = flat_map (serialize_with written) boxes /\ read_movie boxes = Some [Some info; other] /\
  map sm_data (samples_of 0 interleaved) = [[1]; [3]] /\ map (octets_at file) (i_locations info) = [[1]; [2]].
Proof.
  pose (s := fst (run (start Simple 1 0 0 (mk_ftyp (str "isom") 0 [])) (O_WriteFtyp :: interleaved ++ [O_AppendTrakAndUdta [0%nat; 1%nat]]))).
  pose (moov := match mw_moov (s_writer s) with Some n => tree_of n | None => T [] B_container [] end).
  exists [ftyp_tree (mk_ftyp (str "isom") 0 []); T (str "free") (B_free []) []; mdat_tree [1; 2; 3]; moov].
  do 3 eexists. split; [reflexivity|]. split; [vm_compute; reflexivity|]. split; [vm_compute; reflexivity|]. split; vm_compute; reflexivity.
Qed.
(** The decision between stco and co64 looks at the last chunk only: an earlier larger offset is cut (C25 is about
    increasing offsets). *)
Theorem C25_last_chunk_refuted : exists b t, make_offset_box [mk_chunk (2 ^ 32) 1 true; mk_chunk 10 1 true] = Node t None (B_stco b) [] /\ hd 0 (stco_chunk_offsets b) = 2 ^ 32 mod 2 ^ 32.
Proof. do 2 eexists. split; vm_compute; reflexivity. Qed.
(** A track whose duration is before the last timestamp gets a last sample of about 2^32 (C27 is modulo 2^32). *)
Theorem C27_last_duration_refuted : forall t, Track_new (MP3 0 0 0) 1000 50 50 0 0 1 = Ok t ->
  t_durations (Track_finalize (Track_addMdatData 0 100 [1] false t)) = [2 ^ 32 - 50].
Proof. intros t H. vm_compute in H. assert (t = match Track_new (MP3 0 0 0) 1000 50 50 0 0 1 with Ok t => t | _ => t end) as -> by (vm_compute; congruence). vm_compute. reflexivity. Qed.
(** appendTrakAndUdtaBoxInfo twice on a FaststartWriter shifts the chunk offsets twice. *)
Definition one_sample : list op := [O_NewTrack (MP3 0 0 0) 48000 0 0 0 1; O_AddData 0 0 [1] false].
Definition offsets_after (p : list op) : list Z := match s_tracks (fst (run (start Faststart 1 0 0 (mk_ftyp (str "isom") 0 [])) p)) with t :: _ => map c_offset (t_chunks t) | [] => [] end.
Theorem C29_append_twice_refuted : exists o o', offsets_after (O_WriteFtyp :: one_sample ++ [O_AppendTrakAndUdta [0%nat]]) = [o] /\
  offsets_after (O_WriteFtyp :: one_sample ++ [O_AppendTrakAndUdta [0%nat]; O_AppendTrakAndUdta [0%nat]]) <> [o] /\
  offsets_after (O_WriteFtyp :: one_sample ++ [O_AppendTrakAndUdta [0%nat]; O_AppendTrakAndUdta [0%nat]]) = o'.
Proof. do 2 eexists. split; [vm_compute; reflexivity|]. split; [|vm_compute; reflexivity]. vm_compute. discriminate. Qed.

(** ** H.264 (C35 requires non-zero header octets and units of at least two octets at the end) *)
(** A NAL unit of one octet at the very end of the buffer is swallowed by the previous one. *)
Theorem C35_short_last_unit_refuted : h264_split [0; 0; 1; 101; 136; 132; 0; 0; 1; 65] = Some ([StoreSample [0; 0; 0; 7; 101; 136; 132; 0; 0; 1; 65]], Ok tt).
Proof. vm_compute. reflexivity. Qed.

(** ** Time (C38 covers times below 2^63 + 2082844800) *)
Theorem C38_huge_time_refuted : format_epoch_19040101 (2 ^ 63 + 2082844800) = UB.
Proof. vm_compute. reflexivity. Qed.

(** ** Ending a chunk after the track was appended to the movie records its last chunk a second time. *)
Theorem C24_terminate_after_finalize_refuted : forall t, Track_new (MP3 0 0 0) 1000 50 50 0 0 1 = Ok t ->
  Zlen (t_chunks (Track_finalize (Track_addMdatData 0 0 [1] false t))) = 1 /\
  Zlen (t_chunks (Track_terminateCurrentChunk (Track_finalize (Track_addMdatData 0 0 [1] false t)))) = 2.
Proof. intros t H. vm_compute in H. assert (t = match Track_new (MP3 0 0 0) 1000 50 50 0 0 1 with Ok t => t | _ => t end) as -> by (vm_compute; congruence). vm_compute. split; reflexivity. Qed.
(** ** A DecoderConfigDescriptor counts the sizes of its sub-descriptors without what is nested in them. *)
Theorem C39_deep_nesting_refuted : let inner := DES (mk_es_fields 1 false false false 0 0 [] 0) 0 [DSL [2]] in
  getDataSizeWithSubDescriptors (DCD (mk_dcd_fields 64 5 false true 0 0 0) 0 [inner]) = 13 + 5 + (getDataSizeWithSubDescriptors inner - 6).
Proof. vm_compute. reflexivity. Qed.

(** ** Times without a date: reading a file (read() prints every box) and writing a box (write() prints to the trace log). *)
Definition far_mvhd : list Z := [1; 0; 0; 0] ++ be_octets 8 (2 ^ 63 + 2082844800) ++ be_octets 8 0 ++ be_octets 4 1000 ++ be_octets 8 0 ++ be_octets 4 65536 ++ be_octets 2 256 ++
  repeat 0 (10 + 36 + 24) ++ be_octets 4 2.
Theorem C51_undated_file_refuted : SimpleReader_read true (be_octets 4 (8 + 8 + Zlen far_mvhd) ++ str "moov" ++ be_octets 4 (8 + Zlen far_mvhd) ++ str "mvhd" ++ far_mvhd) = Some UB.
Proof. vm_compute. reflexivity. Qed.
Theorem C51_undated_movie_refuted : exists r, snd (run (start Simple 1000 0 (2 ^ 63 + 2082844800) (mk_ftyp (str "isom") 0 [])) (simple_program one_sample [0%nat])) = r /\ In UB r.
Proof. eexists. split; [reflexivity|]. vm_compute. tauto. Qed.

(** ** Texts that do not determine the box (C53 leaves these classes out). *)
(** Rounding: edit rates 1/65536 and 3/65536 print as 0.0000. *)
Theorem C53_rounded_refuted : exists a b, a <> b /\ box_wf 0 (B_elst a) /\ box_wf 0 (B_elst b) /\ Box_toStringOnlyData (B_elst a) = Box_toStringOnlyData (B_elst b).
Proof.
  exists (mk_elst fullbox0 [mk_elst_entry 1 0 1]), (mk_elst fullbox0 [mk_elst_entry 1 0 3]). split; [discriminate|].
  assert (W : forall r, 0 <= r < 10 -> box_wf 0 (B_elst (mk_elst fullbox0 [mk_elst_entry 1 0 r]))).
  { intros r R. cbn [box_wf]. unfold elst_wf, fields_ok, elst_layout. cbn. repeat first [apply Forall_cons|apply Forall_nil]; cbn; unfold fits_u, fits_s; cbn; lia. }
  split; [apply W; lia|]. split; [apply W; lia|]. vm_compute. reflexivity.
Qed.
(** Unescaped quotes: the name and the location of a 'urn ' box run into each other. *)
Theorem C53_quotes_refuted : exists a b, a <> b /\ urn_name a <> urn_name b /\ box_wf 0 (B_urn a) /\ box_wf 0 (B_urn b) /\ Box_toStringOnlyData (B_urn a) = Box_toStringOnlyData (B_urn b).
Proof.
  exists (mk_urn fullbox0 (str "x"" Location=""y") (str "z")), (mk_urn fullbox0 (str "x") (str "y"" Location=""z")). split; [discriminate|]. split; [discriminate|].
  assert (T : forall l, forallb (fun c => (1 <=? c) && (c <? 256)) l = true -> field_ok (FS l)).
  { intros l F. rewrite forallb_forall in F. cbn [field_ok]. split; [apply Forall_forall; intros c I; apply F in I; unfold is_byte; lia|intros I; apply F in I; lia]. }
  assert (W : forall n l, forallb (fun c => (1 <=? c) && (c <? 256)) n = true -> forallb (fun c => (1 <=? c) && (c <? 256)) l = true -> Zlen n + Zlen l < 1000 -> box_wf 0 (B_urn (mk_urn fullbox0 n l))).
  { intros n l Hn Hl Hs. cbn [box_wf]. split; [|reflexivity]. unfold urn_wf, fields_ok, urn_layout. cbn [urn_fb urn_name urn_location]. split; [|split; [intros X; discriminate X|lia]].
    change (negb (flag fullbox0 0)) with true. cbn [opt]. repeat apply Forall_cons; try (exact (T _ Hn)); try (exact (T _ Hl)); try apply Forall_nil; vm_compute; split; discriminate || reflexivity. }
  split; [apply W; reflexivity|]. split; [apply W; reflexivity|]. vm_compute. reflexivity.
Qed.
(** 'data' boxes of unknown types print an empty type name. *)
Theorem C53_data_type_refuted : Box_toStringOnlyData (B_data (mk_data 100 0 [])) = Box_toStringOnlyData (B_data (mk_data 101 0 [])).
Proof. vm_compute. reflexivity. Qed.

(** ** Durations in seconds (C54): the tolerance of [announces] and the distance of [C54_samples] are necessary *)
From Verif Require Import Float DurationSpec.
From Flocq Require Import IEEE754.BinarySingleNaN.
From Coq Require Import Reals Lra.
Open Scope Z_scope.
(** 1000 seconds and 2^-13 *)
Definition late : f32 := B754_finite false 16384002 (-14) (eq_refl : SpecFloat.bounded 24 128 16384002 (-14) = true).
(** At 48000 ticks per second these are more than 48000005 ticks, but 48000004 are announced; a last sample that starts in time
    gets a duration of 2^32 - 1 ticks, a day. *)
Theorem C54_ticks_lost_refuted : duration_in 48000 late = Ok 48000004 /\ (IZR 48000005 < IZR 48000 * seconds late)%R /\
  forall t, Track_new (MP3 0 0 0) 48000 48000004 1000000 0 0 1 = Ok t ->
    t_durations (Track_finalize (Track_addMdatData 0 48000005 [1] true (Track_addMdatData 0 0 [1] true t))) = [48000005; 2 ^ 32 - 1].
Proof.
  split; [vm_compute; reflexivity|]. split.
  - unfold seconds, late, B2R, Defs.F2R. cbn [Defs.Fnum Defs.Fexp SpecFloat.cond_Zopp]. change (Raux.bpow Zaux.radix2 (-14)) with (/ 16384)%R. lra.
  - intros t E. injection E as <-. vm_compute. reflexivity.
Qed.
(** A negative duration, or NaN, is undefined behaviour in the constructor of the writer. *)
Theorem C54_negative_refuted : duration_in 1000 (f32_of_int (-1)) = UB /\ duration_in 1000 B754_nan = UB.
Proof. split; vm_compute; reflexivity. Qed.

(** ** Killed programs (C57): the exception of [C57_simple_unfinished] is necessary *)
From Verif Require Import Device PropFailure.
(** A program whose media data happen to contain, 248 octets after their beginning, an empty box of type moov: killed when
    writeFreeBoxAndMdatHeader has written three octets of the size of mdat, it leaves a file that SimpleReader reads to the
    end and in which it shows a movie. *)
Definition tricky : list Z := repeat 1 248 ++ [0; 0; 0; 8] ++ str "moov".
Theorem C57_header_refuted : exists n,
  let '(st, _, s, rs) := run_dev (killed_at n) 0 (start Simple 1000 64 0 (mk_ftyp (str "isom") 0 [])) (simple_program [O_AddRaw tricky] []) in
  st = Dead /\ List.length rs = 3%nat /\
  exists ns text, SimpleReader_read true (output s) = Some (Ok (ns, text)) /\
    map (fun n => tree_type (tree_of n)) ns = [str "ftyp"; str "free"; [0; 0; 0; 0]; str "moov"].
Proof. exists 283%nat. vm_compute. split; [reflexivity|]. split; [reflexivity|]. eexists. eexists. split; reflexivity. Qed.

(** ** Full disks (C59) *)
From Verif Require Import FailureSpec PropFile.
(** FaststartWriter: on a disk with room for all but the last octet every call returns, and the file lacks it (the exception
    of [C59_faststart] is necessary). *)
Theorem C59_faststart_refuted : exists cap,
  let whole := run (start Faststart 1000 64 0 session_ftyp) (faststart_program session_ops [1%nat; 0%nat]) in
  let '(st, _, s, rs) := run_dev (mk_devices (full_at cap) takes_all) 0 (start Faststart 1000 64 0 session_ftyp) (faststart_program session_ops [1%nat; 0%nat]) in
  st = Running /\ rs = snd whole /\ last rs UB = Ok tt /\ List.length (output (fst whole)) = S (List.length (output s)).
Proof.
  exists (Zlen (output (fst (run (start Faststart 1000 64 0 session_ftyp) (faststart_program session_ops [1%nat; 0%nat])))) - 1). vm_compute. repeat split.
Qed.
(** SimpleWriter: media data refused once only (the disk has room again later) are lost, and no call raises an exception
    (the hypothesis [stays_refused] of [C59_simple] is necessary). *)
Definition refused_once (n : nat) : fates := fun t _ => if Nat.eqb t n then Refused else Stored.
Theorem C59_transient_refuted : exists n,
  let whole := run (start Simple 1000 64 0 session_ftyp) (simple_program session_ops [1%nat; 0%nat]) in
  let '(st, _, s, rs) := run_dev (mk_devices (refused_once n) takes_all) 0 (start Simple 1000 64 0 session_ftyp) (simple_program session_ops [1%nat; 0%nat]) in
  st = Running /\ last rs UB = Ok tt /\ output s <> output (fst whole).
Proof. exists 45%nat. vm_compute. split; [reflexivity|]. split; [reflexivity|]. discriminate. Qed.

(** ** Objects (C60): the exception is necessary.  A file that ends in a box which announces more octets than there are: the header
    of that box is never deleted. *)
From Verif Require Import Memory.
Theorem C60_header_leaked_refuted : exists data m H a, SimpleReader_read_m true data = Some (m, Throw RuntimeError) /\ SimpleReader_destroy m = Ok H /\ at_ H a <> None.
Proof. exists [0; 0; 0; 9; 102; 114; 101; 101]. do 2 eexists. exists 0%nat. split; [vm_compute; reflexivity|]. split; [vm_compute; reflexivity|]. discriminate. Qed.

(** ** Objects and the intermediate file of the writers (C64) *)
From Verif Require Import WriterMemory PropWriterMemory.
(** A FaststartWriter that is destroyed before copyMdatData returned (here: by an exception of writeMoovBox) leaves its intermediate file, open. *)
Theorem C64_abandoned_refuted : exists x,
  let '(m, rs) := mrun (FaststartWriter_new_m 1000 64 0 session_ftyp (mkOS [] 0)) (all_calls (O_WriteFtyp :: session_ops ++ [O_AppendTrakAndUdta [1%nat; 0%nat]]) ++ [Call O_WriteMoov (Some x)]) in
  rs = repeat (Ok tt) 15 ++ [Throw RuntimeError] /\ ms_file m = true /\ mw_tmp_open (s_writer (ms_session m)) = true /\
  match Writer_destroy m with Ok H => live H = [] | _ => False end.
Proof. exists (3%nat, start Faststart 1000 64 0 session_ftyp). vm_compute. repeat split. Qed.
(** writeFtypBox that raises loses the BoxInfo, the Box and the BoxHeader: the three of [C64_destructor] are reached. *)
Theorem C64_ftyp_leaked_refuted : exists x,
  let '(m, rs) := mrun (FaststartWriter_new_m 1000 64 0 session_ftyp (mkOS [] 0)) [Call O_WriteFtyp (Some x)] in
  rs = [Throw RuntimeError] /\ match Writer_destroy m with Ok H => List.length (live H) = 3%nat | _ => False end.
Proof. exists (0%nat, start Faststart 1000 64 0 session_ftyp). vm_compute. repeat split. Qed.
(** deleteIntermediateFile called by the user: copyMdatData copies everything and then raises std::runtime_error (the file is not there to be removed),
    so [C64_intermediate_file] is about calls other than it. *)
Theorem C64_deleted_first_refuted :
  let ops := O_WriteFtyp :: session_ops ++ [O_AppendTrakAndUdta [1%nat; 0%nat]; O_WriteMoov; O_WriteMdatHeader] in
  let '(m, rs) := mrun (FaststartWriter_new_m 1000 64 0 session_ftyp (mkOS [] 0)) (all_calls ops ++ [DeleteIntermediateFile true; Call O_CopyMdatData None]) in
  rs = repeat (Ok tt) 18 ++ [Throw RuntimeError] /\
  os_data (mw_os (s_writer (ms_session m))) = output (fst (run (start Faststart 1000 64 0 session_ftyp) (faststart_program session_ops [1%nat; 0%nat]))).
Proof. vm_compute. split; reflexivity. Qed.

(** ** The intermediate file (C83) *)
From Verif Require Import TmpFile TmpFileProofs PropTmpFile.
(** "copyMdatData ends, by an exception if the intermediate file cannot be read": it tries for ever (faststart_writer.cpp:151 asks feof, not ferror). *)
Theorem C83_ends_refuted : exists w, forall m, snd (copyMdatData_file (mk_calls true true true) (map (fun _ => Failed) (seq 0 m)) w) = None.
Proof.
  exists session_writer. intros m. apply (C83_hangs (mk_calls true true true) (fun _ => Failed) 0 session_writer); [reflexivity|vm_compute; reflexivity|apply PeanoNat.Nat.le_0_l].
Qed.
(** A constructor that raises leaves nothing: not the name if mkstemp fails (faststart_writer.cpp:33-36), and file and descriptor if fdopen does (43-47). *)
Theorem C83_constructor_refuted : FaststartWriter_opens false true = (mk_place false false 1, Throw RuntimeError) /\ FaststartWriter_opens true false = (mk_place true true 0, Throw RuntimeError).
Proof. split; reflexivity. Qed.

(** ** Resources of the example program (C65): text that is not hexadecimal, or has one digit too many, is not refused. *)
From Verif Require Import Muxer Resource.
Theorem C65_garbage_refuted : load_resources false [mk_row 0 1 (str "zz") None; mk_row 1 1 (str "abc") None; mk_row 2 1 (str "-1") None] =
  Ok [mk_resource 0 [0] true; mk_resource 1 [171] true; mk_resource 2 [255] true].
Proof. reflexivity. Qed.

(** ** Size of what was parsed (C70): the exception is necessary.  For every count below 2^32 a file of 16 octets is read as one 'trun' box with so many entries. *)
From Verif Require Import BitFacts BitIOProofs BoxTac BoxWrite BoxRead BoxIO TreeProofs TreeLayout TreeLemmas TreePrint WeightSpec Weight PropTree RoundTrip PropWeight PrintSpec.
From Coq Require Import Ascii String List.
Import ListNotations.
Open Scope Z_scope.
Open Scope list_scope.
Lemma blank_layout n : flat_map (trun_entry_layout fullbox0) (repeat (mk_trun_entry 0 0 0 0) n) = [].
Proof. induction n as [|n IH]; [reflexivity|]. cbn [repeat flat_map]. rewrite IH. reflexivity. Qed.
Lemma blank_bits n : enc (trun_layout (mk_trun fullbox0 0 0 (repeat (mk_trun_entry 0 0 0 0) n))) = be 32 0 ++ be 32 (Z.of_nat n).
Proof.
  unfold trun_layout. cbn [trun_fb trun_entries]. rewrite blank_layout. unfold Zlen. rewrite List.repeat_length. change (opt (flag fullbox0 0) _) with (@nil field). change (opt (flag fullbox0 2) _) with (@nil field).
  change (be 32 0) with (enc (fb_layout fullbox0)). rewrite !enc_app, !app_nil_r. reflexivity.
Qed.
Theorem C70_trun_refuted : forall file n, 0 <= n < 2 ^ 32 -> exists data node text x, Zlen data = 16 /\ SimpleReader_read file data = Some (Ok ([node], text)) /\ n_box node = B_trun x /\ Zlen (trun_entries x) = n.
Proof.
  intros file n Hn. set (m := Z.to_nat n). assert (Em : Z.of_nat m = n) by (unfold m; lia). clearbody m. set (x := mk_trun fullbox0 0 0 (repeat (mk_trun_entry 0 0 0 0) m)).
  assert (Lx : Zlen (trun_entries x) = n) by (unfold x, Zlen; cbn [trun_entries]; rewrite List.repeat_length; exact Em).
  pose proof (blank_bits m) as Bx. fold x in Bx.
  assert (L8 : Zlen (enc (trun_layout x)) = 64) by (rewrite Bx, Zlen_app; unfold Zlen; rewrite !be_length; reflexivity).
  destruct (octets_bits (enc (trun_layout x)) ltac:(rewrite L8; reflexivity)) as (O1 & O2 & O3). rewrite L8 in O3.
  set (t := T (str "trun") (B_trun x) []).
  assert (Ls : Zlen (flat_map serialize [t]) = 16).
  { cbn [flat_map]. rewrite app_nil_r. unfold t, serialize. cbn [serialize_with flat_map]. rewrite app_nil_r. unfold wire_payload. cbn [box_layout].
    rewrite Zlen_app. assert (E : Zlen (octets (enc (trun_layout x))) = 8) by lia. rewrite E. reflexivity. }
  assert (F : fields_ok (trun_layout x)).
  { unfold trun_layout, x. cbn [trun_fb trun_entries]. rewrite blank_layout. change (opt (flag fullbox0 0) _) with (@nil field). change (opt (flag fullbox0 2) _) with (@nil field).
    rewrite !app_nil_r. unfold fb_layout. cbn [fb_version fb_f0 fb_f1 fb_f2 fullbox0 app]. do 4 (constructor; [cbn [field_ok]; split; [apply Z.le_refl|reflexivity]|]).
    constructor; [|constructor]. cbn [field_ok]. unfold Zlen. rewrite List.repeat_length, Em. exact Hn. }
  assert (W : tree_wf false t).
  { unfold t. cbn [tree_wf flat_map]. split; [reflexivity|]. split; [apply bytes_check; reflexivity|]. split; [reflexivity|]. split; [|split; [discriminate|exact I]].
    cbn [box_wf]. split; [exact F|]. split; [intros _; reflexivity|]. split; [intros _; reflexivity|]. apply Forall_forall. intros e He. apply repeat_spec in He. subst e.
    repeat split; intros _; reflexivity. }
  destruct (C18_read_back file [t] (Forall_cons _ W (Forall_nil _)) ltac:(repeat constructor) ltac:(rewrite Ls; reflexivity)) as (ns & text & R & _ & M & _).
  destruct ns as [|nd [|nd2 ns]]; try discriminate M. exists (flat_map serialize [t]), nd, text, x. split; [exact Ls|]. split; [exact R|]. split; [|exact Lx].
  destruct nd as [ty h b l]. cbn [map tree_of] in M. injection M as _ <- _. reflexivity.
Qed.

(** ** Concatenation (C71): the hypothesis on open-ended boxes is necessary.  A box of size 0 takes in whatever is appended. *)
From Verif Require Import ConcatSpec.
Theorem C71_open_refuted : exists f g n m, (exists t, SimpleReader_read true f = Some (Ok ([n], t))) /\ (exists t, SimpleReader_read true g = Some (Ok ([m], t))) /\
  exists k t, SimpleReader_read true (f ++ g) = Some (Ok ([k], t)) /\ n_box n = B_mdat [7] /\ n_box m = B_free [] /\ n_box k = B_mdat ([7] ++ g).
Proof.
  exists [0; 0; 0; 0; 109; 100; 97; 116; 7], [0; 0; 0; 8; 102; 114; 101; 101]. do 2 eexists. split; [eexists; vm_compute; reflexivity|]. split; [eexists; vm_compute; reflexivity|].
  do 2 eexists. split; [vm_compute; reflexivity|]. repeat split.
Qed.

(** ** H.264 (C72): the hypothesis on zero octets after start codes is necessary.  A unit whose header is zero is not refused:
    it is stored together with the next one, start code included. *)
Theorem C72_null_unit_refuted : h264_split [0; 0; 0; 1; 0; 101; 0; 0; 1; 65; 154; 7; 7] = Some ([StoreSample [0; 0; 0; 10; 1; 0; 101; 0; 0; 1; 65; 154; 7; 7]], Ok tt).
Proof. vm_compute. reflexivity. Qed.

(** ** Reading (C75): no number of nested calls of readBox suffices for all files, whatever the size of the stack; nor is the memory used at most any multiple of the
    size of the file.  (An H.264 muxer writes files that need 8.) *)
From Verif Require Import Cost CostSpec PropCost.
Theorem C75_stack_refuted : forall limit, 0 <= limit < 2 ^ 59 -> exists data c ns, Zlen data = 8 * (limit + 1) /\ SimpleReader_cost true data = Some (c, Ok ns) /\ nested c > limit.
Proof.
  intros limit H. destruct (C75_reached true (Z.to_nat (limit + 1)) ltac:(lia)) as (L & ns & E & _). exists (nested_file (Z.to_nat (limit + 1))). do 2 eexists. split; [lia|]. split; [exact E|]. cbn [nested]. lia.
Qed.
Theorem C75_memory_refuted : forall factor, 1 <= factor < 2 ^ 56 -> exists data c ns, SimpleReader_cost true data = Some (c, Ok ns) /\ held c > factor * Zlen data.
Proof.
  intros factor H. destruct (C75_reached true (Z.to_nat (2 * factor + 2)) ltac:(lia)) as (L & ns & E & N). exists (nested_file (Z.to_nat (2 * factor + 2))). do 2 eexists. split; [exact E|]. cbn [held]. rewrite N, L. nia.
Qed.

(** ** Overwriting (C73): what is left of a longer stream makes a file that cannot be read, although the writer reported no error. *)
From Verif Require Import PropFile OverwriteSpec.
Theorem C73_leftover_refuted :
  let r := run (start_on (repeat 7 5000) 0 Simple 1000 64 0 session_ftyp) (simple_program session_ops [1%nat; 0%nat]) in
  snd r = snd (run (start Simple 1000 64 0 session_ftyp) (simple_program session_ops [1%nat; 0%nat])) /\
  SimpleReader_read true (output (fst r)) = Some (Throw RuntimeError).
Proof. cbv zeta. split; vm_compute; reflexivity. Qed.

(** ** Saving (C78): a box found with the header "until the end of the file" keeps it when saved again, so the box saved after it is not found any more. *)
From Verif Require Import SaveSpec.
Theorem C78_open_box_refuted : exists data n text m o n' text',
  SimpleReader_read true data = Some (Ok ([n], text)) /\ m = fresh_info (T [102; 114; 101; 101] (B_free [5]) []) /\
  match save_boxes [n; m] 0 (mkOS [] 0) with Ok (_, o') => o' = o | _ => False end /\
  SimpleReader_read true (os_data o) = Some (Ok ([n'], text')) /\ n_box n = B_mdat [7] /\ n_box n' = B_mdat [7; 0; 0; 0; 9; 102; 114; 101; 101; 5].
Proof.
  exists [0; 0; 0; 0; 109; 100; 97; 116; 7]. do 6 eexists. split; [vm_compute; reflexivity|]. split; [reflexivity|]. split; [vm_compute; reflexivity|].
  split; [vm_compute; reflexivity|]. split; reflexivity.
Qed.

(** ** Storage (C79): a small box makes the reader ask for much more storage than the file has octets, before it fails. *)
From Verif Require Import Alloc AllocSpec AllocProofs.
(** A file of one 'stts' box that announces 4294967295 entries and has none. *)
Definition greedy_file : list Z := [0; 0; 0; 16; 115; 116; 116; 115; 0; 0; 0; 0; 255; 255; 255; 255].
Lemma rrepeat_throw {A} (m : BitIO.R A) r e n : m r = Throw e -> rrepeat (S n) m r = Throw e.
Proof. intros E. cbn [rrepeat]. unfold rbind. rewrite E. reflexivity. Qed.
Lemma greedy_payload : Stts_l (reader_init [0; 0; 0; 0; 255; 255; 255; 255]) = ([4294967295], Throw RuntimeError).
Proof.
  unfold Stts_l, lbind at 1, lift at 1.
  destruct (readVersionAndFlag (reader_init [0; 0; 0; 0; 255; 255; 255; 255])) as [[[r1 n1] fb]|e|] eqn:E1; [|vm_compute in E1; discriminate E1..].
  assert (F1 : readVersionAndFlag (reader_init [0; 0; 0; 0; 255; 255; 255; 255]) = Ok (r1, n1, fb)) by exact E1.
  unfold lbind at 1, lift at 1. destruct (read_uint 32 32 r1) as [[[r2 n2] c]|e|] eqn:E2;
    [|vm_compute in E1; injection E1 as <- <- <-; vm_compute in E2; discriminate E2..].
  assert (Ec : c = 4294967295 /\ SttsEntry_readData r2 = Throw RuntimeError).
  { vm_compute in E1. injection E1 as <- <- <-. vm_compute in E2. injection E2 as <- <- <-. split; [reflexivity|vm_compute; reflexivity]. }
  destruct Ec as [-> Th]. unfold lbind, entries_l, lbind, resize, lift.
  replace (Z.to_nat 4294967295) with (S (Z.to_nat 4294967294)) by (rewrite <- Z2Nat.inj_succ by lia; reflexivity).
  rewrite (rrepeat_throw _ _ _ _ Th). reflexivity.
Qed.
Lemma readBox_l_throw f file data uw pos h q e : read_box_header data pos = Ok h -> h_offset h + h_header_size h <= Zlen data ->
  header_getDataSize h <= u64 (u64 (Zlen data - h_offset h) - h_header_size h) -> h_offset h + h_header_size h + header_getDataSize h <= Zlen data ->
  Box_readData_l (BoxMap_getBoxInstance BoxMap_registered (h_type h)) (h_type h) uw
    (reader_init (firstn (Z.to_nat (header_getDataSize h)) (skipn (Z.to_nat (h_offset h + h_header_size h)) data))) = (q, Throw e) ->
  readBox_l (S f) file data uw pos = Some ([mk_reading q None], Throw e).
Proof.
  intros Eh H1 H2 H3 Ed. cbn [readBox_l]. rewrite Eh. replace (h_offset h + h_header_size h >? Zlen data) with false by lia. rewrite Bool.andb_false_r.
  replace (header_getDataSize h >? u64 (u64 (Zlen data - h_offset h) - h_header_size h)) with false by lia.
  replace (h_offset h + h_header_size h + header_getDataSize h >? Zlen data) with false by lia. rewrite Ed. reflexivity.
Qed.
Lemma lmap_throw {A B} (g : A -> B) (m : L A) r q e : m r = (q, Throw e) -> lmap g m r = (q, Throw e).
Proof. intros E. unfold lmap, lbind. rewrite E. reflexivity. Qed.
Theorem C79_small_box_refuted : Zlen greedy_file = 16 /\ bytes greedy_file /\ SimpleReader_l true greedy_file = Some ([mk_reading [4294967295] None], Throw RuntimeError).
Proof.
  split; [reflexivity|]. split; [unfold bytes; rewrite Forall_forall; intros x Hx; cbn [In greedy_file] in Hx; unfold is_byte; lia|].
  destruct (read_box_header greedy_file 0) as [h|e|] eqn:Eh; [|vm_compute in Eh; discriminate Eh..].
  assert (F : BoxMap_getBoxInstance BoxMap_registered (h_type h) = K_stts /\ h_offset h + h_header_size h <= Zlen greedy_file /\
    header_getDataSize h <= u64 (u64 (Zlen greedy_file - h_offset h) - h_header_size h) /\ h_offset h + h_header_size h + header_getDataSize h <= Zlen greedy_file /\
    firstn (Z.to_nat (header_getDataSize h)) (skipn (Z.to_nat (h_offset h + h_header_size h)) greedy_file) = [0; 0; 0; 0; 255; 255; 255; 255]).
  { vm_compute in Eh. injection Eh as <-. vm_compute. split; [reflexivity|]. split; [discriminate|]. split; [discriminate|]. split; [discriminate|reflexivity]. }
  destruct F as (F1 & F2 & F3 & F4 & F5).
  assert (B : readBox_l (length greedy_file + 1) true greedy_file false 0 = Some ([mk_reading [4294967295] None], Throw RuntimeError)).
  { replace (length greedy_file + 1)%nat with (S (length greedy_file)) by (rewrite Nat.add_1_r; reflexivity).
    apply (readBox_l_throw _ _ _ _ _ h _ _ Eh F2 F3 F4). rewrite F1, F5. exact (lmap_throw B_stts Stts_l _ _ _ greedy_payload). }
  unfold SimpleReader_l. replace (length greedy_file + 2)%nat with (S (length greedy_file + 1)) by (rewrite Nat.add_1_r, Nat.add_comm; reflexivity).
  cbn [readLeafs_l]. rewrite B. reflexivity.
Qed.

(** ** Seeking (C80): a timestamp smaller than the one before it is not refused, and makes the earlier sample last 2^32 ticks less the
    difference: no later moment finds the second sample. *)
From Verif Require Import SeekSpec.
Theorem C80_backwards_refuted :
  let ops := [O_NextTrackID; O_NewTrack (AAC 0 128000 128000) 48000 3072 64 0 1; O_AddData 0 1024 [1; 2; 3] false; O_AddData 0 1000 [4; 5] false] in
  let r := run (start Simple 1000 64 0 session_ftyp) (simple_program ops [0%nat]) in
  snd r = repeat (Ok tt) 8 /\
  exists ns text info, SimpleReader_read true (output (fst r)) = Some (Ok (ns, text)) /\ read_movie (map tree_of ns) = Some [Some info] /\ i_durations info = [4294967272; 2072] /\
    forall t, 0 <= t < 4294967272 -> playing (i_durations info) t = Some 0%nat.
Proof.
  cbv zeta. split; [vm_compute; reflexivity|]. do 3 eexists. split; [vm_compute; reflexivity|]. split; [vm_compute; reflexivity|]. split; [reflexivity|].
  intros t H. cbn [i_durations playing]. replace (t <? 4294967272) with true by (symmetry; apply Z.ltb_lt; exact (proj2 H)). reflexivity.
Qed.
