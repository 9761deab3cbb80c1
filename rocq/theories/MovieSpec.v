(** Independent specification of media files: how a player resolves the sample tables of a track (ISO/IEC 14496-12
    8.6.1.2, 8.6.2, 8.7.3, 8.7.4, 8.7.5), and what a program that drives a writer has given it.  Mentions of the code: the
    record types of the boxes, the type of calls [op], and (for H.264 tracks only) the samples into which one access unit
    is split, which has its own specification (AnnexBSpec.v). *)
From Verif Require Import Base BitIO Boxes WireFormat DescriptorSpec Box BoxTree TreeSpec H264 Track Writers.
From Coq Require Import String List.
Import ListNotations.
Open Scope Z_scope.
Open Scope list_scope.

(** * Sample tables *)

(** Durations of the samples: the time-to-sample table is run-length encoded. *)
Definition sample_durations (stts : list stts_entry) : list Z :=
  flat_map (fun e => repeat (sttse_sample_duration e) (Z.to_nat (sttse_sample_count e))) stts.

(** Number of samples of chunk [k], counted from 1: that of the last run of chunks which starts at [k] or before. *)
Definition samples_in_chunk (stsc : list stsc_entry) (k : Z) : Z :=
  fold_left (fun n e => if stsce_first_chunk e <=? k then stsce_sample_per_chunk e else n) stsc 0.

(** Samples of one chunk follow each other from its offset. *)
Fixpoint consecutive (offset : Z) (sizes : list Z) : list (Z * Z) :=
  match sizes with [] => [] | s :: l => (offset, s) :: consecutive (offset + s) l end.
(** (offset, size) of every sample in the chunks numbered from [k] on. *)
Fixpoint locate (stsc : list stsc_entry) (k : Z) (offsets sizes : list Z) : list (Z * Z) :=
  match offsets with
  | [] => []
  | o :: l =>
      let n := Z.to_nat (samples_in_chunk stsc k) in
      consecutive o (firstn n sizes) ++ locate stsc (k + 1) l (skipn n sizes)
  end.
(** (offset, size) of every sample of a track, in order, from its stsc, stco/co64 and stsz tables. *)
Definition sample_locations (stsc : list stsc_entry) (offsets sizes : list Z) : list (Z * Z) := locate stsc 1 offsets sizes.

(** The [n] octets of a file at [offset]. *)
Definition octets_at (file : list Z) (loc : Z * Z) : list Z := firstn (Z.to_nat (snd loc)) (skipn (Z.to_nat (fst loc)) file).

(** ** From box trees *)
Definition tree_type (t : tree) : list Z := let 'T ty _ _ := t in ty.
Definition tree_box (t : tree) : box := let 'T _ b _ := t in b.
Definition tree_kids (t : tree) : list tree := let 'T _ _ l := t in l.
Definition is_type (ty : list Z) (t : tree) : bool := list_eqb (tree_type t) ty.
(** the children of a given type; the only one if there is exactly one *)
Definition kids_of_type (ty : list Z) (l : list tree) : list tree := filter (is_type ty) l.
Definition the_kid (ty : list Z) (l : list tree) : option tree := match kids_of_type ty l with [t] => Some t | _ => None end.

Definition t_moov := [109; 111; 111; 118].
Definition t_trak := [116; 114; 97; 107].
Definition t_tkhd := [116; 107; 104; 100].
Definition t_mdia := [109; 100; 105; 97].
Definition t_minf := [109; 105; 110; 102].
Definition t_stbl := [115; 116; 98; 108].
Definition t_stsd := [115; 116; 115; 100].
Definition t_stts := [115; 116; 116; 115].
Definition t_stsc := [115; 116; 115; 99].
Definition t_stsz := [115; 116; 115; 122].
Definition t_stco := [115; 116; 99; 111].
Definition t_co64 := [99; 111; 54; 52].
Definition t_stss := [115; 116; 115; 115].
Definition t_mdhd := [109; 100; 104; 100].

Definition obnd {A B} (o : option A) (f : A -> option B) : option B := match o with Some a => f a | None => None end.

(** What a player knows about a track. *)
Record track_info := mk_info {
  i_track_id : Z;                (* tkhd *)
  i_timescale : Z;               (* mdhd *)
  i_locations : list (Z * Z);    (* stsc, stsz, stco or co64 *)
  i_durations : list Z;          (* stts *)
  i_sync : option (list Z) }.    (* stss *)

(** The tables found in a sample table box: exactly one of each, exactly one of stco and co64, at most one stss. *)
Definition chunk_offsets (stbl : list tree) : option (list Z) :=
  match kids_of_type t_stco stbl, kids_of_type t_co64 stbl with
  | [T _ (B_stco b) _], [] => Some (stco_chunk_offsets b)
  | [], [T _ (B_co64 b) _] => Some (co64_chunk_offsets b)
  | _, _ => None
  end.
Definition sample_sizes (stbl : list tree) : option (list Z) :=
  match the_kid t_stsz stbl with
  | Some (T _ (B_stsz b) _) => if stsz_sample_size b =? 0 then Some (stsz_entry_sizes b) else None
  | _ => None
  end.
Definition stsc_table (stbl : list tree) : option (list stsc_entry) :=
  match the_kid t_stsc stbl with Some (T _ (B_stsc b) _) => Some (stsc_entries b) | _ => None end.
Definition stts_table (stbl : list tree) : option (list stts_entry) :=
  match the_kid t_stts stbl with Some (T _ (B_stts b) _) => Some (stts_entries b) | _ => None end.
Definition sync_table (stbl : list tree) : option (option (list Z)) :=
  match kids_of_type t_stss stbl with
  | [] => Some None
  | [T _ (B_stss b) _] => Some (Some (stss_sample_numbers b))
  | _ => None
  end.
Definition read_trak (trak : tree) : option track_info :=
  match the_kid t_tkhd (tree_kids trak) with
  | Some (T _ (B_tkhd th) _) =>
      obnd (the_kid t_mdia (tree_kids trak)) (fun mdia =>
      match the_kid t_mdhd (tree_kids mdia) with
      | Some (T _ (B_mdhd md) _) =>
          obnd (the_kid t_minf (tree_kids mdia)) (fun minf =>
          obnd (the_kid t_stbl (tree_kids minf)) (fun stbl =>
          obnd (the_kid t_stsd (tree_kids stbl)) (fun _ =>
          obnd (chunk_offsets (tree_kids stbl)) (fun offsets =>
          obnd (sample_sizes (tree_kids stbl)) (fun sizes =>
          obnd (stsc_table (tree_kids stbl)) (fun stsc =>
          obnd (stts_table (tree_kids stbl)) (fun stts =>
          obnd (sync_table (tree_kids stbl)) (fun sync =>
            Some (mk_info (tkhd_track_id th) (mdhd_timescale md) (sample_locations stsc offsets sizes) (sample_durations stts) sync)))))))))
      | _ => None
      end)
  | _ => None
  end.
(** The tracks of a movie, in order of their trak boxes. *)
Definition read_movie (file : list tree) : option (list (option track_info)) :=
  obnd (the_kid t_moov file) (fun moov => Some (map read_trak (kids_of_type t_trak (tree_kids moov)))).

(** * What a program has given to the writer *)

(** What one call of addData does: an H.264 access unit is split, other tracks store the octets as one sample. *)
Definition effects (c : codec) (data : list Z) : list nal_action :=
  match c with
  | H264 _ _ _ _ _ _ _ _ => match h264_split data with Some (acts, _) => acts | None => [] end
  | _ => [StoreSample data]
  end.
(** The samples stored, the sequence and the picture parameter sets received. *)
Definition stored_in (a : list nal_action) : list (list Z) := flat_map (fun a => match a with StoreSample d => [d] | _ => [] end) a.
Definition sps_in (a : list nal_action) : list (list Z) := flat_map (fun a => match a with AppendSPS p => [p] | _ => [] end) a.
Definition pps_in (a : list nal_action) : list (list Z) := flat_map (fun a => match a with AppendPPS p => [p] | _ => [] end) a.
Definition stored (c : codec) (data : list Z) : list (list Z) := stored_in (effects c data).
(** Tracks successfully constructed, in order. *)
Definition created (ops : list op) : list op :=
  filter (fun o => match o with O_NewTrack _ _ _ _ _ id => negb (id =? 0) | _ => false end) ops.
Definition codec_of (ops : list op) (i : nat) : option codec :=
  match nth_error (created ops) i with Some (O_NewTrack c _ _ _ _ _) => Some c | _ => None end.

(** One sample: timestamp, octets, key frame. *)
Record sample := mk_sample { sm_ts : Z; sm_data : list Z; sm_key : bool }.
(** What the call [o] stores after the calls [before], for which track (None: raw data of no track). *)
Definition stores (before : list op) (o : op) : list (option nat * sample) :=
  match o with
  | O_AddData i ts data key =>
      match codec_of before i with
      | Some c => map (fun d => (Some i, mk_sample ts d key)) (stored c data)
      | None => []
      end
  | O_AddRaw data => [(None, mk_sample 0 data false)]
  | _ => []
  end.
(** Everything stored by a sequence of calls, in order. *)
Fixpoint history_from (before ops : list op) : list (option nat * sample) :=
  match ops with [] => [] | o :: l => stores before o ++ history_from (before ++ [o]) l end.
Definition history (ops : list op) : list (option nat * sample) := history_from [] ops.
(** The media data: all octets stored, in order. *)
Definition media (ops : list op) : list Z := flat_map (fun x => sm_data (snd x)) (history ops).
(** The samples of track [i], in order. *)
Definition samples_of (i : nat) (ops : list op) : list sample :=
  flat_map (fun x => match fst x with Some j => if Nat.eqb i j then [snd x] else [] | None => [] end) (history ops).

(** The parameter sets track [i] has received, in order ([f]: sps_in or pps_in). *)
Fixpoint sets_from (f : list nal_action -> list (list Z)) (i : nat) (before ops : list op) : list (list Z) :=
  match ops with
  | [] => []
  | o :: l =>
      match o with
      | O_AddData j _ data _ => if Nat.eqb i j then match codec_of before i with Some c => f (effects c data) | None => [] end else []
      | _ => []
      end ++ sets_from f i (before ++ [o]) l
  end.
Definition sps_of (i : nat) (ops : list op) : list (list Z) := sets_from sps_in i [] ops.
Definition pps_of (i : nat) (ops : list op) : list (list Z) := sets_from pps_in i [] ops.
(** The configuration of an H.264 track: the parameter sets received; profile, compatibility and level of the first SPS if
    it is long enough, those of the constructor otherwise. *)
Definition expected_codec (c : codec) (sps pps : list (list Z)) : codec :=
  match c with
  | H264 w h cv pr co lv _ _ =>
      match sps with
      | p :: _ => if Zlen p >? 4 then H264 w h cv (nth 1 p 0) (nth 2 p 0) (nth 3 p 0) sps pps else H264 w h cv pr co lv sps pps
      | [] => H264 w h cv pr co lv sps pps
      end
  | _ => c
  end.

(** Calls made while recording. *)
Definition media_op (o : op) : bool :=
  match o with
  | O_NewTrack _ _ _ _ _ _ | O_NextTrackID | O_AddData _ _ _ _ | O_Terminate _ | O_SetMediaTime _ _ | O_AddRaw _ => true
  | _ => false
  end.
(** Every call is about a track constructed before. *)
Definition known_tracks (ops : list op) : Prop :=
  forall pre o post i, ops = pre ++ o :: post ->
    (match o with O_AddData j _ _ _ | O_Terminate j | O_SetMediaTime j _ => j = i | _ => False end) ->
    (i < length (created pre))%nat.
(** The chunk of a track is ended whenever something else was stored since the previous sample of that track. *)
Definition foreign (i : nat) (o : op) : Prop := match o with O_AddData j _ _ _ => j <> i | O_AddRaw _ => True | _ => False end.
Definition chunks_ended (ops : list op) : Prop :=
  forall pre mid post i ts d k ts' d' k',
    ops = pre ++ O_AddData i ts d k :: mid ++ O_AddData i ts' d' k' :: post ->
    Exists (foreign i) mid -> In (O_Terminate i) mid.

(** * What is expected of a track *)

(** Each sample lasts until the next one, the last one until the end of the track (durations are 32-bit fields). *)
Fixpoint expected_durations (timestamps : list Z) (track_duration : Z) : list Z :=
  match timestamps with
  | [] => []
  | t :: l => ((match l with [] => track_duration | t' :: _ => t' end) - t) mod 2 ^ 32 :: expected_durations l track_duration
  end.
(** Numbers, counted from 1, of the key frames. *)
Definition sync_numbers (l : list sample) : list Z :=
  filter (fun n => match nth_error l (Z.to_nat n - 1) with Some s => sm_key s | None => false end)
    (map Z.of_nat (seq 1 (length l))).
Definition is_video (c : codec) : bool :=
  match c with AAC _ _ _ | MP3 _ _ _ | Opus _ _ => false | VPX _ _ _ _ _ | AV1 _ _ _ _ _ _ _ _ _ | H264 _ _ _ _ _ _ _ _ => true end.
(** Number of track identifiers handed out. *)
Definition ids_issued (ops : list op) : Z := Zlen (filter (fun o => match o with O_NextTrackID => true | _ => false end) ops).
(** Size limits: 32-bit sample sizes, fewer than 2^32 samples per track. *)
Definition samples_fit (ops : list op) : Prop :=
  forall i, Zlen (samples_of i ops) < 2 ^ 32 /\ Forall (fun s => Zlen (sm_data s) < 2 ^ 32) (samples_of i ops).

(** * Finished files *)

(** What a player finds out about track [i] is what the program has recorded: identifier and timescale of the constructor
    call (an Opus track always has timescale 48000), the octets of every sample where the tables say, durations, key
    frames. *)
Definition describes (file : list Z) (ops : list op) (i : nat) (info : track_info) : Prop :=
  exists c timescale duration_ts duration_mvhd media_time id,
    nth_error (created ops) i = Some (O_NewTrack c timescale duration_ts duration_mvhd media_time id) /\
    i_track_id info = id /\
    i_timescale info = (match c with Opus _ _ => 48000 | _ => timescale end) /\
    map snd (i_locations info) = map (fun s => Zlen (sm_data s)) (samples_of i ops) /\
    map (octets_at file) (i_locations info) = map sm_data (samples_of i ops) /\
    i_durations info = expected_durations (map sm_ts (samples_of i ops)) duration_ts /\
    i_sync info = if is_video c then Some (sync_numbers (samples_of i ops)) else None.

(** Everything fits in 64-bit offsets: a bound of the size of the file (fixed parts, 36 octets per sample, the codec
    configuration, the media data). *)
Definition total {A} (f : A -> Z) (l : list A) : Z := fold_right (fun x s => f x + s) 0 l.
Definition config_octets (c : codec) (sps pps : list (list Z)) : Z :=
  match c with
  | AV1 _ _ _ _ _ _ _ _ obus => Zlen obus
  | H264 _ _ _ _ _ _ _ _ => total (fun p => 2 + Zlen p) sps + total (fun p => 2 + Zlen p) pps
  | _ => 0
  end.
Definition moov_bound (ops : list op) (sel : list nat) : Z :=
  4096 + total (fun i => 4096 + 36 * Zlen (samples_of i ops) +
    match codec_of ops i with Some c => config_octets c (sps_of i ops) (pps_of i ops) | None => 0 end) sel.
Definition movie_fits (ft : ftyp) (ops : list op) (sel : list nat) : Prop :=
  4 * Zlen (ftyp_compatible_brands ft) + Zlen (media ops) + moov_bound ops sel < 2 ^ 64.

(** The tracks chosen for the file: pairwise different, all constructed. *)
Definition chosen (ops : list op) (sel : list nat) : Prop := NoDup sel /\ Forall (fun i => (i < length (created ops))%nat) sel.

(** A recording session as the theorems require it. *)
Record recording (ops : list op) : Prop := {
  rec_calls : forallb media_op ops = true;
  rec_known : known_tracks ops;
  rec_chunks : chunks_ended ops;
  rec_fit : samples_fit ops }.

(** * Whole programs *)

(** A new writer on an empty output. *)
Definition start (cls : wclass) (timescale duration time : Z) (ft : ftyp) : session :=
  mk_session (match cls with
              | Simple => SimpleWriter_new timescale duration time ft (mkOS [] 0)
              | Faststart => FaststartWriter_new timescale duration time ft (mkOS [] 0)
              end) [].
(** The octets of the output. *)
Definition output (s : session) : list Z := os_data (mw_os (s_writer s)).
(** The order of calls the library's examples use. *)
Definition simple_program (ops : list op) (sel : list nat) : list op :=
  O_WriteFtyp :: ops ++ [O_AppendTrakAndUdta sel; O_WriteFreeAndMdatHeader; O_WriteMoov].
Definition faststart_program (ops : list op) (sel : list nat) : list op :=
  O_WriteFtyp :: ops ++ [O_AppendTrakAndUdta sel; O_WriteMoov; O_WriteMdatHeader; O_CopyMdatData].

(** The boxes of finished files.  mvhd: rate 1.0, volume 1.0, unity matrix. *)
Definition mvhd_of (timescale duration time id : Z) : mvhd := 
  mk_mvhd (mk_fullbox 0 0 0 0) time time timescale duration 65536 256 0 0 0 [65536; 0; 0; 0; 65536; 0; 0; 0; 1073741824] [0;0;0;0;0;0] id.
(** the user data box, which names the library as the encoding tool *)
Definition udta_tree : tree :=
  T (str "udta") B_container
    [T (str "meta") (B_meta (mk_fullbox 0 0 0 0))
       [T (str "hdlr") (B_hdlr (mk_hdlr (mk_fullbox 0 0 0 0) 0 (str "mdir") [0;0;0;0] [0;0;0;0] [0;0;0;0] [] [])) [];
        T (str "ilst") B_container [T (169 :: str "too") B_container [T (str "data") (B_data (mk_data 1 0 (str "shiguredo::mp4"))) []]]]].
Definition moov_tree (timescale duration time id : Z) (traks : list tree) : tree :=
  T (str "moov") B_container (T (str "mvhd") (B_mvhd (mvhd_of timescale duration time id)) [] :: traks ++ [udta_tree]).
Definition ftyp_tree (ft : ftyp) : tree := T (str "ftyp") (B_ftyp ft) [].
Definition mdat_tree (m : list Z) : tree := T (str "mdat") (B_mdat m) [].
(** SimpleWriter leaves 16 octets for the header of mdat: a free box fills them if 8 are enough. *)
Definition free_trees (m : list Z) : list tree := if Zlen m + 8 <? 2 ^ 32 then [T (str "free") (B_free []) []] else [].

(** The sizes of the samples, in the stsz box of a trak box. *)
Definition trak_sizes (trak : tree) : option (list Z) :=
  obnd (the_kid t_mdia (tree_kids trak)) (fun mdia => obnd (the_kid t_minf (tree_kids mdia)) (fun minf =>
  obnd (the_kid t_stbl (tree_kids minf)) (fun stbl => sample_sizes (tree_kids stbl)))).
(** The only sample entry of a trak box. *)
Definition trak_entry (trak : tree) : option tree :=
  obnd (the_kid t_mdia (tree_kids trak)) (fun mdia => obnd (the_kid t_minf (tree_kids mdia)) (fun minf =>
  obnd (the_kid t_stbl (tree_kids minf)) (fun stbl => obnd (the_kid t_stsd (tree_kids stbl)) (fun stsd =>
  match tree_kids stsd with [e] => Some e | _ => None end)))).

(** Track identifiers returned to a program, in order. *)
Fixpoint issued (s : session) (ops : list op) : list Z :=
  match ops with
  | [] => []
  | o :: l =>
      match o with O_NextTrackID => [snd (Writer_getAndUpdateNextTrackID (s_writer s))] | _ => [] end ++ issued (fst (step s o)) l
  end.

(** * Sample entries and headers *)

(** Sample entries refer to the only data reference of the track (index 1).  Audio: two channels of 16 bits.  Video: 72 dpi
    (16.16), one frame per sample, 24-bit colour, no compressor name, no colour table (-1). *)
Definition audio_entry_of (type : list Z) (rate : Z) : box :=
  B_audio (mk_audio_entry type [0;0;0;0;0;0] 1 0 [0;0;0] 2 16 0 0 ((rate * 2 ^ 16) mod 2 ^ 32) false [] false).
Definition visual_entry_of (w h : Z) : box :=
  B_visual (mk_visual_entry [0;0;0;0;0;0] 1 0 0 [0;0;0] (w mod 2 ^ 16) (h mod 2 ^ 16) (72 * 2 ^ 16) (72 * 2 ^ 16) 0 1 (repeat 0 32) 24 (-1)).
(** ES descriptor without dependence, URL and OCR stream; decoder configuration: audio stream (5), not upstream.  The
    numbers [n] are the cached sizes of sub-descriptors, which are not written. *)
Definition es_of (esid : Z) (d : descriptor) (subs : list descriptor) : Prop :=
  exists n, d = DES (mk_es_fields esid false false false 0 0 [] 0) n subs.
Definition decoder_config_of (object_type b m a : Z) (d : descriptor) (subs : list descriptor) : Prop :=
  exists n, d = DCD (mk_dcd_fields object_type 5 false true b m a) n subs.

(** The sample entry of a track announces its codec and carries its configuration ([c]: with the parameter sets received).
    14496-1: 0x40 is AAC, 0x6B MP3; AudioSpecificConfig 0x11 0x90: AAC-LC, 48 kHz, stereo; SLConfig 2: MP4.
    VP codec configuration: version 1, profile 0, level 2.1, 8 bits, 4:2:0 collocated, legal range, unspecified colour.
    avcC: 4-octet NAL lengths, the reserved bits all set, no high profile extension. *)
Definition entry_describes (timescale id : Z) (c : codec) (e : tree) : Prop :=
  match c with
  | AAC b m a =>
      exists es dc, e = T (str "mp4a") (audio_entry_of (str "mp4a") timescale)
        [T (str "esds") (B_esds (mk_esds (mk_fullbox 0 0 0 0) [es; dc; DSI [17; 144]; DSL [2]])) []; T (str "btrt") (B_btrt (mk_btrt 0 m a)) []] /\
      es_of (id mod 2 ^ 16) es [dc; DSL [2]] /\ decoder_config_of 64 b m a dc [DSI [17; 144]]
  | MP3 b m a =>
      exists es dc, e = T (str "mp4a") (audio_entry_of (str "mp4a") timescale)
        [T (str "esds") (B_esds (mk_esds (mk_fullbox 0 0 0 0) [es; dc; DSL [2]])) []] /\
      es_of 0 es [dc; DSL [2]] /\ decoder_config_of 107 b m a dc []
  | Opus p _ =>
      e = T (str "Opus") (audio_entry_of (str "Opus") 48000)
        [T (str "dOps") (B_dOps (mk_dops 0 2 (p mod 2 ^ 16) 48000 0 0 (mk_dops_table 0 0 []))) []]
  | VPX vp8 w h m a =>
      e = T (if vp8 then str "vp08" else str "vp09") (visual_entry_of w h)
        [T (str "vpcC") (B_vpcC (mk_vpcc (mk_fullbox 1 0 0 0) 0 21 8 1 0 2 2 2 [])) []; T (str "fiel") (B_fiel (mk_fiel 1 0)) [];
         T (str "pasp") (B_pasp (mk_pasp 1 1)) []; T (str "btrt") (B_btrt (mk_btrt 0 m a)) []]
  | AV1 w h p l ti cx cy cp obus =>
      e = T (str "av01") (visual_entry_of w h)
        [T (str "av1C") (B_av1C (mk_av1c 1 1 p l ti false false false cx cy cp 0 false 0 obus)) []]
  | H264 w h cv pr co lv sps pps =>
      exists a, e = T (str "avc1") (visual_entry_of w h) [T (str "avcC") (B_avcC a) []] /\
      avcc_configuration_version a = cv /\ avcc_profile a = pr /\ avcc_profile_compatibility a = co /\ avcc_level a = lv /\
      avcc_reserved a = 63 /\ avcc_length_size_minus_one a = 3 /\ avcc_reserved2 a = 7 /\ avcc_sps a = sps /\ avcc_pps a = pps /\
      avcc_high_profile_fields_enabled a = false
  end.

(** The media time in force at the end: the last one set, that of the constructor call otherwise. *)
Definition media_time_of (i : nat) (ops : list op) (initial : Z) : Z :=
  fold_left (fun v o => match o with O_SetMediaTime j x => if Nat.eqb i j then x else v | _ => v end) ops initial.
(** tkhd, elst, mdhd and hdlr of a trak box *)
Definition t_edts := [101; 100; 116; 115].
Definition t_elst := [101; 108; 115; 116].
Definition t_hdlr := [104; 100; 108; 114].
Definition trak_headers (trak : tree) : option (tkhd * elst * mdhd * hdlr) :=
  obnd (the_kid t_mdia (tree_kids trak)) (fun mdia => obnd (the_kid t_edts (tree_kids trak)) (fun edts =>
  match the_kid t_tkhd (tree_kids trak), the_kid t_elst (tree_kids edts), the_kid t_mdhd (tree_kids mdia), the_kid t_hdlr (tree_kids mdia) with
  | Some (T _ (B_tkhd a) _), Some (T _ (B_elst b) _), Some (T _ (B_mdhd c) _), Some (T _ (B_hdlr d) _) => Some (a, b, c, d)
  | _, _, _, _ => None
  end)).
(** Picture size in pixels; audio has none. *)
Definition picture_size (c : codec) : Z * Z :=
  match c with VPX _ w h _ _ | AV1 w h _ _ _ _ _ _ _ | H264 w h _ _ _ _ _ _ => (w, h) | _ => (0, 0) end.
(** What the headers say: identifier, times, durations, timescale, one edit of the whole track starting at the media time,
    enabled and in the movie (flags 3), 16.16 picture size, full volume for audio. *)
Definition headers_describe (time : Z) (ops : list op) (i : nat) (h : tkhd * elst * mdhd * hdlr) : Prop :=
  exists c timescale duration_ts duration_mvhd media_time id,
    nth_error (created ops) i = Some (O_NewTrack c timescale duration_ts duration_mvhd media_time id) /\
    let '(tk, el, md, hd) := h in
    tkhd_track_id tk = id /\ tkhd_creation_time tk = time /\ tkhd_modification_time tk = time /\ tkhd_duration tk = duration_mvhd /\
    tkhd_fb tk = mk_fullbox 0 0 0 3 /\ tkhd_width tk = (fst (picture_size c) * 2 ^ 16) mod 2 ^ 32 /\
    tkhd_height tk = (snd (picture_size c) * 2 ^ 16) mod 2 ^ 32 /\ tkhd_volume tk = (if is_video c then 0 else 256) /\
    tkhd_matrix tk = [65536; 0; 0; 0; 65536; 0; 0; 0; 1073741824] /\ tkhd_layer tk = 0 /\ tkhd_alternate_group tk = 0 /\
    (tkhd_reserved tk, tkhd_reserved2 tk, tkhd_reserved3 tk, tkhd_reserved4 tk) = (0, 0, 0, 0) /\
    el = mk_elst (mk_fullbox 0 0 0 0) [mk_elst_entry duration_mvhd (media_time_of i ops media_time) 65536] /\
    mdhd_fb md = mk_fullbox 0 0 0 0 /\ mdhd_pad md = false /\ mdhd_language md = str "und" /\ mdhd_pre_defined md = 0 /\
    mdhd_timescale md = (match c with Opus _ _ => 48000 | _ => timescale end) /\ mdhd_duration md = duration_ts /\
    mdhd_creation_time md = time /\ mdhd_modification_time md = time /\
    hd = mk_hdlr (mk_fullbox 0 0 0 0) 0 (if is_video c then str "vide" else str "soun") [0;0;0;0] [0;0;0;0] [0;0;0;0] (str "shiguredo::mp4") [].

(** The children of minf and of stbl *)
Definition minf_kids (trak : tree) : option (list tree) :=
  obnd (the_kid t_mdia (tree_kids trak)) (fun mdia => obnd (the_kid t_minf (tree_kids mdia)) (fun minf => Some (tree_kids minf))).
Definition stbl_kids (trak : tree) : option (list tree) :=
  obnd (minf_kids trak) (fun l => obnd (the_kid t_stbl l) (fun stbl => Some (tree_kids stbl))).
(** The media header of the handler type (vmhd has flags 1), and one data reference: the media data are in the same file
    (flags 1 of url). *)
Definition media_header_of (c : codec) : tree :=
  if is_video c then T (str "vmhd") (B_vmhd (mk_vmhd (mk_fullbox 0 0 0 1) 0 [0; 0; 0])) []
  else T (str "smhd") (B_smhd (mk_smhd (mk_fullbox 0 0 0 0) 0 0)) [].
Definition self_reference : tree :=
  T (str "dinf") B_container [T (str "dref") (B_dref (mk_dref (mk_fullbox 0 0 0 0) 1)) [T (str "url ") (B_url (mk_url (mk_fullbox 0 0 0 1) [])) []]].
(** AAC and Opus samples need preceding ones to be decoded (14496-12 10.1): one roll group, with the distance -1 (AAC) or the
    one given (Opus), and all [n] samples in it. *)
Definition roll_distance_of (c : codec) : option Z := match c with AAC _ _ _ => Some (-1) | Opus _ r => Some r | _ => None end.
Definition roll_groups_of (c : codec) (n : Z) : list tree * list tree :=
  match roll_distance_of c with
  | Some r =>
      ([T (str "sgpd") (B_sgpd (mk_sgpd (mk_fullbox 1 0 0 0) (str "roll") 2 0 [mk_roll_distance 0 r false] [] [] [])) []],
       [T (str "sbgp") (B_sbgp (mk_sbgp (mk_fullbox 0 0 0 0) (str "roll") 0 [mk_sbgp_entry n 1])) []])
  | None => ([], [])
  end.
Definition media_described (ops : list op) (i : nat) (c : codec) (trak : tree) : Prop :=
  exists minf stbl stsd e,
    minf_kids trak = Some minf /\ stbl_kids trak = Some stbl /\
    filter (fun t => negb (is_type t_stbl t)) minf = [media_header_of c; self_reference] /\
    kids_of_type (str "stsd") stbl = [T (str "stsd") (B_stsd (mk_stsd stsd 1)) [e]] /\
    (kids_of_type (str "sgpd") stbl, kids_of_type (str "sbgp") stbl) = roll_groups_of c (Zlen (samples_of i ops)).

(** What a trak box says about a track, apart from its samples. *)
Definition configured (time : Z) (ops : list op) (i : nat) (tr : tree) : Prop :=
  exists c timescale duration_ts duration_mvhd media_time id e h,
    nth_error (created ops) i = Some (O_NewTrack c timescale duration_ts duration_mvhd media_time id) /\
    trak_entry tr = Some e /\
    entry_describes (match c with Opus _ _ => 48000 | _ => timescale end) id (expected_codec c (sps_of i ops) (pps_of i ops)) e /\
    trak_headers tr = Some h /\ headers_describe time ops i h /\ media_described ops i c tr.
(** The tracks as a player sees them, for the file of either writer. *)
Definition describes_all (time : Z) (file : list Z) (ops : list op) (sel : list nat) (traks : list tree) : Prop :=
  Forall2 (fun i tr => tree_type tr = str "trak" /\ (exists info, read_trak tr = Some info /\ describes file ops i info) /\ configured time ops i tr) sel traks.

(** * Sums *)
Definition sum (l : list Z) : Z := fold_right Z.add 0 l.
(** timestamps that do not go back, less than 2^32 apart, up to the end of the track *)
Fixpoint increasing (ts : list Z) (d : Z) : Prop :=
  match ts with [] => True | t :: l => 0 <= (match l with [] => d | t' :: _ => t' end) - t < 2 ^ 32 /\ increasing l d end.
(** The 16 octets SimpleWriter leaves before the media data. *)
Definition mdat_start (m : list Z) : list Z :=
  if Zlen m + 8 <? 2 ^ 32 then be_octets 4 8 ++ str "free" ++ be_octets 4 (Zlen m + 8) ++ str "mdat"
  else be_octets 4 1 ++ str "mdat" ++ be_octets 8 (Zlen m + 16).

(** * Values that fit their fields, for reading a finished file back *)
(** The configuration of a codec: bit rates and buffer sizes of 32 and 24 bits, at most 31 SPS and 255 PPS of less than
    2^16 octets, ... *)
Definition codec_fits (c : codec) : Prop :=
  match c with
  | AAC b m a => fits_u 24 b /\ fits_u 32 m /\ fits_u 32 a
  | MP3 b m a => fits_u 24 b /\ fits_u 32 m /\ fits_u 32 a
  | Opus _ r => fits_s 16 r
  | VPX _ _ _ m a => fits_u 32 m /\ fits_u 32 a
  | AV1 _ _ p l ti cx cy cp obus => fits_u 3 p /\ fits_u 5 l /\ fits_u 1 ti /\ fits_u 1 cx /\ fits_u 1 cy /\ fits_u 2 cp /\ bytes obus
  | H264 _ _ cv pr co lv sps pps =>
      fits_u 8 cv /\ fits_u 8 pr /\ fits_u 8 co /\ fits_u 8 lv /\ Zlen sps < 32 /\ Zlen pps < 256 /\
      Forall (fun p => bytes p /\ Zlen p < 2 ^ 16) (sps ++ pps)
  end.
(** The parameters of track [i] fit the 32-bit fields of version 0 boxes. *)
Definition track_fits (ops : list op) (i : nat) : Prop :=
  exists c timescale duration_ts duration_mvhd media_time id,
    nth_error (created ops) i = Some (O_NewTrack c timescale duration_ts duration_mvhd media_time id) /\
    fits_u 32 timescale /\ fits_u 32 duration_ts /\ fits_u 32 duration_mvhd /\ fits_u 32 id /\ fits_s 32 (media_time_of i ops media_time) /\
    codec_fits (expected_codec c (sps_of i ops) (pps_of i ops)).
(** What a reader finds in place of a box: an 'esds' box with the number of octets nested in each descriptor instead of the
    nested descriptors (which follow in the list). *)
Definition box_as_read (b : box) : box :=
  match b with B_esds x => B_esds (mk_esds (esds_fb x) (map as_read (esds_descriptors x))) | _ => b end.
Fixpoint tree_as_read (t : tree) : tree := let 'T ty b kids := t in T ty (box_as_read b) (map tree_as_read kids).
