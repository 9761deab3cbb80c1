(** Model of src/track/*.cpp.  No proofs in this file. *)
From Verif Require Import Base BitIO Boxes Box BoxTree H264.
From Coq Require Import Ascii String List.
Import ListNotations.
Open Scope Z_scope.
Open Scope list_scope.

(** Octets of a string literal (ASCII). *)
Definition str (s : string) : list Z := map (fun c => Z.of_nat (nat_of_ascii c)) (list_ascii_of_string s).
Definition u32 (v : Z) : Z := v mod 2 ^ 32.

(** A FullBox constructed with .version and .flags (setVersion, setFlags). *)
Definition fbox (version flags : Z) : fullbox := setFlags flags (setVersion version fullbox0).

(** * State of a track *)

(** ChunkInfo, track.hpp:31-35 *)
Record chunk := mk_chunk { c_offset : Z; c_samples : Z; c_initialized : bool }.
Definition chunk0 : chunk := mk_chunk 0 0 false.

(** HandlerType, track.hpp:37-40 *)
Inductive handler := vide | soun.

(** The members of the concrete classes.
    - AACTrack (aac.hpp:39-43): m_buffer_size_db, m_max_bitrate, m_avg_bitrate; m_roll_distance is -1
    - MP3Track (mp3.hpp:41-43)
    - OpusTrack (opus.hpp:38-39): m_pre_skip, m_roll_distance
    - VPXTrack (vpx.hpp:48; vide.hpp:20-23): m_codec == VP8, width, height, bitrates
    - AV1Track (av1.hpp:49-55): width, height, sequence header fields, m_config_OBUs
    - H264Track (h264.hpp:49-54): width, height, configuration_version, profile, profile_compatibility, level, SPS, PPS *)
Inductive codec :=
  | AAC (buffer_size_db max_bitrate avg_bitrate : Z)
  | MP3 (buffer_size_db max_bitrate avg_bitrate : Z)
  | Opus (pre_skip roll_distance : Z)
  | VPX (vp8 : bool) (width height max_bitrate avg_bitrate : Z)
  | AV1 (width height seq_profile seq_level_idx_0 seq_tier_0 chroma_x chroma_y chroma_pos : Z) (config_OBUs : list Z)
  | H264 (width height configuration_version profile profile_compatibility level : Z) (sps pps : list (list Z)).

(** m_handler_type: SounTrack::SounTrack soun.cpp:8-10, VideTrack::VideTrack vide.cpp:8-10 and the base classes *)
Definition codec_handler (c : codec) : handler :=
  match c with AAC _ _ _ | MP3 _ _ _ | Opus _ _ => soun | VPX _ _ _ _ _ | AV1 _ _ _ _ _ _ _ _ _ | H264 _ _ _ _ _ _ _ _ => vide end.

(** Track, track.hpp:42-94.  The floating point products getDurationInTimescale() and getDurationInMvhdTimescale()
    (track.cpp:158-164) of members that never change are represented by their results, [t_duration_ts] and
    [t_duration_mvhd], which are left arbitrary here (Float.v has the products).  m_writer is the one writer of a session (Writers.v). *)
Record track := mk_track {
  t_timescale : Z; t_duration_ts : Z; t_duration_mvhd : Z; t_time : Z; t_media_time : Z; t_id : Z; t_codec : codec;
  t_finalized : bool; t_sizes : list Z; t_chunks : list chunk; t_current : chunk; t_prev : Z;
  t_durations : list Z; t_keys : list Z }.

(** The constructors, aac.cpp:14-26, mp3.cpp:12-24, opus.cpp:13-25, vpx.cpp:12-27, av1.cpp:12-32, h264.cpp:16-33.
    [time] is writer->getTimeFromEpoch().  An Opus track has timescale 48000 whatever is passed.  The parameter sets of an
    H.264 track are empty (h264.hpp:53-54), those of [c] are not arguments. *)
Definition initial_codec (c : codec) : codec :=
  match c with H264 w h cv pr co lv _ _ => H264 w h cv pr co lv [] [] | _ => c end.
Definition Track_new (c : codec) (timescale duration_ts duration_mvhd time media_time id : Z) : outcome track :=
  if id =? 0 then Throw RuntimeError
  else Ok (mk_track (match c with Opus _ _ => 48000 | _ => timescale end) duration_ts duration_mvhd time media_time id (initial_codec c)
             false [] [] chunk0 0 [] []).

(** * Recording samples *)

(** Track::terminateCurrentChunk, track.cpp:16-21 *)
Definition Track_terminateCurrentChunk (t : track) : track :=
  if c_samples (t_current t) >? 0 then
    mk_track (t_timescale t) (t_duration_ts t) (t_duration_mvhd t) (t_time t) (t_media_time t) (t_id t) (t_codec t)
      (t_finalized t) (t_sizes t) (t_chunks t ++ [t_current t]) chunk0 (t_prev t) (t_durations t) (t_keys t)
  else t.

(** Track::addMdatData, track.cpp:27-48, on the members of the track; [tell] is what m_writer->tellCurrentMdatOffset()
    returns, [data] is also passed to m_writer->addMdatData (Writers.v). *)
Definition Track_addMdatData (tell ts : Z) (data : list Z) (is_key : bool) (t : track) : track :=
  let cur := if negb (c_initialized (t_current t)) then mk_chunk tell (c_samples (t_current t)) true else t_current t in
  let cur := mk_chunk (c_offset cur) (u32 (c_samples cur + 1)) (c_initialized cur) in
  let durations := match t_sizes t with [] => t_durations t | _ => t_durations t ++ [u32 (ts - t_prev t)] end in
  let sizes := t_sizes t ++ [u32 (Zlen data)] in
  let keys := match codec_handler (t_codec t) with
              | vide => if is_key then t_keys t ++ [u32 (Zlen sizes)] else t_keys t
              | soun => t_keys t
              end in
  mk_track (t_timescale t) (t_duration_ts t) (t_duration_mvhd t) (t_time t) (t_media_time t) (t_id t) (t_codec t)
    (t_finalized t) sizes (t_chunks t) cur ts durations keys.

(** Track::finalize, track.cpp:50-62 *)
Definition Track_finalize (t : track) : track :=
  if t_finalized t then t
  else
    mk_track (t_timescale t) (t_duration_ts t) (t_duration_mvhd t) (t_time t) (t_media_time t) (t_id t) (t_codec t) true
      (t_sizes t)
      (if c_samples (t_current t) >? 0 then t_chunks t ++ [t_current t] else t_chunks t)
      (t_current t) (t_prev t)
      (match t_sizes t with [] => t_durations t | _ => t_durations t ++ [u32 (t_duration_ts t - t_prev t)] end)
      (t_keys t).

(** Track::setMediaTime, track.cpp:154-156 *)
Definition Track_setMediaTime (v : Z) (t : track) : track :=
  mk_track (t_timescale t) (t_duration_ts t) (t_duration_mvhd t) (t_time t) v (t_id t) (t_codec t)
    (t_finalized t) (t_sizes t) (t_chunks t) (t_current t) (t_prev t) (t_durations t) (t_keys t).

(** Track::resetChunkOffsets, track.cpp:216-221 (offsets are uint64_t) *)
Definition Track_resetChunkOffsets (diff : Z) (t : track) : track :=
  let t := Track_finalize t in
  mk_track (t_timescale t) (t_duration_ts t) (t_duration_mvhd t) (t_time t) (t_media_time t) (t_id t) (t_codec t)
    (t_finalized t) (t_sizes t)
    (map (fun c => mk_chunk (u64 (c_offset c + diff)) (c_samples c) (c_initialized c)) (t_chunks t))
    (t_current t) (t_prev t) (t_durations t) (t_keys t).

(** AppendSPS / AppendPPS of H264Track::addData, h264.cpp:120-137, 198-204 *)
Definition Track_set_codec (c : codec) (t : track) : track :=
  mk_track (t_timescale t) (t_duration_ts t) (t_duration_mvhd t) (t_time t) (t_media_time t) (t_id t) c
    (t_finalized t) (t_sizes t) (t_chunks t) (t_current t) (t_prev t) (t_durations t) (t_keys t).
Definition H264_appendSPS (p : list Z) (t : track) : track :=
  match t_codec t with
  | H264 w h cv pr co lv sps pps =>
      let sps' := sps ++ [p] in
      if (Zlen sps' =? 1) && (Zlen p >? 4)
      then Track_set_codec (H264 w h cv (nth 1 p 0) (nth 2 p 0) (nth 3 p 0) sps' pps) t
      else Track_set_codec (H264 w h cv pr co lv sps' pps) t
  | _ => t
  end.
Definition H264_appendPPS (p : list Z) (t : track) : track :=
  match t_codec t with
  | H264 w h cv pr co lv sps pps => Track_set_codec (H264 w h cv pr co lv sps (pps ++ [p])) t
  | _ => t
  end.

(** What addData does (aac.cpp:103-112 and the like: one sample; h264.cpp:82-148: see H264.v). *)
Definition addData_actions (c : codec) (data : list Z) : option (list nal_action * outcome unit) :=
  match c with
  | H264 _ _ _ _ _ _ _ _ => h264_split data
  | _ => Some ([StoreSample data], Ok tt)
  end.

(** * Sample tables *)

(** make_stts_entries, track.cpp:79-98: the loop with its current [duration] and [count] *)
Fixpoint stts_loop (duration count : Z) (l : list Z) : list stts_entry :=
  match l with
  | [] => if count >? 0 then [mk_stts_entry count duration] else []
  | d :: l' =>
      if duration =? d then stts_loop duration (u32 (count + 1)) l'
      else mk_stts_entry count duration :: stts_loop d 1 l'
  end.
Definition make_stts_entries (durations : list Z) : list stts_entry :=
  match durations with [] => [] | d :: l => stts_loop d 1 l end.

(** make_stsc_entries, track.cpp:107-120 *)
Fixpoint stsc_loop (samples_per_chunk chunk_no : Z) (l : list chunk) : list stsc_entry :=
  match l with
  | [] => []
  | c :: l' =>
      if negb (samples_per_chunk =? c_samples c)
      then mk_stsc_entry chunk_no (c_samples c) 1 :: stsc_loop (c_samples c) (u32 (chunk_no + 1)) l'
      else stsc_loop samples_per_chunk (u32 (chunk_no + 1)) l'
  end.
Definition make_stsc_entries (chunks : list chunk) : list stsc_entry := stsc_loop (-1) 1 chunks.

(** make_offset_box, track.cpp:128-148 *)
Definition use_co64 (chunks : list chunk) : bool :=
  match chunks with [] => false | _ => c_offset (last chunks chunk0) >? UINT32_MAX end.
Definition make_offset_box (chunks : list chunk) : node :=
  if use_co64 chunks
  then new_info (str "co64") (B_co64 (mk_co64 (fbox 0 0) (map c_offset chunks))) []
  else new_info (str "stco") (B_stco (mk_stco (fbox 0 0) (map (fun c => u32 (c_offset c)) chunks))) [].

(** * The trak box *)
Definition unity_matrix : list Z := [65536; 0; 0; 0; 65536; 0; 0; 0; 1073741824].

(** SounTrack::makeTkhdBoxInfo soun.cpp:12-19; VideTrack::makeTkhdBoxInfo vide.cpp:12-24; defaults tkhd.hpp:13-26 *)
Definition make_tkhd (t : track) : node :=
  let video w h :=
    mk_tkhd (fbox 0 3) (t_time t) (t_time t) (t_id t) 0 (t_duration_mvhd t) 0 0 0 0 0 0 unity_matrix
      (u32 (Z.shiftl w 16)) (u32 (Z.shiftl h 16)) in
  new_info (str "tkhd") (B_tkhd
    match t_codec t with
    | AAC _ _ _ | MP3 _ _ _ | Opus _ _ =>
        mk_tkhd (fbox 0 3) (t_time t) (t_time t) (t_id t) 0 (t_duration_mvhd t) 0 0 0 0 256 0 unity_matrix 0 0
    | VPX _ w h _ _ => video w h
    | AV1 w h _ _ _ _ _ _ _ => video w h
    | H264 w h _ _ _ _ _ _ => video w h
    end) [].
(** makeEdtsBoxInfo, makeElstBoxInfo, track.cpp:170-178; elst.hpp:20-24 *)
Definition make_edts (t : track) : node :=
  new_info (str "edts") B_container
    [new_info (str "elst") (B_elst (mk_elst (fbox 0 0) [mk_elst_entry (t_duration_mvhd t) (t_media_time t) 65536])) []].
(** makeMdhdBoxInfo, track.cpp:184-190; mdhd.hpp:13-23 (language "und") *)
Definition make_mdhd (t : track) : node :=
  new_info (str "mdhd") (B_mdhd (mk_mdhd (fbox 0 0) (t_time t) (t_time t) (t_timescale t) (t_duration_ts t) false (str "und") 0)) [].
(** getHandlerTypeArray, makeHdlrBoxInfo, track.cpp:70-77, 192-194; hdlr.hpp:14-21, 37-43 *)
Definition handler_array (h : handler) : list Z := match h with vide => str "vide" | soun => str "soun" end.
Definition make_hdlr (handler name : list Z) : node :=
  new_info (str "hdlr") (B_hdlr (mk_hdlr (fbox 0 0) 0 handler [0;0;0;0] [0;0;0;0] [0;0;0;0] name [])) [].
(** makeSmhdBoxInfo soun.cpp:21-23; makeVmhdBoxInfo vide.cpp:26-28 *)
Definition make_media_header (h : handler) : node :=
  match h with
  | soun => new_info (str "smhd") (B_smhd (mk_smhd (fbox 0 0) 0 0)) []
  | vide => new_info (str "vmhd") (B_vmhd (mk_vmhd (fbox 0 1) 0 [0; 0; 0])) []
  end.
(** makeDinfBoxInfo, track.cpp:64-68 *)
Definition make_dinf : node :=
  new_info (str "dinf") B_container
    [new_info (str "dref") (B_dref (mk_dref (fbox 0 0) 1)) [new_info (str "url ") (B_url (mk_url (fbox 0 1) [])) []]].

(** box::AudioSampleEntry({.type, .data_reference_index = 1, .entry_version = 0, .channel_count = 2, .sample_size = 16,
    .sample_rate}); sample_entry.hpp:74-85 *)
Definition audio_sample_entry (type : list Z) (rate : Z) : box :=
  B_audio (mk_audio_entry type [0;0;0;0;0;0] 1 0 [0;0;0] 2 16 0 0 rate false [] false).
(** box::VisualSampleEntry({.type, .data_reference_index = 1, .width, .height}); sample_entry.hpp:30-45 *)
Definition visual_sample_entry (w h : Z) : box :=
  B_visual (mk_visual_entry [0;0;0;0;0;0] 1 0 0 [0;0;0] (to_u 16 w) (to_u 16 h) 4718592 4718592 0 1 (repeat 0 32) 24 (-1)).
(** ESDescriptor({.ESID}), esds.hpp:41-51 *)
Definition es_descriptor (esid : Z) (subs : list descriptor) : descriptor :=
  DES (mk_es_fields esid false false false 0 0 [] 0) 0 subs.
(** DecoderConfigDescriptor({...}), esds.hpp:79-88, aac.cpp:39-44, mp3.cpp:37-42 *)
Definition dc_descriptor (oti b m a : Z) (subs : list descriptor) : descriptor :=
  DCD (mk_dcd_fields oti 5 false true b m a) 0 subs.

(** The children of stsd, makeStsdBoxInfo: aac.cpp:28-61, mp3.cpp:26-49, opus.cpp:27-44, vpx.cpp:29-45, av1.cpp:34-52,
    h264.cpp:35-54 *)
Definition make_sample_entry (t : track) : node :=
  match t_codec t with
  | AAC b m a =>
      let dsi := DSI [17; 144] in
      let dcd := dc_descriptor 64 b m a [dsi] in
      let scd := DSL [2] in
      let esd := es_descriptor (to_u 16 (Z.land 65535 (t_id t))) [dcd; scd] in
      new_info (str "mp4a") (audio_sample_entry (str "mp4a") (u32 (Z.shiftl (t_timescale t) 16)))
        [new_info (str "esds") (B_esds (mk_esds (fbox 0 0) [esd; dcd; dsi; scd])) [];
         new_info (str "btrt") (B_btrt (mk_btrt 0 m a)) []]
  | MP3 b m a =>
      let dcd := dc_descriptor 107 b m a [] in
      let scd := DSL [2] in
      let esd := es_descriptor 0 [dcd; scd] in
      new_info (str "mp4a") (audio_sample_entry (str "mp4a") (u32 (Z.shiftl (t_timescale t) 16)))
        [new_info (str "esds") (B_esds (mk_esds (fbox 0 0) [esd; dcd; scd])) []]
  | Opus p _ =>
      new_info (str "Opus") (audio_sample_entry (str "Opus") (u32 (Z.shiftl 48000 16)))
        [new_info (str "dOps") (B_dOps (mk_dops 0 2 (to_u 16 p) 48000 0 0 (mk_dops_table 0 0 []))) []]
  | VPX vp8 w h m a =>
      new_info (if vp8 then str "vp08" else str "vp09") (visual_sample_entry w h)
        [new_info (str "vpcC") (B_vpcC (mk_vpcc (fbox 1 0) 0 21 8 1 0 2 2 2 [])) [];
         new_info (str "fiel") (B_fiel (mk_fiel 1 0)) [];
         new_info (str "pasp") (B_pasp (mk_pasp 1 1)) [];
         new_info (str "btrt") (B_btrt (mk_btrt 0 m a)) []]
  | AV1 w h p l ti cx cy cp obus =>
      new_info (str "av01") (visual_sample_entry w h)
        [new_info (str "av1C") (B_av1C (mk_av1c 1 1 p l ti false false false cx cy cp 0 false 0 obus)) []]
  | H264 w h cv pr co lv sps pps =>
      new_info (str "avc1") (visual_sample_entry w h)
        [new_info (str "avcC") (B_avcC (mk_avcc cv pr co lv 63 3 7 sps pps false 63 0 31 0 31 0 [])) []]
  end.
Definition make_stsd (t : track) : node :=
  new_info (str "stsd") (B_stsd (mk_stsd (fbox 0 0) 1)) [make_sample_entry t].
(** makeSttsBoxInfo, makeStssBoxInfo, makeStscBoxInfo, makeStszBoxInfo, track.cpp:100-105, 208-210, 122-126, 204-206 *)
Definition make_stts (t : track) : node := new_info (str "stts") (B_stts (mk_stts (fbox 0 0) (make_stts_entries (t_durations t)))) [].
Definition make_stss (t : track) : node := new_info (str "stss") (B_stss (mk_stss (fbox 0 0) (t_keys t))) [].
Definition make_stsc (t : track) : node := new_info (str "stsc") (B_stsc (mk_stsc (fbox 0 0) (make_stsc_entries (t_chunks t)))) [].
Definition make_stsz (t : track) : node := new_info (str "stsz") (B_stsz (mk_stsz (fbox 0 0) 0 (t_sizes t))) [].
(** makeSgpdBoxInfo, makeSbgpBoxInfo, aac.cpp:90-101, opus.cpp:73-86; sgpd.hpp:21-24, 138-148, sbgp.hpp:21-24, 41-47 *)
Definition make_sgpd (roll : Z) : node :=
  new_info (str "sgpd") (B_sgpd (mk_sgpd (fbox 1 0) (str "roll") 2 0 [mk_roll_distance 0 roll false] [] [] [])) [].
Definition make_sbgp (t : track) : node :=
  new_info (str "sbgp") (B_sbgp (mk_sbgp (fbox 0 0) (str "roll") 0 [mk_sbgp_entry (u32 (Zlen (t_sizes t))) 1])) [].

(** The children of stbl, in the order of appendTrakBoxInfo: aac.cpp:80-87, mp3.cpp:68-73, opus.cpp:63-70, vpx.cpp:64-70,
    av1.cpp:71-77, h264.cpp:73-79 *)
Definition make_stbl (t : track) : node :=
  let offs := make_offset_box (t_chunks t) in
  new_info (str "stbl") B_container
    match t_codec t with
    | AAC _ _ _ => [make_stsd t; make_stts t; make_stsc t; make_stsz t; offs; make_sgpd (-1); make_sbgp t]
    | MP3 _ _ _ => [make_stsd t; make_stts t; make_stsc t; make_stsz t; offs]
    | Opus _ roll => [make_stsd t; make_stts t; make_stsc t; make_stsz t; offs; make_sgpd roll; make_sbgp t]
    | VPX _ _ _ _ _ | AV1 _ _ _ _ _ _ _ _ _ | H264 _ _ _ _ _ _ _ _ =>
        [make_stsd t; make_stts t; make_stss t; make_stsc t; make_stsz t; offs]
    end.
Definition make_trak (t : track) : node :=
  let h := codec_handler (t_codec t) in
  new_info (str "trak") B_container
    [make_tkhd t; make_edts t;
     new_info (str "mdia") B_container
       [make_mdhd t; make_hdlr (handler_array h) (str "shiguredo::mp4");
        new_info (str "minf") B_container [make_media_header h; make_dinf; make_stbl t]]].

(** appendTrakBoxInfo(moov), aac.cpp:63-88, mp3.cpp:51-74, opus.cpp:46-71, vpx.cpp:47-71, av1.cpp:54-78, h264.cpp:56-80:
    finalize(), then a new leaf of moov *)
Definition node_add_leaf (n k : node) : node := let 'Node ty h b l := n in Node ty h b (l ++ [k]).
Definition Track_appendTrakBoxInfo (moov : node) (t : track) : node * track :=
  let t := Track_finalize t in (node_add_leaf moov (make_trak t), t).
