(** Model of example/mp4-muxer.cpp: the sessions of its subcommands.  No proofs in this file.

    Reading the resources (load_resources_from_csv, example/resource/resource.cpp, with the library rapidcsv) and the options of
    the command line are not modelled; the std::ofstream is an output stream that takes everything. *)
From Verif Require Import Base Boxes Box BoxTree Track Writers Float.
From Flocq Require Import IEEE754.BinarySingleNaN.
From Coq Require Import Ascii String List.
Import ListNotations.
Open Scope Z_scope.
Open Scope list_scope.

(** Resource, example/resource/resource.hpp:7-11 *)
Record resource := mk_resource { r_timestamp : Z; r_data : list Z; r_key : bool }.

(** trak.addData(resources[i].timestamp, resources[i].data, resources[i].is_key) *)
Definition add_resource (track : nat) (r : resource) : op := O_AddData track (r_timestamp r) (r_data r) (r_key r).
(** for (j = 0; j < n; ++j) { i = s * n + j; trak.addData(resources[i]...); } trak.terminateCurrentChunk();
    mp4-muxer.cpp:157-162 and the like *)
Definition add_chunk (track n : nat) (rs : list resource) (s : nat) : list op :=
  map (add_resource track) (firstn n (skipn (s * n) rs)) ++ [O_Terminate track].
(** for (s = 0; s < chunks; ++s) { one chunk of the first track; one of the second }, mp4-muxer.cpp:155-168 and the like *)
Definition interleave (chunks na nv : nat) (a v : list resource) : list op :=
  flat_map (fun s => add_chunk 0 na a s ++ add_chunk 1 nv v s) (seq 0 chunks).

(** The constants of a subcommand: class of the writer, ftyp, duration, tracks (codec, timescale, samples in each chunk), number of chunks. *)
Record command := mk_command { m_class : wclass; m_ftyp : ftyp; m_duration : f32;
  m_audio : codec; m_audio_timescale : Z; m_audio_samples : nat; m_video : option (codec * Z * nat); m_chunks : nat }.

(** SimpleWriterParameters, simple_writer.hpp:21-23, FaststartWriterParameters, faststart_writer.hpp:26-28; brand.hpp:10-12 *)
Definition default_ftyp : ftyp := mk_ftyp (str "isom") 512 [str "isom"; str "iso2"; str "mp41"].
(** mp4-muxer.cpp:371-376 *)
Definition aach264_ftyp : ftyp := mk_ftyp (str "isom") 0 [str "mp41"].
(** The literals 16.0f, 4.0f, 15.36f (rounded to nearest). *)
Definition f16_0 : f32 := binary_normalize 24 128 _ _ mode_NE 16 0 false.
Definition f4_0 : f32 := binary_normalize 24 128 _ _ mode_NE 4 0 false.
Definition f15_36 : f32 := Bdiv mode_NE (f32_of_int 1536) (f32_of_int 100).
(** The parameters with the defaults of opus.hpp:21-29, vpx.hpp:27-38, av1.hpp:21-37, mp3.hpp:22-31, aac.hpp:22-31, h264.hpp:22-34 *)
Definition muxer_opus : codec := Opus 312 (-4).
Definition muxer_vp9 : codec := VPX false 640 240 250000 250000.
Definition muxer_vp8 : codec := VPX true 640 240 250000 250000.
Definition muxer_av1 : codec := AV1 240 160 0 0 0 1 1 0 [10; 11; 0; 0; 0; 4; 71; 126; 26; 255; 252; 192; 32].
Definition muxer_mp3 : codec := MP3 768 256000 128000.
Definition muxer_aac : codec := AAC 0 64000 64000.
Definition muxer_h264 : codec := H264 640 240 1 66 192 31 [] [].

Inductive subcommand := opus | opusvp9 | opusav1 | mp3vp8 | aacvp9 | opusvp9_faststart | aacvp9_faststart | aach264 | aach264_faststart.
(** mp4-muxer.cpp:121-135, 136-171, 172-205, 206-248, 249-288, 289-327, 328-368, 369-412, 413-457.  The subcommand opus does not end
    its one chunk itself ([m_chunks] = 1, see [muxer_ops]). *)
Definition the_command (c : subcommand) : command :=
  match c with
  | opus => mk_command Simple default_ftyp f16_0 muxer_opus 48000 800 None 1
  | opusvp9 => mk_command Simple default_ftyp f16_0 muxer_opus 48000 50 (Some (muxer_vp9, 16000, 25%nat)) 16
  | opusav1 => mk_command Simple default_ftyp f4_0 muxer_opus 48000 50 (Some (muxer_av1, 16000, 25%nat)) 4
  | mp3vp8 => mk_command Simple default_ftyp f15_36 muxer_mp3 48000 40 (Some (muxer_vp8, 16000, 24%nat)) 16
  | aacvp9 => mk_command Simple default_ftyp f15_36 muxer_aac 48000 45 (Some (muxer_vp9, 16000, 24%nat)) 16
  | opusvp9_faststart => mk_command Faststart default_ftyp f16_0 muxer_opus 48000 50 (Some (muxer_vp9, 16000, 25%nat)) 16
  | aacvp9_faststart => mk_command Faststart default_ftyp f15_36 muxer_aac 48000 45 (Some (muxer_vp9, 16000, 24%nat)) 16
  | aach264 => mk_command Simple aach264_ftyp f15_36 muxer_aac 48000 45 (Some (muxer_h264, 16000, 24%nat)) 16
  | aach264_faststart => mk_command Faststart aach264_ftyp f15_36 muxer_aac 48000 45 (Some (muxer_h264, 16000, 24%nat)) 16
  end.

(** The durations passed to the model's constructors are the products of Float.v (undefined conversions: 0; there are none). *)
Definition ticks (timescale : Z) (d : f32) : Z := match duration_in timescale d with Ok v => v | _ => 0 end.
(** A track whose constructor's argument is writer.getAndUpdateNextTrackID(); [id] is what it returns *)
Definition new_track (c : command) (k : codec) (timescale id : Z) : list op :=
  [O_NextTrackID; O_NewTrack k timescale (ticks timescale (m_duration c)) (ticks 1000 (m_duration c)) 0 id].
(** The calls between writeFtypBox and appendTrakAndUdtaBoxInfo *)
Definition muxer_ops (c : command) (a v : list resource) : list op :=
  match m_video c with
  | None => new_track c (m_audio c) (m_audio_timescale c) 1 ++ map (add_resource 0) (firstn (m_audio_samples c) a)
  | Some (k, ts, n) => new_track c (m_audio c) (m_audio_timescale c) 1 ++ new_track c k ts 2 ++ interleave (m_chunks c) (m_audio_samples c) n a v
  end.
Definition muxer_tracks (c : command) : list nat := match m_video c with None => [0%nat] | Some _ => [0%nat; 1%nat] end.
(** All calls.  resources[i] beyond the end of the vector is undefined. *)
Definition muxer_calls (c : command) (a v : list resource) : list op :=
  O_WriteFtyp :: muxer_ops c a v ++ O_AppendTrakAndUdta (muxer_tracks c) ::
  match m_class c with Simple => [O_WriteFreeAndMdatHeader; O_WriteMoov] | Faststart => [O_WriteMoov; O_WriteMdatHeader; O_CopyMdatData] end.
Definition enough (c : command) (a v : list resource) : bool :=
  Nat.leb (m_chunks c * m_audio_samples c) (length a) && match m_video c with None => true | Some (_, _, n) => Nat.leb (m_chunks c * n) (length v) end.
(** The writer's clock reads [time]; exceptions end the program. *)
Definition muxer (cmd : subcommand) (time : Z) (a v : list resource) : outcome (list Z) :=
  let c := the_command cmd in
  if enough c a v then
    let w := match m_class c with Simple => SimpleWriter_new | Faststart => FaststartWriter_new end in
    let '(s, rs) := run (mk_session (w 1000 (ticks 1000 (m_duration c)) time (m_ftyp c) (mkOS [] 0)) []) (muxer_calls c a v) in
    fold_right (fun r k => obind r (fun _ => k)) (Ok (os_data (mw_os (s_writer s)))) rs
  else UB.
