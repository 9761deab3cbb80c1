(** What the files of example/mp4-muxer.cpp are to contain (C63). *)
From Verif Require Import Base Boxes Box BoxTree TreeSpec AnnexBSpec Track Writers MovieSpec Muxer.
From Verif Require ExactSpec.
From Coq Require Import Ascii String List.
Import ListNotations.
Open Scope Z_scope.
Open Scope list_scope.

(** A track: identifier, timescale, duration in its timescale, its codec with the configuration, its samples. *)
Record expected_track := mk_expected { x_id : Z; x_timescale : Z; x_duration : Z; x_codec : codec; x_samples : list sample }.
(** A player finds this track: every sample, octet by octet, its duration, and the key frames of a video track. *)
Definition finds (file : list Z) (x : expected_track) (info : track_info) : Prop :=
  i_track_id info = x_id x /\ i_timescale info = x_timescale x /\
  map snd (i_locations info) = map (fun s => Zlen (sm_data s)) (x_samples x) /\
  map (octets_at file) (i_locations info) = map sm_data (x_samples x) /\
  i_durations info = expected_durations (map sm_ts (x_samples x)) (x_duration x) /\
  i_sync info = if is_video (x_codec x) then Some (sync_numbers (x_samples x)) else None.

(** A resource is one sample. *)
Definition as_sample (r : resource) : sample := mk_sample (r_timestamp r) (r_data r) (r_key r).
(** The first [n] resources. *)
Definition first (n : nat) (rs : list resource) : list sample := map as_sample (firstn n rs).
(** The tracks of a subcommand: the duration (16, 4 or 15.36 seconds) in ticks, the codec, the resources used.  Opus: pre-skip 312,
    roll distance -4; VP8 and VP9: 640x240 pixels, 250 kbit/s; AV1: 240x160 pixels, profile 0, level 0, main tier, 4:2:0, and the given
    configuration; MP3: buffer of 768 octets, 256 and 128 kbit/s; AAC: 64 kbit/s. *)
Definition expected_tracks (c : subcommand) (a v : list resource) : list expected_track :=
  match c with
  | opus => [mk_expected 1 48000 768000 (Opus 312 (-4)) (first 800 a)]
  | opusvp9 | opusvp9_faststart => [mk_expected 1 48000 768000 (Opus 312 (-4)) (first 800 a); mk_expected 2 16000 256000 (VPX false 640 240 250000 250000) (first 400 v)]
  | opusav1 => [mk_expected 1 48000 192000 (Opus 312 (-4)) (first 200 a);
      mk_expected 2 16000 64000 (AV1 240 160 0 0 0 1 1 0 [10; 11; 0; 0; 0; 4; 71; 126; 26; 255; 252; 192; 32]) (first 100 v)]
  | mp3vp8 => [mk_expected 1 48000 737280 (MP3 768 256000 128000) (first 640 a); mk_expected 2 16000 245760 (VPX true 640 240 250000 250000) (first 384 v)]
  | aach264 | aach264_faststart => [] (* see expected_h264 *)
  | aacvp9 | aacvp9_faststart =>
      [mk_expected 1 48000 737280 (AAC 0 64000 64000) (first 720 a); mk_expected 2 16000 245760 (VPX false 640 240 250000 250000) (first 384 v)]
  end.
Definition has_h264 (c : subcommand) : bool := match c with aach264 | aach264_faststart => true | _ => false end.
(** The numbers of resources a subcommand uses. *)
Definition resources_used (c : subcommand) : nat * nat :=
  match c with
  | opus => (800, 0)%nat
  | opusvp9 | opusvp9_faststart => (800, 400)%nat
  | opusav1 => (200, 100)%nat
  | mp3vp8 => (640, 384)%nat
  | aacvp9 | aacvp9_faststart | aach264 | aach264_faststart => (720, 384)%nat
  end.
(** The data of a resource: octets, at most [2 ^ 32 - 1] of them. *)
Definition resource_ok (r : resource) : Prop := bytes (r_data r) /\ Zlen (r_data r) < 2 ^ 32.

(** H.264: each resource is an access unit in Annex B format; each of its slices becomes a sample, its parameter sets go to the
    configuration of the track. *)
Record picture := mk_picture { p_timestamp : Z; p_units : list unit_; p_key : bool }.
Definition picture_resource (p : picture) : resource := mk_resource (p_timestamp p) (annexb (p_units p)) (p_key p).
Definition units_of (from to : Z) (units : list unit_) : list (list Z) :=
  map u_octets (filter (fun u => (from <=? nal_type (u_octets u)) && (nal_type (u_octets u) <=? to)) units).
Definition picture_samples (p : picture) : list sample := map (fun s => mk_sample (p_timestamp p) (avc_sample s) (p_key p)) (units_of 1 5 (p_units p)).
Definition picture_ok (p : picture) : Prop := access_unit_ok (p_units p) /\ Zlen (annexb (p_units p)) < 2 ^ 31 /\ Forall (fun u => 1 <= nal_type (u_octets u) <= 8) (p_units p).
(** Fewer than 2^32 slices; at most 31 sequence and 255 picture parameter sets, of less than 2^16 octets. *)
Definition pictures_fit (l : list picture) : Prop :=
  let sps := flat_map (fun p => units_of 7 7 (p_units p)) l in let pps := flat_map (fun p => units_of 8 8 (p_units p)) l in
  Zlen (flat_map picture_samples l) < 2 ^ 32 /\ Zlen sps < 32 /\ Zlen pps < 256 /\ Forall (fun s => Zlen s < 2 ^ 16) (sps ++ pps).
(** The tracks of the subcommands with H.264: 640x240 pixels, the parameter sets of the pictures. *)
Definition expected_h264 (a : list resource) (l : list picture) : list expected_track :=
  [mk_expected 1 48000 737280 (AAC 0 64000 64000) (first 720 a);
   mk_expected 2 16000 245760 (expected_codec (H264 640 240 1 66 192 31 [] []) (flat_map (fun p => units_of 7 7 (p_units p)) (firstn 384 l)) (flat_map (fun p => units_of 8 8 (p_units p)) (firstn 384 l)))
     (flat_map picture_samples (firstn 384 l))].

(** The media data.  Turn by turn (of a second; of 0.96 seconds in the subcommands of 15.36 seconds), the samples of the first track, then those of the
    second: of each list, the next ones; [f] gives what is stored for an element of the second.  The subcommand opus: all of the only track. *)
Definition turn {A} (f : A -> list Z) (n s : nat) (l : list A) : list Z := flat_map f (firstn n (skipn (s * n) l)).
Definition in_turns {A} (turns na nv : nat) (a : list resource) (f : A -> list Z) (v : list A) : list Z := flat_map (fun s => turn r_data na s a ++ turn f nv s v) (seq 0 turns).
Definition expected_media {A} (c : subcommand) (a : list resource) (f : A -> list Z) (v : list A) : list Z :=
  match c with
  | opus => flat_map r_data (firstn 800 a)
  | opusvp9 | opusvp9_faststart => in_turns 16 50 25 a f v
  | opusav1 => in_turns 4 50 25 a f v
  | mp3vp8 => in_turns 16 40 24 a f v
  | aacvp9 | aacvp9_faststart | aach264 | aach264_faststart => in_turns 16 45 24 a f v
  end.
(** H.264: each slice after its length. *)
Definition picture_octets (p : picture) : list Z := flat_map avc_sample (units_of 1 5 (p_units p)).

(** The boxes of the file: brands, a movie in milliseconds with the tracks [traks], the media data [m]; the movie before the media data in the
    faststart subcommands. *)
Definition is_faststart (c : subcommand) : bool := match c with opusvp9_faststart | aacvp9_faststart | aach264_faststart => true | _ => false end.
Definition brands (c : subcommand) : ftyp :=
  if has_h264 c then mk_ftyp (str "isom") 0 [str "mp41"] else mk_ftyp (str "isom") 512 [str "isom"; str "iso2"; str "mp41"].
Definition milliseconds (c : subcommand) : Z := match c with opus | opusvp9 | opusvp9_faststart => 16000 | opusav1 => 4000 | _ => 15360 end.
Definition expected_boxes (c : subcommand) (time : Z) (m : list Z) (traks : list tree) : list tree :=
  let moov := moov_tree 1000 (milliseconds c) time (1 + Zlen traks) traks in
  if is_faststart c then [ftyp_tree (brands c); moov; mdat_tree m] else [ftyp_tree (brands c)] ++ free_trees m ++ [mdat_tree m; moov].
(** The sample entry of a track announces the codec. *)
Definition announced (x : expected_track) (trak : tree) : Prop := exists e, trak_entry trak = Some e /\ entry_describes (x_timescale x) (x_id x) (x_codec x) e.
(** SimpleReader reads the file without error; its boxes, the media data [m], and what a player finds in it. *)
Definition plays (c : subcommand) (time : Z) (file : list Z) (xs : list expected_track) (m : list Z) : Prop :=
  forall seekable, exists ns text infos traks, SimpleReader_read seekable file = Some (Ok (ns, text)) /\
    read_movie (map tree_of ns) = Some (map Some infos) /\ Forall2 (finds file) xs infos /\
    map tree_of ns = map tree_as_read (expected_boxes c time m traks) /\ Forall2 announced xs traks.
(** Every octet of the file, as ExactSpec.v (C81) gives it for the calls the subcommand makes before it finishes the file. *)
Definition exact_contents (c : subcommand) (time : Z) (a v : list resource) (file : list Z) : Prop :=
  let ops := muxer_ops (the_command c) a v in
  let tracks := match c with opus => [0%nat] | _ => [0%nat; 1%nat] end in
  if is_faststart c then file = ExactSpec.faststart_file 1000 (milliseconds c) time (brands c) ops tracks (Zlen file - Zlen (media ops))
  else file = ExactSpec.simple_file 1000 (milliseconds c) time (brands c) ops tracks.
