(** Complete contents (C81): the moov box a finished file must have, as a function of what the program has recorded, every
    field of every box.  Mentions of the code: the record types of the boxes, and the sessions of MovieSpec.v and
    ChunkSpec.v. *)
From Verif Require Import Base BitIO Boxes WireFormat DescriptorSpec Box BoxTree TreeSpec H264 Track Writers MovieSpec ChunkSpec.
From Coq Require Import String List.
Import ListNotations.
Open Scope Z_scope.
Open Scope list_scope.

Definition fb (version flags : Z) : fullbox := mk_fullbox version 0 0 flags.

(** Runs of equal values, as long as possible: number and value. *)
Definition join (n v : Z) (runs : list (Z * Z)) : list (Z * Z) :=
  match runs with (m, w) :: l => if v =? w then (n + m, w) :: l else (n, v) :: runs | [] => [(n, v)] end.
Definition run_lengths (l : list Z) : list (Z * Z) := fold_right (join 1) [] l.
(** time to sample: a run of equal durations each *)
Definition stts_of (durations : list Z) : list stts_entry := map (fun r => mk_stts_entry (fst r) (snd r)) (run_lengths durations).
(** sample to chunk: a run of chunks with equally many samples each; the number of its first chunk, counted from 1 *)
Fixpoint stsc_from (k : Z) (runs : list (Z * Z)) : list stsc_entry :=
  match runs with [] => [] | (m, n) :: l => mk_stsc_entry k n 1 :: stsc_from (k + m) l end.
Definition stsc_of (chunks : list (list sample)) : list stsc_entry := stsc_from 1 (run_lengths (map Zlen chunks)).

(** Where the samples of track [i] are if the media data start at [base]: everything stored follows each other. *)
Fixpoint positions (i : nat) (base : Z) (h : list (option nat * sample)) : list Z :=
  match h with
  | [] => []
  | (who, s) :: h => (match who with Some j => if Nat.eqb i j then [base] else [] | None => [] end) ++ positions i (base + Zlen (sm_data s)) h
  end.
(** The first of each chunk. *)
Fixpoint firsts {A} (chunks : list (list A)) (pos : list Z) : list Z :=
  match chunks with [] => [] | ch :: l => hd 0 pos :: firsts l (skipn (length ch) pos) end.
Definition chunk_starts (i : nat) (base : Z) (ops : list op) : list Z := firsts (chunks_of i ops) (positions i base (history ops)).
(** 64-bit offsets only if one needs them *)
Definition offset_tree (offsets : list Z) : tree :=
  if existsb (fun o => 2 ^ 32 <=? o) offsets then T (str "co64") (B_co64 (mk_co64 (fb 0 0) offsets)) []
  else T (str "stco") (B_stco (mk_stco (fb 0 0) offsets)) [].

(** The only sample entry.  Descriptors are nested: the number of octets of those nested in a descriptor is given, and they follow in
    the list (each has a tag and four octets of length).  AAC: configuration of 2 octets, sync layer of 1; MP3: no configuration. *)
Definition es_descriptor_of (esid nested : Z) : descriptor := DES (mk_es_fields esid false false false 0 0 [] 0) nested [].
Definition decoder_config (object_type b m a nested : Z) : descriptor := DCD (mk_dcd_fields object_type 5 false true b m a) nested [].
Definition entry_tree (timescale id : Z) (c : codec) : tree :=
  match c with
  | AAC b m a =>
      T (str "mp4a") (audio_entry_of (str "mp4a") timescale)
        [T (str "esds") (B_esds (mk_esds (fb 0 0) [es_descriptor_of (id mod 2 ^ 16) (5 + (13 + (5 + 2)) + (5 + 1)); decoder_config 64 b m a (5 + 2); DSI [17; 144]; DSL [2]])) [];
         T (str "btrt") (B_btrt (mk_btrt 0 m a)) []]
  | MP3 b m a =>
      T (str "mp4a") (audio_entry_of (str "mp4a") timescale)
        [T (str "esds") (B_esds (mk_esds (fb 0 0) [es_descriptor_of 0 (5 + 13 + (5 + 1)); decoder_config 107 b m a 0; DSL [2]])) []]
  | Opus p _ =>
      T (str "Opus") (audio_entry_of (str "Opus") 48000)
        [T (str "dOps") (B_dOps (mk_dops 0 2 (p mod 2 ^ 16) 48000 0 0 (mk_dops_table 0 0 []))) []]
  | VPX vp8 w h m a =>
      T (if vp8 then str "vp08" else str "vp09") (visual_entry_of w h)
        [T (str "vpcC") (B_vpcC (mk_vpcc (fb 1 0) 0 21 8 1 0 2 2 2 [])) []; T (str "fiel") (B_fiel (mk_fiel 1 0)) [];
         T (str "pasp") (B_pasp (mk_pasp 1 1)) []; T (str "btrt") (B_btrt (mk_btrt 0 m a)) []]
  | AV1 w h p l ti cx cy cp obus =>
      T (str "av01") (visual_entry_of w h) [T (str "av1C") (B_av1C (mk_av1c 1 1 p l ti false false false cx cy cp 0 false 0 obus)) []]
  | H264 w h cv pr co lv sps pps =>
      T (str "avc1") (visual_entry_of w h) [T (str "avcC") (B_avcC (mk_avcc cv pr co lv 63 3 7 sps pps false 63 0 31 0 31 0 [])) []]
  end.

(** The trak box of track [i], whose constructor call is [c], ..., if the media data start at [base]. *)
Definition trak_tree (time : Z) (ops : list op) (base : Z) (i : nat) (c : codec) (timescale duration_ts duration_mvhd media_time id : Z) : tree :=
  let timescale := match c with Opus _ _ => 48000 | _ => timescale end in
  let samples := samples_of i ops in
  let picture := picture_size c in
  let groups := roll_groups_of c (Zlen samples) in
  T (str "trak") B_container
    [T (str "tkhd") (B_tkhd (mk_tkhd (fb 0 3) time time id 0 duration_mvhd 0 0 0 0 (if is_video c then 0 else 256) 0
        [65536; 0; 0; 0; 65536; 0; 0; 0; 1073741824] ((fst picture * 2 ^ 16) mod 2 ^ 32) ((snd picture * 2 ^ 16) mod 2 ^ 32))) [];
     T (str "edts") B_container
       [T (str "elst") (B_elst (mk_elst (fb 0 0) [mk_elst_entry duration_mvhd (media_time_of i ops media_time) 65536])) []];
     T (str "mdia") B_container
       [T (str "mdhd") (B_mdhd (mk_mdhd (fb 0 0) time time timescale duration_ts false (str "und") 0)) [];
        T (str "hdlr") (B_hdlr (mk_hdlr (fb 0 0) 0 (if is_video c then str "vide" else str "soun") [0;0;0;0] [0;0;0;0] [0;0;0;0] (str "shiguredo::mp4") [])) [];
        T (str "minf") B_container
          [media_header_of c; self_reference;
           T (str "stbl") B_container
             ([T (str "stsd") (B_stsd (mk_stsd (fb 0 0) 1)) [entry_tree timescale id (expected_codec c (sps_of i ops) (pps_of i ops))];
               T (str "stts") (B_stts (mk_stts (fb 0 0) (stts_of (expected_durations (map sm_ts samples) duration_ts)))) []] ++
              (if is_video c then [T (str "stss") (B_stss (mk_stss (fb 0 0) (sync_numbers samples))) []] else []) ++
              [T (str "stsc") (B_stsc (mk_stsc (fb 0 0) (stsc_of (chunks_of i ops)))) [];
               T (str "stsz") (B_stsz (mk_stsz (fb 0 0) 0 (map (fun s => Zlen (sm_data s)) samples))) [];
               offset_tree (chunk_starts i base ops)] ++
              fst groups ++ snd groups)]]].
Definition track_tree (time : Z) (ops : list op) (base : Z) (i : nat) : tree :=
  match nth_error (created ops) i with
  | Some (O_NewTrack c timescale duration_ts duration_mvhd media_time id) => trak_tree time ops base i c timescale duration_ts duration_mvhd media_time id
  | _ => T [] B_container []
  end.

(** The files.  SimpleWriter: the media data follow the ftyp box and 16 octets for a free box and the header of mdat; the moov box is at
    the end.  FaststartWriter: the media data are the last box. *)
Definition moov_of (timescale duration time : Z) (ops : list op) (sel : list nat) (base : Z) : tree :=
  moov_tree timescale duration time ((1 + ids_issued ops) mod 2 ^ 32) (map (track_tree time ops base) sel).
Definition simple_file (timescale duration time : Z) (ft : ftyp) (ops : list op) (sel : list nat) : list Z :=
  let m := media ops in
  let base := Zlen (serialize (ftyp_tree ft)) + 16 in
  flat_map serialize ([ftyp_tree ft] ++ free_trees m ++ [mdat_tree m; moov_of timescale duration time ops sel base]).
Definition faststart_file (timescale duration time : Z) (ft : ftyp) (ops : list op) (sel : list nat) (base : Z) : list Z :=
  flat_map serialize [ftyp_tree ft; moov_of timescale duration time ops sel base; mdat_tree (media ops)].
