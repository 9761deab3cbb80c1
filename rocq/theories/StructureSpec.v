(** Specification of the structure of the movie box (C76): which boxes are inside which, in which order, and the version and flags
    of each.  Mentions of the code: the sum type of boxes, the constructor arguments of a codec. *)
From Verif Require Import Base Boxes Box BoxTree TreeSpec AnnexBSpec H264 Track Writers MovieSpec.
From Coq Require Import Ascii String List.
Import ListNotations.
Open Scope Z_scope.
Open Scope list_scope.

(** The types of the boxes of a tree. *)
Inductive names := N (type : list Z) (inside : list names).
Fixpoint names_of (t : tree) : names := let 'T ty _ kids := t in N ty (map names_of kids).
Definition only (s : string) : names := N (str s) [].

(** The sample entry of each codec. *)
Definition entry_names (c : codec) : names :=
  match c with
  | AAC _ _ _ => N (str "mp4a") [only "esds"; only "btrt"]
  | MP3 _ _ _ => N (str "mp4a") [only "esds"]
  | Opus _ _ => N (str "Opus") [only "dOps"]
  | VPX vp8 _ _ _ _ => N (if vp8 then str "vp08" else str "vp09") [only "vpcC"; only "fiel"; only "pasp"; only "btrt"]
  | AV1 _ _ _ _ _ _ _ _ _ => N (str "av01") [only "av1C"]
  | H264 _ _ _ _ _ _ _ _ => N (str "avc1") [only "avcC"]
  end.
Definition is_audio (c : codec) : bool := match c with AAC _ _ _ | MP3 _ _ _ | Opus _ _ => true | _ => false end.
Definition has_roll (c : codec) : bool := match c with AAC _ _ _ | Opus _ _ => true | _ => false end.
(** The trak box: [offsets] is stco or co64; only video has stss (ISO/IEC 14496-12 8.6.2: without it every sample is a sync sample), only AAC
    and Opus have the roll group. *)
Definition trak_names (c : codec) (offsets : string) : names :=
  N (str "trak")
    [only "tkhd"; N (str "edts") [only "elst"];
     N (str "mdia")
       [only "mdhd"; only "hdlr";
        N (str "minf")
          [only (if is_audio c then "smhd" else "vmhd")%string; N (str "dinf") [N (str "dref") [only "url "]];
           N (str "stbl")
             ([N (str "stsd") [entry_names c]; only "stts"] ++ (if is_audio c then [] else [only "stss"]) ++ [only "stsc"; only "stsz"; only offsets] ++
              (if has_roll c then [only "sgpd"; only "sbgp"] else []))]]].
Definition udta_names : names := N (str "udta") [N (str "meta") [only "hdlr"; N (str "ilst") [N (169 :: str "too") [only "data"]]]].
Definition moov_names (traks : list names) : names := N (str "moov") (only "mvhd" :: traks ++ [udta_names]).
Definition track_named (ops : list op) (i : nat) (n : names) : Prop :=
  exists c timescale duration_ts duration_mvhd media_time id offsets,
    nth_error (created ops) i = Some (O_NewTrack c timescale duration_ts duration_mvhd media_time id) /\
    (offsets = "stco" \/ offsets = "co64")%string /\ n = trak_names c offsets.

(** Version and flags: version 0 and no flags, except: a track header says that the track is enabled and used in the movie (flags 3), a video media header has flags 1,
    the data reference says that the media data are in the same file (flags 1), vpcC and sgpd have version 1. *)
Definition versioned (b : box) : Prop :=
  match b with
  | B_mvhd x => mvhd_fb x = mk_fullbox 0 0 0 0
  | B_tkhd x => tkhd_fb x = mk_fullbox 0 0 0 3
  | B_elst x => elst_fb x = mk_fullbox 0 0 0 0
  | B_mdhd x => mdhd_fb x = mk_fullbox 0 0 0 0
  | B_hdlr x => hdlr_fb x = mk_fullbox 0 0 0 0
  | B_smhd x => smhd_fb x = mk_fullbox 0 0 0 0
  | B_vmhd x => vmhd_fb x = mk_fullbox 0 0 0 1
  | B_dref x => dref_fb x = mk_fullbox 0 0 0 0
  | B_url x => url_fb x = mk_fullbox 0 0 0 1
  | B_stsd x => stsd_fb x = mk_fullbox 0 0 0 0
  | B_esds x => esds_fb x = mk_fullbox 0 0 0 0
  | B_vpcC x => vpcc_fb x = mk_fullbox 1 0 0 0
  | B_stts x => stts_fb x = mk_fullbox 0 0 0 0
  | B_stss x => stss_fb x = mk_fullbox 0 0 0 0
  | B_stsc x => stsc_fb x = mk_fullbox 0 0 0 0
  | B_stsz x => stsz_fb x = mk_fullbox 0 0 0 0
  | B_stco x => stco_fb x = mk_fullbox 0 0 0 0
  | B_co64 x => co64_fb x = mk_fullbox 0 0 0 0
  | B_sgpd x => sgpd_fb x = mk_fullbox 1 0 0 0
  | B_sbgp x => sbgp_fb x = mk_fullbox 0 0 0 0
  | B_meta x => x = mk_fullbox 0 0 0 0
  | _ => True
  end.
