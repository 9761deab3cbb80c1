(** The box types the library documents as supported, by four-character code: class of box and accepted versions ([]: any).
    Models no code of /repo (the code's own table is [registry] of Box.v). *)
From Coq Require Import String Ascii.
From Verif Require Import Base Boxes Box.
From Coq Require Import List. Import ListNotations. Open Scope Z_scope.

Definition code (s : string) : list Z := map (fun c => Z.of_nat (nat_of_ascii c)) (list_ascii_of_string s).
Definition copyright (s : string) : list Z := 169 :: code s.
Definition any : list Z := [].
Definition table : list (list Z * kind * list Z) :=
  (* containers *)
  map (fun s => (code s, K_container, any))
    ["dinf"; "edts"; "ilst"; "mdia"; "mfra"; "minf"; "moof"; "moov"; "mvex"; "schi"; "sinf"; "stbl"; "traf"; "trak"; "udta";
     "----"; "aART"; "akID"; "apID"; "atID"; "cmID"; "cnID"; "covr"; "cpil"; "cprt"; "desc"; "disk"; "egid"; "geID"; "gnre";
     "pcst"; "pgap"; "plID"; "purd"; "purl"; "rtng"; "sfID"; "soaa"; "soal"; "soar"; "soco"; "sonm"; "sosn"; "stik"; "tmpo";
     "trkn"; "tven"; "tves"; "tvnn"; "tvsh"; "tvsn"]%string ++
  map (fun s => (copyright s, K_container, any)) ["ART"; "alb"; "cmt"; "com"; "day"; "gen"; "grp"; "nam"; "too"; "wrt"]%string ++
  [(code "wave", K_container, [0])] ++
  (* plain boxes *)
  [(code "btrt", K_btrt, any); (code "colr", K_colr, any); (code "data", K_data, any); (code "dOps", K_dOps, any);
   (code "fiel", K_fiel, any); (code "free", K_free, any); (code "ftyp", K_ftyp, any); (code "styp", K_ftyp, any);
   (code "mdat", K_mdat, any); (code "skip", K_skip, any); (code "stco", K_stco, any); (code "av1C", K_av1C, any)] ++
  (* full boxes *)
  [(code "co64", K_co64, [0]); (code "dref", K_dref, [0]); (code "esds", K_esds, [0]); (code "hdlr", K_hdlr, [0]);
   (code "iods", K_iods, [0]); (code "meta", K_meta, [0]); (code "mfhd", K_mfhd, [0]); (code "mfro", K_mfro, [0]);
   (code "sdtp", K_sdtp, [0]); (code "smhd", K_smhd, [0]); (code "stsc", K_stsc, [0]); (code "stsd", K_stsd, [0]);
   (code "stss", K_stss, [0]); (code "stsz", K_stsz, [0]); (code "stts", K_stts, [0]); (code "tfhd", K_tfhd, [0]);
   (code "trex", K_trex, [0]); (code "vmhd", K_vmhd, [0]); (code "url ", K_url, [0]); (code "urn ", K_urn, [0]);
   (code "ctts", K_ctts, [0; 1]); (code "elst", K_elst, [0; 1]); (code "emsg", K_emsg, [0; 1]); (code "mdhd", K_mdhd, [0; 1]);
   (code "mehd", K_mehd, [0; 1]); (code "mvhd", K_mvhd, [0; 1]); (code "pssh", K_pssh, [0; 1]); (code "sbgp", K_sbgp, [0; 1]);
   (code "sidx", K_sidx, [0; 1]); (code "tfdt", K_tfdt, [0; 1]); (code "tfra", K_tfra, [0; 1]); (code "tkhd", K_tkhd, [0; 1]);
   (code "trun", K_trun, [0; 1]); (code "sgpd", K_sgpd, [1; 2])] ++
  (* sample entries and codec configurations *)
  map (fun s => (code s, K_visual, [0])) ["avc1"; "encv"; "vp08"; "vp09"; "vp10"; "av01"]%string ++
  map (fun s => (code s, K_audio, [0])) ["mp4a"; "enca"; "Opus"]%string ++
  [(code "avcC", K_avcC, [0]); (code "vpcC", K_vpcC, [0; 1]); (code "pasp", K_pasp, [0])].

(** [t] is documented as the type of boxes of class [k] in the versions satisfying [accepts]. *)
Definition documented (t : list Z) (k : kind) (accepts : Z -> Prop) : Prop :=
  exists vs, In (t, k, vs) table /\ forall v, accepts v <-> vs = [] \/ In v vs.

(** The members of a FullBox are uint8_t. *)
Definition fb_typed (b : fullbox) : Prop := is_byte (fb_version b) /\ is_byte (fb_f0 b) /\ is_byte (fb_f1 b) /\ is_byte (fb_f2 b).

(** ** How a box type is shown.  A character that can be shown: printable ASCII, or the copyright sign of QuickTime (octet 169 of
    Mac Roman and Latin-1). *)
Definition shown (c : Z) : Prop := (32 <= c /\ c <= 126) \/ c = 169.
(** In UTF-8. *)
Definition utf8 (c : Z) : list Z := if Z.eq_dec c 169 then [194; 169] else [c].
Definition hex_prefix : list Z := code "0x".
Definition hex_alphabet : list Z := code "0123456789abcdef".
(** A hexadecimal numeral, the most significant digit first. *)
Definition hexadecimal (v : Z) (digits : list Z) : Prop :=
  exists ns, v = fold_left (fun a n => 16 * a + Z.of_nat n) ns 0 /\ Forall2 (fun n d => nth_error (hex_alphabet) n = Some d) ns digits.
