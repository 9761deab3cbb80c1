(** Independent specification of box trees: ISO/IEC 14496-12 box framing.  Mentions of the code: only the sum type [box]
    of payloads, the wire format of payloads (WireFormat.v/BoxSpec.v), and the class registered for a type. *)
From Verif Require Import PrintSpec Base BitIO Boxes WireFormat Box BoxSpec BoxTree.

(** A tree of boxes: four-character type, payload, child boxes. *)
Inductive tree := T (type : list Z) (b : box) (kids : list tree).

(** Octets of a sequence of bits, eight at a time, most significant bit first. *)
Fixpoint octets_fuel (fuel : nat) (bs : list bool) : list Z :=
  match fuel, bs with
  | S f, b0 :: b1 :: b2 :: b3 :: b4 :: b5 :: b6 :: b7 :: rest =>
      bits_to_Z [b0; b1; b2; b3; b4; b5; b6; b7] :: octets_fuel f rest
  | _, _ => []
  end.
Definition octets (bs : list bool) : list Z := octets_fuel (length bs) bs.

(** An n-octet big-endian unsigned integer. *)
Definition be_octets (n : nat) (v : Z) : list Z := map (fun k => (v / 256 ^ Z.of_nat k) mod 256) (rev (seq 0 n)).

(** The value of big-endian octets. *)
Definition be_value (l : list Z) : Z := fold_left (fun acc b => 256 * acc + b) l 0.
(** Header of a box whose payload and children take [n] octets: 32-bit total size and type, or, when that does not fit,
    1, type and the 64-bit total size. *)
Definition frame_header_size (n : Z) : Z := if n + 8 <? 2 ^ 32 then 8 else 16.
Definition frame_header (type : list Z) (n : Z) : list Z :=
  if n + 8 <? 2 ^ 32 then be_octets 4 (n + 8) ++ type
  else be_octets 4 1 ++ type ++ be_octets 8 (n + 16).

(** Serialisation of a tree, given the octets of each payload. *)
Fixpoint serialize_with (payload : box -> list Z) (t : tree) : list Z :=
  let 'T type b kids := t in
  let body := payload b ++ flat_map (serialize_with payload) kids in
  frame_header type (Zlen body) ++ body.

(** The payload prescribed by the wire format. *)
Definition wire_payload (b : box) : list Z := octets (enc (box_layout b)).
Definition serialize : tree -> list Z := serialize_with wire_payload.

(** Well-formed trees: four-octet types, each payload representable for the class registered for the type; an
    AudioSampleEntry (whose contents depend on the parent being "wave") not directly under "wave". *)
Fixpoint tree_wf (under_wave : bool) (t : tree) : Prop :=
  let 'T type b kids := t in
  length type = 4%nat /\ bytes type /\
  BoxMap_getBoxInstance BoxMap_registered type = box_kind b /\
  box_wf (Zlen (flat_map serialize kids)) b /\
  (forall a, b = B_audio a -> ase_type a = type /\ under_wave = false) /\
  (fix all (l : list tree) : Prop :=
     match l with [] => True | k :: l' => tree_wf (list_eqb type [119; 97; 118; 101]) k /\ all l' end) kids.

(** * Layout of BoxInfo trees *)

(** What a BoxInfo tree contains, forgetting headers. *)
Fixpoint tree_of (n : node) : tree := let 'Node type _ b leafs := n in T type b (map tree_of leafs).
(** The size announced by the header. *)
Definition announced_size (n : node) : Z := match n_header n with Some h => h_size h | None => 0 end.
Definition total_announced (l : list node) : Z := fold_right (fun n s => announced_size n + s) 0 l.
(** [laid_out n off]: the header of [n] says offset [off], its own type, and header + payload + children as size; children
    are laid out one after the other starting right after the payload. *)
Fixpoint laid_out (n : node) (off : Z) : Prop :=
  let 'Node type h b leafs := n in
  match h with
  | None => False
  | Some h =>
      let content := Box_getDataSize b + total_announced leafs in
      h_type h = type /\ h_offset h = off /\ h_header_size h = frame_header_size content /\
      h_size h = h_header_size h + content /\
      (fix go (l : list node) (p : Z) : Prop :=
         match l with [] => True | k :: l' => laid_out k p /\ go l' (p + announced_size k) end)
        leafs (off + h_header_size h + Box_getDataSize b)
  end.
(** children laid out one after the other from [p] *)
Fixpoint laid_out_all (l : list node) (p : Z) : Prop :=
  match l with [] => True | k :: l' => laid_out k p /\ laid_out_all l' (p + announced_size k) end.

(** The octets writeData emits for a box (whatever its members). *)
Definition written (b : box) : list Z := match Box_writeData b writer_init with Ok (w, _) => w_os w | _ => [] end.

(** A property of every box of a tree. *)
Fixpoint all_boxes (P : box -> Prop) (t : tree) : Prop :=
  let 'T _ b kids := t in
  P b /\ (fix all (l : list tree) : Prop := match l with [] => True | k :: l' => all_boxes P k /\ all l' end) kids.

(** Headers, where present, agree with the type of the box and are not of the "until end of file" kind (freshly built
    trees have no headers; trees laid out before satisfy this too). *)
Fixpoint headers_ok (n : node) : Prop :=
  let 'Node type h _ leafs := n in
  match h with None => True | Some h => h_type h = type /\ h_extend_to_eof h = false end /\
  (fix all (l : list node) : Prop := match l with [] => True | k :: l' => headers_ok k /\ all l' end) leafs.

(** four-octet types everywhere *)
Fixpoint types_ok (t : tree) : Prop :=
  let 'T ty _ kids := t in
  length ty = 4%nat /\ (fix all (l : list tree) : Prop := match l with [] => True | k :: l' => types_ok k /\ all l' end) kids.
(** Boxes writeData accepts. *)
Definition writable (b : box) : Prop := box_typed b /\ box_refused b = false.

(** * Files as seen by the reader *)
(** The box at position [pos] of the file and its payload. *)
Definition payload_at (data : list Z) (h : boxheader) : list Z :=
  firstn (Z.to_nat (header_getDataSize h)) (skipn (Z.to_nat (h_offset h + h_header_size h)) data).
(** Some place of the file parses as the header of an 'sgpd' box with an 'alst' group and a version other than 1. *)
Definition has_unversioned_alst (data : list Z) : Prop :=
  exists pos h, 0 <= pos <= Zlen data /\ read_box_header data pos = Ok h /\ h_type h = [115; 103; 112; 100] /\
    sgpd_reads_uninitialised (payload_at data h).
(** Some place of the file parses as the header of an 'iods', 'esds' or 'avcC' box. *)
Definition has_overreporting (data : list Z) : Prop :=
  exists pos h, 0 <= pos <= Zlen data /\ read_box_header data pos = Ok h /\
    (h_type h = [105; 111; 100; 115] \/ h_type h = [101; 115; 100; 115] \/ h_type h = [97; 118; 99; 67]).
(** Some place of the file parses as the header of an 'mvhd', 'tkhd' or 'mdhd' box of a version other than 0, with a 64-bit
    creation or modification time that has no date (PrintSpec.v). *)
Definition has_undated_time (data : list Z) : Prop :=
  exists pos h v f0 f1 f2 creation modification rest, 0 <= pos <= Zlen data /\ read_box_header data pos = Ok h /\
    (h_type h = [109; 118; 104; 100] \/ h_type h = [116; 107; 104; 100] \/ h_type h = [109; 100; 104; 100]) /\
    payload_at data h = [v; f0; f1; f2] ++ creation ++ modification ++ rest /\ v <> 0 /\ length creation = 8%nat /\ length modification = 8%nat /\
    ~ (time_printable (be_value creation) /\ time_printable (be_value modification)).
(** All boxes found lie inside the file. *)
Fixpoint within (len : Z) (n : node) : Prop :=
  let 'Node _ h _ leafs := n in
  match h with None => False | Some h => 0 <= h_offset h /\ h_header_size h <= h_size h /\ h_offset h + h_size h <= len end /\
  (fix all (l : list node) : Prop := match l with [] => True | k :: l' => within len k /\ all l' end) leafs.
(** [header_at l h]: the octets [l] (up to the end of the stream) start with the header [h]: size and
    type, size 0 meaning "to the end of the file" and size 1 that a 64-bit size follows. *)
Definition header_at (l : list Z) (h : boxheader) : Prop :=
  exists size type rest, l = size ++ type ++ rest /\ length size = 4%nat /\ length type = 4%nat /\ h_type h = type /\
    ((be_value size = 0 /\ h_header_size h = 8 /\ h_size h = Zlen l /\ h_extend_to_eof h = true) \/
     (be_value size = 1 /\ h_header_size h = 16 /\ h_extend_to_eof h = false /\
      exists large rest', rest = large ++ rest' /\ length large = 8%nat /\ h_size h = be_value large) \/
     (2 <= be_value size /\ h_header_size h = 8 /\ h_size h = be_value size /\ h_extend_to_eof h = false)).
(** Fewer than 8 octets, or fewer than 16 and a 64-bit size announced. *)
Definition header_truncated (l : list Z) : Prop := Zlen l < 8 \/ (Zlen l < 16 /\ exists rest, l = [0; 0; 0; 1] ++ rest).
(** [from_file data uw n]: the BoxInfo tree [n] (whose parent is a "wave" box iff [uw]) says only what the file says: each
    header is the one found at its offset, its box lies inside the file, the members are those parsed from its payload, and
    a box of unknown type has no child boxes. *)
Fixpoint from_file (data : list Z) (uw : bool) (n : node) : Prop :=
  let 'Node type h b leafs := n in
  match h with
  | None => False
  | Some h =>
      0 <= h_offset h /\ read_box_header data (h_offset h) = Ok h /\ h_type h = type /\
      h_header_size h <= h_size h /\ h_offset h + h_size h <= Zlen data /\
      (exists r bits, Box_readData (BoxMap_getBoxInstance BoxMap_registered type) type uw (reader_init (payload_at data h)) = Ok (r, bits, b)) /\
      ((exists p, b = B_unsupported p) -> leafs = [])
  end /\
  (fix all (l : list node) : Prop := match l with [] => True | k :: l' => from_file data (list_eqb type [119; 97; 118; 101]) k /\ all l' end) leafs.
(** Number of boxes of a tree; a box occurring somewhere in a tree. *)
Fixpoint boxes (n : node) : Z := let 'Node _ _ _ leafs := n in 1 + fold_right (fun k s => boxes k + s) 0 leafs.
Inductive occurs (n : node) : node -> Prop :=
  | occurs_here : occurs n n
  | occurs_below k t h b l : In k l -> occurs n k -> occurs n (Node t h b l).
(** [tiled data uw n off]: the header of [n] is the one found at [off], and the box there is filled exactly: its announced size is header, payload octets parsed and
    children, and the children follow each other, each filled exactly, from the end of the payload to the end of the box. *)
Fixpoint tiled (data : list Z) (uw : bool) (n : node) (off : Z) : Prop :=
  let 'Node type h b leafs := n in
  match h with
  | None => False
  | Some h =>
      (read_box_header data off = Ok h /\ h_type h = type /\ h_offset h = off) /\
      exists r bits, Box_readData (BoxMap_getBoxInstance BoxMap_registered type) type uw (reader_init (payload_at data h)) = Ok (r, bits, b) /\
        h_size h = h_header_size h + bits / 8 + total_announced leafs /\
        (fix go (l : list node) (p : Z) : Prop :=
           match l with [] => True | k :: l' => tiled data (list_eqb type [119; 97; 118; 101]) k p /\ go l' (p + announced_size k) end)
          leafs (off + h_header_size h + bits / 8)
  end.
Fixpoint tiled_all (data : list Z) (uw : bool) (l : list node) (p : Z) : Prop :=
  match l with [] => True | k :: l' => tiled data uw k p /\ tiled_all data uw l' (p + announced_size k) end.

(** * What is written back from what was read *)
(** The boxes whose payload is determined by the members readData fills in: not the descriptors of 'iods' and 'esds', not the
    flags of 'meta', not a sample size table under a fixed size, not a handler name that may be a Pascal string (Findings.v
    shows that each of these is needed). *)
Definition lossless (b : box) : Prop :=
  match b with
  | B_iods _ | B_esds _ | B_meta _ => False
  | B_stsz x => stsz_sample_size x = 0
  | B_hdlr x => hdlr_pre_defined x = 0
  | _ => True
  end.
(** Every box of the tree is such a box, no audio sample entry is directly under 'wave', and every box announces the size its
    members and child boxes need (no unterminated string, no padding). *)
Fixpoint reproducible (uw : bool) (n : node) : Prop :=
  let 'Node type h b leafs := n in
  lossless b /\ (uw = true -> box_kind b <> K_audio) /\
  (exists hd, h = Some hd /\ h_size hd = h_header_size hd + Box_getDataSize b + total_announced leafs) /\
  (fix all (l : list node) : Prop := match l with [] => True | k :: l' => reproducible (list_eqb type [119; 97; 118; 101]) k /\ all l' end) leafs.
