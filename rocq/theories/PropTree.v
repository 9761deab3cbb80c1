(** Properties of headers, box trees and the file reader: C14-C21, C44, C48, C49.  Statements only (proofs in TreeLemmas.v, TreeRead.v,
    ReaderTotal.v; vocabulary in TreeSpec.v). *)
From Verif Require Import Base BitIO BitSpec Boxes WireFormat Box BoxSpec PrintSpec BoxTree TreeSpec BoxRead BoxSize BoxLemmas TreeRead ReaderTotal ReaderTiling TreeLemmas TreePrint ReaderPrint Rewrite Print.
From Coq Require Import Ascii String List.
Import ListNotations.
Open Scope Z_scope.
Open Scope list_scope.

(** C14.  The header made for a box with [n] octets of payload and children: its size is the whole box, it takes 16 octets
    exactly when the size does not fit 32 bits, it is written at its offset in that many octets, and read back there. *)
Theorem C14_header_roundtrip : forall type off n o, length type = 4%nat -> 0 <= n < 2 ^ 64 - 16 -> 0 <= off < 2 ^ 64 - 16 -> Zlen (os_data o) < 2 ^ 64 ->
  let h := header_setOffsetAndDataSize (header_new type) off n in
  h_type h = type /\ h_offset h = off /\ h_size h = n + h_header_size h /\
  (n + 8 < 2 ^ 32 -> h_header_size h = 8) /\ (2 ^ 32 <= n + 8 -> h_header_size h = 16) /\
  exists o', header_write h o = (h, o') /\ os_pos o' = off + h_header_size h /\
    os_data o' = splice (os_data o) off (frame_header type n) /\ Zlen (frame_header type n) = h_header_size h /\
    read_box_header (os_data o') off = Ok h.
Proof. exact header_write_read. Qed.
Print Assumptions C14_header_roundtrip.
(** Conversely any header found in a file (32-bit, 64-bit, or "to the end of the file") is written back at its place as the
    very octets it was read from: the file does not change. *)
Theorem C14_header_rewrite : forall data pos h p0, bytes data -> 0 <= pos -> Zlen data < 2 ^ 64 -> read_box_header data pos = Ok h ->
  header_write h (mkOS data p0) = (h, mkOS data (pos + h_header_size h)).
Proof. exact header_rewrite. Qed.
Print Assumptions C14_header_rewrite.
Example C14_satisfiable :
  h_header_size (header_setOffsetAndDataSize (header_new [109; 100; 97; 116]) 40 (2 ^ 32 - 9)) = 8 /\
  h_header_size (header_setOffsetAndDataSize (header_new [109; 100; 97; 116]) 40 (2 ^ 32 - 8)) = 16 /\
  read_box_header [7; 0; 0; 0; 1; 102; 114; 101; 101; 0; 0; 0; 0; 0; 0; 0; 17; 9] 1 = Ok (mk_header 1 17 16 [102; 114; 101; 101] false) /\
  read_box_header [0; 0; 0; 0; 102; 114; 101; 101; 9] 0 = Ok (mk_header 0 9 8 [102; 114; 101; 101] true).
Proof. repeat split. Qed.

(** C15.  read_box_header at any place of any stream: it raises invalid_argument exactly when the header is truncated;
    otherwise it returns the header that starts there, which lies inside the stream. *)
Theorem C15_malformed_headers : forall data pos, 0 <= pos <= Zlen data -> Zlen data < 2 ^ 64 -> bytes data ->
  let here := skipn (Z.to_nat pos) data in
  (header_truncated here /\ read_box_header data pos = Throw InvalidArgument) \/
  (~ header_truncated here /\ exists h, read_box_header data pos = Ok h /\ header_at here h /\ h_offset h = pos /\
     pos + h_header_size h <= Zlen data /\ 0 <= h_size h < 2 ^ 64).
Proof. exact header_outcome. Qed.
Print Assumptions C15_malformed_headers.
Example C15_satisfiable : read_box_header [0; 0; 0; 9; 102; 114; 101] 0 = Throw InvalidArgument /\
  read_box_header [0; 0; 0; 1; 102; 114; 101; 101; 0; 0; 0; 0; 0; 0; 0] 0 = Throw InvalidArgument.
Proof. split; reflexivity. Qed.

(** C16.  adjustOffsetAndSize on any tree of writable boxes that fits the 64-bit sizes: contents unchanged; every box's header
    then says its own offset, and header + payload + children as size; children follow each other right after the payload
    ([laid_out]); the size returned is the length of the serialised tree. *)
Theorem C16_layout : forall n off, all_boxes writable (tree_of n) -> types_ok (tree_of n) -> headers_ok n ->
  let size := Zlen (serialize_with written (tree_of n)) in
  0 <= off -> off + size < 2 ^ 64 ->
  exists n', BoxInfo_adjustOffsetAndSize n off = Ok (n', size) /\ tree_of n' = tree_of n /\ headers_ok n' /\ laid_out n' off /\ announced_size n' = size.
Proof. exact layout_ok. Qed.
Print Assumptions C16_layout.

(** C17.  Writing any laid-out tree replaces exactly the announced region by the serialisation of the tree (the wire format,
    if the members are representable), leaves everything else, and leaves the put position at the end of the region.  (Writing
    a box also prints it to the trace log, so its times must have a date: see C51.) *)
Theorem C17_write_region : forall n off o, all_boxes writable (tree_of n) -> all_boxes box_printable (tree_of n) -> types_ok (tree_of n) -> headers_ok n -> laid_out n off ->
  0 <= off -> off + announced_size n < 2 ^ 64 ->
  let region := serialize_with written (tree_of n) in
  Zlen region = announced_size n /\ (forall uw, tree_wf uw (tree_of n) -> region = serialize (tree_of n)) /\
  exists o', BoxInfo_write n o = Ok (n, o') /\ os_pos o' = off + announced_size n /\
    Zlen (os_data o') = Z.max (Zlen (os_data o)) (off + announced_size n) /\
    firstn (length region) (skipn (Z.to_nat off) (os_data o')) = region /\
    forall i, (i < length (os_data o))%nat -> Z.of_nat i < off \/ off + announced_size n <= Z.of_nat i ->
      nth_error (os_data o') i = nth_error (os_data o) i.
Proof. exact write_ok. Qed.
Print Assumptions C17_write_region.

(** A tree with nested boxes: it meets the hypotheses of C16 (and, once laid out, of C17) and of C18. *)
Definition sample_tree : tree :=
  T [109; 111; 111; 118] B_container
    [T [117; 100; 116; 97] B_container [T [120; 120; 120; 120] (B_unsupported [1; 2; 3]) []];
     T [115; 116; 116; 115] (B_stts (mk_stts fullbox0 [mk_stts_entry 3 1001])) []].
Fixpoint fresh (t : tree) : node := let 'T ty b l := t in new_info ty b (map fresh l).
Example C16_satisfiable : tree_of (fresh sample_tree) = sample_tree /\ all_boxes writable sample_tree /\ all_boxes box_printable sample_tree /\ types_ok sample_tree /\ headers_ok (fresh sample_tree) /\
  tree_wf false sample_tree /\
  match BoxInfo_adjustOffsetAndSize (fresh sample_tree) 100 with
  | Ok (n, s) => s = 51 /\ match n_leafs n with [a; b] => n_header b = Some (mk_header 127 24 8 [115; 116; 116; 115] false) | _ => False end
  | _ => False
  end.
Proof.
  split; [reflexivity|]. split; [cbn; unfold writable; cbn; tauto|]. split; [cbn; tauto|]. split; [cbn; tauto|]. split; [cbn; tauto|]. split.
  - cbn. repeat split; try discriminate; unfold bytes, fields_ok; cbn; repeat first [apply Forall_cons|apply Forall_nil|split]; unfold fits_u, is_byte; cbn; try lia.
  - vm_compute. split; reflexivity.
Qed.
Example C17_satisfiable :
  match BoxInfo_adjustOffsetAndSize (fresh sample_tree) 2 with
  | Ok (n, _) => BoxInfo_write n (mkOS [7; 7; 7; 7] 0) = Ok (n, mkOS ([7; 7] ++ serialize sample_tree) 53)
  | _ => False
  end.
Proof. vm_compute. reflexivity. Qed.

(** C18.  Reading the serialisation of any forest of well-formed boxes, from a file or a memory stream, yields the same forest,
    laid out from offset 0, tiling the file.  (read() prints what it has read: the times must have dates.) *)
Theorem C18_read_back : forall file ts, Forall (tree_wf false) ts -> Forall (all_boxes box_printable) ts -> Zlen (flat_map serialize ts) < 2 ^ 64 - 16 ->
  exists ns text, SimpleReader_read file (flat_map serialize ts) = Some (Ok (ns, text)) /\ print_boxes ns = Ok text /\ map tree_of ns = ts /\ laid_out_all ns 0 /\
             total_announced ns = Zlen (flat_map serialize ts) /\ Forall headers_ok ns.
Proof. exact read_back. Qed.
Print Assumptions C18_read_back.
Example C18_satisfiable : Forall (tree_wf false) [sample_tree; T [102; 114; 101; 101] (B_free [0; 0]) []] /\
  Forall (all_boxes box_printable) [sample_tree; T [102; 114; 101; 101] (B_free [0; 0]) []] /\
  Zlen (flat_map serialize [sample_tree; T [102; 114; 101; 101] (B_free [0; 0]) []]) = 61.
Proof.
  split; [|split; [repeat constructor|vm_compute; reflexivity]]. constructor; [exact (proj1 (proj2 (proj2 (proj2 (proj2 (proj2 C16_satisfiable))))))|]. constructor; [|constructor].
  cbn. repeat split; try discriminate; unfold bytes; repeat first [apply Forall_cons|apply Forall_nil]; unfold is_byte; lia.
Qed.

(** C19.  On every file the reader comes back (within length + 2 nested steps, more fuel changing nothing): with boxes all inside
    the file, or an exception.  Undefined behaviour is confined to files in which some place parses as an 'sgpd' reading an
    uninitialised member, or (std::ifstream only) as one of the three boxes whose reader over-reports, or as a movie, track or
    media header with a 64-bit time too large to have a date, which read() then fails to print (see Findings.v). *)
Theorem C19_reader_total : forall file data, bytes data -> Zlen data < 2 ^ 63 ->
  (match SimpleReader_read file data with
   | None => False
   | Some (Ok (ns, _)) => Forall (within (Zlen data)) ns
   | Some (Throw _) => True
   | Some UB => has_unversioned_alst data \/ (file = true /\ has_overreporting data) \/ has_undated_time data
   end) /\
  exists r, forall fuel, (length data + 2 <= fuel)%nat -> readLeafs fuel file data false (Zlen data) 0 0 = Some r.
Proof. exact reader_comes_back'. Qed.
Print Assumptions C19_reader_total.
Example C19_satisfiable : SimpleReader_read true [0; 0; 0; 8; 109; 111; 111; 118; 0; 0; 0] = Some (Throw InvalidArgument) /\
  SimpleReader_read true [0; 0; 0; 8; 109; 111; 111; 118; 0; 0; 0; 0; 120; 120; 120; 120; 5] =
    Some (Ok ([Node [109; 111; 111; 118] (Some (mk_header 0 8 8 [109; 111; 111; 118] false)) B_container [];
               Node [120; 120; 120; 120] (Some (mk_header 8 9 8 [120; 120; 120; 120] true)) (B_unsupported [5]) []],
      lit "[moov] Offset=0 Size=8" ++ [10] ++ lit "[xxxx] Offset=8 Size=9 (unsupported) Data=[0x5]" ++ [10])).
Proof. split; vm_compute; reflexivity. Qed.

(** C20.  A box whose announced size is smaller than its header or goes beyond the end of the file is refused with runtime_error:
    after any well-formed boxes, and wherever the reader meets it. *)
Theorem C20_oversized : forall file ts rest h, Forall (tree_wf false) ts -> bytes rest -> Zlen (flat_map serialize ts ++ rest) < 2 ^ 63 ->
  let data := flat_map serialize ts ++ rest in
  read_box_header data (Zlen (flat_map serialize ts)) = Ok h ->
  h_size h < h_header_size h \/ Zlen data < Zlen (flat_map serialize ts) + h_size h ->
  SimpleReader_read file data = Some (Throw RuntimeError).
Proof. intros file ts rest h A B C data D E. unfold SimpleReader_read. unfold data. rewrite (oversized_rejected file ts rest h A B C D E). reflexivity. Qed.
Print Assumptions C20_oversized.
Theorem C20_oversized_anywhere : forall fuel file data uw pos h, bytes data -> Zlen data < 2 ^ 63 -> 0 <= pos <= Zlen data ->
  read_box_header data pos = Ok h -> h_size h < h_header_size h \/ Zlen data < pos + h_size h ->
  readBox (S fuel) file data uw pos = Some (Throw RuntimeError).
Proof. exact readBox_rejects. Qed.
Print Assumptions C20_oversized_anywhere.
Example C20_satisfiable : read_box_header (flat_map serialize [sample_tree] ++ [0; 0; 0; 10; 102; 114; 101; 101; 1]) 51 = Ok (mk_header 51 10 8 [102; 114; 101; 101] false) /\
  Zlen (flat_map serialize [sample_tree]) = 51.
Proof. split; vm_compute; reflexivity. Qed.

(** C44.  Whatever the file, each box the reader reports is the one the file contains: header found at its offset, inside the
    file, members parsed from its payload; and there are at most length/8 boxes. *)
Theorem C44_reader_faithful : forall file data ns text, bytes data -> Zlen data < 2 ^ 63 -> SimpleReader_read file data = Some (Ok (ns, text)) ->
  Forall (from_file data false) ns /\ 8 * fold_right (fun n s => boxes n + s) 0 ns <= Zlen data.
Proof. intros file data ns text A B E. exact (SimpleReader_reports file data ns A B (proj1 (read_inv _ _ _ _ E))). Qed.
Print Assumptions C44_reader_faithful.

(** C21.  Every box of unregistered type found anywhere in any file is kept as its payload octets, without children, and
    writing it at its offset reproduces the file (whichever of the three header forms it had). *)
Theorem C21_unknown_preserved : forall file data ns text n p0, bytes data -> Zlen data < 2 ^ 63 -> SimpleReader_read file data = Some (Ok (ns, text)) ->
  (exists m, In m ns /\ occurs n m) -> BoxMap_isSupported BoxMap_registered (n_type n) = false ->
  exists h, n = Node (n_type n) (Some h) (B_unsupported (payload_at data h)) [] /\
    read_box_header data (h_offset h) = Ok h /\ Zlen (payload_at data h) = h_size h - h_header_size h /\
    BoxInfo_write n (mkOS data p0) = Ok (n, mkOS data (h_offset h + h_size h)).
Proof. intros file data ns text n p0 A B E. exact (unknown_preserved file data ns n p0 A B (proj1 (read_inv _ _ _ _ E))). Qed.
Print Assumptions C21_unknown_preserved.
Example C21_satisfiable : exists ns text n, SimpleReader_read true (serialize sample_tree) = Some (Ok (ns, text)) /\ (exists m, In m ns /\ occurs n m) /\
  n_type n = [120; 120; 120; 120] /\ n_box n = B_unsupported [1; 2; 3] /\ BoxMap_isSupported BoxMap_registered (n_type n) = false.
Proof.
  eexists. eexists. exists (Node [120; 120; 120; 120] (Some (mk_header 16 11 8 [120; 120; 120; 120] false)) (B_unsupported [1; 2; 3]) []).
  split; [vm_compute; reflexivity|]. split; [|split; [reflexivity|split; reflexivity]].
  eexists. split; [left; reflexivity|]. eapply occurs_below; [left; reflexivity|]. eapply occurs_below; [left; reflexivity|]. constructor.
Qed.

(** C48.  A file that is read successfully is tiled exactly by the boxes reported: the top-level boxes follow each other from
    the first octet to the last, and in every box header, payload and children follow each other and fill its announced size,
    so no octet is skipped, shared by two boxes or left over.  (With the file-stream reader, the files containing a box whose
    reported read size is known to be wrong are excluded: see C06/C19.) *)
Theorem C48_exact_tiling : forall file data ns text, bytes data -> Zlen data < 2 ^ 63 ->
  (file = true -> ~ has_overreporting data /\ ~ has_unversioned_alst data) ->
  SimpleReader_read file data = Some (Ok (ns, text)) -> tiled_all data false ns 0 /\ total_announced ns = Zlen data.
Proof. intros file data ns text A B C E. exact (SimpleReader_tiles file data ns A B C (proj1 (read_inv _ _ _ _ E))). Qed.
Print Assumptions C48_exact_tiling.
(** A child box reaching beyond its parent is refused; the same octets with the parent's size corrected are accepted. *)
Example C48_satisfiable :
  SimpleReader_read true [0; 0; 0; 16; 109; 111; 111; 118; 0; 0; 0; 12; 102; 114; 101; 101; 1; 2; 3; 4] = Some (Throw InvalidArgument) /\
  exists ns text, SimpleReader_read true [0; 0; 0; 20; 109; 111; 111; 118; 0; 0; 0; 12; 102; 114; 101; 101; 1; 2; 3; 4] = Some (Ok (ns, text)) /\
    total_announced ns = 20 /\ fold_right (fun n s => boxes n + s) 0 ns = 2.
Proof. split; [vm_compute; reflexivity|]. do 2 eexists. split; [vm_compute; reflexivity|]. split; vm_compute; reflexivity. Qed.

(** C49 (files).  Reading a file and writing the boxes found, unmodified, to an empty stream reproduces the file octet by octet,
    provided every box is of a class that keeps what it reads ([reproducible], TreeSpec.v). *)
Theorem C49_file_written_back : forall file data ns text, bytes data -> Zlen data < 2 ^ 63 ->
  (file = true -> ~ has_overreporting data /\ ~ has_unversioned_alst data) ->
  SimpleReader_read file data = Some (Ok (ns, text)) -> Forall (reproducible false) ns ->
  exists p, BoxInfo_write_all ns (mkOS [] 0) = Ok (ns, mkOS data p).
Proof. exact file_written_back. Qed.
Print Assumptions C49_file_written_back.
(** Two nested boxes, a 64-bit header, and a box that extends to the end of the file. *)
Definition odd_file : list Z := [0; 0; 0; 20; 109; 111; 111; 118; 0; 0; 0; 12; 102; 114; 101; 101; 1; 2; 3; 4;
  0; 0; 0; 1; 102; 114; 101; 101; 0; 0; 0; 0; 0; 0; 0; 17; 9; 0; 0; 0; 0; 109; 100; 97; 116; 7; 7; 7].
Example C49_file_satisfiable : exists ns text, SimpleReader_read false odd_file = Some (Ok (ns, text)) /\ length ns = 3%nat /\ Forall (reproducible false) ns.
Proof.
  do 2 eexists. split; [vm_compute; reflexivity|]. split; [reflexivity|].
  repeat first [apply Forall_cons|apply Forall_nil]; cbn [reproducible]; repeat split; try discriminate;
  eexists; (split; [reflexivity|]); vm_compute; reflexivity.
Qed.
