(** Properties of box payloads: C09-C13, C22, C37, C39, C42, C43, C49.  Statements only (proofs in BoxLemmas.v,
    RegistryProofs.v; vocabulary in WireFormat.v, BoxSpec.v, DescriptorSpec.v, RegistrySpec.v, TreeSpec.v). *)
From Verif Require Import Base BitIO BitSpec Boxes WireFormat DescriptorSpec Box BoxSpec RegistrySpec BoxTree TreeSpec BoxRead BoxLemmas BoxExact RegistryProofs.

(** C09, C11.  For every class of box: a box with representable members is written as the octets the wire format
    prescribes (reported count = 8 x octets, nothing pending), and a fresh object of the class given those octets followed
    by the octets of child boxes recovers exactly the members, reports exactly the bits of the payload and stops right
    before the children. *)
Theorem C09_payload_roundtrip : forall b children type under_wave, bytes children -> box_wf (Zlen children) b ->
  (forall a, b = B_audio a -> ase_type a = type /\ under_wave = false) ->
  exists w, Box_writeData b writer_init = Ok (w, 8 * Zlen (w_os w)) /\ w_width w = 0 /\ w_os w = wire_payload b /\
  exists r, Box_readData (box_kind b) type under_wave (reader_init (w_os w ++ children)) = Ok (r, 8 * Zlen (w_os w), b) /\
            rbits r = bits_of children.
Proof. exact payload_roundtrip. Qed.
Print Assumptions C09_payload_roundtrip.
(** A stts with two entries, a trun with optional fields, a meta with eleven octets of children. *)
Example C09_satisfiable :
  box_wf 0 (B_stts (mk_stts fullbox0 [mk_stts_entry 3 1001; mk_stts_entry 1 (2 ^ 32 - 1)])) /\
  box_wf 0 (B_trun (mk_trun (mk_fullbox 1 0 11 1) (-5) 0 [mk_trun_entry 40 77 0 (-3)])) /\
  box_wf 11 (B_meta fullbox0) /\
  wire_payload (B_stts (mk_stts fullbox0 [mk_stts_entry 3 1001])) = [0; 0; 0; 0; 0; 0; 0; 1; 0; 0; 0; 3; 0; 0; 3; 233].
Proof.
  split; [|split; [|split]].
  - repeat constructor; cbn; unfold fits_u; lia.
  - repeat (split || constructor); cbn; unfold fits_u, fits_s; try lia; intros; try discriminate; lia.
  - reflexivity.
  - vm_compute. reflexivity.
Qed.

(** C10.  Whatever the members (array members having their declared length), writeData either refuses or emits exactly
    getDataSize() octets and reports 8 x getDataSize() bits. *)
Theorem C10_announced_size : forall b, box_typed b ->
  if box_refused b then Box_writeData b writer_init = Throw RuntimeError
  else exists w, Box_writeData b writer_init = Ok (w, 8 * Box_getDataSize b) /\ w_width w = 0 /\ Zlen (w_os w) = Box_getDataSize b.
Proof. exact payload_size. Qed.
Print Assumptions C10_announced_size.
(** Members out of range for their fields, and both outcomes. *)
Example C10_satisfiable :
  let b := B_ctts (mk_ctts (mk_fullbox 7 1 2 3) [mk_ctts_entry (-1) (2 ^ 40)]) in
  box_typed b /\ box_refused b = false /\ Box_getDataSize b = 16 /\
  box_refused (B_avcC (mk_avcc 1 66 0 30 63 3 7 [] [] true 63 1 31 0 31 0 [])) = true.
Proof. cbv zeta. repeat split. Qed.

(** C12.  The domain of C09 is exact: a box written by writeData comes back unchanged, with the same count of bits, from a fresh
    object of its class if and only if its members satisfy [box_wf]; every value outside of it is refused, truncated or read back
    as something else. *)
Theorem C12_roundtrip_domain_exact : forall b type, box_typed b -> memory_sized b -> (forall a, b = B_audio a -> ase_type a = type) ->
  (box_wf 0 b <->
   exists w r n, Box_writeData b writer_init = Ok (w, n) /\ Box_readData (box_kind b) type false (reader_init (w_os w)) = Ok (r, n, b)).
Proof. exact roundtrip_domain. Qed.
Print Assumptions C12_roundtrip_domain_exact.
(** Both sides occur: the largest signed 32-bit offset, and the next value. *)
Example C12_satisfiable :
  let b v := B_ctts (mk_ctts fullbox0 [mk_ctts_entry 1 v]) in
  (forall v, box_typed (b v) /\ memory_sized (b v)) /\ box_wf 0 (b (2 ^ 31 - 1)) /\ ~ box_wf 0 (b (2 ^ 31)).
Proof.
  cbv zeta. split; [split; exact I|]. split.
  - unfold box_wf, ctts_wf, fields_ok. cbn [ctts_layout ctts_fb ctts_entries fb_layout fullbox0 fb_version fb_f0 fb_f1 fb_f2 app flat_map ctts_entry_layout cttse_sample_count cttse_sample_offset].
    repeat apply Forall_cons; try apply Forall_nil; cbn [field_ok]; unfold fits_u, fits_s; change (Zlen [mk_ctts_entry 1 (2 ^ 31 - 1)]) with 1; lia.
  - intros H. assert (X : field_ok (FI 32 (2 ^ 31))).
    { apply (proj1 (Forall_forall _ _) H). unfold ctts_layout, fb_layout. do 6 right. left. reflexivity. }
    destruct X as [_ X]. change (Z.of_nat 32) with 32 in X. lia.
Qed.

(** C49 (payloads).  Whatever octets readData accepted as the payload of a box, writeData of the resulting object emits those same
    octets, provided the class keeps everything it reads and the count reported is the size the object announces. *)
Theorem C49_payload_written_back : forall k type data r n b, bytes data -> Box_readData k type false (reader_init data) = Ok (r, n, b) ->
  lossless b -> n / 8 = Box_getDataSize b ->
  exists w rest, Box_writeData b writer_init = Ok (w, 8 * Zlen (w_os w)) /\ data = w_os w ++ rest /\ rbits r = bits_of rest /\ Zlen (w_os w) = Box_getDataSize b.
Proof. exact read_then_write. Qed.
Print Assumptions C49_payload_written_back.
Example C49_payload_satisfiable :
  let data := [0; 0; 0; 0; 0; 0; 0; 1; 0; 0; 0; 3; 0; 0; 3; 233; 9; 9] in
  exists r b, Box_readData K_stts [115; 116; 116; 115] false (reader_init data) = Ok (r, 128, b) /\ lossless b /\ 128 / 8 = Box_getDataSize b.
Proof. cbv zeta. do 2 eexists. split; [vm_compute; reflexivity|]. split; [exact I|reflexivity]. Qed.

(** C42.  Parsing any octets as the payload of any class returns or raises, consumes a prefix of the payload and reports
    at least what it consumed (exactly that except for iods, esds and avcC).  The only exclusion is 'sgpd' with an 'alst'
    group in a version other than 1, where the C++ code reads an uninitialised member (see Findings.v). *)
Theorem C42_parse_any_payload : forall k type under_wave data, bytes data -> (k = K_sgpd -> ~ sgpd_reads_uninitialised data) ->
  (exists e, Box_readData k type under_wave (reader_init data) = Throw e) \/
  (exists r n b consumed, Box_readData k type under_wave (reader_init data) = Ok (r, n, b) /\
     bits_of data = consumed ++ rbits r /\ Zlen consumed <= n /\ (overreports k = false -> Zlen consumed = n)).
Proof. exact payload_safe. Qed.
Print Assumptions C42_parse_any_payload.
(** a stsc announcing two entries and holding a part of one raises; an sgpd of version 1 with 'alst' meets the hypothesis *)
Example C42_satisfiable : Box_readData K_stsc [] false (reader_init [0; 0; 0; 0; 0; 0; 0; 2; 0; 0; 0; 1]) = Throw RuntimeError /\
  ~ sgpd_reads_uninitialised [1; 0; 0; 0; 97; 108; 115; 116; 0; 0; 0; 0; 0; 0; 0; 0].
Proof. split; [vm_compute; reflexivity|]. intros [_ H]. apply H. reflexivity. Qed.

(** C13.  Flags of a full box. *)
Theorem C13_full_box_flags : forall b f, fb_typed b -> 0 <= f < 2 ^ 32 ->
  (getFlags (setFlags f b) = f mod 2 ^ 24 /\ 0 <= getFlags b < 2 ^ 24) /\
  (checkFlag b f = true <-> exists k, Z.testbit (getFlags b) k = true /\ Z.testbit f k = true) /\
  (forall k, 0 <= k < 24 -> Z.testbit (getFlags (addFlag f b)) k = Z.testbit (getFlags b) k || Z.testbit f k) /\
  (forall k, 0 <= k < 24 -> Z.testbit (getFlags (removeFlag f b)) k = xorb (Z.testbit (getFlags b) k) (Z.testbit f k)) /\
  (forall g, In g [setFlags f; addFlag f; removeFlag f] -> fb_typed (g b) /\ fb_version (g b) = fb_version b) /\
  (forall v, is_byte v -> fb_typed (setVersion v b) /\ fb_version (setVersion v b) = v /\ getFlags (setVersion v b) = getFlags b).
Proof. exact full_box_flags. Qed.
Print Assumptions C13_full_box_flags.
(** removeFlag removes exactly the bits given if and only if every one of them is set (it toggles: see Findings.v). *)
Theorem C13_remove_flag : forall b f, fb_typed b ->
  (forall k, 0 <= k < 24 -> Z.testbit f k = true -> Z.testbit (getFlags b) k = true) <->
  (forall k, 0 <= k < 24 -> Z.testbit (getFlags (removeFlag f b)) k = Z.testbit (getFlags b) k && negb (Z.testbit f k)).
Proof. exact remove_flag_set. Qed.
Print Assumptions C13_remove_flag.
Example C13_satisfiable : fb_typed (mk_fullbox 1 2 255 6) /\ getFlags (mk_fullbox 1 2 255 6) = 196358 /\
  getFlags (addFlag 1 (mk_fullbox 1 2 255 6)) = 196359 /\ getFlags (removeFlag 4 (mk_fullbox 1 2 255 6)) = 196354.
Proof. repeat split; cbn; unfold is_byte; lia. Qed.

(** C22.  Box types, matching, and the registry. *)
Theorem C22_box_type_of_string : forall s,
  (length s = 4%nat -> BoxType_of_string s = Ok s) /\ (length s <> 4%nat -> BoxType_of_string s = Throw InvalidArgument).
Proof. exact box_type_string. Qed.
Print Assumptions C22_box_type_of_string.
Theorem C22_match : forall a b, BoxType_matchWith a b = true <-> a = b \/ a = [0; 0; 0; 0] \/ b = [0; 0; 0; 0].
Proof. exact match_with. Qed.
Print Assumptions C22_match.
Theorem C22_registry : forall t,
  (forall k accepts, documented t k accepts ->
     BoxMap_getBoxInstance BoxMap_registered t = k /\ BoxMap_isSupported BoxMap_registered t = true /\
     (exists vs, BoxMap_getSupportedVersions BoxMap_registered t = Ok vs /\ forall v, accepts v <-> vs = [] \/ In v vs) /\
     forall v, BoxMap_isSupportedVersion BoxMap_registered t v = true <-> accepts v) /\
  ((forall k accepts, ~ documented t k accepts) ->
     BoxMap_getBoxInstance BoxMap_registered t = K_unsupported /\ BoxMap_isSupported BoxMap_registered t = false /\
     BoxMap_getSupportedVersions BoxMap_registered t = Throw RuntimeError /\
     forall v, BoxMap_isSupportedVersion BoxMap_registered t v = false).
Proof. exact registry_lookup. Qed.
Print Assumptions C22_registry.
Example C22_satisfiable : documented [118; 112; 99; 67] K_vpcC (fun v => v = 0 \/ v = 1) /\ (forall k a, ~ documented [120; 120; 120; 120] k a).
Proof.
  split; [exists [0; 1]; split; [cbv; tauto|intros v; cbn [In]; intuition (congruence || lia)]|].
  intros k a (vs & H & _). cbv in H. repeat (destruct H as [H|H]; [discriminate|]). exact H.
Qed.

(** C37.  Packed language codes. *)
Theorem C37_language : (forall l, language_code l -> 0 <= encode_language l < 2 ^ 15 /\ decode_language (encode_language l) = l) /\
  (forall e, 0 <= e < 2 ^ 15 -> language_code (decode_language e) /\ encode_language (decode_language e) = e).
Proof. exact language_ok. Qed.
Print Assumptions C37_language.
Example C37_satisfiable : language_code [117; 110; 100] /\ encode_language [117; 110; 100] = 21956.
Proof. split; [split; [reflexivity|repeat constructor; lia]|reflexivity]. Qed.

(** C39.  An esds holding a descriptor tree in pre-order is written as the nested encoding in which every length counts
    the whole body, and parsing it yields every descriptor with its members and the size nested in it. *)
Theorem C39_descriptor_nesting : forall fb d, plain d -> esds_writable (mk_esds fb (flatten d)) ->
  exists w, Box_writeData (B_esds (mk_esds fb (flatten d))) writer_init = Ok (w, 8 * Zlen (w_os w)) /\
    bits_of (w_os w) = enc (fb_layout fb) ++ nested_bits d /\
  exists r, Box_readData K_esds [101; 115; 100; 115] false (reader_init (w_os w)) =
            Ok (r, 8 * Zlen (w_os w), B_esds (mk_esds fb (map as_read (flatten d)))) /\ rbits r = [].
Proof. exact esds_nested. Qed.
Print Assumptions C39_descriptor_nesting.
(** The descriptors of an AAC track. *)
Example C39_satisfiable :
  let d := DES (mk_es_fields 2 false false false 0 0 [] 0) 0 [DCD (mk_dcd_fields 64 5 false true 0 0 0) 0 [DSI [17; 144]]; DSL [2]] in
  plain d /\ esds_writable (mk_esds fullbox0 (flatten d)) /\ flatten d = [d; DCD (mk_dcd_fields 64 5 false true 0 0 0) 0 [DSI [17; 144]]; DSI [17; 144]; DSL [2]] /\
  Zlen (nested_bits d) = 8 * 39.
Proof.
  cbv zeta. split; [cbn; tauto|]. split; [|split; reflexivity]. split; [repeat constructor; cbn; unfold fits_u, fits_s, is_byte; lia|].
  repeat constructor; cbn; intros; discriminate || reflexivity || tauto.
Qed.

(** C43.  Different box types print differently. *)
Theorem C43_to_string_injective : forall a b, bytes a -> bytes b -> length a = 4%nat -> length b = 4%nat -> BoxType_toString a = BoxType_toString b -> a = b.
Proof. exact to_string_injective. Qed.
Print Assumptions C43_to_string_injective.
(** What is printed: the characters themselves if all can be shown, otherwise a hexadecimal number of eight digits. *)
Theorem C43_to_string_text : forall t, bytes t -> length t = 4%nat ->
  (Forall shown t -> BoxType_toString t = flat_map utf8 t) /\
  (~ Forall shown t -> exists digits, BoxType_toString t = hex_prefix ++ digits /\ length digits = 8%nat /\
     hexadecimal (fold_left (fun a c => 256 * a + c) t 0) digits).
Proof. exact to_string_text. Qed.
Print Assumptions C43_to_string_text.
Example C43_satisfiable : BoxType_toString [169; 65; 82; 84] = [194; 169; 65; 82; 84] /\ BoxType_toString [0; 1; 171; 255] = [48; 120; 48; 48; 48; 49; 97; 98; 102; 102].
Proof. split; reflexivity. Qed.
