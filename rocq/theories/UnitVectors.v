(** The other unit tests of the project (test/box_type.cpp, test/box_header.cpp, test/box_info.cpp, test/bitio, test/endian,
    test/time, test/track), run on the model, case by case.  Like Conformance.v this validates the transcription of the code;
    these are tests of the model and settle no property by themselves.  (test/version.cpp only compares the version string.) *)
From Verif Require Import Base BitIO Boxes Box TimeSpec Time Print BoxTree H264 Track.
From Coq Require Import Ascii String List.
Import ListNotations.
Open Scope Z_scope.
Open Scope list_scope.

(** test/box_type.cpp:10-18 *)
Example box_type_to_string :
  BoxType_toString (lit "1234") = lit "1234" /\ BoxType_toString (lit "abcd") = lit "abcd" /\ BoxType_toString (lit "xx x") = lit "xx x" /\
  BoxType_toString (lit "xx-x") = lit "xx-x" /\ BoxType_toString [120; 120; 169; 120] = [120; 120; 194; 169; 120] /\
  BoxType_toString [120; 120; 171; 120] = lit "0x7878ab78".
Proof. repeat split; vm_compute; reflexivity. Qed.

(** test/box_header.cpp:24-79 *)
Example box_header_constructor :
  read_box_header ([0; 1; 35; 69] ++ lit "test") 0 = Ok (mk_header 0 74565 8 (lit "test") false) /\
  read_box_header ([0; 0; 0; 1; 35; 69] ++ lit "test") 2 = Ok (mk_header 2 74565 8 (lit "test") false) /\
  read_box_header ([0; 0; 0; 1] ++ lit "test" ++ [1; 35; 69; 103; 137; 171; 205; 239]) 0 = Ok (mk_header 0 81985529216486895 16 (lit "test") false) /\
  read_box_header ([0; 0; 0; 0] ++ lit "test" ++ repeat 0 12) 0 = Ok (mk_header 0 20 8 (lit "test") true) /\
  read_box_header ([0; 1; 35; 69] ++ lit "tes") 0 = Throw InvalidArgument.
Proof. repeat split; vm_compute; reflexivity. Qed.
(** test/box_header.cpp:89-140 (the stream stands after the octets already in it) *)
Example box_header_write :
  header_write (mk_header 0 74565 8 (lit "test") false) (mkOS [] 0) = (mk_header 0 74565 8 (lit "test") false, mkOS ([0; 1; 35; 69] ++ lit "test") 8) /\
  header_write (mk_header 0 20015998343868 8 (lit "test") false) (mkOS [] 0) =
    (mk_header 0 (20015998343868 + 8) 16 (lit "test") false, mkOS ([0; 0; 0; 1] ++ lit "test" ++ [0; 0; 18; 52; 86; 120; 154; 188]) 16) /\
  header_write (mk_header 0 291 8 (lit "test") true) (mkOS [] 0) = (mk_header 0 291 8 (lit "test") true, mkOS ([0; 0; 0; 0] ++ lit "test") 8) /\
  header_write (mk_header 3 74565 8 (lit "test") false) (mkOS [0; 0; 0] 3) =
    (mk_header 3 74565 8 (lit "test") false, mkOS ([0; 0; 0; 0; 1; 35; 69] ++ lit "test") 11).
Proof. repeat split; vm_compute; reflexivity. Qed.

(** test/box_info.cpp:8-21 *)
Example box_info_tree :
  match BoxInfo_adjustOffsetAndSize (new_info (lit "moov") B_container [new_info (lit "mvhd") (B_mvhd (mk_mvhd fullbox0 0 0 1000 15000 65536 256 0 0 0 [65536; 0; 0; 0; 65536; 0; 0; 0; 1073741824] (repeat 0 6) 2)) []]) 100 with
  | Ok (moov, _) => BoxInfo_toString 0 moov
  | Throw e => Throw e
  | UB => UB
  end = Ok (lit "[moov] Offset=100 Size=116" ++ [10] ++ lit "  [mvhd] Offset=108 Size=108 Version=0 Flags=0x000000 CreationTime=" ++ [34] ++ lit "1904-01-01T00:00:00Z" ++ [34] ++
    lit " ModificationTime=" ++ [34] ++ lit "1904-01-01T00:00:00Z" ++ [34] ++
    lit " Timescale=1000 Duration=15000 Rate=1.0000 Volume=256 Matrix=[0x10000, 0x0, 0x0, 0x0, 0x10000, 0x0, 0x0, 0x0, 0x40000000] PreDefined=[0, 0, 0, 0, 0, 0] NextTrackID=2").
Proof. vm_compute. reflexivity. Qed.

(** test/bitio/bitio.cpp:20-61 *)
Example unmarshal_pascal_string :
  let strings := map (fun bin => match read_pascal_string (8 * Zlen bin) (reader_init bin) with Ok (_, _, s) => Some s | _ => None end)
    [lit "shiguredo" ++ [0]; []; [0]; 9 :: lit "shiguredo"; lit " a 1st byte equals to this length"] in
  strings = [Some (lit "shiguredo"); Some []; Some []; Some (lit "shiguredo"); Some (lit "a 1st byte equals to this length")].
Proof. vm_compute. reflexivity. Qed.

Notation "'bind!' x ':=' e 'in' k" := (obind e (fun x => k)) (at level 200, x pattern, right associativity).
(** test/bitio/reader.cpp:17-61 *)
Example reader_basic :
  (bind! (r, d1) := readBits 7 (reader_init [181; 99; 213; 164; 111; 180; 241; 215]) in
   bind! (r, d2) := readBits 17 r in
   bind! (r, d3) := Reader_read 2 r in
   bind! (r, d4) := readBits 17 r in
   bind! (r, b1) := readBit r in
   bind! (r, b2) := readBit r in
   bind! (_, d5) := readBits 5 r in
   Ok (d1, d2, d3, d4, b1, b2, d5)) = Ok ([90], [1; 99; 213], [164; 111], [1; 105; 227], true, false, [23]).
Proof. vm_compute. reflexivity. Qed.
(** test/bitio/reader.cpp:72-99 (octet and width set beforehand) *)
Example reader_read_bits :
  let read octet width input size := match readBits size (mkReader input 0 octet width) with Ok (_, d) => Ok d | Throw e => Throw e | UB => UB end in
  read 0 0 [108; 165] 10 = Ok [1; 178] /\ read 108 3 [165] 10 = Ok [2; 82] /\ read 0 0 [108; 165] 16 = Ok [108; 165] /\ read 0 0 [108; 165] 17 = Throw RuntimeError.
Proof. repeat split; vm_compute; reflexivity. Qed.
(** test/bitio/reader.cpp:101-118: the bit returned and the octet it was taken from *)
Example reader_read_bit :
  (fix go n r := match n with O => [] | S n => match readBit r with Ok (r', b) => (b, r_octet r') :: go n r' | _ => [] end end) 16%nat (reader_init [108; 165]) =
  map (fun b => (b, 108)) [false; true; true; false; true; true; false; false] ++ map (fun b => (b, 165)) [true; false; true; false; false; true; false; true].
Proof. vm_compute. reflexivity. Qed.
(** test/bitio/reader.cpp:120-151 *)
Example reader_read_invalid_argument :
  (bind! (r, _) := Reader_read 2 (reader_init [108; 130; 65; 53; 113; 164; 205; 159]) in bind! (r, _) := readBits 3 r in Ok (Reader_read 2 r)) = Ok (Throw InvalidArgument).
Proof. vm_compute. reflexivity. Qed.
Example reader_seek_invalid_argument :
  (bind! (r, _) := Reader_seek true 2 (reader_init [108; 130; 65; 53; 113; 164; 205; 159]) in
   bind! (r, _) := readBits 3 r in
   bind! (r0, _) := Reader_seek false 0 r in
   bind! (_, d) := readBits 3 r0 in Ok (Reader_seek true 2 r, d)) = Ok (Throw InvalidArgument, [3]).
Proof. vm_compute. reflexivity. Qed.
(** test/bitio/writer.cpp:13-50 *)
Example writer_basic :
  let w := writeBits [7; 99; 213] 17 (writeBits [218] 7 writer_init) in
  (bind! (w, n) := Writer_write [164; 111] w in
   Ok (n, w_os (writeBits [247] 5 (writeBit false (writeBit true (writeBits [7; 105; 227] 17 w)))))) = Ok (2, [181; 99; 213; 164; 111; 180; 241; 215]).
Proof. vm_compute. reflexivity. Qed.

(** test/endian/endian.cpp:16-59 *)
Example endian_uint32 : Forall (fun c : Z * list Z => uint32_to_be (fst c) = snd c /\ match snd c with [a; b; c'; d] => be_to_uint32 a b c' d = fst c | _ => False end)
  [(0, [0; 0; 0; 0]); (305419896, [18; 52; 86; 120]); (1193046, [0; 18; 52; 86]); (4294967295, [255; 255; 255; 255])].
Proof. repeat constructor. Qed.
Example endian_uint64 : Forall (fun c : Z * list Z => uint64_to_be (fst c) = snd c /\ match snd c with [a; b; c'; d; e; f; g; h] => be_to_uint64 a b c' d e f g h = fst c | _ => False end)
  [(0, repeat 0 8); (1311768467463790320, [18; 52; 86; 120; 154; 188; 222; 240]); (81985529216486895, [1; 35; 69; 103; 137; 171; 205; 239]);
   (5124095576030430, [0; 18; 52; 86; 120; 154; 188; 222]); (18446744073709551615, repeat 255 8)].
Proof. repeat constructor. Qed.

(** test/time/time.cpp:16-46 *)
Example time_epoch : Forall (fun c : Z * Z * list Z => let '(t, m, s) := c in convert_to_epoch_19040101 t = m /\ format_epoch_19040101 m = Ok s)
  [(0, 2082844800, lit "1970-01-01T00:00:00Z"); (2147483647, 4230328447, lit "2038-01-19T03:14:07Z");
   (4294967295, 6377812095, lit "2106-02-07T06:28:15Z"); (4294967296, 6377812096, lit "0000-00-00T00:00:00Z")].
Proof. repeat constructor; vm_compute; reflexivity. Qed.

(** test/track/track.cpp:20-52 *)
Example track_make_stts_entries :
  make_stts_entries [10; 10; 10] = [mk_stts_entry 3 10] /\ make_stts_entries [10; 5; 10] = [mk_stts_entry 1 10; mk_stts_entry 1 5; mk_stts_entry 1 10] /\
  make_stts_entries [10; 10; 5] = [mk_stts_entry 2 10; mk_stts_entry 1 5] /\ make_stts_entries [] = [].
Proof. repeat split. Qed.
(** test/track/track.cpp:59-99 (the third member of an entry has its default, 1: stsc.hpp) *)
Example track_make_stsc_entries : let chunks := map (fun n => mk_chunk 0 n false) in
  make_stsc_entries (chunks [10; 10]) = [mk_stsc_entry 1 10 1] /\
  make_stsc_entries (chunks [10; 5; 10]) = [mk_stsc_entry 1 10 1; mk_stsc_entry 2 5 1; mk_stsc_entry 3 10 1] /\
  make_stsc_entries (chunks [10; 10; 5]) = [mk_stsc_entry 1 10 1; mk_stsc_entry 3 5 1] /\ make_stsc_entries (chunks []) = [].
Proof. repeat split. Qed.
(** test/track/track.cpp:107-163 *)
Example track_make_offset_box : let made l := n_box (make_offset_box (map (fun o => mk_chunk o 0 false) l)) in
  made [] = B_stco (mk_stco fullbox0 []) /\ made [10; 15; 20] = B_stco (mk_stco fullbox0 [10; 15; 20]) /\
  made [10; 15; 4294967295] = B_stco (mk_stco fullbox0 [10; 15; 4294967295]) /\ made [10; 15; 4294967296] = B_co64 (mk_co64 fullbox0 [10; 15; 4294967296]).
Proof. repeat split; vm_compute; reflexivity. Qed.

(** test/track/h264.cpp:17-53 *)
Example h264_find_next_nal_unit_normal :
  find_next_nal_unit [0; 0; 0; 1; 67; 1; 2] 0 = Some (Ok (mk_nal 4 0 7 67)) /\
  find_next_nal_unit [0; 0; 0; 1; 68; 1; 2; 3] 0 = Some (Ok (mk_nal 4 0 8 68)) /\
  find_next_nal_unit [0; 0; 0; 1; 68; 1; 2; 3; 4; 0; 0; 1; 65; 1; 2; 3] 0 = Some (Ok (mk_nal 4 0 9 68)) /\
  find_next_nal_unit [0; 0; 0; 1; 68; 1; 2; 3; 4; 0; 0; 1; 65; 1; 2; 3] 9 = Some (Ok (mk_nal 3 9 16 65)) /\
  find_next_nal_unit [0; 0; 1; 61; 1; 2; 3] 0 = Some (Ok (mk_nal 3 0 7 61)).
Proof. repeat split. Qed.
(** test/track/h264.cpp:60-95 *)
Example h264_find_next_nal_unit_runtime_error :
  let fails data start := find_next_nal_unit data start = Some (Throw RuntimeError) in
  let short := [0; 0; 0; 1; 68; 1; 2; 3] in
  let long := [0; 0; 0; 1; 68; 1; 2; 3; 4; 0; 0; 1; 65; 1; 2; 3] in
  fails short 2 /\ fails short 3 /\ fails short 4 /\ fails short 10 /\ fails long 8 /\ fails long 10 /\ fails [0; 0; 1; 61; 1; 2; 3] 1.
Proof. repeat split. Qed.
