(** Model of the box classes of /repo/src/box/*.cpp, part 1.  No proofs in this file.

    For a class Xxxx, [xxxx] is the record of its data members that are stored in the file, [Xxxx_writeData],
    [Xxxx_readData] and [Xxxx_getDataSize] are its member functions.  [Xxxx_readData] is called on a freshly
    default-constructed object, as SimpleReader and BoxMap do; members that the function leaves untouched have the value
    given by the default member initialiser or, when C++ leaves them indeterminate, 0 (simplification; printing looks
    only at members that were read, writing at one of them only for audio entries under 'wave', which C49 excludes).
    A C++ std::array or std::string is a list; the right length is part of the well-formedness predicates in WireFormat.v.  Every writeData/readData constructs its own
    bitio::Writer/Reader on the stream it is given, so it starts at an octet boundary; that is how Box.v calls
    them.  std::size_t/uint64_t sizes are unbounded integers (a vector that would overflow them does not fit in
    memory). *)
From Verif Require Import Base BitIO.

(** [name_rbits = m]: the bits reported by [m] made available to the rest of the function. *)
Definition rcount {A} (m : R A) : R (Z * A) := fun r =>
  match m r with
  | Ok (r1, n, a) => Ok (r1, n, (n, a))
  | Throw e => Throw e
  | UB => UB
  end.

(** read_uint<T> where T is a signed type of [w] bits, bitio.hpp:91-106 (used by smhd.cpp:49 with int16_t). *)
Definition read_uint_s (w size : Z) : R Z := v <- read_uint 64 size; rret (to_s w v).

(** The rest of the payload as octets: [offset_to_end = get_istream_offset_to_end(is);
    read_vector_uint<uint8_t>(&reader, offset_to_end, &v)]. *)
Definition read_rest : R (list Z) := n <- offset_to_end; read_vector_uint 8 (Z.to_nat n).

(* ------------------------------------------------------------------------------------------------------------- *)
(** * FullBox, include/shiguredo/mp4/box.hpp, src/box.cpp:117-172 *)

Record fullbox := mk_fullbox { fb_version : Z; fb_f0 : Z; fb_f1 : Z; fb_f2 : Z }.

(** FullBox default members (box.hpp: m_version = 0, m_flags = {0,0,0}). *)
Definition fullbox0 : fullbox := mk_fullbox 0 0 0 0.

(** FullBox::getFlags, box.cpp:125-130. *)
Definition getFlags (b : fullbox) : Z :=
  Z.lor (Z.lor (Z.shiftl (fb_f0 b) 16) (Z.shiftl (fb_f1 b) 8)) (fb_f2 b).

(** FullBox::checkFlag, box.cpp:136-138. *)
Definition checkFlag (b : fullbox) (flag : Z) : bool := negb (Z.land (getFlags b) flag =? 0).

(** FullBox::setFlags, box.cpp:140-144. *)
Definition setFlags (flag : Z) (b : fullbox) : fullbox :=
  mk_fullbox (fb_version b) (Z.land (Z.shiftr flag 16) 255) (Z.land (Z.shiftr flag 8) 255) (Z.land flag 255).

(** FullBox::addFlag, box.cpp:146-148. *)
Definition addFlag (flag : Z) (b : fullbox) : fullbox := setFlags (Z.lor (getFlags b) flag) b.

(** FullBox::removeFlag, box.cpp:150-152 (an exclusive or). *)
Definition removeFlag (flag : Z) (b : fullbox) : fullbox := setFlags (Z.lxor (getFlags b) flag) b.

(** FullBox::setVersion, box.cpp:121-123. *)
Definition setVersion (v : Z) (b : fullbox) : fullbox := mk_fullbox v (fb_f0 b) (fb_f1 b) (fb_f2 b).

(** FullBox::writeVersionAndFlag, box.cpp:154-160 (loop over the three flag octets unrolled). *)
Definition writeVersionAndFlag (b : fullbox) : W :=
  write_uint (fb_version b) 8 ;; write_uint (fb_f0 b) 8 ;; write_uint (fb_f1 b) 8 ;; write_uint (fb_f2 b) 8.

(** FullBox::readVersionAndFlag, box.cpp:162-168. *)
Definition readVersionAndFlag : R fullbox :=
  v <- read_uint 8 8; a <- read_uint 8 8; b <- read_uint 8 8; c <- read_uint 8 8; rret (mk_fullbox v a b c).

(** The recurring test [m_version == 0]. *)
Definition v0 (b : fullbox) : bool := fb_version b =? 0.
(** The recurring [m_version == 0 ? 32 : 64]. *)
Definition tsize (b : fullbox) : Z := if v0 b then 32 else 64.

(* ------------------------------------------------------------------------------------------------------------- *)
(** * Containers: dinf edts ilst IlstMeta mdia mfra minf moof moov mvex schi sinf stbl traf trak udta wave *)

(** writeData of all containers, e.g. moov.cpp:23-25 (returns 0, writes nothing; same text at the same lines in the
    fifteen files dinf edts mdia mfra minf moof moov mvex schi sinf stbl traf trak udta wave, and ilst.cpp:27-29,39-41). *)
Definition Container_writeData : W := wskip.
(** readData of all containers, e.g. moov.cpp:27-29, ilst.cpp:31-33,43-45. *)
Definition Container_readData : R unit := rret tt.
(** Box::getDataSize, box.hpp (virtual default: 0). *)
Definition Container_getDataSize : Z := 0.

(* ------------------------------------------------------------------------------------------------------------- *)
(** * btrt *)
Record btrt := mk_btrt { btrt_decoding_buffer_size : Z; btrt_max_bitrate : Z; btrt_avg_bitrate : Z }.
(** btrt.cpp:37-42 *)
Definition Btrt_writeData (b : btrt) : W :=
  write_uint (btrt_decoding_buffer_size b) 32 ;; write_uint (btrt_max_bitrate b) 32 ;; write_uint (btrt_avg_bitrate b) 32.
(** btrt.cpp:44-46 *)
Definition Btrt_getDataSize (b : btrt) : Z := 12.
(** btrt.cpp:48-53 *)
Definition Btrt_readData : R btrt :=
  d <- read_uint 32 32; m <- read_uint 32 32; a <- read_uint 32 32; rret (mk_btrt d m a).

(** * co64 *)
Record co64 := mk_co64 { co64_fb : fullbox; co64_chunk_offsets : list Z }.
(** co64.cpp:38-44 *)
Definition Co64_writeData (b : co64) : W :=
  writeVersionAndFlag (co64_fb b) ;; write_uint (to_u 32 (Zlen (co64_chunk_offsets b))) 32 ;;
  write_vector_uint 64 (co64_chunk_offsets b).
(** co64.cpp:46-54 *)
Definition Co64_readData : R co64 :=
  fb <- readVersionAndFlag; n <- read_uint 32 32; l <- read_vector_uint 64 (Z.to_nat n); rret (mk_co64 fb l).
(** co64.cpp:56-58 *)
Definition Co64_getDataSize (b : co64) : Z := 8 + Zlen (co64_chunk_offsets b) * 8.

(** * colr *)
Record colr := mk_colr {
  colr_colour_type : list Z; colr_colour_primaries : Z; colr_transfer_characteristics : Z;
  colr_matrix_coefficients : Z; colr_full_range_flag : bool; colr_reserved : Z;
  colr_profile : list Z; colr_unknown : list Z }.
(** Comparison of std::array<uint8_t,4> values. *)
Fixpoint list_eqb (a b : list Z) : bool :=
  match a, b with
  | [], [] => true
  | x :: a', y :: b' => (x =? y) && list_eqb a' b'
  | _, _ => false
  end.
(** {'n','c','l','x'}, {'r','I','C','C'}, {'p','r','o','f'}: colr.cpp:72,75,76. *)
Definition cc_nclx : list Z := [110; 99; 108; 120].
Definition cc_rICC : list Z := [114; 73; 67; 67].
Definition cc_prof : list Z := [112; 114; 111; 102].
(** colr.cpp:82-90 *)
Definition Colr_nclxMarshal (b : colr) : W :=
  write_uint (colr_colour_primaries b) 16 ;; write_uint (colr_transfer_characteristics b) 16 ;;
  write_uint (colr_matrix_coefficients b) 16 ;; write_bool (colr_full_range_flag b) ;; write_uint (colr_reserved b) 7.
(** colr.cpp:66-80 *)
Definition Colr_writeData (b : colr) : W :=
  wlist (fun c => write_uint c 8) (colr_colour_type b) ;;
  (if list_eqb (colr_colour_type b) cc_nclx then Colr_nclxMarshal b
   else if list_eqb (colr_colour_type b) cc_rICC || list_eqb (colr_colour_type b) cc_prof
        then write_vector_uint 8 (colr_profile b)
        else write_vector_uint 8 (colr_unknown b)).
(** colr.cpp:92-111 with nclxUnwriteData 113-120 inlined *)
Definition Colr_readData : R colr :=
  a <- read_uint 8 8; b <- read_uint 8 8; c <- read_uint 8 8; d <- read_uint 8 8;
  let ct := [a; b; c; d] in
  if list_eqb ct cc_nclx then
    p <- read_uint 16 16; t <- read_uint 16 16; m <- read_uint 16 16; f <- read_bool; r <- read_uint 8 7;
    rret (mk_colr ct p t m f r [] [])
  else
    if list_eqb ct cc_rICC || list_eqb ct cc_prof
    then l <- read_rest; rret (mk_colr ct 0 0 0 false 0 l [])
    else l <- read_rest; rret (mk_colr ct 0 0 0 false 0 [] l).
(** colr.cpp:122-131 *)
Definition Colr_getDataSize (b : colr) : Z :=
  if list_eqb (colr_colour_type b) cc_nclx then 11
  else if list_eqb (colr_colour_type b) cc_rICC || list_eqb (colr_colour_type b) cc_prof
       then 4 + Zlen (colr_profile b)
       else 4 + Zlen (colr_unknown b).

(** * ctts *)
Record ctts_entry := mk_ctts_entry { cttse_sample_count : Z; cttse_sample_offset : Z }.
Record ctts := mk_ctts { ctts_fb : fullbox; ctts_entries : list ctts_entry }.
(** ctts.cpp:30-34 *)
Definition CttsEntry_writeData (e : ctts_entry) : W :=
  write_uint (cttse_sample_count e) 32 ;; write_int (cttse_sample_offset e) 32.
(** ctts.cpp:36-40 *)
Definition CttsEntry_readData : R ctts_entry :=
  c <- read_uint 32 32; o <- read_int 64 32; rret (mk_ctts_entry c o).
(** ctts.cpp:65-72 *)
Definition Ctts_writeData (b : ctts) : W :=
  writeVersionAndFlag (ctts_fb b) ;; write_uint (to_u 32 (Zlen (ctts_entries b))) 32 ;;
  wlist CttsEntry_writeData (ctts_entries b).
(** ctts.cpp:74-84 *)
Definition Ctts_readData : R ctts :=
  fb <- readVersionAndFlag; n <- read_uint 32 32; l <- rrepeat (Z.to_nat n) CttsEntry_readData; rret (mk_ctts fb l).
(** ctts.cpp:86-88 *)
Definition Ctts_getDataSize (b : ctts) : Z := 8 + 8 * Zlen (ctts_entries b).

(** * dOps *)
Record dops_table := mk_dops_table { dopst_stream_count : Z; dopst_coupled_count : Z; dopst_channel_mapping : list Z }.
Record dops := mk_dops {
  dops_version : Z; dops_output_channel_count : Z; dops_pre_skip : Z; dops_input_sample_rate : Z;
  dops_output_gain : Z; dops_channel_mapping_family : Z; dops_table_ : dops_table }.
(** dOps.cpp:81-85 *)
Definition DOpsChannelMappingTable_writeData (t : dops_table) : W :=
  write_uint (dopst_stream_count t) 8 ;; write_uint (dopst_coupled_count t) 8 ;;
  write_vector_uint 8 (dopst_channel_mapping t).
(** dOps.cpp:87-89 *)
Definition DOpsChannelMappingTable_getSize (t : dops_table) : Z := 2 + Zlen (dopst_channel_mapping t).
(** dOps.cpp:91-95 *)
Definition DOpsChannelMappingTable_readData (count : Z) : R dops_table :=
  s <- read_uint 8 8; c <- read_uint 8 8; l <- read_vector_uint 8 (Z.to_nat count); rret (mk_dops_table s c l).
(** dOps.cpp:36-48 *)
Definition DOps_writeData (b : dops) : W :=
  write_uint (dops_version b) 8 ;; write_uint (dops_output_channel_count b) 8 ;; write_uint (dops_pre_skip b) 16 ;;
  write_uint (dops_input_sample_rate b) 32 ;; write_int (dops_output_gain b) 16 ;;
  write_uint (dops_channel_mapping_family b) 8 ;;
  (if dops_channel_mapping_family b =? 0 then wskip else DOpsChannelMappingTable_writeData (dops_table_ b)).
(** dOps.cpp:50-55 *)
Definition DOps_getDataSize (b : dops) : Z :=
  if dops_channel_mapping_family b =? 0 then 11 else 11 + DOpsChannelMappingTable_getSize (dops_table_ b).
(** dOps.cpp:57-69 *)
Definition DOps_readData : R dops :=
  v <- read_uint 8 8; c <- read_uint 8 8; p <- read_uint 16 16; r <- read_uint 32 32; g <- read_int 16 16;
  f <- read_uint 8 8;
  if f =? 0 then rret (mk_dops v c p r g f (mk_dops_table 0 0 []))
  else t <- DOpsChannelMappingTable_readData c; rret (mk_dops v c p r g f t).

(** * data *)
Record data := mk_data { data_type : Z; data_lang : Z; data_data : list Z }.
(** data.cpp:51-56 *)
Definition Data_writeData (b : data) : W :=
  write_uint (data_type b) 32 ;; write_uint (data_lang b) 32 ;; write_vector_uint 8 (data_data b).
(** data.cpp:58-66 *)
Definition Data_readData : R data :=
  t <- read_uint 32 32; g <- read_uint 32 32; l <- read_rest; rret (mk_data t g l).
(** data.cpp:68-70 *)
Definition Data_getDataSize (b : data) : Z := 8 + Zlen (data_data b).

(** * dref *)
Record dref := mk_dref { dref_fb : fullbox; dref_entry_count : Z }.
(** dref.cpp:35-39 *)
Definition Dref_writeData (b : dref) : W := writeVersionAndFlag (dref_fb b) ;; write_uint (dref_entry_count b) 32.
(** dref.cpp:41-45 *)
Definition Dref_readData : R dref := fb <- readVersionAndFlag; n <- read_uint 32 32; rret (mk_dref fb n).
(** dref.cpp:47-49 *)
Definition Dref_getDataSize (b : dref) : Z := 8.

(** * elst *)
Record elst_entry := mk_elst_entry { elste_track_duration : Z; elste_media_time : Z; elste_media_rate : Z }.
Record elst := mk_elst { elst_fb : fullbox; elst_entries : list elst_entry }.
(** elst.cpp:31-36 *)
Definition ElstEntry_writeData (fb : fullbox) (e : elst_entry) : W :=
  write_uint (elste_track_duration e) (tsize fb) ;; write_int (elste_media_time e) (tsize fb) ;;
  write_int (elste_media_rate e) 32.
(** elst.cpp:38-43 *)
Definition ElstEntry_readData (fb : fullbox) : R elst_entry :=
  d <- read_uint 64 (tsize fb); t <- read_int 64 (tsize fb); r <- read_int 32 32; rret (mk_elst_entry d t r).
(** elst.cpp:72-80 *)
Definition Elst_writeData (b : elst) : W :=
  writeVersionAndFlag (elst_fb b) ;; write_uint (to_u 32 (Zlen (elst_entries b))) 32 ;;
  wlist (ElstEntry_writeData (elst_fb b)) (elst_entries b).
(** elst.cpp:82-84 *)
Definition Elst_getDataSize (b : elst) : Z := 8 + Zlen (elst_entries b) * (if v0 (elst_fb b) then 12 else 20).
(** elst.cpp:86-98 *)
Definition Elst_readData : R elst :=
  fb <- readVersionAndFlag; n <- read_uint 32 32; l <- rrepeat (Z.to_nat n) (ElstEntry_readData fb);
  rret (mk_elst fb l).

(** * emsg *)
Record emsg := mk_emsg {
  emsg_fb : fullbox; emsg_scheme_uri : list Z; emsg_value : list Z; emsg_timescale : Z; emsg_presentation_time : Z;
  emsg_event_duration : Z; emsg_id : Z; emsg_message_data : list Z }.
(** emsg.cpp:55-75 *)
Definition Emsg_writeData (b : emsg) : W :=
  writeVersionAndFlag (emsg_fb b) ;;
  (if v0 (emsg_fb b) then
     write_string (emsg_scheme_uri b) ;; write_string (emsg_value b) ;; write_uint (emsg_timescale b) 32 ;;
     write_uint (emsg_presentation_time b) 32 ;; write_uint (emsg_event_duration b) 32 ;; write_uint (emsg_id b) 32
   else
     write_uint (emsg_timescale b) 32 ;; write_uint (emsg_presentation_time b) 64 ;;
     write_uint (emsg_event_duration b) 32 ;; write_uint (emsg_id b) 32 ;;
     write_string (emsg_scheme_uri b) ;; write_string (emsg_value b)) ;;
  write_vector_uint 8 (emsg_message_data b).
(** emsg.cpp:77-102 *)
Definition Emsg_readData : R emsg :=
  fb <- readVersionAndFlag;
  if v0 fb then
    n <- offset_to_end;
    ' (k, s) <- rcount (read_string (n * 8));
    v <- read_string (n * 8 - k);
    t <- read_uint 32 32; p <- read_uint 64 32; d <- read_uint 32 32; i <- read_uint 32 32;
    m <- read_rest;
    rret (mk_emsg fb s v t p d i m)
  else
    t <- read_uint 32 32; p <- read_uint 64 64; d <- read_uint 32 32; i <- read_uint 32 32;
    n <- offset_to_end;
    ' (k, s) <- rcount (read_string (n * 8));
    v <- read_string (n * 8 - k);
    m <- read_rest;
    rret (mk_emsg fb s v t p d i m).
(** emsg.cpp:104-107 *)
Definition Emsg_getDataSize (b : emsg) : Z :=
  4 + Zlen (emsg_scheme_uri b) + 1 + Zlen (emsg_value b) + 1 + (if v0 (emsg_fb b) then 16 else 20)
  + Zlen (emsg_message_data b).

(** * fiel *)
Record fiel := mk_fiel { fiel_field_count : Z; fiel_field_ordering : Z }.
(** fiel.cpp:33-37 *)
Definition Fiel_writeData (b : fiel) : W := write_uint (fiel_field_count b) 8 ;; write_uint (fiel_field_ordering b) 8.
(** fiel.cpp:39-41 *)
Definition Fiel_getDataSize (b : fiel) : Z := 2.
(** fiel.cpp:43-47 *)
Definition Fiel_readData : R fiel := c <- read_uint 8 8; o <- read_uint 8 8; rret (mk_fiel c o).

(** * free, mdat, skip, unsupported: one vector of octets m_data each *)
(** free.cpp:36-39 *)
Definition Free_writeData (d : list Z) : W := write_vector_uint 8 d.
(** free.cpp:41-45 *)
Definition Free_readData : R (list Z) := read_rest.
(** free.cpp:47-49 *)
Definition Free_getDataSize (d : list Z) : Z := Zlen d.
(** mdat.cpp:36-39 *)
Definition Mdat_writeData (d : list Z) : W := write_vector_uint 8 d.
(** mdat.cpp:45-49 *)
Definition Mdat_readData : R (list Z) := read_rest.
(** mdat.cpp:41-43 *)
Definition Mdat_getDataSize (d : list Z) : Z := Zlen d.
(** skip.cpp:36-39 *)
Definition Skip_writeData (d : list Z) : W := write_vector_uint 8 d.
(** skip.cpp:41-45 *)
Definition Skip_readData : R (list Z) := read_rest.
(** skip.cpp:47-49 *)
Definition Skip_getDataSize (d : list Z) : Z := Zlen d.
(** unsupported.cpp:36-39 *)
Definition Unsupported_writeData (d : list Z) : W := write_vector_uint 8 d.
(** unsupported.cpp:41-45 *)
Definition Unsupported_readData : R (list Z) := read_rest.
(** unsupported.cpp:47-49 *)
Definition Unsupported_getDataSize (d : list Z) : Z := Zlen d.

(** * ftyp and styp (same members, same code) *)
Record ftyp := mk_ftyp { ftyp_major_brand : list Z; ftyp_minor_version : Z; ftyp_compatible_brands : list (list Z) }.
(** ftyp.cpp:53-61; styp.cpp:53-61 *)
Definition Ftyp_writeData (b : ftyp) : W :=
  write_array_uint8 (ftyp_major_brand b) ;; write_uint (ftyp_minor_version b) 32 ;;
  wlist write_array_uint8 (ftyp_compatible_brands b).
(** ftyp.cpp:63-79; styp.cpp:67-83 *)
Definition Ftyp_readData : R ftyp :=
  m <- read_array_uint8_4; v <- read_uint 32 32; n <- offset_to_end;
  if negb (n mod 4 =? 0) then rthrow RuntimeError
  else l <- rrepeat (Z.to_nat (n / 4)) read_array_uint8_4; rret (mk_ftyp m v l).
(** ftyp.cpp:81-83; styp.cpp:63-65 *)
Definition Ftyp_getDataSize (b : ftyp) : Z := 8 + Zlen (ftyp_compatible_brands b) * 4.

(** * hdlr *)
Record hdlr := mk_hdlr {
  hdlr_fb : fullbox; hdlr_pre_defined : Z; hdlr_handler_type : list Z; hdlr_manufacturer : list Z;
  hdlr_flags : list Z; hdlr_flags_mask : list Z; hdlr_name : list Z; hdlr_padding : list Z }.
(** hdlr.cpp:43-53 *)
Definition Hdlr_writeData (b : hdlr) : W :=
  writeVersionAndFlag (hdlr_fb b) ;; write_uint (hdlr_pre_defined b) 32 ;; write_array_uint8 (hdlr_handler_type b) ;;
  write_array_uint8 (hdlr_manufacturer b) ;; write_array_uint8 (hdlr_flags b) ;; write_array_uint8 (hdlr_flags_mask b) ;;
  write_string (hdlr_name b) ;; write_vector_uint 8 (hdlr_padding b).
(** hdlr.cpp:55-57 *)
Definition Hdlr_getDataSize (b : hdlr) : Z := 24 + Zlen (hdlr_name b) + 1 + Zlen (hdlr_padding b).
(** hdlr.cpp:59-81; the padding is read with a count of octets computed as a number of bits *)
Definition Hdlr_readData : R hdlr :=
  fb <- readVersionAndFlag; p <- read_uint 32 32; h <- read_array_uint8_4; m <- read_array_uint8_4;
  f <- read_array_uint8_4; k <- read_array_uint8_4;
  n <- offset_to_end;
  ' (nb, name) <- rcount (if negb (p =? 0) then read_pascal_string (n * 8) else read_string (n * 8));
  if (n * 8 <? nb) || negb (nb mod 8 =? 0) then rthrow RuntimeError
  else pad <- read_vector_uint 8 (Z.to_nat (n * 8 - nb)); rret (mk_hdlr fb p h m f k name pad).

(** * iods *)
Record iods := mk_iods {
  iods_fb : fullbox; iods_type_tag : Z; iods_descriptor_length : Z; iods_OD_ID : Z; iods_OD_profile_level : Z;
  iods_scene_profile_level : Z; iods_audio_profile_level : Z; iods_video_profile_level : Z;
  iods_graphics_profile_level : Z }.
(** iods.cpp:48-60 *)
Definition Iods_writeData (b : iods) : W :=
  writeVersionAndFlag (iods_fb b) ;; write_uint (iods_type_tag b) 8 ;; write_uvarint 4 (iods_descriptor_length b) ;;
  write_uint (iods_OD_ID b) 16 ;; write_uint (iods_OD_profile_level b) 8 ;; write_uint (iods_scene_profile_level b) 8 ;;
  write_uint (iods_audio_profile_level b) 8 ;; write_uint (iods_video_profile_level b) 8 ;;
  write_uint (iods_graphics_profile_level b) 8.
(** iods.cpp:62-64; uvarint_size is sizeof(uint32_t) = 4, bitio.hpp:139-142 *)
Definition Iods_getDataSize (b : iods) : Z := 12 + 4.
(** iods.cpp:66-78; the last line adds (m_descriptor_length - 7) * 8 computed in uint32_t *)
Definition Iods_readData : R iods :=
  fb <- readVersionAndFlag; t <- read_uint 8 8; l <- read_uvarint 32; i <- read_uint 16 16; o <- read_uint 8 8;
  s <- read_uint 8 8; a <- read_uint 8 8; v <- read_uint 8 8; g <- read_uint 8 8;
  _ <- rtick (to_u 32 ((l - 7) * 8));
  rret (mk_iods fb t l i o s a v g).

(** * mdhd *)
Record mdhd := mk_mdhd {
  mdhd_fb : fullbox; mdhd_creation_time : Z; mdhd_modification_time : Z; mdhd_timescale : Z; mdhd_duration : Z;
  mdhd_pad : bool; mdhd_language : list Z; mdhd_pre_defined : Z }.
(** encode_language, mdhd.cpp:82-84 ([nth]: std::array indexing) *)
Definition encode_language (l : list Z) : Z :=
  to_u 16 (Z.shiftl (nth 0 l 0 - 96) 10 + Z.shiftl (nth 1 l 0 - 96) 5 + (nth 2 l 0 - 96)).
(** decode_language, mdhd.cpp:86-92 *)
Definition decode_language (enc : Z) : list Z :=
  [Z.land (Z.shiftr enc 10) 31 + 96; Z.land (Z.shiftr enc 5) 31 + 96; Z.land enc 31 + 96].
(** mdhd.cpp:49-59 *)
Definition Mdhd_writeData (b : mdhd) : W :=
  writeVersionAndFlag (mdhd_fb b) ;;
  write_uint (mdhd_creation_time b) (tsize (mdhd_fb b)) ;; write_uint (mdhd_modification_time b) (tsize (mdhd_fb b)) ;;
  write_uint (mdhd_timescale b) 32 ;; write_uint (mdhd_duration b) (tsize (mdhd_fb b)) ;;
  write_bool (mdhd_pad b) ;; write_uint (encode_language (mdhd_language b)) 15 ;; write_uint (mdhd_pre_defined b) 16.
(** mdhd.cpp:61-66 *)
Definition Mdhd_getDataSize (b : mdhd) : Z := if v0 (mdhd_fb b) then 24 else 36.
(** mdhd.cpp:68-80 *)
Definition Mdhd_readData : R mdhd :=
  fb <- readVersionAndFlag; c <- read_uint 64 (tsize fb); m <- read_uint 64 (tsize fb); t <- read_uint 32 32;
  d <- read_uint 64 (tsize fb); p <- read_bool; l <- read_uint 16 15; q <- read_uint 16 16;
  rret (mk_mdhd fb c m t d p (decode_language l) q).

(** * mehd *)
Record mehd := mk_mehd { mehd_fb : fullbox; mehd_fragment_duration : Z }.
(** mehd.cpp:35-39 *)
Definition Mehd_writeData (b : mehd) : W :=
  writeVersionAndFlag (mehd_fb b) ;; write_uint (mehd_fragment_duration b) (tsize (mehd_fb b)).
(** mehd.cpp:41-43 *)
Definition Mehd_getDataSize (b : mehd) : Z := 4 + (if v0 (mehd_fb b) then 4 else 8).
(** mehd.cpp:45-49 *)
Definition Mehd_readData : R mehd :=
  fb <- readVersionAndFlag; d <- read_uint 64 (tsize fb); rret (mk_mehd fb d).

(** * meta (a FullBox without further members; its size is FullBox::getDataSize, box.cpp:170-172) *)
(** meta.cpp:26-29 *)
Definition Meta_writeData (fb : fullbox) : W := writeVersionAndFlag fb.
(** box.cpp:170-172 *)
Definition Meta_getDataSize (fb : fullbox) : Z := 4.
(** meta.cpp:31-40: anything but zero is replaced by zero *)
Definition Meta_readData : R fullbox :=
  fb <- readVersionAndFlag;
  if negb (Z.lor (Z.lor (Z.lor (fb_version fb) (fb_f0 fb)) (fb_f1 fb)) (fb_f2 fb) =? 0) then rret fullbox0 else rret fb.

(** * mfhd, mfro *)
Record mfhd := mk_mfhd { mfhd_fb : fullbox; mfhd_sequence_number : Z }.
(** mfhd.cpp:35-39 *)
Definition Mfhd_writeData (b : mfhd) : W := writeVersionAndFlag (mfhd_fb b) ;; write_uint (mfhd_sequence_number b) 32.
(** mfhd.cpp:41-45 *)
Definition Mfhd_readData : R mfhd := fb <- readVersionAndFlag; n <- read_uint 32 32; rret (mk_mfhd fb n).
(** mfhd.cpp:47-49 *)
Definition Mfhd_getDataSize (b : mfhd) : Z := 8.
Record mfro := mk_mfro { mfro_fb : fullbox; mfro_size : Z }.
(** mfro.cpp:35-39 *)
Definition Mfro_writeData (b : mfro) : W := writeVersionAndFlag (mfro_fb b) ;; write_uint (mfro_size b) 32.
(** mfro.cpp:41-45 *)
Definition Mfro_readData : R mfro := fb <- readVersionAndFlag; n <- read_uint 32 32; rret (mk_mfro fb n).
(** mfro.cpp:47-49 *)
Definition Mfro_getDataSize (b : mfro) : Z := 8.

(** * mvhd *)
Record mvhd := mk_mvhd {
  mvhd_fb : fullbox; mvhd_creation_time : Z; mvhd_modification_time : Z; mvhd_timescale : Z; mvhd_duration : Z;
  mvhd_rate : Z; mvhd_volume : Z; mvhd_reserved : Z; mvhd_reserved2 : Z; mvhd_reserved3 : Z;
  mvhd_matrix : list Z; mvhd_pre_defined : list Z; mvhd_next_track_id : Z }.
(** mvhd.cpp:55-74 *)
Definition Mvhd_writeData (b : mvhd) : W :=
  writeVersionAndFlag (mvhd_fb b) ;;
  write_uint (mvhd_creation_time b) (tsize (mvhd_fb b)) ;; write_uint (mvhd_modification_time b) (tsize (mvhd_fb b)) ;;
  write_uint (mvhd_timescale b) 32 ;; write_uint (mvhd_duration b) (tsize (mvhd_fb b)) ;;
  write_int (mvhd_rate b) 32 ;; write_int (mvhd_volume b) 16 ;; write_int (mvhd_reserved b) 16 ;;
  write_uint (mvhd_reserved2 b) 32 ;; write_uint (mvhd_reserved3 b) 32 ;;
  wlist (fun i => write_int i 32) (mvhd_matrix b) ;; wlist (fun i => write_int i 32) (mvhd_pre_defined b) ;;
  write_uint (mvhd_next_track_id b) 32.
(** mvhd.cpp:76-81 *)
Definition Mvhd_getDataSize (b : mvhd) : Z := if v0 (mvhd_fb b) then 100 else 112.
(** mvhd.cpp:83-102 *)
Definition Mvhd_readData : R mvhd :=
  fb <- readVersionAndFlag; c <- read_uint 64 (tsize fb); m <- read_uint 64 (tsize fb); t <- read_uint 32 32;
  d <- read_uint 64 (tsize fb); r <- read_int 32 32; v <- read_int 16 16; r1 <- read_int 16 16; r2 <- read_uint 32 32;
  r3 <- read_uint 32 32; mx <- rrepeat 9 (read_int 32 32); pd <- rrepeat 6 (read_int 32 32); n <- read_uint 32 32;
  rret (mk_mvhd fb c m t d r v r1 r2 r3 mx pd n).
(** Mvhd::setNextTrackID, mvhd.cpp:104-106 *)
Definition Mvhd_setNextTrackID (n : Z) (b : mvhd) : mvhd :=
  mk_mvhd (mvhd_fb b) (mvhd_creation_time b) (mvhd_modification_time b) (mvhd_timescale b) (mvhd_duration b)
    (mvhd_rate b) (mvhd_volume b) (mvhd_reserved b) (mvhd_reserved2 b) (mvhd_reserved3 b) (mvhd_matrix b)
    (mvhd_pre_defined b) n.

(** * pasp *)
Record pasp := mk_pasp { pasp_h_spacing : Z; pasp_v_spacing : Z }.
(** pixel_aspect_ratio.cpp:34-38 *)
Definition PixelAspectRatio_writeData (b : pasp) : W := write_uint (pasp_h_spacing b) 32 ;; write_uint (pasp_v_spacing b) 32.
(** pixel_aspect_ratio.cpp:40-44 *)
Definition PixelAspectRatio_readData : R pasp := h <- read_uint 32 32; v <- read_uint 32 32; rret (mk_pasp h v).
(** pixel_aspect_ratio.cpp:46-48 *)
Definition PixelAspectRatio_getDataSize (b : pasp) : Z := 8.

(** * pssh *)
Record pssh := mk_pssh { pssh_fb : fullbox; pssh_system_id : list Z; pssh_kids : list (list Z); pssh_data : list Z }.
(** pssh.cpp:27-33 (a KID is its 16 octets) *)
Definition PsshKID_writeData (k : list Z) : W := wlist (fun c => write_uint c 8) k.
(** pssh.cpp:35-41 *)
Definition PsshKID_readData : R (list Z) := rrepeat 16 (read_uint 8 8).
(** pssh.cpp:69-84 *)
Definition Pssh_writeData (b : pssh) : W :=
  writeVersionAndFlag (pssh_fb b) ;; wlist (fun c => write_uint c 8) (pssh_system_id b) ;;
  wwhen (negb (v0 (pssh_fb b)))
    (write_uint (to_u 32 (Zlen (pssh_kids b))) 32 ;; wlist PsshKID_writeData (pssh_kids b)) ;;
  write_uint (to_u 32 (Zlen (pssh_data b))) 32 ;; write_vector_uint 8 (pssh_data b).
(** pssh.cpp:86-108 *)
Definition Pssh_readData : R pssh :=
  fb <- readVersionAndFlag; s <- rrepeat 16 (read_uint 8 8);
  k <- (if negb (v0 fb) then n <- read_uint 32 32; rrepeat (Z.to_nat n) PsshKID_readData else rret []);
  n <- read_uint 32 32; d <- read_vector_uint 8 (Z.to_nat n); rret (mk_pssh fb s k d).
(** pssh.cpp:110-116 *)
Definition Pssh_getDataSize (b : pssh) : Z :=
  if v0 (pssh_fb b) then 24 + Zlen (pssh_data b) else 28 + Zlen (pssh_data b) + Zlen (pssh_kids b) * 16.

(** * sbgp *)
Record sbgp_entry := mk_sbgp_entry { sbgpe_sample_count : Z; sbgpe_group_description_index : Z }.
Record sbgp := mk_sbgp {
  sbgp_fb : fullbox; sbgp_grouping_type : list Z; sbgp_grouping_type_parameter : Z; sbgp_entries : list sbgp_entry }.
(** sbgp.cpp:28-31 *)
Definition SbgpEntry_writeData (e : sbgp_entry) : W :=
  write_uint (sbgpe_sample_count e) 32 ;; write_uint (sbgpe_group_description_index e) 32.
(** sbgp.cpp:33-36 *)
Definition SbgpEntry_readData : R sbgp_entry := c <- read_uint 32 32; i <- read_uint 32 32; rret (mk_sbgp_entry c i).
(** sbgp.cpp:67-78 *)
Definition Sbgp_writeData (b : sbgp) : W :=
  writeVersionAndFlag (sbgp_fb b) ;; write_array_uint8 (sbgp_grouping_type b) ;;
  wwhen (negb (v0 (sbgp_fb b))) (write_uint (sbgp_grouping_type_parameter b) 32) ;;
  write_uint (to_u 32 (Zlen (sbgp_entries b))) 32 ;; wlist SbgpEntry_writeData (sbgp_entries b).
(** sbgp.cpp:80-96 *)
Definition Sbgp_readData : R sbgp :=
  fb <- readVersionAndFlag; t <- read_array_uint8_4;
  p <- (if negb (v0 fb) then read_uint 32 32 else rret 0);
  n <- read_uint 32 32; l <- rrepeat (Z.to_nat n) SbgpEntry_readData; rret (mk_sbgp fb t p l).
(** sbgp.cpp:98-100 *)
Definition Sbgp_getDataSize (b : sbgp) : Z := 12 + 8 * Zlen (sbgp_entries b) + (if v0 (sbgp_fb b) then 0 else 4).

(** * sdtp *)
Record sdtp_sample := mk_sdtp_sample {
  sdtps_is_leading : Z; sdtps_depends_on : Z; sdtps_is_depended_on : Z; sdtps_has_redundancy : Z }.
Record sdtp := mk_sdtp { sdtp_fb : fullbox; sdtp_samples : list sdtp_sample }.
(** sdtp.cpp:78-84 *)
Definition SdtpSample_writeData (s : sdtp_sample) : W :=
  write_uint (sdtps_is_leading s) 2 ;; write_uint (sdtps_depends_on s) 2 ;;
  write_uint (sdtps_is_depended_on s) 2 ;; write_uint (sdtps_has_redundancy s) 2.
(** sdtp.cpp:86-92 *)
Definition SdtpSample_readData : R sdtp_sample :=
  a <- read_uint 8 2; b <- read_uint 8 2; c <- read_uint 8 2; d <- read_uint 8 2; rret (mk_sdtp_sample a b c d).
(** sdtp.cpp:44-50 *)
Definition Sdtp_writeData (b : sdtp) : W := writeVersionAndFlag (sdtp_fb b) ;; wlist SdtpSample_writeData (sdtp_samples b).
(** sdtp.cpp:52-61 *)
Definition Sdtp_readData : R sdtp :=
  fb <- readVersionAndFlag; n <- offset_to_end; l <- rrepeat (Z.to_nat n) SdtpSample_readData; rret (mk_sdtp fb l).
(** sdtp.cpp:63-65 *)
Definition Sdtp_getDataSize (b : sdtp) : Z := 4 + Zlen (sdtp_samples b).

(** * sidx *)
Record sidx_ref := mk_sidx_ref {
  sidxr_reference_type : bool; sidxr_reference_size : Z; sidxr_subsegment_duration : Z; sidxr_starts_with_sap : bool;
  sidxr_sap_type : Z; sidxr_sap_delta_time : Z }.
Record sidx := mk_sidx {
  sidx_fb : fullbox; sidx_reference_id : Z; sidx_timescale : Z; sidx_earliest_presentation_time : Z;
  sidx_first_offset : Z; sidx_reserved : Z; sidx_references : list sidx_ref }.
(** sidx.cpp:105-112 *)
Definition SidxReference_writeData (r : sidx_ref) : W :=
  write_bool (sidxr_reference_type r) ;; write_uint (sidxr_reference_size r) 31 ;;
  write_uint (sidxr_subsegment_duration r) 32 ;; write_bool (sidxr_starts_with_sap r) ;;
  write_uint (sidxr_sap_type r) 3 ;; write_uint (sidxr_sap_delta_time r) 28.
(** sidx.cpp:114-121 *)
Definition SidxReference_readData : R sidx_ref :=
  t <- read_bool; s <- read_uint 32 31; d <- read_uint 32 32; w <- read_bool; p <- read_uint 8 3; x <- read_uint 32 28;
  rret (mk_sidx_ref t s d w p x).
(** sidx.cpp:52-66 *)
Definition Sidx_writeData (b : sidx) : W :=
  writeVersionAndFlag (sidx_fb b) ;; write_uint (sidx_reference_id b) 32 ;; write_uint (sidx_timescale b) 32 ;;
  write_uint (sidx_earliest_presentation_time b) (tsize (sidx_fb b)) ;;
  write_uint (sidx_first_offset b) (tsize (sidx_fb b)) ;;
  write_uint (sidx_reserved b) 16 ;; write_uint (to_u 16 (Zlen (sidx_references b))) 16 ;;
  wlist SidxReference_writeData (sidx_references b).
(** sidx.cpp:68-70 *)
Definition Sidx_getDataSize (b : sidx) : Z := 24 + 12 * Zlen (sidx_references b) + (if v0 (sidx_fb b) then 0 else 8).
(** sidx.cpp:72-88 *)
Definition Sidx_readData : R sidx :=
  fb <- readVersionAndFlag; i <- read_uint 32 32; t <- read_uint 32 32; e <- read_uint 64 (tsize fb);
  o <- read_uint 64 (tsize fb); r <- read_uint 16 16; n <- read_uint 16 16;
  l <- rrepeat (Z.to_nat n) SidxReference_readData; rret (mk_sidx fb i t e o r l).

(** * smhd *)
Record smhd := mk_smhd { smhd_fb : fullbox; smhd_balance : Z; smhd_reserved : Z }.
(** smhd.cpp:35-40 (write_uint<int16_t>) *)
Definition Smhd_writeData (b : smhd) : W :=
  writeVersionAndFlag (smhd_fb b) ;; write_uint (smhd_balance b) 16 ;; write_uint (smhd_reserved b) 16.
(** smhd.cpp:42-44 *)
Definition Smhd_getDataSize (b : smhd) : Z := 8.
(** smhd.cpp:46-51 (read_uint<int16_t>) *)
Definition Smhd_readData : R smhd :=
  fb <- readVersionAndFlag; a <- read_uint_s 16 16; r <- read_uint 16 16; rret (mk_smhd fb a r).

(** * stco *)
Record stco := mk_stco { stco_fb : fullbox; stco_chunk_offsets : list Z }.
(** stco.cpp:38-43 *)
Definition Stco_writeData (b : stco) : W :=
  writeVersionAndFlag (stco_fb b) ;; write_uint (to_u 32 (Zlen (stco_chunk_offsets b))) 32 ;;
  write_vector_uint 32 (stco_chunk_offsets b).
(** stco.cpp:45-51 *)
Definition Stco_readData : R stco :=
  fb <- readVersionAndFlag; n <- read_uint 32 32; l <- read_vector_uint 32 (Z.to_nat n); rret (mk_stco fb l).
(** stco.cpp:53-55 *)
Definition Stco_getDataSize (b : stco) : Z := 8 + Zlen (stco_chunk_offsets b) * 4.

(** * stsc *)
Record stsc_entry := mk_stsc_entry {
  stsce_first_chunk : Z; stsce_sample_per_chunk : Z; stsce_sample_description_index : Z }.
Record stsc := mk_stsc { stsc_fb : fullbox; stsc_entries : list stsc_entry }.
(** stsc.cpp:80-84 *)
Definition StscEntry_writeData (e : stsc_entry) : W :=
  write_uint (stsce_first_chunk e) 32 ;; write_uint (stsce_sample_per_chunk e) 32 ;;
  write_uint (stsce_sample_description_index e) 32.
(** stsc.cpp:86-90 *)
Definition StscEntry_readData : R stsc_entry :=
  f <- read_uint 32 32; s <- read_uint 32 32; d <- read_uint 32 32; rret (mk_stsc_entry f s d).
(** stsc.cpp:44-52 *)
Definition Stsc_writeData (b : stsc) : W :=
  writeVersionAndFlag (stsc_fb b) ;; write_uint (to_u 32 (Zlen (stsc_entries b))) 32 ;;
  wlist StscEntry_writeData (stsc_entries b).
(** stsc.cpp:54-56 *)
Definition Stsc_getDataSize (b : stsc) : Z := 8 + 12 * Zlen (stsc_entries b).
(** stsc.cpp:58-68 *)
Definition Stsc_readData : R stsc :=
  fb <- readVersionAndFlag; n <- read_uint 32 32; l <- rrepeat (Z.to_nat n) StscEntry_readData; rret (mk_stsc fb l).

(** * stsd *)
Record stsd := mk_stsd { stsd_fb : fullbox; stsd_entry_count : Z }.
(** stsd.cpp:35-39 *)
Definition Stsd_writeData (b : stsd) : W := writeVersionAndFlag (stsd_fb b) ;; write_uint (stsd_entry_count b) 32.
(** stsd.cpp:41-43 *)
Definition Stsd_getDataSize (b : stsd) : Z := 8.
(** stsd.cpp:45-49 *)
Definition Stsd_readData : R stsd := fb <- readVersionAndFlag; n <- read_uint 32 32; rret (mk_stsd fb n).

(** * stss *)
Record stss := mk_stss { stss_fb : fullbox; stss_sample_numbers : list Z }.
(** stss.cpp:38-44 *)
Definition Stss_writeData (b : stss) : W :=
  writeVersionAndFlag (stss_fb b) ;; write_uint (to_u 32 (Zlen (stss_sample_numbers b))) 32 ;;
  write_vector_uint 32 (stss_sample_numbers b).
(** stss.cpp:46-48 *)
Definition Stss_getDataSize (b : stss) : Z := 8 + Zlen (stss_sample_numbers b) * 4.
(** stss.cpp:50-56 *)
Definition Stss_readData : R stss :=
  fb <- readVersionAndFlag; n <- read_uint 32 32; l <- read_vector_uint 32 (Z.to_nat n); rret (mk_stss fb l).

(** * stsz *)
Record stsz := mk_stsz { stsz_fb : fullbox; stsz_sample_size : Z; stsz_entry_sizes : list Z }.
(** stsz.cpp:38-47 *)
Definition Stsz_writeData (b : stsz) : W :=
  writeVersionAndFlag (stsz_fb b) ;; write_uint (stsz_sample_size b) 32 ;;
  write_uint (to_u 32 (Zlen (stsz_entry_sizes b))) 32 ;;
  wwhen (stsz_sample_size b =? 0) (write_vector_uint 32 (stsz_entry_sizes b)).
(** stsz.cpp:49-51 *)
Definition Stsz_getDataSize (b : stsz) : Z :=
  12 + (if stsz_sample_size b =? 0 then 4 * Zlen (stsz_entry_sizes b) else 0).
(** stsz.cpp:53-65 *)
Definition Stsz_readData : R stsz :=
  fb <- readVersionAndFlag; s <- read_uint 32 32; n <- read_uint 32 32;
  l <- (if s =? 0 then read_vector_uint 32 (Z.to_nat n) else rret []); rret (mk_stsz fb s l).

(** * stts *)
Record stts_entry := mk_stts_entry { sttse_sample_count : Z; sttse_sample_duration : Z }.
Record stts := mk_stts { stts_fb : fullbox; stts_entries : list stts_entry }.
(** stts.cpp:77-80 *)
Definition SttsEntry_writeData (e : stts_entry) : W :=
  write_uint (sttse_sample_count e) 32 ;; write_uint (sttse_sample_duration e) 32.
(** stts.cpp:82-85 *)
Definition SttsEntry_readData : R stts_entry := c <- read_uint 32 32; d <- read_uint 32 32; rret (mk_stts_entry c d).
(** stts.cpp:44-52 *)
Definition Stts_writeData (b : stts) : W :=
  writeVersionAndFlag (stts_fb b) ;; write_uint (to_u 32 (Zlen (stts_entries b))) 32 ;;
  wlist SttsEntry_writeData (stts_entries b).
(** stts.cpp:54-56 *)
Definition Stts_getDataSize (b : stts) : Z := 8 + 8 * Zlen (stts_entries b).
(** stts.cpp:58-68 *)
Definition Stts_readData : R stts :=
  fb <- readVersionAndFlag; n <- read_uint 32 32; l <- rrepeat (Z.to_nat n) SttsEntry_readData; rret (mk_stts fb l).

(** * tfdt *)
Record tfdt := mk_tfdt { tfdt_fb : fullbox; tfdt_base_media_decode_time : Z }.
(** tfdt.cpp:35-39 *)
Definition Tfdt_writeData (b : tfdt) : W :=
  writeVersionAndFlag (tfdt_fb b) ;; write_uint (tfdt_base_media_decode_time b) (tsize (tfdt_fb b)).
(** tfdt.cpp:41-43 *)
Definition Tfdt_getDataSize (b : tfdt) : Z := 8 + (if v0 (tfdt_fb b) then 0 else 4).
(** tfdt.cpp:45-49 *)
Definition Tfdt_readData : R tfdt := fb <- readVersionAndFlag; d <- read_uint 64 (tsize fb); rret (mk_tfdt fb d).

(** * tfhd *)
Record tfhd := mk_tfhd {
  tfhd_fb : fullbox; tfhd_track_id : Z; tfhd_base_data_offset : Z; tfhd_sample_description_index : Z;
  tfhd_default_sample_duration : Z; tfhd_default_sample_size : Z; tfhd_default_sample_flags : Z }.
(** tfhd.cpp:58-79; flag values tfhd.hpp:13-17; [flags & X] as a condition is checkFlag *)
Definition Tfhd_writeData (b : tfhd) : W :=
  writeVersionAndFlag (tfhd_fb b) ;; write_uint (tfhd_track_id b) 32 ;;
  wwhen (checkFlag (tfhd_fb b) 1) (write_uint (tfhd_base_data_offset b) 64) ;;
  wwhen (checkFlag (tfhd_fb b) 2) (write_uint (tfhd_sample_description_index b) 32) ;;
  wwhen (checkFlag (tfhd_fb b) 8) (write_uint (tfhd_default_sample_duration b) 32) ;;
  wwhen (checkFlag (tfhd_fb b) 16) (write_uint (tfhd_default_sample_size b) 32) ;;
  wwhen (checkFlag (tfhd_fb b) 32) (write_uint (tfhd_default_sample_flags b) 32).
(** tfhd.cpp:81-100 *)
Definition Tfhd_getDataSize (b : tfhd) : Z :=
  8 + (if checkFlag (tfhd_fb b) 1 then 8 else 0) + (if checkFlag (tfhd_fb b) 2 then 4 else 0)
  + (if checkFlag (tfhd_fb b) 8 then 4 else 0) + (if checkFlag (tfhd_fb b) 16 then 4 else 0)
  + (if checkFlag (tfhd_fb b) 32 then 4 else 0).
(** [if (c) rbits += m;] for a member that otherwise keeps its (default) value *)
Definition rwhen (c : bool) (m : R Z) : R Z := if c then m else rret 0.
(** tfhd.cpp:102-123 *)
Definition Tfhd_readData : R tfhd :=
  fb <- readVersionAndFlag; i <- read_uint 32 32;
  o <- rwhen (checkFlag fb 1) (read_uint 64 64); x <- rwhen (checkFlag fb 2) (read_uint 32 32);
  d <- rwhen (checkFlag fb 8) (read_uint 32 32); s <- rwhen (checkFlag fb 16) (read_uint 32 32);
  f <- rwhen (checkFlag fb 32) (read_uint 32 32);
  rret (mk_tfhd fb i o x d s f).

(** * tfra *)
Record tfra_entry := mk_tfra_entry {
  tfrae_time : Z; tfrae_moof_offset : Z; tfrae_traf_number : Z; tfrae_trun_number : Z; tfrae_sample_number : Z }.
Record tfra := mk_tfra {
  tfra_fb : fullbox; tfra_track_id : Z; tfra_reserved : Z; tfra_length_size_of_traf_num : Z;
  tfra_length_size_of_trun_num : Z; tfra_length_size_of_sample_num : Z; tfra_entries : list tfra_entry }.
(** tfra.cpp:106-120 *)
Definition TfraEntry_writeData (fb : fullbox) (l1 l2 l3 : Z) (e : tfra_entry) : W :=
  write_uint (tfrae_time e) (tsize fb) ;; write_uint (tfrae_moof_offset e) (tsize fb) ;;
  write_uint (tfrae_traf_number e) ((l1 + 1) * 8) ;; write_uint (tfrae_trun_number e) ((l2 + 1) * 8) ;;
  write_uint (tfrae_sample_number e) ((l3 + 1) * 8).
(** tfra.cpp:122-129 *)
Definition TfraEntry_getSize (fb : fullbox) (l1 l2 l3 : Z) (e : tfra_entry) : Z :=
  8 + (if v0 fb then 0 else 8) + (l1 + 1) + (l2 + 1) + (l3 + 1).
(** tfra.cpp:131-146 *)
Definition TfraEntry_readData (fb : fullbox) (l1 l2 l3 : Z) : R tfra_entry :=
  t <- read_uint 64 (tsize fb); m <- read_uint 64 (tsize fb); a <- read_uint 32 ((l1 + 1) * 8);
  b <- read_uint 32 ((l2 + 1) * 8); c <- read_uint 32 ((l3 + 1) * 8); rret (mk_tfra_entry t m a b c).
(** tfra.cpp:52-67 *)
Definition Tfra_writeData (b : tfra) : W :=
  writeVersionAndFlag (tfra_fb b) ;; write_uint (tfra_track_id b) 32 ;; write_uint (tfra_reserved b) 26 ;;
  write_uint (tfra_length_size_of_traf_num b) 2 ;; write_uint (tfra_length_size_of_trun_num b) 2 ;;
  write_uint (tfra_length_size_of_sample_num b) 2 ;; write_uint (to_u 32 (Zlen (tfra_entries b))) 32 ;;
  wlist (TfraEntry_writeData (tfra_fb b) (tfra_length_size_of_traf_num b) (tfra_length_size_of_trun_num b)
           (tfra_length_size_of_sample_num b)) (tfra_entries b).
(** sum of sizes, std::accumulate(begin, end, 0UL, ...) *)
Definition sumZ {A} (f : A -> Z) (l : list A) : Z := fold_right (fun x a => f x + a) 0 l.
(** tfra.cpp:69-74 *)
Definition Tfra_getDataSize (b : tfra) : Z :=
  16 + sumZ (TfraEntry_getSize (tfra_fb b) (tfra_length_size_of_traf_num b) (tfra_length_size_of_trun_num b)
               (tfra_length_size_of_sample_num b)) (tfra_entries b).
(** tfra.cpp:76-92 *)
Definition Tfra_readData : R tfra :=
  fb <- readVersionAndFlag; i <- read_uint 32 32; r <- read_uint 32 26; a <- read_uint 8 2; b <- read_uint 8 2;
  c <- read_uint 8 2; n <- read_uint 32 32; l <- rrepeat (Z.to_nat n) (TfraEntry_readData fb a b c);
  rret (mk_tfra fb i r a b c l).

(** * tkhd *)
Record tkhd := mk_tkhd {
  tkhd_fb : fullbox; tkhd_creation_time : Z; tkhd_modification_time : Z; tkhd_track_id : Z; tkhd_reserved : Z;
  tkhd_duration : Z; tkhd_reserved2 : Z; tkhd_reserved3 : Z; tkhd_layer : Z; tkhd_alternate_group : Z;
  tkhd_volume : Z; tkhd_reserved4 : Z; tkhd_matrix : list Z; tkhd_width : Z; tkhd_height : Z }.
(** tkhd.cpp:53-78 *)
Definition Tkhd_writeData (b : tkhd) : W :=
  writeVersionAndFlag (tkhd_fb b) ;;
  write_uint (tkhd_creation_time b) (tsize (tkhd_fb b)) ;; write_uint (tkhd_modification_time b) (tsize (tkhd_fb b)) ;;
  write_uint (tkhd_track_id b) 32 ;; write_uint (tkhd_reserved b) 32 ;; write_uint (tkhd_duration b) (tsize (tkhd_fb b)) ;;
  write_uint (tkhd_reserved2 b) 32 ;; write_uint (tkhd_reserved3 b) 32 ;;
  write_int (tkhd_layer b) 16 ;; write_int (tkhd_alternate_group b) 16 ;; write_int (tkhd_volume b) 16 ;;
  write_uint (tkhd_reserved4 b) 16 ;; wlist (fun i => write_int i 32) (tkhd_matrix b) ;;
  write_uint (tkhd_width b) 32 ;; write_uint (tkhd_height b) 32.
(** tkhd.cpp:80-85 *)
Definition Tkhd_getDataSize (b : tkhd) : Z := if v0 (tkhd_fb b) then 84 else 96.
(** tkhd.cpp:87-112 *)
Definition Tkhd_readData : R tkhd :=
  fb <- readVersionAndFlag; c <- read_uint 64 (tsize fb); m <- read_uint 64 (tsize fb); i <- read_uint 32 32;
  r <- read_uint 32 32; d <- read_uint 64 (tsize fb); r2 <- read_uint 32 32; r3 <- read_uint 32 32;
  la <- read_int 16 16; ag <- read_int 16 16; vo <- read_int 16 16; r4 <- read_uint 16 16;
  mx <- rrepeat 9 (read_int 32 32); w <- read_uint 32 32; h <- read_uint 32 32;
  rret (mk_tkhd fb c m i r d r2 r3 la ag vo r4 mx w h).

(** * trex *)
Record trex := mk_trex {
  trex_fb : fullbox; trex_track_id : Z; trex_default_sample_description_index : Z; trex_default_sample_duration : Z;
  trex_default_sample_size : Z; trex_default_sample_flags : Z }.
(** trex.cpp:44-53 *)
Definition Trex_writeData (b : trex) : W :=
  writeVersionAndFlag (trex_fb b) ;; write_uint (trex_track_id b) 32 ;;
  write_uint (trex_default_sample_description_index b) 32 ;; write_uint (trex_default_sample_duration b) 32 ;;
  write_uint (trex_default_sample_size b) 32 ;; write_uint (trex_default_sample_flags b) 32.
(** trex.cpp:55-57 *)
Definition Trex_getDataSize (b : trex) : Z := 24.
(** trex.cpp:59-68 *)
Definition Trex_readData : R trex :=
  fb <- readVersionAndFlag; i <- read_uint 32 32; x <- read_uint 32 32; d <- read_uint 32 32; s <- read_uint 32 32;
  f <- read_uint 32 32; rret (mk_trex fb i x d s f).

(** * trun *)
Record trun_entry := mk_trun_entry {
  trune_sample_duration : Z; trune_sample_size : Z; trune_sample_flags : Z; trune_composition_time_offset : Z }.
Record trun := mk_trun {
  trun_fb : fullbox; trun_data_offset : Z; trun_first_sample_flags : Z; trun_entries : list trun_entry }.
(** trun.cpp:127-142 *)
Definition TrunEntry_writeData (fb : fullbox) (e : trun_entry) : W :=
  wwhen (checkFlag fb 256) (write_uint (trune_sample_duration e) 32) ;;
  wwhen (checkFlag fb 512) (write_uint (trune_sample_size e) 32) ;;
  wwhen (checkFlag fb 1024) (write_uint (trune_sample_flags e) 32) ;;
  wwhen (checkFlag fb 2048) (write_int (trune_composition_time_offset e) 32).
(** trun.cpp:144-159 *)
Definition TrunEntry_getSize (fb : fullbox) (e : trun_entry) : Z :=
  (if checkFlag fb 256 then 4 else 0) + (if checkFlag fb 512 then 4 else 0) + (if checkFlag fb 1024 then 4 else 0)
  + (if checkFlag fb 2048 then 4 else 0).
(** trun.cpp:161-176 *)
Definition TrunEntry_readData (fb : fullbox) : R trun_entry :=
  d <- rwhen (checkFlag fb 256) (read_uint 32 32); s <- rwhen (checkFlag fb 512) (read_uint 32 32);
  f <- rwhen (checkFlag fb 1024) (read_uint 32 32); c <- rwhen (checkFlag fb 2048) (read_int 64 32);
  rret (mk_trun_entry d s f c).
(** trun.cpp:51-66 *)
Definition Trun_writeData (b : trun) : W :=
  writeVersionAndFlag (trun_fb b) ;; write_uint (to_u 32 (Zlen (trun_entries b))) 32 ;;
  wwhen (checkFlag (trun_fb b) 1) (write_int (trun_data_offset b) 32) ;;
  wwhen (checkFlag (trun_fb b) 4) (write_uint (trun_first_sample_flags b) 32) ;;
  wlist (TrunEntry_writeData (trun_fb b)) (trun_entries b).
(** trun.cpp:68-81 *)
Definition Trun_getDataSize (b : trun) : Z :=
  8 + (if checkFlag (trun_fb b) 1 then 4 else 0) + (if checkFlag (trun_fb b) 4 then 4 else 0)
  + sumZ (TrunEntry_getSize (trun_fb b)) (trun_entries b).
(** trun.cpp:83-100 *)
Definition Trun_readData : R trun :=
  fb <- readVersionAndFlag; n <- read_uint 32 32; o <- rwhen (checkFlag fb 1) (read_int 32 32);
  f <- rwhen (checkFlag fb 4) (read_uint 32 32); l <- rrepeat (Z.to_nat n) (TrunEntry_readData fb);
  rret (mk_trun fb o f l).

(** * url, urn *)
Record url := mk_url { url_fb : fullbox; url_location : list Z }.
(** url.cpp:40-47; UrlSelfContainedFlags = 1, url.hpp:12 *)
Definition Url_writeData (b : url) : W :=
  writeVersionAndFlag (url_fb b) ;; wwhen (negb (checkFlag (url_fb b) 1)) (write_string (url_location b)).
(** url.cpp:49-57 *)
Definition Url_readData : R url :=
  fb <- readVersionAndFlag;
  if negb (checkFlag fb 1) then n <- offset_to_end; s <- read_string (n * 8); rret (mk_url fb s)
  else rret (mk_url fb []).
(** url.cpp:59-64 *)
Definition Url_getDataSize (b : url) : Z := if checkFlag (url_fb b) 1 then 4 else 4 + Zlen (url_location b) + 1.

Record urn := mk_urn { urn_fb : fullbox; urn_name : list Z; urn_location : list Z }.
(** urn.cpp:40-49; UrnSelfContainedFlags = 1, urn.hpp:12 *)
Definition Urn_writeData (b : urn) : W :=
  writeVersionAndFlag (urn_fb b) ;;
  (if checkFlag (urn_fb b) 1 then wskip else write_string (urn_name b) ;; write_string (urn_location b)).
(** urn.cpp:51-62; (offset_to_end - 1) * 8 in uint64_t *)
Definition Urn_readData : R urn :=
  fb <- readVersionAndFlag;
  if checkFlag fb 1 then rret (mk_urn fb [] [])
  else n <- offset_to_end; ' (k, s) <- rcount (read_string (to_u 64 ((n - 1) * 8)));
       l <- read_string (n * 8 - k); rret (mk_urn fb s l).
(** urn.cpp:64-69 *)
Definition Urn_getDataSize (b : urn) : Z :=
  if checkFlag (urn_fb b) 1 then 4 else 4 + Zlen (urn_name b) + 1 + Zlen (urn_location b) + 1.

(** * vmhd *)
Record vmhd := mk_vmhd { vmhd_fb : fullbox; vmhd_graphicsmode : Z; vmhd_opcolor : list Z }.
(** vmhd.cpp:37-45 *)
Definition Vmhd_writeData (b : vmhd) : W :=
  writeVersionAndFlag (vmhd_fb b) ;; write_uint (vmhd_graphicsmode b) 16 ;; wlist (fun c => write_uint c 16) (vmhd_opcolor b).
(** vmhd.cpp:47-49 *)
Definition Vmhd_getDataSize (b : vmhd) : Z := 12.
(** vmhd.cpp:51-59 *)
Definition Vmhd_readData : R vmhd :=
  fb <- readVersionAndFlag; g <- read_uint 16 16; o <- rrepeat 3 (read_uint 16 16); rret (mk_vmhd fb g o).

(** * vpcC *)
Record vpcc := mk_vpcc {
  vpcc_fb : fullbox; vpcc_profile : Z; vpcc_level : Z; vpcc_bit_depth : Z; vpcc_chroma_sub_sampling : Z;
  vpcc_video_full_range_flag : Z; vpcc_colour_primaries : Z; vpcc_transfer_characteristics : Z;
  vpcc_matrix_coefficients : Z; vpcc_codec_initialization_data : list Z }.
(** vpc.cpp:35-52 *)
Definition VPCodecConfiguration_writeData (b : vpcc) : W :=
  writeVersionAndFlag (vpcc_fb b) ;; write_uint (vpcc_profile b) 8 ;; write_uint (vpcc_level b) 8 ;;
  write_uint (vpcc_bit_depth b) 4 ;; write_uint (vpcc_chroma_sub_sampling b) 3 ;;
  write_uint (vpcc_video_full_range_flag b) 1 ;; write_uint (vpcc_colour_primaries b) 8 ;;
  write_uint (vpcc_transfer_characteristics b) 8 ;; write_uint (vpcc_matrix_coefficients b) 8 ;;
  (if v0 (vpcc_fb b) then wskip
   else write_uint (to_u 16 (Zlen (vpcc_codec_initialization_data b))) 16 ;;
        write_vector_uint 8 (vpcc_codec_initialization_data b)).
(** vpc.cpp:54-59 *)
Definition VPCodecConfiguration_getDataSize (b : vpcc) : Z :=
  if v0 (vpcc_fb b) then 10 else 12 + Zlen (vpcc_codec_initialization_data b).
(** vpc.cpp:61-79 *)
Definition VPCodecConfiguration_readData : R vpcc :=
  fb <- readVersionAndFlag; p <- read_uint 8 8; l <- read_uint 8 8; b <- read_uint 8 4; c <- read_uint 8 3;
  f <- read_uint 8 1; cp <- read_uint 8 8; tc <- read_uint 8 8; mc <- read_uint 8 8;
  if v0 fb then rret (mk_vpcc fb p l b c f cp tc mc [])
  else n <- read_uint 16 16; d <- read_vector_uint 8 (Z.to_nat n); rret (mk_vpcc fb p l b c f cp tc mc d).

(** * av1C *)
Record av1c := mk_av1c {
  av1c_marker : Z; av1c_version : Z; av1c_seq_profile : Z; av1c_seq_level_idx_0 : Z; av1c_seq_tier_0 : Z;
  av1c_high_bitdepth : bool; av1c_twelve_bit : bool; av1c_monochrome : bool; av1c_chroma_subsampling_x : Z;
  av1c_chroma_subsampling_y : Z; av1c_chroma_sample_position : Z; av1c_reserved : Z;
  av1c_initial_presentation_delay_present : bool; av1c_initial_presentation_delay_minus_one : Z;
  av1c_config_OBUs : list Z }.
(** av1c.cpp:42-59 *)
Definition AV1CodecConfiguration_writeData (b : av1c) : W :=
  write_uint (av1c_marker b) 1 ;; write_uint (av1c_version b) 7 ;; write_uint (av1c_seq_profile b) 3 ;;
  write_uint (av1c_seq_level_idx_0 b) 5 ;; write_uint (av1c_seq_tier_0 b) 1 ;; write_bool (av1c_high_bitdepth b) ;;
  write_bool (av1c_twelve_bit b) ;; write_bool (av1c_monochrome b) ;; write_uint (av1c_chroma_subsampling_x b) 1 ;;
  write_uint (av1c_chroma_subsampling_y b) 1 ;; write_uint (av1c_chroma_sample_position b) 2 ;;
  write_uint (av1c_reserved b) 3 ;; write_bool (av1c_initial_presentation_delay_present b) ;;
  write_uint (av1c_initial_presentation_delay_minus_one b) 4 ;; write_vector_uint 8 (av1c_config_OBUs b).
(** av1c.cpp:61-63 *)
Definition AV1CodecConfiguration_getDataSize (b : av1c) : Z := 4 + Zlen (av1c_config_OBUs b).
(** av1c.cpp:65-84 *)
Definition AV1CodecConfiguration_readData : R av1c :=
  m <- read_uint 8 1; v <- read_uint 8 7; p <- read_uint 8 3; l <- read_uint 8 5; t <- read_uint 8 1;
  hb <- read_bool; tb <- read_bool; mo <- read_bool; cx <- read_uint 8 1; cy <- read_uint 8 1; cp <- read_uint 8 2;
  r <- read_uint 8 3; ip <- read_bool; im <- read_uint 8 4; o <- read_rest;
  rret (mk_av1c m v p l t hb tb mo cx cy cp r ip im o).

(** * avcC *)
Record avcc := mk_avcc {
  avcc_configuration_version : Z; avcc_profile : Z; avcc_profile_compatibility : Z; avcc_level : Z;
  avcc_reserved : Z; avcc_length_size_minus_one : Z; avcc_reserved2 : Z;
  avcc_sps : list (list Z); avcc_pps : list (list Z); avcc_high_profile_fields_enabled : bool;
  avcc_reserved3 : Z; avcc_chroma_format : Z; avcc_reserved4 : Z; avcc_bit_depth_luma_minus8 : Z;
  avcc_reserved5 : Z; avcc_bit_depth_chroma_minus8 : Z; avcc_sps_ext : list (list Z) }.
(** is_avc_high_profile, avc.cpp:23-46; constants avc.hpp:22-35 *)
Definition is_avc_high_profile (p : Z) : bool :=
  existsb (Z.eqb p) [86; 100; 110; 118; 122; 128; 138; 144; 244].
(** AVCParameterSet::writeData, avc.cpp:54-58 (a parameter set is its octets) *)
Definition AVCParameterSet_writeData (s : list Z) : W := write_uint (to_u 16 (Zlen s)) 16 ;; write_vector_uint 8 s.
(** AVCParameterSet::readData, avc.cpp:60-65 *)
Definition AVCParameterSet_readData : R (list Z) := n <- read_uint 16 16; read_vector_uint 8 (Z.to_nat n).
(** AVCParameterSet::getSize, avc.cpp:67-69 *)
Definition AVCParameterSet_getSize (s : list Z) : Z := 2 + Zlen s.
(** avc.cpp:128-163 *)
Definition AVCDecoderConfiguration_writeData (b : avcc) : W :=
  write_uint (avcc_configuration_version b) 8 ;; write_uint (avcc_profile b) 8 ;;
  write_uint (avcc_profile_compatibility b) 8 ;; write_uint (avcc_level b) 8 ;; write_uint (avcc_reserved b) 6 ;;
  write_uint (avcc_length_size_minus_one b) 2 ;; write_uint (avcc_reserved2 b) 3 ;;
  write_uint (to_u 8 (Zlen (avcc_sps b))) 5 ;; wlist AVCParameterSet_writeData (avcc_sps b) ;;
  write_uint (to_u 8 (Zlen (avcc_pps b))) 8 ;; wlist AVCParameterSet_writeData (avcc_pps b) ;;
  (if negb (avcc_high_profile_fields_enabled b) then wskip
   else if negb (is_avc_high_profile (avcc_profile b)) then wthrow RuntimeError
   else write_uint (avcc_reserved3 b) 6 ;; write_uint (avcc_chroma_format b) 2 ;; write_uint (avcc_reserved4 b) 5 ;;
        write_uint (avcc_bit_depth_luma_minus8 b) 3 ;; write_uint (avcc_reserved5 b) 5 ;;
        write_uint (avcc_bit_depth_chroma_minus8 b) 3 ;; write_uint (to_u 8 (Zlen (avcc_sps_ext b))) 8 ;;
        wlist AVCParameterSet_writeData (avcc_sps_ext b)).
(** avc.cpp:165-211; the members left alone keep 63, 31, 31 (avc.hpp:98,100,102) *)
Definition AVCDecoderConfiguration_readData : R avcc :=
  cv <- read_uint 8 8; p <- read_uint 8 8; pc <- read_uint 8 8; lv <- read_uint 8 8; r <- read_uint 8 6;
  ls <- read_uint 8 2; r2 <- read_uint 8 3; ns <- read_uint 8 5; sps <- rrepeat (Z.to_nat ns) AVCParameterSet_readData;
  np <- read_uint 8 8; pps <- rrepeat (Z.to_nat np) AVCParameterSet_readData;
  if negb (is_avc_high_profile p) then rret (mk_avcc cv p pc lv r ls r2 sps pps false 63 0 31 0 31 0 [])
  else n <- offset_to_end;
       if n <? 4 then _ <- rtick (n * 8); rret (mk_avcc cv p pc lv r ls r2 sps pps false 63 0 31 0 31 0 [])
       else r3 <- read_uint 8 6; cf <- read_uint 8 2; r4 <- read_uint 8 5; bl <- read_uint 8 3; r5 <- read_uint 8 5;
            bc <- read_uint 8 3; ne <- read_uint 8 8; ext <- rrepeat (Z.to_nat ne) AVCParameterSet_readData;
            rret (mk_avcc cv p pc lv r ls r2 sps pps true r3 cf r4 bl r5 bc ext).
(** avc.cpp:213-227 *)
Definition AVCDecoderConfiguration_getDataSize (b : avcc) : Z :=
  6 + sumZ AVCParameterSet_getSize (avcc_sps b) + 1 + sumZ AVCParameterSet_getSize (avcc_pps b)
  + (if avcc_high_profile_fields_enabled b then 4 + sumZ AVCParameterSet_getSize (avcc_sps_ext b) else 0).

(** * Sample entries *)
Record visual_entry := mk_visual_entry {
  vse_reserved : list Z; vse_data_reference_index : Z; vse_pre_defined : Z; vse_reserved2 : Z; vse_pre_defined2 : list Z;
  vse_width : Z; vse_height : Z; vse_horizresolution : Z; vse_vertresolution : Z; vse_reserved3 : Z;
  vse_frame_count : Z; vse_compressorname : list Z; vse_depth : Z; vse_pre_defined3 : Z }.
(** sample_entry.cpp:72-91 (with 23-29) *)
Definition VisualSampleEntry_writeData (b : visual_entry) : W :=
  wlist (fun c => write_uint c 8) (vse_reserved b) ;; write_uint (vse_data_reference_index b) 16 ;;
  write_uint (vse_pre_defined b) 16 ;; write_uint (vse_reserved2 b) 16 ;;
  wlist (fun c => write_uint c 32) (vse_pre_defined2 b) ;; write_uint (vse_width b) 16 ;; write_uint (vse_height b) 16 ;;
  write_uint (vse_horizresolution b) 32 ;; write_uint (vse_vertresolution b) 32 ;; write_uint (vse_reserved3 b) 32 ;;
  write_uint (vse_frame_count b) 16 ;; wlist (fun c => write_uint c 8) (vse_compressorname b) ;;
  write_uint (vse_depth b) 16 ;; write_int (vse_pre_defined3 b) 16.
(** sample_entry.cpp:93-95 *)
Definition VisualSampleEntry_getDataSize (b : visual_entry) : Z := 8 + 4 + 3 * 4 + 18 + 32 + 4.
(** sample_entry.cpp:97-116 (with 31-38) *)
Definition VisualSampleEntry_readData : R visual_entry :=
  r <- rrepeat 6 (read_uint 8 8); i <- read_uint 16 16; p <- read_uint 16 16; r2 <- read_uint 16 16;
  p2 <- rrepeat 3 (read_uint 32 32); w <- read_uint 16 16; h <- read_uint 16 16; hr <- read_uint 32 32;
  vr <- read_uint 32 32; r3 <- read_uint 32 32; fc <- read_uint 16 16; cn <- rrepeat 32 (read_uint 8 8);
  d <- read_uint 16 16; p3 <- read_int 16 16;
  rret (mk_visual_entry r i p r2 p2 w h hr vr r3 fc cn d p3).

(** [ase_type] is m_type (the reading code looks at it), [ase_under_wave] is m_under_wave. *)
Record audio_entry := mk_audio_entry {
  ase_type : list Z; ase_reserved : list Z; ase_data_reference_index : Z; ase_entry_version : Z; ase_reserved2 : list Z;
  ase_channel_count : Z; ase_sample_size : Z; ase_pre_defined : Z; ase_reserved3 : Z; ase_sample_rate : Z;
  ase_is_quick_time_compatible : bool; ase_quick_time_data : list Z; ase_under_wave : bool }.
(** sample_entry.cpp:150-166 (with 23-29) *)
Definition AudioSampleEntry_writeData (b : audio_entry) : W :=
  wlist (fun c => write_uint c 8) (ase_reserved b) ;; write_uint (ase_data_reference_index b) 16 ;;
  write_uint (ase_entry_version b) 16 ;; wlist (fun c => write_uint c 16) (ase_reserved2 b) ;;
  write_uint (ase_channel_count b) 16 ;; write_uint (ase_sample_size b) 16 ;; write_uint (ase_pre_defined b) 16 ;;
  write_uint (ase_reserved3 b) 16 ;; write_uint (ase_sample_rate b) 32 ;;
  (if negb (ase_is_quick_time_compatible b) then wskip else write_vector_uint 8 (ase_quick_time_data b)).
(** sample_entry.cpp:168-174 *)
Definition AudioSampleEntry_getDataSize (b : audio_entry) : Z :=
  8 + 8 + 8 + 4 + (if negb (ase_is_quick_time_compatible b) then 0 else Zlen (ase_quick_time_data b)).
(** "Opus", sample_entry.cpp:194 *)
Definition cc_Opus : list Z := [79; 112; 117; 115].
(** sample_entry.cpp:176-206 with getLengthOfQuickTimeData (208-225) inlined.  BoxMap creates the object with
    [new AudioSampleEntry()] (value-initialisation of a class with a defaulted constructor: all members zero). *)
Definition AudioSampleEntry_readData (type : list Z) (under_wave : bool) : R audio_entry :=
  if under_wave then
    q <- read_rest; rret (mk_audio_entry type [0;0;0;0;0;0] 0 0 [0;0;0] 0 0 0 0 0 false q true)
  else
    r <- rrepeat 6 (read_uint 8 8); i <- read_uint 16 16; v <- read_uint 16 16; r2 <- rrepeat 3 (read_uint 16 16);
    c <- read_uint 16 16; s <- read_uint 16 16; p <- read_uint 16 16; r3 <- read_uint 16 16; sr <- read_uint 32 32;
    if list_eqb type cc_Opus || (v =? 0) then rret (mk_audio_entry type r i v r2 c s p r3 sr false [] false)
    else n <- offset_to_end;
         if n =? 0 then rret (mk_audio_entry type r i v r2 c s p r3 sr false [] false)
         else q <- read_vector_uint 8 (Z.to_nat (if v =? 1 then 16 else if v =? 2 then 36 else n));
              rret (mk_audio_entry type r i v r2 c s p r3 sr true q false).
(** AudioSampleEntry::checkLengthOfQuickTimeData, sample_entry.cpp:227-247, run by the constructor: false = throws *)
Definition AudioSampleEntry_checkLengthOfQuickTimeData (b : audio_entry) : bool :=
  let length := Zlen (ase_quick_time_data b) in
  if negb (ase_is_quick_time_compatible b) && (length >? 0) then false
  else if ase_under_wave b then true
  else if (ase_entry_version b =? 1) && negb (length =? 16) then false
  else if (ase_entry_version b =? 2) && negb (length =? 36) then false
  else true.

(* ------------------------------------------------------------------------------------------------------------- *)
(** * esds and its descriptors *)

(** The members of ESDescriptor that are written, esds.hpp:67-75 (url_string etc. only when the flag is set). *)
Record es_fields := mk_es_fields {
  es_ESID : Z; es_stream_dependence_flag : bool; es_url_flag : bool; es_ocr_stream_flag : bool; es_stream_priority : Z;
  es_depends_on_esid : Z; es_url_string : list Z; es_OCRESID : Z }.
(** The members of DecoderConfigDescriptor that are written, esds.hpp:105-111. *)
Record dcd_fields := mk_dcd_fields {
  dcd_object_type_indication : Z; dcd_stream_type : Z; dcd_upstream : bool; dcd_reserved : bool;
  dcd_buffer_size_db : Z; dcd_max_bitrate : Z; dcd_avg_bitrate : Z }.
(** The Descriptor class hierarchy, esds.hpp:20-153: ESDescriptor, DecoderConfigDescriptor, DecSpecificInfo,
    SLConfigDescr.  [sds] is m_sub_descriptors_size, [subs] is m_sub_descriptors (esds.cpp:350-356 appends to it). *)
Inductive descriptor :=
  | DES (f : es_fields) (sds : Z) (subs : list descriptor)
  | DCD (f : dcd_fields) (sds : Z) (subs : list descriptor)
  | DSI (data : list Z)
  | DSL (data : list Z).
(** esds.hpp:36-39 *)
Definition ESDescrTag := 3.
Definition DecoderConfigDescrTag := 4.
Definition DecSpecificInfoTag := 5.
Definition SLConfigDescrTag := 6.
(** ESDescriptor::getDataSize, esds.cpp:83-95 (uint32_t) *)
Definition ESDescriptor_getDataSize (f : es_fields) : Z :=
  to_u 32 (3 + (if es_stream_dependence_flag f then 2 else 0)
             + (if es_url_flag f then 1 + Zlen (es_url_string f) else 0)
             + (if es_ocr_stream_flag f then 2 else 0)).
(** Descriptor::getSize, esds.cpp:68-70, 171-173, 224-226, 260-262 *)
Definition Descriptor_getSize (d : descriptor) : Z :=
  match d with
  | DES f _ _ => 1 + 4 + ESDescriptor_getDataSize f
  | DCD _ _ _ => 1 + 13 + 4
  | DSI l => 1 + 4 + Zlen l
  | DSL l => 1 + 4 + Zlen l
  end.
(** getDataSizeWithSubDescriptors, esds.cpp:72-81, 175-182, 232-234, 268-270 (uint32_t sums) *)
Fixpoint getDataSizeWithSubDescriptors (d : descriptor) : Z :=
  match d with
  | DES f sds subs =>
      if sds >? 0 then to_u 32 (ESDescriptor_getDataSize f + sds)
      else to_u 32 (ESDescriptor_getDataSize f +
                    (fix go l := match l with [] => 0 | x :: r => 5 + getDataSizeWithSubDescriptors x + go r end) subs)
  | DCD _ sds subs => if sds >? 0 then to_u 32 (13 + sds) else to_u 32 (13 + sumZ Descriptor_getSize subs)
  | DSI l => to_u 32 (Zlen l)
  | DSL l => to_u 32 (Zlen l)
  end.
(** Descriptor::writeData, esds.cpp:42-66, 158-169, 218-222, 254-258.  Sub-descriptors are not written. *)
Definition Descriptor_writeData (d : descriptor) : W :=
  match d with
  | DES f _ _ =>
      write_int ESDescrTag 8 ;; write_uvarint 4 (getDataSizeWithSubDescriptors d) ;; write_uint (es_ESID f) 16 ;;
      write_bool (es_stream_dependence_flag f) ;; write_bool (es_url_flag f) ;; write_bool (es_ocr_stream_flag f) ;;
      write_int (es_stream_priority f) 5 ;;
      wwhen (es_stream_dependence_flag f) (write_uint (es_depends_on_esid f) 16) ;;
      wwhen (es_url_flag f)
        (if Zlen (es_url_string f) >? 255 then wthrow RuntimeError
         else write_uint (to_u 8 (Zlen (es_url_string f))) 8 ;; write_vector_uint 8 (es_url_string f)) ;;
      wwhen (es_ocr_stream_flag f) (write_uint (es_OCRESID f) 16)
  | DCD f _ _ =>
      write_int DecoderConfigDescrTag 8 ;; write_uvarint 4 (getDataSizeWithSubDescriptors d) ;;
      write_uint (dcd_object_type_indication f) 8 ;; write_int (dcd_stream_type f) 6 ;; write_bool (dcd_upstream f) ;;
      write_bool (dcd_reserved f) ;; write_uint (dcd_buffer_size_db f) 24 ;; write_uint (dcd_max_bitrate f) 32 ;;
      write_uint (dcd_avg_bitrate f) 32
  | DSI l => write_int DecSpecificInfoTag 8 ;; write_uvarint 4 (to_u 32 (Zlen l)) ;; write_vector_uint 8 l
  | DSL l => write_int SLConfigDescrTag 8 ;; write_uvarint 4 (to_u 32 (Zlen l)) ;; write_vector_uint 8 l
  end.
(** ESDescriptor::readData, esds.cpp:97-119 *)
Definition ESDescriptor_readData : R descriptor :=
  n <- read_uvarint 32; i <- read_uint 16 16; a <- read_bool; b <- read_bool; c <- read_bool; p <- read_int 8 5;
  d <- rwhen a (read_uint 16 16);
  u <- (if b then k <- read_uint 8 8; read_vector_uint 8 (Z.to_nat k) else rret []);
  o <- rwhen c (read_uint 16 16);
  let f := mk_es_fields i a b c p d u o in
  rret (DES f (to_u 32 (n - ESDescriptor_getDataSize f)) []).
(** DecoderConfigDescriptor::readData, esds.cpp:188-200 *)
Definition DecoderConfigDescriptor_readData : R descriptor :=
  n <- read_uvarint 32; o <- read_uint 8 8; s <- read_int 8 6; u <- read_bool; r <- read_bool; b <- read_uint 32 24;
  m <- read_uint 32 32; a <- read_uint 32 32;
  rret (DCD (mk_dcd_fields o s u r b m a) (to_u 32 (n - 13)) []).
(** DecSpecificInfo::readData, esds.cpp:236-240 *)
Definition DecSpecificInfo_readData : R descriptor :=
  n <- read_uvarint 32; l <- read_vector_uint 8 (Z.to_nat n); rret (DSI l).
(** SLConfigDescr::readData, esds.cpp:272-276 *)
Definition SLConfigDescr_readData : R descriptor :=
  n <- read_uvarint 32; l <- read_vector_uint 8 (Z.to_nat n); rret (DSL l).

Record esds := mk_esds { esds_fb : fullbox; esds_descriptors : list descriptor }.
(** esds.cpp:302-308 *)
Definition Esds_writeData (b : esds) : W := writeVersionAndFlag (esds_fb b) ;; wlist Descriptor_writeData (esds_descriptors b).
(** esds.cpp:310-313 *)
Definition Esds_getDataSize (b : esds) : Z := 4 + sumZ Descriptor_getSize (esds_descriptors b).
(** The loop of Esds::readData, esds.cpp:319-346.  [fuel] bounds the iterations; every iteration consumes at least one
    octet, so [Esds_readData] supplies enough (running out is the outcome UB, proved unreachable). *)
Fixpoint Esds_loop (fuel : nat) (acc : list descriptor) : R (list descriptor) :=
  match fuel with
  | O => rub
  | S k =>
      n <- offset_to_end;
      if n =? 0 then rret acc
      else tag <- read_int 8 8;
           if tag =? ESDescrTag then d <- ESDescriptor_readData; Esds_loop k (acc ++ [d])
           else if tag =? DecoderConfigDescrTag then d <- DecoderConfigDescriptor_readData; Esds_loop k (acc ++ [d])
           else if tag =? DecSpecificInfoTag then d <- DecSpecificInfo_readData; Esds_loop k (acc ++ [d])
           else if tag =? SLConfigDescrTag then d <- SLConfigDescr_readData; Esds_loop k (acc ++ [d])
           else _ <- rtick (n * 8); rret acc
  end.
(** esds.cpp:315-348 *)
Definition Esds_readData : R esds := fun r =>
  (fb <- readVersionAndFlag; l <- Esds_loop (S (length (r_data r))) []; rret (mk_esds fb l)) r.

(* ------------------------------------------------------------------------------------------------------------- *)
(** * sgpd and its entries *)

(** RollDistance, sgpd.hpp:38-40 *)
Record roll_distance := mk_roll_distance { rd_description_length : Z; rd_roll_distance : Z; rd_with_length : bool }.
(** AlternativeStartupEntryOpt, sgpd.hpp:59-60 *)
Record alst_opt := mk_alst_opt { alsto_num_output_samples : Z; alsto_num_total_samples : Z }.
(** AlternativeStartupEntry, sgpd.hpp:83-88 *)
Record alst_entry := mk_alst_entry {
  alste_description_length : Z; alste_with_length : bool; alste_roll_count : Z; alste_first_output_sample : Z;
  alste_sample_offsets : list Z; alste_opts : list alst_opt }.
(** VisualRandomAccessEntry, sgpd.hpp:109-112 *)
Record vra_entry := mk_vra_entry {
  vra_description_length : Z; vra_num_leading_samples_known : bool; vra_num_leading_samples : Z; vra_with_length : bool }.
(** TemporalLevelEntry, sgpd.hpp:132-135 *)
Record tele_entry := mk_tele_entry {
  tele_description_length : Z; tele_level_independently_decodable : bool; tele_reserved : Z; tele_with_length : bool }.
Record sgpd := mk_sgpd {
  sgpd_fb : fullbox; sgpd_grouping_type : list Z; sgpd_default_length : Z; sgpd_default_sample_description_index : Z;
  sgpd_roll_distances : list roll_distance; sgpd_alternative_startup_entries : list alst_entry;
  sgpd_visual_random_access_entries : list vra_entry; sgpd_temporal_level_entries : list tele_entry }.
(** grouping_type.hpp:10-14 *)
Definition gt_roll : list Z := [114; 111; 108; 108].
Definition gt_prol : list Z := [112; 114; 111; 108].
Definition gt_alst : list Z := [97; 108; 115; 116].
Definition gt_rap : list Z := [114; 97; 112; 32].
Definition gt_tele : list Z := [116; 101; 108; 101].
(** sgpd.cpp:229-235 *)
Definition RollDistance_writeData (e : roll_distance) : W :=
  wwhen (rd_with_length e) (write_uint (rd_description_length e) 32) ;; write_int (rd_roll_distance e) 16.
(** sgpd.cpp:237-239 *)
Definition RollDistance_getSize (e : roll_distance) : Z := 2 + (if rd_with_length e then 4 else 0).
(** sgpd.cpp:241-248 *)
Definition RollDistance_readData (wl : bool) : R roll_distance :=
  n <- rwhen wl (read_uint 32 32); d <- read_int 16 16; rret (mk_roll_distance n d wl).
(** sgpd.cpp:257-260 *)
Definition AlstOpt_writeData (o : alst_opt) : W :=
  write_uint (alsto_num_output_samples o) 16 ;; write_uint (alsto_num_total_samples o) 16.
(** sgpd.cpp:262-265 *)
Definition AlstOpt_readData : R alst_opt := a <- read_uint 16 16; b <- read_uint 16 16; rret (mk_alst_opt a b).
(** sgpd.cpp:292-303 *)
Definition AlstEntry_writeData (e : alst_entry) : W :=
  wwhen (alste_with_length e) (write_uint (alste_description_length e) 32) ;;
  write_uint (alste_roll_count e) 16 ;; write_uint (alste_first_output_sample e) 16 ;;
  write_vector_uint 32 (alste_sample_offsets e) ;; wlist AlstOpt_writeData (alste_opts e).
(** sgpd.cpp:305-307 *)
Definition AlstEntry_getSize (e : alst_entry) : Z :=
  4 + 4 * Zlen (alste_sample_offsets e) + 4 * Zlen (alste_opts e) + (if alste_with_length e then 4 else 0).
(** sgpd.cpp:309-337.  [length] is the default length; [None] stands for the uninitialised m_default_length of a box
    whose version is not 1 (sgpd.hpp:165 has no initialiser): using it is undefined behaviour. *)
Definition AlstEntry_readData (length : option Z) (wl : bool) : R alst_entry :=
  match length with
  | None => rub
  | Some len =>
      ' (bits, (n, c, f, offs)) <-
        rcount (n <- rwhen wl (read_uint 32 32); c <- read_uint 16 16; f <- read_uint 16 16;
                offs <- read_vector_uint 32 (Z.to_nat c); rret (n, c, f, offs));
      let offset := if wl then to_u 32 (n * 8) - (bits - 32) else to_u 32 (len * 8) - bits in
      if (offset <? 0) || negb (Z.rem offset 32 =? 0) then rthrow RuntimeError
      else opts <- rrepeat (Z.to_nat (offset / 32)) AlstOpt_readData; rret (mk_alst_entry n wl c f offs opts)
  end.
(** sgpd.cpp:357-364 *)
Definition VraEntry_writeData (e : vra_entry) : W :=
  wwhen (vra_with_length e) (write_uint (vra_description_length e) 32) ;;
  write_bool (vra_num_leading_samples_known e) ;; write_uint (vra_num_leading_samples e) 7.
(** sgpd.cpp:366-368 *)
Definition VraEntry_getSize (e : vra_entry) : Z := 1 + (if vra_with_length e then 4 else 0).
(** sgpd.cpp:370-378 *)
Definition VraEntry_readData (wl : bool) : R vra_entry :=
  n <- rwhen wl (read_uint 32 32); k <- read_bool; s <- read_uint 8 7; rret (mk_vra_entry n k s wl).
(** sgpd.cpp:396-403 *)
Definition TeleEntry_writeData (e : tele_entry) : W :=
  wwhen (tele_with_length e) (write_uint (tele_description_length e) 32) ;;
  write_bool (tele_level_independently_decodable e) ;; write_uint (tele_reserved e) 7.
(** sgpd.cpp:405-407 *)
Definition TeleEntry_getSize (e : tele_entry) : Z := 1 + (if tele_with_length e then 4 else 0).
(** sgpd.cpp:409-417 *)
Definition TeleEntry_readData (wl : bool) : R tele_entry :=
  n <- rwhen wl (read_uint 32 32); k <- read_bool; r <- read_uint 8 7; rret (mk_tele_entry n k r wl).
(** The test [m_grouping_type == GroupingTypeRoll || m_grouping_type == GroupingTypeProl], sgpd.cpp:113,145,174 *)
Definition gt_is_roll (g : list Z) : bool := list_eqb g gt_roll || list_eqb g gt_prol.
(** sgpd.cpp:104-142 *)
Definition Sgpd_writeData (b : sgpd) : W :=
  writeVersionAndFlag (sgpd_fb b) ;; write_array_uint8 (sgpd_grouping_type b) ;;
  (if fb_version (sgpd_fb b) =? 1 then write_uint (sgpd_default_length b) 32
   else write_uint (sgpd_default_sample_description_index b) 32) ;;
  (if gt_is_roll (sgpd_grouping_type b) then
     write_uint (to_u 32 (Zlen (sgpd_roll_distances b))) 32 ;; wlist RollDistance_writeData (sgpd_roll_distances b)
   else if list_eqb (sgpd_grouping_type b) gt_alst then
     write_uint (to_u 32 (Zlen (sgpd_alternative_startup_entries b))) 32 ;;
     wlist AlstEntry_writeData (sgpd_alternative_startup_entries b)
   else if list_eqb (sgpd_grouping_type b) gt_rap then
     write_uint (to_u 32 (Zlen (sgpd_visual_random_access_entries b))) 32 ;;
     wlist VraEntry_writeData (sgpd_visual_random_access_entries b)
   else if list_eqb (sgpd_grouping_type b) gt_tele then
     write_uint (to_u 32 (Zlen (sgpd_temporal_level_entries b))) 32 ;;
     wlist TeleEntry_writeData (sgpd_temporal_level_entries b)
   else wskip).
(** sgpd.cpp:144-162 *)
Definition Sgpd_getDataSize (b : sgpd) : Z :=
  if gt_is_roll (sgpd_grouping_type b) then 16 + sumZ RollDistance_getSize (sgpd_roll_distances b)
  else if list_eqb (sgpd_grouping_type b) gt_alst then 16 + sumZ AlstEntry_getSize (sgpd_alternative_startup_entries b)
  else if list_eqb (sgpd_grouping_type b) gt_rap then 16 + sumZ VraEntry_getSize (sgpd_visual_random_access_entries b)
  else if list_eqb (sgpd_grouping_type b) gt_tele then 16 + sumZ TeleEntry_getSize (sgpd_temporal_level_entries b)
  else 12.
(** sgpd.cpp:164-211 (with noDefaultLength, 213-215).  The member that is not read is 0 in the resulting record. *)
Definition Sgpd_readData : R sgpd :=
  fb <- readVersionAndFlag; g <- read_array_uint8_4; v <- read_uint 32 32;
  let one := fb_version fb =? 1 in
  let len := if one then v else 0 in
  let idx := if one then 0 else v in
  let ndl := one && (len =? 0) in
  if gt_is_roll g then
    n <- read_uint 32 32; l <- rrepeat (Z.to_nat n) (RollDistance_readData ndl); rret (mk_sgpd fb g len idx l [] [] [])
  else if list_eqb g gt_alst then
    n <- read_uint 32 32; l <- rrepeat (Z.to_nat n) (AlstEntry_readData (if one then Some len else None) ndl);
    rret (mk_sgpd fb g len idx [] l [] [])
  else if list_eqb g gt_rap then
    n <- read_uint 32 32; l <- rrepeat (Z.to_nat n) (VraEntry_readData ndl); rret (mk_sgpd fb g len idx [] [] l [])
  else if list_eqb g gt_tele then
    n <- read_uint 32 32; l <- rrepeat (Z.to_nat n) (TeleEntry_readData ndl); rret (mk_sgpd fb g len idx [] [] [] l)
  else rret (mk_sgpd fb g len idx [] [] [] []).
