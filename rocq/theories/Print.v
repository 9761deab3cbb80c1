(** Model of the printing functions: toStringOnlyData of the box classes (src/box/*.cpp), toString of their entries,
    BoxHeader::toString (src/box_header.cpp), Box::toString (src/box.cpp), BoxInfo::toString (src/box_info.cpp) and the
    part of SimpleReader::read that prints (src/reader/reader.cpp).  No proofs in this file.

    They matter beyond display: BoxInfo::write evaluates Box::toString as an argument of spdlog::trace whatever the log
    level is (box_info.cpp:84), and SimpleReader::read prints every box before it returns (reader.cpp:42-44).

    A text is a list of character codes.  {fmt} is not part of /repo; the replacement fields used are modelled by the
    functions of the first section. *)
From Verif Require Import Base BitIO Boxes Box TimeSpec Time.
From Coq Require Import Ascii String List.
Import ListNotations.
Open Scope Z_scope.
Open Scope list_scope.

(** * {fmt} *)

(** The characters of a literal; doubled braces of a format string stand for one. *)
Definition lit (s : string) : list Z := map (fun c => Z.of_nat (nat_of_ascii c)) (list_ascii_of_string s).
(** The digits of [n] >= 0 in a base up to 16, most significant first, put in front of [acc]; [fuel] is at least their
    number. *)
Fixpoint digits (base : Z) (fuel : nat) (n : Z) (acc : list Z) : list Z :=
  match fuel with
  | O => acc
  | S f => if n <? base then hex_digit n :: acc else digits base f (n / base) (hex_digit (n mod base) :: acc)
  end.
Definition number (base n : Z) : list Z := digits base (S (Z.to_nat (Z.log2 n))) n [].
(** {} of an integer *)
Definition dec (z : Z) : list Z := if z <? 0 then 45 :: number 10 (- z) else number 10 z.
(** {:#x} of an integer *)
Definition hex (z : Z) : list Z := if z <? 0 then lit "-0x" ++ number 16 (- z) else lit "0x" ++ number 16 z.
(** {} of a bool *)
Definition boolean (b : bool) : list Z := if b then lit "true" else lit "false".
(** fmt::join *)
Fixpoint join (sep : list Z) (l : list (list Z)) : list Z :=
  match l with
  | [] => []
  | [x] => x
  | x :: r => x ++ sep ++ join sep r
  end.
(** fmt::join(l, ", ") in {} and in {:#x} *)
Definition decs (l : list Z) : list Z := join (lit ", ") (map dec l).
Definition hexs (l : list Z) : list Z := join (lit ", ") (map hex l).
Definition texts {A} (f : A -> list Z) (l : list A) : list Z := join (lit ", ") (map f l).
(** {:.4f} and {:.2f} of z / 2^k: the quotient is exact in double (float for smhd: 16 bits) and is rounded to the nearest
    decimal, to even on ties (C55_getters, C55_printed) *)
Definition fixed (places : nat) (den z : Z) : list Z :=
  let n := Z.abs z * 10 ^ Z.of_nat places in
  let q := n / den in
  let r := n mod den in
  let q' := if (2 * r >? den) || ((2 * r =? den) && Z.odd q) then q + 1 else q in
  (if z <? 0 then [45] else []) ++ number 10 (q' / 10 ^ Z.of_nat places) ++ [46] ++ decimal places q'.

(** * Boxes *)

(** FullBox::getVersionAndFlagsString, box.cpp:132-134 *)
Definition version_flags (fb : fullbox) : list Z :=
  lit "Version=" ++ dec (fb_version fb) ++ lit " Flags=0x" ++ hex2 (fb_f0 fb) ++ hex2 (fb_f1 fb) ++ hex2 (fb_f2 fb).

(** btrt.cpp:32-35 *)
Definition Btrt_toString (b : btrt) : list Z :=
  lit "DecodingBufferSize=" ++ dec (btrt_decoding_buffer_size b) ++ lit " MaxBitrate=" ++ dec (btrt_max_bitrate b) ++
  lit " AvgBitrate=" ++ dec (btrt_avg_bitrate b).
(** co64.cpp:33-36 *)
Definition Co64_toString (b : co64) : list Z :=
  version_flags (co64_fb b) ++ lit " EntryCount=" ++ dec (Zlen (co64_chunk_offsets b)) ++ lit " ChunkOffsets=[" ++
  hexs (co64_chunk_offsets b) ++ lit "]".
(** colr.cpp:36-64 *)
Definition Colr_toString (b : colr) : list Z :=
  lit "ColourType=""" ++ colr_colour_type b ++ lit """" ++
  (if list_eqb (colr_colour_type b) (lit "nclx") then
     lit " ColourPrimaries=" ++ dec (colr_colour_primaries b) ++ lit " TransferCharacteristics=" ++ dec (colr_transfer_characteristics b) ++
     lit " MatrixCoefficients=" ++ dec (colr_matrix_coefficients b) ++ lit " FullRangeFlag=" ++ boolean (colr_full_range_flag b)
   else if list_eqb (colr_colour_type b) (lit "rICC") || list_eqb (colr_colour_type b) (lit "prof") then
     lit " Profile=[" ++ hexs (colr_profile b) ++ lit "]"
   else lit " Unknown=[" ++ hexs (colr_unknown b) ++ lit "]").
(** ctts.cpp:26-28 *)
Definition CttsEntry_toString (e : ctts_entry) : list Z :=
  lit "{SampleCount=" ++ dec (cttse_sample_count e) ++ lit " SampleOffset=" ++ dec (cttse_sample_offset e) ++ lit "}".
(** ctts.cpp:56-63 *)
Definition Ctts_toString (b : ctts) : list Z :=
  version_flags (ctts_fb b) ++ lit " EntryCount=" ++ dec (Zlen (ctts_entries b)) ++ lit " Entries=[" ++ texts CttsEntry_toString (ctts_entries b) ++ lit "]".
(** dOps.cpp:26-34, 76-79 *)
Definition DOps_toString (b : dops) : list Z :=
  lit "Version=" ++ dec (dops_version b) ++ lit " OutputChannelCount=" ++ dec (dops_output_channel_count b) ++ lit " PreSkip=" ++ dec (dops_pre_skip b) ++
  lit " InputSampleRate=" ++ dec (dops_input_sample_rate b) ++ lit " OutputGain=" ++ dec (dops_output_gain b) ++
  lit " ChannelMappingFamily=" ++ dec (dops_channel_mapping_family b) ++
  (if dops_channel_mapping_family b =? 0 then []
   else lit " StreamCount=" ++ dec (dopst_stream_count (dops_table_ b)) ++ lit " CoupledCount=" ++ dec (dopst_coupled_count (dops_table_ b)) ++
        lit " ChannelMapping=[" ++ decs (dopst_channel_mapping (dops_table_ b)) ++ lit "]").
(** data_type_to_string, data.hpp:26-47 *)
Definition data_type_to_string (t : Z) : list Z :=
  if t =? 0 then lit "BINARY" else if t =? 1 then lit "UTF8" else if t =? 2 then lit "UTF16" else if t =? 3 then lit "MAC_STR"
  else if t =? 14 then lit "JPEG" else if t =? 21 then lit "INT" else if t =? 22 then lit "FLOAT32" else if t =? 23 then lit "FLOAT64" else [].
(** data.cpp:34-49 *)
Definition Data_toString (b : data) : list Z :=
  lit "DataType=" ++ data_type_to_string (data_type b) ++ lit " DataLang=" ++ dec (data_lang b) ++ lit " " ++
  (if data_type b =? 1 then lit "Data=""" ++ map (fun c => if isprint c then c else 46) (data_data b) ++ lit """"
   else lit "Data=[" ++ hexs (data_data b) ++ lit "]").
(** dref.cpp:31-33, stsd.cpp:31-33 *)
Definition Dref_toString (b : dref) : list Z := version_flags (dref_fb b) ++ lit " EntryCount=" ++ dec (dref_entry_count b).
Definition Stsd_toString (b : stsd) : list Z := version_flags (stsd_fb b) ++ lit " EntryCount=" ++ dec (stsd_entry_count b).
(** elst.cpp:26-29, 45-47 *)
Definition ElstEntry_toString (e : elst_entry) : list Z :=
  lit "{TrackDuration=" ++ dec (elste_track_duration e) ++ lit " MediaTime=" ++ dec (elste_media_time e) ++ lit " MediaRate=" ++
  fixed 4 65536 (elste_media_rate e) ++ lit "}".
(** elst.cpp:63-70 *)
Definition Elst_toString (b : elst) : list Z :=
  version_flags (elst_fb b) ++ lit " EntryCount=" ++ dec (Zlen (elst_entries b)) ++ lit " Entries=[" ++ texts ElstEntry_toString (elst_entries b) ++ lit "]".
(** emsg.cpp:41-53 *)
Definition Emsg_toString (b : emsg) : list Z :=
  version_flags (emsg_fb b) ++ lit " SchemeIdUri=""" ++ emsg_scheme_uri b ++ lit """ Value=""" ++ emsg_value b ++ lit """ Timescale=" ++
  dec (emsg_timescale b) ++ (if v0 (emsg_fb b) then lit " PresentationTimeDelta=" else lit " PresentationTime=") ++ dec (emsg_presentation_time b) ++
  lit " EventDuration=" ++ dec (emsg_event_duration b) ++ lit " Id=" ++ dec (emsg_id b) ++ lit " MessageData=""" ++ emsg_message_data b ++ lit """".
(** esds.cpp:121-140, 201-208, 242-244, 278-280 *)
Definition Descriptor_toString (d : descriptor) : list Z :=
  match d with
  | DES f _ _ =>
      lit "{Tag=ESDescr DataSize=" ++ dec (ESDescriptor_getDataSize f) ++ lit " DataSizeWithSubDescriptors=" ++ dec (getDataSizeWithSubDescriptors d) ++
      lit " ESID=" ++ dec (es_ESID f) ++ lit " StreamDependenceFlag=" ++ boolean (es_stream_dependence_flag f) ++ lit " UrlFlag=" ++ boolean (es_url_flag f) ++
      lit " OcrStreamFlag=" ++ boolean (es_ocr_stream_flag f) ++ lit " StreamPriority=" ++ dec (es_stream_priority f) ++
      (if es_stream_dependence_flag f then lit " DependsOnESID=" ++ dec (es_depends_on_esid f) else []) ++
      (if es_url_flag f then lit " URLLength=" ++ hex (Zlen (es_url_string f)) ++ lit " URLString=""" ++ es_url_string f ++ lit """" else []) ++
      (if es_ocr_stream_flag f then lit " OCRESID=" ++ dec (es_OCRESID f) else []) ++ lit "}"
  | DCD f _ _ =>
      lit "{Tag=DecoderConfigDescr DataSize=" ++ dec 13 ++ lit " DataSizeWithSubDescriptors=" ++ dec (getDataSizeWithSubDescriptors d) ++
      lit " ObjectTypeIndication=" ++ hex (dcd_object_type_indication f) ++ lit " StreamType=" ++ dec (dcd_stream_type f) ++ lit " UpStream=" ++ boolean (dcd_upstream f) ++
      lit " Reserved=" ++ boolean (dcd_reserved f) ++ lit " BufferSizeDB=" ++ dec (dcd_buffer_size_db f) ++ lit " MaxBitrate=" ++ dec (dcd_max_bitrate f) ++
      lit " AvgBitrate=" ++ dec (dcd_avg_bitrate f) ++ lit "}"
  | DSI l => lit "{Tag=DecSpecificInfo DataSize=" ++ dec (to_u 32 (Zlen l)) ++ lit " Data=[" ++ hexs l ++ lit "]}"
  | DSL l => lit "{Tag=SLConfigDescr DataSize=" ++ dec (to_u 32 (Zlen l)) ++ lit " Data=[" ++ hexs l ++ lit "]}"
  end.
(** esds.cpp:294-300 *)
Definition Esds_toString (b : esds) : list Z :=
  version_flags (esds_fb b) ++ lit " Descriptors=[" ++ texts Descriptor_toString (esds_descriptors b) ++ lit "]".
(** fiel.cpp:29-31 *)
Definition Fiel_toString (b : fiel) : list Z := lit "FieldCount=" ++ dec (fiel_field_count b) ++ lit " FieldOrdering=" ++ dec (fiel_field_ordering b).
(** free.cpp:32-34, mdat.cpp:32-34, skip.cpp:32-34; unsupported.cpp:32-34 *)
Definition Raw_toString (d : list Z) : list Z := lit "Data=[" ++ hexs d ++ lit "]".
Definition Unsupported_toString (d : list Z) : list Z := lit "(unsupported) Data=[" ++ hexs d ++ lit "]".
(** ftyp.cpp:40-51, styp.cpp:40-51 *)
Definition Ftyp_toString (b : ftyp) : list Z :=
  lit "MajorBrand=""" ++ ftyp_major_brand b ++ lit """ MinorVersion=" ++ dec (ftyp_minor_version b) ++ lit " CompatibleBrands=[" ++
  texts (fun x => lit "{CompatibleBrand=""" ++ x ++ lit """}") (ftyp_compatible_brands b) ++ lit "]".
(** hdlr.cpp:37-41 *)
Definition Hdlr_toString (b : hdlr) : list Z :=
  version_flags (hdlr_fb b) ++ lit " PreDefined=" ++ dec (hdlr_pre_defined b) ++ lit " HandlerType=""" ++ hdlr_handler_type b ++ lit """ Name=""" ++ hdlr_name b ++ lit """".
(** iods.cpp:39-46 *)
Definition Iods_toString (b : iods) : list Z :=
  version_flags (iods_fb b) ++ lit " TypeTag=" ++ hex (iods_type_tag b) ++ lit " ODID=" ++ dec (iods_OD_ID b) ++ lit " ODProfileLevel=" ++ hex (iods_OD_profile_level b) ++
  lit " SceneProfileLevel=" ++ hex (iods_scene_profile_level b) ++ lit " AudioProfileLevel=" ++ hex (iods_audio_profile_level b) ++
  lit " VideoProfileLevel=" ++ hex (iods_video_profile_level b) ++ lit " GraphicsProfileLevel=" ++ hex (iods_graphics_profile_level b).
(** The part of mvhd, tkhd and mdhd that formats two times, in argument order *)
Definition with_times (creation modification : Z) (f : list Z -> list Z -> list Z) : outcome (list Z) :=
  match format_epoch_19040101 creation with
  | Ok c => match format_epoch_19040101 modification with
            | Ok m => Ok (f c m)
            | Throw e => Throw e
            | UB => UB
            end
  | Throw e => Throw e
  | UB => UB
  end.
(** mdhd.cpp:41-47 *)
Definition Mdhd_toString (b : mdhd) : outcome (list Z) :=
  with_times (mdhd_creation_time b) (mdhd_modification_time b) (fun c m =>
  version_flags (mdhd_fb b) ++ lit " CreationTime=""" ++ c ++ lit """ ModificationTime=""" ++ m ++ lit """ Timescale=" ++ dec (mdhd_timescale b) ++
  lit " Duration=" ++ dec (mdhd_duration b) ++ lit " Pad=" ++ boolean (mdhd_pad b) ++ lit " Language=""" ++ mdhd_language b ++ lit """ PreDefined=" ++ dec (mdhd_pre_defined b)).
(** mehd.cpp:31-33 *)
Definition Mehd_toString (b : mehd) : list Z := version_flags (mehd_fb b) ++ lit " FragmentDuration=" ++ dec (mehd_fragment_duration b).
(** mfhd.cpp:31-33 *)
Definition Mfhd_toString (b : mfhd) : list Z := version_flags (mfhd_fb b) ++ lit " SequenceNumber=" ++ dec (mfhd_sequence_number b).
(** mfro.cpp:31-33 *)
Definition Mfro_toString (b : mfro) : list Z := version_flags (mfro_fb b) ++ lit " Size=" ++ dec (mfro_size b).
(** mvhd.cpp:43-53 *)
Definition Mvhd_toString (b : mvhd) : outcome (list Z) :=
  with_times (mvhd_creation_time b) (mvhd_modification_time b) (fun c m =>
  version_flags (mvhd_fb b) ++ lit " CreationTime=""" ++ c ++ lit """ ModificationTime=""" ++ m ++ lit """ Timescale=" ++ dec (mvhd_timescale b) ++
  lit " Duration=" ++ dec (mvhd_duration b) ++ lit " Rate=" ++ fixed 4 65536 (mvhd_rate b) ++ lit " Volume=" ++ dec (mvhd_volume b) ++
  lit " Matrix=[" ++ hexs (mvhd_matrix b) ++ lit "] PreDefined=[" ++ decs (mvhd_pre_defined b) ++ lit "] NextTrackID=" ++ dec (mvhd_next_track_id b)).
(** pixel_aspect_ratio.cpp:30-32 *)
Definition PixelAspectRatio_toString (b : pasp) : list Z := lit "HSpacing=" ++ dec (pasp_h_spacing b) ++ lit " VSpacing=" ++ dec (pasp_v_spacing b).
(** pssh.cpp:23-25, 57-67 *)
Definition Pssh_toString (b : pssh) : list Z :=
  version_flags (pssh_fb b) ++ lit " SystemID=""" ++ flat_map hex2 (pssh_system_id b) ++ lit """" ++
  (if v0 (pssh_fb b) then []
   else lit " KIDCount=" ++ dec (Zlen (pssh_kids b)) ++ lit " KIDs=[" ++ join (lit " ") (map (fun k => lit """" ++ flat_map hex2 k ++ lit """") (pssh_kids b)) ++ lit "]") ++
  lit " DataSize=" ++ dec (Zlen (pssh_data b)) ++ lit " Data=[" ++ hexs (pssh_data b) ++ lit "]".
(** sbgp.cpp:24-26 *)
Definition SbgpEntry_toString (e : sbgp_entry) : list Z :=
  lit "{SampleCount=" ++ dec (sbgpe_sample_count e) ++ lit " GroupDescriptionIndex=" ++ dec (sbgpe_group_description_index e) ++ lit "}".
(** sbgp.cpp:55-65 *)
Definition Sbgp_toString (b : sbgp) : list Z :=
  version_flags (sbgp_fb b) ++ lit " GroupingType=""" ++ sbgp_grouping_type b ++ lit """" ++
  (if v0 (sbgp_fb b) then [] else lit " GroupingTypeParameter=" ++ dec (sbgp_grouping_type_parameter b)) ++
  lit " EntryCount=" ++ dec (Zlen (sbgp_entries b)) ++ lit " Entries=[" ++ texts SbgpEntry_toString (sbgp_entries b) ++ lit "]".
(** sdtp.cpp:73-76 *)
Definition SdtpSample_toString (e : sdtp_sample) : list Z :=
  lit "{IsLeading=" ++ hex (sdtps_is_leading e) ++ lit " SampleDependsOn=" ++ hex (sdtps_depends_on e) ++ lit " SampleIsDependedOn=" ++ hex (sdtps_is_depended_on e) ++
  lit " SampleHasRedundancy=" ++ hex (sdtps_has_redundancy e) ++ lit "}".
(** sdtp.cpp:36-42 *)
Definition Sdtp_toString (b : sdtp) : list Z := version_flags (sdtp_fb b) ++ lit " Samples=[" ++ texts SdtpSample_toString (sdtp_samples b) ++ lit "]".
(** "{DescriptionLength={} " or "{", sgpd.cpp:281-286, 347-352, 387-392 *)
Definition entry_open (with_length : bool) (length : Z) : list Z :=
  if with_length then lit "{DescriptionLength=" ++ dec length ++ lit " " else lit "{".
(** sgpd.cpp:222-227 *)
Definition RollDistance_toString (e : roll_distance) : list Z :=
  if rd_with_length e then lit "{DescriptionLength=" ++ dec (rd_description_length e) ++ lit " RollDistance=" ++ dec (rd_roll_distance e) ++ lit "}"
  else dec (rd_roll_distance e).
(** sgpd.cpp:253-255 *)
Definition AlstOpt_toString (o : alst_opt) : list Z :=
  lit "{NumOutputSamples=" ++ dec (alsto_num_output_samples o) ++ lit " NumTotalSamples=" ++ dec (alsto_num_total_samples o) ++ lit "}".
(** sgpd.cpp:276-290 *)
Definition AlstEntry_toString (e : alst_entry) : list Z :=
  entry_open (alste_with_length e) (alste_description_length e) ++ lit "RollCount=" ++ dec (alste_roll_count e) ++
  lit " FirstOutputSample=" ++ dec (alste_first_output_sample e) ++ lit " SampleOffset=[" ++ decs (alste_sample_offsets e) ++ lit "] Opts=[" ++
  texts AlstOpt_toString (alste_opts e) ++ lit "]}".
(** sgpd.cpp:346-355 *)
Definition VraEntry_toString (e : vra_entry) : list Z :=
  entry_open (vra_with_length e) (vra_description_length e) ++ lit "NumLeadingSamplesKnown=" ++ boolean (vra_num_leading_samples_known e) ++
  lit " NumLeadingSamples=" ++ hex (vra_num_leading_samples e) ++ lit "}".
(** sgpd.cpp:386-394 *)
Definition TeleEntry_toString (e : tele_entry) : list Z :=
  entry_open (tele_with_length e) (tele_description_length e) ++ lit "LevelIndependentlyRecodable=" ++ boolean (tele_level_independently_decodable e) ++ lit "}".
(** sgpd.cpp:46-102 (noDefaultLength: 213-215) *)
Definition Sgpd_toString (b : sgpd) : list Z :=
  let no_default_length := (fb_version (sgpd_fb b) =? 1) && (sgpd_default_length b =? 0) in
  let entries {A} (name : list Z) (f : A -> list Z) (l : list A) :=
    lit " EntryCount=" ++ dec (Zlen l) ++ lit " " ++ name ++ (if no_default_length then lit "L=[" else lit "=[") ++ texts f l ++ lit "]" in
  version_flags (sgpd_fb b) ++ lit " GroupingType=""" ++ sgpd_grouping_type b ++ lit """" ++
  (if fb_version (sgpd_fb b) =? 1 then lit " DefaultLength=" ++ dec (sgpd_default_length b)
   else lit " DefaultSampleDescriptionIndex=" ++ dec (sgpd_default_sample_description_index b)) ++
  (if gt_is_roll (sgpd_grouping_type b) then entries (lit "RollDistances") RollDistance_toString (sgpd_roll_distances b)
   else if list_eqb (sgpd_grouping_type b) gt_alst then entries (lit "AlternativeStartupEntries") AlstEntry_toString (sgpd_alternative_startup_entries b)
   else if list_eqb (sgpd_grouping_type b) gt_rap then entries (lit "VisualRandomAccessEntries") VraEntry_toString (sgpd_visual_random_access_entries b)
   else if list_eqb (sgpd_grouping_type b) gt_tele then entries (lit "TemporalLevelEntries") TeleEntry_toString (sgpd_temporal_level_entries b)
   else []).
(** sidx.cpp:98-103 *)
Definition SidxReference_toString (r : sidx_ref) : list Z :=
  lit "{ReferenceType=" ++ boolean (sidxr_reference_type r) ++ lit " ReferencedSize=" ++ dec (sidxr_reference_size r) ++ lit " SubsegmentDuration=" ++
  dec (sidxr_subsegment_duration r) ++ lit " StartsWithSAP=" ++ boolean (sidxr_starts_with_sap r) ++ lit " SAPType=" ++ dec (sidxr_sap_type r) ++
  lit " SAPDeltaTime=" ++ dec (sidxr_sap_delta_time r) ++ lit "}".
(** sidx.cpp:40-50 *)
Definition Sidx_toString (b : sidx) : list Z :=
  version_flags (sidx_fb b) ++ lit " ReferenceID=" ++ dec (sidx_reference_id b) ++ lit " Timescale=" ++ dec (sidx_timescale b) ++
  lit " EarliestPresentationTime=" ++ dec (sidx_earliest_presentation_time b) ++ lit " FirstOffset=" ++ dec (sidx_first_offset b) ++
  lit " ReferenceCount=" ++ dec (Zlen (sidx_references b)) ++ lit " References=[" ++ texts SidxReference_toString (sidx_references b) ++ lit "]".
(** smhd.cpp:31-33, 53-55 *)
Definition Smhd_toString (b : smhd) : list Z := version_flags (smhd_fb b) ++ lit " Balance=" ++ fixed 2 256 (smhd_balance b).
(** stco.cpp:33-36 *)
Definition Stco_toString (b : stco) : list Z :=
  version_flags (stco_fb b) ++ lit " EntryCount=" ++ dec (Zlen (stco_chunk_offsets b)) ++ lit " ChunkOffsets=[" ++ hexs (stco_chunk_offsets b) ++ lit "]".
(** stsc.cpp:75-78 *)
Definition StscEntry_toString (e : stsc_entry) : list Z :=
  lit "{FirstChunk=" ++ dec (stsce_first_chunk e) ++ lit " SamplesPerChunk=" ++ dec (stsce_sample_per_chunk e) ++ lit " SampleDescriptionIndex=" ++
  dec (stsce_sample_description_index e) ++ lit "}".
(** stsc.cpp:36-42 *)
Definition Stsc_toString (b : stsc) : list Z :=
  version_flags (stsc_fb b) ++ lit " EntryCount=" ++ dec (Zlen (stsc_entries b)) ++ lit " Entries=[" ++ texts StscEntry_toString (stsc_entries b) ++ lit "]".
(** stss.cpp:33-36 *)
Definition Stss_toString (b : stss) : list Z :=
  version_flags (stss_fb b) ++ lit " EntryCount=" ++ dec (Zlen (stss_sample_numbers b)) ++ lit " SampleNumbers=[" ++ decs (stss_sample_numbers b) ++ lit "]".
(** stsz.cpp:33-36 *)
Definition Stsz_toString (b : stsz) : list Z :=
  version_flags (stsz_fb b) ++ lit " SampleSize=" ++ dec (stsz_sample_size b) ++ lit " SampleCount=" ++ dec (Zlen (stsz_entry_sizes b)) ++
  lit " EntrySizes=[" ++ decs (stsz_entry_sizes b) ++ lit "]".
(** stts.cpp:73-75 *)
Definition SttsEntry_toString (e : stts_entry) : list Z :=
  lit "{SampleCount=" ++ dec (sttse_sample_count e) ++ lit " SampleDuration=" ++ dec (sttse_sample_duration e) ++ lit "}".
(** stts.cpp:36-42 *)
Definition Stts_toString (b : stts) : list Z :=
  version_flags (stts_fb b) ++ lit " EntryCount=" ++ dec (Zlen (stts_entries b)) ++ lit " Entries=[" ++ texts SttsEntry_toString (stts_entries b) ++ lit "]".
(** tfdt.cpp:31-33 *)
Definition Tfdt_toString (b : tfdt) : list Z := version_flags (tfdt_fb b) ++ lit " BaseMediaDecodeTime=" ++ dec (tfdt_base_media_decode_time b).
(** tfhd.cpp:37-56 (flags: tfhd.hpp:12-20) *)
Definition Tfhd_toString (b : tfhd) : list Z :=
  version_flags (tfhd_fb b) ++ lit " TrackID=" ++ dec (tfhd_track_id b) ++
  (if checkFlag (tfhd_fb b) 1 then lit " BaseDataOffset=" ++ dec (tfhd_base_data_offset b) else []) ++
  (if checkFlag (tfhd_fb b) 2 then lit " SampleDescriptionIndex=" ++ dec (tfhd_sample_description_index b) else []) ++
  (if checkFlag (tfhd_fb b) 8 then lit " DefaultSampleDuration=" ++ dec (tfhd_default_sample_duration b) else []) ++
  (if checkFlag (tfhd_fb b) 16 then lit " DefaultSampleSize=" ++ dec (tfhd_default_sample_size b) else []) ++
  (if checkFlag (tfhd_fb b) 32 then lit " DefaultSampleFlags=" ++ hex (tfhd_default_sample_flags b) else []).
(** tfra.cpp:101-104 *)
Definition TfraEntry_toString (e : tfra_entry) : list Z :=
  lit "{Time=" ++ dec (tfrae_time e) ++ lit " MoofOffset=" ++ dec (tfrae_moof_offset e) ++ lit " TrafNumber=" ++ dec (tfrae_traf_number e) ++
  lit " TrunNumber=" ++ dec (tfrae_trun_number e) ++ lit " SampleNumber=" ++ dec (tfrae_sample_number e) ++ lit "}".
(** tfra.cpp:41-50 *)
Definition Tfra_toString (b : tfra) : list Z :=
  version_flags (tfra_fb b) ++ lit " TrackID=" ++ dec (tfra_track_id b) ++ lit " LengthSizeOfTrafNum=" ++ hex (tfra_length_size_of_traf_num b) ++
  lit " LengthSizeOfTrunNum=" ++ hex (tfra_length_size_of_trun_num b) ++ lit " LengthSizeOfSampleNum=" ++ hex (tfra_length_size_of_sample_num b) ++
  lit " NumberOfEntry=" ++ dec (Zlen (tfra_entries b)) ++ lit " Entries=[" ++ texts TfraEntry_toString (tfra_entries b) ++ lit "]".
(** tkhd.cpp:44-51, 114-120 *)
Definition Tkhd_toString (b : tkhd) : outcome (list Z) :=
  with_times (tkhd_creation_time b) (tkhd_modification_time b) (fun c m =>
  version_flags (tkhd_fb b) ++ lit " CreationTime=""" ++ c ++ lit """ ModificationTime=""" ++ m ++ lit """ TrackID=" ++ dec (tkhd_track_id b) ++
  lit " Duration=" ++ dec (tkhd_duration b) ++ lit " Layer=" ++ dec (tkhd_layer b) ++ lit " AlternateGroup=" ++ dec (tkhd_alternate_group b) ++
  lit " Volume=" ++ dec (tkhd_volume b) ++ lit " Matrix=[" ++ hexs (tkhd_matrix b) ++ lit "] Width=" ++ fixed 4 65536 (tkhd_width b) ++
  lit " Height=" ++ fixed 4 65536 (tkhd_height b)).
(** trex.cpp:36-42 *)
Definition Trex_toString (b : trex) : list Z :=
  version_flags (trex_fb b) ++ lit " TrackID=" ++ dec (trex_track_id b) ++ lit " DefaultSampleDescriptionIndex=" ++ dec (trex_default_sample_description_index b) ++
  lit " DefaultSampleDuration=" ++ dec (trex_default_sample_duration b) ++ lit " DefaultSampleSize=" ++ dec (trex_default_sample_size b) ++
  lit " DefaultSampleFlags=" ++ hex (trex_default_sample_flags b).
(** trun.cpp:108-125 *)
Definition TrunEntry_toString (fb : fullbox) (e : trun_entry) : list Z :=
  lit "{" ++ join (lit " ")
    ((if checkFlag fb 256 then [lit "SampleDuration=" ++ dec (trune_sample_duration e)] else []) ++
     (if checkFlag fb 512 then [lit "SampleSize=" ++ dec (trune_sample_size e)] else []) ++
     (if checkFlag fb 1024 then [lit "SampleFlags=" ++ hex (trune_sample_flags e)] else []) ++
     (if checkFlag fb 2048 then [lit "SampleCompositionTimeOffset=" ++ dec (trune_composition_time_offset e)] else [])) ++ lit "}".
(** trun.cpp:36-49 *)
Definition Trun_toString (b : trun) : list Z :=
  version_flags (trun_fb b) ++ lit " SampleCount=" ++ dec (Zlen (trun_entries b)) ++
  (if checkFlag (trun_fb b) 1 then lit " DataOffset=" ++ dec (trun_data_offset b) else []) ++
  (if checkFlag (trun_fb b) 4 then lit " FirstSampleFlags=" ++ hex (trun_first_sample_flags b) else []) ++
  lit " Entries=[" ++ texts (TrunEntry_toString (trun_fb b)) (trun_entries b) ++ lit "]".
(** url.cpp:33-38 *)
Definition Url_toString (b : url) : list Z :=
  if checkFlag (url_fb b) 1 then version_flags (url_fb b) else version_flags (url_fb b) ++ lit " Location=""" ++ url_location b ++ lit """".
(** urn.cpp:33-38 *)
Definition Urn_toString (b : urn) : list Z :=
  if checkFlag (urn_fb b) 1 then version_flags (urn_fb b)
  else version_flags (urn_fb b) ++ lit " Name=""" ++ urn_name b ++ lit """ Location=""" ++ urn_location b ++ lit """".
(** vmhd.cpp:32-35 *)
Definition Vmhd_toString (b : vmhd) : list Z :=
  version_flags (vmhd_fb b) ++ lit " Graphicsmode=" ++ dec (vmhd_graphicsmode b) ++ lit " Opcolor=[" ++ decs (vmhd_opcolor b) ++ lit "]".
(** vpc.cpp:26-33 *)
Definition VPCodecConfiguration_toString (b : vpcc) : list Z :=
  version_flags (vpcc_fb b) ++ lit " Profile=" ++ dec (vpcc_profile b) ++ lit " Level=" ++ dec (vpcc_level b) ++ lit " BitDepth=" ++ dec (vpcc_bit_depth b) ++
  lit " ChromaSubSampling=" ++ dec (vpcc_chroma_sub_sampling b) ++ lit " VideoFullRangeFlag=" ++ dec (vpcc_video_full_range_flag b) ++
  lit " ColourPrimaries=" ++ dec (vpcc_colour_primaries b) ++ lit " TransferCharacteristics=" ++ dec (vpcc_transfer_characteristics b) ++
  lit " MatrixCoefficients=" ++ dec (vpcc_matrix_coefficients b) ++ lit " CodecInitializationData=[" ++ hexs (vpcc_codec_initialization_data b) ++ lit "]".
(** av1c.cpp:27-40 *)
Definition AV1CodecConfiguration_toString (b : av1c) : list Z :=
  lit "Marker=" ++ dec (av1c_marker b) ++ lit " Version=" ++ dec (av1c_version b) ++ lit " SeqProfile=" ++ dec (av1c_seq_profile b) ++
  lit " SeqLevelIdx0=" ++ dec (av1c_seq_level_idx_0 b) ++ lit " SeqTier0=" ++ dec (av1c_seq_tier_0 b) ++ lit " HighBitdepth=" ++ boolean (av1c_high_bitdepth b) ++
  lit " TwelveBit=" ++ boolean (av1c_twelve_bit b) ++ lit " Monochrome=" ++ boolean (av1c_monochrome b) ++ lit " ChromaSubsamplingX=" ++ dec (av1c_chroma_subsampling_x b) ++
  lit " ChromaSubsamplingY=" ++ dec (av1c_chroma_subsampling_y b) ++ lit " ChromaSamplePosition=" ++ dec (av1c_chroma_sample_position b) ++
  lit " InitialPresentationDelayPresent=" ++ boolean (av1c_initial_presentation_delay_present b) ++
  (if av1c_initial_presentation_delay_present b then lit " InitialPresentationDelayMinusOne=" ++ dec (av1c_initial_presentation_delay_minus_one b) else []) ++
  lit " ConfigOBUs=[" ++ hexs (av1c_config_OBUs b) ++ lit "]".
(** avc.cpp:50-52 *)
Definition AVCParameterSet_toString (s : list Z) : list Z := lit "{Length=" ++ dec (Zlen s) ++ lit " NALUnit=[" ++ hexs s ++ lit "]}".
(** avc.cpp:95-126 *)
Definition AVCDecoderConfiguration_toString (b : avcc) : list Z :=
  lit "ConfigurationVersion=" ++ hex (avcc_configuration_version b) ++ lit " Profile=" ++ hex (avcc_profile b) ++ lit " ProfileCompatibility=" ++ hex (avcc_profile_compatibility b) ++
  lit " Level=" ++ hex (avcc_level b) ++ lit " LengthSizeMinusOne=" ++ hex (avcc_length_size_minus_one b) ++ lit " NumOfSequenceParameterSets=" ++ hex (Zlen (avcc_sps b)) ++
  lit " SequenceParameterSets=[" ++ texts AVCParameterSet_toString (avcc_sps b) ++ lit "] NumOfPictureParameterSets=" ++ hex (Zlen (avcc_pps b)) ++
  lit " PictureParameterSets=[" ++ texts AVCParameterSet_toString (avcc_pps b) ++ lit "]" ++
  (if is_avc_high_profile (avcc_profile b) && avcc_high_profile_fields_enabled b then
     lit " ChromaFormat=" ++ hex (avcc_chroma_format b) ++ lit " BitDepthLumaMinus8=" ++ hex (avcc_bit_depth_luma_minus8 b) ++
     lit " BitDepthChromaMinus8=" ++ hex (avcc_bit_depth_chroma_minus8 b) ++ lit " NumOfSequenceParameterSetExt=" ++ hex (Zlen (avcc_sps_ext b)) ++
     lit " SequenceParameterSetsExt=[" ++ texts AVCParameterSet_toString (avcc_sps_ext b) ++ lit "]"
   else []).
(** sample_entry.cpp:59-70 (m_compressorname has 32 octets) *)
Definition VisualSampleEntry_toString (b : visual_entry) : list Z :=
  let size := Z.min (nth 0 (vse_compressorname b) 0) 31 in
  lit "DataReferenceIndex=" ++ dec (vse_data_reference_index b) ++ lit " PreDefined=" ++ dec (vse_pre_defined b) ++ lit " PreDefined2=[" ++ decs (vse_pre_defined2 b) ++
  lit "] Width=" ++ dec (vse_width b) ++ lit " Height=" ++ dec (vse_height b) ++ lit " Horizresolution=" ++ dec (vse_horizresolution b) ++
  lit " Vertresolution=" ++ dec (vse_vertresolution b) ++ lit " FrameCount=" ++ dec (vse_frame_count b) ++ lit " Compressorname=""" ++
  firstn (Z.to_nat size) (tl (vse_compressorname b)) ++ lit """ Depth=" ++ dec (vse_depth b) ++ lit " PreDefined3=" ++ dec (vse_pre_defined3 b).
(** sample_entry.cpp:136-148 *)
Definition AudioSampleEntry_toString (b : audio_entry) : list Z :=
  if ase_under_wave b then lit "QuickTimeData=[" ++ hexs (ase_quick_time_data b) ++ lit "]"
  else
    lit "DataReferenceIndex=" ++ dec (ase_data_reference_index b) ++ lit " EntryVersion=" ++ dec (ase_entry_version b) ++ lit " ChannelCount=" ++ dec (ase_channel_count b) ++
    lit " SampleSize=" ++ dec (ase_sample_size b) ++ lit " PreDefined=" ++ dec (ase_pre_defined b) ++ lit " SampleRate=" ++ dec (ase_sample_rate b) ++
    (if ase_is_quick_time_compatible b then lit " QuickTimeData=[" ++ hexs (ase_quick_time_data b) ++ lit "]" else []).

(** toStringOnlyData of the class of the box (containers print nothing, e.g. moov.cpp:19-21; meta.cpp:22-24) *)
Definition Box_toStringOnlyData (b : box) : outcome (list Z) :=
  match b with
  | B_container => Ok []
  | B_btrt b => Ok (Btrt_toString b)
  | B_co64 b => Ok (Co64_toString b)
  | B_colr b => Ok (Colr_toString b)
  | B_ctts b => Ok (Ctts_toString b)
  | B_dOps b => Ok (DOps_toString b)
  | B_data b => Ok (Data_toString b)
  | B_dref b => Ok (Dref_toString b)
  | B_elst b => Ok (Elst_toString b)
  | B_emsg b => Ok (Emsg_toString b)
  | B_esds b => Ok (Esds_toString b)
  | B_fiel b => Ok (Fiel_toString b)
  | B_free b | B_mdat b | B_skip b => Ok (Raw_toString b)
  | B_unsupported b => Ok (Unsupported_toString b)
  | B_ftyp b => Ok (Ftyp_toString b)
  | B_hdlr b => Ok (Hdlr_toString b)
  | B_iods b => Ok (Iods_toString b)
  | B_mdhd b => Mdhd_toString b
  | B_mehd b => Ok (Mehd_toString b)
  | B_meta fb => Ok (version_flags fb)
  | B_mfhd b => Ok (Mfhd_toString b)
  | B_mfro b => Ok (Mfro_toString b)
  | B_mvhd b => Mvhd_toString b
  | B_pasp b => Ok (PixelAspectRatio_toString b)
  | B_pssh b => Ok (Pssh_toString b)
  | B_sbgp b => Ok (Sbgp_toString b)
  | B_sdtp b => Ok (Sdtp_toString b)
  | B_sgpd b => Ok (Sgpd_toString b)
  | B_sidx b => Ok (Sidx_toString b)
  | B_smhd b => Ok (Smhd_toString b)
  | B_stco b => Ok (Stco_toString b)
  | B_stsc b => Ok (Stsc_toString b)
  | B_stsd b => Ok (Stsd_toString b)
  | B_stss b => Ok (Stss_toString b)
  | B_stsz b => Ok (Stsz_toString b)
  | B_stts b => Ok (Stts_toString b)
  | B_tfdt b => Ok (Tfdt_toString b)
  | B_tfhd b => Ok (Tfhd_toString b)
  | B_tfra b => Ok (Tfra_toString b)
  | B_tkhd b => Tkhd_toString b
  | B_trex b => Ok (Trex_toString b)
  | B_trun b => Ok (Trun_toString b)
  | B_url b => Ok (Url_toString b)
  | B_urn b => Ok (Urn_toString b)
  | B_vmhd b => Ok (Vmhd_toString b)
  | B_vpcC b => Ok (VPCodecConfiguration_toString b)
  | B_av1C b => Ok (AV1CodecConfiguration_toString b)
  | B_avcC b => Ok (AVCDecoderConfiguration_toString b)
  | B_visual b => Ok (VisualSampleEntry_toString b)
  | B_audio b => Ok (AudioSampleEntry_toString b)
  end.
