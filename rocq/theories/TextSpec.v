(** Specification of the text of a box: which of its fields are printed, under which names, in which order and how each
    value is written.  It does not use the printing functions of the model. *)
From Verif Require Import Base Boxes Box TimeSpec.
From Coq Require Import Ascii String List.
Import ListNotations.
Open Scope Z_scope.
Open Scope list_scope.

(** * Values and how they are written *)
Inductive value :=
  | Dec (n : Z)                              (* a decimal number *)
  | Hex (n : Z)                              (* a hexadecimal number after 0x *)
  | Bool (b : bool)                          (* true or false *)
  | Word (w : list Z)                        (* characters as they are *)
  | Octets (l : list Z)                      (* two hexadecimal digits per octet *)
  | Flags (fb : fullbox)                     (* the 24 flags: six hexadecimal digits after 0x *)
  | Quotient (n d : Z) (places : nat)        (* n / d with that many digits after the point *)
  | Time (t : Z)                             (* a number of seconds since 1904: its date and time *)
  | Quoted (v : value)                       (* in double quotes *)
  | Items (sep : string) (l : list value)    (* in brackets *)
  | Fields (l : list (string * value)).      (* in braces, name=value *)

Definition characters (s : string) : list Z := map (fun c => Z.of_nat (nat_of_ascii c)) (list_ascii_of_string s).
Definition digit (c : Z) : Z := if c <? 58 then c - 48 else c - 87.
Definition is_digit (base c : Z) : Prop := (48 <= c <= 57 \/ 97 <= c <= 102) /\ digit c < base.
Definition number_of (base : Z) (l : list Z) : Z := fold_left (fun v c => base * v + digit c) l 0.
(** Digits without leading zeros *)
Definition numeral (base : Z) (l : list Z) : Prop :=
  l <> [] /\ Forall (is_digit base) l /\ (hd 0 l = 48 -> l = [48]).
Definition sign (n : Z) : list Z := if n <? 0 then characters "-" else [].
Definition separated (sep : list Z) (l : list (list Z)) : list Z :=
  match l with
  | [] => []
  | x :: r => x ++ flat_map (fun y => sep ++ y) r
  end.
Definition named (names : list string) (ts : list (list Z)) : list (list Z) :=
  map (fun p => characters (fst p) ++ characters "=" ++ snd p) (combine names ts).

(** [printed v t]: [t] is how [v] is written. *)
Inductive printed : value -> list Z -> Prop :=
  | P_dec n l : numeral 10 l -> number_of 10 l = Z.abs n -> printed (Dec n) (sign n ++ l)
  | P_hex n l : numeral 16 l -> number_of 16 l = Z.abs n -> printed (Hex n) (sign n ++ characters "0x" ++ l)
  | P_true : printed (Bool true) (characters "true")
  | P_false : printed (Bool false) (characters "false")
  | P_word w : printed (Word w) w
  | P_octets l ds : (bytes l -> Forall2 (fun x d => length d = 2%nat /\ Forall (is_digit 16) d /\ number_of 16 d = x) l ds) ->
      printed (Octets l) (concat ds)
  | P_flags fb d : (bytes [fb_f0 fb; fb_f1 fb; fb_f2 fb] ->
        length d = 6%nat /\ Forall (is_digit 16) d /\ number_of 16 d = 65536 * fb_f0 fb + 256 * fb_f1 fb + fb_f2 fb) ->
      printed (Flags fb) (characters "0x" ++ d)
  (* the nearest number with that many places; of two, the one whose last digit is even *)
  | P_quotient n d places whole part : numeral 10 whole -> length part = places -> Forall (is_digit 10) part ->
      (let q := number_of 10 (whole ++ part) in
       let e := 2 * Z.abs (q * d - Z.abs n * 10 ^ Z.of_nat places) in e < d \/ (e = d /\ Z.even q = true)) ->
      printed (Quotient n d places) (sign n ++ whole ++ characters "." ++ part)
  | P_time t s : (0 <= t < 2082844800 + 2 ^ 32 -> s = instant (1904, 1, 1) t) ->
      (2082844800 + 2 ^ 32 <= t < 2 ^ 63 + 2082844800 -> s = iso8601 (0, 0, 0) 0 0 0) -> printed (Time t) s
  | P_quoted v t : printed v t -> printed (Quoted v) ([34] ++ t ++ [34])
  | P_items sep l ts : Forall2 printed l ts -> printed (Items sep l) (characters "[" ++ separated (characters sep) ts ++ characters "]")
  | P_fields l ts : Forall2 printed (map snd l) ts -> printed (Fields l) (characters "{" ++ separated (characters " ") (named (map fst l) ts) ++ characters "}").
(** Values for which the notation is stated: octets are octets, denominators are positive, times have a date. *)
Fixpoint definite (v : value) : Prop :=
  match v with
  | Octets l => bytes l
  | Flags fb => bytes [fb_f0 fb; fb_f1 fb; fb_f2 fb]
  | Quotient _ d _ => 0 < d
  | Time t => 0 <= t < 2 ^ 63 + 2082844800
  | Quoted v => definite v
  | Items _ l => (fix all l := match l with [] => True | x :: r => definite x /\ all r end) l
  | Fields l => (fix all (l : list (string * value)) := match l with [] => True | x :: r => definite (snd x) /\ all r end) l
  | _ => True
  end.
(** The text of a box: name=value, separated by spaces *)
Definition text_of (l : list (string * value)) (t : list Z) : Prop :=
  exists ts, Forall2 printed (map snd l) ts /\ t = separated (characters " ") (named (map fst l) ts).

(** * Fields *)
Open Scope string_scope.
Open Scope Z_scope.
Open Scope list_scope.
Definition field := (string * value)%type.
Definition list_of {A} (f : A -> value) (l : list A) : value := Items ", " (map f l).
Definition text (w : list Z) : value := Quoted (Word w).
Definition count {A} (l : list A) : value := Dec (Zlen l).
Definition hex_list (l : list Z) : value := list_of Hex l.
Definition full (fb : fullbox) : list field := [("Version", Dec (fb_version fb)); ("Flags", Flags fb)].
Definition optional (c : bool) (l : list field) : list field := if c then l else [].
(** The flag of value 2^k (FullBox::getFlags: C13_full_box_flags) *)
Definition has_flag (fb : fullbox) (k : Z) : bool := Z.testbit (getFlags fb) k.
Definition is_version_0 (fb : fullbox) : bool := fb_version fb =? 0.
Definition says (w : list Z) (s : string) : bool := if list_eq_dec Z.eq_dec w (characters s) then true else false.
(** Characters that cannot be printed are shown as full stops. *)
Definition visible (c : Z) : Z := if (32 <=? c) && (c <=? 126) then c else 46.

Definition data_type_name (t : Z) : string :=
  match t with
  | 0 => "BINARY" | 1 => "UTF8" | 2 => "UTF16" | 3 => "MAC_STR" | 14 => "JPEG" | 21 => "INT" | 22 => "FLOAT32" | 23 => "FLOAT64"
  | _ => ""
  end.
Definition descriptor_value (d : descriptor) : value :=
  match d with
  | DES f _ _ => Fields ([("Tag", Word (characters "ESDescr"));
      ("DataSize", Dec ((3 + (if es_stream_dependence_flag f then 2 else 0) + (if es_url_flag f then 1 + Zlen (es_url_string f) else 0) +
                         (if es_ocr_stream_flag f then 2 else 0)) mod 2 ^ 32));
      ("DataSizeWithSubDescriptors", Dec (getDataSizeWithSubDescriptors d)); ("ESID", Dec (es_ESID f));
      ("StreamDependenceFlag", Bool (es_stream_dependence_flag f)); ("UrlFlag", Bool (es_url_flag f)); ("OcrStreamFlag", Bool (es_ocr_stream_flag f));
      ("StreamPriority", Dec (es_stream_priority f))] ++
      optional (es_stream_dependence_flag f) [("DependsOnESID", Dec (es_depends_on_esid f))] ++
      optional (es_url_flag f) [("URLLength", Hex (Zlen (es_url_string f))); ("URLString", text (es_url_string f))] ++
      optional (es_ocr_stream_flag f) [("OCRESID", Dec (es_OCRESID f))])
  | DCD f _ _ => Fields [("Tag", Word (characters "DecoderConfigDescr")); ("DataSize", Dec 13);
      ("DataSizeWithSubDescriptors", Dec (getDataSizeWithSubDescriptors d)); ("ObjectTypeIndication", Hex (dcd_object_type_indication f));
      ("StreamType", Dec (dcd_stream_type f)); ("UpStream", Bool (dcd_upstream f)); ("Reserved", Bool (dcd_reserved f));
      ("BufferSizeDB", Dec (dcd_buffer_size_db f)); ("MaxBitrate", Dec (dcd_max_bitrate f)); ("AvgBitrate", Dec (dcd_avg_bitrate f))]
  | DSI l => Fields [("Tag", Word (characters "DecSpecificInfo")); ("DataSize", Dec (Zlen l mod 2 ^ 32)); ("Data", hex_list l)]
  | DSL l => Fields [("Tag", Word (characters "SLConfigDescr")); ("DataSize", Dec (Zlen l mod 2 ^ 32)); ("Data", hex_list l)]
  end.
Definition ctts_value (e : ctts_entry) := Fields [("SampleCount", Dec (cttse_sample_count e)); ("SampleOffset", Dec (cttse_sample_offset e))].
Definition elst_value (e : elst_entry) :=
  Fields [("TrackDuration", Dec (elste_track_duration e)); ("MediaTime", Dec (elste_media_time e)); ("MediaRate", Quotient (elste_media_rate e) 65536 4)].
Definition brand_value (w : list Z) := Fields [("CompatibleBrand", text w)].
Definition sbgp_value (e : sbgp_entry) :=
  Fields [("SampleCount", Dec (sbgpe_sample_count e)); ("GroupDescriptionIndex", Dec (sbgpe_group_description_index e))].
Definition sdtp_value (e : sdtp_sample) :=
  Fields [("IsLeading", Hex (sdtps_is_leading e)); ("SampleDependsOn", Hex (sdtps_depends_on e)); ("SampleIsDependedOn", Hex (sdtps_is_depended_on e));
          ("SampleHasRedundancy", Hex (sdtps_has_redundancy e))].
Definition roll_value (e : roll_distance) :=
  if rd_with_length e then Fields [("DescriptionLength", Dec (rd_description_length e)); ("RollDistance", Dec (rd_roll_distance e))]
  else Dec (rd_roll_distance e).
Definition opt_value (o : alst_opt) := Fields [("NumOutputSamples", Dec (alsto_num_output_samples o)); ("NumTotalSamples", Dec (alsto_num_total_samples o))].
Definition alst_value (e : alst_entry) :=
  Fields (optional (alste_with_length e) [("DescriptionLength", Dec (alste_description_length e))] ++
    [("RollCount", Dec (alste_roll_count e)); ("FirstOutputSample", Dec (alste_first_output_sample e));
     ("SampleOffset", list_of Dec (alste_sample_offsets e)); ("Opts", list_of opt_value (alste_opts e))]).
Definition rap_value (e : vra_entry) :=
  Fields (optional (vra_with_length e) [("DescriptionLength", Dec (vra_description_length e))] ++
    [("NumLeadingSamplesKnown", Bool (vra_num_leading_samples_known e)); ("NumLeadingSamples", Hex (vra_num_leading_samples e))]).
Definition tele_value (e : tele_entry) :=
  Fields (optional (tele_with_length e) [("DescriptionLength", Dec (tele_description_length e))] ++
    [("LevelIndependentlyRecodable", Bool (tele_level_independently_decodable e))]).
Definition sidx_value (r : sidx_ref) :=
  Fields [("ReferenceType", Bool (sidxr_reference_type r)); ("ReferencedSize", Dec (sidxr_reference_size r));
          ("SubsegmentDuration", Dec (sidxr_subsegment_duration r)); ("StartsWithSAP", Bool (sidxr_starts_with_sap r));
          ("SAPType", Dec (sidxr_sap_type r)); ("SAPDeltaTime", Dec (sidxr_sap_delta_time r))].
Definition stsc_value (e : stsc_entry) :=
  Fields [("FirstChunk", Dec (stsce_first_chunk e)); ("SamplesPerChunk", Dec (stsce_sample_per_chunk e));
          ("SampleDescriptionIndex", Dec (stsce_sample_description_index e))].
Definition stts_value (e : stts_entry) := Fields [("SampleCount", Dec (sttse_sample_count e)); ("SampleDuration", Dec (sttse_sample_duration e))].
Definition tfra_value (e : tfra_entry) :=
  Fields [("Time", Dec (tfrae_time e)); ("MoofOffset", Dec (tfrae_moof_offset e)); ("TrafNumber", Dec (tfrae_traf_number e));
          ("TrunNumber", Dec (tfrae_trun_number e)); ("SampleNumber", Dec (tfrae_sample_number e))].
(** Only the fields the flags of the box announce *)
Definition trun_value (fb : fullbox) (e : trun_entry) :=
  Fields (optional (has_flag fb 8) [("SampleDuration", Dec (trune_sample_duration e))] ++ optional (has_flag fb 9) [("SampleSize", Dec (trune_sample_size e))] ++
          optional (has_flag fb 10) [("SampleFlags", Hex (trune_sample_flags e))] ++
          optional (has_flag fb 11) [("SampleCompositionTimeOffset", Dec (trune_composition_time_offset e))]).
Definition nal_value (s : list Z) := Fields [("Length", count s); ("NALUnit", hex_list s)].
(** Entries of 'sgpd': the name ends in L when each entry has its own length. *)
Definition group {A} (own : bool) (name name_own : string) (f : A -> value) (l : list A) : list field :=
  [("EntryCount", count l); (if own then name_own else name, list_of f l)].
(** The octets of a compressor name are its length, at most 31, and its characters. *)
Definition compressor (l : list Z) : list Z := firstn (Z.to_nat (Z.min (hd 0 l) 31)) (tl l).

Definition fields_of (b : box) : list field :=
  match b with
  | B_container => []
  | B_btrt x => [("DecodingBufferSize", Dec (btrt_decoding_buffer_size x)); ("MaxBitrate", Dec (btrt_max_bitrate x)); ("AvgBitrate", Dec (btrt_avg_bitrate x))]
  | B_co64 x => full (co64_fb x) ++ [("EntryCount", count (co64_chunk_offsets x)); ("ChunkOffsets", hex_list (co64_chunk_offsets x))]
  | B_colr x => ("ColourType", text (colr_colour_type x)) ::
      (if says (colr_colour_type x) "nclx" then
         [("ColourPrimaries", Dec (colr_colour_primaries x)); ("TransferCharacteristics", Dec (colr_transfer_characteristics x));
          ("MatrixCoefficients", Dec (colr_matrix_coefficients x)); ("FullRangeFlag", Bool (colr_full_range_flag x))]
       else if says (colr_colour_type x) "rICC" || says (colr_colour_type x) "prof" then [("Profile", hex_list (colr_profile x))]
       else [("Unknown", hex_list (colr_unknown x))])
  | B_ctts x => full (ctts_fb x) ++ [("EntryCount", count (ctts_entries x)); ("Entries", list_of ctts_value (ctts_entries x))]
  | B_dOps x => [("Version", Dec (dops_version x)); ("OutputChannelCount", Dec (dops_output_channel_count x)); ("PreSkip", Dec (dops_pre_skip x));
      ("InputSampleRate", Dec (dops_input_sample_rate x)); ("OutputGain", Dec (dops_output_gain x)); ("ChannelMappingFamily", Dec (dops_channel_mapping_family x))] ++
      optional (negb (dops_channel_mapping_family x =? 0))
        [("StreamCount", Dec (dopst_stream_count (dops_table_ x))); ("CoupledCount", Dec (dopst_coupled_count (dops_table_ x)));
         ("ChannelMapping", list_of Dec (dopst_channel_mapping (dops_table_ x)))]
  | B_data x => [("DataType", Word (characters (data_type_name (data_type x)))); ("DataLang", Dec (data_lang x));
      ("Data", if data_type x =? 1 then text (map visible (data_data x)) else hex_list (data_data x))]
  | B_dref x => full (dref_fb x) ++ [("EntryCount", Dec (dref_entry_count x))]
  | B_stsd x => full (stsd_fb x) ++ [("EntryCount", Dec (stsd_entry_count x))]
  | B_elst x => full (elst_fb x) ++ [("EntryCount", count (elst_entries x)); ("Entries", list_of elst_value (elst_entries x))]
  | B_emsg x => full (emsg_fb x) ++ [("SchemeIdUri", text (emsg_scheme_uri x)); ("Value", text (emsg_value x)); ("Timescale", Dec (emsg_timescale x));
      (if is_version_0 (emsg_fb x) then "PresentationTimeDelta" else "PresentationTime", Dec (emsg_presentation_time x));
      ("EventDuration", Dec (emsg_event_duration x)); ("Id", Dec (emsg_id x)); ("MessageData", text (emsg_message_data x))]
  | B_esds x => full (esds_fb x) ++ [("Descriptors", list_of descriptor_value (esds_descriptors x))]
  | B_fiel x => [("FieldCount", Dec (fiel_field_count x)); ("FieldOrdering", Dec (fiel_field_ordering x))]
  | B_free x | B_mdat x | B_skip x => [("Data", hex_list x)]
  | B_unsupported x => [("(unsupported) Data", hex_list x)]
  | B_ftyp x => [("MajorBrand", text (ftyp_major_brand x)); ("MinorVersion", Dec (ftyp_minor_version x));
      ("CompatibleBrands", list_of brand_value (ftyp_compatible_brands x))]
  | B_hdlr x => full (hdlr_fb x) ++ [("PreDefined", Dec (hdlr_pre_defined x)); ("HandlerType", text (hdlr_handler_type x)); ("Name", text (hdlr_name x))]
  | B_iods x => full (iods_fb x) ++ [("TypeTag", Hex (iods_type_tag x)); ("ODID", Dec (iods_OD_ID x)); ("ODProfileLevel", Hex (iods_OD_profile_level x));
      ("SceneProfileLevel", Hex (iods_scene_profile_level x)); ("AudioProfileLevel", Hex (iods_audio_profile_level x));
      ("VideoProfileLevel", Hex (iods_video_profile_level x)); ("GraphicsProfileLevel", Hex (iods_graphics_profile_level x))]
  | B_mdhd x => full (mdhd_fb x) ++ [("CreationTime", Quoted (Time (mdhd_creation_time x))); ("ModificationTime", Quoted (Time (mdhd_modification_time x)));
      ("Timescale", Dec (mdhd_timescale x)); ("Duration", Dec (mdhd_duration x)); ("Pad", Bool (mdhd_pad x)); ("Language", text (mdhd_language x));
      ("PreDefined", Dec (mdhd_pre_defined x))]
  | B_mehd x => full (mehd_fb x) ++ [("FragmentDuration", Dec (mehd_fragment_duration x))]
  | B_meta fb => full fb
  | B_mfhd x => full (mfhd_fb x) ++ [("SequenceNumber", Dec (mfhd_sequence_number x))]
  | B_mfro x => full (mfro_fb x) ++ [("Size", Dec (mfro_size x))]
  | B_mvhd x => full (mvhd_fb x) ++ [("CreationTime", Quoted (Time (mvhd_creation_time x))); ("ModificationTime", Quoted (Time (mvhd_modification_time x)));
      ("Timescale", Dec (mvhd_timescale x)); ("Duration", Dec (mvhd_duration x)); ("Rate", Quotient (mvhd_rate x) 65536 4); ("Volume", Dec (mvhd_volume x));
      ("Matrix", hex_list (mvhd_matrix x)); ("PreDefined", list_of Dec (mvhd_pre_defined x)); ("NextTrackID", Dec (mvhd_next_track_id x))]
  | B_pasp x => [("HSpacing", Dec (pasp_h_spacing x)); ("VSpacing", Dec (pasp_v_spacing x))]
  | B_pssh x => full (pssh_fb x) ++ [("SystemID", Quoted (Octets (pssh_system_id x)))] ++
      optional (negb (is_version_0 (pssh_fb x))) [("KIDCount", count (pssh_kids x)); ("KIDs", Items " " (map (fun k => Quoted (Octets k)) (pssh_kids x)))] ++
      [("DataSize", count (pssh_data x)); ("Data", hex_list (pssh_data x))]
  | B_sbgp x => full (sbgp_fb x) ++ [("GroupingType", text (sbgp_grouping_type x))] ++
      optional (negb (is_version_0 (sbgp_fb x))) [("GroupingTypeParameter", Dec (sbgp_grouping_type_parameter x))] ++
      [("EntryCount", count (sbgp_entries x)); ("Entries", list_of sbgp_value (sbgp_entries x))]
  | B_sdtp x => full (sdtp_fb x) ++ [("Samples", list_of sdtp_value (sdtp_samples x))]
  | B_sgpd x =>
      let version_1 := fb_version (sgpd_fb x) =? 1 in
      let own := version_1 && (sgpd_default_length x =? 0) in
      full (sgpd_fb x) ++ [("GroupingType", text (sgpd_grouping_type x))] ++
      (if version_1 then [("DefaultLength", Dec (sgpd_default_length x))] else [("DefaultSampleDescriptionIndex", Dec (sgpd_default_sample_description_index x))]) ++
      (if says (sgpd_grouping_type x) "roll" || says (sgpd_grouping_type x) "prol" then
         group own "RollDistances" "RollDistancesL" roll_value (sgpd_roll_distances x)
       else if says (sgpd_grouping_type x) "alst" then
         group own "AlternativeStartupEntries" "AlternativeStartupEntriesL" alst_value (sgpd_alternative_startup_entries x)
       else if says (sgpd_grouping_type x) "rap " then
         group own "VisualRandomAccessEntries" "VisualRandomAccessEntriesL" rap_value (sgpd_visual_random_access_entries x)
       else if says (sgpd_grouping_type x) "tele" then
         group own "TemporalLevelEntries" "TemporalLevelEntriesL" tele_value (sgpd_temporal_level_entries x)
       else [])
  | B_sidx x => full (sidx_fb x) ++ [("ReferenceID", Dec (sidx_reference_id x)); ("Timescale", Dec (sidx_timescale x));
      ("EarliestPresentationTime", Dec (sidx_earliest_presentation_time x)); ("FirstOffset", Dec (sidx_first_offset x));
      ("ReferenceCount", count (sidx_references x)); ("References", list_of sidx_value (sidx_references x))]
  | B_smhd x => full (smhd_fb x) ++ [("Balance", Quotient (smhd_balance x) 256 2)]
  | B_stco x => full (stco_fb x) ++ [("EntryCount", count (stco_chunk_offsets x)); ("ChunkOffsets", hex_list (stco_chunk_offsets x))]
  | B_stsc x => full (stsc_fb x) ++ [("EntryCount", count (stsc_entries x)); ("Entries", list_of stsc_value (stsc_entries x))]
  | B_stss x => full (stss_fb x) ++ [("EntryCount", count (stss_sample_numbers x)); ("SampleNumbers", list_of Dec (stss_sample_numbers x))]
  | B_stsz x => full (stsz_fb x) ++ [("SampleSize", Dec (stsz_sample_size x)); ("SampleCount", count (stsz_entry_sizes x));
      ("EntrySizes", list_of Dec (stsz_entry_sizes x))]
  | B_stts x => full (stts_fb x) ++ [("EntryCount", count (stts_entries x)); ("Entries", list_of stts_value (stts_entries x))]
  | B_tfdt x => full (tfdt_fb x) ++ [("BaseMediaDecodeTime", Dec (tfdt_base_media_decode_time x))]
  | B_tfhd x => let fb := tfhd_fb x in full fb ++ [("TrackID", Dec (tfhd_track_id x))] ++
      optional (has_flag fb 0) [("BaseDataOffset", Dec (tfhd_base_data_offset x))] ++
      optional (has_flag fb 1) [("SampleDescriptionIndex", Dec (tfhd_sample_description_index x))] ++
      optional (has_flag fb 3) [("DefaultSampleDuration", Dec (tfhd_default_sample_duration x))] ++
      optional (has_flag fb 4) [("DefaultSampleSize", Dec (tfhd_default_sample_size x))] ++
      optional (has_flag fb 5) [("DefaultSampleFlags", Hex (tfhd_default_sample_flags x))]
  | B_tfra x => full (tfra_fb x) ++ [("TrackID", Dec (tfra_track_id x)); ("LengthSizeOfTrafNum", Hex (tfra_length_size_of_traf_num x));
      ("LengthSizeOfTrunNum", Hex (tfra_length_size_of_trun_num x)); ("LengthSizeOfSampleNum", Hex (tfra_length_size_of_sample_num x));
      ("NumberOfEntry", count (tfra_entries x)); ("Entries", list_of tfra_value (tfra_entries x))]
  | B_tkhd x => full (tkhd_fb x) ++ [("CreationTime", Quoted (Time (tkhd_creation_time x))); ("ModificationTime", Quoted (Time (tkhd_modification_time x)));
      ("TrackID", Dec (tkhd_track_id x)); ("Duration", Dec (tkhd_duration x)); ("Layer", Dec (tkhd_layer x)); ("AlternateGroup", Dec (tkhd_alternate_group x));
      ("Volume", Dec (tkhd_volume x)); ("Matrix", hex_list (tkhd_matrix x)); ("Width", Quotient (tkhd_width x) 65536 4); ("Height", Quotient (tkhd_height x) 65536 4)]
  | B_trex x => full (trex_fb x) ++ [("TrackID", Dec (trex_track_id x)); ("DefaultSampleDescriptionIndex", Dec (trex_default_sample_description_index x));
      ("DefaultSampleDuration", Dec (trex_default_sample_duration x)); ("DefaultSampleSize", Dec (trex_default_sample_size x));
      ("DefaultSampleFlags", Hex (trex_default_sample_flags x))]
  | B_trun x => full (trun_fb x) ++ [("SampleCount", count (trun_entries x))] ++ optional (has_flag (trun_fb x) 0) [("DataOffset", Dec (trun_data_offset x))] ++
      optional (has_flag (trun_fb x) 2) [("FirstSampleFlags", Hex (trun_first_sample_flags x))] ++ [("Entries", list_of (trun_value (trun_fb x)) (trun_entries x))]
  | B_url x => full (url_fb x) ++ optional (negb (has_flag (url_fb x) 0)) [("Location", text (url_location x))]
  | B_urn x => full (urn_fb x) ++ optional (negb (has_flag (urn_fb x) 0)) [("Name", text (urn_name x)); ("Location", text (urn_location x))]
  | B_vmhd x => full (vmhd_fb x) ++ [("Graphicsmode", Dec (vmhd_graphicsmode x)); ("Opcolor", list_of Dec (vmhd_opcolor x))]
  | B_vpcC x => full (vpcc_fb x) ++ [("Profile", Dec (vpcc_profile x)); ("Level", Dec (vpcc_level x)); ("BitDepth", Dec (vpcc_bit_depth x));
      ("ChromaSubSampling", Dec (vpcc_chroma_sub_sampling x)); ("VideoFullRangeFlag", Dec (vpcc_video_full_range_flag x));
      ("ColourPrimaries", Dec (vpcc_colour_primaries x)); ("TransferCharacteristics", Dec (vpcc_transfer_characteristics x));
      ("MatrixCoefficients", Dec (vpcc_matrix_coefficients x)); ("CodecInitializationData", hex_list (vpcc_codec_initialization_data x))]
  | B_av1C x => [("Marker", Dec (av1c_marker x)); ("Version", Dec (av1c_version x)); ("SeqProfile", Dec (av1c_seq_profile x));
      ("SeqLevelIdx0", Dec (av1c_seq_level_idx_0 x)); ("SeqTier0", Dec (av1c_seq_tier_0 x)); ("HighBitdepth", Bool (av1c_high_bitdepth x));
      ("TwelveBit", Bool (av1c_twelve_bit x)); ("Monochrome", Bool (av1c_monochrome x)); ("ChromaSubsamplingX", Dec (av1c_chroma_subsampling_x x));
      ("ChromaSubsamplingY", Dec (av1c_chroma_subsampling_y x)); ("ChromaSamplePosition", Dec (av1c_chroma_sample_position x));
      ("InitialPresentationDelayPresent", Bool (av1c_initial_presentation_delay_present x))] ++
      optional (av1c_initial_presentation_delay_present x) [("InitialPresentationDelayMinusOne", Dec (av1c_initial_presentation_delay_minus_one x))] ++
      [("ConfigOBUs", hex_list (av1c_config_OBUs x))]
  | B_avcC x => [("ConfigurationVersion", Hex (avcc_configuration_version x)); ("Profile", Hex (avcc_profile x)); ("ProfileCompatibility", Hex (avcc_profile_compatibility x));
      ("Level", Hex (avcc_level x)); ("LengthSizeMinusOne", Hex (avcc_length_size_minus_one x)); ("NumOfSequenceParameterSets", Hex (Zlen (avcc_sps x)));
      ("SequenceParameterSets", list_of nal_value (avcc_sps x)); ("NumOfPictureParameterSets", Hex (Zlen (avcc_pps x)));
      ("PictureParameterSets", list_of nal_value (avcc_pps x))] ++
      optional (is_avc_high_profile (avcc_profile x) && avcc_high_profile_fields_enabled x)
        [("ChromaFormat", Hex (avcc_chroma_format x)); ("BitDepthLumaMinus8", Hex (avcc_bit_depth_luma_minus8 x));
         ("BitDepthChromaMinus8", Hex (avcc_bit_depth_chroma_minus8 x)); ("NumOfSequenceParameterSetExt", Hex (Zlen (avcc_sps_ext x)));
         ("SequenceParameterSetsExt", list_of nal_value (avcc_sps_ext x))]
  | B_visual x => [("DataReferenceIndex", Dec (vse_data_reference_index x)); ("PreDefined", Dec (vse_pre_defined x)); ("PreDefined2", list_of Dec (vse_pre_defined2 x));
      ("Width", Dec (vse_width x)); ("Height", Dec (vse_height x)); ("Horizresolution", Dec (vse_horizresolution x)); ("Vertresolution", Dec (vse_vertresolution x));
      ("FrameCount", Dec (vse_frame_count x)); ("Compressorname", text (compressor (vse_compressorname x))); ("Depth", Dec (vse_depth x));
      ("PreDefined3", Dec (vse_pre_defined3 x))]
  | B_audio x => if ase_under_wave x then [("QuickTimeData", hex_list (ase_quick_time_data x))]
      else [("DataReferenceIndex", Dec (ase_data_reference_index x)); ("EntryVersion", Dec (ase_entry_version x)); ("ChannelCount", Dec (ase_channel_count x));
        ("SampleSize", Dec (ase_sample_size x)); ("PreDefined", Dec (ase_pre_defined x)); ("SampleRate", Dec (ase_sample_rate x))] ++
        optional (ase_is_quick_time_compatible x) [("QuickTimeData", hex_list (ase_quick_time_data x))]
  end.
