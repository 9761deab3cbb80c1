(** Specification of the on-disk format of each box payload (ISO/IEC 14496-12, 14496-14, 14496-15, the VP, AV1, Opus and
    QuickTime bindings), written as a list of fields per box and independently of the code's writeData/readData.
    Nothing in this file models code of /repo; it only mentions the records of member variables of Boxes.v. *)
From Verif Require Import Base BitIO Boxes.

(** Four-character codes: colour types, the Opus sample entry, grouping types. *)
Definition code_nclx : list Z := [110; 99; 108; 120].
Definition code_rICC : list Z := [114; 73; 67; 67].
Definition code_prof : list Z := [112; 114; 111; 102].
Definition code_Opus : list Z := [79; 112; 117; 115].
Definition code_roll : list Z := [114; 111; 108; 108].
Definition code_prol : list Z := [112; 114; 111; 108].
Definition code_alst : list Z := [97; 108; 115; 116].
Definition code_rap : list Z := [114; 97; 112; 32].
Definition code_tele : list Z := [116; 101; 108; 101].
Definition roll_group (g : list Z) : bool := list_eqb g code_roll || list_eqb g code_prol.

(** A field of the format. *)
Inductive field :=
  | FU (n : nat) (v : Z)      (* unsigned int(n) *)
  | FI (n : nat) (v : Z)      (* signed int(n), two's complement *)
  | FB (b : bool)             (* bit(1) *)
  | FO (l : list Z)           (* octets *)
  | FS (s : list Z)           (* NUL-terminated string *)
  | FV (v : Z).               (* expandable length of 14496-1 (8.3.3) in its four-octet form *)

Definition field_bits (f : field) : list bool :=
  match f with
  | FU n v => be n v
  | FI n v => be n v
  | FB b => [b]
  | FO l => bits_of l
  | FS s => bits_of (s ++ [0])
  | FV v => true :: be 7 (v / 2 ^ 21) ++ true :: be 7 (v / 2 ^ 14) ++ true :: be 7 (v / 2 ^ 7) ++ false :: be 7 v
  end.

(** The bits of a list of fields. *)
Definition enc (l : list field) : list bool := flat_map field_bits l.

(** The value can be represented in the field. *)
Definition field_ok (f : field) : Prop :=
  match f with
  | FU n v => fits_u (Z.of_nat n) v
  | FI n v => fits_s (Z.of_nat n) v
  | FB _ => True
  | FO l => bytes l
  | FS s => bytes s /\ ~ In 0 s
  | FV v => 0 <= v < 2 ^ 28
  end.
Definition fields_ok (l : list field) : Prop := Forall field_ok l.

(** Full boxes: version(8), flags(24). *)
Definition fb_layout (fb : fullbox) : list field := [FU 8 (fb_version fb); FU 8 (fb_f0 fb); FU 8 (fb_f1 fb); FU 8 (fb_f2 fb)].
(** Bit [k] of the 24-bit flags. *)
Definition flag (fb : fullbox) (k : Z) : bool := Z.testbit (fb_f0 fb * 65536 + fb_f1 fb * 256 + fb_f2 fb) k.
(** Times are 32 bits wide in version 0 and 64 bits wide otherwise. *)
Definition tbits (fb : fullbox) : nat := if fb_version fb =? 0 then 32%nat else 64%nat.
Definition opt (c : bool) (l : list field) : list field := if c then l else [].
(** An array member has a fixed number of elements. *)
Definition len_is {A} (n : nat) (l : list A) : Prop := length l = n.
(** A member that is not stored has its default value. *)
Definition absent (c : bool) (P : Prop) : Prop := c = false -> P.

Definition btrt_layout (b : btrt) :=
  [FU 32 (btrt_decoding_buffer_size b); FU 32 (btrt_max_bitrate b); FU 32 (btrt_avg_bitrate b)].
Definition btrt_wf (b : btrt) := fields_ok (btrt_layout b).

Definition co64_layout (b : co64) :=
  fb_layout (co64_fb b) ++ FU 32 (Zlen (co64_chunk_offsets b)) :: map (FU 64) (co64_chunk_offsets b).
Definition co64_wf (b : co64) := fields_ok (co64_layout b).

Definition colr_is_nclx (b : colr) := list_eqb (colr_colour_type b) code_nclx.
Definition colr_is_icc (b : colr) := list_eqb (colr_colour_type b) code_rICC || list_eqb (colr_colour_type b) code_prof.
Definition colr_layout (b : colr) :=
  FO (colr_colour_type b) ::
  if colr_is_nclx b
  then [FU 16 (colr_colour_primaries b); FU 16 (colr_transfer_characteristics b); FU 16 (colr_matrix_coefficients b);
        FB (colr_full_range_flag b); FU 7 (colr_reserved b)]
  else if colr_is_icc b then [FO (colr_profile b)] else [FO (colr_unknown b)].
Definition colr_wf (b : colr) :=
  len_is 4 (colr_colour_type b) /\ fields_ok (colr_layout b) /\
  (if colr_is_nclx b then colr_profile b = [] /\ colr_unknown b = []
   else colr_colour_primaries b = 0 /\ colr_transfer_characteristics b = 0 /\ colr_matrix_coefficients b = 0 /\
        colr_full_range_flag b = false /\ colr_reserved b = 0 /\
        if colr_is_icc b then colr_unknown b = [] else colr_profile b = []).

Definition ctts_entry_layout (e : ctts_entry) := [FU 32 (cttse_sample_count e); FI 32 (cttse_sample_offset e)].
Definition ctts_layout (b : ctts) :=
  fb_layout (ctts_fb b) ++ FU 32 (Zlen (ctts_entries b)) :: flat_map ctts_entry_layout (ctts_entries b).
Definition ctts_wf (b : ctts) := fields_ok (ctts_layout b).

Definition dops_layout (b : dops) :=
  [FU 8 (dops_version b); FU 8 (dops_output_channel_count b); FU 16 (dops_pre_skip b); FU 32 (dops_input_sample_rate b);
   FI 16 (dops_output_gain b); FU 8 (dops_channel_mapping_family b)] ++
  opt (negb (dops_channel_mapping_family b =? 0))
    [FU 8 (dopst_stream_count (dops_table_ b)); FU 8 (dopst_coupled_count (dops_table_ b));
     FO (dopst_channel_mapping (dops_table_ b))].
Definition dops_wf (b : dops) :=
  fields_ok (dops_layout b) /\
  if dops_channel_mapping_family b =? 0 then dops_table_ b = mk_dops_table 0 0 []
  else Zlen (dopst_channel_mapping (dops_table_ b)) = dops_output_channel_count b.

Definition data_layout (b : data) := [FU 32 (data_type b); FU 32 (data_lang b); FO (data_data b)].
Definition data_wf (b : data) := fields_ok (data_layout b).

Definition dref_layout (b : dref) := fb_layout (dref_fb b) ++ [FU 32 (dref_entry_count b)].
Definition dref_wf (b : dref) := fields_ok (dref_layout b).

Definition elst_entry_layout (fb : fullbox) (e : elst_entry) :=
  [FU (tbits fb) (elste_track_duration e); FI (tbits fb) (elste_media_time e); FI 32 (elste_media_rate e)].
Definition elst_layout (b : elst) :=
  fb_layout (elst_fb b) ++ FU 32 (Zlen (elst_entries b)) :: flat_map (elst_entry_layout (elst_fb b)) (elst_entries b).
Definition elst_wf (b : elst) := fields_ok (elst_layout b).

Definition emsg_layout (b : emsg) :=
  fb_layout (emsg_fb b) ++
  (if fb_version (emsg_fb b) =? 0
   then [FS (emsg_scheme_uri b); FS (emsg_value b); FU 32 (emsg_timescale b); FU 32 (emsg_presentation_time b);
         FU 32 (emsg_event_duration b); FU 32 (emsg_id b)]
   else [FU 32 (emsg_timescale b); FU 64 (emsg_presentation_time b); FU 32 (emsg_event_duration b); FU 32 (emsg_id b);
         FS (emsg_scheme_uri b); FS (emsg_value b)]) ++
  [FO (emsg_message_data b)].
Definition emsg_wf (b : emsg) := fields_ok (emsg_layout b).

Definition fiel_layout (b : fiel) := [FU 8 (fiel_field_count b); FU 8 (fiel_field_ordering b)].
Definition fiel_wf (b : fiel) := fields_ok (fiel_layout b).

Definition raw_layout (d : list Z) := [FO d].
Definition raw_wf (d : list Z) := bytes d.

Definition ftyp_layout (b : ftyp) :=
  FO (ftyp_major_brand b) :: FU 32 (ftyp_minor_version b) :: map FO (ftyp_compatible_brands b).
Definition ftyp_wf (b : ftyp) :=
  len_is 4 (ftyp_major_brand b) /\ Forall (len_is 4) (ftyp_compatible_brands b) /\ fields_ok (ftyp_layout b).

Definition hdlr_layout (b : hdlr) :=
  fb_layout (hdlr_fb b) ++
  [FU 32 (hdlr_pre_defined b); FO (hdlr_handler_type b); FO (hdlr_manufacturer b); FO (hdlr_flags b);
   FO (hdlr_flags_mask b); FS (hdlr_name b); FO (hdlr_padding b)].
(** The members can be written. *)
Definition hdlr_shape (b : hdlr) :=
  len_is 4 (hdlr_handler_type b) /\ len_is 4 (hdlr_manufacturer b) /\ len_is 4 (hdlr_flags b) /\ len_is 4 (hdlr_flags_mask b).
(** The members can be written and read back: no padding, and the name must not look like a Pascal string when
    pre_defined is not zero (both restrictions are shown necessary in Findings.v). *)
Definition hdlr_wf (b : hdlr) :=
  hdlr_shape b /\ fields_ok (hdlr_layout b) /\ hdlr_padding b = [] /\
  (hdlr_pre_defined b = 0 \/ hdlr_name b = [] \/ hd 0 (hdlr_name b) <> Zlen (hdlr_name b)).

Definition iods_layout (b : iods) :=
  fb_layout (iods_fb b) ++
  [FU 8 (iods_type_tag b); FV (iods_descriptor_length b); FU 16 (iods_OD_ID b); FU 8 (iods_OD_profile_level b);
   FU 8 (iods_scene_profile_level b); FU 8 (iods_audio_profile_level b); FU 8 (iods_video_profile_level b);
   FU 8 (iods_graphics_profile_level b)].
(** The reader additionally reports (descriptor_length - 7) octets as read; only length 7 makes the report exact. *)
Definition iods_wf (b : iods) := fields_ok (iods_layout b) /\ iods_descriptor_length b = 7.

(** Packed ISO-639-2/T code: three characters of 5 bits, each the difference from 0x60. *)
Definition language_code (l : list Z) : Prop := len_is 3 l /\ Forall (fun c => 96 <= c < 128) l.
Definition mdhd_layout (b : mdhd) :=
  fb_layout (mdhd_fb b) ++
  [FU (tbits (mdhd_fb b)) (mdhd_creation_time b); FU (tbits (mdhd_fb b)) (mdhd_modification_time b);
   FU 32 (mdhd_timescale b); FU (tbits (mdhd_fb b)) (mdhd_duration b); FB (mdhd_pad b);
   FU 5 (nth 0 (mdhd_language b) 0 - 96); FU 5 (nth 1 (mdhd_language b) 0 - 96); FU 5 (nth 2 (mdhd_language b) 0 - 96);
   FU 16 (mdhd_pre_defined b)].
Definition mdhd_wf (b : mdhd) := len_is 3 (mdhd_language b) /\ fields_ok (mdhd_layout b).

Definition mehd_layout (b : mehd) := fb_layout (mehd_fb b) ++ [FU (tbits (mehd_fb b)) (mehd_fragment_duration b)].
Definition mehd_wf (b : mehd) := fields_ok (mehd_layout b).

Definition meta_layout (fb : fullbox) := fb_layout fb.
(** The reader replaces any other version and flags by zero. *)
Definition meta_wf (fb : fullbox) := fb = mk_fullbox 0 0 0 0.

Definition mfhd_layout (b : mfhd) := fb_layout (mfhd_fb b) ++ [FU 32 (mfhd_sequence_number b)].
Definition mfhd_wf (b : mfhd) := fields_ok (mfhd_layout b).
Definition mfro_layout (b : mfro) := fb_layout (mfro_fb b) ++ [FU 32 (mfro_size b)].
Definition mfro_wf (b : mfro) := fields_ok (mfro_layout b).

Definition mvhd_layout (b : mvhd) :=
  fb_layout (mvhd_fb b) ++
  [FU (tbits (mvhd_fb b)) (mvhd_creation_time b); FU (tbits (mvhd_fb b)) (mvhd_modification_time b);
   FU 32 (mvhd_timescale b); FU (tbits (mvhd_fb b)) (mvhd_duration b); FI 32 (mvhd_rate b); FI 16 (mvhd_volume b);
   FI 16 (mvhd_reserved b); FU 32 (mvhd_reserved2 b); FU 32 (mvhd_reserved3 b)] ++
  map (FI 32) (mvhd_matrix b) ++ map (FI 32) (mvhd_pre_defined b) ++ [FU 32 (mvhd_next_track_id b)].
Definition mvhd_wf (b : mvhd) := len_is 9 (mvhd_matrix b) /\ len_is 6 (mvhd_pre_defined b) /\ fields_ok (mvhd_layout b).

Definition pasp_layout (b : pasp) := [FU 32 (pasp_h_spacing b); FU 32 (pasp_v_spacing b)].
Definition pasp_wf (b : pasp) := fields_ok (pasp_layout b).

Definition pssh_layout (b : pssh) :=
  fb_layout (pssh_fb b) ++ [FO (pssh_system_id b)] ++
  opt (negb (fb_version (pssh_fb b) =? 0)) (FU 32 (Zlen (pssh_kids b)) :: map FO (pssh_kids b)) ++
  [FU 32 (Zlen (pssh_data b)); FO (pssh_data b)].
Definition pssh_wf (b : pssh) :=
  len_is 16 (pssh_system_id b) /\ Forall (len_is 16) (pssh_kids b) /\ fields_ok (pssh_layout b) /\
  absent (negb (fb_version (pssh_fb b) =? 0)) (pssh_kids b = []).

Definition sbgp_entry_layout (e : sbgp_entry) := [FU 32 (sbgpe_sample_count e); FU 32 (sbgpe_group_description_index e)].
Definition sbgp_layout (b : sbgp) :=
  fb_layout (sbgp_fb b) ++ [FO (sbgp_grouping_type b)] ++
  opt (negb (fb_version (sbgp_fb b) =? 0)) [FU 32 (sbgp_grouping_type_parameter b)] ++
  FU 32 (Zlen (sbgp_entries b)) :: flat_map sbgp_entry_layout (sbgp_entries b).
Definition sbgp_wf (b : sbgp) :=
  len_is 4 (sbgp_grouping_type b) /\ fields_ok (sbgp_layout b) /\
  absent (negb (fb_version (sbgp_fb b) =? 0)) (sbgp_grouping_type_parameter b = 0).

Definition sdtp_sample_layout (s : sdtp_sample) :=
  [FU 2 (sdtps_is_leading s); FU 2 (sdtps_depends_on s); FU 2 (sdtps_is_depended_on s); FU 2 (sdtps_has_redundancy s)].
Definition sdtp_layout (b : sdtp) := fb_layout (sdtp_fb b) ++ flat_map sdtp_sample_layout (sdtp_samples b).
Definition sdtp_wf (b : sdtp) := fields_ok (sdtp_layout b).

Definition sidx_ref_layout (r : sidx_ref) :=
  [FB (sidxr_reference_type r); FU 31 (sidxr_reference_size r); FU 32 (sidxr_subsegment_duration r);
   FB (sidxr_starts_with_sap r); FU 3 (sidxr_sap_type r); FU 28 (sidxr_sap_delta_time r)].
Definition sidx_layout (b : sidx) :=
  fb_layout (sidx_fb b) ++
  [FU 32 (sidx_reference_id b); FU 32 (sidx_timescale b); FU (tbits (sidx_fb b)) (sidx_earliest_presentation_time b);
   FU (tbits (sidx_fb b)) (sidx_first_offset b); FU 16 (sidx_reserved b); FU 16 (Zlen (sidx_references b))] ++
  flat_map sidx_ref_layout (sidx_references b).
Definition sidx_wf (b : sidx) := fields_ok (sidx_layout b).

Definition smhd_layout (b : smhd) := fb_layout (smhd_fb b) ++ [FI 16 (smhd_balance b); FU 16 (smhd_reserved b)].
Definition smhd_wf (b : smhd) := fields_ok (smhd_layout b).

Definition stco_layout (b : stco) :=
  fb_layout (stco_fb b) ++ FU 32 (Zlen (stco_chunk_offsets b)) :: map (FU 32) (stco_chunk_offsets b).
Definition stco_wf (b : stco) := fields_ok (stco_layout b).

Definition stsc_entry_layout (e : stsc_entry) :=
  [FU 32 (stsce_first_chunk e); FU 32 (stsce_sample_per_chunk e); FU 32 (stsce_sample_description_index e)].
Definition stsc_layout (b : stsc) :=
  fb_layout (stsc_fb b) ++ FU 32 (Zlen (stsc_entries b)) :: flat_map stsc_entry_layout (stsc_entries b).
Definition stsc_wf (b : stsc) := fields_ok (stsc_layout b).

Definition stsd_layout (b : stsd) := fb_layout (stsd_fb b) ++ [FU 32 (stsd_entry_count b)].
Definition stsd_wf (b : stsd) := fields_ok (stsd_layout b).

Definition stss_layout (b : stss) :=
  fb_layout (stss_fb b) ++ FU 32 (Zlen (stss_sample_numbers b)) :: map (FU 32) (stss_sample_numbers b).
Definition stss_wf (b : stss) := fields_ok (stss_layout b).

Definition stsz_layout (b : stsz) :=
  fb_layout (stsz_fb b) ++ [FU 32 (stsz_sample_size b); FU 32 (Zlen (stsz_entry_sizes b))] ++
  opt (stsz_sample_size b =? 0) (map (FU 32) (stsz_entry_sizes b)).
(** With a non-zero sample_size the table must be empty: the reader drops the count (see Findings.v). *)
Definition stsz_wf (b : stsz) := fields_ok (stsz_layout b) /\ absent (stsz_sample_size b =? 0) (stsz_entry_sizes b = []).

Definition stts_entry_layout (e : stts_entry) := [FU 32 (sttse_sample_count e); FU 32 (sttse_sample_duration e)].
Definition stts_layout (b : stts) :=
  fb_layout (stts_fb b) ++ FU 32 (Zlen (stts_entries b)) :: flat_map stts_entry_layout (stts_entries b).
Definition stts_wf (b : stts) := fields_ok (stts_layout b).

Definition tfdt_layout (b : tfdt) := fb_layout (tfdt_fb b) ++ [FU (tbits (tfdt_fb b)) (tfdt_base_media_decode_time b)].
Definition tfdt_wf (b : tfdt) := fields_ok (tfdt_layout b).

Definition tfhd_layout (b : tfhd) :=
  fb_layout (tfhd_fb b) ++ [FU 32 (tfhd_track_id b)] ++
  opt (flag (tfhd_fb b) 0) [FU 64 (tfhd_base_data_offset b)] ++
  opt (flag (tfhd_fb b) 1) [FU 32 (tfhd_sample_description_index b)] ++
  opt (flag (tfhd_fb b) 3) [FU 32 (tfhd_default_sample_duration b)] ++
  opt (flag (tfhd_fb b) 4) [FU 32 (tfhd_default_sample_size b)] ++
  opt (flag (tfhd_fb b) 5) [FU 32 (tfhd_default_sample_flags b)].
Definition tfhd_wf (b : tfhd) :=
  fields_ok (tfhd_layout b) /\
  absent (flag (tfhd_fb b) 0) (tfhd_base_data_offset b = 0) /\
  absent (flag (tfhd_fb b) 1) (tfhd_sample_description_index b = 0) /\
  absent (flag (tfhd_fb b) 3) (tfhd_default_sample_duration b = 0) /\
  absent (flag (tfhd_fb b) 4) (tfhd_default_sample_size b = 0) /\
  absent (flag (tfhd_fb b) 5) (tfhd_default_sample_flags b = 0).

Definition tfra_entry_layout (fb : fullbox) (l1 l2 l3 : Z) (e : tfra_entry) :=
  [FU (tbits fb) (tfrae_time e); FU (tbits fb) (tfrae_moof_offset e); FU (Z.to_nat ((l1 + 1) * 8)) (tfrae_traf_number e);
   FU (Z.to_nat ((l2 + 1) * 8)) (tfrae_trun_number e); FU (Z.to_nat ((l3 + 1) * 8)) (tfrae_sample_number e)].
Definition tfra_layout (b : tfra) :=
  fb_layout (tfra_fb b) ++
  [FU 32 (tfra_track_id b); FU 26 (tfra_reserved b); FU 2 (tfra_length_size_of_traf_num b);
   FU 2 (tfra_length_size_of_trun_num b); FU 2 (tfra_length_size_of_sample_num b); FU 32 (Zlen (tfra_entries b))] ++
  flat_map (tfra_entry_layout (tfra_fb b) (tfra_length_size_of_traf_num b) (tfra_length_size_of_trun_num b)
              (tfra_length_size_of_sample_num b)) (tfra_entries b).
Definition tfra_wf (b : tfra) := fields_ok (tfra_layout b).

Definition tkhd_layout (b : tkhd) :=
  fb_layout (tkhd_fb b) ++
  [FU (tbits (tkhd_fb b)) (tkhd_creation_time b); FU (tbits (tkhd_fb b)) (tkhd_modification_time b);
   FU 32 (tkhd_track_id b); FU 32 (tkhd_reserved b); FU (tbits (tkhd_fb b)) (tkhd_duration b);
   FU 32 (tkhd_reserved2 b); FU 32 (tkhd_reserved3 b); FI 16 (tkhd_layer b); FI 16 (tkhd_alternate_group b);
   FI 16 (tkhd_volume b); FU 16 (tkhd_reserved4 b)] ++
  map (FI 32) (tkhd_matrix b) ++ [FU 32 (tkhd_width b); FU 32 (tkhd_height b)].
Definition tkhd_wf (b : tkhd) := len_is 9 (tkhd_matrix b) /\ fields_ok (tkhd_layout b).

Definition trex_layout (b : trex) :=
  fb_layout (trex_fb b) ++
  [FU 32 (trex_track_id b); FU 32 (trex_default_sample_description_index b); FU 32 (trex_default_sample_duration b);
   FU 32 (trex_default_sample_size b); FU 32 (trex_default_sample_flags b)].
Definition trex_wf (b : trex) := fields_ok (trex_layout b).

Definition trun_entry_layout (fb : fullbox) (e : trun_entry) :=
  opt (flag fb 8) [FU 32 (trune_sample_duration e)] ++ opt (flag fb 9) [FU 32 (trune_sample_size e)] ++
  opt (flag fb 10) [FU 32 (trune_sample_flags e)] ++ opt (flag fb 11) [FI 32 (trune_composition_time_offset e)].
Definition trun_layout (b : trun) :=
  fb_layout (trun_fb b) ++ [FU 32 (Zlen (trun_entries b))] ++
  opt (flag (trun_fb b) 0) [FI 32 (trun_data_offset b)] ++ opt (flag (trun_fb b) 2) [FU 32 (trun_first_sample_flags b)] ++
  flat_map (trun_entry_layout (trun_fb b)) (trun_entries b).
Definition trun_wf (b : trun) :=
  fields_ok (trun_layout b) /\
  absent (flag (trun_fb b) 0) (trun_data_offset b = 0) /\ absent (flag (trun_fb b) 2) (trun_first_sample_flags b = 0) /\
  Forall (fun e => absent (flag (trun_fb b) 8) (trune_sample_duration e = 0) /\
                   absent (flag (trun_fb b) 9) (trune_sample_size e = 0) /\
                   absent (flag (trun_fb b) 10) (trune_sample_flags e = 0) /\
                   absent (flag (trun_fb b) 11) (trune_composition_time_offset e = 0)) (trun_entries b).

Definition url_layout (b : url) := fb_layout (url_fb b) ++ opt (negb (flag (url_fb b) 0)) [FS (url_location b)].
Definition url_wf (b : url) := fields_ok (url_layout b) /\ absent (negb (flag (url_fb b) 0)) (url_location b = []).
Definition urn_layout (b : urn) :=
  fb_layout (urn_fb b) ++ opt (negb (flag (urn_fb b) 0)) [FS (urn_name b); FS (urn_location b)].
Definition urn_wf (b : urn) :=
  fields_ok (urn_layout b) /\ absent (negb (flag (urn_fb b) 0)) (urn_name b = [] /\ urn_location b = []) /\
  8 * (Zlen (urn_name b) + Zlen (urn_location b) + 2) < 2 ^ 64.

Definition vmhd_layout (b : vmhd) := fb_layout (vmhd_fb b) ++ FU 16 (vmhd_graphicsmode b) :: map (FU 16) (vmhd_opcolor b).
Definition vmhd_wf (b : vmhd) := len_is 3 (vmhd_opcolor b) /\ fields_ok (vmhd_layout b).

Definition vpcc_layout (b : vpcc) :=
  fb_layout (vpcc_fb b) ++
  [FU 8 (vpcc_profile b); FU 8 (vpcc_level b); FU 4 (vpcc_bit_depth b); FU 3 (vpcc_chroma_sub_sampling b);
   FU 1 (vpcc_video_full_range_flag b); FU 8 (vpcc_colour_primaries b); FU 8 (vpcc_transfer_characteristics b);
   FU 8 (vpcc_matrix_coefficients b)] ++
  opt (negb (fb_version (vpcc_fb b) =? 0))
    [FU 16 (Zlen (vpcc_codec_initialization_data b)); FO (vpcc_codec_initialization_data b)].
Definition vpcc_wf (b : vpcc) :=
  fields_ok (vpcc_layout b) /\ absent (negb (fb_version (vpcc_fb b) =? 0)) (vpcc_codec_initialization_data b = []).

Definition av1c_layout (b : av1c) :=
  [FU 1 (av1c_marker b); FU 7 (av1c_version b); FU 3 (av1c_seq_profile b); FU 5 (av1c_seq_level_idx_0 b);
   FU 1 (av1c_seq_tier_0 b); FB (av1c_high_bitdepth b); FB (av1c_twelve_bit b); FB (av1c_monochrome b);
   FU 1 (av1c_chroma_subsampling_x b); FU 1 (av1c_chroma_subsampling_y b); FU 2 (av1c_chroma_sample_position b);
   FU 3 (av1c_reserved b); FB (av1c_initial_presentation_delay_present b);
   FU 4 (av1c_initial_presentation_delay_minus_one b); FO (av1c_config_OBUs b)].
Definition av1c_wf (b : av1c) := fields_ok (av1c_layout b).

Definition avcc_ps_layout (s : list Z) := [FU 16 (Zlen s); FO s].
Definition avcc_layout (b : avcc) :=
  [FU 8 (avcc_configuration_version b); FU 8 (avcc_profile b); FU 8 (avcc_profile_compatibility b); FU 8 (avcc_level b);
   FU 6 (avcc_reserved b); FU 2 (avcc_length_size_minus_one b); FU 3 (avcc_reserved2 b); FU 5 (Zlen (avcc_sps b))] ++
  flat_map avcc_ps_layout (avcc_sps b) ++ FU 8 (Zlen (avcc_pps b)) :: flat_map avcc_ps_layout (avcc_pps b) ++
  opt (avcc_high_profile_fields_enabled b)
    ([FU 6 (avcc_reserved3 b); FU 2 (avcc_chroma_format b); FU 5 (avcc_reserved4 b); FU 3 (avcc_bit_depth_luma_minus8 b);
      FU 5 (avcc_reserved5 b); FU 3 (avcc_bit_depth_chroma_minus8 b); FU 8 (Zlen (avcc_sps_ext b))] ++
     flat_map avcc_ps_layout (avcc_sps_ext b)).
(** AVCProfileIndication values that carry the high-profile fields (14496-15, 5.3.3.1.2, and the library's list). *)
Definition avc_high (p : Z) : Prop := In p [86; 100; 110; 118; 122; 128; 138; 144; 244].
Definition avcc_wf (b : avcc) :=
  fields_ok (avcc_layout b) /\ (avcc_high_profile_fields_enabled b = true -> avc_high (avcc_profile b)) /\
  absent (avcc_high_profile_fields_enabled b)
    (avcc_reserved3 b = 63 /\ avcc_chroma_format b = 0 /\ avcc_reserved4 b = 31 /\ avcc_bit_depth_luma_minus8 b = 0 /\
     avcc_reserved5 b = 31 /\ avcc_bit_depth_chroma_minus8 b = 0 /\ avcc_sps_ext b = []).

Definition visual_entry_layout (b : visual_entry) :=
  [FO (vse_reserved b); FU 16 (vse_data_reference_index b); FU 16 (vse_pre_defined b); FU 16 (vse_reserved2 b)] ++
  map (FU 32) (vse_pre_defined2 b) ++
  [FU 16 (vse_width b); FU 16 (vse_height b); FU 32 (vse_horizresolution b); FU 32 (vse_vertresolution b);
   FU 32 (vse_reserved3 b); FU 16 (vse_frame_count b); FO (vse_compressorname b); FU 16 (vse_depth b);
   FI 16 (vse_pre_defined3 b)].
Definition visual_entry_shape (b : visual_entry) :=
  len_is 6 (vse_reserved b) /\ len_is 3 (vse_pre_defined2 b) /\ len_is 32 (vse_compressorname b).
Definition visual_entry_wf (b : visual_entry) := visual_entry_shape b /\ fields_ok (visual_entry_layout b).

Definition audio_entry_layout (b : audio_entry) :=
  [FO (ase_reserved b); FU 16 (ase_data_reference_index b); FU 16 (ase_entry_version b)] ++
  map (FU 16) (ase_reserved2 b) ++
  [FU 16 (ase_channel_count b); FU 16 (ase_sample_size b); FU 16 (ase_pre_defined b); FU 16 (ase_reserved3 b);
   FU 32 (ase_sample_rate b)] ++ opt (ase_is_quick_time_compatible b) [FO (ase_quick_time_data b)].
Definition audio_entry_shape (b : audio_entry) := len_is 6 (ase_reserved b) /\ len_is 3 (ase_reserved2 b).
(** An entry outside a QuickTime "wave" atom.  [children] is the number of octets of child boxes after the payload
    (a reader decides from what follows whether there is QuickTime data). *)
Definition audio_entry_wf (children : Z) (b : audio_entry) :=
  audio_entry_shape b /\ fields_ok (audio_entry_layout b) /\ ase_under_wave b = false /\
  absent (ase_is_quick_time_compatible b) (ase_quick_time_data b = []) /\
  (if list_eqb (ase_type b) code_Opus || (ase_entry_version b =? 0) then ase_is_quick_time_compatible b = false
   else if ase_is_quick_time_compatible b then
     if ase_entry_version b =? 1 then Zlen (ase_quick_time_data b) = 16
     else if ase_entry_version b =? 2 then Zlen (ase_quick_time_data b) = 36
     else children = 0 /\ ase_quick_time_data b <> []
   else children = 0).

(** Octets of a descriptor's own members. *)
Definition es_body (f : es_fields) : Z :=
  3 + (if es_stream_dependence_flag f then 2 else 0) + (if es_url_flag f then 1 + Zlen (es_url_string f) else 0)
  + (if es_ocr_stream_flag f then 2 else 0).
(** Layout of a descriptor whose size field holds [n]. *)
Definition es_layout (n : Z) (f : es_fields) :=
  [FU 8 3; FV n; FU 16 (es_ESID f); FB (es_stream_dependence_flag f); FB (es_url_flag f); FB (es_ocr_stream_flag f);
   FI 5 (es_stream_priority f)] ++ opt (es_stream_dependence_flag f) [FU 16 (es_depends_on_esid f)] ++
  opt (es_url_flag f) [FU 8 (Zlen (es_url_string f)); FO (es_url_string f)] ++
  opt (es_ocr_stream_flag f) [FU 16 (es_OCRESID f)].
Definition dcd_layout (n : Z) (f : dcd_fields) :=
  [FU 8 4; FV n; FU 8 (dcd_object_type_indication f); FI 6 (dcd_stream_type f); FB (dcd_upstream f); FB (dcd_reserved f);
   FU 24 (dcd_buffer_size_db f); FU 32 (dcd_max_bitrate f); FU 32 (dcd_avg_bitrate f)].
(** Octets of a descriptor's body including everything nested in it, when every nested descriptor is written
    with its own 5-octet header (tag and 4-octet length). *)
Fixpoint nested_size (d : descriptor) : Z :=
  match d with
  | DES f _ subs => es_body f + fold_right (fun x a => 5 + nested_size x + a) 0 subs
  | DCD _ _ subs => 13 + fold_right (fun x a => 5 + nested_size x + a) 0 subs
  | DSI l => Zlen l
  | DSL l => Zlen l
  end.
Definition descriptor_layout (n : Z) (d : descriptor) : list field :=
  match d with
  | DES f _ _ => es_layout n f
  | DCD f _ _ => dcd_layout n f
  | DSI l => [FU 8 5; FV n; FO l]
  | DSL l => [FU 8 6; FV n; FO l]
  end.

Definition roll_distance_layout (e : roll_distance) :=
  opt (rd_with_length e) [FU 32 (rd_description_length e)] ++ [FI 16 (rd_roll_distance e)].
Definition alst_opt_layout (o : alst_opt) := [FU 16 (alsto_num_output_samples o); FU 16 (alsto_num_total_samples o)].
Definition alst_entry_layout (e : alst_entry) :=
  opt (alste_with_length e) [FU 32 (alste_description_length e)] ++
  [FU 16 (alste_roll_count e); FU 16 (alste_first_output_sample e)] ++ map (FU 32) (alste_sample_offsets e) ++
  flat_map alst_opt_layout (alste_opts e).
Definition vra_entry_layout (e : vra_entry) :=
  opt (vra_with_length e) [FU 32 (vra_description_length e)] ++
  [FB (vra_num_leading_samples_known e); FU 7 (vra_num_leading_samples e)].
Definition tele_entry_layout (e : tele_entry) :=
  opt (tele_with_length e) [FU 32 (tele_description_length e)] ++
  [FB (tele_level_independently_decodable e); FU 7 (tele_reserved e)].
Definition sgpd_layout (b : sgpd) :=
  fb_layout (sgpd_fb b) ++
  [FO (sgpd_grouping_type b);
   FU 32 (if fb_version (sgpd_fb b) =? 1 then sgpd_default_length b else sgpd_default_sample_description_index b)] ++
  (if roll_group (sgpd_grouping_type b) then
     FU 32 (Zlen (sgpd_roll_distances b)) :: flat_map roll_distance_layout (sgpd_roll_distances b)
   else if list_eqb (sgpd_grouping_type b) code_alst then
     FU 32 (Zlen (sgpd_alternative_startup_entries b)) :: flat_map alst_entry_layout (sgpd_alternative_startup_entries b)
   else if list_eqb (sgpd_grouping_type b) code_rap then
     FU 32 (Zlen (sgpd_visual_random_access_entries b)) :: flat_map vra_entry_layout (sgpd_visual_random_access_entries b)
   else if list_eqb (sgpd_grouping_type b) code_tele then
     FU 32 (Zlen (sgpd_temporal_level_entries b)) :: flat_map tele_entry_layout (sgpd_temporal_level_entries b)
   else []).
(** Entries carry their own length exactly when version is 1 and the default length is 0. *)
Definition sgpd_explicit (b : sgpd) : bool := (fb_version (sgpd_fb b) =? 1) && (sgpd_default_length b =? 0).
(** The length that delimits an 'alst' entry, in octets, must be the entry's size (the reader counts bits modulo 2^32). *)
Definition alst_entry_wf (b : sgpd) (e : alst_entry) : Prop :=
  alste_with_length e = sgpd_explicit b /\ absent (sgpd_explicit b) (alste_description_length e = 0) /\
  Zlen (alste_sample_offsets e) = alste_roll_count e /\
  (8 * (if sgpd_explicit b then alste_description_length e else sgpd_default_length b)) mod 2 ^ 32 =
    8 * (4 + 4 * Zlen (alste_sample_offsets e) + 4 * Zlen (alste_opts e)).
Definition sgpd_wf (b : sgpd) : Prop :=
  len_is 4 (sgpd_grouping_type b) /\ fields_ok (sgpd_layout b) /\
  (if fb_version (sgpd_fb b) =? 1 then sgpd_default_sample_description_index b = 0 else sgpd_default_length b = 0) /\
  Forall (fun e => rd_with_length e = sgpd_explicit b /\ absent (sgpd_explicit b) (rd_description_length e = 0))
    (sgpd_roll_distances b) /\
  Forall (fun e => vra_with_length e = sgpd_explicit b /\ absent (sgpd_explicit b) (vra_description_length e = 0))
    (sgpd_visual_random_access_entries b) /\
  Forall (fun e => tele_with_length e = sgpd_explicit b /\ absent (sgpd_explicit b) (tele_description_length e = 0))
    (sgpd_temporal_level_entries b) /\
  Forall (alst_entry_wf b) (sgpd_alternative_startup_entries b) /\
  (roll_group (sgpd_grouping_type b) = false -> sgpd_roll_distances b = []) /\
  (list_eqb (sgpd_grouping_type b) code_alst = false -> sgpd_alternative_startup_entries b = []) /\
  (list_eqb (sgpd_grouping_type b) code_rap = false -> sgpd_visual_random_access_entries b = []) /\
  (list_eqb (sgpd_grouping_type b) code_tele = false -> sgpd_temporal_level_entries b = []) /\
  (list_eqb (sgpd_grouping_type b) code_alst = true -> sgpd_alternative_startup_entries b <> [] ->
   fb_version (sgpd_fb b) = 1).

Definition own_body (d : descriptor) : Z :=
  match d with DES f _ _ => es_body f | DCD _ _ _ => 13 | DSI l => Zlen l | DSL l => Zlen l end.
(** The length written in the header of a descriptor: an explicit size of the nested descriptors takes precedence;
    otherwise an ES descriptor counts everything nested in it, a DecoderConfig descriptor only its direct children. *)
Fixpoint announced (d : descriptor) : Z :=
  match d with
  | DES f sds subs =>
      if 0 <? sds then es_body f + sds else es_body f + fold_right (fun x a => 5 + announced x + a) 0 subs
  | DCD _ sds subs => if 0 <? sds then 13 + sds else 13 + fold_right (fun x a => 5 + own_body x + a) 0 subs
  | DSI l => Zlen l
  | DSL l => Zlen l
  end.
Definition esds_layout (b : esds) :=
  fb_layout (esds_fb b) ++ flat_map (fun d => descriptor_layout (announced d) d) (esds_descriptors b).
(** Members that are not stored have their default value. *)
Definition descriptor_absent (d : descriptor) : Prop :=
  match d with
  | DES f _ _ => absent (es_stream_dependence_flag f) (es_depends_on_esid f = 0) /\
                 absent (es_url_flag f) (es_url_string f = []) /\ absent (es_ocr_stream_flag f) (es_OCRESID f = 0)
  | _ => True
  end.
(** What a reader recovers: the own members, and the size of whatever is nested. *)
Definition descriptor_norm (d : descriptor) : descriptor :=
  match d with
  | DES f _ _ => DES f (announced d - es_body f) []
  | DCD f _ _ => DCD f (announced d - 13) []
  | _ => d
  end.
Definition esds_writable (b : esds) : Prop := fields_ok (esds_layout b) /\ Forall descriptor_absent (esds_descriptors b).
Definition esds_wf (b : esds) : Prop :=
  esds_writable b /\
  Forall (fun d => match d with DES _ s subs => 0 <= s /\ subs = [] | DCD _ s subs => 0 <= s /\ subs = [] | _ => True end)
    (esds_descriptors b).
