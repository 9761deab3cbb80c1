(** Independent description of box payloads, all classes together: the layout and the conditions under which the
    octets determine the members. *)
From Verif Require Import Base BitIO Boxes WireFormat Box.

Definition box_layout (b : box) : list field :=
  match b with
  | B_container => []
  | B_btrt x => btrt_layout x
  | B_co64 x => co64_layout x
  | B_colr x => colr_layout x
  | B_ctts x => ctts_layout x
  | B_dOps x => dops_layout x
  | B_data x => data_layout x
  | B_dref x => dref_layout x
  | B_elst x => elst_layout x
  | B_emsg x => emsg_layout x
  | B_esds x => esds_layout x
  | B_fiel x => fiel_layout x
  | B_free x => raw_layout x
  | B_mdat x => raw_layout x
  | B_skip x => raw_layout x
  | B_unsupported x => raw_layout x
  | B_ftyp x => ftyp_layout x
  | B_hdlr x => hdlr_layout x
  | B_iods x => iods_layout x
  | B_mdhd x => mdhd_layout x
  | B_mehd x => mehd_layout x
  | B_meta x => meta_layout x
  | B_mfhd x => mfhd_layout x
  | B_mfro x => mfro_layout x
  | B_mvhd x => mvhd_layout x
  | B_pasp x => pasp_layout x
  | B_pssh x => pssh_layout x
  | B_sbgp x => sbgp_layout x
  | B_sdtp x => sdtp_layout x
  | B_sgpd x => sgpd_layout x
  | B_sidx x => sidx_layout x
  | B_smhd x => smhd_layout x
  | B_stco x => stco_layout x
  | B_stsc x => stsc_layout x
  | B_stsd x => stsd_layout x
  | B_stss x => stss_layout x
  | B_stsz x => stsz_layout x
  | B_stts x => stts_layout x
  | B_tfdt x => tfdt_layout x
  | B_tfhd x => tfhd_layout x
  | B_tfra x => tfra_layout x
  | B_tkhd x => tkhd_layout x
  | B_trex x => trex_layout x
  | B_trun x => trun_layout x
  | B_url x => url_layout x
  | B_urn x => urn_layout x
  | B_vmhd x => vmhd_layout x
  | B_vpcC x => vpcc_layout x
  | B_av1C x => av1c_layout x
  | B_avcC x => avcc_layout x
  | B_visual x => visual_entry_layout x
  | B_audio x => audio_entry_layout x
  end.

(** [box_wf children b]: the members of [b] are representable and the payload, followed by [children] octets of child
    boxes, can be told apart from them.  Classes whose last member extends to the end of the box take no child boxes. *)
Definition box_wf (children : Z) (b : box) : Prop :=
  match b with
  | B_container => True
  | B_btrt x => btrt_wf x
  | B_co64 x => co64_wf x
  | B_colr x => colr_wf x /\ children = 0
  | B_ctts x => ctts_wf x
  | B_dOps x => dops_wf x
  | B_data x => data_wf x /\ children = 0
  | B_dref x => dref_wf x
  | B_elst x => elst_wf x
  | B_emsg x => emsg_wf x /\ children = 0
  | B_esds x => esds_wf x /\ children = 0
  | B_fiel x => fiel_wf x
  | B_free x => raw_wf x /\ children = 0
  | B_mdat x => raw_wf x /\ children = 0
  | B_skip x => raw_wf x /\ children = 0
  | B_unsupported x => raw_wf x /\ children = 0
  | B_ftyp x => ftyp_wf x /\ children = 0
  | B_hdlr x => hdlr_wf x /\ children = 0
  | B_iods x => iods_wf x
  | B_mdhd x => mdhd_wf x
  | B_mehd x => mehd_wf x
  | B_meta x => meta_wf x
  | B_mfhd x => mfhd_wf x
  | B_mfro x => mfro_wf x
  | B_mvhd x => mvhd_wf x
  | B_pasp x => pasp_wf x
  | B_pssh x => pssh_wf x
  | B_sbgp x => sbgp_wf x
  | B_sdtp x => sdtp_wf x /\ children = 0
  | B_sgpd x => sgpd_wf x
  | B_sidx x => sidx_wf x
  | B_smhd x => smhd_wf x
  | B_stco x => stco_wf x
  | B_stsc x => stsc_wf x
  | B_stsd x => stsd_wf x
  | B_stss x => stss_wf x
  | B_stsz x => stsz_wf x
  | B_stts x => stts_wf x
  | B_tfdt x => tfdt_wf x
  | B_tfhd x => tfhd_wf x
  | B_tfra x => tfra_wf x
  | B_tkhd x => tkhd_wf x
  | B_trex x => trex_wf x
  | B_trun x => trun_wf x
  | B_url x => url_wf x /\ children = 0
  | B_urn x => urn_wf x /\ children = 0
  | B_vmhd x => vmhd_wf x
  | B_vpcC x => vpcc_wf x
  | B_av1C x => av1c_wf x /\ children = 0
  | B_avcC x => avcc_wf x /\ children = 0
  | B_visual x => visual_entry_wf x
  | B_audio x => audio_entry_wf children x
  end.

(** * What a C++ program can put in the members, and what writeData refuses *)

(** std::array members have their declared length; the three 2-bit sizes of tfra are at most 3. *)
Definition box_typed (b : box) : Prop :=
  match b with
  | B_colr x => len_is 4 (colr_colour_type x)
  | B_ftyp x => len_is 4 (ftyp_major_brand x) /\ Forall (len_is 4) (ftyp_compatible_brands x)
  | B_hdlr x => hdlr_shape x
  | B_mvhd x => len_is 9 (mvhd_matrix x) /\ len_is 6 (mvhd_pre_defined x)
  | B_pssh x => len_is 16 (pssh_system_id x) /\ Forall (len_is 16) (pssh_kids x)
  | B_sbgp x => len_is 4 (sbgp_grouping_type x)
  | B_sgpd x => len_is 4 (sgpd_grouping_type x)
  | B_tfra x => 0 <= tfra_length_size_of_traf_num x <= 3 /\ 0 <= tfra_length_size_of_trun_num x <= 3 /\
                0 <= tfra_length_size_of_sample_num x <= 3
  | B_tkhd x => len_is 9 (tkhd_matrix x)
  | B_vmhd x => len_is 3 (vmhd_opcolor x)
  | B_visual x => visual_entry_shape x
  | B_audio x => audio_entry_shape x
  | _ => True
  end.
(** writeData refuses an ES descriptor whose URL does not fit its 8-bit length, and high-profile fields in an avcC of
    another profile. *)
Definition url_too_long (d : descriptor) : bool :=
  match d with DES f _ _ => es_url_flag f && (255 <? Zlen (es_url_string f)) | _ => false end.
Definition box_refused (b : box) : bool :=
  match b with
  | B_esds x => existsb url_too_long (esds_descriptors x)
  | B_avcC x => avcc_high_profile_fields_enabled x && negb (existsb (Z.eqb (avcc_profile x)) [86; 100; 110; 118; 122; 128; 138; 144; 244])
  | _ => false
  end.

(** The octets of a 'sgpd' payload whose parsing would use a member that was never set (see Findings.v): an 'alst'
    group in a box of a version other than 1. *)
Definition sgpd_reads_uninitialised (data : list Z) : Prop :=
  list_eqb (firstn 4 (skipn 4 data)) code_alst = true /\ nth 0 data 0 <> 1.
(** The classes whose readData may report more bits than it consumed (see Findings.v). *)
Definition overreports (k : kind) : bool := match k with K_iods | K_esds | K_avcC => true | _ => false end.

(** Sizes that no object in the memory of a machine exceeds (2^61 octets of strings; descriptors announcing 2^32 octets). *)
Definition memory_sized (b : box) : Prop :=
  match b with
  | B_urn x => 8 * (Zlen (urn_name x) + Zlen (urn_location x) + 2) < 2 ^ 64
  | B_esds x => Forall (fun d => announced d < 2 ^ 32) (esds_descriptors x)
  | _ => True
  end.
