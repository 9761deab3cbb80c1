(** Specification for C70: how much a box that was read holds in its members of variable length (vectors and strings).
    Nothing in this file models code of /repo; it only mentions the records of member variables of Boxes.v. *)
From Verif Require Import Base BitIO Boxes WireFormat Box BoxTree.

(** Number of elements of a vector, or of octets of a string. *)
Definition count {A} (l : list A) : Z := Zlen l.
(** A vector of vectors (or strings): its elements and the elements of those. *)
Definition count2 {A} (l : list (list A)) : Z := count l + sumZ count l.
(** A descriptor of an 'esds' box: itself, and the octets of its own string or data. *)
Definition descriptor_holds (d : descriptor) : Z :=
  1 + match d with DES f _ _ => count (es_url_string f) | DCD _ _ _ => 0 | DSI l => count l | DSL l => count l end.
(** An alternative startup entry of an 'sgpd' box: itself, its offsets and its options. *)
Definition alst_holds (e : alst_entry) : Z := 1 + count (alste_sample_offsets e) + count (alste_opts e).

(** The number of elements a box holds in its members of variable length, all together. *)
Definition holds (b : box) : Z :=
  match b with
  | B_co64 x => count (co64_chunk_offsets x)
  | B_colr x => count (colr_profile x) + count (colr_unknown x)
  | B_ctts x => count (ctts_entries x)
  | B_dOps x => count (dopst_channel_mapping (dops_table_ x))
  | B_data x => count (data_data x)
  | B_elst x => count (elst_entries x)
  | B_emsg x => count (emsg_scheme_uri x) + count (emsg_value x) + count (emsg_message_data x)
  | B_esds x => sumZ descriptor_holds (esds_descriptors x)
  | B_free l | B_mdat l | B_skip l | B_unsupported l => count l
  | B_ftyp x => count (ftyp_compatible_brands x)
  | B_hdlr x => count (hdlr_name x) + count (hdlr_padding x)
  | B_pssh x => count (pssh_kids x) + count (pssh_data x)
  | B_sbgp x => count (sbgp_entries x)
  | B_sdtp x => count (sdtp_samples x)
  | B_sgpd x => count (sgpd_roll_distances x) + sumZ alst_holds (sgpd_alternative_startup_entries x)
                + count (sgpd_visual_random_access_entries x) + count (sgpd_temporal_level_entries x)
  | B_sidx x => count (sidx_references x)
  | B_stco x => count (stco_chunk_offsets x)
  | B_stsc x => count (stsc_entries x)
  | B_stss x => count (stss_sample_numbers x)
  | B_stsz x => count (stsz_entry_sizes x)
  | B_stts x => count (stts_entries x)
  | B_tfra x => count (tfra_entries x)
  | B_trun x => count (trun_entries x)
  | B_url x => count (url_location x)
  | B_urn x => count (urn_name x) + count (urn_location x)
  | B_vpcC x => count (vpcc_codec_initialization_data x)
  | B_av1C x => count (av1c_config_OBUs x)
  | B_avcC x => count2 (avcc_sps x) + count2 (avcc_pps x) + count2 (avcc_sps_ext x)
  | B_audio x => count (ase_quick_time_data x)
  | B_container | B_btrt _ | B_dref _ | B_fiel _ | B_iods _ | B_mdhd _ | B_mehd _ | B_meta _ | B_mfhd _ | B_mfro _
  | B_mvhd _ | B_pasp _ | B_smhd _ | B_stsd _ | B_tfdt _ | B_tfhd _ | B_tkhd _ | B_trex _ | B_vmhd _ | B_visual _ => 0
  end.

(** A 'trun' box none of whose four per-sample flags (bits 8 to 11 of the flags) is set: its entries take no octets. *)
Definition blank_run (b : box) : bool :=
  match b with
  | B_trun x => negb (flag (trun_fb x) 8 || flag (trun_fb x) 9 || flag (trun_fb x) 10 || flag (trun_fb x) 11)
  | _ => false
  end.
(** What a box and its child boxes hold all together, leaving out the entries of such 'trun' boxes. *)
Fixpoint held_in (n : node) : Z :=
  let 'Node _ _ b leafs := n in (if blank_run b then 0 else holds b) + fold_right (fun k s => held_in k + s) 0 leafs.
