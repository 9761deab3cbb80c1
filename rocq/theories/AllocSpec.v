(** Specification for C79: how much storage is asked for.  Nothing in this file models code of /repo. *)
From Verif Require Import Base BitIO Boxes Box BoxTree WeightSpec Alloc.
From Coq Require Import List.
Import ListNotations.
Open Scope Z_scope.

(** The numbers of elements asked for, together. *)
Definition total (q : list Z) : Z := fold_right Z.add 0 q.
(** What a call of readData asked for, leaving out those that returned a 'trun' box whose entries take no octets (C70). *)
Definition counted (x : reading) : Z :=
  match got x with
  | Some b => if blank_run b then 0 else total (asked x)
  | None => total (asked x)
  end.
(** All calls together. *)
Definition counted_all (l : list reading) : Z := fold_right (fun x s => counted x + s) 0 l.
(** The number of elements of the vectors of a box (C70's [holds] without strings and lists of descriptors). *)
Definition descriptor_vectors (d : descriptor) : Z :=
  match d with DES f _ _ => count (es_url_string f) | DCD _ _ _ => 0 | DSI l | DSL l => count l end.
Definition vectors (b : box) : Z :=
  match b with
  | B_co64 x => count (co64_chunk_offsets x)
  | B_colr x => count (colr_profile x) + count (colr_unknown x)
  | B_ctts x => count (ctts_entries x)
  | B_dOps x => count (dopst_channel_mapping (dops_table_ x))
  | B_data x => count (data_data x)
  | B_elst x => count (elst_entries x)
  | B_emsg x => count (emsg_message_data x)
  | B_esds x => sumZ descriptor_vectors (esds_descriptors x)
  | B_free l | B_mdat l | B_skip l | B_unsupported l => count l
  | B_ftyp x => count (ftyp_compatible_brands x)
  | B_hdlr x => count (hdlr_padding x)
  | B_pssh x => count (pssh_kids x) + count (pssh_data x)
  | B_sbgp x => count (sbgp_entries x)
  | B_sdtp x => count (sdtp_samples x)
  | B_sgpd x => count (sgpd_roll_distances x) + sumZ alst_holds (sgpd_alternative_startup_entries x)
                + count (sgpd_visual_random_access_entries x) + count (sgpd_temporal_level_entries x)
  | B_sidx x => count (sidx_references x)
  | B_stco x => count (stco_chunk_offsets x)
  | B_stsc x => count (stsc_entries x)
  | B_stss x => count (stss_sample_numbers x)
  | B_stsz x => count (stsz_entry_sizes x)
  | B_stts x => count (stts_entries x)
  | B_tfra x => count (tfra_entries x)
  | B_trun x => count (trun_entries x)
  | B_vpcC x => count (vpcc_codec_initialization_data x)
  | B_av1C x => count (av1c_config_OBUs x)
  | B_avcC x => count2 (avcc_sps x) + count2 (avcc_pps x) + count2 (avcc_sps_ext x)
  | B_audio x => count (ase_quick_time_data x)
  | B_container | B_btrt _ | B_dref _ | B_fiel _ | B_iods _ | B_mdhd _ | B_mehd _ | B_meta _ | B_mfhd _ | B_mfro _ | B_url _ | B_urn _
  | B_mvhd _ | B_pasp _ | B_smhd _ | B_stsd _ | B_tfdt _ | B_tfhd _ | B_tkhd _ | B_trex _ | B_vmhd _ | B_visual _ => 0
  end.
(** The boxes of a tree, a box before the ones in it. *)
Fixpoint boxes_in (n : node) : list box := let 'Node _ _ b leafs := n in b :: flat_map boxes_in leafs.
