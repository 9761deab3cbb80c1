(** The polymorphic box: class Box with its virtual member functions (include/shiguredo/mp4/box.hpp), and BoxMap
    (src/box_map.cpp, src/box_types.cpp).  No proofs in this file. *)
From Verif Require Import Base BitIO Boxes.

(** The classes a box object can have (include/shiguredo/mp4/box/*.hpp).  [K_container] stands for the seventeen classes
    Dinf Edts Ilst IlstMeta Mdia Mfra Minf Moof Moov Mvex Schi Sinf Stbl Traf Trak Udta Wave, whose member functions
    are textually the same; [K_ftyp] for Ftyp and Styp. *)
Inductive kind := K_container
  | K_btrt
  | K_co64
  | K_colr
  | K_ctts
  | K_dOps
  | K_data
  | K_dref
  | K_elst
  | K_emsg
  | K_esds
  | K_fiel
  | K_free
  | K_mdat
  | K_skip
  | K_unsupported
  | K_ftyp
  | K_hdlr
  | K_iods
  | K_mdhd
  | K_mehd
  | K_meta
  | K_mfhd
  | K_mfro
  | K_mvhd
  | K_pasp
  | K_pssh
  | K_sbgp
  | K_sdtp
  | K_sgpd
  | K_sidx
  | K_smhd
  | K_stco
  | K_stsc
  | K_stsd
  | K_stss
  | K_stsz
  | K_stts
  | K_tfdt
  | K_tfhd
  | K_tfra
  | K_tkhd
  | K_trex
  | K_trun
  | K_url
  | K_urn
  | K_vmhd
  | K_vpcC
  | K_av1C
  | K_avcC
  | K_visual
  | K_audio
.

(** A box object: its class and its members.  The members of class Box proper (type, header) live in the tree, BoxTree.v. *)
Inductive box := B_container
  | B_btrt (b : btrt)
  | B_co64 (b : co64)
  | B_colr (b : colr)
  | B_ctts (b : ctts)
  | B_dOps (b : dops)
  | B_data (b : data)
  | B_dref (b : dref)
  | B_elst (b : elst)
  | B_emsg (b : emsg)
  | B_esds (b : esds)
  | B_fiel (b : fiel)
  | B_free (b : list Z)
  | B_mdat (b : list Z)
  | B_skip (b : list Z)
  | B_unsupported (b : list Z)
  | B_ftyp (b : ftyp)
  | B_hdlr (b : hdlr)
  | B_iods (b : iods)
  | B_mdhd (b : mdhd)
  | B_mehd (b : mehd)
  | B_meta (b : fullbox)
  | B_mfhd (b : mfhd)
  | B_mfro (b : mfro)
  | B_mvhd (b : mvhd)
  | B_pasp (b : pasp)
  | B_pssh (b : pssh)
  | B_sbgp (b : sbgp)
  | B_sdtp (b : sdtp)
  | B_sgpd (b : sgpd)
  | B_sidx (b : sidx)
  | B_smhd (b : smhd)
  | B_stco (b : stco)
  | B_stsc (b : stsc)
  | B_stsd (b : stsd)
  | B_stss (b : stss)
  | B_stsz (b : stsz)
  | B_stts (b : stts)
  | B_tfdt (b : tfdt)
  | B_tfhd (b : tfhd)
  | B_tfra (b : tfra)
  | B_tkhd (b : tkhd)
  | B_trex (b : trex)
  | B_trun (b : trun)
  | B_url (b : url)
  | B_urn (b : urn)
  | B_vmhd (b : vmhd)
  | B_vpcC (b : vpcc)
  | B_av1C (b : av1c)
  | B_avcC (b : avcc)
  | B_visual (b : visual_entry)
  | B_audio (b : audio_entry)
.

(** dynamic type of a box object *)
Definition box_kind (b : box) : kind :=
  match b with
  | B_container => K_container
  | B_btrt _ => K_btrt
  | B_co64 _ => K_co64
  | B_colr _ => K_colr
  | B_ctts _ => K_ctts
  | B_dOps _ => K_dOps
  | B_data _ => K_data
  | B_dref _ => K_dref
  | B_elst _ => K_elst
  | B_emsg _ => K_emsg
  | B_esds _ => K_esds
  | B_fiel _ => K_fiel
  | B_free _ => K_free
  | B_mdat _ => K_mdat
  | B_skip _ => K_skip
  | B_unsupported _ => K_unsupported
  | B_ftyp _ => K_ftyp
  | B_hdlr _ => K_hdlr
  | B_iods _ => K_iods
  | B_mdhd _ => K_mdhd
  | B_mehd _ => K_mehd
  | B_meta _ => K_meta
  | B_mfhd _ => K_mfhd
  | B_mfro _ => K_mfro
  | B_mvhd _ => K_mvhd
  | B_pasp _ => K_pasp
  | B_pssh _ => K_pssh
  | B_sbgp _ => K_sbgp
  | B_sdtp _ => K_sdtp
  | B_sgpd _ => K_sgpd
  | B_sidx _ => K_sidx
  | B_smhd _ => K_smhd
  | B_stco _ => K_stco
  | B_stsc _ => K_stsc
  | B_stsd _ => K_stsd
  | B_stss _ => K_stss
  | B_stsz _ => K_stsz
  | B_stts _ => K_stts
  | B_tfdt _ => K_tfdt
  | B_tfhd _ => K_tfhd
  | B_tfra _ => K_tfra
  | B_tkhd _ => K_tkhd
  | B_trex _ => K_trex
  | B_trun _ => K_trun
  | B_url _ => K_url
  | B_urn _ => K_urn
  | B_vmhd _ => K_vmhd
  | B_vpcC _ => K_vpcC
  | B_av1C _ => K_av1C
  | B_avcC _ => K_avcC
  | B_visual _ => K_visual
  | B_audio _ => K_audio
  end.

(** Box::writeData (pure virtual, box.hpp), dispatched *)
Definition Box_writeData (b : box) : W :=
  match b with
  | B_container => Container_writeData
  | B_btrt x => Btrt_writeData x
  | B_co64 x => Co64_writeData x
  | B_colr x => Colr_writeData x
  | B_ctts x => Ctts_writeData x
  | B_dOps x => DOps_writeData x
  | B_data x => Data_writeData x
  | B_dref x => Dref_writeData x
  | B_elst x => Elst_writeData x
  | B_emsg x => Emsg_writeData x
  | B_esds x => Esds_writeData x
  | B_fiel x => Fiel_writeData x
  | B_free x => Free_writeData x
  | B_mdat x => Mdat_writeData x
  | B_skip x => Skip_writeData x
  | B_unsupported x => Unsupported_writeData x
  | B_ftyp x => Ftyp_writeData x
  | B_hdlr x => Hdlr_writeData x
  | B_iods x => Iods_writeData x
  | B_mdhd x => Mdhd_writeData x
  | B_mehd x => Mehd_writeData x
  | B_meta x => Meta_writeData x
  | B_mfhd x => Mfhd_writeData x
  | B_mfro x => Mfro_writeData x
  | B_mvhd x => Mvhd_writeData x
  | B_pasp x => PixelAspectRatio_writeData x
  | B_pssh x => Pssh_writeData x
  | B_sbgp x => Sbgp_writeData x
  | B_sdtp x => Sdtp_writeData x
  | B_sgpd x => Sgpd_writeData x
  | B_sidx x => Sidx_writeData x
  | B_smhd x => Smhd_writeData x
  | B_stco x => Stco_writeData x
  | B_stsc x => Stsc_writeData x
  | B_stsd x => Stsd_writeData x
  | B_stss x => Stss_writeData x
  | B_stsz x => Stsz_writeData x
  | B_stts x => Stts_writeData x
  | B_tfdt x => Tfdt_writeData x
  | B_tfhd x => Tfhd_writeData x
  | B_tfra x => Tfra_writeData x
  | B_tkhd x => Tkhd_writeData x
  | B_trex x => Trex_writeData x
  | B_trun x => Trun_writeData x
  | B_url x => Url_writeData x
  | B_urn x => Urn_writeData x
  | B_vmhd x => Vmhd_writeData x
  | B_vpcC x => VPCodecConfiguration_writeData x
  | B_av1C x => AV1CodecConfiguration_writeData x
  | B_avcC x => AVCDecoderConfiguration_writeData x
  | B_visual x => VisualSampleEntry_writeData x
  | B_audio x => AudioSampleEntry_writeData x
  end.

(** Box::getDataSize, dispatched *)
Definition Box_getDataSize (b : box) : Z :=
  match b with
  | B_container => Container_getDataSize
  | B_btrt x => Btrt_getDataSize x
  | B_co64 x => Co64_getDataSize x
  | B_colr x => Colr_getDataSize x
  | B_ctts x => Ctts_getDataSize x
  | B_dOps x => DOps_getDataSize x
  | B_data x => Data_getDataSize x
  | B_dref x => Dref_getDataSize x
  | B_elst x => Elst_getDataSize x
  | B_emsg x => Emsg_getDataSize x
  | B_esds x => Esds_getDataSize x
  | B_fiel x => Fiel_getDataSize x
  | B_free x => Free_getDataSize x
  | B_mdat x => Mdat_getDataSize x
  | B_skip x => Skip_getDataSize x
  | B_unsupported x => Unsupported_getDataSize x
  | B_ftyp x => Ftyp_getDataSize x
  | B_hdlr x => Hdlr_getDataSize x
  | B_iods x => Iods_getDataSize x
  | B_mdhd x => Mdhd_getDataSize x
  | B_mehd x => Mehd_getDataSize x
  | B_meta x => Meta_getDataSize x
  | B_mfhd x => Mfhd_getDataSize x
  | B_mfro x => Mfro_getDataSize x
  | B_mvhd x => Mvhd_getDataSize x
  | B_pasp x => PixelAspectRatio_getDataSize x
  | B_pssh x => Pssh_getDataSize x
  | B_sbgp x => Sbgp_getDataSize x
  | B_sdtp x => Sdtp_getDataSize x
  | B_sgpd x => Sgpd_getDataSize x
  | B_sidx x => Sidx_getDataSize x
  | B_smhd x => Smhd_getDataSize x
  | B_stco x => Stco_getDataSize x
  | B_stsc x => Stsc_getDataSize x
  | B_stsd x => Stsd_getDataSize x
  | B_stss x => Stss_getDataSize x
  | B_stsz x => Stsz_getDataSize x
  | B_stts x => Stts_getDataSize x
  | B_tfdt x => Tfdt_getDataSize x
  | B_tfhd x => Tfhd_getDataSize x
  | B_tfra x => Tfra_getDataSize x
  | B_tkhd x => Tkhd_getDataSize x
  | B_trex x => Trex_getDataSize x
  | B_trun x => Trun_getDataSize x
  | B_url x => Url_getDataSize x
  | B_urn x => Urn_getDataSize x
  | B_vmhd x => Vmhd_getDataSize x
  | B_vpcC x => VPCodecConfiguration_getDataSize x
  | B_av1C x => AV1CodecConfiguration_getDataSize x
  | B_avcC x => AVCDecoderConfiguration_getDataSize x
  | B_visual x => VisualSampleEntry_getDataSize x
  | B_audio x => AudioSampleEntry_getDataSize x
  end.

(** [readData] on a fresh object, keeping the object *)
Definition rmap {A B} (f : A -> B) (m : R A) : R B := x <- m; rret (f x).

(** Box::readData, dispatched.  [type] and [under_wave] are the members set before the call (AnyTypeBox::setType in
    BoxMap::getBoxInstance, box_map.cpp:34-37; AudioSampleEntry::setUnderWave in the BoxInfo constructor,
    box_info.cpp:25-30). *)
Definition Box_readData (k : kind) (type : list Z) (under_wave : bool) : R box :=
  match k with
  | K_container => rmap (fun _ => B_container) Container_readData
  | K_btrt => rmap B_btrt Btrt_readData
  | K_co64 => rmap B_co64 Co64_readData
  | K_colr => rmap B_colr Colr_readData
  | K_ctts => rmap B_ctts Ctts_readData
  | K_dOps => rmap B_dOps DOps_readData
  | K_data => rmap B_data Data_readData
  | K_dref => rmap B_dref Dref_readData
  | K_elst => rmap B_elst Elst_readData
  | K_emsg => rmap B_emsg Emsg_readData
  | K_esds => rmap B_esds Esds_readData
  | K_fiel => rmap B_fiel Fiel_readData
  | K_free => rmap B_free Free_readData
  | K_mdat => rmap B_mdat Mdat_readData
  | K_skip => rmap B_skip Skip_readData
  | K_unsupported => rmap B_unsupported Unsupported_readData
  | K_ftyp => rmap B_ftyp Ftyp_readData
  | K_hdlr => rmap B_hdlr Hdlr_readData
  | K_iods => rmap B_iods Iods_readData
  | K_mdhd => rmap B_mdhd Mdhd_readData
  | K_mehd => rmap B_mehd Mehd_readData
  | K_meta => rmap B_meta Meta_readData
  | K_mfhd => rmap B_mfhd Mfhd_readData
  | K_mfro => rmap B_mfro Mfro_readData
  | K_mvhd => rmap B_mvhd Mvhd_readData
  | K_pasp => rmap B_pasp PixelAspectRatio_readData
  | K_pssh => rmap B_pssh Pssh_readData
  | K_sbgp => rmap B_sbgp Sbgp_readData
  | K_sdtp => rmap B_sdtp Sdtp_readData
  | K_sgpd => rmap B_sgpd Sgpd_readData
  | K_sidx => rmap B_sidx Sidx_readData
  | K_smhd => rmap B_smhd Smhd_readData
  | K_stco => rmap B_stco Stco_readData
  | K_stsc => rmap B_stsc Stsc_readData
  | K_stsd => rmap B_stsd Stsd_readData
  | K_stss => rmap B_stss Stss_readData
  | K_stsz => rmap B_stsz Stsz_readData
  | K_stts => rmap B_stts Stts_readData
  | K_tfdt => rmap B_tfdt Tfdt_readData
  | K_tfhd => rmap B_tfhd Tfhd_readData
  | K_tfra => rmap B_tfra Tfra_readData
  | K_tkhd => rmap B_tkhd Tkhd_readData
  | K_trex => rmap B_trex Trex_readData
  | K_trun => rmap B_trun Trun_readData
  | K_url => rmap B_url Url_readData
  | K_urn => rmap B_urn Urn_readData
  | K_vmhd => rmap B_vmhd Vmhd_readData
  | K_vpcC => rmap B_vpcC VPCodecConfiguration_readData
  | K_av1C => rmap B_av1C AV1CodecConfiguration_readData
  | K_avcC => rmap B_avcC AVCDecoderConfiguration_readData
  | K_visual => rmap B_visual VisualSampleEntry_readData
  | K_audio => rmap B_audio (AudioSampleEntry_readData type under_wave)
  end.

(** register_box_map, src/box_types.cpp:13-136: (type, class, versions), one line per addBoxDef call, in order *)
Definition registry : list (list Z * kind * list Z) :=
  [
   ([98; 116; 114; 116], K_btrt, []);  (* btrt *)
   ([99; 111; 54; 52], K_co64, [0]);  (* co64 *)
   ([99; 111; 108; 114], K_colr, []);  (* colr *)
   ([99; 116; 116; 115], K_ctts, [0; 1]);  (* ctts *)
   ([100; 97; 116; 97], K_data, []);  (* data *)
   ([100; 105; 110; 102], K_container, []);  (* dinf *)
   ([100; 79; 112; 115], K_dOps, []);  (* dOps *)
   ([100; 114; 101; 102], K_dref, [0]);  (* dref *)
   ([101; 100; 116; 115], K_container, []);  (* edts *)
   ([101; 108; 115; 116], K_elst, [0; 1]);  (* elst *)
   ([101; 109; 115; 103], K_emsg, [0; 1]);  (* emsg *)
   ([101; 115; 100; 115], K_esds, [0]);  (* esds *)
   ([102; 105; 101; 108], K_fiel, []);  (* fiel *)
   ([102; 114; 101; 101], K_free, []);  (* free *)
   ([102; 116; 121; 112], K_ftyp, []);  (* ftyp *)
   ([104; 100; 108; 114], K_hdlr, [0]);  (* hdlr *)
   ([105; 108; 115; 116], K_container, []);  (* ilst *)
   ([105; 111; 100; 115], K_iods, [0]);  (* iods *)
   ([109; 100; 97; 116], K_mdat, []);  (* mdat *)
   ([109; 100; 104; 100], K_mdhd, [0; 1]);  (* mdhd *)
   ([109; 100; 105; 97], K_container, []);  (* mdia *)
   ([109; 101; 104; 100], K_mehd, [0; 1]);  (* mehd *)
   ([109; 101; 116; 97], K_meta, [0]);  (* meta *)
   ([109; 102; 104; 100], K_mfhd, [0]);  (* mfhd *)
   ([109; 102; 114; 97], K_container, []);  (* mfra *)
   ([109; 102; 114; 111], K_mfro, [0]);  (* mfro *)
   ([109; 105; 110; 102], K_container, []);  (* minf *)
   ([109; 111; 111; 102], K_container, []);  (* moof *)
   ([109; 111; 111; 118], K_container, []);  (* moov *)
   ([109; 118; 101; 120], K_container, []);  (* mvex *)
   ([109; 118; 104; 100], K_mvhd, [0; 1]);  (* mvhd *)
   ([112; 115; 115; 104], K_pssh, [0; 1]);  (* pssh *)
   ([115; 98; 103; 112], K_sbgp, [0; 1]);  (* sbgp *)
   ([115; 99; 104; 105], K_container, []);  (* schi *)
   ([115; 100; 116; 112], K_sdtp, [0]);  (* sdtp *)
   ([115; 103; 112; 100], K_sgpd, [1; 2]);  (* sgpd *)
   ([115; 105; 100; 120], K_sidx, [0; 1]);  (* sidx *)
   ([115; 105; 110; 102], K_container, []);  (* sinf *)
   ([115; 107; 105; 112], K_skip, []);  (* skip *)
   ([115; 109; 104; 100], K_smhd, [0]);  (* smhd *)
   ([115; 116; 98; 108], K_container, []);  (* stbl *)
   ([115; 116; 99; 111], K_stco, []);  (* stco *)
   ([115; 116; 115; 99], K_stsc, [0]);  (* stsc *)
   ([115; 116; 115; 100], K_stsd, [0]);  (* stsd *)
   ([115; 116; 115; 115], K_stss, [0]);  (* stss *)
   ([115; 116; 115; 122], K_stsz, [0]);  (* stsz *)
   ([115; 116; 116; 115], K_stts, [0]);  (* stts *)
   ([115; 116; 121; 112], K_ftyp, []);  (* styp *)
   ([116; 102; 100; 116], K_tfdt, [0; 1]);  (* tfdt *)
   ([116; 102; 104; 100], K_tfhd, [0]);  (* tfhd *)
   ([116; 102; 114; 97], K_tfra, [0; 1]);  (* tfra *)
   ([116; 107; 104; 100], K_tkhd, [0; 1]);  (* tkhd *)
   ([116; 114; 97; 102], K_container, []);  (* traf *)
   ([116; 114; 97; 107], K_container, []);  (* trak *)
   ([116; 114; 101; 120], K_trex, [0]);  (* trex *)
   ([116; 114; 117; 110], K_trun, [0; 1]);  (* trun *)
   ([117; 100; 116; 97], K_container, []);  (* udta *)
   ([118; 109; 104; 100], K_vmhd, [0]);  (* vmhd *)
   ([117; 114; 108; 32], K_url, [0]);  (* url  *)
   ([117; 114; 110; 32], K_urn, [0]);  (* urn  *)
   ([119; 97; 118; 101], K_container, [0]);  (* wave *)
   ([97; 118; 99; 49], K_visual, [0]);  (* avc1 *)
   ([101; 110; 99; 118], K_visual, [0]);  (* encv *)
   ([118; 112; 48; 56], K_visual, [0]);  (* vp08 *)
   ([118; 112; 48; 57], K_visual, [0]);  (* vp09 *)
   ([118; 112; 49; 48], K_visual, [0]);  (* vp10 *)
   ([97; 118; 48; 49], K_visual, [0]);  (* av01 *)
   ([109; 112; 52; 97], K_audio, [0]);  (* mp4a *)
   ([101; 110; 99; 97], K_audio, [0]);  (* enca *)
   ([79; 112; 117; 115], K_audio, [0]);  (* Opus *)
   ([97; 118; 99; 67], K_avcC, [0]);  (* avcC *)
   ([118; 112; 99; 67], K_vpcC, [1; 0]);  (* vpcC *)
   ([97; 118; 49; 67], K_av1C, []);  (* av1C *)
   ([112; 97; 115; 112], K_pasp, [0]);  (* pasp *)
   ([45; 45; 45; 45], K_container, []);  (* ---- *)
   ([97; 65; 82; 84], K_container, []);  (* aART *)
   ([97; 107; 73; 68], K_container, []);  (* akID *)
   ([97; 112; 73; 68], K_container, []);  (* apID *)
   ([97; 116; 73; 68], K_container, []);  (* atID *)
   ([99; 109; 73; 68], K_container, []);  (* cmID *)
   ([99; 110; 73; 68], K_container, []);  (* cnID *)
   ([99; 111; 118; 114], K_container, []);  (* covr *)
   ([99; 112; 105; 108], K_container, []);  (* cpil *)
   ([99; 112; 114; 116], K_container, []);  (* cprt *)
   ([100; 101; 115; 99], K_container, []);  (* desc *)
   ([100; 105; 115; 107], K_container, []);  (* disk *)
   ([101; 103; 105; 100], K_container, []);  (* egid *)
   ([103; 101; 73; 68], K_container, []);  (* geID *)
   ([103; 110; 114; 101], K_container, []);  (* gnre *)
   ([112; 99; 115; 116], K_container, []);  (* pcst *)
   ([112; 103; 97; 112], K_container, []);  (* pgap *)
   ([112; 108; 73; 68], K_container, []);  (* plID *)
   ([112; 117; 114; 100], K_container, []);  (* purd *)
   ([112; 117; 114; 108], K_container, []);  (* purl *)
   ([114; 116; 110; 103], K_container, []);  (* rtng *)
   ([115; 102; 73; 68], K_container, []);  (* sfID *)
   ([115; 111; 97; 97], K_container, []);  (* soaa *)
   ([115; 111; 97; 108], K_container, []);  (* soal *)
   ([115; 111; 97; 114], K_container, []);  (* soar *)
   ([115; 111; 99; 111], K_container, []);  (* soco *)
   ([115; 111; 110; 109], K_container, []);  (* sonm *)
   ([115; 111; 115; 110], K_container, []);  (* sosn *)
   ([115; 116; 105; 107], K_container, []);  (* stik *)
   ([116; 109; 112; 111], K_container, []);  (* tmpo *)
   ([116; 114; 107; 110], K_container, []);  (* trkn *)
   ([116; 118; 101; 110], K_container, []);  (* tven *)
   ([116; 118; 101; 115], K_container, []);  (* tves *)
   ([116; 118; 110; 110], K_container, []);  (* tvnn *)
   ([116; 118; 115; 104], K_container, []);  (* tvsh *)
   ([116; 118; 115; 110], K_container, []);  (* tvsn *)
   ([169; 65; 82; 84], K_container, []);  (* ?ART *)
   ([169; 97; 108; 98], K_container, []);  (* ?alb *)
   ([169; 99; 109; 116], K_container, []);  (* ?cmt *)
   ([169; 99; 111; 109], K_container, []);  (* ?com *)
   ([169; 100; 97; 121], K_container, []);  (* ?day *)
   ([169; 103; 101; 110], K_container, []);  (* ?gen *)
   ([169; 103; 114; 112], K_container, []);  (* ?grp *)
   ([169; 110; 97; 109], K_container, []);  (* ?nam *)
   ([169; 116; 111; 111], K_container, []);  (* ?too *)
   ([169; 119; 114; 116], K_container, [])  (* ?wrt *)
  ].

(** BoxMap: std::map from type to (factory, versions); a list of bindings, the most recent one first. *)
Definition boxmap := list (list Z * (kind * list Z)).
(** BoxMap::addBoxDef, box_map.cpp:22-24 *)
Definition BoxMap_addBoxDef (m : boxmap) (k : kind) (type : list Z) (versions : list Z) : boxmap :=
  (type, (k, versions)) :: m.
(** m_map.find *)
Fixpoint BoxMap_find (m : boxmap) (type : list Z) : option (kind * list Z) :=
  match m with
  | [] => None
  | (t, d) :: m' => if list_eqb t type then Some d else BoxMap_find m' type
  end.
(** the map after register_box_map, box_types.cpp:13-136 *)
Definition BoxMap_registered : boxmap :=
  fold_left (fun m '(t, k, v) => BoxMap_addBoxDef m k t v) registry [].
(** BoxMap::getBoxInstance, box_map.cpp:26-41: the class of the new object (an unknown type gives Unsupported) *)
Definition BoxMap_getBoxInstance (m : boxmap) (type : list Z) : kind :=
  match BoxMap_find m type with None => K_unsupported | Some (k, _) => k end.
(** BoxMap::isSupported, box_map.cpp:49-51 *)
Definition BoxMap_isSupported (m : boxmap) (type : list Z) : bool :=
  match BoxMap_find m type with None => false | Some _ => true end.
(** BoxMap::getSupportedVersions, box_map.cpp:53-59 *)
Definition BoxMap_getSupportedVersions (m : boxmap) (type : list Z) : outcome (list Z) :=
  match BoxMap_find m type with None => Throw RuntimeError | Some (_, v) => Ok v end.
(** BoxMap::isSupportedVersion, box_map.cpp:61-71 *)
Definition BoxMap_isSupportedVersion (m : boxmap) (type : list Z) (ver : Z) : bool :=
  match BoxMap_find m type with
  | None => false
  | Some (_, vs) => match vs with [] => true | _ => existsb (Z.eqb ver) vs end
  end.

(** BoxType, src/box_type.cpp.  A BoxType is its four octets.  18-26: construction from a string *)
Definition BoxType_of_string (s : list Z) : outcome (list Z) := if Zlen s =? 4 then Ok s else Throw InvalidArgument.
(** box_type_any, box_type.cpp:58-61 *)
Definition box_type_any : list Z := [0; 0; 0; 0].
(** BoxType::matchWith, box_type.cpp:50-56 *)
Definition BoxType_matchWith (a b : list Z) : bool :=
  if list_eqb a box_type_any || list_eqb b box_type_any then true else list_eqb a b.
(** std::isprint in the "C" locale *)
Definition isprint (c : Z) : bool := (32 <=? c) && (c <=? 126).
(** "{:02x}" *)
Definition hex_digit (d : Z) : Z := if d <? 10 then 48 + d else 87 + d.
Definition hex2 (c : Z) : list Z := [hex_digit (c / 16); hex_digit (c mod 16)].
(** BoxType::toString, box_type.cpp:41-48: all characters printable or 0xa9: the characters with 0xa9 replaced by the
    UTF-8 encoding (0xc2 0xa9) of the copyright sign; otherwise "0x" and eight hexadecimal digits *)
Definition BoxType_toString (t : list Z) : list Z :=
  if forallb (fun c => isprint c || (c =? 169)) t
  then flat_map (fun c => if c =? 169 then [194; 169] else [c]) t
  else [48; 120] ++ flat_map hex2 t.
