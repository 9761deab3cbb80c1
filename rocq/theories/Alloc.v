(** Model of the storage the readData functions ask for: the calls of std::vector::resize whose argument comes from the data.
    Strings and descriptors are appended one element at a time and are not here; neither are the at most eight octets of
    Reader::readBits (reader.cpp:30-31) and the 8 or 16 octets of a header (box_header.cpp:84-94).  No proofs in this file. *)
From Verif Require Import Base BitIO Boxes Box BoxTree.
From Coq Require Import List.
Import ListNotations.
Open Scope Z_scope.

(** A reading function with the arguments of the calls of resize it makes, in order, whether it returns or not. *)
Definition L (A : Type) := reader -> list Z * outcome (reader * Z * A).
(** no call of resize *)
Definition lift {A} (m : R A) : L A := fun r => ([], m r).
Definition lret {A} (a : A) : L A := lift (rret a).
(** v.resize(n) *)
Definition resize (n : Z) : L unit := fun r => ([n], Ok (r, 0, tt)).
(** as [rbind] *)
Definition lbind {A B} (m : L A) (f : A -> L B) : L B := fun r =>
  match m r with
  | (q, Ok (r1, n1, a)) =>
      let (q2, o) := f a r1 in
      (q ++ q2, match o with Ok (r2, n2, b) => Ok (r2, n1 + n2, b) | Throw e => Throw e | UB => UB end)
  | (q, Throw e) => (q, Throw e)
  | (q, UB) => (q, UB)
  end.
Notation "x <~ m ; k" := (lbind m (fun x => k)) (at level 61, m at next level, right associativity, only parsing).
(** as [rcount] *)
Definition lcount {A} (m : L A) : L (Z * A) := fun r =>
  let (q, o) := m r in (q, match o with Ok (r1, n, a) => Ok (r1, n, (n, a)) | Throw e => Throw e | UB => UB end).
(** for (i = 0; i < n; ++i) v[i] = m *)
Fixpoint lrepeat {A} (n : nat) (m : L A) : L (list A) :=
  match n with O => lret [] | S k => x <~ m; l <~ lrepeat k m; lret (x :: l) end.
(** read_vector_uint, bitio.hpp:130-137: resize(size), then one element after the other *)
Definition vector_l (w n : Z) : L (list Z) := _ <~ resize n; lift (read_vector_uint w (Z.to_nat n)).
(** v.resize(n), then [m] for each element *)
Definition entries_l {A} (n : Z) (m : R A) : L (list A) := _ <~ resize n; lift (rrepeat (Z.to_nat n) m).
(** as [read_rest] *)
Definition rest_l : L (list Z) := n <~ lift offset_to_end; vector_l 8 n.

(** co64.cpp:43-50: read_vector_uint *)
Definition Co64_l : L co64 := fb <~ lift readVersionAndFlag; n <~ lift (read_uint 32 32); l <~ vector_l 64 n; lret (mk_co64 fb l).
(** colr.cpp:92-120: read_vector_uint *)
Definition Colr_l : L colr :=
  a <~ lift (read_uint 8 8); b <~ lift (read_uint 8 8); c <~ lift (read_uint 8 8); d <~ lift (read_uint 8 8);
  let ct := [a; b; c; d] in
  if list_eqb ct cc_nclx then
    p <~ lift (read_uint 16 16); t <~ lift (read_uint 16 16); m <~ lift (read_uint 16 16); f <~ lift read_bool; r <~ lift (read_uint 8 7);
    lret (mk_colr ct p t m f r [] [])
  else
    if list_eqb ct cc_rICC || list_eqb ct cc_prof
    then l <~ rest_l; lret (mk_colr ct 0 0 0 false 0 l [])
    else l <~ rest_l; lret (mk_colr ct 0 0 0 false 0 [] l).
(** ctts.cpp:79 *)
Definition Ctts_l : L ctts := fb <~ lift readVersionAndFlag; n <~ lift (read_uint 32 32); l <~ entries_l n CttsEntry_readData; lret (mk_ctts fb l).
(** dOps.cpp:94: read_vector_uint *)
Definition DOps_l : L dops :=
  v <~ lift (read_uint 8 8); c <~ lift (read_uint 8 8); p <~ lift (read_uint 16 16); r <~ lift (read_uint 32 32); g <~ lift (read_int 16 16);
  f <~ lift (read_uint 8 8);
  if f =? 0 then lret (mk_dops v c p r g f (mk_dops_table 0 0 []))
  else t <~ (s <~ lift (read_uint 8 8); k <~ lift (read_uint 8 8); l <~ vector_l 8 c; lret (mk_dops_table s k l)); lret (mk_dops v c p r g f t).
(** data.cpp:65: read_vector_uint *)
Definition Data_l : L data := t <~ lift (read_uint 32 32); g <~ lift (read_uint 32 32); l <~ rest_l; lret (mk_data t g l).
(** elst.cpp:91 *)
Definition Elst_l : L elst := fb <~ lift readVersionAndFlag; n <~ lift (read_uint 32 32); l <~ entries_l n (ElstEntry_readData fb); lret (mk_elst fb l).
(** emsg.cpp:100: read_vector_uint *)
Definition Emsg_l : L emsg :=
  fb <~ lift readVersionAndFlag;
  if v0 fb then
    n <~ lift offset_to_end;
    ks <~ lift (rcount (read_string (n * 8)));
    let (k, s) := ks : Z * list Z in
    v <~ lift (read_string (n * 8 - k));
    t <~ lift (read_uint 32 32); p <~ lift (read_uint 64 32); d <~ lift (read_uint 32 32); i <~ lift (read_uint 32 32);
    m <~ rest_l;
    lret (mk_emsg fb s v t p d i m)
  else
    t <~ lift (read_uint 32 32); p <~ lift (read_uint 64 64); d <~ lift (read_uint 32 32); i <~ lift (read_uint 32 32);
    n <~ lift offset_to_end;
    ks <~ lift (rcount (read_string (n * 8)));
    let (k, s) := ks : Z * list Z in
    v <~ lift (read_string (n * 8 - k));
    m <~ rest_l;
    lret (mk_emsg fb s v t p d i m).
(** ftyp.cpp:71, styp.cpp:75 *)
Definition Ftyp_l : L ftyp :=
  m <~ lift read_array_uint8_4; v <~ lift (read_uint 32 32); n <~ lift offset_to_end;
  if negb (n mod 4 =? 0) then lift (rthrow RuntimeError)
  else l <~ entries_l (n / 4) read_array_uint8_4; lret (mk_ftyp m v l).
(** hdlr.cpp:80: read_vector_uint *)
Definition Hdlr_l : L hdlr :=
  fb <~ lift readVersionAndFlag; p <~ lift (read_uint 32 32); h <~ lift read_array_uint8_4; m <~ lift read_array_uint8_4;
  f <~ lift read_array_uint8_4; k <~ lift read_array_uint8_4;
  n <~ lift offset_to_end;
  bn <~ lift (rcount (if negb (p =? 0) then read_pascal_string (n * 8) else read_string (n * 8)));
  let (nb, name) := bn : Z * list Z in
  if (n * 8 <? nb) || negb (nb mod 8 =? 0) then lift (rthrow RuntimeError)
  else pad <~ vector_l 8 (n * 8 - nb); lret (mk_hdlr fb p h m f k name pad).
(** pssh.cpp:96,106 *)
Definition Pssh_l : L pssh :=
  fb <~ lift readVersionAndFlag; s <~ lift (rrepeat 16 (read_uint 8 8));
  k <~ (if negb (v0 fb) then n <~ lift (read_uint 32 32); entries_l n PsshKID_readData else lret []);
  n <~ lift (read_uint 32 32); d <~ vector_l 8 n; lret (mk_pssh fb s k d).
(** sbgp.cpp:90 *)
Definition Sbgp_l : L sbgp :=
  fb <~ lift readVersionAndFlag; t <~ lift read_array_uint8_4;
  p <~ lift (if negb (v0 fb) then read_uint 32 32 else rret 0);
  n <~ lift (read_uint 32 32); l <~ entries_l n SbgpEntry_readData; lret (mk_sbgp fb t p l).
(** sdtp.cpp:56 *)
Definition Sdtp_l : L sdtp := fb <~ lift readVersionAndFlag; n <~ lift offset_to_end; l <~ entries_l n SdtpSample_readData; lret (mk_sdtp fb l).
(** sidx.cpp:82 *)
Definition Sidx_l : L sidx :=
  fb <~ lift readVersionAndFlag; i <~ lift (read_uint 32 32); t <~ lift (read_uint 32 32); e <~ lift (read_uint 64 (tsize fb));
  o <~ lift (read_uint 64 (tsize fb)); r <~ lift (read_uint 16 16); n <~ lift (read_uint 16 16);
  l <~ entries_l n SidxReference_readData; lret (mk_sidx fb i t e o r l).
(** stco.cpp:45-51: read_vector_uint *)
Definition Stco_l : L stco := fb <~ lift readVersionAndFlag; n <~ lift (read_uint 32 32); l <~ vector_l 32 n; lret (mk_stco fb l).
(** stsc.cpp:63 *)
Definition Stsc_l : L stsc := fb <~ lift readVersionAndFlag; n <~ lift (read_uint 32 32); l <~ entries_l n StscEntry_readData; lret (mk_stsc fb l).
(** stss.cpp:44-50: read_vector_uint *)
Definition Stss_l : L stss := fb <~ lift readVersionAndFlag; n <~ lift (read_uint 32 32); l <~ vector_l 32 n; lret (mk_stss fb l).
(** stsz.cpp:60: read_vector_uint *)
Definition Stsz_l : L stsz :=
  fb <~ lift readVersionAndFlag; s <~ lift (read_uint 32 32); n <~ lift (read_uint 32 32);
  l <~ (if s =? 0 then vector_l 32 n else lret []); lret (mk_stsz fb s l).
(** stts.cpp:63 *)
Definition Stts_l : L stts := fb <~ lift readVersionAndFlag; n <~ lift (read_uint 32 32); l <~ entries_l n SttsEntry_readData; lret (mk_stts fb l).
(** tfra.cpp:86 *)
Definition Tfra_l : L tfra :=
  fb <~ lift readVersionAndFlag; i <~ lift (read_uint 32 32); r <~ lift (read_uint 32 26); a <~ lift (read_uint 8 2); b <~ lift (read_uint 8 2);
  c <~ lift (read_uint 8 2); n <~ lift (read_uint 32 32); l <~ entries_l n (TfraEntry_readData fb a b c);
  lret (mk_tfra fb i r a b c l).
(** trun.cpp:95 *)
Definition Trun_l : L trun :=
  fb <~ lift readVersionAndFlag; n <~ lift (read_uint 32 32); o <~ lift (rwhen (checkFlag fb 1) (read_int 32 32));
  f <~ lift (rwhen (checkFlag fb 4) (read_uint 32 32)); l <~ entries_l n (TrunEntry_readData fb); lret (mk_trun fb o f l).
(** vpc.cpp:61-79: read_vector_uint *)
Definition Vpcc_l : L vpcc :=
  fb <~ lift readVersionAndFlag; p <~ lift (read_uint 8 8); l <~ lift (read_uint 8 8); b <~ lift (read_uint 8 4); c <~ lift (read_uint 8 3);
  f <~ lift (read_uint 8 1); cp <~ lift (read_uint 8 8); tc <~ lift (read_uint 8 8); mc <~ lift (read_uint 8 8);
  if v0 fb then lret (mk_vpcc fb p l b c f cp tc mc [])
  else n <~ lift (read_uint 16 16); d <~ vector_l 8 n; lret (mk_vpcc fb p l b c f cp tc mc d).
(** av1c.cpp:83: read_vector_uint *)
Definition Av1c_l : L av1c :=
  m <~ lift (read_uint 8 1); v <~ lift (read_uint 8 7); p <~ lift (read_uint 8 3); l <~ lift (read_uint 8 5); t <~ lift (read_uint 8 1);
  hb <~ lift read_bool; tb <~ lift read_bool; mo <~ lift read_bool; cx <~ lift (read_uint 8 1); cy <~ lift (read_uint 8 1); cp <~ lift (read_uint 8 2);
  r <~ lift (read_uint 8 3); ip <~ lift read_bool; im <~ lift (read_uint 8 4); o <~ rest_l;
  lret (mk_av1c m v p l t hb tb mo cx cy cp r ip im o).
(** AVCParameterSet::readData, avc.cpp:63: read_vector_uint *)
Definition ParameterSet_l : L (list Z) := n <~ lift (read_uint 16 16); vector_l 8 n.
(** avc.cpp:176-179, 182-185, 205-208: resize, then readData of each element *)
Definition sets_l (n : Z) : L (list (list Z)) := _ <~ resize n; lrepeat (Z.to_nat n) ParameterSet_l.
(** avc.cpp:165-211 *)
Definition Avcc_l : L avcc :=
  cv <~ lift (read_uint 8 8); p <~ lift (read_uint 8 8); pc <~ lift (read_uint 8 8); lv <~ lift (read_uint 8 8); r <~ lift (read_uint 8 6);
  ls <~ lift (read_uint 8 2); r2 <~ lift (read_uint 8 3); ns <~ lift (read_uint 8 5); sps <~ sets_l ns;
  np <~ lift (read_uint 8 8); pps <~ sets_l np;
  if negb (is_avc_high_profile p) then lret (mk_avcc cv p pc lv r ls r2 sps pps false 63 0 31 0 31 0 [])
  else n <~ lift offset_to_end;
       if n <? 4 then _ <~ lift (rtick (n * 8)); lret (mk_avcc cv p pc lv r ls r2 sps pps false 63 0 31 0 31 0 [])
       else r3 <~ lift (read_uint 8 6); cf <~ lift (read_uint 8 2); r4 <~ lift (read_uint 8 5); bl <~ lift (read_uint 8 3); r5 <~ lift (read_uint 8 5);
            bc <~ lift (read_uint 8 3); ne <~ lift (read_uint 8 8); ext <~ sets_l ne;
            lret (mk_avcc cv p pc lv r ls r2 sps pps true r3 cf r4 bl r5 bc ext).
(** sample_entry.cpp:176-206: read_vector_uint *)
Definition Audio_l (type : list Z) (under_wave : bool) : L audio_entry :=
  if under_wave then
    q <~ rest_l; lret (mk_audio_entry type [0;0;0;0;0;0] 0 0 [0;0;0] 0 0 0 0 0 false q true)
  else
    r <~ lift (rrepeat 6 (read_uint 8 8)); i <~ lift (read_uint 16 16); v <~ lift (read_uint 16 16); r2 <~ lift (rrepeat 3 (read_uint 16 16));
    c <~ lift (read_uint 16 16); s <~ lift (read_uint 16 16); p <~ lift (read_uint 16 16); r3 <~ lift (read_uint 16 16); sr <~ lift (read_uint 32 32);
    if list_eqb type cc_Opus || (v =? 0) then lret (mk_audio_entry type r i v r2 c s p r3 sr false [] false)
    else n <~ lift offset_to_end;
         if n =? 0 then lret (mk_audio_entry type r i v r2 c s p r3 sr false [] false)
         else q <~ vector_l 8 (if v =? 1 then 16 else if v =? 2 then 36 else n);
              lret (mk_audio_entry type r i v r2 c s p r3 sr true q false).
(** esds.cpp:111: read_vector_uint *)
Definition ESDescriptor_l : L descriptor :=
  n <~ lift (read_uvarint 32); i <~ lift (read_uint 16 16); a <~ lift read_bool; b <~ lift read_bool; c <~ lift read_bool; p <~ lift (read_int 8 5);
  d <~ lift (rwhen a (read_uint 16 16));
  u <~ (if b then k <~ lift (read_uint 8 8); vector_l 8 k else lret []);
  o <~ lift (rwhen c (read_uint 16 16));
  let f := mk_es_fields i a b c p d u o in
  lret (DES f (to_u 32 (n - ESDescriptor_getDataSize f)) []).
(** esds.cpp:239 and 275: read_vector_uint *)
Definition DecSpecificInfo_l : L descriptor := n <~ lift (read_uvarint 32); l <~ vector_l 8 n; lret (DSI l).
Definition SLConfigDescr_l : L descriptor := n <~ lift (read_uvarint 32); l <~ vector_l 8 n; lret (DSL l).
(** esds.cpp:319-346, as [Esds_loop] *)
Fixpoint Esds_loop_l (fuel : nat) (acc : list descriptor) : L (list descriptor) :=
  match fuel with
  | O => lift rub
  | S k =>
      n <~ lift offset_to_end;
      if n =? 0 then lret acc
      else tag <~ lift (read_int 8 8);
           if tag =? ESDescrTag then d <~ ESDescriptor_l; Esds_loop_l k (acc ++ [d])
           else if tag =? DecoderConfigDescrTag then d <~ lift DecoderConfigDescriptor_readData; Esds_loop_l k (acc ++ [d])
           else if tag =? DecSpecificInfoTag then d <~ DecSpecificInfo_l; Esds_loop_l k (acc ++ [d])
           else if tag =? SLConfigDescrTag then d <~ SLConfigDescr_l; Esds_loop_l k (acc ++ [d])
           else _ <~ lift (rtick (n * 8)); lret acc
  end.
Definition Esds_l : L esds := fun r =>
  (fb <~ lift readVersionAndFlag; l <~ Esds_loop_l (S (length (r_data r))) []; lret (mk_esds fb l)) r.
(** sgpd.cpp:320: read_vector_uint; 332: resize *)
Definition AlstEntry_l (length : option Z) (wl : bool) : L alst_entry :=
  match length with
  | None => lift rub
  | Some len =>
      bx <~ lcount (n <~ lift (rwhen wl (read_uint 32 32)); c <~ lift (read_uint 16 16); f <~ lift (read_uint 16 16);
                    offs <~ vector_l 32 c; lret (n, c, f, offs));
      let '(bits, (n, c, f, offs)) := bx in
      let offset := if wl then to_u 32 (n * 8) - (bits - 32) else to_u 32 (len * 8) - bits in
      if (offset <? 0) || negb (Z.rem offset 32 =? 0) then lift (rthrow RuntimeError)
      else opts <~ entries_l (offset / 32) AlstOpt_readData; lret (mk_alst_entry n wl c f offs opts)
  end.
(** sgpd.cpp:177, 186, 195, 204 *)
Definition Sgpd_l : L sgpd :=
  fb <~ lift readVersionAndFlag; g <~ lift read_array_uint8_4; v <~ lift (read_uint 32 32);
  let one := fb_version fb =? 1 in
  let len := if one then v else 0 in
  let idx := if one then 0 else v in
  let ndl := one && (len =? 0) in
  if gt_is_roll g then
    n <~ lift (read_uint 32 32); l <~ entries_l n (RollDistance_readData ndl); lret (mk_sgpd fb g len idx l [] [] [])
  else if list_eqb g gt_alst then
    n <~ lift (read_uint 32 32); l <~ (_ <~ resize n; lrepeat (Z.to_nat n) (AlstEntry_l (if one then Some len else None) ndl));
    lret (mk_sgpd fb g len idx [] l [] [])
  else if list_eqb g gt_rap then
    n <~ lift (read_uint 32 32); l <~ entries_l n (VraEntry_readData ndl); lret (mk_sgpd fb g len idx [] [] l [])
  else if list_eqb g gt_tele then
    n <~ lift (read_uint 32 32); l <~ entries_l n (TeleEntry_readData ndl); lret (mk_sgpd fb g len idx [] [] [] l)
  else lret (mk_sgpd fb g len idx [] [] [] []).

(** [rmap] with the calls *)
Definition lmap {A B} (f : A -> B) (m : L A) : L B := x <~ m; lret (f x).
(** Box::readData.  The other classes have no vector whose length comes from the data (free.cpp, mdat.cpp:48, skip.cpp:44 and
    unsupported.cpp call read_vector_uint). *)
Definition Box_readData_l (k : kind) (type : list Z) (under_wave : bool) : L box :=
  match k with
  | K_co64 => lmap B_co64 Co64_l
  | K_colr => lmap B_colr Colr_l
  | K_ctts => lmap B_ctts Ctts_l
  | K_dOps => lmap B_dOps DOps_l
  | K_data => lmap B_data Data_l
  | K_elst => lmap B_elst Elst_l
  | K_emsg => lmap B_emsg Emsg_l
  | K_esds => lmap B_esds Esds_l
  | K_free => lmap B_free rest_l
  | K_mdat => lmap B_mdat rest_l
  | K_skip => lmap B_skip rest_l
  | K_unsupported => lmap B_unsupported rest_l
  | K_ftyp => lmap B_ftyp Ftyp_l
  | K_hdlr => lmap B_hdlr Hdlr_l
  | K_pssh => lmap B_pssh Pssh_l
  | K_sbgp => lmap B_sbgp Sbgp_l
  | K_sdtp => lmap B_sdtp Sdtp_l
  | K_sgpd => lmap B_sgpd Sgpd_l
  | K_sidx => lmap B_sidx Sidx_l
  | K_stco => lmap B_stco Stco_l
  | K_stsc => lmap B_stsc Stsc_l
  | K_stss => lmap B_stss Stss_l
  | K_stsz => lmap B_stsz Stsz_l
  | K_stts => lmap B_stts Stts_l
  | K_tfra => lmap B_tfra Tfra_l
  | K_trun => lmap B_trun Trun_l
  | K_vpcC => lmap B_vpcC Vpcc_l
  | K_av1C => lmap B_av1C Av1c_l
  | K_avcC => lmap B_avcC Avcc_l
  | K_audio => lmap B_audio (Audio_l type under_wave)
  | _ => lift (Box_readData k type under_wave)
  end.

(** A call of readData: the arguments of resize, and the box when it returned. *)
Record reading := mk_reading { asked : list Z; got : option box }.
(** SimpleReader::readBox, reader.cpp:47-82: as [BoxTree.readBox], with the calls of readData in order.  None = out of fuel. *)
Fixpoint readBox_l (fuel : nat) (file : bool) (data : list Z) (uw : bool) (pos : Z) : option (list reading * outcome (node * Z * Z)) :=
  match fuel with
  | O => None
  | S f =>
      match read_box_header data pos with
      | Throw e => Some ([], Throw e)
      | UB => Some ([], UB)
      | Ok h =>
          let start := h_offset h + h_header_size h in
          if negb file && (start >? Zlen data) then Some ([], Throw RuntimeError)
          else
          let remaining := u64 (u64 (Zlen data - h_offset h) - h_header_size h) in
          if header_getDataSize h >? remaining then Some ([], Throw RuntimeError)
          else if start + header_getDataSize h >? Zlen data then Some ([], UB)
          else
          let payload := firstn (Z.to_nat (header_getDataSize h)) (skipn (Z.to_nat start) data) in
          let k := BoxMap_getBoxInstance BoxMap_registered (h_type h) in
          let (q, o) := Box_readData_l k (h_type h) uw (reader_init payload) in
          match o with
          | Throw e => Some ([mk_reading q None], Throw e)
          | UB => Some ([mk_reading q None], UB)
          | Ok (_, rbits, b) =>
              let rbytes := rbits / 8 in
              let pos1 := start + rbytes in
              if negb file && (pos1 >? Zlen data) then Some ([mk_reading q (Some b)], Throw RuntimeError)
              else
              match readLeafs_l f file data (list_eqb (h_type h) type_wave) (header_getDataSize h) rbytes pos1 with
              | None => None
              | Some (l, r) =>
                  Some (mk_reading q (Some b) :: l,
                        match r with
                        | Throw e => Throw e
                        | UB => UB
                        | Ok (leafs, pos2) => Ok (Node (h_type h) (Some h) b leafs, pos2, h_size h)
                        end)
              end
          end
      end
  end
(** while (header->getDataSize() > rbytes) rbytes += readBox(info), reader.cpp:78-80 (and read(), 37-41) *)
with readLeafs_l (fuel : nat) (file : bool) (data : list Z) (uw : bool) (bound rbytes pos : Z) : option (list reading * outcome (list node * Z)) :=
  match fuel with
  | O => None
  | S f =>
      if bound >? rbytes then
        match readBox_l f file data uw pos with
        | None => None
        | Some (l, Throw e) => Some (l, Throw e)
        | Some (l, UB) => Some (l, UB)
        | Some (l, Ok (n, pos1, size)) =>
            match readLeafs_l f file data uw bound (u64 (rbytes + size)) pos1 with
            | None => None
            | Some (l', r) =>
                Some (l ++ l', match r with Throw e => Throw e | UB => UB | Ok (ns, pos2) => Ok (n :: ns, pos2) end)
            end
        end
      else Some ([], Ok ([], pos))
  end.
(** The loop of SimpleReader::read after the constructor, reader.cpp:23-41 *)
Definition SimpleReader_l (file : bool) (data : list Z) : option (list reading * outcome (list node)) :=
  match readLeafs_l (length data + 2) file data false (Zlen data) 0 0 with
  | None => None
  | Some (l, r) => Some (l, match r with Throw e => Throw e | UB => UB | Ok (ns, _) => Ok ns end)
  end.
