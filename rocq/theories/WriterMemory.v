(** Model of the objects SimpleWriter and FaststartWriter allocate, of the pointers to them, of the destructor, and of the intermediate
    file of FaststartWriter.  (Writers.v represents what m_moov_box_info points to by a [node] and has no destructor.)  The heap is the
    one of Memory.v.  No proofs in this file. *)
From Verif Require Import Base BitIO Boxes Box Print BoxTree H264 Track Writers Memory.
From Coq Require Import String List Arith.
Import ListNotations.
Open Scope Z_scope.
Open Scope list_scope.

(** * Box and BoxInfo through pointers; UB: a pointer that is null, or does not point to an object (any more), is followed *)

(** new BoxInfo({.parent = ..., .box = new ...}) for a BoxInfo and, below it, its leafs in order: what the make...BoxInfo functions of the
    tracks (track.cpp:64-68, 100-105, 122-126, 150-152, 170-214, soun.cpp:12-23, vide.cpp:12-28, aac.cpp:28-101, mp3.cpp:26-74,
    opus.cpp:27-86, vpx.cpp:29-71, av1.cpp:34-78, h264.cpp:35-80), appendUdtaBoxInfo (writer.cpp:42-51), writeFtypBox and
    writeFreeBoxAndMdatHeader do one object at a time.  The tree [n] tells which boxes. *)
Fixpoint new_tree (parent : option addr) (n : node) (H : heap) : outcome (addr * heap) :=
  let 'Node type _ b leafs := n in
  let '(bx, H) := new (A_box None type (Some b)) H in
  obind (BoxInfo_new parent bx H) (fun '(a, _, H) =>
    (fix go (l : list node) (H : heap) : outcome (addr * heap) :=
       match l with [] => Ok (a, H) | k :: r => obind (new_tree (Some a) k H) (fun '(_, H) => go r H) end) leafs H).

(** Box::makeHeader, box.cpp:112-117: the header (address and contents) *)
Definition makeHeader_m (bx : addr) (H : heap) : outcome (addr * boxheader * heap) :=
  match at_ H bx with
  | Some (A_box (Some hd) _ _) => match at_ H hd with Some (A_header h) => Ok (hd, h, H) | _ => UB end
  | Some (A_box None type b) =>
      let '(hd, H) := new (A_header (header_new type)) H in Ok (hd, header_new type, put bx (Some (A_box (Some hd) type b)) H)
  | _ => UB
  end.
(** Box::getDataSize of the box at an address *)
Definition getDataSize_m (bx : addr) (H : heap) : outcome Z :=
  match at_ H bx with Some (A_box _ _ (Some b)) => Ok (Box_getDataSize b) | _ => UB end.
(** BoxInfo::getSize, box_info.cpp:48-50, Box::getSize, box.cpp:95-100 *)
Definition getSize_m (a : addr) (H : heap) : outcome Z :=
  match at_ H a with
  | Some (A_info bx _) =>
      match at_ H bx with
      | Some (A_box (Some hd) _ _) => match at_ H hd with Some (A_header h) => Ok (h_size h) | _ => UB end
      | Some (A_box None _ _) => Throw LogicError
      | _ => UB
      end
  | _ => UB
  end.
(** the leaf loop of adjustOffsetAndSize, box_info.cpp:71-73 *)
Fixpoint adjust_leafs_m (adj : addr -> Z -> heap -> outcome (Z * heap)) (base acc : Z) (l : list addr) (H : heap) : outcome (Z * heap) :=
  match l with
  | [] => Ok (acc, H)
  | a :: r => obind (adj a (u64 (base + acc)) H) (fun '(s, H) => adjust_leafs_m adj base (u64 (acc + s)) r H)
  end.
(** BoxInfo::adjustOffsetAndSize, box_info.cpp:67-81 (out of fuel: UB; never happens) *)
Fixpoint adjust_m (fuel : nat) (a : addr) (offset : Z) (H : heap) : outcome (Z * heap) :=
  match fuel with
  | O => UB
  | S f =>
      match at_ H a with
      | Some (A_info bx leafs) =>
          obind (makeHeader_m bx H) (fun '(_, h0, H) =>
          let header_size := h_header_size h0 in
          obind (getDataSize_m bx H) (fun data_size =>
          obind (adjust_leafs_m (adjust_m f) (u64 (offset + header_size + data_size)) 0 leafs H) (fun '(leafs_size, H) =>
          obind (makeHeader_m bx H) (fun '(hd, h, H) =>
          let h1 := header_setOffsetAndDataSize h offset (u64 (data_size + leafs_size)) in
          let H := put hd (Some (A_header h1)) H in
          obind (if negb (header_size =? h_header_size h1) then obind (adjust_m f a offset H) (fun '(_, H) => Ok H) else Ok H) (fun H =>
          obind (getSize_m a H) (fun s => Ok (s, H)))))))
      | _ => UB
      end
  end.
Definition adjustOffsetAndSize_m (a : addr) (offset : Z) (H : heap) : outcome (Z * heap) := adjust_m (2 * S (next H)) a offset H.

(** How many more times the stream can be used before it refuses ([None]: it never does).  [tick]: one use; None: refused. *)
Definition budget := option nat.
Definition tick (k : budget) : option budget :=
  match k with None => Some None | Some O => None | Some (S k) => Some (Some k) end.
(** Box::write, box.cpp:108-110, BoxInfo::write, box_info.cpp:83-89, with the text made for spdlog::trace.  The stream is used by
    BoxHeader::write (which raises when seekp fails) and by the bitio::Writer of writeData.  Result: the heap when it returns
    or raises, and the stream and what is left of the budget. *)
Fixpoint write_m (fuel : nat) (a : addr) (o : ostream) (k : budget) (H : heap) : heap * outcome (ostream * budget) :=
  match fuel with
  | O => (H, UB)
  | S f =>
      match at_ H a with
      | Some (A_info bx leafs) =>
          match at_ H bx with
          | Some (A_box hd type (Some b)) =>
              match (match hd with
                     | None => Ok None
                     | Some x => match at_ H x with Some (A_header h) => Ok (Some (x, h)) | _ => UB end
                     end) with
              | Throw e => (H, Throw e)
              | UB => (H, UB)
              | Ok xh =>
                  match Box_toString (option_map snd xh) b with
                  | Throw e => (H, Throw e)
                  | UB => (H, UB)
                  | Ok _ =>
                      match xh with
                      | None => (H, UB)
                      | Some (x, h) =>
                          match tick k with
                          | None => (H, Throw RuntimeError)
                          | Some k =>
                              let '(h', o1) := header_write h o in
                              let H := put x (Some (A_header h')) H in
                              match tick k with
                              | None => (H, Throw RuntimeError)
                              | Some k =>
                                  match os_writeData b o1 with
                                  | Throw e => (H, Throw e)
                                  | UB => (H, UB)
                                  | Ok o2 =>
                                      (fix go (l : list addr) (o : ostream) (k : budget) (H : heap) : heap * outcome (ostream * budget) :=
                                         match l with
                                         | [] => (H, Ok (o, k))
                                         | c :: r => match write_m f c o k H with (H, Ok (o, k)) => go r o k H | (H, r) => (H, r) end
                                         end) leafs o2 k H
                                  end
                              end
                          end
                      end
                  end
              end
          | _ => (H, UB)
          end
      | _ => (H, UB)
      end
  end.
Definition BoxInfo_write_m (a : addr) (o : ostream) (k : budget) (H : heap) : heap * outcome (ostream * budget) := write_m (S (next H)) a o k H.
Definition BoxInfo_delete_m (a : addr) (H : heap) : outcome heap := delete_info (S (next H)) a H.

(** * The writers *)

(** A writer with its tracks.
    - [ms_session]: the members that are not pointers to boxes, and the tracks (its [mw_moov] is not used and stays None; its
      [mw_tmp_open] tells whether m_mdat_fd is open);
    - [ms_moov]: m_moov_box_info, null or an address (writer.hpp:71);
    - [ms_mvhd]: m_mvhd_box, which has no initialiser (writer.hpp:72): None before it is set;
    - [ms_file]: the intermediate file is in the file system. *)
Record mwstate := mk_ms { ms_session : session; ms_heap : heap; ms_moov : option addr; ms_mvhd : option addr; ms_file : bool }.
Definition no_moov (s : session) : session := mk_session (set_moov None (s_writer s)) (s_tracks s).

(** new box::Moov, new box::Mvhd and their BoxInfos: simple_writer.cpp:33-39, faststart_writer.cpp:55-62.  Result: m_moov_box_info, m_mvhd_box *)
Definition make_moov_m (w : mwriter) (H : heap) : outcome (addr * addr * heap) :=
  let '(b, H) := new (A_box None (str "moov") (Some B_container)) H in
  obind (BoxInfo_new None b H) (fun '(moov, _, H) =>
  let '(mvhd, H) := new (A_box None (str "mvhd") (Some (B_mvhd (make_mvhd w)))) H in
  obind (BoxInfo_new (Some moov) mvhd H) (fun '(_, _, H) => Ok (moov, mvhd, H))).
(** SimpleWriter::SimpleWriter, simple_writer.cpp:23-40 *)
Definition SimpleWriter_new_m (timescale duration time : Z) (f : ftyp) (os : ostream) : outcome mwstate :=
  let w := set_moov None (SimpleWriter_new timescale duration time f os) in
  obind (make_moov_m w empty_heap) (fun '(moov, mvhd, H) => Ok (mk_ms (mk_session w []) H (Some moov) (Some mvhd) false)).
(** FaststartWriter::FaststartWriter, faststart_writer.cpp:25-48, when mkstemp and fdopen succeed *)
Definition FaststartWriter_new_m (timescale duration time : Z) (f : ftyp) (os : ostream) : mwstate :=
  mk_ms (mk_session (FaststartWriter_new timescale duration time f os) []) empty_heap None None true.

(** m_mvhd_box->setNextTrackID(m_next_track_id) *)
Definition setNextTrackID_m (mvhd : option addr) (id : Z) (H : heap) : outcome heap :=
  match mvhd with
  | None => UB
  | Some a =>
      match at_ H a with
      | Some (A_box hd type (Some (B_mvhd v))) =>
          Ok (put a (Some (A_box hd type (Some (B_mvhd (mk_mvhd (mvhd_fb v) (mvhd_creation_time v) (mvhd_modification_time v) (mvhd_timescale v)
            (mvhd_duration v) (mvhd_rate v) (mvhd_volume v) (mvhd_reserved v) (mvhd_reserved2 v) (mvhd_reserved3 v)
            (mvhd_matrix v) (mvhd_pre_defined v) id))))) H)
      | _ => UB
      end
  end.
(** setOffsetAndSize, simple_writer.cpp:103-106, faststart_writer.cpp:102-104 *)
Definition setOffsetAndSize_m (w : mwriter) (moov : option addr) (H : heap) : outcome heap :=
  match moov, mw_ftyp_size w with
  | Some a, Some f =>
      let offset := match mw_class w with Simple => u64 (f + LARGE_HEADER_SIZE + mw_mdat_size w) | Faststart => f end in
      obind (adjustOffsetAndSize_m a offset H) (fun '(_, H) => Ok H)
  | _, _ => UB
  end.
(** for (auto t : tracks) ..., simple_writer.cpp:125-127, faststart_writer.cpp:178-181; as [Writers.append_traks], with the objects *)
Fixpoint append_traks_m (diff : option Z) (sel : list nat) (moov : addr) (ts : list track) (H : heap) : outcome (list track * heap) :=
  match sel with
  | [] => Ok (ts, H)
  | i :: sel' =>
      match nth_error ts i with
      | None => UB
      | Some t =>
          let t := Track_finalize (match diff with Some d => Track_resetChunkOffsets d t | None => t end) in
          obind (new_tree (Some moov) (make_trak t) H) (fun '(_, H) => append_traks_m diff sel' moov (update_nth i t ts) H)
      end
  end.

(** ** Calls: the state when the call returns or raises, and how it ends.  After UB the state is of no significance. *)
Definition set_heap (H : heap) (m : mwstate) : mwstate := mk_ms (ms_session m) H (ms_moov m) (ms_mvhd m) (ms_file m).
Definition set_writer (w : mwriter) (m : mwstate) : mwstate := mk_ms (mk_session w (s_tracks (ms_session m))) (ms_heap m) (ms_moov m) (ms_mvhd m) (ms_file m).
(** A call that a stream refuses raises std::runtime_error.  What the members that are not pointers are then is Device.v's subject: here they
    are given with the fault and can be anything; the class of the writer and whether m_mdat_fd is open stay. *)
Definition faulted (s : session) (m : mwstate) : mwstate :=
  let w := s_writer s in let w0 := s_writer (ms_session m) in
  mk_ms (mk_session (mk_mwriter (mw_class w0) (mw_timescale w) (mw_duration w) (mw_time w) (mw_ftyp w) (mw_ftyp_size w) (mw_mdat_size w) (mw_next_id w) None
                       (mw_os w) (mw_tmp w) (mw_tmp_open w0)) (s_tracks s)) (ms_heap m) (ms_moov m) (ms_mvhd m) (ms_file m).
Definition fault := option (nat * session).
Definition fault_budget (x : fault) : budget := option_map fst x.
(** an exception: that of a refusing stream, or another one (then the members that are not pointers stay: the simplification of [Writers.lift]) *)
Definition raised {A} (x : fault) (e : exn) (m : mwstate) : mwstate * outcome A :=
  (match x with Some (_, s) => faulted s m | None => m end, Throw e).

(** writeFtypBox, simple_writer.cpp:42-55, faststart_writer.cpp:66-73.  The BoxInfo is a local: an exception of write() loses it. *)
Definition writeFtypBox_m (x : fault) (m : mwstate) : mwstate * outcome unit :=
  let w := s_writer (ms_session m) in
  match new_tree None (new_info (str "ftyp") (B_ftyp (mw_ftyp w)) []) (ms_heap m) with
  | Throw e => raised x e m
  | UB => (m, UB)
  | Ok (a, H) =>
      match adjustOffsetAndSize_m a 0 H with
      | Throw e => raised x e (set_heap H m)
      | UB => (m, UB)
      | Ok (_, H) =>
          match BoxInfo_write_m a (mw_os w) (fault_budget x) H with
          | (H, Throw e) => raised x e (set_heap H m)
          | (H, UB) => (m, UB)
          | (H, Ok (o, k)) =>
              match getSize_m a H with
              | Throw e => raised x e (set_heap H m)
              | UB => (m, UB)
              | Ok s =>
                  match BoxInfo_delete_m a H with
                  | Ok H =>
                      let w' := set_ftyp_size (Some s) (set_os o w) in
                      match mw_class w with
                      | Simple =>
                          match tick k with
                          | None => raised x RuntimeError (set_heap H m)
                          | Some _ => (set_writer (set_os (os_seekp (u64 (s + LARGE_HEADER_SIZE)) (mw_os w')) w') (set_heap H m), Ok tt)
                          end
                      | Faststart => (set_writer w' (set_heap H m), Ok tt)
                      end
                  | _ => (m, UB)
                  end
              end
          end
      end
  end.
(** writeFreeBoxAndMdatHeader, simple_writer.cpp:57-92.  (good() after free->write: the same refusal as that of the next use.) *)
Definition writeFreeBoxAndMdatHeader_m (x : fault) (m : mwstate) : mwstate * outcome unit :=
  let w := s_writer (ms_session m) in
  match mw_ftyp_size w with
  | None => (m, UB)
  | Some f =>
      match tick (fault_budget x) with
      | None => raised x RuntimeError m
      | Some k =>
          let o := os_seekp f (mw_os w) in
          if mw_mdat_size w >? UINT32_MAX - 8 then
            let h := mk_header f (u64 (mw_mdat_size w + LARGE_HEADER_SIZE)) LARGE_HEADER_SIZE (str "mdat") false in
            match tick k with
            | None => raised x RuntimeError m
            | Some _ => (set_writer (set_os (snd (header_write h o)) w) m, Ok tt)
            end
          else
            match new_tree None (new_info (str "free") (B_free []) []) (ms_heap m) with
            | Throw e => raised x e m
            | UB => (m, UB)
            | Ok (a, H) =>
                match adjustOffsetAndSize_m a f H with
                | Throw e => raised x e (set_heap H m)
                | UB => (m, UB)
                | Ok (_, H) =>
                    match BoxInfo_write_m a o k H with
                    | (H, Throw e) => raised x e (set_heap H m)
                    | (H, UB) => (m, UB)
                    | (H, Ok (o1, k)) =>
                        match tick k with
                        | None => raised x RuntimeError (set_heap H m)              (* before delete free *)
                        | Some k =>
                            match getSize_m a H with
                            | Throw e => raised x e (set_heap H m)
                            | UB => (m, UB)
                            | Ok s =>
                                match BoxInfo_delete_m a H with
                                | Ok H =>
                                    let h := mk_header (u64 (f + s)) (u64 (mw_mdat_size w + SMALL_HEADER_SIZE)) SMALL_HEADER_SIZE (str "mdat") false in
                                    match tick k with
                                    | None => raised x RuntimeError (set_heap H m)
                                    | Some _ => (set_writer (set_os (snd (header_write h o1)) w) (set_heap H m), Ok tt)
                                    end
                                | _ => (m, UB)
                                end
                            end
                        end
                    end
                end
            end
      end
  end.
(** writeMoovBox, simple_writer.cpp:117-122, faststart_writer.cpp:115-125 *)
Definition write_moov_tree_m (x : fault) (k : budget) (m : mwstate) : mwstate * outcome unit :=
  let w := s_writer (ms_session m) in
  match setNextTrackID_m (ms_mvhd m) (mw_next_id w) (ms_heap m), ms_moov m with
  | Ok H, Some a =>
      match BoxInfo_write_m a (mw_os w) k H with
      | (H, Throw e) => raised x e (set_heap H m)
      | (H, UB) => (m, UB)
      | (H, Ok (o, _)) => (set_writer (set_os o w) (set_heap H m), Ok tt)
      end
  | _, _ => (m, UB)
  end.
Definition writeMoovBox_m (x : fault) (m : mwstate) : mwstate * outcome unit :=
  let w := s_writer (ms_session m) in
  match mw_class w with
  | Simple =>
      match setOffsetAndSize_m w (ms_moov m) (ms_heap m) with
      | Ok H => write_moov_tree_m x (fault_budget x) (set_heap H m)
      | Throw e => raised x e m
      | UB => (m, UB)
      end
  | Faststart =>
      match mw_ftyp_size w with
      | None => (m, UB)
      | Some f =>
          match tick (fault_budget x) with
          | None => raised x RuntimeError m
          | Some k => write_moov_tree_m x k (set_writer (set_os (os_seekp f (mw_os w)) w) m)
          end
      end
  end.
(** SimpleWriter::appendTrakAndUdtaBoxInfo, simple_writer.cpp:124-129, Writer::appendUdtaBoxInfo, writer.cpp:42-51 *)
Definition Simple_append_m (sel : list nat) (m : mwstate) : mwstate * outcome unit :=
  match ms_moov m with
  | None => (m, UB)
  | Some a =>
      match obind (append_traks_m None sel a (s_tracks (ms_session m)) (ms_heap m)) (fun '(ts, H) =>
            obind (new_tree (Some a) make_udta H) (fun '(_, H) => Ok (ts, H))) with
      | Ok (ts, H) => (mk_ms (mk_session (s_writer (ms_session m)) ts) H (ms_moov m) (ms_mvhd m) (ms_file m), Ok tt)
      | Throw e => (m, Throw e)
      | UB => (m, UB)
      end
  end.
(** getMoovSize, faststart_writer.cpp:131-136; getFtypSize() + getMoovSize() + getMdatHeaderSize(), faststart_writer.cpp:170, 187 *)
Definition getMoovSize_m (m : mwstate) : outcome Z := match ms_moov m with None => Ok 0 | Some a => getSize_m a (ms_heap m) end.
Definition Faststart_size_m (m : mwstate) : outcome Z :=
  match mw_ftyp_size (s_writer (ms_session m)) with
  | None => UB
  | Some f => obind (getMoovSize_m m) (fun s => Ok (u64 (f + s + Faststart_getMdatHeaderSize (s_writer (ms_session m)))))
  end.
(** recreateMoovBoxInfo, faststart_writer.cpp:50-64 *)
Definition recreateMoovBoxInfo_m (m : mwstate) : outcome mwstate :=
  let w := s_writer (ms_session m) in
  obind (match ms_moov m with Some a => BoxInfo_delete_m a (ms_heap m) | None => Ok (ms_heap m) end) (fun H =>
  obind (make_moov_m w H) (fun '(moov, mvhd, H) =>
  obind (setOffsetAndSize_m w (Some moov) H) (fun H =>
    Ok (mk_ms (ms_session m) H (Some moov) (Some mvhd) (ms_file m))))).
(** One iteration of the loop, faststart_writer.cpp:173-191.  The shrinking moov raises with everything replaced. *)
Definition Faststart_iter_m (sel : list nat) (m : mwstate) (prev_size size : Z) : outcome (mwstate * Z * bool) :=
  obind (recreateMoovBoxInfo_m m) (fun m1 =>
  match ms_moov m1 with
  | None => UB
  | Some a =>
      obind (append_traks_m (Some (u64 (size - prev_size))) sel a (s_tracks (ms_session m1)) (ms_heap m1)) (fun '(ts, H) =>
      obind (new_tree (Some a) make_udta H) (fun '(_, H) =>
      obind (setOffsetAndSize_m (s_writer (ms_session m1)) (Some a) H) (fun H =>
      let m2 := mk_ms (mk_session (s_writer (ms_session m1)) ts) H (ms_moov m1) (ms_mvhd m1) (ms_file m1) in
      obind (Faststart_size_m m2) (fun size' => Ok (m2, size', size' <? size)))))
  end).
Fixpoint Faststart_loop_m (fuel : nat) (sel : list nat) (m : mwstate) (prev_size size : Z) : mwstate * outcome unit :=
  match fuel with
  | O => (m, UB)
  | S f =>
      match Faststart_iter_m sel m prev_size size with
      | Throw e => (m, Throw e)
      | UB => (m, UB)
      | Ok (m', size', shrunk) =>
          if shrunk : bool then (m', Throw RuntimeError)
          else if negb (size =? size') then Faststart_loop_m f sel m' size size' else (m', Ok tt)
      end
  end.
(** FaststartWriter::appendTrakAndUdtaBoxInfo, faststart_writer.cpp:168-193 *)
Definition Faststart_append_m (sel : list nat) (m : mwstate) : mwstate * outcome unit :=
  match Faststart_size_m m with
  | Throw e => (m, Throw e)
  | UB => (m, UB)
  | Ok size => Faststart_loop_m (Faststart_append_fuel sel) sel m 0 size
  end.
(** writeMdatHeader, faststart_writer.cpp:75-92 *)
Definition writeMdatHeader_m (x : fault) (m : mwstate) : mwstate * outcome unit :=
  let w := s_writer (ms_session m) in
  match mw_ftyp_size w with
  | None => (m, UB)
  | Some f =>
      match getMoovSize_m m with
      | Throw e => raised x e m
      | UB => (m, UB)
      | Ok s =>
          match x with
          | Some _ => raised x RuntimeError m
          | None =>
              let offset := u64 (f + s) in
              let hs := Faststart_getMdatHeaderSize w in
              let h := mk_header offset (u64 (mw_mdat_size w + hs)) hs (str "mdat") false in
              (set_writer (set_os (snd (header_write h (os_seekp offset (mw_os w)))) w) m, Ok tt)
          end
      end
  end.
(** deleteIntermediateFile, faststart_writer.cpp:195-200: std::filesystem::remove raises ([ok] = false) or tells whether there was a file *)
Definition deleteIntermediateFile_m (ok : bool) (m : mwstate) : mwstate * outcome unit :=
  if ok && ms_file m then (mk_ms (ms_session m) (ms_heap m) (ms_moov m) (ms_mvhd m) false, Ok tt) else (m, Throw RuntimeError).
(** copyMdatData, faststart_writer.cpp:145-166.  The fault: 0: fseek or the copying fails; 1: fclose fails (m_mdat_fd cannot be used any more
    then either); more: remove fails. *)
Definition close_file (w : mwriter) : mwriter := set_tmp (mw_tmp w) false w.
Definition copyMdatData_m (x : fault) (m : mwstate) : mwstate * outcome unit :=
  let w := s_writer (ms_session m) in
  match Faststart_copyMdatData w with
  | Throw e => raised x e m
  | UB => (m, UB)
  | Ok w' =>
      match fault_budget x with
      | Some O => raised x RuntimeError m
      | Some (S O) => raised x RuntimeError (set_writer (close_file w) m)
      | Some (S (S _)) => raised x RuntimeError (set_writer (close_file w) m)
      | None => deleteIntermediateFile_m true (set_writer w' m)
      end
  end.

Inductive call := Call (o : op) (x : fault) | DeleteIntermediateFile (ok : bool).
Definition mstep (m : mwstate) (c : call) : mwstate * outcome unit :=
  let w := s_writer (ms_session m) in
  match c with
  | DeleteIntermediateFile ok => match mw_class w with Simple => (m, UB) | Faststart => deleteIntermediateFile_m ok m end
  | Call o x =>
      match o with
      | O_WriteFtyp => writeFtypBox_m x m
      | O_AppendTrakAndUdta sel => match mw_class w with Simple => Simple_append_m sel m | Faststart => Faststart_append_m sel m end
      | O_WriteFreeAndMdatHeader => writeFreeBoxAndMdatHeader_m x m
      | O_WriteMdatHeader => writeMdatHeader_m x m
      | O_WriteMoov => writeMoovBox_m x m
      | O_CopyMdatData => copyMdatData_m x m
      | O_AddData _ _ _ _ | O_AddRaw _ =>
          match snd (step (ms_session m) o), x with
          | UB, _ => (m, UB)
          | _, Some _ => raised x RuntimeError m
          | r, None => (mk_ms (fst (step (ms_session m) o)) (ms_heap m) (ms_moov m) (ms_mvhd m) (ms_file m), r)
          end
      | _ => (mk_ms (fst (step (ms_session m) o)) (ms_heap m) (ms_moov m) (ms_mvhd m) (ms_file m), snd (step (ms_session m) o))
      end
  end.
Fixpoint mrun (m : mwstate) (cs : list call) : mwstate * list (outcome unit) :=
  match cs with
  | [] => (m, [])
  | c :: l => let '(m1, r) := mstep m c in let '(m2, rs) := mrun m1 l in (m2, r :: rs)
  end.
(** Writer::~Writer, writer.cpp:14-18.  (SimpleWriter and FaststartWriter declare no destructor: m_mdat_fd and the intermediate file stay as
    they are.) *)
Definition Writer_destroy (m : mwstate) : outcome heap :=
  match ms_moov m with Some a => BoxInfo_delete_m a (ms_heap m) | None => Ok (ms_heap m) end.

(** The BoxInfo at an address and all it points to; a box may have no header yet. *)
Fixpoint load_tree (fuel : nat) (H : heap) (a : addr) : option node :=
  match fuel with
  | O => None
  | S f =>
      match at_ H a with
      | Some (A_info b ls) =>
          match at_ H b with
          | Some (A_box hd t (Some bx)) =>
              match (match hd with None => Some None | Some x => match at_ H x with Some (A_header h) => Some (Some h) | _ => None end end),
                    (fix go ls := match ls with [] => Some [] | l :: r => match load_tree f H l, go r with Some n, Some ns => Some (n :: ns) | _, _ => None end end) ls with
              | Some h, Some ns => Some (Node t h bx ns)
              | _, _ => None
              end
          | _ => None
          end
      | _ => None
      end
  end.
