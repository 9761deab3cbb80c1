(** Model of src/writer/*.cpp and of a program that drives a writer and its tracks.  No proofs in this file. *)
From Verif Require Import Base BitIO Boxes Box BoxTree H264 Track.
From Coq Require Import String List.
Import ListNotations.
Open Scope Z_scope.
Open Scope list_scope.

(** * Writers *)

(** Which subclass of Writer. *)
Inductive wclass := Simple | Faststart.

(** Writer (writer.hpp:52-95), SimpleWriter (simple_writer.hpp:27-45) and FaststartWriter (faststart_writer.hpp:32-60).
    - [mw_duration]: the floating point product of simple_writer.cpp:31 / faststart_writer.cpp:56, left arbitrary here (Float.v has the product);
    - [mw_time]: m_time_from_epoch, read from the clock by the constructor, left arbitrary;
    - [mw_ftyp_size]: m_ftyp_size has no initialiser: None until writeFtypBox was called, using it then is undefined;
    - [mw_os]: the output stream; [mw_tmp]: the intermediate file of FaststartWriter (m_mdat_fd), a stdio stream opened
      "w+" on a fresh file; [mw_tmp_open]: not yet closed by copyMdatData;
    - m_mvhd_box is a pointer to the box of the first leaf of m_moov_box_info (see [set_next_track_id]).
    The streams of this file take everything; Device.v models those that do not, and programs that are killed. *)
Record mwriter := mk_mwriter {
  mw_class : wclass; mw_timescale : Z; mw_duration : Z; mw_time : Z; mw_ftyp : ftyp;
  mw_ftyp_size : option Z; mw_mdat_size : Z; mw_next_id : Z; mw_moov : option node;
  mw_os : ostream; mw_tmp : ostream; mw_tmp_open : bool }.

Definition set_os (o : ostream) (w : mwriter) : mwriter :=
  mk_mwriter (mw_class w) (mw_timescale w) (mw_duration w) (mw_time w) (mw_ftyp w) (mw_ftyp_size w) (mw_mdat_size w)
    (mw_next_id w) (mw_moov w) o (mw_tmp w) (mw_tmp_open w).
Definition set_tmp (o : ostream) (op : bool) (w : mwriter) : mwriter :=
  mk_mwriter (mw_class w) (mw_timescale w) (mw_duration w) (mw_time w) (mw_ftyp w) (mw_ftyp_size w) (mw_mdat_size w)
    (mw_next_id w) (mw_moov w) (mw_os w) o op.
Definition set_mdat_size (v : Z) (w : mwriter) : mwriter :=
  mk_mwriter (mw_class w) (mw_timescale w) (mw_duration w) (mw_time w) (mw_ftyp w) (mw_ftyp_size w) v
    (mw_next_id w) (mw_moov w) (mw_os w) (mw_tmp w) (mw_tmp_open w).
Definition set_ftyp_size (v : option Z) (w : mwriter) : mwriter :=
  mk_mwriter (mw_class w) (mw_timescale w) (mw_duration w) (mw_time w) (mw_ftyp w) v (mw_mdat_size w)
    (mw_next_id w) (mw_moov w) (mw_os w) (mw_tmp w) (mw_tmp_open w).
Definition set_next_id (v : Z) (w : mwriter) : mwriter :=
  mk_mwriter (mw_class w) (mw_timescale w) (mw_duration w) (mw_time w) (mw_ftyp w) (mw_ftyp_size w) (mw_mdat_size w)
    v (mw_moov w) (mw_os w) (mw_tmp w) (mw_tmp_open w).
Definition set_moov (m : option node) (w : mwriter) : mwriter :=
  mk_mwriter (mw_class w) (mw_timescale w) (mw_duration w) (mw_time w) (mw_ftyp w) (mw_ftyp_size w) (mw_mdat_size w)
    (mw_next_id w) m (mw_os w) (mw_tmp w) (mw_tmp_open w).

(** moov[mvhd], simple_writer.cpp:33-39, faststart_writer.cpp:55-62; defaults mvhd.hpp:13-25 *)
Definition make_mvhd (w : mwriter) : mvhd :=
  mk_mvhd (fbox 0 0) (mw_time w) (mw_time w) (mw_timescale w) (mw_duration w) 65536 256 0 0 0 unity_matrix [0;0;0;0;0;0] (mw_next_id w).
Definition make_moov (w : mwriter) : node :=
  new_info (str "moov") B_container [new_info (str "mvhd") (B_mvhd (make_mvhd w)) []].

(** SimpleWriter::SimpleWriter, simple_writer.cpp:23-40 *)
Definition SimpleWriter_new (timescale duration time : Z) (f : ftyp) (os : ostream) : mwriter :=
  let w := mk_mwriter Simple timescale duration time f None 0 1 None os (mkOS [] 0) false in
  set_moov (Some (make_moov w)) w.
(** FaststartWriter::FaststartWriter, faststart_writer.cpp:25-48 *)
Definition FaststartWriter_new (timescale duration time : Z) (f : ftyp) (os : ostream) : mwriter :=
  mk_mwriter Faststart timescale duration time f None 0 1 None os (mkOS [] 0) true.

(** Writer::getAndUpdateNextTrackID, writer.cpp:36-40 *)
Definition Writer_getAndUpdateNextTrackID (w : mwriter) : mwriter * Z := (set_next_id (u32 (mw_next_id w + 1)) w, mw_next_id w).

(** tellCurrentMdatOffset, simple_writer.cpp:108-115, faststart_writer.cpp:106-113 *)
Definition Writer_tellCurrentMdatOffset (w : mwriter) : Z :=
  match mw_class w with Simple => os_pos (mw_os w) | Faststart => os_pos (mw_tmp w) end.
(** addMdatData, simple_writer.cpp:94-101, faststart_writer.cpp:94-100.  Using the intermediate file after fclose is
    undefined. *)
Definition Writer_addMdatData (data : list Z) (w : mwriter) : outcome mwriter :=
  match mw_class w with
  | Simple => Ok (set_mdat_size (u64 (mw_mdat_size w + Zlen data)) (set_os (os_write data (mw_os w)) w))
  | Faststart =>
      if mw_tmp_open w
      then Ok (set_mdat_size (u64 (mw_mdat_size w + Zlen data)) (set_tmp (os_write data (mw_tmp w)) true w))
      else UB
  end.

(** Writer::appendUdtaBoxInfo, writer.cpp:42-51, default argument writer.hpp:43-44, data.hpp:49-53 *)
Definition make_udta : node :=
  new_info (str "udta") B_container
    [new_info (str "meta") (B_meta fullbox0)
       [make_hdlr (str "mdir") [];
        new_info (str "ilst") B_container
          [new_info (169 :: str "too") B_container [new_info (str "data") (B_data (mk_data 1 0 (str "shiguredo::mp4"))) []]]]].

(** writeFtypBox, simple_writer.cpp:42-55, faststart_writer.cpp:66-73 *)
Definition Writer_writeFtypBox (w : mwriter) : outcome mwriter :=
  match BoxInfo_adjustOffsetAndSize (new_info (str "ftyp") (B_ftyp (mw_ftyp w)) []) 0 with
  | Ok (n, _) =>
      match BoxInfo_write n (mw_os w) with
      | Ok (n', o) =>
          match BoxInfo_getSize n' with
          | Ok s =>
              let w' := set_ftyp_size (Some s) (set_os o w) in
              match mw_class w with
              | Simple => Ok (set_os (os_seekp (u64 (s + LARGE_HEADER_SIZE)) (mw_os w')) w')
              | Faststart => Ok w'
              end
          | Throw e => Throw e
          | UB => UB
          end
      | Throw e => Throw e
      | UB => UB
      end
  | Throw e => Throw e
  | UB => UB
  end.

(** setOffsetAndSize, simple_writer.cpp:103-106, faststart_writer.cpp:102-104 *)
Definition Writer_setOffsetAndSize (w : mwriter) : outcome mwriter :=
  match mw_moov w, mw_ftyp_size w with
  | Some m, Some f =>
      let offset := match mw_class w with Simple => u64 (f + LARGE_HEADER_SIZE + mw_mdat_size w) | Faststart => f end in
      match BoxInfo_adjustOffsetAndSize m offset with
      | Ok (m', _) => Ok (set_moov (Some m') w)
      | Throw e => Throw e
      | UB => UB
      end
  | _, _ => UB
  end.

(** m_mvhd_box->setNextTrackID(m_next_track_id): the mvhd box is the first leaf of moov *)
Definition set_next_track_id (id : Z) (m : node) : node :=
  match m with
  | Node ty h b (Node ty1 h1 (B_mvhd v) l1 :: l) =>
      Node ty h b (Node ty1 h1 (B_mvhd (mk_mvhd (mvhd_fb v) (mvhd_creation_time v) (mvhd_modification_time v) (mvhd_timescale v)
        (mvhd_duration v) (mvhd_rate v) (mvhd_volume v) (mvhd_reserved v) (mvhd_reserved2 v) (mvhd_reserved3 v)
        (mvhd_matrix v) (mvhd_pre_defined v) id)) l1 :: l)
  | _ => m
  end.

(** writeMoovBox, simple_writer.cpp:117-122, faststart_writer.cpp:115-125 *)
Definition write_moov_tree (w : mwriter) : outcome mwriter :=
  match mw_moov w with
  | None => UB
  | Some m =>
      match BoxInfo_write (set_next_track_id (mw_next_id w) m) (mw_os w) with
      | Ok (m', o) => Ok (set_moov (Some m') (set_os o w))
      | Throw e => Throw e
      | UB => UB
      end
  end.
Definition Writer_writeMoovBox (w : mwriter) : outcome mwriter :=
  match mw_class w with
  | Simple => obind (Writer_setOffsetAndSize w) write_moov_tree
  | Faststart =>
      match mw_ftyp_size w with
      | None => UB
      | Some f => write_moov_tree (set_os (os_seekp f (mw_os w)) w)
      end
  end.

(** SimpleWriter::writeFreeBoxAndMdatHeader, simple_writer.cpp:57-92 *)
Definition SimpleWriter_writeFreeBoxAndMdatHeader (w : mwriter) : outcome mwriter :=
  match mw_ftyp_size w with
  | None => UB
  | Some f =>
      let o := os_seekp f (mw_os w) in
      if mw_mdat_size w >? UINT32_MAX - 8 then
        let h := mk_header f (u64 (mw_mdat_size w + LARGE_HEADER_SIZE)) LARGE_HEADER_SIZE (str "mdat") false in
        Ok (set_os (snd (header_write h o)) w)
      else
        match BoxInfo_adjustOffsetAndSize (new_info (str "free") (B_free []) []) f with
        | Ok (n, _) =>
            match BoxInfo_write n o with
            | Ok (n', o1) =>
                match BoxInfo_getSize n' with
                | Ok s =>
                    let h := mk_header (u64 (f + s)) (u64 (mw_mdat_size w + SMALL_HEADER_SIZE)) SMALL_HEADER_SIZE (str "mdat") false in
                    Ok (set_os (snd (header_write h o1)) w)
                | Throw e => Throw e
                | UB => UB
                end
            | Throw e => Throw e
            | UB => UB
            end
        | Throw e => Throw e
        | UB => UB
        end
  end.

(** FaststartWriter::getMoovSize, getMdatHeaderSize, faststart_writer.cpp:131-143 *)
Definition Faststart_getMoovSize (w : mwriter) : outcome Z :=
  match mw_moov w with None => Ok 0 | Some m => BoxInfo_getSize m end.
Definition Faststart_getMdatHeaderSize (w : mwriter) : Z :=
  if mw_mdat_size w >? UINT32_MAX - 8 then LARGE_HEADER_SIZE else SMALL_HEADER_SIZE.
(** getFtypSize() + getMoovSize() + getMdatHeaderSize(), faststart_writer.cpp:170, 187 *)
Definition Faststart_size (w : mwriter) : outcome Z :=
  match mw_ftyp_size w with
  | None => UB
  | Some f => obind (Faststart_getMoovSize w) (fun m => Ok (u64 (f + m + Faststart_getMdatHeaderSize w)))
  end.
(** recreateMoovBoxInfo, faststart_writer.cpp:50-64 *)
Definition Faststart_recreateMoovBoxInfo (w : mwriter) : outcome mwriter := Writer_setOffsetAndSize (set_moov (Some (make_moov w)) w).
(** writeMdatHeader, faststart_writer.cpp:75-92 *)
Definition Faststart_writeMdatHeader (w : mwriter) : outcome mwriter :=
  match mw_ftyp_size w with
  | None => UB
  | Some f =>
      obind (Faststart_getMoovSize w) (fun m =>
        let offset := u64 (f + m) in
        let hs := Faststart_getMdatHeaderSize w in
        let h := mk_header offset (u64 (mw_mdat_size w + hs)) hs (str "mdat") false in
        Ok (set_os (snd (header_write h (os_seekp offset (mw_os w)))) w))
  end.
(** COPY_MDAT_DATA_BUFFER_SIZE, faststart_writer.hpp:21 *)
Definition COPY_MDAT_DATA_BUFFER_SIZE := 1024 * 1024.
(** The copy loop, faststart_writer.cpp:151-158: fread returns what is left when that is less than the buffer, and sets
    the end-of-file indicator exactly then. *)
Fixpoint copy_loop (fuel : nat) (file : list Z) (pos : Z) (o : ostream) : option ostream :=
  match fuel with
  | O => None
  | S f =>
      let chunk := firstn (Z.to_nat COPY_MDAT_DATA_BUFFER_SIZE) (skipn (Z.to_nat pos) file) in
      let o' := os_write chunk o in
      if Zlen chunk <? COPY_MDAT_DATA_BUFFER_SIZE then Some o' else copy_loop f file (pos + Zlen chunk) o'
  end.
(** copyMdatData, faststart_writer.cpp:145-166 *)
Definition Faststart_copyMdatData (w : mwriter) : outcome mwriter :=
  if mw_tmp_open w then
    match copy_loop (length (os_data (mw_tmp w)) + 1) (os_data (mw_tmp w)) 0 (mw_os w) with
    | Some o => Ok (set_tmp (mw_tmp w) false (set_os o w))
    | None => UB
    end
  else UB.

(** * Sessions: a writer and the tracks attached to it *)
Record session := mk_session { s_writer : mwriter; s_tracks : list track }.

Fixpoint update_nth {A} (i : nat) (x : A) (l : list A) : list A :=
  match i, l with
  | _, [] => []
  | O, _ :: l' => x :: l'
  | S j, y :: l' => y :: update_nth j x l'
  end.

(** Calls a program can make.  A track is designated by its index in order of creation.  [O_AddRaw] is
    Writer::addMdatData called directly. *)
Inductive op :=
  | O_NewTrack (c : codec) (timescale duration_ts duration_mvhd media_time id : Z)
  | O_NextTrackID
  | O_AddData (i : nat) (timestamp : Z) (data : list Z) (is_key : bool)
  | O_Terminate (i : nat)
  | O_SetMediaTime (i : nat) (v : Z)
  | O_ResetChunkOffsets (i : nat) (diff : Z)
  | O_AddRaw (data : list Z)
  | O_WriteFtyp
  | O_AppendTrakAndUdta (sel : list nat)
  | O_WriteFreeAndMdatHeader
  | O_WriteMdatHeader
  | O_WriteMoov
  | O_CopyMdatData.

(** Track::addMdatData with the writer, track.cpp:27-48 *)
Definition track_store (ts : Z) (data : list Z) (is_key : bool) (t : track) (w : mwriter) : outcome (track * mwriter) :=
  match Writer_addMdatData data w with
  | Ok w' => Ok (Track_addMdatData (Writer_tellCurrentMdatOffset w) ts data is_key t, w')
  | Throw e => Throw e
  | UB => UB
  end.
(** The actions of addData in order. *)
Fixpoint track_actions (ts : Z) (is_key : bool) (acts : list nal_action) (t : track) (w : mwriter) : outcome (track * mwriter) :=
  match acts with
  | [] => Ok (t, w)
  | StoreSample d :: r =>
      match track_store ts d is_key t w with
      | Ok (t', w') => track_actions ts is_key r t' w'
      | Throw e => Throw e
      | UB => UB
      end
  | AppendSPS p :: r => track_actions ts is_key r (H264_appendSPS p t) w
  | AppendPPS p :: r => track_actions ts is_key r (H264_appendPPS p t) w
  end.

(** for (auto t : tracks) [ t->resetChunkOffsets(diff); ] t->appendTrakBoxInfo(moov);
    simple_writer.cpp:125-127, faststart_writer.cpp:178-181.  [diff] = None: no reset. *)
Fixpoint append_traks (diff : option Z) (sel : list nat) (moov : node) (ts : list track) : outcome (node * list track) :=
  match sel with
  | [] => Ok (moov, ts)
  | i :: sel' =>
      match nth_error ts i with
      | None => UB
      | Some t =>
          let t := match diff with Some d => Track_resetChunkOffsets d t | None => t end in
          let '(moov', t') := Track_appendTrakBoxInfo moov t in
          append_traks diff sel' moov' (update_nth i t' ts)
      end
  end.
(** SimpleWriter::appendTrakAndUdtaBoxInfo, simple_writer.cpp:124-129 *)
Definition Simple_append (sel : list nat) (s : session) : outcome session :=
  match mw_moov (s_writer s) with
  | None => UB
  | Some m =>
      obind (append_traks None sel m (s_tracks s)) (fun '(m', ts) =>
        Ok (mk_session (set_moov (Some (node_add_leaf m' make_udta)) (s_writer s)) ts))
  end.
(** One iteration of the do-while loop, faststart_writer.cpp:173-191: the new session and the new size *)
Definition Faststart_iter (sel : list nat) (s : session) (prev_size size : Z) : outcome (session * Z) :=
  obind (Faststart_recreateMoovBoxInfo (s_writer s)) (fun w1 =>
  match mw_moov w1 with
  | None => UB
  | Some m =>
      obind (append_traks (Some (u64 (size - prev_size))) sel m (s_tracks s)) (fun '(m', ts) =>
      obind (Writer_setOffsetAndSize (set_moov (Some (node_add_leaf m' make_udta)) w1)) (fun w2 =>
      obind (Faststart_size w2) (fun size' =>
        if size' <? size then Throw RuntimeError else Ok (mk_session w2 ts, size'))))
  end).
(** The loop, faststart_writer.cpp:172-192.  Outer None = out of fuel. *)
Fixpoint Faststart_loop (fuel : nat) (sel : list nat) (s : session) (prev_size size : Z) : option (outcome session) :=
  match fuel with
  | O => None
  | S f =>
      match Faststart_iter sel s prev_size size with
      | Throw e => Some (Throw e)
      | UB => Some UB
      | Ok (s', size') => if negb (size =? size') then Faststart_loop f sel s' size size' else Some (Ok s')
      end
  end.
(** FaststartWriter::appendTrakAndUdtaBoxInfo, faststart_writer.cpp:168-193 *)
Definition Faststart_append_fuel (sel : list nat) : nat := length sel + 4.
Definition Faststart_append (sel : list nat) (s : session) : option (outcome session) :=
  match Faststart_size (s_writer s) with
  | Throw e => Some (Throw e)
  | UB => Some UB
  | Ok size => Faststart_loop (Faststart_append_fuel sel) sel s 0 size
  end.

(** Result of one call: the session afterwards and how the call ended.  A call that ends in an exception other than the
    one of addData (which keeps what it has stored so far) leaves the session as it was (simplification: the only ones
    modelled are the constructors' and the shrinking moov). *)
Definition lift (s : session) (o : outcome mwriter) : session * outcome unit :=
  match o with
  | Ok w => (mk_session w (s_tracks s), Ok tt)
  | Throw e => (s, Throw e)
  | UB => (s, UB)
  end.
Definition lift_s (s : session) (o : outcome session) : session * outcome unit :=
  match o with Ok s' => (s', Ok tt) | Throw e => (s, Throw e) | UB => (s, UB) end.
Definition on_track (i : nat) (f : track -> track) (s : session) : session * outcome unit :=
  match nth_error (s_tracks s) i with
  | Some t => (mk_session (s_writer s) (update_nth i (f t) (s_tracks s)), Ok tt)
  | None => (s, UB)
  end.

Definition step (s : session) (o : op) : session * outcome unit :=
  let w := s_writer s in
  match o with
  | O_NewTrack c timescale dts dmv media_time id =>
      match Track_new c timescale dts dmv (mw_time w) media_time id with
      | Ok t => (mk_session w (s_tracks s ++ [t]), Ok tt)
      | Throw e => (s, Throw e)
      | UB => (s, UB)
      end
  | O_NextTrackID => (mk_session (fst (Writer_getAndUpdateNextTrackID w)) (s_tracks s), Ok tt)
  | O_AddData i ts data key =>
      match nth_error (s_tracks s) i with
      | None => (s, UB)
      | Some t =>
          match addData_actions (t_codec t) data with
          | None => (s, UB)
          | Some (acts, r) =>
              match track_actions ts key acts t w with
              | Ok (t', w') => (mk_session w' (update_nth i t' (s_tracks s)), r)
              | Throw e => (s, Throw e)
              | UB => (s, UB)
              end
          end
      end
  | O_Terminate i => on_track i Track_terminateCurrentChunk s
  | O_SetMediaTime i v => on_track i (Track_setMediaTime v) s
  | O_ResetChunkOffsets i d => on_track i (Track_resetChunkOffsets d) s
  | O_AddRaw data => lift s (Writer_addMdatData data w)
  | O_WriteFtyp => lift s (Writer_writeFtypBox w)
  | O_AppendTrakAndUdta sel =>
      match mw_class w with
      | Simple => lift_s s (Simple_append sel s)
      | Faststart => match Faststart_append sel s with Some r => lift_s s r | None => (s, UB) end
      end
  | O_WriteFreeAndMdatHeader => lift s (SimpleWriter_writeFreeBoxAndMdatHeader w)
  | O_WriteMdatHeader => lift s (Faststart_writeMdatHeader w)
  | O_WriteMoov => lift s (Writer_writeMoovBox w)
  | O_CopyMdatData => lift s (Faststart_copyMdatData w)
  end.
Fixpoint run (s : session) (ops : list op) : session * list (outcome unit) :=
  match ops with
  | [] => (s, [])
  | o :: l => let '(s1, r) := step s o in let '(s2, rs) := run s1 l in (s2, r :: rs)
  end.
