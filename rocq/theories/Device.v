(** Model of output that fails: what the writers do when the stream or the intermediate file does not take every octet, or
    when the program is killed.  The other models assume that everything is taken (Device says what is requested, in
    which order, and what happens if it is not done).  No proofs in this file. *)
From Verif Require Import Base BitIO Boxes Box BoxTree H264 Track Writers.
From Coq Require Import String List.
Import ListNotations.
Open Scope Z_scope.
Open Scope list_scope.

(** * Requests *)

(** What is asked of a stream.
    - [Seek p]: os.seekp(p, std::ios_base::beg); always succeeds (simplification);
    - [Write bs]: os.write(...) followed by a test of good() (bitio/writer.cpp:21-27, 50-55), or fwrite whose result is
      tested (faststart_writer.cpp:95-98): an exception is raised unless everything is taken;
    - [Put bs]: std::copy or std::copy_n to a std::ostreambuf_iterator (box_header.cpp:107, simple_writer.cpp:95,
      faststart_writer.cpp:154).  The iterator stops storing when the stream buffer refuses an octet, but does not touch the
      state of the stream: good() stays true and the tests that follow (simple_writer.cpp:69, 79, 89, 96,
      faststart_writer.cpp:88, 155) pass. *)
Inductive cmd := Seek (p : Z) | Write (bs : list Z) | Put (bs : list Z).

(** What becomes of an octet offered to a stream buffer (or to the operating system): it is stored; it is refused (disk
    full, connection closed); the program is killed. *)
Inductive fate := Stored | Refused | Killed.
(** The fate of the [t]th octet offered in the life of the program, depending on the position of the stream. *)
Definition fates := nat -> Z -> fate.
(** How a sequence of requests ends: all done as far as the program knows; an exception was raised; the program is dead. *)
Inductive status := Running | Raised | Dead.

(** [n] octets are offered one after the other: how many are stored, and what stopped it if not all are. *)
Fixpoint offer (e : fates) (t : nat) (pos : Z) (n : nat) : nat * fate :=
  match n with
  | O => (O, Stored)
  | S n' =>
      match e t pos with
      | Stored => let '(k, f) := offer e (S t) (pos + 1) n' in (S k, f)
      | f => (O, f)
      end
  end.
Definition transfer (e : fates) (t : nat) (bs : list Z) (o : ostream) : fate * nat * ostream :=
  let '(k, f) := offer e t (os_pos o) (length bs) in
  (f, (t + k + match f with Refused => 1 | _ => 0 end)%nat, os_write (firstn k bs) o).
Fixpoint exec (e : fates) (t : nat) (l : list cmd) (o : ostream) : status * nat * ostream :=
  match l with
  | [] => (Running, t, o)
  | Seek p :: l' => exec e t l' (os_seekp p o)
  | Write bs :: l' =>
      match transfer e t bs o with
      | (Stored, t', o') => exec e t' l' o'
      | (Refused, t', o') => (Raised, t', o')
      | (Killed, t', o') => (Dead, t', o')
      end
  | Put bs :: l' =>
      match transfer e t bs o with
      | (Killed, t', o') => (Dead, t', o')
      | (_, t', o') => exec e t' l' o'
      end
  end.

(** * Requests of the writers *)

(** BoxHeader::write, box_header.cpp:76-112 *)
Definition header_cmds (h : boxheader) : list cmd := [Seek (h_offset h); Put (header_octets h)].
(** Box::writeData through a bitio::Writer: octet by octet or in runs, each tested (one [Write] here: the effect of several
    is the same) *)
Definition payload_octets (b : box) : list Z := match Box_writeData b writer_init with Ok (w, _) => w_os w | _ => [] end.
(** BoxInfo::write, box_info.cpp:83-89, Box::write, box.cpp:106-108 *)
Fixpoint BoxInfo_cmds (n : node) : list cmd :=
  let 'Node _ h b leafs := n in
  match h with Some h => header_cmds h | None => [] end ++ Write (payload_octets b) :: flat_map BoxInfo_cmds leafs.

(** BoxInfo::getSize after BoxInfo::write (BoxHeader::write updates m_size, box_header.cpp:108) *)
Definition size_after_write (n : node) (o : ostream) : Z :=
  match BoxInfo_write n o with Ok (n', _) => match BoxInfo_getSize n' with Ok s => s | _ => 0 end | _ => 0 end.
(** writeFtypBox, simple_writer.cpp:42-55, faststart_writer.cpp:66-73 *)
Definition writeFtypBox_cmds (w : mwriter) : list cmd :=
  match BoxInfo_adjustOffsetAndSize (new_info (str "ftyp") (B_ftyp (mw_ftyp w)) []) 0 with
  | Ok (n, _) =>
      BoxInfo_cmds n ++
      match mw_class w with Simple => [Seek (u64 (size_after_write n (mw_os w) + LARGE_HEADER_SIZE))] | Faststart => [] end
  | _ => []
  end.
(** SimpleWriter::writeFreeBoxAndMdatHeader, simple_writer.cpp:57-92 *)
Definition writeFreeBoxAndMdatHeader_cmds (w : mwriter) : list cmd :=
  match mw_ftyp_size w with
  | None => []
  | Some f =>
      Seek f ::
      if mw_mdat_size w >? UINT32_MAX - 8 then
        header_cmds (mk_header f (u64 (mw_mdat_size w + LARGE_HEADER_SIZE)) LARGE_HEADER_SIZE (str "mdat") false)
      else
        match BoxInfo_adjustOffsetAndSize (new_info (str "free") (B_free []) []) f with
        | Ok (n, _) =>
            BoxInfo_cmds n ++ header_cmds (mk_header (u64 (f + size_after_write n (os_seekp f (mw_os w)))) (u64 (mw_mdat_size w + SMALL_HEADER_SIZE)) SMALL_HEADER_SIZE (str "mdat") false)
        | _ => []
        end
  end.
(** writeMoovBox, simple_writer.cpp:117-122, faststart_writer.cpp:115-125 *)
Definition moov_tree_cmds (w : mwriter) : list cmd :=
  match mw_moov w with None => [] | Some m => BoxInfo_cmds (set_next_track_id (mw_next_id w) m) end.
Definition writeMoovBox_cmds (w : mwriter) : list cmd :=
  match mw_class w with
  | Simple => match Writer_setOffsetAndSize w with Ok w' => moov_tree_cmds w' | _ => [] end
  | Faststart => match mw_ftyp_size w with Some f => Seek f :: moov_tree_cmds w | None => [] end
  end.
(** FaststartWriter::writeMdatHeader, faststart_writer.cpp:75-92 *)
Definition writeMdatHeader_cmds (w : mwriter) : list cmd :=
  match mw_ftyp_size w, Faststart_getMoovSize w with
  | Some f, Ok m =>
      let offset := u64 (f + m) in
      let hs := Faststart_getMdatHeaderSize w in
      Seek offset :: header_cmds (mk_header offset (u64 (mw_mdat_size w + hs)) hs (str "mdat") false)
  | _, _ => []
  end.
(** FaststartWriter::copyMdatData, the loop of faststart_writer.cpp:151-158 (see [copy_loop]) *)
Fixpoint copy_cmds (fuel : nat) (file : list Z) (pos : Z) : list cmd :=
  match fuel with
  | O => []
  | S f =>
      let chunk := firstn (Z.to_nat COPY_MDAT_DATA_BUFFER_SIZE) (skipn (Z.to_nat pos) file) in
      Put chunk :: if Zlen chunk <? COPY_MDAT_DATA_BUFFER_SIZE then [] else copy_cmds f file (pos + Zlen chunk)
  end.
Definition copyMdatData_cmds (w : mwriter) : list cmd := copy_cmds (length (os_data (mw_tmp w)) + 1) (os_data (mw_tmp w)) 0.

(** What a call other than addData and addMdatData asks of the output stream. *)
Definition call_cmds (o : op) (w : mwriter) : list cmd :=
  match o with
  | O_WriteFtyp => writeFtypBox_cmds w
  | O_WriteFreeAndMdatHeader => writeFreeBoxAndMdatHeader_cmds w
  | O_WriteMoov => writeMoovBox_cmds w
  | O_WriteMdatHeader => writeMdatHeader_cmds w
  | O_CopyMdatData => copyMdatData_cmds w
  | _ => []
  end.

(** * Sessions *)

(** The fates of the octets offered to the output stream and to the intermediate file. *)
Record devices := mk_devices { on_output : fates; on_tmp : fates }.

(** addMdatData, simple_writer.cpp:94-101, faststart_writer.cpp:94-100 *)
Definition dev_addMdatData (e : devices) (t : nat) (data : list Z) (w : mwriter) : status * nat * outcome mwriter :=
  match Writer_addMdatData data w with
  | Ok w' =>
      match mw_class w with
      | Simple =>
          let '(st, t', o) := exec (on_output e) t [Put data] (mw_os w) in
          (st, t', Ok (set_os o (match st with Running => w' | _ => w end)))
      | Faststart =>
          let '(st, t', o) := exec (on_tmp e) t [Write data] (mw_tmp w) in
          (st, t', Ok (set_tmp o true (match st with Running => w' | _ => w end)))
      end
  | r => (Running, t, r)
  end.
(** The actions of addData in order ([track_actions]); the offset of a chunk is what the stream tells (track.cpp:27-48). *)
Fixpoint dev_actions (e : devices) (t : nat) (ts : Z) (is_key : bool) (acts : list nal_action) (tr : track) (w : mwriter) :
  status * nat * outcome (track * mwriter) :=
  match acts with
  | [] => (Running, t, Ok (tr, w))
  | StoreSample d :: r =>
      match dev_addMdatData e t d w with
      | (Running, t', Ok w') => dev_actions e t' ts is_key r (Track_addMdatData (Writer_tellCurrentMdatOffset w) ts d is_key tr) w'
      | (st, t', Ok w') => (st, t', Ok (tr, w'))
      | (st, t', Throw x) => (st, t', Throw x)
      | (st, t', UB) => (st, t', UB)
      end
  | AppendSPS p :: r => dev_actions e t ts is_key r (H264_appendSPS p tr) w
  | AppendPPS p :: r => dev_actions e t ts is_key r (H264_appendPPS p tr) w
  end.

(** One call.  Everything but the streams is as in [step]; a call that does not return leaves the rest of the session as it
    was (nobody can look at it any more: [run_dev] stops).  The intermediate file is removed when copyMdatData has made all
    its requests (faststart_writer.cpp:160-165; closing and removing succeed: simplification). *)
Definition dev_step (e : devices) (t : nat) (s : session) (o : op) : status * nat * session * outcome unit :=
  let w := s_writer s in
  match o with
  | O_AddData i ts data key =>
      match nth_error (s_tracks s) i with
      | None => (Running, t, s, UB)
      | Some tr =>
          match addData_actions (t_codec tr) data with
          | None => (Running, t, s, UB)
          | Some (acts, r) =>
              match dev_actions e t ts key acts tr w with
              | (st, t', Ok (tr', w')) => (st, t', mk_session w' (update_nth i tr' (s_tracks s)), r)
              | (st, t', Throw x) => (st, t', s, Throw x)
              | (st, t', UB) => (st, t', s, UB)
              end
          end
      end
  | O_AddRaw data =>
      match dev_addMdatData e t data w with
      | (st, t', r) => let '(s', r') := lift s r in (st, t', s', r')
      end
  | _ =>
      match step s o with
      | (s', Ok _) =>
          let '(st, t', os) := exec (on_output e) t (call_cmds o w) (mw_os w) in
          match st with
          | Running => (st, t', mk_session (set_os os (s_writer s')) (s_tracks s'), Ok tt)
          | _ => (st, t', mk_session (set_os os w) (s_tracks s), Ok tt)
          end
      | (s', r) => (Running, t, s', r)
      end
  end.
(** A program makes its calls until one raises an exception because of the output, or it is killed.  Results of the calls that
    have returned. *)
Fixpoint run_dev (e : devices) (t : nat) (s : session) (ops : list op) : status * nat * session * list (outcome unit) :=
  match ops with
  | [] => (Running, t, s, [])
  | o :: l =>
      match dev_step e t s o with
      | (Running, t1, s1, r) => let '(st, t2, s2, rs) := run_dev e t1 s1 l in (st, t2, s2, r :: rs)
      | (st, t1, s1, _) => (st, t1, s1, [])
      end
  end.
