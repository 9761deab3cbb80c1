(** Model of SimpleReader on a stream that cannot be read, or of which some octets cannot be read.  No proofs in this file. *)
From Verif Require Import Base BitIO Boxes Box BoxTree.
From Coq Require Import List.
Import ListNotations.
Open Scope Z_scope.

(** A stream: one that is not in a good state (a std::ifstream that could not open its file), or one with contents [data] of which the
    octets at the positions [bad] says true for cannot be read.  Reading such an octet through std::istreambuf_iterator (reader.cpp:57,
    box_header.cpp:41, 60) raises std::ios_base::failure, a std::runtime_error: std::basic_filebuf::underflow of libstdc++ throws when
    read(2) fails, and std::istreambuf_iterator does not catch.  seekg and tellg do not read. *)
Inductive source := Unopened | Opened (data : list Z) (bad : Z -> bool).
(** none of the [n] octets from [pos] on is bad *)
Definition readable (bad : Z -> bool) (pos n : Z) : bool := forallb (fun i => negb (bad (pos + Z.of_nat i))) (seq 0 (Z.to_nat n)).

(** read_box_header, box_header.cpp:18-68, as [BoxTree.read_box_header]: the octets are read at line 41 (eight), and 60 (eight more, for
    a 64-bit size).  Only octets of the file can be bad; reading beyond its end is undefined behaviour (UB below). *)
Definition read_box_header_e (bad : Z -> bool) (data : list Z) (pos : Z) : outcome boxheader :=
  let eof := Zlen data in
  if u64 (eof - pos) <? SMALL_HEADER_SIZE then Throw InvalidArgument
  else if negb (readable bad pos (Z.min SMALL_HEADER_SIZE (eof - pos))) then Throw RuntimeError
  else
    match skipn (Z.to_nat pos) data with
    | b0 :: b1 :: b2 :: b3 :: t0 :: t1 :: t2 :: t3 :: rest =>
        let size := be_to_uint32 b0 b1 b2 b3 in
        let type := [t0; t1; t2; t3] in
        if size =? 0 then Ok (mk_header pos (u64 (eof - pos)) SMALL_HEADER_SIZE type true)
        else if size =? 1 then
          if u64 (eof - pos) <? LARGE_HEADER_SIZE then Throw InvalidArgument
          else if negb (readable bad (pos + SMALL_HEADER_SIZE) (Z.min (LARGE_HEADER_SIZE - SMALL_HEADER_SIZE) (eof - (pos + SMALL_HEADER_SIZE)))) then Throw RuntimeError
          else match rest with
               | c0 :: c1 :: c2 :: c3 :: c4 :: c5 :: c6 :: c7 :: _ =>
                   Ok (mk_header pos (be_to_uint64 c0 c1 c2 c3 c4 c5 c6 c7) LARGE_HEADER_SIZE type false)
               | _ => UB
               end
        else Ok (mk_header pos size SMALL_HEADER_SIZE type false)
    | _ => UB
    end.
(** SimpleReader::readBox, reader.cpp:47-82, as [BoxTree.readBox]: the contents of the box are copied at line 57, before anything is
    made of them; readData works on the copy.  None = out of fuel. *)
Fixpoint readBox_e (bad : Z -> bool) (fuel : nat) (file : bool) (data : list Z) (uw : bool) (pos : Z) : option (outcome (node * Z * Z)) :=
  match fuel with
  | O => None
  | S f =>
      match read_box_header_e bad data pos with
      | Throw e => Some (Throw e)
      | UB => Some UB
      | Ok h =>
          let start := h_offset h + h_header_size h in
          if negb file && (start >? Zlen data) then Some (Throw RuntimeError)
          else
          let remaining := u64 (u64 (Zlen data - h_offset h) - h_header_size h) in
          if header_getDataSize h >? remaining then Some (Throw RuntimeError)
          else if negb (readable bad start (Z.min (header_getDataSize h) (Zlen data - start))) then Some (Throw RuntimeError)
          else if start + header_getDataSize h >? Zlen data then Some UB
          else
          let payload := firstn (Z.to_nat (header_getDataSize h)) (skipn (Z.to_nat start) data) in
          let k := BoxMap_getBoxInstance BoxMap_registered (h_type h) in
          match Box_readData k (h_type h) uw (reader_init payload) with
          | Throw e => Some (Throw e)
          | UB => Some UB
          | Ok (_, rbits, b) =>
              let rbytes := rbits / 8 in
              let pos1 := start + rbytes in
              if negb file && (pos1 >? Zlen data) then Some (Throw RuntimeError)
              else
              match readLeafs_e bad f file data (list_eqb (h_type h) type_wave) (header_getDataSize h) rbytes pos1 with
              | None => None
              | Some (Throw e) => Some (Throw e)
              | Some UB => Some UB
              | Some (Ok (leafs, pos2)) => Some (Ok (Node (h_type h) (Some h) b leafs, pos2, h_size h))
              end
          end
      end
  end
(** while (header->getDataSize() > rbytes) rbytes += readBox(info), reader.cpp:78-80 (and read(), 37-41) *)
with readLeafs_e (bad : Z -> bool) (fuel : nat) (file : bool) (data : list Z) (uw : bool) (bound rbytes pos : Z) : option (outcome (list node * Z)) :=
  match fuel with
  | O => None
  | S f =>
      if bound >? rbytes then
        match readBox_e bad f file data uw pos with
        | None => None
        | Some (Throw e) => Some (Throw e)
        | Some UB => Some UB
        | Some (Ok (n, pos1, size)) =>
            match readLeafs_e bad f file data uw bound (u64 (rbytes + size)) pos1 with
            | None => None
            | Some (Throw e) => Some (Throw e)
            | Some UB => Some UB
            | Some (Ok (l, pos2)) => Some (Ok (n :: l, pos2))
            end
        end
      else Some (Ok ([], pos))
  end.
(** SimpleReader::SimpleReader and SimpleReader::read, reader.cpp:23-45.  On a stream that is not in a good state tellg is -1, that is,
    m_total_size is 2^64 - 1; the loop is entered and read_box_header throws at once (box_header.cpp:19-22). *)
Definition SimpleReader_read_e (file : bool) (s : source) : option (outcome (list node * list Z)) :=
  match s with
  | Unopened => Some (if u64 (-1) >? 0 then Throw RuntimeError else Ok ([], []))
  | Opened data bad =>
      match readLeafs_e bad (length data + 2) file data false (Zlen data) 0 0 with
      | None => None
      | Some (Throw e) => Some (Throw e)
      | Some UB => Some UB
      | Some (Ok (l, _)) => Some (obind (print_boxes l) (fun text => Ok (l, text)))
      end
  end.
(** What mp4-tool dump does with the stream of its file (mp4-tool.cpp:43-49): what it prints and returns; an exception is not caught
    (std::terminate), and then nothing has been printed *)
Inductive exit_ := Exit (status : Z) (output : list Z) | Terminated.
Definition mp4_tool_dump (s : source) : option (outcome exit_) :=
  match SimpleReader_read_e true s with
  | None => None
  | Some UB => Some UB
  | Some (Throw _) => Some (Ok Terminated)
  | Some (Ok (_, text)) => Some (Ok (Exit 0 text))
  end.
