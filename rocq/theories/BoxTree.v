(** Model of output streams, BoxHeader (src/box_header.cpp), Box::write/getSize/... (src/box.cpp) and BoxInfo
    (src/box_info.cpp).  No proofs in this file. *)
From Verif Require Import Base BitIO Boxes Box Print.
From Coq Require Import String List.
Import ListNotations.
Open Scope Z_scope.
Open Scope list_scope.

(** * Streams *)

(** A seekable std::ostream on a file: contents and put position.  Seeking beyond the end is allowed (as for
    std::ofstream; a std::stringstream would set failbit instead) and the gap reads as zeros once something is written.
    I/O errors (good() == false) are not modelled here (writing: Device.v). *)
Record ostream := mkOS { os_data : list Z; os_pos : Z }.

(** Contents of a file after writing [bs] at position [p]. *)
Definition splice (l : list Z) (p : Z) (bs : list Z) : list Z :=
  match bs with
  | [] => l
  | _ => firstn (Z.to_nat p) (l ++ repeat 0 (Z.to_nat p - length l)) ++ bs ++ skipn (Z.to_nat p + length bs) l
  end.
(** os.seekp(p, beg) *)
Definition os_seekp (p : Z) (o : ostream) : ostream := mkOS (os_data o) p.
(** os.write / std::copy to an ostreambuf_iterator *)
Definition os_write (bs : list Z) (o : ostream) : ostream := mkOS (splice (os_data o) (os_pos o) bs) (os_pos o + Zlen bs).

(** * BoxHeader *)

(** include/shiguredo/mp4/box_header.hpp:12-44; all sizes are uint64_t *)
Record boxheader := mk_header { h_offset : Z; h_size : Z; h_header_size : Z; h_type : list Z; h_extend_to_eof : bool }.
Definition u64 (v : Z) : Z := v mod 2 ^ 64.
(** constants.hpp: SMALL_HEADER_SIZE, LARGE_HEADER_SIZE; std::numeric_limits<uint32_t>::max() *)
Definition SMALL_HEADER_SIZE := 8.
Definition LARGE_HEADER_SIZE := 16.
Definition UINT32_MAX := 2 ^ 32 - 1.
(** BoxHeader({.type = m_type}), box_header.hpp:14-20 default member values *)
Definition header_new (type : list Z) : boxheader := mk_header 0 0 SMALL_HEADER_SIZE type false.
(** BoxHeader::setOffsetAndDataSize, box_header.cpp:152-160 *)
Definition header_setOffsetAndDataSize (h : boxheader) (offset data_size : Z) : boxheader :=
  let hs := if data_size >? UINT32_MAX - SMALL_HEADER_SIZE then LARGE_HEADER_SIZE else SMALL_HEADER_SIZE in
  mk_header offset (u64 (data_size + hs)) hs (h_type h) (h_extend_to_eof h).
(** BoxHeader::getDataSize, box_header.cpp:129-131 *)
Definition header_getDataSize (h : boxheader) : Z := u64 (h_size h - h_header_size h).
(** the octets built by BoxHeader::write, box_header.cpp:81-106 *)
Definition header_octets (h : boxheader) : list Z :=
  if h_extend_to_eof h then [0; 0; 0; 0] ++ h_type h
  else if (h_size h <=? UINT32_MAX) && negb (h_header_size h =? LARGE_HEADER_SIZE)
       then uint32_to_be (h_size h) ++ h_type h
       else [0; 0; 0; 1] ++ h_type h ++ uint64_to_be (h_size h).
(** BoxHeader::write, box_header.cpp:76-112: the updated header (m_size, m_header_size), the stream *)
Definition header_write (h : boxheader) (o : ostream) : boxheader * ostream :=
  let data := header_octets h in
  (mk_header (h_offset h) (u64 (h_size h + (Zlen data - h_header_size h))) (Zlen data) (h_type h) (h_extend_to_eof h),
   os_write data (os_seekp (h_offset h) o)).

(** BoxHeader::toString, box_header.cpp:141-143 *)
Definition BoxHeader_toString (h : boxheader) : list Z :=
  lit "[" ++ BoxType_toString (h_type h) ++ lit "] Offset=" ++ dec (h_offset h) ++ lit " Size=" ++ dec (h_size h).
(** Box::toString, box.cpp:64-73 *)
Definition Box_toString (h : option boxheader) (b : box) : outcome (list Z) :=
  obind (Box_toStringOnlyData b) (fun only_data =>
    let tail := match only_data with [] => [] | _ => 32 :: only_data end in
    Ok (match h with Some h => BoxHeader_toString h | None => lit "header is not set:" end ++ tail)).

(** Outcome of read_box_header, box_header.cpp:18-67 on an istream with contents [data] at position [pos].
    copy_n past the end of the stream dereferences an end-of-stream iterator: UB. *)
Definition read_box_header (data : list Z) (pos : Z) : outcome boxheader :=
  let eof := Zlen data in
  if u64 (eof - pos) <? SMALL_HEADER_SIZE then Throw InvalidArgument
  else
    match skipn (Z.to_nat pos) data with
    | b0 :: b1 :: b2 :: b3 :: t0 :: t1 :: t2 :: t3 :: rest =>
        let size := be_to_uint32 b0 b1 b2 b3 in
        let type := [t0; t1; t2; t3] in
        if size =? 0 then Ok (mk_header pos (u64 (eof - pos)) SMALL_HEADER_SIZE type true)
        else if size =? 1 then
          if u64 (eof - pos) <? LARGE_HEADER_SIZE then Throw InvalidArgument
          else match rest with
               | c0 :: c1 :: c2 :: c3 :: c4 :: c5 :: c6 :: c7 :: _ =>
                   Ok (mk_header pos (be_to_uint64 c0 c1 c2 c3 c4 c5 c6 c7) LARGE_HEADER_SIZE type false)
               | _ => UB
               end
        else Ok (mk_header pos size SMALL_HEADER_SIZE type false)
    | _ => UB
    end.

(** * BoxInfo *)

(** A BoxInfo with its Box: m_type, m_header (null until makeHeader), the members of the box, m_leafs.
    m_path is only used for its length when printing; it is the depth of the box in its tree (box_info.cpp:16-32 extends the
    path of the parent, and addLeaf is only called there), passed as [depth] to BoxInfo_toString. *)
Inductive node := Node (type : list Z) (header : option boxheader) (b : box) (leafs : list node).
Definition n_type (n : node) : list Z := let 'Node t _ _ _ := n in t.
Definition n_header (n : node) : option boxheader := let 'Node _ h _ _ := n in h.
Definition n_box (n : node) : box := let 'Node _ _ b _ := n in b.
Definition n_leafs (n : node) : list node := let 'Node _ _ _ l := n in l.

(** BoxInfo({.box = new ...}) of a freshly constructed box *)
Definition new_info (type : list Z) (b : box) (leafs : list node) : node := Node type None b leafs.
(** Box::makeHeader, box.cpp:110-115 *)
Definition makeHeader (type : list Z) (h : option boxheader) : boxheader :=
  match h with Some h => h | None => header_new type end.
(** BoxInfo::getSize / Box::getSize, box_info.cpp:48-50, box.cpp:94-99 *)
Definition BoxInfo_getSize (n : node) : outcome Z :=
  match n_header n with Some h => Ok (h_size h) | None => Throw LogicError end.

(** The leaf loop of adjustOffsetAndSize, box_info.cpp:71-73; [acc] = leafs_size. *)
Fixpoint adjust_leafs (adj : node -> Z -> option (node * Z)) (base acc : Z) (l : list node) : option (list node * Z) :=
  match l with
  | [] => Some ([], acc)
  | n :: l' =>
      match adj n (u64 (base + acc)) with
      | Some (n', s) =>
          match adjust_leafs adj base (u64 (acc + s)) l' with
          | Some (r, total) => Some (n' :: r, total)
          | None => None
          end
      | None => None
      end
  end.
(** BoxInfo::adjustOffsetAndSize, box_info.cpp:67-81, with fuel (None = out of fuel; never happens with [adjust_fuel]). *)
Fixpoint adjust (fuel : nat) (n : node) (offset : Z) : option (node * Z) :=
  match fuel with
  | O => None
  | S f =>
      let 'Node type h b leafs := n in
      let h0 := makeHeader type h in
      let header_size := h_header_size h0 in
      let data_size := Box_getDataSize b in
      match adjust_leafs (adjust f) (u64 (offset + header_size + data_size)) 0 leafs with
      | None => None
      | Some (leafs', leafs_size) =>
          let h1 := header_setOffsetAndDataSize h0 offset (u64 (data_size + leafs_size)) in
          let n1 := Node type (Some h1) b leafs' in
          if negb (header_size =? h_header_size h1) then
            match adjust f n1 offset with
            | Some (n2, s) => Some (n2, s)
            | None => None
            end
          else Some (n1, h_size h1)
      end
  end.
Fixpoint height (n : node) : nat := let 'Node _ _ _ l := n in S (fold_right (fun n a => Nat.max (height n) a) 0%nat l).
Definition adjust_fuel (n : node) : nat := 2 * height n.
(** BoxInfo::adjustOffsetAndSize as called by the writers *)
Definition BoxInfo_adjustOffsetAndSize (n : node) (offset : Z) : outcome (node * Z) :=
  match adjust (adjust_fuel n) n offset with Some r => Ok r | None => UB end.

(** Box::writeData on the ostream at its position: a new bitio::Writer emits its octets there; bits pending when the
    Writer is destroyed are lost. *)
Definition os_writeData (b : box) (o : ostream) : outcome ostream :=
  match Box_writeData b writer_init with
  | Ok (w, _) => Ok (os_write (w_os w) o)
  | Throw e => Throw e
  | UB => UB
  end.
(** BoxInfo::toString, box_info.cpp:56-65: the box after two spaces per ancestor, then its leafs, on lines of their own.  The
    leafs are printed before the box. *)
Fixpoint BoxInfo_toString (depth : nat) (n : node) : outcome (list Z) :=
  let 'Node _ h b leafs := n in
  obind ((fix leafs_toString (l : list node) : outcome (list (list Z)) :=
            match l with
            | [] => Ok []
            | k :: l' => obind (BoxInfo_toString (S depth) k) (fun s => obind (leafs_toString l') (fun r => Ok (s :: r)))
            end) leafs) (fun ls =>
  obind (Box_toString h b) (fun s =>
    Ok (repeat 32 (2 * depth) ++ s ++ match ls with [] => [] | _ => 10 :: join [10] ls end))).
(** Box::write, box.cpp:106-108 (operands evaluated left to right: see DESIGN.md), BoxInfo::write, box_info.cpp:83-89.
    The argument of spdlog::trace is evaluated whatever the log level is; its text goes nowhere.  A box without header
    dereferences a null pointer. *)
Fixpoint BoxInfo_write (n : node) (o : ostream) : outcome (node * ostream) :=
  let 'Node type h b leafs := n in
  obind (Box_toString h b) (fun _ =>
  match h with
  | None => UB
  | Some h =>
      let '(h', o1) := header_write h o in
      match os_writeData b o1 with
      | Ok o2 =>
          match (fix leafs_write (l : list node) (o : ostream) : outcome (list node * ostream) :=
            match l with
            | [] => Ok ([], o)
            | n :: l' =>
                match BoxInfo_write n o with
                | Ok (n', o') => match leafs_write l' o' with Ok (r, o'') => Ok (n' :: r, o'') | Throw e => Throw e | UB => UB end
                | Throw e => Throw e
                | UB => UB
                end
            end) leafs o2 with
          | Ok (leafs', o3) => Ok (Node type (Some h') b leafs', o3)
          | Throw e => Throw e
          | UB => UB
          end
      | Throw e => Throw e
      | UB => UB
      end
  end).
(** the leaf loop of BoxInfo::write on its own *)
Fixpoint BoxInfo_write_all (l : list node) (o : ostream) : outcome (list node * ostream) :=
  match l with
  | [] => Ok ([], o)
  | n :: l' =>
      match BoxInfo_write n o with
      | Ok (n', o') => match BoxInfo_write_all l' o' with Ok (r, o'') => Ok (n' :: r, o'') | Throw e => Throw e | UB => UB end
      | Throw e => Throw e
      | UB => UB
      end
  end.

(** * SimpleReader *)

(** SimpleReader::readBox, reader.cpp:47-82.  [file] tells whether seekg beyond the end succeeds (std::ifstream) or sets
    failbit (std::istringstream).  [uw]: the parent is a "wave" box (box_info.cpp:20-26).  Result: the new BoxInfo, the
    position of the stream, the returned size.  Outer None = out of fuel. *)
Definition type_wave : list Z := [119; 97; 118; 101].
Fixpoint readBox (fuel : nat) (file : bool) (data : list Z) (uw : bool) (pos : Z) : option (outcome (node * Z * Z)) :=
  match fuel with
  | O => None
  | S f =>
      match read_box_header data pos with
      | Throw e => Some (Throw e)
      | UB => Some UB
      | Ok h =>
          let start := h_offset h + h_header_size h in
          if negb file && (start >? Zlen data) then Some (Throw RuntimeError)  (* seekToData, box_header.cpp:114-119 *)
          else
          let remaining := u64 (u64 (Zlen data - h_offset h) - h_header_size h) in
          if header_getDataSize h >? remaining then Some (Throw RuntimeError)
          else if start + header_getDataSize h >? Zlen data then Some UB  (* copy_n past the end *)
          else
          let payload := firstn (Z.to_nat (header_getDataSize h)) (skipn (Z.to_nat start) data) in
          let k := BoxMap_getBoxInstance BoxMap_registered (h_type h) in
          match Box_readData k (h_type h) uw (reader_init payload) with
          | Throw e => Some (Throw e)
          | UB => Some UB
          | Ok (_, rbits, b) =>
              let rbytes := rbits / 8 in
              let pos1 := start + rbytes in
              if negb file && (pos1 >? Zlen data) then Some (Throw RuntimeError)
              else
              match readLeafs f file data (list_eqb (h_type h) type_wave) (header_getDataSize h) rbytes pos1 with
              | None => None
              | Some (Throw e) => Some (Throw e)
              | Some UB => Some UB
              | Some (Ok (leafs, pos2)) => Some (Ok (Node (h_type h) (Some h) b leafs, pos2, h_size h))
              end
          end
      end
  end
(** while (header->getDataSize() > rbytes) rbytes += readBox(info), reader.cpp:78-80 (and read(), 37-41, where
    the bound is m_total_size) *)
with readLeafs (fuel : nat) (file : bool) (data : list Z) (uw : bool) (bound rbytes pos : Z) : option (outcome (list node * Z)) :=
  match fuel with
  | O => None
  | S f =>
      if bound >? rbytes then
        match readBox f file data uw pos with
        | None => None
        | Some (Throw e) => Some (Throw e)
        | Some UB => Some UB
        | Some (Ok (n, pos1, size)) =>
            match readLeafs f file data uw bound (u64 (rbytes + size)) pos1 with
            | None => None
            | Some (Throw e) => Some (Throw e)
            | Some UB => Some UB
            | Some (Ok (l, pos2)) => Some (Ok (n :: l, pos2))
            end
        end
      else Some (Ok ([], pos))
  end.
(** The loop of SimpleReader::read after the constructor, reader.cpp:23-41: the top-level boxes *)
Definition SimpleReader_parse (file : bool) (data : list Z) : option (outcome (list node)) :=
  match readLeafs (length data + 2) file data false (Zlen data) 0 0 with
  | None => None
  | Some (Throw e) => Some (Throw e)
  | Some UB => Some UB
  | Some (Ok (l, _)) => Some (Ok l)
  end.
(** reader.cpp:42-44: what goes to std::cout *)
Fixpoint print_boxes (l : list node) : outcome (list Z) :=
  match l with
  | [] => Ok []
  | n :: l' => obind (BoxInfo_toString 0 n) (fun s => obind (print_boxes l') (fun r => Ok (s ++ 10 :: r)))
  end.
(** SimpleReader::read, reader.cpp:37-45: the boxes, m_boxes, and the text printed *)
Definition SimpleReader_read (file : bool) (data : list Z) : option (outcome (list node * list Z)) :=
  match SimpleReader_parse file data with
  | None => None
  | Some (Throw e) => Some (Throw e)
  | Some UB => Some UB
  | Some (Ok l) => Some (obind (print_boxes l) (fun text => Ok (l, text)))
  end.
