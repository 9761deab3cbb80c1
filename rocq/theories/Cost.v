(** Model of what SimpleReader::read uses while it runs: nested calls of readBox, and the copies of box data it makes.
    No proofs in this file. *)
From Verif Require Import Base BitIO Boxes Box BoxTree.
From Coq Require Import List.
Import ListNotations.
Open Scope Z_scope.

(** - [calls]: calls of SimpleReader::readBox;
    - [nested]: how many of them are active at the same time, at most (reader.cpp:79 calls readBox from readBox);
    - [copied]: octets copied into a std::stringstream [ss] (reader.cpp:57), together;
    - [held]: octets in those of them that exist at the same time, at most: [ss] is a local variable of readBox (reader.cpp:50), so
      it exists until the boxes inside have been read. *)
Record cost := mk_cost { calls : Z; nested : Z; copied : Z; held : Z }.
Definition no_cost : cost := mk_cost 0 0 0 0.
(** one thing after the other *)
Definition then_ (a b : cost) : cost := mk_cost (calls a + calls b) (Z.max (nested a) (nested b)) (copied a + copied b) (Z.max (held a) (held b)).
(** a call of readBox that copies [n] octets and calls readBox for what is inside *)
Definition one_call (n : Z) (inside : cost) : cost := mk_cost (1 + calls inside) (1 + nested inside) (n + copied inside) (n + held inside).

(** SimpleReader::readBox, reader.cpp:47-82: as [BoxTree.readBox], with the cost up to the return or the exception.
    (No cost is given for undefined behaviour.)  None = out of fuel. *)
Fixpoint readBox_c (fuel : nat) (file : bool) (data : list Z) (uw : bool) (pos : Z) : option (cost * outcome (node * Z * Z)) :=
  match fuel with
  | O => None
  | S f =>
      match read_box_header data pos with
      | Throw e => Some (one_call 0 no_cost, Throw e)
      | UB => Some (one_call 0 no_cost, UB)
      | Ok h =>
          let start := h_offset h + h_header_size h in
          if negb file && (start >? Zlen data) then Some (one_call 0 no_cost, Throw RuntimeError)
          else
          let remaining := u64 (u64 (Zlen data - h_offset h) - h_header_size h) in
          if header_getDataSize h >? remaining then Some (one_call 0 no_cost, Throw RuntimeError)
          else if start + header_getDataSize h >? Zlen data then Some (one_call 0 no_cost, UB)
          else
          let payload := firstn (Z.to_nat (header_getDataSize h)) (skipn (Z.to_nat start) data) in
          let k := BoxMap_getBoxInstance BoxMap_registered (h_type h) in
          match Box_readData k (h_type h) uw (reader_init payload) with
          | Throw e => Some (one_call (header_getDataSize h) no_cost, Throw e)
          | UB => Some (one_call (header_getDataSize h) no_cost, UB)
          | Ok (_, rbits, b) =>
              let rbytes := rbits / 8 in
              let pos1 := start + rbytes in
              if negb file && (pos1 >? Zlen data) then Some (one_call (header_getDataSize h) no_cost, Throw RuntimeError)
              else
              match readLeafs_c f file data (list_eqb (h_type h) type_wave) (header_getDataSize h) rbytes pos1 with
              | None => None
              | Some (c, r) =>
                  Some (one_call (header_getDataSize h) c,
                        match r with
                        | Throw e => Throw e
                        | UB => UB
                        | Ok (leafs, pos2) => Ok (Node (h_type h) (Some h) b leafs, pos2, h_size h)
                        end)
              end
          end
      end
  end
(** while (header->getDataSize() > rbytes) rbytes += readBox(info), reader.cpp:78-80 (and read(), 37-41) *)
with readLeafs_c (fuel : nat) (file : bool) (data : list Z) (uw : bool) (bound rbytes pos : Z) : option (cost * outcome (list node * Z)) :=
  match fuel with
  | O => None
  | S f =>
      if bound >? rbytes then
        match readBox_c f file data uw pos with
        | None => None
        | Some (c, Throw e) => Some (c, Throw e)
        | Some (c, UB) => Some (c, UB)
        | Some (c, Ok (n, pos1, size)) =>
            match readLeafs_c f file data uw bound (u64 (rbytes + size)) pos1 with
            | None => None
            | Some (c', r) =>
                Some (then_ c c', match r with Throw e => Throw e | UB => UB | Ok (l, pos2) => Ok (n :: l, pos2) end)
            end
        end
      else Some (no_cost, Ok ([], pos))
  end.
(** The loop of SimpleReader::read after the constructor, reader.cpp:23-41 *)
Definition SimpleReader_cost (file : bool) (data : list Z) : option (cost * outcome (list node)) :=
  match readLeafs_c (length data + 2) file data false (Zlen data) 0 0 with
  | None => None
  | Some (c, r) => Some (c, match r with Throw e => Throw e | UB => UB | Ok (l, _) => Ok l end)
  end.
