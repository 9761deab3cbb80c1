(** Model of the objects SimpleReader allocates, and of the destructors: which object holds a pointer to which, and when it is
    deleted.  (The other models represent a BoxInfo and what it points to by a [node].)  No proofs in this file. *)
From Verif Require Import Base BitIO Boxes Box Print BoxTree.
From Coq Require Import String List Arith.
Import ListNotations.
Open Scope Z_scope.
Open Scope list_scope.

(** * Objects *)
Definition addr := nat.
(** What lives on the heap (objects allocated by new; members that are not pointers to such objects are kept as values).
    - a BoxHeader;
    - a Box: m_header (box.hpp:61), its type, and its members once readData has set them;
    - a BoxInfo: m_box and m_leafs (box_info.hpp:37-38). *)
Inductive object :=
  | A_header (h : boxheader)
  | A_box (header : option addr) (type : list Z) (members : option box)
  | A_info (box : addr) (leafs : list addr).
(** The next fresh address, and the object at each address, if there is one that has not been deleted.  Addresses are not
    used again (simplification: an access after deletion is always noticed). *)
Record heap := mk_heap { next : addr; at_ : addr -> option object }.
Definition empty_heap : heap := mk_heap 0%nat (fun _ => None).
Definition put (a : addr) (c : option object) (H : heap) : heap := mk_heap (next H) (fun x => if Nat.eqb x a then c else at_ H x).
(** new *)
Definition new (c : object) (H : heap) : addr * heap := (next H, mk_heap (S (next H)) (fun x => if Nat.eqb x (next H) then Some c else at_ H x)).

(** * Destructors; UB: the pointer does not point to an object (any more) *)

(** delete of a BoxHeader *)
Definition delete_header (a : addr) (H : heap) : outcome heap :=
  match at_ H a with Some (A_header _) => Ok (put a None H) | _ => UB end.
(** delete of a Box: Box::~Box, box.cpp:26-30 *)
Definition delete_box (a : addr) (H : heap) : outcome heap :=
  match at_ H a with
  | Some (A_box hd _ _) => obind (match hd with Some h => delete_header h H | None => Ok H end) (fun H => Ok (put a None H))
  | _ => UB
  end.
(** delete of a BoxInfo: BoxInfo::~BoxInfo, box_info.cpp:33-38.  Out of fuel (pointers in a circle): UB. *)
Fixpoint delete_info (fuel : nat) (a : addr) (H : heap) : outcome heap :=
  match fuel with
  | O => UB
  | S f =>
      match at_ H a with
      | Some (A_info b ls) =>
          obind ((fix go ls H := match ls with [] => Ok H | l :: r => obind (delete_info f l H) (fun H => go r H) end) ls H)
            (fun H => obind (delete_box b H) (fun H => Ok (put a None H)))
      | _ => UB
      end
  end.
Fixpoint delete_infos (fuel : nat) (ls : list addr) (H : heap) : outcome heap :=
  match ls with [] => Ok H | l :: r => obind (delete_info fuel l H) (fun H => delete_infos fuel r H) end.

(** * SimpleReader *)

(** The heap and SimpleReader::m_boxes. *)
Record mem := mk_mem { m_heap : heap; m_boxes : list addr }.
(** BoxInfo::BoxInfo, box_info.cpp:16-31: the new BoxInfo is entered in m_leafs of its parent; the flag tells whether the parent is
    a "wave" box (for AudioSampleEntry::setUnderWave). *)
Definition BoxInfo_new (parent : option addr) (bx : addr) (H : heap) : outcome (addr * bool * heap) :=
  let '(a, H) := new (A_info bx []) H in
  match parent with
  | None => Ok (a, false, H)
  | Some p =>
      match at_ H p with
      | Some (A_info pb ls) =>
          match at_ H pb with
          | Some (A_box _ type _) => Ok (a, list_eqb type type_wave, put p (Some (A_info pb (ls ++ [a]))) H)
          | _ => UB
          end
      | _ => UB
      end
  end.
(** SimpleReader::readBox, reader.cpp:47-82: as [BoxTree.readBox], with the objects.  Result: the state when it returns or
    raises an exception, and the position of the stream and the size returned. *)
Fixpoint readBox_m (fuel : nat) (file : bool) (data : list Z) (parent : option addr) (pos : Z) (m : mem) : option (mem * outcome (Z * Z)) :=
  match fuel with
  | O => None
  | S f =>
      match read_box_header data pos with
      | Throw e => Some (m, Throw e)
      | UB => Some (m, UB)
      | Ok h =>
          let '(hd, H) := new (A_header h) (m_heap m) in          (* read_box_header, box_header.cpp:65-66 *)
          let m := mk_mem H (m_boxes m) in
          let start := h_offset h + h_header_size h in
          if negb file && (start >? Zlen data) then Some (m, Throw RuntimeError)
          else
          let remaining := u64 (u64 (Zlen data - h_offset h) - h_header_size h) in
          if header_getDataSize h >? remaining then Some (m, Throw RuntimeError)
          else if start + header_getDataSize h >? Zlen data then Some (m, UB)
          else
          let payload := firstn (Z.to_nat (header_getDataSize h)) (skipn (Z.to_nat start) data) in
          let k := BoxMap_getBoxInstance BoxMap_registered (h_type h) in
          let '(bx, H) := new (A_box (Some hd) (h_type h) None) H in  (* BoxMap::getBoxInstance, box_map.cpp:25-46 *)
          match BoxInfo_new parent bx H with
          | Throw e => Some (mk_mem H (m_boxes m), Throw e)
          | UB => Some (mk_mem H (m_boxes m), UB)
          | Ok (info, uw, H) =>
              let m := mk_mem H (match parent with None => m_boxes m ++ [info] | Some _ => m_boxes m end) in
              match Box_readData k (h_type h) uw (reader_init payload) with
              | Throw e => Some (m, Throw e)
              | UB => Some (m, UB)
              | Ok (_, rbits, b) =>
                  let m := mk_mem (put bx (Some (A_box (Some hd) (h_type h) (Some b))) H) (m_boxes m) in
                  let rbytes := rbits / 8 in
                  let pos1 := start + rbytes in
                  if negb file && (pos1 >? Zlen data) then Some (m, Throw RuntimeError)
                  else
                  match readLeafs_m f file data (Some info) (header_getDataSize h) rbytes pos1 m with
                  | None => None
                  | Some (m, Throw e) => Some (m, Throw e)
                  | Some (m, UB) => Some (m, UB)
                  | Some (m, Ok pos2) => Some (m, Ok (pos2, h_size h))
                  end
              end
          end
      end
  end
with readLeafs_m (fuel : nat) (file : bool) (data : list Z) (parent : option addr) (bound rbytes pos : Z) (m : mem) : option (mem * outcome Z) :=
  match fuel with
  | O => None
  | S f =>
      if bound >? rbytes then
        match readBox_m f file data parent pos m with
        | None => None
        | Some (m, Throw e) => Some (m, Throw e)
        | Some (m, UB) => Some (m, UB)
        | Some (m, Ok (pos1, size)) => readLeafs_m f file data parent bound (u64 (rbytes + size)) pos1 m
        end
      else Some (m, Ok pos)
  end.
(** The BoxInfo at an address and all it points to. *)
Fixpoint load (fuel : nat) (H : heap) (a : addr) : option node :=
  match fuel with
  | O => None
  | S f =>
      match at_ H a with
      | Some (A_info b ls) =>
          match at_ H b with
          | Some (A_box (Some hd) t (Some bx)) =>
              match at_ H hd, (fix go ls := match ls with [] => Some [] | l :: r => match load f H l, go r with Some n, Some ns => Some (n :: ns) | _, _ => None end end) ls with
              | Some (A_header h), Some ns => Some (Node t (Some h) bx ns)
              | _, _ => None
              end
          | _ => None
          end
      | _ => None
      end
  end.
Fixpoint load_all (fuel : nat) (H : heap) (l : list addr) : option (list node) :=
  match l with [] => Some [] | a :: r => match load fuel H a, load_all fuel H r with Some n, Some ns => Some (n :: ns) | _, _ => None end end.
(** SimpleReader::SimpleReader and SimpleReader::read, reader.cpp:23-45.  Printing follows the pointers: a dangling one is UB. *)
Definition SimpleReader_read_m (file : bool) (data : list Z) : option (mem * outcome (list Z)) :=
  match readLeafs_m (length data + 2) file data None (Zlen data) 0 0 (mk_mem empty_heap []) with
  | None => None
  | Some (m, Throw e) => Some (m, Throw e)
  | Some (m, UB) => Some (m, UB)
  | Some (m, Ok _) => Some (m, match load_all (S (next (m_heap m))) (m_heap m) (m_boxes m) with Some ns => print_boxes ns | None => UB end)
  end.
(** SimpleReader::~SimpleReader, reader.cpp:31-35 *)
Definition SimpleReader_destroy (m : mem) : outcome heap := delete_infos (S (next (m_heap m))) (m_boxes m) (m_heap m).
