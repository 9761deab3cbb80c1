(** Model of a SimpleReader on which read() is called several times.  No proofs in this file. *)
From Verif Require Import Base Boxes Box BoxTree.
From Coq Require Import List.
Import ListNotations.
Open Scope Z_scope.

(** SimpleReader (reader.hpp:16-29): the position of m_is, m_boxes.  m_is is in a good state. *)
Record reader_state := mk_reader { rd_pos : Z; rd_boxes : list node }.
(** SimpleReader::SimpleReader, reader.cpp:23-29: seekg(0, beg) at the end; m_total_size is the length of the data *)
Definition SimpleReader_new : reader_state := mk_reader 0 [].
(** SimpleReader::read, reader.cpp:37-45: the loop starts where the stream stands and counts from 0, and all of m_boxes is printed.
    The state afterwards is given when the loop ends, and when it fails right away because fewer than 8 octets are left: then
    read_box_header has moved the stream to its end (box_header.cpp:23, 31-34).  After another exception it is not modelled (None): where
    std::copy_n leaves the stream depends on the standard library.  Outer None = out of fuel. *)
Definition SimpleReader_call (file : bool) (data : list Z) (st : reader_state) : option (option reader_state * outcome (list Z)) :=
  match readLeafs (length data + 2) file data false (Zlen data) 0 (rd_pos st) with
  | None => None
  | Some (Ok (l, pos)) => Some (Some (mk_reader pos (rd_boxes st ++ l)), print_boxes (rd_boxes st ++ l))
  | Some (Throw e) =>
      Some (if (Zlen data >? 0) && (u64 (Zlen data - rd_pos st) <? SMALL_HEADER_SIZE) then Some (mk_reader (Zlen data) (rd_boxes st)) else None, Throw e)
  | Some UB => Some (None, UB)
  end.
(** [n] calls of read() one after the other; the list stops short when the state is not modelled or the fuel was not enough *)
Fixpoint SimpleReader_calls (n : nat) (file : bool) (data : list Z) (st : reader_state) : list (outcome (list Z)) :=
  match n with
  | O => []
  | S n' =>
      match SimpleReader_call file data st with
      | None => []
      | Some (None, r) => [r]
      | Some (Some st', r) => r :: SimpleReader_calls n' file data st'
      end
  end.
(** What later calls find after any exception.  Either the stream is in a good state: then it stands behind the place where the call began and not
    behind the end (when readBox raises, at least the header of the box was read, reader.cpp:48-49, and seekg beyond the end of a file needs
    'iods', 'esds' or 'avcC', see TreeSpec.has_overreporting; how far std::copy_n has moved the stream depends on the standard library), and m_boxes
    may have got any boxes (reader.cpp:66-69: also one whose contents could not be read).  Or failbit is set (seekg of a std::istringstream beyond
    the end): then tellg in read_box_header fails, box_header.cpp:19-21, and nothing clears it. *)
Inductive reader_condition := Usable (st : reader_state) | Failed_stream (boxes : list node).
(** [SimpleReader_may c r c']: a call of read() in the condition [c] may end with [r] and leave [c'] *)
Inductive SimpleReader_may (file : bool) (data : list Z) : reader_condition -> outcome (list Z) -> reader_condition -> Prop :=
| may_known st st' r : SimpleReader_call file data st = Some (Some st', r) -> SimpleReader_may file data (Usable st) r (Usable st')
| may_stop st e p boxes : SimpleReader_call file data st = Some (None, Throw e) -> rd_pos st < p <= Zlen data ->
    SimpleReader_may file data (Usable st) (Throw e) (Usable (mk_reader p boxes))
| may_break st e boxes : SimpleReader_call file data st = Some (None, Throw e) -> SimpleReader_may file data (Usable st) (Throw e) (Failed_stream boxes)
| may_broken boxes : 0 < Zlen data -> SimpleReader_may file data (Failed_stream boxes) (Throw RuntimeError) (Failed_stream boxes).
(** The results of any number of calls, the first of them in the condition [c]; nothing is said of calls after undefined behaviour *)
Inductive SimpleReader_history (file : bool) (data : list Z) : reader_condition -> list (outcome (list Z)) -> Prop :=
| history_end c : SimpleReader_history file data c []
| history_call c r c' rs : SimpleReader_may file data c r c' -> SimpleReader_history file data c' rs -> SimpleReader_history file data c (r :: rs)
| history_undefined st : SimpleReader_call file data st = Some (None, UB) -> SimpleReader_history file data (Usable st) [UB].
