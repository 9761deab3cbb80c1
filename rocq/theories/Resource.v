(** Model of example/resource/resource.cpp: the resources of mp4-muxer.  No proofs in this file.
    The library rapidcsv (lines, cells, and the conversion of the first two cells to integers) is not modelled: a file is given by its cells. *)
From Verif Require Import Base Boxes BoxTree Track Muxer.
From Coq Require Import Ascii String List.
Import ListNotations.
Open Scope Z_scope.
Open Scope list_scope.

(** std::isspace in the classic locale *)
Definition is_space (c : Z) : bool := (c =? 32) || ((9 <=? c) && (c <=? 13)).
Fixpoint skip_spaces (s : list Z) : list Z := match s with c :: r => if is_space c then skip_spaces r else s | [] => [] end.
(** the value of a hexadecimal digit *)
Definition hex_digit (c : Z) : option Z :=
  if (48 <=? c) && (c <=? 57) then Some (c - 48) else if (97 <=? c) && (c <=? 102) then Some (c - 87) else if (65 <=? c) && (c <=? 70) then Some (c - 55) else None.
(** the digits at the beginning of [s], [acc] being the value of those before (None: there is no digit) *)
Fixpoint hex_digits (s : list Z) (acc : option Z) : option Z :=
  match s with
  | [] => acc
  | c :: r => match hex_digit c with Some d => hex_digits r (Some (16 * match acc with Some v => v | None => 0 end + d)) | None => acc end
  end.
(** std::istringstream(s) >> std::hex >> tmp for a std::int16_t tmp and a text of at most two characters (so that the value always fits): spaces, a sign, digits.
    (The prefix "0x" takes up both characters: fails or gives 0, which is the same in hex2bin.)  None: fails *)
Definition extract_hex (s : list Z) : option Z :=
  match skip_spaces s with
  | c :: r => if c =? 45 then option_map Z.opp (hex_digits r None) else if c =? 43 then hex_digits r None else hex_digits (c :: r) None
  | [] => None
  end.
(** hex2bin, resource.cpp:13-24: an octet that is not extracted is 0 (resize) *)
Definition hex2bin (s : list Z) : list Z :=
  map (fun i => match extract_hex (firstn 2 (skipn (2 * i) s)) with Some v => v mod 256 | None => 0 end) (seq 0 (Nat.div (List.length s) 2)).

(** The cells of a line: the first two converted to std::uint64_t; the fourth, if there is one. *)
Record row := mk_row { row_timestamp : Z; row_length : Z; row_data : list Z; row_key : option (list Z) }.
(** load_resources_from_csv, resource.cpp:26-50.  [columns]: doc.GetColumnCount() > 3.  A length that is wrong: "throw new std::runtime_error", so what is
    raised is a pointer; a cell that is missing: rapidcsv raises std::out_of_range, a std::logic_error. *)
Fixpoint load_resources (columns : bool) (rows : list row) : outcome (list resource) :=
  match rows with
  | [] => Ok []
  | w :: rest =>
      let data := hex2bin (row_data w) in
      if negb (row_length w =? Zlen data) then Throw RuntimeError
      else
        match (if columns then match row_key w with Some s => Ok (list_eqb s (str "true")) | None => Throw LogicError end else Ok true) with
        | Ok key => obind (load_resources columns rest) (fun l => Ok (mk_resource (row_timestamp w) data key :: l))
        | Throw e => Throw e
        | UB => UB
        end
  end.
