(** Specification of the text SimpleReader::read() prints: one line per box, in the order of the file (a box before the
    boxes inside it), indented by two spaces per enclosing box. *)
From Verif Require Import Base Boxes Box Print BoxTree.

(** The boxes of a tree in the order of the file, each with the number of boxes around it. *)
Fixpoint preorder (depth : nat) (n : node) : list (nat * node) :=
  let 'Node _ _ _ leafs := n in (depth, n) :: flat_map (preorder (S depth)) leafs.

(** [shows dn line]: the line for a box: indentation, type in brackets, offset and size from the header, and the members. *)
Definition shows (dn : nat * node) (line : list Z) : Prop :=
  exists h members, n_header (snd dn) = Some h /\ Box_toStringOnlyData (n_box (snd dn)) = Ok members /\
    line = repeat 32 (2 * fst dn) ++
      [91] (* [ *) ++ BoxType_toString (h_type h) ++ [93; 32; 79; 102; 102; 115; 101; 116; 61] (* "] Offset=" *) ++ dec (h_offset h) ++
      [32; 83; 105; 122; 101; 61] (* " Size=" *) ++ dec (h_size h) ++ match members with [] => [] | _ => 32 :: members end.
