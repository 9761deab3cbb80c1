(** Specification of what reading a file costs (C75).  Mentions of the code: the tree of boxes that was read. *)
From Verif Require Import Base Boxes BoxTree TreeSpec.
From Coq Require Import List.
Import ListNotations.
Open Scope Z_scope.

(** The size of what follows the header of a box, as its header says. *)
Definition content_size (h : option boxheader) : Z := match h with Some h => h_size h - h_header_size h | None => 0 end.
Definition maximum (l : list Z) : Z := fold_right Z.max 0 l.
(** The number of boxes on the longest way from a box into the boxes inside it. *)
Fixpoint height (n : node) : Z := let 'Node _ _ _ leafs := n in 1 + maximum (map height leafs).
(** The sizes of all boxes of a tree together. *)
Fixpoint contents (n : node) : Z := let 'Node _ h _ leafs := n in content_size h + sumZ contents leafs.
(** The largest sum of sizes on a way from a box into the boxes inside it. *)
Fixpoint deepest (n : node) : Z := let 'Node _ h _ leafs := n in content_size h + maximum (map deepest leafs).

(** The most that boxes of at least 8 octets, each inside the one before or after it, can contain together in [n] octets:
    (n - 8) + (n - 16) + ... *)
Definition nested_octets (n : Z) : Z := (n / 8) * (n - 4 * (n / 8 + 1)).
(** [k] times the header of a "moov" box that announces size 0 (everything up to the end of the file): each box is inside the one before. *)
Definition nested_file (k : nat) : list Z := concat (repeat [0; 0; 0; 0; 109; 111; 111; 118] k).
