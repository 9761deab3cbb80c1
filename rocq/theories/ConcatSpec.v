(** Specification for C71: what reading two files, one after the other in a single file, should find. *)
From Verif Require Import Base BoxTree.

(** The same box, [d] octets further into the file: every header says an offset larger by [d], nothing else changes. *)
Fixpoint moved (d : Z) (n : node) : node :=
  let 'Node t h b l := n in
  Node t (match h with Some h => Some (mk_header (h_offset h + d) (h_size h) (h_header_size h) (h_type h) (h_extend_to_eof h)) | None => None end)
    b (map (moved d) l).
(** No box of the tree, at any depth, has the "until the end of the file" header (size 0). *)
Fixpoint closed (n : node) : Prop :=
  let 'Node _ h _ l := n in
  match h with Some h => h_extend_to_eof h = false | None => True end /\
  (fix all (l : list node) : Prop := match l with [] => True | k :: l' => closed k /\ all l' end) l.
