(** Comparing two movies (C67): trees of boxes that are the same but for the chunk offsets, which differ by a constant. *)
From Verif Require Import Base Boxes Box BoxTree TreeSpec Track MovieSpec.
From Coq Require Import List.
Import ListNotations.
Open Scope Z_scope.
Open Scope list_scope.

(** [t] is a table of chunk offsets, with 32-bit or 64-bit entries, that holds [l]. *)
Inductive offset_table : tree -> list Z -> Prop :=
  | table_32 l : offset_table (T t_stco (B_stco (mk_stco (mk_fullbox 0 0 0 0) l)) []) l
  | table_64 l : offset_table (T t_co64 (B_co64 (mk_co64 (mk_fullbox 0 0 0 0) l)) []) l.
(** [same_movie d a b]: the same boxes with the same members, nested in the same way, but where [a] has the chunk offset o,
    [b] has o + d. *)
Inductive same_movie (d : Z) : tree -> tree -> Prop :=
  | same_offsets a b l : offset_table a l -> offset_table b (map (fun o => o + d) l) -> same_movie d a b
  | same_box ty b ka kb : (forall l, ~ offset_table (T ty b ka) l) -> Forall2 (same_movie d) ka kb -> same_movie d (T ty b ka) (T ty b kb).
