(** Independence of tracks (C68): the calls that concern one track, and movies that are the same except for some boxes. *)
From Verif Require Import Base Boxes Box BoxTree TreeSpec Track Writers MovieSpec CompareSpec.
From Coq Require Import List.
Import ListNotations.
Open Scope Z_scope.
Open Scope list_scope.

(** The calls on track [i], in order, with the number of the track erased: its construction (with its arguments), addData,
    setMediaTime and, if [ends], terminateCurrentChunk. *)
Definition on (ends : bool) (i : nat) (o : op) : list op :=
  match o with
  | O_AddData j ts data key => if Nat.eqb i j then [O_AddData 0 ts data key] else []
  | O_SetMediaTime j v => if Nat.eqb i j then [O_SetMediaTime 0 v] else []
  | O_Terminate j => if (Nat.eqb i j && ends)%bool then [O_Terminate 0] else []
  | _ => []
  end.
Definition own_calls (ends : bool) (i : nat) (ops : list op) : option op * list op := (nth_error (created ops) i, flat_map (on ends i) ops).

(** [same_except free a b]: the same boxes with the same members, nested in the same way, except where [free] holds. *)
Inductive same_except (free : tree -> tree -> Prop) : tree -> tree -> Prop :=
  | excepted a b : free a b -> same_except free a b
  | same ty b ka kb : Forall2 (same_except free) ka kb -> same_except free (T ty b ka) (T ty b kb).
(** Tables of as many chunk offsets. *)
Definition other_offsets (a b : tree) : Prop := exists l l', offset_table a l /\ offset_table b l' /\ length l = length l'.
(** Tables of chunk offsets, or of the numbers of samples in the chunks. *)
Definition other_chunks (a b : tree) : Prop :=
  (exists l l', offset_table a l /\ offset_table b l') \/
  (exists l l', a = T t_stsc (B_stsc (mk_stsc (mk_fullbox 0 0 0 0) l)) [] /\ b = T t_stsc (B_stsc (mk_stsc (mk_fullbox 0 0 0 0) l')) []).
Definition but_chunks (ends : bool) : tree -> tree -> Prop := if ends then other_offsets else other_chunks.

(** The usual calls of a session with a writer of either class. *)
Definition program (cls : wclass) (ops : list op) (sel : list nat) : list op :=
  match cls with Simple => simple_program ops sel | Faststart => faststart_program ops sel end.
