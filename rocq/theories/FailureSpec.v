(** Vocabulary of the properties about interrupted and failing output (C57, C58, C59). *)
From Verif Require Import Base Boxes Box BoxTree TreeSpec Device.
From Coq Require Import List.
Import ListNotations.
Open Scope Z_scope.
Open Scope list_scope.

(** [p] is the beginning of [l]. *)
Definition prefix_of (p l : list Z) : Prop := exists r, l = p ++ r.
(** Nothing is refused; the program may be killed at any octet. *)
Definition nothing_refused (e : devices) : Prop := forall t pos, on_output e t pos <> Refused /\ on_tmp e t pos <> Refused.
(** A full disk stays full: once an octet was refused, none is taken at the same place of the stream or after it (elsewhere
    it may be, and the program may be killed at any octet). *)
Definition stays_refused (e : fates) : Prop := forall t pos t' pos', e t pos = Refused -> (t <= t')%nat -> pos <= pos' -> e t' pos' <> Stored.
(** A disk with room for [cap] octets of output, and a place for the intermediate file that takes everything; nobody kills
    the program. *)
Definition full_at (cap : Z) : fates := fun _ pos => if pos <? cap then Stored else Refused.
Definition takes_all : fates := fun _ _ => Stored.
(** A box in a file when its size is given as 0: it extends to the end of the file (ISO/IEC 14496-12, 4.2). *)
Definition serialize_open (t : tree) : list Z := let 'T type b kids := t in [0; 0; 0; 0] ++ type ++ wire_payload b ++ flat_map serialize kids.
