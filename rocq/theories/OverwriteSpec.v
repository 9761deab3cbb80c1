(** Specification for C73: a writer given a stream that is not empty. *)
From Verif Require Import Base BitIO Boxes Box BoxTree Track Writers MovieSpec.
From Coq Require Import List.
Import ListNotations.
Open Scope Z_scope.

(** A writer of class [cls] just constructed on a stream that holds [old] and stands at position [p]. *)
Definition start_on (old : list Z) (p : Z) (cls : wclass) (timescale duration time : Z) (ft : ftyp) : session :=
  mk_session (match cls with
              | Simple => SimpleWriter_new timescale duration time ft (mkOS old p)
              | Faststart => FaststartWriter_new timescale duration time ft (mkOS old p)
              end) [].
(** [new] written over [old] from the beginning. *)
Definition over (new old : list Z) : list Z := new ++ skipn (length new) old.
