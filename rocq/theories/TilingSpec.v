(** Whose octets the media data of a file are (C82).  Mentions of the code: the sessions and the players' view of MovieSpec.v. *)
From Verif Require Import Base Track Writers MovieSpec.
From Coq Require Import List.
Import ListNotations.
Open Scope Z_scope.
Open Scope list_scope.

(** The track for which each octet of the media data was stored; none for raw data.  (Parallel to [media].) *)
Definition owners (ops : list op) : list (option nat) := flat_map (fun x => map (fun _ => fst x) (sm_data (snd x))) (history ops).

(** A range of the file: its first position and its size. *)
Definition covers (r : Z * Z) (p : Z) : Prop := fst r <= p < fst r + snd r.
Definition within (base n : Z) (r : Z * Z) : Prop := base <= fst r /\ 0 <= snd r /\ fst r + snd r <= base + n.
Definition apart (a b : Z * Z) : Prop := fst a + snd a <= fst b \/ fst b + snd b <= fst a.

(** A player finds sample [n] of the [k]th track of a movie at [r]. *)
Definition found (infos : list track_info) (k n : nat) (r : Z * Z) : Prop :=
  exists info, nth_error infos k = Some info /\ nth_error (i_locations info) n = Some r.

(** The ranges of the samples of a movie divide the media data of the session, which are at [base]. *)
Definition tiled (file : list Z) (ops : list op) (sel : list nat) (base : Z) (infos : list track_info) : Prop :=
  0 <= base /\ base + Zlen (media ops) <= Zlen file /\ octets_at file (base, Zlen (media ops)) = media ops /\
  (forall k n r, found infos k n r -> within base (Zlen (media ops)) r) /\
  (* no two samples of the movie share an octet *)
  (forall k n r k' n' r', found infos k n r -> found infos k' n' r' -> (k, n) <> (k', n') -> apart r r') /\
  (* an octet of the media data is in a sample of a track if and only if it was stored for that track *)
  (forall p k i, base <= p -> nth_error sel k = Some i ->
    ((exists n r, found infos k n r /\ covers r p) <-> nth_error (owners ops) (Z.to_nat (p - base)) = Some (Some i))).
