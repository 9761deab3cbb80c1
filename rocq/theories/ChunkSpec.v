(** Chunks (C69): how a program divides the samples of a track, and what the tables of a file say about it. *)
From Verif Require Import Base Boxes Box BoxTree TreeSpec Track Writers MovieSpec.
From Coq Require Import List.
Import ListNotations.
Open Scope Z_scope.
Open Scope list_scope.

(** What a call tells about the division of track [i] (codec [c]): the samples it stores; None: the chunk ends here. *)
Definition mark (c : codec) (i : nat) (o : op) : list (option sample) :=
  match o with
  | O_AddData j ts data key => if Nat.eqb i j then map (fun d => Some (mk_sample ts d key)) (stored c data) else []
  | O_Terminate j => if Nat.eqb i j then [None] else []
  | _ => []
  end.
(** The groups of samples between the marks; empty groups do not count. *)
Definition close (open : list sample) : list (list sample) := match open with [] => [] | _ => [open] end.
Fixpoint divide (open : list sample) (l : list (option sample)) : list (list sample) :=
  match l with
  | [] => close open
  | None :: l => close open ++ divide [] l
  | Some s :: l => divide (open ++ [s]) l
  end.
(** The chunks of track [i] after the calls [ops]. *)
Definition chunks_of (i : nat) (ops : list op) : list (list sample) :=
  match codec_of ops i with Some c => divide [] (flat_map (mark c i) ops) | None => [] end.

(** The octets of a chunk. *)
Definition chunk_octets (ch : list sample) : list Z := flat_map sm_data ch.
(** Neighbours in a table. *)
Definition neighbours {A} (P : A -> A -> Prop) (l : list A) : Prop := forall pre a b post, l = pre ++ a :: b :: post -> P a b.

(** The sample table box has the chunks [chunks]: one offset for each, where the octets of the chunk are; the number of its samples in the
    sample-to-chunk table, whose runs are as long as possible; 64-bit offsets only if needed.  The runs of the time-to-sample
    table are as long as possible, too. *)
Definition divided (file : list Z) (chunks : list (list sample)) (stbl : list tree) : Prop :=
  exists offsets stsc stts,
    chunk_offsets stbl = Some offsets /\ stsc_table stbl = Some stsc /\ stts_table stbl = Some stts /\
    Forall2 (fun o ch => octets_at file (o, Zlen (chunk_octets ch)) = chunk_octets ch) offsets chunks /\
    (kids_of_type t_co64 stbl <> [] <-> Exists (fun o => 2 ^ 32 <= o) offsets) /\
    (forall k ch, nth_error chunks k = Some ch -> samples_in_chunk stsc (1 + Z.of_nat k) = Zlen ch) /\
    Forall (fun e => 1 <= stsce_first_chunk e <= Zlen chunks /\ stsce_sample_description_index e = 1) stsc /\
    neighbours (fun a b => stsce_first_chunk a < stsce_first_chunk b /\ stsce_sample_per_chunk a <> stsce_sample_per_chunk b) stsc /\
    Forall (fun e => 0 < sttse_sample_count e) stts /\
    neighbours (fun a b => sttse_sample_duration a <> sttse_sample_duration b) stts.
