(** How the calls of a session end (C62). *)
From Verif Require Import Base Boxes Box BoxTree TreeSpec AnnexBSpec H264 Track Writers MovieSpec.
From Coq Require Import List.
Import ListNotations.
Open Scope Z_scope.
Open Scope list_scope.

(** The NAL unit types addData handles: slices, SEI, parameter sets. *)
Definition handled (u : unit_) : Prop := 1 <= nal_type (u_octets u) <= 8.
(** How the call [o] ends after the calls [before]: the constructor of a track raises std::runtime_error if the identifier is 0;
    addData of an H.264 track returns or raises std::runtime_error, and if the data are an access unit in Annex B format it
    returns exactly if every NAL unit is of one of these types; the other calls return. *)
Definition call_ends (before : list op) (o : op) (r : outcome unit) : Prop :=
  match o with
  | O_NewTrack _ _ _ _ _ id => r = if id =? 0 then Throw RuntimeError else Ok tt
  | O_AddData i _ data _ =>
      match codec_of before i with
      | Some (H264 _ _ _ _ _ _ _ _) =>
          (r = Ok tt \/ r = Throw RuntimeError) /\
          forall units, data = annexb units -> access_unit_ok units -> Zlen data < 2 ^ 64 -> (r = Ok tt <-> Forall handled units)
      | _ => r = Ok tt
      end
  | _ => r = Ok tt
  end.
Fixpoint calls_end (before ops : list op) (rs : list (outcome unit)) : Prop :=
  match ops, rs with
  | [], [] => True
  | o :: l, r :: rs' => call_ends before o r /\ calls_end (before ++ [o]) l rs'
  | _, _ => False
  end.
