(** Specification for C72: what an H.264 track makes of an arbitrary buffer. *)
From Verif Require Import Base BoxTree TreeSpec H264 AnnexBSpec.

(** No start code is followed by a zero octet (a NAL unit header is never zero: nal_unit_type 0 is not a unit of a stream). *)
Definition no_null_unit (data : list Z) : Prop := forall a b, data <> a ++ [0; 0; 1; 0] ++ b.
(** A unit the track knows what to do with: a slice, SEI or a parameter set. *)
Definition known_unit (u : unit_) : Prop := exists h r, u_octets u = h :: r /\ 1 <= h mod 32 <= 8.
(** The octets start with such a unit: a start code, its header, six octets or more altogether. *)
Definition starts_unit (l : list Z) : Prop := exists four h r, l = start_code four ++ h :: r /\ 6 <= Zlen l /\ 1 <= h mod 32 <= 8.
(** Each unit starts six octets or more from the end and goes as far as possible: to the end of the buffer or the next start code
    (six octets or more from the end); it contains no start code, except among the last five octets of the buffer, where none
    is looked for; and the zero octet in front of a start code belongs to the start code, not to the unit. *)
Fixpoint maximal (units : list unit_) (rest : list Z) : Prop :=
  match units with
  | [] => True
  | u :: l =>
      let after := annexb l ++ rest in
      6 <= Zlen (start_code (u_four u) ++ u_octets u ++ after) /\
      (after = [] \/ (6 <= Zlen after /\ exists four r, after = start_code four ++ r)) /\
      (forall four a b, u_octets u = a ++ start_code four ++ b -> Zlen (start_code four ++ b ++ after) <= 5) /\
      (last (u_octets u) 0 = 0 -> forall r, after <> [0; 0; 1] ++ r) /\
      maximal l rest
  end.
(** A piece of a buffer: three or four octets taken for a start code, the octets of the unit, and the octet taken for its header. *)
Record piece := mk_piece { p_code : list Z; p_unit : list Z; p_header : Z }.
Definition piece_octets (p : piece) : list Z := p_code p ++ p_unit p.
Definition piece_action (p : piece) : list nal_action :=
  let t := p_header p mod 32 in
  if (1 <=? t) && (t <=? 5) then [StoreSample (avc_sample (p_unit p))] else if t =? 7 then [AppendSPS (p_unit p)] else if t =? 8 then [AppendPPS (p_unit p)] else [].
