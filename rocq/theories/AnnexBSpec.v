(** Independent specification of H.264 byte streams (ITU-T H.264 Annex B, clause 7.3.1/7.4.1) and of the AVC sample format
    (ISO/IEC 14496-15: each NAL unit preceded by its length in four octets). *)
From Verif Require Import Base BoxTree TreeSpec H264.

(** A NAL unit of a byte stream: whether its start code is the 4-octet one, and its octets. *)
Record unit_ := mk_unit { u_four : bool; u_octets : list Z }.
Definition start_code (four : bool) : list Z := if four then [0; 0; 0; 1] else [0; 0; 1].
Definition annexb (units : list unit_) : list Z := flat_map (fun u => start_code (u_four u) ++ u_octets u) units.

(** A NAL unit contains no start code, its first octet (the header) and its last octet are not zero. *)
Definition unit_ok (u : unit_) : Prop :=
  bytes (u_octets u) /\ (exists h r, u_octets u = h :: r /\ h <> 0) /\ last (u_octets u) 0 <> 0 /\
  (forall a b, u_octets u <> a ++ [0; 0; 1] ++ b).
(** The scanner ignores start codes among the last five octets: the last unit takes, with its start code, at least six. *)
Definition last_unit_ok (u : unit_) : Prop := 6 <= Zlen (start_code (u_four u) ++ u_octets u).
Definition access_unit_ok (units : list unit_) : Prop :=
  Forall unit_ok units /\ exists l u, units = l ++ [u] /\ last_unit_ok u.

(** nal_unit_type: the five low bits of the header; 1-5 slices, 6 SEI, 7 sequence and 8 picture parameter sets. *)
Definition nal_type (p : list Z) : Z := hd 0 p mod 32.
(** Four octets of length, then the NAL unit. *)
Definition avc_sample (p : list Z) : list Z := be_octets 4 (Zlen p) ++ p.
(** What is to be done with the units, in order, up to the first unit of another type, which raises an error. *)
Fixpoint expected_actions (units : list unit_) : list nal_action * outcome unit :=
  match units with
  | [] => ([], Ok tt)
  | u :: l =>
      let p := u_octets u in
      let (acts, r) := expected_actions l in
      if (1 <=? nal_type p) && (nal_type p <=? 5) then (StoreSample (avc_sample p) :: acts, r)
      else if nal_type p =? 6 then (acts, r)
      else if nal_type p =? 7 then (AppendSPS p :: acts, r)
      else if nal_type p =? 8 then (AppendPPS p :: acts, r)
      else ([], Throw RuntimeError)
  end.
