(** Model of src/track/h264.cpp:73-206: splitting an Annex-B access unit into NAL units.  No proofs in this file. *)
From Verif Require Import Base.

(** struct NalUnit, include/shiguredo/mp4/track/h264.hpp:57-62 *)
Record nal := mk_nal { nal_start_code_size : Z; nal_start : Z; nal_end : Z; nal_header : Z }.

(** data[i] on a buffer of [Zlen data] octets: any other index is undefined behaviour. *)
Definition at_ (data : list Z) (i : Z) : outcome Z :=
  if i <? 0 then UB else match nth_error data (Z.to_nat i) with Some v => Ok v | None => UB end.

(** data[index] == 0 && data[index+1] == 0 && data[index+2] == 0 & data[index+3] == 1, h264.cpp:167: the last two
    comparisons are joined by & and therefore both evaluated. *)
Definition start_code4 (data : list Z) (i : Z) : outcome bool :=
  obind (at_ data i) (fun a => if negb (a =? 0) then Ok false else
  obind (at_ data (i + 1)) (fun b => if negb (b =? 0) then Ok false else
  obind (at_ data (i + 2)) (fun c => obind (at_ data (i + 3)) (fun d => Ok ((c =? 0) && (d =? 1)))))).
(** data[index] == 0 && data[index+1] == 0 && data[index+2] == 1, h264.cpp:177 *)
Definition start_code3 (data : list Z) (i : Z) : outcome bool :=
  obind (at_ data i) (fun a => if negb (a =? 0) then Ok false else
  obind (at_ data (i + 1)) (fun b => if negb (b =? 0) then Ok false else
  obind (at_ data (i + 2)) (fun c => Ok (c =? 1)))).

(** The loop of find_next_nal_unit, h264.cpp:166-191, and what follows it (192-195).  [scs] is start_code_size,
    indeterminate (None) until a start code was seen: returning it then is undefined behaviour.  Outer None = out of
    fuel. *)
Fixpoint find_loop (fuel : nat) (data : list Z) (start index : Z) (scs : option Z) (header : Z) : option (outcome nal) :=
  match fuel with
  | O => None
  | S f =>
      let result e := Some (match scs with Some s => Ok (mk_nal s start e header) | None => UB end) in
      if index + 5 <? Zlen data then
        match start_code4 data index with
        | Throw e => Some (Throw e)
        | UB => Some UB
        | Ok true =>
            if header =? 0 then
              match at_ data (index + 4) with
              | Ok h => find_loop f data start (index + 4) (Some 4) h
              | _ => Some UB
              end
            else result index
        | Ok false =>
            match start_code3 data index with
            | Throw e => Some (Throw e)
            | UB => Some UB
            | Ok true =>
                if header =? 0 then
                  match at_ data (index + 3) with
                  | Ok h => find_loop f data start (index + 3) (Some 3) h
                  | _ => Some UB
                  end
                else result index
            | Ok false =>
                if (index =? start) && (header =? 0) then Some (Throw RuntimeError)
                else find_loop f data start (index + 1) scs header
            end
        end
      else if header =? 0 then Some (Throw RuntimeError) else result (Zlen data)
  end.
(** find_next_nal_unit, h264.cpp:161-196 *)
Definition find_next_nal_unit (data : list Z) (start : Z) : option (outcome nal) :=
  find_loop (length data + 1) data start start None 0.

(** The octets of a NAL unit without its start code: copy_n(data + start + start_code_size, end - start -
    start_code_size), h264.cpp:104-111, 122-123, 134-135.  The size is computed in std::size_t; copying outside of the
    buffer is undefined behaviour. *)
Definition nal_payload (data : list Z) (n : nal) : outcome (list Z) :=
  let from := nal_start n + nal_start_code_size n in
  let size := (nal_end n - nal_start n - nal_start_code_size n) mod 2 ^ 64 in
  if (0 <=? from) && (from + size <=? Zlen data) then Ok (firstn (Z.to_nat size) (skipn (Z.to_nat from) data)) else UB.

(** mdat_data: four octets of length and the NAL unit, h264.cpp:105-111 *)
Definition length_prefixed (p : list Z) : list Z :=
  [to_u 8 (Z.shiftr (Zlen p) 24); to_u 8 (Z.shiftr (Zlen p) 16); to_u 8 (Z.shiftr (Zlen p) 8); Z.land (Zlen p) 255] ++ p.

(** What H264Track::addData does with each NAL unit, h264.cpp:97-141 *)
Inductive nal_action := StoreSample (d : list Z) | AppendSPS (p : list Z) | AppendPPS (p : list Z).

(** The loop of H264Track::addData, h264.cpp:91-148, as the sequence of its effects: the actions performed in order and
    whether it ends by returning or by an exception (after having performed the actions).  Outer None = out of fuel. *)
Fixpoint split_loop (fuel : nat) (data : list Z) (start : Z) : option (list nal_action * outcome unit) :=
  match fuel with
  | O => None
  | S f =>
      match find_next_nal_unit data start with
      | None => None
      | Some (Throw e) => Some ([], Throw e)
      | Some UB => Some ([], UB)
      | Some (Ok nu) =>
          let next (acts : list nal_action) :=
            if nal_end nu >=? Zlen data then Some (acts, Ok tt)
            else match split_loop f data (nal_end nu) with
                 | Some (r, o) => Some (acts ++ r, o)
                 | None => None
                 end in
          let type := Z.land (nal_header nu) 31 in
          if (1 <=? type) && (type <=? 5) then
            match nal_payload data nu with
            | Ok p => next [StoreSample (length_prefixed p)]
            | _ => Some ([], UB)
            end
          else if type =? 6 then next []
          else if type =? 7 then
            match nal_payload data nu with Ok p => next [AppendSPS p] | _ => Some ([], UB) end
          else if type =? 8 then
            match nal_payload data nu with Ok p => next [AppendPPS p] | _ => Some ([], UB) end
          else Some ([], Throw RuntimeError)
      end
  end.
(** H264Track::addData, h264.cpp:82-148, on an arbitrary buffer *)
Definition h264_split (data : list Z) : option (list nal_action * outcome unit) := split_loop (length data + 1) data 0.
