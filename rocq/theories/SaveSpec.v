(** Vocabulary of C78: a program that saves boxes with the library (no code of the library). *)
From Verif Require Import Base BitIO Boxes Box BoxTree TreeSpec.

(** The program of a user who saves boxes one after the other, the first at [off]:
      for (BoxInfo* b : boxes) { const auto size = b->adjustOffsetAndSize(off); b->write(os); off += size; }
    It ends with the boxes (their headers now set) and the stream, or with what a call raised. *)
Fixpoint save_boxes (l : list node) (off : Z) (o : ostream) : outcome (list node * ostream) :=
  match l with
  | [] => Ok ([], o)
  | n :: l' =>
      match BoxInfo_adjustOffsetAndSize n off with
      | Ok (n1, size) =>
          match BoxInfo_write n1 o with
          | Ok (n2, o2) =>
              match save_boxes l' (off + size) o2 with
              | Ok (r, o3) => Ok (n2 :: r, o3)
              | Throw e => Throw e
              | UB => UB
              end
          | Throw e => Throw e
          | UB => UB
          end
      | Throw e => Throw e
      | UB => UB
      end
  end.

(** A box just made, without a header, and its child boxes likewise. *)
Fixpoint fresh_info (t : tree) : node := let 'T ty b l := t in Node ty None b (map fresh_info l).
