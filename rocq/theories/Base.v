(** Base definitions shared by the whole model: outcomes of C++ calls, octets, the list-of-bits view of data.
    No code of /repo is modelled here except the "throw / undefined behaviour" distinction. *)
From Coq Require Export ZArith List Bool Lia.
Export ListNotations.
Global Open Scope Z_scope.

(** Exceptions raised by the library (std::runtime_error, std::invalid_argument, std::logic_error). *)
Inductive exn := RuntimeError | InvalidArgument | LogicError.

(** Outcome of a C++ call: normal return, exception, or undefined behaviour. *)
Inductive outcome (A : Type) : Type :=
| Ok (a : A)
| Throw (e : exn)
| UB.
Arguments Ok {A} a.
Arguments Throw {A} e.
Arguments UB {A}.

Definition obind {A B} (m : outcome A) (f : A -> outcome B) : outcome B :=
  match m with Ok a => f a | Throw e => Throw e | UB => UB end.

(** Octets are integers in [0,256). *)
Definition is_byte (b : Z) : Prop := 0 <= b < 256.
Definition is_byteb (b : Z) : bool := (0 <=? b) && (b <? 256).
Definition bytes (l : list Z) : Prop := Forall is_byte l.

(** Unsigned integers of [w] bits; signed integers of [w] bits (two's complement range). *)
Definition fits_u (w : Z) (v : Z) : Prop := 0 <= v < 2 ^ w.
Definition fits_s (w : Z) (v : Z) : Prop := - 2 ^ (w - 1) <= v < 2 ^ (w - 1).

(** C++ conversions to unsigned / signed integers of [w] bits. *)
Definition to_u (w : Z) (v : Z) : Z := v mod 2 ^ w.
Definition to_s (w : Z) (v : Z) : Z :=
  let u := v mod 2 ^ w in if u <? 2 ^ (w - 1) then u else u - 2 ^ w.

(** [be n v]: the [n] low bits of the two's complement representation of [v], most significant first.
    This is the specification of what "an n-bit big-endian field holding v" means. *)
Fixpoint be (n : nat) (v : Z) : list bool :=
  match n with
  | O => []
  | S k => Z.testbit v (Z.of_nat k) :: be k v
  end.

(** Value of a list of bits, most significant first. *)
Definition bits_to_Z (l : list bool) : Z := fold_left (fun acc b => 2 * acc + Z.b2z b) l 0.

(** Bits of a sequence of octets. *)
Definition bits_of (l : list Z) : list bool := flat_map (be 8) l.

Definition Zlen {A} (l : list A) : Z := Z.of_nat (length l).
