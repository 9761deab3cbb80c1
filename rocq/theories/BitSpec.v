(** Vocabulary of the bit-level properties: which bits a Writer has been given and which a Reader has left, which
    octets an n-bit value occupies, and the states a program can bring a Writer or a Reader into.  No code of /repo is
    modelled here. *)
From Verif Require Import Base BitIO.

(** All bits written so far, emitted or pending. *)
Definition wbits (w : writer) : list bool :=
  bits_of (w_os w) ++ firstn (Z.to_nat (w_width w)) (be 8 (w_octet w)).
(** Bits not yet consumed. *)
Definition rbits (r : reader) : list bool :=
  be (Z.to_nat (r_width r)) (r_octet r) ++ bits_of (skipn (r_pos r) (r_data r)).

(** States of a Writer reached from construction by any calls of writeBit, writeBits and write. *)
Inductive writer_reachable : writer -> Prop :=
| WR_init : writer_reachable writer_init
| WR_bit w b : writer_reachable w -> writer_reachable (writeBit b w)
| WR_bits w data width : writer_reachable w -> bytes data -> 8 * Zlen data < 2 ^ 64 -> 0 <= width ->
    writer_reachable (writeBits data width w)
| WR_write w p w' n : writer_reachable w -> bytes p -> Writer_write p w = Ok (w', n) -> writer_reachable w'.

(** States of a Reader on the octets [input] reached from construction by any calls of readBit (hence readBits, also when
    it fails half-way), read and seek that return. *)
Inductive reader_reachable (input : list Z) : reader -> Prop :=
| RR_init : reader_reachable input (reader_init input)
| RR_bit r r' b : reader_reachable input r -> readBit r = Ok (r', b) -> reader_reachable input r'
| RR_bits r r' n d : reader_reachable input r -> 0 <= n -> readBits n r = Ok (r', d) -> reader_reachable input r'
| RR_read r r' n d : reader_reachable input r -> Reader_read n r = Ok (r', d) -> reader_reachable input r'
| RR_seek r r' cur off p : reader_reachable input r -> Reader_seek cur off r = Ok (r', p) -> reader_reachable input r'.

(** The value of a string of octets, most significant first. *)
Definition octets_value (l : list Z) : Z := fold_left (fun acc o => 256 * acc + o) l 0.
(** The last [width] bits of a string of octets. *)
Definition low_bits (data : list Z) (width : Z) : list bool := skipn (Z.to_nat (8 * Zlen data - width)) (bits_of data).
(** be_to_uint32 / be_to_uint64 applied to an array of octets. *)
Definition from32 (l : list Z) : Z := be_to_uint32 (nth 0 l 0) (nth 1 l 0) (nth 2 l 0) (nth 3 l 0).
Definition from64 (l : list Z) : Z := be_to_uint64 (nth 0 l 0) (nth 1 l 0) (nth 2 l 0) (nth 3 l 0) (nth 4 l 0) (nth 5 l 0) (nth 6 l 0) (nth 7 l 0).
(** Expandable lengths: groups of seven bits, most significant first, one per octet; every octet but the last is marked
    with its highest bit. *)
Definition expandable (groups : list Z) (last : Z) : list Z := map (fun g => 128 + g) groups ++ [last].
Definition groups_value (groups : list Z) : Z := fold_left (fun acc g => 128 * acc + g) groups 0.
