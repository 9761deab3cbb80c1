(** Model of /repo/src/bitio/{writer,reader,bitio}.cpp, /repo/include/shiguredo/mp4/bitio/*.hpp,
    /repo/src/stream/stream.cpp and /repo/src/endian/endian.cpp.  No proofs in this file. *)
From Verif Require Import Base.

(* ------------------------------------------------------------------------------------------------------------- *)
(** * Writer *)

(** bitio::Writer, include/shiguredo/mp4/bitio/writer.hpp:10-23.  [w_os] is the log of octets sent to the
    ostream by this Writer (the ostream itself, with its position, is modelled in Stream.v). *)
Record writer := mkWriter { w_os : list Z; w_octet : Z; w_width : Z }.

(** Freshly constructed Writer (writer.hpp: m_octet = 0x00, m_width = 0). *)
Definition writer_init : writer := mkWriter [] 0 0.

(** Every writing function of the library returns the number of bits written; callers add them up with [+] or
    [wbits +=].  [W] is such a function; [wseq a b] is the C++ expression [a() + b()], evaluated left to right
    (simplification: the C++ standard leaves that order unspecified). *)
Definition W := writer -> outcome (writer * Z).

Definition wskip : W := fun w => Ok (w, 0).
Definition wseq (a b : W) : W := fun w =>
  match a w with
  | Ok (w1, n1) => match b w1 with
                   | Ok (w2, n2) => Ok (w2, n1 + n2)
                   | Throw e => Throw e
                   | UB => UB
                   end
  | Throw e => Throw e
  | UB => UB
  end.
Definition wthrow (e : exn) : W := fun _ => Throw e.
Notation "a ;; b" := (wseq a b) (at level 61, right associativity).

(** for (x : l) wbits += f(x); *)
Fixpoint wlist {A} (f : A -> W) (l : list A) : W :=
  match l with [] => wskip | x :: l' => f x ;; wlist f l' end.

(** if (c) wbits += m; *)
Definition wwhen (c : bool) (m : W) : W := if c then m else wskip.

(** Writer::writeBit, src/bitio/writer.cpp:40-57 (m_octet is a uint8_t, hence the [mod 256]). *)
Definition writeBit (bit : bool) (w : writer) : writer :=
  let octet := if bit then (Z.lor (w_octet w) (Z.shiftl 1 (7 - w_width w))) mod 256 else w_octet w in
  let width := w_width w + 1 in
  if width =? 8 then mkWriter (w_os w ++ [octet]) 0 0
  else mkWriter (w_os w) octet width.

(** Writer::writeBits, src/bitio/writer.cpp:31-38: [length = 8*size(data)], [offset = length - width]
    in uint64_t arithmetic (so it wraps when width > length and the loop body is never entered),
    for i in [offset, length) emit bit (7 - i%8) of data[i>>3]. *)
Definition writeBits (data : list Z) (width : Z) (w : writer) : writer :=
  let length := 8 * Zlen data in
  let offset := (length - width) mod 2 ^ 64 in
  fold_left
    (fun w k => let i := offset + Z.of_nat k in
                writeBit (negb (Z.land (Z.shiftr (nth (Z.to_nat (Z.shiftr i 3)) data 0) (7 - i mod 8)) 1 =? 0)) w)
    (seq 0 (Z.to_nat (length - offset))) w.

(** Writer::write, src/bitio/writer.cpp:15-29; returns the number of octets. *)
Definition Writer_write (p : list Z) : W := fun w =>
  if negb (w_width w =? 0) then Throw InvalidArgument
  else Ok (mkWriter (w_os w ++ p) (w_octet w) (w_width w), Zlen p).

(** Octet computed in iteration [i] of write_uint, bitio.hpp:77-84.  [T v = val] and [v >> ...]; val is a value of the
    unsigned type T. *)
Definition write_uint_octet (val : Z) (size i : Z) : Z :=
  let v := if size >? i + 8 then Z.shiftr val (size - (i + 8)) else val in
  v mod 256.

(** Number of bits written in iteration [i], bitio.hpp:23-28,78-83. *)
Definition write_chunk (size i : Z) : nat :=
  if size >? i + 8 then 8%nat else if size <? i + 8 then Z.to_nat (size - i) else 8%nat.

(** The loop [for (i = 0; i < size; i += 8)] of write_uint/write_int, bitio.hpp:21-41,76-87; [k] = remaining
    iterations. *)
Fixpoint write_loop (octet : Z -> Z) (size i : Z) (k : nat) : W := fun w =>
  match k with
  | O => Ok (w, 0)
  | S k' =>
      let s := write_chunk size i in
      match write_loop octet size (i + 8) k' (writeBits [octet i] (Z.of_nat s) w) with
      | Ok (w', n) => Ok (w', Z.of_nat s + n)
      | Throw e => Throw e
      | UB => UB
      end
  end.

(** Number of iterations of [for (i = 0; i < size; i += 8)]. *)
Definition iterations (size : Z) : nat := Z.to_nat ((size + 7) / 8).

(** write_uint<T>(writer, val, size) with [size] at most the number of bits of T, bitio.hpp:73-89.
    (All calls in the library satisfy size <= 8*sizeof(T); otherwise the shift may be undefined.) *)
Definition write_uint (val : Z) (size : Z) : W :=
  write_loop (write_uint_octet val size) size 0 (iterations size).

(** Octet computed in iteration [i] of write_int, bitio.hpp:22-37 (sign handling in the first octet). *)
Definition write_int_octet (val : Z) (size i : Z) : Z :=
  let v := if size >? i + 8 then Z.shiftr val (size - (i + 8)) else val in
  let s := Z.of_nat (write_chunk size i) in
  let v := if i =? 0
           then (if val <? 0 then Z.lor v (Z.shiftl 1 (s - 1)) else Z.land v (Z.shiftl 1 (s - 1) - 1))
           else v in
  v mod 256.

(** write_int<T>, bitio.hpp:17-42. *)
Definition write_int (val : Z) (size : Z) : W :=
  write_loop (write_int_octet val size) size 0 (iterations size).

(** write_bool, src/bitio/bitio.cpp:99-104. *)
Definition write_bool (b : bool) : W := fun w => Ok (writeBits [if b then 255 else 0] 1 w, 1).

(** [writer->writeBits({static_cast<uint8_t>(c)}, 8); wbits += 8], bitio.cpp:22-24. *)
Definition write_octet8 (c : Z) : W := fun w => Ok (writeBits [c mod 256] 8 w, 8).

(** write_string, src/bitio/bitio.cpp:19-30. *)
Definition write_string (str : list Z) : W := wlist write_octet8 str ;; write_octet8 0.

(** write_pascal_string, src/bitio/bitio.cpp:47-62. *)
Definition write_pascal_string (str : list Z) : W :=
  if Zlen str >? 255 then wthrow RuntimeError
  else write_octet8 (Zlen str) ;; wlist write_octet8 str.

(** write_array_uint8_4, src/bitio/bitio.cpp:113-119 (the array is a list; its length is part of well-formedness). *)
Definition write_array_uint8 (v : list Z) : W := wlist (fun c => write_uint c 8) v.

(** write_vector_uint<T>, bitio.hpp:120-127; [size] = 8*sizeof(T). *)
Definition write_vector_uint (size : Z) (v : list Z) : W := wlist (fun c => write_uint c size) v.

(** Loop of write_uvarint, bitio.hpp:147-154: i = 7*(sizeof(u)-1), ..., 7, 0; [k] = iterations left, i = 7*(k-1). *)
Fixpoint write_uvarint_loop (val : Z) (k : nat) : W :=
  match k with
  | O => wskip
  | S k' =>
      let i := 7 * Z.of_nat k' in
      let data := Z.land (Z.shiftr val i) 127 in
      let data := if i >? 0 then Z.lor data 128 else data in
      (fun w => Ok (writeBits [data mod 256] 8 w, 8)) ;; write_uvarint_loop val k'
  end.

(** write_uvarint<T>, bitio.hpp:144-157, [bytes] = sizeof(T) <= 8. *)
Definition write_uvarint (bytes : nat) (u : Z) : W := fun w =>
  match write_uvarint_loop u bytes w with
  | Ok (w', _) => Ok (w', Z.of_nat bytes * 8)
  | Throw e => Throw e
  | UB => UB
  end.

(* ------------------------------------------------------------------------------------------------------------- *)
(** * Reader *)

(** bitio::Reader over an istream with contents [r_data] and get position [r_pos],
    include/shiguredo/mp4/bitio/reader.hpp:9-31. *)
Record reader := mkReader { r_data : list Z; r_pos : nat; r_octet : Z; r_width : Z }.

(** Freshly constructed Reader on a stream holding [l], positioned at its beginning. *)
Definition reader_init (l : list Z) : reader := mkReader l 0 0 0.

(** Every reading function returns the number of bits read and stores a value through a pointer; callers
    accumulate with [rbits +=].  [R A] returns the new state, that number and the value. *)
Definition R (A : Type) := reader -> outcome (reader * Z * A).

Definition rret {A} (a : A) : R A := fun r => Ok (r, 0, a).
Definition rthrow {A} (e : exn) : R A := fun _ => Throw e.
Definition rub {A} : R A := fun _ => UB.
(** [rbits += m; ...; rbits += f]. *)
Definition rbind {A B} (m : R A) (f : A -> R B) : R B := fun r =>
  match m r with
  | Ok (r1, n1, a) => match f a r1 with
                      | Ok (r2, n2, b) => Ok (r2, n1 + n2, b)
                      | Throw e => Throw e
                      | UB => UB
                      end
  | Throw e => Throw e
  | UB => UB
  end.
(** [rbits += n] without reading anything. *)
Definition rtick (n : Z) : R unit := fun r => Ok (r, n, tt).
Notation "x <- m ; k" := (rbind m (fun x => k)) (at level 61, m at next level, right associativity).
Notation "' p <- m ; k" := (rbind m (fun p => k)) (at level 61, p pattern, m at next level, right associativity).

(** Reader::readBit, src/bitio/reader.cpp:45-58. *)
Definition readBit (r : reader) : outcome (reader * bool) :=
  let load := if r_width r =? 0
              then match nth_error (r_data r) (r_pos r) with
                   | Some c => Ok (mkReader (r_data r) (S (r_pos r)) (c mod 256) 8)
                   | None => Throw RuntimeError
                   end
              else Ok r in
  match load with
  | Ok r1 =>
      let width := r_width r1 - 1 in
      Ok (mkReader (r_data r1) (r_pos r1) (r_octet r1) width,
          negb (Z.land (Z.shiftr (r_octet r1) width) 1 =? 0))
  | Throw e => Throw e
  | UB => UB
  end.

(** [data[byte_index] |= (0x1 << bit_index)] on a vector of uint8_t. *)
Fixpoint or_nth (l : list Z) (n : nat) (v : Z) : list Z :=
  match l, n with
  | [], _ => []
  | x :: l', O => (Z.lor x v mod 256) :: l'
  | x :: l', S n' => x :: or_nth l' n' v
  end.

(** Loop of Reader::readBits, src/bitio/reader.cpp:35-42; [k] = iterations left, [p] = offset + i. *)
Fixpoint readBits_loop (data : list Z) (p : Z) (k : nat) (r : reader) : outcome (reader * list Z) :=
  match k with
  | O => Ok (r, data)
  | S k' =>
      match readBit r with
      | Ok (r1, bit) =>
          let byte_index := Z.shiftr p 3 in
          let bit_index := 7 - p mod 8 in
          let data := if bit then or_nth data (Z.to_nat byte_index) (Z.shiftl 1 bit_index) else data in
          readBits_loop data (p + 1) k' r1
      | Throw e => Throw e
      | UB => UB
      end
  end.

(** Reader::readBits, src/bitio/reader.cpp:29-43. *)
Definition readBits (size : Z) (r : reader) : outcome (reader * list Z) :=
  let nbytes := Z.shiftr (size + 7) 3 in
  let offset := Z.shiftl nbytes 3 - size in
  readBits_loop (repeat 0 (Z.to_nat nbytes)) offset (Z.to_nat size) r.

(** Reader::read into a vector of [n] octets, src/bitio/reader.cpp:17-27 (returns the number of octets, as data). *)
Definition Reader_read (n : nat) (r : reader) : outcome (reader * list Z) :=
  if negb (r_width r =? 0) then Throw InvalidArgument
  else if (r_pos r + n <=? length (r_data r))%nat
       then Ok (mkReader (r_data r) (r_pos r + n) (r_octet r) (r_width r), firstn n (skipn (r_pos r) (r_data r)))
       else Throw RuntimeError.

(** Reader::seek(offset, beg/cur), src/bitio/reader.cpp:60-70.  [cur] tells the direction; the target position must
    stay inside the stream (libstdc++ string streams fail otherwise). *)
Definition Reader_seek (cur : bool) (offset : Z) (r : reader) : outcome (reader * Z) :=
  if cur && negb (r_width r =? 0) then Throw InvalidArgument
  else let target := if cur then Z.of_nat (r_pos r) + offset else offset in
       if (0 <=? target) && (target <=? Zlen (r_data r))
       then Ok (mkReader (r_data r) (Z.to_nat target) (r_octet r) 0, target)
       else Throw RuntimeError.

(** Assembling the octets, bitio.hpp:99-103: [val <<= 8; val |= b] on uint64_t. *)
Definition octets_to_u64 (init : Z) (data : list Z) : Z :=
  fold_left (fun val b => Z.lor (Z.shiftl val 8 mod 2 ^ 64) b) data init.

(** read_uint<T>(reader, var, size); [w] = 8*sizeof(T), bitio.hpp:91-106. *)
Definition read_uint (w size : Z) : R Z := fun r =>
  if size =? 0 then Throw InvalidArgument
  else match readBits size r with
       | Ok (r1, data) => Ok (r1, size, to_u w (octets_to_u64 0 data))
       | Throw e => Throw e
       | UB => UB
       end.

(** read_int<T>, bitio.hpp:44-71.  sign_mask is an int8_t: 0x80 becomes -128. *)
Definition read_int (w size : Z) : R Z := fun r =>
  if size =? 0 then Throw InvalidArgument
  else match readBits size r with
       | Ok (r1, data) =>
           match data with
           | [] => Ok (r1, size, to_s w 0)
           | d0 :: ds =>
               let sign_mask := to_s 8 (Z.shiftl 1 ((size - 1) mod 8)) in
               let sign_bit := negb (Z.land d0 sign_mask =? 0) in
               let d0 := if sign_bit then Z.lor d0 (Z.lnot (sign_mask - 1)) mod 256 else d0 in
               let init := if sign_bit then 2 ^ 64 - 1 else 0 in
               Ok (r1, size, to_s w (octets_to_u64 init (d0 :: ds)))
           end
       | Throw e => Throw e
       | UB => UB
       end.

(** [vector v; reader->readBits(&v, 8); rbits += 8; ... v[0]]: the octet read. *)
Definition read_octet8 : R Z := fun r =>
  match readBits 8 r with
  | Ok (r1, b :: _) => Ok (r1, 8, b)
  | Ok (_, []) => UB
  | Throw e => Throw e
  | UB => UB
  end.

(** read_bool, bitio.cpp:106-111. *)
Definition read_bool : R bool := fun r =>
  match readBits 1 r with
  | Ok (r1, b :: _) => Ok (r1, 1, negb (b =? 0))
  | Ok (_, []) => UB
  | Throw e => Throw e
  | UB => UB
  end.

(** for (i = 0; i < n; ++i) rbits += f(...) collecting the values. *)
Fixpoint rrepeat {A} (n : nat) (m : R A) : R (list A) :=
  match n with
  | O => rret []
  | S n' => x <- m; xs <- rrepeat n' m; rret (x :: xs)
  end.

(** read_array_uint8_4, bitio.cpp:121-126 (returns 32). *)
Definition read_array_uint8_4 : R (list Z) := rrepeat 4 (read_uint 8 8).

(** read_vector_uint<T>, bitio.hpp:129-137; [w] = 8*sizeof(T).  [v->resize(size)] is assumed not to fail. *)
Definition read_vector_uint (w : Z) (n : nat) : R (list Z) := rrepeat n (read_uint w w).

(** Loop of read_string, bitio.cpp:35-43: [while (rbits < max_rbits)].  Every iteration consumes one octet, so
    [fuel] = number of remaining octets + 2 is never exhausted (proved). *)
Fixpoint read_string_loop (fuel : nat) (rbits max_rbits : Z) : R (list Z) :=
  match fuel with
  | O => rub
  | S f =>
      if rbits <? max_rbits
      then b <- read_octet8;
           if b =? 0 then rret [] else s <- read_string_loop f (rbits + 8) max_rbits; rret (b :: s)
      else rret []
  end.

(** read_string, bitio.cpp:32-45. *)
Definition read_string (max_rbits : Z) : R (list Z) := fun r =>
  read_string_loop (S (S (length (r_data r) - r_pos r))) 0 max_rbits r.

(** read_pascal_string, bitio.cpp:64-97.  The C++ saves tellg() and returns to it with seekg() on the raw istream:
    m_width is left as it is (0 after whole octets). *)
Definition read_pascal_string (max_rbits : Z) : R (list Z) := fun r =>
  if max_rbits <? 2 * 8 then read_string max_rbits r
  else
    let offset := r_pos r in
    match read_octet8 r with
    | Ok (r1, _, v0) =>
        if negb (v0 * 8 =? max_rbits - 8)
        then read_string max_rbits (mkReader (r_data r1) offset (r_octet r1) (r_width r1))
        else (s <- rrepeat (Z.to_nat v0) read_octet8; _ <- rtick 8; rret s) r1
    | Throw e => Throw e
    | UB => UB
    end.

(** Loop of read_uvarint, bitio.hpp:163-172: it ends at an octet without 0x80 or at end of input; at most as many
    iterations as octets remain plus one, which is the fuel given by [read_uvarint]. *)
Fixpoint read_uvarint_loop (w : Z) (fuel : nat) (val : Z) : R Z :=
  match fuel with
  | O => rub
  | S f =>
      b <- read_octet8;
      let val := to_u w (Z.shiftl val 7 + Z.land b 127) in
      if Z.land b 128 =? 0 then rret val else read_uvarint_loop w f val
  end.

(** read_uvarint<T>, bitio.hpp:159-173, [w] = 8*sizeof(T). *)
Definition read_uvarint (w : Z) : R Z := fun r =>
  read_uvarint_loop w (S (S (length (r_data r) - r_pos r))) 0 r.

(** stream::get_istream_offset_to_end(reader->getIStream()), src/stream/stream.cpp:9-31 (position restored). *)
Definition offset_to_end : R Z := fun r => Ok (r, 0, Zlen (r_data r) - Z.of_nat (r_pos r)).

(* ------------------------------------------------------------------------------------------------------------- *)
(** * Endian conversions *)

(** be_to_uint32, src/endian/endian.cpp:8-15 (uint32_t arithmetic). *)
Definition be_to_uint32 (d0 d1 d2 d3 : Z) : Z :=
  (Z.shiftl d0 24 + Z.shiftl d1 16 + Z.shiftl d2 8 + d3) mod 2 ^ 32.

(** be_to_uint64, src/endian/endian.cpp:17-33. *)
Definition be_to_uint64 (d0 d1 d2 d3 d4 d5 d6 d7 : Z) : Z :=
  (Z.shiftl d0 56 + Z.shiftl d1 48 + Z.shiftl d2 40 + Z.shiftl d3 32 +
   Z.shiftl d4 24 + Z.shiftl d5 16 + Z.shiftl d6 8 + d7) mod 2 ^ 64.

(** uint32_to_be, src/endian/endian.cpp:35-39. *)
Definition uint32_to_be (i : Z) : list Z :=
  [Z.land (Z.shiftr i 24) 255; Z.land (Z.shiftr i 16) 255; Z.land (Z.shiftr i 8) 255; Z.land i 255].

(** uint64_to_be, src/endian/endian.cpp:41-47. *)
Definition uint64_to_be (i : Z) : list Z :=
  [Z.land (Z.shiftr i 56) 255; Z.land (Z.shiftr i 48) 255; Z.land (Z.shiftr i 40) 255; Z.land (Z.shiftr i 32) 255;
   Z.land (Z.shiftr i 24) 255; Z.land (Z.shiftr i 16) 255; Z.land (Z.shiftr i 8) 255; Z.land i 255].
