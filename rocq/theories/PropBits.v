(** Bit-level properties C01-C08: statements only (proofs in BitLemmas.v, vocabulary in BitSpec.v). *)
From Verif Require Import Base BitIO BitSpec BitLemmas.

(** C01.  Writing [v] in a field of [n] bits appends the n-bit big-endian representation of v mod 2^n and reports n bits;
    reading such a field anywhere (any reader on any octets at any position) returns v mod 2^n and consumes it exactly. *)
Theorem C01_unsigned_fields : forall w v n, writer_reachable w -> 1 <= n <= 64 ->
  exists w', write_uint v n w = Ok (w', n) /\ wbits w' = wbits w ++ be (Z.to_nat n) (v mod 2 ^ n) /\
  forall input r width rest, bytes input -> reader_reachable input r -> n <= width <= 64 -> rbits r = be (Z.to_nat n) (v mod 2 ^ n) ++ rest ->
  exists r', read_uint width n r = Ok (r', n, v mod 2 ^ n) /\ rbits r' = rest.
Proof. exact bits_uint. Qed.
Print Assumptions C01_unsigned_fields.
(** A writer three bits into an octet, a reader three bits into an octet, an 11-bit field. *)
Example C01_satisfiable :
  let w := writeBits [5] 3 writer_init in
  writer_reachable w /\
  exists r, reader_reachable [177; 144; 0] r /\ rbits r = be 11 (1124 mod 2 ^ 11) ++ repeat false 10 /\ 1124 mod 2 ^ 11 = 1124.
Proof.
  cbv zeta. split; [apply WR_bits; [apply WR_init|repeat constructor; lia|cbn; lia|lia]|].
  eexists. split; [eapply (RR_bits _ _ _ 3); [apply RR_init|lia|vm_compute; reflexivity]|]. split; vm_compute; reflexivity.
Qed.

(** C02.  Signed fields, two's complement. *)
Theorem C02_signed_fields : forall w v n, writer_reachable w -> 1 <= n <= 64 -> fits_s n v ->
  exists w', write_int v n w = Ok (w', n) /\ wbits w' = wbits w ++ be (Z.to_nat n) (v mod 2 ^ n) /\
  forall input r width rest, bytes input -> reader_reachable input r -> n <= width <= 64 -> rbits r = be (Z.to_nat n) (v mod 2 ^ n) ++ rest ->
  exists r', read_int width n r = Ok (r', n, v) /\ rbits r' = rest.
Proof. exact bits_int. Qed.
Print Assumptions C02_signed_fields.
Example C02_satisfiable : writer_reachable (writeBit true writer_init) /\ fits_s 12 (-2048) /\
  exists r, reader_reachable [64; 5] r /\ rbits r = be 12 ((-2048) mod 2 ^ 12) ++ [true; false; true].
Proof.
  split; [apply WR_bit, WR_init|]. split; [unfold fits_s; lia|]. eexists. split; [eapply (RR_bits _ _ _ 1); [apply RR_init|lia|vm_compute; reflexivity]|]. vm_compute. reflexivity.
Qed.

(** C03.  After any sequence of writeBits calls the bits emitted or pending are those present before followed by the bits of
    the calls in order; octets emitted are never altered, and exactly the complete octets have been emitted. *)
Theorem C03_append_only : forall calls w, writer_reachable w ->
  Forall (fun c => bytes (fst c) /\ 0 <= snd c <= 8 * Zlen (fst c) /\ 8 * Zlen (fst c) < 2 ^ 64) calls ->
  let w' := fold_left (fun w c => writeBits (fst c) (snd c) w) calls w in
  let all := wbits w ++ flat_map (fun c => low_bits (fst c) (snd c)) calls in
  wbits w' = all /\ (exists t, w_os w' = w_os w ++ t) /\ bits_of (w_os w') = firstn (8 * (length all / 8)) all.
Proof. exact bits_append_only. Qed.
Print Assumptions C03_append_only.
Example C03_satisfiable : let calls := [([7], 3); ([1; 255], 11)] in
  Forall (fun c => bytes (fst c) /\ 0 <= snd c <= 8 * Zlen (fst c) /\ 8 * Zlen (fst c) < 2 ^ 64) calls /\
  w_os (fold_left (fun w c => writeBits (fst c) (snd c) w) calls writer_init) = [231].
Proof. split; [repeat constructor; cbn; unfold is_byte; lia|vm_compute; reflexivity]. Qed.

(** C04.  readBits of n bits gives exactly the next n bits (as a right-aligned big-endian number) if that many remain, and
    raises runtime_error otherwise. *)
Theorem C04_reader_exact : forall input r n, bytes input -> reader_reachable input r -> 0 <= n ->
  (n <= Zlen (rbits r) -> exists r' d, readBits n r = Ok (r', d) /\ rbits r = firstn (Z.to_nat n) (rbits r) ++ rbits r' /\
     Zlen d = (n + 7) / 8 /\ bytes d /\ octets_value d = bits_to_Z (firstn (Z.to_nat n) (rbits r))) /\
  (Zlen (rbits r) < n -> readBits n r = Throw RuntimeError).
Proof. exact bits_read. Qed.
Print Assumptions C04_reader_exact.
Example C04_satisfiable : exists r, reader_reachable [1; 2] r /\ Zlen (rbits r) = 11.
Proof. eexists. split; [eapply (RR_bits _ _ _ 5); [apply RR_init|lia|vm_compute; reflexivity]|vm_compute; reflexivity]. Qed.

(** C05.  Whole-octet access: refused with invalid_argument off octet boundaries, exact on them. *)
Theorem C05_aligned_write : forall w p, writer_reachable w ->
  if Zlen (wbits w) mod 8 =? 0 then exists w', Writer_write p w = Ok (w', Zlen p) /\ w_os w' = w_os w ++ p /\ wbits w' = wbits w ++ bits_of p
  else Writer_write p w = Throw InvalidArgument.
Proof. exact aligned_write. Qed.
Print Assumptions C05_aligned_write.
Theorem C05_aligned_read : forall input r n, bytes input -> reader_reachable input r ->
  if Zlen (rbits r) mod 8 =? 0
  then if 8 * Z.of_nat n <=? Zlen (rbits r)
       then exists r' d, Reader_read n r = Ok (r', d) /\ length d = n /\ rbits r = bits_of d ++ rbits r'
       else Reader_read n r = Throw RuntimeError
  else Reader_read n r = Throw InvalidArgument.
Proof. exact aligned_read. Qed.
Print Assumptions C05_aligned_read.
Theorem C05_aligned_seek : forall input r off, bytes input -> reader_reachable input r ->
  if Zlen (rbits r) mod 8 =? 0
  then let target := Z.of_nat (r_pos r) + off in
       if (0 <=? target) && (target <=? Zlen input)
       then exists r', Reader_seek true off r = Ok (r', target) /\ rbits r' = bits_of (skipn (Z.to_nat target) input)
       else Reader_seek true off r = Throw RuntimeError
  else Reader_seek true off r = Throw InvalidArgument.
Proof. exact aligned_seek. Qed.
Print Assumptions C05_aligned_seek.
(** both branches are met *)
Example C05_satisfiable : (exists r, reader_reachable [1; 2] r /\ Zlen (rbits r) mod 8 = 0) /\ (exists r, reader_reachable [1; 2] r /\ Zlen (rbits r) mod 8 <> 0).
Proof.
  split; [eexists; split; [apply RR_init|reflexivity]|].
  eexists. split; [eapply (RR_bits _ _ _ 5); [apply RR_init|lia|vm_compute; reflexivity]|vm_compute; discriminate].
Qed.

(** C06.  Expandable lengths.  Written in four octets of seven bits each; read back modulo 2^28, hence exactly when below
    2^28 and never otherwise.  Lengths in any number of octets (as other programs write them) are read modulo 2^32; an input
    that ends before an unmarked octet raises runtime_error. *)
Theorem C06_uvarint : forall w v, writer_reachable w -> 0 <= v < 2 ^ 32 ->
  let field := bits_of (expandable [(v / 2 ^ 21) mod 128; (v / 2 ^ 14) mod 128; (v / 2 ^ 7) mod 128] (v mod 128)) in
  exists w', write_uvarint 4 v w = Ok (w', 32) /\ wbits w' = wbits w ++ field /\
  forall input r rest, bytes input -> reader_reachable input r -> rbits r = field ++ rest ->
  exists r', read_uvarint 32 r = Ok (r', 32, v mod 2 ^ 28) /\ rbits r' = rest.
Proof. exact uvarint_ok. Qed.
Print Assumptions C06_uvarint.
Theorem C06_any_length : forall input r gs l rest, bytes input -> reader_reachable input r -> Forall (fun g => 0 <= g < 128) (gs ++ [l]) ->
  rbits r = bits_of (expandable gs l) ++ rest ->
  exists r', read_uvarint 32 r = Ok (r', 8 * (Zlen gs + 1), groups_value (gs ++ [l]) mod 2 ^ 32) /\ rbits r' = rest.
Proof. exact uvarint_groups. Qed.
Print Assumptions C06_any_length.
Theorem C06_unfinished : forall input r gs rest, bytes input -> reader_reachable input r -> Forall (fun g => 0 <= g < 128) gs ->
  rbits r = bits_of (map (fun g => 128 + g) gs) ++ rest -> Zlen rest < 8 -> read_uvarint 32 r = Throw RuntimeError.
Proof. exact uvarint_unfinished. Qed.
Print Assumptions C06_unfinished.
(** 300 is written as 128, 128, 130, 44 and read back; a length in two octets; one cut short. *)
Example C06_satisfiable : writer_reachable writer_init /\ expandable [(300 / 2 ^ 21) mod 128; (300 / 2 ^ 14) mod 128; (300 / 2 ^ 7) mod 128] (300 mod 128) = [128; 128; 130; 44] /\
  reader_reachable [128; 128; 130; 44; 7] (reader_init [128; 128; 130; 44; 7]) /\ rbits (reader_init [128; 128; 130; 44; 7]) = bits_of [128; 128; 130; 44] ++ be 8 7 /\
  rbits (reader_init [130; 44; 7]) = bits_of (expandable [2] 44) ++ be 8 7 /\ groups_value [2; 44] mod 2 ^ 32 = 300 /\
  rbits (reader_init [130; 172]) = bits_of (map (fun g => 128 + g) [2; 44]) ++ [].
Proof. split; [apply WR_init|]. split; [vm_compute; reflexivity|]. split; [apply RR_init|]. repeat split; vm_compute; reflexivity. Qed.

(** C07.  Strings. *)
Theorem C07_strings : forall w s, writer_reachable w -> bytes s ->
  exists w', write_string s w = Ok (w', 8 * (Zlen s + 1)) /\ wbits w' = wbits w ++ bits_of (s ++ [0]) /\
  (~ In 0 s -> forall input r bound rest, bytes input -> reader_reachable input r -> rbits r = bits_of (s ++ [0]) ++ rest -> 8 * Zlen s < bound ->
   exists r', read_string bound r = Ok (r', 8 * (Zlen s + 1), s) /\ rbits r' = rest).
Proof. exact string_ok. Qed.
Print Assumptions C07_strings.
Theorem C07_pascal_strings : forall w s, writer_reachable w -> bytes s ->
  if Zlen s <=? 255 then
    exists w', write_pascal_string s w = Ok (w', 8 * (1 + Zlen s)) /\ wbits w' = wbits w ++ bits_of (Zlen s :: s) /\
    forall input r rest, s <> [] -> bytes input -> reader_reachable input r -> rbits r = bits_of (Zlen s :: s) ++ rest ->
    exists r', read_pascal_string (8 * (1 + Zlen s)) r = Ok (r', 8 * (1 + Zlen s), s) /\ rbits r' = rest
  else write_pascal_string s w = Throw RuntimeError.
Proof. exact pascal_ok. Qed.
Print Assumptions C07_pascal_strings.
Example C07_satisfiable : bytes [86; 105; 100] /\ ~ In 0 [86; 105; 100] /\ rbits (reader_init [86; 105; 100; 0; 9]) = bits_of ([86; 105; 100] ++ [0]) ++ be 8 9 /\
  read_string 32 (reader_init [86; 105; 100; 0; 9]) = Ok (mkReader [86; 105; 100; 0; 9] 4 0 0, 32, [86; 105; 100]).
Proof. split; [repeat constructor; lia|]. split; [cbn; lia|]. split; vm_compute; reflexivity. Qed.

(** C08.  Big-endian conversions are mutually inverse bijections between integers and octet arrays. *)
Theorem C08_be32 : (forall i, 0 <= i < 2 ^ 32 -> bytes (uint32_to_be i) /\ length (uint32_to_be i) = 4%nat /\ octets_value (uint32_to_be i) = i /\ from32 (uint32_to_be i) = i) /\
  (forall l, bytes l -> length l = 4%nat -> from32 l = octets_value l /\ 0 <= from32 l < 2 ^ 32 /\ uint32_to_be (from32 l) = l).
Proof. exact be32_ok. Qed.
Print Assumptions C08_be32.
Theorem C08_be64 : (forall i, 0 <= i < 2 ^ 64 -> bytes (uint64_to_be i) /\ length (uint64_to_be i) = 8%nat /\ octets_value (uint64_to_be i) = i /\ from64 (uint64_to_be i) = i) /\
  (forall l, bytes l -> length l = 8%nat -> from64 l = octets_value l /\ 0 <= from64 l < 2 ^ 64 /\ uint64_to_be (from64 l) = l).
Proof. exact be64_ok. Qed.
Print Assumptions C08_be64.
