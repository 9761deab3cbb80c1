(** Properties of times: C38. *)
From Verif Require Import Base TimeSpec Time TimeProofs.

(** C38: conversion adds the seconds between 1904 and 1970 and is injective modulo 2^64; formatting a converted Unix time
    of 32 bits gives its calendar second. *)
Theorem C38_convert_format : forall u, 0 <= u < 2 ^ 32 ->
  convert_to_epoch_19040101 u = u + 2082844800 /\ format_epoch_19040101 (convert_to_epoch_19040101 u) = Ok (instant (1970, 1, 1) u).
Proof. exact convert_format. Qed.
Theorem C38_convert_injective : forall a b, 0 <= a < 2 ^ 64 -> 0 <= b < 2 ^ 64 ->
  convert_to_epoch_19040101 a = convert_to_epoch_19040101 b -> a = b.
Proof. exact convert_injective. Qed.
(** Times before 1970 are formatted too; those later than 32-bit Unix seconds are all formatted as year 0. *)
Theorem C38_format : forall t, 0 <= t < 2082844800 + 2 ^ 32 -> format_epoch_19040101 t = Ok (instant (1904, 1, 1) t).
Proof. exact format_ok. Qed.
Theorem C38_format_far : forall t, 2082844800 + 2 ^ 32 <= t < 2 ^ 63 + 2082844800 -> format_epoch_19040101 t = Ok (iso8601 (0, 0, 0) 0 0 0).
Proof. exact format_far. Qed.
Example C38_case : instant (1970, 1, 1) 951782399 = [50;48;48;48;45;48;50;45;50;56;84;50;51;58;53;57;58;53;57;90].
Proof. vm_compute. reflexivity. Qed.
Print Assumptions C38_convert_format.
Print Assumptions C38_convert_injective.
Print Assumptions C38_format.
Print Assumptions C38_format_far.
