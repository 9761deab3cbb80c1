(** src/time/time.cpp and the library functions it calls. *)
From Verif Require Import Base TimeSpec.

(** time.hpp:8 *)
Definition SECONDS_19040101_to_19700101 : Z := 2082844800.
(** convert_to_epoch_19040101, time.cpp:23-25 (uint64_t addition) *)
Definition convert_to_epoch_19040101 (t : Z) : Z := (t + SECONDS_19040101_to_19700101) mod 2 ^ 64.

(** The date of the C library for a day number, as computed by the usual division algorithm (400-year eras starting on
    1 March); gmtime_r is not part of /repo: this is the model of its behaviour. *)
Definition civil (days : Z) : Z * Z * Z :=
  let z := days + 719468 in
  let era := z / 146097 in
  let doe := z mod 146097 in
  let yoe := (doe - doe / 1460 + doe / 36524 - doe / 146096) / 365 in
  let doy := doe - (365 * yoe + yoe / 4 - yoe / 100) in
  let mp := (5 * doy + 2) / 153 in
  let d := doy - (153 * mp + 2) / 5 + 1 in
  let m := if mp <? 10 then mp + 3 else mp - 9 in
  (yoe + era * 400 + (if m <=? 2 then 1 else 0), m, d).
(** gmtime_r: NULL (EOVERFLOW) when the year does not fit tm_year, an int counted from 1900. *)
Definition gmtime_r (s : Z) : option (Z * Z * Z * Z * Z * Z) :=
  let '(y, m, d) := civil (s / 86400) in
  if (- 2 ^ 31 <=? y - 1900) && (y - 1900 <? 2 ^ 31)
  then Some (y, m, d, s mod 86400 / 3600, s mod 3600 / 60, s mod 60) else None.
(** fmt::format("{:%FT%TZ}", tm) for years 0 to 9999 (fmt is not part of /repo; outside that range its output is not
    modelled and stands for a string of unspecified contents, here the last four digits) *)
Definition fmt_iso (tm : Z * Z * Z * Z * Z * Z) : list Z :=
  let '(y, m, d, h, mi, s) := tm in iso8601 (y, m, d) h mi s.
(** format_epoch_19040101, time.cpp:12-21: the unsigned difference converted to time_t; dereferencing the NULL of
    gmtime_r is undefined behaviour *)
Definition format_epoch_19040101 (t : Z) : outcome (list Z) :=
  let u := (t - SECONDS_19040101_to_19700101) mod 2 ^ 64 in
  let from1970 := if u <? 2 ^ 63 then u else u - 2 ^ 64 in
  if from1970 >? 2 ^ 32 - 1
  then Ok (iso8601 (0, 0, 0) 0 0 0)
  else match gmtime_r from1970 with Some tm => Ok (fmt_iso tm) | None => UB end.
