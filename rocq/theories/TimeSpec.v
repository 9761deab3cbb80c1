(** The Gregorian calendar, by counting days one at a time.  Models no code of /repo. *)
From Verif Require Import Base.

Definition leap (y : Z) : bool := ((y mod 4 =? 0) && negb (y mod 100 =? 0)) || (y mod 400 =? 0).
Definition month_length (y m : Z) : Z :=
  if m =? 2 then if leap y then 29 else 28 else if (m =? 4) || (m =? 6) || (m =? 9) || (m =? 11) then 30 else 31.
(** The day after (year, month, day). *)
Definition next_day (x : Z * Z * Z) : Z * Z * Z :=
  let '(y, m, d) := x in
  if d <? month_length y m then (y, m, d + 1) else if m <? 12 then (y, m + 1, 1) else (y + 1, 1, 1).
(** The day [n] days after [x]. *)
Definition days_after (n : Z) (x : Z * Z * Z) : Z * Z * Z := Nat.iter (Z.to_nat n) next_day x.

(** Decimal digits, [n] of them, as characters. *)
Fixpoint decimal (n : nat) (v : Z) : list Z := match n with O => [] | S k => decimal k (v / 10) ++ [48 + v mod 10] end.
(** YYYY-MM-DDThh:mm:ssZ *)
Definition iso8601 (x : Z * Z * Z) (h m s : Z) : list Z :=
  let '(y, mo, d) := x in
  decimal 4 y ++ [45] ++ decimal 2 mo ++ [45] ++ decimal 2 d ++ [84] ++ decimal 2 h ++ [58] ++ decimal 2 m ++ [58] ++ decimal 2 s ++ [90].
(** [n] seconds after midnight of day [x] *)
Definition instant (x : Z * Z * Z) (n : Z) : list Z :=
  iso8601 (days_after (n / 86400) x) (n mod 86400 / 3600) (n mod 3600 / 60) (n mod 60).
