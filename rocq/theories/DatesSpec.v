(** * The calendar (specification, independent of the model) *)
From Coq Require Import ZArith Bool.
Local Open Scope Z_scope.
(** specification: the Gregorian rule of leap years *)
Definition leap (y : Z) : bool := ((y mod 4 =? 0) && negb (y mod 100 =? 0)) || (y mod 400 =? 0).
(** specification: the length of a month *)
Definition month_length (y m : Z) : Z :=
  if m =? 2 then if leap y then 29 else 28
  else if (m =? 4) || (m =? 6) || (m =? 9) || (m =? 11) then 30 else 31.
(** specification: a date of the calendar: year, month, day *)
Definition date := (Z * Z * Z)%type.
(** specification: the days that exist *)
Definition valid_date (c : date) : Prop := let '(y, m, d) := c in 1 <= m <= 12 /\ 1 <= d <= month_length y m.
(** specification: the day after *)
Definition next_day (c : date) : date :=
  let '(y, m, d) := c in
  if d <? month_length y m then (y, m, d + 1) else if m <? 12 then (y, m + 1, 1) else (y + 1, 1, 1).
