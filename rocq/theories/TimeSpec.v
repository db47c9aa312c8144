From Verif Require Import Base TimeModel.

(* the Gregorian calendar *)
Definition leap (y : Z) : bool := ((y mod 4 =? 0) && negb (y mod 100 =? 0)) || (y mod 400 =? 0).
Definition year_length (y : Z) : Z := if leap y then 366 else 365.
Definition month_length (y m : Z) : Z :=
  if m =? 2 then if leap y then 29 else 28 else if (m =? 4) || (m =? 6) || (m =? 9) || (m =? 11) then 30 else 31.
(* sum of f over n consecutive numbers *)
Fixpoint sum_from (f : Z -> Z) (i : Z) (n : nat) : Z := match n with O => 0 | S n => f i + sum_from f (i + 1) n end.
(* days since 1970-01-01 of the first day of a year, and of a date *)
Definition year_start (y : Z) : Z := sum_from year_length 1970 (Z.to_nat (y - 1970)).
Definition day_of_year (y m d : Z) : Z := sum_from (month_length y) 1 (Z.to_nat (m - 1)) + d - 1.
Definition valid (y m d : Z) : Prop := 1970 <= y /\ 1 <= m <= 12 /\ 1 <= d <= month_length y m.
Definition is_date (n y m d : Z) : Prop := valid y m d /\ n = year_start y + day_of_year y m d.
