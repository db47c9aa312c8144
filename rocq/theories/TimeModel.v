(* Unix time and calendar dates. Source: src/modm/ui/time/time.cpp, time.hpp *)
From Verif Require Import Base.

(* time.cpp:17-19 *)
Definition monthDays : list Z := [31; 28; 31; 30; 31; 30; 31; 31; 30; 31; 30; 31].
(* time.cpp:30 *)
Definition LEAP_YEAR (year : Z) : bool := year mod 4 =? 0.
(* time.cpp:31 *)
Definition SECONDS_PER_DAY : Z := 60 * 60 * 24.
(* time.hpp:72-79 *)
Record tdate := mkDate { t_second : Z; t_minute : Z; t_hour : Z; t_day : Z; t_month : Z; t_year : Z; t_wday : Z; t_yday : Z }.

(* time.cpp:49-53: the loop over the years; None: more rounds than fuel. days is uint32_t, year uint16_t *)
Fixpoint t_years (fuel : nat) (year days seconds : Z) : option (Z * Z) :=
  match fuel with
  | O => None
  | S fuel =>
      let days := u32 (days + (if LEAP_YEAR year then 366 else 365)) in
      if days <=? seconds then t_years fuel (u16 (year + 1)) days seconds else Some (year, days)
  end.
(* time.cpp:60-83: the loop over the months, n rounds left; None: read outside monthDays *)
Fixpoint t_months (n : nat) (year month seconds : Z) : option (Z * Z) :=
  match n with
  | O => Some (month, seconds)
  | S n =>
      do monthLength <- (if month =? 1 then Some (if LEAP_YEAR year then 29 else 28) else znth monthDays month);
      if monthLength <=? seconds then t_months n year (u8 (month + 1)) (u32 (seconds - monthLength)) else Some (month, seconds)
  end.
(* time.cpp:34-87 *)
Definition t_toDate (fuel : nat) (time : Z) : option tdate :=
  let second := time mod 60 in
  let seconds := time / 60 in
  let minute := seconds mod 60 in
  let seconds := seconds / 60 in
  let hour := seconds mod 24 in
  let seconds := seconds / 24 in
  let dayOfTheWeek := u32 (seconds + 4) mod 7 in
  do (year, days) <- t_years fuel 1970 0 seconds;
  let days := u32 (days - (if LEAP_YEAR year then 366 else 365)) in
  let seconds := u32 (seconds - days) in
  let dayOfTheYear := u8 seconds in
  do (month, seconds') <- t_months 12 year 0 seconds;
  Some (mkDate second minute hour (u8 (seconds' + 1)) (u8 month) (u8 (year - 1900)) dayOfTheWeek dayOfTheYear).

(* time.cpp:99-104: from year i on, n rounds *)
Fixpoint t_addYears (n : nat) (i seconds : Z) : Z :=
  match n with
  | O => seconds
  | S n => t_addYears n (i + 1) (if LEAP_YEAR i then u32 (seconds + SECONDS_PER_DAY) else seconds)
  end.
(* time.cpp:107-115: from month i on, n rounds; None: read outside monthDays *)
Fixpoint t_addMonths (n : nat) (currentYear i seconds : Z) : option Z :=
  match n with
  | O => Some seconds
  | S n =>
      do d <- (if (i =? 1) && LEAP_YEAR currentYear then Some 29 else znth monthDays i);
      t_addMonths n currentYear (i + 1) (u32 (seconds + swrap 32 (SECONDS_PER_DAY * d)))
  end.
(* time.cpp:90-123; the products of int wrap around (-fwrapv) *)
Definition t_toUnixTimestamp (d : tdate) : option Z :=
  let currentYear := u16 (t_year d + 1900) in
  let seconds := u32 (swrap 32 ((currentYear - 1970) * (SECONDS_PER_DAY * 365))) in
  let seconds := t_addYears (Z.to_nat (currentYear - 1970)) 1970 seconds in
  do seconds <- t_addMonths (Z.to_nat (t_month d)) currentYear 0 seconds;
  let seconds := u32 (seconds + swrap 32 ((t_day d - 1) * SECONDS_PER_DAY)) in
  let seconds := u32 (seconds + swrap 32 (t_hour d * 60 * 60)) in
  let seconds := u32 (seconds + t_minute d * 60) in
  Some (u32 (seconds + t_second d)).
