(* The proleptic Gregorian calendar and Unix time, by counting days. *)
From Coq Require Import List ZArith Bool.
Import ListNotations.
Open Scope Z_scope.

Definition leap_year (y : Z) : bool := (y mod 4 =? 0) && (negb (y mod 100 =? 0) || (y mod 400 =? 0)).
Definition year_length (y : Z) : Z := if leap_year y then 366 else 365.
Definition month_length (y m : Z) : Z :=
  if m =? 2 then (if leap_year y then 29 else 28)
  else if (m =? 4) || (m =? 6) || (m =? 9) || (m =? 11) then 30 else 31.

(* sum of f over lo <= i < hi *)
Definition sum_range (f : Z -> Z) (lo hi : Z) : Z :=
  fold_right Z.add 0 (map (fun i => f (lo + Z.of_nat i)) (seq 0 (Z.to_nat (hi - lo)))).

(* days from 1970-01-01 to the given date *)
Definition days_since_epoch (y m d : Z) : Z :=
  sum_range year_length 1970 y + sum_range (month_length y) 1 m + (d - 1).

(* a date and a time of day *)
Record instant := { year : Z; month : Z; day : Z; hour : Z; minute : Z; second : Z }.
Definition valid_instant (i : instant) : Prop :=
  1 <= month i <= 12 /\ 1 <= day i <= month_length (year i) (month i) /\
  0 <= hour i < 24 /\ 0 <= minute i < 60 /\ 0 <= second i < 60.
Definition unix_time (i : instant) : Z :=
  86400 * days_since_epoch (year i) (month i) (day i) + 3600 * hour i + 60 * minute i + second i.

(* RFC 5280 4.1.2.5.1: UTCTime is YYMMDDHHMMSSZ, for years 1950 to 2049 *)
Definition digits2 (n : Z) : list Z := [48 + n / 10; 48 + n mod 10].
Definition utc_time_text (i : instant) : list Z :=
  digits2 (year i mod 100) ++ digits2 (month i) ++ digits2 (day i) ++
  digits2 (hour i) ++ digits2 (minute i) ++ digits2 (second i) ++ [90].
