(* What can stand where a UTCTime YYMMDDHHMMSSZ belongs. *)
From Coq Require Import List ZArith Bool.
Import ListNotations.
From Verif Require Import Spec.Calendar Spec.X509.
Open Scope Z_scope.

(* six numbers of two digits and, in place of the Z, any text *)
Record numbers := { n_year : Z; n_month : Z; n_day : Z; n_hour : Z; n_minute : Z; n_second : Z }.
Definition two_digit (n : numbers) : Prop :=
  Forall (fun x => 0 <= x <= 99) [n_year n; n_month n; n_day n; n_hour n; n_minute n; n_second n].
Definition time_text (n : numbers) (zone : list Z) : list Z :=
  digits2 (n_year n) ++ digits2 (n_month n) ++ digits2 (n_day n) ++ digits2 (n_hour n) ++ digits2 (n_minute n) ++ digits2 (n_second n) ++ utf8 zone.
(* RFC 5280 4.1.2.5.1: 50 to 99 are 1950 to 1999 *)
Definition full_year (n : numbers) : Z := if n_year n <? 50 then 2000 + n_year n else 1900 + n_year n.
(* the instant they name, if there is one *)
Definition named (n : numbers) : instant :=
  {| year := full_year n; month := n_month n; day := n_day n; hour := n_hour n; minute := n_minute n; second := n_second n |}.
(* what the library can compute a time for *)
Definition countable (n : numbers) : Prop := 1970 <= full_year n /\ 1 <= n_month n <= 12 /\ 1 <= n_day n.
(* each byte that is not a digit replaced by the digit 0 *)
Definition as_digits (t : list Z) : list Z := map (fun c => if (48 <=? c) && (c <=? 57) then c else 48) t.
