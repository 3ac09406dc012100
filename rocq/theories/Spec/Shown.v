(* The texts shown for the times and names of a certificate. *)
From Coq Require Import List ZArith.
Import ListNotations.
From Verif Require Import Spec.Rfc4648 Spec.Calendar Spec.X509.
From Coq Require String.
Import String.StringSyntax.
Local Open Scope string_scope. Local Open Scope list_scope. Local Open Scope Z_scope.

(* hh:mm:ss MM/DD/YYYY *)
Definition time_shown (i : instant) : list Z :=
  digits2 (hour i) ++ codes ":" ++ digits2 (minute i) ++ codes ":" ++ digits2 (second i) ++ codes " " ++
  digits2 (month i) ++ codes "/" ++ digits2 (day i) ++ codes "/" ++ digits2 (year i / 100) ++ digits2 (year i mod 100).
(* four attributes of a name, each with its last value or none *)
Definition shown_value (k : attribute_type) (l : list attribute) : list Z := match last_value k l with Some v => v | None => [] end.
Definition name_shown (l : list attribute) : list Z :=
  codes "C=" ++ shown_value Country l ++ codes "; ST=" ++ shown_value State l ++
  codes "; O=" ++ shown_value Organization l ++ codes "; CN=" ++ shown_value Common l.
