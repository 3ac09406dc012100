(* Texts of hexadecimal digits, as character codes. *)
From Coq Require Import List ZArith.
Import ListNotations.
From Verif Require Import Spec.Rfc4648.
From Coq Require String.
Import String.StringSyntax.
Local Open Scope string_scope. Local Open Scope list_scope. Local Open Scope Z_scope.

(* the digit c stands for d *)
Definition hex_digit_for (c d : Z) : Prop :=
  exists n, d = Z.of_nat n /\ (nth_error (codes "0123456789abcdef") n = Some c \/ nth_error (codes "0123456789ABCDEF") n = Some c).
(* what from_hex takes s for: two digits for a byte, or a plus sign and one *)
Inductive spells : list Z -> list Z -> Prop :=
| spells_nothing : spells [] []
| spells_byte c1 c2 a b s l : hex_digit_for c1 a -> hex_digit_for c2 b -> spells s l -> spells (c1 :: c2 :: s) (16 * a + b :: l)
| spells_plus c d s l : hex_digit_for c d -> spells s l -> spells (43 :: c :: s) (d :: l).
