(* What is made of texts that are not base64. *)
From Coq Require Import String List ZArith.
From Verif Require Import Spec.Rfc4648 Spec.PemFile.
Import ListNotations.
Open Scope Z_scope.
Open Scope list_scope.

Definition in_alphabet (c : Z) : bool := existsb (Z.eqb c) alphabet.
(* every other character counts as the digit 0, an A *)
Definition as_digit (c : Z) : Z := if in_alphabet c then c else 65.
Definition pads (l : list Z) : nat := count_occ Z.eq_dec l pad.
(* up to z *)
Definition below (c : Z) : Prop := 0 <= c <= 122.
(* a character that neither is a digit nor padding *)
Definition stray (c : Z) : Prop := below c /\ ~ In c alphabet /\ c <> pad.
(* the same characters but for strays where there were As *)
Definition strewn : list Z -> list Z -> Prop := Forall2 (fun c d => c = d \/ c = 65 /\ stray d).

(* lines that end with carriage return and line feed *)
Definition text_of_crlf (ls : list (list Z)) : list Z := text_of_lines (map (fun l => l ++ [13]) ls).
