(* How many of all byte strings of a given length have a property.  A generator that reads n bytes, each of the 256^n strings as
   likely as the others, gives the property with probability count / 256^n. *)
From Coq Require Import List ZArith.
Import ListNotations.
Open Scope Z_scope.

Definition byte_values : list Z := map Z.of_nat (seq 0 256).
Fixpoint strings (n : nat) : list (list Z) :=
  match n with
  | O => [[]]
  | S n => flat_map (fun b => map (cons b) (strings n)) byte_values
  end.
Definition count (n : nat) (f : list Z -> bool) : Z := Z.of_nat (length (filter f (strings n))).
