(* Field elements modulo 2^255-19 written as 16 signed limbs in base 2^16 *)
From Coq Require Import ZArith List.
Import ListNotations.
Open Scope Z_scope.

(* the integer the limbs stand for: sum of l[i] * 65536^i *)
Fixpoint limbs_value (l : list Z) : Z := match l with [] => 0 | x :: t => x + 65536 * limbs_value t end.

Definition limbs_within (bound : Z) (l : list Z) : Prop :=
  length l = 16%nat /\ Forall (fun x => - bound <= x <= bound) l.

(* the form multiplication and decoding leave: all limbs but the first are 16-bit digits *)
Definition limbs_reduced (l : list Z) : Prop :=
  exists x t, l = x :: t /\ length t = 15%nat /\ -38 <= x < 65536 + 38 /\ Forall (fun y => 0 <= y < 65536) t.
