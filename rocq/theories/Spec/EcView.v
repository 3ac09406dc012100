(* How the library writes curve points: affine coordinates, with (0,0) for the
   point at infinity. *)
From Coq Require Import ZArith.
From Verif.Model Require Import Curve.
From Verif.Spec Require Import Ec.
Open Scope Z_scope.

Definition coords (P : ecpoint) : point :=
  match P with
  | Infinity => Point 0 0
  | Affine x y => Point x y
  end.
