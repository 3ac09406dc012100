(* The order of the base point of Curve25519 (RFC 7748, 4.1), and shares that fix the secret. *)
From Coq Require Import List ZArith.
From Verif Require Import Spec.Enc Spec.Rfc7748.
Import ListNotations.
Open Scope Z_scope.

Definition base_order : Z := 2 ^ 252 + 0x14def9dea2f79cd65812631a5cf5d3ed.
(* points of order 1, 2, 4 and 8 *)
Definition small_shares : list (list Z) :=
  [ le_enc 32 0; le_enc 32 1;
    le_enc 32 325606250916557431795983626356110631294008115727848805560023387167927233504;
    le_enc 32 39382357235489614581723060781553021112529911719440698176882885853963445705823 ].

(* two private keys that multiply to the same point or to opposite points, which have the same u-coordinate *)
Definition twins (a b : list Z) : Prop := decodeScalar a = decodeScalar b \/ decodeScalar a + decodeScalar b = 8 * base_order.
