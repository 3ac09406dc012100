(* Elliptic curves y^2 = x^3 + a x + b over the integers modulo a prime p: the
   chord-and-tangent law of SEC 1 section 2.2.1, written from the textbook.
   Nothing here refers to the code. *)
From Coq Require Import ZArith List.
Open Scope Z_scope.

(* division modulo a prime: the inverse of v is v^(p-2) *)
Definition fdiv (p u v : Z) : Z := (u * v ^ (p - 2)) mod p.

Inductive ecpoint := Infinity | Affine (x y : Z).

Record weierstrass := Weierstrass { wp : Z; wa : Z; wb : Z }.

Definition on_curve (E : weierstrass) (P : ecpoint) : Prop :=
  match P with
  | Infinity => True
  | Affine x y => 0 <= x < wp E /\ 0 <= y < wp E /\ (y ^ 2) mod wp E = (x ^ 3 + wa E * x + wb E) mod wp E
  end.

(* the third point of the line of slope l through (x1,y1) and (x2,y2), mirrored *)
Definition third (p x1 y1 x2 l : Z) : ecpoint :=
  let x3 := (l ^ 2 - x1 - x2) mod p in
  Affine x3 ((l * (x1 - x3) - y1) mod p).

Definition ec_add (E : weierstrass) (P Q : ecpoint) : ecpoint :=
  match P, Q with
  | Infinity, _ => Q
  | _, Infinity => P
  | Affine x1 y1, Affine x2 y2 =>
    if x1 =? x2 then
      if (y1 + y2) mod wp E =? 0 then Infinity
      else third (wp E) x1 y1 x2 (fdiv (wp E) (3 * x1 ^ 2 + wa E) (2 * y1))
    else third (wp E) x1 y1 x2 (fdiv (wp E) (y2 - y1) (x2 - x1))
  end.

Definition ec_opp (E : weierstrass) (P : ecpoint) : ecpoint :=
  match P with
  | Infinity => Infinity
  | Affine x y => Affine x ((- y) mod wp E)
  end.

(* n P = P + ... + P *)
Fixpoint ec_mul (E : weierstrass) (n : nat) (P : ecpoint) : ecpoint :=
  match n with
  | 0%nat => Infinity
  | S k => ec_add E P (ec_mul E k P)
  end.

(* FIPS 186-4 D.1.2.3 *)
Definition P256 : weierstrass := {|
  wp := 2 ^ 256 - 2 ^ 224 + 2 ^ 192 + 2 ^ 96 - 1;
  wa := -3;
  wb := 0x5ac635d8aa3a93e7b3ebbd55769886bc651d06b0cc53b0f63bce3c3e27d2604b |}.

Definition P256_G : ecpoint :=
  Affine 0x6b17d1f2e12c4247f8bce6e563a440f277037d812deb33a0f4a13945d898c296
         0x4fe342e2fe1a7f9b8ee7eb4a7c0f9e162bce33576b315ececbb6406837bf51f5.

Definition P256_n : Z := 115792089210356248762697446949407573529996955224135760342422259061068512044369.
