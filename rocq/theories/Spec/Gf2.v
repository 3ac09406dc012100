(* Polynomials over GF(2), written as non-negative integers: bit i is the coefficient of x^i.
   Addition is XOR. *)
From Coq Require Import List ZArith.
Import ListNotations.
Open Scope Z_scope.

(* schoolbook product: b = b0 + x*b' gives a*b = b0*a + x*(a*b'); n bounds the number of bits of b *)
Fixpoint pmul_bits (n : nat) (a b : Z) : Z :=
  match n with
  | O => 0
  | S n' => Z.lxor (if Z.odd b then a else 0) (2 * pmul_bits n' a (b / 2))
  end.
Definition pmul (a b : Z) : Z := pmul_bits (Z.to_nat (Z.log2 b + 1)) a b.

(* remainder of long division by m: cancel the leading term as long as the degree is too large *)
Fixpoint pmod_steps (n : nat) (p m : Z) : Z :=
  match n with
  | O => p
  | S n' => if p <? 2 ^ Z.log2 m then p
            else pmod_steps n' (Z.lxor p (m * 2 ^ (Z.log2 p - Z.log2 m))) m
  end.
Definition pmod (p m : Z) : Z := pmod_steps (Z.to_nat (Z.log2 p + 1)) p m.

(* product in GF(2)[x] / m *)
Definition gf_mul (m a b : Z) : Z := pmod (pmul a b) m.
