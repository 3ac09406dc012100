(* X25519 of RFC 7748 section 5, written from the RFC's pseudo-code. *)
From Coq Require Import ZArith List Bool.
From Verif.Spec Require Import Enc.
Import ListNotations.
Open Scope Z_scope.

Definition p25519 : Z := 2 ^ 255 - 19.

Definition decodeUCoordinate (u : list Z) : Z := le_val u mod 2 ^ 255.

(* decodeScalar25519: clear bits 0, 1, 2 and 255 of the little-endian number, set bit 254 *)
Definition decodeScalar (k : list Z) : Z :=
  let n := le_val k in 2 ^ 254 + 8 * ((n / 8) mod 2 ^ 251).

Definition encodeUCoordinate (u : Z) : list Z := le_enc 32 (u mod p25519).

Definition a24 : Z := 121665.

(* b^e mod p *)
Fixpoint powm (b : Z) (e : positive) : Z :=
  match e with
  | xH => b mod p25519
  | xO e' => let h := powm b e' in (h * h) mod p25519
  | xI e' => let h := powm b e' in (b * (h * h mod p25519)) mod p25519
  end.

Definition cswap (swap : bool) (x y : Z) : Z * Z := if swap then (y, x) else (x, y).

(* the body of the loop after the conditional swaps *)
Definition montgomery_step (x1 x2 z2 x3 z3 : Z) : Z * Z * Z * Z :=
  let A := x2 + z2 in
  let AA := A ^ 2 in
  let B := x2 - z2 in
  let BB := B ^ 2 in
  let E := AA - BB in
  let C := x3 + z3 in
  let D := x3 - z3 in
  let DA := D * A in
  let CB := C * B in
  let x3 := ((DA + CB) ^ 2) mod p25519 in
  let z3 := (x1 * (DA - CB) ^ 2) mod p25519 in
  let x2 := (AA * BB) mod p25519 in
  let z2 := (E * (AA + a24 * E)) mod p25519 in
  (x2, z2, x3, z3).

(* for t = n-1 down to 0 *)
Fixpoint x25519_loop (n : nat) (k x1 x2 z2 x3 z3 : Z) (swap : bool) : Z * Z :=
  match n with
  | O =>
      let '(x2, x3) := cswap swap x2 x3 in
      let '(z2, z3) := cswap swap z2 z3 in
      (x2, z2)
  | S t =>
      let k_t := Z.testbit k (Z.of_nat t) in
      let swap := xorb swap k_t in
      let '(x2, x3) := cswap swap x2 x3 in
      let '(z2, z3) := cswap swap z2 z3 in
      let '(x2, z2, x3, z3) := montgomery_step x1 x2 z2 x3 z3 in
      x25519_loop t k x1 x2 z2 x3 z3 k_t
  end.

Definition x25519_num (k u : Z) : Z :=
  let '(x2, z2) := x25519_loop 255 k u 1 0 u 1 false in
  (x2 * powm z2 (Z.to_pos (p25519 - 2))) mod p25519.

Definition X25519 (k u : list Z) : list Z :=
  encodeUCoordinate (x25519_num (decodeScalar k) (decodeUCoordinate u)).
