(* anothertls/src/crypto/ellipticcurve: curve.rs, point.rs, math.rs (inv, rem_euclid) and
   math/jacobian.rs.  An `IBig` is a Z.  A modulus of 0 would make `%` panic; every modulus
   used by the library is one of the constants below, so that case is not represented. *)
From Verif.Model Require Import Base.

(* math.rs:62-73; `%` on IBig truncates towards zero *)
Definition rem_euclid (x v : Z) : Z :=
  let r := Z.rem x v in
  if r <? 0 then (if v <? 0 then r - v else r + v) else r.

(* math.rs:39-47, the loop of `inv` on (lm, hm, low, high).  `fuel` bounds the number of
   turns; None is "not finished".  Proofs/Curve.v shows that `inv_fuel` turns suffice. *)
Fixpoint inv_loop (fuel : nat) (lm hm low high : Z) : option Z :=
  if low >? 1 then
    match fuel with
    | 0%nat => None
    | S fuel' =>
      let r := Z.quot high low in
      inv_loop fuel' (hm - lm * r) lm (high - low * r) low
    end
  else Some lm.

Definition inv_fuel (n : Z) : nat := Z.to_nat (2 * Z.log2 n + 3).

(* math.rs:29-50 *)
Definition inv (x n : Z) : Z :=
  if x =? 0 then 0
  else match inv_loop (inv_fuel n) 1 0 (Z.rem x n) n with
       | Some lm => rem_euclid lm n
       | None => 0
       end.

(* point.rs:11-14 *)
Record point := Point { px : Z; py : Z }.

(* curve.rs:10-14 *)
Inductive equation := ShortWeierstrass | Montgomery.

(* curve.rs:17-25; `name` is only printed and is left out *)
Record curve := Curve { equ : equation; cp : Z; ca : Z; cb : Z; cn : Z; cg : point }.

(* curve.rs:28-42 *)
Definition secp256r1 : curve := {|
  equ := ShortWeierstrass;
  cp := 0xffffffff00000001000000000000000000000000ffffffffffffffffffffffff;
  ca := 0xffffffff00000001000000000000000000000000fffffffffffffffffffffffc;
  cb := 0x5ac635d8aa3a93e7b3ebbd55769886bc651d06b0cc53b0f63bce3c3e27d2604b;
  cn := 0xffffffff00000000ffffffffffffffffbce6faada7179e84f3b9cac2fc632551;
  cg := {| px := 0x6b17d1f2e12c4247f8bce6e563a440f277037d812deb33a0f4a13945d898c296;
           py := 0x4fe342e2fe1a7f9b8ee7eb4a7c0f9e162bce33576b315ececbb6406837bf51f5 |} |}.

(* curve.rs:44-57 *)
Definition curve25519 : curve := {|
  equ := Montgomery;
  cp := 0x7fffffffffffffffffffffffffffffffffffffffffffffffffffffffffffffed;
  ca := 486662;
  cb := 1;
  cn := 0x1000000000000000000000000000000014def9dea2f79cd65812631a5cf5d3ed;
  cg := {| px := 9;
           py := 0x20ae19a1b8a086b4e01edd2c7748d14c923d4d7e6d7c61b229e9c5a27eced3d9 |} |}.

(* curve.rs:74-92 *)
Definition contains (c : curve) (p : point) : bool :=
  if (px p >=? cp c) || (py p >=? cp c) then false
  else
    let left := match equ c with
                | ShortWeierstrass => py p ^ 2
                | Montgomery => py p ^ 2 * cb c
                end in
    let right := match equ c with
                 | ShortWeierstrass => px p ^ 3 + ca c * px p + cb c
                 | Montgomery => px p ^ 3 + ca c * px p ^ 2 + px p
                 end in
    Z.rem left (cp c) =? Z.rem right (cp c).

(* point.rs:29-33 *)
Record jac := Jac { jx : Z; jy : Z; jz : Z }.

(* point.rs:43-49 *)
Definition from_point (p : point) : jac := Jac (px p) (py p) 1.

(* point.rs:51-57 *)
Definition to_point (j : jac) (p : Z) : point :=
  let z := inv (jz j) p in
  Point (Z.rem (jx j * z ^ 2) p) (Z.rem (jy j * z ^ 3) p).

(* jacobian.rs:12-39 *)
Definition jacobian_double (p : jac) (c : curve) : jac :=
  if jy p =? 0 then Jac 0 0 0
  else
    let ysq := jy p ^ 2 in
    let s := rem_euclid (jx p * 4 * ysq) (cp c) in
    let m := rem_euclid (jx p ^ 2 * 3 + ca c * jz p ^ 4) (cp c) in
    let nx := rem_euclid (m ^ 2 - 2 * s) (cp c) in
    let ny := rem_euclid (m * (s - nx) - 8 * ysq ^ 2) (cp c) in
    let nz := rem_euclid (jy p * jz p * 2) (cp c) in
    Jac nx ny nz.

(* jacobian.rs:41-74 *)
Definition jacobian_add (p q : jac) (c : curve) : jac :=
  if jy p =? 0 then q
  else if jy q =? 0 then p
  else
    let u1 := rem_euclid (jx p * jz q ^ 2) (cp c) in
    let u2 := rem_euclid (jx q * jz p ^ 2) (cp c) in
    let s1 := rem_euclid (jy p * jz q ^ 3) (cp c) in
    let s2 := rem_euclid (jy q * jz p ^ 3) (cp c) in
    if u1 =? u2 then
      if negb (s1 =? s2) then Jac 0 0 1 else jacobian_double p c
    else
      let h := rem_euclid (u2 - u1) (cp c) in
      let r := rem_euclid (s2 - s1) (cp c) in
      let h2 := rem_euclid (h * h) (cp c) in
      let h3 := rem_euclid (h * h2) (cp c) in
      let u1_h2 := rem_euclid (u1 * h2) (cp c) in
      let x := rem_euclid (r ^ 2 - h3 - 2 * u1_h2) (cp c) in
      let y := rem_euclid (r * (u1_h2 - x) - s1 * h3) (cp c) in
      let z := rem_euclid (h * jz p * jz q) (cp c) in
      Jac x y z.

(* jacobian.rs:89-97 for 1 <= n < curve.n: `n / 2` and `n mod 2` are the tail and the last
   bit of the binary number, so the recursion follows the bits.  The tests of lines 77-87
   come out the same way in every recursive call: p is unchanged, and n / 2 stays in
   [1, curve.n). *)
Fixpoint jacobian_multiply_pos (p : jac) (n : positive) (c : curve) : jac :=
  match n with
  | xH => p
  | xO m => jacobian_double (jacobian_multiply_pos p m c) c
  | xI m => jacobian_add (jacobian_double (jacobian_multiply_pos p m c) c) p c
  end.

(* jacobian.rs:76-98.  The call on line 86 with the reduced scalar does not recurse into
   line 85 again, because the reduced scalar is in [0, curve.n). *)
Definition jacobian_multiply (p : jac) (n : Z) (c : curve) : jac :=
  if (jy p =? 0) || (n =? 0) then Jac 0 0 1
  else if n =? 1 then p
  else
    let n' := if (n <? 0) || (n >=? cn c) then rem_euclid n (cn c) else n in
    match n' with
    | Zpos m => jacobian_multiply_pos p m c
    | _ => Jac 0 0 1
    end.
