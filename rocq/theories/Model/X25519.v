(* Model of anothertls/src/crypto/ellipticcurve/math/curve25519.rs.  A FieldElem ([i64; 16])
   is a list of 16 Z.  i64 `+`, `-` and `*` panic on overflow (dev profile): `ck`. *)
From Verif Require Import Model.Base.

Definition ck {E} (z : Z) : outcome E Z :=
  if (- 2 ^ 63 <=? z) && (z <? 2 ^ 63) then Ok z else Panic.

(* for i in 0..n { out[i] = f(a[i], b[i]) } *)
Fixpoint zipM {E} (f : Z -> Z -> outcome E Z) (a b : list Z) : outcome E (list Z) :=
  match a, b with
  | x :: a', y :: b' => let! z := f x y in let! r := zipM f a' b' in Ok (z :: r)
  | _, _ => Ok []
  end.

(* curve25519.rs:9-16; the values fit an i64 without question *)
Definition unpack25519 (input : list Z) : list Z :=
  map (fun i => let x := nth (2 * i) input 0 + Z.shiftl (nth (2 * i + 1) input 0) 8 in
                if Nat.eqb i 15 then Z.land x 0x7fff else x) (seq 0 16).

(* curve25519.rs:18-28.  `elem[i + 1] += carry` is done when element i + 1 is reached (c is
   the pending carry); `<<` does not check for overflow, and cannot overflow here because
   carry << 16 only clears the low bits of elem[i]. *)
Fixpoint carry_go {E} (l : list Z) (c : Z) : outcome E (list Z * Z) :=
  match l with
  | [] => Ok ([], c)
  | x :: t =>
      let! x := ck (x + c) in
      let carry := Z.shiftr x 16 in
      let! y := ck (x - Z.shiftl carry 16) in
      let! (r, c) := carry_go t carry in
      Ok (y :: r, c)
  end.
Definition carry25519 {E} (elem : list Z) : outcome E (list Z) :=
  let! (r, carry) := carry_go elem 0 in
  match r with
  | x :: t => let! c38 := ck (38 * carry) in let! x := ck (x + c38) in Ok (x :: t)
  | [] => Ok []
  end.

(* curve25519.rs:30-37 *)
Definition fadd {E} (a b : list Z) : outcome E (list Z) := zipM (fun x y => ck (x + y)) a b.
(* curve25519.rs:39-46 *)
Definition fsub {E} (a b : list Z) : outcome E (list Z) := zipM (fun x y => ck (x - y)) a b.

(* v[i] += d *)
Fixpoint add_at {E} (v : list Z) (i : nat) (d : Z) : outcome E (list Z) :=
  match v, i with
  | [], _ => Panic
  | x :: t, O => let! y := ck (x + d) in Ok (y :: t)
  | x :: t, S k => let! r := add_at t k d in Ok (x :: r)
  end.
(* curve25519.rs:51-55: the pairs (i, j) in the order of the two loops *)
Definition pairs16 : list (nat * nat) := list_prod (seq 0 16) (seq 0 16).
Fixpoint products {E} (a b : list Z) (ps : list (nat * nat)) (product : list Z) : outcome E (list Z) :=
  match ps with
  | [] => Ok product
  | (i, j) :: ps' =>
      let! d := ck (nth i a 0 * nth j b 0) in
      let! product := add_at product (i + j) d in
      products a b ps' product
  end.
(* curve25519.rs:56-58 *)
Fixpoint fold38 {E} (lo hi : list Z) : outcome E (list Z) :=
  match lo, hi with
  | x :: lo', y :: hi' => let! d := ck (38 * y) in let! z := ck (x + d) in let! r := fold38 lo' hi' in Ok (z :: r)
  | _, _ => Ok lo
  end.
(* curve25519.rs:48-63 *)
Definition fmul {E} (a b : list Z) : outcome E (list Z) :=
  let! product := products a b pairs16 (repeat 0 31) in
  let! out := fold38 (firstn 16 product) (skipn 16 product) in
  let! out := carry25519 out in
  carry25519 out.

(* curve25519.rs:65-74; i counts down from 253 to 0 *)
Fixpoint finverse_go {E} (n : nat) (input c : list Z) : outcome E (list Z) :=
  match n with
  | O => Ok c
  | S i =>
      let! c := fmul c c in
      let! c := if Nat.eqb i 2 || Nat.eqb i 4 then Ok c else fmul c input in
      finverse_go i input c
  end.
Definition finverse {E} (input : list Z) : outcome E (list Z) := finverse_go 254 input input.

(* curve25519.rs:76-83; `!x` is -x-1, `bit` is 0 or 1 so `bit - 1` cannot overflow *)
Definition swap25519 (p q : list Z) (bit : Z) : list Z * list Z :=
  let c := Z.lnot (bit - 1) in
  let t := map (fun '(x, y) => Z.land c (Z.lxor x y)) (combine p q) in
  (map (fun '(x, y) => Z.lxor x y) (combine p t), map (fun '(x, y) => Z.lxor x y) (combine q t)).

(* curve25519.rs:92-99, one limb: m[i] = t[i] - modulus[i] - borrow, and afterwards
   m[i] &= 0xffff except for the last limb *)
Fixpoint sub_go {E} (t md : list Z) (borrow : Z) : outcome E (list Z * Z) :=
  match t, md with
  | [x], [y] =>
      let! m := ck (x - y) in let! m := ck (m - borrow) in
      Ok ([m], Z.land (Z.shiftr m 16) 1)
  | x :: t', y :: md' =>
      let! m := ck (x - y) in let! m := ck (m - borrow) in
      let! (r, c) := sub_go t' md' (Z.land (Z.shiftr m 16) 1) in
      Ok (Z.land m 0xffff :: r, c)
  | _, _ => Ok ([], borrow)
  end.
Definition modulus_limbs : list Z := [0xffed] ++ repeat 0xffff 14 ++ [0x7fff].
(* curve25519.rs:91-101, one turn of the loop *)
Definition cond_sub {E} (t : list Z) : outcome E (list Z) :=
  let! (m, carry) := sub_go t modulus_limbs 0 in
  Ok (fst (swap25519 t m (1 - carry))).
(* curve25519.rs:85-108 *)
Definition pack25519 {E} (input : list Z) : outcome E (list Z) :=
  let! t := carry25519 input in
  let! t := carry25519 t in
  let! t := carry25519 t in
  let! t := cond_sub t in
  let! t := cond_sub t in
  Ok (flat_map (fun x => [u8 x; u8 (Z.shiftr x 8)]) t).

(* curve25519.rs:111-113 *)
Definition clamp (scalar : list Z) : list Z :=
  match scalar with
  | b0 :: t => Z.land b0 0xf8 :: removelast t ++ [Z.lor (Z.land (last t 0) 0x7f) 0x40]
  | [] => []
  end.

(* curve25519.rs:134 *)
Definition bit_at (clamped : list Z) (i : nat) : Z :=
  Z.land (Z.shiftr (nth (Nat.div i 8) clamped 0) (Z.of_nat (Nat.modulo i 8))) 1.

Definition one : list Z := 1 :: repeat 0 15.
Definition zero : list Z := repeat 0 16.
Definition constant : list Z := 121665 :: repeat 0 15.

(* curve25519.rs:137-154: between the swaps *)
Definition ladder_step {E} (x a b c d : list Z) : outcome E (list Z * list Z * list Z * list Z) :=
  let! e := fadd a c in
  let! a := fsub a c in
  let! c := fadd b d in
  let! b := fsub b d in
  let! d := fmul e e in
  let! f := fmul a a in
  let! a := fmul c a in
  let! c := fmul b e in
  let! e := fadd a c in
  let! a := fsub a c in
  let! b := fmul a a in
  let! c := fsub d f in
  let! a := fmul c constant in
  let! a := fadd a d in
  let! c := fmul c a in
  let! a := fmul d f in
  let! d := fmul b x in
  let! b := fmul e e in
  Ok (a, b, c, d).

(* curve25519.rs:133-157; i counts down from 254 to 0 *)
Fixpoint ladder {E} (n : nat) (clamped x a b c d : list Z) : outcome E (list Z * list Z) :=
  match n with
  | O => Ok (a, c)
  | S i =>
      let bit := bit_at clamped i in
      let '(a, b) := swap25519 a b bit in
      let '(c, d) := swap25519 c d bit in
      let! (a, b, c, d) := ladder_step x a b c d in
      let '(a, b) := swap25519 a b bit in
      let '(c, d) := swap25519 c d bit in
      ladder i clamped x a b c d
  end.

(* curve25519.rs:110-161, on arrays of 32 bytes *)
Definition scalarmult {E} (point_x scalar : list Z) : outcome E (list Z) :=
  let clamped := clamp scalar in
  let x := unpack25519 point_x in
  let! (a, c) := ladder 255 clamped x one x zero one in
  let! c := finverse c in
  let! a := fmul a c in
  pack25519 a.
