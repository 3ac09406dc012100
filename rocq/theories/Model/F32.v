(* (len as f32 / 64.0).ceil() as usize, as used in crypto/chacha20/cipher.rs:94 and poly1305.rs:32.
   `as f32` rounds an integer to 24 significant bits, nearest, ties to even; dividing by a power of
   two is exact in the range of usize; ceil and the cast back are exact. IEEE 754 semantics of Rust's
   f32 are trusted here. *)
From Verif Require Import Model.Base.

Definition f32_of (n : Z) : Z :=
  if n <? 2 ^ 24 then n
  else
    let k := Z.log2 n - 23 in
    let q := n / 2 ^ k in
    let r := n mod 2 ^ k in
    let half := 2 ^ (k - 1) in
    if r <? half then q * 2 ^ k
    else if half <? r then (q + 1) * 2 ^ k
    else if Z.even q then q * 2 ^ k else (q + 1) * 2 ^ k.
(* ceil(f32(n) / d) *)
Definition f32_ceil_div (n d : Z) : Z := (f32_of n + d - 1) / d.
