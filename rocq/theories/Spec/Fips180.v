(* FIPS 180-4: SHA-256 and SHA-384, written from the standard.
   Words are numbers below 2^w, all additions are modulo 2^w, rotations are written arithmetically,
   the round constants are computed from their definition (fractional parts of cube roots of the
   first primes), and so are the initial values (square roots). *)
From Coq Require Import List ZArith.
From Verif Require Import Spec.Enc.
Import ListNotations.
Open Scope Z_scope.

(* floor of the cube root, by bisection on bits *)
Fixpoint icbrt_bits (k : nat) (n acc : Z) : Z :=
  match k with
  | O => acc
  | S k' => let t := acc + 2 ^ Z.of_nat k' in
            icbrt_bits k' n (if t * t * t <=? n then t else acc)
  end.
Definition icbrt (n : Z) : Z := icbrt_bits (Z.to_nat (Z.log2 n / 3 + 1)) n 0.

Fixpoint primes_from (fuel : nat) (c : Z) (acc : list Z) (k : nat) : list Z :=
  match fuel with
  | O => acc
  | S f => if Nat.leb k (length acc) then acc
           else if forallb (fun p => negb (c mod p =? 0)) acc
                then primes_from f (c + 1) (acc ++ [c]) k
                else primes_from f (c + 1) acc k
  end.
(* the first k primes *)
Definition first_primes (k : nat) : list Z := primes_from 500 2 [] k.

(* first w bits of the fractional part of the cube root / square root of p *)
Definition cbrt_frac (w p : Z) : Z := icbrt (p * 2 ^ (3 * w)) mod 2 ^ w.
Definition sqrt_frac (w p : Z) : Z := Z.sqrt (p * 2 ^ (2 * w)) mod 2 ^ w.

Record variant := {
  v_w : Z;                      (* word size in bits *)
  v_rounds : nat;
  v_S0 : Z * Z * Z; v_S1 : Z * Z * Z;      (* capital sigma rotations *)
  v_s0 : Z * Z * Z; v_s1 : Z * Z * Z;      (* small sigma: two rotations, one shift *)
  v_H0 : list Z;
  v_out : nat                   (* digest bytes kept *)
}.

Definition SHA_256 : variant := {|
  v_w := 32; v_rounds := 64;
  v_S0 := (2, 13, 22); v_S1 := (6, 11, 25); v_s0 := (7, 18, 3); v_s1 := (17, 19, 10);
  v_H0 := map (sqrt_frac 32) (first_primes 8); v_out := 32 |}.
(* SHA-384: SHA-512 with initial values from the 9th..16th primes, cut to 48 bytes *)
Definition SHA_384 : variant := {|
  v_w := 64; v_rounds := 80;
  v_S0 := (28, 34, 39); v_S1 := (14, 18, 41); v_s0 := (1, 8, 7); v_s1 := (19, 61, 6);
  v_H0 := map (sqrt_frac 64) (skipn 8 (first_primes 16)); v_out := 48 |}.

Section Spec.
  Context (V : variant).
  Notation w := (v_w V).

  Definition K : list Z := map (cbrt_frac w) (first_primes (v_rounds V)).

  Definition plus (x y : Z) : Z := (x + y) mod 2 ^ w.
  Definition ROTR (n x : Z) : Z := x / 2 ^ n + (x mod 2 ^ n) * 2 ^ (w - n).
  Definition SHR (n x : Z) : Z := x / 2 ^ n.
  Definition NOT (x : Z) : Z := 2 ^ w - 1 - x.
  Definition Ch (x y z : Z) : Z := Z.lxor (Z.land x y) (Z.land (NOT x) z).
  Definition Maj (x y z : Z) : Z := Z.lxor (Z.lxor (Z.land x y) (Z.land x z)) (Z.land y z).
  Definition Sigma (r : Z * Z * Z) (x : Z) : Z :=
    let '(a, b, c) := r in Z.lxor (Z.lxor (ROTR a x) (ROTR b x)) (ROTR c x).
  Definition sigma (r : Z * Z * Z) (x : Z) : Z :=
    let '(a, b, c) := r in Z.lxor (Z.lxor (ROTR a x) (ROTR b x)) (SHR c x).

  Definition wbytes : nat := Z.to_nat (w / 8).
  Definition block_bytes : nat := (16 * wbytes)%nat.

  (* 5.1: message ++ 0x80 ++ zeros ++ bit length in two words, to a multiple of the block size *)
  Definition pad_zeros (n : nat) : nat :=
    (block_bytes - (n + 1 + 2 * wbytes) mod block_bytes) mod block_bytes.
  Definition pad (m : list Z) : list Z :=
    m ++ [128] ++ repeat 0 (pad_zeros (length m))
      ++ be_enc (2 * wbytes) (8 * Z.of_nat (length m)).

  Definition blocks (l : list Z) : list (list Z) := pieces (length l) block_bytes l.
  Definition words (block : list Z) : list Z := map be_val (pieces (length block) wbytes block).

  (* 6.x.2 step 1: message schedule: extend the 16 words of the block *)
  Fixpoint extend (k : nat) (ws : list Z) : list Z :=
    match k with
    | O => ws
    | S k' =>
        let W i := nth (length ws - i) ws 0 in
        extend k' (ws ++ [plus (plus (plus (sigma (v_s1 V) (W 2%nat)) (W 7%nat))
                                     (sigma (v_s0 V) (W 15%nat))) (W 16%nat)])
    end.
  Definition schedule (block : list Z) : list Z := extend (v_rounds V - 16) (words block).

  Record regs := { ra : Z; rb : Z; rc : Z; rd : Z; re : Z; rf : Z; rg : Z; rh : Z }.

  (* step 3 *)
  Definition round (s : regs) (kw : Z * Z) : regs :=
    let (k, x) := kw in
    let T1 := plus (plus (plus (plus (rh s) (Sigma (v_S1 V) (re s))) (Ch (re s) (rf s) (rg s))) k) x in
    let T2 := plus (Sigma (v_S0 V) (ra s)) (Maj (ra s) (rb s) (rc s)) in
    {| ra := plus T1 T2; rb := ra s; rc := rb s; rd := rc s;
       re := plus (rd s) T1; rf := re s; rg := rf s; rh := rg s |}.

  Definition compress (H block : list Z) : list Z :=
    let h i := nth i H 0 in
    let s := fold_left round (combine K (schedule block))
      {| ra := h 0%nat; rb := h 1%nat; rc := h 2%nat; rd := h 3%nat;
         re := h 4%nat; rf := h 5%nat; rg := h 6%nat; rh := h 7%nat |} in
    [plus (h 0%nat) (ra s); plus (h 1%nat) (rb s); plus (h 2%nat) (rc s); plus (h 3%nat) (rd s);
     plus (h 4%nat) (re s); plus (h 5%nat) (rf s); plus (h 6%nat) (rg s); plus (h 7%nat) (rh s)].

  Definition hash (m : list Z) : list Z :=
    let H := fold_left compress (blocks (pad m)) (v_H0 V) in
    firstn (v_out V) (flat_map (be_enc wbytes) H).
End Spec.

Definition sha256_spec (m : list Z) : list Z := hash SHA_256 m.
Definition sha384_spec (m : list Z) : list Z := hash SHA_384 m.
