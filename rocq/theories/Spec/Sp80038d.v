(* NIST SP 800-38D, Galois/Counter Mode. Blocks are 128-bit integers, most significant bit first;
   strings are byte lists. *)
From Coq Require Import List ZArith.
From Verif Require Import Spec.Enc Spec.Fips197.
Import ListNotations.
Open Scope Z_scope.

(* 6.3, Algorithm 1: X . Y. x_i is the i-th bit of X counted from the left. *)
Definition R : Z := 0xE1 * 2 ^ 120.
Definition bit (X : Z) (i : nat) : bool := Z.testbit X (127 - Z.of_nat i).
Definition mul_step (X : Z) (s : Z * Z) (i : nat) : Z * Z :=
  let '(Zi, Vi) := s in
  (if bit X i then Z.lxor Zi Vi else Zi,
   if Z.odd Vi then Z.lxor (Vi / 2) R else Vi / 2).
Definition block_mul (X Y : Z) : Z := fst (fold_left (mul_step X) (seq 0 128) (0, Y)).

(* 6.4: GHASH over a string of whole blocks *)
Definition blocks (l : list Z) : list Z := map be_val (pieces (length l) 16 l).
Definition GHASH (H : Z) (X : list Z) : Z :=
  fold_left (fun Y Xi => block_mul (Z.lxor Y Xi) H) (blocks X) 0.

(* 6.2: inc_32 *)
Definition inc32 (X : Z) : Z := X / 2 ^ 32 * 2 ^ 32 + (X + 1) mod 2 ^ 32.

(* 6.5: GCTR_K(ICB, X); Nk is the number of 32-bit words of the key *)
Definition CIPH (Nk : nat) (key : list Z) (X : Z) : list Z := Cipher Nk key (be_enc 16 X).
Definition xor_bytes (a b : list Z) : list Z := map (fun p => Z.lxor (fst p) (snd p)) (combine a b).
Fixpoint gctr (Nk : nat) (key : list Z) (CB : Z) (ps : list (list Z)) : list Z :=
  match ps with
  | [] => []
  | p :: r => xor_bytes p (CIPH Nk key CB) ++ gctr Nk key (inc32 CB) r
  end.
Definition GCTR (Nk : nat) (key : list Z) (ICB : Z) (X : list Z) : list Z :=
  gctr Nk key ICB (pieces (length X) 16 X).

(* zero padding to whole blocks *)
Definition pad16 (l : list Z) : list Z :=
  l ++ repeat 0 (Nat.modulo (16 - Nat.modulo (length l) 16) 16).

(* 7.1: steps 1-7 *)
Definition hash_subkey (Nk : nat) (key : list Z) : Z := be_val (CIPH Nk key 0).
Definition J0 (Nk : nat) (key iv : list Z) : Z :=
  if Nat.eqb (length iv) 12 then be_val (iv ++ [0; 0; 0; 1])
  else GHASH (hash_subkey Nk key) (pad16 iv ++ repeat 0 8 ++ be_enc 8 (8 * Z.of_nat (length iv))).
Definition tag (Nk : nat) (key iv C A : list Z) : list Z :=
  let S := GHASH (hash_subkey Nk key)
             (pad16 A ++ pad16 C ++ be_enc 8 (8 * Z.of_nat (length A)) ++ be_enc 8 (8 * Z.of_nat (length C))) in
  GCTR Nk key (J0 Nk key iv) (be_enc 16 S).
Definition GCM_AE (Nk : nat) (key iv P A : list Z) : list Z * list Z :=
  let C := GCTR Nk key (inc32 (J0 Nk key iv)) P in
  (C, tag Nk key iv C A).
(* 7.2 *)
Definition GCM_AD (Nk : nat) (key iv C A T : list Z) : option (list Z) :=
  if list_eq_dec Z.eq_dec T (tag Nk key iv C A)
  then Some (GCTR Nk key (inc32 (J0 Nk key iv)) C)
  else None.
