(* FIPS 197, the AES cipher, from the field definition. *)
From Coq Require Import List ZArith.
From Verif Require Import Spec.Gf2.
Import ListNotations.
Open Scope Z_scope.

(* 4.2: GF(2^8) = GF(2)[x] / (x^8 + x^4 + x^3 + x + 1) *)
Definition m8 : Z := 2 ^ 8 + 2 ^ 4 + 2 ^ 3 + 2 + 1.
Definition mul8 (a b : Z) : Z := gf_mul m8 a b.
Fixpoint pow8 (a : Z) (n : positive) : Z :=
  match n with
  | xH => a
  | xO p => let y := pow8 a p in mul8 y y
  | xI p => let y := pow8 a p in mul8 a (mul8 y y)
  end.
(* 5.1.1: the multiplicative inverse (b^254; 0 for 0), then the affine map *)
Definition inverse8 (b : Z) : Z := pow8 b 254.
Definition of_bits (l : list bool) : Z := fold_right (fun (b : bool) acc => (if b then 1 else 0) + 2 * acc) 0 l.
Definition affine (b : Z) : Z :=
  let bit := fun i => Z.testbit b (Z.of_nat (Nat.modulo i 8)) in
  of_bits (map (fun i => xorb (bit i) (xorb (bit (i + 4)%nat) (xorb (bit (i + 5)%nat)
                        (xorb (bit (i + 6)%nat) (xorb (bit (i + 7)%nat) (Z.testbit 0x63 (Z.of_nat i)))))))
               (seq 0 8)).
Definition Sbox (b : Z) : Z := affine (inverse8 b).

(* 3.4: byte s[r,c] of the state is byte r + 4c of the block *)
Definition at_rc (s : list Z) (r c : nat) : Z := nth (r + 4 * c) s 0.
Definition from_rc (f : nat -> nat -> Z) : list Z :=
  flat_map (fun c => map (fun r => f r c) (seq 0 4)) (seq 0 4).

Definition SubBytes (s : list Z) : list Z := map Sbox s.
(* 5.1.2: row r moves left by r *)
Definition ShiftRows (s : list Z) : list Z := from_rc (fun r c => at_rc s r (Nat.modulo (c + r) 4)).
(* 5.1.3: each column, as a polynomial over GF(2^8), times 3x^3 + x^2 + x + 2 modulo x^4 + 1 *)
Definition coeff (i : nat) : Z := nth i [2; 1; 1; 3] 0.
Definition MixColumns (s : list Z) : list Z :=
  from_rc (fun r c => fold_right Z.lxor 0
    (map (fun j => mul8 (coeff (Nat.modulo (r + (4 - j)) 4)) (at_rc s j c)) (seq 0 4))).
Definition AddRoundKey (w : list (list Z)) (round : nat) (s : list Z) : list Z :=
  from_rc (fun r c => Z.lxor (at_rc s r c) (nth r (nth (4 * round + c) w []) 0)).

(* 5.2: key expansion *)
Definition SubWord (w : list Z) : list Z := map Sbox w.
Definition RotWord (w : list Z) : list Z := match w with a :: r => r ++ [a] | [] => [] end.
(* Rcon[j] = (x^(j-1), 0, 0, 0) *)
Definition Rcon (j : nat) : list Z := [Nat.iter (j - 1) (mul8 2) 1; 0; 0; 0].
Definition xor_words (a b : list Z) : list Z := map (fun p => Z.lxor (fst p) (snd p)) (combine a b).
Definition expand_word (Nk : nat) (w : list (list Z)) : list Z :=
  let i := length w in
  let temp := nth (i - 1) w [] in
  let temp' :=
    if Nat.eqb (Nat.modulo i Nk) 0 then xor_words (SubWord (RotWord temp)) (Rcon (Nat.div i Nk))
    else if (Nat.ltb 6 Nk && Nat.eqb (Nat.modulo i Nk) 4)%bool then SubWord temp
    else temp in
  xor_words (nth (i - Nk) w []) temp'.
Definition KeyExpansion (Nk Nr : nat) (key : list Z) : list (list Z) :=
  Nat.iter (4 * (Nr + 1) - Nk) (fun w => w ++ [expand_word Nk w])
    (map (fun i => firstn 4 (skipn (4 * i) key)) (seq 0 Nk)).

(* 5.1 *)
Definition Cipher (Nk : nat) (key block : list Z) : list Z :=
  let Nr := (Nk + 6)%nat in
  let w := KeyExpansion Nk Nr key in
  let s := AddRoundKey w 0 block in
  let s := fold_left (fun s round => AddRoundKey w round (MixColumns (ShiftRows (SubBytes s)))) (seq 1 (Nr - 1)) s in
  AddRoundKey w Nr (ShiftRows (SubBytes s)).
