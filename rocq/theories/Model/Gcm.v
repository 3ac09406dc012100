(* Model of anothertls/src/crypto/aes/gcm.rs *)
From Verif Require Import Model.Base Model.Bytes Model.Aes Model.Alert.

(* u128::reverse_bits *)
Fixpoint rev_bits (n : nat) (x acc : Z) : Z :=
  match n with
  | O => acc
  | S n' => rev_bits n' (Z.shiftr x 1) (Z.lor (Z.shiftl acc 1) (Z.land x 1))
  end.
Definition reverse_bits (x : Z) : Z := rev_bits 128 x 0.

(* crypto/aes/gcm.rs:27-37: one iteration; a <<= 1 drops bit 127 *)
Definition gmult_step (s : Z * Z * Z) : Z * Z * Z :=
  let '(a, b, p) := s in
  let p' := if negb (Z.land b 1 =? 0) then Z.lxor p a else p in
  let hi := negb (Z.land a 0x80000000000000000000000000000000 =? 0) in
  let a1 := u128 (Z.shiftl a 1) in
  let a' := if hi then Z.lxor a1 0x87 else a1 in
  (a', Z.shiftr b 1, p').

(* crypto/aes/gcm.rs:21-40 *)
Definition gmult (a b : Z) : Z :=
  let '(_, _, p) := Nat.iter 128 gmult_step (reverse_bits a, reverse_bits b, 0) in
  reverse_bits p.

(* crypto/aes/gcm.rs:62-70, 79-87: for i in (0..n).step_by(16), slices of at most 16 bytes.
   fuel = length is enough *)
Fixpoint chunks16 (fuel : nat) (l : list Z) : list (list Z) :=
  match fuel, l with
  | _, [] => []
  | O, _ => []
  | S f, _ => firstn 16 l :: chunks16 f (skipn 16 l)
  end.
Definition absorb (H X : Z) (l : list Z) : Z :=
  fold_left (fun x c => gmult (Z.lxor x (to_u128_be c)) H) (chunks16 (length l) l) X.

(* crypto/aes/gcm.rs:90-120: one data block. State: counter, X, output. `Yi + counter` (non-96-bit
   nonces) panics on u128 overflow. *)
Definition gcm_block {E} (ek : list (list Z)) (bs : blocksize) (Y0 H : Z) (iv96 encrypt : bool)
    (s : Z * Z * list Z) (data : list Z) : outcome E (Z * Z * list Z) :=
  let '(counter, X, out) := s in
  let counter := (counter + 1) mod 0x100000000 in
  let! Yi := if iv96 then Ok (Z.lor (Z.land Y0 (2 ^ 128 - 1 - 0xFFFFFFFF)) counter)
             else if Y0 + counter <? 2 ^ 128 then Ok (Y0 + counter) else Panic in
  let Ek := aes_encrypt ek bs (u128_to_bytes_be Yi) in
  let d := to_u128_be data in
  let overflow := (16 - zlen data) * 8 in
  let out_i := Z.shiftr (Z.lxor d (to_u128_be Ek)) overflow in
  let bytes := skipn (16 - length data) (u128_to_bytes_be out_i) in
  let X := if encrypt then gmult (Z.lxor X (u128 (Z.shiftl out_i overflow))) H
           else gmult (Z.lxor X d) H in
  Ok (counter, X, out ++ bytes).

Fixpoint gcm_blocks {E} (ek : list (list Z)) (bs : blocksize) (Y0 H : Z) (iv96 encrypt : bool)
    (s : Z * Z * list Z) (chunks : list (list Z)) : outcome E (Z * Z * list Z) :=
  match chunks with
  | [] => Ok s
  | c :: r => let! s' := gcm_block ek bs Y0 H iv96 encrypt s c in gcm_blocks ek bs Y0 H iv96 encrypt s' r
  end.

(* crypto/aes/gcm.rs:42-128 *)
Definition gcm {E} (key iv data aad : list Z) (encrypt : bool) : outcome E (list Z * list Z) :=
  let! bs := unwrap (blocksize_new (zlen key * 8)) in
  let ek := expanded_key key bs in
  let H := to_u128_be (aes_encrypt ek bs (repeat 0 16)) in
  let iv96 := zlen iv * 8 =? 96 in
  let Yi := if iv96 then Z.lor (to_u128_be iv) 1
            else gmult (Z.lxor (absorb H 0 iv) (zlen iv * 8)) H in
  let auth_tag := to_u128_be (aes_encrypt ek bs (u128_to_bytes_be Yi)) in
  let X := absorb H 0 aad in
  let! (_, X, out) := gcm_blocks ek bs Yi H iv96 encrypt
                        ((if iv96 then 1 else 0), X, []) (chunks16 (length data) data) in
  let len := Z.lor (Z.shiftl (zlen aad * 8) 64) (zlen data * 8) in
  let auth_tag := Z.lxor auth_tag (gmult (Z.lxor X len) H) in
  Ok (out, u128_to_bytes_be auth_tag).

(* crypto/aes/gcm.rs:132-141 *)
Definition gcm_encrypt (key iv plaintext aad : list Z) : outcome tls_error (list Z * list Z) :=
  gcm key iv plaintext aad true.

(* crypto/aes/gcm.rs:142-158 *)
Definition gcm_decrypt (key iv ciphertext aad auth_tag : list Z) : outcome tls_error (list Z) :=
  let! (P, T) := gcm key iv ciphertext aad false in
  if negb (list_eqb T auth_tag) then Err BadRecordMac else Ok P.
