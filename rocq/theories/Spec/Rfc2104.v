(* RFC 2104 HMAC and RFC 5869 HKDF over an arbitrary hash function. *)
From Coq Require Import List ZArith.
From Verif Require Import Spec.Fips180.
Import ListNotations.
Open Scope Z_scope.

(* a hash function with its block size and digest size in bytes *)
Record alg := { alg_hash : list Z -> list Z; alg_block : nat; alg_len : nat }.
Definition alg_sha256 : alg := {| alg_hash := sha256_spec; alg_block := 64; alg_len := 32 |}.
Definition alg_sha384 : alg := {| alg_hash := sha384_spec; alg_block := 128; alg_len := 48 |}.

Section Hmac.
  Context (A : alg).
  Notation H := (alg_hash A).
  Notation B := (alg_block A).

  (* "keys longer than B bytes are first hashed", then zero-padded to B bytes *)
  Definition key_block (key : list Z) : list Z :=
    let k := if Nat.ltb B (length key) then H key else key in
    k ++ repeat 0 (B - length k).
  Definition xor_all (c : Z) (l : list Z) : list Z := map (fun b => Z.lxor b c) l.

  (* H(K XOR opad, H(K XOR ipad, text)) *)
  Definition HMAC (key text : list Z) : list Z :=
    H (xor_all 0x5C (key_block key) ++ H (xor_all 0x36 (key_block key) ++ text)).

  (* RFC 5869 2.2 *)
  Definition HKDF_Extract (salt ikm : list Z) : list Z := HMAC salt ikm.

  (* RFC 5869 2.3: T(0) = "", T(i) = HMAC(PRK, T(i-1) | info | i), OKM = first L bytes of T(1)|T(2)|... *)
  Fixpoint T (prk info : list Z) (i : nat) : list Z :=
    match i with
    | O => []
    | S j => HMAC prk (T prk info j ++ info ++ [Z.of_nat i])
    end.
  Definition HKDF_Expand (prk info : list Z) (L : nat) : option (list Z) :=
    if Nat.leb L (255 * alg_len A)
    then Some (firstn L (concat (map (T prk info) (seq 1 255))))
    else None.
End Hmac.
