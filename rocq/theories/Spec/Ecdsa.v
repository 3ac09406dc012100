(* ECDSA over P-256 (FIPS 186-4 section 6, SEC 1 section 4.1), written from the standard. *)
From Coq Require Import ZArith List.
From Verif.Spec Require Import Enc Ec.
Open Scope Z_scope.

(* the integer of a hash: its leftmost 256 bits, big-endian *)
Definition hash_int (h : list Z) : Z := be_val (firstn 32 h).

(* Q is a public key *)
Definition valid_public_key (Q : ecpoint) : Prop := on_curve P256 Q /\ Q <> Infinity.

(* (r, s) is a signature of the integer e under Q *)
Definition valid_signature (Q : ecpoint) (e r s : Z) : Prop :=
  0 < r < P256_n /\ 0 < s < P256_n /\
  exists x y,
    ec_add P256 (ec_mul P256 (Z.to_nat (fdiv P256_n e s)) P256_G)
                (ec_mul P256 (Z.to_nat (fdiv P256_n r s)) Q) = Affine x y /\
    x mod P256_n = r.

(* the signature of e under the private key d with the nonce k; None: choose another k *)
Definition sign_with (d e k : Z) : option (Z * Z) :=
  match ec_mul P256 (Z.to_nat (k mod P256_n)) P256_G with
  | Infinity => None
  | Affine x _ =>
    let r := x mod P256_n in
    let s := fdiv P256_n (e + r * d) k in
    if r =? 0 then None else if s =? 0 then None else Some (r, s)
  end.

Definition public_of (d : Z) : ecpoint := ec_mul P256 (Z.to_nat (d mod P256_n)) P256_G.
