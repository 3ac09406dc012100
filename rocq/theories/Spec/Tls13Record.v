(* RFC 8446 5.1 and 5.2 *)
From Coq Require Import List ZArith.
From Verif Require Import Spec.Enc Spec.Rfc8439 Spec.Sp80038d Spec.Rfc8446Keys Spec.Rfc2104.
Import ListNotations.
Open Scope Z_scope.

(* TLSPlaintext / TLSCiphertext header and body *)
Definition encode_record (type : Z) (fragment : list Z) : list Z :=
  [type; 3; 3] ++ be_enc 2 (Z.of_nat (length fragment)) ++ fragment.

(* the AEADs of the three cipher suites *)
Inductive aead := AES_GCM | CHACHA20_POLY1305.
(* the authentication tag for a ciphertext *)
Definition aead_tag_of (a : aead) (key nonce aad ciphertext : list Z) : list Z :=
  match a with
  | AES_GCM => Sp80038d.tag (Nat.div (length key) 4) key nonce ciphertext aad
  | CHACHA20_POLY1305 => Rfc8439.aead_tag key nonce aad ciphertext
  end.

(* ciphertext followed by tag *)
Definition aead_seal (a : aead) (key nonce aad plaintext : list Z) : list Z :=
  let c := match a with
           | AES_GCM => fst (Sp80038d.GCM_AE (Nat.div (length key) 4) key nonce plaintext aad)
           | CHACHA20_POLY1305 => Rfc8439.chacha20_encrypt key nonce 1 plaintext
           end in
  c ++ aead_tag_of a key nonce aad c.

(* 5.2: TLSInnerPlaintext is the content, its type and any number of zero bytes; the additional data is the
   record header; 5.3: the nonce. *)
Definition TLSCiphertext (a : aead) (key iv : list Z) (seq type : Z) (content : list Z) (padding : nat) : list Z :=
  let inner := content ++ [type] ++ repeat 0 padding in
  let header := [23; 3; 3] ++ be_enc 2 (Z.of_nat (length inner) + 16) in
  header ++ aead_seal a key (record_nonce iv seq) header inner.

(* B.4: AEAD, hash and key length of the three suites of this library *)
Definition suite_parameters (code : Z) : option (aead * alg * nat) :=
  if Z.eqb code 0x1301 then Some (AES_GCM, alg_sha256, 16%nat)
  else if Z.eqb code 0x1302 then Some (AES_GCM, alg_sha384, 32%nat)
  else if Z.eqb code 0x1303 then Some (CHACHA20_POLY1305, alg_sha256, 32%nat)
  else None.
