(* Model of anothertls/src/crypto/ciphersuite.rs *)
From Verif Require Import Model.Base Model.Alert Model.Sha2 Model.Gcm Model.Chacha.

(* crypto/ciphersuite.rs:33-40 *)
Inductive cipher_suite := AES_256_GCM_SHA384 | CHACHA20_POLY1305_SHA256 | AES_128_GCM_SHA256 | SCSV.

(* crypto/ciphersuite.rs:43-51 *)
Definition suite_new (x : Z) : outcome tls_error cipher_suite :=
  if x =? 0x1302 then Ok AES_256_GCM_SHA384
  else if x =? 0x1303 then Ok CHACHA20_POLY1305_SHA256
  else if x =? 0x1301 then Ok AES_128_GCM_SHA256
  else if x =? 0x00ff then Ok SCSV
  else Err InsufficientSecurity.
(* crypto/ciphersuite.rs:52-59, and the discriminants :36-39 (`as u16`) *)
Definition suite_u16 (s : cipher_suite) : Z :=
  match s with
  | AES_256_GCM_SHA384 => 0x1302 | CHACHA20_POLY1305_SHA256 => 0x1303
  | AES_128_GCM_SHA256 => 0x1301 | SCSV => 0x00ff
  end.
(* crypto/ciphersuite.rs:60-68 *)
Definition suite_tshash (s : cipher_suite) : outcome tls_error transcript :=
  match s with
  | AES_256_GCM_SHA384 => Ok (th_new SHA384)
  | AES_128_GCM_SHA256 | CHACHA20_POLY1305_SHA256 => Ok (th_new SHA256)
  | SCSV => Err InsufficientSecurity
  end.
(* crypto/ciphersuite.rs:69-77 *)
Definition key_iv_len (s : cipher_suite) : nat * nat :=
  match s with
  | AES_256_GCM_SHA384 | CHACHA20_POLY1305_SHA256 | SCSV => (32, 12)%nat
  | AES_128_GCM_SHA256 => (16, 12)%nat
  end.

(* crypto/ciphersuite.rs:12-31, 78-87: Arc<dyn Cipher> *)
Inductive cipher := CGcm (s : cipher_suite) | CPoly.
Definition suite_cipher (s : cipher_suite) : outcome tls_error cipher :=
  match s with
  | AES_256_GCM_SHA384 | AES_128_GCM_SHA256 => Ok (CGcm s)
  | CHACHA20_POLY1305_SHA256 => Ok CPoly
  | SCSV => Err InsufficientSecurity
  end.
Definition cipher_encrypt (c : cipher) (key iv plaintext aad : list Z) : outcome tls_error (list Z * list Z) :=
  match c with CGcm _ => gcm_encrypt key iv plaintext aad | CPoly => poly_encrypt key iv plaintext aad end.
Definition cipher_decrypt (c : cipher) (key iv ciphertext aad tag : list Z) : outcome tls_error (list Z) :=
  match c with CGcm _ => gcm_decrypt key iv ciphertext aad tag | CPoly => poly_decrypt key iv ciphertext aad tag end.
Definition cipher_get_suite (c : cipher) : cipher_suite :=
  match c with CGcm s => s | CPoly => CHACHA20_POLY1305_SHA256 end.
