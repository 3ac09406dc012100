(* RFC 8446 section 4.4: the content signed by CertificateVerify and the Finished message. *)
From Coq Require Import List ZArith.
From Coq Require String.
From Verif Require Import Spec.Enc Spec.Rfc4648 Spec.Fips180 Spec.Rfc2104 Spec.Rfc8446Keys Spec.Ec Spec.Ecdsa.
Import ListNotations.
Import String.StringSyntax.
Local Open Scope string_scope.
Local Open Scope list_scope.
Open Scope Z_scope.

(* 4.4.3: 64 spaces, the context string, a zero byte, the transcript hash *)
Definition signed_content (context_string transcript_hash : list Z) : list Z :=
  repeat 0x20 64 ++ context_string ++ [0] ++ transcript_hash.
Definition server_context : list Z := codes "TLS 1.3, server CertificateVerify".
Definition client_context : list Z := codes "TLS 1.3, client CertificateVerify".

Section Finished.
  Context (A : alg).
  (* 4.4.4 *)
  Definition finished_key (BaseKey : list Z) : list Z := Expand_Label A BaseKey (codes "finished") [] (alg_len A).
  (* verify_data over the messages of the transcript *)
  Definition finished_verify_data (BaseKey Messages : list Z) : list Z :=
    HMAC A (finished_key BaseKey) (alg_hash A Messages).

  (* the bytes whose SHA-256 an ecdsa_secp256r1_sha256 CertificateVerify signs *)
  Definition verify_message (context_string Messages : list Z) : list Z :=
    signed_content context_string (alg_hash A Messages).
End Finished.

(* (r, s) is an ECDSA P-256 signature of the digest under the public key (x, y) *)
Definition signed_under (key : Z * Z) (digest : list Z) (r s : Z) : Prop :=
  on_curve P256 (Affine (fst key) (snd key)) /\
  valid_signature (Affine (fst key) (snd key)) (hash_int digest) r s.
