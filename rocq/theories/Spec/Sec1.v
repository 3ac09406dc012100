(* SEC 1 C.4 / RFC 5915: ECPrivateKey ::= SEQUENCE { version INTEGER (1), privateKey OCTET STRING,
   parameters [0] OPTIONAL, publicKey [1] OPTIONAL }.  `extra` is the encoding of the optional part. *)
From Coq Require Import List ZArith String.
From Verif Require Import Spec.X509 Spec.Rfc4648.
Import ListNotations.
Open Scope Z_scope.

Definition ECPrivateKey (secret extra : list Z) : list Z :=
  SEQUENCE [INTEGER [1]; der 0x04 secret; extra].

Definition EC_PRIVATE_KEY : list Z := codes "EC PRIVATE KEY".
