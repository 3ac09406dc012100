(* The authentication messages of RFC 8446 4.4.2 and 4.4.3 as a peer with an ECDSA P-256 certificate sends them *)
From Coq Require Import List ZArith.
From Verif Require Import Spec.Enc Spec.Calendar Spec.X509.
From Verif Require Spec.Rfc8446Hello.
Import ListNotations.
Open Scope Z_scope.

(* 4.4.2: a context and a list of certificates, which may be empty; the first certificate is one of Spec/X509.v, with a period of
   validity that begins and ends after 1969.  Its extensions and the other certificates are arbitrary. *)
Definition proper_certificate (body : list Z) : Prop :=
  exists context entries, body = Rfc8446Hello.vector8 context ++ Rfc8446Hello.vector24 entries /\
    Z.of_nat (length context) < 2^8 /\ Z.of_nat (length entries) < 2^24 /\
    (entries = [] \/ exists c extensions others, entries = Rfc8446Hello.vector24 (Certificate c) ++ Rfc8446Hello.vector16 extensions ++ others /\
       tbs_ok (c_tbs c) /\ 1970 <= year (tbs_not_before (c_tbs c)) /\ 1970 <= year (tbs_not_after (c_tbs c))).
(* 4.4.3: an ecdsa_secp256r1_sha256 signature *)
Definition proper_verify (body : list Z) : Prop :=
  exists r s, body = Rfc8446Hello.u16 0x0403 ++ Rfc8446Hello.vector16 (EcdsaSigValue r s) /\ Z.of_nat (length (EcdsaSigValue r s)) < 2^16.
