(* Certificates of RFC 5280 with any signature algorithm, any kind of key and either form of date *)
From Coq Require Import List ZArith.
From Verif Require Import Spec.Calendar Spec.X509.
Import ListNotations.
Open Scope Z_scope.

Definition NULL : list Z := der 5 [].
(* 4.1.1.2: an object identifier and, for some algorithms, parameters *)
Record algo := { al_oid : list Z; al_parameters : list (list Z) }.
Definition algorithm_identifier (a : algo) : list Z := SEQUENCE (OBJECT_IDENTIFIER (al_oid a) :: al_parameters a).
(* RFC 3279 2.2.1, 2.3.1 and RFC 4055 5: the parameters of RSA signatures and keys are NULL *)
Definition id_rsaEncryption : list Z := oid [1; 2; 840; 113549; 1; 1; 1].
Definition id_sha256WithRSAEncryption : list Z := oid [1; 2; 840; 113549; 1; 1; 11].
Definition rsa_sha256 : algo := {| al_oid := id_sha256WithRSAEncryption; al_parameters := [NULL] |}.
Definition rsa_key : algo := {| al_oid := id_rsaEncryption; al_parameters := [NULL] |}.
Definition ecdsa (a : ecdsa_alg) : algo :=
  {| al_oid := match a with ecdsa_sha256 => id_ecdsa_sha256 | ecdsa_sha384 => id_ecdsa_sha384 end; al_parameters := [] |}.
Definition p256_key : algo := {| al_oid := id_ecPublicKey; al_parameters := [OBJECT_IDENTIFIER id_prime256v1] |}.
(* RFC 5758, RFC 5480, RFC 3279: the algorithms the library has a name for *)
Definition named_algorithms : list (list Z) :=
  [id_ecdsa_sha256; id_ecdsa_sha384; id_ecPublicKey; id_sha256WithRSAEncryption; id_rsaEncryption].
(* others: RFC 8410 Ed25519, RFC 4055 with SHA-384, RFC 3279 with SHA-1 *)
Definition id_Ed25519 : list Z := oid [1; 3; 101; 112].
Definition id_sha384WithRSAEncryption : list Z := oid [1; 2; 840; 113549; 1; 1; 12].
Definition id_sha1WithRSAEncryption : list Z := oid [1; 2; 840; 113549; 1; 1; 5].
(* 4.1.2.5: a date, as UTCTime up to 2049 and as GeneralizedTime from 2050 on; or a UTCTime with any text in it *)
Inductive date := utc (i : instant) | generalized (text : list Z) | written (text : list Z).
Definition Time (d : date) : list Z := match d with utc i => UTCTime i | generalized text => der 0x18 text | written text => der 0x17 (utf8 text) end.
(* 4.1 *)
Record any_certificate := {
  k_version : option Z; k_serial : list Z; k_signed_with : algo; k_issuer : list attribute;
  k_from : date; k_until : date; k_subject : list attribute;
  k_key_kind : algo; k_key : list Z; k_rest : list (list Z) (* unique identifiers, extensions *);
  k_outer_algorithm : algo; k_signature : list Z }.
Definition any_elements (k : any_certificate) : list (list Z) :=
  opt (fun v => EXPLICIT 0 (INTEGER [v])) (k_version k) ++
  [INTEGER (k_serial k); algorithm_identifier (k_signed_with k); Name (k_issuer k);
   SEQUENCE [Time (k_from k); Time (k_until k)]; Name (k_subject k);
   SEQUENCE [algorithm_identifier (k_key_kind k); BIT_STRING (k_key k)]] ++ k_rest k.
Definition any_wire (k : any_certificate) : list Z :=
  SEQUENCE [SEQUENCE (any_elements k); algorithm_identifier (k_outer_algorithm k); BIT_STRING (k_signature k)].
Definition version_ok (k : any_certificate) : Prop := forall v, k_version k = Some v -> 0 <= v <= 2.
Definition names_ok (l : list attribute) : Prop := Forall (fun a => Forall scalar_value (a_text a)) l.
(* object identifiers of up to 16 octets; dates from 2050 on *)
Definition plain_oid (l : list Z) : Prop := octets l /\ (length l <= 16)%nat /\ hd 0 l <> 0.
Definition is_generalized (d : date) : Prop := exists text, d = generalized text.
(* a UTCTime of twelve bytes or more, among the first twelve one that is not ASCII; one of fewer bytes *)
Definition is_foreign (d : date) : Prop := exists text, d = written text /\ Forall scalar_value text /\
  (12 <= length (utf8 text))%nat /\ ~ Forall (fun b => b < 128) (firstn 12 (utf8 text)).
Definition is_short (d : date) : Prop := exists text, d = written text /\ Forall scalar_value text /\ (length (utf8 text) < 12)%nat.
(* RFC 5480: an EC key, on a named curve *)
Definition ec_key (curve : list Z) : algo := {| al_oid := id_ecPublicKey; al_parameters := [OBJECT_IDENTIFIER curve] |}.
Definition id_secp384r1 : list Z := oid [1; 3; 132; 0; 34].
