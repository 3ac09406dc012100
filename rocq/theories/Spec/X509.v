(* DER (X.690) encodings of the certificates of RFC 5280 with the ECDSA algorithms of RFC 5480/5758: what a CA writes. *)
From Coq Require Import List ZArith Bool.
From Verif Require Import Spec.Enc Spec.Calendar.
Import ListNotations.
Open Scope Z_scope.

(* X.690 8.1.3, for contents below 2^24 octets (the limit of a TLS certificate) *)
Definition der_length (n : Z) : list Z :=
  if n <? 128 then [n]
  else if n <? 256 then 0x81 :: be_enc 1 n
  else if n <? 65536 then 0x82 :: be_enc 2 n
  else 0x83 :: be_enc 3 n.
Definition der (tag : Z) (content : list Z) : list Z := tag :: der_length (Z.of_nat (length content)) ++ content.

Definition INTEGER := der 0x02.
Definition BIT_STRING (content : list Z) := der 0x03 (0 :: content).   (* no unused bits *)
Definition OBJECT_IDENTIFIER := der 0x06.
Definition UTCTime (i : instant) := der 0x17 (utc_time_text i).
Definition SEQUENCE (elements : list (list Z)) := der 0x30 (concat elements).
Definition SET1 (element : list Z) := der 0x31 element.                (* a SET OF with one element *)
Definition EXPLICIT (n : Z) (content : list Z) := der (0xA0 + n) content.

(* X.690 8.19: the arcs of an object identifier *)
Fixpoint base128 (fuel : nat) (n : Z) (last : bool) (acc : list Z) : list Z :=
  let d := n mod 128 + (if last then 0 else 128) in
  match fuel with
  | O => d :: acc
  | S f => if n <? 128 then d :: acc else base128 f (n / 128) false (d :: acc)
  end.
Definition oid (arcs : list Z) : list Z :=
  match arcs with
  | a :: b :: rest => (40 * a + b) :: concat (map (fun n => base128 8 n true []) rest)
  | _ => []
  end.

(* RFC 5480, RFC 5758 *)
Definition id_ecPublicKey : list Z := oid [1; 2; 840; 10045; 2; 1].
Definition id_prime256v1 : list Z := oid [1; 2; 840; 10045; 3; 1; 7].
Definition id_ecdsa_sha256 : list Z := oid [1; 2; 840; 10045; 4; 3; 2].
Definition id_ecdsa_sha384 : list Z := oid [1; 2; 840; 10045; 4; 3; 3].

(* RFC 5280 4.1.2.4: the attributes of a name, with their directory string *)
Inductive attribute_type := Country | State | Locality | Organization | OrganizationalUnit | Common | Email.
Definition attribute_oid (a : attribute_type) : list Z :=
  match a with
  | Country => oid [2; 5; 4; 6]
  | State => oid [2; 5; 4; 8]
  | Locality => oid [2; 5; 4; 7]
  | Organization => oid [2; 5; 4; 10]
  | OrganizationalUnit => oid [2; 5; 4; 11]
  | Common => oid [2; 5; 4; 3]
  | Email => oid [1; 2; 840; 113549; 1; 9; 1]
  end.
Inductive string_type := PrintableString | UTF8String | IA5String.
Definition string_tag (s : string_type) : Z :=
  match s with PrintableString => 0x13 | UTF8String => 0x0C | IA5String => 0x16 end.
(* RFC 3629: Unicode scalar values and their UTF-8 encoding *)
Definition scalar_value (c : Z) : Prop := 0 <= c < 0xD800 \/ 0xE000 <= c < 0x110000.
Definition utf8_char (c : Z) : list Z :=
  if c <? 0x80 then [c]
  else if c <? 0x800 then [0xC0 + c / 64; 0x80 + c mod 64]
  else if c <? 0x10000 then [0xE0 + c / 4096; 0x80 + c / 64 mod 64; 0x80 + c mod 64]
  else [0xF0 + c / 262144; 0x80 + c / 4096 mod 64; 0x80 + c / 64 mod 64; 0x80 + c mod 64].
Definition utf8 (text : list Z) : list Z := concat (map utf8_char text).
Record attribute := { a_type : attribute_type; a_string : string_type; a_text : list Z }.
Definition a_value (a : attribute) : list Z := utf8 (a_text a).
Definition rdn (a : attribute) : list Z :=
  SET1 (SEQUENCE [OBJECT_IDENTIFIER (attribute_oid (a_type a)); der (string_tag (a_string a)) (a_value a)]).
Definition Name (l : list attribute) : list Z := SEQUENCE (map rdn l).

(* RFC 5280 4.1 *)
Inductive ecdsa_alg := ecdsa_sha256 | ecdsa_sha384.
Definition AlgorithmIdentifier (a : ecdsa_alg) : list Z :=
  SEQUENCE [OBJECT_IDENTIFIER (match a with ecdsa_sha256 => id_ecdsa_sha256 | ecdsa_sha384 => id_ecdsa_sha384 end)].
Record tbs := {
  tbs_version : option Z; tbs_serial : list Z (* content octets *); tbs_signature : ecdsa_alg;
  tbs_issuer : list attribute; tbs_not_before : instant; tbs_not_after : instant; tbs_subject : list attribute;
  tbs_x : Z; tbs_y : Z; (* the P-256 public point *)
  tbs_extensions : option (list Z) }.
Definition opt {A} (f : A -> list Z) (o : option A) : list (list Z) := match o with Some a => [f a] | None => [] end.
Definition SubjectPublicKeyInfo (x y : Z) : list Z :=
  SEQUENCE [SEQUENCE [OBJECT_IDENTIFIER id_ecPublicKey; OBJECT_IDENTIFIER id_prime256v1];
            BIT_STRING (4 :: be_enc 32 x ++ be_enc 32 y)].
Definition tbs_elements (t : tbs) : list (list Z) :=
  opt (fun v => EXPLICIT 0 (INTEGER [v])) (tbs_version t) ++
  [INTEGER (tbs_serial t); AlgorithmIdentifier (tbs_signature t); Name (tbs_issuer t);
   SEQUENCE [UTCTime (tbs_not_before t); UTCTime (tbs_not_after t)]; Name (tbs_subject t);
   SubjectPublicKeyInfo (tbs_x t) (tbs_y t)] ++
  opt (EXPLICIT 3) (tbs_extensions t).
Definition TBSCertificate (t : tbs) : list Z := SEQUENCE (tbs_elements t).
(* RFC 3279 2.2.3, r and s as content octets *)
Definition EcdsaSigValue (r s : list Z) : list Z := SEQUENCE [INTEGER r; INTEGER s].
Record certificate := { c_tbs : tbs; c_algorithm : ecdsa_alg; c_r : list Z; c_s : list Z }.
(* a certificate with further elements between the signed part and the signature; none in a real one *)
Definition stuffed_certificate (c : certificate) (extra : list (list Z)) : list Z :=
  SEQUENCE ([TBSCertificate (c_tbs c)] ++ extra ++
            [AlgorithmIdentifier (c_algorithm c); BIT_STRING (EcdsaSigValue (c_r c) (c_s c))]).
Definition Certificate (c : certificate) : list Z := stuffed_certificate c [].

(* values a CA can write *)
Definition octets (l : list Z) : Prop := Forall (fun b => 0 <= b < 256) l.
Definition time_ok (i : instant) : Prop := valid_instant i /\ 1950 <= year i <= 2049.
Definition tbs_ok (t : tbs) : Prop :=
  (forall v, tbs_version t = Some v -> 0 <= v <= 2) /\ octets (tbs_serial t) /\
  Forall (fun a => Forall scalar_value (a_text a)) (tbs_issuer t) /\
  Forall (fun a => Forall scalar_value (a_text a)) (tbs_subject t) /\
  time_ok (tbs_not_before t) /\ time_ok (tbs_not_after t) /\ 0 <= tbs_x t < 2^256 /\ 0 <= tbs_y t < 2^256.
(* the last value of an attribute in a name *)
Definition attribute_eqb (a b : attribute_type) : bool :=
  match a, b with
  | Country, Country | State, State | Locality, Locality | Organization, Organization
  | OrganizationalUnit, OrganizationalUnit | Common, Common | Email, Email => true
  | _, _ => false
  end.
Definition last_value (k : attribute_type) (l : list attribute) : option (list Z) :=
  match find (fun a => attribute_eqb (a_type a) k) (rev l) with Some a => Some (a_value a) | None => None end.
