(* What can bring a server down once the keys are agreed *)
From Verif Require Import Model.Base Model.Record Model.Certificate Model.Server Spec.Connection Spec.ClientConnection Spec.Proper Spec.VerifyPanics Spec.CertMessagePanics.
From Verif Require Spec.Rfc8446Hello Spec.X509.

(* record r is the n-th that opens under the client's handshake key of the agreement g, with this content *)
Definition opens (g : agreed) (n : Z) (t : record_type) (content : list Z) (r : record) : Prop :=
  opened (g_cipher g) (g_alg g) (g_klen g) (client_secret g) n t content r.

(* whole records *)
Definition whole_records (l : list Z) : Prop :=
  exists rs, l = concat (map wire rs) /\ Forall (fun r => record_from_raw (wire r) = Ok (length (wire r), r)) rs.

(* the client CA, if there is one, is a certificate of Spec/X509.v *)
Definition p256_ca (cfg : server_config) : Prop :=
  forall ca, sc_client_ca cfg = Some ca -> exists c, ct_raw ca = X509.Certificate c /\ X509.tbs_ok (X509.c_tbs c) /\ zlen (X509.Certificate c) < 2^24.

(* x is the rest of a read, from the record at fault on; `bytes` is everything that was received *)
Inductive crash (cfg : server_config) (bytes : list Z) (g : agreed) (x : list Z) : Prop :=
| crash_cut t v1 v2 a b rest :      (* one to three bytes are missing *)
    x = t :: v1 :: v2 :: a :: b :: rest -> In t [0; 20; 21; 22; 23] -> zlen rest < 256 * a + b <= zlen rest + 3 -> crash cfg bytes g x
| crash_alert n r :                 (* an alert of fewer than two bytes *)
    record_from_raw x = Ok (n, r) -> r_type r = RAlert -> (length (r_fragment r) < 2)%nat -> crash cfg bytes g x
| crash_short n r :                 (* a protected record without room for its tag *)
    record_from_raw x = Ok (n, r) -> r_type r <> RAlert -> r_type r <> RChangeCipherSpec -> (length (r_fragment r) < 16)%nat -> crash cfg bytes g x
| crash_sealed_alert n r seq content :    (* the same inside a record that opens *)
    record_from_raw x = Ok (n, r) -> opens g seq RAlert content r -> (length content < 2)%nat -> crash cfg bytes g x
| crash_frame n r seq ty b1 b2 b3 rest :   (* a handshake message that is said to be longer than it is *)
    record_from_raw x = Ok (n, r) -> opens g seq RHandshake (ty :: b1 :: b2 :: b3 :: rest) r -> zlen rest < b1 * 65536 + b2 * 256 + b3 -> crash cfg bytes g x
| crash_certificate n r seq body rest :    (* a Certificate, if the server asked for one: one of Spec/CertMessagePanics.v, or any if the CA is not P-256 *)
    record_from_raw x = Ok (n, r) -> sc_client_ca cfg <> None -> opens g seq RHandshake (Rfc8446Hello.handshake 11 body ++ rest) r ->
    (p256_ca cfg -> certificate_message_panics body \/ signed_part_cut body) -> crash cfg bytes g x
| crash_verify n r seq body rest r1 seq1 body1 rest1 :   (* a CertificateVerify of Spec/VerifyPanics.v, or after a certificate with a P-256 key that is not an uncompressed point *)
    record_from_raw x = Ok (n, r) -> sc_client_ca cfg <> None -> opens g seq RHandshake (Rfc8446Hello.handshake 15 body ++ rest) r ->
    within bytes r1 -> opens g seq1 RHandshake (Rfc8446Hello.handshake 11 body1 ++ rest1) r1 ->
    verify_panics body \/ bad_key body1 -> crash cfg bytes g x.
