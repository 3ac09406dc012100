(* What can bring a client down once the keys are agreed *)
From Verif Require Import Model.Base Model.Record Model.Curve Model.Ecdsa Model.Certificate Model.Client Spec.Connection Spec.ClientConnection Spec.ClientAccept Spec.Crashes Spec.Proper Spec.VerifyPanics Spec.CertMessagePanics Spec.RequestPanics.
From Verif Require Spec.Rfc8446Hello Spec.Ecdsa.

(* record r is the n-th that opens under the server's handshake key of the agreement g, with this content *)
Definition opens_server (g : agreed) (n : Z) (t : record_type) (content : list Z) (r : record) : Prop :=
  opened (g_cipher g) (g_alg g) (g_klen g) (server_secret g) n t content r.
(* whole handshake messages *)
Definition whole_messages (l : list Z) : Prop := exists ms, l = concat (map (fun m => Rfc8446Hello.handshake (fst m) (snd m)) ms).
(* among the bytes is a protected record with this handshake message *)
Definition came (bytes : list Z) (g : agreed) (ty : Z) (body : list Z) : Prop :=
  exists r n before after, within bytes r /\ opens_server g n RHandshake (before ++ Rfc8446Hello.handshake ty body ++ after) r.
(* The client can authenticate itself: it has no certificate, or one of less than a megabyte, and whatever is to be signed, one of the
   numbers it draws is usable.  (A certificate without a key is an error, not a crash.) *)
Definition can_answer (cfg : client_config) (e : client_draws) : Prop :=
  forall c, cc_cert cfg = Some c -> zlen (ct_raw c) < 2^20 - 512 /\
    forall key, cc_key cfg = Some key -> forall digest, length digest = 32%nat -> exists k, In k (e_nonces e) /\ Ecdsa.sign_with (sk_secret key) (Ecdsa.hash_int digest) k <> None.

(* x is the rest of what has arrived, from the record at fault on; `bytes` is everything that has arrived *)
Inductive client_crash (cfg : client_config) (e : client_draws) (bytes : list Z) (g : agreed) (x : list Z) : Prop :=
| ccrash_cut t v1 v2 a b rest :      (* one to three bytes are missing *)
    x = t :: v1 :: v2 :: a :: b :: rest -> In t [0; 20; 21; 22; 23] -> zlen rest < 256 * a + b <= zlen rest + 3 -> client_crash cfg e bytes g x
| ccrash_alert n r :                 (* an alert of fewer than two bytes *)
    record_from_raw x = Ok (n, r) -> r_type r = RAlert -> (length (r_fragment r) < 2)%nat -> client_crash cfg e bytes g x
| ccrash_short n r :                 (* a protected record without room for its tag *)
    record_from_raw x = Ok (n, r) -> r_type r <> RAlert -> r_type r <> RChangeCipherSpec -> (length (r_fragment r) < 16)%nat -> client_crash cfg e bytes g x
| ccrash_sealed_alert n r seq content :    (* an alert of fewer than two bytes inside a record that opens *)
    record_from_raw x = Ok (n, r) -> opens_server g seq RAlert content r -> (length content < 2)%nat -> client_crash cfg e bytes g x
| ccrash_frame n r seq before ty b1 b2 b3 rest :   (* a handshake message that is said to be longer than it is *)
    record_from_raw x = Ok (n, r) -> opens_server g seq RHandshake (before ++ ty :: b1 :: b2 :: b3 :: rest) r -> whole_messages before ->
    zlen rest < b1 * 65536 + b2 * 256 + b3 -> client_crash cfg e bytes g x
| ccrash_certificate n r seq before body after :    (* a Certificate message of Spec/CertMessagePanics.v *)
    record_from_raw x = Ok (n, r) -> opens_server g seq RHandshake (before ++ Rfc8446Hello.handshake 11 body ++ after) r -> whole_messages before ->
    certificate_message_panics body -> client_crash cfg e bytes g x
| ccrash_verify n r seq before body after body1 :    (* a CertificateVerify message of Spec/VerifyPanics.v, or after a certificate with a P-256 key that is not an uncompressed point *)
    record_from_raw x = Ok (n, r) -> opens_server g seq RHandshake (before ++ Rfc8446Hello.handshake 15 body ++ after) r -> whole_messages before ->
    came bytes g 11 body1 -> verify_panics body \/ bad_key body1 -> client_crash cfg e bytes g x
| ccrash_finished n r seq before body after request :   (* the Finished message after a CertificateRequest of Spec/RequestPanics.v, or after any when the client cannot authenticate itself *)
    record_from_raw x = Ok (n, r) -> opens_server g seq RHandshake (before ++ Rfc8446Hello.handshake 20 body ++ after) r -> whole_messages before ->
    came bytes g 13 request -> request_panics request \/ ~ can_answer cfg e -> client_crash cfg e bytes g x.
