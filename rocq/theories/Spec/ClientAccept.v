(* What a server that conforms to RFC 8446 sends, for the statements about a client's connection *)
From Verif Require Import Model.Base Model.Alert Model.Suite Model.KeySchedule Model.Record Model.Signature Model.Curve Model.Ecdsa
  Model.X509 Model.Handshake Model.Certificate Model.Client
  Spec.Rfc2104 Spec.Fips180 Spec.Rfc8446Keys Spec.Rfc8446Auth Spec.Tls13Record Spec.Connection Spec.ClientConnection.
From Verif Require Spec.Rfc8446Hello Spec.Ecdsa.

(* A CertificateRequest body (4.3.2) with the given context, none of whose extensions is a server_name,
   supported_versions or key_share extension. *)
Definition requests_with (context body : list Z) : Prop :=
  exists exts, body = Rfc8446Hello.vector8 context ++ Rfc8446Hello.vector16 (concat (map (fun x => Rfc8446Hello.extension (fst x) (snd x)) exts)) /\
    zlen context < 256 /\ zlen (concat (map (fun x => Rfc8446Hello.extension (fst x) (snd x)) exts)) < 2^16 /\
    Forall (fun x => 0 <= fst x < 2^16 /\ ~ In (fst x) [0; 43; 51]) exts.
(* The client can answer the request: it has no certificate, or has one with a key and one of the numbers it draws is usable
   for a signature of the transcript.  `before` is the transcript up to the server's Finished. *)
Definition answerable (cfg : client_config) (e : client_draws) (g : agreed) (before : list Z) (request : option (list Z)) : Prop :=
  forall body, request = Some body -> exists context, requests_with context body /\
    forall c, cc_cert cfg = Some c -> zlen (ct_raw c) < 2^16 - 512 /\
      exists key k, cc_key cfg = Some key /\ In k (e_nonces e) /\
        Ecdsa.sign_with (sk_secret key)
          (Ecdsa.hash_int (sha256_spec (verify_message (g_alg g) client_context
             (before ++ Rfc8446Hello.handshake 11 (Rfc8446Hello.certificate_wire context (ct_raw c)))))) k <> None.

(* The messages of such a server after its ServerHello: EncryptedExtensions, CertificateRequests, a Certificate message m1 whose
   first certificate parses and is valid now, a CertificateVerify m2 by the key in it, Finished. *)
Definition server_conforms (cfg : client_config) (e : client_draws) (now : Z) (g : agreed) (messages : list (list Z)) : Prop :=
  exists extensions requests context cert x exts others m2,
    let m1 := Rfc8446Hello.handshake 11 (Rfc8446Hello.vector8 context ++
                Rfc8446Hello.vector24 (Rfc8446Hello.vector24 cert ++ Rfc8446Hello.vector16 exts ++ others)) in
    let before := g_hellos g ++ opening extensions requests ++ m1 ++ m2 in
    messages = Rfc8446Hello.handshake 8 extensions :: map (Rfc8446Hello.handshake 13) requests ++ [m1; m2; server_finished g before] /\
    zlen context < 256 /\ x509_from_raw cert = Ok x /\ is_valid (E:=tls_error) (x_validity x) now = Ok true /\
    server_possesses (g_alg g) x (g_hellos g ++ opening extensions requests ++ m1) m2 /\
    answerable cfg e g (before ++ server_finished g before) (last_of requests).
