(* Vocabulary of the statements about a client's connection *)
From Verif Require Import Model.Base Model.Alert Model.Suite Model.KeySchedule Model.Record Model.Signature Model.Curve Model.Ecdsa
  Model.X509 Model.Extensions Model.Hello Model.Kex Model.Handshake Model.Certificate Model.Client
  Spec.Rfc2104 Spec.Fips180 Spec.Rfc7748 Spec.KeyShare Spec.Rfc8446Keys Spec.Rfc8446Auth Spec.Tls13Record Spec.Endpoints Spec.Connection.
From Verif Require Spec.Rfc8446Hello Spec.Ecdsa.

(* the record's bytes are among those received *)
Definition within (bytes : list Z) (r : record) : Prop := exists before after, bytes = before ++ wire r ++ after.

(* the configuration and the numbers drawn *)
Definition client_ok (cfg : client_config) (e : client_draws) : Prop :=
  0 <= e_secret e < 2^256 /\ is_bytes (e_random e) /\ length (e_random e) = 32%nat /\ is_bytes (e_session e) /\ length (e_session e) = 32%nat /\
  Forall (fun k => 0 <= k) (e_nonces e) /\
  (forall n, cc_server_name cfg = Some n -> is_bytes n /\ zlen n <= 65000) /\
  (forall c, cc_cert cfg = Some c -> is_bytes (ct_raw c) /\ zlen (ct_raw c) + 5 < 2^24) /\
  (forall k, cc_key cfg = Some k -> sk_curve k = secp256r1).

(* the ClientHello message (4.1.2) *)
Definition client_greeting (cfg : client_config) (e : client_draws) : list Z :=
  Rfc8446Hello.handshake 1 (Rfc8446Hello.client_hello_wire
    {| Rfc8446Hello.m_random := e_random e; Rfc8446Hello.m_session_id := e_session e; Rfc8446Hello.m_suites := [0x1302; 0x1301; 0x1303];
       Rfc8446Hello.m_extensions :=
         [Rfc8446Hello.Shares [(29, X25519 (x25519_private (e_secret e)) base_point)]; Rfc8446Hello.Versions [0x0304];
          Rfc8446Hello.SigAlgs [0x0403]; Rfc8446Hello.Groups [23; 29]] ++
         match cc_server_name cfg with Some n => [Rfc8446Hello.Host n] | None => [] end |}).

(* the key share a client uses: the first entry of the first key_share extension that has one *)
Definition used_share (exts : list server_ext) (share : kse) : Prop :=
  exists before others after, exts = before ++ SKeyShare (share :: others) :: after /\ (forall entries, In (SKeyShare entries) before -> entries = []).

(* The client agrees on g after the ServerHello message `answer`: the two hellos begin the transcript, the suite decides hash,
   AEAD and key length, the secret is X25519 of the server's share and the client's key. *)
Definition agrees (cfg : client_config) (e : client_draws) (answer : list Z) (sh : server_hello) (g : agreed) : Prop :=
  exists hs share a,
    handshake_from_raw answer = Ok hs /\ hs_type hs = HtServerHello /\ server_hello_from_raw (hs_fraqment hs) = Ok sh /\
    g_hellos g = client_greeting cfg e ++ answer /\
    used_share (sh_exts sh) share /\ ks_group share = X25519g /\
    shared_secret (E:=tls_error) (PrivateKey curve25519 (e_secret e)) share = Ok (g_ecdhe g) /\
    suite_cipher (sh_suite sh) = Ok (g_cipher g) /\ suite_parameters (suite_u16 (sh_suite sh)) = Some (a, g_alg g, g_klen g).

(* EncryptedExtensions and any number of CertificateRequests, as the client accepts them *)
Definition opening (extensions : list Z) (requests : list (list Z)) : list Z :=
  Rfc8446Hello.handshake 8 extensions ++ concat (map (Rfc8446Hello.handshake 13) requests).
(* a Certificate message and the first certificate in it *)
Definition shows (m cert : list Z) : Prop :=
  exists context len more, length len = 3%nat /\ zlen context < 256 /\
    m = Rfc8446Hello.handshake 11 (Rfc8446Hello.vector8 context ++ len ++ Rfc8446Hello.vector24 cert ++ more).
(* a CertificateVerify of the server whose signature verifies under the certificate's key, for the transcript `messages` *)
Definition server_possesses (A : alg) (x : x509) (messages m : list Z) : Prop :=
  exists key sg der size, X509.get_public_key (E:=tls_error) x = Ok (Some key) /\
    sig_from_der der = Ok (sg, size) /\
    m = Rfc8446Hello.handshake 15 (Rfc8446Hello.u16 0x0403 ++ Rfc8446Hello.u16 (Z.of_nat size) ++ der) /\
    signed_under key (sha256_spec (verify_message A server_context messages)) (sg_r sg) (sg_s sg).
(* The server authenticated itself after the transcript `messages`: a Certificate message m1 whose certificate parses and is
   valid now, and a CertificateVerify m2 for everything up to m1. *)
Definition server_authentic (now : Z) (g : agreed) (messages m1 m2 : list Z) : Prop :=
  exists cert x, shows m1 cert /\ x509_from_raw cert = Ok x /\ is_valid (E:=tls_error) (x_validity x) now = Ok true /\
    server_possesses (g_alg g) x (messages ++ m1) m2.
Definition server_finished (g : agreed) (messages : list Z) : list Z :=
  Rfc8446Hello.handshake 20 (verify_data g (server_secret g) messages).

(* What the client answers to the last CertificateRequest, `before` being the transcript up to the server's Finished: without a
   certificate the bytes 00 00 00 02 00 00 take the place of an empty list *)
Definition replies (cfg : client_config) (e : client_draws) (g : agreed) (before : list Z) (request : option (list Z)) (msgs : list (list Z)) : Prop :=
  match request with
  | None => msgs = []
  | Some body => exists context more, body = Rfc8446Hello.vector8 context ++ more /\ zlen context < 256 /\
      match cc_cert cfg with
      | None => msgs = [Rfc8446Hello.handshake 11 (Rfc8446Hello.vector8 context ++ [0; 0; 0; 2; 0; 0])]
      | Some c => exists key der k r s, cc_key cfg = Some key /\
          let m1 := Rfc8446Hello.handshake 11 (Rfc8446Hello.certificate_wire context (ct_raw c)) in
          msgs = [m1; Rfc8446Hello.handshake 15 (Rfc8446Hello.certificate_verify_wire 0x0403 der)] /\
          let digest := Ecdsa.hash_int (sha256_spec (verify_message (g_alg g) client_context (before ++ m1))) in
          (In k (e_nonces e) /\ Ecdsa.sign_with (sk_secret key) digest k = Some (r, s)) /\
          Ecdsa.valid_signature (Ecdsa.public_of (sk_secret key)) digest r s /\
          sig_to_der (E:=tls_error) {| sg_r := r; sg_s := s |} = Ok der
      end
  end.
Definition client_flight (g : agreed) (before : list Z) (msgs : list (list Z)) : list (list Z) :=
  msgs ++ [Rfc8446Hello.handshake 20 (verify_data g (client_secret g) (before ++ concat msgs))].
Fixpoint last_of {A} (l : list A) : option A := match l with [] => None | [x] => Some x | _ :: t => last_of t end.
(* the records carry the client's handshake messages, in order, numbered from 0 *)
Definition carry_client (g : agreed) (messages : list (list Z)) (recs : list record) : Prop :=
  length recs = length messages /\
  forall i m r, nth_error messages i = Some m -> nth_error recs i = Some r -> from_client g (Z.of_nat i) m r.
