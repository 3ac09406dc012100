(* Vocabulary of the statements about whole connections: which records carried what, and the handshake messages of
   RFC 8446 section 4 with the secrets of section 7.1. *)
From Verif Require Import Model.Base Model.Alert Model.Suite Model.KeySchedule Model.Record Model.Signature Model.Curve Model.Ecdsa
  Model.X509 Model.Extensions Model.Hello Model.Kex Model.Handshake Model.Certificate Model.Server
  Spec.Rfc2104 Spec.Fips180 Spec.Rfc8446Keys Spec.Rfc8446Auth Spec.Tls13Record Spec.Endpoints.
From Verif Require Spec.Rfc8446Hello Spec.Ecdsa.

(* the bytes of a record, and change_cipher_spec records *)
Definition wire (r : record) : list Z := r_header r ++ r_fragment r.
Definition is_ccs (r : record) : bool := match r_type r with RChangeCipherSpec => true | _ => false end.
Definition without_ccs (l : list record) : list record := filter (fun r => negb (is_ccs r)) l.

(* `rec` is record number `seq` under a traffic secret, with `content` of type t inside (5.2): its tag is right for the
   key and nonce derived from the secret, and it decrypts to the content, the type and some zero bytes. *)
Definition opened (c : cipher) (A : alg) (klen : nat) (secret : list Z) (seq : Z) (t : record_type) (content : list Z)
    (rec : record) : Prop :=
  exists e tag padding, r_fragment rec = e ++ tag /\
    let key := write_key A secret klen in
    let nonce := record_nonce (write_iv A secret 12) seq in
    tag = aead_tag_of (c_aead c) key nonce (r_header rec) e /\
    cipher_decrypt c key nonce e (r_header rec) tag = Ok (content ++ [rt_code t] ++ repeat 0 padding).

(* what two ends agree on in the hellos *)
Record agreed := Agreed { g_cipher : cipher; g_alg : alg; g_klen : nat; g_ecdhe : list Z; g_hellos : list Z }.
Definition client_secret (g : agreed) : list Z := client_handshake_traffic_secret (g_alg g) (g_ecdhe g) (g_hellos g).
Definition server_secret (g : agreed) : list Z := server_handshake_traffic_secret (g_alg g) (g_ecdhe g) (g_hellos g).
Definition verify_data (g : agreed) (secret messages : list Z) : list Z := finished_verify_data (g_alg g) secret messages.
(* handshake record number seq of the client or of the server *)
Definition from_client (g : agreed) (seq : Z) (m : list Z) : record -> Prop :=
  opened (g_cipher g) (g_alg g) (g_klen g) (client_secret g) seq RHandshake m.
Definition from_server (g : agreed) (seq : Z) (m : list Z) : record -> Prop :=
  opened (g_cipher g) (g_alg g) (g_klen g) (server_secret g) seq RHandshake m.
(* the application traffic keys (7.3) for the messages up to the server's Finished *)
Definition traffic_key (g : agreed) (secret : list Z) : tkey :=
  {| k_secret := secret; k_key := write_key (g_alg g) secret (g_klen g); k_iv := write_iv (g_alg g) secret 12; k_seq := 0 |}.
Definition application_keys (g : agreed) (messages : list Z) : write_keys :=
  {| wk_server := traffic_key g (server_application_traffic_secret_0 (g_alg g) (g_ecdhe g) messages);
     wk_client := traffic_key g (client_application_traffic_secret_0 (g_alg g) (g_ecdhe g) messages) |}.

(* The server answers the ClientHello in `hello` with the ServerHello body `body` and agrees on g: both are the
   first messages of the transcript, the suite decides hash, AEAD and key length, the secret is X25519 of the
   client's first key share and the server's key. *)
Definition answers (cfg : server_config) (d : draws) (hello : list Z) (ch : client_hello) (body : list Z) (g : agreed) : Prop :=
  exists hs sh pk share a,
    handshake_from_raw hello = Ok hs /\ hs_type hs = HtClientHello /\ client_hello_from_raw (hs_fraqment hs) = Ok ch /\
    server_hello_from_client ch (d_random d) (d_secrets d) (sc_server_name cfg) = Ok (sh, pk) /\
    server_hello_bytes (E:=tls_error) sh = Ok body /\ g_hellos g = hello ++ Rfc8446Hello.handshake 2 body /\
    client_public_key_share (ch_exts ch) = Some share /\ ks_group share = X25519g /\
    shared_secret (E:=tls_error) pk share = Ok (g_ecdhe g) /\
    suite_cipher (sh_suite sh) = Ok (g_cipher g) /\ suite_parameters (suite_u16 (sh_suite sh)) = Some (a, g_alg g, g_klen g).

(* the messages of the server after the ServerHello: EncryptedExtensions, CertificateRequest if a client CA is set,
   Certificate, CertificateVerify with signature `der`, Finished *)
Definition request (cfg : server_config) (d : draws) : list (list Z) :=
  match sc_client_ca cfg with
  | Some _ => [Rfc8446Hello.handshake 13 (Rfc8446Hello.certificate_request_wire (d_context d) [0x0403])]
  | None => []
  end.
Definition before_verify (cfg : server_config) (d : draws) : list (list Z) :=
  [Rfc8446Hello.handshake 8 (Rfc8446Hello.vector16 [])] ++ request cfg d ++
  [Rfc8446Hello.handshake 11 (Rfc8446Hello.certificate_wire [] (ct_raw (sc_cert cfg)))].
Definition before_finished (cfg : server_config) (d : draws) (der : list Z) : list (list Z) :=
  before_verify cfg d ++ [Rfc8446Hello.handshake 15 (Rfc8446Hello.certificate_verify_wire 0x0403 der)].
Definition server_flight (cfg : server_config) (d : draws) (g : agreed) (der : list Z) : list (list Z) :=
  before_finished cfg d der ++
  [Rfc8446Hello.handshake 20 (verify_data g (server_secret g) (g_hellos g ++ concat (before_finished cfg d der)))].
(* the transcript up to and including the server's Finished *)
Definition to_server_finished (cfg : server_config) (d : draws) (g : agreed) (der : list Z) : list Z :=
  g_hellos g ++ concat (server_flight cfg d g der).
(* der is an ECDSA signature by the server's key of the transcript up to its Certificate, made with one of the nonces drawn *)
Definition server_digest (cfg : server_config) (d : draws) (g : agreed) : Z :=
  Ecdsa.hash_int (sha256_spec (verify_message (g_alg g) server_context (g_hellos g ++ concat (before_verify cfg d)))).
Definition server_signed (cfg : server_config) (d : draws) (g : agreed) (der : list Z) : Prop :=
  exists k r s, (In k (d_nonces d) /\ Ecdsa.sign_with (sk_secret (sc_privkey cfg)) (server_digest cfg d g) k = Some (r, s)) /\
    Ecdsa.valid_signature (Ecdsa.public_of (sk_secret (sc_privkey cfg))) (server_digest cfg d g) r s /\
    sig_to_der (E:=tls_error) {| sg_r := r; sg_s := s |} = Ok der.

(* The client authenticated: m1 is a Certificate message with the requested context whose first certificate parses, is
   valid now, is signed by the CA and passes the custom check; m2 is a CertificateVerify whose signature verifies
   under the key in that certificate, for the transcript up to m1.  Bytes after the message in a record are in the
   transcript but not looked at. *)
Definition presented (context m1 cert : list Z) : Prop :=
  exists len more extra, length len = 3%nat /\
    m1 = Rfc8446Hello.handshake 11 (Rfc8446Hello.vector8 context ++ len ++ Rfc8446Hello.vector24 cert ++ more) ++ extra.
Definition signed_by (ca_key : Z * Z) (cert : list Z) (x : x509) : Prop :=
  exists r s part, x_signature x = Some (r, s) /\ signed_part (E:=tls_error) cert x = Ok part /\
    signed_under ca_key (sha256_spec part) r s.
Definition proves_possession (A : alg) (x : x509) (messages m2 : list Z) : Prop :=
  exists key sg der size extra, X509.get_public_key (E:=tls_error) x = Ok (Some key) /\
    sig_from_der der = Ok (sg, size) /\
    m2 = Rfc8446Hello.handshake 15 (Rfc8446Hello.u16 0x0403 ++ Rfc8446Hello.u16 (Z.of_nat size) ++ der) ++ extra /\
    signed_under key (sha256_spec (verify_message A client_context messages)) (sg_r sg) (sg_s sg).
Definition authentic (cfg : server_config) (d : draws) (now : Z) (ca_key : Z * Z) (g : agreed) (messages m1 m2 : list Z) : Prop :=
  exists cert x, presented (d_context d) m1 cert /\ x509_from_raw cert = Ok x /\
    is_valid (E:=tls_error) (x_validity x) now = Ok true /\ signed_by ca_key cert x /\
    (forall check, sc_verify cfg = Some check -> check x = true) /\
    proves_possession (g_alg g) x (messages ++ m1) m2.

(* a configuration the builder returns: a P-256 key and certificates that are byte strings of encodable size *)
Definition server_ok (cfg : server_config) (d : draws) : Prop :=
  sk_curve (sc_privkey cfg) = secp256r1 /\ is_bytes (ct_raw (sc_cert cfg)) /\ zlen (ct_raw (sc_cert cfg)) + 5 < 2^24 /\
  is_bytes (d_random d) /\ length (d_random d) = 32%nat /\ is_bytes (d_context d) /\ length (d_context d) = 32%nat /\
  Forall (fun k => 0 <= k) (d_nonces d) /\
  (forall ca, sc_client_ca cfg = Some ca -> is_bytes (ct_raw ca) /\ exists x, ct_x509 ca = Some x /\ x509_from_raw (ct_raw ca) = Ok x).

(* the bytes are these records, one after the other *)
Definition received (bytes : list Z) (recs : list record) : Prop :=
  bytes = concat (map wire recs) /\ Forall (fun r => record_from_raw (wire r) = Ok (length (wire r), r)) recs.
(* the records carry the server's handshake messages, in order, numbered from 0 *)
Definition carry (g : agreed) (messages : list (list Z)) (recs : list record) : Prop :=
  length recs = length messages /\
  forall i m r, nth_error messages i = Some m -> nth_error recs i = Some r -> from_server g (Z.of_nat i) m r.

(* A record, alone: its bytes parse to it *)
Definition whole (r : record) : Prop := record_from_raw (wire r) = Ok (length (wire r), r) /\ is_bytes (wire r).
(* What a client that conforms to RFC 8446 sends before its Finished: with a client CA a Certificate message with the
   requested context and a list of certificates the first of which is its own, and a CertificateVerify.  `used` are the two
   records, `messages` the transcript after them; `before` is the transcript up to the server's Finished. *)
Definition client_conforms (cfg : server_config) (d : draws) (now : Z) (g : agreed) (before : list Z) (used : list record) (messages : list Z) : Prop :=
  match sc_client_ca cfg with
  | None => used = [] /\ messages = before
  | Some ca => exists cax ca_key cert x exts others r1 r2 m1 m2,
      used = [r1; r2] /\ messages = before ++ m1 ++ m2 /\
      whole r1 /\ whole r2 /\ r_type r1 = RApplicationData /\ r_type r2 = RApplicationData /\ from_client g 0 m1 r1 /\ from_client g 1 m2 r2 /\
      m1 = Rfc8446Hello.handshake 11 (Rfc8446Hello.vector8 (d_context d) ++
             Rfc8446Hello.vector24 (Rfc8446Hello.vector24 cert ++ Rfc8446Hello.vector16 exts ++ others)) /\
      ct_x509 ca = Some cax /\ X509.get_public_key (E:=tls_error) cax = Ok (Some ca_key) /\
      x509_from_raw cert = Ok x /\ is_valid (E:=tls_error) (x_validity x) now = Ok true /\ signed_by ca_key cert x /\
      (forall check, sc_verify cfg = Some check -> check x = true) /\
      proves_possession (g_alg g) x (before ++ m1) m2
  end.
(* one of the numbers drawn is usable for the server's signature *)
Definition can_sign (cfg : server_config) (d : draws) (g : agreed) : Prop :=
  exists k, In k (d_nonces d) /\
    Ecdsa.sign_with (sk_secret (sc_privkey cfg))
      (Ecdsa.hash_int (sha256_spec (verify_message (g_alg g) server_context (g_hellos g ++ concat (before_verify cfg d))))) k <> None.
