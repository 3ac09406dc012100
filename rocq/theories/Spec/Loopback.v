(* The library talking to itself: a server and a client configuration, and the numbers each draws *)
From Verif Require Import Model.Base Model.Alert Model.Record Model.Curve Model.Ecdsa Model.X509 Model.Extensions Model.Handshake Model.Certificate
  Model.Stream Model.Server Model.Client
  Spec.Rfc2104 Spec.Fips180 Spec.Rfc7748 Spec.KeyShare Spec.Rfc8446Auth Spec.Tls13Record Spec.Endpoints Spec.HelloView Spec.Connection Spec.ClientConnection.
From Verif Require Spec.Rfc8446Hello Spec.Ec Spec.Ecdsa.

(* The certificate parses to x, is valid now and has the public key of the private key. *)
Definition certifies (now : Z) (c : cert) (x : x509) (key : private_key) : Prop :=
  x509_from_raw (ct_raw c) = Ok x /\ is_valid (E:=tls_error) (x_validity x) now = Ok true /\
  exists kx ky, X509.get_public_key (E:=tls_error) x = Ok (Some (kx, ky)) /\ Ecdsa.public_of (sk_secret key) = Ec.Affine kx ky.
(* Of the numbers drawn for a signature of the digest at least one is usable, and none gives a signature with a number
   below 2^248 (C06: the library does not read those back). *)
Definition signs_well (key : private_key) (digest : Z) (nonces : list Z) : Prop :=
  (exists k, In k nonces /\ Ecdsa.sign_with (sk_secret key) digest k <> None) /\
  forall k r s, In k nonces -> Ecdsa.sign_with (sk_secret key) digest k = Some (r, s) -> 2^248 <= r /\ 2^248 <= s.
(* what the client signs: the transcript up to its Certificate message *)
Definition client_digest (cfgs : server_config) (d : draws) (g : agreed) (der : list Z) (c : cert) : Z :=
  Ecdsa.hash_int (sha256_spec (verify_message (g_alg g) client_context (to_server_finished cfgs d g der ++
    Rfc8446Hello.handshake 11 (Rfc8446Hello.certificate_wire (d_context d) (ct_raw c))))).

(* a certificate for the client's key from the CA the server trusts, of at most the given size *)
Definition client_certified (client_max : Z) (cfgs : server_config) (d : draws) (cfgc : client_config) (e : client_draws) (now : Z) : Prop :=
  forall ca, sc_client_ca cfgs = Some ca -> exists c key x cax ca_key,
    cc_cert cfgc = Some c /\ cc_key cfgc = Some key /\ certifies now c x key /\ zlen (ct_raw c) <= client_max /\
    ct_x509 ca = Some cax /\ X509.get_public_key (E:=tls_error) cax = Ok (Some ca_key) /\ signed_by ca_key (ct_raw c) x /\
    (forall check, sc_verify cfgs = Some check -> check x = true) /\
    forall ch body g der, answers cfgs d (client_greeting cfgc e) ch body g -> server_signed cfgs d g der ->
      signs_well key (client_digest cfgs d g der c) (e_nonces e).

(* with bounds on the sizes of the server's certificate, the client's certificate and the name *)
Definition compatible_up_to (server_max client_max name_max : Z) (cfgs : server_config) (d : draws) (cfgc : client_config) (e : client_draws) (now : Z) : Prop :=
  server_ok cfgs d /\ client_ok cfgc e /\
  (* the key shares do not begin with a zero byte (C32: the library loses those) *)
  0 <= hd 0 (d_secrets d) < 2^256 /\ hd 0 (X25519 (x25519_private (hd 0 (d_secrets d))) base_point) <> 0 /\
  hd 0 (X25519 (x25519_private (e_secret e)) base_point) <> 0 /\
  (* the operating system takes the ClientHello in one piece *)
  (length (encode_record 22 (client_greeting cfgc e)) <= e_took e)%nat /\
  (* the client names the server, or no name at all *)
  (forall n, cc_server_name cfgc = Some n -> utf8_valid n = true /\ zlen n <= name_max /\ (forall h, sc_server_name cfgs = Some h -> n = h)) /\
  (* certificates *)
  (exists x, certifies now (sc_cert cfgs) x (sc_privkey cfgs)) /\ zlen (ct_raw (sc_cert cfgs)) <= server_max /\
  (forall ch body g, answers cfgs d (client_greeting cfgc e) ch body g -> signs_well (sc_privkey cfgs) (server_digest cfgs d g) (d_nonces d)) /\
  client_certified client_max cfgs d cfgc e now.
(* every segment then fits the buffer of its reader *)
Definition compatible := compatible_up_to 1500 3500 3500.

Definition fresh : sock := {| so_sent := []; so_left := None |}.
