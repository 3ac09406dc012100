(* Model of anothertls/src/net/handshake/certificate.rs *)
From Verif Require Import Model.Base Model.Bytes Model.Alert Model.Sha2 Model.Pem Model.Der Model.X509 Model.Curve Model.Signature
  Model.Ecdsa Model.Extensions.

(* certificate.rs:16-19 *)
Record cert := Cert { ct_raw : list Z; ct_x509 : option x509 }.

(* certificate.rs:22-33 *)
Definition certificate_from_raw (raw : list Z) : outcome tls_error cert :=
  match x509_from_raw raw with
  | Ok x => Ok (Cert raw (Some x))
  | Err _ => Err DecodeError
  | Panic => Panic
  end.

(* "CERTIFICATE" *)
Definition s_CERTIFICATE : list Z := [67; 69; 82; 84; 73; 70; 73; 67; 65; 84; 69].
(* certificate.rs:34-41, on the text of the file; None is Ok None, the `expect` a panic *)
Definition certificate_from_pem_x509 (text : list Z) : outcome unit cert :=
  let! raw := pem_parse text in
  match pem_get raw s_CERTIFICATE with
  | None => Err tt
  | Some der => match certificate_from_raw der with Ok c => Ok c | _ => Panic end
  end.
(* certificate.rs:43-50 *)
Definition certificate_from_pem (text : list Z) : outcome unit cert :=
  let! raw := pem_parse text in
  match pem_get raw s_CERTIFICATE with
  | None => Err tt
  | Some der => Ok (Cert der None)
  end.

(* certificate.rs:52-112.  `now` is the clock read by Validity::is_valid.  Only the first certificate
   is looked at: the loop body either leaves no bytes or breaks. *)
Definition certificates_from_hello (buf : list Z) (now : Z) : outcome tls_error (list cert) :=
  let! context_len := idx buf 0 in
  let consumed := (1 + Z.to_nat context_len)%nat in
  let! b := slice buf consumed (consumed + 3) in
  let certs_len := Z.to_nat (to_u128_be_fill b) in
  let consumed := (consumed + 3)%nat in
  if Nat.eqb certs_len 0 then Err CertificateRequired
  else
    let! b := slice buf consumed (consumed + 3) in
    let cert_len := Z.to_nat (to_u128_be_fill b) in
    let consumed := (consumed + 3)%nat in
    let! raw := slice buf consumed (consumed + cert_len) in
    let! c := certificate_from_raw raw in
    let consumed := (consumed + cert_len)%nat in
    let! _ := slice buf consumed (consumed + 2) in
    let! x := unwrap (ct_x509 c) in
    let! valid := is_valid (x_validity x) now in
    if negb valid then Err CertificateExpired else Ok [c].

(* certificate.rs:114-122 *)
Definition certificate_request {E} (random : list Z) : outcome E (list Z) :=
  let! exts := server_exts_bytes [SSignatureAlgorithms [ecdsa_secp256r1_sha256]] in
  Ok ([u8 (zlen random)] ++ random ++ exts).

(* certificate.rs:124-141 *)
Definition certificate_for_handshake (c : cert) (certificates_raw : list Z) : list Z :=
  let len := zlen (ct_raw c) in
  let lens := len + 5 in
  certificates_raw ++
  [u8 (Z.shiftr lens 16); u8 (Z.shiftr lens 8); u8 lens; u8 (Z.shiftr len 16); u8 (Z.shiftr len 8); u8 len] ++
  ct_raw c ++ [0x00; 0x00].

(* b"TLS 1.3, ", b" CertificateVerify", and the labels b"server", b"client" of the callers *)
Definition l_TLS13 : list Z := [84; 76; 83; 32; 49; 46; 51; 44; 32].
Definition l_CertificateVerify : list Z := [32; 67; 101; 114; 116; 105; 102; 105; 99; 97; 116; 101; 86; 101; 114; 105; 102; 121].
Definition l_server : list Z := [115; 101; 114; 118; 101; 114].
Definition l_client : list Z := [99; 108; 105; 101; 110; 116].

(* certificate.rs:151-157, 210-216 *)
Definition verify_content (label transcript_hash : list Z) : list Z :=
  repeat 0x20 64 ++ l_TLS13 ++ label ++ l_CertificateVerify ++ [0x00] ++ transcript_hash.

(* certificate.rs:143-170.  `nonces` are the values the ECDSA loop draws; Ok None is "still drawing". *)
Definition certificate_verify_for_handshake {E} (key : private_key) (th : transcript) (label : list Z) (nonces : list Z)
    : outcome E (option (list Z)) :=
  let hash := sha256 (verify_content label (th_finalize th)) in
  let! sg := ecdsa_sign key hash nonces in
  match sg with
  | None => Ok None
  | Some sg =>
      let! der := sig_to_der sg in
      Ok (Some ([0x04; 0x03; u8 (Z.shiftr (zlen der) 8); u8 (zlen der)] ++ der))
  end.

(* certificate.rs:191: the bytes hashed for the CA signature *)
Definition signed_part {E} (raw : list Z) (x : x509) : outcome E (list Z) :=
  slice raw 4 (4 + x_tbs_size x).

(* X509::get_public_key (utils/x509.rs) as a PublicKey on secp256r1 *)
Definition certificate_key {E} (x : x509) : outcome E (option public_key) :=
  let! k := X509.get_public_key x in
  Ok (match k with Some (a, b) => Some (PublicKey (Point a b) secp256r1) | None => None end).

(* certificate.rs:173-200 *)
Definition has_signed (ca other : cert) : outcome tls_error unit :=
  match ct_x509 ca, ct_x509 other with
  | Some cax, Some ox =>
      let! k := certificate_key cax in
      let! ca_key := unwrap k in
      match x_signature ox with
      | None => Err DecryptError
      | Some (r, s) =>
          let! context := signed_part (ct_raw other) ox in
          let! v := ecdsa_verify ca_key {| sg_r := r; sg_s := s |} (sha256 context) in
          if v then Ok tt else Err DecryptError
      end
  | _, _ => Err InternalError
  end.

(* certificate.rs:202-223 *)
Definition is_certificate_valid {E} (c : cert) (sg : signature) (th : transcript) (label : list Z) : outcome E bool :=
  let! x := unwrap (ct_x509 c) in
  let! k := certificate_key x in
  match k with
  | Some key => ecdsa_verify key sg (sha256 (verify_content label (th_finalize th)))
  | None => Ok false
  end.
