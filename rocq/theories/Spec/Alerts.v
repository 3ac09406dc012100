(* RFC 8446 section 6 / appendix B.2: alert descriptions named by the library's error type. *)
From Coq Require Import List ZArith.
From Verif Require Import Model.Alert.
Import ListNotations.
Open Scope Z_scope.

(* None: not a TLS alert description (a local condition, or an alert received from the peer) *)
Definition rfc8446_code (e : tls_error) : option Z :=
  match e with
  | CloseNotify => Some 0 | UnexpectedMessage => Some 10 | BadRecordMac => Some 20
  | HandshakeFailure => Some 40 | BadCertificate => Some 42 | UnsupportedCertificate => Some 43
  | CertificateRevoked => Some 44 | CertificateExpired => Some 45 | CertificateUnknown => Some 46
  | IllegalParameter => Some 47 | UnknownCa => Some 48 | AccessDenied => Some 49
  | DecodeError => Some 50 | DecryptError => Some 51 | ProtocolVersion => Some 70
  | InsufficientSecurity => Some 71 | InternalError => Some 80 | MissingExtension => Some 109
  | UnrecognizedName => Some 112 | CertificateRequired => Some 116
  | NotOfficial | GotAlert _ | BrokenPipe => None
  end.
