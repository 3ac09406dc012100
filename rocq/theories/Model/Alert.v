(* Model of anothertls/src/net/alert.rs *)
From Verif Require Import Model.Base.

(* net/alert.rs:18-46 *)
Inductive tls_error :=
| CloseNotify | UnexpectedMessage | BadRecordMac | HandshakeFailure | BadCertificate
| UnsupportedCertificate | CertificateRevoked | CertificateExpired | CertificateUnknown
| IllegalParameter | UnknownCa | AccessDenied | DecryptError | DecodeError | ProtocolVersion
| InsufficientSecurity | InternalError | MissingExtension | UnrecognizedName | CertificateRequired
| NotOfficial | GotAlert (code : Z) | BrokenPipe.

(* net/alert.rs:49-77 *)
Definition error_new (code : Z) : tls_error :=
  if code =? 0 then CloseNotify
  else if code =? 10 then UnexpectedMessage
  else if code =? 40 then HandshakeFailure
  else if code =? 42 then BadCertificate
  else if code =? 43 then UnsupportedCertificate
  else if code =? 44 then CertificateRevoked
  else if code =? 45 then CertificateExpired
  else if code =? 46 then CertificateUnknown
  else if code =? 47 then IllegalParameter
  else if code =? 48 then UnknownCa
  else if code =? 49 then AccessDenied
  else if code =? 50 then DecryptError
  else if code =? 51 then DecodeError
  else if code =? 70 then ProtocolVersion
  else if code =? 71 then InsufficientSecurity
  else if code =? 80 then InternalError
  else if code =? 109 then MissingExtension
  else if code =? 112 then UnrecognizedName
  else if code =? 116 then CertificateRequired
  else if code =? 250 then NotOfficial
  else if code =? 253 then NotOfficial
  else if code =? 254 then BrokenPipe
  else DecodeError.

(* net/alert.rs:79-105 *)
Definition error_as_u8 (e : tls_error) : Z :=
  match e with
  | CloseNotify => 0 | UnexpectedMessage => 10 | HandshakeFailure => 40 | BadCertificate => 42
  | UnsupportedCertificate => 43 | CertificateRevoked => 44 | CertificateExpired => 45
  | CertificateUnknown => 46 | IllegalParameter => 47 | UnknownCa => 48 | AccessDenied => 49
  | DecryptError => 50 | DecodeError => 51 | ProtocolVersion => 70 | InsufficientSecurity => 71
  | InternalError => 80 | MissingExtension => 109 | UnrecognizedName => 112
  | CertificateRequired => 116 | GotAlert a => a | BrokenPipe => 254
  | BadRecordMac | NotOfficial => 0
  end.

(* net/alert.rs:6-17: Warning = 1, Fatal = 2 *)
Definition alert_level (e : tls_error) : Z := match e with CloseNotify => 1 | _ => 2 end.
