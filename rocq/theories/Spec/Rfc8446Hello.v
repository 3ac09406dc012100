(* RFC 8446 section 4: handshake framing, ClientHello, ServerHello and the extensions of this
   library, as wire formats.  Numbers are big-endian; a vector carries its length in front. *)
From Coq Require Import List ZArith.
From Verif Require Import Spec.Enc.
Import ListNotations.
Open Scope Z_scope.

Definition u16 (n : Z) : list Z := be_enc 2 n.
Definition u24 (n : Z) : list Z := be_enc 3 n.
Definition vector8 (l : list Z) : list Z := be_enc 1 (Z.of_nat (length l)) ++ l.
Definition vector16 (l : list Z) : list Z := be_enc 2 (Z.of_nat (length l)) ++ l.
Definition vector24 (l : list Z) : list Z := be_enc 3 (Z.of_nat (length l)) ++ l.
Definition u16s (l : list Z) : list Z := flat_map u16 l.

(* 4: HandshakeType and body *)
Definition handshake (msg_type : Z) (body : list Z) : list Z := [msg_type] ++ vector24 body.

(* 4.2: extension_type and extension_data *)
Definition extension (type : Z) (data : list Z) : list Z := u16 type ++ vector16 data.

(* 4.2.8: KeyShareEntry *)
Definition key_share_entry (group_key : Z * list Z) : list Z := u16 (fst group_key) ++ vector16 (snd group_key).

(* what a client may put in its hello *)
Inductive client_extension :=
| Host (name : list Z)                    (* RFC 6066 section 3: one host_name *)
| Versions (codes : list Z)               (* 4.2.1 *)
| Shares (entries : list (Z * list Z))    (* 4.2.8 *)
| SigAlgs (codes : list Z)                (* 4.2.3 *)
| Groups (codes : list Z)                 (* 4.2.7 *)
| OtherExt (type : Z) (data : list Z).

Definition client_extension_type (e : client_extension) : Z :=
  match e with
  | Host _ => 0 | Versions _ => 43 | Shares _ => 51 | SigAlgs _ => 13 | Groups _ => 10 | OtherExt t _ => t
  end.
Definition client_extension_data (e : client_extension) : list Z :=
  match e with
  | Host name => vector16 ([0] ++ vector16 name)
  | Versions codes => vector8 (u16s codes)
  | Shares l => vector16 (flat_map key_share_entry l)
  | SigAlgs codes => vector16 (u16s codes)
  | Groups codes => vector16 (u16s codes)
  | OtherExt _ data => data
  end.
Definition client_extension_wire (e : client_extension) : list Z :=
  extension (client_extension_type e) (client_extension_data e).

(* 4.1.2 *)
Record client_hello_msg := {
  m_random : list Z; m_session_id : list Z; m_suites : list Z; m_extensions : list client_extension }.
Definition client_hello_wire (m : client_hello_msg) : list Z :=
  u16 0x0303 ++ m_random m ++ vector8 (m_session_id m) ++ vector16 (u16s (m_suites m)) ++ vector8 [0] ++
  vector16 (flat_map client_extension_wire (m_extensions m)).

(* what a server may put in its hello *)
Inductive server_extension :=
| SelectedVersion (code : Z)
| SelectedShare (entry : Z * list Z)
| OtherServerExt (type : Z) (data : list Z).
Definition server_extension_wire (e : server_extension) : list Z :=
  match e with
  | SelectedVersion code => extension 43 (u16 code)
  | SelectedShare e => extension 51 (key_share_entry e)
  | OtherServerExt t data => extension t data
  end.

(* 4.1.3 *)
Record server_hello_msg := {
  s_random : list Z; s_session_id : list Z; s_suite : Z; s_extensions : list server_extension }.
Definition server_hello_wire (m : server_hello_msg) : list Z :=
  u16 0x0303 ++ s_random m ++ vector8 (s_session_id m) ++ u16 (s_suite m) ++ [0] ++
  vector16 (flat_map server_extension_wire (s_extensions m)).

(* 4.3.2: CertificateRequest with signature_algorithms *)
Definition certificate_request_wire (context : list Z) (schemes : list Z) : list Z :=
  vector8 context ++ vector16 (extension 13 (vector16 (u16s schemes))).
(* 4.4.2: Certificate with one entry without extensions *)
Definition certificate_wire (context cert : list Z) : list Z :=
  vector8 context ++ vector24 (vector24 cert ++ vector16 []).
(* 4.4.3: CertificateVerify *)
Definition certificate_verify_wire (scheme : Z) (signature : list Z) : list Z :=
  u16 scheme ++ vector16 signature.
