(* What a parsed hello must show of the message on the wire. *)
From Coq Require Import List ZArith Bool.
From Verif.Model Require Import Base Suite Extensions Hello.
From Verif.Spec Require Import Rfc8446Hello.
Import ListNotations.
Open Scope Z_scope.

(* the suites of the library, the groups it has names for *)
Definition suites_known : list cipher_suite := [AES_128_GCM_SHA256; AES_256_GCM_SHA384; CHACHA20_POLY1305_SHA256; SCSV].
Definition groups_known : list named_group :=
  [Secp256r1; Secp384r1; Secp521r1; X25519g; X448; Ffdhe2048; Ffdhe3072; Ffdhe4096; Ffdhe6144; Ffdhe8192].

(* the offered suites the library has, in the order offered *)
Definition suites_of (codes : list Z) : list cipher_suite :=
  flat_map (fun code => filter (fun s => suite_u16 s =? code) suites_known) codes.
Definition suite_of (code : Z) : option cipher_suite := find (fun s => suite_u16 s =? code) suites_known.

Definition group_of (code : Z) : option named_group := find (fun g => named_group_u16 g =? code) groups_known.
Definition shares_of (l : list (Z * list Z)) : list kse :=
  flat_map (fun e => match group_of (fst e) with Some g => [KSE g (snd e)] | None => [] end) l.

(* an empty session id is no session id *)
Definition session_of (l : list Z) : option (list Z) := match l with [] => None | _ => Some l end.

Definition client_view (e : client_extension) : list client_ext :=
  match e with
  | Host name => [CServerName name]
  | Versions codes => [CSupportedVersion (existsb (Z.eqb 0x0304) codes)]
  | Shares l => [CKeyShare (shares_of l)]
  | SigAlgs _ | Groups _ | OtherExt _ _ => []
  end.
Definition hello_view (m : client_hello_msg) : client_hello :=
  ClientHello (m_random m) (suites_of (m_suites m)) (session_of (m_session_id m)) (flat_map client_view (m_extensions m)).

Definition server_view (e : server_extension) : list server_ext :=
  match e with
  | SelectedVersion code => [SSupportedVersions (code =? 0x0304)]
  | SelectedShare s => [SKeyShare (shares_of [s])]
  | OtherServerExt _ _ => []
  end.

(* ---- well-formed messages (RFC 8446 4.1.2, 4.1.3, 4.2) ---- *)

Definition code16 (n : Z) : Prop := 0 <= n < 2 ^ 16.
Definition fits16 (l : list Z) : Prop := Z.of_nat (length l) < 2 ^ 16.

(* a key share entry the library can hold: a known group and a key of at least 4 bytes (every group of
   RFC 8446 has more) *)
Definition share_ok (e : Z * list Z) : Prop :=
  group_of (fst e) <> None /\ (4 <= length (snd e))%nat /\ Z.of_nat (length (snd e)) + 4 < 2 ^ 16.

Definition client_ext_ok (e : client_extension) : Prop :=
  code16 (client_extension_type e) /\ fits16 (client_extension_data e) /\
  match e with
  | Host name => utf8_valid name = true
  | Versions codes => (length codes < 128)%nat /\ Forall code16 codes
  | Shares l => l <> [] /\ Forall share_ok l
  | SigAlgs _ | Groups _ => True
  | OtherExt t _ => t <> 0 /\ t <> 43 /\ t <> 51
  end.
(* everything but the extensions; the library takes no other session id length, and its minimum
   message length of 45 wants an extension or two suites *)
Definition hello_header_ok (m : client_hello_msg) : Prop :=
  length (m_random m) = 32%nat /\ (m_session_id m = [] \/ length (m_session_id m) = 32%nat) /\
  ((2 <= length (m_suites m))%nat \/ m_extensions m <> []) /\ Z.of_nat (length (m_suites m)) < 2 ^ 15 /\ Forall code16 (m_suites m).
Definition client_hello_ok (m : client_hello_msg) : Prop :=
  hello_header_ok m /\ fits16 (flat_map client_extension_wire (m_extensions m)) /\ Forall client_ext_ok (m_extensions m).

Definition server_ext_ok (e : server_extension) : Prop :=
  match e with
  | SelectedVersion code => code16 code
  | SelectedShare s => share_ok s
  | OtherServerExt t data => code16 t /\ fits16 data /\ t <> 0 /\ t <> 43 /\ t <> 51
  end.
Definition server_hello_ok (m : server_hello_msg) : Prop :=
  length (s_random m) = 32%nat /\ (s_session_id m = [] \/ length (s_session_id m) = 32%nat) /\
  code16 (s_suite m) /\ fits16 (flat_map server_extension_wire (s_extensions m)) /\ Forall server_ext_ok (s_extensions m).
