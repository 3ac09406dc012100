(* RFC 8446 sections 5.3, 7.1, 7.3: key schedule, traffic keys and per-record nonces. *)
From Coq Require Import List ZArith.
From Coq Require String.
From Verif Require Import Spec.Enc Spec.Rfc4648 Spec.Rfc2104.
Import ListNotations.
Import String.StringSyntax.
Local Open Scope string_scope.
Local Open Scope list_scope.
Open Scope Z_scope.

(* 3.4: opaque<0..255> *)
Definition vec8 (l : list Z) : list Z := Z.of_nat (length l) :: l.

(* 7.1: struct { uint16 length; opaque label<7..255> = "tls13 " + Label; opaque context<0..255> } *)
Definition HkdfLabel (label context : list Z) (Length : nat) : list Z :=
  be_enc 2 (Z.of_nat Length) ++ vec8 (codes "tls13 " ++ label) ++ vec8 context.

Section Schedule.
  Context (A : alg).
  Definition Expand_Label (Secret Label Context : list Z) (Length : nat) : list Z :=
    match HKDF_Expand A Secret (HkdfLabel Label Context Length) Length with Some k => k | None => [] end.
  Definition Derive_Secret (Secret Label Messages : list Z) : list Z :=
    Expand_Label Secret Label (alg_hash A Messages) (alg_len A).
  Definition zeros : list Z := repeat 0 (alg_len A).

  Definition Early_Secret : list Z := HKDF_Extract A zeros zeros.
  Definition Handshake_Secret (ecdhe : list Z) : list Z :=
    HKDF_Extract A (Derive_Secret Early_Secret (codes "derived") []) ecdhe.
  Definition Master_Secret (ecdhe : list Z) : list Z :=
    HKDF_Extract A (Derive_Secret (Handshake_Secret ecdhe) (codes "derived") []) zeros.
  Definition client_handshake_traffic_secret (ecdhe hellos : list Z) : list Z :=
    Derive_Secret (Handshake_Secret ecdhe) (codes "c hs traffic") hellos.
  Definition server_handshake_traffic_secret (ecdhe hellos : list Z) : list Z :=
    Derive_Secret (Handshake_Secret ecdhe) (codes "s hs traffic") hellos.
  Definition client_application_traffic_secret_0 (ecdhe messages : list Z) : list Z :=
    Derive_Secret (Master_Secret ecdhe) (codes "c ap traffic") messages.
  Definition server_application_traffic_secret_0 (ecdhe messages : list Z) : list Z :=
    Derive_Secret (Master_Secret ecdhe) (codes "s ap traffic") messages.

  (* 7.3 *)
  Definition write_key (Secret : list Z) (key_length : nat) : list Z :=
    Expand_Label Secret (codes "key") [] key_length.
  Definition write_iv (Secret : list Z) (iv_length : nat) : list Z :=
    Expand_Label Secret (codes "iv") [] iv_length.
End Schedule.

(* 5.3: the sequence number in network order, left-padded to the IV length, XORed with the IV *)
Definition record_nonce (iv : list Z) (seq : Z) : list Z :=
  map (fun p => Z.lxor (fst p) (snd p)) (combine iv (be_enc (length iv) seq)).
