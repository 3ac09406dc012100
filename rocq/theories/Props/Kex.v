(* C32, C64: the key exchange of the handshake *)
From Coq Require Import Lia.
From Verif.Model Require Import Base Alert Sha2 Hmac Suite Curve Ecdsa KeySchedule Extensions Hello Kex.
From Verif.Spec Require Import Enc Rfc2104 Rfc7748 Rfc8446Keys Tls13Record KeyShare.
From Verif.Proofs Require Kex FastLadder.

(* RFC 7748 section 5.2, first test vector, on the specification *)
Example C31_rfc_vector :
  X25519 [0xa5;0x46;0xe3;0x6b;0xf0;0x52;0x7c;0x9d;0x3b;0x16;0x15;0x4b;0x82;0x46;0x5e;0xdd;0x62;0x14;0x4c;0x0a;0xc1;0xfc;0x5a;0x18;0x50;0x6a;0x22;0x44;0xba;0x44;0x9a;0xc4]
         [0xe6;0xdb;0x68;0x67;0x58;0x30;0x30;0xdb;0x35;0x94;0xc1;0xa4;0x24;0xb1;0x5f;0x7c;0x72;0x66;0x24;0xec;0x26;0xb3;0x35;0x3b;0x10;0xa9;0x03;0xa6;0xd0;0xab;0x1c;0x4c]
  = [0xc3;0xda;0x55;0x37;0x9d;0xe9;0xc6;0x90;0x8e;0x94;0xea;0x4d;0xf2;0x8d;0x08;0x4f;0x32;0xec;0xcf;0x03;0x49;0x1c;0x71;0xf7;0x54;0xb4;0x07;0x55;0x77;0xa2;0x85;0x52].
Proof. rewrite <- FastLadder.fast_ok. vm_compute. reflexivity. Qed.

(* the share put on the wire *)
Theorem C32_sent : forall secret, 0 <= secret < 2 ^ 256 -> exists e,
  key_share_of (E:=Empty_set) (PrivateKey curve25519 secret) = Ok e /\ ks_group e = X25519g /\
  kse_bytes (E:=Empty_set) e = Ok ([0x00; 0x1d; 0x00; 0x20] ++ X25519 (x25519_private secret) base_point).
Proof. exact Kex.sent. Qed.
Print Assumptions C32_sent.

(* the secret used, whatever the peer sends *)
Theorem C32_shared_exact : forall secret e, 0 <= secret < 2 ^ 256 ->
  is_bytes (ks_opaque e) -> (length (ks_opaque e) <= 32)%nat ->
  shared_secret (E:=Empty_set) (PrivateKey curve25519 secret) e
  = Ok (zeros_to_end (X25519 (x25519_private secret) (zeros_to_end (ks_opaque e)))).
Proof. exact Kex.shared_exact. Qed.
Print Assumptions C32_shared_exact.

(* full statement: the same without the two `hd` hypotheses; it is refuted below *)
Theorem C32_shared_partial : forall secret e, 0 <= secret < 2 ^ 256 ->
  is_bytes (ks_opaque e) -> length (ks_opaque e) = 32%nat ->
  hd 0 (ks_opaque e) <> 0 -> hd 0 (X25519 (x25519_private secret) (ks_opaque e)) <> 0 ->
  shared_secret (E:=Empty_set) (PrivateKey curve25519 secret) e = Ok (X25519 (x25519_private secret) (ks_opaque e)).
Proof. exact Kex.shared_partial. Qed.
Print Assumptions C32_shared_partial.

Theorem C32_traffic_secrets_partial : forall cs t0 a A klen secret e hellos,
  suite_tshash cs = Ok t0 -> suite_parameters (suite_u16 cs) = Some (a, A, klen) ->
  is_bytes hellos -> zlen hellos < 2^53 ->
  0 <= secret < 2 ^ 256 -> ks_group e = X25519g -> is_bytes (ks_opaque e) -> length (ks_opaque e) = 32%nat ->
  hd 0 (ks_opaque e) <> 0 -> hd 0 (X25519 (x25519_private secret) (ks_opaque e)) <> 0 ->
  let ecdhe := X25519 (x25519_private secret) (ks_opaque e) in
  exists ks, from_handshake (th_update t0 hellos) (PrivateKey curve25519 secret) e = Ok ks /\
    hk_prk (ks_client_hs ks) = client_handshake_traffic_secret A ecdhe hellos /\
    hk_prk (ks_server_hs ks) = server_handshake_traffic_secret A ecdhe hellos /\
    hk_prk (ks_master ks) = Master_Secret A ecdhe.
Proof. exact Kex.secrets_partial. Qed.
Print Assumptions C32_traffic_secrets_partial.

Theorem C32_other_groups_refused : forall th pk e, ks_group e <> X25519g -> from_handshake th pk e = Err HandshakeFailure.
Proof. exact Kex.other_groups. Qed.
Print Assumptions C32_other_groups_refused.

(* the RFC 7748 vector meets the hypotheses *)
Example C32_hyps :
  let secret := 0xa546e36bf0527c9d3b16154b82465edd62144c0ac1fc5a18506a2244ba449ac4 in
  let peer := [0xe6;0xdb;0x68;0x67;0x58;0x30;0x30;0xdb;0x35;0x94;0xc1;0xa4;0x24;0xb1;0x5f;0x7c;0x72;0x66;0x24;0xec;0x26;0xb3;0x35;0x3b;0x10;0xa9;0x03;0xa6;0xd0;0xab;0x1c;0x4c] in
  0 <= secret < 2 ^ 256 /\ is_bytes peer /\ length peer = 32%nat /\ hd 0 peer <> 0 /\ hd 0 (X25519 (x25519_private secret) peer) <> 0.
Proof.
  split; [lia|]. split; [unfold is_bytes; repeat constructor; lia|]. split; [reflexivity|]. split; [discriminate|].
  match goal with |- hd 0 (X25519 ?k ?u) <> 0 =>
    replace (X25519 k u) with (0xc3 :: tl (X25519 k u)); [discriminate|] end.
  match goal with |- _ = X25519 ?k ?u => let k' := eval vm_compute in k in change k with k' end.
  rewrite C31_rfc_vector. reflexivity.
Qed.

(* whenever the shared secret starts with a zero byte another secret is used *)
Theorem C32_secret_with_leading_zero_refuted : forall secret e, 0 <= secret < 2 ^ 256 ->
  is_bytes (ks_opaque e) -> length (ks_opaque e) = 32%nat -> hd 0 (ks_opaque e) <> 0 ->
  hd 0 (X25519 (x25519_private secret) (ks_opaque e)) = 0 -> X25519 (x25519_private secret) (ks_opaque e) <> repeat 0 32 ->
  exists r, shared_secret (E:=Empty_set) (PrivateKey curve25519 secret) e = Ok r /\
    r <> X25519 (x25519_private secret) (ks_opaque e).
Proof. exact Kex.shared_refuted. Qed.
Print Assumptions C32_secret_with_leading_zero_refuted.
Example C32_leading_zero_ex : hd 0 base_point <> 0 /\ length base_point = 32%nat /\
  hd 0 (X25519 (x25519_private 274) base_point) = 0 /\ X25519 (x25519_private 274) base_point <> repeat 0 32.
Proof. rewrite Kex.public_274. repeat split; discriminate. Qed.

(* a peer key with a leading zero byte: this one gives the all-zero secret for every private key,
   although its X25519 result is another *)
Theorem C32_key_with_leading_zero_refuted :
  (forall secret, 0 <= secret < 2 ^ 256 ->
    shared_secret (E:=Empty_set) (PrivateKey curve25519 secret) (KSE X25519g (0 :: 1 :: repeat 0 30)) = Ok (repeat 0 32)) /\
  (exists secret, 0 <= secret < 2 ^ 256 /\ X25519 (x25519_private secret) (0 :: 1 :: repeat 0 30) <> repeat 0 32).
Proof.
  split; [exact Kex.zero_secret|]. exists 256. split; [lia|]. rewrite Kex.true_secret_256. discriminate.
Qed.
Print Assumptions C32_key_with_leading_zero_refuted.

(* C64: two endpoints of this library, each receiving the other's share, hold the same secret
   unless a share starts with a zero byte *)
Theorem C64_endpoints_agree_partial : forall a b, 0 <= a < 2 ^ 256 -> 0 <= b < 2 ^ 256 ->
  let A := X25519 (x25519_private a) base_point in
  let B := X25519 (x25519_private b) base_point in
  hd 0 A <> 0 -> hd 0 B <> 0 ->
  exists k, shared_secret (E:=Empty_set) (PrivateKey curve25519 a) (KSE X25519g B) = Ok k /\
            shared_secret (E:=Empty_set) (PrivateKey curve25519 b) (KSE X25519g A) = Ok k.
Proof. exact Kex.both_agree. Qed.
Print Assumptions C64_endpoints_agree_partial.
Example C64_hyps : hd 0 (X25519 (x25519_private 256) base_point) <> 0.
Proof. rewrite Kex.public_256. discriminate. Qed.
