(* What can bring an end down before any keys are agreed *)
From Verif Require Import Model.Base Model.Ecdsa Model.Extensions Model.Hello Model.Record Model.Certificate Model.Server Spec.HelloPanics.
From Verif Require Spec.Rfc8446Hello Spec.Ecdsa.

(* what the server needs of its own configuration and of its random numbers: a certificate that fits in a message, secrets of
   at most 256 bits, and among the nonces one that gives a signature *)
Definition can_serve (cfg : server_config) (d : draws) : Prop :=
  zlen (ct_raw (sc_cert cfg)) < 2^19 /\ Forall (fun s => 0 <= s < 2^256) (d_secrets d) /\
  forall digest, length digest = 32%nat -> exists k, In k (d_nonces d) /\ Ecdsa.sign_with (sk_secret (sc_privkey cfg)) (Ecdsa.hash_int digest) k <> None.

(* a ClientHello with key shares the server stumbles over: in a key_share extension a secp256r1 share with no X25519 share before it,
   or a first share that is an X25519 one of more than 32 bytes *)
Definition share_trouble (ch : client_hello) : Prop :=
  (exists pre a k b post, ch_exts ch = pre ++ CKeyShare (a ++ KSE Secp256r1 k :: b) :: post /\ Forall (fun s => ks_group s <> X25519g) a) \/
  (exists pre k l post, ch_exts ch = pre ++ CKeyShare (KSE X25519g k :: l) :: post /\ (32 < length k)%nat).

(* x is the first read *)
Inductive hello_crash (cfg : server_config) (d : draws) (x : list Z) : Prop :=
| hcrash_cut t v1 v2 a b rest :      (* one to three bytes are missing *)
    x = t :: v1 :: v2 :: a :: b :: rest -> In t [0; 20; 21; 22; 23] -> zlen rest < 256 * a + b <= zlen rest + 3 -> hello_crash cfg d x
| hcrash_alert n r :                 (* an alert of fewer than two bytes *)
    record_from_raw x = Ok (n, r) -> r_type r = RAlert -> (length (r_fragment r) < 2)%nat -> hello_crash cfg d x
| hcrash_frame n r ty b1 b2 b3 rest :   (* a message that is said to be longer than it is *)
    record_from_raw x = Ok (n, r) -> r_type r = RHandshake -> r_fragment r = ty :: b1 :: b2 :: b3 :: rest -> zlen rest < b1 * 65536 + b2 * 256 + b3 -> hello_crash cfg d x
| hcrash_hello n r body rest :       (* a ClientHello: one of Spec/HelloPanics.v, or one with such shares, or the server is not able to serve *)
    record_from_raw x = Ok (n, r) -> r_type r = RHandshake -> r_fragment r = Rfc8446Hello.handshake 1 body ++ rest ->
    (can_serve cfg d -> client_hello_panic body \/ exists ch, client_hello_from_raw body = Ok ch /\ share_trouble ch) -> hello_crash cfg d x.

(* ---- the same for a client ---- *)
(* a ServerHello with an X25519 share of more than 32 bytes *)
Definition long_share (sh : server_hello) : Prop :=
  exists pre k l post, sh_exts sh = pre ++ SKeyShare (KSE X25519g k :: l) :: post /\ (32 < length k)%nat.

(* x is what has arrived *)
Inductive server_hello_crash (x : list Z) : Prop :=
| shcrash_cut t v1 v2 a b rest :      (* one to three bytes are missing *)
    x = t :: v1 :: v2 :: a :: b :: rest -> In t [0; 20; 21; 22; 23] -> zlen rest < 256 * a + b <= zlen rest + 3 -> server_hello_crash x
| shcrash_alert n r :                 (* an alert of fewer than two bytes *)
    record_from_raw x = Ok (n, r) -> r_type r = RAlert -> (length (r_fragment r) < 2)%nat -> server_hello_crash x
| shcrash_frame n r ty b1 b2 b3 rest :   (* a message that is said to be longer than it is *)
    record_from_raw x = Ok (n, r) -> r_type r = RHandshake -> r_fragment r = ty :: b1 :: b2 :: b3 :: rest -> zlen rest < b1 * 65536 + b2 * 256 + b3 -> server_hello_crash x
| shcrash_hello n r body rest :       (* a ServerHello: one of Spec/HelloPanics.v, or one with such a share *)
    record_from_raw x = Ok (n, r) -> r_type r = RHandshake -> r_fragment r = Rfc8446Hello.handshake 2 body ++ rest ->
    server_hello_panic body \/ (exists sh, server_hello_from_raw body = Ok sh /\ long_share sh) -> server_hello_crash x.
