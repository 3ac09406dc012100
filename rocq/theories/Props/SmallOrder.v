(* C95: the secret of a handshake depends on the keys of both ends *)
From Coq Require Import Lia.
From Verif Require Import Model.Base Model.Alert Model.Suite Model.Record Model.Curve Model.Ecdsa Model.Extensions Model.Hello Model.Kex Model.Handshake
  Model.Server Model.Client Spec.Enc Spec.Rfc2104 Spec.Rfc7748 Spec.KeyShare Spec.Rfc8446Keys Spec.Endpoints Spec.Connection Spec.ClientConnection
  Spec.HelloView Spec.Negotiation Spec.SmallOrder.
From Verif Require Spec.Rfc8446Hello.
From Verif Require Proofs.SmallOrder Proofs.SmallShares Proofs.Kex Proofs.ServerExample Proofs.LoopbackExample.

(* With a peer that draws a key as RFC 7748 says, the secret is never all zero, and two keys of one's own give the same
   secret only if they are the same number or add up to 8 times the order of the base point.  Full statement: the same without
   the `hd` hypotheses; see C32 for what happens to shares and secrets that start with a zero byte. *)
Theorem C95_honest_nonzero_partial : forall a b, 0 <= a < 2 ^ 256 -> let B := X25519 (x25519_private b) base_point in hd 0 B <> 0 ->
  exists k, shared_secret (E:=Empty_set) (PrivateKey curve25519 a) (KSE X25519g B) = Ok k /\ k <> repeat 0 32.
Proof. exact Proofs.SmallShares.honest_nonzero. Qed.
Print Assumptions C95_honest_nonzero_partial.
Theorem C95_honest_different_partial : forall a a' b, 0 <= a < 2 ^ 256 -> 0 <= a' < 2 ^ 256 -> let B := X25519 (x25519_private b) base_point in
  hd 0 B <> 0 -> hd 0 (X25519 (x25519_private a) B) <> 0 -> hd 0 (X25519 (x25519_private a') B) <> 0 ->
  (shared_secret (E:=Empty_set) (PrivateKey curve25519 a) (KSE X25519g B) = shared_secret (E:=Empty_set) (PrivateKey curve25519 a') (KSE X25519g B)
   <-> twins (x25519_private a) (x25519_private a')).
Proof. exact Proofs.SmallShares.honest_equal. Qed.
Print Assumptions C95_honest_different_partial.
(* the share sent, too, tells the keys apart *)
Theorem C95_shares_different : forall a b ea eb, 0 <= a < 2 ^ 256 -> 0 <= b < 2 ^ 256 ->
  key_share_of (E:=Empty_set) (PrivateKey curve25519 a) = Ok ea -> key_share_of (E:=Empty_set) (PrivateKey curve25519 b) = Ok eb ->
  (kse_bytes (E:=Empty_set) ea = kse_bytes (E:=Empty_set) eb <-> twins (x25519_private a) (x25519_private b)).
Proof. exact Proofs.SmallShares.sent_equal. Qed.
Print Assumptions C95_shares_different.
(* what is drawn is at most 256 bits; three of them say nothing in X25519, but these two keys differ *)
Example C95_not_twins : ~ twins (x25519_private 256) (x25519_private 274).
Proof.
  assert (Z.eqb (decodeScalar (x25519_private 256)) (decodeScalar (x25519_private 274)) = false) as N by (vm_compute; reflexivity).
  assert (Z.eqb (decodeScalar (x25519_private 256) + decodeScalar (x25519_private 274)) (8 * base_order) = false) as M by (vm_compute; reflexivity).
  intros [E|E]; [rewrite E, Z.eqb_refl in N; discriminate N|rewrite E, Z.eqb_refl in M; discriminate M].
Qed.
Example C95_twins : twins (x25519_private (2^255)) (x25519_private (2^255 + 2^248)).
Proof. left. vm_compute. reflexivity. Qed.
Example C95_hyps : hd 0 (X25519 (x25519_private 256) base_point) <> 0.
Proof. rewrite Kex.public_256. discriminate. Qed.

(* But a share of the peer that fixes the secret is not refused: with each of four of them the secret is zero whatever key
   was drawn. *)
Theorem C95_fixed_refuted : forall secret e, 0 <= secret < 2 ^ 256 -> In (ks_opaque e) small_shares ->
  shared_secret (E:=tls_error) (PrivateKey curve25519 secret) e = Ok (repeat 0 32).
Proof. exact (@Proofs.SmallShares.fixed tls_error). Qed.
Print Assumptions C95_fixed_refuted.
Example C95_small_shares : NoDup small_shares /\ Forall (fun u => is_bytes u /\ length u = 32%nat) small_shares.
Proof.
  split; [|apply Forall_forall; exact Proofs.SmallShares.small_bytes].
  repeat (apply NoDup_cons; [vm_compute; intuition discriminate|]). apply NoDup_nil.
Qed.
(* A server answers a ClientHello with such a share (C68 says how the handshake then ends in a connection), and the traffic
   secrets of that connection are functions of the two hello messages, which went over the wire in the clear *)
Theorem C95_server_refuted : forall cfg d m pre key l post,
  client_hello_ok m -> Rfc8446Hello.m_extensions m = pre ++ Rfc8446Hello.Shares ((x25519_code, key) :: l) :: post ->
  Forall (fun e => ~ has_shares e) (pre ++ post) -> Forall (acceptable (sc_server_name cfg)) (pre ++ post) ->
  (exists code, In code (Rfc8446Hello.m_suites m) /\ implemented code) ->
  In key small_shares -> 0 <= hd 0 (d_secrets d) < 2^256 ->
  exists body g, answers cfg d (Rfc8446Hello.handshake 1 (Rfc8446Hello.client_hello_wire m)) (hello_view m) body g /\
    client_secret g = client_handshake_traffic_secret (g_alg g) (repeat 0 32)
      (Rfc8446Hello.handshake 1 (Rfc8446Hello.client_hello_wire m) ++ Rfc8446Hello.handshake 2 body) /\
    server_secret g = server_handshake_traffic_secret (g_alg g) (repeat 0 32)
      (Rfc8446Hello.handshake 1 (Rfc8446Hello.client_hello_wire m) ++ Rfc8446Hello.handshake 2 body).
Proof. exact Proofs.SmallShares.server_known. Qed.
Print Assumptions C95_server_refuted.
(* and a client goes on after a ServerHello with such a share (C71 says how the handshake then ends) *)
Theorem C95_client_refuted : forall cfg e random key cs, client_ok cfg e -> length random = 32%nat -> In key small_shares ->
  In cs [AES_128_GCM_SHA256; AES_256_GCM_SHA384; CHACHA20_POLY1305_SHA256] ->
  let answer := Rfc8446Hello.handshake 2 (Rfc8446Hello.server_hello_wire
    {| Rfc8446Hello.s_random := random; Rfc8446Hello.s_session_id := e_session e; Rfc8446Hello.s_suite := suite_u16 cs;
       Rfc8446Hello.s_extensions := [Rfc8446Hello.SelectedShare (29, key); Rfc8446Hello.SelectedVersion 0x0304] |}) in
  exists sh g, agrees cfg e answer sh g /\
    client_secret g = client_handshake_traffic_secret (g_alg g) (repeat 0 32) (client_greeting cfg e ++ answer) /\
    server_secret g = server_handshake_traffic_secret (g_alg g) (repeat 0 32) (client_greeting cfg e ++ answer).
Proof. exact Proofs.SmallShares.client_known. Qed.
Print Assumptions C95_client_refuted.
(* the configurations of the other examples and a ClientHello with the share 1 meet the hypotheses *)
Definition fixing_hello : Rfc8446Hello.client_hello_msg :=
  {| Rfc8446Hello.m_random := repeat 7 32; Rfc8446Hello.m_session_id := repeat 9 32; Rfc8446Hello.m_suites := [0x1301];
     Rfc8446Hello.m_extensions := [Rfc8446Hello.Shares [(29, le_enc 32 1)]; Rfc8446Hello.Versions [0x0304]] |}.
Example C95_server_ex : let cfg := ServerExample.ex_cfg false in let d := ServerExample.ex_draws in
  client_hello_ok fixing_hello /\ Rfc8446Hello.m_extensions fixing_hello = [] ++ Rfc8446Hello.Shares ((x25519_code, le_enc 32 1) :: []) :: [Rfc8446Hello.Versions [0x0304]] /\
  Forall (fun e => ~ has_shares e) ([] ++ [Rfc8446Hello.Versions [0x0304]]) /\ Forall (acceptable (sc_server_name cfg)) ([] ++ [Rfc8446Hello.Versions [0x0304]]) /\
  (exists code, In code (Rfc8446Hello.m_suites fixing_hello) /\ implemented code) /\ In (le_enc 32 1) small_shares /\ 0 <= hd 0 (d_secrets d) < 2^256.
Proof.
  split.
  { unfold client_hello_ok, hello_header_ok, fits16. split; [|split; [vm_compute; reflexivity|]].
    - repeat split; try reflexivity; [now right|right; discriminate|repeat constructor; cbn; lia].
    - cbn [Rfc8446Hello.m_extensions fixing_hello].
      repeat (apply Forall_cons || apply Forall_nil); unfold client_ext_ok, code16, fits16; cbn [Rfc8446Hello.client_extension_type];
        (split; [lia|split; [vm_compute; reflexivity|]]).
      + split; [discriminate|]. repeat (apply Forall_cons || apply Forall_nil); (split; [discriminate|split; cbn; lia]).
      + split; [cbn; lia|]. repeat constructor; cbn; lia. }
  split; [reflexivity|]. split; [repeat constructor; cbn; tauto|]. split; [repeat constructor; cbn; tauto|].
  split; [exists 0x1301; split; [now left|now left]|]. split; [right; now left|]. cbn. lia.
Qed.
Example C95_client_ex : exists cfg e, client_ok cfg e.
Proof. destruct (Proofs.LoopbackExample.lb_compatible true) as (k & k' & _ & _ & C). eexists _, _. apply C. Qed.
