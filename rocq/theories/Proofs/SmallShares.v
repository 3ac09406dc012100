(* Shares that fix the secret, at the two ends *)
From Verif Require Import Proofs.Util Proofs.Bytes Model.Alert Model.Bytes Model.Suite Model.KeySchedule Model.Record
  Model.Curve Model.Ecdsa Model.X509 Model.Extensions Model.Hello Model.Kex Model.Handshake Model.Server Model.Client
  Spec.Enc Spec.Rfc2104 Spec.Rfc7748 Spec.KeyShare Spec.Rfc8446Keys Spec.Tls13Record Spec.Endpoints Spec.Connection
  Spec.ClientConnection Spec.HelloView Spec.Negotiation Spec.SmallOrder.
From Verif Require Spec.Rfc8446Hello.
From Verif Require Import Proofs.ServerSteps Proofs.ServerAccept2 Proofs.ServerExample.
From Verif Require Proofs.Kex Proofs.Hello Proofs.SmallOrder Proofs.ClientSteps Proofs.X25519Props.

Local Opaque X25519 shared_secret key_share_of handshake_from_raw server_hello_from_raw.

Local Lemma Ok_inj {E A} (a b : A) : Ok (E:=E) a = Ok b -> a = b.
Proof. congruence. Qed.
Lemma small_bytes u : In u small_shares -> is_bytes u /\ length u = 32%nat.
Proof. intros [<-|[<-|[<-|[<-|[]]]]]; (split; [apply is_bytes_check; vm_compute; reflexivity|vm_compute; reflexivity]). Qed.
Lemma small_kept u : In u small_shares -> zeros_to_end u = u.
Proof. intros [<-|[<-|[<-|[<-|[]]]]]; vm_compute; reflexivity. Qed.
Lemma fixed {E} s e : 0 <= s < 2 ^ 256 -> In (ks_opaque e) small_shares -> shared_secret (E:=E) (PrivateKey curve25519 s) e = Ok (repeat 0 32).
Proof.
  intros Hs I. destruct (small_bytes _ I) as (B & L). rewrite Kex.shared_exact; [|exact Hs|exact B|lia].
  destruct (Kex.private_ok s) as (Bp & Lp). rewrite (small_kept _ I), SmallOrder.small_zero by assumption. reflexivity.
Qed.

Lemma base_9 : base_point = le_enc 32 9. Proof. reflexivity. Qed.
Lemma sent_equal a b ea eb : 0 <= a < 2 ^ 256 -> 0 <= b < 2 ^ 256 ->
  key_share_of (E:=Empty_set) (PrivateKey curve25519 a) = Ok ea -> key_share_of (E:=Empty_set) (PrivateKey curve25519 b) = Ok eb ->
  (kse_bytes (E:=Empty_set) ea = kse_bytes (E:=Empty_set) eb <-> twins (x25519_private a) (x25519_private b)).
Proof.
  intros Ha Hb Ea Eb. destruct (Kex.sent (E:=Empty_set) a Ha) as (ea' & Ea' & _ & Ba). destruct (Kex.sent (E:=Empty_set) b Hb) as (eb' & Eb' & _ & Bb).
  rewrite Ea in Ea'. rewrite Eb in Eb'. apply Ok_inj in Ea', Eb'. subst ea' eb'. rewrite Ba, Bb, <- SmallOrder.shares_equal, base_9. split.
  - intros E. apply Ok_inj, app_inv_head in E. exact E.
  - intros ->. reflexivity.
Qed.
Lemma honest_nonzero a b : 0 <= a < 2 ^ 256 -> let B := X25519 (x25519_private b) base_point in hd 0 B <> 0 ->
  exists k, shared_secret (E:=Empty_set) (PrivateKey curve25519 a) (KSE X25519g B) = Ok k /\ k <> repeat 0 32.
Proof.
  intros Ha B HB. destruct (X25519Props.X25519_bytes (x25519_private b) base_point) as (BB & LB & _). fold B in BB, LB.
  exists (zeros_to_end (X25519 (x25519_private a) B)). split.
  - rewrite Kex.shared_exact; [|exact Ha|exact BB|cbn [ks_opaque]; lia]. cbn [ks_opaque]. now rewrite (Kex.zeros_to_end_id B LB HB).
  - destruct (X25519Props.X25519_bytes (x25519_private a) B) as (BX & LX & _).
    pose proof (SmallOrder.secret_nonzero (x25519_private a) (x25519_private b)) as N. rewrite <- base_9 in N. fold B in N.
    set (X := X25519 (x25519_private a) B) in *. clearbody X. intros E. apply N. clear - E LX. unfold zeros_to_end in E.
    assert (D : drop_zeros X = []).
    { destruct (drop_zeros X) as [|x t] eqn:D; [reflexivity|exfalso].
      pose proof (Kex.drop_zeros_hd X) as H. rewrite D in H. cbn [app] in E. apply (f_equal (hd 0)) in E. cbn in E. congruence. }
    clear E. assert (A : forall l, drop_zeros l = [] -> l = repeat 0 (length l)).
    { induction l as [|[| |] l IH]; cbn [drop_zeros]; intros H; [reflexivity|cbn [length repeat]; f_equal; auto|discriminate..]. }
    rewrite (A X D), LX. reflexivity.
Qed.
Lemma honest_equal a a' b : 0 <= a < 2 ^ 256 -> 0 <= a' < 2 ^ 256 -> let B := X25519 (x25519_private b) base_point in
  hd 0 B <> 0 -> hd 0 (X25519 (x25519_private a) B) <> 0 -> hd 0 (X25519 (x25519_private a') B) <> 0 ->
  (shared_secret (E:=Empty_set) (PrivateKey curve25519 a) (KSE X25519g B) = shared_secret (E:=Empty_set) (PrivateKey curve25519 a') (KSE X25519g B)
   <-> twins (x25519_private a) (x25519_private a')).
Proof.
  intros Ha Ha' B HB H1 H2. destruct (X25519Props.X25519_bytes (x25519_private b) base_point) as (BB & LB & _). fold B in BB, LB.
  rewrite !Kex.shared_partial by assumption. cbn [ks_opaque]. rewrite <- (SmallOrder.secrets_equal _ _ (x25519_private b)), <- base_9. fold B. split.
  - intros E. apply Ok_inj in E. exact E.
  - intros ->. reflexivity.
Qed.

(* a server answers such a share *)
Lemma server_fixed cfg d m pre key l post :
  client_hello_ok m -> Rfc8446Hello.m_extensions m = pre ++ Rfc8446Hello.Shares ((x25519_code, key) :: l) :: post ->
  Forall (fun e => ~ has_shares e) (pre ++ post) -> Forall (acceptable (sc_server_name cfg)) (pre ++ post) ->
  (exists code, In code (Rfc8446Hello.m_suites m) /\ implemented code) ->
  In key small_shares -> 0 <= hd 0 (d_secrets d) < 2^256 ->
  exists body g, answers cfg d (Rfc8446Hello.handshake 1 (Rfc8446Hello.client_hello_wire m)) (hello_view m) body g /\ g_ecdhe g = repeat 0 32.
Proof.
  intros Hm He Hs Ha Hc Hk Hd. destruct (small_bytes _ Hk) as (B & L).
  destruct (answered cfg d m pre key l post Hm He Hs Ha Hc B L Hd) as (g & cs & _ & A & _ & _ & E).
  eexists _, g. split; [exact A|]. rewrite E, (small_kept _ Hk). destruct (Kex.private_ok (hd 0 (d_secrets d))). rewrite SmallOrder.small_zero by assumption. reflexivity.
Qed.

Lemma suite_all cs : In cs [AES_128_GCM_SHA256; AES_256_GCM_SHA384; CHACHA20_POLY1305_SHA256] ->
  exists c a A klen, suite_cipher cs = Ok c /\ suite_parameters (suite_u16 cs) = Some (a, A, klen).
Proof. intros [<-|[<-|[<-|[]]]]; do 4 eexists; (split; reflexivity). Qed.
(* a client agrees to a ServerHello with such a share *)
Lemma client_fixed cfg e random key cs : client_ok cfg e -> length random = 32%nat -> In key small_shares ->
  In cs [AES_128_GCM_SHA256; AES_256_GCM_SHA384; CHACHA20_POLY1305_SHA256] ->
  let answer := Rfc8446Hello.handshake 2 (Rfc8446Hello.server_hello_wire
    {| Rfc8446Hello.s_random := random; Rfc8446Hello.s_session_id := e_session e; Rfc8446Hello.s_suite := suite_u16 cs;
       Rfc8446Hello.s_extensions := [Rfc8446Hello.SelectedShare (29, key); Rfc8446Hello.SelectedVersion 0x0304] |}) in
  exists sh g, agrees cfg e answer sh g /\ g_ecdhe g = repeat 0 32.
Proof.
  intros Ok' Lr Ik Ics answer. pose proof Ok' as (Hc & _ & _ & Bs & Ls & _). destruct (small_bytes _ Ik) as (Bk & Lk).
  set (am := {| Rfc8446Hello.s_random := random |}) in answer. set (body := Rfc8446Hello.server_hello_wire am) in *.
  assert (Lb : zlen (flat_map Rfc8446Hello.server_extension_wire (Rfc8446Hello.s_extensions am)) = 46).
  { cbn [am Rfc8446Hello.s_extensions flat_map Rfc8446Hello.server_extension_wire].
    unfold Rfc8446Hello.extension, Rfc8446Hello.key_share_entry, Rfc8446Hello.vector16. cbn [fst snd].
    unfold zlen, Rfc8446Hello.u16. rewrite ?app_length, ?be_enc_length, ?app_length, ?be_enc_length, Lk. cbn [length]. lia. }
  assert (Am : server_hello_ok am).
  { unfold server_hello_ok. split; [exact Lr|]. split; [right; exact Ls|]. split; [destruct Ics as [<-|[<-|[<-|[]]]]; unfold code16; cbn; lia|].
    split; [unfold fits16; unfold zlen in Lb; lia|]. repeat (apply Forall_cons || apply Forall_nil); cbn [server_ext_ok]; unfold code16, fits16; [|lia].
    split; [discriminate|]. unfold zlen in Lb. cbn [fst snd]. lia. }
  pose proof (Hello.server_parse am Am) as SP. fold body in SP.
  assert (Es : suite_of (Rfc8446Hello.s_suite am) = Some cs) by (cbn [am Rfc8446Hello.s_suite]; destruct Ics as [<-|[<-|[<-|[]]]]; reflexivity).
  rewrite Es in SP.
  assert (Ev : flat_map server_view (Rfc8446Hello.s_extensions am) = [SKeyShare [KSE X25519g key]; SSupportedVersions true]) by reflexivity.
  rewrite Ev in SP. change (server_tls13 [SKeyShare [KSE X25519g key]; SSupportedVersions true]) with true in SP. cbv iota in SP.
  assert (Lz : zlen body < 2^16).
  { unfold body, Rfc8446Hello.server_hello_wire. set (X := flat_map Rfc8446Hello.server_extension_wire (Rfc8446Hello.s_extensions am)) in *. clearbody X.
    unfold Rfc8446Hello.vector8, Rfc8446Hello.vector16. cbn [am Rfc8446Hello.s_random Rfc8446Hello.s_session_id Rfc8446Hello.s_suite].
    unfold zlen in *. unfold Rfc8446Hello.u16. rewrite ?app_length, ?be_enc_length, Lr, Ls. cbn [length]. lia. }
  destruct (suite_all cs Ics) as (c & a & A & klen & Ec & Ep).
  eexists. exists {| g_hellos := client_greeting cfg e ++ answer; g_ecdhe := repeat 0 32; g_cipher := c; g_alg := A; g_klen := klen |}. split; [|reflexivity].
  exists (Handshake HtServerHello body (Rfc8446Hello.handshake 2 body)), (KSE X25519g key), a.
  split. { pose proof (frame_read HtServerHello body [] ltac:(lia)) as FR. rewrite app_nil_r in FR. exact FR. }
  split; [reflexivity|]. cbn [hs_fraqment]. split; [exact SP|]. cbn [sh_exts sh_suite g_hellos g_ecdhe g_cipher g_alg g_klen]. split; [reflexivity|].
  split; [apply ClientSteps.share_first; reflexivity|]. split; [reflexivity|]. split; [apply fixed; [exact Hc|exact Ik]|]. split; [exact Ec|exact Ep].
Qed.
Lemma server_known cfg d m pre key l post :
  client_hello_ok m -> Rfc8446Hello.m_extensions m = pre ++ Rfc8446Hello.Shares ((x25519_code, key) :: l) :: post ->
  Forall (fun e => ~ has_shares e) (pre ++ post) -> Forall (acceptable (sc_server_name cfg)) (pre ++ post) ->
  (exists code, In code (Rfc8446Hello.m_suites m) /\ implemented code) ->
  In key small_shares -> 0 <= hd 0 (d_secrets d) < 2^256 ->
  exists body g, answers cfg d (Rfc8446Hello.handshake 1 (Rfc8446Hello.client_hello_wire m)) (hello_view m) body g /\
    client_secret g = client_handshake_traffic_secret (g_alg g) (repeat 0 32)
      (Rfc8446Hello.handshake 1 (Rfc8446Hello.client_hello_wire m) ++ Rfc8446Hello.handshake 2 body) /\
    server_secret g = server_handshake_traffic_secret (g_alg g) (repeat 0 32)
      (Rfc8446Hello.handshake 1 (Rfc8446Hello.client_hello_wire m) ++ Rfc8446Hello.handshake 2 body).
Proof.
  intros H1 H2 H3 H4 H5 H6 H7. destruct (server_fixed cfg d m pre key l post H1 H2 H3 H4 H5 H6 H7) as (body & g & A & E).
  exists body, g. split; [exact A|]. destruct A as (hs & sh & pk & share & a & _ & _ & _ & _ & _ & Eg & _).
  unfold client_secret, server_secret. rewrite E, Eg. split; reflexivity.
Qed.
Lemma client_known cfg e random key cs : client_ok cfg e -> length random = 32%nat -> In key small_shares ->
  In cs [AES_128_GCM_SHA256; AES_256_GCM_SHA384; CHACHA20_POLY1305_SHA256] ->
  let answer := Rfc8446Hello.handshake 2 (Rfc8446Hello.server_hello_wire
    {| Rfc8446Hello.s_random := random; Rfc8446Hello.s_session_id := e_session e; Rfc8446Hello.s_suite := suite_u16 cs;
       Rfc8446Hello.s_extensions := [Rfc8446Hello.SelectedShare (29, key); Rfc8446Hello.SelectedVersion 0x0304] |}) in
  exists sh g, agrees cfg e answer sh g /\
    client_secret g = client_handshake_traffic_secret (g_alg g) (repeat 0 32) (client_greeting cfg e ++ answer) /\
    server_secret g = server_handshake_traffic_secret (g_alg g) (repeat 0 32) (client_greeting cfg e ++ answer).
Proof.
  intros H1 H2 H3 H4 answer. destruct (client_fixed cfg e random key cs H1 H2 H3 H4) as (sh & g & A & E).
  exists sh, g. split; [exact A|]. destruct A as (hs & share & a & _ & _ & _ & Eg & _).
  unfold client_secret, server_secret. rewrite E, Eg. split; reflexivity.
Qed.
