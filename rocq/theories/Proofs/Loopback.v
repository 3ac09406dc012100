(* A client and a server of this library finish a handshake with each other *)
From Verif Require Import Proofs.Util Proofs.Bytes Model.Alert Model.Bytes Model.Suite Model.Sha2 Model.Hmac Model.KeySchedule Model.Record Model.Channel
  Model.Curve Model.Signature Model.Ecdsa Model.X509 Model.Extensions Model.Hello Model.Kex Model.Handshake Model.Certificate
  Model.Stream Model.AppChannel Model.Keylog Model.Server Model.Client
  Spec.Enc Spec.Rfc2104 Spec.Fips180 Spec.Rfc7748 Spec.KeyShare Spec.Rfc8446Keys Spec.Tls13Record Spec.Endpoints Spec.Writes Spec.Rfc8446Auth Spec.Connection
  Spec.ClientConnection Spec.ClientAccept Spec.HelloView Spec.Negotiation Spec.Handshaking Spec.Loopback.
From Verif Require Spec.Rfc8446Hello Spec.Ecdsa Spec.Ec.
From Verif Require Import Proofs.KeySchedule Proofs.Record Proofs.Channel Proofs.Stream Proofs.ServerRun Proofs.ServerKeys Proofs.Opened
  Proofs.ServerSteps Proofs.ServerFlow Proofs.ClientSteps Proofs.ClientFlow Proofs.ClientRun Proofs.ServerAccept Proofs.ServerAccept2 Proofs.ClientAccept
  Proofs.ClientAccept2 Proofs.ClientProps Proofs.ServerExample.
From Verif Require Proofs.Hmac Proofs.Sha2 Proofs.Auth Proofs.HelloTotal Proofs.Kex Proofs.EcdsaP256 Proofs.Hello Proofs.X25519Props Proofs.Signature Proofs.P256 Proofs.Reads Proofs.ClientReads Proofs.Shorter.

Local Opaque X25519 shared_secret key_share_of handle_client_hello handle_handshake_record record_from_raw X509.get_public_key x509_from_raw
  handshake_from_raw th_update rpp_encrypt rpp_decrypt handle_message handle_server_hello.

Lemma greeting_msg cfg e : client_greeting cfg e = Rfc8446Hello.handshake 1 (Rfc8446Hello.client_hello_wire
  (Hello.hello_msg (e_random e) (Some (e_session e)) [AES_256_GCM_SHA384; AES_128_GCM_SHA256; CHACHA20_POLY1305_SHA256] (e_secret e) (cc_server_name cfg))).
Proof. reflexivity. Qed.
Lemma suite_cipher_inj a b c : suite_cipher a = Ok c -> suite_cipher b = Ok c -> a = b.
Proof. destruct a, b; cbn; intros H1 H2; congruence. Qed.

(* the hellos *)
Lemma hellos_agree cfgs d cfgc e : server_ok cfgs d -> client_ok cfgc e -> 0 <= hd 0 (d_secrets d) < 2^256 ->
  hd 0 (X25519 (x25519_private (hd 0 (d_secrets d))) base_point) <> 0 -> hd 0 (X25519 (x25519_private (e_secret e)) base_point) <> 0 ->
  (forall n, cc_server_name cfgc = Some n -> utf8_valid n = true /\ zlen n <= 65000 /\ (forall h, sc_server_name cfgs = Some h -> n = h)) ->
  exists ch body g sh, answers cfgs d (client_greeting cfgc e) ch body g /\ ch_sid ch = Some (e_session e) /\
    agrees cfgc e (Rfc8446Hello.handshake 2 body) sh g /\ is_bytes body /\ zlen body = 118.
Proof.
  intros (_ & _ & _ & Brd & Lrd & _) Okc Hs NA NB Hn.
  pose proof Okc as (Hc & Br & Lr & Bs & Ls & _).
  set (m := Hello.hello_msg (e_random e) (Some (e_session e)) [AES_256_GCM_SHA384; AES_128_GCM_SHA256; CHACHA20_POLY1305_SHA256] (e_secret e) (cc_server_name cfgc)).
  assert (Hm : client_hello_ok m).
  { apply Hello.hello_msg_ok; [exact Lr|right; eauto|reflexivity|]. destruct (cc_server_name cfgc) as [n|] eqn:E; [|exact I]. destruct (Hn n eq_refl) as (U & L & _). split; [lia|exact U]. }
  set (A := X25519 (x25519_private (e_secret e)) base_point) in *. set (B := X25519 (x25519_private (hd 0 (d_secrets d))) base_point) in *.
  destruct (X25519Props.X25519_bytes (x25519_private (e_secret e)) base_point) as (BA & LA & _). fold A in BA, LA.
  destruct (X25519Props.X25519_bytes (x25519_private (hd 0 (d_secrets d))) base_point) as (BB & LB & _). fold B in BB, LB.
  set (post := [Rfc8446Hello.Versions [0x0304]; Rfc8446Hello.SigAlgs [0x0403]; Rfc8446Hello.Groups [23; 29]] ++
         match cc_server_name cfgc with Some n => [Rfc8446Hello.Host n] | None => [] end).
  destruct (answered cfgs d m [] A [] post Hm) as (g & cs & Ics & An & Isu & Ec & Ee); try assumption.
  { reflexivity. }
  { unfold post. cbn [app]. repeat (apply Forall_cons; [cbn; tauto|]). destruct (cc_server_name cfgc); repeat constructor; cbn; tauto. }
  { unfold post. cbn [app]. repeat (apply Forall_cons; [cbn; tauto|]). destruct (cc_server_name cfgc) as [n|] eqn:E; [|constructor].
    constructor; [|constructor]. cbn [acceptable]. destruct (sc_server_name cfgs) as [h|]; [|exact I]. destruct (Hn n eq_refl) as (_ & _ & Q). now apply Q. }
  { exists 0x1302. split; [left; reflexivity|right; left; reflexivity]. }
  set (am := Hello.answer_msg (d_random d) (e_session e) cs (hd 0 (d_secrets d))).
  change (Rfc8446Hello.server_hello_wire _) with (Rfc8446Hello.server_hello_wire am) in An.
  assert (Am : server_hello_ok am) by (apply (Hello.answer_msg_ok (d_random d) (Some (e_session e)) cs); [exact Lrd|right; eauto]).
  pose proof (Hello.server_parse am Am) as SP. set (body := Rfc8446Hello.server_hello_wire am) in *.
  assert (Es : suite_of (Rfc8446Hello.s_suite am) = Some cs) by (cbn [am Hello.answer_msg Rfc8446Hello.s_suite]; destruct Ics as [<-|[<-|[<-|[]]]]; reflexivity).
  rewrite Es in SP.
  assert (Ev : flat_map server_view (Rfc8446Hello.s_extensions am) = [SKeyShare [KSE X25519g B]; SSupportedVersions true]) by reflexivity.
  rewrite Ev in SP. change (server_tls13 [SKeyShare [KSE X25519g B]; SSupportedVersions true]) with true in SP. cbv iota in SP.
  assert (Lb : zlen body = 118).
  { unfold body, am, Hello.answer_msg, Rfc8446Hello.server_hello_wire, Rfc8446Hello.vector8, Rfc8446Hello.vector16, Hello.x25519_wire.
    cbn [Rfc8446Hello.s_random Rfc8446Hello.s_session_id Rfc8446Hello.s_suite Rfc8446Hello.s_extensions flat_map Rfc8446Hello.server_extension_wire]. fold B.
    unfold Rfc8446Hello.extension, Rfc8446Hello.key_share_entry, Rfc8446Hello.vector16. cbn [fst snd].
    clearbody B. unfold zlen, Rfc8446Hello.u16. rewrite ?app_length, ?be_enc_length, ?app_length, ?be_enc_length, LB, Lrd, Ls. cbn [length]. lia. }
  assert (Bb : is_bytes body).
  { unfold body, am, Hello.answer_msg, Rfc8446Hello.server_hello_wire, Rfc8446Hello.vector8, Rfc8446Hello.vector16, Hello.x25519_wire.
    cbn [Rfc8446Hello.s_random Rfc8446Hello.s_session_id Rfc8446Hello.s_suite Rfc8446Hello.s_extensions flat_map Rfc8446Hello.server_extension_wire]. fold B.
    unfold Rfc8446Hello.extension, Rfc8446Hello.key_share_entry, Rfc8446Hello.vector16. cbn [fst snd].
    clearbody B. unfold Rfc8446Hello.u16. repeat first [assumption | apply be_enc_bytes | solve [apply is_bytes_check; reflexivity] | apply is_bytes_app; split]. }
  pose proof An as (hs' & sh' & pk & share' & a & _ & _ & _ & _ & _ & Eg & _ & _ & _ & Ec' & Ep').
  assert (sh_suite sh' = cs) as Q by (eapply suite_cipher_inj; eassumption). rewrite Q in Ep'.
  exists (hello_view m), body, g. eexists. split; [exact An|]. split.
  { unfold hello_view, m. cbn [ch_sid Hello.hello_msg Rfc8446Hello.m_session_id Hello.sid_list]. destruct (e_session e); [discriminate|reflexivity]. }
  split; [|split; [exact Bb|exact Lb]].
  exists (Handshake HtServerHello body (Rfc8446Hello.handshake 2 body)), (KSE X25519g B), a.
  split. { pose proof (frame_read HtServerHello body [] ltac:(lia)) as FR. rewrite app_nil_r in FR. exact FR. }
  split; [reflexivity|]. cbn [hs_fraqment]. split; [exact SP|]. cbn [sh_exts sh_suite]. split; [exact Eg|]. split; [apply ClientSteps.share_first; reflexivity|]. split; [reflexivity|].
  split; [|split; [exact Ec|exact Ep']].
  destruct (Kex.both_agree (E:=tls_error) (e_secret e) (hd 0 (d_secrets d)) Hc Hs NB NA) as (k & K1 & K2). fold A B in K1, K2.
  rewrite K1. rewrite <- K2. rewrite Kex.shared_exact; [|exact Hs|exact BA|cbn [ks_opaque]; lia]. rewrite Ee. reflexivity.
Qed.
Lemma clear_record t m : is_bytes m -> zlen m < 2^16 -> exists r, whole r /\ r_type r = t /\ r_fragment r = m /\ wire r = encode_record (rt_code t) m.
Proof.
  intros Bm Lm. destruct (record_round_trip t m [] Lm) as (r & P & T & F & _ & _ & Hh). rewrite app_nil_r in P.
  rewrite as_bytes_spec in P, Hh by exact Lm. cbn [record_new r_fragment r_type] in P, Hh.
  assert (Hr : r_header r = [rt_code t; 3; 3] ++ be_enc 2 (zlen m)).
  { rewrite Hh. unfold encode_record. rewrite app_assoc. now rewrite firstn_app_eq. }
  assert (Wr : wire r = encode_record (rt_code t) m) by (unfold wire; rewrite Hr, F; unfold encode_record; now rewrite <- app_assoc).
  exists r. split; [|auto]. split; rewrite Wr.
  - exact P.
  - unfold encode_record. apply is_bytes_app. split; [destruct t; apply is_bytes_check; reflexivity|]. apply is_bytes_app. split; [apply be_enc_bytes|exact Bm].
Qed.

(* signatures *)
Lemma signed_read r s der key digest : Ecdsa.valid_signature key digest r s -> 2^248 <= r /\ 2^248 <= s ->
  sig_to_der (E:=tls_error) {| sg_r := r; sg_s := s |} = Ok der -> sig_from_der der = Ok ({| sg_r := r; sg_s := s |}, length der).
Proof.
  intros (H1 & H2 & _) (R1 & R2) E. assert (NB : Ec.P256_n < 2^256) by (vm_compute; reflexivity).
  destruct (Signature.round_trip (E:=tls_error) r s ltac:(lia) ltac:(lia)) as (der' & E' & D). rewrite E in E'. apply Ok_inj in E'. subst der'.
  rewrite (Signature.shifted_top r ltac:(lia)), (Signature.shifted_top s ltac:(lia)) in D. exact D.
Qed.
Lemma certified_under now c x key digest r s : certifies now c x key -> Ecdsa.valid_signature (Ecdsa.public_of (sk_secret key)) (Ecdsa.hash_int digest) r s ->
  exists kk, X509.get_public_key (E:=tls_error) x = Ok (Some kk) /\ signed_under kk digest r s.
Proof.
  intros (_ & _ & kx & ky & K & P) V. exists (kx, ky). split; [exact K|]. cbn [signed_under fst snd]. unfold signed_under. cbn [fst snd]. rewrite <- P. split; [|exact V].
  unfold Ecdsa.public_of. apply EcdsaP256.p256_mul_on, P256.G_on.
Qed.

(* what the server's messages are to the client *)
Definition server_plan (cfg : server_config) (d : draws) (x : x509) (der : list Z) : plan :=
  Plan (Rfc8446Hello.vector16 []) (match sc_client_ca cfg with Some _ => [Rfc8446Hello.certificate_request_wire (d_context d) [0x0403]] | None => [] end)
    [] (ct_raw (sc_cert cfg)) x [] [] (Rfc8446Hello.handshake 15 (Rfc8446Hello.certificate_verify_wire 0x0403 der)).
Lemma plan_m1 cfg d x der : pl_m1 (server_plan cfg d x der) = Rfc8446Hello.handshake 11 (Rfc8446Hello.certificate_wire [] (ct_raw (sc_cert cfg))).
Proof. unfold pl_m1, pl_body, server_plan, Rfc8446Hello.certificate_wire. cbn [pl_ctx pl_cert pl_exts pl_others]. now rewrite !app_nil_r. Qed.
Lemma plan_request cfg d x der : map (Rfc8446Hello.handshake 13) (pl_rs (server_plan cfg d x der)) = request cfg d.
Proof. unfold server_plan, request. cbn [pl_rs]. now destruct (sc_client_ca cfg). Qed.
Lemma plan_opening cfg d x der : opening (pl_ee (server_plan cfg d x der)) (pl_rs (server_plan cfg d x der)) ++ pl_m1 (server_plan cfg d x der) = concat (before_verify cfg d).
Proof.
  unfold opening. rewrite plan_request, plan_m1. unfold before_verify. cbn [server_plan pl_ee app concat]. rewrite concat_app. cbn [concat]. rewrite app_nil_r, <- !app_assoc. reflexivity.
Qed.
Lemma plan_before cfg d x der g : pl_before g (server_plan cfg d x der) = g_hellos g ++ concat (before_finished cfg d der).
Proof.
  unfold pl_before. f_equal. rewrite app_assoc, plan_opening. unfold before_finished. rewrite concat_app. cbn [server_plan pl_m2 concat]. now rewrite app_nil_r.
Qed.
Lemma plan_finished cfg d x der g :
  pl_before g (server_plan cfg d x der) ++ server_finished g (pl_before g (server_plan cfg d x der)) = to_server_finished cfg d g der.
Proof.
  rewrite plan_before. unfold to_server_finished, server_flight, server_finished. rewrite concat_app. cbn [concat]. rewrite app_nil_r, <- !app_assoc. reflexivity.
Qed.
Lemma plan_flight cfg d x der g :
  server_flight cfg d g der = Rfc8446Hello.handshake 8 (pl_ee (server_plan cfg d x der)) :: map (Rfc8446Hello.handshake 13) (pl_rs (server_plan cfg d x der)) ++
    pl_end g (server_plan cfg d x der).
Proof.
  rewrite plan_request. unfold pl_end. rewrite plan_m1, plan_before. unfold server_flight, server_finished, before_finished, before_verify. cbn [server_plan pl_ee pl_m2 app].
  rewrite <- !app_assoc. reflexivity.
Qed.
Lemma cv_body der : Rfc8446Hello.certificate_verify_wire 0x0403 der = Rfc8446Hello.u16 0x0403 ++ Rfc8446Hello.u16 (Z.of_nat (length der)) ++ der.
Proof. reflexivity. Qed.
Lemma plan_fine sm cm nm cfgs d cfgc e now ch body g der x : cm <= 65000 -> compatible_up_to sm cm nm cfgs d cfgc e now -> certifies now (sc_cert cfgs) x (sc_privkey cfgs) ->
  answers cfgs d (client_greeting cfgc e) ch body g -> server_signed cfgs d g der -> pl_ok cfgc e now g (server_plan cfgs d x der).
Proof.
  intros Hcm C X A Sg. pose proof C as (Oks & Okc & _ & _ & _ & _ & _ & _ & _ & SW & CC). pose proof Oks as (_ & _ & _ & _ & _ & Bctx & Lctx & _).
  split; [reflexivity|]. pose proof X as (P & V & _). split; [exact P|]. split; [exact V|]. split.
  - rewrite plan_opening. destruct Sg as (k & r & s & (Ik & Sk) & Va & Ed). destruct (SW _ _ _ A) as (_ & Lg). specialize (Lg k r s Ik Sk).
    destruct (certified_under now _ x _ _ r s X Va) as (kk & K & Su). pose proof (signed_read _ _ _ _ _ Va Lg Ed) as D.
    exists kk, {| sg_r := r; sg_s := s |}, der, (length der). split; [exact K|]. split; [exact D|]. split; [reflexivity|exact Su].
  - rewrite plan_finished. unfold answerable. cbn [server_plan pl_rs]. destruct (sc_client_ca cfgs) as [ca|] eqn:Ca; [|discriminate].
    cbn [last_of]. intros b Eb. injection Eb as <-. exists (d_context d). split.
    + exists [(13, Rfc8446Hello.vector16 (Rfc8446Hello.u16s [0x0403]))]. split; [reflexivity|]. split; [unfold zlen; rewrite Lctx; reflexivity|]. split; [reflexivity|].
      constructor; [|constructor]. cbn [fst]. split; [lia|]. cbn. intuition lia.
    + intros c Ec. destruct (CC ca Ca) as (c' & key & y & cax & cak & Ec' & Ek & Ce & Lc & _ & _ & _ & _ & SWc). rewrite Ec in Ec'. injection Ec' as <-.
      split; [lia|]. destruct (SWc _ _ _ _ A Sg) as ((k & Ik & Sk) & _). exists key, k. auto.
Qed.
Lemma singles_concat (l : list (list Z)) : concat (map (fun m => [m]) l) = l /\ map (@concat Z) (map (fun m => [m]) l) = l.
Proof. induction l as [|a l (I1 & I2)]; [auto|]. cbn [map concat app]. rewrite app_nil_r. split; congruence. Qed.
Lemma no_ccs l : Forall (fun r => whole r /\ r_type r = RApplicationData) l -> without_ccs l = l.
Proof. induction 1 as [|r l (_ & T) _ IH]; [reflexivity|]. rewrite without_cons. unfold is_ccs. rewrite T. congruence. Qed.
Lemma split_same (a b x y : list Z) : a ++ x = b ++ y -> length a = length b -> a = b /\ x = y.
Proof.
  revert b. induction a as [|c a IH]; intros [|c' b] E L; try discriminate L; [auto|].
  cbn [app] in E. injection E as -> E. destruct (IH b E) as (-> & ->); [cbn [length] in L; lia|auto].
Qed.
Lemma vector8_inj a b x y : zlen a < 256 -> zlen b < 256 -> Rfc8446Hello.vector8 a ++ x = Rfc8446Hello.vector8 b ++ y -> a = b.
Proof.
  unfold Rfc8446Hello.vector8. intros La Lb E. rewrite <- !app_assoc in E. 
  assert (E1 : be_enc 1 (Z.of_nat (length a)) = be_enc 1 (Z.of_nat (length b)) /\ a ++ x = b ++ y).
  { apply split_same in E; [exact E|rewrite !be_enc_length; reflexivity]. }
  destruct E1 as (E1 & E2). apply (f_equal be_val) in E1. rewrite !be_val_enc in E1. unfold zlen in *. rewrite !Z.mod_small in E1 by (change (256 ^ Z.of_nat 1) with 256; lia).
  apply split_same in E2; [apply E2|lia].
Qed.

(* lengths *)
Lemma zlen_handshake t b : zlen (Rfc8446Hello.handshake t b) = 4 + zlen b.
Proof. unfold zlen. rewrite handshake_length. lia. Qed.
Lemma zlen_certificate context c : zlen (Rfc8446Hello.certificate_wire context c) = 9 + zlen context + zlen c.
Proof.
  unfold Rfc8446Hello.certificate_wire, Rfc8446Hello.vector8, Rfc8446Hello.vector24, Rfc8446Hello.vector16, zlen.
  repeat (rewrite ?app_length, ?be_enc_length; cbn [length]). lia.
Qed.
Lemma zlen_verify s der : zlen (Rfc8446Hello.certificate_verify_wire s der) = 4 + zlen der.
Proof. unfold Rfc8446Hello.certificate_verify_wire, Rfc8446Hello.vector16, Rfc8446Hello.u16, zlen. repeat (rewrite ?app_length, ?be_enc_length; cbn [length]). lia. Qed.
Lemma zlen_request context : zlen (Rfc8446Hello.certificate_request_wire context [0x0403]) = 11 + zlen context.
Proof.
  unfold Rfc8446Hello.certificate_request_wire, Rfc8446Hello.vector8, Rfc8446Hello.vector16, Rfc8446Hello.extension, Rfc8446Hello.vector16, Rfc8446Hello.u16s, zlen. cbn [map concat flat_map].
  repeat (rewrite ?app_length, ?be_enc_length; cbn [length]). unfold Rfc8446Hello.u16. repeat (rewrite ?app_length, ?be_enc_length; cbn [length]). lia.
Qed.
Lemma zlen_finished H g secret m : g_alg g = Hmac.alg_of H -> zlen (Rfc8446Hello.handshake 20 (verify_data g secret m)) <= 68.
Proof.
  intros EA. rewrite zlen_handshake. unfold verify_data, finished_verify_data, HMAC. rewrite EA. unfold zlen.
  match goal with |- context[length (alg_hash (Hmac.alg_of H) ?b)] => pose proof (alg_short H b) end. lia.
Qed.
Lemma zlen_cons {A} (a : A) l : zlen (a :: l) = 1 + zlen l.
Proof. unfold zlen. cbn [length]. lia. Qed.
Lemma greeting_zlen nm cfg e : client_ok cfg e -> 0 <= nm -> (forall n, cc_server_name cfg = Some n -> zlen n <= nm) -> zlen (client_greeting cfg e) <= nm + 300.
Proof.
  intros (_ & _ & Lr & _ & Ls & _) N0 Hn. destruct (X25519Props.X25519_bytes (x25519_private (e_secret e)) base_point) as (_ & Lx & _).
  unfold client_greeting. rewrite zlen_handshake. set (X := X25519 _ _) in *. clearbody X. unfold zlen, Rfc8446Hello.client_hello_wire.
  cbn [Rfc8446Hello.m_random Rfc8446Hello.m_session_id Rfc8446Hello.m_suites Rfc8446Hello.m_extensions].
  assert (V16 : forall l, length (Rfc8446Hello.vector16 l) = (2 + length l)%nat) by (intros; unfold Rfc8446Hello.vector16; now rewrite app_length, be_enc_length).
  assert (V8 : forall l, length (Rfc8446Hello.vector8 l) = (1 + length l)%nat) by (intros; unfold Rfc8446Hello.vector8; now rewrite app_length, be_enc_length).
  assert (U : forall n, length (Rfc8446Hello.u16 n) = 2%nat) by (intros; apply be_enc_length).
  rewrite !app_length, !V16, !V8, U, Lr, Ls, flat_map_app, !app_length. cbn [flat_map].
  unfold Rfc8446Hello.client_extension_wire, Rfc8446Hello.extension. cbn [Rfc8446Hello.client_extension_data flat_map].
  rewrite !app_nil_r, !app_length, !V16, !U. cbn [flat_map]. rewrite ?app_nil_r. unfold Rfc8446Hello.key_share_entry. cbn [fst snd].
  rewrite !app_length, !V16, !V8, !U, Lx.
  change (length (Rfc8446Hello.u16s [4866; 4865; 4867])) with 6%nat. change (length (Rfc8446Hello.u16s [772])) with 2%nat.
  change (length (Rfc8446Hello.u16s [1027])) with 2%nat. change (length (Rfc8446Hello.u16s [23; 29])) with 4%nat. cbn [length].
  destruct (cc_server_name cfg) as [n|]; cbn [flat_map length]; [|lia]. specialize (Hn n eq_refl). unfold zlen in Hn.
  rewrite ?app_nil_r, ?app_length, ?V16, ?U. cbn [Rfc8446Hello.client_extension_data]. rewrite ?V16, ?app_length, ?V16. cbn [length]. lia.
Qed.
Lemma flight_zlen H cfg d g der : server_ok cfg d -> g_alg g = Hmac.alg_of H -> (length der <= 72)%nat ->
  zlen (concat (server_flight cfg d g der)) + 22 * zlen (server_flight cfg d g der) <= zlen (ct_raw (sc_cert cfg)) + 324.
Proof.
  intros (_ & _ & _ & _ & _ & _ & Lctx & _) EA Ld. pose proof (zlen_finished H g (server_secret g) (g_hellos g ++ concat (before_finished cfg d der)) EA) as F.
  unfold server_flight at 1 2. set (fin := Rfc8446Hello.handshake 20 _) in *. clearbody fin. unfold before_finished, before_verify, request.
  assert (zlen der <= 72) by (unfold zlen; lia). assert (zlen (d_context d) = 32) by (unfold zlen; lia).
  destruct (sc_client_ca cfg); cbn [app concat]; rewrite ?app_nil_r, ?zlen_app, ?zlen_cons, ?zlen_handshake, ?zlen_certificate, ?zlen_verify, ?zlen_request;
    change (zlen (Rfc8446Hello.vector16 [])) with 2; change (zlen (@nil Z)) with 0; change (zlen (@nil (list Z))) with 0; lia.
Qed.

(* the client's answer suits the server *)
Lemma client_reply sm cm nm cfgs d cfgc e now H ch body g der x replied : 0 <= cm <= 65000 -> compatible_up_to sm cm nm cfgs d cfgc e now ->
  answers cfgs d (client_greeting cfgc e) ch body g -> server_signed cfgs d g der -> g_alg g = Hmac.alg_of H ->
  let before := to_server_finished cfgs d g der in
  replies cfgc e g before (last_of (pl_rs (server_plan cfgs d x der))) replied -> is_bytes (concat replied) ->
  (Forall is_bytes (client_flight g before replied) /\ Forall (fun m => zlen m + 17 < 2^16) (client_flight g before replied) /\
   zlen (client_flight g before replied) <= 3 /\ zlen (concat (client_flight g before replied)) + 22 * zlen (client_flight g before replied) <= cm + 596) /\
  forall recs, length recs = length (client_flight g before replied) ->
    (forall i m r, nth_error (client_flight g before replied) i = Some m -> nth_error recs i = Some r -> from_client g (Z.of_nat i) m r) ->
    Forall (fun r => whole r /\ r_type r = RApplicationData) recs ->
    exists used fin messages, recs = used ++ [fin] /\ client_conforms cfgs d now g before used messages /\
      from_client g (zlen used) (Rfc8446Hello.handshake 20 (verify_data g (client_secret g) messages)) fin.
Proof.
  intros Hcm C A Sg EA before R B. pose proof C as (Oks & Okc & _ & _ & _ & _ & _ & _ & _ & _ & CC). pose proof Oks as (_ & _ & _ & _ & _ & Bctx & Lctx & _).
  pose proof (fun m => zlen_finished H g (client_secret g) m EA) as LF.
  cbn [server_plan pl_rs] in R. unfold client_conforms. unfold client_certified in CC. destruct (sc_client_ca cfgs) as [ca|].
  - destruct (CC ca eq_refl) as (c & key & y & cax & cak & Ec & Ek & Ce & Lc & Cx & Kx & Sy & Cv & SWc). 
    destruct (flight_bounds cfgc e H g before _ replied Okc EA R B) as (F1 & F2 & F3). { intros c' Q. rewrite Ec in Q. injection Q as <-. lia. }
    cbn [last_of replies] in R. destruct R as (context & more & Eb & Lx & R). rewrite Ec in R. destruct R as (key' & dc & k & r & s & Ek' & Em & (Ik & Sk) & Va & Ed).
    rewrite Ek in Ek'. injection Ek' as <-.
    assert (context = d_context d) as ->. { unfold Rfc8446Hello.certificate_request_wire in Eb. apply vector8_inj in Eb; [auto|unfold zlen; rewrite Lctx; reflexivity|exact Lx]. }
    destruct (SWc _ _ _ _ A Sg) as (_ & Lg). specialize (Lg k r s Ik Sk). pose proof (signed_read _ _ _ _ _ Va Lg Ed) as D.
    assert (Ld : zlen dc <= 72).
    { assert (NB : Ec.P256_n < 2^256) by (vm_compute; reflexivity). pose proof Va as (V1 & V2 & _).
      destruct (Auth.der_bounds (E:=tls_error) r s dc ltac:(lia) ltac:(lia) Ed) as (_ & Q). unfold zlen. lia. }
    split.
    { split; [exact F1|]. split; [exact F2|]. split; [exact F3|]. subst replied. unfold client_flight. cbn [app concat].
      specialize (LF (before ++ concat [Rfc8446Hello.handshake 11 (Rfc8446Hello.certificate_wire (d_context d) (ct_raw c)); Rfc8446Hello.handshake 15 (Rfc8446Hello.certificate_verify_wire 1027 dc)])).
      cbn [concat] in LF. set (fin := Rfc8446Hello.handshake 20 _) in *. clearbody fin.
      rewrite ?app_nil_r, ?zlen_app, ?zlen_cons, ?zlen_handshake, ?zlen_certificate, ?zlen_verify. change (zlen (@nil (list Z))) with 0.
      assert (zlen (d_context d) = 32) by (unfold zlen; lia). lia. }
    intros recs L Fc W. subst replied. unfold client_flight in L, Fc. cbn [app length] in L, Fc.
    destruct recs as [|r1 [|r2 [|r3 [|]]]]; try discriminate L.
    inversion W as [|? ? (W1 & T1) W']; subst. inversion W' as [|? ? (W2 & T2) W'']; subst.
    exists [r1; r2], r3, (before ++ Rfc8446Hello.handshake 11 (Rfc8446Hello.certificate_wire (d_context d) (ct_raw c)) ++ Rfc8446Hello.handshake 15 (Rfc8446Hello.certificate_verify_wire 1027 dc)).
    split; [reflexivity|]. split.
    + exists cax, cak, (ct_raw c), y, [], [], r1, r2. do 2 eexists.
      split; [reflexivity|]. split; [reflexivity|]. do 4 (split; [assumption|]).
      split; [exact (Fc 0%nat _ _ eq_refl eq_refl)|]. split; [exact (Fc 1%nat _ _ eq_refl eq_refl)|].
      split; [unfold Rfc8446Hello.certificate_wire; now rewrite !app_nil_r|].
      split; [exact Cx|]. split; [exact Kx|]. pose proof Ce as (P & V & _). split; [exact P|]. split; [exact V|]. split; [exact Sy|]. split; [exact Cv|].
      destruct (certified_under now _ y _ _ r s Ce Va) as (kk & K & Su).
      exists kk, {| sg_r := r; sg_s := s |}, dc, (length dc), []. split; [exact K|]. split; [exact D|]. split; [now rewrite app_nil_r|exact Su].
    + pose proof (Fc 2%nat _ _ eq_refl eq_refl) as F. cbn [concat] in F. rewrite app_nil_r in F. exact F.
  - cbn [last_of replies] in R. subst replied.
    set (cfg0 := {| cc_server_name := cc_server_name cfgc; cc_cert := None; cc_key := cc_key cfgc; cc_keylog := None |}).
    assert (Ok0 : client_ok cfg0 e). { destruct Okc as (O1 & O2 & O3 & O4 & O5 & O6 & O7 & _ & O9). unfold client_ok. cbn [cfg0 cc_server_name cc_cert cc_key]. do 7 (split; [assumption|]). split; [discriminate|assumption]. }
    destruct (flight_bounds cfg0 e H g before None [] Ok0 EA eq_refl B) as (F1 & F2 & F3); [discriminate|].
    split.
    { split; [exact F1|]. split; [exact F2|]. split; [exact F3|]. unfold client_flight. cbn [app concat]. rewrite app_nil_r. specialize (LF (before ++ [])).
      rewrite zlen_cons. change (zlen (@nil (list Z))) with 0. lia. }
    intros recs L Fc W. unfold client_flight in L, Fc. cbn [app length concat] in L, Fc. destruct recs as [|r1 [|]]; try discriminate L.
    exists [], r1, before. split; [reflexivity|]. split; [auto|]. pose proof (Fc 0%nat _ _ eq_refl eq_refl) as F. rewrite app_nil_r in F. exact F.
Qed.

Lemma zlen_record t m : zlen (encode_record t m) = 5 + zlen m.
Proof. unfold encode_record, zlen. rewrite !app_length, be_enc_length. cbn [length]. lia. Qed.
Local Notation parses := (fun r : record => record_from_raw (wire r) = Ok (length (wire r), r)).
Local Notation no_alert := (fun r : record => r_type r <> RAlert).
Lemma record_singles (l : list record) : concat (map (fun r => [r]) l) = l.
Proof. induction l as [|r l IH]; [reflexivity|]. cbn [map concat app]. now rewrite IH. Qed.
Lemma singles_wire (l : list record) : map (fun x => concat (map wire x)) (map (fun r => [r]) l) = map wire l.
Proof. induction l as [|r l IH]; [reflexivity|]. cbn [map]. rewrite IH. cbn [map concat]. now rewrite app_nil_r. Qed.
Theorem loopback_short sm cm nm cfgs d cfgc e now : sm <= 65000 -> 0 <= cm <= 65000 -> 0 <= nm <= 65000 -> compatible_up_to sm cm nm cfgs d cfgc e now ->
  exists c0 s1 c1 s2 pc ps hello flight reply,
    (connect cfgc e now fresh [] = (c0, None) /\ so_sent (st_sock (cl_stream c0)) = wire hello) /\
    (accept cfgs d now fresh [wire hello] = (s1, None) /\ so_sent (st_sock (sv_stream s1)) = bytes_of flight) /\
    (Forall parses (hello :: flight ++ reply) /\ Forall no_alert (hello :: flight ++ reply) /\ flight <> [] /\ reply <> []) /\
    ((forall reads, delivers flight reads -> connect cfgc e now fresh reads = (c1, Some (Ok tt))) /\ so_sent (st_sock (cl_stream c1)) = wire hello ++ bytes_of reply) /\
    (forall groups, Forall (fun x => x <> []) groups -> concat groups = reply -> accept cfgs d now fresh (wire hello :: map bytes_of groups) = (s2, Some (Ok tt))) /\
    (zlen (wire hello) <= nm + 305 /\ zlen (bytes_of flight) <= sm + 500 /\ zlen (bytes_of reply) <= cm + 596) /\
    (is_bytes (wire hello) /\ is_bytes (bytes_of flight) /\ is_bytes (bytes_of reply)) /\
    (st_protection (cl_stream c1) = Some pc /\ st_protection (sv_stream s2) = Some ps /\ rp_is_client pc = true /\ rp_is_client ps = false /\
     rp_cipher pc = rp_cipher ps /\ rp_application pc = rp_application ps /\ rp_application pc <> None) /\
    paired pc ps /\ (forall b, k_seq (side_key b (cur_keys pc)) = 0) /\ so_left (st_sock (cl_stream c1)) = None /\ so_left (st_sock (sv_stream s2)) = None /\
    (forall reads a b, delivers flight reads -> reads = a ++ b -> b <> [] -> exists h, connect cfgc e now fresh a = (h, None)) /\
    (forall groups a b, Forall (fun x => x <> []) groups -> concat groups = reply -> groups = a ++ b -> b <> [] -> exists h, accept cfgs d now fresh (wire hello :: map bytes_of a) = (h, None)).
Proof.
  intros Hsm Hcm Hnm C. pose proof C as (Oks & Okc & Hs & NA & NB & Took & Hn & (x0 & X0) & Lcert & SW & _).
  assert (Hn' : forall n, cc_server_name cfgc = Some n -> utf8_valid n = true /\ zlen n <= 65000 /\ (forall h, sc_server_name cfgs = Some h -> n = h))
    by (intros n En; destruct (Hn n En) as (U1 & U2 & U3); split; [exact U1|]; split; [lia|exact U3]).
  destruct (hellos_agree _ _ _ _ Oks Okc Hs NA NB Hn') as (ch & body & g & sh & A & Sid & Ag & Bb & Lb).
  destruct (greeting_bytes cfgc e Okc) as (Bg & Lg).
  assert (Gz : zlen (client_greeting cfgc e) <= nm + 300) by (apply greeting_zlen; [exact Okc|lia|intros n En; apply (Hn n En)]).
  destruct (clear_record RHandshake _ Bg Lg) as (hello & Wh & Th & Fh & Eh).
  assert (Ho : hello_out cfgc e = wire hello).
  { unfold hello_out. rewrite as_bytes_spec by exact Lg. cbn [record_new r_type r_fragment rt_code] in *. rewrite Eh. apply firstn_all2. exact Took. }
  (* the client's first step *)
  assert (C0 : exists c0, connect cfgc e now fresh [] = (c0, None) /\ so_sent (st_sock (cl_stream c0)) = wire hello).
  { unfold connect, client_do_handshake. destruct (hello_built cfgc e Okc) as (chc & bodyc & H1 & H2 & H3).
    assert (HS : exists h0, send_client_hello cfgc e (client_new e fresh) = (h0, Ok tt)).
    { unfold send_client_hello. cbn [client_new cl_key]. rewrite H1, sbind_Ok, H2, sbind_Ok, H3. cbn [cl_with_hello cl_stream].
      unfold tcp_write. cbn [client_new cl_stream stream_new st_sock st_protection st_buffer].
      unfold write_all. cbn [fresh so_left]. eexists. rewrite sbind_Ok. reflexivity. }
    destruct HS as (h0 & S). destruct (hello_sent _ _ _ _ _ Okc S) as (Eh0 & _ & _ & Sh). rewrite S.
    assert (St0 : cl_state h0 = CsServerHello) by (rewrite Eh0; reflexivity). cbn [client_reads]. rewrite St0.
    exists h0. split; [reflexivity|]. rewrite Sh, Ho. reflexivity. }
  destruct C0 as (c0 & Ec0 & Hc0).
  (* the server's answer *)
  rewrite <- Fh in A.
  assert (CS : can_sign cfgs d g) by (rewrite Fh in A; apply (SW _ _ _ A)).
  destruct (accepts cfgs d now fresh hello ch body g Oks ltac:(lia) eq_refl Wh Th A CS) as (x & (G & _ & Gch & Gb & Gg) & (s1 & Es1 & Hs1) & Fin).
  cbn [fresh so_sent app] in Hs1. rewrite Fh in A.
  pose proof G as (_ & _ & Sg & Bd & Ld & Su & _). rewrite Gg in Sg, Su.
  destruct (flight_carried cfgs d x Oks G ltac:(lia)) as (recs & Es & _ & Cs & Ws & Zs). rewrite Gg in Cs, Zs. set (der := gr_der x) in *.
  destruct (clear_record RHandshake (Rfc8446Hello.handshake 2 body)) as (first & Wf & Tf & Ff & Ef);
    [apply is_bytes_handshake; [unfold is_byte; lia|exact Bb]|rewrite zlen_handshake; lia|].
  destruct (clear_record RChangeCipherSpec [1]) as (ccs & Wc & Tc & Fc & Ecc); [apply is_bytes_check; reflexivity|reflexivity|].
  assert (Og : gr_out x = concat (map wire (first :: ccs :: recs))).
  { unfold gr_out. rewrite Gch, Gb, Sid, !as_bytes_spec by (cbn [record_new r_fragment]; rewrite ?zlen_handshake; try reflexivity; lia).
    cbn [record_new r_type r_fragment map concat]. rewrite Ef, Ecc, Es. reflexivity. }
  assert (WC : without_ccs (ccs :: recs) = recs). { rewrite without_cons. unfold is_ccs. rewrite Tc. apply no_ccs. exact Ws. }
  pose proof Su as (EA & _).
  pose proof (flight_zlen _ cfgs d g der Oks EA Ld) as Fz.
  destruct (singles_concat (server_flight cfgs d g der)) as (S1 & S2).
  destruct (client_ends cfgc e now fresh first sh g Okc eq_refl Wf Tf) with (l := server_plan cfgs d x0 der) (parts := map (fun m => [m]) (server_flight cfgs d g der))
    (more := ccs :: recs) (groups := map (fun r => [r]) (first :: ccs :: recs)) (later := @nil (list Z)) as (c1 & Ec1 & y & Gy & Cy & Cf & Nc).
  { rewrite Ff. exact Ag. }
  { exact (plan_fine _ _ _ _ _ _ _ _ _ _ _ _ _ (proj2 Hcm) C X0 A Sg). }
  { rewrite S1. apply plan_flight. }
  { rewrite S2, WC. exact Cs. }
  { constructor; [exact Wc|]. eapply Forall_impl; [|exact Ws]. cbn. tauto. }
  { rewrite WC. eapply Forall_impl; [|exact Ws]. cbn. tauto. }
  { rewrite S1. pose proof (zlen_nonneg (server_flight cfgs d g der)). lia. }
  { destruct Cs as (Lrecs & _). pose proof (zlen_nonneg (concat (server_flight cfgs d g der))). rewrite zlen_cons. unfold zlen at 1. rewrite Lrecs. fold (zlen (server_flight cfgs d g der)). lia. }
  { apply Forall_map, Forall_forall. intros; discriminate. }
  { apply record_singles. }
  assert (NEr : recs <> []).
  { destruct Cs as (Lrecs & _). intros X. rewrite X in Lrecs. rewrite (plan_flight cfgs d x0 der g) in Lrecs. discriminate. }
  destruct (client_short cfgc e now fresh first sh g Okc eq_refl Wf Tf) with (l := server_plan cfgs d x0 der) (parts := map (fun m => [m]) (server_flight cfgs d g der))
    (more := ccs :: recs) as (h0 & Short0).
  { rewrite Ff. exact Ag. }
  { exact (plan_fine _ _ _ _ _ _ _ _ _ _ _ _ _ (proj2 Hcm) C X0 A Sg). }
  { rewrite S1. apply plan_flight. }
  { rewrite S2, WC. exact Cs. }
  { apply Forall_map, Forall_forall. intros; discriminate. }
  { constructor; [exact Wc|]. eapply Forall_impl; [|exact Ws]. cbn. tauto. }
  { rewrite WC. eapply Forall_impl; [|exact Ws]. cbn. tauto. }
  { rewrite S1. pose proof (zlen_nonneg (server_flight cfgs d g der)). lia. }
  { destruct Cs as (Lrecs & _). pose proof (zlen_nonneg (concat (server_flight cfgs d g der))). rewrite zlen_cons. unfold zlen at 1. rewrite Lrecs. fold (zlen (server_flight cfgs d g der)). lia. }
  assert (Short : exists h0, send_client_hello cfgc e (client_new e fresh) = (h0, Ok tt) /\ cl_state h0 = CsServerHello /\
      exists h1, Client.client_record cfgc e now h0 first = (h1, Ok tt) /\ cw true cfgc e now (so_sent fresh ++ hello_out cfgc e) g (server_plan cfgs d x0 der) h1 (ccs :: recs))
    by (exists h0; exact Short0). clear h0 Short0.
  cbn [fresh so_sent app] in Cf. rewrite app_nil_r, singles_wire in Ec1. rewrite Ho in Cf.
  unfold cfin in Cf. rewrite Gy, plan_finished in Cf. destruct Cf as (replied & q & n & p1 & ws & pc & (R & Br) & Gd & En & Oc & Bc & Pc & Pcc & Pcs & Pca).
  destruct (client_reply _ _ _ cfgs d cfgc e now _ ch body g der x0 replied Hcm C A Sg EA R Br) as ((F1 & F2 & F3 & F4) & CR).
  destruct (cgreeted_keys _ _ _ Cy) as (GK & _). unfold guarded in Gd. rewrite Gy in GK, Gd. destruct Gd as (Kq & Cq & Aq & Sq & _).
  destruct (enc_all_carried (cg_hash y) g (client_secret g) (client_flight g (to_server_finished cfgs d g der) replied) q 0 p1 ws Kq Aq) as (recs2 & Er & Fr & Lr & Or & _ & Ar & Zr);
    [rewrite Cq; exact Sq|exact GK|lia|lia|exact F1|exact F2|exact En|].
  assert (W2 : Forall (fun r => whole r /\ r_type r = RApplicationData) recs2).
  { rewrite Forall_forall in *. intros r Hr. destruct (Ar r Hr) as (B2 & T2). exact (conj (conj (Fr r Hr) B2) T2). }
  destruct (CR recs2 Lr Or W2) as (used & fin & messages & E2 & Conf & Ffin).
  assert (Rf : whole fin /\ r_type fin = RApplicationData) by (rewrite E2 in W2; apply Forall_app in W2; destruct W2 as (_ & W2); inversion W2; assumption).
  assert (NE2 : recs2 <> []) by (rewrite E2; intros Q; apply app_eq_nil in Q; destruct Q; discriminate).
  assert (Conf' : client_conforms cfgs d now g (gr_msgs cfgs d x) used messages) by (unfold gr_msgs; rewrite Gg; exact Conf).
  assert (Whole2 : Forall whole recs2) by (eapply Forall_impl; [|exact W2]; cbn; tauto).
  assert (NoC : without_ccs recs2 = used ++ [fin]) by (rewrite no_ccs by exact W2; exact E2).
  destruct (Fin [[hello]; recs2] [] recs2 used fin messages) as ((s2 & Es2 & (ps & Ps & Psc & Pss & Psa) & Ns) & _).
  { constructor; [discriminate|]. constructor; [exact NE2|constructor]. }
  { cbn [concat app]. now rewrite app_nil_r. }
  { eapply Forall_impl; [|exact W2]. cbn. tauto. }
  { rewrite no_ccs by exact W2. exact E2. }
  { unfold gr_msgs. rewrite Gg. exact Conf. }
  { apply Rf. }
  { exact Ffin. }
  rewrite Gg in Pss, Psa. unfold gr_msgs in Psa. rewrite Gg in Psa. fold der in Psa.
  cbn [map concat app] in Es2. rewrite app_nil_r in Es2.
  assert (Hc1 : so_sent (st_sock (cl_stream c1)) = wire hello ++ concat (map wire recs2)).
  { unfold out in Oc. rewrite Bc, app_nil_r in Oc. now rewrite Oc, Er. }
  assert (Wfl : Forall whole (first :: ccs :: recs)) by (constructor; [exact Wf|]; constructor; [exact Wc|]; eapply Forall_impl; [|exact Ws]; cbn; tauto).
  assert (Wre : Forall whole recs2) by (eapply Forall_impl; [|exact W2]; cbn; tauto).
  assert (Afl : Forall no_alert (first :: ccs :: recs)).
  { constructor; [rewrite Tf; discriminate|]. constructor; [rewrite Tc; discriminate|]. eapply Forall_impl; [|exact Ws]. intros r (_ & Tr). rewrite Tr. discriminate. }
  assert (Are : Forall no_alert recs2) by (eapply Forall_impl; [|exact W2]; intros r (_ & Tr); rewrite Tr; discriminate).
  assert (WP : forall l, Forall whole l -> Forall parses l) by (intros l W'; eapply Forall_impl; [|exact W']; intros r Wr; exact (proj1 Wr)).
  exists c0, s1, c1, s2, pc, ps, hello, (first :: ccs :: recs), recs2.
  split; [exact (conj Ec0 Hc0)|]. split; [split; [exact Es1|rewrite Hs1; exact Og]|].
  split.
  { split; [constructor; [exact (proj1 Wh)|]; apply Forall_app; split; apply WP; assumption|].
    split; [constructor; [rewrite Th; discriminate|]; apply Forall_app; split; assumption|]. split; [discriminate|exact NE2]. }
  split.
  { split; [|exact Hc1]. intros reads D. pose proof (ClientReads.delivered cfgc e now fresh _ reads [] D (WP _ Wfl) Afl) as X. rewrite !app_nil_r in X. rewrite X. exact Ec1. }
  split.
  { intros groups NG EG. assert (NE0 : Forall (fun x => x <> []) [[hello]; recs2]) by (constructor; [discriminate|]; constructor; [exact NE2|constructor]).
    assert (NE1 : Forall (fun x => x <> []) ([hello] :: groups)) by (constructor; [discriminate|exact NG]).
    assert (EC : concat [[hello]; recs2] = concat ([hello] :: groups)) by (cbn [concat app]; rewrite EG, app_nil_r; reflexivity).
    assert (PC : Forall parses (concat [[hello]; recs2])) by (cbn [concat app]; rewrite app_nil_r; constructor; [exact (proj1 Wh)|apply WP; exact Wre]).
    assert (AC : Forall no_alert (concat [[hello]; recs2])) by (cbn [concat app]; rewrite app_nil_r; constructor; [rewrite Th; discriminate|exact Are]).
    pose proof (Reads.regroup cfgs d now fresh [] _ _ eq_refl NE0 NE1 EC PC AC) as (_ & _ & _ & X).
    rewrite !app_nil_r in X. change ServerAccept2.read_of with bytes_of in X. cbn [map] in X. change (bytes_of [hello]) with (wire hello ++ []) in X. rewrite app_nil_r in X.
    change (bytes_of recs2) with (concat (map wire recs2)) in X. rewrite Es2 in X.
    pose proof (Reads.regroup cfgs d now fresh [] _ _ eq_refl NE0 NE1 EC PC AC) as (Y & _).
    rewrite !app_nil_r in Y. change ServerAccept2.read_of with bytes_of in Y. cbn [map] in Y. change (bytes_of [hello]) with (wire hello ++ []) in Y. rewrite app_nil_r in Y.
    change (bytes_of recs2) with (concat (map wire recs2)) in Y. rewrite Es2 in Y. cbn [fst snd] in X, Y.
    rewrite (surjective_pairing (accept _ _ _ _ _)). f_equal; [symmetry; exact X|symmetry; exact Y]. }
  split.
  { split; [rewrite Eh, zlen_record; lia|]. split.
    - unfold bytes_of. cbn [map concat]. rewrite Ef, Ecc, !zlen_app, !zlen_record, zlen_handshake, <- Es, Zs, Lb. change (zlen [1]) with 1. lia.
    - unfold bytes_of. rewrite <- Er, Zr. exact F4. }
  split.
  { assert (BW : forall l, Forall whole l -> is_bytes (concat (map wire l))).
    { induction 1 as [|r l (_ & Br') _ IH]; [constructor|]. cbn [map concat]. apply is_bytes_app. auto. }
    split; [apply Wh|]. split; apply BW; assumption. }
  split.
  { split; [exact Pc|]. split; [exact Ps|]. split; [exact Pcc|]. split; [exact Psc|]. split; [congruence|]. split; [congruence|]. rewrite Pca. discriminate. }
  destruct (to_finished_ok _ cfgs d g der Su Oks Bd Ld) as (Bt & Lt).
  destruct (keyed_application _ g q (to_server_finished cfgs d g der) Kq Bt ltac:(lia)) as (_ & _ & _ & _ & _ & K1 & K2).
  assert (Kc : cur_keys pc = application_keys g (to_server_finished cfgs d g der)) by (unfold cur_keys; now rewrite Pca).
  assert (Ks : cur_keys ps = application_keys g (to_server_finished cfgs d g der)) by (unfold cur_keys; now rewrite Psa).
  split; [|split; [intros []; rewrite Kc; reflexivity|split; [exact Nc|split; [exact Ns|split]]]].
  2:{ intros reads a b D -> NB'. destruct Short as (h0 & S0 & St0 & h1 & E1 & Cw). unfold connect, client_do_handshake. rewrite S0.
    assert (I0 : ClientReads.idle h0) by (apply (ClientReads.hello_idle _ _ _ _ _ S0)).
    assert (SO : Shorter.short_of cfgc e now h0 (first :: ccs :: recs)).
    { intros ra rb Er' Nb'. destruct ra as [|r0 ra]; [exists h0; split; [reflexivity|congruence]|]. injection Er' as <- Er'.
      assert (Wm : Forall whole (ccs :: recs)) by (inversion Wfl; assumption). rewrite Er' in Wm, Cw. apply Forall_app in Wm. destruct Wm as (Wm & _).
      assert (Dm : Forall data_or_ccs ra).
      { assert (Da : Forall data_or_ccs (ccs :: recs)) by (constructor; [left; unfold is_ccs; now rewrite Tc|]; eapply Forall_impl; [|exact Ws]; intros r (_ & Tr); right; exact Tr).
        rewrite Er' in Da. apply Forall_app in Da. apply Da. }
      destruct (Shorter.csteps_cw _ _ _ _ _ _ Okc ra rb h1 Wm Dm Cw) as (h' & E' & Cw'). exists h'. cbn [ClientReads.csteps]. rewrite E1. split; [exact E'|].
      apply (cw_not_ready true _ _ _ _ _ _ _ _ eq_refl Cw').
      (* the last record of the flight is no change_cipher_spec *)
      destruct ra as [|r1 ra].
      - cbn [app] in Er'. rewrite <- Er'. rewrite WC. exact NEr.
      - injection Er' as <- Er'. rewrite Er' in Ws. apply Forall_app in Ws. rewrite no_ccs by apply Ws. exact Nb'. }
    destruct (Shorter.delivers_short cfgc e now _ _ D h0 I0 (WP _ Wfl) Afl SO a b eq_refl NB') as (h' & E'). rewrite E'. eauto. }
  2:{ intros groups a b NG EG -> NB'. 
    destruct (Fin ([hello] :: a ++ b) [] recs2 used fin messages) as (_ & Sh);
      [constructor; [discriminate|exact NG]|cbn [concat app]; now rewrite EG|exact Whole2|exact NoC|exact Conf'|apply Rf|exact Ffin|].
    destruct (Sh ([hello] :: a) b eq_refl ltac:(discriminate)) as (h & E).
    { rewrite concat_app in EG. rewrite <- EG in W2. apply Forall_app in W2. rewrite no_ccs by apply W2.
      apply Forall_app in NG. destruct NG as (_ & NG). destruct b as [|b0 b]; [contradiction|]. inversion NG; subst. cbn [concat]. intros X. apply app_eq_nil in X. destruct X. contradiction. }
    exists h. cbn [map concat] in E. rewrite app_nil_r in E. exact E. }
  split; [exact Pcc|]. split; [exact Psc|]. split; [congruence|]. split; [congruence|].
  split. { rewrite Pcs. destruct A as (_ & sh' & _ & _ & _ & _ & _ & _ & _ & _ & _ & _ & _ & _ & Ec' & _). eauto. }
  intros b k. subst k. rewrite Kc, Pcs. destruct b; [destruct K2 as (Q1 & Q2 & Q3 & Q4)|destruct K1 as (Q1 & Q2 & Q3 & Q4)];
    (split; [exact Q1|split; [exact Q2|split; [exact Q3|split; [exact Q4|apply Z.le_refl]]]]).
Qed.
Theorem loopback_wide sm cm nm cfgs d cfgc e now : sm <= 65000 -> 0 <= cm <= 65000 -> 0 <= nm <= 65000 -> compatible_up_to sm cm nm cfgs d cfgc e now ->
  exists c0 s1 c1 s2 pc ps hello flight reply,
    (connect cfgc e now fresh [] = (c0, None) /\ so_sent (st_sock (cl_stream c0)) = wire hello) /\
    (accept cfgs d now fresh [wire hello] = (s1, None) /\ so_sent (st_sock (sv_stream s1)) = bytes_of flight) /\
    (Forall parses (hello :: flight ++ reply) /\ Forall no_alert (hello :: flight ++ reply) /\ flight <> [] /\ reply <> []) /\
    ((forall reads, delivers flight reads -> connect cfgc e now fresh reads = (c1, Some (Ok tt))) /\ so_sent (st_sock (cl_stream c1)) = wire hello ++ bytes_of reply) /\
    (forall groups, Forall (fun x => x <> []) groups -> concat groups = reply -> accept cfgs d now fresh (wire hello :: map bytes_of groups) = (s2, Some (Ok tt))) /\
    (zlen (wire hello) <= nm + 305 /\ zlen (bytes_of flight) <= sm + 500 /\ zlen (bytes_of reply) <= cm + 596) /\
    (is_bytes (wire hello) /\ is_bytes (bytes_of flight) /\ is_bytes (bytes_of reply)) /\
    (st_protection (cl_stream c1) = Some pc /\ st_protection (sv_stream s2) = Some ps /\ rp_is_client pc = true /\ rp_is_client ps = false /\
     rp_cipher pc = rp_cipher ps /\ rp_application pc = rp_application ps /\ rp_application pc <> None) /\
    paired pc ps /\ (forall b, k_seq (side_key b (cur_keys pc)) = 0) /\ so_left (st_sock (cl_stream c1)) = None /\ so_left (st_sock (sv_stream s2)) = None.
Proof.
  intros H1 H2 H3 C. destruct (loopback_short sm cm nm cfgs d cfgc e now H1 H2 H3 C)
    as (c0 & s1 & c1 & s2 & pc & ps & hello & flight & reply & K1 & K2 & K3 & K4 & K5 & K6 & K7 & K8 & K9 & K10 & K11 & K12 & _).
  exists c0, s1, c1, s2, pc, ps, hello, flight, reply. do 11 (split; [assumption|]). exact K12.
Qed.
Lemma wider sm cm nm sm' cm' nm' cfgs d cfgc e now : sm <= sm' -> cm <= cm' -> nm <= nm' -> compatible_up_to sm cm nm cfgs d cfgc e now -> compatible_up_to sm' cm' nm' cfgs d cfgc e now.
Proof.
  intros H1 H2 H3 (C1 & C2 & C3 & C4 & C5 & C6 & C7 & C8 & C9 & C10 & C11). do 6 (split; [assumption|]).
  split; [intros n En; destruct (C7 n En) as (Q1 & Q2 & Q3); split; [exact Q1|]; split; [lia|exact Q3]|]. split; [exact C8|]. split; [lia|]. split; [exact C10|].
  intros ca Ca. destruct (C11 ca Ca) as (c & key & x & cax & cak & D1 & D2 & D3 & D4 & D5). exists c, key, x, cax, cak. split; [exact D1|]. split; [exact D2|]. split; [exact D3|]. split; [lia|exact D5].
Qed.
(* one read per write *)
Theorem loopback cfgs d cfgc e now : compatible cfgs d cfgc e now ->
  exists c0 s1 c1 s2 pc ps,
    let hello := so_sent (st_sock (cl_stream c0)) in
    let flight := so_sent (st_sock (sv_stream s1)) in
    let reply := skipn (length hello) (so_sent (st_sock (cl_stream c1))) in
    (connect cfgc e now fresh [] = (c0, None) /\ accept cfgs d now fresh [hello] = (s1, None) /\
     connect cfgc e now fresh [flight] = (c1, Some (Ok tt)) /\ accept cfgs d now fresh [hello; reply] = (s2, Some (Ok tt))) /\
    (zlen hello <= 4096 /\ zlen flight <= 2048 /\ zlen reply <= 4096) /\ (is_bytes hello /\ is_bytes flight /\ is_bytes reply) /\
    (st_protection (cl_stream c1) = Some pc /\ st_protection (sv_stream s2) = Some ps /\ rp_is_client pc = true /\ rp_is_client ps = false /\
     rp_cipher pc = rp_cipher ps /\ rp_application pc = rp_application ps /\ rp_application pc <> None) /\
    paired pc ps /\ (forall b, k_seq (side_key b (cur_keys pc)) = 0) /\ so_left (st_sock (cl_stream c1)) = None /\ so_left (st_sock (sv_stream s2)) = None.
Proof.
  intros C. destruct (loopback_wide 1500 3500 3500 cfgs d cfgc e now ltac:(lia) ltac:(lia) ltac:(lia) C)
    as (c0 & s1 & c1 & s2 & pc & ps & hello & flight & reply & (E0 & H0) & (E1 & H1) & (_ & _ & NF & NR) & (E2 & H2) & E3 & (L1 & L2 & L3) & Bs & K).
  exists c0, s1, c1, s2, pc, ps. cbv zeta. rewrite H0, H1, H2, skipn_app_eq by reflexivity.
  assert (B1 : forall l, l <> [] -> delivers l [bytes_of l]). { intros l N. pose proof (delivers_whole l [] [] N delivers_nil) as D. rewrite app_nil_r in D. exact D. }
  split; [|split; [lia|split; [exact Bs|exact K]]].
  split; [exact E0|]. split; [exact E1|]. split; [exact (E2 _ (B1 _ NF))|].
  refine (E3 [reply] _ _); [constructor; [exact NR|constructor]|cbn [concat]; apply app_nil_r].
Qed.
(* what the server sends meets the hypotheses of ClientAccept2.client_accepted *)
Lemma conforming cfgs d cfgc e now : compatible cfgs d cfgc e now -> exists first sh g parts more,
  whole first /\ r_type first = RHandshake /\ agrees cfgc e (r_fragment first) sh g /\ server_conforms cfgc e now g (concat parts) /\
  carry g (map (@concat Z) parts) (without_ccs more) /\ Forall whole more /\ Forall (fun r => r_type r = RApplicationData) (without_ccs more) /\
  zlen (concat (concat parts)) < 2^50 /\ zlen more < 2^50.
Proof.
  intros C. pose proof C as (Oks & Okc & Hs & NA & NB & Took & Hn & (x0 & X0) & Lcert & SW & _).
  assert (Hn' : forall n, cc_server_name cfgc = Some n -> utf8_valid n = true /\ zlen n <= 65000 /\ (forall h, sc_server_name cfgs = Some h -> n = h))
    by (intros n En; destruct (Hn n En) as (U1 & U2 & U3); split; [exact U1|]; split; [lia|exact U3]).
  destruct (hellos_agree _ _ _ _ Oks Okc Hs NA NB Hn') as (ch & body & g & sh & A & Sid & Ag & Bb & Lb).
  destruct (greeting_bytes cfgc e Okc) as (Bg & Lg).
  destruct (clear_record RHandshake _ Bg Lg) as (hello & Wh & Th & Fh & Eh).
  (* the server's answer *)
  rewrite <- Fh in A.
  assert (CS : can_sign cfgs d g) by (rewrite Fh in A; apply (SW _ _ _ A)).
  destruct (accepts cfgs d now fresh hello ch body g Oks ltac:(lia) eq_refl Wh Th A CS) as (x & (G & _ & Gch & Gb & Gg) & (s1 & Es1 & Hs1) & Fin).
  cbn [fresh so_sent app] in Hs1. rewrite Fh in A.
  pose proof G as (_ & _ & Sg & Bd & Ld & Su & _). rewrite Gg in Sg, Su.
  destruct (flight_carried cfgs d x Oks G ltac:(lia)) as (recs & Es & _ & Cs & Ws & Zs). rewrite Gg in Cs, Zs. set (der := gr_der x) in *.
  destruct (clear_record RHandshake (Rfc8446Hello.handshake 2 body)) as (first & Wf & Tf & Ff & Ef);
    [apply is_bytes_handshake; [unfold is_byte; lia|exact Bb]|rewrite zlen_handshake; lia|].
  destruct (clear_record RChangeCipherSpec [1]) as (ccs & Wc & Tc & Fc & Ecc); [apply is_bytes_check; reflexivity|reflexivity|].
  assert (Og : gr_out x = concat (map wire (first :: ccs :: recs))).
  { unfold gr_out. rewrite Gch, Gb, Sid, !as_bytes_spec by (cbn [record_new r_fragment]; rewrite ?zlen_handshake; try reflexivity; lia).
    cbn [record_new r_type r_fragment map concat]. rewrite Ef, Ecc, Es. reflexivity. }
  assert (WC : without_ccs (ccs :: recs) = recs). { rewrite without_cons. unfold is_ccs. rewrite Tc. apply no_ccs. exact Ws. }
  pose proof Su as (EA & _).
  pose proof (flight_zlen _ cfgs d g der Oks EA Ld) as Fz.
  destruct (singles_concat (server_flight cfgs d g der)) as (S1 & S2).
  exists first, sh, g, (map (fun m => [m]) (server_flight cfgs d g der)), (ccs :: recs).
  split; [exact Wf|]. split; [exact Tf|]. split; [rewrite Ff; exact Ag|]. split.
  { destruct (plan_fine 1500 3500 3500 cfgs d cfgc e now _ _ _ _ _ ltac:(lia) C X0 A Sg) as (Q1 & Q2 & Q3 & Q4 & Q5). set (l := server_plan cfgs d x0 der) in *.
    exists (pl_ee l), (pl_rs l), (pl_ctx l), (pl_cert l), (pl_x l), (pl_exts l), (pl_others l), (pl_m2 l).
    split; [rewrite S1; apply plan_flight|]. do 4 (split; [assumption|]). exact Q5. }
  split; [rewrite S2, WC; exact Cs|].
  split; [constructor; [exact Wc|]; eapply Forall_impl; [|exact Ws]; cbn; tauto|].
  split; [rewrite WC; eapply Forall_impl; [|exact Ws]; cbn; tauto|].
  split; [rewrite S1; pose proof (zlen_nonneg (server_flight cfgs d g der)); lia|].
  destruct Cs as (Lrecs & _). pose proof (zlen_nonneg (concat (server_flight cfgs d g der))). rewrite zlen_cons. unfold zlen at 1. rewrite Lrecs. fold (zlen (server_flight cfgs d g der)). lia.
Qed.
