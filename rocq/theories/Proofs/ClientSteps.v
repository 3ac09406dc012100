(* The client's handlers, one at a time *)
From Verif Require Import Proofs.Util Proofs.Bytes Model.Alert Model.Bytes Model.Suite Model.Sha2 Model.Hmac Model.KeySchedule Model.Record Model.Channel
  Model.Curve Model.Signature Model.Ecdsa Model.X509 Model.Extensions Model.Hello Model.Kex Model.Handshake Model.Certificate
  Model.Stream Model.AppChannel Model.Keylog Model.Server Model.Client
  Spec.Enc Spec.Rfc2104 Spec.Fips180 Spec.Rfc7748 Spec.KeyShare Spec.Rfc8446Keys Spec.Tls13Record Spec.Endpoints Spec.Writes Spec.Rfc8446Auth Spec.Connection
  Spec.ClientConnection.
From Verif Require Spec.Rfc8446Hello Spec.Ecdsa.
From Verif Require Import Proofs.KeySchedule Proofs.Record Proofs.Channel Proofs.Stream Proofs.ServerRun Proofs.ServerKeys Proofs.Opened
  Proofs.ServerSteps Proofs.Alerting.
From Verif Require Proofs.Hmac Proofs.Sha2 Proofs.Auth Proofs.HelloTotal Proofs.Hello Proofs.Kex Proofs.EcdsaP256 Proofs.X25519Props.

(* ---- the ClientHello ---- *)
Lemma greeting_bytes cfg e : client_ok cfg e -> is_bytes (client_greeting cfg e) /\ zlen (client_greeting cfg e) < 2^16.
Proof.
  intros (_ & Br & Lr & Bs & Ls & _ & Hn & _). unfold client_greeting.
  destruct (X25519Props.X25519_bytes (x25519_private (e_secret e)) base_point) as (Bx & Lx & _).
  set (X := X25519 _ _) in *. clearbody X.
  split.
  - apply is_bytes_handshake; [unfold is_byte; lia|]. unfold Rfc8446Hello.client_hello_wire.
    cbn [Rfc8446Hello.m_random Rfc8446Hello.m_session_id Rfc8446Hello.m_suites Rfc8446Hello.m_extensions].
    unfold Rfc8446Hello.vector8, Rfc8446Hello.vector16.
    assert (BE : forall n l, is_bytes l -> is_bytes (be_enc n (Z.of_nat (length l)) ++ l)) by (intros; apply is_bytes_app; split; [apply be_enc_bytes|assumption]).
    repeat match goal with |- is_bytes (?a ++ ?b) => apply is_bytes_app; split end;
      try assumption; try apply be_enc_bytes; try (apply is_bytes_check; reflexivity).
    assert (forall l, Forall (fun x => is_bytes (Rfc8446Hello.client_extension_wire x)) l -> is_bytes (flat_map Rfc8446Hello.client_extension_wire l)) as FM.
    { induction 1; cbn [flat_map]; [constructor|]. apply is_bytes_app. auto. }
    apply FM. apply Forall_app. split.
    + constructor; [|repeat (constructor; [apply is_bytes_check; reflexivity|]); constructor].
      unfold Rfc8446Hello.client_extension_wire, Rfc8446Hello.extension, Rfc8446Hello.u16, Rfc8446Hello.vector16. cbn [Rfc8446Hello.client_extension_data flat_map].
      apply is_bytes_app. split; [apply be_enc_bytes|]. apply BE. unfold Rfc8446Hello.vector16. apply BE. rewrite app_nil_r.
      unfold Rfc8446Hello.key_share_entry, Rfc8446Hello.u16, Rfc8446Hello.vector16. cbn [fst snd]. apply is_bytes_app. split; [apply be_enc_bytes|]. apply BE. exact Bx.
    + destruct (cc_server_name cfg) as [n|]; constructor; [|constructor]. destruct (Hn n eq_refl) as (Bn & _).
      unfold Rfc8446Hello.client_extension_wire, Rfc8446Hello.extension, Rfc8446Hello.u16, Rfc8446Hello.vector16. cbn [Rfc8446Hello.client_extension_data].
      apply is_bytes_app. split; [apply be_enc_bytes|]. apply BE. unfold Rfc8446Hello.vector16. apply BE. apply is_bytes_app. split; [apply is_bytes_check; reflexivity|].
      apply BE. exact Bn.
  - unfold zlen. rewrite handshake_length. unfold Rfc8446Hello.client_hello_wire.
    cbn [Rfc8446Hello.m_random Rfc8446Hello.m_session_id Rfc8446Hello.m_suites Rfc8446Hello.m_extensions].
    assert (V16 : forall l, length (Rfc8446Hello.vector16 l) = (2 + length l)%nat) by (intros; unfold Rfc8446Hello.vector16; now rewrite app_length, be_enc_length).
    assert (V8 : forall l, length (Rfc8446Hello.vector8 l) = (1 + length l)%nat) by (intros; unfold Rfc8446Hello.vector8; now rewrite app_length, be_enc_length).
    assert (U : forall n, length (Rfc8446Hello.u16 n) = 2%nat) by (intros; apply be_enc_length).
    rewrite !app_length, !V16, !V8, U, Lr, Ls, flat_map_app, !app_length. cbn [flat_map].
    unfold Rfc8446Hello.client_extension_wire, Rfc8446Hello.extension. cbn [Rfc8446Hello.client_extension_data flat_map].
    rewrite !app_nil_r, !app_length, !V16, !U. cbn [flat_map]. rewrite ?app_nil_r. unfold Rfc8446Hello.key_share_entry. cbn [fst snd].
    rewrite !app_length, !V16, !V8, !U, Lx.
    change (length (Rfc8446Hello.u16s [4866; 4865; 4867])) with 6%nat. change (length (Rfc8446Hello.u16s [772])) with 2%nat.
    change (length (Rfc8446Hello.u16s [1027])) with 2%nat. change (length (Rfc8446Hello.u16s [23; 29])) with 4%nat. cbn [length].
    destruct (cc_server_name cfg) as [n|]; cbn [flat_map length]; [|lia]. destruct (Hn n eq_refl) as (_ & Ln). unfold zlen in Ln.
    rewrite ?app_nil_r, ?app_length, ?V16, ?U. cbn [Rfc8446Hello.client_extension_data]. rewrite ?V16, ?app_length, ?V16. cbn [length]. lia.
Qed.

Local Opaque client_hello_of client_hello_bytes handshake_from_raw server_hello_from_raw suite_tshash suite_cipher
  from_handshake rpp_new certificate_verify_for_handshake finished_handshake verify_data_for_finished th_update certificate_for_handshake
  append_handshake_traffic_secrets rpp_encrypt rpp_decrypt record_from_raw key_share_of sig_from_der is_certificate_valid certificates_from_hello
  generate_application_keys x509_from_raw is_valid X509.get_public_key client_greeting from_request_exts.

Lemma hello_built cfg e : client_ok cfg e ->
  exists ch body, client_hello_of (E:=tls_error) (e_random e) (e_session e) (PrivateKey curve25519 (e_secret e)) (cc_server_name cfg) = Ok ch /\
    client_hello_bytes (E:=tls_error) ch = Ok body /\ handshake_to_bytes HtClientHello body = client_greeting cfg e.
Proof.
  intros (Hs & Br & Lr & Bs & Ls & _ & Hn & _). destruct (Kex.sent (E:=tls_error) (e_secret e) Hs) as (k & Hk & _).
  Local Transparent client_hello_of. unfold client_hello_of. rewrite Hk, bind_Ok. Local Opaque client_hello_of.
  eexists. eexists. split; [reflexivity|]. split.
  - apply (Hello.client_encode (E:=tls_error) (e_random e) (Some (e_session e)) [AES_256_GCM_SHA384; AES_128_GCM_SHA256; CHACHA20_POLY1305_SHA256] (e_secret e) k (cc_server_name cfg) Hs).
    + cbn [Hello.sid_list]. unfold zlen. rewrite Ls. reflexivity.
    + destruct (cc_server_name cfg) as [n|]; [|exact I]. destruct (Hn n eq_refl). lia.
    + exact Hk.
  - rewrite HelloTotal.to_bytes_wire. Local Transparent client_greeting. unfold client_greeting. Local Opaque client_greeting. reflexivity.
Qed.
Definition hello_out (cfg : client_config) (e : client_draws) : list Z :=
  firstn (e_took e) (record_as_bytes (record_new RHandshake (client_greeting cfg e))).
Lemma hello_sent cfg e so h' u : client_ok cfg e -> send_client_hello cfg e (client_new e so) = (h', Ok u) ->
  h' = cl_with_stream (cl_with_hello (client_new e so) (e_random e) (client_greeting cfg e)) (cl_stream h') /\
  st_protection (cl_stream h') = None /\ st_buffer (cl_stream h') = [] /\ so_sent (st_sock (cl_stream h')) = so_sent so ++ hello_out cfg e.
Proof.
  intros Ok' H. destruct (hello_built cfg e Ok') as (ch & body & H1 & H2 & H3). unfold send_client_hello in H.
  cbn [client_new cl_key] in H. rewrite H1 in H. sinv H x Ex. apply Ok_inj in Ex. subst x. rewrite H2 in H. sinv H x Ex. apply Ok_inj in Ex. subst x.
  rewrite H3 in H. cbn [cl_with_hello cl_stream] in H.
  destruct (tcp_write _ _ _) as [s r] eqn:T in H. sinv H n En. injection H as <- _. unfold tcp_write in T. cbn [client_new cl_stream stream_new st_sock st_protection st_buffer] in T.
  match type of T with context[write_all so ?b] => destruct (write_all so b) as [so' []] eqn:W end; injection T as <- <-; [|discriminate]. apply write_all_true in W.
  cbn [cl_with_stream cl_stream st_protection st_buffer st_sock]. auto.
Qed.

(* ---- the ServerHello ---- *)
Definition client_log (cfg : client_config) (e : client_draws) (p : rpp) : list Z :=
  match cc_keylog cfg with
  | Some _ => append_handshake_traffic_secrets (keylog_new (e_random e)) (k_secret (wk_server (rp_handshake p))) (k_secret (wk_client (rp_handshake p)))
  | None => []
  end.
Lemma share_first l k : server_public_key_share l = Some k <-> used_share l k.
Proof.
  split.
  - induction l as [|x l IH]; [discriminate|]. cbn [server_public_key_share].
    assert (N : (forall entries, x = SKeyShare entries -> entries = []) -> server_public_key_share l = Some k -> used_share (x :: l) k).
    { intros Hx H. destruct (IH H) as (b & o & a & -> & Hb). exists (x :: b), o, a. split; [reflexivity|]. intros en [E|I]; [now apply Hx|now apply Hb]. }
    destruct x as [v|[|k0 l0]|v]; try (apply N; congruence). intros [= ->]. exists [], l0, l. split; [reflexivity|]. intros en [].
  - intros (b & o & a & -> & Hb). induction b as [|x b IH]; [reflexivity|]. cbn [app server_public_key_share].
    assert (R : server_public_key_share (b ++ SKeyShare (k :: o) :: a) = Some k) by (apply IH; intros en I; apply Hb; now right).
    destruct x as [v|[|k0 l0]|v]; try exact R. pose proof (Hb (k0 :: l0) (or_introl eq_refl)). discriminate.
Qed.
Lemma server_hello_step cfg e h rec h' u : client_ok cfg e -> is_bytes (r_fragment rec) -> zlen (r_fragment rec) < 2^16 ->
  cl_hello h = Some (client_greeting cfg e) -> cl_random h = Some (e_random e) -> cl_key h = PrivateKey curve25519 (e_secret e) ->
  handle_server_hello cfg h rec = (h', Ok u) ->
  exists H sh g p0, agrees cfg e (r_fragment rec) sh g /\ suited H g /\
    rpp_new (E:=tls_error) (schedule_of H g) (g_cipher g) true = Ok (Some p0) /\
    cl_stream h' = set_protection (cl_stream h) (Some p0) /\ cl_th h' = Some (th_update (th_new H) (g_hellos g)) /\
    cl_state h' = CsEncryptedExtensions /\ cl_request h' = cl_request h /\ cl_cert h' = cl_cert h /\
    cl_keylog h' = (match cc_keylog cfg with Some _ => Some (keylog_new (e_random e)) | None => cl_keylog h end) /\
    cl_log h' = cl_log h ++ client_log cfg e p0.
Proof.
  intros Ok' Br Lr Eh Er Ek H. unfold handle_server_hello in H. sinv H hs E1.
  destruct (ht_eqb (hs_type hs) HtServerHello) eqn:T; [|discriminate]. apply ht_eqb_eq in T. cbn [negb] in H.
  sinv H sh E2. sinv H t0 E3. rewrite Eh in H. sinv H x Ex. cbn in Ex. apply Ok_inj in Ex. subst x.
  destruct (server_public_key_share (sh_exts sh)) as [share|] eqn:Sh; [|discriminate]. rewrite Ek in H.
  sinv H ks E4. sinv H c E5. sinv H p E6. rewrite <- th_update_app in E4.
  destruct (greeting_bytes cfg e Ok') as (Bg & Lg).
  assert (Bm : is_bytes (client_greeting cfg e ++ r_fragment rec)) by (apply is_bytes_app; auto).
  destruct (new_keys _ _ _ _ _ _ _ _ _ E3 E5 Bm ltac:(rewrite zlen_app; lia) E4 E6)
    as (a & A & klen & s & p0 & P1 & P2 & P3 & P4 & P5 & P6 & -> & P8 & P9 & P10 & P11).
  set (g := Agreed c A klen s (client_greeting cfg e ++ r_fragment rec)) in *. set (HH := th_type t0) in *.
  exists HH, sh, g, p0. split; [apply share_first in Sh; exists hs, share, a; cbn [g g_hellos g_ecdhe g_cipher g_alg g_klen]; auto 12|]. split; [exact P5|].
  rewrite P6 in E6. split; [exact E6|].
  rewrite <- th_update_app, P4 in H. rewrite Er in H. unfold client_log.
  destruct (cc_keylog cfg) as [f|] eqn:Kl.
  - cbn [unwrap sbind] in H. injection H as <- _. cbn. do 6 (split; [reflexivity|]). reflexivity.
  - cbn [sbind] in H. injection H as <- _. cbn. do 6 (split; [reflexivity|]). symmetry; apply app_nil_r.
Qed.

(* ---- one message: m is what the message occupies, the rest of the record follows ---- *)
Lemma read_message buf hs : is_bytes buf -> handshake_from_raw buf = Ok hs ->
  buf = hs_raw hs ++ skipn (length (hs_raw hs)) buf /\ hs_raw hs = Rfc8446Hello.handshake (handshake_type_u8 (hs_type hs)) (hs_fraqment hs) /\
  is_bytes (hs_raw hs) /\ is_bytes (hs_fraqment hs) /\ (4 <= length (hs_raw hs))%nat.
Proof.
  intros B H. destruct (message_read _ _ B H) as (extra & E & Bf & R). rewrite <- R in E.
  split; [rewrite E at 2; now rewrite skipn_app_eq|]. split; [exact R|]. rewrite E in B. apply is_bytes_app in B. split; [apply B|]. split; [exact Bf|].
  rewrite R, handshake_length. lia.
Qed.

Lemma c_cert_step now h hs h' u t : hs_raw hs = Rfc8446Hello.handshake (handshake_type_u8 (hs_type hs)) (hs_fraqment hs) -> is_bytes (hs_fraqment hs) ->
  cl_th h = Some t -> handle_server_certificate now h hs = (h', Ok u) ->
  (exists e, cl_state h' = CsFinishWithError e) \/
  exists cert x, h' = cl_with_state (cl_with_cert (cl_with_th h (th_update t (hs_raw hs))) (Cert cert (Some x))) CsServerCertificateVerify /\
    is_bytes cert /\ shows (hs_raw hs) cert /\ x509_from_raw cert = Ok x /\ is_valid (E:=tls_error) (x_validity x) now = Ok true.
Proof.
  intros R Bf Th H. unfold handle_server_certificate in H.
  destruct (ht_eqb (hs_type hs) HtCertificate) eqn:T; [|discriminate]. apply ht_eqb_eq in T. cbn [negb] in H. rewrite T in R. cbn [handshake_type_u8] in R.
  rewrite Th in H. sinv H t1 E1. cbn in E1. apply Ok_inj in E1. subst t1.
  destruct (certificates_from_hello (hs_fraqment hs) now) as [certs|e|] eqn:C; [|left; exists e; injection H as <- _; reflexivity|discriminate].
  destruct (certificates_inv _ _ _ Bf C) as (ctx & len & cert & more & x & L3 & EB & (b0 & I0 & S0) & -> & Bc & Lc & X & V).
  assert (Lctx : zlen ctx < 256).
  { assert (is_byte b0) by (unfold idx in I0; destruct (nth_error (hs_fraqment hs) 0) as [b|] eqn:N; [|discriminate]; apply Ok_inj in I0; subst b; exact (proj1 (Forall_forall _ _) Bf _ (nth_error_In _ _ N))).
    apply slice_ok in S0. destruct S0 as (R0 & ->). unfold zlen. rewrite firstn_length. unfold is_byte in *. lia. }
  sinv H c E5. cbn in E5. apply Ok_inj in E5. subst c. right. exists cert, x. injection H as <- _. split; [reflexivity|]. split; [exact Bc|].
  split; [exists ctx, len, more; split; [exact L3|]; split; [exact Lctx|]; rewrite R, EB; reflexivity|]. auto.
Qed.

Lemma c_cv_step h hs h' u H msgs cert x : hs_raw hs = Rfc8446Hello.handshake (handshake_type_u8 (hs_type hs)) (hs_fraqment hs) -> is_bytes (hs_fraqment hs) ->
  cl_cert h = Some (Cert cert (Some x)) -> is_bytes cert -> x509_from_raw cert = Ok x ->
  cl_th h = Some (th_update (th_new H) msgs) -> is_bytes msgs -> zlen msgs < 2^53 ->
  handle_server_certificate_verify h hs = (h', Ok u) ->
  (exists e, cl_state h' = CsFinishWithError e) \/
  h' = cl_with_state (cl_with_th h (th_update (th_new H) (msgs ++ hs_raw hs))) CsFinished /\
  server_possesses (Proofs.Hmac.alg_of H) x msgs (hs_raw hs).
Proof.
  intros R Bf Hc Bc X Th Bs Ls E. unfold handle_server_certificate_verify in E. rewrite Hc in E.
  destruct (ht_eqb (hs_type hs) HtCertificateVerify) eqn:T; [|discriminate]. apply ht_eqb_eq in T. cbn [negb] in E. rewrite T in R. cbn [handshake_type_u8] in R.
  sinv E b1 E1. sinv E algo E2. destruct (two_of _ 0 _ Bf E1) as (F1 & R1 & V1).
  unfold sig_scheme_new in E2. destruct (Z.eqb_spec (to_u16 b1) 1027) as [A1|]; [|destruct (_ =? _) in E2; [apply Ok_inj in E2; subst algo; discriminate|];
    destruct (_ =? _) in E2; [apply Ok_inj in E2; subst algo; discriminate|discriminate]].
  apply Ok_inj in E2. subst algo. sinv E rest E3. apply slice_from_ok in E3. destruct E3 as (L4 & E3).
  destruct (sig_from_der rest) as [[sg size]|e|] eqn:D; [|left; exists e; injection E as <- _; reflexivity|discriminate].
  rewrite Th in E. sinv E t1 E4. cbn in E4. apply Ok_inj in E4. subst t1. sinv E v E5.
  destruct v; [|left; exists BadCertificate; injection E as <- _; reflexivity]. cbn [negb] in E.
  sinv E b2 E6. destruct (two_of _ 2 _ Bf E6) as (F2 & R2 & V2).
  destruct (Nat.eqb_spec (Z.to_nat (to_u16 b2)) size) as [S|]; [|left; exists BadCertificate; injection E as <- _; reflexivity]. cbn [negb] in E.
  destruct (Auth.valid_true (Cert cert (Some x)) x _ _ _ eq_refl Bc X E5) as (key & K1 & K2).
  rewrite (Auth.verify_digest H msgs l_server server_context Bs Ls ltac:(left; split; reflexivity)) in K2.
  right. injection E as <- _. split; [now rewrite th_update_app|].
  exists key, sg, rest, size. split; [exact K1|]. split; [exact D|]. split; [|exact K2].
  rewrite R. f_equal. unfold Rfc8446Hello.u16. rewrite <- A1, V1, F1. rewrite <- S, Z2Nat.id, V2, F2, E3 by lia.
  change (skipn 0 (hs_fraqment hs)) with (hs_fraqment hs). change 4%nat with (2 + 2)%nat.
  rewrite <- skipn_split. symmetry. apply firstn_skipn.
Qed.

(* ---- the server's Finished and what the client sends ---- *)
Lemma cl_write_ok h t data h' u : cl_write h t data = (h', Ok u) ->
  exists s' w, h' = cl_with_stream h s' /\ out s' = out (cl_stream h) ++ w /\
    match st_protection (cl_stream h) with
    | Some p => exists p', rpp_encrypt p (record_new t data) = (p', Ok w) /\ st_protection s' = Some p'
    | None => w = record_as_bytes (record_new t data) /\ st_protection s' = None
    end.
Proof.
  unfold cl_write. destruct (write_record (cl_stream h) t data) as [s r] eqn:E. intros H. injection H as <- ->.
  destruct (write_ok1 _ _ _ _ _ E) as (w & H). exists s, w. split; [reflexivity|exact H].
Qed.
Lemma cl_flush_ok h h' u : cl_flush h = (h', Ok u) -> exists s', h' = cl_with_stream h s' /\ out s' = out (cl_stream h) /\
  st_protection s' = st_protection (cl_stream h) /\ st_buffer s' = [].
Proof.
  unfold cl_flush. destruct (flush_cases (cl_stream h)) as [(so & F & So & _)|(so & rest & F & _)]; rewrite F; intros H; [|discriminate].
  injection H as <- _. eexists. split; [reflexivity|]. split; [|split; reflexivity]. unfold out. cbn [st_sock st_buffer]. now rewrite app_nil_r, So.
Qed.

Lemma context_read body b0 context : is_bytes body -> idx (E:=tls_error) body 0 = Ok b0 ->
  (if Nat.ltb 0 (Z.to_nat b0) then slice (E:=tls_error) body 1 (Z.to_nat b0 + 1) else Ok []) = Ok context ->
  exists more, body = Rfc8446Hello.vector8 context ++ more /\ b0 :: context = Rfc8446Hello.vector8 context.
Proof.
  intros B I S. destruct body as [|x rest]; [discriminate|]. cbn in I. apply Ok_inj in I. subst x. inversion B as [|? ? B0 Br]; subst. unfold is_byte in B0.
  assert (exists more, rest = context ++ more /\ length context = Z.to_nat b0) as (more & -> & L).
  { destruct (Nat.ltb_spec 0 (Z.to_nat b0)).
    - apply slice_ok in S. destruct S as (R & ->). cbn [length] in R. cbn [skipn]. replace (Z.to_nat b0 + 1 - 1)%nat with (Z.to_nat b0) by lia.
      exists (skipn (Z.to_nat b0) rest). split; [symmetry; apply firstn_skipn|rewrite firstn_length; lia].
    - apply Ok_inj in S. subst context. exists rest. split; [reflexivity|cbn; lia]. }
  exists more. unfold Rfc8446Hello.vector8. rewrite L, Z2Nat.id, be1 by lia. split; reflexivity.
Qed.

Lemma reply_step cfg e h h' u H g body before p : client_ok cfg e -> cl_request h = Some body -> is_bytes body ->
  g_alg g = Proofs.Hmac.alg_of H ->
  cl_th h = Some (th_update (th_new H) before) -> is_bytes before -> zlen before < 2^53 - 2^26 -> st_protection (cl_stream h) = Some p ->
  handle_certificate_request cfg e h = (h', Ok u) ->
  exists msgs p' ws, replies cfg e g before (Some body) msgs /\ enc_all p msgs = Some (p', ws) /\
    cl_th h' = Some (th_update (th_new H) (before ++ concat msgs)) /\ is_bytes (concat msgs) /\ zlen (concat msgs) < 2^25 /\
    st_protection (cl_stream h') = Some p' /\ out (cl_stream h') = out (cl_stream h) ++ concat ws /\
    cl_keylog h' = cl_keylog h /\ cl_log h' = cl_log h.
Proof.
  intros Ok' Rq Bb EA Th Bm Lm P E. pose proof Ok' as (_ & _ & _ & _ & _ & Nn & _ & Hc & Hk).
  unfold handle_certificate_request in E. rewrite Rq in E. sinv E x Ex. cbn in Ex. apply Ok_inj in Ex. subst x.
  sinv E b0 E0. sinv E context E1. destruct (context_read _ _ _ Bb E0 E1) as (more & Eb & Ev).
  assert (Lctx : (length context <= 255)%nat).
  { destruct body as [|x rest]; [discriminate|]. cbn in E0. apply Ok_inj in E0. subst x. inversion Bb as [|? ? B0 Br]; subst. unfold is_byte in B0.
    apply (f_equal (@hd Z 0)) in Ev. cbn [hd] in Ev. unfold Rfc8446Hello.vector8 in Ev, Eb.
    destruct (Nat.ltb_spec 0 (Z.to_nat b0)).
    - apply slice_ok in E1. destruct E1 as (R & ->). rewrite firstn_length. cbn [length] in *. lia.
    - apply Ok_inj in E1. subst context. cbn. lia. }
  assert (Bctx : is_bytes context).
  { rewrite Eb in Bb. apply is_bytes_app in Bb. destruct Bb as (Bb & _). unfold Rfc8446Hello.vector8 in Bb. apply is_bytes_app in Bb. apply Bb. }
  sinv E b2 E2. sinv E b3 E3.
  apply sbind_ok in E. destruct E as (h0 & u0 & E4 & E).
  assert (h0 = h) as -> by (destruct (from_request_exts b3); [now injection E4|now injection E4|discriminate]). clear E4.
  rewrite app_comm_cons, Ev in E.
  match type of E with context[handshake_to_bytes HtCertificate ?r] => set (resp := r) in E end.
  assert (ER : resp = match cc_cert cfg with Some c => Rfc8446Hello.certificate_wire context (ct_raw c) | None => Rfc8446Hello.vector8 context ++ [0; 0; 0; 2; 0; 0] end).
  { unfold resp. destruct (cc_cert cfg) as [c|] eqn:Cc; [|reflexivity]. destruct (Hc c eq_refl) as (_ & Lc).
    rewrite <- (Proofs.Auth.certificate_bytes c context Lc). Local Transparent certificate_for_handshake. unfold certificate_for_handshake. Local Opaque certificate_for_handshake.
    reflexivity. }
  assert (BR : is_bytes resp /\ zlen resp < 2^24 + 2^10).
  { rewrite ER. assert (Bv : is_bytes (Rfc8446Hello.vector8 context)) by (unfold Rfc8446Hello.vector8; apply is_bytes_app; split; [apply be_enc_bytes|exact Bctx]).
    assert (Lv : length (Rfc8446Hello.vector8 context) = (1 + length context)%nat) by (unfold Rfc8446Hello.vector8; now rewrite app_length, be_enc_length).
    destruct (cc_cert cfg) as [c|] eqn:Cc.
    - destruct (Hc c eq_refl) as (Bc & Lc). unfold Rfc8446Hello.certificate_wire. split.
      + apply is_bytes_app. split; [exact Bv|]. unfold Rfc8446Hello.vector24. repeat first [exact Bc | apply be_enc_bytes | apply is_bytes_app; split]. apply is_bytes_check. reflexivity.
      + unfold zlen, Rfc8446Hello.vector24, Rfc8446Hello.vector16 in *. rewrite !app_length, Lv, !be_enc_length. cbn [length]. lia.
    - split; [apply is_bytes_app; split; [exact Bv|apply is_bytes_check; reflexivity]|]. unfold zlen. rewrite app_length, Lv. cbn [length]. lia. }
  clearbody resp. subst resp. rewrite HelloTotal.to_bytes_wire in E. cbn [handshake_type_u8] in E.
  apply sbind_ok in E. destruct E as (h1 & u1 & W1 & E). apply cl_write_ok in W1. destruct W1 as (s1 & w1 & -> & O1 & P1). rewrite P in P1.
  destruct P1 as (p1 & N1 & P1).
  change (cl_th (cl_with_stream h s1)) with (cl_th h) in E. rewrite Th in E. sinv E t1 Et. cbn in Et. apply Ok_inj in Et. subst t1. rewrite <- th_update_app in E.
  destruct BR as (BR & LR).
  destruct (cc_cert cfg) as [c|] eqn:Cc.
  - remember (Rfc8446Hello.handshake 11 (Rfc8446Hello.certificate_wire context (ct_raw c))) as m1 eqn:Em1.
    assert (B1 : is_bytes m1) by (rewrite Em1; apply is_bytes_handshake; [unfold is_byte; lia|exact BR]).
    assert (L1 : zlen m1 < 2^24 + 2^10 + 4) by (rewrite Em1; unfold zlen in *; rewrite handshake_length; lia).
    apply sbind_ok in E. destruct E as (h2 & u2 & W2 & E).
    destruct (cc_key cfg) as [key|] eqn:Ck; [|discriminate]. pose proof (Hk key eq_refl) as Hcu.
    sinv W2 cvo E5. sinv W2 cv E6. destruct cvo as [cv'|]; [|discriminate]. apply Ok_inj in E6. subst cv'.
    destruct key as [cu kk]. cbn [sk_curve] in Hcu. subst cu.
    destruct (Proofs.Auth.cv_sent (E:=tls_error) kk _ _ _ _ Nn E5) as (k & r & s & der & Ik & Hsig & Hder & Ecv & Bder & Lder). subst cv.
    rewrite HelloTotal.to_bytes_wire in W2. cbn [handshake_type_u8] in W2.
    rewrite (Proofs.Auth.verify_digest H _ l_client client_context) in Hsig;
      [|apply is_bytes_app; split; assumption|rewrite zlen_app; lia|right; split; reflexivity].
    rewrite Forall_forall in Nn. pose proof (Proofs.EcdsaP256.p256_sign_valid _ _ _ _ _ (Nn k Ik) Hsig) as Hval.
    apply cl_write_ok in W2. destruct W2 as (s2 & w2 & -> & O2 & P2). rewrite <- th_update_app in E.
    set (m2 := Rfc8446Hello.handshake 15 (Rfc8446Hello.certificate_verify_wire 1027 der)) in *.
    assert (B2 : is_bytes m2 /\ zlen m2 < 2^10).
    { unfold m2, zlen. rewrite handshake_length. unfold Rfc8446Hello.certificate_verify_wire, Rfc8446Hello.u16, Rfc8446Hello.vector16. rewrite !app_length, !be_enc_length.
      split; [|lia]. apply is_bytes_handshake; [unfold is_byte; lia|]. repeat first [assumption | apply be_enc_bytes | apply is_bytes_app; split]. }
    destruct B2 as (B2 & L2). cbn [cl_with_th cl_with_stream cl_stream] in O2, P2. rewrite P1 in P2. destruct P2 as (p2 & N2 & P2).
    injection E as <- _. exists [m1; m2], p2, [w1; w2]. cbn [concat]. rewrite !app_nil_r.
    split.
    { unfold replies. exists context, more. split; [exact Eb|]. split; [unfold zlen; lia|]. rewrite Cc. exists (PrivateKey secp256r1 kk), der, k, r, s. split; [exact Ck|]. cbv zeta. rewrite <- Em1.
      split; [reflexivity|]. cbn [sk_secret]. rewrite EA. split; [exact (conj Ik Hsig)|]. split; [exact Hval|exact Hder]. }
    split; [cbn [enc_all]; rewrite N1, N2; reflexivity|]. cbn [cl_with_state cl_with_th cl_with_stream cl_th cl_stream cl_keylog cl_log].
    split; [rewrite <- app_assoc; reflexivity|]. split; [apply is_bytes_app; tauto|]. split; [rewrite zlen_app; lia|].
    split; [exact P2|]. split; [rewrite O2, O1, <- app_assoc; reflexivity|]. split; reflexivity.
  - set (m1 := Rfc8446Hello.handshake 11 (Rfc8446Hello.vector8 context ++ [0; 0; 0; 2; 0; 0])) in *.
    cbn [sbind] in E. injection E as <- _. exists [m1], p1, [w1]. cbn [concat]. rewrite !app_nil_r.
    split; [exists context, more; split; [exact Eb|]; split; [unfold zlen; lia|]; rewrite Cc; reflexivity|].
    split; [cbn [enc_all]; rewrite N1; reflexivity|]. cbn [cl_with_state cl_with_th cl_with_stream cl_th cl_stream cl_keylog cl_log]. split; [reflexivity|].
    split; [apply is_bytes_handshake; [unfold is_byte; lia|exact BR]|]. split; [unfold m1, zlen in *; rewrite handshake_length; lia|].
    split; [exact P1|]. split; [exact O1|]. split; reflexivity.
Qed.

Lemma c_fin_step cfg e h hs h' u H g p msgs : client_ok cfg e ->
  hs_raw hs = Rfc8446Hello.handshake (handshake_type_u8 (hs_type hs)) (hs_fraqment hs) -> is_bytes (hs_raw hs) -> zlen (hs_raw hs) < 2^17 ->
  cl_state h = CsFinished -> st_protection (cl_stream h) = Some p -> keyed H g p -> rp_is_client p = true -> rp_application p = None ->
  cl_th h = Some (th_update (th_new H) msgs) -> is_bytes msgs -> zlen msgs < 2^52 + 2^20 ->
  (forall b, cl_request h = Some b -> is_bytes b) ->
  handle_server_finish cfg e h hs = (h', Ok u) ->
  hs_raw hs = server_finished g msgs /\ cl_state h' = CsReady /\
  exists replied p1 ws p', let before := msgs ++ server_finished g msgs in
    (replies cfg e g before (cl_request h) replied /\ is_bytes (concat replied)) /\ enc_all p (client_flight g before replied) = Some (p1, ws) /\
    out (cl_stream h') = out (cl_stream h) ++ concat ws /\ st_buffer (cl_stream h') = [] /\
    st_protection (cl_stream h') = Some p' /\ rp_is_client p' = true /\ rp_cipher p' = g_cipher g /\
    rp_application p' = Some (application_keys g before) /\
    good_key (cipher_get_suite (g_cipher g)) (wk_server (application_keys g before)) /\
    good_key (cipher_get_suite (g_cipher g)) (wk_client (application_keys g before)) /\
    cl_log h' = cl_log h ++ (match cl_keylog h with Some k => append_from_protection k p' | None => [] end).
Proof.
  intros Ok' R Br Lr St Pr K Cp Np Th Bs Ls Brq E. unfold handle_server_finish in E.
  destruct (ht_eqb (hs_type hs) HtFinished) eqn:T; [|rewrite St in E; discriminate]. apply ht_eqb_eq in T. cbn [negb] in E. rewrite T in R. cbn [handshake_type_u8] in R.
  rewrite Pr in E. sinv E p1 E1. cbn in E1. apply Ok_inj in E1. subst p1. rewrite Th in E. sinv E t1 E2. cbn in E2. apply Ok_inj in E2. subst t1.
  sinv E vd E3. rewrite St in E. destruct (list_eqb (hs_fraqment hs) vd) eqn:Q; [|discriminate]. apply list_eqb_spec in Q. cbn [negb] in E.
  pose proof K as (S & _ & Sch). destruct (suited_schedule H g S) as (_ & (Bcs & Lcs) & (Bss & Lss) & _). pose proof S as (EA & _).
  rewrite Sch in E3. cbn [schedule_of ks_server_hs] in E3.
  destruct (Auth.finished_data H _ _ Bss Lss Bs ltac:(lia)) as (F & _). rewrite F in E3. apply Ok_inj in E3.
  assert (ER : hs_raw hs = server_finished g msgs) by (rewrite R, Q, <- E3; unfold server_finished, verify_data; rewrite EA; reflexivity).
  split; [exact ER|]. rewrite ER in Br, Lr, E. clear R ER. set (fin := server_finished g msgs) in *. clearbody fin. rewrite <- th_update_app in E.
  set (before := msgs ++ fin) in *.
  assert (Bb : is_bytes before) by (apply is_bytes_app; auto). assert (Lb : zlen before < 2^52 + 2^20 + 2^17) by (unfold before; rewrite zlen_app; lia). clearbody before.
  apply sbind_ok in E. destruct E as (h1 & u1 & E1 & E).
  assert (X1 : exists replied p1 ws, replies cfg e g before (cl_request h) replied /\ enc_all p replied = Some (p1, ws) /\
    cl_th h1 = Some (th_update (th_new H) (before ++ concat replied)) /\ is_bytes (concat replied) /\ zlen (concat replied) < 2^25 /\
    st_protection (cl_stream h1) = Some p1 /\ out (cl_stream h1) = out (cl_stream h) ++ concat ws /\
    cl_keylog h1 = cl_keylog h /\ cl_log h1 = cl_log h).
  { cbn [cl_with_th cl_request] in E1. destruct (cl_request h) as [body|] eqn:Rq.
    - refine (reply_step cfg e (cl_with_th h (th_update (th_new H) before)) h1 u1 H g body before p Ok' Rq (Brq _ eq_refl) EA eq_refl Bb _ Pr E1). lia.
    - injection E1 as <- _. exists [], p, []. cbn [concat]. rewrite !app_nil_r. do 3 (split; [reflexivity|]). split; [constructor|]. split; [reflexivity|]. split; [exact Pr|]. repeat split. }
  destruct X1 as (replied & p1 & ws & Rp & En & Th1 & Bq & Lq & P1 & O1 & Kl1 & Lg1). clear E1.
  rewrite P1 in E. sinv E p1' Ep. cbn in Ep. apply Ok_inj in Ep. subst p1'. rewrite Th1 in E. sinv E t1 Et. cbn in Et. apply Ok_inj in Et. subst t1.
  pose proof (enc_all_same _ _ _ _ En) as (S1 & S2 & S3 & S4 & S5).
  sinv E finm E4. rewrite S1, Sch in E4. cbn [schedule_of ks_client_hs] in E4.
  rewrite (Auth.finished_message H _ _ Bcs Lcs) in E4; [|apply is_bytes_app; auto|rewrite zlen_app; lia]. apply Ok_inj in E4.
  apply sbind_ok in E. destruct E as (h2 & u2 & W & E). apply cl_write_ok in W. destruct W as (s2 & w & -> & O2 & P2). rewrite P1 in P2.
  destruct P2 as (p2 & N2 & P2). apply sbind_ok in E. destruct E as (h3 & u3 & W & E). apply cl_flush_ok in W. destruct W as (s3 & -> & O3 & P3 & B3).
  cbn [cl_with_stream cl_stream] in O3, P3, E. rewrite P3, P2 in E. sinv E px Ep. cbn in Ep. apply Ok_inj in Ep. subst px.
  pose proof (enc_all_snoc _ _ _ _ _ _ _ En N2) as En2. pose proof (enc_all_same _ _ _ _ En2) as (T1 & T2 & T3 & T4 & T5).
  assert (K2 : keyed H g p2) by (unfold keyed; destruct K as (_ & Hc & _); split; [exact S|]; split; congruence).
  destruct (keyed_application H g p2 before K2 Bb ltac:(lia)) as (p' & G & G1 & G2 & G3 & G4 & G5). rewrite G in E. sinv E w2 E4'.
  set (h4 := cl_with_protection _ (Some p')) in E.
  assert (SK : cl_keylog h4 = cl_keylog h) by exact Kl1. rewrite SK in E.
  injection E as <- _. split; [reflexivity|]. exists replied, p2, (ws ++ [w]), p'. cbv zeta. split; [exact (conj Rp Bq)|].
  split; [unfold client_flight, verify_data; rewrite EA, E4; exact En2|].
  assert (SS : forall l, cl_stream (match cl_keylog h with Some k => cl_append_log h4 (l k) | None => h4 end) = set_protection s3 (Some p'))
    by (intros; destruct (cl_keylog h); reflexivity).
  cbn [cl_with_state cl_stream cl_log]. rewrite SS.
  split; [cbn [set_protection]; unfold out in *; cbn [set_protection st_sock st_buffer]; rewrite O3, O2, O1, concat_app; cbn [concat]; rewrite app_nil_r, <- !app_assoc; reflexivity|].
  split; [exact B3|]. split; [reflexivity|]. split; [congruence|]. do 4 (split; [assumption|]).
  destruct (cl_keylog h); cbn; rewrite Lg1; [reflexivity|symmetry; apply app_nil_r].
Qed.
