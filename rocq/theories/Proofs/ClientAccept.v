(* A conforming server is accepted by the client *)
From Verif Require Import Proofs.Util Proofs.Bytes Model.Alert Model.Bytes Model.Suite Model.Sha2 Model.Hmac Model.KeySchedule Model.Record Model.Channel
  Model.Curve Model.Signature Model.Ecdsa Model.X509 Model.Extensions Model.Hello Model.Kex Model.Handshake Model.Certificate
  Model.Stream Model.AppChannel Model.Keylog Model.Server Model.Client
  Spec.Enc Spec.Rfc2104 Spec.Fips180 Spec.Rfc8446Keys Spec.Tls13Record Spec.Endpoints Spec.Writes Spec.Rfc8446Auth Spec.Connection
  Spec.ClientConnection Spec.ClientAccept.
From Verif Require Spec.Rfc8446Hello Spec.Ecdsa.
From Verif Require Import Proofs.KeySchedule Proofs.Record Proofs.Channel Proofs.Stream Proofs.ServerRun Proofs.ServerKeys Proofs.Opened
  Proofs.ServerSteps Proofs.ServerFlow Proofs.ClientSteps Proofs.ClientFlow Proofs.ClientRun Proofs.ServerAccept Proofs.ServerAccept2.
From Verif Require Proofs.Hmac Proofs.Sha2 Proofs.Auth Proofs.HelloTotal Proofs.Kex Proofs.EcdsaP256.


Local Opaque X509.get_public_key x509_from_raw client_greeting handshake_from_raw th_update rpp_encrypt.

Lemma agrees_facts cfg e answer sh g : client_ok cfg e -> is_bytes answer -> zlen answer < 2^16 -> agrees cfg e answer sh g ->
  exists hs share H,
    handshake_from_raw answer = Ok hs /\ hs_type hs = HtServerHello /\ server_hello_from_raw (hs_fraqment hs) = Ok sh /\
    g_hellos g = client_greeting cfg e ++ answer /\ server_public_key_share (sh_exts sh) = Some share /\
    suite_cipher (sh_suite sh) = Ok (g_cipher g) /\ suite_tshash (sh_suite sh) = Ok (th_new H) /\ suited H g /\
    from_handshake (th_update (th_new H) (g_hellos g)) (PrivateKey curve25519 (e_secret e)) share = Ok (schedule_of H g).
Proof.
  intros Ok' Br Lr (hs & share & a & E1 & Et & E2 & Eg & Ek & Eg2 & Es & Ec & Ep). apply share_first in Ek.
  destruct (tshash_of _ _ Ec) as (H & E4). exists hs, share, H. destruct (greeting_bytes cfg e Ok') as (Bg & Lg).
  destruct (secret_ok _ _ _ Es) as (Be & Le).
  destruct (params_exist _ _ _ E4 Ec) as (a' & A & klen & Hpar & Et0 & EA & Eklen). rewrite Hpar in Ep. injection Ep as <- EA2 Ek2.
  rewrite Auth.th_type_new in EA.
  assert (S : suited H g).
  { unfold suited. split; [congruence|]. split; [exists (sh_suite sh); exact Ec|]. split; [congruence|]. rewrite Eg.
    split; [apply is_bytes_app; auto|]. split; [|split; assumption]. rewrite zlen_app. lia. }
  do 7 (split; [assumption|]). split; [exact S|].
  unfold from_handshake. rewrite Eg2, Es, bind_Ok. rewrite Auth.th_type_update, Auth.th_type_new, Hmac.th_digest.
  destruct (suited_schedule H g S) as (Sch & _). rewrite Sch. reflexivity.
Qed.

Lemma sh_fwd cfg e h rec sh g : client_ok cfg e -> is_bytes (r_fragment rec) -> zlen (r_fragment rec) < 2^16 ->
  cl_hello h = Some (client_greeting cfg e) -> cl_random h = Some (e_random e) -> cl_key h = PrivateKey curve25519 (e_secret e) ->
  agrees cfg e (r_fragment rec) sh g -> exists h', handle_server_hello cfg h rec = (h', Ok tt).
Proof.
  intros Ok' Br Lr Eh Er Ek A. destruct (agrees_facts _ _ _ _ _ Ok' Br Lr A) as (hs & share & H & E1 & Et & E2 & Eg & Es & Ec & E4 & S & Fh).
  destruct (suited_keys H g true S) as (p0 & Hp0 & _).
  unfold handle_server_hello. rewrite E1, sbind_Ok, Et. change (negb (ht_eqb HtServerHello HtServerHello)) with false. cbv iota.
  rewrite E2, sbind_Ok, E4, sbind_Ok, Eh. cbn [unwrap]. rewrite sbind_Ok, Es, <- th_update_app, <- Eg, Ek, Fh, sbind_Ok, Ec, sbind_Ok, Hp0, sbind_Ok, Er.
  destruct (cc_keylog cfg); [cbn [unwrap]; rewrite sbind_Ok|]; eexists; rewrite sbind_Ok; reflexivity.
Qed.

Lemma c_cert_fwd now h context cert x exts others t : 
  let body := Rfc8446Hello.vector8 context ++ Rfc8446Hello.vector24 (Rfc8446Hello.vector24 cert ++ Rfc8446Hello.vector16 exts ++ others) in
  zlen context < 256 -> zlen body < 2^16 -> cl_th h = Some t ->
  x509_from_raw cert = Ok x -> is_valid (E:=tls_error) (x_validity x) now = Ok true ->
  handle_server_certificate now h (Handshake HtCertificate body (Rfc8446Hello.handshake 11 body)) =
    (cl_with_state (cl_with_cert (cl_with_th h (th_update t (Rfc8446Hello.handshake 11 body))) (Cert cert (Some x))) CsServerCertificateVerify, Ok tt).
Proof.
  intros body Lc Lb Th X V. pose proof (body_length context cert exts others) as LB. unfold certificate_body in LB. fold body in LB.
  assert (CR : certificates_from_hello body now = Ok [Cert cert (Some x)]).
  { pose proof (Auth.certificates_read context cert exts others [] now) as R. rewrite app_nil_r in R. unfold Auth.entry in R.
    rewrite <- app_assoc in R. fold body in R. rewrite R; clear R.
    - unfold certificate_from_raw. rewrite X, bind_Ok. cbn [ct_x509 unwrap]. rewrite bind_Ok, V, bind_Ok. reflexivity.
    - exact Lc.
    - unfold zlen in *. lia.
    - unfold zlen in *. unfold Rfc8446Hello.vector24, Rfc8446Hello.vector16. rewrite !app_length, !be_enc_length. lia. }
  unfold handle_server_certificate. cbn [hs_type hs_fraqment hs_raw]. change (negb (ht_eqb HtCertificate HtCertificate)) with false. cbv iota.
  rewrite Th. cbn [unwrap]. rewrite sbind_Ok, CR. cbn [hd_error unwrap]. rewrite sbind_Ok. reflexivity.
Qed.

Lemma c_cv_fwd h m H msgs cert x : zlen m < 2^16 -> is_bytes m ->
  cl_cert h = Some (Cert cert (Some x)) -> is_bytes cert -> x509_from_raw cert = Ok x ->
  cl_th h = Some (th_update (th_new H) msgs) -> is_bytes msgs -> zlen msgs < 2^53 ->
  server_possesses (Proofs.Hmac.alg_of H) x msgs m ->
  exists body, m = Rfc8446Hello.handshake 15 body /\
  handle_server_certificate_verify h (Handshake HtCertificateVerify body m) = (cl_with_state (cl_with_th h (th_update (th_new H) (msgs ++ m))) CsFinished, Ok tt).
Proof.
  intros Lm Bm Hc Bc X Th Bs Ls (key & sg & der & size & K & D & Em & Sg).
  set (body := Rfc8446Hello.u16 1027 ++ Rfc8446Hello.u16 (Z.of_nat size) ++ der) in *. exists body. split; [exact Em|].
  assert (Lb : zlen body < 2^16) by (rewrite Em in Lm; unfold zlen in *; rewrite handshake_length in Lm; lia).
  unfold handle_server_certificate_verify. rewrite Hc. cbn [hs_type hs_fraqment hs_raw].
  change (negb (ht_eqb HtCertificateVerify HtCertificateVerify)) with false. cbv iota.
  assert (EB : body = [4; 3] ++ be_enc 2 (Z.of_nat size) ++ der) by reflexivity.
  assert (I0 : slice (E:=tls_error) body 0 2 = Ok [4; 3]).
  { rewrite EB. change ([4; 3] ++ be_enc 2 (Z.of_nat size) ++ der) with ([] ++ [4; 3] ++ be_enc 2 (Z.of_nat size) ++ der). apply slice_mid; reflexivity. }
  rewrite I0, sbind_Ok. change (sig_scheme_new (to_u16 [4; 3])) with (Ok (E:=tls_error) ecdsa_secp256r1_sha256). rewrite sbind_Ok.
  assert (I1 : slice_from (E:=tls_error) body 4 = Ok der).
  { rewrite EB, app_assoc. apply slice_from_app. rewrite app_length, be_enc_length. reflexivity. }
  rewrite I1, sbind_Ok, D, Th. cbn [unwrap]. rewrite sbind_Ok.
  destruct (key_of_cert _ _ _ Bc X K) as (_ & Ka & Kb).
  assert (VV : is_certificate_valid (E:=tls_error) (Cert cert (Some x)) sg (th_update (th_new H) msgs) l_server = Ok true).
  { Local Transparent is_certificate_valid. unfold is_certificate_valid. Local Opaque is_certificate_valid. cbn [ct_x509 unwrap]. rewrite bind_Ok.
    unfold certificate_key. rewrite K, bind_Ok. destruct key as [a b]. rewrite bind_Ok.
    destruct (Auth.verify_key (F:=tls_error) a b sg (verify_content l_server (th_finalize (th_update (th_new H) msgs))) Ka Kb) as (v & V1 & V2).
    rewrite V1. f_equal. apply V2. rewrite (Auth.verify_digest H msgs l_server server_context Bs Ls); [exact Sg|]. left; split; reflexivity. }
  rewrite VV, sbind_Ok. cbn [negb].
  assert (I2 : slice (E:=tls_error) body 2 4 = Ok (be_enc 2 (Z.of_nat size))) by (rewrite EB; apply slice_mid; reflexivity).
  rewrite I2, sbind_Ok.
  assert (Bsize : Z.of_nat size < 2^16).
  { pose proof (sig_size der sg size D) as Q. unfold zlen in Lb. unfold body, Rfc8446Hello.u16 in Lb. rewrite !app_length, !be_enc_length in Lb. lia. }
  assert (TU : to_u16 (be_enc 2 (Z.of_nat size)) = Z.of_nat size).
  { rewrite Auth.be_enc_2. rewrite to_u16_val by apply u8_range. unfold u8. rewrite Z.shiftr_div_pow2 by lia. change (2^8) with 256.
    rewrite (Z.mod_small (_ / _)); [|split; [apply Z.div_pos; lia|apply Z.div_lt_upper_bound; lia]].
    pose proof (Z.div_mod (Z.of_nat size) 256). lia. }
  rewrite TU, Nat2Z.id, Nat.eqb_refl. cbn [negb]. rewrite th_update_app. reflexivity.
Qed.

(* ---- writing ---- *)
Lemma cl_write_prot h t data p p' w : endless (cl_stream h) -> st_protection (cl_stream h) = Some p -> rpp_encrypt p (record_new t data) = (p', Ok w) ->
  exists s', cl_write h t data = (cl_with_stream h s', Ok tt) /\ endless s' /\ st_protection s' = Some p'.
Proof.
  intros N P E. pose proof (write_fwd (cl_stream h) t data N) as W. rewrite P in W. destruct (W p' w E) as (s' & W' & N' & P').
  exists s'. unfold cl_write. rewrite W'. auto.
Qed.
Lemma cl_flush_fwd h : endless (cl_stream h) -> exists s', cl_flush h = (cl_with_stream h s', Ok tt) /\ endless s' /\ st_protection s' = st_protection (cl_stream h).
Proof. intros N. destruct (flush_endless _ N) as (s' & F & N' & P & _). exists s'. unfold cl_flush. rewrite F. auto. Qed.

Lemma request_exts_ok exts : Forall (fun x => 0 <= fst x < 2^16 /\ ~ In (fst x) [0; 43; 51]) exts ->
  zlen (concat (map (fun x => Rfc8446Hello.extension (fst x) (snd x)) exts)) < 2^16 ->
  from_request_exts (concat (map (fun x => Rfc8446Hello.extension (fst x) (snd x)) exts)) = Ok tt.
Proof.
  intros F L. unfold from_request_exts. revert F L.
  assert (forall fuel, Forall (fun x => 0 <= fst x < 2^16 /\ ~ In (fst x) [0; 43; 51]) exts ->
    zlen (concat (map (fun x => Rfc8446Hello.extension (fst x) (snd x)) exts)) < 2^16 ->
    (length (concat (map (fun x => Rfc8446Hello.extension (fst x) (snd x)) exts)) <= fuel)%nat ->
    request_exts_loop fuel (concat (map (fun x => Rfc8446Hello.extension (fst x) (snd x)) exts)) = Ok tt) as X; [|eauto].
  induction exts as [|[t b] exts IH]; intros fuel F L Lf; cbn [map concat] in *; [destruct fuel; reflexivity|].
  inversion F as [|? ? (R & N) F']; subst. cbn [fst snd] in *.
  set (rest := concat (map (fun x => Rfc8446Hello.extension (fst x) (snd x)) exts)) in *.
  assert (Eq : Rfc8446Hello.extension t b ++ rest = be_enc 2 t ++ be_enc 2 (zlen b) ++ b ++ rest).
  { unfold Rfc8446Hello.extension, Rfc8446Hello.u16, Rfc8446Hello.vector16. rewrite <- !app_assoc. reflexivity. }
  rewrite Eq in *. unfold zlen in L. rewrite !app_length, !be_enc_length in L, Lf.
  destruct fuel as [|f]; [lia|]. cbn [request_exts_loop].
  change (be_enc 2 t ++ be_enc 2 (zlen b) ++ b ++ rest) with ([] ++ be_enc 2 t ++ be_enc 2 (zlen b) ++ b ++ rest) at 2.
  assert (NE : exists z l, be_enc 2 t ++ be_enc 2 (zlen b) ++ b ++ rest = z :: l) by (rewrite Auth.be_enc_2; cbn [app]; eauto).
  destruct NE as (z & l & NE).
  assert (TU : forall n, 0 <= n < 2^16 -> to_u16 (be_enc 2 n) = n).
  { intros n Hn. rewrite Auth.be_enc_2. rewrite to_u16_val by apply u8_range. unfold u8. rewrite Z.shiftr_div_pow2 by lia. change (2^8) with 256.
    rewrite (Z.mod_small (_ / _)); [|split; [apply Z.div_pos; lia|apply Z.div_lt_upper_bound; lia]]. pose proof (Z.div_mod n 256). lia. }
  assert (S1 : slice (E:=tls_error) (z :: l) 0 2 = Ok (be_enc 2 t)) by (rewrite <- NE; apply (slice_mid []); [reflexivity|now rewrite be_enc_length]).
  assert (S2 : slice (E:=tls_error) (z :: l) 2 4 = Ok (be_enc 2 (zlen b))) by (rewrite <- NE; apply slice_mid; rewrite ?be_enc_length; reflexivity).
  assert (S3 : skipn (Z.to_nat (zlen b)) (skipn 4 (z :: l)) = rest).
  { rewrite <- NE, app_assoc. rewrite (skipn_app_eq 4) by (rewrite app_length, !be_enc_length; reflexivity). unfold zlen. rewrite Nat2Z.id. now apply skipn_app_eq. }
  cbn [app]. rewrite NE, S1, bind_Ok, S2, bind_Ok. rewrite !TU by (unfold zlen; lia). cbv zeta.
  assert (EN : ext_type_new t = None).
  { unfold ext_type_new. destruct (Z.eqb_spec t 0); [exfalso; apply N; cbn; auto|]. destruct (Z.eqb_spec t 43); [exfalso; apply N; cbn; auto|].
    destruct (Z.eqb_spec t 51); [exfalso; apply N; cbn; auto|]. reflexivity. }
  rewrite EN, S3. apply IH; [exact F'|unfold zlen; lia|lia].
Qed.

Lemma enc_all_app a : forall p b, enc_all p (a ++ b) =
  match enc_all p a with
  | Some (q, ws) => match enc_all q b with Some (q', ws') => Some (q', ws ++ ws') | None => None end
  | None => None
  end.
Proof.
  induction a as [|m a IH]; intros p b; cbn [app enc_all].
  - destruct (enc_all p b) as [[q ws]|]; reflexivity.
  - destruct (rpp_encrypt p (record_new RHandshake m)) as [p' [w|er|]]; try reflexivity. rewrite IH.
    destruct (enc_all p' a) as [[q ws]|]; [|reflexivity]. destruct (enc_all q b) as [[q' ws']|]; reflexivity.
Qed.

Lemma context_fwd context body : zlen context < 256 -> is_bytes body -> (exists more, body = Rfc8446Hello.vector8 context ++ more) ->
  idx (E:=tls_error) body 0 = Ok (zlen context) /\
  (if Nat.ltb 0 (Z.to_nat (zlen context)) then slice (E:=tls_error) body 1 (Z.to_nat (zlen context) + 1) else Ok []) = Ok context.
Proof.
  intros L B (more & ->). assert (EB : Rfc8446Hello.vector8 context = zlen context :: context).
  { unfold Rfc8446Hello.vector8. change (be_enc 1 (Z.of_nat (length context))) with [zlen context mod 256]. rewrite Z.mod_small by (unfold zlen in *; lia). reflexivity. }
  rewrite EB. split; [reflexivity|]. unfold zlen. rewrite Nat2Z.id. destruct (Nat.ltb_spec 0 (length context)).
  - change ((Z.of_nat (length context) :: context) ++ more) with ([Z.of_nat (length context)] ++ context ++ more). apply slice_mid; [reflexivity|]. cbn [length]. lia.
  - destruct context; [reflexivity|cbn in *; lia].
Qed.

Local Opaque certificate_for_handshake handshake_to_bytes certificate_verify_for_handshake cl_write.
Lemma reply_fwd cfg e h H g body before p : client_ok cfg e -> cl_request h = Some body -> is_bytes body ->
  keyed H g p -> rp_application p = None -> rp_is_client p = true ->
  side_key true (cur_keys p) = key_at (Connection.traffic_key g (client_secret g)) 0 ->
  good_key (cipher_get_suite (g_cipher g)) (Connection.traffic_key g (client_secret g)) ->
  cl_th h = Some (th_update (th_new H) before) -> is_bytes before -> zlen before < 2^53 - 2^26 ->
  st_protection (cl_stream h) = Some p -> endless (cl_stream h) -> answerable cfg e g before (Some body) ->
  exists h' msgs p' ws, handle_certificate_request cfg e h = (h', Ok tt) /\ endless (cl_stream h') /\
    enc_all p msgs = Some (p', ws) /\ st_protection (cl_stream h') = Some p' /\ (length msgs <= 2)%nat /\
    Forall (fun m => is_bytes m /\ zlen m + 17 < 2^16) msgs /\ cl_th h' = Some (th_update (th_new H) (before ++ concat msgs)).
Proof.
  intros Ok' Rq Bb K Na Ic Sk Gk Th Bm Lm P N An. pose proof Ok' as (_ & _ & _ & _ & _ & Nn & _ & Hc & Hk).
  destruct (An body eq_refl) as (context & (exts & Eb & Lctx & Lx & Fx) & Cert).
  set (xs := concat (map (fun x => Rfc8446Hello.extension (fst x) (snd x)) exts)) in *.
  destruct (context_fwd context body Lctx Bb ltac:(eexists; exact Eb)) as (I0 & I1).
  assert (Bctx : is_bytes context).
  { rewrite Eb in Bb. apply is_bytes_app in Bb. destruct Bb as (Bb & _). unfold Rfc8446Hello.vector8 in Bb. apply is_bytes_app in Bb. apply Bb. }
  unfold handle_certificate_request. rewrite Rq. cbn [unwrap]. rewrite sbind_Ok, I0, sbind_Ok, I1, sbind_Ok.
  assert (Lv : length (Rfc8446Hello.vector8 context) = (1 + length context)%nat) by (unfold Rfc8446Hello.vector8; now rewrite app_length, be_enc_length).
  assert (I2 : slice_from (E:=tls_error) body (1 + Z.to_nat (zlen context)) = Ok (be_enc 2 (zlen xs) ++ xs)).
  { rewrite Eb. apply slice_from_app. rewrite Lv. unfold zlen. lia. }
  rewrite I2, sbind_Ok.
  assert (TU : to_u16 (be_enc 2 (zlen xs) ++ xs) = zlen xs).
  { rewrite Auth.be_enc_2. cbn [app]. pose proof (zlen_nonneg xs). set (n := zlen xs) in *. rewrite to_u16_val by apply u8_range. unfold u8. rewrite Z.shiftr_div_pow2 by lia. change (2^8) with 256.
    rewrite (Z.mod_small (_ / _)); [|split; [apply Z.div_pos; lia|apply Z.div_lt_upper_bound; lia]]. pose proof (Z.div_mod n 256). lia. }
  rewrite TU.
  assert (I3 : slice (E:=tls_error) body (1 + Z.to_nat (zlen context) + 2) (1 + Z.to_nat (zlen context) + 2 + Z.to_nat (zlen xs)) = Ok xs).
  { rewrite Eb. unfold Rfc8446Hello.vector16. rewrite app_assoc. rewrite <- (app_nil_r xs) at 2. apply slice_mid; rewrite ?app_length, ?Lv, ?be_enc_length; unfold zlen; lia. }
  rewrite I3, sbind_Ok. unfold xs at 1. rewrite (request_exts_ok exts Fx Lx). rewrite sbind_Ok.
  assert (EV : forall l, zlen context :: context ++ l = Rfc8446Hello.vector8 context ++ l).
  { intros l. unfold Rfc8446Hello.vector8. change (be_enc 1 (Z.of_nat (length context))) with [zlen context mod 256]. rewrite Z.mod_small by (unfold zlen in *; lia). reflexivity. }
  rewrite EV. rewrite HelloTotal.to_bytes_wire. cbn [handshake_type_u8].
  match goal with |- context[Rfc8446Hello.handshake 11 ?r] => set (resp := r) end.
  assert (ER : resp = match cc_cert cfg with Some c => Rfc8446Hello.certificate_wire context (ct_raw c) | None => Rfc8446Hello.vector8 context ++ [0; 0; 0; 2; 0; 0] end).
  { unfold resp. destruct (cc_cert cfg) as [c|] eqn:Cc; [|reflexivity]. destruct (Hc c eq_refl) as (_ & Lc).
    rewrite <- (Proofs.Auth.certificate_bytes c context Lc). Local Transparent certificate_for_handshake. unfold certificate_for_handshake. Local Opaque certificate_for_handshake.
    reflexivity. }
  assert (BR : is_bytes resp /\ zlen resp < 2^16 - 128).
  { rewrite ER. assert (Bv : is_bytes (Rfc8446Hello.vector8 context)) by (unfold Rfc8446Hello.vector8; apply is_bytes_app; split; [apply be_enc_bytes|exact Bctx]).
    destruct (cc_cert cfg) as [c|] eqn:Cc.
    - destruct (Hc c eq_refl) as (Bc & _). destruct (Cert c eq_refl) as (Lc & _). unfold Rfc8446Hello.certificate_wire. split.
      + apply is_bytes_app. split; [exact Bv|]. unfold Rfc8446Hello.vector24. repeat first [exact Bc | apply be_enc_bytes | apply is_bytes_app; split]. apply is_bytes_check. reflexivity.
      + unfold zlen, Rfc8446Hello.vector24, Rfc8446Hello.vector16 in *. rewrite !app_length, Lv, !be_enc_length. cbn [length]. lia.
    - split; [apply is_bytes_app; split; [exact Bv|apply is_bytes_check; reflexivity]|]. unfold zlen in *. rewrite app_length, Lv. cbn [length]. lia. }
  clearbody resp. destruct BR as (BR & LR).
  assert (B1 : is_bytes (Rfc8446Hello.handshake 11 resp)) by (apply is_bytes_handshake; [unfold is_byte; lia|exact BR]).
  assert (L1 : zlen (Rfc8446Hello.handshake 11 resp) + 17 < 2^16) by (unfold zlen in *; rewrite handshake_length; lia).
  assert (Sk' : side_key (rp_is_client p) (cur_keys p) = key_at (Connection.traffic_key g (client_secret g)) 0) by (rewrite Ic; exact Sk).
  destruct (cc_cert cfg) as [c|] eqn:Cc.
  - destruct (Cert c eq_refl) as (_ & key & k & Ck & Ik & Sg). pose proof (Hk key Ck) as Hcu. destruct key as [cu kk]. cbn [sk_curve sk_secret] in Hcu, Sg. subst cu.
    rewrite <- ER in Sg. set (m1 := Rfc8446Hello.handshake 11 resp) in *.
    pose proof K as ((EA & _) & _).
    destruct (cv_fwd (E:=tls_error) kk (th_update (th_new H) (before ++ m1)) l_client (e_nonces e) Nn) as (cv & Ecv).
    { exists k. split; [exact Ik|]. rewrite (Auth.verify_digest H _ l_client client_context); [rewrite <- EA; exact Sg| | |right; split; reflexivity].
      - apply is_bytes_app. auto.
      - rewrite zlen_app. lia. }
    destruct (Auth.cv_sent (E:=tls_error) _ _ _ _ _ Nn Ecv) as (k' & r & s & der & _ & _ & _ & Ewire & Bder & Lder).
    assert (B2 : is_bytes (Rfc8446Hello.handshake 15 cv) /\ zlen (Rfc8446Hello.handshake 15 cv) + 17 < 2^16).
    { unfold zlen. rewrite handshake_length, Ewire. unfold Rfc8446Hello.certificate_verify_wire, Rfc8446Hello.u16, Rfc8446Hello.vector16. rewrite !app_length, !be_enc_length.
      split; [|lia]. apply is_bytes_handshake; [unfold is_byte; lia|]. repeat first [assumption | apply be_enc_bytes | apply is_bytes_app; split]. }
    destruct (enc_total H g (client_secret g) [m1; Rfc8446Hello.handshake 15 cv] p 0 K Na Sk' Gk ltac:(lia) ltac:(unfold zlen; cbn [length]; lia)
      (Forall_cons _ (conj B1 L1) (Forall_cons _ B2 (Forall_nil _)))) as (q & ws & EN).
    apply enc_cons in EN. destruct EN as (p1 & w1 & ws1 & Q1 & EN). apply enc_cons in EN. destruct EN as (p2 & w2 & ws2 & Q2 & EN).
    destruct (cl_write_prot h RHandshake m1 p p1 w1 N P Q1) as (s1 & W1 & N1 & P1). rewrite W1, sbind_Ok.
    change (cl_th (cl_with_stream h s1)) with (cl_th h). rewrite Th. cbn [unwrap]. rewrite sbind_Ok, <- th_update_app, Ck, Ecv, sbind_Ok. cbn [unwrap]. rewrite sbind_Ok.
    rewrite HelloTotal.to_bytes_wire. cbn [handshake_type_u8].
    match goal with |- context[cl_write ?hh RHandshake (Rfc8446Hello.handshake 15 cv)] => destruct (cl_write_prot hh RHandshake (Rfc8446Hello.handshake 15 cv) p1 p2 w2 N1 P1 Q2) as (s2 & W2 & N2 & P2) end.
    rewrite W2, sbind_Ok. exists (cl_with_state (cl_with_stream (cl_with_th (cl_with_th (cl_with_stream h s1) (th_update (th_new H) (before ++ m1)))
      (th_update (th_update (th_new H) (before ++ m1)) (Rfc8446Hello.handshake 15 cv))) s2) CsServerCertificate), [m1; Rfc8446Hello.handshake 15 cv], p2, [w1; w2].
    split; [reflexivity|]. split; [exact N2|]. split; [cbn [enc_all]; rewrite Q1, Q2; reflexivity|]. split; [exact P2|]. split; [cbn; lia|].
    split; [exact (Forall_cons _ (conj B1 L1) (Forall_cons _ B2 (Forall_nil _)))|].
    cbn [cl_with_state cl_with_stream cl_with_th cl_th concat]. rewrite app_nil_r, <- th_update_app, <- app_assoc. reflexivity.
  - destruct (enc_total H g (client_secret g) [Rfc8446Hello.handshake 11 resp] p 0 K Na Sk' Gk ltac:(lia) ltac:(unfold zlen; cbn [length]; lia)
      (Forall_cons _ (conj B1 L1) (Forall_nil _))) as (q & ws & EN).
    apply enc_cons in EN. destruct EN as (p1 & w1 & ws1 & Q1 & EN).
    destruct (cl_write_prot h RHandshake (Rfc8446Hello.handshake 11 resp) p p1 w1 N P Q1) as (s1 & W1 & N1 & P1). rewrite W1, sbind_Ok.
    change (cl_th (cl_with_stream h s1)) with (cl_th h). rewrite Th. cbn [unwrap]. rewrite !sbind_Ok. eexists _, [Rfc8446Hello.handshake 11 resp], p1, [w1]. split; [reflexivity|]. split; [exact N1|].
    split; [cbn [enc_all]; rewrite Q1; reflexivity|]. split; [exact P1|]. split; [cbn; lia|]. split; [exact (Forall_cons _ (conj B1 L1) (Forall_nil _))|].
    cbn [cl_with_state cl_with_stream cl_with_th cl_th concat]. rewrite app_nil_r, <- th_update_app. reflexivity.
Qed.

Local Opaque handle_certificate_request.
Lemma c_fin_fwd cfg e h H g p msgs : client_ok cfg e -> cl_state h = CsFinished ->
  st_protection (cl_stream h) = Some p -> endless (cl_stream h) ->
  keyed H g p -> rp_application p = None -> rp_is_client p = true ->
  side_key true (cur_keys p) = key_at (Connection.traffic_key g (client_secret g)) 0 ->
  good_key (cipher_get_suite (g_cipher g)) (Connection.traffic_key g (client_secret g)) ->
  cl_th h = Some (th_update (th_new H) msgs) -> is_bytes msgs -> zlen msgs < 2^52 + 2^20 ->
  (forall b, cl_request h = Some b -> is_bytes b) -> answerable cfg e g (msgs ++ server_finished g msgs) (cl_request h) ->
  exists h', handle_server_finish cfg e h (Handshake HtFinished (verify_data g (server_secret g) msgs) (server_finished g msgs)) = (h', Ok tt) /\
    cl_state h' = CsReady /\ endless (cl_stream h').
Proof.
  intros Ok' St P N K Na Ic Sk Gk Th Bm Lm Br An.
  pose proof K as (S & _ & Sch). destruct (suited_schedule H g S) as (_ & (Bcs & Lcs) & (Bss & Lss) & _). pose proof S as (EA & _).
  destruct (Auth.finished_data H _ msgs Bss Lss Bm ltac:(lia)) as (F & V2 & V1).
  set (vd := verify_data g (server_secret g) msgs). set (sf := server_finished g msgs).
  assert (Evd : vd = finished_verify_data (Proofs.Hmac.alg_of H) (server_secret g) msgs) by (unfold vd, verify_data; now rewrite EA).
  assert (Bsf : is_bytes sf) by (unfold sf, server_finished; fold vd; apply is_bytes_handshake; [unfold is_byte; lia|rewrite Evd; exact V1]).
  assert (Lsf : zlen sf < 2^10) by (unfold sf, server_finished; fold vd; unfold zlen; rewrite handshake_length, Evd, V2; pose proof (hash_len_le H); lia).
  unfold handle_server_finish. cbn [hs_type hs_fraqment hs_raw]. change (negb (ht_eqb HtFinished HtFinished)) with false. cbv iota.
  rewrite P. cbn [unwrap]. rewrite sbind_Ok, Th. cbn [unwrap]. rewrite sbind_Ok, Sch. cbn [schedule_of ks_server_hs].
  rewrite F, sbind_Ok, St, <- Evd, list_eqb_refl. cbn [negb]. cbv zeta. rewrite <- th_update_app.
  set (before := msgs ++ sf) in *.
  assert (Bb : is_bytes before) by (apply is_bytes_app; auto). assert (Lb : zlen before < 2^52 + 2^21) by (unfold before; rewrite zlen_app; lia).
  set (h1 := cl_with_th h (th_update (th_new H) before)).
  assert (X : exists h2 rs p2 ws, (match cl_request h1 with Some _ => handle_certificate_request cfg e h1 | None => (h1, Ok tt) end) = (h2, Ok tt) /\
    endless (cl_stream h2) /\ enc_all p rs = Some (p2, ws) /\ st_protection (cl_stream h2) = Some p2 /\ (length rs <= 2)%nat /\
    Forall (fun m => is_bytes m /\ zlen m + 17 < 2^16) rs /\ cl_th h2 = Some (th_update (th_new H) (before ++ concat rs))).
  { change (cl_request h1) with (cl_request h). destruct (cl_request h) as [b|] eqn:Rq.
    - apply (reply_fwd cfg e h1 H g b before p); try assumption; try reflexivity; [exact (Br b eq_refl)|lia].
    - exists h1, [], p, []. split; [reflexivity|]. split; [exact N|]. split; [reflexivity|]. split; [exact P|]. split; [cbn; lia|]. split; [constructor|].
      cbn [concat]. rewrite app_nil_r. reflexivity. }
  destruct X as (h2 & rs & p2 & ws & E2 & N2 & En & P2 & Lr & Fr & Th2). rewrite E2, sbind_Ok, P2. cbn [unwrap]. rewrite sbind_Ok, Th2. cbn [unwrap]. rewrite sbind_Ok.
  destruct (enc_all_same _ _ _ _ En) as (Q1 & Q2 & Q3 & Q4). rewrite Q1, Sch. cbn [schedule_of ks_client_hs].
  assert (Bc : is_bytes (concat rs) /\ zlen (concat rs) < 2^17 + 2^16).
  { clear - Fr Lr. destruct rs as [|a [|b [|c rs]]]; cbn [concat length] in *; [split; [constructor|unfold zlen; cbn; lia]| | |lia].
    - inversion Fr as [|? ? (B & L) _]; subst. rewrite app_nil_r. split; [exact B|lia].
    - inversion Fr as [|? ? (B & L) Fr']; subst. inversion Fr' as [|? ? (B' & L') _]; subst. rewrite app_nil_r. split; [apply is_bytes_app; auto|rewrite zlen_app; lia]. }
  destruct Bc as (Bc & Lc). assert (Bf : is_bytes (before ++ concat rs)) by (apply is_bytes_app; auto).
  rewrite (Auth.finished_message H (client_secret g) _ Bcs Lcs Bf ltac:(rewrite zlen_app; lia)), sbind_Ok.
  destruct (Auth.finished_data H _ _ Bcs Lcs Bf ltac:(rewrite zlen_app; lia)) as (_ & V4 & V3).
  set (cf := Rfc8446Hello.handshake 20 (finished_verify_data (Proofs.Hmac.alg_of H) (client_secret g) (before ++ concat rs))).
  assert (Bcf : is_bytes cf /\ zlen cf + 17 < 2^16).
  { unfold cf. split; [apply is_bytes_handshake; [unfold is_byte; lia|exact V3]|]. unfold zlen. rewrite handshake_length, V4. pose proof (hash_len_le H). lia. }
  assert (Sk' : side_key (rp_is_client p) (cur_keys p) = key_at (Connection.traffic_key g (client_secret g)) 0) by (rewrite Ic; exact Sk).
  assert (FA : Forall (fun m => is_bytes m /\ zlen m + 17 < 2^16) (rs ++ [cf])) by (apply Forall_app; auto).
  assert (L64 : 0 + zlen (rs ++ [cf]) < 2^64) by (rewrite zlen_app; unfold zlen; cbn [length]; lia).
  destruct (enc_total H g (client_secret g) (rs ++ [cf]) p 0 K Na Sk' Gk ltac:(lia) L64 FA) as (q & wq & EN).
  rewrite enc_all_app, En in EN. destruct (enc_all p2 [cf]) as [[q' wq']|] eqn:E3; [|discriminate]. clear EN.
  apply enc_cons in E3. destruct E3 as (p3 & w3 & ws3 & E3 & _).
  destruct (cl_write_prot h2 RHandshake cf p2 p3 w3 N2 P2 E3) as (s3 & W3 & N3 & P3). rewrite W3, sbind_Ok.
  destruct (cl_flush_fwd (cl_with_stream h2 s3) N3) as (s4 & W4 & N4 & P4). rewrite W4, sbind_Ok.
  cbn [cl_with_stream cl_stream] in P4 |- *. rewrite P4, P3. cbn [unwrap]. rewrite sbind_Ok.
  assert (K3 : keyed H g p3).
  { assert (enc_all p (rs ++ [cf]) = Some (p3, ws ++ [w3])) as EN by (rewrite enc_all_app, En; cbn [enc_all]; rewrite E3; reflexivity).
    destruct (enc_all_same _ _ _ _ EN) as (R1 & R2 & R3 & R4). unfold keyed in *. destruct K as (K1 & K2 & K4). split; [exact K1|]. split; congruence. }
  destruct (keyed_application H g p3 before K3 Bb ltac:(lia)) as (p' & G & _). rewrite G, sbind_Ok.
  eexists. split; [reflexivity|]. match goal with |- context[match ?k with Some _ => _ | None => _ end] => destruct k end; cbn; auto.
Qed.

(* ---- what is still to come ---- *)
Record plan := Plan { pl_ee : list Z; pl_rs : list (list Z); pl_ctx : list Z; pl_cert : list Z; pl_x : x509; pl_exts : list Z; pl_others : list Z; pl_m2 : list Z }.
Definition pl_body (l : plan) : list Z := Rfc8446Hello.vector8 (pl_ctx l) ++
  Rfc8446Hello.vector24 (Rfc8446Hello.vector24 (pl_cert l) ++ Rfc8446Hello.vector16 (pl_exts l) ++ pl_others l).
Definition pl_m1 (l : plan) : list Z := Rfc8446Hello.handshake 11 (pl_body l).
Definition pl_before (g : agreed) (l : plan) : list Z := g_hellos g ++ opening (pl_ee l) (pl_rs l) ++ pl_m1 l ++ pl_m2 l.
Definition pl_ok (cfg : client_config) (e : client_draws) (now : Z) (g : agreed) (l : plan) : Prop :=
  zlen (pl_ctx l) < 256 /\ x509_from_raw (pl_cert l) = Ok (pl_x l) /\ is_valid (E:=tls_error) (x_validity (pl_x l)) now = Ok true /\
  server_possesses (g_alg g) (pl_x l) (g_hellos g ++ opening (pl_ee l) (pl_rs l) ++ pl_m1 l) (pl_m2 l) /\
  answerable cfg e g (pl_before g l ++ server_finished g (pl_before g l)) (last_of (pl_rs l)).
Definition pl_end (g : agreed) (l : plan) : list (list Z) := [pl_m1 l; pl_m2 l; server_finished g (pl_before g l)].
Definition coming (g : agreed) (l : plan) (h : client_hs) (ms : list Z) (todo : list (list Z)) : Prop :=
  match cl_state h with
  | CsEncryptedExtensions => ms = [] /\ cl_request h = None /\ todo = Rfc8446Hello.handshake 8 (pl_ee l) :: map (Rfc8446Hello.handshake 13) (pl_rs l) ++ pl_end g l
  | CsClientCertificateRequest | CsServerCertificate => exists a b, pl_rs l = a ++ b /\ ms = opening (pl_ee l) a /\ cl_request h = last_of a /\ Forall is_bytes a /\
      todo = map (Rfc8446Hello.handshake 13) b ++ pl_end g l
  | CsServerCertificateVerify => ms = opening (pl_ee l) (pl_rs l) ++ pl_m1 l /\ cl_request h = last_of (pl_rs l) /\ Forall is_bytes (pl_rs l) /\
      cl_cert h = Some (Cert (pl_cert l) (Some (pl_x l))) /\ is_bytes (pl_cert l) /\ todo = [pl_m2 l; server_finished g (pl_before g l)]
  | CsFinished => ms = opening (pl_ee l) (pl_rs l) ++ pl_m1 l ++ pl_m2 l /\ cl_request h = last_of (pl_rs l) /\ Forall is_bytes (pl_rs l) /\
      todo = [server_finished g (pl_before g l)]
  | _ => False
  end.
(* how the client ends: what it has sent after `base` and its keys *)
Definition cfin (cfg : client_config) (e : client_draws) (base : list Z) (x : cgreet) (l : plan) (h : client_hs) : Prop :=
  let g := cg_g x in let before := pl_before g l ++ server_finished g (pl_before g l) in
  exists replied q n p1 ws p, (replies cfg e g before (last_of (pl_rs l)) replied /\ is_bytes (concat replied)) /\ guarded x q n /\
    enc_all q (client_flight g before replied) = Some (p1, ws) /\ out (cl_stream h) = base ++ concat ws /\ st_buffer (cl_stream h) = [] /\
    st_protection (cl_stream h) = Some p /\ rp_is_client p = true /\ rp_cipher p = g_cipher g /\ rp_application p = Some (application_keys g before).
Definition ready_or (h : client_hs) (todo : list (list Z)) (Q P : Prop) : Prop :=
  match cl_state h with CsReady => todo = [] /\ Q | _ => P end.
Definition cwaits (cfg : client_config) (e : client_draws) (base : list Z) (x : cgreet) (l : plan) (h : client_hs) (n : Z) (todo : list (list Z)) : Prop :=
  endless (cl_stream h) /\ ready_or h todo (cfin cfg e base x l h) (exists ms, clive cfg e base x h n ms /\ is_bytes ms /\ zlen ms + zlen (concat todo) < 2^50 /\
    coming (cg_g x) l h ms todo).

Lemma handshake_bytes_inv t b : is_bytes (Rfc8446Hello.handshake t b) -> is_bytes b.
Proof. unfold Rfc8446Hello.handshake, Rfc8446Hello.vector24. intros H. apply is_bytes_app in H. destruct H as (_ & H). apply is_bytes_app in H. apply H. Qed.
Lemma last_of_in {A} (l : list A) a : last_of l = Some a -> In a l.
Proof. induction l as [|b l IH]; [discriminate|]. destruct l; [intros [= <-]; now left|intros H; right; now apply IH]. Qed.

Local Opaque handle_server_certificate handle_server_certificate_verify handle_server_finish.
Lemma frame_here m rest t b : zlen m < 2^16 -> m = Rfc8446Hello.handshake (handshake_type_u8 t) b -> handshake_from_raw (m ++ rest) = Ok (Handshake t b m).
Proof.
  intros Lm Em. assert (Lb : zlen b < 2^24) by (rewrite Em in Lm; unfold zlen in *; rewrite handshake_length in Lm; lia).
  pose proof (frame_read t b rest Lb) as F. rewrite <- Em in F. exact F.
Qed.
Lemma cert_step cfg e now x l h n m todo rest base ms : client_ok cfg e -> cgreeted cfg e x -> pl_ok cfg e now (cg_g x) l ->
  is_bytes m -> zlen m < 2^16 -> endless (cl_stream h) -> clive cfg e base x h n ms -> is_bytes ms -> zlen ms + (zlen m + zlen (concat todo)) < 2^50 ->
  (exists a b, pl_rs l = a ++ b /\ ms = opening (pl_ee l) a /\ cl_request h = last_of a /\ Forall is_bytes a /\
      m :: todo = map (Rfc8446Hello.handshake 13) b ++ pl_end (cg_g x) l) ->
  exists hs h', handshake_from_raw (m ++ rest) = Ok hs /\ hs_raw hs = m /\
      (if ht_eqb (hs_type hs) HtCertificateRequest then
        let h := cl_with_request h (hs_fraqment hs) in
        let@ (h, th) := (h, unwrap (cl_th h)) in
        (cl_with_state (cl_with_th h (th_update th (hs_raw hs))) CsServerCertificate, Ok tt)
       else handle_server_certificate now h hs) = (h', Ok tt) /\ cwaits cfg e base x l h' n todo.
Proof.
  intros Ok' G (Lc & X & V & Po & An) Bm Lm N L Bms Lms (a & b & Er & Em & Rq & Fa & Et). pose proof L as (O & Th & Kl & Lg & p & P & Gp).
  destruct b as [|r b]; cbn [map app] in Et.
  - unfold pl_end in Et. injection Et as E1 ->. rewrite app_nil_r in Er. subst a.
    eexists _, _. split; [apply (frame_here m rest HtCertificate (pl_body l) Lm); exact E1|]. split; [reflexivity|]. cbn [hs_type]. change (ht_eqb HtCertificate HtCertificateRequest) with false. cbv iota.
    rewrite E1 in *. unfold pl_m1.
    pose proof (c_cert_fwd now h (pl_ctx l) (pl_cert l) (pl_x l) (pl_exts l) (pl_others l) (th_update (th_new (cg_hash x)) (g_hellos (cg_g x) ++ ms)) Lc) as CF. cbv zeta in CF. fold (pl_body l) in CF. rewrite CF; [|unfold pl_m1 in Lm; unfold zlen in *; rewrite handshake_length in Lm; lia|exact Th|exact X|exact V].
    split; [reflexivity|]. split; [exact N|]. unfold ready_or. cbn [cl_with_state cl_state]. exists (ms ++ pl_m1 l). split.
    { unfold clive. cbn [cl_with_state cl_with_th cl_with_cert cl_stream cl_th cl_keylog cl_log]. split; [exact O|]. split; [rewrite app_assoc, <- th_update_app; reflexivity|]. eauto 6. }
    split; [apply is_bytes_app; auto|]. split; [rewrite zlen_app; lia|]. unfold coming. cbn [cl_with_state cl_with_th cl_with_cert cl_state cl_request cl_cert].
    split; [now rewrite Em|]. split; [exact Rq|]. split; [exact Fa|]. split; [reflexivity|]. split; [|reflexivity].
    apply handshake_bytes_inv in Bm. exact (body_bytes _ _ _ _ Bm).
  - injection Et as E1 ->. eexists _, _. split; [apply (frame_here m rest HtCertificateRequest r Lm); exact E1|]. split; [reflexivity|]. cbn [hs_type hs_fraqment hs_raw].
    change (ht_eqb HtCertificateRequest HtCertificateRequest) with true. cbv iota zeta. cbn [cl_with_request cl_th]. rewrite Th. cbn [unwrap]. rewrite sbind_Ok.
    split; [reflexivity|]. split; [exact N|]. unfold ready_or. cbn [cl_with_state cl_state]. rewrite E1 in *. exists (ms ++ Rfc8446Hello.handshake 13 r). split.
    { unfold clive. cbn [cl_with_state cl_with_th cl_with_request cl_stream cl_th cl_keylog cl_log]. split; [exact O|]. split; [rewrite app_assoc, <- th_update_app; reflexivity|]. eauto 6. }
    split; [apply is_bytes_app; auto|]. split; [rewrite zlen_app; lia|]. unfold coming. cbn [cl_with_state cl_with_th cl_with_request cl_state cl_request].
    exists (a ++ [r]), b. split; [rewrite <- app_assoc; exact Er|]. split; [rewrite opening_snoc, Em; reflexivity|]. split; [now rewrite last_of_snoc|].
    split; [|reflexivity]. apply Forall_app. split; [exact Fa|]. constructor; [exact (handshake_bytes_inv _ _ Bm)|constructor].
Qed.
Lemma message_fwd cfg e now base x l h n m todo rest : client_ok cfg e -> cgreeted cfg e x -> pl_ok cfg e now (cg_g x) l ->
  is_bytes m -> zlen m < 2^16 -> cwaits cfg e base x l h n (m :: todo) ->
  exists hs h', handshake_from_raw (m ++ rest) = Ok hs /\ hs_raw hs = m /\ handle_message cfg e now h hs = (h', Ok tt) /\ cwaits cfg e base x l h' n todo.
Proof.
  intros Ok' G PL Bm Lm (N & W). pose proof PL as (Lc & X & V & Po & An). unfold ready_or in W. destruct (cgreeted_keys _ _ _ G) as (G1 & G2 & _). pose proof G as (_ & _ & S & Lh & _).
  pose proof S as (EA & _ & _ & Bh & _).
  assert (Zt : zlen (concat (m :: todo)) = zlen m + zlen (concat todo)) by (cbn [concat]; apply zlen_app). rewrite Zt in W. clear Zt.
  destruct (cl_state h) eqn:St; try (destruct W as (? & _ & _ & _ & C); unfold coming in C; rewrite St in C; contradiction); try (destruct W; discriminate);
    destruct W as (ms & L & Bms & Lms & C); unfold coming in C; rewrite St in C; pose proof L as (O & Th & Kl & Lg & p & P & Gp).
  - destruct C as (-> & Rq & C). injection C as E1 ->.
    eexists _, _. split; [apply (frame_here m rest HtEncryptedExtensions (pl_ee l) Lm); exact E1|]. split; [reflexivity|].
    unfold handle_message. rewrite St. unfold handle_encrypted_extension. cbn [hs_type hs_raw]. change (negb (ht_eqb HtEncryptedExtensions HtEncryptedExtensions)) with false. cbv iota.
    rewrite Th. cbn [unwrap]. rewrite sbind_Ok. split; [reflexivity|]. split; [exact N|]. unfold ready_or. cbn [cl_with_state cl_state]. rewrite E1 in *.
    exists (Rfc8446Hello.handshake 8 (pl_ee l)). split.
    { unfold clive. cbn [cl_with_state cl_with_th cl_stream cl_th cl_keylog cl_log]. split; [exact O|]. split; [rewrite app_nil_r, <- th_update_app; reflexivity|]. eauto 6. }
    split; [exact Bm|]. split; [change (zlen []) with 0 in Lms; lia|]. unfold coming. cbn [cl_with_state cl_with_th cl_state cl_request].
    exists [], (pl_rs l). split; [reflexivity|]. split; [unfold opening; cbn [map concat]; now rewrite app_nil_r|]. auto.
  - unfold handle_message. rewrite St. apply (cert_step cfg e now x l h n m todo rest base ms); auto.
  - unfold handle_message. rewrite St. apply (cert_step cfg e now x l h n m todo rest base ms); auto.
  - destruct C as (Em & Rq & Fa & Ct & Bc & Et). injection Et as E1 ->. rewrite E1 in *.
    assert (Bs : is_bytes (g_hellos (cg_g x) ++ ms)) by (apply is_bytes_app; auto).
    assert (Ls : zlen (g_hellos (cg_g x) ++ ms) < 2^53) by (rewrite zlen_app; pose proof (zlen_nonneg (concat [server_finished (cg_g x) (pl_before (cg_g x) l)])); pose proof (zlen_nonneg (pl_m2 l)); lia).
    rewrite <- Em, EA in Po.
    destruct (c_cv_fwd h (pl_m2 l) (cg_hash x) _ (pl_cert l) (pl_x l) Lm Bm Ct Bc X Th Bs Ls Po) as (body & E2 & HV).
    eexists _, _. split; [apply (frame_here (pl_m2 l) rest HtCertificateVerify body Lm); exact E2|]. split; [reflexivity|]. unfold handle_message. rewrite St, HV. split; [reflexivity|].
    split; [exact N|]. unfold ready_or. cbn [cl_with_state cl_state]. exists (ms ++ pl_m2 l). split.
    { unfold clive. cbn [cl_with_state cl_with_th cl_stream cl_th cl_keylog cl_log]. split; [exact O|]. split; [rewrite app_assoc; reflexivity|]. eauto 6. }
    split; [apply is_bytes_app; auto|]. split; [rewrite zlen_app; lia|]. unfold coming. cbn [cl_with_state cl_with_th cl_state cl_request].
    split; [rewrite Em, <- app_assoc; reflexivity|]. auto.
  - destruct C as (Em & Rq & Fa & Et). injection Et as E1 ->. rewrite E1 in *. pose proof Gp as (K & Ic & Na & Sk & _).
    assert (Bs : is_bytes (g_hellos (cg_g x) ++ ms)) by (apply is_bytes_app; auto).
    assert (Ls : zlen (g_hellos (cg_g x) ++ ms) < 2^52 + 2^20) by (rewrite zlen_app; pose proof (zlen_nonneg (server_finished (cg_g x) (pl_before (cg_g x) l))); change (zlen (concat [])) with 0 in Lms; lia).
    assert (EB : pl_before (cg_g x) l = g_hellos (cg_g x) ++ ms) by (unfold pl_before; now rewrite Em). rewrite EB in *.
    assert (Br : forall b, cl_request h = Some b -> is_bytes b) by (intros b Hb; rewrite Rq in Hb; apply last_of_in in Hb; rewrite Forall_forall in Fa; auto).
    rewrite <- Rq in An.
    destruct (c_fin_fwd cfg e h (cg_hash x) (cg_g x) p _ Ok' St P N K Na Ic Sk G1 Th Bs Ls Br An) as (h' & HF & St' & N').
    eexists _, h'. split; [apply (frame_here _ rest HtFinished (verify_data (cg_g x) (server_secret (cg_g x)) (g_hellos (cg_g x) ++ ms)) Lm); reflexivity|]. split; [reflexivity|].
    unfold handle_message. rewrite St. split; [exact HF|]. split; [exact N'|]. unfold ready_or. rewrite St'. split; [reflexivity|].
    assert (Lm' : zlen (server_finished (cg_g x) (g_hellos (cg_g x) ++ ms)) < 2^17) by lia.
    destruct (c_fin_step cfg e h (Handshake HtFinished (verify_data (cg_g x) (server_secret (cg_g x)) (g_hellos (cg_g x) ++ ms)) (server_finished (cg_g x) (g_hellos (cg_g x) ++ ms)))
      h' tt (cg_hash x) (cg_g x) p _ Ok' eq_refl Bm Lm' St P K Ic Na Th Bs Ls Br HF) as (_ & _ & replied & p1 & ws & p' & F).
    cbv zeta in F. destruct F as (F1 & F2 & F3 & F4 & F5 & F6 & F7 & F8 & _). unfold cfin. rewrite EB. cbv zeta. rewrite Rq in F1. rewrite O in F3.
    exists replied, p, n, p1, ws, p'. exact (conj F1 (conj Gp (conj F2 (conj F3 (conj F4 (conj F5 (conj F6 (conj F7 F8)))))))).
Qed.
