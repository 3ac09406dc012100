(* The records a client sends after its ClientHello, one at a time *)
From Verif Require Import Proofs.Util Proofs.Bytes Model.Alert Model.Bytes Model.Suite Model.Sha2 Model.Hmac Model.KeySchedule Model.Record Model.Channel
  Model.Curve Model.Signature Model.Ecdsa Model.X509 Model.Extensions Model.Hello Model.Kex Model.Handshake Model.Certificate
  Model.Stream Model.AppChannel Model.Keylog Model.Server
  Spec.Enc Spec.Rfc2104 Spec.Fips180 Spec.Rfc8446Keys Spec.Tls13Record Spec.Endpoints Spec.Writes Spec.Rfc8446Auth Spec.Connection.
From Verif Require Spec.Rfc8446Hello Spec.Ecdsa.
From Verif Require Import Proofs.KeySchedule Proofs.Record Proofs.Channel Proofs.Stream Proofs.ServerRun Proofs.ServerKeys Proofs.Opened.
From Verif Require Proofs.Hmac Proofs.Sha2 Proofs.Auth Proofs.HelloTotal Proofs.Kex Proofs.EcdsaP256.

Local Opaque has_signed x509_from_raw is_valid X509.get_public_key ecdsa_verify handshake_from_raw sig_from_der is_certificate_valid
  sha256 sha256_spec verify_data_for_finished generate_application_keys.

Lemma be1 n : 0 <= n < 256 -> be_enc 1 n = [n].
Proof. intros H. unfold be_enc. cbn [le_enc rev app]. now rewrite Z.mod_small by lia. Qed.
Lemma fill3 b : length b = 3%nat -> is_bytes b -> 0 <= to_u128_be_fill b < 2^24 /\ be_enc 3 (to_u128_be_fill b) = b.
Proof.
  intros L B. rewrite to_u128_be_fill_val by (assumption || lia). pose proof (be_enc_val b B) as V. rewrite L in V.
  split; [|exact V]. pose proof (be_val_range b B) as R. unfold zlen in R. rewrite L in R. exact R.
Qed.
Lemma skipn_split {A} a b (l : list A) : skipn a l = firstn b (skipn a l) ++ skipn (a + b) l.
Proof. rewrite Nat.add_comm, <- skipn_skipn. symmetry. apply firstn_skipn. Qed.
(* the certificate a Certificate message presents *)
Lemma certificates_inv body now certs : is_bytes body -> certificates_from_hello body now = Ok certs ->
  exists context len cert more x, length len = 3%nat /\ body = Rfc8446Hello.vector8 context ++ len ++ Rfc8446Hello.vector24 cert ++ more /\
    (exists b0, idx (E:=tls_error) body 0 = Ok b0 /\ slice (E:=tls_error) body 1 (Z.to_nat b0 + 1) = Ok context) /\
    certs = [Cert cert (Some x)] /\ is_bytes cert /\ zlen cert <= zlen body /\ x509_from_raw cert = Ok x /\ is_valid (E:=tls_error) (x_validity x) now = Ok true.
Proof.
  intros B H. unfold certificates_from_hello in H. apply bind_ok in H. destruct H as (b0 & H0 & H). cbv zeta in H.
  destruct body as [|c0 rest]; [discriminate|]. pose proof H0 as H0'. cbn in H0. injection H0 as <-.
  inversion B as [|? ? B0 Br]; subst. unfold is_byte in B0. set (n := Z.to_nat c0) in *.
  apply bind_ok in H. destruct H as (len & H1 & H). apply slice_ok in H1. destruct H1 as (R1 & E1). cbn [length] in R1.
  destruct (Nat.eqb _ 0) eqn:Z0; [discriminate|].
  apply bind_ok in H. destruct H as (len2 & H2 & H). apply slice_ok in H2. destruct H2 as (R2 & E2). cbn [length] in R2.
  apply bind_ok in H. destruct H as (cert & H3 & H). apply slice_ok in H3. destruct H3 as (R3 & E3). cbn [length] in R3.
  replace (1 + n)%nat with (S n) in * by lia. cbn [skipn Nat.add] in E1, E2, E3. rewrite !Nat.add_succ_l in *.
  set (context := firstn n rest).
  assert (Lc : length context = n) by (unfold context; rewrite firstn_length; lia).
  assert (Bl : is_bytes len2 /\ length len2 = 3%nat /\ length len = 3%nat).
  { subst len len2. repeat split; [apply is_bytes_firstn, is_bytes_skipn; assumption| |]; rewrite firstn_length; cbn [skipn]; rewrite skipn_length; lia. }
  destruct Bl as (Bl2 & L2 & L1). destruct (fill3 len2 L2 Bl2) as (R & E). set (k := Z.to_nat (to_u128_be_fill len2)) in *.
  assert (L3 : length cert = k) by (subst cert; rewrite firstn_length; cbn [skipn]; rewrite skipn_length; lia).
  assert (Bc : is_bytes cert) by (subst cert; apply is_bytes_firstn, is_bytes_skipn; assumption).
  apply bind_ok in H. destruct H as (c & Hc & H). unfold certificate_from_raw in Hc.
  destruct (x509_from_raw cert) as [x|e|] eqn:X; try discriminate. apply Ok_inj in Hc. subst c.
  apply bind_ok in H. destruct H as (tl & H4 & H). cbn [ct_x509 unwrap] in H. rewrite bind_Ok in H.
  apply bind_ok in H. destruct H as (v & Hv & H). destruct v; [|discriminate]. cbn [negb] in H. apply Ok_inj in H. subst certs.
  exists context, len, cert, (skipn (n + 6 + k) rest), x. split; [exact L1|].
  assert (ER : rest = context ++ len ++ len2 ++ cert ++ skipn (n + 6 + k) rest).
  { unfold context. rewrite E1, E2, E3. cbn [skipn].
    replace (S (n + 3) - S n)%nat with 3%nat by lia. replace (S (n + 3 + 3) - S (n + 3))%nat with 3%nat by lia.
    replace (S (n + 3 + 3 + k) - S (n + 3 + 3))%nat with k by lia. replace (n + 6 + k)%nat with (n + 3 + 3 + k)%nat by lia.
    rewrite <- !skipn_split. symmetry. apply firstn_skipn. }
  split.
  { unfold Rfc8446Hello.vector8, Rfc8446Hello.vector24. rewrite Lc, L3. unfold n. rewrite Z2Nat.id, be1 by lia.
    unfold k. rewrite Z2Nat.id, E by lia. cbn [app]. f_equal. rewrite <- !app_assoc. exact ER. }
  split.
  { exists c0. split; [exact H0'|]. fold n. rewrite slice_in by (cbn [length]; lia). cbn [skipn].
    replace (n + 1 - 1)%nat with n by lia. reflexivity. }
  split; [reflexivity|]. split; [exact Bc|]. split; [unfold zlen; rewrite L3; cbn [length]; lia|]. split; [exact X|exact Hv].
Qed.

Lemma cert_step cfg d now ca cax h m h' u t :
  sc_client_ca cfg = Some ca -> ct_x509 ca = Some cax -> is_bytes (ct_raw ca) -> x509_from_raw (ct_raw ca) = Ok cax ->
  is_bytes m -> zlen m < 2^16 -> sv_th h = Some t -> sv_context h = Some (d_context d) ->
  handle_client_certificate cfg now h m = (h', Ok u) ->
  (exists e, sv_state h' = SvFinishWithError e) \/
  sv_state h' = SvClientCertificateVerify /\ sv_stream h' = sv_stream h /\ sv_th h' = Some (th_update t m) /\ sv_th_finished h' = Some t /\
  sv_keylog h' = sv_keylog h /\ sv_log h' = sv_log h /\ sv_context h' = sv_context h /\
  exists cert x key, sv_cert h' = Some (Cert cert (Some x)) /\ is_bytes cert /\ presented (d_context d) m cert /\ x509_from_raw cert = Ok x /\
    is_valid (E:=tls_error) (x_validity x) now = Ok true /\ X509.get_public_key (E:=tls_error) cax = Ok (Some key) /\ signed_by key cert x /\
    (forall check, sc_verify cfg = Some check -> check x = true).
Proof.
  intros Ca Cx Bca Xca Bm Lm Th Cc H. unfold handle_client_certificate in H. sinv H hs0 E0. rewrite Ca in H.
  destruct (ht_eqb (hs_type hs0) HtCertificate) eqn:T; [|discriminate]. apply ht_eqb_eq in T. cbn [negb] in H.
  destruct (message_read _ _ Bm E0) as (extra & Em & Bf & _). rewrite T in Em. cbn [handshake_type_u8] in Em.
  rewrite Th in H. sinv H t1 E1. cbn in E1. apply Ok_inj in E1. subst t1. sinv H b0 E2. sinv H context E3. sinv H expected E4.
  cbn [with_th with_th_finished sv_context] in E4. rewrite Cc in E4. cbn in E4. apply Ok_inj in E4. subst expected.
  destruct (list_eqb context (d_context d)) eqn:Q; [|discriminate]. apply list_eqb_spec in Q. subst context. cbn [negb] in H.
  destruct (certificates_from_hello (hs_fraqment hs0) now) as [certs|e|] eqn:C; [|left; exists e; injection H as <- _; reflexivity|discriminate].
  destruct (certificates_inv _ _ _ Bf C) as (ctx & len & cert & more & x & L3 & EB & (b0' & Hb & Hs) & -> & Bc & Lc & X & V).
  rewrite Hb in E2. apply Ok_inj in E2. subst b0'. rewrite Hs in E3. apply Ok_inj in E3. subst ctx.
  sinv H c E5. cbn in E5. apply Ok_inj in E5. subst c.
  destruct (has_signed ca (Cert cert (Some x))) as [v|e|] eqn:S; [|left; exists UnknownCa; injection H as <- _; reflexivity|discriminate].
  destruct v. destruct (Auth.has_signed_true ca cax (Cert cert (Some x)) x Cx Bca Xca eq_refl S) as (key & r & s & part & K1 & K2 & K3 & K4).
  cbn [ct_raw] in K3.
  assert (SB : signed_by key cert x).
  { exists r, s, part. split; [exact K2|]. split; [exact K3|].
    unfold signed_part in K3. apply slice_ok in K3. destruct K3 as (R3 & E3). rewrite <- Sha2.sha256_correct; [exact K4| |].
    - subst part. now apply is_bytes_firstn, is_bytes_skipn.
    - assert (zlen (hs_fraqment hs0) <= zlen m).
      { rewrite Em. unfold zlen, Rfc8446Hello.handshake, Rfc8446Hello.vector24. rewrite !app_length. cbn [length]. lia. }
      subst part. unfold zlen in *. rewrite firstn_length, skipn_length. lia. }
  assert (P : presented (d_context d) m cert) by (exists len, more, extra; split; [exact L3|]; rewrite Em, EB; reflexivity).
  destruct (sc_verify cfg) as [f|] eqn:F.
  - sinv H x' E6. cbn in E6. apply Ok_inj in E6. subst x'. destruct (f x) eqn:Fx; [|left; exists AccessDenied; injection H as <- _; reflexivity].
    right. injection H as <- _. cbn. do 7 (split; [reflexivity|]). exists cert, x, key.
    do 7 (split; [first [reflexivity|assumption]|]). intros check Hf. injection Hf as <-. exact Fx.
  - right. injection H as <- _. cbn. do 7 (split; [reflexivity|]). exists cert, x, key.
    do 7 (split; [first [reflexivity|assumption]|]). intros check Hf. discriminate.
Qed.

Lemma th_update_app t a b : th_update t (a ++ b) = th_update (th_update t a) b.
Proof. pose proof (Proofs.Hmac.th_updates t [a; b]) as X. cbn [fold_left concat] in X. rewrite app_nil_r in X. now symmetry. Qed.
Lemma two_of {E} (l : list Z) a b : is_bytes l -> slice (E:=E) l a (a + 2) = Ok b ->
  b = firstn 2 (skipn a l) /\ 0 <= to_u16 b < 2^16 /\ be_enc 2 (to_u16 b) = b.
Proof.
  intros B H. apply slice_ok in H. destruct H as (R & ->). replace (a + 2 - a)%nat with 2%nat by lia.
  split; [reflexivity|].
  assert (is_bytes (firstn 2 (skipn a l))) as B2 by now apply is_bytes_firstn, is_bytes_skipn.
  assert (length (firstn 2 (skipn a l)) = 2%nat) as L2 by (rewrite firstn_length, skipn_length; lia).
  destruct (firstn 2 (skipn a l)) as [|x [|y [|]]]; cbn [length] in L2; try lia.
  inversion B2 as [|? ? Bx B3]; subst. inversion B3 as [|? ? By _]; subst. rewrite to_u16_val by assumption.
  split; [unfold is_byte in *; lia|]. pose proof (be_enc_val [x; y] B2) as V. cbn [length] in V.
  replace (be_val [x; y]) with (x * 256 + y) in V by (unfold be_val; cbn [fold_left]; lia). exact V.
Qed.
Lemma cv_step h m h' u H msgs cert x :
  is_bytes m -> sv_cert h = Some (Cert cert (Some x)) -> is_bytes cert -> x509_from_raw cert = Ok x ->
  sv_th h = Some (th_update (th_new H) msgs) -> is_bytes msgs -> zlen msgs < 2^53 ->
  handle_client_certificate_verify h m = (h', Ok u) ->
  (exists e, sv_state h' = SvFinishWithError e) \/
  sv_state h' = SvClientFinished /\ sv_stream h' = sv_stream h /\ sv_th h' = Some (th_update (th_new H) (msgs ++ m)) /\
  sv_th_finished h' = sv_th_finished h /\ sv_keylog h' = sv_keylog h /\ sv_log h' = sv_log h /\ sv_context h' = sv_context h /\
  proves_possession (Proofs.Hmac.alg_of H) x msgs m.
Proof.
  intros Bm Hc Bc X Th Bs Ls E. unfold handle_client_certificate_verify in E. sinv E hs0 E0. rewrite Hc in E.
  destruct (ht_eqb (hs_type hs0) HtCertificateVerify) eqn:T; [|discriminate]. apply ht_eqb_eq in T. cbn [negb] in E.
  destruct (message_read _ _ Bm E0) as (extra & Em & Bf & _). rewrite T in Em. cbn [handshake_type_u8] in Em.
  sinv E b1 E1. sinv E algo E2. destruct (two_of _ 0 _ Bf E1) as (F1 & R1 & V1).
  unfold sig_scheme_new in E2. destruct (Z.eqb_spec (to_u16 b1) 1027) as [A1|]; [|destruct (_ =? _) in E2; [apply Ok_inj in E2; subst algo; discriminate|];
    destruct (_ =? _) in E2; [apply Ok_inj in E2; subst algo; discriminate|discriminate]].
  apply Ok_inj in E2. subst algo. sinv E rest E3. apply slice_from_ok in E3. destruct E3 as (L4 & E3).
  destruct (sig_from_der rest) as [[sg size]|e|] eqn:D; [|left; exists e; injection E as <- _; reflexivity|discriminate].
  rewrite Th in E. sinv E t1 E4. cbn in E4. apply Ok_inj in E4. subst t1. sinv E v E5.
  destruct v; [|left; exists BadCertificate; injection E as <- _; reflexivity]. cbn [negb] in E.
  sinv E b2 E6. destruct (two_of _ 2 _ Bf E6) as (F2 & R2 & V2).
  destruct (Nat.eqb_spec (Z.to_nat (to_u16 b2)) size) as [S|]; [|left; exists BadCertificate; injection E as <- _; reflexivity]. cbn [negb] in E.
  destruct (Auth.valid_true (Cert cert (Some x)) x _ _ _ eq_refl Bc X E5) as (key & K1 & K2).
  rewrite (Auth.verify_digest H msgs l_client client_context Bs Ls ltac:(right; split; reflexivity)) in K2.
  right. injection E as <- _. cbn [with_state with_th sv_state sv_stream sv_th sv_th_finished sv_keylog sv_log sv_context].
  split; [reflexivity|]. split; [reflexivity|]. split; [now rewrite th_update_app|]. do 4 (split; [reflexivity|]).
  exists key, sg, rest, size, extra. split; [exact K1|]. split; [exact D|]. split; [|exact K2].
  rewrite Em. f_equal. f_equal. unfold Rfc8446Hello.u16. rewrite <- A1, V1, F1. rewrite <- S, Z2Nat.id, V2, F2, E3 by lia.
  change (skipn 0 (hs_fraqment hs0)) with (hs_fraqment hs0). change 4%nat with (2 + 2)%nat.
  rewrite <- skipn_split. symmetry. apply firstn_skipn.
Qed.

Lemma fin_step h m h' u H g p msgs before :
  is_bytes m -> sv_state h = SvClientFinished -> st_protection (sv_stream h) = Some p -> keyed H g p ->
  sv_th h = Some (th_update (th_new H) msgs) -> is_bytes msgs -> zlen msgs < 2^53 ->
  (match sv_th_finished h with Some t => t = th_update (th_new H) before | None => before = msgs end) -> is_bytes before -> zlen before < 2^53 ->
  handle_client_finish h m = (h', Ok u) ->
  (exists extra, m = Rfc8446Hello.handshake 20 (verify_data g (client_secret g) msgs) ++ extra) /\
  sv_state h' = SvReady /\
  exists p', generate_application_keys p (th_update (th_new H) before) = (p', Ok tt) /\
    sv_stream h' = set_protection (sv_stream h) (Some p') /\ rp_is_client p' = rp_is_client p /\ rp_cipher p' = g_cipher g /\
    rp_application p' = Some (application_keys g before) /\
    good_key (cipher_get_suite (g_cipher g)) (wk_server (application_keys g before)) /\
    good_key (cipher_get_suite (g_cipher g)) (wk_client (application_keys g before)) /\
    sv_log h' = sv_log h ++ (match sv_keylog h with Some k => append_from_protection k p' | None => [] end).
Proof.
  intros Bm St Pr K Th Bs Ls Tf Bb Lb E. unfold handle_client_finish in E. sinv E hs0 E0.
  destruct (message_read _ _ Bm E0) as (extra & Em & Bf & _).
  destruct (ht_eqb (hs_type hs0) HtFinished) eqn:T; [|rewrite St in E; discriminate]. apply ht_eqb_eq in T. cbn [negb] in E.
  rewrite T in Em. cbn [handshake_type_u8] in Em. rewrite Pr in E. sinv E p1 E1. cbn in E1. apply Ok_inj in E1. subst p1.
  rewrite Th in E. sinv E t1 E2. cbn in E2. apply Ok_inj in E2. subst t1. sinv E vd E3.
  destruct (list_eqb (hs_fraqment hs0) vd) eqn:Q; [|discriminate]. apply list_eqb_spec in Q. cbn [negb] in E.
  pose proof K as (S & _ & Sch). destruct (suited_schedule H g S) as (_ & (Bcs & Lcs) & _). destruct S as (EA & _).
  rewrite Sch in E3. cbn [schedule_of ks_client_hs] in E3.
  destruct (Auth.finished_data H _ _ Bcs Lcs Bs Ls) as (F & _). rewrite F in E3. apply Ok_inj in E3.
  split; [exists extra; rewrite Em, Q, <- E3; unfold verify_data; rewrite EA; reflexivity|].
  destruct (keyed_application H g p before K Bb Lb) as (p' & G & G1 & G2 & G3 & G4 & G5).
  assert (ET : match sv_th_finished h with Some t => t | None => th_update (th_new H) msgs end = th_update (th_new H) before)
    by (destruct (sv_th_finished h); congruence).
  rewrite ET, G in E. sinv E w E4.
  set (h1 := with_protection h (Some p')) in *.
  assert (SK : sv_keylog h1 = sv_keylog h) by reflexivity. rewrite SK in E.
  assert (SS : sv_state (match sv_keylog h with Some k => append_log h1 (append_from_protection k p') | None => h1 end) = SvClientFinished)
    by (destruct (sv_keylog h); exact St).
  rewrite SS in E. injection E as <- _. split; [reflexivity|]. exists p'. split; [exact G|].
  split; [destruct (sv_keylog h); reflexivity|]. do 5 (split; [assumption|]).
  destruct (sv_keylog h); cbn; [reflexivity|symmetry; apply app_nil_r].
Qed.
