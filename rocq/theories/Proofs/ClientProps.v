(* The statements of Props.Client from the invariants *)
From Verif Require Import Proofs.Util Proofs.Bytes Model.Alert Model.Bytes Model.Suite Model.Sha2 Model.Hmac Model.KeySchedule Model.Record Model.Channel
  Model.Curve Model.Signature Model.Ecdsa Model.X509 Model.Extensions Model.Hello Model.Kex Model.Handshake Model.Certificate
  Model.Stream Model.AppChannel Model.Keylog Model.Server Model.Client
  Spec.Enc Spec.Rfc2104 Spec.Fips180 Spec.Rfc8446Keys Spec.Tls13Record Spec.Endpoints Spec.Writes Spec.Rfc8446Auth Spec.Connection
  Spec.ClientConnection Spec.ClientAccept Spec.Keylog.
From Verif Require Spec.Rfc8446Hello Spec.Ecdsa.
From Verif Require Import Proofs.KeySchedule Proofs.Record Proofs.Channel Proofs.Stream Proofs.ServerRun Proofs.ServerKeys Proofs.Opened
  Proofs.ServerSteps Proofs.ServerFlow Proofs.ClientSteps Proofs.ClientFlow Proofs.ClientRun.
From Verif Require Proofs.Hmac Proofs.Sha2 Proofs.Auth Proofs.HelloTotal Proofs.Kex Proofs.EcdsaP256.

From Coq Require String. Import String.StringSyntax.
Local Open Scope string_scope. Local Open Scope list_scope. Local Open Scope Z_scope.

Local Opaque X509.get_public_key x509_from_raw client_greeting handshake_from_raw th_update.

Lemma authenticated cfg e now so reads h : client_ok cfg e -> is_bytes (concat reads) -> zlen (concat reads) < 2^25 ->
  connect cfg e now so reads = (h, Some (Ok tt)) ->
  exists first sh g recs contents extensions requests m1 m2 ignored p,
    let before := g_hellos g ++ opening extensions requests ++ m1 ++ m2 in
    within (concat reads) first /\ r_type first = RHandshake /\ agrees cfg e (r_fragment first) sh g /\
    Forall (within (concat reads)) recs /\ carry g contents recs /\
    concat contents = opening extensions requests ++ m1 ++ m2 ++ server_finished g before ++ ignored /\
    server_authentic now g (g_hellos g ++ opening extensions requests) m1 m2 /\
    st_protection (cl_stream h) = Some p /\ rp_is_client p = true /\ rp_cipher p = g_cipher g /\
    rp_application p = Some (application_keys g (before ++ server_finished g before)).
Proof.
  intros Ok' B L E. destruct (client_done _ _ _ _ _ _ Ok' B L E) as (x & recs & contents & G & (W1 & W2 & C & _) & D).
  destruct D as (ee & rs & m1 & m2 & ignored & replied & q & p1 & ws & p & Ea & Au & _ & _ & _ & _ & _ & P & Ic & Ci & Ap & _).
  pose proof G as (T & A & _). exists (cg_first x), (cg_sh x), (cg_g x), recs, contents, ee, rs, m1, m2, ignored, p. cbv zeta. auto 12.
Qed.

Lemma hex_same l : is_bytes l -> to_hex l = hexadecimal l.
Proof.
  induction 1 as [|b l B _ IH]; [reflexivity|]. unfold to_hex, hexadecimal in *. cbn [flat_map map concat]. rewrite IH. f_equal.
  unfold is_byte in B. assert (D : forall d, 0 <= d < 16 -> hex_digit d = nth (Z.to_nat d) (text "0123456789abcdef") 0).
  { intros d Hd. assert (C : forallb (fun i => hex_digit (Z.of_nat i) =? nth i (text "0123456789abcdef") 0) (seq 0 16) = true) by (vm_compute; reflexivity).
    rewrite forallb_forall in C. specialize (C (Z.to_nat d)). rewrite Z2Nat.id in C by lia. apply Z.eqb_eq, C, in_seq. lia. }
  f_equal; [|f_equal]; apply D; [split; [apply Z.div_pos; lia|apply Z.div_lt_upper_bound; lia]|apply Z.mod_pos_bound; lia].
Qed.
Lemma handshake_lines_same random s c : is_bytes random -> is_bytes s -> is_bytes c ->
  append_handshake_traffic_secrets (keylog_new random) s c = handshake_lines random s c.
Proof.
  intros B1 B2 B3. unfold append_handshake_traffic_secrets, keylog_new, keylog_lines, handshake_lines, line. rewrite !hex_same by assumption.
  rewrite <- !app_assoc. reflexivity.
Qed.
Lemma traffic_lines_same random s c : is_bytes random -> is_bytes s -> is_bytes c ->
  append_application_traffic_secrets (keylog_new random) s c = traffic_lines random s c.
Proof.
  intros B1 B2 B3. unfold append_application_traffic_secrets, keylog_new, keylog_lines, traffic_lines, line. rewrite !hex_same by assumption.
  rewrite <- !app_assoc. reflexivity.
Qed.

Lemma alg_bytes H m : is_bytes (alg_hash (Hmac.alg_of H) m).
Proof.
  assert (forall V, is_bytes (hash V m)) as K.
  { intros V. unfold hash. apply is_bytes_firstn. generalize (fold_left (compress V) (blocks V (pad V m)) (v_H0 V)). induction l as [|w l IH]; [constructor|].
    cbn [flat_map]. apply is_bytes_app. split; [apply be_enc_bytes|exact IH]. }
  destruct H; apply K.
Qed.
Lemma expand_bytes H secret label context n : is_bytes (Expand_Label (Hmac.alg_of H) secret label context n).
Proof.
  unfold Expand_Label, HKDF_Expand. destruct (Nat.leb _ _); [|constructor]. apply is_bytes_firstn.
  generalize (seq 1 255). induction l as [|i l IH]; [constructor|]. cbn [map concat]. apply is_bytes_app. split; [|exact IH].
  destruct i; [constructor|]. cbn [T]. apply alg_bytes.
Qed.
Lemma application_lines H g random ms p : is_bytes random -> g_alg g = Hmac.alg_of H -> rp_application p = Some (application_keys g ms) ->
  append_from_protection (keylog_new random) p =
  traffic_lines random (server_application_traffic_secret_0 (g_alg g) (g_ecdhe g) ms) (client_application_traffic_secret_0 (g_alg g) (g_ecdhe g) ms).
Proof.
  intros B EA E. unfold append_from_protection. rewrite E. cbn [application_keys wk_server wk_client Connection.traffic_key k_secret]. rewrite EA.
  apply traffic_lines_same; [exact B|apply expand_bytes..].
Qed.

Lemma client_logged cfg e now so reads h : client_ok cfg e -> is_bytes (concat reads) -> zlen (concat reads) < 2^25 ->
  connect cfg e now so reads = (h, Some (Ok tt)) ->
  exists first sh g messages p, within (concat reads) first /\ agrees cfg e (r_fragment first) sh g /\
    st_protection (cl_stream h) = Some p /\ rp_application p = Some (application_keys g messages) /\
    cl_log h = match cc_keylog cfg with
               | None => []
               | Some _ => handshake_lines (e_random e) (server_secret g) (client_secret g) ++
                           traffic_lines (e_random e) (server_application_traffic_secret_0 (g_alg g) (g_ecdhe g) messages)
                                                      (client_application_traffic_secret_0 (g_alg g) (g_ecdhe g) messages)
               end.
Proof.
  intros Ok' B L E. destruct (client_done _ _ _ _ _ _ Ok' B L E) as (x & recs & contents & G & (W1 & _) & D).
  destruct D as (ee & rs & m1 & m2 & ignored & replied & q & p1 & ws & p & Ea & Au & _ & _ & _ & _ & _ & P & Ic & Ci & Ap & _ & _ & Lg).
  pose proof G as (T & A & S & _). exists (cg_first x), (cg_sh x), (cg_g x), (g_hellos (cg_g x) ++ opening ee rs ++ m1 ++ m2 ++ server_finished (cg_g x) (g_hellos (cg_g x) ++ opening ee rs ++ m1 ++ m2)), p.
  rewrite <- !app_assoc in Ap. split; [exact W1|]. split; [exact A|]. split; [exact P|]. split; [exact Ap|].
  rewrite Lg. unfold client_log, cg_keylog. destruct (cc_keylog cfg); [|reflexivity]. destruct (cgreeted_keys _ _ _ G) as (_ & _ & ->). cbn [wk_server wk_client Connection.traffic_key k_secret].
  destruct (suited_schedule _ _ S) as (_ & (B1 & _) & (B2 & _) & _). pose proof Ok' as (_ & Br & _).
  rewrite handshake_lines_same by assumption. f_equal. apply (application_lines (cg_hash x)); [exact Br|exact (proj1 S)|exact Ap].
Qed.

Lemma hello_random m hs ch : is_bytes m -> handshake_from_raw m = Ok hs -> client_hello_from_raw (hs_fraqment hs) = Ok ch -> ch_random ch = random_of m /\ is_bytes (random_of m).
Proof.
  intros B R C. destruct (message_read _ _ B R) as (extra & -> & Bf & _). unfold client_hello_from_raw in C.
  set (f := hs_fraqment hs) in *. clearbody f. destruct (Nat.ltb_spec (length f) 45); [discriminate|].
  apply bind_ok in C. destruct C as (v & _ & C). destruct (negb _); [discriminate|]. apply bind_ok in C. destruct C as (rd & Rd & C).
  apply slice_ok in Rd. destruct Rd as (_ & Rd). 
  apply bind_ok in C. destruct C as (sl & _ & C). apply bind_ok in C. destruct C as ((c0 & sid) & _ & C).
  apply bind_ok in C. destruct C as (su & _ & C). destruct (_ || _)%bool; [discriminate|].
  apply bind_ok in C. destruct C as (su2 & _ & C). apply bind_ok in C. destruct C as (el & _ & C). apply bind_ok in C. destruct C as (b & _ & C). apply bind_ok in C. destruct C as (ex & _ & C).
  apply Ok_inj in C. subst ch. cbn [ch_random].
  assert (ER : random_of (Rfc8446Hello.handshake (handshake_type_u8 (hs_type hs)) f ++ extra) = firstn 32 (skipn 2 f)).
  { unfold random_of, Rfc8446Hello.handshake, Rfc8446Hello.vector24. rewrite <- !app_assoc. pose proof (be_enc_length 3 (Z.of_nat (length f))) as L3.
    destruct (be_enc 3 (Z.of_nat (length f))) as [|a [|b0 [|c [|? ?]]]]; try discriminate. cbn [app skipn].
    destruct f as [|f0 [|f1 f]]; [cbn in *; lia..|]. cbn [app skipn]. rewrite firstn_app. cbn [length] in *.
    replace (32 - length f)%nat with 0%nat by lia. cbn [firstn]. apply app_nil_r. }
  rewrite ER. split; [exact Rd|]. apply is_bytes_firstn, is_bytes_skipn. exact Bf.
Qed.

Lemma server_logged cfg d now so reads h : server_ok cfg d -> Forall is_bytes reads -> accept cfg d now so reads = (h, Some (Ok tt)) ->
  exists taken rest hello more ch body g messages p, reads = taken ++ rest /\ received (concat taken) (hello :: more) /\
    answers cfg d (r_fragment hello) ch body g /\
    st_protection (sv_stream h) = Some p /\ rp_application p = Some (application_keys g messages) /\
    sv_log h = match sc_keylog cfg with
               | None => []
               | Some _ => let random := random_of (r_fragment hello) in
                           handshake_lines random (server_secret g) (client_secret g) ++
                           traffic_lines random (server_application_traffic_secret_0 (g_alg g) (g_ecdhe g) messages)
                                                (client_application_traffic_secret_0 (g_alg g) (g_ecdhe g) messages)
               end.
Proof.
  intros Ok' B E. destruct (accept_done _ _ _ _ _ _ Ok' B E) as (_ & taken & rest & recs & Er & R & D).
  destruct D as (x & more & used & msgs & rf & extra & ignored & p & Ex & Ew & G & Au & Fin & _ & Pr & C & Ci & Ap & _ & _ & Lg).
  pose proof G as (T & A & Sg & _ & _ & S & _). subst recs.
  exists taken, rest, (gr_hello x), more, (gr_ch x), (gr_body x), (gr_g x), (gr_msgs cfg d x), p. split; [exact Er|]. split; [exact R|]. split; [exact A|]. split; [exact Pr|]. split; [exact Ap|].
  rewrite Lg. unfold log_hs, gr_keylog. destruct (sc_keylog cfg); [|reflexivity]. destruct (greeted_keys _ _ _ G) as (_ & _ & ->). cbn [wk_server wk_client Connection.traffic_key k_secret].
  destruct (suited_schedule _ _ S) as (_ & (B1 & _) & (B2 & _) & _).
  destruct A as (hs & sh & pk & share & a & E1 & _ & E2 & _).
  assert (Bt : is_bytes (concat taken)) by (rewrite Er in B; apply Forall_app in B; destruct B as (B & _); clear -B; induction B; [constructor|cbn [concat]; apply is_bytes_app; auto]).
  assert (Bh : is_bytes (r_fragment (gr_hello x))) by (destruct R as (Eb & _); rewrite Eb in Bt; cbn [map concat] in Bt; apply is_bytes_app in Bt; destruct Bt as (Bt & _); unfold wire in Bt; apply is_bytes_app in Bt; apply Bt).
  destruct (hello_random _ _ _ Bh E1 E2) as (-> & Br).
  rewrite handshake_lines_same by assumption. cbv zeta. f_equal. apply (application_lines (gr_hash x)); [exact Br|exact (proj1 S)|exact Ap].
Qed.

Lemma alg_short H m : (length (alg_hash (Hmac.alg_of H) m) <= 64)%nat.
Proof. destruct H; cbn [Hmac.alg_of alg_sha256 alg_sha384 alg_hash]; unfold sha256_spec, sha384_spec, hash; (etransitivity; [apply firstn_le_length|cbn [v_out SHA_256 SHA_384]; lia]). Qed.
Lemma Forall_concat l : is_bytes (concat l) -> Forall is_bytes l.
Proof. induction l as [|a l IH]; [constructor|]. cbn [concat]. intros B. apply is_bytes_app in B. constructor; [tauto|apply IH; tauto]. Qed.

Lemma flight_bounds cfg e H g before request replied : client_ok cfg e -> g_alg g = Hmac.alg_of H -> replies cfg e g before request replied -> is_bytes (concat replied) ->
  (forall c, cc_cert cfg = Some c -> zlen (ct_raw c) < 2^16 - 512) ->
  Forall is_bytes (client_flight g before replied) /\ Forall (fun m => zlen m + 17 < 2^16) (client_flight g before replied) /\ zlen (client_flight g before replied) <= 3.
Proof.
  intros Ok' EA R B Lc.
  assert (V : is_bytes (Rfc8446Hello.handshake 20 (verify_data g (client_secret g) (before ++ concat replied))) /\ zlen (Rfc8446Hello.handshake 20 (verify_data g (client_secret g) (before ++ concat replied))) + 17 < 2^16).
  { unfold verify_data, finished_verify_data, HMAC. rewrite EA. split.
    - apply is_bytes_handshake; [unfold is_byte; lia|]. apply alg_bytes.
    - unfold zlen. rewrite handshake_length. pose proof (alg_short H (xor_all 92 (key_block (Hmac.alg_of H) (finished_key (Hmac.alg_of H) (client_secret g))) ++
        alg_hash (Hmac.alg_of H) (xor_all 54 (key_block (Hmac.alg_of H) (finished_key (Hmac.alg_of H) (client_secret g))) ++ alg_hash (Hmac.alg_of H) (before ++ concat replied)))). lia. }
  assert (RR : Forall (fun m => zlen m + 17 < 2^16) replied /\ (length replied <= 2)%nat).
  { unfold replies in R. destruct request as [body|]; [|subst; split; [constructor|cbn; lia]]. destruct R as (context & more & _ & Lx & R).
    destruct (cc_cert cfg) as [c|] eqn:Cc.
    - destruct R as (key & der & k & r & s & _ & -> & _ & (R1 & R2 & _) & Hd). specialize (Lc c eq_refl).
      assert (NB : Ec.P256_n < 2^256) by (vm_compute; reflexivity).
      destruct (Auth.der_bounds r s der ltac:(lia) ltac:(lia) Hd) as (_ & Ld). split; [|cbn; lia].
      constructor; [|constructor; [|constructor]]; unfold zlen in *; rewrite handshake_length.
      + unfold Rfc8446Hello.certificate_wire, Rfc8446Hello.vector8, Rfc8446Hello.vector24, Rfc8446Hello.vector16. rewrite !app_length, !be_enc_length. cbn [length]. lia.
      + unfold Rfc8446Hello.certificate_verify_wire, Rfc8446Hello.u16, Rfc8446Hello.vector16. rewrite !app_length, !be_enc_length. lia.
    - subst replied. split; [|cbn; lia]. constructor; [|constructor]. unfold zlen in *. rewrite handshake_length. unfold Rfc8446Hello.vector8. rewrite !app_length, be_enc_length. cbn [length]. lia. }
  unfold client_flight. rewrite !Forall_app.
  split; [split; [now apply Forall_concat|constructor; [apply V|constructor]]|]. split; [split; [apply RR|constructor; [apply V|constructor]]|]. destruct RR as (_ & RR). unfold zlen in *. rewrite app_length. cbn [length]. lia.
Qed.

Lemma client_sent cfg e now so reads h : client_ok cfg e -> (forall c, cc_cert cfg = Some c -> zlen (ct_raw c) < 2^16 - 512) ->
  is_bytes (concat reads) -> zlen (concat reads) < 2^25 -> connect cfg e now so reads = (h, Some (Ok tt)) ->
  exists first sh g extensions requests m1 m2 replied recs,
    let before := g_hellos g ++ opening extensions requests ++ m1 ++ m2 in
    let transcript := before ++ server_finished g before in
    within (concat reads) first /\ agrees cfg e (r_fragment first) sh g /\
    server_authentic now g (g_hellos g ++ opening extensions requests) m1 m2 /\
    replies cfg e g transcript (last_of requests) replied /\
    carry_client g (client_flight g transcript replied) recs /\ Forall (fun r => record_from_raw (wire r) = Ok (length (wire r), r)) recs /\
    so_sent (st_sock (cl_stream h)) = so_sent so ++ firstn (e_took e) (encode_record 22 (client_greeting cfg e)) ++ concat (map wire recs).
Proof.
  intros Ok' Lc B L E. destruct (client_done _ _ _ _ _ _ Ok' B L E) as (x & recs0 & contents & G & (W1 & _) & D).
  destruct D as (ee & rs & m1 & m2 & ignored & replied & q & p1 & ws & p & Ea & Au & (Rp & Bp) & (K & Ic & Na & Sk & _) & En & O & Bf & _).
  pose proof G as (T & A & S & _). destruct (cgreeted_keys _ _ _ G) as (G1 & _).
  destruct (flight_bounds cfg e (cg_hash x) _ _ _ _ Ok' (proj1 S) Rp Bp Lc) as (F1 & F2 & F3).
  rewrite <- Ic in Sk. assert (F4 : forall n, n <= 3 -> 0 + n < 2^64) by (intros; lia).
  destruct (enc_all_carried _ _ _ _ _ _ _ _ K Na Sk G1 (Z.le_refl 0) (F4 _ F3) F1 F2 En) as (recs & Er & Fr & Lr & Or & _).
  exists (cg_first x), (cg_sh x), (cg_g x), ee, rs, m1, m2, replied, recs. cbv zeta. do 4 (split; [assumption|]). split; [split; [exact Lr|exact Or]|]. split; [exact Fr|].
  unfold out in O. rewrite Bf, app_nil_r in O. rewrite O, Er, <- app_assoc. unfold hello_out. do 3 f_equal.
  apply as_bytes_spec. cbn [record_new r_fragment]. exact (proj2 (greeting_bytes cfg e Ok')).
Qed.
