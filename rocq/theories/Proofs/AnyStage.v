(* The records of Spec/Broken.v bring a side down at any stage once the keys are agreed *)
From Verif Require Import Proofs.Util Proofs.Bytes Model.Alert Model.Bytes Model.Suite Model.Sha2 Model.Hmac Model.KeySchedule Model.Record Model.Channel
  Model.Curve Model.Signature Model.Ecdsa Model.X509 Model.Extensions Model.Hello Model.Kex Model.Handshake Model.Certificate
  Model.Stream Model.Keylog Model.Server Model.Client Spec.Alerts Spec.Rfc8446Keys Spec.Tls13Record Spec.Endpoints Spec.Connection Spec.Negotiation Spec.Ends Spec.ClientConnection Spec.Crashes Spec.ClientCrashes Spec.Broken.
From Verif Require Spec.Handshaking Spec.Rfc8446Hello Proofs.ClientReads Proofs.ClientAlerts Proofs.Loopback Proofs.Ends Proofs.ServerCrash.
From Verif Require Import Proofs.Record Proofs.Channel Proofs.Hello Proofs.ServerRun Proofs.ServerKeys Proofs.ServerAccept Proofs.ServerAccept2 Proofs.Reads Proofs.Alerting Proofs.Cuts.
From Verif Require Import Proofs.Opened Proofs.ServerSteps Proofs.ServerFlow Proofs.Crashes Proofs.Anytime.
From Verif Require Proofs.ClientSteps Proofs.ClientFlow Proofs.ClientRun Proofs.ClientCrashes Proofs.ClientBroken.

Local Opaque handshake_from_raw client_hello_from_raw server_hello_from_client suite_tshash suite_cipher server_hello_bytes
  from_handshake rpp_new certificate_verify_for_handshake finished_handshake th_update certificate_for_handshake
  append_handshake_traffic_secrets rpp_encrypt rpp_decrypt certificate_request certificates_from_hello has_signed sig_from_der is_certificate_valid
  sig_scheme_new verify_data_for_finished generate_application_keys append_from_protection list_eqb slice slice_from to_u16 record_from_raw
  server_exts_bytes client_public_key_share.

(* a server that asks for certificates has drawn a context *)
Definition asked (cfg : server_config) (h : server_hs) : Prop := sv_state h <> SvClientHello -> sc_client_ca cfg <> None -> sv_context h <> None.
Lemma write_context h t b h' u : sv_write h t b = (h', Ok u) -> sv_context h' = sv_context h.
Proof. unfold sv_write. destruct (write_record (sv_stream h) t b) as [s o]. intros H. injection H as <- _. reflexivity. Qed.
Lemma stays_asked cfg d now h r h' : asked cfg h -> handle_handshake_record cfg d now h r = (h', Ok tt) -> asked cfg h'.
Proof.
  intros C H. unfold asked in *.
  assert (HF : forall h f h', handle_client_finish h f = (h', Ok tt) -> sv_context h' = sv_context h).
  { clear. intros h f h'. unfold handle_client_finish. intros H. sinv H hs E1. destruct (negb _).
    - destruct (sv_state h) eqn:St; try discriminate. sinv H t E2. injection H as <-. reflexivity.
    - sinv H p E2. sinv H t E3. sinv H v E4. destruct (negb _); [discriminate|]. destruct (generate_application_keys _ _) as [p' r]. sinv H u E5.
      destruct (sv_state _) in H; try discriminate; injection H as <-; destruct (sv_keylog h); reflexivity. }
  assert (HV : forall h f h', handle_client_certificate_verify h f = (h', Ok tt) -> sv_context h' = sv_context h).
  { clear. intros h f h'. unfold handle_client_certificate_verify. intros H. sinv H hs E1. destruct (sv_cert h); [|discriminate].
    destruct (negb _); [discriminate|]. sinv H b E2. sinv H al E3. destruct al; try discriminate. sinv H rest E4.
    destruct (sig_from_der rest) as [[sg size]|e|]; [|injection H as <-; reflexivity|discriminate].
    sinv H t E5. sinv H v E6. destruct (negb v); [injection H as <-; reflexivity|]. sinv H b2 E7.
    destruct (negb _); injection H as <-; reflexivity. }
  assert (HC : forall h f h', handle_client_certificate cfg now h f = (h', Ok tt) -> sv_context h' = sv_context h).
  { clear. intros h f h'. unfold handle_client_certificate. intros H. sinv H hs E1. destruct (sc_client_ca cfg); [|discriminate].
    destruct (negb _); [discriminate|]. sinv H th E2. sinv H len E3. sinv H cx E4. sinv H ex E5. destruct (negb _); [discriminate|].
    destruct (certificates_from_hello _ _) as [certs|e|]; [|injection H as <-; reflexivity|discriminate].
    sinv H c1 E6. destruct (has_signed _ _); [|injection H as <-; reflexivity|discriminate].
    destruct (sc_verify cfg); [|injection H as <-; reflexivity]. sinv H x E7. destruct (b x); injection H as <-; reflexivity. }
  assert (HE : forall r h', handle_handshake_encrypted_record cfg now h r = (h', Ok tt) -> sv_context h' = sv_context h).
  { clear - HF HV HC. intros r h'. unfold handle_handshake_encrypted_record. intros H. sinv H p E1. destruct (rpp_decrypt p r) as [p' o].
    sinv H tc E2. destruct tc as [t content]. destruct t; try discriminate.
    - sinv H c E3. discriminate.
    - destruct (match sc_client_ca cfg, _ with Some _, None => true | _, _ => false end); [discriminate|].
      change (sv_context h) with (sv_context (with_protection h (Some p'))). destruct (sv_state (with_protection h (Some p'))); eauto; injection H as <-; reflexivity. }
  assert (DONE : sv_state h <> SvClientHello -> sv_context h' = sv_context h -> sc_client_ca cfg <> None -> sv_context h' <> None) by (intros N E Ca; rewrite E; auto).
  intros _ Ca. unfold handle_handshake_record in H.
  destruct (r_type r) eqn:Tr; try (destruct (sv_state h) eqn:St; try discriminate; try (injection H as <-; apply DONE; congruence); (apply DONE; [congruence|eapply HE; exact H|exact Ca])).
  - sinv H c E. discriminate.
  - destruct (sv_state h) eqn:St; try (injection H as <-; apply DONE; congruence); try (apply DONE; [congruence|eapply HE; exact H|exact Ca]).
    unfold handle_client_hello in H. sinv H hs E1. destruct (negb _); [discriminate|]. sinv H ch E2. sinv H x E3. destruct x as [sh pk].
    sinv H t E4. sinv H body E5. apply sbind_ok in H. destruct H as (h1 & u1 & E6 & H). apply sbind_ok in H. destruct H as (h2 & u2 & E7 & H).
    destruct (client_public_key_share _); [|discriminate]. sinv H ks E8. sinv H c E9. sinv H p E10. sinv H ee E11.
    apply sbind_ok in H. destruct H as (h3 & u3 & E12 & H). apply sbind_ok in H. destruct H as (h4 & u4 & E13 & H).
    apply sbind_ok in H. destruct H as (h5 & u5 & E14 & H). sinv H cv E15. sinv H cv' E16. 
    apply sbind_ok in H. destruct H as (h6 & u6 & E17 & H). sinv H p6 E18. sinv H raw E19.
    apply sbind_ok in H. destruct H as (h7 & u7 & E20 & H). injection H as <-. cbn [with_th with_state sv_context].
    rewrite (write_context _ _ _ _ _ E20), (write_context _ _ _ _ _ E17), (write_context _ _ _ _ _ E14).
    destruct (sc_client_ca cfg); [|congruence]. sinv E13 rq F1. apply sbind_ok in E13. destruct E13 as (h8 & u8 & F2 & F3). injection F3 as <- _.
    rewrite (write_context _ _ _ _ _ F2). discriminate.
Qed.
Local Opaque handle_handshake_record.
Lemma records_asked cfg d now : forall fuel buf h h' u, server_records fuel cfg d now h buf = (h', Ok u) -> asked cfg h -> asked cfg h'.
Proof.
  induction fuel as [|fuel IH]; intros buf h h' u H X; destruct buf as [|b buf]; cbn [server_records] in H; try discriminate; try (injection H as <- _; exact X).
  apply sbind_ok in H. destruct H as (h1 & cr & E1 & H). injection E1 as <- _. apply sbind_ok in H. destruct H as (h2 & [] & E2 & H).
  apply (IH _ _ _ _ H). exact (stays_asked _ _ _ _ _ _ X E2).
Qed.
Lemma loop_asked cfg d now : forall reads h h', server_do_handshake cfg d now h reads = (h', None) -> asked cfg h -> asked cfg h'.
Proof.
  induction reads as [|c reads IH]; intros h h' H X.
  - cbn [server_do_handshake] in H. destruct (sv_state h); try discriminate; injection H as <-; exact X.
  - assert (R : sv_state h = SvReady \/ sv_state h <> SvReady) by (destruct (sv_state h); (left; reflexivity) || (right; discriminate)).
    destruct R as [R|R]; [rewrite loop_ready in H by exact R; discriminate|]. rewrite loop_cons in H by exact R.
    destruct (one_read cfg d now h c) as [h2 [u|er|]] eqn:E; try discriminate. apply (IH _ _ H). unfold one_read in E.
    apply sbind_ok in E. destruct E as (h1 & rx & E1 & E). injection E1 as <- E1. apply sbind_ok in E. destruct E as (h3 & u3 & E3 & E).
    unfold sv_flush in E. destruct (flush (sv_stream h3)) as [s o]. injection E as <- _. exact (records_asked _ _ _ _ _ _ _ _ E3 X).
Qed.
Local Transparent handle_handshake_record.

Lemma broken_record cfg d now h x n p r : greeted cfg d x -> 0 <= n < 2^60 -> wellformed r -> st_protection (sv_stream h) = Some p ->
  keyed (gr_hash x) (gr_g x) p -> rp_application p = None -> peer_key p = key_at (Connection.traffic_key (gr_g x) (client_secret (gr_g x))) n ->
  asked cfg h -> sv_state h <> SvClientHello -> sv_state h <> SvReady -> broken (opens (gr_g x) n) r ->
  exists h', handle_handshake_record cfg d now h r = (h', Panic).
Proof.
  intros G N Wf P K A Pk As NS NR X.
  assert (ENC : r_type r <> RAlert -> r_type r <> RChangeCipherSpec -> handle_handshake_record cfg d now h r = handle_handshake_encrypted_record cfg now h r).
  { intros N1 N2. unfold handle_handshake_record. destruct (r_type r); try congruence; destruct (sv_state h); congruence. }
  assert (OPEN : forall t content, t <> RInvalid -> opens (gr_g x) n t content r -> is_bytes content /\ exists p', rpp_decrypt p r = (p', Ok (t, content))).
  { intros t content NI O. destruct (greeted_keys _ _ _ G) as (G1 & _).
    destruct (opened_decrypt _ _ p (client_secret (gr_g x)) n r t content K A Pk G1 NI ltac:(lia) ltac:(lia) O) as (p' & D).
    destruct Wf as (Bh & Lh & Bf & Lf).
    destruct (decrypt_opened _ _ _ _ _ _ _ _ _ K A Pk G1 ltac:(lia) ltac:(lia) Bf Bh Lf Lh D NI) as (_ & Bc & _). eauto. }
  destruct X as [T S|N1 N2 S|content T O S|ty b1 b2 b3 body T O I S].
  - exists h. unfold handle_handshake_record. rewrite T, (alert_short _ S). reflexivity.
  - rewrite (ENC N1 N2). exact (sealed_short cfg now h r S).
  - rewrite ENC by congruence. destruct (OPEN RAlert content ltac:(discriminate) O) as (_ & p' & D). unfold handle_handshake_encrypted_record. rewrite P. cbn [unwrap]. rewrite sbind_Ok, D, sbind_Ok.
    cbv iota beta zeta. rewrite (alert_short _ S). eexists. reflexivity.
  - rewrite ENC by congruence. destruct (OPEN RHandshake _ ltac:(discriminate) O) as (Bm & p' & D). unfold handle_handshake_encrypted_record. rewrite P. cbn [unwrap]. rewrite sbind_Ok, D, sbind_Ok.
    cbv iota beta zeta. change (sv_context (with_protection h (Some p'))) with (sv_context h). change (sv_state (with_protection h (Some p'))) with (sv_state h).
    assert (NC : (match sc_client_ca cfg, sv_context h with Some _, None => true | _, _ => false end) = false).
    { unfold asked in As. destruct (sc_client_ca cfg); [|reflexivity]. destruct (sv_context h); [reflexivity|]. exfalso. apply As; [exact NS|discriminate|reflexivity]. }
    rewrite NC. pose proof (Proofs.ServerCrash.frame_down ty b1 b2 b3 body Bm I S) as FD.
    destruct (sv_state h); try congruence; [unfold handle_client_certificate|unfold handle_client_certificate_verify|unfold handle_client_finish|unfold handle_client_finish];
      rewrite FD; eexists; reflexivity.
Qed.
Local Opaque handle_handshake_record.
Lemma accept_broken cfg d now so before h : server_ok cfg d -> Forall is_bytes before -> zlen (concat before) < 2^60 -> accept cfg d now so before = (h, None) -> before <> [] ->
  exists hello rest ch body g n, concat before = wire hello ++ rest /\ record_from_raw (wire hello) = Ok (length (wire hello), hello) /\ r_type hello = RHandshake /\
    answers cfg d (r_fragment hello) ch body g /\ 0 <= n <= zlen (concat before) /\
    forall r more later, whole r -> broken (opens g n) r -> snd (accept cfg d now so (before ++ (wire r ++ more) :: later)) = Some Panic.
Proof.
  intros Ok' F L A NE. pose proof (waits_greeted _ _ _ _ _ _ A NE) as NS. destruct (accept_app _ _ _ _ _ [] _ A) as (_ & NR). pose proof (accept_none _ _ _ _ _ _ A) as A0.
  assert (H0 : held cfg d (server_new so) []) by (split; [reflexivity|split; reflexivity]).
  pose proof (loop_held _ _ _ _ _ _ _ [] Ok' F L H0 A0) as H1. cbv iota beta in H1. cbn [app] in H1.
  assert (As : asked cfg h) by (apply (loop_asked _ _ _ _ _ _ A0); intros X; now destruct X).
  assert (Ar : armed cfg d h (concat before)) by (unfold held in H1; destruct (sv_state h); try congruence; try exact H1; exact (proj1 H1)).
  destruct Ar as (x & rest & n & p & t & (G & Px) & Es & N & Th & P & K & C & Ap & Pk & _). pose proof G as (T & An & _).
  exists (gr_hello x), rest, (gr_ch x), (gr_body x), (gr_g x), n. split; [exact Es|]. split; [exact Px|]. split; [exact T|]. split; [exact An|]. split; [exact N|].
  intros r more later W X. destruct (accept_app _ _ _ _ _ ((wire r ++ more) :: later) _ A) as (La & _). rewrite La, loop_cons by exact NR. unfold one_read.
  destruct (parse_prefix r more (proj1 W)) as (P' & L5). destruct (wire r ++ more) as [|b l] eqn:Eb; [apply app_eq_nil in Eb; destruct Eb as (Q & _); rewrite Q in L5; cbn in L5; lia|].
  cbn [tcp_read]. rewrite sbind_Ok. cbn [server_records length]. rewrite P', sbind_Ok. cbn [fst snd].
  destruct (broken_record cfg d now h x n p r G ltac:(lia) (whole_formed _ W) P K Ap Pk As NS NR X) as (h' & ->). reflexivity.
Qed.
