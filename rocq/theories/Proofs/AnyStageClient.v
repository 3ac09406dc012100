(* The same for clients *)
From Verif Require Import Proofs.Util Proofs.Bytes Model.Alert Model.Bytes Model.Suite Model.Sha2 Model.Hmac Model.KeySchedule Model.Record Model.Channel
  Model.Curve Model.Signature Model.Ecdsa Model.X509 Model.Extensions Model.Hello Model.Kex Model.Handshake Model.Certificate
  Model.Stream Model.AppChannel Model.Keylog Model.Server Model.Client
  Spec.Enc Spec.Rfc8446Keys Spec.Tls13Record Spec.Endpoints Spec.Connection Spec.ClientConnection Spec.ClientAccept Spec.Broken Spec.Crashes Spec.ClientCrashes.
From Verif Require Spec.Rfc8446Hello Spec.Handshaking.
From Verif Require Import Proofs.KeySchedule Proofs.Record Proofs.Channel Proofs.Stream Proofs.ServerRun Proofs.ServerKeys Proofs.Opened
  Proofs.ServerSteps Proofs.ServerFlow Proofs.ClientSteps Proofs.ClientFlow Proofs.ClientRun Proofs.ServerAccept Proofs.ServerAccept2 Proofs.ClientAccept Proofs.ClientAccept2.
From Verif Require Proofs.ServerCrash Proofs.Anytime Proofs.Crashes Proofs.ClientCrashes Proofs.ClientReads.

Local Opaque client_greeting th_update rpp_encrypt rpp_decrypt record_from_raw handle_server_hello handshake_from_raw send_client_hello.

Lemma broken_record cfg e now h x n p r : cgreeted cfg e x -> 0 <= n < 2^60 -> wellformed r -> st_protection (cl_stream h) = Some p -> guarded x p n ->
  cl_state h <> CsServerHello -> cl_state h <> CsReady -> broken (opens_server (cg_g x) n) r -> exists h', client_record cfg e now h r = (h', Panic).
Proof.
  intros G N W P (K & Ic & Na & _ & Pk) NS NR X.
  assert (ENC : r_type r <> RAlert -> r_type r <> RChangeCipherSpec -> client_record cfg e now h r = client_encrypted_record cfg e now h r).
  { intros N1 N2. unfold client_record. destruct (r_type r); try congruence; destruct (cl_state h); congruence. }
  assert (OPEN : forall t content, t <> RInvalid -> opens_server (cg_g x) n t content r -> is_bytes content /\ exists p', rpp_decrypt p r = (p', Ok (t, content))).
  { intros t content NI O. destruct (cgreeted_keys _ _ _ G) as (_ & G2 & _).
    destruct (opened_decrypt _ _ p (server_secret (cg_g x)) n r t content K Na Pk G2 NI ltac:(lia) ltac:(lia) O) as (p' & D).
    destruct W as (Bh & Lh & Bf & Lf). destruct (decrypt_opened _ _ _ _ _ _ _ _ _ K Na Pk G2 ltac:(lia) ltac:(lia) Bf Bh Lf Lh D NI) as (_ & Bc & _). eauto. }
  destruct X as [T S|N1 N2 S|content T O S|ty b1 b2 b3 body T O I S].
  - exists h. unfold client_record. rewrite T, (Proofs.Anytime.alert_short _ S). reflexivity.
  - rewrite (ENC N1 N2). exact (Proofs.Anytime.csealed_short cfg e now h r S).
  - rewrite ENC by congruence. destruct (OPEN RAlert content ltac:(discriminate) O) as (_ & p' & D). unfold client_encrypted_record. rewrite P. cbn [unwrap]. rewrite sbind_Ok, D, sbind_Ok.
    cbv iota beta zeta. rewrite (Proofs.Anytime.alert_short _ S). eexists. reflexivity.
  - rewrite ENC by congruence. destruct (OPEN RHandshake _ ltac:(discriminate) O) as (Bm & p' & D). unfold client_encrypted_record. rewrite P. cbn [unwrap]. rewrite sbind_Ok, D, sbind_Ok.
    cbv iota beta zeta. cbn [length client_messages]. rewrite (Proofs.ServerCrash.frame_down ty b1 b2 b3 body Bm I S). eexists. reflexivity.
Qed.
Local Opaque client_record.

Lemma connect_broken cfg e now so recs before h : client_ok cfg e -> Spec.Handshaking.delivers recs before -> Forall ClientReads.parses recs -> Forall ClientReads.no_alert recs -> recs <> [] ->
  is_bytes (concat before) -> zlen (concat before) < 2^25 -> connect cfg e now so before = (h, None) ->
  exists first sh g n, within (concat before) first /\ r_type first = RHandshake /\ agrees cfg e (r_fragment first) sh g /\ 0 <= n /\
    forall r more later, whole r -> broken (opens_server g n) r -> snd (connect cfg e now so (before ++ (wire r ++ more) :: later)) = Some Panic.
Proof.
  intros Ok' D P A NE B L E. destruct (ClientReads.waiting _ _ _ _ _ _ _ D P A E) as (Id & St & M & h0 & u & S0 & _ & C). specialize (M NE). unfold ClientReads.met in M.
  destruct (hello_sent _ _ _ _ _ Ok' S0) as (Eh & Pn & Bf & O).
  assert (St0 : cl_state h0 = CsServerHello) by (rewrite Eh; reflexivity).
  assert (H0 : Proofs.ClientCrashes.cheld cfg e [] 0 h0).
  { unfold Proofs.ClientCrashes.cheld. rewrite St0. do 5 (split; [rewrite Eh; reflexivity|]). exact Pn. }
  assert (R : client_reads cfg e now h0 [] before = (h, None)).
  { unfold connect, client_do_handshake in E. rewrite S0 in E. destruct (client_reads cfg e now h0 [] before) as [h' [[u'|er|]|]]; try discriminate E; [|exact E].
    destruct (report_error (cl_stream h') er) as [s o]. discriminate E. }
  pose proof (Proofs.ClientCrashes.reads_step cfg e now (zlen (concat before)) before [] [] h0 [] h None 0 Ok' B (Z.le_refl _) L ltac:(cbn; lia) H0 eq_refl Proofs.Crashes.records_none ltac:(reflexivity) R)
    as (df & w' & k & Hk & H1 & _). cbn [app] in Hk, H1.
  apply Proofs.ClientCrashes.cheld_mid in H1; [|destruct (cl_state h); congruence || contradiction]. destruct H1 as (x & G & Wx & Mi).
  assert (Ca : Proofs.ClientCrashes.carm (concat before) x k h) by (unfold Proofs.ClientCrashes.cmid in Mi; destruct (cl_state h); try contradiction; try congruence; exact Mi).
  destruct Ca as (n & p & t & Hn & _ & Pp & Gp & _). pose proof G as (Tx & Ag & _).
  exists (cg_first x), (cg_sh x), (cg_g x), n. split; [exact Wx|]. split; [exact Tx|]. split; [exact Ag|]. split; [lia|].
  intros r more later W X. rewrite C. destruct (parse_prefix r more (proj1 W)) as (Pr & L5).
  assert (NB : wire r ++ more <> []) by (intros Q; apply app_eq_nil in Q; destruct Q as (Q & _); rewrite Q in L5; cbn in L5; lia).
  rewrite ClientReads.reads_cons by assumption. cbv zeta. destruct (wire r ++ more) as [|b l] eqn:Eb; [contradiction|]. cbn [client_records length Nat.ltb Nat.leb orb negb].
  unfold slice_from. cbn [Nat.leb skipn]. rewrite sbind_Ok, Pr. cbn [fst snd].
  assert (NB60 : 0 <= n < 2^60) by (pose proof (zlen_nonneg (concat before)); nia).
  destruct (broken_record cfg e now h x n p r G NB60 (whole_formed _ W) Pp Gp ltac:(destruct (cl_state h); congruence || contradiction) St X) as (h' & ->). reflexivity.
Qed.
