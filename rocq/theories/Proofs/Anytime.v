(* Records that are too short bring a side down, however far the handshake has come *)
From Verif Require Import Proofs.Util Proofs.Bytes Model.Alert Model.Bytes Model.Suite Model.KeySchedule Model.Record
  Model.Curve Model.Ecdsa Model.X509 Model.Extensions Model.Hello Model.Kex Model.Handshake Model.Certificate
  Model.Stream Model.Server Model.Client Spec.Alerts Spec.Rfc8446Keys Spec.Tls13Record Spec.Endpoints Spec.Connection Spec.Negotiation Spec.Ends.
From Verif Require Spec.Handshaking Spec.Rfc8446Hello Proofs.ClientReads Proofs.ClientAlerts Proofs.Loopback Proofs.Ends Proofs.ServerCrash.
From Verif Require Import Proofs.Record Proofs.Channel Proofs.Hello Proofs.ServerRun Proofs.ServerKeys Proofs.ServerAccept Proofs.ServerAccept2 Proofs.Reads Proofs.Alerting Proofs.Cuts.

Local Opaque record_from_raw rpp_decrypt handle_client_hello handle_server_hello.

Lemma sealed_short cfg now h r : (length (r_fragment r) < 16)%nat -> exists h', handle_handshake_encrypted_record cfg now h r = (h', Panic).
Proof.
  intros S. unfold handle_handshake_encrypted_record. destruct (st_protection (sv_stream h)) as [p|]; cbn [unwrap]; [|eexists; reflexivity].
  rewrite sbind_Ok, (Proofs.ServerCrash.decrypt_short p r S). eexists. reflexivity.
Qed.
Lemma csealed_short cfg e now h r : (length (r_fragment r) < 16)%nat -> exists h', client_encrypted_record cfg e now h r = (h', Panic).
Proof.
  intros S. unfold client_encrypted_record. destruct (st_protection (cl_stream h)) as [p|]; cbn [unwrap]; [|eexists; reflexivity].
  rewrite sbind_Ok, (Proofs.ServerCrash.decrypt_short p r S). eexists. reflexivity.
Qed.
Lemma alert_short {E} (f : list Z) : (length f < 2)%nat -> idx (E:=E) f 1 = Panic.
Proof. destruct f as [|a [|b f]]; cbn [length]; try lia; reflexivity. Qed.

(* a server that waits after a read has read a ClientHello *)
Lemma any_greeted cfg d now h r h' u : handle_handshake_record cfg d now h r = (h', Ok u) -> greeted_state h'.
Proof.
  destruct u. intros H. destruct (is_ccs r) eqn:C; [|exact (stays_greeted cfg d now h r h' (or_introl C) H)].
  assert (T : r_type r = RChangeCipherSpec) by (unfold is_ccs in C; destruct (r_type r); congruence).
  unfold greeted_state. unfold handle_handshake_record in H. rewrite T in H. destruct (sv_state h) eqn:St; try discriminate; injection H as <-; congruence.
Qed.
Local Opaque handle_handshake_record.
Lemma records_greeted cfg d now : forall fuel buf h h' u, server_records fuel cfg d now h buf = (h', Ok u) -> buf <> [] \/ greeted_state h -> greeted_state h'.
Proof.
  induction fuel as [|fuel IH]; intros buf h h' u H X; destruct buf as [|b buf]; cbn [server_records] in H; try discriminate.
  - injection H as <- _. destruct X; [contradiction|assumption].
  - injection H as <- _. destruct X; [contradiction|assumption].
  - apply sbind_ok in H. destruct H as (h1 & cr & E1 & H). apply sbind_ok in H. destruct H as (h2 & u2 & E2 & H).
    apply (IH _ _ _ _ H). right. exact (any_greeted _ _ _ _ _ _ _ E2).
Qed.
Lemma read_greeted cfg d now h c h' u : one_read cfg d now h c = (h', Ok u) -> greeted_state h'.
Proof.
  unfold one_read. intros H. apply sbind_ok in H. destruct H as (h1 & rx & E1 & H). injection E1 as <- E1. destruct c as [|b c]; [discriminate|]. injection E1 as <-.
  apply sbind_ok in H. destruct H as (h2 & u2 & E2 & H). assert (G : greeted_state h2) by (apply (records_greeted _ _ _ _ _ _ _ _ E2); left; discriminate).
  unfold sv_flush in H. destruct (flush (sv_stream h2)) as [s o]. injection H as <- _. exact G.
Qed.
Lemma loop_greeted cfg d now : forall reads h h', server_do_handshake cfg d now h reads = (h', None) -> reads <> [] \/ greeted_state h -> greeted_state h'.
Proof.
  induction reads as [|c reads IH]; intros h h' H X.
  - destruct X as [X|X]; [contradiction|]. cbn [server_do_handshake] in H. destruct (sv_state h); try discriminate; injection H as <-; exact X.
  - assert (R : sv_state h = SvReady \/ sv_state h <> SvReady) by (destruct (sv_state h); (left; reflexivity) || (right; discriminate)).
    destruct R as [R|R]; [rewrite loop_ready in H by exact R; discriminate|]. rewrite loop_cons in H by exact R.
    destruct (one_read cfg d now h c) as [h2 [u|er|]] eqn:E; try discriminate. apply (IH _ _ H). right. exact (read_greeted _ _ _ _ _ _ _ E).
Qed.
Lemma waits_greeted cfg d now so before h : accept cfg d now so before = (h, None) -> before <> [] -> sv_state h <> SvClientHello.
Proof. intros A N. apply accept_none in A. exact (loop_greeted cfg d now before _ h A (or_introl N)). Qed.
Local Transparent handle_handshake_record.

Lemma accept_short cfg d now so before r more later h : accept cfg d now so before = (h, None) -> record_from_raw (wire r) = Ok (length (wire r), r) ->
  (r_type r = RAlert /\ (length (r_fragment r) < 2)%nat) \/
  (before <> [] /\ r_type r <> RAlert /\ r_type r <> RChangeCipherSpec /\ (length (r_fragment r) < 16)%nat) ->
  snd (accept cfg d now so (before ++ (wire r ++ more) :: later)) = Some Panic.
Proof.
  intros A W X. destruct (accept_app _ _ _ _ _ ((wire r ++ more) :: later) _ A) as (L & R). rewrite L, loop_cons by exact R. unfold one_read.
  destruct (parse_prefix r more W) as (P & L5). destruct (wire r ++ more) as [|b t] eqn:Eb; [apply app_eq_nil in Eb; destruct Eb as (Q & _); rewrite Q in L5; cbn in L5; lia|].
  cbn [tcp_read]. rewrite sbind_Ok. cbn [server_records length]. rewrite P, sbind_Ok. cbn [fst snd].
  assert (Y : exists h', handle_handshake_record cfg d now h r = (h', Panic)).
  { unfold handle_handshake_record. destruct X as [(T & S) | (N & N1 & N2 & S)].
    - rewrite T, (alert_short _ S). eexists. reflexivity.
    - apply (waits_greeted _ _ _ _ _ _ A) in N. destruct (sealed_short cfg now h r S) as (h' & E). exists h'. destruct (r_type r); try congruence; destruct (sv_state h); congruence || exact E. }
  destruct Y as (h' & ->). reflexivity.
Qed.

Lemma connect_short cfg e now so recs before r more later h : Spec.Handshaking.delivers recs before -> Forall ClientReads.parses recs -> Forall ClientReads.no_alert recs ->
  connect cfg e now so before = (h, None) -> record_from_raw (wire r) = Ok (length (wire r), r) ->
  (r_type r = RAlert /\ (length (r_fragment r) < 2)%nat) \/
  (recs <> [] /\ r_type r <> RAlert /\ r_type r <> RChangeCipherSpec /\ (length (r_fragment r) < 16)%nat) ->
  snd (connect cfg e now so (before ++ (wire r ++ more) :: later)) = Some Panic.
Proof.
  intros D P A E W X. destruct (ClientReads.waiting _ _ _ _ _ _ _ D P A E) as (Id & St & M & h0 & u & _ & _ & C). rewrite C.
  destruct (parse_prefix r more W) as (Pr & L5). assert (NE : wire r ++ more <> []) by (intros Q; apply app_eq_nil in Q; destruct Q as (Q & _); rewrite Q in L5; cbn in L5; lia).
  rewrite ClientReads.reads_cons by assumption. cbv zeta.
  destruct (wire r ++ more) as [|b t] eqn:Eb; [contradiction|]. cbn [client_records length Nat.ltb Nat.leb orb negb].
  unfold slice_from. cbn [Nat.leb skipn]. rewrite sbind_Ok, Pr. cbn [fst snd].
  assert (Y : exists h', client_record cfg e now h r = (h', Panic)).
  { unfold client_record. destruct X as [(T & S) | (N & N1 & N2 & S)].
    - rewrite T, (alert_short _ S). eexists. reflexivity.
    - destruct (csealed_short cfg e now h r S) as (h' & E'). exists h'. specialize (M N). unfold ClientReads.met in M.
      destruct (r_type r); try congruence; destruct (cl_state h); try congruence; try contradiction; exact E'. }
  destruct Y as (h' & ->). reflexivity.
Qed.
