(* C43, C47, C50 for the server: failing handshakes, change_cipher_spec records, and where TCP reads end.  The vocabulary
   is in Spec.Connection and Spec.Handshaking. *)
From Verif Require Import Model.Base Model.Alert Model.Suite Model.KeySchedule Model.Record Model.Hello Model.Certificate Model.Stream Model.Server
  Spec.Alerts Spec.Tls13Record Spec.Endpoints Spec.Connection Spec.Handshaking Spec.HelloView.
From Verif Require Proofs.Util Proofs.Reads Proofs.Alerting Proofs.Cuts Proofs.ServerExample Proofs.HandshakeExample.
From Coq Require Import Lia.

Definition parses (r : record) : Prop := record_from_raw (wire r) = Ok (length (wire r), r).

(* ---- C47 ---- *)
(* change_cipher_spec records anywhere after the ClientHello, in its read or in others: the server ends in the very same
   state, with the same answer, as without them, whatever comes later. *)
Theorem C47_server_ignores_ccs : forall cfg d now so hello more groups later,
  is_ccs hello = false -> Forall parses (hello :: more) -> Forall (fun x => x <> []) groups -> Forall parses (concat groups) ->
  accept cfg d now so (bytes_of (hello :: more) :: map bytes_of groups ++ later) =
  accept cfg d now so (bytes_of (hello :: without_ccs more) :: map bytes_of (groups_without_ccs groups) ++ later).
Proof. exact Proofs.Reads.accept_ccs. Qed.
Print Assumptions C47_server_ignores_ccs.
(* Before the ClientHello it is refused with the alert RFC 8446 asks for (section 5). *)
Theorem C47_server_refuses_early_ccs : forall cfg d now so ccs more rest,
  parses ccs -> is_ccs ccs = true -> so_left so = None ->
  exists h, accept cfg d now so ((wire ccs ++ more) :: rest) = (h, Some (Err UnexpectedMessage)) /\
    so_sent (st_sock (sv_stream h)) = so_sent so ++ [21; 3; 3; 0; 2; 2; 10].
Proof. exact Proofs.Cuts.ccs_first. Qed.
Print Assumptions C47_server_refuses_early_ccs.
Definition ex_ccs : record := {| r_type := RChangeCipherSpec; r_version := 0x0303; r_len := 1; r_header := [20; 3; 3; 0; 1]; r_fragment := [1] |}.
(* non-vacuity: a handshake that goes through, with three change_cipher_spec records *)
Example C47_ex : exists hello fin h,
  parses ex_ccs /\ is_ccs ex_ccs = true /\ is_ccs hello = false /\ Forall parses [hello; ex_ccs] /\ Forall parses (concat [[ex_ccs]; [ex_ccs; fin]]) /\
  bytes_of (hello :: without_ccs [ex_ccs]) = wire hello /\ groups_without_ccs [[ex_ccs]; [ex_ccs; fin]] = [[fin]] /\
  accept (ServerExample.ex_cfg false) ServerExample.ex_draws ServerExample.own_now ServerExample.ex_sock
    [bytes_of [hello; ex_ccs]; bytes_of [ex_ccs]; bytes_of [ex_ccs; fin]] = (h, Some (Ok tt)).
Proof.
  destruct HandshakeExample.ex_two_reads as (hello & fin & h1 & h & (P1 & _) & (P2 & _) & T1 & T2 & _ & _ & E). exists hello, fin, h.
  assert (PC : parses ex_ccs) by reflexivity.
  assert (I1 : is_ccs hello = false) by (unfold is_ccs; now rewrite T1). assert (I2 : is_ccs fin = false) by (unfold is_ccs; now rewrite T2).
  assert (F1 : Forall parses [hello; ex_ccs]) by (repeat constructor; assumption).
  assert (F2 : Forall parses (concat [[ex_ccs]; [ex_ccs; fin]])) by (repeat constructor; assumption).
  assert (W : bytes_of (hello :: without_ccs [ex_ccs]) = wire hello) by (unfold bytes_of; cbn; apply app_nil_r).
  assert (G : groups_without_ccs [[ex_ccs]; [ex_ccs; fin]] = [[fin]]) by (unfold groups_without_ccs, without_ccs; cbn [map filter]; rewrite I2; reflexivity).
  do 7 (split; [first [assumption|reflexivity]|]).
  pose proof (C47_server_ignores_ccs (ServerExample.ex_cfg false) ServerExample.ex_draws ServerExample.own_now ServerExample.ex_sock hello [ex_ccs]
    [[ex_ccs]; [ex_ccs; fin]] [] I1 F1 ltac:(repeat constructor; discriminate) F2) as C.
  rewrite !app_nil_r, W, G in C. cbn [map] in C. rewrite C. replace (bytes_of [fin]) with (wire fin) by (unfold bytes_of; cbn; symmetry; apply app_nil_r). exact E.
Qed.

(* ---- C50 ---- *)
(* The same records spread over reads in two ways that keep records whole, without alerts, on a socket that works: the
   same answer, the same keys and key log, and unless the handshake failed the same state altogether. *)
Theorem C50_server_regroup_partial : forall cfg d now so later groups1 groups2, so_left so = None ->
  Forall (fun x => x <> []) groups1 -> Forall (fun x => x <> []) groups2 -> concat groups1 = concat groups2 ->
  Forall parses (concat groups1) -> Forall (fun r => r_type r <> RAlert) (concat groups1) ->
  let x := accept cfg d now so (map bytes_of groups1 ++ later) in
  let y := accept cfg d now so (map bytes_of groups2 ++ later) in
  snd x = snd y /\ sv_log (fst x) = sv_log (fst y) /\ st_protection (sv_stream (fst x)) = st_protection (sv_stream (fst y)) /\
  ((forall e, snd x <> Some (Err e)) -> snd x <> Some Panic -> fst x = fst y).
Proof.
  intros cfg d now so later groups1 groups2 N N1 N2 C P A x y.
  destruct (Proofs.Reads.regroup cfg d now so later groups1 groups2 N N1 N2 C P A) as (S1 & S2 & S3 & S4).
  split; [exact S1|]. split; [exact S2|]. split; [exact S3|]. intros X1 X2. change ServerAccept2.read_of with bytes_of in S4. fold x y in S4.
  destruct (snd x) as [[| |]|]; try exact S4; exfalso; [now apply (X1 e)|now apply X2].
Qed.
Print Assumptions C50_server_regroup_partial.
(* What is missing is false.  A read that ends inside a record ends the handshake, at every point of every handshake. *)
Theorem C50_server_cut_refuted : forall cfg d now so before x rest h1 h,
  accept cfg d now so before = (h1, None) -> is_bytes x -> (~ exists recs, received x recs) ->
  accept cfg d now so (before ++ x :: rest) <> (h, Some (Ok tt)).
Proof. exact Proofs.Cuts.cut_fails. Qed.
Print Assumptions C50_server_cut_refuted.
(* Records in the read of the client's Finished, such as its first application data, are dropped: the connection that is
   returned is the one for the bytes without them. *)
Theorem C50_server_drops_data_refuted : forall cfg d now so before last extra h1 h,
  accept cfg d now so before = (h1, None) -> last <> [] -> Forall parses last ->
  accept cfg d now so (before ++ [bytes_of last]) = (h, Some (Ok tt)) ->
  Forall parses extra -> Forall (fun r => r_type r <> RAlert) extra ->
  forall later, accept cfg d now so (before ++ bytes_of (last ++ extra) :: later) = (h, Some (Ok tt)).
Proof. exact Proofs.Cuts.after_finished. Qed.
Print Assumptions C50_server_drops_data_refuted.
(* An alert after the Finished makes accept fail if it is in the same read and not if it is in the next. *)
Theorem C50_server_alert_refuted : forall cfg d now so before last alert level code more h1 h,
  accept cfg d now so before = (h1, None) -> last <> [] -> Forall parses last ->
  accept cfg d now so (before ++ [bytes_of last]) = (h, Some (Ok tt)) ->
  parses alert -> r_type alert = RAlert -> r_fragment alert = level :: code :: more ->
  accept cfg d now so (before ++ [bytes_of last; wire alert]) = (h, Some (Ok tt)) /\
  exists h', accept cfg d now so (before ++ [bytes_of (last ++ [alert])]) = (h', Some (Err (error_new code))).
Proof. exact Proofs.Cuts.alert_after_finished. Qed.
Print Assumptions C50_server_alert_refuted.
(* non-vacuity: a handshake in two reads, that one cut differently, and with records after the Finished *)
Definition ex_alert : record := {| r_type := RAlert; r_version := 0x0303; r_len := 2; r_header := [21; 3; 3; 0; 2]; r_fragment := [2; 40] |}.
Example C50_ex : let acc := accept (ServerExample.ex_cfg false) ServerExample.ex_draws ServerExample.own_now ServerExample.ex_sock in
  exists hello fin h1 h, Forall parses (concat [[hello]; [fin]]) /\ Forall (fun r => r_type r <> RAlert) (concat [[hello]; [fin]]) /\
    acc [wire hello] = (h1, None) /\ acc [wire hello; bytes_of [fin]] = (h, Some (Ok tt)) /\
    snd (acc [bytes_of [hello; ex_ccs; fin]]) = snd (acc [bytes_of [hello]; bytes_of [ex_ccs; fin]]) /\
    (forall h', acc [firstn 3 (wire hello); skipn 3 (wire hello); wire fin] <> (h', Some (Ok tt))) /\
    acc [wire hello; bytes_of [fin; ex_ccs; fin]] = (h, Some (Ok tt)) /\
    acc [wire hello; bytes_of [fin]; wire ex_alert] = (h, Some (Ok tt)) /\
    (exists h', acc [wire hello; bytes_of [fin; ex_alert]] = (h', Some (Err HandshakeFailure))).
Proof.
  intros acc. destruct HandshakeExample.ex_two_reads as (hello & fin & h1 & h & (P1 & B1) & (P2 & _) & T1 & T2 & _ & E1 & E). exists hello, fin, h1, h.
  assert (PC : parses ex_ccs) by reflexivity. assert (PA : parses ex_alert) by reflexivity.
  assert (W : bytes_of [fin] = wire fin) by (unfold bytes_of; cbn; apply app_nil_r).
  split; [repeat constructor; assumption|]. split; [repeat constructor; congruence|]. split; [exact E1|]. rewrite W. split; [exact E|].
  rewrite <- W in E. split.
  { refine (proj1 (C50_server_regroup_partial _ _ _ _ [] [[hello; ex_ccs; fin]] [[hello]; [ex_ccs; fin]] _ _ _ _ _ _)); try reflexivity;
      [repeat constructor; discriminate|repeat constructor; discriminate|repeat constructor; assumption|repeat constructor; try discriminate; congruence]. }
  split.
  { intros h'. apply (C50_server_cut_refuted _ _ _ _ [] (firstn 3 (wire hello)) _ _ h' eq_refl); [now apply Proofs.Util.is_bytes_firstn|].
    intros (recs & Er & Fr). destruct recs as [|r recs].
    - destruct (wire hello) as [|a w] eqn:Ew; [discriminate P1|]. discriminate.
    - inversion Fr as [|? ? Pr _]; subst. cbn [map concat] in Er.
      assert (5 <= length (wire r))%nat by (destruct (wire r) as [|a [|b [|c [|x [|y l]]]]]; try discriminate Pr; cbn [length]; lia).
      apply (f_equal (@length Z)) in Er. rewrite firstn_length, app_length in Er. lia. }
  split.
  { apply (C50_server_drops_data_refuted _ _ _ _ [wire hello] [fin] [ex_ccs; fin] h1 h E1); try assumption; try discriminate; repeat constructor; try assumption; try discriminate; congruence. }
  rewrite <- W. exact (C50_server_alert_refuted _ _ _ _ [wire hello] [fin] ex_alert 2 40 [] h1 h E1 ltac:(discriminate) ltac:(repeat constructor; assumption) E PA eq_refl eq_refl).
Qed.

(* ---- C43 ---- *)
(* accept failed without a panic: the handshake stopped with some error e in some state h0.  If e is a TLS alert
   condition, an alert with the library's code for e was sent, under the keys of that moment, right after what had been
   sent, and the caller gets e (BrokenPipe if the socket broke while sending); otherwise nothing was sent and the caller
   gets e, or the alert received. *)
Theorem C43_server_reports_partial : forall cfg d now so reads h o,
  accept cfg d now so reads = (h, Some o) -> o <> Ok tt -> o <> Panic ->
  exists h0 e, server_do_handshake cfg d now (server_new so) reads = (h0, Some (Err e)) /\
    (rfc8446_code e = None -> sv_stream h = sv_stream h0 /\ o = Err (reported e)) /\
    (rfc8446_code e <> None -> exists w, alert_bytes (st_protection (sv_stream h0)) (alert_level e) (error_as_u8 e) w /\
      ((so_sent (st_sock (sv_stream h)) = so_sent (st_sock (sv_stream h0)) ++ w /\ o = Err e) \/
       (exists k, so_left (st_sock (sv_stream h0)) = Some k /\ (k < length w)%nat /\
          so_sent (st_sock (sv_stream h)) = so_sent (st_sock (sv_stream h0)) ++ firstn k w /\ o = Err BrokenPipe))).
Proof.
  intros cfg d now so reads h o A N1 N2. destruct (Proofs.Alerting.accept_error cfg d now so reads h o A N1 N2) as (h0 & e & E & R1 & R2).
  exists h0, e. split; [exact E|]. split; [exact R1|]. intros C. destruct (R2 C) as (w & Aw & R). exists w. split; [now apply Proofs.Cuts.alert_record_bytes|exact R].
Qed.
Print Assumptions C43_server_reports_partial.
(* An alert received while the server waits, in the clear or under the client's key, is what the caller gets; nothing
   is sent. *)
Theorem C43_server_alert_received : forall cfg d now so before alert rest h1 level code more,
  accept cfg d now so before = (h1, None) -> parses alert -> r_type alert = RAlert -> r_fragment alert = level :: code :: more ->
  accept cfg d now so (before ++ wire alert :: rest) = (h1, Some (Err (error_new code))).
Proof.
  intros cfg d now so before alert rest h1 level code more A P T F. pose proof (Proofs.Cuts.alert_step cfg d now so before alert rest h1 A P T) as X.
  rewrite F in X. exact X.
Qed.
Print Assumptions C43_server_alert_received.
Theorem C43_server_sealed_alert_received : forall cfg d now so before r rest h1 p p' level code more,
  accept cfg d now so before = (h1, None) -> parses r -> r_type r = RApplicationData ->
  st_protection (sv_stream h1) = Some p -> sv_state h1 <> SvClientHello -> rpp_decrypt p r = (p', Ok (RAlert, level :: code :: more)) ->
  exists h, accept cfg d now so (before ++ wire r :: rest) = (h, Some (Err (error_new code))) /\ st_sock (sv_stream h) = st_sock (sv_stream h1).
Proof. exact Proofs.Cuts.sealed_alert_step. Qed.
Print Assumptions C43_server_sealed_alert_received.
(* False: an alert of fewer than two bytes is a panic, at any point of the handshake. *)
Theorem C43_server_short_alert_refuted : forall cfg d now so before alert rest h1,
  accept cfg d now so before = (h1, None) -> parses alert -> r_type alert = RAlert -> (length (r_fragment alert) < 2)%nat ->
  accept cfg d now so (before ++ wire alert :: rest) = (h1, Some Panic).
Proof.
  intros cfg d now so before alert rest h1 A P T L. pose proof (Proofs.Cuts.alert_step cfg d now so before alert rest h1 A P T) as X.
  destruct (r_fragment alert) as [|a [|b l]]; [exact X|exact X|cbn [length] in L; lia].
Qed.
Print Assumptions C43_server_short_alert_refuted.
(* False: after a ClientHello the server answers, fewer than five bytes more in the same read and a flight that fits the
   write buffer, the ServerHello is never sent, and the alert (with the code of decrypt_error for decode_error) is
   encrypted under a key the client cannot derive. *)
Theorem C43_server_unreadable_alert_refuted : forall cfg d now so hello ch body g junk rest,
  server_ok cfg d -> zlen body + zlen (ct_raw (sc_cert cfg)) < 1700 -> so_left so = None ->
  whole hello -> r_type hello = RHandshake -> answers cfg d (r_fragment hello) ch body g -> can_sign cfg d g ->
  junk <> [] -> (length junk < 5)%nat ->
  exists h w rec n, accept cfg d now so ((wire hello ++ junk) :: rest) = (h, Some (Err DecodeError)) /\
    so_sent (st_sock (sv_stream h)) = so_sent so ++ w /\ wire rec = w /\ parses rec /\
    opened (g_cipher g) (g_alg g) (g_klen g) (server_secret g) n RAlert [2; 51] rec.
Proof. exact Proofs.Cuts.lost_flight. Qed.
Print Assumptions C43_server_unreadable_alert_refuted.
(* non-vacuity *)
Example C43_ex : let acc := accept (ServerExample.ex_cfg true) ServerExample.ex_draws ServerExample.own_now ServerExample.ex_sock in
  (exists h1, acc [] = (h1, None)) /\ parses ex_alert /\ (exists h, acc [wire ex_alert] = (h, Some (Err HandshakeFailure))) /\
  snd (acc [[21; 3; 3; 0; 1; 2]]) = Some Panic /\ snd (acc [[1; 2]]) = Some (Err DecodeError) /\
  exists hello body g, whole hello /\ r_type hello = RHandshake /\
    answers (ServerExample.ex_cfg true) ServerExample.ex_draws (r_fragment hello) (hello_view ServerExample.ex_hello) body g /\
    can_sign (ServerExample.ex_cfg true) ServerExample.ex_draws g /\
    zlen body + zlen (ct_raw (sc_cert (ServerExample.ex_cfg true))) < 1700 /\
    snd (acc [wire hello ++ [22]]) = Some (Err DecodeError).
Proof.
  intros acc. split; [eexists; reflexivity|]. split; [reflexivity|]. split; [eexists; reflexivity|]. split; [reflexivity|]. split; [reflexivity|].
  destruct (HandshakeExample.ex_answered_small true) as (body & g & A & S).
  destruct (ServerExample.hello_record ServerExample.ex_first) as (hello & Wh & Th & Fh).
  { apply Proofs.Util.is_bytes_check. vm_compute. reflexivity. } { vm_compute. reflexivity. }
  rewrite <- Fh in A. exists hello, body, g. split; [exact Wh|]. split; [exact Th|]. split; [exact A|].
  pose proof (ServerExample.ex_can_sign true g) as CS. split; [exact CS|].
  assert (SZ : zlen body + zlen (ct_raw (sc_cert (ServerExample.ex_cfg true))) < 1700)
    by (change (ct_raw (sc_cert (ServerExample.ex_cfg true))) with ServerExample.own_raw; rewrite ServerExample.own_length; lia).
  split; [exact SZ|].
  destruct (C43_server_unreadable_alert_refuted _ _ ServerExample.own_now ServerExample.ex_sock hello _ body g [22] [] (ServerExample.ex_server_ok true) SZ eq_refl Wh Th A CS)
    as (h & w & rec & n & E & _); [discriminate|cbn; lia|]. unfold acc. rewrite E. reflexivity.
Qed.
