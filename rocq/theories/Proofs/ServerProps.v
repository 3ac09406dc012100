(* The statements of Props.Server *)
From Verif Require Import Proofs.Util Proofs.Bytes Model.Alert Model.Bytes Model.Suite Model.Sha2 Model.Hmac Model.KeySchedule Model.Record Model.Channel
  Model.Curve Model.Signature Model.Ecdsa Model.X509 Model.Extensions Model.Hello Model.Kex Model.Handshake Model.Certificate
  Model.Stream Model.AppChannel Model.Keylog Model.Server
  Spec.Enc Spec.Rfc2104 Spec.Fips180 Spec.Rfc8446Keys Spec.Tls13Record Spec.Endpoints Spec.Writes Spec.Rfc8446Auth Spec.Connection.
From Verif Require Spec.Rfc8446Hello Spec.Ecdsa.
From Verif Require Import Proofs.KeySchedule Proofs.Record Proofs.Channel Proofs.Stream Proofs.ServerRun Proofs.ServerKeys Proofs.Opened Proofs.ServerSteps
  Proofs.ServerFlow.

Lemma finished cfg d now so reads h :
  server_ok cfg d -> Forall is_bytes reads -> accept cfg d now so reads = (h, Some (Ok tt)) ->
  exists taken rest hello more ch body g der used finished ignored messages extra p,
    reads = taken ++ rest /\ received (concat taken) (hello :: more) /\
    answers cfg d (r_fragment hello) ch body g /\ server_signed cfg d g der /\
    without_ccs more = used ++ finished :: ignored /\
    match sc_client_ca cfg with
    | None => used = [] /\ messages = to_server_finished cfg d g der
    | Some _ => exists r1 r2 m1 m2, used = [r1; r2] /\ from_client g 0 m1 r1 /\ from_client g 1 m2 r2 /\
        messages = to_server_finished cfg d g der ++ m1 ++ m2
    end /\
    from_client g (zlen used) (Rfc8446Hello.handshake 20 (verify_data g (client_secret g) messages) ++ extra) finished /\
    st_protection (sv_stream h) = Some p /\ rp_is_client p = false /\ rp_cipher p = g_cipher g /\
    rp_application p = Some (application_keys g (to_server_finished cfg d g der)).
Proof.
  intros Ok' B E. destruct (accept_done _ _ _ _ _ _ Ok' B E) as (_ & taken & rest & recs & Er & R & D).
  destruct D as (x & more & used & msgs & rf & extra & ignored & p & Ex & Ew & G & Au & Fin & _ & Pr & C & Ci & Ap & _).
  pose proof G as (_ & A & Sg & _).
  exists taken, rest, (gr_hello x), more, (gr_ch x), (gr_body x), (gr_g x), (gr_der x), used, rf, ignored, msgs, extra, p.
  split; [exact Er|]. split; [rewrite <- Ex; exact R|]. split; [exact A|]. split; [exact Sg|]. split; [exact Ew|].
  split.
  { unfold authed in Au. destruct (sc_client_ca cfg) as [ca|]; [|exact Au].
    destruct Au as (r1 & r2 & m1 & m2 & cax & key & U & M & _ & _ & F1 & F2 & _). exists r1, r2, m1, m2. auto. }
  auto.
Qed.
Lemma authenticated cfg d now so reads h ca :
  server_ok cfg d -> sc_client_ca cfg = Some ca -> Forall is_bytes reads -> accept cfg d now so reads = (h, Some (Ok tt)) ->
  exists taken rest hello more ch body g der r1 r2 m1 m2 finished ignored extra cax ca_key,
    reads = taken ++ rest /\ received (concat taken) (hello :: more) /\
    answers cfg d (r_fragment hello) ch body g /\ without_ccs more = r1 :: r2 :: finished :: ignored /\
    from_client g 0 m1 r1 /\ from_client g 1 m2 r2 /\
    ct_x509 ca = Some cax /\ X509.get_public_key (E:=tls_error) cax = Ok (Some ca_key) /\
    authentic cfg d now ca_key g (to_server_finished cfg d g der) m1 m2 /\
    from_client g 2 (Rfc8446Hello.handshake 20
      (verify_data g (client_secret g) (to_server_finished cfg d g der ++ m1 ++ m2)) ++ extra) finished.
Proof.
  intros Ok' Ca B E. destruct (accept_done _ _ _ _ _ _ Ok' B E) as (_ & taken & rest & recs & Er & R & D).
  destruct D as (x & more & used & msgs & rf & extra & ignored & p & Ex & Ew & G & Au & Fin & _).
  pose proof G as (_ & A & Sg & _). unfold authed in Au. rewrite Ca in Au.
  destruct Au as (r1 & r2 & m1 & m2 & cax & key & U & M & Cx & K & F1 & F2 & An).
  exists taken, rest, (gr_hello x), more, (gr_ch x), (gr_body x), (gr_g x), (gr_der x), r1, r2, m1, m2, rf, ignored, extra, cax, key.
  split; [exact Er|]. split; [rewrite <- Ex; exact R|]. split; [exact A|]. split; [rewrite Ew, U; reflexivity|].
  do 5 (split; [assumption|]). subst used msgs. exact Fin.
Qed.
Lemma flight cfg d now so reads h :
  server_ok cfg d -> zlen (ct_raw (sc_cert cfg)) < 2^16 - 64 -> Forall is_bytes reads ->
  accept cfg d now so reads = (h, Some (Ok tt)) ->
  exists taken rest hello more ch body g der recs,
    reads = taken ++ rest /\ received (concat taken) (hello :: more) /\
    answers cfg d (r_fragment hello) ch body g /\ server_signed cfg d g der /\
    carry g (server_flight cfg d g der) recs /\ Forall (fun r => record_from_raw (wire r) = Ok (length (wire r), r)) recs /\
    (zlen body + 4 < 2^16 ->
     so_sent (st_sock (sv_stream h)) = so_sent so ++ encode_record 22 (Rfc8446Hello.handshake 2 body) ++
       (match ch_sid ch with Some _ => encode_record 20 [1] | None => [] end) ++ concat (map wire recs)).
Proof.
  intros Ok' Lc B E. destruct (accept_done _ _ _ _ _ _ Ok' B E) as (Bf & taken & rest & recs & Er & R & D).
  destruct D as (x & more & used & msgs & rf & extra & ignored & p & Ex & Ew & G & Au & Fin & O & _).
  pose proof G as (_ & A & Sg & _). destruct (flight_carried cfg d x Ok' G Lc) as (sent & Es & (_ & Rs) & Cs & _).
  exists taken, rest, (gr_hello x), more, (gr_ch x), (gr_body x), (gr_g x), (gr_der x), sent.
  split; [exact Er|]. split; [rewrite <- Ex; exact R|]. split; [exact A|]. split; [exact Sg|]. split; [exact Cs|]. split; [exact Rs|].
  intros Lb. unfold out in O. rewrite Bf, app_nil_r in O. rewrite O. unfold gr_out. rewrite Es.
  rewrite as_bytes_spec by (cbn [record_new r_fragment]; unfold zlen in *; rewrite handshake_length; lia).
  destruct (ch_sid (gr_ch x)); reflexivity.
Qed.
