(* C42, C55, C70, C71: what connect returning a connection means, what the client sends, the key log, and which servers the
   client accepts.  The vocabulary is in Spec.ClientConnection, Spec.ClientAccept, Spec.Connection and Spec.Keylog. *)
From Verif Require Import Model.Base Model.Alert Model.Suite Model.KeySchedule Model.Record Model.Hello Model.Certificate Model.Stream
  Model.Server Model.Client
  Spec.Rfc8446Keys Spec.Tls13Record Spec.Endpoints Spec.Connection Spec.ClientConnection Spec.ClientAccept Spec.Keylog.
From Verif Require Proofs.ClientProps Proofs.ClientAccept2 Proofs.Loopback Proofs.LoopbackExample.
From Coq Require Import Lia.

Definition parses (r : record) : Prop := record_from_raw (wire r) = Ok (length (wire r), r).

(* ---- C42 ---- *)
(* connect returned a connection.  Then the bytes received contain a ServerHello record, which fixes the keys g, and records
   numbered from 0 that carry right tags under the server's handshake key and whose contents, in order, are
   EncryptedExtensions, CertificateRequests, a Certificate message m1, a CertificateVerify m2 and the server's Finished (whatever
   follows is ignored).  The certificate parses and is valid now, m2 is a signature by its key of the transcript up to m1, and
   Finished is the right one for the transcript up to m2.  The application keys are those of RFC 8446 for that transcript. *)
Theorem C42_server_authenticated : forall cfg e now so reads h, client_ok cfg e -> is_bytes (concat reads) -> zlen (concat reads) < 2^25 ->
  connect cfg e now so reads = (h, Some (Ok tt)) ->
  exists first sh g recs contents extensions requests m1 m2 ignored p,
    let before := g_hellos g ++ opening extensions requests ++ m1 ++ m2 in
    within (concat reads) first /\ r_type first = RHandshake /\ agrees cfg e (r_fragment first) sh g /\
    Forall (within (concat reads)) recs /\ carry g contents recs /\
    concat contents = opening extensions requests ++ m1 ++ m2 ++ server_finished g before ++ ignored /\
    server_authentic now g (g_hellos g ++ opening extensions requests) m1 m2 /\
    st_protection (cl_stream h) = Some p /\ rp_is_client p = true /\ rp_cipher p = g_cipher g /\
    rp_application p = Some (application_keys g (before ++ server_finished g before)).
Proof. exact Proofs.ClientProps.authenticated. Qed.
Print Assumptions C42_server_authenticated.
(* Such a connection, to a server that asks for a certificate (mutual) or does not; with key logging.  It is an instance for
   C55 and C70 too. *)
Example C42_ex : forall mutual, exists cfg e now so reads h, client_ok cfg e /\ is_bytes (concat reads) /\ zlen (concat reads) < 2^25 /\
  connect cfg e now so reads = (h, Some (Ok tt)) /\ cc_keylog cfg <> None /\ (mutual = true -> cc_cert cfg <> None) /\
  (forall c, cc_cert cfg = Some c -> zlen (ct_raw c) < 2^16 - 512).
Proof.
  intros mutual. destruct (Proofs.LoopbackExample.lb_compatible mutual) as (k & k' & _ & _ & C).
  destruct (Proofs.Loopback.loopback _ _ _ _ _ C) as (c0 & s1 & c1 & s2 & pc & ps & (_ & _ & H & _) & (_ & L & _) & (_ & B & _) & _).
  exists (LoopbackExample.lb_client mutual), (LoopbackExample.lb_client_draws k'). do 4 eexists.
  split; [apply C|]. split; [|split; [|split; [exact H|split; [discriminate|split]]]].
  - cbn [concat]. rewrite app_nil_r. exact B.
  - cbn [concat]. rewrite app_nil_r. lia.
  - intros ->. discriminate.
  - intros c E. destruct mutual; [|discriminate]. injection E as <-. cbn [ct_raw]. rewrite ServerExample.own_length. reflexivity.
Qed.

(* ---- C55 ---- *)
(* With key logging the lines appended are exactly those of the NSS format for the client's random and the four traffic
   secrets of the connection, without it none are. *)
Theorem C55_client_key_log : forall cfg e now so reads h, client_ok cfg e -> is_bytes (concat reads) -> zlen (concat reads) < 2^25 ->
  connect cfg e now so reads = (h, Some (Ok tt)) ->
  exists first sh g messages p, within (concat reads) first /\ agrees cfg e (r_fragment first) sh g /\
    st_protection (cl_stream h) = Some p /\ rp_application p = Some (application_keys g messages) /\
    cl_log h = match cc_keylog cfg with
               | None => []
               | Some _ => handshake_lines (e_random e) (server_secret g) (client_secret g) ++
                           traffic_lines (e_random e) (server_application_traffic_secret_0 (g_alg g) (g_ecdhe g) messages)
                                                      (client_application_traffic_secret_0 (g_alg g) (g_ecdhe g) messages)
               end.
Proof. exact Proofs.ClientProps.client_logged. Qed.
Print Assumptions C55_client_key_log.
Theorem C55_server_key_log : forall cfg d now so reads h, server_ok cfg d -> Forall is_bytes reads -> accept cfg d now so reads = (h, Some (Ok tt)) ->
  exists taken rest hello more ch body g messages p, reads = taken ++ rest /\ received (concat taken) (hello :: more) /\
    answers cfg d (r_fragment hello) ch body g /\
    st_protection (sv_stream h) = Some p /\ rp_application p = Some (application_keys g messages) /\
    sv_log h = match sc_keylog cfg with
               | None => []
               | Some _ => let random := random_of (r_fragment hello) in
                           handshake_lines random (server_secret g) (client_secret g) ++
                           traffic_lines random (server_application_traffic_secret_0 (g_alg g) (g_ecdhe g) messages)
                                                (client_application_traffic_secret_0 (g_alg g) (g_ecdhe g) messages)
               end.
Proof. exact Proofs.ClientProps.server_logged. Qed.
Print Assumptions C55_server_key_log.

(* ---- C70 ---- *)
(* What a client that got a connection has sent: its ClientHello record (as much of it as the first TCP write took), then
   records numbered from 0 under its handshake key with the answer to the last CertificateRequest, if there was one, and its
   Finished. *)
Theorem C70_client_flight : forall cfg e now so reads h, client_ok cfg e -> (forall c, cc_cert cfg = Some c -> zlen (ct_raw c) < 2^16 - 512) ->
  is_bytes (concat reads) -> zlen (concat reads) < 2^25 -> connect cfg e now so reads = (h, Some (Ok tt)) ->
  exists first sh g extensions requests m1 m2 replied recs,
    let before := g_hellos g ++ opening extensions requests ++ m1 ++ m2 in
    let transcript := before ++ server_finished g before in
    within (concat reads) first /\ agrees cfg e (r_fragment first) sh g /\
    server_authentic now g (g_hellos g ++ opening extensions requests) m1 m2 /\
    replies cfg e g transcript (last_of requests) replied /\
    carry_client g (client_flight g transcript replied) recs /\ Forall parses recs /\
    so_sent (st_sock (cl_stream h)) = so_sent so ++ firstn (e_took e) (encode_record 22 (client_greeting cfg e)) ++ concat (map wire recs).
Proof. exact Proofs.ClientProps.client_sent. Qed.
Print Assumptions C70_client_flight.

(* ---- C71 ---- *)
(* A server whose ServerHello the client agrees to and that goes on as RFC 8446 says gets a connection: any distribution of the
   messages over records (parts), of the records over reads (groups), any number of change_cipher_spec records after the
   ServerHello. *)
Theorem C71_conforming_server_accepted : forall cfg e now so first sh g,
  client_ok cfg e -> so_left so = None -> parses first /\ is_bytes (wire first) -> r_type first = RHandshake ->
  agrees cfg e (r_fragment first) sh g ->
  forall parts more groups later, server_conforms cfg e now g (concat parts) -> carry g (map (@concat Z) parts) (without_ccs more) ->
    Forall (fun r => parses r /\ is_bytes (wire r)) more -> Forall (fun r => r_type r = RApplicationData) (without_ccs more) ->
    zlen (concat (concat parts)) < 2^50 -> zlen more < 2^50 ->
    Forall (fun gr => gr <> []) groups -> concat groups = first :: more ->
    exists h, connect cfg e now so (map (fun x => concat (map wire x)) groups ++ later) = (h, Some (Ok tt)).
Proof. exact Proofs.ClientAccept2.client_accepted. Qed.
Print Assumptions C71_conforming_server_accepted.
(* the messages of this library's own server meet the hypotheses, in one read *)
Example C71_ex : exists cfg e now so first sh g parts more, client_ok cfg e /\ so_left so = None /\ (parses first /\ is_bytes (wire first)) /\
  r_type first = RHandshake /\ agrees cfg e (r_fragment first) sh g /\ server_conforms cfg e now g (concat parts) /\
  carry g (map (@concat Z) parts) (without_ccs more) /\ Forall (fun r => parses r /\ is_bytes (wire r)) more /\
  Forall (fun r => r_type r = RApplicationData) (without_ccs more) /\ zlen (concat (concat parts)) < 2^50 /\ zlen more < 2^50.
Proof.
  destruct (Proofs.LoopbackExample.lb_compatible true) as (k & k' & _ & _ & C).
  destruct (Proofs.Loopback.conforming _ _ _ _ _ C) as (first & sh & g & parts & more & H1 & H2 & H3 & H4 & H5 & H6 & H7 & H8 & H9).
  exists (LoopbackExample.lb_client true), (LoopbackExample.lb_client_draws k'), ServerExample.own_now, {| so_sent := []; so_left := None |}, first, sh, g, parts, more.
  split; [apply C|]. split; [reflexivity|]. exact (conj H1 (conj H2 (conj H3 (conj H4 (conj H5 (conj H6 (conj H7 (conj H8 H9)))))))).
Qed.
