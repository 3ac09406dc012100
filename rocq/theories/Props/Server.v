(* What an established connection means on the server's side.  The vocabulary is in Spec.Connection. *)
From Verif Require Import Model.Base Model.Alert Model.Suite Model.KeySchedule Model.Record Model.X509 Model.Extensions Model.Hello
  Model.Certificate Model.Stream Model.Server Spec.Rfc8446Auth Spec.Tls13Record Spec.Connection.
From Verif Require Import Spec.Rfc7748 Spec.KeyShare Spec.HelloView Spec.Negotiation.
From Verif Require Spec.Rfc8446Hello Proofs.ServerProps Proofs.ServerAccept2 Proofs.ServerExample.
From Coq Require Import Lia.

(* C41.  However the client's bytes arrive: if accept returns a connection, the bytes it read are whole records; after
   the ClientHello, leaving out change_cipher_spec records, come (with a client CA) two handshake records and then a
   record under the client's handshake key whose first message is the Finished of RFC 8446 for everything before it.  Only
   then the application traffic keys, those of the transcript up to the server's Finished, are in place. *)
Theorem C41_finished cfg d now so reads h :
  server_ok cfg d -> Forall is_bytes reads -> accept cfg d now so reads = (h, Some (Ok tt)) ->
  exists taken rest hello more ch body g der used finished ignored messages extra p,
    reads = taken ++ rest /\ received (concat taken) (hello :: more) /\
    answers cfg d (r_fragment hello) ch body g /\ server_signed cfg d g der /\
    without_ccs more = used ++ finished :: ignored /\
    match sc_client_ca cfg with
    | None => used = [] /\ messages = to_server_finished cfg d g der
    | Some _ => exists r1 r2 m1 m2, used = [r1; r2] /\ from_client g 0 m1 r1 /\ from_client g 1 m2 r2 /\
        messages = to_server_finished cfg d g der ++ m1 ++ m2
    end /\
    from_client g (zlen used) (Rfc8446Hello.handshake 20 (verify_data g (client_secret g) messages) ++ extra) finished /\
    st_protection (sv_stream h) = Some p /\ rp_is_client p = false /\ rp_cipher p = g_cipher g /\
    rp_application p = Some (application_keys g (to_server_finished cfg d g der)).
Proof. exact (ServerProps.finished cfg d now so reads h). Qed.
Print Assumptions C41_finished.

(* C40.  With a client CA, the two records before the Finished authenticate the client. *)
Theorem C40_authenticated cfg d now so reads h ca :
  server_ok cfg d -> sc_client_ca cfg = Some ca -> Forall is_bytes reads -> accept cfg d now so reads = (h, Some (Ok tt)) ->
  exists taken rest hello more ch body g der r1 r2 m1 m2 finished ignored extra cax ca_key,
    reads = taken ++ rest /\ received (concat taken) (hello :: more) /\
    answers cfg d (r_fragment hello) ch body g /\ without_ccs more = r1 :: r2 :: finished :: ignored /\
    from_client g 0 m1 r1 /\ from_client g 1 m2 r2 /\
    ct_x509 ca = Some cax /\ X509.get_public_key (E:=tls_error) cax = Ok (Some ca_key) /\
    authentic cfg d now ca_key g (to_server_finished cfg d g der) m1 m2 /\
    from_client g 2 (Rfc8446Hello.handshake 20
      (verify_data g (client_secret g) (to_server_finished cfg d g der ++ m1 ++ m2)) ++ extra) finished.
Proof. exact (ServerProps.authenticated cfg d now so reads h ca). Qed.
Print Assumptions C40_authenticated.

(* C67.  What the client got until then: the ServerHello, a change_cipher_spec record if it sent a session id, and the
   server's messages in records 0, 1, ... under the server's handshake key. *)
Theorem C67_flight cfg d now so reads h :
  server_ok cfg d -> zlen (ct_raw (sc_cert cfg)) < 2^16 - 64 -> Forall is_bytes reads ->
  accept cfg d now so reads = (h, Some (Ok tt)) ->
  exists taken rest hello more ch body g der recs,
    reads = taken ++ rest /\ received (concat taken) (hello :: more) /\
    answers cfg d (r_fragment hello) ch body g /\ server_signed cfg d g der /\
    carry g (server_flight cfg d g der) recs /\ Forall (fun r => record_from_raw (wire r) = Ok (length (wire r), r)) recs /\
    (zlen body + 4 < 2^16 ->
     so_sent (st_sock (sv_stream h)) = so_sent so ++ encode_record 22 (Rfc8446Hello.handshake 2 body) ++
       (match ch_sid ch with Some _ => encode_record 20 [1] | None => [] end) ++ concat (map wire recs)).
Proof. exact (ServerProps.flight cfg d now so reads h). Qed.
Print Assumptions C67_flight.

(* C68.  And such a client does get a connection.  A ClientHello whose first key share is an X25519 key, with a suite the
   server implements and neither another version nor another name, is answered... *)
Theorem C68_hello_answered cfg d m pre key l post :
  client_hello_ok m -> Rfc8446Hello.m_extensions m = pre ++ Rfc8446Hello.Shares ((x25519_code, key) :: l) :: post ->
  Forall (fun e => ~ has_shares e) (pre ++ post) -> Forall (acceptable (sc_server_name cfg)) (pre ++ post) ->
  (exists code, In code (Rfc8446Hello.m_suites m) /\ implemented code) ->
  is_bytes key -> length key = 32%nat -> 0 <= hd 0 (d_secrets d) < 2^256 ->
  exists g cs, In cs [AES_128_GCM_SHA256; AES_256_GCM_SHA384; CHACHA20_POLY1305_SHA256] /\
    answers cfg d (Rfc8446Hello.handshake 1 (Rfc8446Hello.client_hello_wire m)) (hello_view m)
      (Rfc8446Hello.server_hello_wire
        {| Rfc8446Hello.s_random := d_random d; Rfc8446Hello.s_session_id := Rfc8446Hello.m_session_id m; Rfc8446Hello.s_suite := suite_u16 cs;
           Rfc8446Hello.s_extensions := [Rfc8446Hello.SelectedShare (29, X25519 (x25519_private (hd 0 (d_secrets d))) base_point);
                                         Rfc8446Hello.SelectedVersion 0x0304] |}) g /\
    In (suite_u16 cs) (Rfc8446Hello.m_suites m) /\ suite_cipher cs = Ok (g_cipher g) /\
    g_ecdhe g = zeros_to_end (X25519 (x25519_private (hd 0 (d_secrets d))) (zeros_to_end key)).
Proof. exact (ServerExample.answered cfg d m pre key l post). Qed.
Print Assumptions C68_hello_answered.
(* ... and whatever the answer, a client that goes on as RFC 8446 says is accepted, with change_cipher_spec records
   anywhere after its hello and its records split over reads in any way that keeps each record whole. *)
Theorem C68_accepted cfg d now so hello ch body g :
  server_ok cfg d -> zlen (ct_raw (sc_cert cfg)) < 2^16 - 64 -> so_left so = None ->
  whole hello -> r_type hello = RHandshake -> answers cfg d (r_fragment hello) ch body g -> can_sign cfg d g ->
  exists der, server_signed cfg d g der /\
  forall groups later more used finished messages,
    Forall (fun x => x <> []) groups -> concat groups = hello :: more -> Forall whole more ->
    without_ccs more = used ++ [finished] ->
    client_conforms cfg d now g (to_server_finished cfg d g der) used messages ->
    r_type finished = RApplicationData ->
    from_client g (zlen used) (Rfc8446Hello.handshake 20 (verify_data g (client_secret g) messages)) finished ->
    exists h, accept cfg d now so (map (fun x => concat (map wire x)) groups ++ later) = (h, Some (Ok tt)).
Proof. exact (ServerAccept2.accepted cfg d now so hello ch body g). Qed.
Print Assumptions C68_accepted.

(* The hypotheses of these theorems hold for a server with a P-256 key that asks, or does not ask, for a client
   certificate: there are client bytes it accepts. *)
Example C40_C41_C67_C68_ex : forall mutual, let cfg := ServerExample.ex_cfg mutual in let d := ServerExample.ex_draws in
  server_ok cfg d /\ zlen (ct_raw (sc_cert cfg)) < 2^16 - 64 /\ (mutual = true -> sc_client_ca cfg <> None) /\
  (exists body g, answers cfg d ServerExample.ex_first (hello_view ServerExample.ex_hello) body g /\ can_sign cfg d g) /\
  exists reads h, Forall is_bytes reads /\ length reads = 2%nat /\
    accept cfg d ServerExample.own_now ServerExample.ex_sock reads = (h, Some (Ok tt)).
Proof.
  intros mutual cfg d. split; [apply ServerExample.ex_server_ok|]. split.
  { change (ct_raw (sc_cert cfg)) with ServerExample.own_raw. rewrite ServerExample.own_length. lia. }
  split; [intros ->; discriminate|]. split; [|apply ServerExample.ex_accepted].
  destruct (ServerExample.ex_answered mutual) as (body & g & A). exists body, g. split; [exact A|apply ServerExample.ex_can_sign].
Qed.
