(* The hellos of Spec/HelloPanics.v bring the end down that reads them *)
From Verif Require Import Proofs.Util Proofs.Bytes Model.Alert Model.Record Model.Channel Model.Extensions Model.Hello Model.Handshake Model.Stream Model.Server Model.Client
  Spec.Handshaking Spec.Endpoints Spec.Connection Spec.ClientConnection Spec.HelloPanics Spec.Rfc8446Hello Spec.Tls13Record.
From Verif Require Proofs.Ends Proofs.Loopback Proofs.HelloPanics Proofs.ServerHelloPanics Proofs.ServerAccept Proofs.ServerAccept2 Proofs.ClientReads Spec.Negotiation.

Lemma server_falls cfg d now so body rest : so_left so = None -> is_bytes body -> zlen (handshake 1 body) < 2^16 -> client_hello_panic body ->
  snd (accept cfg d now so (encode_record 22 (handshake 1 body) :: rest)) = Some Panic.
Proof.
  intros N B L P. pose proof (Ends.unserved cfg d now so body rest N B L) as U.
  assert (A : Negotiation.answer body (d_random d) (d_secrets d) (sc_server_name cfg) = Panic)
    by (unfold Negotiation.answer; apply HelloPanics.client_hello_sort in P; [|exact B]; rewrite P; reflexivity).
  rewrite A in U. now rewrite U.
Qed.
Local Opaque record_from_raw server_hello_from_raw handshake_from_raw.
Lemma client_falls cfg e now so h body rest : connect cfg e now so [] = (h, None) -> is_bytes body -> zlen (handshake 2 body) < 2^16 -> server_hello_panic body ->
  snd (connect cfg e now so (encode_record 22 (handshake 2 body) :: rest)) = Some Panic.
Proof.
  intros E B L P. apply ServerHelloPanics.server_hello_sort in P; [|exact B].
  assert (Bh : is_bytes (handshake 2 body))
    by (unfold handshake, vector24; apply is_bytes_app; split; [apply is_bytes_check; reflexivity|]; apply is_bytes_app; split; [apply be_enc_bytes|exact B]).
  destruct (Loopback.clear_record RHandshake _ Bh L) as (r & (Pr & _) & T & F & W). change (rt_code RHandshake) with 22 in W. rewrite <- W.
  assert (L24 : zlen body < 2^24) by (unfold handshake, vector24 in L; unfold zlen in *; rewrite !app_length in L; lia).
  destruct (ClientReads.waiting cfg e now so [] [] h delivers_nil (Forall_nil _) (Forall_nil _) E) as (Id & NR & _ & h0 & u & E0 & S0 & X).
  cbn [ClientReads.csteps] in S0. apply pair_equal_spec in S0. destruct S0 as (-> & _). destruct (ClientReads.hello_idle _ _ _ _ _ E0) as (_ & St & _).
  pose proof (X (wire r :: rest)) as Y. cbn [app] in Y. rewrite Y. rewrite ClientReads.wire1.
  rewrite ClientReads.reads_group; [|exact NR|exact Id|discriminate|constructor; [exact Pr|constructor]].
  assert (S1 : ClientReads.csteps cfg e now h [r] = (h, Panic)).
  { cbn [ClientReads.csteps]. unfold client_record. rewrite T, St. unfold handle_server_hello. rewrite F.
    pose proof (ServerAccept2.frame_read HtServerHello body [] L24) as FR. rewrite app_nil_r in FR. change (handshake_type_u8 HtServerHello) with 2 in FR. rewrite FR, ServerAccept.sbind_Ok.
    cbn [hs_type hs_fraqment]. change (negb (ht_eqb HtServerHello HtServerHello)) with false. cbv iota. rewrite P. reflexivity. }
  rewrite S1. reflexivity.
Qed.
