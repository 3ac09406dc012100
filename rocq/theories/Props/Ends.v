(* C79, C80, and C36-C38 for a whole connection. Property theorems only. *)
From Verif Require Import Model.Base Model.Alert Model.Extensions Model.Hello Model.Record Model.Stream Model.Server Model.Client Spec.Tls13Record Spec.Rfc8446Hello Spec.HelloView
  Spec.Negotiation Spec.Connection Spec.Handshaking Spec.Ends Spec.ClientConnection Spec.Crashes Spec.ClientCrashes Spec.HelloPanics Spec.HelloCrashes Spec.Proper Spec.VerifyPanics.
From Verif Require Model.Signature Model.Handshake Model.Certificate Proofs.VerifyPanics Proofs.Auth Proofs.Ends Proofs.Channel Proofs.Negotiate Proofs.ServerExample Proofs.HandshakeExample Proofs.ClientHandshakeExample Proofs.EndsExample Proofs.Crashes Proofs.ClientCrashes Proofs.HelloCrashes Proofs.HelloFalls Proofs.HelloPanics Proofs.ServerHelloPanics Proofs.Hello Proofs.ClientReads Proofs.ClientSteps Proofs.ServerAccept Proofs.Bytes Proofs.Util.
From Coq Require Import Lia.

(* ---- C79: accept and connect do not panic ---- *)
(* False.  (1) However far the handshake has come: a read that ends one to three bytes before its last record does. *)
Theorem C79_cut_read_refuted : forall cfg d now so before later h t v1 v2 a b rest,
  accept cfg d now so before = (h, None) -> is_bytes (t :: v1 :: v2 :: a :: b :: rest) ->
  In t [0; 20; 21; 22; 23] -> zlen rest < 256 * a + b <= zlen rest + 3 ->
  snd (accept cfg d now so (before ++ (t :: v1 :: v2 :: a :: b :: rest) :: later)) = Some Panic.
Proof.
  intros cfg d now so before later h t v1 v2 a b rest A B T L.
  rewrite (Proofs.Ends.accept_cut cfg d now so before _ later h A); [reflexivity|discriminate|]. apply (Proofs.Channel.panics_exactly t v1 v2 a b rest B). auto.
Qed.
Print Assumptions C79_cut_read_refuted.
Theorem C79_client_cut_read_refuted : forall cfg e now so recs before later h t v1 v2 a b rest,
  delivers recs before -> Forall (fun r => record_from_raw (wire r) = Ok (length (wire r), r)) recs -> Forall (fun r => r_type r <> RAlert) recs ->
  connect cfg e now so before = (h, None) -> is_bytes (t :: v1 :: v2 :: a :: b :: rest) ->
  In t [0; 20; 21; 22; 23] -> zlen rest < 256 * a + b <= zlen rest + 3 ->
  snd (connect cfg e now so (before ++ (t :: v1 :: v2 :: a :: b :: rest) :: later)) = Some Panic.
Proof.
  intros cfg e now so recs before later h t v1 v2 a b rest D P N A B T L.
  apply (Proofs.Ends.connect_cut cfg e now so recs before _ later h D P N A); [discriminate|]. apply (Proofs.Channel.panics_exactly t v1 v2 a b rest B). auto.
Qed.
Print Assumptions C79_client_cut_read_refuted.
(* (2) and once the keys are agreed, a protected record without content does: five bytes *)
Theorem C79_empty_record_refuted : forall cfg d now so before later h p,
  accept cfg d now so before = (h, None) -> st_protection (sv_stream h) = Some p -> sv_state h <> SvClientHello ->
  snd (accept cfg d now so (before ++ [23; 3; 3; 0; 0] :: later)) = Some Panic.
Proof. exact Proofs.Ends.accept_empty. Qed.
Print Assumptions C79_empty_record_refuted.
(* (3) and so does a ClientHello as RFC 8446 has it, whose first key share for a curve the server has is secp256r1 *)
Theorem C79_secp256r1_refuted : forall cfg d now so m pre a k b post rest,
  so_left so = None -> client_hello_ok m -> is_bytes (client_hello_wire m) -> zlen (handshake 1 (client_hello_wire m)) < 2^16 ->
  m_extensions m = pre ++ Shares (a ++ (secp256r1_code, k) :: b) :: post -> Forall (fun e => ~ has_shares e) pre ->
  Forall (acceptable (sc_server_name cfg)) pre -> ~ offers x25519_code a ->
  snd (accept cfg d now so (encode_record 22 (handshake 1 (client_hello_wire m)) :: rest)) = Some Panic.
Proof.
  intros cfg d now so m pre a k b post rest N Hm B L Hx Hs Ha Ho.
  pose proof (Proofs.Ends.unserved cfg d now so (client_hello_wire m) rest N B L) as U.
  rewrite (Proofs.Negotiate.answer_panic m pre a k b post (sc_server_name cfg) (d_random d) (d_secrets d) Hm Hx Hs Ha Ho) in U. now rewrite U.
Qed.
Print Assumptions C79_secp256r1_refuted.
(* (4) and so does every ClientHello of Spec/HelloPanics.v, and for a client every such ServerHello; one of each is in C39_client_exact_ex
   and C39_server_exact_ex *)
Theorem C79_hello_refuted : forall cfg d now so body rest,
  so_left so = None -> is_bytes body -> zlen (handshake 1 body) < 2^16 -> client_hello_panic body ->
  snd (accept cfg d now so (encode_record 22 (handshake 1 body) :: rest)) = Some Panic.
Proof. exact Proofs.HelloFalls.server_falls. Qed.
Print Assumptions C79_hello_refuted.
Theorem C79_server_hello_refuted : forall cfg e now so h body rest,
  connect cfg e now so [] = (h, None) -> is_bytes body -> zlen (handshake 2 body) < 2^16 -> server_hello_panic body ->
  snd (connect cfg e now so (encode_record 22 (handshake 2 body) :: rest)) = Some Panic.
Proof. exact Proofs.HelloFalls.client_falls. Qed.
Print Assumptions C79_server_hello_refuted.

(* What holds: once the keys are agreed somebody without them does neither bring the server down nor get accepted,
   however many reads and records - change_cipher_spec records, alerts of two bytes and more, protected records of 16 bytes
   and more, none of which opens, and bytes that are no record, in any order.  The server waits as before or has failed. *)
Theorem C79_server_unkeyed_partial : forall cfg d now so before reads h p,
  accept cfg d now so before = (h, None) -> st_protection (sv_stream h) = Some p -> Forall (unkeyed p) reads ->
  accept cfg d now so (before ++ reads) = (h, None) \/ exists h' e, accept cfg d now so (before ++ reads) = (h', Some (Err e)).
Proof. exact Proofs.Ends.accept_unkeyed. Qed.
Print Assumptions C79_server_unkeyed_partial.
(* the same for the client after the ServerHello, for records that are not split *)
Theorem C79_client_unkeyed_partial : forall cfg e now so recs before h p groups,
  delivers recs before -> Forall (fun r => record_from_raw (wire r) = Ok (length (wire r), r)) recs -> Forall (fun r => r_type r <> RAlert) recs -> recs <> [] ->
  connect cfg e now so before = (h, None) -> st_protection (cl_stream h) = Some p ->
  Forall (fun gr => gr <> [] /\ Forall (fun r => record_from_raw (wire r) = Ok (length (wire r), r)) gr /\ Forall (sealed_out p) gr) groups ->
  let reads := map bytes_of groups in
  connect cfg e now so (before ++ reads) = (h, None) \/ exists h' er, connect cfg e now so (before ++ reads) = (h', Some (Err er)).
Proof. exact Proofs.Ends.connect_unkeyed. Qed.
Print Assumptions C79_client_unkeyed_partial.

(* and somebody with them: whatever the reads, a server that has answered a ClientHello comes down only by one of the causes of
   Spec/Crashes.v - a read cut one to three bytes short, an alert of fewer than two bytes, in the clear or protected, a protected
   record shorter than a tag, a protected handshake message that is said to be longer than it is, or, if the server asked for a
   certificate, a Certificate message of Spec/CertMessagePanics.v, or a CertificateVerify message of Spec/VerifyPanics.v *)
Theorem C79_server_crashes_partial : forall cfg d now so before reads h p,
  server_ok cfg d -> Forall is_bytes (before ++ reads) -> zlen (concat (before ++ reads)) < 2^60 ->
  accept cfg d now so before = (h, None) -> st_protection (sv_stream h) = Some p ->
  snd (accept cfg d now so (before ++ reads)) = Some Panic ->
  exists hello rest ch body g read done x,
    concat (before ++ reads) = wire hello ++ rest /\ record_from_raw (wire hello) = Ok (length (wire hello), hello) /\
    r_type hello = RHandshake /\ answers cfg d (r_fragment hello) ch body g /\ In read reads /\ read = done ++ x /\ whole_records done /\
    crash cfg (concat (before ++ reads)) g x.
Proof. exact Proofs.Crashes.crashes. Qed.
Print Assumptions C79_server_crashes_partial.
Example C79_server_crashes_ex : exists cfg d now so before reads h p, server_ok cfg d /\ Forall is_bytes (before ++ reads) /\
  zlen (concat (before ++ reads)) < 2^60 /\ accept cfg d now so before = (h, None) /\ st_protection (sv_stream h) = Some p /\
  snd (accept cfg d now so (before ++ reads)) = Some Panic.
Proof.
  destruct Proofs.EndsExample.server_keyed_bytes as (cfg & d & now & so & before & h & p & A & P & L & N & O & B & Lb).
  exists cfg, d, now, so, before, [[23; 3; 3; 0; 0]], h, p.
  split; [exact O|]. split; [apply Forall_app; split; [exact B|constructor; [apply Proofs.Util.is_bytes_check; reflexivity|constructor]]|].
  split; [rewrite concat_app, Proofs.Bytes.zlen_app; cbn [concat app]; unfold zlen in *; cbn [length]; lia|].
  split; [exact A|]. split; [exact P|]. exact (Proofs.Ends.accept_empty cfg d now so before [] h p A P N).
Qed.

(* from the start: a server comes down in its first read, by one of the causes of Spec/HelloCrashes.v - a cut, a short alert, a
   message that is said to be longer than it is, a ClientHello of Spec/HelloPanics.v, one with shares it stumbles over -, or later by one
   of those above; a server that cannot serve (can_serve) may come down on any ClientHello *)
Theorem C79_server_every_crash_partial : forall cfg d now so reads,
  server_ok cfg d -> Forall is_bytes reads -> zlen (concat reads) < 2^60 -> snd (accept cfg d now so reads) = Some Panic ->
  (exists read rest, reads = read :: rest /\ hello_crash cfg d read) \/
  exists hello rest ch body g read done x,
    concat reads = wire hello ++ rest /\ record_from_raw (wire hello) = Ok (length (wire hello), hello) /\
    r_type hello = RHandshake /\ answers cfg d (r_fragment hello) ch body g /\ In read reads /\ read = done ++ x /\ whole_records done /\
    crash cfg (concat reads) g x.
Proof. exact Proofs.HelloCrashes.all_crashes. Qed.
Print Assumptions C79_server_every_crash_partial.
Example C79_server_every_crash_ex : exists cfg d now so reads, server_ok cfg d /\ Forall is_bytes reads /\ zlen (concat reads) < 2^60 /\
  snd (accept cfg d now so reads) = Some Panic.
Proof.
  destruct Proofs.EndsExample.server_keyed_bytes as (cfg & d & now & so & before & h & p & A & P & L & N & O & B & Lb).
  exists cfg, d, now, so, [[22; 3; 1; 0; 5; 1; 0; 0]]. split; [exact O|].
  assert (B1 : is_bytes [22; 3; 1; 0; 5; 1; 0; 0]) by (apply Proofs.Util.is_bytes_check; reflexivity).
  split; [constructor; [exact B1|constructor]|]. split; [reflexivity|].
  refine (C79_cut_read_refuted cfg d now so [] [] _ 22 3 1 0 5 [1; 0; 0] eq_refl B1 _ _); [cbn; auto|cbn; lia].
Qed.
(* a server that can serve, and a hello that does not bring it down *)
Example C79_usable_ex : can_serve (Proofs.ServerExample.ex_cfg true) Proofs.ServerExample.ex_draws /\
  ~ client_hello_panic (client_hello_wire Proofs.ServerExample.ex_hello) /\
  exists ch, client_hello_from_raw (client_hello_wire Proofs.ServerExample.ex_hello) = Ok ch /\ ~ share_trouble ch.
Proof.
  split; [|split].
  - split; [cbn [Proofs.ServerExample.ex_cfg sc_cert Model.Certificate.ct_raw]; rewrite Proofs.ServerExample.own_length; lia|]. split; [constructor; [cbn; lia|constructor]|].
    intros digest _. exact (Proofs.ServerExample.sign_some _).
  - intros H. apply Proofs.HelloPanics.client_hello_sort in H; [|apply Proofs.Util.is_bytes_check; vm_compute; reflexivity].
    rewrite Proofs.Hello.client_parse in H by exact Proofs.ServerExample.ex_hello_ok. discriminate H.
  - eexists. split; [exact (Proofs.Hello.client_parse _ Proofs.ServerExample.ex_hello_ok)|]. intros H.
    assert (N : forall pre ks post, ch_exts (hello_view Proofs.ServerExample.ex_hello) = pre ++ CKeyShare ks :: post -> map ks_group ks = [X25519g; X448] /\ map (fun k => length (ks_opaque k)) ks = [32; 56]%nat).
    { intros pre ks post E. assert (I : In (CKeyShare ks) (ch_exts (hello_view Proofs.ServerExample.ex_hello))) by (rewrite E; apply in_or_app; right; now left).
      vm_compute in I. repeat destruct I as [I|I]; try discriminate I; try contradiction. injection I as <-. split; reflexivity. }
    destruct H as [(pre & a & k & b & post & E & F)|(pre & k & l & post & E & L)]; destruct (N _ _ _ E) as (G & M).
    + rewrite map_app in G. destruct a as [|x a]; [discriminate G|]. injection G as Gx _. inversion F as [|? ? Fx _]; subst. now apply Fx.
    + injection M as M _. lia.
Qed.

(* such messages *)
Example C79_proper_ex : proper_certificate (vector8 [1; 2; 3] ++ vector24 (vector24 (Spec.X509.Certificate Proofs.ServerExample.own_cert) ++ vector16 [] ++ [5])) /\
  proper_certificate (vector8 [] ++ vector24 []) /\ proper_verify (u16 0x0403 ++ vector16 (Spec.X509.EcdsaSigValue [17] [18])).
Proof.
  split; [|split].
  - exists [1; 2; 3]. eexists. split; [reflexivity|]. split; [reflexivity|]. split; [vm_compute; reflexivity|]. right. exists Proofs.ServerExample.own_cert, [], [5]. split; [reflexivity|].
    split; [exact Proofs.ServerExample.own_tbs_ok|]. split; vm_compute; discriminate.
  - exists [], []. split; [reflexivity|]. split; [reflexivity|]. split; [reflexivity|]. now left.
  - exists [17], [18]. split; reflexivity.
Qed.

(* the CertificateVerify messages of Spec/VerifyPanics.v, and no others, bring down a side that has a Certificate message of
   Spec/Proper.v *)
Theorem C79_signature_exact : forall der, is_bytes der -> (Model.Signature.sig_from_der der = Panic <-> signature_panics der).
Proof. exact Proofs.VerifyPanics.signature_sort. Qed.
Print Assumptions C79_signature_exact.
Theorem C79_client_verify_exact : forall h c t body1 now raw body,
  cl_cert h = Some c -> cl_th h = Some t -> proper_certificate body1 -> Model.Certificate.certificates_from_hello body1 now = Ok [c] -> is_bytes body ->
  (snd (handle_server_certificate_verify h (Model.Handshake.Handshake Model.Handshake.HtCertificateVerify body raw)) = Panic <-> verify_panics body).
Proof. exact Proofs.VerifyPanics.client_verify. Qed.
Print Assumptions C79_client_verify_exact.
Theorem C79_server_verify_exact : forall h c t body1 now body rest,
  sv_cert h = Some c -> sv_th h = Some t -> proper_certificate body1 -> Model.Certificate.certificates_from_hello body1 now = Ok [c] -> is_bytes body -> zlen body < 2^24 ->
  (snd (handle_client_certificate_verify h (handshake 15 body ++ rest)) = Panic <-> verify_panics body).
Proof. exact Proofs.VerifyPanics.server_verify. Qed.
Print Assumptions C79_server_verify_exact.
Theorem C79_proper_verify : forall body, is_bytes body -> proper_verify body -> ~ verify_panics body.
Proof. exact Proofs.VerifyPanics.proper_fine. Qed.
Print Assumptions C79_proper_verify.
Example C79_verify_panics_ex :
  verify_panics [4; 3; 0; 2; 0x30; 0] /\ verify_panics [5; 3; 0; 0] /\ verify_panics [4; 3; 0; 6; 0x30; 4; 2; 1; 5; 2] /\ verify_panics [4; 3; 0; 1; 0xA0; 0x81] /\
  ~ verify_panics [4; 3; 0; 8; 0x30; 6; 2; 1; 5; 2; 1; 9] /\ ~ verify_panics [8; 4] /\
  Model.Signature.sig_from_der [0x30; 4; 2; 5; 7] = Panic /\ Model.Signature.sig_from_der [0x30; 4; 2; 6; 7] <> Panic.
Proof.
  split; [|split; [|split; [|split; [|split; [|split]]]]].
  - eapply vp_signature; [reflexivity|]. eapply sig_r; [reflexivity|left; reflexivity|apply len_short; reflexivity|cbn; lia|constructor].
  - eapply vp_other; [reflexivity|]. left. reflexivity.
  - eapply vp_signature; [reflexivity|]. eapply sig_s; [reflexivity|left; reflexivity|apply len_short; reflexivity|cbn; lia| |].
    + eapply (int_read _ 2 [1; 5; 2] 1 [5] [2]); [reflexivity|apply len_short; reflexivity|reflexivity|cbn; lia].
    + apply int_cut; [reflexivity|constructor].
  - eapply vp_signature; [reflexivity|]. eapply sig_cut; [reflexivity|reflexivity|]. apply cut_long. cbn. lia.
  - apply Proofs.VerifyPanics.proper_fine; [apply Proofs.Util.is_bytes_check; reflexivity|]. exists [5], [9]. split; reflexivity.
  - intros V. inversion V as [L|a b r E I|r E L|l1 l2 d E S]; [cbn in L; lia| |discriminate|discriminate]. injection E as <- <- <-. cbn in I. destruct I as [I|[I|[]]]; discriminate.
  - split; [vm_compute; reflexivity|]. vm_compute. discriminate.
Qed.
(* such a certificate *)
Example C79_verify_exact_ex : exists c body1 now, proper_certificate body1 /\ Model.Certificate.certificates_from_hello body1 now = Ok [c] /\
  (forall h, cl_cert (cl_with_cert h c) = Some c) /\ (forall h, sv_cert (with_cert h c) = Some c).
Proof.
  exists (Model.Certificate.Cert Proofs.ServerExample.own_raw (Some Proofs.ServerExample.own_x)),
    (vector8 [] ++ vector24 (vector24 Proofs.ServerExample.own_raw ++ vector16 [] ++ [])), Proofs.ServerExample.own_now.
  split; [|split; [|split; reflexivity]].
  - exists []. eexists. split; [reflexivity|]. split; [reflexivity|]. split; [vm_compute; reflexivity|]. right. exists Proofs.ServerExample.own_cert, [], []. split; [reflexivity|].
    split; [exact Proofs.ServerExample.own_tbs_ok|]. split; vm_compute; discriminate.
  - pose proof (Proofs.Auth.certificates_read [] Proofs.ServerExample.own_raw [] [] [] Proofs.ServerExample.own_now) as P. unfold Proofs.Auth.entry in P. rewrite <- app_assoc in P. cbn [app] in P. rewrite ?app_nil_r in P. rewrite ?app_nil_r.
    rewrite P; [|reflexivity|rewrite Proofs.ServerExample.own_length; lia|vm_compute; reflexivity].
    unfold Model.Certificate.certificate_from_raw. rewrite Proofs.ServerExample.own_parse. cbn [bind unwrap Model.Certificate.ct_x509]. rewrite Proofs.ServerExample.own_valid. reflexivity.
Qed.

(* The client likewise.  It keeps what it could not use of a read, so that x is the rest of everything that has arrived when it
   comes down: whole records come before it.  It comes down only by one of the causes of Spec/ClientCrashes.v: one to three bytes
   missing, an alert of fewer than two bytes, in the clear or protected, a protected record shorter than a tag, a handshake message
   that is said to be longer than it is, a Certificate message of Spec/CertMessagePanics.v, a CertificateVerify message of
   Spec/VerifyPanics.v (or any, after such a Certificate message), or a Finished
   message after a CertificateRequest of Spec/RequestPanics.v or that the client cannot sign or fit an answer to *)
Theorem C79_client_crashes_partial : forall cfg e now so before reads h p,
  client_ok cfg e -> is_bytes (concat (before ++ reads)) -> zlen (concat (before ++ reads)) < 2^25 ->
  connect cfg e now so before = (h, None) -> st_protection (cl_stream h) = Some p ->
  snd (connect cfg e now so (before ++ reads)) = Some Panic ->
  exists first sh g r1 r2 done x,
    reads = r1 ++ r2 /\ concat (before ++ r1) = done ++ x /\ whole_records done /\
    within (concat (before ++ r1)) first /\ r_type first = RHandshake /\ agrees cfg e (r_fragment first) sh g /\
    client_crash cfg e (concat (before ++ r1)) g x.
Proof. exact Proofs.ClientCrashes.crashes. Qed.
Print Assumptions C79_client_crashes_partial.
Example C79_client_crashes_ex : exists cfg e now so before reads h p, client_ok cfg e /\ is_bytes (concat (before ++ reads)) /\
  zlen (concat (before ++ reads)) < 2^25 /\ connect cfg e now so before = (h, None) /\ st_protection (cl_stream h) = Some p /\
  snd (connect cfg e now so (before ++ reads)) = Some Panic.
Proof.
  destruct Proofs.EndsExample.client_keyed_ok as (cfg & e & now & so & first & h & p & O & W & T & E & P).
  destruct (Proofs.ServerAccept.whole_formed first W) as (Bh & Lh & Bf & Lf).
  exists cfg, e, now, so, [wire first], [[22; 3; 3; 0; 5; 1; 0; 0]], h, p. split; [exact O|].
  split; [cbn [concat app]; apply Forall_app; split; [exact (proj2 W)|apply Proofs.Util.is_bytes_check; reflexivity]|].
  split; [cbn [concat app]; unfold wire; rewrite !Proofs.Bytes.zlen_app; unfold zlen in *; cbn [length]; lia|].
  split; [exact E|]. split; [exact P|].
  refine (C79_client_cut_read_refuted cfg e now so [first] [wire first] [] h 22 3 3 0 5 [1; 0; 0] _ _ _ E _ _ _).
  - pose proof (delivers_whole [first] [] [] ltac:(discriminate) delivers_nil) as D. unfold bytes_of in D. cbn [map concat app] in D. rewrite app_nil_r in D. exact D.
  - constructor; [exact (proj1 W)|constructor].
  - constructor; [rewrite T; discriminate|constructor].
  - apply Proofs.Util.is_bytes_check; reflexivity.
  - cbn; tauto.
  - cbn; lia.
Qed.

(* from the start: or before the keys are agreed, by one of the causes of Spec/HelloCrashes.v - a cut, a short alert, a message that is
   said to be longer than it is, a ServerHello of Spec/HelloPanics.v, or one with an X25519 share of more than 32 bytes *)
Theorem C79_client_every_crash_partial : forall cfg e now so reads,
  client_ok cfg e -> is_bytes (concat reads) -> zlen (concat reads) < 2^25 -> snd (connect cfg e now so reads) = Some Panic ->
  (exists r1 r2, reads = r1 ++ r2 /\ server_hello_crash (concat r1)) \/
  exists first sh g r1 r2 done x, reads = r1 ++ r2 /\ concat r1 = done ++ x /\ whole_records done /\
    within (concat r1) first /\ r_type first = RHandshake /\ agrees cfg e (r_fragment first) sh g /\ client_crash cfg e (concat r1) g x.
Proof. exact Proofs.ClientCrashes.all_crashes. Qed.
Print Assumptions C79_client_every_crash_partial.
Example C79_client_every_crash_ex : exists cfg e now so reads, client_ok cfg e /\ is_bytes (concat reads) /\ zlen (concat reads) < 2^25 /\
  snd (connect cfg e now so reads) = Some Panic.
Proof.
  destruct Proofs.EndsExample.client_keyed_ok as (cfg & e & now & so & first & h & p & O & W & T & E & P).
  destruct (Proofs.ClientReads.connect_none _ _ _ _ _ _ E) as (h0 & u & E0 & _).
  assert (St : cl_state h0 = CsServerHello) by (destruct (Proofs.ClientSteps.hello_sent _ _ _ _ _ O E0) as (Eh & _); rewrite Eh; reflexivity).
  assert (E1 : connect cfg e now so [] = (h0, None)) by (unfold connect, client_do_handshake; rewrite E0; cbn [client_reads]; rewrite St; reflexivity).
  assert (B1 : is_bytes [22; 3; 3; 0; 5; 2; 0; 0]) by (apply Proofs.Util.is_bytes_check; reflexivity).
  exists cfg, e, now, so, [[22; 3; 3; 0; 5; 2; 0; 0]]. split; [exact O|]. split; [exact B1|]. split; [reflexivity|].
  refine (C79_client_cut_read_refuted cfg e now so [] [] [] h0 22 3 3 0 5 [2; 0; 0] delivers_nil _ _ E1 B1 _ _); [constructor|constructor|cbn; tauto|cbn; lia].
Qed.
Example C79_usable_server_ex : let body := server_hello_wire {| s_random := repeat 7 32; s_session_id := []; s_suite := 0x1301;
    s_extensions := [SelectedVersion 0x0304; SelectedShare (29, repeat 9 32)] |} in
  ~ server_hello_panic body /\ exists sh, server_hello_from_raw body = Ok sh /\ ~ long_share sh.
Proof.
  cbv zeta. split.
  - intros H. apply Proofs.ServerHelloPanics.server_hello_sort in H; [|apply Proofs.Util.is_bytes_check; vm_compute; reflexivity]. vm_compute in H. discriminate H.
  - eexists. split; [vm_compute; reflexivity|]. intros (pre & k & l & post & E & L). cbn [sh_exts] in E.
    destruct pre as [|x pre]; [discriminate E|]. injection E as _ E. destruct pre as [|y pre]; [|injection E as _ E; destruct pre; discriminate E]. injection E as <- _ _. cbn in L. lia.
Qed.

(* a server with keys that waits; a change_cipher_spec, a forged record and bytes that are none; and what brings it down *)
Example C79_server_ex : exists cfg d now so before h p r, accept cfg d now so before = (h, None) /\ st_protection (sv_stream h) = Some p /\
  sv_state h <> SvClientHello /\
  r_type r = RApplicationData /\ Forall (unkeyed p) [[20; 3; 3; 0; 1; 1]; wire r; [99; 1; 2; 3; 4; 5]] /\
  is_bytes [22; 3; 3; 0; 5; 1; 0; 0] /\ In 22 [0; 20; 21; 22; 23] /\ zlen [1; 0; 0] < 256 * 0 + 5 <= zlen [1; 0; 0] + 3.
Proof.
  destruct Proofs.EndsExample.server_keyed as (cfg & d & now & so & before & h & p & A & P & L & N).
  destruct (Proofs.EndsExample.forged p L) as (r & W & T & D). exists cfg, d, now, so, before, h, p, r.
  split; [exact A|]. split; [exact P|]. split; [exact N|]. split; [exact T|]. split; [|split; [apply Proofs.Util.is_bytes_check; reflexivity|split; [cbn; tauto|cbn; lia]]].
  destruct Proofs.EndsExample.ccs_record as (c & Wc & Tc & Ec). rewrite <- Ec.
  constructor; [apply Proofs.EndsExample.whole_read; [exact Wc|now apply Proofs.EndsExample.ccs_out]|].
  constructor; [apply Proofs.EndsExample.whole_read; [exact W|exact (Proofs.EndsExample.forged_out p r _ T D)]|].
  constructor; [|constructor]. apply unkeyed_junk. exists DecodeError. reflexivity.
Qed.
Example C79_client_ex : exists cfg e now so first h p c r, delivers [first] [wire first] /\
  record_from_raw (wire first) = Ok (length (wire first), first) /\ r_type first = RHandshake /\
  connect cfg e now so [wire first] = (h, None) /\ st_protection (cl_stream h) = Some p /\
  r_type c = RChangeCipherSpec /\ r_type r = RApplicationData /\
  Forall (fun r => record_from_raw (wire r) = Ok (length (wire r), r)) [c; r] /\ Forall (sealed_out p) [c; r].
Proof.
  destruct Proofs.EndsExample.client_keyed_ex as (cfg & e & now & so & first & h & p & W & T & E & P & L).
  destruct (Proofs.EndsExample.forged p L) as (r & Wr & Tr & Dr). destruct Proofs.EndsExample.ccs_record as (c & Wc & Tc & Ec).
  exists cfg, e, now, so, first, h, p, c, r.
  split; [|split; [exact (proj1 W)|split; [exact T|split; [exact E|split; [exact P|split; [exact Tc|split; [exact Tr|split]]]]]]].
  - pose proof (delivers_whole [first] [] [] ltac:(discriminate) delivers_nil) as D. unfold bytes_of in D. cbn [map concat app] in D. rewrite app_nil_r in D. exact D.
  - constructor; [exact (proj1 Wc)|]. constructor; [exact (proj1 Wr)|constructor].
  - constructor; [now apply Proofs.EndsExample.ccs_out|]. constructor; [exact (Proofs.EndsExample.forged_out p r _ Tr Dr)|constructor].
Qed.

(* ---- C80: the handshake ends when the peer hangs up ---- *)
(* An empty read is what a closed connection gives: whatever came before and would come after, accept has returned by then,
   with what it had returned already, or with an error; it sends nothing more. *)
Theorem C80_accept_ends : forall cfg d now so reads later,
  accept cfg d now so (reads ++ [] :: later) =
  match accept cfg d now so reads with (h, None) => (h, Some (Err BrokenPipe)) | x => x end.
Proof. exact Proofs.Ends.accept_end. Qed.
Print Assumptions C80_accept_ends.
Theorem C80_connect_ends : forall cfg e now so reads later,
  connect cfg e now so (reads ++ [] :: later) =
  match connect cfg e now so reads with (h, None) => (h, Some (Err BrokenPipe)) | x => x end.
Proof. exact Proofs.Ends.connect_end. Qed.
Print Assumptions C80_connect_ends.
(* once they have returned, nothing that arrives later changes that *)
Theorem C80_accept_final : forall cfg d now so reads later h o,
  accept cfg d now so reads = (h, Some o) -> accept cfg d now so (reads ++ later) = (h, Some o).
Proof. exact Proofs.Ends.accept_more. Qed.
Print Assumptions C80_accept_final.
Theorem C80_connect_final : forall cfg e now so reads later h o,
  connect cfg e now so reads = (h, Some o) -> connect cfg e now so (reads ++ later) = (h, Some o).
Proof. exact Proofs.Ends.connect_more. Qed.
Print Assumptions C80_connect_final.
(* a client gone after its ClientHello, and one that finished; a server gone after its ServerHello *)
Example C80_ex : (exists cfg d now so hello fin h1 h, accept cfg d now so [hello] = (h1, None) /\
    accept cfg d now so [hello; []] = (h1, Some (Err BrokenPipe)) /\
    accept cfg d now so [hello; fin] = (h, Some (Ok tt)) /\ accept cfg d now so [hello; fin; []] = (h, Some (Ok tt))) /\
  exists cfg e now so hello h, connect cfg e now so [hello] = (h, None) /\ connect cfg e now so [hello; []; hello] = (h, Some (Err BrokenPipe)).
Proof.
  split.
  - destruct Proofs.HandshakeExample.ex_two_reads as (hello & fin & h1 & h & _ & _ & _ & _ & _ & E1 & E2).
    exists (Proofs.ServerExample.ex_cfg false), Proofs.ServerExample.ex_draws, Proofs.ServerExample.own_now, Proofs.ServerExample.ex_sock, (wire hello), (wire fin), h1, h.
    split; [exact E1|]. split; [|split; [exact E2|]].
    + pose proof (C80_accept_ends (Proofs.ServerExample.ex_cfg false) Proofs.ServerExample.ex_draws Proofs.ServerExample.own_now Proofs.ServerExample.ex_sock [wire hello] []) as X.
      cbn [app] in X. rewrite X, E1. reflexivity.
    + exact (C80_accept_final _ _ _ _ _ [[]] _ _ E2).
  - destruct Proofs.EndsExample.client_keyed_ex as (cfg & e & now & so & first & h & p & _ & _ & E & _).
    exists cfg, e, now, so, (wire first), h. split; [exact E|]. pose proof (C80_connect_ends cfg e now so [wire first] [wire first]) as X. cbn [app] in X. rewrite X, E. reflexivity.
Qed.

(* ---- C36, C37, C38 for a whole connection ---- *)
(* turned away: accept has failed and sent at most one alert *)
Definition turned_away (cfg : server_config) (d : draws) (now : Z) (so : sock) (reads : list (list Z)) : Prop :=
  exists h o, accept cfg d now so reads = (h, Some o) /\ o <> Ok tt /\
    (so_sent (st_sock (sv_stream h)) = so_sent so \/ exists level code, so_sent (st_sock (sv_stream h)) = so_sent so ++ [21; 3; 3; 0; 2; level; code]).
(* a ClientHello in a record of its own *)
Definition hello_read (m : client_hello_msg) : list Z := encode_record 22 (handshake 1 (client_hello_wire m)).
Definition in_one_record (m : client_hello_msg) : Prop :=
  client_hello_ok m /\ is_bytes (client_hello_wire m) /\ zlen (handshake 1 (client_hello_wire m)) < 2^16.
Lemma turned cfg d now so m rest : so_left so = None -> in_one_record m ->
  (forall r, answer (client_hello_wire m) (d_random d) (d_secrets d) (sc_server_name cfg) <> Ok r) -> turned_away cfg d now so (hello_read m :: rest).
Proof.
  intros N (_ & B & L) R. pose proof (Proofs.Ends.unserved cfg d now so (client_hello_wire m) rest N B L) as U.
  destruct (answer (client_hello_wire m) (d_random d) (d_secrets d) (sc_server_name cfg)) as [r|e|]; [now destruct (R r)| |].
  - destruct U as (h & E & S). exists h, (Err (reported e)). split; [exact E|]. split; [discriminate|]. destruct (is_official e).
    + right. exists (alert_level e), (error_as_u8 e). exact S.
    + left. rewrite app_nil_r in S. exact S.
  - exists (server_new so), Panic. split; [exact U|]. split; [discriminate|]. now left.
Qed.
(* full statements: also without supported_versions, without server_name, with X25519 listed after others; see C36_no_versions_refuted,
   C37_no_name_refuted, C38_secp256r1_first_refuted *)
Theorem C36_connection_partial : forall cfg d now so m codes rest, so_left so = None -> in_one_record m ->
  In (Versions codes) (m_extensions m) -> ~ In 0x0304 codes -> turned_away cfg d now so (hello_read m :: rest).
Proof. intros cfg d now so m codes rest N O I X. apply turned; [exact N|exact O|]. intros r. exact (Proofs.Negotiate.wrong_version_refused m codes _ _ _ r (proj1 O) I X). Qed.
Print Assumptions C36_connection_partial.
Theorem C37_connection_partial : forall cfg d now so m host configured rest, so_left so = None -> in_one_record m ->
  sc_server_name cfg = Some configured -> In (Host host) (m_extensions m) -> host <> configured -> turned_away cfg d now so (hello_read m :: rest).
Proof.
  intros cfg d now so m host configured rest N O C I X. apply turned; [exact N|exact O|]. intros r. rewrite C.
  exact (Proofs.Negotiate.wrong_name_refused m host configured _ _ r (proj1 O) I X).
Qed.
Print Assumptions C37_connection_partial.
Theorem C38_connection_x25519_needed : forall cfg d now so m rest, so_left so = None -> in_one_record m ->
  (forall l, In (Shares l) (m_extensions m) -> ~ offers x25519_code l) -> turned_away cfg d now so (hello_read m :: rest).
Proof. intros cfg d now so m rest N O X. apply turned; [exact N|exact O|]. intros r. exact (Proofs.Negotiate.no_x25519_refused m _ _ _ r (proj1 O) X). Qed.
Print Assumptions C38_connection_x25519_needed.
Theorem C35_connection_suite_needed : forall cfg d now so m rest, so_left so = None -> in_one_record m ->
  (forall code, In code (m_suites m) -> ~ implemented code) -> turned_away cfg d now so (hello_read m :: rest).
Proof. intros cfg d now so m rest N O X. apply turned; [exact N|exact O|]. intros r. exact (Proofs.Negotiate.no_suite_refused m _ _ _ r (proj1 O) X). Qed.
Print Assumptions C35_connection_suite_needed.
(* a client of TLS 1.2 with another name, P-256 alone and a suite of TLS 1.2; and one that is turned away by panicking *)
Example C36_C37_C38_connection_ex : exists m m',
  in_one_record m /\ In (Versions [0x0303]) (m_extensions m) /\ ~ In 0x0304 [0x0303] /\ In (Host [97]) (m_extensions m) /\
  (forall l, In (Shares l) (m_extensions m) -> ~ offers x25519_code l) /\ (forall code, In code (m_suites m) -> ~ implemented code) /\
  in_one_record m' /\ m_extensions m' = [Versions [0x0304]] ++ Shares ([] ++ (secp256r1_code, repeat 4 65) :: [(x25519_code, repeat 6 32)]) :: [] /\
  Forall (acceptable None) [Versions [0x0304]].
Proof.
  exists {| m_random := repeat 7 32; m_session_id := []; m_suites := [0xc02f; 0x00ff];
    m_extensions := [Host [97]; Versions [0x0303]; Shares [(secp256r1_code, repeat 4 65)]] |},
    {| m_random := repeat 7 32; m_session_id := []; m_suites := [0x1301];
    m_extensions := [Versions [0x0304]; Shares [(secp256r1_code, repeat 4 65); (x25519_code, repeat 6 32)]] |}.
  cbn [m_extensions m_suites].
  assert (G : forall m, hello_header_ok m -> fits16 (flat_map client_extension_wire (m_extensions m)) -> Forall client_ext_ok (m_extensions m) ->
    forallb (fun b => (0 <=? b) && (b <? 256))%bool (client_hello_wire m) = true -> zlen (handshake 1 (client_hello_wire m)) < 2^16 -> in_one_record m).
  { intros m H1 H2 H3 H4 H5. split; [split; [exact H1|split; [exact H2|exact H3]]|]. split; [|exact H5]. apply Proofs.Util.is_bytes_check. exact H4. }
  split; [|split; [right; now left|split; [intros [H|[]]; discriminate|split; [now left|split; [|split; [|split; [|split; [reflexivity|]]]]]]]].
  - apply G; [| | |reflexivity|reflexivity].
    + unfold hello_header_ok. repeat split; try reflexivity; [now left|left; cbn; lia|repeat constructor; cbn; lia].
    + unfold fits16. cbn. lia.
    + cbn [m_extensions]. repeat (apply Forall_cons || apply Forall_nil); unfold client_ext_ok, code16, fits16; cbn [client_extension_type]; (split; [lia|split; [cbn; lia|]]).
      * reflexivity.
      * split; [cbn; lia|]. repeat constructor; cbn; lia.
      * split; [discriminate|]. repeat (apply Forall_cons || apply Forall_nil); (split; [discriminate|split; cbn; lia]).
  - intros l [H|[H|[H|[]]]]; try discriminate. injection H as <-. unfold offers. cbn. intros [H|[]]; discriminate.
  - intros code [<-|[<-|[]]]; unfold implemented; cbn; intuition discriminate.
  - apply G; [| | |reflexivity|reflexivity].
    + unfold hello_header_ok. repeat split; try reflexivity; [now left|right; discriminate|repeat constructor; cbn; lia].
    + unfold fits16. cbn. lia.
    + cbn [m_extensions]. repeat (apply Forall_cons || apply Forall_nil); unfold client_ext_ok, code16, fits16; cbn [client_extension_type]; (split; [lia|split; [cbn; lia|]]).
      * split; [cbn; lia|]. repeat constructor; cbn; lia.
      * split; [discriminate|]. repeat (apply Forall_cons || apply Forall_nil); (split; [discriminate|split; cbn; lia]).
  - constructor; [|constructor]. cbn. auto.
Qed.
