(* C82, C83, C84: the programs in examples/src/bin of /repo.  Property theorems only. *)
From Coq Require String.
From Verif Require Import Model.Base Model.Alert Model.Record Model.Keylog Model.Ecdsa Model.X509 Model.Certificate Model.Stream Model.AppChannel Model.Server Model.Client Model.Config Model.ExampleFiles Model.Examples
  Spec.Enc Spec.Tls13Record Spec.Calendar Spec.X509 Spec.Connection Spec.Handshaking Spec.Loopback Spec.Ends Spec.Impersonation Spec.Rfc8446Auth.
From Verif Require Spec.Rfc8446Hello Proofs.Examples Proofs.ExamplesJoined Proofs.ExampleConfig Proofs.Ends Proofs.Loopback Proofs.Utf8 Proofs.ServerExample Proofs.LoopbackExample Proofs.HandshakeExample Proofs.EndsExample Proofs.Channel Proofs.Util.
From Coq Require Import Lia.
Import String.StringSyntax.
Local Open Scope string_scope.
Local Open Scope list_scope.

(* ---- C82: the example servers go on serving, whatever a client does ---- *)
(* False: the process ends when a client's first bytes are a record of which one to three bytes are missing, ... *)
Theorem C82_cut_read_refuted : forall cfg response d now so t v1 v2 a b rest later others,
  is_bytes (t :: v1 :: v2 :: a :: b :: rest) -> In t [0; 20; 21; 22; 23] -> zlen rest < 256 * a + b <= zlen rest + 3 ->
  serve_all cfg response (Conn d now so ((t :: v1 :: v2 :: a :: b :: rest) :: later) :: others) = [Crashed].
Proof.
  intros cfg response d now so t v1 v2 a b rest later others B T L.
  assert (E : serve cfg response (Conn d now so ((t :: v1 :: v2 :: a :: b :: rest) :: later)) = Crashed).
  { apply (Proofs.Examples.serve_crash cfg response d now so _ (server_new so)).
    apply (Proofs.Ends.accept_cut cfg d now so [] _ later (server_new so) eq_refl); [discriminate|]. apply (Proofs.Channel.panics_exactly t v1 v2 a b rest B). auto. }
  rewrite Proofs.Examples.serve_all_stop; rewrite E; [reflexivity|]. intros (_ & N). now apply N.
Qed.
Print Assumptions C82_cut_read_refuted.
(* ... and it waits, for this client alone, when one sends nothing, or stops anywhere in the handshake, ... *)
Theorem C82_silent_refuted : forall cfg response d now so reads h others, accept cfg d now so reads = (h, None) ->
  serve_all cfg response (Conn d now so reads :: others) = [Waits].
Proof.
  intros cfg response d now so reads h others H. pose proof (Proofs.Examples.serve_waits cfg response d now so reads h H) as E.
  rewrite Proofs.Examples.serve_all_stop; rewrite E; [reflexivity|]. intros (N & _). now apply N.
Qed.
Print Assumptions C82_silent_refuted.
(* ... and it ends when a client - of this library, say - completes the handshake and then sends fewer than four bytes, or
   bytes that without the last four are not UTF-8. *)
Theorem C82_request_refuted : forall cfgs d cfgc e now, compatible cfgs d cfgc e now ->
  exists c0 s1 c1,
    let hello := so_sent (st_sock (cl_stream c0)) in
    let flight := so_sent (st_sock (sv_stream s1)) in
    let reply := skipn (length hello) (so_sent (st_sock (cl_stream c1))) in
    connect cfgc e now fresh [] = (c0, None) /\ accept cfgs d now fresh [hello] = (s1, None) /\ connect cfgc e now fresh [flight] = (c1, Some (Ok tt)) /\
    forall data response others, is_bytes data -> zlen data <= 4074 ->
      (zlen data < 4 \/ forall text end_, Forall scalar_value text -> zlen end_ = 4 -> data <> utf8 text ++ end_) ->
      exists c2, tls_write (cl_stream c1) data = (c2, Ok tt) /\
        serve_all cfgs response (Conn d now fresh [hello; reply; new_bytes (cl_stream c1) c2] :: others) = [Crashed].
Proof. exact Proofs.Examples.bad_request. Qed.
Print Assumptions C82_request_refuted.
(* What holds: clients do not meet each other.  If with every client before the loop body came to its end, the next one gets
   what it would get from a server just started; *)
Theorem C82_independent_partial : forall cfg response before c after,
  Forall (fun c => serve cfg response c <> Waits /\ serve cfg response c <> Crashed) before ->
  nth_error (serve_all cfg response (before ++ c :: after)) (length before) = Some (serve cfg response c).
Proof. exact Proofs.Examples.serve_all_nth. Qed.
Print Assumptions C82_independent_partial.
(* and it does come to its end with a client without the keys that, having sent a ClientHello and whatever else as in C79,
   hangs up. *)
Theorem C82_unkeyed_partial : forall cfg response d now so before junk h p,
  accept cfg d now so before = (h, None) -> st_protection (sv_stream h) = Some p -> Forall (unkeyed p) junk ->
  exists err, serve cfg response (Conn d now so (before ++ junk ++ [[]])) = NoHandshake err.
Proof. exact Proofs.Examples.unkeyed_harmless. Qed.
Print Assumptions C82_unkeyed_partial.

(* ... and with one that completes the handshake and then sends something that cannot be read, an alert for example, or hangs up *)
Theorem C82_no_request_partial : forall cfg response d now so before last chunk later h0 h err,
  accept cfg d now so before = (h0, None) -> accept cfg d now so (before ++ [last]) = (h, Some (Ok tt)) ->
  snd (tls_read (sv_stream h) (Z.to_nat 4096) chunk) = Err err ->
  serve cfg response (Conn d now so (before ++ last :: chunk :: later)) = NoRequest err.
Proof. exact Proofs.Examples.no_request. Qed.
Print Assumptions C82_no_request_partial.
Example C82_no_request_ex : exists cfg d now before last h0 h, accept cfg d now fresh before = (h0, None) /\ accept cfg d now fresh (before ++ [last]) = (h, Some (Ok tt)) /\
  snd (tls_read (sv_stream h) (Z.to_nat 4096) []) = Err BrokenPipe /\ snd (tls_read (sv_stream h) (Z.to_nat 4096) [99; 1; 2; 3; 4; 5]) = Err DecodeError.
Proof.
  destruct (Proofs.LoopbackExample.lb_compatible false) as (k & k' & _ & _ & C).
  destruct (Proofs.Examples.talk _ _ _ _ _ C) as (c0 & s1 & c1 & s2 & (_ & H1 & _ & H2) & _).
  do 2 eexists. exists Proofs.ServerExample.own_now. eexists [_]. do 3 eexists. split; [exact H1|]. split; [exact H2|]. split; reflexivity.
Qed.

(* ---- C83: example client and example server understand each other ---- *)
(* For ends that are compatible as in C44 and any response that is text: the client sends its request and prints the response;
   the server prints the request without the last line end.  Segments are read as they were written.
   Missing: as in C44. *)
Theorem C83_exchange_partial : forall cfgs d cfgc e now response, compatible cfgs d cfgc e now ->
  (exists text, Forall scalar_value text /\ response = utf8 text) -> is_bytes response -> zlen response <= 4074 ->
  exists c0 s1 c1 s2 c2 s3 s4,
    let hello := so_sent (st_sock (cl_stream c0)) in
    let flight := so_sent (st_sock (sv_stream s1)) in
    let reply := skipn (length hello) (so_sent (st_sock (cl_stream c1))) in
    let request := new_bytes (cl_stream c1) c2 in
    let answer := new_bytes s3 s4 in
    (connect cfgc e now fresh [] = (c0, None) /\ accept cfgs d now fresh [hello] = (s1, None) /\
     connect cfgc e now fresh [flight] = (c1, Some (Ok tt)) /\ accept cfgs d now fresh [hello; reply] = (s2, Some (Ok tt)) /\
     tls_write (cl_stream c1) (http_request localhost) = (c2, Ok tt) /\ tls_read (sv_stream s2) (Z.to_nat 4096) request = (s3, Ok (http_request localhost)) /\
     tls_write s3 response = (s4, Ok tt)) /\
    serve cfgs response (Conn d now fresh [hello; reply; request]) = Answered (firstn (length (http_request localhost) - 4) (http_request localhost)) s4 (Ok tt) /\
    request_main cfgc e now fresh [flight; answer] = Some (Some response).
Proof. exact Proofs.Examples.exchange. Qed.
Print Assumptions C83_exchange_partial.
(* The same however the handshake is cut and joined on the way, as in C44_any_delivery_partial, with certificates and a name of
   up to 65000 bytes.  hello, flight and reply are the records the two ends send before the request.
   Missing: as in C44_any_delivery_partial; request and answer are read as they were written, the request not with the reply. *)
Theorem C83_any_delivery_partial : forall cfgs d cfgc e now response, compatible_up_to 65000 65000 65000 cfgs d cfgc e now ->
  (exists text, Forall scalar_value text /\ response = utf8 text) -> is_bytes response -> zlen response <= 4074 ->
  exists c0 s1 c1 s2 c2 s3 s4 hello flight reply,
    let request := new_bytes (cl_stream c1) c2 in
    let answer := new_bytes s3 s4 in
    (connect cfgc e now fresh [] = (c0, None) /\ so_sent (st_sock (cl_stream c0)) = wire hello) /\
    (accept cfgs d now fresh [wire hello] = (s1, None) /\ so_sent (st_sock (sv_stream s1)) = bytes_of flight) /\
    so_sent (st_sock (cl_stream c1)) = wire hello ++ bytes_of reply /\
    (tls_write (cl_stream c1) (http_request localhost) = (c2, Ok tt) /\ tls_read (sv_stream s2) (Z.to_nat 4096) request = (s3, Ok (http_request localhost)) /\
     tls_write s3 response = (s4, Ok tt)) /\
    (forall groups, Forall (fun x => x <> []) groups -> concat groups = reply ->
       serve cfgs response (Conn d now fresh (wire hello :: map bytes_of groups ++ [request])) = Answered (firstn (length (http_request localhost) - 4) (http_request localhost)) s4 (Ok tt)) /\
    forall reads, delivers flight reads -> request_main cfgc e now fresh (reads ++ [answer]) = Some (Some response).
Proof. exact Proofs.Examples.exchange_wide. Qed.
Print Assumptions C83_any_delivery_partial.
(* The request in the same read as the last of the client's Finished (which TCP may well deliver): the server drops it and waits
   for another, the client waits for the response. *)
Theorem C83_joined_refuted : forall cfgs d cfgc e now response, compatible_up_to 65000 65000 65000 cfgs d cfgc e now ->
  exists c0 s1 c1 c2 hello flight reply,
    (connect cfgc e now fresh [] = (c0, None) /\ so_sent (st_sock (cl_stream c0)) = wire hello) /\
    (accept cfgs d now fresh [wire hello] = (s1, None) /\ so_sent (st_sock (sv_stream s1)) = bytes_of flight) /\
    (connect cfgc e now fresh [bytes_of flight] = (c1, Some (Ok tt)) /\ so_sent (st_sock (cl_stream c1)) = wire hello ++ bytes_of reply) /\
    (tls_write (cl_stream c1) (http_request localhost) = (c2, Ok tt) /\ so_sent (st_sock c2) = so_sent (st_sock (cl_stream c1)) ++ new_bytes (cl_stream c1) c2) /\
    (forall groups last, Forall (fun x => x <> []) (groups ++ [last]) -> concat (groups ++ [last]) = reply ->
       serve cfgs response (Conn d now fresh (wire hello :: map bytes_of groups ++ [bytes_of last ++ new_bytes (cl_stream c1) c2])) = Waits) /\
    forall reads, delivers flight reads -> request_main cfgc e now fresh reads = None.
Proof. exact Proofs.ExamplesJoined.joined. Qed.
Print Assumptions C83_joined_refuted.
(* the responses of the two servers; the request ends in the four bytes that are not printed; two ends that are compatible
   are in C44_compatible *)
Example C83_ex : forall response, In response [https_response; admin_response] ->
  (exists text, Forall scalar_value text /\ response = utf8 text) /\ is_bytes response /\ zlen response <= 4074.
Proof.
  intros response H. assert (B : is_bytes response) by (destruct H as [<-|[<-|[]]]; apply Proofs.Util.is_bytes_check; vm_compute; reflexivity).
  split; [|split; [exact B|destruct H as [<-|[<-|[]]]; vm_compute; discriminate]].
  apply (Proofs.Utf8.is_text response B). destruct H as [<-|[<-|[]]]; vm_compute; reflexivity.
Qed.
Example C83_request_ex : exists text, http_request localhost = firstn (length (http_request localhost) - 4) (http_request localhost) ++ [13; 10; 13; 10] /\
  Forall scalar_value text /\ firstn (length (http_request localhost) - 4) (http_request localhost) = utf8 text.
Proof.
  destruct (proj1 (Proofs.Utf8.is_text (firstn (length (http_request localhost) - 4) (http_request localhost)) ltac:(apply Proofs.Util.is_bytes_check; vm_compute; reflexivity))) as (text & T & E);
    [vm_compute; reflexivity|]. exists text. split; [vm_compute; reflexivity|]. split; assumption.
Qed.

(* The request, and what the clients are configured with: neither has anything to say about which server it talks to but its
   name, and client_client_auth has the certificate and the key shipped with it. *)
Theorem C83_request : http_request localhost = str "GET / HTTP/1.1" ++ [13; 10] ++ str "Host: localhost" ++ [10] ++ str "User-Agent: AnotherTls/0.1" ++ [13; 10; 13; 10].
Proof. vm_compute. reflexivity. Qed.
Print Assumptions C83_request.
Theorem C83_clients : 
  client_https_config = Ok {| cc_server_name := Some (str "localhost"); cc_cert := None; cc_key := None; cc_keylog := Some (str "keylog.txt") |} /\
  exists cert key, certificate_from_pem_x509 file_client_signed_cert = Ok cert /\ private_key_from_pem file_client_key = Ok key /\
    client_client_auth_config = Ok {| cc_server_name := Some (str "localhost"); cc_cert := Some cert; cc_key := Some key; cc_keylog := Some (str "keylog.txt") |}.
Proof. exact (conj Proofs.ExampleConfig.plain_client Proofs.ExampleConfig.auth_client). Qed.
Print Assumptions C83_clients.

(* ---- C84: server_client_auth says "Hello admin!" to otsmr only ---- *)
(* The files shipped with the examples make a configuration: the CA with this key, and otsmr the only name. *)
Definition shipped_ca_key : Z * Z :=
  (0x3307982182af80043e8a149a542c576d1364a92eb323099193d04afe2d76437b, 0xef73a21255f507d10d0edf50225e0abfb151127d7b77205031b2e32feeee9ae7).
Theorem C84_configuration : exists cfg ca cax, client_auth_config = Ok (cfg, PrngURandom) /\ sc_client_ca cfg = Some ca /\ ct_x509 ca = Some cax /\
  X509.get_public_key (E:=tls_error) cax = Ok (Some shipped_ca_key) /\
  sc_verify cfg = Some (common_name_is (utf8 [111; 116; 115; 109; 114])) /\ zlen (ct_raw (sc_cert cfg)) = 537 /\ sc_server_name cfg = None.
Proof. exact Proofs.ExampleConfig.configuration. Qed.
Print Assumptions C84_configuration.
(* An answer means that the client had shown a certificate signed by that key, with the common name "otsmr" and valid, and
   had signed the handshake with the key in it (Spec.Connection.authentic)... *)
Theorem C84_authenticated_partial : forall cfg p c t s r, client_auth_config = Ok (cfg, p) -> server_ok cfg (cn_draws c) -> Forall is_bytes (cn_reads c) ->
  serve cfg admin_response c = Answered t s r ->
  exists taken later hello more ch body g der r1 r2 m1 m2 others cert x,
    cn_reads c = taken ++ later /\ received (concat taken) (hello :: more) /\
    without_ccs more = r1 :: r2 :: others /\ answers cfg (cn_draws c) (r_fragment hello) ch body g /\
    from_client g 0 m1 r1 /\ from_client g 1 m2 r2 /\ presented (d_context (cn_draws c)) m1 cert /\ x509_from_raw cert = Ok x /\
    is_valid (E:=tls_error) (x_validity x) (cn_now c) = Ok true /\ signed_by shipped_ca_key cert x /\
    name_get (x_subject x) CommonName = Ok [111; 116; 115; 109; 114] /\
    proves_possession (g_alg g) x (to_server_finished cfg (cn_draws c) g der ++ m1) m2.
Proof. exact Proofs.ExampleConfig.admin. Qed.
Print Assumptions C84_authenticated_partial.
(* ... but the name is not signed: the holder of any certificate of that CA gets in (C81). *)
Theorem C84_any_holder_refuted : forall cfg p d now so hello ch body g c,
  client_auth_config = Ok (cfg, p) -> server_ok cfg d -> so_left so = None ->
  whole hello -> r_type hello = RHandshake -> answers cfg d (r_fragment hello) ch body g -> can_sign cfg d g ->
  issued shipped_ca_key c -> Z.of_nat (length (stuffed_certificate c [rdn (common [111; 116; 115; 109; 114])])) < 65536 ->
  1970 <= year (tbs_not_before (c_tbs c)) -> 1970 <= year (tbs_not_after (c_tbs c)) ->
  unix_time (tbs_not_before (c_tbs c)) <= now <= unix_time (tbs_not_after (c_tbs c)) - 86400 ->
  let_in cfg d now so hello g c (stuffed_certificate c [rdn (common [111; 116; 115; 109; 114])]).
Proof. exact Proofs.ExampleConfig.any_holder. Qed.
Print Assumptions C84_any_holder_refuted.
(* The certificate shipped for the client has the name; it is written to be valid from 2023-03-16T18:03:52Z to
   2024-03-15T18:03:52Z, and is taken to be until one day earlier (C03). *)
Theorem C84_shipped_client_refuted : exists raw x nb na, certificate_from_pem_x509 file_client_signed_cert = Ok (Cert raw (Some x)) /\
  name_get (x_subject x) CommonName = Ok [111; 116; 115; 109; 114] /\
  x_validity x = {| v_not_before := Some (Spec.X509View.as_utc nb); v_not_after := Some (Spec.X509View.as_utc na) |} /\
  nb = {| year := 2023; month := 3; day := 16; hour := 18; minute := 3; second := 52 |} /\
  na = {| year := 2024; month := 3; day := 15; hour := 18; minute := 3; second := 52 |} /\
  forall now, exists b, is_valid (E:=tls_error) (x_validity x) now = Ok b /\ (b = true <-> unix_time nb <= now <= unix_time na - 86400).
Proof. exact Proofs.ExampleConfig.client_certificate. Qed.
Print Assumptions C84_shipped_client_refuted.
(* The same for the certificate the servers show: from 2024-03-07T10:18:13Z on, a client of this library refuses them. *)
Theorem C84_shipped_server_refuted : exists cfg raw x nb na, https_config = Ok (cfg, PrngURandom) /\ ct_raw (sc_cert cfg) = raw /\ x509_from_raw raw = Ok x /\
  x_validity x = {| v_not_before := Some (Spec.X509View.as_utc nb); v_not_after := Some (Spec.X509View.as_utc na) |} /\
  nb = {| year := 2023; month := 3; day := 9; hour := 10; minute := 18; second := 12 |} /\
  na = {| year := 2024; month := 3; day := 8; hour := 10; minute := 18; second := 12 |} /\
  forall now, exists b, is_valid (E:=tls_error) (x_validity x) now = Ok b /\ (b = true <-> unix_time nb <= now <= unix_time na - 86400).
Proof. exact Proofs.ExampleConfig.server_certificate. Qed.
Print Assumptions C84_shipped_server_refuted.
(* ---- concrete cases ---- *)
(* A client sends a ClientHello and a record sealed under another key, and hangs up; the next sends half a record.  The first
   is turned away and the second ends the process; a third would not be served. *)
Example C82_ex : exists cfg d now so reads r, r_type r = RApplicationData /\ In (wire r) reads /\
  Forall (fun c => serve cfg https_response c <> Waits /\ serve cfg https_response c <> Crashed) [Conn d now so reads] /\
  forall third, serve_all cfg https_response [Conn d now so reads; Conn d now so [[22; 3; 3; 0; 5; 1; 0; 0]]; third] =
    [serve cfg https_response (Conn d now so reads); Crashed].
Proof.
  destruct Proofs.EndsExample.server_keyed as (cfg & d & now & so & before & h & p & A & P & L & N).
  destruct (Proofs.EndsExample.forged p L) as (r & W & T & D).
  destruct (C82_unkeyed_partial cfg https_response d now so before [wire r] h p A P) as (err & E).
  { constructor; [apply Proofs.EndsExample.whole_read; [exact W|exact (Proofs.EndsExample.forged_out p r _ T D)]|constructor]. }
  assert (F : Forall (fun c => serve cfg https_response c <> Waits /\ serve cfg https_response c <> Crashed) [Conn d now so (before ++ [wire r] ++ [[]])]).
  { constructor; [|constructor]. rewrite E. split; discriminate. }
  exists cfg, d, now, so, (before ++ [wire r] ++ [[]]), r.
  split; [exact T|]. split; [apply in_or_app; right; left; reflexivity|]. split; [exact F|]. intros third.
  change [Conn d now so (before ++ [wire r] ++ [[]]); Conn d now so [[22; 3; 3; 0; 5; 1; 0; 0]]; third] with
    ([Conn d now so (before ++ [wire r] ++ [[]])] ++ [Conn d now so [[22; 3; 3; 0; 5; 1; 0; 0]]; third]).
  rewrite (Proofs.Examples.serve_all_app _ _ _ _ F), C82_cut_read_refuted; [reflexivity|apply Proofs.Util.is_bytes_check; reflexivity|cbn; tauto|cbn; lia].
Qed.
(* the request a client must not send: three bytes, or "aa" followed by a byte 0xFF, and four more *)
Example C82_request_ex : (exists data : list Z, data <> [] /\ zlen data < 4) /\
  forall text end_, Forall scalar_value text -> zlen end_ = 4 -> [97; 97; 255; 13; 10; 13; 10] <> utf8 text ++ end_.
Proof.
  split; [exists [97; 98; 99]; split; [discriminate|reflexivity]|]. intros text e T L E.
  destruct e as [|e1 [|e2 [|e3 [|e4 [|]]]]]; try (unfold zlen in L; cbn [length] in L; lia).
  change [97; 97; 255; 13; 10; 13; 10] with ([97; 97; 255] ++ [13; 10; 13; 10]) in E.
  assert (Et : [97; 97; 255] = utf8 text).
  { assert (Ln : length [97; 97; 255] = length (utf8 text)) by (apply (f_equal (@length Z)) in E; rewrite !app_length in E; cbn [length] in *; lia).
    exact (proj1 (Proofs.Loopback.split_same _ _ _ _ E Ln)). }
  assert (U : X509.utf8_valid [97; 97; 255] = true).
  { apply Proofs.Utf8.is_text; [apply Proofs.Util.is_bytes_check; reflexivity|]. exists text. split; assumption. }
  vm_compute in U. discriminate.
Qed.
(* the shipped configuration is fit for use with any random numbers of the right size *)
Example C84_ex : forall cfg p d, client_auth_config = Ok (cfg, p) ->
  is_bytes (d_random d) -> length (d_random d) = 32%nat -> is_bytes (d_context d) -> length (d_context d) = 32%nat -> Forall (fun k => 0 <= k) (d_nonces d) ->
  server_ok cfg d.
Proof. intros cfg p d H. apply Proofs.ExampleConfig.the_only in H. subst cfg. exact (Proofs.ExampleConfig.configured_ok d). Qed.
