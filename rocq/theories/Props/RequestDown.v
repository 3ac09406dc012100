(* C79: the CertificateRequest messages that bring a client down. Property theorems only. *)
From Verif Require Import Model.Base Model.Alert Model.Record Model.Stream Model.Server Model.Client Spec.Enc Spec.Connection Spec.ClientConnection Spec.ClientAccept Spec.RequestPanics.
From Verif Require Proofs.RequestPanics Proofs.RequestCrash Proofs.RequestExample Proofs.ClientHandshakeExample Proofs.ServerExample Proofs.LoopbackExample Proofs.Util Model.Sha2.
From Coq Require Import Lia.

(* ---- C79: accept and connect do not panic ---- *)
(* Each CertificateRequest of Spec/RequestPanics.v brings the client down before it writes an answer *)
Theorem C79_request_refuted : forall cfg e h body, cl_request h = Some body -> is_bytes body -> request_panics body ->
  handle_certificate_request cfg e h = (h, Panic).
Proof. exact Proofs.RequestPanics.request_falls. Qed.
Print Assumptions C79_request_refuted.
(* and no other does, if the client has no certificate to present and its stream takes what it writes *)
Theorem C79_request_exact : forall cfg e h body t, cc_cert cfg = None -> cl_request h = Some body -> is_bytes body -> cl_th h = Some t ->
  (forall m, snd (cl_write h RHandshake m) <> Panic /\ cl_th (fst (cl_write h RHandshake m)) = Some t) ->
  (snd (handle_certificate_request cfg e h) = Panic <-> request_panics body).
Proof. exact Proofs.RequestPanics.request_exact. Qed.
Print Assumptions C79_request_exact.
(* so not those a client can answer (Spec/ClientAccept.v) *)
Theorem C79_proper_request : forall context body, is_bytes body -> requests_with context body -> ~ request_panics body.
Proof. exact Proofs.RequestPanics.proper_fine. Qed.
Print Assumptions C79_proper_request.

(* Each of them, sent by any server the client agrees on keys with and that conforms to RFC 8446 otherwise, brings the client down when the
   Finished message arrives, however the messages are divided among records and the records among reads *)
Theorem C79_client_request_refuted : forall cfg e now so first sh g,
    client_ok cfg e -> so_left so = None -> whole first -> r_type first = RHandshake -> agrees cfg e (r_fragment first) sh g ->
  forall parts more groups later, conforms_but_request now g (concat parts) -> zlen (concat (concat parts)) < 2^50 ->
    carry g (map (@concat Z) parts) (without_ccs more) ->
    Forall whole more -> Forall (fun r => r_type r = RApplicationData) (without_ccs more) -> zlen more < 2^50 ->
    Forall (fun gr => gr <> []) groups -> concat groups = first :: more ->
    snd (connect cfg e now so (map (fun x => concat (map wire x)) groups ++ later)) = Some Panic.
Proof. exact Proofs.RequestCrash.client_request_crash. Qed.
Print Assumptions C79_client_request_refuted.

(* an empty one, one whose context is cut short, two without room for their extensions, and one with a key_share extension, and one that is read *)
Example C79_request_ex : request_panics [] /\ request_panics [2; 7] /\ request_panics [1; 7; 0] /\ request_panics [0; 0; 4; 0; 13] /\
  request_panics [0; 0; 6; 0; 51; 0; 2; 0; 29] /\ ~ request_panics [0; 0; 8; 0; 13; 0; 4; 0; 2; 4; 3].
Proof.
  split; [now apply rq_empty|]. split; [eapply rq_context; [reflexivity|reflexivity]|]. split; [apply (rq_short _ [7] [0]); reflexivity|].
  split; [apply (rq_cut _ [] 0 4 [0; 13]); reflexivity|]. split.
  - apply (rq_stub _ [] 0 6 [0; 51; 0; 2; 0; 29] []); [reflexivity|reflexivity|]. apply stub_enter; [cbn; auto|]. apply stub_here. cbn; lia.
  - apply (C79_proper_request []); [apply Proofs.Util.is_bytes_check; reflexivity|]. exists [(13, [0; 2; 4; 3])]. split; [reflexivity|]. split; [reflexivity|]. split; [reflexivity|].
    constructor; [|constructor]. split; [cbn; lia|cbn; intuition lia].
Qed.
(* a client without certificate, with a stream that takes everything *)
Example C79_request_exact_ex : exists (cfg : client_config) (e : client_draws) h body t, cc_cert cfg = None /\ cl_request h = Some body /\ is_bytes body /\ cl_th h = Some t /\
  forall m, snd (cl_write h RHandshake m) <> Panic /\ cl_th (fst (cl_write h RHandshake m)) = Some t.
Proof.
  exists {| cc_server_name := None; cc_cert := None; cc_key := None; cc_keylog := None |}, (Proofs.LoopbackExample.lb_client_draws 1).
  exists (cl_with_request (cl_with_th (client_new (Proofs.LoopbackExample.lb_client_draws 1) Proofs.ClientHandshakeExample.ex_out) (Sha2.th_new Sha2.SHA256)) [1; 7; 0]), [1; 7; 0]. eexists.
  split; [reflexivity|]. split; [reflexivity|]. split; [apply Proofs.Util.is_bytes_check; reflexivity|]. split; [reflexivity|].
  intros m. unfold cl_write, write_record, protect. cbn [cl_with_request cl_with_th client_new cl_stream stream_new st_protection st_sock st_buffer sbind]. unfold flush.
  destruct (Nat.leb 2048 _); (split; [cbn; discriminate|reflexivity]).
Qed.
(* a server that sends the one with a key_share extension *)
Example C79_client_request_ex : exists cfg e first sh g parts more,
  client_ok cfg e /\ whole first /\ r_type first = RHandshake /\ agrees cfg e (r_fragment first) sh g /\
  conforms_but_request Proofs.ServerExample.own_now g (concat parts) /\ zlen (concat (concat parts)) < 2^50 /\ carry g (map (@concat Z) parts) (without_ccs more) /\
  Forall whole more /\ Forall (fun r => r_type r = RApplicationData) (without_ccs more) /\ zlen more < 2^50 /\
  snd (connect cfg e Proofs.ServerExample.own_now Proofs.ClientHandshakeExample.ex_out (map (fun x => concat (map wire x)) [first :: more])) = Some Panic.
Proof.
  destruct (Proofs.RequestExample.conforming [0; 0; 6; 0; 51; 0; 2; 0; 29]) as (cfg & e & first & sh & g & parts & more & H1 & H2 & H3 & H4 & H5 & H6 & H7 & H8 & H9 & H10);
    [apply Proofs.Util.is_bytes_check; reflexivity|reflexivity|apply C79_request_ex|].
  exists cfg, e, first, sh, g, parts, more. do 10 (split; [assumption|]).
  refine (C79_client_request_refuted cfg e Proofs.ServerExample.own_now Proofs.ClientHandshakeExample.ex_out first sh g H1 eq_refl H2 H3 H4 parts more [first :: more] [] H5 H6 H7 H8 H9 H10 _ _); [constructor; [discriminate|constructor]|cbn [concat]; apply app_nil_r].
Qed.
