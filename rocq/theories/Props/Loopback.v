(* C44, C45: a client and a server of this library finish a handshake with each other and talk; what the client does not ask of
   the server's certificate.  compatible (Spec.Loopback) lists what is required of the two ends. *)
From Verif Require Import Model.Base Model.Alert Model.Curve Model.Ecdsa Model.X509 Model.Record Model.Certificate Model.Stream Model.AppChannel Model.Server Model.Client
  Spec.Tls13Record Spec.Endpoints Spec.Connection Spec.Handshaking Spec.Loopback.
From Verif Require Spec.Ecdsa Proofs.Loopback Proofs.LoopbackExample Proofs.ServerExample Proofs.Stream.
From Coq Require Import Lia.

(* ---- C44 ---- *)
(* One read per write: the client, given nothing, sends `hello` and waits; the server, given that, sends `flight` and waits; the
   client, given that, returns a connection after sending `reply`; the server, given that too, returns a connection.  The two
   hold the same application traffic keys for the same cipher in opposite roles.  Every segment fits the buffer its reader
   uses (4096 bytes at the server, 2048 at the client).
   Missing: key shares that begin with a zero byte and signatures with a number below 2^248 (the handshake fails, see C32
   and C06), a certificate of more than 1500 bytes or a name of more than 3500 (the flight or the hello need not fit the reader's buffer). *)
Theorem C44_handshake_partial : forall cfgs d cfgc e now, compatible cfgs d cfgc e now ->
  exists c0 s1 c1 s2 pc ps,
    let hello := so_sent (st_sock (cl_stream c0)) in
    let flight := so_sent (st_sock (sv_stream s1)) in
    let reply := skipn (length hello) (so_sent (st_sock (cl_stream c1))) in
    (connect cfgc e now fresh [] = (c0, None) /\ accept cfgs d now fresh [hello] = (s1, None) /\
     connect cfgc e now fresh [flight] = (c1, Some (Ok tt)) /\ accept cfgs d now fresh [hello; reply] = (s2, Some (Ok tt))) /\
    (zlen hello <= 4096 /\ zlen flight <= 2048 /\ zlen reply <= 4096) /\
    st_protection (cl_stream c1) = Some pc /\ st_protection (sv_stream s2) = Some ps /\ rp_is_client pc = true /\ rp_is_client ps = false /\
    rp_cipher pc = rp_cipher ps /\ rp_application pc = rp_application ps /\ rp_application pc <> None.
Proof.
  intros cfgs d cfgc e now C. destruct (Proofs.Loopback.loopback cfgs d cfgc e now C) as (c0 & s1 & c1 & s2 & pc & ps & H1 & H2 & _ & H3 & _).
  exists c0, s1, c1, s2, pc, ps. exact (conj H1 (conj H2 H3)).
Qed.
Print Assumptions C44_handshake_partial.

(* And then they can talk: any interleaving of writes of at most 4074 bytes and reads, in both directions, succeeds on the
   two connections, and what each side reads is what the other wrote, in order (one segment per write, as in C49). *)
Definition event_ok (ev : app_event) : Prop :=
  match ev with AWrite _ d => is_bytes d /\ zlen d <= 4074 | ARead _ cap => 4074 <= Z.of_nat cap end.
Theorem C44_conversation_partial : forall cfgs d cfgc e now, compatible cfgs d cfgc e now ->
  exists c0 s1 c1 s2,
    let hello := so_sent (st_sock (cl_stream c0)) in
    let flight := so_sent (st_sock (sv_stream s1)) in
    let reply := skipn (length hello) (so_sent (st_sock (cl_stream c1))) in
    (connect cfgc e now fresh [] = (c0, None) /\ accept cfgs d now fresh [hello] = (s1, None) /\
     connect cfgc e now fresh [flight] = (c1, Some (Ok tt)) /\ accept cfgs d now fresh [hello; reply] = (s2, Some (Ok tt))) /\
    forall events, Forall event_ok events -> zlen events < 2^64 ->
      exists a waiting_c waiting_s, app_run (App (cl_stream c1) (sv_stream s2) [] [] [] []) events = Some a /\
        written_by true events = ap_at_server a ++ waiting_c /\ length waiting_c = length (ap_c2s a) /\
        written_by false events = ap_at_client a ++ waiting_s /\ length waiting_s = length (ap_s2c a).
Proof.
  intros cfgs d cfgc e now C. destruct (Proofs.Loopback.loopback cfgs d cfgc e now C) as (c0 & s1 & c1 & s2 & pc & ps & H1 & _ & _ & (Pc & Ps & _) & Pa & Q & Nc & Ns).
  exists c0, s1, c1, s2. split; [exact H1|]. intros events Ev L. apply (Proofs.Stream.app_history _ _ pc ps); try assumption. intros b. rewrite Q. exact L.
Qed.
Print Assumptions C44_conversation_partial.

(* However the segments are cut and joined on the way.  hello, flight and reply are the records the two ends send; certificates
   and the name have up to 65000 bytes.  The client gets the flight in any delivery of C50: several records in a read or
   one record in several reads, if at the end of no read one to three bytes of a record are missing and no read both ends one cut
   record and begins another.  The server gets the reply in reads of whole records, however many in each.  Both return a
   connection, always the same one, and the two can then talk as above.
   Missing: key shares that begin with a zero byte, signatures with a number below 2^248; for other deliveries see C50. *)
Theorem C44_any_delivery_partial : forall cfgs d cfgc e now, compatible_up_to 65000 65000 65000 cfgs d cfgc e now ->
  exists c0 s1 c1 s2 pc ps hello flight reply,
    (connect cfgc e now fresh [] = (c0, None) /\ so_sent (st_sock (cl_stream c0)) = wire hello) /\
    (accept cfgs d now fresh [wire hello] = (s1, None) /\ so_sent (st_sock (sv_stream s1)) = bytes_of flight) /\
    Forall (fun r => record_from_raw (wire r) = Ok (length (wire r), r)) (hello :: flight ++ reply) /\
    (forall reads, delivers flight reads -> connect cfgc e now fresh reads = (c1, Some (Ok tt))) /\ so_sent (st_sock (cl_stream c1)) = wire hello ++ bytes_of reply /\
    (forall groups, Forall (fun x => x <> []) groups -> concat groups = reply -> accept cfgs d now fresh (wire hello :: map bytes_of groups) = (s2, Some (Ok tt))) /\
    (st_protection (cl_stream c1) = Some pc /\ st_protection (sv_stream s2) = Some ps /\ rp_is_client pc = true /\ rp_is_client ps = false /\
     rp_cipher pc = rp_cipher ps /\ rp_application pc = rp_application ps /\ rp_application pc <> None) /\
    forall events, Forall event_ok events -> zlen events < 2^64 ->
      exists a waiting_c waiting_s, app_run (App (cl_stream c1) (sv_stream s2) [] [] [] []) events = Some a /\
        written_by true events = ap_at_server a ++ waiting_c /\ length waiting_c = length (ap_c2s a) /\
        written_by false events = ap_at_client a ++ waiting_s /\ length waiting_s = length (ap_s2c a).
Proof.
  intros cfgs d cfgc e now C. destruct (Proofs.Loopback.loopback_wide 65000 65000 65000 cfgs d cfgc e now ltac:(lia) ltac:(lia) ltac:(lia) C)
    as (c0 & s1 & c1 & s2 & pc & ps & hello & flight & reply & H0 & H1 & (P & _) & (H2 & H3) & H4 & _ & _ & K & Pa & Q & Nc & Ns).
  exists c0, s1, c1, s2, pc, ps, hello, flight, reply. split; [exact H0|]. split; [exact H1|]. split; [exact P|]. split; [exact H2|]. split; [exact H3|]. split; [exact H4|].
  split; [exact K|]. destruct K as (Pc & Ps & _).
  intros events Ev L. apply (Proofs.Stream.app_history _ _ pc ps); try assumption. intros b. rewrite Q. exact L.
Qed.
Print Assumptions C44_any_delivery_partial.
(* and neither end returns before it has all of it: with the last read still to come both wait *)
Theorem C44_waits_partial : forall cfgs d cfgc e now, compatible_up_to 65000 65000 65000 cfgs d cfgc e now ->
  exists c0 s1 c1 hello flight reply,
    (connect cfgc e now fresh [] = (c0, None) /\ so_sent (st_sock (cl_stream c0)) = wire hello) /\
    (accept cfgs d now fresh [wire hello] = (s1, None) /\ so_sent (st_sock (sv_stream s1)) = bytes_of flight) /\
    (connect cfgc e now fresh [bytes_of flight] = (c1, Some (Ok tt)) /\ so_sent (st_sock (cl_stream c1)) = wire hello ++ bytes_of reply) /\
    (forall reads last, delivers flight (reads ++ [last]) -> exists h, connect cfgc e now fresh reads = (h, None)) /\
    (forall groups last, Forall (fun x => x <> []) (groups ++ [last]) -> concat (groups ++ [last]) = reply ->
       exists h, accept cfgs d now fresh (wire hello :: map bytes_of groups) = (h, None)).
Proof.
  intros cfgs d cfgc e now C. destruct (Proofs.Loopback.loopback_short 65000 65000 65000 cfgs d cfgc e now ltac:(lia) ltac:(lia) ltac:(lia) C)
    as (c0 & s1 & c1 & s2 & pc & ps & hello & flight & reply & K1 & K2 & (_ & _ & NF & _) & (H2 & H3) & _ & _ & _ & _ & _ & _ & _ & _ & SC & SS).
  exists c0, s1, c1, hello, flight, reply. split; [exact K1|]. split; [exact K2|]. split; [split; [|exact H3]|split].
  - apply H2. pose proof (delivers_whole flight [] [] NF delivers_nil) as D. rewrite app_nil_r in D. exact D.
  - intros reads last D. apply (SC _ reads [last] D eq_refl). discriminate.
  - intros groups last N E. apply (SS _ groups [last] N E eq_refl). discriminate.
Qed.
Print Assumptions C44_waits_partial.
Example C44_any_delivery_ex : forall mutual, exists k k', In k [1; 2] /\ In k' [1; 2] /\
  compatible_up_to 65000 65000 65000 (LoopbackExample.lb_server mutual) (LoopbackExample.lb_draws k) (LoopbackExample.lb_client mutual) (LoopbackExample.lb_client_draws k') ServerExample.own_now.
Proof.
  intros mutual. destruct (Proofs.LoopbackExample.lb_compatible mutual) as (k & k' & I & I' & C). exists k, k'. split; [exact I|]. split; [exact I'|].
  exact (Proofs.Loopback.wider 1500 3500 3500 65000 65000 65000 _ _ _ _ _ ltac:(lia) ltac:(lia) ltac:(lia) C).
Qed.

(* Two ends that are compatible, with and without a client certificate: the server's key is 1 and it issued its certificate
   itself, the client asks for the name "bank.test".  The numbers drawn for signatures are 1 or 2. *)
Example C44_compatible : forall mutual, exists k k', In k [1; 2] /\ In k' [1; 2] /\
  compatible (LoopbackExample.lb_server mutual) (LoopbackExample.lb_draws k) (LoopbackExample.lb_client mutual) (LoopbackExample.lb_client_draws k') ServerExample.own_now.
Proof. exact Proofs.LoopbackExample.lb_compatible. Qed.
Example C44_event : Forall event_ok [AWrite true [1; 2; 3]; ARead true (Z.to_nat 4096); AWrite false []; ARead false (Z.to_nat 4096)].
Proof.
  repeat (apply Forall_cons || apply Forall_nil); cbn [event_ok]; try (rewrite Z2Nat.id by lia; lia).
  - split; [repeat constructor; unfold is_byte; lia|vm_compute; discriminate].
  - split; [constructor|vm_compute; discriminate].
Qed.

(* ---- C45 ---- *)
(* False of the code.  No CA or host name enters: any server that is compatible in the sense above, which says nothing about who
   issued its certificate and for what name, is accepted. *)
Theorem C45_any_server_refuted : forall cfgs d cfgc e now, compatible cfgs d cfgc e now ->
  exists hello s1 c1, accept cfgs d now fresh [hello] = (s1, None) /\ connect cfgc e now fresh [so_sent (st_sock (sv_stream s1))] = (c1, Some (Ok tt)).
Proof.
  intros cfgs d cfgc e now C. destruct (Proofs.Loopback.loopback cfgs d cfgc e now C) as (c0 & s1 & c1 & s2 & pc & ps & (_ & H1 & H2 & _) & _).
  exists (so_sent (st_sock (cl_stream c0))), s1, c1. exact (conj H1 H2).
Qed.
Print Assumptions C45_any_server_refuted.
(* For instance: a certificate with the common name "ca" that its owner signed, and a client that asked for "bank.test". *)
Theorem C45_self_signed_refuted : exists cfgs d cfgc e now x key hello s1 c1,
  sc_cert cfgs = Cert (ct_raw (sc_cert cfgs)) (Some x) /\ X509.get_public_key (E:=tls_error) x = Ok (Some key) /\
  Spec.Ecdsa.public_of (sk_secret (sc_privkey cfgs)) = Spec.Ec.Affine (fst key) (snd key) /\ signed_by key (ct_raw (sc_cert cfgs)) x /\
  n_map (x_subject x) = [(CommonName, [99; 97]); (CountryName, [68; 69])] /\ cc_server_name cfgc = Some [98; 97; 110; 107; 46; 116; 101; 115; 116] /\
  accept cfgs d now fresh [hello] = (s1, None) /\ connect cfgc e now fresh [so_sent (st_sock (sv_stream s1))] = (c1, Some (Ok tt)).
Proof.
  destruct (Proofs.LoopbackExample.lb_compatible false) as (k & k' & _ & _ & C). destruct (C45_any_server_refuted _ _ _ _ _ C) as (hello & s1 & c1 & H1 & H2).
  exists (LoopbackExample.lb_server false), (LoopbackExample.lb_draws k), (LoopbackExample.lb_client false), (LoopbackExample.lb_client_draws k'), ServerExample.own_now,
    ServerExample.own_x, (ServerExample.Gx, ServerExample.Gy), hello, s1, c1.
  split; [reflexivity|]. split; [exact ServerExample.own_public|]. split; [exact ServerExample.own_key|]. split; [exact ServerExample.own_signed|].
  split; [vm_compute; reflexivity|]. split; [reflexivity|]. exact (conj H1 H2).
Qed.
Print Assumptions C45_self_signed_refuted.
