(* C90: how much an end reads before the handshake is over *)
From Verif Require Import Model.Base Model.Alert Model.Suite Model.KeySchedule Model.Record Model.Handshake Model.Certificate Model.Stream Model.Server Model.Client Model.ClientMemory
  Spec.Rfc8446Keys Spec.Tls13Record Spec.Connection Spec.ClientConnection Spec.Handshaking.
From Verif Require Spec.Rfc8446Hello.
From Verif Require Import Proofs.Util.
From Verif Require Proofs.Bounded Proofs.Endless Proofs.ClientMemory Proofs.ServerExample Proofs.HandshakeExample Proofs.ClientHandshakeExample Proofs.LoopbackExample Proofs.Loopback
  Proofs.Reads Proofs.ClientReads.
From Coq Require Import Lia.

Definition parses (r : record) : Prop := record_from_raw (wire r) = Ok (length (wire r), r).
(* a client still reading after `before`, which delivered whole records and no alert *)
Definition waits cfg e now so recs before h : Prop :=
  delivers recs before /\ Forall parses recs /\ Forall (fun r => r_type r <> RAlert) recs /\ connect cfg e now so before = (h, None).

(* ---- the server ---- *)
(* A server that still waits has read whole records only, and beside change_cipher_spec records at most one without a client CA,
   at most three with one; or it has a client CA, has refused the client and never accepts the connection. *)
Theorem C90_server_bounded_partial : forall cfg d now so reads h, Forall is_bytes reads -> accept cfg d now so reads = (h, None) ->
  exists groups, reads = map bytes_of groups /\ Forall (fun x => x <> []) groups /\ received (concat reads) (concat groups) /\
    ((length (without_ccs (concat groups)) <= match sc_client_ca cfg with None => 1 | Some _ => 3 end)%nat \/
     sc_client_ca cfg <> None /\ forall more h', Forall is_bytes more -> accept cfg d now so (reads ++ more) <> (h', Some (Ok tt))).
Proof. exact Proofs.Bounded.server_bounded. Qed.
Print Assumptions C90_server_bounded_partial.
(* What is missing is false.  A server that asks for a certificate and gets an empty Certificate message keeps reading such
   messages: n protected records after the ClientHello, and it still waits. *)
Theorem C90_server_refused_refuted : forall cfg d now so hello ch body g,
  server_ok cfg d -> zlen (ct_raw (sc_cert cfg)) < 2^16 - 64 -> so_left so = None -> sc_client_ca cfg <> None ->
  parses hello /\ is_bytes (wire hello) -> r_type hello = RHandshake -> answers cfg d (r_fragment hello) ch body g -> can_sign cfg d g ->
  forall n, Z.of_nat n < 2^64 - 1 -> exists recs h,
    carry_client g (repeat (Rfc8446Hello.handshake 11 (Rfc8446Hello.vector8 (d_context d) ++ Rfc8446Hello.vector24 [])) n) recs /\
    Forall (fun r => parses r /\ is_bytes (wire r)) recs /\ Forall (fun r => r_type r = RApplicationData) recs /\
    accept cfg d now so (wire hello :: map wire recs) = (h, None).
Proof. exact Proofs.Endless.server_endless. Qed.
Print Assumptions C90_server_refused_refuted.
(* change_cipher_spec records keep it waiting as well, whatever the configuration *)
Theorem C90_server_ccs_refuted : forall cfg d now so hello ccs h n,
  parses hello -> is_ccs hello = false -> parses ccs -> is_ccs ccs = true -> accept cfg d now so [wire hello] = (h, None) ->
  accept cfg d now so (wire hello :: repeat (wire ccs) n) = (h, None).
Proof. exact Proofs.ClientMemory.server_ccs. Qed.
Print Assumptions C90_server_ccs_refuted.

(* ---- the client ---- *)
(* Protected handshake records with nothing in them: n of them after the ServerHello, and the client still waits. *)
Theorem C90_client_empty_refuted : forall cfg e now so first sh g,
  client_ok cfg e -> so_left so = None -> parses first /\ is_bytes (wire first) -> r_type first = RHandshake -> agrees cfg e (r_fragment first) sh g ->
  forall n, Z.of_nat n < 2^64 -> exists recs h, carry g (repeat [] n) recs /\
    Forall (fun r => parses r /\ is_bytes (wire r)) recs /\ Forall (fun r => r_type r = RApplicationData) recs /\
    connect cfg e now so (wire first :: map wire recs) = (h, None).
Proof. exact Proofs.Endless.client_endless_empty. Qed.
Print Assumptions C90_client_empty_refuted.
(* EncryptedExtensions and n CertificateRequest messages, of which RFC 8446 allows one. *)
Theorem C90_client_requests_refuted : forall cfg e now so first sh g extensions request,
  client_ok cfg e -> so_left so = None -> parses first /\ is_bytes (wire first) -> r_type first = RHandshake -> agrees cfg e (r_fragment first) sh g ->
  is_bytes extensions -> zlen extensions + 21 < 2^16 -> is_bytes request -> zlen request + 21 < 2^16 ->
  forall n, Z.of_nat n < 2^64 - 1 -> exists ee recs h,
    carry g (Rfc8446Hello.handshake 8 extensions :: repeat (Rfc8446Hello.handshake 13 request) n) (ee :: recs) /\
    Forall (fun r => parses r /\ is_bytes (wire r)) (ee :: recs) /\ Forall (fun r => r_type r = RApplicationData) (ee :: recs) /\
    connect cfg e now so (wire first :: wire ee :: map wire recs) = (h, None).
Proof. exact Proofs.Endless.client_endless_requests. Qed.
Print Assumptions C90_client_requests_refuted.
Theorem C90_client_ccs_refuted : forall cfg e now so hello ccs h n,
  parses hello -> is_ccs hello = false -> parses ccs -> is_ccs ccs = true -> connect cfg e now so [wire hello] = (h, None) ->
  connect cfg e now so (wire hello :: repeat (wire ccs) n) = (h, None).
Proof. exact Proofs.ClientMemory.client_ccs. Qed.
Print Assumptions C90_client_ccs_refuted.

(* ---- what the client keeps of the bytes it has read ---- *)
(* connect_kept is that buffer: with it and the state of the handshake, the next reads are answered as by the same connection. *)
Theorem C90_client_memory : forall cfg e now so reads h more, connect cfg e now so reads = (h, None) ->
  connect cfg e now so (reads ++ more) =
  match client_reads cfg e now h (connect_kept cfg e now so reads) more with
  | (h, Some (Err er)) => let (s, r) := report_error (cl_stream h) er in (cl_with_stream h s, Some r)
  | r => r
  end.
Proof. exact Proofs.ClientMemory.kept_is_all. Qed.
Print Assumptions C90_client_memory.
(* As long as the reads end well (Spec/Handshaking.v) the client keeps, after any of them, no more than a part of one record. *)
Theorem C90_client_memory_partial : forall cfg e now so recs reads k h,
  delivers recs reads -> Forall parses recs -> Forall (fun r => r_type r <> RAlert) recs -> connect cfg e now so (firstn k reads) = (h, None) ->
  let kept := connect_kept cfg e now so (firstn k reads) in
  kept = [] \/ exists r rest, In r recs /\ wire r = kept ++ rest /\ rest <> [].
Proof. exact Proofs.ClientMemory.kept_bounded. Qed.
Print Assumptions C90_client_memory_partial.
(* Otherwise the buffer grows without end: all bytes from a record type it does not know on, *)
Theorem C90_client_memory_unknown_refuted : forall cfg e now so recs before h t x more,
  waits cfg e now so recs before h -> ~ In t [0; 20; 21; 22; 23] -> Forall (fun m => m <> []) more ->
  connect cfg e now so (before ++ (t :: x) :: more) = (h, None) /\ connect_kept cfg e now so (before ++ (t :: x) :: more) = (t :: x) ++ concat more.
Proof.
  intros cfg e now so recs before h t x more (D & P & A & W) N F. apply (Proofs.ClientMemory.kept_unknown cfg e now so recs before h t x more D P A W); [|exact F].
  unfold rt_new. cbn [In] in N. repeat match goal with |- context [?a =? ?b] => destruct (Z.eqb_spec a b); [exfalso; apply N; subst; tauto|] end. reflexivity.
Qed.
Print Assumptions C90_client_memory_unknown_refuted.
(* and all bytes of records that were handled long ago, if every read ends in the next record: here n change_cipher_spec
   records 20 3 3 0 1 1 and the beginning of another. *)
Theorem C90_client_memory_handled_refuted : forall cfg e now so recs before h n, waits cfg e now so recs before h -> recs <> [] ->
  let more := [20; 3; 3] :: repeat [0; 1; 1; 20; 3; 3] n in
  connect cfg e now so (before ++ more) = (h, None) /\ connect_kept cfg e now so (before ++ more) = concat more.
Proof. intros cfg e now so recs before h n (D & P & A & W) NE. exact (Proofs.ClientMemory.kept_ccs cfg e now so recs before h n D P A NE W). Qed.
Print Assumptions C90_client_memory_handled_refuted.

(* ---- non-vacuity ---- *)
Definition ex_ccs : record := {| r_type := RChangeCipherSpec; r_version := 0x0303; r_len := 1; r_header := [20; 3; 3; 0; 1]; r_fragment := [1] |}.
Example C90_server_ex : exists cfg d now so hello ch body g h, server_ok cfg d /\ zlen (ct_raw (sc_cert cfg)) < 2^16 - 64 /\ so_left so = None /\ sc_client_ca cfg <> None /\
  (parses hello /\ is_bytes (wire hello)) /\ r_type hello = RHandshake /\ answers cfg d (r_fragment hello) ch body g /\ can_sign cfg d g /\
  is_ccs hello = false /\ parses ex_ccs /\ is_ccs ex_ccs = true /\ accept cfg d now so [wire hello] = (h, None) /\ Forall is_bytes [wire hello].
Proof.
  destruct (ServerExample.ex_answered true) as (body & g & A).
  assert (Bf : is_bytes ServerExample.ex_first) by (apply is_bytes_check; vm_compute; reflexivity).
  assert (Lf : zlen ServerExample.ex_first < 2^16) by (vm_compute; reflexivity).
  destruct (ServerExample.hello_record ServerExample.ex_first Bf Lf) as (hello & Wh & Th & Fh). rewrite <- Fh in A.
  assert (L : zlen (ct_raw (sc_cert (ServerExample.ex_cfg true))) < 2^16 - 64) by (vm_compute; reflexivity).
  destruct (Proofs.Endless.hello_listens (ServerExample.ex_cfg true) ServerExample.ex_draws ServerExample.own_now ServerExample.ex_sock hello _ body g
    (ServerExample.ex_server_ok true) L eq_refl Wh Th A (ServerExample.ex_can_sign true g) ltac:(discriminate)) as (h & p & E & _).
  exists (ServerExample.ex_cfg true), ServerExample.ex_draws, ServerExample.own_now, ServerExample.ex_sock, hello. eexists _, body, g, h.
  split; [apply ServerExample.ex_server_ok|]. split; [exact L|]. split; [reflexivity|]. split; [discriminate|]. split; [exact Wh|]. split; [exact Th|]. split; [exact A|].
  split; [apply ServerExample.ex_can_sign|]. split; [unfold is_ccs; now rewrite Th|]. split; [vm_compute; reflexivity|]. split; [reflexivity|]. split; [exact E|].
  constructor; [apply Wh|constructor].
Qed.
Example C90_client_ex : exists cfg e now so first sh g h, client_ok cfg e /\ so_left so = None /\ (parses first /\ is_bytes (wire first)) /\ r_type first = RHandshake /\
  agrees cfg e (r_fragment first) sh g /\ is_ccs first = false /\ waits cfg e now so [first] [wire first] h /\ [first] <> [].
Proof.
  destruct (Proofs.LoopbackExample.lb_compatible true) as (k & k' & _ & _ & C).
  destruct (Proofs.Loopback.conforming _ _ _ _ _ C) as (first & sh & g & parts & more & H1 & H2 & H3 & _).
  assert (Ok' : client_ok (LoopbackExample.lb_client true) (LoopbackExample.lb_client_draws k')) by apply C.
  destruct (Proofs.Endless.client_keyed (LoopbackExample.lb_client true) (LoopbackExample.lb_client_draws k') ServerExample.own_now {| so_sent := []; so_left := None |} first sh g
    Ok' eq_refl H1 H2 H3) as (h & (D & P & A & N & E & _) & _).
  exists (LoopbackExample.lb_client true), (LoopbackExample.lb_client_draws k'), ServerExample.own_now, {| so_sent := []; so_left := None |}, first, sh, g, h.
  split; [exact Ok'|]. split; [reflexivity|]. split; [exact H1|]. split; [exact H2|]. split; [exact H3|]. split; [unfold is_ccs; now rewrite H2|].
  split; [exact (conj D (conj P (conj A E)))|discriminate].
Qed.
