(* C77, C78: what the client makes of the server's answer to its ClientHello. Property theorems only. *)
From Verif Require Import Model.Base Model.Alert Model.Suite Model.Record Model.Curve Model.Ecdsa Model.Extensions Model.Hello Model.Handshake
  Model.Stream Model.Server Model.Client Spec.Tls13Record Spec.ClientConnection Spec.HelloView Spec.ServerAnswer.
From Verif Require Import Spec.Rfc8446Hello.
From Verif Require Spec.Fips180 Spec.Connection Proofs.ServerAnswer Proofs.ClientProps Proofs.ServerExample Proofs.LoopbackExample Proofs.ClientHandshakeExample Proofs.Util.
From Coq Require Import Lia.

(* the client's ClientHello record, or as much of it as the operating system took *)
Definition hello_out (cfg : client_config) (e : client_draws) : list Z := firstn (e_took e) (encode_record 22 (client_greeting cfg e)).
(* a ServerHello message as a record; m and the compression byte are arbitrary *)
Definition answer (compression : Z) (m : server_hello_msg) : list Z := encode_record 22 (Rfc8446Hello.handshake 2 (hello_wire compression m)).
Definition sendable (compression : Z) (m : server_hello_msg) : Prop :=
  is_bytes (hello_wire compression m) /\ zlen (Rfc8446Hello.handshake 2 (hello_wire compression m)) < 2^16.

(* ---- C77 ---- *)
(* The client survives a HelloRetryRequest: false.  For every client, every ServerHello whose key_share extension is just a
   group - the form of a HelloRetryRequest - and whatever follows: the client panics if it knows the group, among them
   secp256r1 (23), which it offers; otherwise it refuses with illegal_parameter. *)
Theorem C77_retry_refuted : forall cfg e now so c m pre group post rest, client_ok cfg e -> so_left so = None -> sendable c m ->
  length (s_random m) = 32%nat -> (s_session_id m = [] \/ length (s_session_id m) = 32%nat) -> In (s_suite m) [0x1301; 0x1302; 0x1303] ->
  fits16 (flat_map server_extension_wire (s_extensions m)) ->
  s_extensions m = pre ++ retry_group group :: post -> Forall server_ext_ok pre -> 0 <= group < 2^16 ->
  if existsb (Z.eqb group) [23; 24; 25; 29; 30; 256; 257; 258; 259; 260]
  then snd (connect cfg e now so (answer c m :: rest)) = Some Panic
  else exists h, connect cfg e now so (answer c m :: rest) = (h, Some (Err IllegalParameter)) /\
    so_sent (st_sock (cl_stream h)) = so_sent so ++ hello_out cfg e ++ [21; 3; 3; 0; 2; 2; 47].
Proof.
  intros cfg e now so c m pre g post rest H1 H2 (H3 & H4).
  exact (fun a b d x y z w => Proofs.ServerAnswer.retry_final cfg e now so c m pre g post rest H1 H2 H3 H4 a b d x y z w).
Qed.
Print Assumptions C77_retry_refuted.
(* The HelloRetryRequest of a server that wants the group 23 (or 0x1D00, which the client does not know) *)
Definition retry (group : Z) : server_hello_msg :=
  {| s_random := retry_random; s_session_id := repeat 6 32; s_suite := 0x1301; s_extensions := [SelectedVersion 0x0304; retry_group group] |}.
(* SHA-256 of "HelloRetryRequest" *)
Example C77_random : Spec.Fips180.sha256_spec [72; 101; 108; 108; 111; 82; 101; 116; 114; 121; 82; 101; 113; 117; 101; 115; 116] = retry_random.
Proof. vm_compute. reflexivity. Qed.
Example C77_ex : forall rest,
  snd (connect (LoopbackExample.lb_client true) (LoopbackExample.lb_client_draws 1) ServerExample.own_now ClientHandshakeExample.ex_out (answer 0 (retry 23) :: rest)) = Some Panic /\
  exists h, connect (LoopbackExample.lb_client true) (LoopbackExample.lb_client_draws 1) ServerExample.own_now ClientHandshakeExample.ex_out (answer 0 (retry 0x1D00) :: rest) =
    (h, Some (Err IllegalParameter)).
Proof.
  intros rest. assert (Ok' : client_ok (LoopbackExample.lb_client true) (LoopbackExample.lb_client_draws 1)) by (apply LoopbackExample.lb_client_ok; lia).
  assert (S : forall g, In g [23; 0x1D00] -> sendable 0 (retry g)).
  { intros g [<-|[<-|[]]]; split; try (apply Proofs.Util.is_bytes_check; vm_compute; reflexivity); vm_compute; reflexivity. }
  split.
  - apply (C77_retry_refuted _ _ ServerExample.own_now ClientHandshakeExample.ex_out 0 (retry 23) [SelectedVersion 0x0304] 23 [] rest Ok' eq_refl (S 23 ltac:(cbn; auto)));
      [reflexivity|right; reflexivity|left; reflexivity|vm_compute; reflexivity|reflexivity| |lia]. constructor; [cbn; unfold code16; lia|constructor].
  - destruct (C77_retry_refuted _ _ ServerExample.own_now ClientHandshakeExample.ex_out 0 (retry 0x1D00) [SelectedVersion 0x0304] 0x1D00 [] rest Ok' eq_refl (S 0x1D00 ltac:(cbn; auto))) as (h & E & _);
      [reflexivity|right; reflexivity|left; reflexivity|vm_compute; reflexivity|reflexivity| |lia|].
    + constructor; [cbn; unfold code16; lia|constructor].
    + exists h. exact E.
Qed.

(* ---- C78 ---- *)
(* A ServerHello that selects anything the client has not offered - another suite, another version or none, a share of
   another group or none - is refused with one fatal alert and nothing else, for every client and every such message. *)
Theorem C78_not_offered_refused : forall cfg e now so c m rest, client_ok cfg e -> so_left so = None -> sendable c m ->
  server_hello_ok m -> ~ selects_offered m ->
  exists er code h, In (er, code) [(InsufficientSecurity, 71); (ProtocolVersion, 70); (HandshakeFailure, 40); (IllegalParameter, 47)] /\
    connect cfg e now so (answer c m :: rest) = (h, Some (Err er)) /\
    so_sent (st_sock (cl_stream h)) = so_sent so ++ hello_out cfg e ++ [21; 3; 3; 0; 2; 2; code].
Proof.
  intros cfg e now so c m rest H1 H2 (H3 & H4). exact (Proofs.ServerAnswer.not_offered_final cfg e now so c m rest H1 H2 H3 H4).
Qed.
Print Assumptions C78_not_offered_refused.
(* Whatever bytes arrive, in whatever pieces: if connect succeeds, then one of the three offered suites, TLS 1.3 and X25519
   were selected, by a ServerHello that is a whole record of what arrived. *)
Theorem C78_established_selects_offered : forall cfg e now so reads h, client_ok cfg e -> is_bytes (concat reads) -> zlen (concat reads) < 2^25 ->
  connect cfg e now so reads = (h, Some (Ok tt)) ->
  exists first sh g share, within (concat reads) first /\ r_type first = RHandshake /\ agrees cfg e (r_fragment first) sh g /\
    In (suite_u16 (sh_suite sh)) [0x1301; 0x1302; 0x1303] /\ server_tls13 (sh_exts sh) = true /\
    used_share (sh_exts sh) share /\ ks_group share = X25519g.
Proof.
  intros cfg e now so reads h H1 H2 H3 H4.
  destruct (Proofs.ClientProps.authenticated cfg e now so reads h H1 H2 H3 H4) as (first & sh & g & ? & ? & ? & ? & ? & ? & ? & ? & W & T & A & _).
  destruct (Proofs.ServerAnswer.agrees_offered cfg e _ sh g A) as (A1 & A2 & share & A3 & A4). exists first, sh, g, share. now repeat split.
Qed.
Print Assumptions C78_established_selects_offered.
(* The client checks legacy_session_id_echo and legacy_compression_method (4.1.3: "A client which receives a
   legacy_session_id_echo field that does not match what it sent MUST abort"): false.  Every ServerHello that selects what
   was offered is taken, with any session id and any compression byte: the client goes on, with keys, and sends nothing. *)
Theorem C78_echo_refuted : forall cfg e now so c m key, client_ok cfg e -> so_left so = None -> sendable c m ->
  server_hello_ok m -> selects_offered m -> first_share (s_extensions m) = Some (29, key) -> (length key <= 32)%nat -> is_bytes key ->
  exists h p, connect cfg e now so [answer c m] = (h, None) /\
    st_protection (cl_stream h) = Some p /\ so_sent (st_sock (cl_stream h)) = so_sent so ++ hello_out cfg e.
Proof.
  intros cfg e now so c m key H1 H2 (H3 & H4). exact (Proofs.ServerAnswer.offered_final cfg e now so c m key H1 H2 H3 H4).
Qed.
Print Assumptions C78_echo_refuted.
(* Answers: one that selects secp256r1, one without a version, one that echoes another session id (the client sent 32 times
   6) and names the compression method 1 *)
Definition ex_answer (sid : list Z) (exts : list server_extension) : server_hello_msg :=
  {| s_random := repeat 3 32; s_session_id := sid; s_suite := 0x1301; s_extensions := exts |}.
Definition bad_group := ex_answer (repeat 6 32) [SelectedVersion 0x0304; SelectedShare (23, repeat 4 65)].
Definition no_version := ex_answer (repeat 6 32) [SelectedShare (29, repeat 4 32)].
Definition bad_echo := ex_answer [] [SelectedVersion 0x0304; SelectedShare (29, repeat 9 32)].
Example C78_ex : let cfg := LoopbackExample.lb_client true in let e := LoopbackExample.lb_client_draws 1 in
  client_ok cfg e /\ e_session e <> s_session_id bad_echo /\
  (server_hello_ok bad_group /\ sendable 0 bad_group /\ ~ selects_offered bad_group) /\
  (server_hello_ok no_version /\ sendable 0 no_version /\ ~ selects_offered no_version) /\
  (server_hello_ok bad_echo /\ sendable 1 bad_echo /\ selects_offered bad_echo).
Proof.
  intros cfg e. assert (V : forall sid exts, (sid = [] \/ length sid = 32%nat) -> fits16 (flat_map server_extension_wire exts) -> Forall server_ext_ok exts -> server_hello_ok (ex_answer sid exts)).
  { intros. split; [reflexivity|]. split; [assumption|]. split; [cbn; unfold code16; lia|]. now split. }
  split; [apply LoopbackExample.lb_client_ok; lia|]. split; [discriminate|].
  split; [|split]; (split; [apply V; [now (left + right)|vm_compute; reflexivity|repeat constructor; vm_compute; intuition congruence]|]);
    (split; [split; [apply Proofs.Util.is_bytes_check; vm_compute; reflexivity|vm_compute; reflexivity]|]).
  - intros (_ & _ & k & K). discriminate K.
  - intros (_ & K & _). discriminate K.
  - split; [left; reflexivity|]. split; [reflexivity|]. now exists (repeat 9 32).
Qed.
