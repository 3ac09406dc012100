(* C75, C76: what the peer may send after the handshake. Property theorems only. *)
From Verif Require Import Model.Base Model.Alert Model.Suite Model.KeySchedule Model.Record Model.Channel Model.Stream
  Spec.Endpoints Spec.AfterHandshake.
From Verif Require Proofs.AfterHandshake Props.Stream.
Import Props.Stream.

(* ---- C75 ---- *)
(* A connection that is cut is an error, never an end of data: a read returns BrokenPipe exactly when TCP has no more
   bytes, for every stream and every state of its keys. *)
Theorem C75_cut_is_an_error : forall s cap chunk,
  snd (tls_read s cap chunk) = Err BrokenPipe <-> chunk = [].
Proof. exact Proofs.AfterHandshake.read_end. Qed.
Print Assumptions C75_cut_is_an_error.
(* The errors a read can return, for every stream and whatever arrives: neither CloseNotify nor the code of an alert
   is ever among them. *)
Theorem C75_read_errors : forall s cap chunk s' e, tls_read s cap chunk = (s', Err e) ->
  (e = BrokenPipe /\ chunk = []) \/ e = DecodeError \/ e = DecryptError \/ e = UnexpectedMessage.
Proof. exact Proofs.AfterHandshake.read_errors. Qed.
Print Assumptions C75_read_errors.
(* So the claim that the application learns of the peer's close_notify is false, for every pair of endpoints and every
   alert: the read fails just as it does for a handshake message, whatever that is. *)
Theorem C75_close_notify_refuted : forall p r s cap level description message,
  paired p r \/ paired r p -> st_protection s = Some r ->
  (forall side, k_seq (side_key side (cur_keys p)) + 1 < 2^64) -> 4074 <= Z.of_nat cap ->
  is_bytes [level; description] -> is_bytes message -> zlen message <= 4074 ->
  exists p1 w1 p2 w2, seal_all p [(RAlert, [level; description])] = Some (p1, [w1]) /\
    seal_all p [(RHandshake, message)] = Some (p2, [w2]) /\
    snd (tls_read s cap w1) = Err UnexpectedMessage /\ snd (tls_read s cap w2) = Err UnexpectedMessage.
Proof. exact Proofs.AfterHandshake.close_notify. Qed.
Print Assumptions C75_close_notify_refuted.
(* non-vacuity: the record of a close_notify that an endpoint of the library seals, read by the other endpoint; an
   empty read is the end of the connection *)
Definition ex_read (ms : list rmsg) : option (list (outcome tls_error (list Z))) :=
  match st_protection (ex_stream CPoly 32 true) with
  | Some peer =>
      match seal_all peer ms with Some (_, ws) => Some (snd (read_each (ex_stream CPoly 32 false) 4096 ws)) | None => None end
  | None => None
  end.
Example C75_ex : ex_read [(RAlert, [1; 0])] = Some [Err UnexpectedMessage] /\
  snd (tls_read (ex_stream CPoly 32 false) 4096 []) = Err BrokenPipe.
Proof. split; vm_compute; reflexivity. Qed.

(* ---- C76 ---- *)
(* The claim that messages the peer sends on its own account after the handshake (NewSessionTicket, KeyUpdate) stay
   invisible to the application is false, for every such message of every peer: the read that meets it fails. *)
Theorem C76_ticket_refuted : forall p r s cap before message after,
  paired p r \/ paired r p -> st_protection s = Some r ->
  (forall side, k_seq (side_key side (cur_keys p)) + zlen (before ++ (RHandshake, message) :: after) < 2^64) ->
  Forall fits (before ++ (RHandshake, message) :: after) -> 4074 <= Z.of_nat cap ->
  exists p' ws s' rs, seal_all p (before ++ (RHandshake, message) :: after) = Some (p', ws) /\
    read_each s cap ws = (s', rs) /\ nth_error rs (length before) = Some (Err UnexpectedMessage).
Proof. exact Proofs.AfterHandshake.ticket_seen. Qed.
Print Assumptions C76_ticket_refuted.
(* What holds: for any list of messages of any type, each in a TCP segment of its own, the calls of read return the
   application data of the peer, complete and in order, and an error at the place of every other message; nothing is
   sent, and the two endpoints go on with matching keys.  Missing: several records per segment, records over 4096
   bytes (C49, C51), and the new keys a KeyUpdate announces. *)
Theorem C76_data_between_messages_partial : forall ms p r s cap,
  paired p r \/ paired r p -> st_protection s = Some r ->
  (forall side, k_seq (side_key side (cur_keys p)) + zlen ms < 2^64) -> Forall fits ms -> 4074 <= Z.of_nat cap ->
  exists p' ws s' r', seal_all p ms = Some (p', ws) /\ Forall (fun w => (length w <= 4096)%nat) ws /\
    read_each s cap ws = (s', map told ms) /\ oks (map told ms) = data_only ms /\
    st_sock s' = st_sock s /\ st_protection s' = Some r' /\ (paired p' r' \/ paired r' p').
Proof. exact Proofs.AfterHandshake.after_handshake. Qed.
Print Assumptions C76_data_between_messages_partial.
(* non-vacuity: data, a NewSessionTicket, data, a close_notify *)
Example C76_ex : ex_read [(RApplicationData, [1; 2]); (RHandshake, [4; 0; 0; 1; 9]); (RApplicationData, [3]); (RAlert, [1; 0])] =
  Some [Ok [1; 2]; Err UnexpectedMessage; Ok [3]; Err UnexpectedMessage].
Proof. vm_compute. reflexivity. Qed.
(* these two endpoints are paired: C49_ex_paired *)
