(* C48, C49, C51, C52, C69: the stream. Property theorems only. *)
From Coq Require Import Lia.
From Verif Require Import Model.Base Model.Alert Model.Sha2 Model.Hmac Model.Suite Model.KeySchedule Model.Record Model.Channel Model.Stream
  Model.AppChannel Spec.Tls13Record Spec.Endpoints Spec.Writes Spec.Rfc8446Keys.
From Verif Require Proofs.Util Proofs.Record Proofs.Channel Proofs.Stream Proofs.ReadData.

(* ---- C48 ---- *)
(* Any list of writes and flushes, with alerts only when everything before them was flushed, on any socket: what TCP
   took is an initial part of the records in order, with nothing lost, repeated or reordered; all of it once the list
   succeeded and ended with a flush.  Errors come only from the socket. *)
Theorem C48_in_order : forall ops s ws,
  records (st_protection s) ops = Some ws -> alerts_after_flush (match st_buffer s with [] => true | _ => false end) ops ->
  exists s' r unsent, sop_run s ops = (s', r) /\
    so_sent (st_sock s') ++ unsent = so_sent (st_sock s) ++ st_buffer s ++ concat ws /\
    (r = Ok tt \/ r = Err BrokenPipe) /\
    (r = Ok tt -> unsent = st_buffer s') /\
    (so_left (st_sock s) = None -> r = Ok tt) /\
    (r = Ok tt -> forall ops', ops = ops' ++ [OFlush] -> unsent = []).
Proof.
  intros ops s ws R A. destruct (Proofs.Stream.history_writes ops s ws _ R A) as (s' & r & rest & H1 & H2 & H3 & H4 & H5 & H6).
  - destruct (st_buffer s); [reflexivity|discriminate].
  - exists s', r, rest. unfold Proofs.Stream.out in H2. rewrite app_assoc.
    split; [exact H1|]. split; [exact H2|]. split; [exact H4|]. split; [exact H3|]. split; [intros N; now apply H5|exact H6].
Qed.
Print Assumptions C48_in_order.
(* non-vacuity: three records through a socket that takes everything *)
Example C48_ex : let ops := [OWrite RHandshake [1; 2]; OFlush; OAlert HandshakeFailure; OWrite RHandshake [7]; OFlush] in
  records None ops = Some [[22; 3; 3; 0; 2; 1; 2]; [21; 3; 3; 0; 2; 2; 40]; [22; 3; 3; 0; 1; 7]] /\
  so_sent (st_sock (fst (sop_run (stream_new (Sock [] None)) ops))) =
    [22; 3; 3; 0; 2; 1; 2; 21; 3; 3; 0; 2; 2; 40; 22; 3; 3; 0; 1; 7].
Proof. split; reflexivity. Qed.

(* writing directly to TCP: the number returned is how many bytes went out, the first ones, before anything that waits in the buffer *)
Theorem C48_direct_write : forall s took buf s' r, tcp_write s took buf = (s', r) ->
  st_protection s' = st_protection s /\ st_buffer s' = st_buffer s /\
  match r with
  | Ok n => (n <= length buf)%nat /\ so_sent (st_sock s') = so_sent (st_sock s) ++ firstn n buf
  | Err e => e = BrokenPipe /\ exists n, (n < length buf)%nat /\ so_sent (st_sock s') = so_sent (st_sock s) ++ firstn n buf
  | Panic => False
  end.
Proof. exact Proofs.Stream.direct_write. Qed.
Print Assumptions C48_direct_write.
Example C48_direct_ex : tcp_write (stream_new (Sock [9] None)) 2 [1; 2; 3] = (Stream (Sock [9; 1; 2] None) None [], Ok 2%nat) /\
  tcp_write (stream_new (Sock [9] (Some 1%nat))) 2 [1; 2; 3] = (Stream (Sock [9; 1] (Some 0%nat)) None [], Err BrokenPipe).
Proof. split; reflexivity. Qed.

(* False in general: an alert overtakes every record still in the buffer, for every stream and every record that fits. *)
Theorem C48_alert_overtakes_refuted : forall s t data err p1 w p2 a,
  so_left (st_sock s) = None ->
  one_record (st_protection s) t data = Some (p1, w) ->
  one_record p1 RAlert [alert_level err; error_as_u8 err] = Some (p2, a) ->
  (length (st_buffer s) + length w < 2048)%nat ->
  exists s', sop_run s [OWrite t data; OAlert err; OFlush] = (s', Ok tt) /\
    so_sent (st_sock s') = so_sent (st_sock s) ++ a ++ st_buffer s ++ w.
Proof. exact Proofs.Stream.alert_overtakes. Qed.
Print Assumptions C48_alert_overtakes_refuted.
Example C48_overtakes_ex : so_sent (st_sock (fst (sop_run (stream_new (Sock [] None)) [OWrite RHandshake [1; 2]; OAlert HandshakeFailure; OFlush])))
  = [21; 3; 3; 0; 2; 2; 40; 22; 3; 3; 0; 2; 1; 2].
Proof. reflexivity. Qed.

(* ---- C49 ---- *)
(* With one segment per write, and writes of at most 4074 bytes: any interleaving of writes and reads in both
   directions succeeds, and the reads of each side return exactly what the other wrote, in order. *)
Definition size_ok (e : app_event) : Prop :=
  match e with AWrite _ d => is_bytes d /\ zlen d <= 4074 | ARead _ cap => 4074 <= Z.of_nat cap end.
Theorem C49_one_segment_per_write_partial : forall cs ss client server events,
  st_protection cs = Some client -> st_protection ss = Some server ->
  so_left (st_sock cs) = None -> so_left (st_sock ss) = None ->
  paired client server -> Forall size_ok events ->
  (forall side, k_seq (side_key side (cur_keys client)) + zlen events < 2^64) ->
  exists a waiting_c waiting_s, app_run (App cs ss [] [] [] []) events = Some a /\
    written_by true events = ap_at_server a ++ waiting_c /\ length waiting_c = length (ap_c2s a) /\
    written_by false events = ap_at_client a ++ waiting_s /\ length waiting_s = length (ap_s2c a).
Proof. exact Proofs.Stream.app_history. Qed.
Print Assumptions C49_one_segment_per_write_partial.

(* False when TCP joins two writes: for every pair of connected streams and every two writes, the reader gets the
   first and the second is lost without a trace: the reader's state is the one it would have had otherwise. *)
Theorem C49_joined_refuted : forall cs ss client server cap a b,
  st_protection cs = Some client -> st_protection ss = Some server ->
  so_left (st_sock cs) = None ->
  paired client server -> (forall side, k_seq (side_key side (cur_keys client)) + 2 < 2^64) ->
  is_bytes a -> zlen a + 17 < 2^16 -> (length a <= cap)%nat -> is_bytes b -> zlen b + 17 < 2^16 ->
  exists cs1 cs2 ss1 wa wb, tls_write cs a = (cs1, Ok tt) /\ tls_write cs1 b = (cs2, Ok tt) /\
    so_sent (st_sock cs2) = so_sent (st_sock cs) ++ wa ++ wb /\ wb <> [] /\
    tls_read ss cap wa = (ss1, Ok a) /\
    tls_read ss cap (wa ++ wb) = (ss1, Ok a).
Proof. exact Proofs.Stream.joined. Qed.
Print Assumptions C49_joined_refuted.

(* False when TCP splits a record: every proper part of what a write sent is an error or a panic, and nothing of it is
   kept for the next read. *)
Theorem C49_split_refuted : forall cs ss client cap a k,
  st_protection cs = Some client -> so_left (st_sock cs) = None ->
  good_cipher (rp_cipher client) -> key_ready (rp_cipher client) (side_key (rp_is_client client) (cur_keys client)) ->
  is_bytes a -> zlen a + 17 < 2^16 ->
  exists cs1 wa, tls_write cs a = (cs1, Ok tt) /\ so_sent (st_sock cs1) = so_sent (st_sock cs) ++ wa /\
    ((k < length wa)%nat -> exists r, tls_read ss cap (firstn k wa) = (ss, r) /\
      (r = Err BrokenPipe \/ r = Err DecodeError \/ r = Panic)).
Proof. exact Proofs.Stream.split_record. Qed.
Print Assumptions C49_split_refuted.

(* ---- C51 ---- *)
(* Up to 65518 bytes: one record, from which the peer's record layer obtains exactly the buffer. *)
Theorem C51_one_record_partial : forall s p peer src rest,
  st_protection s = Some p -> so_left (st_sock s) = None ->
  paired p peer \/ paired peer p -> (forall side, k_seq (side_key side (cur_keys p)) + 1 < 2^64) ->
  is_bytes src -> zlen src <= 65518 ->
  exists s' w rec peer', tls_write s src = (s', Ok tt) /\ so_sent (st_sock s') = so_sent (st_sock s) ++ w /\
    record_from_raw (w ++ rest) = Ok (length w, rec) /\ r_type rec = RApplicationData /\
    rpp_decrypt peer rec = (peer', Ok (RApplicationData, src)).
Proof. exact Proofs.Stream.one_record_ok. Qed.
Print Assumptions C51_one_record_partial.

(* False above: the length field wraps around, and the record the peer sees ends at least 65536 bytes too early. *)
Theorem C51_wraps_refuted : forall s p src,
  st_protection s = Some p -> so_left (st_sock s) = None ->
  good_cipher (rp_cipher p) -> key_ready (rp_cipher p) (side_key (rp_is_client p) (cur_keys p)) ->
  is_bytes src -> 65519 <= zlen src -> zlen src < 2^20 - 17 ->
  exists s' w n rec, tls_write s src = (s', Ok tt) /\ so_sent (st_sock s') = so_sent (st_sock s) ++ w /\
    record_from_raw w = Ok (n, rec) /\ Z.of_nat n + 65536 <= zlen w.
Proof. exact Proofs.Stream.wraps. Qed.
Print Assumptions C51_wraps_refuted.

(* And already above 4074 bytes the peer's tls_read cannot read the record, whatever part of it the first TCP read
   (of at most 4096 bytes) delivers. *)
Theorem C51_unreadable_refuted : forall s p src reader cap k,
  st_protection s = Some p -> so_left (st_sock s) = None ->
  good_cipher (rp_cipher p) -> key_ready (rp_cipher p) (side_key (rp_is_client p) (cur_keys p)) ->
  is_bytes src -> 4075 <= zlen src <= 65518 -> Z.of_nat k <= 4096 ->
  exists s' w r, tls_write s src = (s', Ok tt) /\ so_sent (st_sock s') = so_sent (st_sock s) ++ w /\
    tls_read reader cap (firstn k w) = (reader, r) /\ (r = Err BrokenPipe \/ r = Err DecodeError \/ r = Panic).
Proof. exact Proofs.Stream.unreadable. Qed.
Print Assumptions C51_unreadable_refuted.

(* ---- C52 ---- *)
Theorem C52_refused_without_keys : forall s src, st_protection s = None -> tls_write s src = (s, Err InternalError).
Proof. intros s src H. unfold tls_write. now rewrite H. Qed.
Print Assumptions C52_refused_without_keys.

(* With keys, on any socket: what reaches TCP is (an initial part of, when the socket breaks) one TLSCiphertext record;
   for ChaCha20-Poly1305 except when the buffer is 63 bytes long modulo 64. *)
Theorem C52_one_ciphertext_partial : forall s p src, let k := side_key (rp_is_client p) (cur_keys p) in
  st_protection s = Some p -> good_cipher (rp_cipher p) -> key_ready (rp_cipher p) k ->
  is_bytes src -> zlen src + 17 < 2^16 ->
  (rp_cipher p = CPoly -> ((length src + 1) mod 64 <> 0)%nat) ->
  let wire := TLSCiphertext (c_aead (rp_cipher p)) (k_key k) (k_iv k) (k_seq k) 23 src 0 in
  exists s' r took, tls_write s src = (s', r) /\
    so_sent (st_sock s') = so_sent (st_sock s) ++ firstn took wire /\ st_buffer s' = st_buffer s /\
    (r = Ok tt /\ firstn took wire = wire \/ r = Err BrokenPipe) /\
    exists p', st_protection s' = Some p' /\ side_key (rp_is_client p) (cur_keys p') = next_key k.
Proof. exact Proofs.Stream.one_ciphertext. Qed.
Print Assumptions C52_one_ciphertext_partial.

(* False for ChaCha20-Poly1305 at those lengths: 63 bytes of the buffer are on the wire in the clear. *)
Theorem C52_clear_text_refuted : forall s p prefix block,
  st_protection s = Some p -> so_left (st_sock s) = None -> rp_cipher p = CPoly ->
  key_ready (rp_cipher p) (side_key (rp_is_client p) (cur_keys p)) ->
  is_bytes (prefix ++ block) -> (length prefix mod 64 = 0)%nat -> length block = 63%nat -> zlen (prefix ++ block) + 17 < 2^16 ->
  exists s' before after, tls_write s (prefix ++ block) = (s', Ok tt) /\
    so_sent (st_sock s') = so_sent (st_sock s) ++ before ++ block ++ after.
Proof. exact Proofs.Stream.clear. Qed.
Print Assumptions C52_clear_text_refuted.

(* non-vacuity of the hypotheses on streams and keys *)
Definition ex_key (b : Z) (n : nat) : tkey := {| k_secret := []; k_key := repeat b n; k_iv := repeat (b + 1) 12; k_seq := 5 |}.
Definition ex_stream (c : cipher) (n : nat) (client : bool) : stream :=
  Stream (Sock [] None) (Some
    {| rp_schedule := {| ks_client_hs := from_prk SHA256 []; ks_server_hs := from_prk SHA256 []; ks_master := from_prk SHA256 [] |};
       rp_cipher := c; rp_handshake := {| wk_server := ex_key 1 n; wk_client := ex_key 9 n |}; rp_is_client := client;
       rp_application := None |}) [].
Example C49_ex_paired : match st_protection (ex_stream CPoly 32 true), st_protection (ex_stream CPoly 32 false) with
  | Some p, Some q => paired p q /\ key_ready CPoly (side_key true (cur_keys p)) | _, _ => False end.
Proof.
  repeat split; try (exists CHACHA20_POLY1305_SHA256; reflexivity);
    try (destruct b; apply Proofs.Util.is_bytes_check; reflexivity); try apply Proofs.Util.is_bytes_check;
    try destruct b; cbn; try reflexivity; lia.
Qed.
Example C49_ex_run :
  match app_run (App (ex_stream CPoly 32 true) (ex_stream CPoly 32 false) [] [] [] [])
          [AWrite true [1; 2]; AWrite true [3]; AWrite false []; ARead true 4096; ARead false 4096; ARead true 4096] with
  | Some a => ap_at_server a = [[1; 2]; [3]] /\ ap_at_client a = [[]]
  | None => False
  end.
Proof. vm_compute. repeat split. Qed.
(* the same two writes in one segment: the second is gone *)
Example C49_ex_joined :
  let cs2 := fst (tls_write (fst (tls_write (ex_stream CPoly 32 true) [1; 2])) [3]) in
  snd (tls_read (ex_stream CPoly 32 false) 4096 (so_sent (st_sock cs2))) = Ok [1; 2].
Proof. vm_compute. reflexivity. Qed.

(* ---- C69 ---- *)
(* Once keys are installed, what tls_read returns, whatever arrived: the content of the record at the start of what
   arrived, which carries the right tag under the peer's key and current record number and whose inner type is
   application_data; then the peer's record number is one higher and nothing else has changed. *)
Theorem C69_only_application_data : forall s p cap chunk s' data, let k := side_key (negb (rp_is_client p)) (cur_keys p) in
  st_protection s = Some p -> good_cipher (rp_cipher p) -> key_ready (rp_cipher p) k -> is_bytes chunk ->
  tls_read s cap chunk = (s', Ok data) ->
  exists n rec e tag padding, record_from_raw chunk = Ok (n, rec) /\ r_fragment rec = e ++ tag /\ length tag = 16%nat /\
    tag = aead_tag_of (c_aead (rp_cipher p)) (k_key k) (record_nonce (k_iv k) (k_seq k)) (r_header rec) e /\
    cipher_decrypt (rp_cipher p) (k_key k) (record_nonce (k_iv k) (k_seq k)) e (r_header rec) tag =
      Ok (data ++ [23] ++ repeat 0 padding) /\
    (length data <= cap)%nat /\
    s' = Stream (st_sock s) (Some (set_keys p (set_side (negb (rp_is_client p)) (cur_keys p) (next_key k)))) (st_buffer s).
Proof. exact Proofs.ReadData.read_data. Qed.
Print Assumptions C69_only_application_data.
(* Alerts, handshake messages and change_cipher_spec under the peer's key are refused, without an answer. *)
Theorem C69_other_types_refused : forall s p cap chunk n rec e tag t content padding, let k := side_key (negb (rp_is_client p)) (cur_keys p) in
  st_protection s = Some p -> key_ready (rp_cipher p) k -> t <> RInvalid -> t <> RApplicationData ->
  record_from_raw chunk = Ok (n, rec) -> r_fragment rec = e ++ tag -> length tag = 16%nat ->
  cipher_decrypt (rp_cipher p) (k_key k) (record_nonce (k_iv k) (k_seq k)) e (r_header rec) tag =
      Ok (content ++ [rt_code t] ++ repeat 0 padding) ->
  exists s', tls_read s cap chunk = (s', Err UnexpectedMessage) /\ st_sock s' = st_sock s /\ st_buffer s' = st_buffer s.
Proof. exact Proofs.ReadData.read_other. Qed.
Print Assumptions C69_other_types_refused.
(* non-vacuity: data, and an alert, from the peer *)
Example C69_ex :
  snd (tls_read (ex_stream CPoly 32 false) 4096 (so_sent (st_sock (fst (tls_write (ex_stream CPoly 32 true) [1; 2]))))) = Ok [1; 2] /\
  snd (tls_read (ex_stream CPoly 32 false) 4096 (so_sent (st_sock (fst (write_alert (ex_stream CPoly 32 true) HandshakeFailure))))) = Err UnexpectedMessage.
Proof. vm_compute. split; reflexivity. Qed.
