(* C13, C14, C21-C25: key schedule and record protection. Property theorems only. *)
From Coq Require Import Lia.
From Verif Require Import Model.Base Model.Alert Model.Sha2 Model.Hmac Model.Suite Model.KeySchedule Model.Record Model.Channel
  Spec.Enc Spec.Rfc2104 Spec.Rfc8446Keys Spec.Tls13Record Spec.Endpoints.
From Verif Require Proofs.Util Proofs.Hmac Proofs.KeySchedule Proofs.Record Proofs.Channel.

(* ---- C13 ---- *)
Theorem C13_label_is_rfc8446 : forall label context n,
  (length label <= 249)%nat -> (length context <= 255)%nat -> Z.of_nat n < 2^16 ->
  hkdf_expand_label label context n = HkdfLabel label context n.
Proof. exact Proofs.KeySchedule.label_spec. Qed.
Print Assumptions C13_label_is_rfc8446.
Theorem C13_label_unambiguous : forall l1 c1 n1 l2 c2 n2,
  (length l1 <= 249)%nat -> (length c1 <= 255)%nat -> Z.of_nat n1 < 2^16 ->
  (length l2 <= 249)%nat -> (length c2 <= 255)%nat -> Z.of_nat n2 < 2^16 ->
  hkdf_expand_label l1 c1 n1 = hkdf_expand_label l2 c2 n2 -> l1 = l2 /\ c1 = c2 /\ n1 = n2.
Proof. exact Proofs.KeySchedule.label_inj. Qed.
Print Assumptions C13_label_unambiguous.
Example C13_ex : hkdf_expand_label l_key [] 16 = [0; 16; 9; 116; 108; 115; 49; 51; 32; 107; 101; 121; 0].
Proof. reflexivity. Qed.

(* ---- C14 ---- *)
Definition is_traffic_key (A : alg) (klen : nat) (secret : list Z) (k : tkey) : Prop :=
  k_secret k = secret /\ k_key k = write_key A secret klen /\ k_iv k = write_iv A secret 12 /\ k_seq k = 0.

(* An endpoint of either role, given the shared secret and the transcript of the hellos, protects with the
   RFC 8446 handshake keys and, after the transcript up to the server's Finished, with the application keys. *)
Theorem C14_traffic_keys : forall cs c t0 a A klen is_client hellos ecdhe messages,
  suite_cipher cs = Ok c -> suite_tshash cs = Ok t0 -> suite_parameters (suite_u16 cs) = Some (a, A, klen) ->
  is_bytes hellos -> zlen hellos < 2^53 -> is_bytes ecdhe -> zlen ecdhe < 2^52 ->
  is_bytes messages -> zlen messages < 2^53 ->
  exists ks r r',
    do_key_schedule (th_type t0) (th_finalize (th_update t0 hellos)) ecdhe = Some ks /\
    rpp_new (E:=tls_error) ks c is_client = Ok (Some r) /\
    is_traffic_key A klen (client_handshake_traffic_secret A ecdhe hellos) (wk_client (cur_keys r)) /\
    is_traffic_key A klen (server_handshake_traffic_secret A ecdhe hellos) (wk_server (cur_keys r)) /\
    generate_application_keys r (th_update t0 messages) = (r', Ok tt) /\
    is_traffic_key A klen (client_application_traffic_secret_0 A ecdhe messages) (wk_client (cur_keys r')) /\
    is_traffic_key A klen (server_application_traffic_secret_0 A ecdhe messages) (wk_server (cur_keys r')).
Proof.
  intros cs c t0 a A klen is_client hellos ecdhe messages E1 E2 E3 H1 H2 H3 H4 H5 H6.
  destruct (Proofs.Record.rpp_keys cs c t0 a A klen is_client hellos ecdhe E1 E2 E3 H1 H2 H3 H4)
    as (ks & r & S & N & _ & _ & K & _ & _ & G).
  destruct (G messages H5 H6) as (r' & S' & _ & _ & K' & _). exists ks, r, r'.
  rewrite K, K'. unfold is_traffic_key. cbn [wk_client wk_server Proofs.Record.rfc_traffic_key k_secret k_key k_iv k_seq].
  repeat split; assumption.
Qed.
Print Assumptions C14_traffic_keys.

(* The handshake ends with both roles holding the same pair of keys, ready to protect records. *)
Theorem C14_peers_agree : forall cs c t0 hellos ecdhe messages,
  suite_cipher cs = Ok c -> suite_tshash cs = Ok t0 ->
  is_bytes hellos -> zlen hellos < 2^53 -> is_bytes ecdhe -> zlen ecdhe < 2^52 ->
  is_bytes messages -> zlen messages < 2^53 ->
  exists ks client server client' server',
    do_key_schedule (th_type t0) (th_finalize (th_update t0 hellos)) ecdhe = Some ks /\
    rpp_new (E:=tls_error) ks c true = Ok (Some client) /\ rpp_new (E:=tls_error) ks c false = Ok (Some server) /\
    paired client server /\
    generate_application_keys client (th_update t0 messages) = (client', Ok tt) /\
    generate_application_keys server (th_update t0 messages) = (server', Ok tt) /\
    paired client' server'.
Proof. exact Proofs.Channel.peers_agree. Qed.
Print Assumptions C14_peers_agree.
(* the shared secret of RFC 8448 section 3 with some transcript hash; the expected value comes from an independent HMAC *)
Example C14_ex :
  match do_key_schedule SHA256
    [0x86;0x0c;0x06;0xed;0xc0;0x78;0x58;0xee;0x8e;0x78;0xf0;0xe7;0x42;0x8c;0x58;0xed;
     0xd6;0xb4;0x3f;0x2c;0xa3;0xe6;0xe9;0x5f;0x02;0xf0;0x63;0xcf;0x0e;0x1c;0xad;0xd8]
    [0x8b;0xd4;0x05;0x4f;0xb5;0x5b;0x9d;0x63;0xfd;0xfb;0xac;0xf9;0xf0;0x4b;0x9f;0x0d;
     0x35;0xe6;0xd6;0x3f;0x53;0x75;0x63;0xef;0xd4;0x62;0x72;0x90;0x0f;0x89;0x49;0x2d] with
  | Some ks => hk_prk (ks_client_hs ks) =
      [41; 186; 26; 183; 114; 155; 88; 75; 143; 252; 39; 48; 227; 218; 162; 32; 128; 87; 87; 158; 59; 208; 142; 190; 57; 143; 53; 79; 128; 208; 34; 32]
  | None => False
  end.
Proof. vm_compute. reflexivity. Qed.

(* ---- C21 ---- *)
(* Any number of nonces taken from a key: the RFC 8446 5.3 values of consecutive sequence numbers, all different. *)
Theorem C21_nonces : forall n k, length (k_iv k) = 12%nat -> 0 <= k_seq k -> k_seq k + Z.of_nat n < 2^64 ->
  exists nonces k', draw n k = Ok (nonces, k') /\ k_iv k' = k_iv k /\ k_seq k' = k_seq k + Z.of_nat n /\
    nonces = map (fun i => record_nonce (k_iv k) (k_seq k + Z.of_nat i)) (seq 0 n) /\ NoDup nonces.
Proof.
  intros n k L H0 H. eexists. eexists. split; [now apply Proofs.Record.draw_spec|].
  repeat split. now apply Proofs.Record.draw_nodup.
Qed.
Print Assumptions C21_nonces.
(* The counter never wraps: the library stops instead. *)
Theorem C21_no_wrap : forall n k nonces k', draw n k = Ok (nonces, k') -> n <> 0%nat ->
  k_seq k + Z.of_nat n = k_seq k' /\ k_seq k' < 2^64.
Proof. intros n k ns k' H Hn. destruct (Proofs.Record.draw_stops n k ns k' H) as [A B]. split; [lia|auto]. Qed.
Print Assumptions C21_no_wrap.
Example C21_ex :
  match draw 3 {| k_secret := []; k_key := []; k_iv := [1;2;3;4;5;6;7;8;9;10;11;12]; k_seq := 255 |} with
  | Ok (ns, _) => ns = [[1;2;3;4;5;6;7;8;9;10;11;243]; [1;2;3;4;5;6;7;8;9;10;10;12]; [1;2;3;4;5;6;7;8;9;10;10;13]]
  | _ => False
  end.
Proof. reflexivity. Qed.

(* ---- C22 ---- *)
(* Any interleaving of sends and deliveries between two endpoints with the same keys: nothing fails, and each
   side has received exactly what the other sent, in order, up to what is still in flight. *)
Theorem C22_history : forall client server events,
  paired client server ->
  Forall ev_ok events ->
  (forall side, k_seq (side_key side (cur_keys client)) + zlen events < 2^64) ->
  exists ch waiting_c waiting_s, chan_run (fresh_chan client server) events = Some ch /\
    sent_by true events = ch_at_server ch ++ waiting_c /\ length waiting_c = length (ch_c2s ch) /\
    sent_by false events = ch_at_client ch ++ waiting_s /\ length waiting_s = length (ch_s2c ch).
Proof. exact Proofs.Channel.history. Qed.
Print Assumptions C22_history.

(* The bytes on the wire are the RFC 8446 5.2 TLSCiphertext (for ChaCha20-Poly1305: unless the inner plaintext is
   a multiple of 64 bytes long, see C17). *)
Theorem C22_wire_is_rfc8446_partial : forall r t content, let k := side_key (rp_is_client r) (cur_keys r) in
  good_cipher (rp_cipher r) -> key_ready (rp_cipher r) k ->
  is_bytes content -> zlen content + 17 < 2^16 ->
  (rp_cipher r = CPoly -> ((length content + 1) mod 64 <> 0)%nat) ->
  exists r', rpp_encrypt r (record_new t content) =
    (r', Ok (TLSCiphertext (c_aead (rp_cipher r)) (k_key k) (k_iv k) (k_seq k) (rt_code t) content 0)) /\
    side_key (rp_is_client r) (cur_keys r') = next_key k.
Proof. exact Proofs.Channel.wire_is_rfc. Qed.
Print Assumptions C22_wire_is_rfc8446_partial.
(* A handshake message is protected as one: its inner type is 22 *)
Theorem C22_handshake_wire_partial : forall r content, let k := side_key (rp_is_client r) (cur_keys r) in
  good_cipher (rp_cipher r) -> key_ready (rp_cipher r) k ->
  is_bytes content -> zlen content + 17 < 2^16 ->
  (rp_cipher r = CPoly -> ((length content + 1) mod 64 <> 0)%nat) ->
  exists r', encrypt_handshake r content =
    (r', Ok (TLSCiphertext (c_aead (rp_cipher r)) (k_key k) (k_iv k) (k_seq k) 22 content 0)) /\
    side_key (rp_is_client r) (cur_keys r') = next_key k.
Proof. exact (fun r => Proofs.Channel.wire_is_rfc r RHandshake). Qed.
Print Assumptions C22_handshake_wire_partial.

(* A TLSCiphertext with any amount of zero padding, followed by any bytes, is delivered as its content. *)
Theorem C22_padding_partial : forall r t content padding rest, let k := side_key (negb (rp_is_client r)) (cur_keys r) in
  good_cipher (rp_cipher r) -> key_ready (rp_cipher r) k ->
  t <> RInvalid -> is_bytes content -> zlen content + Z.of_nat padding + 17 < 2^16 ->
  (rp_cipher r = CPoly -> ((length content + padding + 1) mod 64 <> 0)%nat) ->
  let wire := TLSCiphertext (c_aead (rp_cipher r)) (k_key k) (k_iv k) (k_seq k) (rt_code t) content padding in
  exists rec r', record_from_raw (wire ++ rest) = Ok (length wire, rec) /\
    rpp_decrypt r rec = (r', Ok (t, content)) /\
    side_key (negb (rp_is_client r)) (cur_keys r') = next_key k.
Proof. exact Proofs.Channel.padding_ok. Qed.
Print Assumptions C22_padding_partial.

Definition ex_key (b : Z) (n : nat) : tkey := {| k_secret := []; k_key := repeat b n; k_iv := repeat (b + 1) 12; k_seq := 5 |}.
Definition ex_rpp (c : cipher) (n : nat) (client : bool) : rpp :=
  {| rp_schedule := {| ks_client_hs := from_prk SHA256 []; ks_server_hs := from_prk SHA256 []; ks_master := from_prk SHA256 [] |};
     rp_cipher := c; rp_handshake := {| wk_server := ex_key 1 n; wk_client := ex_key 9 n |}; rp_is_client := client;
     rp_application := None |}.
Example C22_ex_paired : paired (ex_rpp (CGcm AES_128_GCM_SHA256) 16 true) (ex_rpp (CGcm AES_128_GCM_SHA256) 16 false).
Proof.
  repeat split; try (exists AES_128_GCM_SHA256; reflexivity);
    try (destruct b; apply Proofs.Util.is_bytes_check; reflexivity); destruct b; cbn; try reflexivity; lia.
Qed.
Example C22_ex_run :
  match chan_run (fresh_chan (ex_rpp CPoly 32 true) (ex_rpp CPoly 32 false))
          [Send true RHandshake [1; 2]; Send false RAlert [1; 0]; Send true RApplicationData [3]; Deliver true; Deliver false] with
  | Some ch => ch_at_server ch = [(RHandshake, [1; 2])] /\ ch_at_client ch = [(RAlert, [1; 0])] /\ length (ch_c2s ch) = 1%nat
  | None => False
  end.
Proof. vm_compute. repeat split. Qed.

(* ---- C23 ---- *)
(* Whatever record arrives: with at least 16 bytes of payload, content comes out only under the right tag for the
   ciphertext, the five header bytes and the nonce of the current receive number; otherwise an error. Either way
   that number is used up, and nothing else changes. *)
Theorem C23_only_authentic : forall r buf n rec, let k := side_key (negb (rp_is_client r)) (cur_keys r) in
  good_cipher (rp_cipher r) -> key_ready (rp_cipher r) k ->
  is_bytes buf -> record_from_raw buf = Ok (n, rec) ->
  forall r' t content, rpp_decrypt r rec = (r', Ok (t, content)) ->
  exists ciphertext tag,
    buf = firstn 5 buf ++ ciphertext ++ tag ++ skipn n buf /\ length tag = 16%nat /\
    tag = aead_tag_of (c_aead (rp_cipher r)) (k_key k) (record_nonce (k_iv k) (k_seq k)) (firstn 5 buf) ciphertext /\
    r' = set_keys r (set_side (negb (rp_is_client r)) (cur_keys r) (next_key k)).
Proof. exact Proofs.Channel.only_authentic. Qed.
Print Assumptions C23_only_authentic.
Theorem C23_wrong_tag_is_error : forall r rec ciphertext tag, let k := side_key (negb (rp_is_client r)) (cur_keys r) in
  good_cipher (rp_cipher r) -> key_ready (rp_cipher r) k ->
  is_bytes (r_fragment rec) -> is_bytes (r_header rec) -> zlen (r_fragment rec) < 2^16 -> length (r_header rec) = 5%nat ->
  r_fragment rec = ciphertext ++ tag -> length tag = 16%nat ->
  tag <> aead_tag_of (c_aead (rp_cipher r)) (k_key k) (record_nonce (k_iv k) (k_seq k)) (r_header rec) ciphertext ->
  snd (rpp_decrypt r rec) = Err DecryptError.
Proof. exact Proofs.Channel.wrong_tag. Qed.
Print Assumptions C23_wrong_tag_is_error.
(* one flipped bit in a genuine record *)
Example C23_ex :
  match rpp_encrypt (ex_rpp CPoly 32 true) (record_new RAlert [2; 40]) with
  | (_, Ok w) =>
      match record_from_raw (firstn 6 w ++ Z.lxor (nth 6 w 0) 1 :: skipn 7 w) with
      | Ok (n, rec) => n = 24%nat /\ snd (rpp_decrypt (ex_rpp CPoly 32 false) rec) = Err DecryptError
      | _ => False
      end
  | _ => False
  end.
Proof. vm_compute. split; reflexivity. Qed.

(* ---- C24 ---- *)
Theorem C24_round_trip : forall t fragment rest, zlen fragment < 2^16 ->
  let wire := record_as_bytes (record_new t fragment) in
  exists r, record_from_raw (wire ++ rest) = Ok (length wire, r) /\
    r_type r = t /\ r_fragment r = fragment /\ r_version r = 0x0303 /\ r_len r = length fragment /\
    r_header r = firstn 5 wire.
Proof. exact Proofs.Record.record_round_trip. Qed.
Print Assumptions C24_round_trip.
Theorem C24_wire_format : forall t fragment, zlen fragment < 2^16 ->
  record_as_bytes (record_new t fragment) = encode_record (rt_code t) fragment.
Proof. intros. now apply Proofs.Record.as_bytes_spec. Qed.
Print Assumptions C24_wire_format.
(* and only encodings parse: what from_raw accepts is the encoding of what it returns, up to the version *)
Theorem C24_parses_only_encodings : forall buf n rec, is_bytes buf -> record_from_raw buf = Ok (n, rec) ->
  exists v1 v2, buf = [rt_code (r_type rec); v1; v2] ++ be_enc 2 (zlen (r_fragment rec)) ++ r_fragment rec ++ skipn n buf /\
    n = (5 + length (r_fragment rec))%nat.
Proof. exact Proofs.Channel.parses_only. Qed.
Print Assumptions C24_parses_only_encodings.
Example C24_ex : record_as_bytes (record_new RAlert [1; 0]) = [21; 3; 3; 0; 2; 1; 0].
Proof. reflexivity. Qed.

(* ---- C25 ---- *)
(* False of the code: a buffer one to three bytes short of its record crashes the parser ... *)
Theorem C25_never_panics_refuted : exists buf, is_bytes buf /\ record_from_raw buf = Panic.
Proof. exists [22; 3; 3; 0; 3]. split; [apply Proofs.Util.is_bytes_check|]; reflexivity. Qed.
Print Assumptions C25_never_panics_refuted.
(* ... and exactly those buffers do. *)
Theorem C25_panics_exactly : forall t v1 v2 h l rest, is_bytes (t :: v1 :: v2 :: h :: l :: rest) ->
  record_from_raw (t :: v1 :: v2 :: h :: l :: rest) = Panic <->
  In t [0; 20; 21; 22; 23] /\ zlen rest < 256 * h + l <= zlen rest + 3.
Proof. exact Proofs.Channel.panics_exactly. Qed.
Print Assumptions C25_panics_exactly.
Theorem C25_short_is_error : forall buf, (length buf < 5)%nat -> record_from_raw buf = Err DecodeError.
Proof. exact Proofs.Record.from_raw_short. Qed.
Print Assumptions C25_short_is_error.
(* A protected record with fewer than 16 bytes of payload crashes decryption; no other record does. *)
Theorem C25_decrypt_panics_refuted : forall r, exists rec, record_from_raw [23; 3; 3; 0; 0] = Ok (5%nat, rec) /\
  rpp_decrypt r rec = (r, Panic).
Proof. intros r. eexists. split; reflexivity. Qed.
Print Assumptions C25_decrypt_panics_refuted.
Theorem C25_decrypt_panics_exactly : forall r rec, let k := side_key (negb (rp_is_client r)) (cur_keys r) in
  good_cipher (rp_cipher r) -> key_ready (rp_cipher r) k ->
  is_bytes (r_fragment rec) -> is_bytes (r_header rec) -> zlen (r_fragment rec) < 2^16 -> length (r_header rec) = 5%nat ->
  snd (rpp_decrypt r rec) = Panic <-> (length (r_fragment rec) < 16)%nat.
Proof. exact Proofs.Channel.decrypt_panics. Qed.
Print Assumptions C25_decrypt_panics_exactly.

(* ---- C59: confidentiality of one record ---- *)
(* A ChaCha20-Poly1305 record whose content is 64k+63 bytes long carries its last 63 content bytes in the clear. *)
Theorem C59_clear_text_refuted : forall r prefix block t, let k := side_key (rp_is_client r) (cur_keys r) in
  rp_cipher r = CPoly -> key_ready (rp_cipher r) k ->
  is_bytes (prefix ++ block) -> (length prefix mod 64 = 0)%nat -> length block = 63%nat ->
  zlen (prefix ++ block) + 17 < 2^16 ->
  exists r' before after, rpp_encrypt r (record_new t (prefix ++ block)) = (r', Ok (before ++ block ++ after)).
Proof. exact Proofs.Channel.clear_text. Qed.
Print Assumptions C59_clear_text_refuted.
