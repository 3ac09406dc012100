(* C15-C17: ChaCha20, Poly1305 and their AEAD; C46: alerts. Property theorems only. *)
From Coq Require Import Lia.
From Verif Require Import Model.Base Model.Alert Model.Chacha Spec.Enc Spec.Rfc8439 Spec.Alerts.
From Verif Require Proofs.Chacha Proofs.Alert.

(* every length below 16 MiB that is not a non-zero multiple of 64 *)
Theorem C15_chacha20_is_rfc8439_partial : forall key nonce counter plaintext,
  is_bytes key -> is_bytes nonce -> length key = 32%nat -> length nonce = 12%nat ->
  zlen plaintext < 2^24 -> (length plaintext mod 64 <> 0 \/ length plaintext = 0)%nat ->
  chacha_encrypt (E:=tls_error) plaintext key nonce counter
  = Ok (Some (chacha20_encrypt key nonce counter plaintext)).
Proof. exact Proofs.Chacha.chacha_exact. Qed.
Print Assumptions C15_chacha20_is_rfc8439_partial.

(* The code leaves the last 64 bytes of a plaintext whose length is a multiple of 64 unencrypted. *)
Theorem C15_last_block_in_clear : forall key nonce counter plaintext k,
  is_bytes key -> is_bytes nonce -> length key = 32%nat -> length nonce = 12%nat ->
  zlen plaintext < 2^24 -> length plaintext = (64 * S k)%nat ->
  chacha_encrypt (E:=tls_error) plaintext key nonce counter
  = Ok (Some (chacha20_encrypt key nonce counter (firstn (64 * k) plaintext) ++ skipn (64 * k) plaintext)).
Proof. exact Proofs.Chacha.chacha_last_block_clear. Qed.
Print Assumptions C15_last_block_in_clear.

Theorem C15_every_byte_encrypted_refuted : exists key nonce plaintext,
  is_bytes key /\ is_bytes nonce /\ length key = 32%nat /\ length nonce = 12%nat /\ is_bytes plaintext /\
  chacha_encrypt (E:=tls_error) plaintext key nonce 1 = Ok (Some plaintext) /\
  chacha20_encrypt key nonce 1 plaintext <> plaintext.
Proof. exact Proofs.Chacha.chacha_last_block_refuted. Qed.
Print Assumptions C15_every_byte_encrypted_refuted.

(* a key or nonce of the wrong size is refused *)
Theorem C15_wrong_sizes_refused : forall key nonce counter plaintext,
  ~ (length key = 32%nat /\ length nonce = 12%nat) -> plaintext <> [] -> zlen plaintext < 2^24 ->
  chacha_encrypt (E:=tls_error) plaintext key nonce counter = Ok None.
Proof. exact Proofs.Chacha.chacha_encrypt_bad. Qed.
Print Assumptions C15_wrong_sizes_refused.

(* RFC 8439 2.3.2 *)
Definition key_0_31 : list Z := map Z.of_nat (seq 0 32).
Example C15_ex : is_bytes key_0_31 /\
  firstn 8 (chacha20_block key_0_31 [0; 0; 0; 9; 0; 0; 0; 0x4a; 0; 0; 0; 0] 1)
  = [0x10; 0xf1; 0xe7; 0xe4; 0xd1; 0x3b; 0x59; 0x15].
Proof.
  split; [|vm_compute; reflexivity].
  apply Forall_forall. intros x Hx. apply in_map_iff in Hx. destruct Hx as (n & <- & Hn). apply in_seq in Hn.
  unfold is_byte. lia.
Qed.

Theorem C16_poly1305_is_rfc8439_partial : forall key msg,
  is_bytes key -> length key = 32%nat -> is_bytes msg -> zlen msg < 2^24 ->
  poly_mac (E:=tls_error) key msg = Ok (poly1305_mac key msg).
Proof. exact Proofs.Chacha.poly_mac_spec. Qed.
Print Assumptions C16_poly1305_is_rfc8439_partial.

(* above 2^24 bytes the block count goes through f32: two messages differing in their last byte get
   the same tag *)
Theorem C16_covers_every_byte_refuted : exists key m m',
  is_bytes key /\ length key = 32%nat /\ is_bytes m /\ is_bytes m' /\ length m = length m' /\ m <> m' /\
  poly_mac (E:=tls_error) key m = poly_mac key m' /\ exists t, poly_mac (E:=tls_error) key m = Ok t.
Proof. exact Proofs.Chacha.poly_big_refuted. Qed.
Print Assumptions C16_covers_every_byte_refuted.

(* RFC 8439 2.5.2 *)
Example C16_ex : poly1305_mac
  [0x85; 0xd6; 0xbe; 0x78; 0x57; 0x55; 0x6d; 0x33; 0x7f; 0x44; 0x52; 0xfe; 0x42; 0xd5; 0x06; 0xa8;
   0x01; 0x03; 0x80; 0x8a; 0xfb; 0x0d; 0xb2; 0xfd; 0x4a; 0xbf; 0xf6; 0xaf; 0x41; 0x49; 0xf5; 0x1b]
  [67; 114; 121; 112; 116; 111; 103; 114; 97; 112; 104; 105; 99; 32; 70; 111; 114; 117; 109; 32; 82;
   101; 115; 101; 97; 114; 99; 104; 32; 71; 114; 111; 117; 112]
  = [0xa8; 0x06; 0x1d; 0xc1; 0x30; 0x51; 0x36; 0xc6; 0xc2; 0x2b; 0x8b; 0xaf; 0x0c; 0x01; 0x27; 0xa9].
Proof. vm_compute. reflexivity. Qed.

(* Round trip, for all inputs below 16 MiB in total. *)
Theorem C17_round_trip : forall key nonce aad plaintext,
  is_bytes key -> is_bytes nonce -> length key = 32%nat -> length nonce = 12%nat ->
  is_bytes aad -> is_bytes plaintext -> zlen aad + zlen plaintext < 2^24 - 46 ->
  exists ciphertext tag,
    poly_encrypt key nonce plaintext aad = Ok (ciphertext, tag) /\
    length ciphertext = length plaintext /\ length tag = 16%nat /\
    poly_decrypt key nonce ciphertext aad tag = Ok plaintext.
Proof. exact Proofs.Chacha.aead_round_trip. Qed.
Print Assumptions C17_round_trip.

(* Decryption answers in exactly two ways. *)
Theorem C17_tag_checked : forall key nonce aad ciphertext tag,
  is_bytes key -> is_bytes nonce -> length key = 32%nat -> length nonce = 12%nat ->
  is_bytes aad -> is_bytes ciphertext -> zlen aad + zlen ciphertext < 2^24 - 46 ->
  (tag = aead_tag key nonce aad ciphertext ->
     exists plaintext, poly_decrypt key nonce ciphertext aad tag = Ok plaintext) /\
  (tag <> aead_tag key nonce aad ciphertext -> poly_decrypt key nonce ciphertext aad tag = Err BadRecordMac).
Proof. exact Proofs.Chacha.aead_tag_checked. Qed.
Print Assumptions C17_tag_checked.

(* With lengths that are not multiples of 64 both directions are the RFC 8439 AEAD. *)
Theorem C17_is_rfc8439_partial : forall key nonce aad text,
  is_bytes key -> is_bytes nonce -> length key = 32%nat -> length nonce = 12%nat ->
  is_bytes aad -> is_bytes text -> zlen aad + zlen text < 2^24 - 46 ->
  (length text mod 64 <> 0 \/ length text = 0)%nat ->
  poly_encrypt key nonce text aad
    = Ok (chacha20_encrypt key nonce 1 text, aead_tag key nonce aad (chacha20_encrypt key nonce 1 text)) /\
  poly_decrypt key nonce text aad (aead_tag key nonce aad text) = Ok (chacha20_encrypt key nonce 1 text).
Proof. exact Proofs.Chacha.aead_is_rfc. Qed.
Print Assumptions C17_is_rfc8439_partial.

(* RFC 8439 2.8.2: tag of the sunscreen text *)
Definition key_80_9f : list Z := map (fun i => Z.of_nat i + 0x80) (seq 0 32).
Definition nonce_282 : list Z := [7; 0; 0; 0; 0x40; 0x41; 0x42; 0x43; 0x44; 0x45; 0x46; 0x47].
Definition aad_282 : list Z := [0x50; 0x51; 0x52; 0x53; 0xc0; 0xc1; 0xc2; 0xc3; 0xc4; 0xc5; 0xc6; 0xc7].
Example C17_ex : firstn 8 (poly1305_key key_80_9f nonce_282) = [0x7b; 0xac; 0x2b; 0x25; 0x2d; 0xb4; 0x47; 0xaf] /\
  exists tag, poly_encrypt key_80_9f nonce_282 [76; 97; 100; 105; 101; 115] aad_282
  = Ok ([0xd3; 0x1a; 0x8d; 0x34; 0x64; 0x8e], tag).
Proof. split; [vm_compute; reflexivity|]. eexists. vm_compute. reflexivity. Qed.

(* ---- C46 ---- *)
(* every alert except bad_record_mac, decrypt_error and decode_error carries its RFC 8446 code *)
Theorem C46_codes_partial : forall e c, e <> BadRecordMac -> e <> DecryptError -> e <> DecodeError ->
  rfc8446_code e = Some c -> error_as_u8 e = c /\ error_new c = e.
Proof. exact Proofs.Alert.codes. Qed.
Print Assumptions C46_codes_partial.

(* The full claim is false of the code in three places. *)
Theorem C46_bad_record_mac_refuted :
  rfc8446_code BadRecordMac = Some 20 /\ error_as_u8 BadRecordMac = 0 /\ error_new 20 <> BadRecordMac.
Proof. exact Proofs.Alert.bad_record_mac. Qed.
Print Assumptions C46_bad_record_mac_refuted.
Theorem C46_decode_decrypt_swapped_refuted :
  rfc8446_code DecodeError = Some 50 /\ error_as_u8 DecodeError = 51 /\ error_new 50 = DecryptError /\
  rfc8446_code DecryptError = Some 51 /\ error_as_u8 DecryptError = 50 /\ error_new 51 = DecodeError.
Proof. exact Proofs.Alert.swapped. Qed.
Print Assumptions C46_decode_decrypt_swapped_refuted.

(* sending an alert and decoding its code gives the same error, except for bad_record_mac *)
Theorem C46_error_code_round_trip : forall e c, e <> BadRecordMac -> rfc8446_code e = Some c ->
  error_new (error_as_u8 e) = e.
Proof. exact Proofs.Alert.round_trip. Qed.
Print Assumptions C46_error_code_round_trip.

(* distinct alerts have distinct codes on the wire, except that bad_record_mac is sent as close_notify *)
Theorem C46_codes_distinct : forall e f c d, e <> BadRecordMac -> f <> BadRecordMac ->
  rfc8446_code e = Some c -> rfc8446_code f = Some d -> error_as_u8 e = error_as_u8 f -> e = f.
Proof. exact Proofs.Alert.distinct. Qed.
Print Assumptions C46_codes_distinct.

Theorem C46_only_close_notify_is_a_warning : forall e, alert_level e = (if match e with CloseNotify => true | _ => false end then 1 else 2).
Proof. exact Proofs.Alert.level. Qed.
Print Assumptions C46_only_close_notify_is_a_warning.

Example C46_ex : HandshakeFailure <> BadRecordMac /\ rfc8446_code HandshakeFailure = Some 40.
Proof. split; [discriminate|reflexivity]. Qed.
