(* C19, C20: GHASH and AES-GCM. Property theorems only. *)
From Coq Require Import Lia.
From Verif Require Import Model.Base Model.Alert Model.Gcm Spec.Enc Spec.Sp80038d.
From Verif Require Proofs.Util Proofs.Gcm.

Theorem C19_gmult_is_sp80038d_product : forall a b, 0 <= a < 2^128 -> 0 <= b < 2^128 ->
  gmult a b = block_mul a b.
Proof. exact Proofs.Gcm.gmult_is_block_mul. Qed.
Print Assumptions C19_gmult_is_sp80038d_product.
Theorem C19_gmult_commutes : forall a b, 0 <= a -> 0 <= b -> gmult a b = gmult b a.
Proof. exact Proofs.Gcm.gmult_comm. Qed.
Print Assumptions C19_gmult_commutes.
Theorem C19_gmult_distributes : forall a a' b, 0 <= a -> 0 <= a' -> 0 <= b ->
  gmult (Z.lxor a a') b = Z.lxor (gmult a b) (gmult a' b).
Proof. exact Proofs.Gcm.gmult_xor_l. Qed.
Print Assumptions C19_gmult_distributes.
Theorem C19_gmult_associates : forall a b c, 0 <= a -> 0 <= b -> 0 <= c ->
  gmult (gmult a b) c = gmult a (gmult b c).
Proof. exact Proofs.Gcm.gmult_assoc. Qed.
Print Assumptions C19_gmult_associates.
(* the block 10...0 is the unit *)
Theorem C19_gmult_unit : forall a, 0 <= a < 2^128 -> gmult (2^127) a = a.
Proof. exact Proofs.Gcm.gmult_unit. Qed.
Print Assumptions C19_gmult_unit.
(* GCM specification test case 2: H and the first ciphertext block *)
Example C19_ex : gmult 0x0388dace60b6a392f328c2b971b2fe78 0x66e94bd4ef8a2c3b884cfa59ca342b2e
  = 0x5e2ec746917062882c85b0685353deb7.
Proof. vm_compute. reflexivity. Qed.

(* The number of 32-bit words of a key. *)
Definition Nk (key : list Z) : nat := Nat.div (length key) 4.

Theorem C20_encrypt_is_sp80038d : forall key nonce plaintext aad,
  is_bytes key -> (length key = 16 \/ length key = 24 \/ length key = 32)%nat ->
  is_bytes nonce -> length nonce = 12%nat -> is_bytes plaintext -> is_bytes aad ->
  zlen plaintext < 2^61 -> zlen aad < 2^61 ->
  gcm_encrypt key nonce plaintext aad = Ok (GCM_AE (Nk key) key nonce plaintext aad).
Proof. exact Proofs.Gcm.gcm_encrypt_spec. Qed.
Print Assumptions C20_encrypt_is_sp80038d.

Theorem C20_decrypt_is_sp80038d : forall key nonce ciphertext aad t,
  is_bytes key -> (length key = 16 \/ length key = 24 \/ length key = 32)%nat ->
  is_bytes nonce -> length nonce = 12%nat -> is_bytes ciphertext -> is_bytes aad ->
  zlen ciphertext < 2^61 -> zlen aad < 2^61 ->
  gcm_decrypt key nonce ciphertext aad t
  = match GCM_AD (Nk key) key nonce ciphertext aad t with Some p => Ok p | None => Err BadRecordMac end.
Proof. exact Proofs.Gcm.gcm_decrypt_spec. Qed.
Print Assumptions C20_decrypt_is_sp80038d.

Theorem C20_round_trip : forall key nonce plaintext aad ciphertext t,
  is_bytes key -> (length key = 16 \/ length key = 24 \/ length key = 32)%nat ->
  is_bytes nonce -> length nonce = 12%nat -> is_bytes plaintext -> is_bytes aad ->
  zlen plaintext < 2^61 -> zlen aad < 2^61 ->
  gcm_encrypt key nonce plaintext aad = Ok (ciphertext, t) ->
  length ciphertext = length plaintext /\ length t = 16%nat /\
  gcm_decrypt key nonce ciphertext aad t = Ok plaintext.
Proof. exact Proofs.Gcm.gcm_round_trip. Qed.
Print Assumptions C20_round_trip.

(* Data comes back only under the right tag; everything else is the bad_record_mac error. *)
Theorem C20_wrong_tag_refused : forall key nonce ciphertext aad t,
  is_bytes key -> (length key = 16 \/ length key = 24 \/ length key = 32)%nat ->
  is_bytes nonce -> length nonce = 12%nat -> is_bytes ciphertext -> is_bytes aad ->
  zlen ciphertext < 2^61 -> zlen aad < 2^61 ->
  t <> tag (Nk key) key nonce ciphertext aad ->
  gcm_decrypt key nonce ciphertext aad t = Err BadRecordMac.
Proof.
  intros key nonce c aad t H1 H2 H3 H4 H5 H6 H7 H8 N.
  rewrite C20_decrypt_is_sp80038d by assumption. unfold GCM_AD.
  destruct (list_eq_dec Z.eq_dec t (tag (Nk key) key nonce c aad)); [contradiction|reflexivity].
Qed.
Print Assumptions C20_wrong_tag_refused.

(* Nonces of other lengths: right unless the 32-bit counter would wrap ... *)
Theorem C20_other_nonces : forall key nonce plaintext aad,
  is_bytes key -> (length key = 16 \/ length key = 24 \/ length key = 32)%nat ->
  is_bytes nonce -> length nonce <> 12%nat -> is_bytes plaintext -> is_bytes aad ->
  zlen nonce < 2^61 -> zlen plaintext < 2^61 -> zlen aad < 2^61 ->
  (J0 (Nk key) key nonce) mod 2^32 + (zlen plaintext + 15) / 16 < 2^32 ->
  gcm_encrypt key nonce plaintext aad = Ok (GCM_AE (Nk key) key nonce plaintext aad).
Proof. exact Proofs.Gcm.gcm_other_spec. Qed.
Print Assumptions C20_other_nonces.
(* ... where the code can panic. *)
Theorem C20_other_nonces_refuted : exists key nonce plaintext,
  length key = 16%nat /\ length nonce = 16%nat /\ length plaintext = 16%nat /\
  gcm_encrypt key nonce plaintext [] = Panic.
Proof.
  exists (repeat 0 16), Proofs.Gcm.wrap_iv, (repeat 0 16).
  exact (conj eq_refl (conj eq_refl (conj eq_refl Proofs.Gcm.gcm_other_panic))).
Qed.
Print Assumptions C20_other_nonces_refuted.

(* GCM specification test case 2 *)
Example C20_ex : is_bytes (repeat 0 16) /\ is_bytes (repeat 0 12) /\
  gcm_encrypt (repeat 0 16) (repeat 0 12) (repeat 0 16) []
  = Ok ([0x03;0x88;0xda;0xce;0x60;0xb6;0xa3;0x92;0xf3;0x28;0xc2;0xb9;0x71;0xb2;0xfe;0x78],
        [0xab;0x6e;0x47;0xd4;0x2c;0xec;0x13;0xbd;0xf5;0x3a;0x67;0xb2;0x12;0x57;0xbd;0xdf]).
Proof.
  split; [apply Proofs.Util.is_bytes_check; reflexivity|]. split; [apply Proofs.Util.is_bytes_check; reflexivity|].
  vm_compute. reflexivity.
Qed.
