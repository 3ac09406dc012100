(* C08-C12: SHA-2, transcript hashing, HMAC, HKDF. Property theorems only. *)
From Verif Require Import Model.Base Model.Sha2 Model.Hmac Spec.Fips180 Spec.Rfc2104 Spec.TranscriptOps.
From Verif Require Proofs.Sha2 Proofs.Hmac.

Theorem C08_sha256_is_fips180 : forall m, is_bytes m -> zlen m < 2^53 -> sha256 m = sha256_spec m.
Proof. exact Proofs.Sha2.sha256_correct. Qed.
Print Assumptions C08_sha256_is_fips180.

Theorem C09_sha384_is_fips180 : forall m, is_bytes m -> zlen m < 2^117 -> sha384 m = sha384_spec m.
Proof. exact Proofs.Sha2.sha384_correct. Qed.
Print Assumptions C09_sha384_is_fips180.

(* FIPS 180-4 appendix vector "abc", computed with the specification *)
Example C08_ex : is_bytes [97; 98; 99] /\ firstn 4 (sha256_spec [97; 98; 99]) = [0xba; 0x78; 0x16; 0xbf].
Proof. split; [repeat constructor; unfold is_byte; cbv; auto; discriminate|vm_compute; reflexivity]. Qed.
Example C09_ex : firstn 4 (sha384_spec [97; 98; 99]) = [0xcb; 0x00; 0x75; 0x3f].
Proof. vm_compute; reflexivity. Qed.

(* any chunking gives the digest of the concatenation *)
Theorem C10_chunking_does_not_matter : forall h chunks,
  th_finalize (fold_left th_update chunks (th_new h)) = sha_x h (concat chunks).
Proof. intros. rewrite Proofs.Hmac.th_updates. exact (Proofs.Hmac.th_digest h (concat chunks)). Qed.
Print Assumptions C10_chunking_does_not_matter.

(* see Spec/TranscriptOps.v for histories of update and finalize calls *)
Theorem C10_finalize_does_not_disturb : forall h ops, th_run (th_new h) ops = th_expected h [] ops.
Proof. exact Proofs.Hmac.th_run_expected. Qed.
Print Assumptions C10_finalize_does_not_disturb.
Example C10_ex : th_expected SHA256 [] [Update [1]; Finalize; Update [2; 3]; Finalize]
  = [sha_x SHA256 [1]; sha_x SHA256 [1; 2; 3]].
Proof. reflexivity. Qed.

(* which specification algorithm a HashType names *)
Definition alg_named (h : hash_type) : alg := match h with SHA256 => alg_sha256 | SHA384 => alg_sha384 end.

(* keys of 65..128 bytes are excluded for SHA-384, see C11_hmac_sha384_refuted *)
Theorem C11_hmac_is_rfc2104_partial : forall h key m,
  is_bytes key -> is_bytes m -> zlen key < 2^52 -> zlen m < 2^52 ->
  ~ (h = SHA384 /\ (64 < length key <= 128)%nat) ->
  hmac h key m = HMAC (alg_named h) key m.
Proof. exact Proofs.Hmac.hmac_spec. Qed.
Print Assumptions C11_hmac_is_rfc2104_partial.

Theorem C11_hmac_sha384_refuted : exists key m, is_bytes key /\ is_bytes m /\
  hmac SHA384 key m <> HMAC alg_sha384 key m.
Proof. exact Proofs.Hmac.hmac384_bad_key_refuted. Qed.
Print Assumptions C11_hmac_sha384_refuted.

Example C11_ex : is_bytes (repeat 7 200) /\ ~ (SHA256 = SHA384 /\ (64 < length (repeat 7 200) <= 128)%nat).
Proof. split; [apply Forall_forall; intros x H; apply repeat_spec in H; subst; unfold is_byte; split; [discriminate|reflexivity]|].
  intros [H _]; discriminate H. Qed.

(* extract: same guard on the salt; in TLS 1.3 salts and PRKs have 0, 32 or 48 bytes *)
Theorem C12_extract_is_rfc5869_partial : forall h salt ikm,
  is_bytes salt -> is_bytes ikm -> zlen salt < 2^52 -> zlen ikm < 2^52 ->
  ~ (h = SHA384 /\ (64 < length salt <= 128)%nat) ->
  hkdf_extract h salt ikm = {| hk_hash := h; hk_prk := HKDF_Extract (alg_named h) salt ikm |}.
Proof. exact Proofs.Hmac.extract_spec. Qed.
Print Assumptions C12_extract_is_rfc5869_partial.

Theorem C12_expand_is_rfc5869_partial : forall k info L,
  is_bytes (hk_prk k) -> zlen (hk_prk k) < 2^52 ->
  ~ (hk_hash k = SHA384 /\ (64 < length (hk_prk k) <= 128)%nat) ->
  is_bytes info -> zlen info < 2^51 ->
  hkdf_expand k info L = HKDF_Expand (alg_named (hk_hash k)) (hk_prk k) info L.
Proof. exact Proofs.Hmac.expand_spec. Qed.
Print Assumptions C12_expand_is_rfc5869_partial.

(* the size claims hold for every PRK and info *)
Theorem C12_expand_size : forall k info L,
  match hkdf_expand k info L with
  | Some okm => length okm = L /\ (L <= 255 * hash_len (hk_hash k))%nat
  | None => (255 * hash_len (hk_hash k) < L)%nat
  end.
Proof. exact Proofs.Hmac.expand_size. Qed.
Print Assumptions C12_expand_size.

Example C12_ex : is_bytes (hk_prk (hkdf_extract SHA384 [] [1])) /\
  length (hk_prk (hkdf_extract SHA384 [] [1])) = 48%nat.
Proof. split; [exact (Proofs.Hmac.hmac_bytes SHA384 [] [1])|exact (Proofs.Hmac.hmac_length SHA384 [] [1])]. Qed.
