(* C18: AES. Property theorems only. *)
From Coq Require Import Lia.
From Verif Require Import Model.Base Model.Aes Spec.Gf2 Spec.Fips197.
From Verif Require Proofs.Util Proofs.Aes.

(* bs_nk is the number of 32-bit key words: 4, 6 or 8 *)
Theorem C18_encrypt_is_fips197 : forall bs key block,
  is_bytes key -> length key = (4 * bs_nk bs)%nat -> is_bytes block -> length block = 16%nat ->
  aes_encrypt (expanded_key key bs) bs block = Cipher (bs_nk bs) key block.
Proof. exact (fun bs key s Hk Hl Hs Hn => Proofs.Aes.aes_encrypt_spec key bs s Hk Hl (conj Hs Hn)). Qed.
Print Assumptions C18_encrypt_is_fips197.

Theorem C18_decrypt_inverts_encrypt : forall bs key block,
  is_bytes key -> length key = (4 * bs_nk bs)%nat -> is_bytes block -> length block = 16%nat ->
  aes_decrypt (expanded_key key bs) bs (aes_encrypt (expanded_key key bs) bs block) = block.
Proof. exact (fun bs key s Hk Hl Hs Hn => Proofs.Aes.aes_decrypt_encrypt key bs s Hk Hl (conj Hs Hn)). Qed.
Print Assumptions C18_decrypt_inverts_encrypt.

(* a block is 16 bytes again *)
Theorem C18_encrypt_gives_block : forall bs key block,
  is_bytes key -> length key = (4 * bs_nk bs)%nat -> is_bytes block -> length block = 16%nat ->
  is_bytes (aes_encrypt (expanded_key key bs) bs block) /\ length (aes_encrypt (expanded_key key bs) bs block) = 16%nat.
Proof. exact (fun bs key s Hk Hl Hs Hn => Proofs.Aes.aes_encrypt_block key bs s Hk Hl (conj Hs Hn)). Qed.
Print Assumptions C18_encrypt_gives_block.

(* the specification's S-box uses the true inverse in GF(2^8) *)
Theorem C18_spec_inverse : forall b, 0 < b < 256 -> mul8 b (inverse8 b) = 1.
Proof. exact (fun b H => Proofs.Aes.inverse8_spec b ltac:(unfold is_byte; lia) ltac:(lia)). Qed.
Print Assumptions C18_spec_inverse.

(* FIPS 197 appendix C.1 and C.3 *)
Definition fips_key (n : nat) : list Z := map Z.of_nat (seq 0 n).
Definition fips_block : list Z := map (fun i => 0x11 * Z.of_nat i) (seq 0 16).
Example C18_ex128 :
  is_bytes (fips_key 16) /\ length (fips_key 16) = (4 * bs_nk B128)%nat /\ is_bytes fips_block /\ length fips_block = 16%nat /\
  aes_encrypt (expanded_key (fips_key 16) B128) B128 fips_block
  = [0x69;0xc4;0xe0;0xd8;0x6a;0x7b;0x04;0x30;0xd8;0xcd;0xb7;0x80;0x70;0xb4;0xc5;0x5a].
Proof.
  split; [apply Proofs.Util.is_bytes_check; vm_compute; reflexivity|]. split; [reflexivity|].
  split; [apply Proofs.Util.is_bytes_check; vm_compute; reflexivity|]. split; [reflexivity|].
  vm_compute. reflexivity.
Qed.
Example C18_ex256 :
  aes_encrypt (expanded_key (fips_key 32) B256) B256 fips_block
  = [0x8e;0xa2;0xb7;0xca;0x51;0x67;0x45;0xbf;0xea;0xfc;0x49;0x90;0x4b;0x49;0x60;0x89].
Proof. vm_compute. reflexivity. Qed.
Example C18_ex192 :
  aes_encrypt (expanded_key (fips_key 24) B192) B192 fips_block
  = [0xdd;0xa9;0x7c;0xa4;0x86;0x4c;0xdf;0xe0;0x6e;0xaf;0x70;0xa0;0xec;0x0d;0x71;0x91].
Proof. vm_compute. reflexivity. Qed.
