(* C26-C29, C62: modular inverse, P-256, ECDSA, private key files. Property theorems only. *)
From Coq Require Import Lia.
From Verif Require Import Model.Base Model.Bytes Model.Curve Model.Signature Model.Pem Model.Ecdsa.
From Verif Require Import Spec.Enc Spec.Ec Spec.EcView Spec.Ecdsa Spec.PemFile Spec.Rfc4648 Spec.Sec1.
From Verif Require Proofs.Weier Proofs.P256 Proofs.EcdsaP256 Proofs.PrivateKey.

(* ---------- C26 ---------- *)
Theorem C26_inverse : forall x n, 1 < n -> 0 <= x -> Z.gcd x n = 1 ->
  0 <= inv x n < n /\ (x * inv x n) mod n = 1.
Proof. exact Proofs.Weier.inv_spec. Qed.
Print Assumptions C26_inverse.
(* and zero, which has none, gives zero for every modulus *)
Theorem C26_zero : forall n, inv 0 n = 0.
Proof. reflexivity. Qed.
Print Assumptions C26_zero.
Example C26_ex : 1 < 1000 /\ Z.gcd 2023 1000 = 1 /\ inv 2023 1000 = 87.
Proof. vm_compute. auto. Qed.

(* ---------- C27 ---------- *)
Theorem C27_add : forall P Q, on_curve P256 P -> on_curve P256 Q ->
  ec_add_points (E:=Empty_set) (coords P) (coords Q) secp256r1 = Ok (coords (ec_add P256 P Q)).
Proof. exact (Proofs.EcdsaP256.p256_add Empty_set). Qed.
Print Assumptions C27_add.
Theorem C27_multiply : forall P k, on_curve P256 P -> 0 <= k ->
  ec_multiply (E:=Empty_set) (coords P) k secp256r1 = Ok (coords (ec_mul P256 (Z.to_nat k) P)).
Proof. exact (Proofs.EcdsaP256.p256_multiply Empty_set). Qed.
Print Assumptions C27_multiply.
Theorem C27_multiply_negative : forall P k, on_curve P256 P -> k < 0 ->
  ec_multiply (E:=Empty_set) (coords P) k secp256r1 = Ok (coords (ec_mul P256 (Z.to_nat (- k)) (ec_opp P256 P))).
Proof. exact (Proofs.EcdsaP256.p256_multiply_neg Empty_set). Qed.
Print Assumptions C27_multiply_negative.
(* the law of Spec/Ec.v is a commutative group on the curve, and every point has order n *)
Theorem C27_group : forall P Q R, on_curve P256 P -> on_curve P256 Q -> on_curve P256 R ->
  on_curve P256 (ec_add P256 P Q) /\ on_curve P256 (ec_opp P256 P) /\
  ec_add P256 Infinity P = P /\ ec_add P256 P (ec_opp P256 P) = Infinity /\
  ec_add P256 P Q = ec_add P256 Q P /\
  ec_add P256 (ec_add P256 P Q) R = ec_add P256 P (ec_add P256 Q R) /\
  ec_mul P256 (Z.to_nat P256_n) P = Infinity.
Proof.
  intros P Q R HP HQ HR. split; [exact (Proofs.EcdsaP256.p256_add_on P Q HP HQ)|].
  split; [exact (Proofs.EcdsaP256.p256_opp_on P HP)|]. split; [reflexivity|].
  split; [exact (Proofs.EcdsaP256.p256_add_opp P HP)|]. split; [exact (Proofs.EcdsaP256.p256_add_comm P Q HP HQ)|].
  split; [exact (Proofs.EcdsaP256.p256_add_assoc P Q R HP HQ HR)|]. exact (Proofs.EcdsaP256.p256_n_kills P HP).
Qed.
Print Assumptions C27_group.
(* membership test, for coordinates as they come out of a certificate (not negative) *)
Theorem C27_contains : forall x y, 0 <= x -> 0 <= y ->
  contains secp256r1 (Point x y) = true <-> on_curve P256 (Affine x y).
Proof. exact Proofs.EcdsaP256.contains_ok. Qed.
Print Assumptions C27_contains.
(* 2G and 3G of the NIST test vectors *)
Example C27_ex : on_curve P256 P256_G /\
  ec_multiply (E:=Empty_set) (coords P256_G) 2 secp256r1 =
    Ok (Point 0x7cf27b188d034f7e8a52380304b51ac3c08969e277f21b35a60b48fc47669978
              0x07775510db8ed040293d9ac69f7430dbba7dade63ce982299e04b79d227873d1) /\
  ec_multiply (E:=Empty_set) (coords P256_G) 3 secp256r1 =
    Ok (Point 0x5ecbe4d1a6330a44c8f7ef951d4bf165e6c6b721efada985fb41661bc6e7fd6c
              0x8734640c4998ff7e374b06ce1a64a2ecd82ab036384fb83d9a79b127a27d5032).
Proof. split; [exact Proofs.P256.G_on|]. vm_compute. auto. Qed.

(* ---------- C28 ---------- *)
(* the answer is "true" exactly on valid signatures under valid keys, for any key coordinates a
   certificate can carry; the hash is taken as an integer without truncation *)
Theorem C28_verify : forall x y sg h, 0 <= x -> 0 <= y ->
  exists b, ecdsa_verify (E:=Empty_set) (PublicKey (Point x y) secp256r1) sg h = Ok b /\
  (b = true <-> valid_public_key (Affine x y) /\ valid_signature (Affine x y) (be_val h) (sg_r sg) (sg_s sg)).
Proof.
  intros x y sg h Hx Hy. destruct (Proofs.EcdsaP256.p256_verify Empty_set x y sg h Hx Hy) as (b & H & Hb).
  exists b. split; [exact H|]. rewrite Hb. unfold valid_public_key. intuition discriminate.
Qed.
Print Assumptions C28_verify.
(* so it is the standard's verification for hashes of at most 32 bytes, SHA-256 included *)
Theorem C28_verify_is_fips186 : forall x y sg h, 0 <= x -> 0 <= y -> (length h <= 32)%nat ->
  exists b, ecdsa_verify (E:=Empty_set) (PublicKey (Point x y) secp256r1) sg h = Ok b /\
  (b = true <-> valid_public_key (Affine x y) /\ valid_signature (Affine x y) (hash_int h) (sg_r sg) (sg_s sg)).
Proof.
  intros x y sg h Hx Hy Hh. unfold hash_int. rewrite firstn_all2 by exact Hh. exact (C28_verify x y sg h Hx Hy).
Qed.
Print Assumptions C28_verify_is_fips186.

(* ---------- C29 ---------- *)
(* sign tries the nonces in order and returns the first FIPS 186-4 signature *)
Theorem C29_sign_is_fips186 : forall d h ks, Forall (fun k => 0 <= k) ks -> (length h <= 32)%nat ->
  ecdsa_sign (E:=Empty_set) (PrivateKey secp256r1 d) h ks =
  Ok (match flat_map (fun k => match sign_with d (hash_int h) k with Some x => [x] | None => [] end) ks with
      | (r, s) :: _ => Some {| sg_r := r; sg_s := s |}
      | [] => None
      end).
Proof.
  intros d h ks Hk Hh. unfold hash_int. rewrite firstn_all2 by exact Hh.
  exact (Proofs.EcdsaP256.p256_sign Empty_set d h ks Hk).
Qed.
Print Assumptions C29_sign_is_fips186.
(* whatever sign returns is accepted under the matching public key *)
Theorem C29_signatures_verify : forall d h ks sg, d mod P256_n <> 0 -> Forall (fun k => 0 <= k) ks ->
  ecdsa_sign (E:=Empty_set) (PrivateKey secp256r1 d) h ks = Ok (Some sg) ->
  exists key, get_public_key (E:=Empty_set) (PrivateKey secp256r1 d) = Ok key /\
  ecdsa_verify (E:=Empty_set) key sg h = Ok true /\ 0 < sg_r sg < P256_n /\ 0 < sg_s sg < P256_n.
Proof. exact (Proofs.EcdsaP256.p256_sign_then_verify Empty_set Empty_set). Qed.
Print Assumptions C29_signatures_verify.
Theorem C29_public_key : forall d,
  get_public_key (E:=Empty_set) (PrivateKey secp256r1 d) = Ok (PublicKey (coords (public_of d)) secp256r1).
Proof. exact (Proofs.EcdsaP256.p256_public Empty_set). Qed.
Print Assumptions C29_public_key.
(* a key and a nonce that meet the hypotheses *)
Example C29_ex : 7 mod P256_n <> 0 /\
  ecdsa_sign (E:=Empty_set) (PrivateKey secp256r1 7) (repeat 171 32) [P256_n; 261] =
  Ok (Some {| sg_r := 0x233288b79b72f33fefa0490349d2e2eefdfbf5cd81e1864d362d1fef94f586fd;
              sg_s := 0x1341c491c60d8c939b311831c9bfb169223aa7bdcb0178246b31fdd7b7e5dda8 |}).
Proof. vm_compute. split; [discriminate|reflexivity]. Qed.

(* ---------- C62 ---------- *)
Theorem C62_key_file_partial : forall is secret extra, Forall item_ok is ->
  length secret = 32%nat -> (length extra <= 90)%nat ->
  last_block EC_PRIVATE_KEY is = Some (ECPrivateKey secret extra) ->
  private_key_from_pem (text_of_lines (file_lines is)) = Ok (PrivateKey secp256r1 (be_val secret)).
Proof. exact Proofs.PrivateKey.key_short. Qed.
Print Assumptions C62_key_file_partial.
(* a longer optional part (explicit curve parameters) silently yields another key *)
Theorem C62_long_key_file_refuted : forall is secret extra, Forall item_ok is ->
  length secret = 32%nat -> (90 < length extra <= 200)%nat ->
  last_block EC_PRIVATE_KEY is = Some (ECPrivateKey secret extra) ->
  private_key_from_pem (text_of_lines (file_lines is)) = Ok (PrivateKey secp256r1 (be_val (32 :: firstn 31 secret))).
Proof. exact Proofs.PrivateKey.key_long. Qed.
Print Assumptions C62_long_key_file_refuted.
Example C62_ex : let key := ECPrivateKey (repeat 5 32) [] in
  last_block EC_PRIVATE_KEY [Block EC_PRIVATE_KEY [Rfc4648.b64 key] key] = Some key /\
  private_key_from_pem (text_of_lines (file_lines [Block EC_PRIVATE_KEY [Rfc4648.b64 key] key]))
  = Ok (PrivateKey secp256r1 (be_val (repeat 5 32))) /\ (length ([] : list Z) <= 90)%nat.
Proof. vm_compute. repeat split. repeat constructor. Qed.
