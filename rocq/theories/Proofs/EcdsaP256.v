(* Proofs/{Weier,EcOrder,Ecdsa}.v for the curve P-256 *)
From Coq Require Import ZArith Lia Znumtheory Bool List.
From Verif.Model Require Import Base Bytes Curve X25519 Signature Ecdsa.
From Verif.Spec Require Import Enc Ec EcView Ecdsa.
From Verif.Proofs Require Import Number Primes Fp EcGroup Weier P256 Bytes EcOrder Ecdsa.
Import ListNotations.
Open Scope Z_scope.

Lemma prime_n : prime P256_n.
Proof. exact prime_n256. Qed.
Lemma n_gt2 : 2 < P256_n.
Proof. apply Z.ltb_lt. reflexivity. Qed.

Lemma cp_eq : cp secp256r1 = wp P256.
Proof. reflexivity. Qed.
Lemma cn_eq : cn secp256r1 = P256_n.
Proof. reflexivity. Qed.
Lemma cg_eq : cg secp256r1 = coords P256_G.
Proof. reflexivity. Qed.
Lemma ca_eq : inj (wp P256) Hp (ca secp256r1) = inj (wp P256) Hp (wa P256).
Proof. apply Fp.inj_eq. reflexivity. Qed.

Lemma p256_add_comm P Q : on_curve P256 P -> on_curve P256 Q -> ec_add P256 P Q = ec_add P256 Q P.
Proof. apply (ec_add_comm P256 Hp H2). Qed.
Lemma p256_add_assoc P Q R : on_curve P256 P -> on_curve P256 Q -> on_curve P256 R ->
  ec_add P256 (ec_add P256 P Q) R = ec_add P256 P (ec_add P256 Q R).
Proof. apply (ec_add_assoc P256 Hp H2 nonsing). Qed.
Lemma p256_add_on P Q : on_curve P256 P -> on_curve P256 Q -> on_curve P256 (ec_add P256 P Q).
Proof. apply (ec_add_on P256 Hp H2). Qed.
Lemma p256_mul_on k P : on_curve P256 P -> on_curve P256 (ec_mul P256 k P).
Proof. apply (ec_mul_on P256 Hp H2). Qed.
Lemma p256_mul_plus i j P : on_curve P256 P -> ec_mul P256 (i + j) P = ec_add P256 (ec_mul P256 i P) (ec_mul P256 j P).
Proof. apply (ec_mul_plus P256 Hp H2 nonsing). Qed.
Lemma p256_mul_mult i j P : on_curve P256 P -> ec_mul P256 (i * j) P = ec_mul P256 i (ec_mul P256 j P).
Proof. apply (ec_mul_mult P256 Hp H2 nonsing). Qed.
Lemma p256_opp_on P : on_curve P256 P -> on_curve P256 (ec_opp P256 P).
Proof. apply (ec_opp_on P256 H2). Qed.
Lemma p256_add_opp P : on_curve P256 P -> ec_add P256 P (ec_opp P256 P) = Infinity.
Proof. apply (ec_add_opp P256 H2). Qed.

Lemma p256_add_ok P Q : on_curve P256 P -> on_curve P256 Q ->
  to_point (jacobian_add (from_point (coords P)) (from_point (coords Q)) secp256r1) (cp secp256r1) = coords (ec_add P256 P Q).
Proof. apply (jac_add_ok P256 Hp H2 noroot secp256r1 cp_eq ca_eq). Qed.

Lemma p256_mul_ok P k : on_curve P256 P -> 0 <= k < P256_n ->
  to_point (jacobian_multiply (from_point (coords P)) k secp256r1) (cp secp256r1) = coords (ec_mul P256 (Z.to_nat k) P).
Proof. rewrite <- cn_eq. apply (jac_multiply_ok P256 Hp H2 nonsing noroot secp256r1 cp_eq ca_eq). Qed.

Lemma p256_mul_red P k : k < 0 \/ P256_n <= k ->
  to_point (jacobian_multiply (from_point (coords P)) k secp256r1) (cp secp256r1)
  = to_point (jacobian_multiply (from_point (coords P)) (k mod P256_n) secp256r1) (cp secp256r1).
Proof. rewrite <- cn_eq. apply jac_multiply_reduce. rewrite cn_eq. pose proof n_gt2. lia. Qed.

Lemma not_y0 x : ~ on_curve P256 (Affine x 0).
Proof. intros (_ & _ & H). apply (no_root x). rewrite <- H. reflexivity. Qed.

Lemma not_nn : ~ on_curve P256 (Affine P256_n P256_n).
Proof. intros (_ & _ & H). revert H. vm_compute. discriminate. Qed.

Lemma contains_gen pp a a' b x y : 0 < pp -> 0 <= a -> 0 <= b -> a mod pp = a' mod pp -> 0 <= x -> 0 <= y ->
  contains {| equ := ShortWeierstrass; cp := pp; ca := a; cb := b; cn := 0; cg := Point 0 0 |} (Point x y) = true
  <-> on_curve {| wp := pp; wa := a'; wb := b |} (Affine x y).
Proof.
  intros Pp Ha Hb Haa Hx Hy. unfold contains. cbn [px py cp equ ca cb on_curve wp wa wb].
  rewrite !Z.geb_leb, !Z.rem_mod_nonneg by nia.
  assert (E : (x ^ 3 + a * x + b) mod pp = (x ^ 3 + a' * x + b) mod pp).
  { rewrite <- Zplus_mod_idemp_l, <- (Zplus_mod_idemp_r (a * x)), <- (Zmult_mod_idemp_l a), Haa.
    rewrite Zmult_mod_idemp_l, Zplus_mod_idemp_r, Zplus_mod_idemp_l. reflexivity. }
  rewrite E. destruct (Z.leb_spec pp x); cbn [orb]; [split; [discriminate|lia]|].
  destruct (Z.leb_spec pp y); [split; [discriminate|lia]|]. rewrite Z.eqb_eq. intuition lia.
Qed.

Lemma contains_ok x y : 0 <= x -> 0 <= y -> contains secp256r1 (Point x y) = true <-> on_curve P256 (Affine x y).
Proof.
  intros Hx Hy. apply (contains_gen (cp secp256r1) (ca secp256r1) (-3) (cb secp256r1) x y); try assumption;
    try (apply Z.ltb_lt; reflexivity); try (apply Z.leb_le; reflexivity). vm_compute. reflexivity.
Qed.

Definition p256_multiply_G := multiply_G' P256 P256_n P256_G secp256r1 eq_refl cg_eq n_gt2 G_on
  p256_add_on p256_mul_on p256_add_ok p256_mul_ok p256_mul_red contains_ok not_y0.

Lemma G_aff : P256_G <> Infinity.
Proof. discriminate. Qed.

Lemma p256_public_nz d : d mod P256_n <> 0 -> ec_mul P256 (Z.to_nat (d mod P256_n)) P256_G <> Infinity.
Proof. apply (public_nz P256 P256_n P256_G secp256r1 cg_eq prime_n n_gt2 G_on p256_add_on p256_mul_on p256_mul_plus p256_mul_mult
  p256_add_ok p256_mul_ok p256_mul_red order_G contains_ok not_y0 G_aff). Qed.

Lemma p256_exact k : 0 < k < P256_n -> ec_mul P256 (Z.to_nat k) P256_G <> Infinity.
Proof. intros Hk. rewrite <- (Z.mod_small k P256_n) by lia. apply p256_public_nz. rewrite Z.mod_small; lia. Qed.

Theorem p256_n_kills P : on_curve P256 P -> ec_mul P256 (Z.to_nat P256_n) P = Infinity.
Proof.
  apply (n_kills P256 Hp H2 P256_n P256_G p256_add_assoc not_y0); [| |exact G_on|exact order_G|exact p256_exact].
  - apply Z.ltb_lt. vm_compute. reflexivity.
  - vm_compute. reflexivity.
Qed.

(* scalars count modulo n for every point *)
Lemma p256_mul_mod P a : on_curve P256 P -> ec_mul P256 a P = ec_mul P256 (Z.to_nat (Z.of_nat a mod P256_n)) P.
Proof.
  intros HP. pose proof n_gt2 as Hn.
  pose proof (Z.mod_pos_bound (Z.of_nat a) P256_n ltac:(lia)) as B.
  pose proof (Z.div_pos (Z.of_nat a) P256_n ltac:(lia) ltac:(lia)) as D.
  pose proof (p256_n_kills P HP) as K. revert B D K. generalize P256_n as n. intros n B D K.
  assert (Ea : a = (Z.to_nat (Z.of_nat a / n) * Z.to_nat n + Z.to_nat (Z.of_nat a mod n))%nat).
  { rewrite <- Z2Nat.inj_mul, <- Z2Nat.inj_add by nia.
    rewrite Z.mul_comm, <- (Z.div_mod (Z.of_nat a) n) by lia. symmetry. apply Nat2Z.id. }
  rewrite Ea at 1. rewrite p256_mul_plus, p256_mul_mult, K, ec_mul_inf by assumption. reflexivity.
Qed.

Theorem p256_multiply_mod F P k : on_curve P256 P ->
  ec_multiply (E:=F) (coords P) k secp256r1 = Ok (coords (ec_mul P256 (Z.to_nat (k mod P256_n)) P)).
Proof.
  intros HP. pose proof n_gt2 as Hn. pose proof (Z.mod_pos_bound k P256_n ltac:(lia)) as B.
  unfold ec_multiply. cbn [equ secp256r1]. f_equal.
  destruct (Z_lt_dec k 0); [rewrite p256_mul_red by (left; assumption); apply p256_mul_ok; assumption|].
  destruct (Z_le_dec P256_n k); [rewrite p256_mul_red by (right; assumption); apply p256_mul_ok; assumption|].
  rewrite (Z.mod_small k) by lia. apply p256_mul_ok; [assumption|lia].
Qed.

Theorem p256_multiply F P k : on_curve P256 P -> 0 <= k ->
  ec_multiply (E:=F) (coords P) k secp256r1 = Ok (coords (ec_mul P256 (Z.to_nat k) P)).
Proof.
  intros HP Hk. rewrite p256_multiply_mod by assumption.
  rewrite (p256_mul_mod P (Z.to_nat k) HP), Z2Nat.id by assumption. reflexivity.
Qed.

Lemma p256_mul_opp k P : on_curve P256 P -> ec_mul P256 k (ec_opp P256 P) = ec_opp P256 (ec_mul P256 k P).
Proof.
  intros HP. pose proof (p256_opp_on P HP) as HO.
  assert (S : ec_add P256 (ec_mul P256 k P) (ec_mul P256 k (ec_opp P256 P)) = Infinity).
  { induction k as [|k IH]; [reflexivity|]. cbn [ec_mul].
    pose proof (p256_mul_on k P HP) as H1. pose proof (p256_mul_on k _ HO) as H3.
    rewrite (p256_add_comm P) by assumption. rewrite p256_add_assoc by (try apply p256_add_on; assumption).
    rewrite <- (p256_add_assoc P) by assumption. rewrite p256_add_opp by assumption.
    exact IH. }
  pose proof (p256_mul_on k P HP) as H1. pose proof (p256_mul_on k _ HO) as H3. pose proof (p256_opp_on _ H1) as H4.
  transitivity (ec_add P256 (ec_add P256 (ec_opp P256 (ec_mul P256 k P)) (ec_mul P256 k P)) (ec_mul P256 k (ec_opp P256 P))).
  - rewrite (p256_add_comm (ec_opp P256 _)), p256_add_opp by assumption. reflexivity.
  - rewrite p256_add_assoc, S by assumption. rewrite p256_add_comm by (assumption || exact I). reflexivity.
Qed.

Theorem p256_multiply_neg F P k : on_curve P256 P -> k < 0 ->
  ec_multiply (E:=F) (coords P) k secp256r1 = Ok (coords (ec_mul P256 (Z.to_nat (- k)) (ec_opp P256 P))).
Proof.
  intros HP Hk. rewrite p256_multiply_mod by assumption. do 2 f_equal.
  pose proof n_gt2 as Hn. pose proof (Z.mod_pos_bound k P256_n ltac:(lia)) as B.
  pose proof (p256_n_kills P HP) as K. pose proof (p256_mul_mod P) as M. revert Hn B K M. generalize P256_n as n. intros n Hn B K M.
  rewrite p256_mul_opp by assumption.
  set (A := ec_mul P256 (Z.to_nat (k mod n)) P). set (C := ec_mul P256 (Z.to_nat (- k)) P).
  assert (HA : on_curve P256 A) by (apply p256_mul_on, HP). assert (HC : on_curve P256 C) by (apply p256_mul_on, HP).
  assert (S : ec_add P256 A C = Infinity).
  { unfold A, C. rewrite <- p256_mul_plus by assumption. rewrite <- Z2Nat.inj_add by lia.
    rewrite M by assumption. rewrite Z2Nat.id by lia. rewrite Zplus_mod_idemp_l. replace (k + - k) with 0 by lia.
    rewrite Z.mod_0_l by lia. reflexivity. }
  pose proof (p256_opp_on C HC) as HO.
  transitivity (ec_add P256 A (ec_add P256 C (ec_opp P256 C))).
  - rewrite p256_add_opp by assumption. symmetry. rewrite p256_add_comm by (assumption || exact I). reflexivity.
  - rewrite <- p256_add_assoc, S by assumption. reflexivity.
Qed.

Theorem p256_add F P Q : on_curve P256 P -> on_curve P256 Q ->
  ec_add_points (E:=F) (coords P) (coords Q) secp256r1 = Ok (coords (ec_add P256 P Q)).
Proof. intros HP HQ. unfold ec_add_points. cbn [equ secp256r1]. f_equal. apply p256_add_ok; assumption. Qed.

Theorem p256_verify F x y sg h : 0 <= x -> 0 <= y ->
  exists b, ecdsa_verify (E:=F) (PublicKey (Point x y) secp256r1) sg h = Ok b /\
  (b = true <-> on_curve P256 (Affine x y) /\ valid_signature (Affine x y) (be_val h) (sg_r sg) (sg_s sg)).
Proof.
  exact (verify_ok P256 P256_n P256_G secp256r1 eq_refl cn_eq cg_eq prime_n n_gt2 G_on p256_add_on p256_mul_on
    p256_add_ok p256_mul_ok p256_mul_red contains_ok not_nn not_y0 F x y sg h).
Qed.

Definition first_signature (d e : Z) (ks : list Z) : option (Z * Z) :=
  hd_error (flat_map (fun k => match sign_with d e k with Some x => [x] | None => [] end) ks).

Theorem p256_sign F d h ks : Forall (fun k => 0 <= k) ks ->
  ecdsa_sign (E:=F) (PrivateKey secp256r1 d) h ks =
  Ok (match flat_map (fun k => match sign_with d (be_val h) k with Some x => [x] | None => [] end) ks with
      | (r, s) :: _ => Some {| sg_r := r; sg_s := s |}
      | [] => None
      end).
Proof.
  intros Hk. unfold ecdsa_sign. cbn [sk_curve sk_secret]. rewrite to_ibig_be_val.
  exact (sign_loop_ok P256 P256_n P256_G secp256r1 eq_refl cn_eq cg_eq prime_n n_gt2 G_on p256_add_on p256_mul_on
    p256_add_ok p256_mul_ok p256_mul_red contains_ok not_y0 F d (be_val h) ks Hk).
Qed.

Theorem p256_sign_valid d e k r s : 0 <= k -> sign_with d e k = Some (r, s) -> valid_signature (public_of d) e r s.
Proof.
  exact (sign_valid P256 P256_n P256_G secp256r1 cn_eq prime_n n_gt2 G_on p256_add_on p256_mul_on p256_mul_plus p256_mul_mult
    p256_add_ok p256_mul_ok p256_mul_red order_G contains_ok not_y0 d e k r s).
Qed.

Theorem p256_sign_then_verify F F' d h ks sg : d mod P256_n <> 0 -> Forall (fun k => 0 <= k) ks ->
  ecdsa_sign (E:=F) (PrivateKey secp256r1 d) h ks = Ok (Some sg) ->
  exists key, get_public_key (E:=F') (PrivateKey secp256r1 d) = Ok key /\
  ecdsa_verify (E:=F') key sg h = Ok true /\ 0 < sg_r sg < P256_n /\ 0 < sg_s sg < P256_n.
Proof.
  exact (sign_then_verify P256 P256_n P256_G secp256r1 eq_refl cn_eq cg_eq prime_n n_gt2 G_on p256_add_on p256_mul_on p256_mul_plus p256_mul_mult
    p256_add_ok p256_mul_ok p256_mul_red order_G contains_ok not_nn not_y0 G_aff F F' d h ks sg).
Qed.

Theorem p256_public F d : get_public_key (E:=F) (PrivateKey secp256r1 d) = Ok (PublicKey (coords (public_of d)) secp256r1).
Proof. unfold get_public_key. cbn [sk_curve sk_secret]. rewrite (p256_multiply_G F d). reflexivity. Qed.
