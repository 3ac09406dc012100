From Coq Require Import ZArith Lia Znumtheory Bool List.
From Verif.Model Require Import Base Bytes Curve X25519 Signature Ecdsa.
From Verif.Spec Require Import Enc Ec EcView Ecdsa.
From Verif.Proofs Require Import Number Primes Fp EcGroup Weier P256 Bytes.
Import ListNotations.
Open Scope Z_scope.

Lemma prime_ndiv_pow_inv n k : prime n -> 2 < n -> 0 <= k -> ~ (n | k) ->
  inv k n = k ^ (n - 2) mod n /\ (k * (k ^ (n - 2) mod n)) mod n = 1.
Proof.
  intros Pn Hn Hk Nd.
  assert (Gc : Z.gcd k n = 1).
  { apply Zgcd_1_rel_prime. apply rel_prime_sym. apply prime_rel_prime; assumption. }
  destruct (inv_spec k n ltac:(lia) Hk Gc) as [R M].
  assert (Ff : (k * k ^ (n - 2)) mod n = 1).
  { rewrite <- Z.pow_succ_r by lia. replace (Z.succ (n - 2)) with (n - 1) by lia. apply fermat; assumption. }
  split.
  - rewrite <- (Z.mod_small (inv k n) n) by lia. apply (mul_cancel_mod n k); [assumption|assumption|]. congruence.
  - rewrite Zmult_mod_idemp_r. exact Ff.
Qed.

Section Ecdsa.

Variables (E : weierstrass) (n : Z) (G : ecpoint) (c : curve).

Definition Valid (Q : ecpoint) (e r s : Z) : Prop :=
  0 < r < n /\ 0 < s < n /\
  exists x y,
    ec_add E (ec_mul E (Z.to_nat (fdiv n e s)) G) (ec_mul E (Z.to_nat (fdiv n r s)) Q) = Affine x y /\ x mod n = r.

Definition Sign_with (d e k : Z) : option (Z * Z) :=
  match ec_mul E (Z.to_nat (k mod n)) G with
  | Infinity => None
  | Affine x _ =>
    let r := x mod n in
    let s := fdiv n (e + r * d) k in
    if r =? 0 then None else if s =? 0 then None else Some (r, s)
  end.

Hypothesis Heq : equ c = ShortWeierstrass.
Hypothesis Hcn : cn c = n.
Hypothesis Hcg : cg c = coords G.
Hypothesis Pn : prime n.
Hypothesis Hn : 2 < n.
Hypothesis G_on : on_curve E G.
Hypothesis add_on : forall P Q, on_curve E P -> on_curve E Q -> on_curve E (ec_add E P Q).
Hypothesis mul_on : forall k P, on_curve E P -> on_curve E (ec_mul E k P).
Hypothesis mul_plus : forall i j P, on_curve E P -> ec_mul E (i + j) P = ec_add E (ec_mul E i P) (ec_mul E j P).
Hypothesis mul_mult : forall i j P, on_curve E P -> ec_mul E (i * j) P = ec_mul E i (ec_mul E j P).
Hypothesis add_ok : forall P Q, on_curve E P -> on_curve E Q ->
  to_point (jacobian_add (from_point (coords P)) (from_point (coords Q)) c) (cp c) = coords (ec_add E P Q).
Hypothesis mul_ok : forall P k, on_curve E P -> 0 <= k < n ->
  to_point (jacobian_multiply (from_point (coords P)) k c) (cp c) = coords (ec_mul E (Z.to_nat k) P).
Hypothesis mul_red : forall P k, k < 0 \/ n <= k ->
  to_point (jacobian_multiply (from_point (coords P)) k c) (cp c)
  = to_point (jacobian_multiply (from_point (coords P)) (k mod n) c) (cp c).
Hypothesis order : ec_mul E (Z.to_nat n) G = Infinity.
Hypothesis contains_ok : forall x y, 0 <= x -> 0 <= y -> contains c (Point x y) = true <-> on_curve E (Affine x y).
Hypothesis not_nn : ~ on_curve E (Affine n n).
Hypothesis not_00 : forall x, ~ on_curve E (Affine x 0).

Lemma multiply_G k : ec_multiply (E:=Empty_set) (cg c) k c = Ok (coords (ec_mul E (Z.to_nat (k mod n)) G)).
Proof.
  unfold ec_multiply. rewrite Heq, Hcg. f_equal.
  pose proof (Z.mod_pos_bound k n ltac:(lia)).
  destruct (Z_lt_dec k 0); [rewrite mul_red by lia; apply mul_ok; assumption|].
  destruct (Z_le_dec n k); [rewrite mul_red by lia; apply mul_ok; assumption|].
  rewrite (Z.mod_small k) by lia. apply mul_ok; [assumption|lia].
Qed.

Lemma multiply_any F P k : on_curve E P -> 0 <= k < n ->
  ec_multiply (E:=F) (coords P) k c = Ok (coords (ec_mul E (Z.to_nat k) P)).
Proof. intros HP Hk. unfold ec_multiply. rewrite Heq. f_equal. apply mul_ok; assumption. Qed.

Lemma multiply_G' F k : ec_multiply (E:=F) (cg c) k c = Ok (coords (ec_mul E (Z.to_nat (k mod n)) G)).
Proof.
  pose proof (multiply_G k) as H. unfold ec_multiply in *. rewrite Heq in *. congruence.
Qed.

Lemma add_any F P Q : on_curve E P -> on_curve E Q ->
  ec_add_points (E:=F) (coords P) (coords Q) c = Ok (coords (ec_add E P Q)).
Proof. intros HP HQ. unfold ec_add_points. rewrite Heq. f_equal. apply add_ok; assumption. Qed.

Lemma ndiv k : 0 < k < n -> ~ (n | k).
Proof. intros H D. apply Z.divide_pos_le in D; lia. Qed.

Lemma mod_ndiv k : k mod n <> 0 -> ~ (n | k).
Proof. intros H D. apply H. apply Z.mod_divide; [lia|assumption]. Qed.

Lemma u_fdiv z s : 0 < s < n -> rem_euclid (z * inv s n) n = fdiv n z s.
Proof.
  intros Hs. rewrite rem_euclid_mod by lia. destruct (prime_ndiv_pow_inv n s Pn Hn ltac:(lia) (ndiv s Hs)) as [-> _].
  unfold fdiv. apply Zmult_mod_idemp_r.
Qed.

Lemma u_fdiv' z s : 0 <= s -> s mod n <> 0 -> rem_euclid (z * inv s n) n = fdiv n z s.
Proof.
  intros Hs Ns. rewrite rem_euclid_mod by lia.
  destruct (prime_ndiv_pow_inv n s Pn Hn ltac:(lia) (mod_ndiv s Ns)) as [-> _].
  unfold fdiv. apply Zmult_mod_idemp_r.
Qed.

Lemma fdiv_range z s : 0 <= fdiv n z s < n.
Proof. apply Z.mod_pos_bound. lia. Qed.

Theorem verify_ok F x y sg h : 0 <= x -> 0 <= y ->
  exists b, ecdsa_verify (E:=F) (PublicKey (Point x y) c) sg h = Ok b /\
  (b = true <-> on_curve E (Affine x y) /\ Valid (Affine x y) (be_val h) (sg_r sg) (sg_s sg)).
Proof.
  intros Hx Hy. destruct sg as [r s]. unfold ecdsa_verify. cbn [pk_curve pk_point px py sg_r sg_s].
  rewrite Hcn.
  destruct (Z.eqb_spec x 0) as [Ex|Nx]; cbn [andb].
  1: destruct (Z.eqb_spec y 0) as [Ey|Ny]; cbn [andb].
  1: { exists false. split; [reflexivity|]. split; [discriminate|]. intros [H _]. subst y. destruct (not_00 _ H). }
  all: (destruct (Z.eqb_spec x n) as [Ex'|Nx']; cbn [andb];
    [destruct (Z.eqb_spec y n) as [Ey'|Ny']; cbn [andb];
      [exists false; split; [reflexivity|]; split; [discriminate|]; intros [H _]; rewrite Ex', Ey' in H; destruct (not_nn H)|]|]).
  all: (destruct (contains c (Point x y)) eqn:Hc; cbn [negb];
    [|exists false; split; [reflexivity|]; split; [discriminate|]; intros [H _]; apply contains_ok in H; [congruence|assumption|assumption]]).
  all: apply contains_ok in Hc; [|assumption|assumption].
  all: rewrite !Z.geb_leb.
  all: (destruct (Z.leb_spec s 0); cbn [orb]; [exists false; split; [reflexivity|]; split; [discriminate|]; unfold Valid; intros [_ H']; lia|]).
  all: (destruct (Z.leb_spec n s); cbn [orb]; [exists false; split; [reflexivity|]; split; [discriminate|]; unfold Valid; intros [_ H']; lia|]).
  all: (destruct (Z.leb_spec r 0); cbn [orb]; [exists false; split; [reflexivity|]; split; [discriminate|]; unfold Valid; intros [_ H']; lia|]).
  all: (destruct (Z.leb_spec n r); cbn [orb]; [exists false; split; [reflexivity|]; split; [discriminate|]; unfold Valid; intros [_ H']; lia|]).
  all: rewrite !u_fdiv by lia; rewrite to_ibig_be_val.
  all: rewrite multiply_G'; cbn [bind]; change (Point x y) with (coords (Affine x y));
    rewrite multiply_any by (try assumption; apply fdiv_range); cbn [bind];
    rewrite add_any by (apply mul_on; assumption); cbn [bind];
    rewrite (Z.mod_small (fdiv n (be_val h) s)) by apply fdiv_range.
  all: set (S := ec_add E (ec_mul E (Z.to_nat (fdiv n (be_val h) s)) G) (ec_mul E (Z.to_nat (fdiv n r s)) (Affine x y)));
    destruct S as [|sx sy] eqn:ES; cbn [coords px py].
  all: rewrite !rem_euclid_mod by lia.
  all: try (rewrite Z.mod_0_l by lia; cbn; exists false; split; [reflexivity|]; split; [discriminate|];
    intros (_ & _ & _ & xx & yy & EE & _); fold S in EE; rewrite ES in EE; discriminate).
  all: (destruct (Z.eqb_spec (sx mod n) r) as [Er|Nr];
    [exists true; split;
       [destruct (Z.eqb_spec (sx mod n) 0); [lia|reflexivity]|
        split; [intros _; split; [assumption|]; split; [lia|]; split; [lia|]; exists sx, sy; split; assumption|reflexivity]]
    |exists false; split; [destruct ((sx mod n =? 0) && (sy mod n =? 0)); reflexivity|];
     split; [discriminate|]; intros (_ & _ & _ & xx & yy & EE & Em); fold S in EE; rewrite ES in EE; congruence]).
Qed.

(* the scalars of multiples of G count modulo n *)
Lemma mulG_mod a : ec_mul E a G = ec_mul E (Z.to_nat (Z.of_nat a mod n)) G.
Proof.
  pose proof (Z.mod_pos_bound (Z.of_nat a) n ltac:(lia)) as B.
  pose proof (Z.div_pos (Z.of_nat a) n ltac:(lia) ltac:(lia)) as D.
  assert (Ea : a = (Z.to_nat (Z.of_nat a / n) * Z.to_nat n + Z.to_nat (Z.of_nat a mod n))%nat).
  { rewrite <- Z2Nat.inj_mul, <- Z2Nat.inj_add by nia.
    rewrite Z.mul_comm, <- (Z.div_mod (Z.of_nat a) n) by lia. symmetry. apply Nat2Z.id. }
  rewrite Ea at 1. rewrite mul_plus, mul_mult, order by assumption.
  assert (I : forall k, ec_mul E k Infinity = Infinity) by (induction k as [|k IH]; cbn; [reflexivity|exact IH]).
  rewrite I. reflexivity.
Qed.

Lemma mulG_congr a b : 0 <= a -> 0 <= b -> a mod n = b mod n -> ec_mul E (Z.to_nat a) G = ec_mul E (Z.to_nat b) G.
Proof.
  intros Ha Hb H. rewrite (mulG_mod (Z.to_nat a)), (mulG_mod (Z.to_nat b)), !Z2Nat.id by assumption. congruence.
Qed.

Lemma sign_loop_ok F d e ks : Forall (fun k => 0 <= k) ks ->
  sign_loop (E:=F) c d e ks =
  Ok (match flat_map (fun k => match Sign_with d e k with Some x => [x] | None => [] end) ks with
      | (r, s) :: _ => Some {| sg_r := r; sg_s := s |}
      | [] => None
      end).
Proof.
  induction ks as [|k ks IH]; intros Hk; [reflexivity|]. inversion Hk as [|? ? K Hk']; subst. cbn [sign_loop flat_map].
  rewrite multiply_G'. cbn [bind]. rewrite Hcn. unfold Sign_with at 1.
  specialize (IH Hk').
  destruct (ec_mul E (Z.to_nat (k mod n)) G) as [|x y] eqn:EP; cbn [coords px].
  - rewrite rem_euclid_mod, Z.mod_0_l by lia. cbn. exact IH.
  - rewrite (rem_euclid_mod x) by lia.
    destruct (Z.eqb_spec (x mod n) 0) as [E0|N0]; [exact IH|].
    assert (Nk : k mod n <> 0). { intros H0. rewrite H0 in EP. discriminate. }
    rewrite u_fdiv' by assumption.
    destruct (Z.eqb_spec (fdiv n (e + x mod n * d) k) 0); [exact IH|reflexivity].
Qed.

Lemma fdiv_solve z s : ~ (n | s) -> (s * fdiv n z s) mod n = z mod n.
Proof.
  intros Hs. unfold fdiv. rewrite Zmult_mod_idemp_r.
  replace (s * (z * s ^ (n - 2))) with (z * s ^ (n - 1)).
  - rewrite <- Zmult_mod_idemp_r, fermat, Z.mul_1_r by assumption. reflexivity.
  - replace (n - 1) with (Z.succ (n - 2)) by lia. rewrite Z.pow_succ_r by lia. ring.
Qed.

Theorem sign_valid d e k r s : 0 <= k -> Sign_with d e k = Some (r, s) ->
  Valid (ec_mul E (Z.to_nat (d mod n)) G) e r s.
Proof.
  intros Hk H. unfold Sign_with in H.
  destruct (ec_mul E (Z.to_nat (k mod n)) G) as [|x y] eqn:EP; [discriminate|].
  assert (Nk : k mod n <> 0). { intros H0. rewrite H0 in EP. discriminate. }
  destruct (Z.eqb_spec (x mod n) 0); [discriminate|].
  destruct (Z.eqb_spec (fdiv n (e + x mod n * d) k) 0) as [|Ns]; [discriminate|].
  injection H as Er Es. pose proof (Z.mod_pos_bound x n ltac:(lia)). pose proof (fdiv_range (e + x mod n * d) k).
  split; [lia|]. split; [lia|]. exists x, y. split; [|assumption]. rewrite <- EP.
  pose proof (Z.mod_pos_bound d n ltac:(lia)) as Bd. pose proof (Z.mod_pos_bound k n ltac:(lia)) as Bk.
  pose proof (fdiv_range e s) as B1. pose proof (fdiv_range r s) as B2.
  rewrite <- mul_mult, <- mul_plus by assumption.
  rewrite <- Z2Nat.inj_mul, <- Z2Nat.inj_add by nia.
  apply mulG_congr; [nia|lia|]. rewrite Zmod_mod.
  assert (Sd : ~ (n | s)) by (apply ndiv; lia).
  apply (mul_cancel_mod n s); [assumption|assumption|].
  assert (E1 : (s * k) mod n = (e + r * d) mod n).
  { rewrite <- Es, <- Er, Z.mul_comm. apply fdiv_solve, mod_ndiv, Nk. }
  pose proof (fdiv_solve e s Sd) as E2. pose proof (fdiv_solve r s Sd) as E3.
  rewrite E1. rewrite Z.mul_add_distr_l, Z.mul_assoc. rewrite Zplus_mod, (Zmult_mod (s * fdiv n r s)).
  rewrite E2, E3, Zmod_mod, <- Zmult_mod, <- Zplus_mod. reflexivity.
Qed.

Lemma public_on d : on_curve E (ec_mul E (Z.to_nat (d mod n)) G).
Proof. apply mul_on, G_on. Qed.

(* d G is the point at infinity only when n divides d *)
Hypothesis G_aff : G <> Infinity.

Lemma public_nz d : d mod n <> 0 -> ec_mul E (Z.to_nat (d mod n)) G <> Infinity.
Proof.
  intros Nd H. pose proof (Z.mod_pos_bound d n ltac:(lia)) as Bd.
  set (m := d mod n) in *. assert (Rm : 0 < m < n) by lia.
  set (v := m ^ (n - 2) mod n). pose proof (Z.mod_pos_bound (m ^ (n - 2)) n ltac:(lia)) as Bv. fold v in Bv.
  destruct (prime_ndiv_pow_inv n m Pn Hn ltac:(lia) (ndiv m Rm)) as [_ M]. fold v in M.
  apply G_aff. transitivity (ec_mul E (Z.to_nat 1) G).
  { change (Z.to_nat 1) with 1%nat. cbn [ec_mul]. destruct G; reflexivity. }
  rewrite (mulG_congr 1 (v * m)).
  - rewrite Z2Nat.inj_mul, mul_mult, H by (assumption || lia). clear. generalize (Z.to_nat v).
    induction n0 as [|k IH]; cbn; [reflexivity|exact IH].
  - lia.
  - nia.
  - rewrite Z.mul_comm, M. apply Z.mod_small. lia.
Qed.

Theorem sign_then_verify F F' d h ks sg : d mod n <> 0 -> Forall (fun k => 0 <= k) ks ->
  ecdsa_sign (E:=F) (PrivateKey c d) h ks = Ok (Some sg) ->
  exists key, get_public_key (E:=F') (PrivateKey c d) = Ok key /\
  ecdsa_verify (E:=F') key sg h = Ok true /\ 0 < sg_r sg < n /\ 0 < sg_s sg < n.
Proof.
  intros Nd Hk H. unfold get_public_key, ecdsa_sign in *. cbn [sk_curve sk_secret] in *.
  rewrite multiply_G'. cbn [bind]. eexists. split; [reflexivity|].
  rewrite sign_loop_ok, to_ibig_be_val in H by assumption. injection H as H.
  destruct (flat_map _ ks) as [|[r s] l] eqn:EL; [discriminate|]. injection H as <-. cbn [sg_r sg_s].
  assert (Hin : exists k, In k ks /\ Sign_with d (be_val h) k = Some (r, s)).
  { assert (I : In (r, s) (flat_map (fun k => match Sign_with d (be_val h) k with Some x => [x] | None => [] end) ks))
      by (rewrite EL; left; reflexivity).
    apply in_flat_map in I. destruct I as (k & Ik & Ik'). exists k. split; [assumption|].
    destruct (Sign_with d (be_val h) k); [|destruct Ik']. destruct Ik' as [->|[]]. reflexivity. }
  destruct Hin as (k & Ik & Sk). rewrite Forall_forall in Hk.
  pose proof (sign_valid d (be_val h) k r s (Hk k Ik) Sk) as V.
  pose proof (public_on d) as On. pose proof (public_nz d Nd) as Nz.
  destruct (ec_mul E (Z.to_nat (d mod n)) G) as [|x y] eqn:EQ; [congruence|]. cbn [coords].
  destruct (verify_ok F' x y {| sg_r := r; sg_s := s |} h ltac:(cbn in On; lia) ltac:(cbn in On; lia)) as (b & Eb & Hb).
  rewrite Eb. cbn [sg_r sg_s] in Hb. destruct V as (V1 & V2 & V3).
  split; [|split; assumption]. f_equal. apply Hb. split; [assumption|]. split; [assumption|]. split; assumption.
Qed.

End Ecdsa.
