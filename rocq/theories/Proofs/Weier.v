(* The Z-level group law of Spec/Ec.v is the group law of Proofs/EcGroup.v over
   the field of Proofs/Fp.v; the Jacobian formulas of the model compute it. *)
From Coq Require Import ZArith Lia Znumtheory Bool List Ring Field.
From Verif.Model Require Import Base Curve.
From Verif.Spec Require Import Ec EcView.
From Verif.Proofs Require Import Number Fp EcGroup.
Open Scope Z_scope.

(* ---------- modular inverse ---------- *)

Lemma rem_euclid_mod x n : 0 < n -> rem_euclid x n = x mod n.
Proof.
  intros Hn. unfold rem_euclid.
  pose proof (Z.quot_rem' x n) as E. pose proof (Z.rem_bound_abs x n ltac:(lia)) as B.
  rewrite (Z.abs_eq n) in B by lia.
  destruct (Z.ltb_spec (Z.rem x n) 0).
  - destruct (Z.ltb_spec n 0); [lia|]. apply Z.mod_unique with (Z.quot x n - 1); [left; lia|lia].
  - apply Z.mod_unique with (Z.quot x n); [left; lia|lia].
Qed.

Lemma inv_loop_ok x n fuel : forall lm hm low high,
  1 < n -> 0 <= low < high -> 1 < high ->
  (n | lm * x - low) -> (n | hm * x - high) -> Z.gcd low high = 1 ->
  low * high < 2 ^ Z.of_nat fuel ->
  exists r, inv_loop fuel lm hm low high = Some r /\ (r * x) mod n = 1.
Proof.
  induction fuel as [|fuel IH]; intros lm hm low high Hn Hlh Hh D1 D2 G B;
    cbn [inv_loop]; rewrite Z.gtb_ltb; destruct (Z.ltb_spec 1 low) as [Hl|Hl].
  - cbn in B. nia.
  - exists lm. split; [reflexivity|].
    assert (low = 1).
    { destruct (Z.eq_dec low 0) as [->|]; [|lia]. rewrite Z.gcd_0_l, Z.abs_eq in G by lia. lia. }
    subst low. rewrite <- (Z.mod_1_l n) by lia. apply mod_eq_divide; [lia|assumption].
  - pose proof (Z.quot_rem' high low) as E.
    pose proof (Z.rem_bound_pos high low ltac:(lia) ltac:(lia)) as R.
    set (q := Z.quot high low) in *. set (r := Z.rem high low) in *.
    assert (Hq : 1 <= q) by nia.
    assert (Er : high - low * q = r) by lia.
    apply IH; try assumption; try lia.
    + replace ((hm - lm * q) * x - (high - low * q)) with ((hm * x - high) - q * (lm * x - low)) by ring.
      apply Z.divide_sub_r; [assumption|apply Z.divide_mul_r; assumption].
    + rewrite Er. rewrite <- G, (Z.gcd_comm low high).
      replace high with (r + q * low) by lia. rewrite (Z.gcd_comm r low), (Z.gcd_comm (r + q * low)).
      rewrite Z.gcd_add_mult_diag_r. reflexivity.
    + rewrite Er. rewrite Nat2Z.inj_succ, Z.pow_succ_r in B by lia. nia.
  - exists lm. split; [reflexivity|].
    assert (low = 1).
    { destruct (Z.eq_dec low 0) as [->|]; [|lia]. rewrite Z.gcd_0_l, Z.abs_eq in G by lia. lia. }
    subst low. rewrite <- (Z.mod_1_l n) by lia. apply mod_eq_divide; [lia|assumption].
Qed.

Lemma inv_spec x n : 1 < n -> 0 <= x -> Z.gcd x n = 1 ->
  0 <= inv x n < n /\ (x * inv x n) mod n = 1.
Proof.
  intros Hn Hx G. unfold inv.
  destruct (Z.eqb_spec x 0) as [->|Nx].
  { rewrite Z.gcd_0_l, Z.abs_eq in G by lia. lia. }
  rewrite Z.rem_mod_nonneg by lia.
  pose proof (Z.mod_pos_bound x n ltac:(lia)) as B.
  destruct (inv_loop_ok x n (inv_fuel n) 1 0 (x mod n) n) as (r & -> & Hr); try assumption; try lia.
  - replace (1 * x - x mod n) with (x - x mod n) by ring. exists (x / n). pose proof (Z.div_mod x n ltac:(lia)). lia.
  - exists (-1). ring.
  - rewrite Z.gcd_mod, Z.gcd_comm by lia. exact G.
  - unfold inv_fuel. pose proof (Z.log2_nonneg n). rewrite Z2Nat.id by lia.
    pose proof (Z.log2_spec n ltac:(lia)) as [_ L].
    replace (2 * Z.log2 n + 3) with (Z.succ (Z.log2 n) + Z.succ (Z.log2 n) + 1) by lia.
    rewrite !Z.pow_add_r by lia. set (k := 2 ^ Z.succ (Z.log2 n)) in *. nia.
  - rewrite rem_euclid_mod by lia. split; [apply Z.mod_pos_bound; lia|].
    rewrite Z.mul_mod_idemp_r by lia. rewrite Z.mul_comm. exact Hr.
Qed.

(* ---------- the group law over Z and over the field ---------- *)

Section Weier.
Variable E : weierstrass.
Notation p := (wp E).
Hypothesis Hp : prime p.
Hypothesis H2 : 2 < p.

Notation F := (Fp p).
Notation i := (inj p Hp).
Declare Scope F_scope.
Notation "0" := (F0 p Hp) : F_scope.
Notation "1" := (F1 p Hp) : F_scope.
Notation "x + y" := (Fadd p Hp x y) : F_scope.
Notation "x * y" := (Fmul p Hp x y) : F_scope.
Notation "x - y" := (Fsub p Hp x y) : F_scope.
Notation "- x" := (Fopp p Hp x) : F_scope.
Notation "x / y" := (Fdiv p Hp x y) : F_scope.
Delimit Scope F_scope with F.

Let Fd := Fdec p.
Let two := F2 p Hp H2.
Add Field FF : (Fth p Hp).

Notation a4 := (i (wa E)).
Notation a6 := (i (wb E)).
Notation gadd := (add F (F1 p Hp) (Fadd p Hp) (Fmul p Hp) (Fsub p Hp) (Fopp p Hp) (Fdiv p Hp) Fd (F0 p Hp) a4).
Notation gon := (on F (Fadd p Hp) (Fmul p Hp) (F0 p Hp) a4 a6).
Notation gopp := (opp F (Fopp p Hp)).
Notation gmul := (mul F (F1 p Hp) (Fadd p Hp) (Fmul p Hp) (Fsub p Hp) (Fopp p Hp) (Fdiv p Hp) Fd (F0 p Hp) a4).
Notation gcubic := (cubic F (Fadd p Hp) (Fmul p Hp) (F0 p Hp) a4 a6).
Notation gcubic' := (cubic' F (F1 p Hp) (Fadd p Hp) (Fmul p Hp) (F0 p Hp) a4).

Definition phi (P : ecpoint) : pt F :=
  match P with Infinity => O F | Affine x y => A F (i x) (i y) end.

Definition reduced (P : ecpoint) : Prop :=
  match P with Infinity => True | Affine x y => 0 <= x < p /\ 0 <= y < p end.

Lemma i_small x y : 0 <= x < p -> 0 <= y < p -> i x = i y -> x = y.
Proof. intros Hx Hy H. apply inj_eq in H. rewrite !Z.mod_small in H by assumption. exact H. Qed.

Lemma i_sq x : i (x ^ 2) = (i x * i x)%F.
Proof. rewrite <- inj_mul. f_equal. ring. Qed.
Lemma i_cube x : i (x ^ 3) = (i x * i x * i x)%F.
Proof. rewrite <- !inj_mul. f_equal. ring. Qed.
Lemma i_fourth x : i (x ^ 4) = (i x * i x * i x * i x)%F.
Proof. rewrite <- !inj_mul. f_equal. ring. Qed.
Lemma i_fdiv u v : i (fdiv p u v) = (i u / i v)%F.
Proof. unfold fdiv. rewrite inj_mod, inj_mul, inj_inv. reflexivity. Qed.
Lemma i_2 : i 2 = (1 + 1)%F. Proof. unfold F1. rewrite <- inj_add. reflexivity. Qed.
Lemma i_3 : i 3 = (1 + 1 + 1)%F. Proof. unfold F1. rewrite <- !inj_add. reflexivity. Qed.
Lemma i_4 : i 4 = ((1 + 1) * (1 + 1))%F. Proof. rewrite <- i_2, <- inj_mul. reflexivity. Qed.
Lemma i_8 : i 8 = ((1 + 1) * (1 + 1) * (1 + 1))%F. Proof. rewrite <- i_2, <- !inj_mul. reflexivity. Qed.

Lemma on_curve_phi P : on_curve E P <-> reduced P /\ gon (phi P).
Proof.
  destruct P as [|x y]; cbn; [tauto|].
  assert (H : (y ^ 2) mod p = (x ^ 3 + wa E * x + wb E) mod p <-> (i y * i y)%F = gcubic (i x)).
  { rewrite <- inj_eq with (Hp := Hp). rewrite i_sq, !inj_add, i_cube, inj_mul. unfold cubic.
    assert (Ec : (i x * i x * i x + i (wa E) * i x + i (wb E))%F = (i x * i x * i x + 0 * i x * i x + i (wa E) * i x + i (wb E))%F) by ring.
    rewrite Ec. reflexivity. }
  tauto.
Qed.

Lemma phi_inj P Q : reduced P -> reduced Q -> phi P = phi Q -> P = Q.
Proof.
  destruct P as [|x y], Q as [|x' y']; cbn; try discriminate; [reflexivity|].
  intros [? ?] [? ?] HE. injection HE as Hx Hy. f_equal; apply i_small; try assumption; apply inj_eq; assumption.
Qed.

Lemma phi_add P Q : reduced P -> reduced Q -> phi (ec_add E P Q) = gadd (phi P) (phi Q).
Proof.
  destruct P as [|x y], Q as [|x' y']; try reflexivity. cbn [reduced]. intros [Hx Hy] [Hx' Hy'].
  cbn [ec_add phi add].
  assert (Hvia : forall l, phi (third p x y x' l) = via F (Fmul p Hp) (Fsub p Hp) (F0 p Hp) (i x) (i y) (i x') (i l)).
  { intros l. unfold third, via. cbn [phi]. rewrite !inj_mod, !inj_sub, inj_mul, inj_sub, inj_mod, !inj_sub, i_sq.
    f_equal; ring. }
  destruct (Z.eqb_spec x x') as [Ex|Nx]; destruct (Fd (i x) (i x')) as [Ei|Ni].
  - destruct (Fd (i y) (- i y')%F) as [Ey|Ny].
    + assert (Hz : (y + y') mod p = 0).
      { change 0 with (val p (F0 p Hp)). rewrite <- val_inj with (Hp := Hp). f_equal.
        rewrite inj_add, Ey. ring. }
      rewrite Hz. reflexivity.
    + destruct (Z.eqb_spec ((y + y') mod p) 0) as [Hz|Hz].
      * exfalso. apply Ny. assert (Hz' : (i y + i y')%F = 0%F).
        { rewrite <- inj_add. unfold F0. apply inj_eq. rewrite Hz. symmetry. apply Z.mod_0_l. lia. }
        transitivity (i y + i y' - i y')%F; [ring|]. rewrite Hz'. ring.
      * rewrite Hvia. f_equal. rewrite i_fdiv, !inj_add, !inj_mul, i_sq, i_2, i_3. unfold cubic'.
        f_equal. ring.
  - subst. contradiction.
  - exfalso. apply Nx. apply i_small; assumption.
  - rewrite Hvia. f_equal. rewrite i_fdiv, !inj_sub. reflexivity.
Qed.

Lemma third_reduced x y x' l : reduced (third p x y x' l).
Proof. unfold third. cbn. split; apply Z.mod_pos_bound; lia. Qed.

Lemma add_reduced P Q : reduced P -> reduced Q -> reduced (ec_add E P Q).
Proof.
  destruct P as [|x y], Q as [|x' y']; cbn [ec_add]; auto. intros _ _.
  destruct (x =? x'); [destruct (_ =? 0)|]; try apply third_reduced. exact I.
Qed.

Lemma gadd_on P Q : gon P -> gon Q -> gon (gadd P Q).
Proof. exact (add_on F _ _ _ _ _ _ _ _ (Fth p Hp) Fd two _ _ _ P Q). Qed.

Lemma ec_add_on P Q : on_curve E P -> on_curve E Q -> on_curve E (ec_add E P Q).
Proof.
  rewrite !on_curve_phi. intros [HP GP] [HQ GQ]. split; [apply add_reduced; assumption|].
  rewrite phi_add by assumption. apply gadd_on; assumption.
Qed.

Lemma ec_add_comm P Q : on_curve E P -> on_curve E Q -> ec_add E P Q = ec_add E Q P.
Proof.
  rewrite !on_curve_phi. intros [HP GP] [HQ GQ].
  apply phi_inj; try (apply add_reduced; assumption). rewrite !phi_add by assumption.
  apply (add_comm F _ _ _ _ _ _ _ _ (Fth p Hp) Fd two _ _ a6); assumption.
Qed.

Lemma ec_mul_on n P : on_curve E P -> on_curve E (ec_mul E n P).
Proof. intros HP. induction n; cbn [ec_mul]; [exact I|apply ec_add_on; assumption]. Qed.

Lemma phi_mul n P : on_curve E P -> phi (ec_mul E n P) = gmul n (phi P).
Proof.
  intros HP. induction n as [|n IH]; cbn [ec_mul mul]; [reflexivity|].
  pose proof (ec_mul_on n P HP) as HM. rewrite on_curve_phi in HP, HM.
  rewrite phi_add, IH by tauto. reflexivity.
Qed.

Lemma phi_opp P : phi (ec_opp E P) = gopp (phi P).
Proof. destruct P; cbn; [reflexivity|]. rewrite inj_mod, inj_opp. reflexivity. Qed.

Hypothesis nonsing : forall x, gcubic x = 0%F -> gcubic' x <> 0%F.

Lemma ec_add_assoc P Q R : on_curve E P -> on_curve E Q -> on_curve E R ->
  ec_add E (ec_add E P Q) R = ec_add E P (ec_add E Q R).
Proof.
  rewrite !on_curve_phi. intros [HP GP] [HQ GQ] [HR GR].
  apply phi_inj; try (repeat apply add_reduced; assumption).
  rewrite !phi_add by (try apply add_reduced; assumption).
  apply (add_assoc F _ _ _ _ _ _ _ _ (Fth p Hp) Fd two _ _ a6 nonsing); assumption.
Qed.

Lemma ec_mul_plus m n P : on_curve E P -> ec_mul E (m + n) P = ec_add E (ec_mul E m P) (ec_mul E n P).
Proof.
  intros HP. pose proof (ec_mul_on m P HP) as Hm. pose proof (ec_mul_on n P HP) as Hn.
  pose proof (ec_mul_on (m + n) P HP) as Hmn. pose proof (ec_add_on _ _ Hm Hn) as Ha.
  apply phi_inj; [apply on_curve_phi; assumption|apply on_curve_phi; assumption|].
  rewrite phi_add, !phi_mul by (assumption || apply on_curve_phi; assumption).
  apply (mul_plus F _ _ _ _ _ _ _ _ (Fth p Hp) Fd two _ _ a6 nonsing). apply on_curve_phi, HP.
Qed.

Lemma ec_mul_mult m n P : on_curve E P -> ec_mul E (m * n) P = ec_mul E m (ec_mul E n P).
Proof.
  intros HP. pose proof (ec_mul_on n P HP) as Hn.
  apply phi_inj; [apply on_curve_phi, ec_mul_on; assumption|apply on_curve_phi, ec_mul_on; assumption|].
  rewrite !phi_mul by assumption.
  apply (mul_mult F _ _ _ _ _ _ _ _ (Fth p Hp) Fd two _ _ a6 nonsing). apply on_curve_phi, HP.
Qed.

Lemma ec_mul_inf n : ec_mul E n Infinity = Infinity.
Proof. induction n as [|n IH]; cbn; [reflexivity|exact IH]. Qed.

(* ---------- Jacobian coordinates ---------- *)

Hypothesis noroot : forall x, gcubic x <> 0%F.

Variable c : curve.
Hypothesis Hc : cp c = p.
Hypothesis Ha : i (ca c) = a4.

Definition range (J : jac) : Prop := 0 <= jx J < p /\ 0 <= jy J < p /\ 0 <= jz J < p.

Definition rep (J : jac) (P : pt F) : Prop :=
  range J /\
  match P with
  | O _ => jx J = 0 /\ jy J = 0
  | A _ x y => i (jz J) <> 0%F /\ i (jx J) = (x * i (jz J) * i (jz J))%F
               /\ i (jy J) = (y * i (jz J) * i (jz J) * i (jz J))%F
  end.

Lemma y_nz x y : gon (A F x y) -> y <> 0%F.
Proof. cbn. intros H ->. apply (noroot x). rewrite <- H. ring. Qed.

Let mnz := mul_nz F _ _ _ _ _ _ _ _ (Fth p Hp) Fd.
Let nsb := nsub F _ _ _ _ _ _ _ _ (Fth p Hp).

Lemma rep_y_O J : rep J (O F) -> (jy J =? 0) = true.
Proof. intros [_ [_ ->]]. reflexivity. Qed.

Lemma rep_y_A J x y : gon (A F x y) -> rep J (A F x y) -> (jy J =? 0) = false.
Proof.
  intros Ho [_ (Hz & _ & Hy)]. apply Z.eqb_neq. intros H0. rewrite H0 in Hy.
  apply y_nz in Ho. symmetry in Hy.
  assert (Hn : (y * i (jz J) * i (jz J) * i (jz J))%F <> 0%F) by (repeat apply mnz; assumption).
  apply Hn. rewrite Hy. reflexivity.
Qed.

Lemma i_rem x : i (rem_euclid x (cp c)) = i x.
Proof. rewrite Hc, rem_euclid_mod by lia. apply inj_mod. Qed.

Lemma rem_range x : 0 <= rem_euclid x (cp c) < p.
Proof. rewrite Hc, rem_euclid_mod by lia. apply Z.mod_pos_bound. lia. Qed.

Lemma rep_double J P : gon P -> rep J P -> rep (jacobian_double J c) (gadd P P).
Proof.
  intros Ho HJ. unfold jacobian_double. destruct P as [|x y].
  - rewrite (rep_y_O _ HJ). cbn. repeat split; cbn; lia.
  - rewrite (rep_y_A _ _ _ Ho HJ). destruct HJ as [_ (Hz & Hx & Hy)].
    pose proof (y_nz _ _ Ho) as Yn.
    rewrite (add_tangent F _ _ _ _ _ _ _ _ (Fth p Hp) Fd two _ _ x y Yn).
    split; [repeat split; cbn [jx jy jz]; apply rem_range|].
    unfold via, cubic'. cbn [jx jy jz].
    rewrite !i_rem, ?inj_sub, ?inj_add, ?inj_mul, ?i_rem, ?i_sq, ?inj_sub, ?inj_add, ?inj_mul, ?i_rem, ?i_sq, ?i_fourth,
      ?inj_sub, ?inj_add, ?inj_mul, ?i_rem, ?i_sq, ?i_fourth, ?i_2, ?i_3, ?i_4, ?i_8, Ha.
    repeat (rewrite ?i_rem, ?inj_sub, ?inj_add, ?inj_mul, ?i_sq, ?i_fourth, ?i_2, ?i_3, ?i_4, ?i_8, ?Ha).
    rewrite Hx, Hy. set (z := i (jz J)) in *. clearbody z.
    split; [|split].
    + repeat apply mnz; assumption.
    + field. split; assumption.
    + field. split; assumption.
Qed.

Lemma rep_add J K P Q : gon P -> gon Q -> rep J P -> rep K Q -> rep (jacobian_add J K c) (gadd P Q).
Proof.
  intros HoP HoQ HJ HK. unfold jacobian_add.
  destruct P as [|x1 y1]; [rewrite (rep_y_O _ HJ); exact HK|].
  rewrite (rep_y_A _ _ _ HoP HJ).
  destruct Q as [|x2 y2]; [rewrite (rep_y_O _ HK); exact HJ|].
  rewrite (rep_y_A _ _ _ HoQ HK).
  pose proof HJ as [_ (Hz1 & Hx1 & Hy1)]. pose proof HK as [_ (Hz2 & Hx2 & Hy2)].
  set (u1 := rem_euclid (jx J * jz K ^ 2) (cp c)).
  set (u2 := rem_euclid (jx K * jz J ^ 2) (cp c)).
  set (s1 := rem_euclid (jy J * jz K ^ 3) (cp c)).
  set (s2 := rem_euclid (jy K * jz J ^ 3) (cp c)).
  set (z1 := i (jz J)) in *. set (z2 := i (jz K)) in *.
  assert (U1 : i u1 = (x1 * (z1 * z1 * (z2 * z2)))%F).
  { unfold u1. rewrite i_rem, inj_mul, i_sq, Hx1. fold z2. ring. }
  assert (U2 : i u2 = (x2 * (z1 * z1 * (z2 * z2)))%F).
  { unfold u2. rewrite i_rem, inj_mul, i_sq, Hx2. fold z1. ring. }
  assert (S1 : i s1 = (y1 * (z1 * z1 * z1 * (z2 * z2 * z2)))%F).
  { unfold s1. rewrite i_rem, inj_mul, i_cube, Hy1. fold z2. ring. }
  assert (S2 : i s2 = (y2 * (z1 * z1 * z1 * (z2 * z2 * z2)))%F).
  { unfold s2. rewrite i_rem, inj_mul, i_cube, Hy2. fold z1. ring. }
  assert (Hcan : forall a b k : F, k <> 0%F -> (a * k)%F = (b * k)%F -> a = b).
  { intros a b k Hk He. transitivity (a * k / k)%F; [field; assumption|]. rewrite He. field. assumption. }
  assert (Hu : u1 = u2 <-> x1 = x2).
  { split; intros He.
    - apply (Hcan x1 x2 (z1 * z1 * (z2 * z2))%F); [repeat apply mnz; assumption|]. rewrite <- U1, <- U2, He. reflexivity.
    - apply i_small; try apply rem_range. fold u1 u2. rewrite U1, U2, He. reflexivity. }
  assert (Hs : s1 = s2 <-> y1 = y2).
  { split; intros He.
    - apply (Hcan y1 y2 (z1 * z1 * z1 * (z2 * z2 * z2))%F); [repeat apply mnz; assumption|]. rewrite <- S1, <- S2, He. reflexivity.
    - apply i_small; try apply rem_range. fold s1 s2. rewrite S1, S2, He. reflexivity. }
  clearbody u1 u2 s1 s2.
  destruct (Z.eqb_spec u1 u2) as [Eu|Nu].
  - apply Hu in Eu. subst x2.
    destruct (Z.eqb_spec s1 s2) as [Es|Ns]; cbn [negb].
    + apply Hs in Es. subst y2. apply rep_double; assumption.
    + assert (Ey : y1 = (- y2)%F).
      { destruct (sq_eq F _ _ _ _ _ _ _ _ (Fth p Hp) Fd y1 y2) as [Ey|Ey]; [cbn in HoP, HoQ; congruence| |exact Ey].
        exfalso. apply Ns, Hs, Ey. }
      cbn [add]. destruct (Fd x1 x1) as [_|n]; [|contradiction].
      destruct (Fd y1 (- y2)%F) as [_|n]; [|contradiction].
      repeat split; cbn; lia.
  - assert (Nx : x1 <> x2) by (intros He; apply Nu, Hu, He).
    rewrite (add_chord F _ _ _ _ _ _ Fd _ _ x1 y1 x2 y2 Nx).
    split; [repeat split; cbn [jx jy jz]; apply rem_range|].
    unfold via. cbn [jx jy jz].
    repeat (rewrite ?i_rem, ?inj_sub, ?inj_add, ?inj_mul, ?i_sq, ?i_2).
    rewrite U1, U2, S1, S2. fold z1 z2. clearbody z1 z2.
    assert (Nd : (x2 - x1)%F <> 0%F) by (apply nsb; congruence).
    split; [|split].
    + repeat apply mnz; try assumption.
      replace (x2 * (z1 * z1 * (z2 * z2)) - x1 * (z1 * z1 * (z2 * z2)))%F with ((x2 - x1) * (z1 * z1 * (z2 * z2)))%F by ring.
      repeat apply mnz; assumption.
    + field. assumption.
    + field. assumption.
Qed.

Definition rep_point (P : pt F) : point :=
  match P with O _ => Point 0 0 | A _ x y => Point (val p x) (val p y) end.

Lemma gcd_nz z : 0 < z < p -> Z.gcd z p = 1.
Proof.
  intros Hz. apply Zgcd_1_rel_prime. apply rel_prime_le_prime; [assumption|lia].
Qed.

Lemma to_point_rep J P : rep J P -> to_point J p = rep_point P.
Proof.
  intros [HR HJ]. unfold to_point. destruct HR as (Rx & Ry & Rz).
  destruct P as [|x y].
  - destruct HJ as [-> ->]. rewrite !Z.mul_0_l, !Z.rem_0_l by lia. reflexivity.
  - destruct HJ as (Hz & Hx & Hy).
    assert (Zp : 0 < jz J).
    { destruct (Z.eq_dec (jz J) 0) as [E0|]; [|lia]. exfalso. apply Hz. rewrite E0. reflexivity. }
    destruct (inv_spec (jz J) p ltac:(lia) ltac:(lia) (gcd_nz (jz J) ltac:(lia))) as [Ri Hi].
    set (w := inv (jz J) p) in *.
    assert (Hw : (i (jz J) * i w)%F = 1%F).
    { rewrite <- inj_mul. unfold F1. apply inj_eq. rewrite Hi. symmetry. apply Z.mod_1_l. lia. }
    assert (Ew : i w = (1 / i (jz J))%F).
    { transitivity (i (jz J) * i w / i (jz J))%F; [field; assumption|]. rewrite Hw. reflexivity. }
    rewrite !Z.rem_mod_nonneg by (try apply Z.mul_nonneg_nonneg; try apply Z.pow_nonneg; lia).
    cbn [rep_point]. f_equal.
    + rewrite <- val_inj with (Hp := Hp). f_equal. rewrite inj_mul, i_sq, Hx, Ew. field. assumption.
    + rewrite <- val_inj with (Hp := Hp). f_equal. rewrite inj_mul, i_cube, Hy, Ew. field. assumption.
Qed.

Lemma rep_mul_pos J P n : gon P -> rep J P -> rep (jacobian_multiply_pos J n c) (gmul (Pos.to_nat n) P).
Proof.
  intros Ho HJ.
  pose proof (mul_on F _ _ _ _ _ _ _ _ (Fth p Hp) Fd two _ _ a6 : forall n P, gon P -> gon (gmul n P)) as Hmon.
  pose proof (fun m n => mul_plus F _ _ _ _ _ _ _ _ (Fth p Hp) Fd two _ _ a6 nonsing m n P Ho) as Hplus.
  induction n as [n IH|n IH|]; cbn [jacobian_multiply_pos].
  - rewrite Pos2Nat.inj_xI. replace (S (2 * Pos.to_nat n)) with (Pos.to_nat n + Pos.to_nat n + 1)%nat by lia.
    rewrite !Hplus. cbn [mul]. rewrite (add_O_r F).
    apply rep_add; [apply gadd_on; apply Hmon; assumption|assumption| |assumption].
    apply rep_double; [apply Hmon; assumption|assumption].
  - rewrite Pos2Nat.inj_xO. replace (2 * Pos.to_nat n)%nat with (Pos.to_nat n + Pos.to_nat n)%nat by lia.
    rewrite Hplus. apply rep_double; [apply Hmon; assumption|assumption].
  - change (Pos.to_nat 1) with 1%nat. cbn [mul]. rewrite (add_O_r F). exact HJ.
Qed.

Lemma rep_point_phi P : reduced P -> rep_point (phi P) = coords P.
Proof.
  destruct P as [|x y]; cbn; [reflexivity|]. intros [Hx Hy]. rewrite !Z.mod_small by assumption. reflexivity.
Qed.

Lemma rep_from P : reduced P -> rep (from_point (coords P)) (phi P).
Proof.
  intros HP. destruct P as [|x y]; unfold rep, range; cbn [coords from_point jx jy jz px py phi reduced] in *.
  - repeat split; lia.
  - split; [lia|]. split; [apply inj_nz; intros D; apply Z.divide_pos_le in D; lia|].
    change (i 1) with (F1 p Hp). split; ring.
Qed.

Lemma jac_add_ok P Q : on_curve E P -> on_curve E Q ->
  to_point (jacobian_add (from_point (coords P)) (from_point (coords Q)) c) (cp c) = coords (ec_add E P Q).
Proof.
  intros HP HQ. pose proof (ec_add_on P Q HP HQ) as HS.
  rewrite on_curve_phi in HP, HQ, HS. destruct HP as [RP GP], HQ as [RQ GQ], HS as [RS GS].
  rewrite Hc, (to_point_rep _ (phi (ec_add E P Q))); [apply rep_point_phi, RS|].
  rewrite phi_add by assumption. apply rep_add; try assumption; apply rep_from; assumption.
Qed.

Lemma multiply_inf J k : jx J = 0 -> jy J = 0 -> range J -> rep (jacobian_multiply J k c) (O F).
Proof.
  intros H0x H0y HR. unfold jacobian_multiply. rewrite H0y. cbn. repeat split; cbn; lia.
Qed.

Lemma jac_multiply_ok P k : on_curve E P -> 0 <= k < cn c ->
  to_point (jacobian_multiply (from_point (coords P)) k c) (cp c) = coords (ec_mul E (Z.to_nat k) P).
Proof.
  intros HP Hk. pose proof (ec_mul_on (Z.to_nat k) P HP) as HM. pose proof (phi_mul (Z.to_nat k) P HP) as EM.
  rewrite on_curve_phi in HP, HM. destruct HP as [RP GP], HM as [RM GM].
  rewrite Hc, (to_point_rep _ (phi (ec_mul E (Z.to_nat k) P))); [apply rep_point_phi, RM|].
  rewrite EM. pose proof (rep_from P RP) as HJ.
  destruct P as [|x y].
  - cbn [phi]. rewrite mul_O. apply multiply_inf; cbn; try reflexivity. unfold range. cbn. lia.
  - unfold jacobian_multiply. rewrite (rep_y_A _ _ _ GP HJ). cbn [orb].
    destruct (Z.eqb_spec k 0) as [->|Nk].
    + cbn. repeat split; cbn; lia.
    + destruct (Z.eqb_spec k 1) as [->|N1].
      * change (Z.to_nat 1) with 1%nat. cbn [mul]. rewrite (add_O_r F). exact HJ.
      * destruct (Z.ltb_spec k 0); [lia|]. rewrite Z.geb_leb. destruct (Z.leb_spec (cn c) k); [lia|]. cbn [orb].
        destruct k as [|m|m]; try lia. apply rep_mul_pos; assumption.
Qed.

(* scalars out of range are reduced modulo the curve's n *)
Lemma jac_multiply_reduce P k : 1 < cn c -> k < 0 \/ cn c <= k ->
  to_point (jacobian_multiply (from_point (coords P)) k c) (cp c)
  = to_point (jacobian_multiply (from_point (coords P)) (k mod cn c) c) (cp c).
Proof.
  intros Hn Hk. unfold jacobian_multiply. destruct (jy (from_point (coords P)) =? 0); [reflexivity|]. cbn [orb].
  pose proof (Z.mod_pos_bound k (cn c) ltac:(lia)) as B.
  destruct (Z.eqb_spec k 0); [lia|]. destruct (Z.eqb_spec k 1); [lia|].
  assert (Hor : (k <? 0) || (k >=? cn c) = true).
  { rewrite Z.geb_leb. destruct (Z.ltb_spec k 0); [reflexivity|]. destruct (Z.leb_spec (cn c) k); [reflexivity|lia]. }
  rewrite Hor, rem_euclid_mod by lia. set (m := k mod cn c) in *. clearbody m.
  destruct (Z.eqb_spec m 0) as [->|]; [reflexivity|].
  destruct (Z.eqb_spec m 1) as [->|]; [reflexivity|].
  assert (Hor' : (m <? 0) || (m >=? cn c) = false).
  { rewrite Z.geb_leb. destruct (Z.ltb_spec m 0); [lia|]. destruct (Z.leb_spec (cn c) m); [lia|reflexivity]. }
  rewrite Hor'. reflexivity.
Qed.

End Weier.
