(* P-256: the cubic has no root modulo p (so no point has y = 0) and the base
   point has order n.  Both are computed with a reduction modulo p that is cheap
   for the kernel. *)
From Coq Require Import ZArith Lia Znumtheory Bool List Ring Field.
From Verif.Model Require Import Base Curve.
From Verif.Spec Require Import Ec EcView.
From Verif.Proofs Require Import Number Primes Fp EcGroup Weier.
Import ListNotations.
Open Scope Z_scope.

Notation p := (wp P256).

Lemma p_val : p = 115792089210356248762697446949407573530086143415290314195533631308867097853951.
Proof. reflexivity. Qed.

Lemma Hp : prime p.
Proof. rewrite p_val. exact prime_p256. Qed.

Lemma H2 : 2 < p.
Proof. rewrite p_val. lia. Qed.

(* ---------- reduction ---------- *)

(* 2^k = pos - neg modulo p *)
Definition fold1 (k pos neg x : Z) : Z :=
  let hi := Z.shiftr x k in
  Z.land x (Z.ones k) + pos * hi - neg * hi.

Lemma fold1_ok m k pos neg x : 0 < m -> 0 <= k -> (2 ^ k - pos + neg) mod m = 0 -> fold1 k pos neg x mod m = x mod m.
Proof.
  intros Hm Hk H. unfold fold1. rewrite Z.land_ones, Z.shiftr_div_pow2 by assumption.
  apply Z.mod_divide in H; [|lia]. apply mod_eq_divide; [assumption|].
  pose proof (Z.div_mod x (2 ^ k) ltac:(apply Z.pow_nonzero; lia)) as E.
  replace (x mod 2 ^ k + pos * (x / 2 ^ k) - neg * (x / 2 ^ k) - x) with ((- (x / 2 ^ k)) * (2 ^ k - pos + neg)) by lia.
  apply Z.divide_mul_r, H.
Qed.

Definition K1 := Eval compute in 2 ^ 224 + 1.
Definition K2 := Eval compute in 2 ^ 192 + 2 ^ 96.
Definition K3 := Eval compute in 2 ^ 32 + 1.
Definition K4 := Eval compute in 2 ^ 192 + 2 ^ 128 + 2 ^ 96.
Definition K5 := Eval compute in 2 ^ 64 + 2 ^ 32.
Definition K6 := Eval compute in 2 ^ 224 + 2 ^ 160 + 2 ^ 128.
Definition K7 := Eval compute in 2 ^ 129 + 2 ^ 97.
Definition K8 := Eval compute in 2 ^ 224 + 2 ^ 32 + 1.

Definition red (x : Z) : Z :=
  fold1 256 K1 K2 (fold1 288 K3 K4 (fold1 320 K5 K6 (fold1 384 K7 K8 x))).

Lemma red_ok x : red x mod p = x mod p.
Proof.
  assert (P : 0 < p) by (pose proof H2; lia). unfold red.
  rewrite !fold1_ok by (try assumption; try lia; vm_compute; reflexivity). reflexivity.
Qed.

(* ---------- the cubic has no root ---------- *)

(* c0 + c1 X + c2 X^2 modulo X^3 - 3 X + b *)
Definition poly := (Z * Z * Z)%type.

Definition b := wb P256.

Definition pmul (s t : poly) : poly :=
  let '(s0, s1, s2) := s in let '(t0, t1, t2) := t in
  let r3 := red (s1 * t2 + s2 * t1) in
  let r4 := red (s2 * t2) in
  (red (s0 * t0 - b * r3),
   red (s0 * t1 + s1 * t0 + 3 * r3 - b * r4),
   red (s0 * t2 + s1 * t1 + s2 * t0 + 3 * r4)).

Definition psq (s : poly) : poly :=
  let '(s0, s1, s2) := s in
  let r3 := red (2 * (s1 * s2)) in
  let r4 := red (s2 * s2) in
  (red (s0 * s0 - b * r3),
   red (2 * (s0 * s1) + 3 * r3 - b * r4),
   red (2 * (s0 * s2) + s1 * s1 + 3 * r4)).

Definition pmulx (s : poly) : poly :=
  let '(s0, s1, s2) := s in (red (- (b * s2)), s0 + 3 * s2, s1).

Fixpoint ppow (e : positive) : poly :=
  match e with
  | xH => (0, 1, 0)
  | xO e => psq (ppow e)
  | xI e => pmulx (psq (ppow e))
  end.

Definition peval (s : poly) (x : Z) : Z := let '(s0, s1, s2) := s in s0 + s1 * x + s2 * x * x.

Notation i := (inj p Hp).

Lemma i_red x : i (red x) = i x.
Proof. apply inj_eq, red_ok. Qed.

Declare Scope F_scope.
Notation "0" := (F0 p Hp) : F_scope.
Notation "1" := (F1 p Hp) : F_scope.
Notation "x + y" := (Fadd p Hp x y) : F_scope.
Notation "x * y" := (Fmul p Hp x y) : F_scope.
Notation "x - y" := (Fsub p Hp x y) : F_scope.
Notation "- x" := (Fopp p Hp x) : F_scope.
Notation "x / y" := (Fdiv p Hp x y) : F_scope.
Delimit Scope F_scope with F.

Add Field FF256 : (Fth p Hp).

Ltac push := repeat (rewrite ?i_red, ?inj_sub, ?inj_add, ?inj_mul, ?inj_opp).

Section Root.
Variable x : Z.
Hypothesis Hx : i (x ^ 3 + wa P256 * x + wb P256) = 0%F.

Lemma Hx3 : (i x * i x * i x = i 3 * i x - i b)%F.
Proof.
  revert Hx. rewrite !inj_add, inj_mul, i_cube. change (wa P256) with (- (3)). fold b. rewrite inj_opp. intros H.
  transitivity ((i x * i x * i x + - i 3 * i x + i b) - (- i 3 * i x + i b))%F; [ring|]. rewrite H. ring.
Qed.

Lemma pmul_eval s t : i (peval (pmul s t) x) = (i (peval s x) * i (peval t x))%F.
Proof.
  destruct s as [[s0 s1] s2], t as [[t0 t1] t2]. unfold pmul, peval. push.
  pose proof Hx3 as C. set (X := i x) in *. clearbody X. ring [C].
Qed.

Lemma psq_eval s : i (peval (psq s) x) = (i (peval s x) * i (peval s x))%F.
Proof.
  destruct s as [[s0 s1] s2]. unfold psq, peval. push. rewrite (i_2 P256 Hp).
  pose proof Hx3 as C. set (X := i x) in *. clearbody X. ring [C].
Qed.

Lemma pmulx_eval s : i (peval (pmulx s) x) = (i (peval s x) * i x)%F.
Proof.
  destruct s as [[s0 s1] s2]. unfold pmulx, peval. push.
  pose proof Hx3 as C. set (X := i x) in *. clearbody X. ring [C].
Qed.

Lemma ppow_eval e : i (peval (ppow e) x) = i (x ^ Zpos e).
Proof.
  induction e as [e IH|e IH|]; cbn [ppow].
  - rewrite pmulx_eval, psq_eval, IH, <- !inj_mul. f_equal. rewrite Pos2Z.inj_xI, Z.pow_add_r, Z.pow_1_r by lia.
    f_equal. rewrite <- Z.pow_add_r by lia. f_equal. lia.
  - rewrite psq_eval, IH, <- !inj_mul. f_equal. rewrite <- Z.pow_add_r by lia. f_equal. lia.
  - rewrite Z.pow_1_r. f_equal. unfold peval. ring.
Qed.
End Root.

(* X^p - X is invertible modulo the cubic, so no element of the field is a root *)
Definition cofactor : poly :=
  (76626890310466861426869089647039036757962535851890885406097439786770458211455, 74462945259064871768191128030512052509059297803194871526163573358218695456204, 34768139465301476436978405170953382516735956999154666452188405812258086013549).

Definition root_check (r q : poly) : bool :=
  let '(r0, r1, r2) := r in
  let '(q0, q1, q2) := pmul q (r0, r1 - 1, r2) in
  (q0 mod p =? 1) && (q1 mod p =? 0) && (q2 mod p =? 0).

Lemma root_checked : root_check (ppow (Z.to_pos p)) cofactor = true.
Proof. vm_compute. reflexivity. Qed.

Lemma no_root_gen e q x : Zpos e = p -> root_check (ppow e) q = true ->
  (x ^ 3 + wa P256 * x + wb P256) mod p <> 0.
Proof.
  intros He C H0. assert (Hx : i (x ^ 3 + wa P256 * x + wb P256) = 0%F).
  { unfold F0. apply inj_eq. rewrite H0. symmetry. apply Z.mod_0_l. pose proof H2; lia. }
  unfold root_check in C.
  destruct (ppow e) as [[r0 r1] r2] eqn:Er.
  destruct (pmul q (r0, r1 - 1, r2)) as [[q0 q1] q2] eqn:Eq.
  rewrite !andb_true_iff, !Z.eqb_eq in C. destruct C as [[C0 C1] C2].
  pose proof (ppow_eval x Hx e) as P1. rewrite Er in P1.
  pose proof (pmul_eval x Hx q (r0, r1 - 1, r2)) as P2. rewrite Eq in P2.
  assert (D : i (x ^ Zpos e) = i x).
  { rewrite He. apply inj_eq, fermat_all, Hp. }
  rewrite D in P1.
  assert (Q0 : i q0 = 1%F). { unfold F1. apply inj_eq. rewrite C0. symmetry. apply Z.mod_1_l. pose proof H2; lia. }
  assert (Q1 : i q1 = 0%F). { unfold F0. apply inj_eq. rewrite C1. symmetry. apply Z.mod_0_l. pose proof H2; lia. }
  assert (Q2 : i q2 = 0%F). { unfold F0. apply inj_eq. rewrite C2. symmetry. apply Z.mod_0_l. pose proof H2; lia. }
  unfold peval at 1 in P2. rewrite !inj_add, !inj_mul, Q0, Q1, Q2 in P2.
  assert (P3 : i (peval (r0, r1 - 1, r2) x) = 0%F).
  { transitivity (i (peval (r0, r1, r2) x) - i x)%F; [rewrite <- inj_sub; f_equal; unfold peval; ring|].
    rewrite P1. ring. }
  rewrite P3 in P2.
  apply (F_1_neq_0 (Fth p Hp)). transitivity (1 + 0 * i x + 0 * i x * i x)%F; [ring|]. rewrite P2. ring.
Qed.

Lemma no_root x : (x ^ 3 + wa P256 * x + wb P256) mod p <> 0.
Proof. exact (no_root_gen _ _ x (Z2Pos.id p (Z.lt_trans 0 2 p eq_refl H2)) root_checked). Qed.

(* ---------- the order of the base point ---------- *)

Notation Gx := (px (cg secp256r1)).
Notation Gy := (py (cg secp256r1)).

Definition fdouble (t : poly) : poly :=
  let '(x, y, z) := t in
  let zz := red (z * z) in
  let yy := red (y * y) in
  let s := red (4 * (x * yy)) in
  let m := red (3 * ((x - zz) * (x + zz))) in
  let x' := red (m * m - 2 * s) in
  (x', red (m * (s - x') - 8 * (yy * yy)), red (2 * (y * z))).

(* add the affine point (x2, y2) *)
Definition fmadd (t : poly) (x2 y2 : Z) : poly :=
  let '(x, y, z) := t in
  let zz := red (z * z) in
  let h := red (x2 * zz) - x in
  let r := red (y2 * red (z * zz)) - y in
  let hh := red (h * h) in
  let hhh := red (h * hh) in
  let v := red (x * hh) in
  let x' := red (r * r - hhh - 2 * v) in
  (x', red (r * (v - x') - y * hhh), red (h * z)).

Fixpoint chain (ds : list Z) (t : poly) : poly :=
  match ds with
  | [] => t
  | d :: ds =>
    let t2 := fdouble t in
    chain ds (if d =? 0 then t2 else if d =? 1 then fmadd t2 Gx Gy else fmadd t2 Gx (- Gy))
  end.

Fixpoint chain_value (ds : list Z) (k : Z) : Z :=
  match ds with [] => k | d :: ds => chain_value ds (2 * k + d) end.

(* n - 1 in non-adjacent form, without the leading 1 *)
Definition digits : list Z :=
  [0; 0; 0; 0; 0; 0; 0; 0; 0; 0; 0; 0; 0; 0; 0; 0; 0; 0; 0; 0; 0; 0; 0; 0; 0; 0; 0; 0; 0; 0; 0; (-1); 0; 0; 0; 0; 0; 0; 0; 0; 0; 0; 0; 0; 0; 0; 0; 0; 0; 0; 0; 0; 0; 0; 0; 0; 0; 0; 0; 0; 0; 0; 0; 1; 0; 0; 0; 0; 0; 0; 0; 0; 0; 0; 0; 0; 0; 0; 0; 0; 0; 0; 0; 0; 0; 0; 0; 0; 0; 0; 0; 0; 0; 0; 0; 0; 0; 0; 0; 0; 0; 0; 0; 0; 0; 0; 0; 0; 0; 0; 0; 0; 0; 0; 0; 0; 0; 0; 0; 0; 0; 0; 0; 0; 0; 0; 0; 0; 0; (-1); 0; 0; 0; (-1); 0; 1; 0; 0; (-1); 0; 1; 0; 0; (-1); 0; 0; 0; 0; 0; (-1); 0; (-1); 0; (-1); 0; (-1); 0; 0; (-1); 0; (-1); 0; 1; 0; 1; 0; 0; (-1); 0; 0; 1; 0; (-1); 0; 0; 0; (-1); 0; 1; 0; 0; 0; (-1); 0; 1; 0; 0; 0; 0; 1; 0; 1; 0; 0; 0; (-1); 0; 1; 0; 0; 0; (-1); 0; 0; (-1); 0; 1; 0; 0; (-1); 0; 1; 0; (-1); 0; (-1); 0; (-1); 0; 0; 0; 1; 0; (-1); 0; 0; 0; 0; 0; (-1); 0; 0; 1; 0; (-1); 0; 0; 1; 0; (-1); 0; 0; 1; 0; 0; 1; 0; 1; 0; 1; 0; 1; 0; 0; 0; 0].

Definition order_check (ds : list Z) (n : Z) : bool :=
  let '(x, y, z) := chain ds (Gx, Gy, 1) in
  negb (z mod p =? 0) && ((x - Gx * z * z) mod p =? 0) && ((y + Gy * z * z * z) mod p =? 0)
  && (chain_value ds 1 =? n - 1).

Lemma order_checked : order_check digits P256_n = true.
Proof. vm_compute. reflexivity. Qed.

Let Fd := Fdec p.
Let two := F2 p Hp H2.

Notation F := (Fp p).
Notation a4 := (i (wa P256)).
Notation a6 := (i (wb P256)).
Notation gadd := (add F (F1 p Hp) (Fadd p Hp) (Fmul p Hp) (Fsub p Hp) (Fopp p Hp) (Fdiv p Hp) (Fdec p) (F0 p Hp) a4).
Notation gon := (on F (Fadd p Hp) (Fmul p Hp) (F0 p Hp) a4 a6).
Notation gopp := (opp F (Fopp p Hp)).
Notation gmul := (mul F (F1 p Hp) (Fadd p Hp) (Fmul p Hp) (Fsub p Hp) (Fopp p Hp) (Fdiv p Hp) (Fdec p) (F0 p Hp) a4).
Notation gcubic := (cubic F (Fadd p Hp) (Fmul p Hp) (F0 p Hp) a4 a6).
Notation gcubic' := (cubic' F (F1 p Hp) (Fadd p Hp) (Fmul p Hp) (F0 p Hp) a4).

Lemma noroot x : gcubic x <> 0%F.
Proof.
  rewrite <- (inj_val p Hp x). set (z := val p x). clearbody z. intros H. apply (no_root z).
  assert (E : i (z ^ 3 + wa P256 * z + wb P256) = 0%F).
  { rewrite <- H. unfold cubic. rewrite !inj_add, i_cube, inj_mul. ring. }
  unfold F0 in E. apply inj_eq in E. rewrite E. apply Z.mod_0_l. pose proof H2; lia.
Qed.

Lemma nonsing x : gcubic x = 0%F -> gcubic' x <> 0%F.
Proof. intros H. destruct (noroot x H). Qed.

Definition frep (t : poly) (P : pt F) : Prop :=
  let '(x, y, z) := t in
  i z <> 0%F ->
  match P with
  | O _ => False
  | A _ u v => i x = (u * i z * i z)%F /\ i y = (v * i z * i z * i z)%F
  end.

Lemma mul_nz_l (a b : F) : (a * b)%F <> 0%F -> a <> 0%F.
Proof. intros H ->. apply H. ring. Qed.
Lemma mul_nz_r (a b : F) : (a * b)%F <> 0%F -> b <> 0%F.
Proof. intros H ->. apply H. ring. Qed.

Lemma frep_double t P : frep t P -> frep (fdouble t) (gadd P P).
Proof.
  destruct t as [[x y] z]. unfold frep, fdouble. intros HP. push. rewrite (i_2 P256 Hp), (i_3 P256 Hp), (i_4 P256 Hp), (i_8 P256 Hp).
  intros Hz. pose proof (mul_nz_r _ _ Hz) as Hyz. pose proof (mul_nz_r _ _ Hyz) as Zn. pose proof (mul_nz_l _ _ Hyz) as Yn.
  specialize (HP Zn). destruct P as [|u v]; [contradiction|]. destruct HP as [Hx Hy].
  assert (Vn : v <> 0%F). { intros E. apply Yn. rewrite Hy, E. ring. }
  pose proof (add_tangent F _ _ _ _ _ _ _ _ (Fth p Hp) (Fdec p) two (F0 p Hp) a4 u v Vn) as E. rewrite E. clear E.
  unfold via, cubic'. rewrite Hx, Hy. change (wa P256) with (- (3)). rewrite inj_opp, (i_3 P256 Hp).
  split; field; split; assumption || exact two.
Qed.

Lemma frep_madd t P x2 y2 : gon P -> gon (A F (i x2) (i y2)) -> frep t P -> frep (fmadd t x2 y2) (gadd P (A F (i x2) (i y2))).
Proof.
  destruct t as [[x y] z]. unfold frep, fmadd. intros GP GQ HP. push. rewrite (i_2 P256 Hp).
  intros Hz. pose proof (mul_nz_r _ _ Hz) as Zn. pose proof (mul_nz_l _ _ Hz) as Hn.
  specialize (HP Zn). destruct P as [|u v]; [contradiction|]. destruct HP as [Hx Hy].
  rewrite Hx in Hn.
  assert (Nx : u <> i x2). { intros E. apply Hn. rewrite E. ring. }
  rewrite (add_chord F _ _ _ _ _ _ (Fdec p) _ _ u v (i x2) (i y2) Nx).
  assert (Nd : (i x2 - u)%F <> 0%F) by (apply (nsub F _ _ _ _ _ _ _ _ (Fth p Hp)); congruence).
  unfold via. rewrite Hx, Hy. split; field; assumption.
Qed.

Notation G := (A F (i Gx) (i Gy)).

Lemma G_on : on_curve P256 P256_G.
Proof. vm_compute. repeat split; congruence. Qed.

Lemma G_gon : gon G.
Proof. exact (proj2 (proj1 (on_curve_phi P256 Hp P256_G) G_on)). Qed.

Lemma Gopp_gon' : gon (gopp G).
Proof. exact (on_opp F _ _ _ _ _ _ _ _ (Fth p Hp) _ _ _ G G_gon). Qed.

Lemma Gopp_gon : gon (A F (i Gx) (i (- Gy))).
Proof. rewrite inj_opp. exact (on_opp F _ _ _ _ _ _ _ _ (Fth p Hp) _ _ _ G G_gon). Qed.

Lemma gmul_on n : gon (gmul n G).
Proof. exact (mul_on F _ _ _ _ _ _ _ _ (Fth p Hp) (Fdec p) two _ _ a6 n G G_gon). Qed.

Lemma gmul_plus m n : gmul (m + n) G = gadd (gmul m G) (gmul n G).
Proof. exact (mul_plus F _ _ _ _ _ _ _ _ (Fth p Hp) (Fdec p) two _ _ a6 nonsing m n G G_gon). Qed.

Lemma gmul_1 : gmul 1 G = G.
Proof. reflexivity. Qed.

Lemma chain_ok ds : forall t k, 1 <= k -> Forall (fun d => d = 0 \/ d = 1 \/ d = -1) ds ->
  frep t (gmul (Z.to_nat k) G) ->
  1 <= chain_value ds k /\ frep (chain ds t) (gmul (Z.to_nat (chain_value ds k)) G).
Proof.
  induction ds as [|d ds IH]; intros t k Hk Hd Ht; cbn [chain chain_value]; [tauto|].
  inversion Hd as [|? ? Hd1 Hd2]; subst. apply IH; [lia|assumption|].
  pose proof (frep_double _ _ Ht) as H2k. rewrite <- gmul_plus in H2k.
  destruct Hd1 as [->|[->| ->]]; cbn [Z.eqb].
  - replace (Z.to_nat (2 * k + 0)) with (Z.to_nat k + Z.to_nat k)%nat by lia. exact H2k.
  - replace (Z.to_nat (2 * k + 1)) with (Z.to_nat k + Z.to_nat k + 1)%nat by lia.
    rewrite (gmul_plus _ 1), gmul_1. apply frep_madd; [apply gmul_on|apply G_gon|exact H2k].
  - assert (E : gmul (Z.to_nat (2 * k + -1)) G = gadd (gmul (Z.to_nat k + Z.to_nat k) G) (A F (i Gx) (i (- Gy)))).
    { replace (Z.to_nat k + Z.to_nat k)%nat with (Z.to_nat (2 * k + -1) + 1)%nat by lia.
      rewrite gmul_plus, gmul_1, inj_opp. symmetry.
      exact (cancel F _ _ _ _ _ _ _ _ (Fth p Hp) (Fdec p) two _ _ a6 nonsing _ G (gmul_on _) G_gon). }
    rewrite E. apply frep_madd; [apply gmul_on|apply Gopp_gon|exact H2k].
Qed.

Lemma digits_ok : Forall (fun d => d = 0 \/ d = 1 \/ d = -1) digits.
Proof.
  apply Forall_forall. intros d Hd.
  assert (C : forallb (fun d => (d =? 0) || (d =? 1) || (d =? -1)) digits = true) by (vm_compute; reflexivity).
  rewrite forallb_forall in C. specialize (C d Hd). rewrite !orb_true_iff, !Z.eqb_eq in C. tauto.
Qed.

Lemma frep_G : frep (Gx, Gy, 1) (gmul (Z.to_nat 1) G).
Proof. change (Z.to_nat 1) with 1%nat. rewrite gmul_1. intros _. change (i 1) with (F1 p Hp). split; ring. Qed.

Lemma order_point ds n : Forall (fun d => d = 0 \/ d = 1 \/ d = -1) ds -> order_check ds n = true ->
  gmul (Z.to_nat (n - 1)) G = gopp G.
Proof.
  intros digits_ok Hc. unfold order_check in Hc.
  pose proof (chain_ok ds (Gx, Gy, 1) 1 (Z.le_refl 1) digits_ok frep_G) as [_ Hr].
  destruct (chain ds (Gx, Gy, 1)) as [[x y] z].
  rewrite !andb_true_iff, negb_true_iff, Z.eqb_neq, !Z.eqb_eq in Hc. destruct Hc as [[[Hz Hx] Hy] Hv].
  rewrite Hv in Hr. unfold frep in Hr.
  assert (Nz : i z <> 0%F).
  { intros E. apply Hz. unfold F0 in E. apply inj_eq in E. rewrite E. apply Z.mod_0_l. pose proof H2; lia. }
  specialize (Hr Nz). destruct (gmul (Z.to_nat (n - 1)) G) as [|u v]; [contradiction|]. destruct Hr as [Eu Ev].
  assert (Ex : i (x - Gx * z * z) = 0%F) by (apply inj_eq; rewrite Hx; symmetry; apply Z.mod_0_l; pose proof H2; lia).
  assert (Ey : i (y + Gy * z * z * z) = 0%F) by (apply inj_eq; rewrite Hy; symmetry; apply Z.mod_0_l; pose proof H2; lia).
  rewrite inj_sub, !inj_mul, Eu in Ex. rewrite inj_add, !inj_mul, Ev in Ey.
  assert (Z2 : (i z * i z)%F <> 0%F).
  { intros E. destruct (integral F _ _ _ _ _ _ _ _ (Fth p Hp) (Fdec p) _ _ E); contradiction. }
  assert (Z3 : (i z * i z * i z)%F <> 0%F).
  { intros E. destruct (integral F _ _ _ _ _ _ _ _ (Fth p Hp) (Fdec p) _ _ E); contradiction. }
  cbn [opp]. f_equal.
  - apply (sub0 F _ _ _ _ _ _ _ _ (Fth p Hp)).
    assert (E : ((u - i Gx) * (i z * i z))%F = 0%F) by (rewrite <- Ex; ring).
    destruct (integral F _ _ _ _ _ _ _ _ (Fth p Hp) (Fdec p) _ _ E); [assumption|contradiction].
  - apply (sub0 F _ _ _ _ _ _ _ _ (Fth p Hp)).
    assert (E : ((v - (- i Gy)) * (i z * i z * i z))%F = 0%F) by (rewrite <- Ey; ring).
    destruct (integral F _ _ _ _ _ _ _ _ (Fth p Hp) (Fdec p) _ _ E); [assumption|contradiction].
Qed.

Lemma order_gen n : 1 <= n -> gmul (Z.to_nat (n - 1)) G = gopp G -> ec_mul P256 (Z.to_nat n) P256_G = Infinity.
Proof.
  intros Hn H.
  assert (E : gmul (Z.to_nat n) G = O F).
  { replace (Z.to_nat n) with (Z.to_nat (n - 1) + 1)%nat by lia.
    rewrite gmul_plus, H, gmul_1.
    rewrite (add_comm F _ _ _ _ _ _ _ _ (Fth p Hp) (Fdec p) two _ _ a6 (gopp G) G Gopp_gon' G_gon).
    apply (add_opp_r F _ _ _ _ _ _ _ _ (Fth p Hp) (Fdec p)). }
  apply (phi_inj P256 Hp).
  - apply (on_curve_phi P256 Hp), (ec_mul_on P256 Hp H2), G_on.
  - exact I.
  - rewrite (phi_mul P256 Hp H2) by apply G_on. exact E.
Qed.

Lemma order_G : ec_mul P256 (Z.to_nat P256_n) P256_G = Infinity.
Proof. apply order_gen; [|exact (order_point _ _ digits_ok order_checked)]. apply Z.leb_le. reflexivity. Qed.
