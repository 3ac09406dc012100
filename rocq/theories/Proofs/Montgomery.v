(* The x-only ladder on a Montgomery curve y^2 = x^3 + A x^2 + x computes multiples of a
   point.  Abstract field; nothing here refers to the code. *)
From Coq Require Import Ring Field Setoid.
From Verif.Proofs Require Import EcGroup.

Section Mont.

Variable F : Type.
Variables (f0 f1 : F) (fadd fmul fsub : F -> F -> F) (fopp : F -> F) (fdiv : F -> F -> F) (finv : F -> F).
Hypothesis Fth : field_theory f0 f1 fadd fmul fsub fopp fdiv finv (@eq F).
Hypothesis Fdec : forall x y : F, {x = y} + {x <> y}.

Notation "0" := f0. Notation "1" := f1.
Infix "+" := fadd. Infix "*" := fmul. Infix "-" := fsub. Notation "- x" := (fopp x). Infix "/" := fdiv.
Notation "2" := (1 + 1). Notation "4" := ((1 + 1) * (1 + 1)).

Hypothesis two : 2 <> 0.
Add Field FF : Fth.

Variables (a a24 : F).
Hypothesis Ha24 : 4 * a24 = a - 2.
Hypothesis disc : a * a <> 4.

Notation pt := (EcGroup.pt F).
Notation O := (EcGroup.O F).
Notation A := (EcGroup.A F).
Notation cubic := (EcGroup.cubic F fadd fmul a 1 0).
Notation cubic' := (EcGroup.cubic' F f1 fadd fmul a 1).
Notation on := (EcGroup.on F fadd fmul a 1 0).
Notation opp := (EcGroup.opp F fopp).
Notation add := (EcGroup.add F f1 fadd fmul fsub fopp fdiv Fdec a 1).
Notation mul := (EcGroup.mul F f1 fadd fmul fsub fopp fdiv Fdec a 1).
Notation via := (EcGroup.via F fadd fmul fsub a).

Lemma integral x y : x * y = 0 -> x = 0 \/ y = 0.
Proof. exact (EcGroup.integral F f0 f1 fadd fmul fsub fopp fdiv finv Fth Fdec x y). Qed.
Lemma mul_nz x y : x <> 0 -> y <> 0 -> x * y <> 0.
Proof. intros Hx Hy H. destruct (integral _ _ H); contradiction. Qed.
Lemma sub0 x y : x - y = 0 -> x = y.
Proof. exact (EcGroup.sub0 F f0 f1 fadd fmul fsub fopp fdiv finv Fth x y). Qed.
Lemma nsub x y : x <> y -> x - y <> 0.
Proof. intros H E. apply H, sub0, E. Qed.
Lemma four : 4 <> 0.
Proof. apply mul_nz; exact two. Qed.
Ltac fnz := repeat split; first [assumption|exact two|exact four].
Lemma one_nz : 1 <> 0.
Proof. exact (F_1_neq_0 Fth). Qed.

Lemma nonsing x : cubic x = 0 -> cubic' x <> 0.
Proof.
  unfold EcGroup.cubic, EcGroup.cubic'. intros H H'.
  assert (K : x * (x * x + a * x + 1) = 0) by (rewrite <- H; ring).
  destruct (integral _ _ K) as [E|E].
  - subst x. apply one_nz. rewrite <- H'. ring.
  - assert (K2 : x * (2 * x + a) = 0).
    { transitivity ((1 + 1 + 1) * x * x + (1 + 1) * a * x + 1 - (x * x + a * x + 1)); [ring|]. rewrite H', E. ring. }
    destruct (integral _ _ K2) as [E2|E2].
    + subst x. apply one_nz. rewrite <- E. ring.
    + apply disc. apply sub0.
      transitivity ((2 * x + a) * (2 * x + a) - 4 * (x * x + a * x + 1)); [ring|]. rewrite E, E2. ring.
Qed.

(* X/Z is the x coordinate; Z = 0 at infinity *)
Definition rep (X Z : F) (P : pt) : Prop :=
  match P with
  | EcGroup.O _ => Z = 0 /\ X <> 0
  | EcGroup.A _ x _ => Z <> 0 /\ X = x * Z
  end.

Definition dblX (X Z : F) := ((X + Z) * (X + Z)) * ((X - Z) * (X - Z)).
Definition dblZ (X Z : F) :=
  let E := (X + Z) * (X + Z) - (X - Z) * (X - Z) in E * ((X + Z) * (X + Z) + a24 * E).

Lemma dblZ_eq X Z : dblZ X Z = 4 * X * Z * (X * X + a * X * Z + Z * Z).
Proof.
  unfold dblZ. cbv zeta.
  transitivity (4 * X * Z * (X * X + 2 * X * Z + Z * Z + (4 * a24) * (X * Z))); [ring|]. rewrite Ha24. ring.
Qed.

Lemma on_fact x y : on (A x y) -> y * y = x * (x * x + a * x + 1).
Proof. cbn [EcGroup.on]. unfold EcGroup.cubic. intros H. rewrite H. ring. Qed.

Lemma a_pm : a <> 2 /\ a <> - (2).
Proof. split; intros H; apply disc; rewrite H; ring. Qed.

(* a point of order two has x^2 <> 1 *)
Lemma two_tors x : x * (x * x + a * x + 1) = 0 -> x * x - 1 <> 0.
Proof.
  intros H E. destruct a_pm as [A1 A2]. destruct (integral _ _ H) as [E1|E1].
  - subst x. apply one_nz. transitivity (- (0 * 0 - 1)); [ring|]. rewrite E. ring.
  - assert (K : (x - 1) * (x + 1) = 0) by (rewrite <- E; ring).
    destruct (integral _ _ K) as [E2|E2].
    + apply sub0 in E2. subst x. apply A2. apply sub0. rewrite <- E1. ring.
    + assert (x = - (1)) by (apply sub0; rewrite <- E2; ring). subst x. apply A1. apply sub0.
      transitivity (- (- (1) * - (1) + a * - (1) + 1)); [ring|]. rewrite E1. ring.
Qed.

Lemma sq_nz x : x <> 0 -> x * x <> 0.
Proof. intros H. apply mul_nz; assumption. Qed.

(* twice a point *)
Lemma double_x x y : on (A x y) -> y <> 0 -> exists y', add (A x y) (A x y) = A ((x * x - 1) * (x * x - 1) / (4 * (y * y))) y'.
Proof.
  intros Hon Hy.
  rewrite (EcGroup.add_tangent F f0 f1 fadd fmul fsub fopp fdiv finv Fth Fdec two a 1 x y Hy).
  unfold EcGroup.via. cbv zeta. eexists. f_equal.
  apply on_fact in Hon. unfold EcGroup.cubic'.
  assert (Hyy : y * y <> 0) by (apply sq_nz, Hy).
  transitivity ((((1 + 1 + 1) * x * x + (1 + 1) * a * x + 1) * ((1 + 1 + 1) * x * x + (1 + 1) * a * x + 1) - 4 * (y * y) * (a + x + x)) / (4 * (y * y))).
  - field. fnz.
  - rewrite Hon in *. f_equal. ring.
Qed.

Lemma rep_double X Z P : on P -> rep X Z P -> rep (dblX X Z) (dblZ X Z) (add P P).
Proof.
  intros Hon HR. rewrite dblZ_eq. unfold dblX. destruct P as [|x y].
  - destruct HR as [-> HX]. cbn [EcGroup.add rep]. split; [ring|].
    replace ((X + 0) * (X + 0) * ((X - 0) * (X - 0))) with (X * X * (X * X)) by ring. apply sq_nz, sq_nz, HX.
  - destruct HR as [HZ ->]. pose proof (on_fact _ _ Hon) as Hf.
    assert (EZ : 4 * (x * Z) * Z * (x * Z * (x * Z) + a * (x * Z) * Z + Z * Z) = 4 * (Z * Z * (Z * Z)) * (y * y)) by (rewrite Hf; ring).
    rewrite EZ.
    replace ((x * Z + Z) * (x * Z + Z) * ((x * Z - Z) * (x * Z - Z))) with ((x * x - 1) * (x * x - 1) * (Z * Z * (Z * Z))) by ring.
    assert (HZ4 : Z * Z * (Z * Z) <> 0) by apply sq_nz, sq_nz, HZ.
    destruct (Fdec y 0) as [->|Hy].
    + cbn [EcGroup.add]. destruct (Fdec x x) as [_|]; [|congruence]. destruct (Fdec 0 (- 0)) as [_|N]; [|exfalso; apply N; ring].
      cbn [rep]. split; [ring|]. apply mul_nz; [|assumption]. apply sq_nz, two_tors. rewrite <- Hf. ring.
    + destruct (double_x x y Hon Hy) as [y' ->]. cbn [rep].
      assert (H4 : 4 <> 0) by (apply mul_nz; exact two).
      split; [apply mul_nz; [apply mul_nz; assumption|apply sq_nz; assumption]|]. field. fnz.
Qed.

Definition addX (X2 Z2 X3 Z3 : F) := let s := (X3 - Z3) * (X2 + Z2) + (X3 + Z3) * (X2 - Z2) in s * s.
Definition addZ (x1 X2 Z2 X3 Z3 : F) := let d := (X3 - Z3) * (X2 + Z2) - (X3 + Z3) * (X2 - Z2) in x1 * (d * d).

Lemma addX_eq X2 Z2 X3 Z3 : addX X2 Z2 X3 Z3 = 4 * ((X2 * X3 - Z2 * Z3) * (X2 * X3 - Z2 * Z3)).
Proof. unfold addX. cbv zeta. ring. Qed.
Lemma addZ_eq x1 X2 Z2 X3 Z3 : addZ x1 X2 Z2 X3 Z3 = x1 * (4 * ((X3 * Z2 - Z3 * X2) * (X3 * Z2 - Z3 * X2))).
Proof. unfold addZ. cbv zeta. ring. Qed.

Lemma chord_id x y x' y' : x <> x' -> y * y = x * (x * x + a * x + 1) -> y' * y' = x' * (x' * x' + a * x' + 1) ->
  ((y' + y) / (x' - x) * ((y' + y) / (x' - x)) - a - x - x') * ((y' - y) / (x' - x) * ((y' - y) / (x' - x)) - a - x - x')
  * ((x' - x) * (x' - x)) = (x * x' - 1) * (x * x' - 1).
Proof.
  intros Hx H H'. assert (D : x' - x <> 0) by (apply nsub; congruence).
  set (S := y' * y' + y * y - (a + x + x') * ((x' - x) * (x' - x))).
  transitivity ((S * S - 4 * (y * y) * (y' * y')) / ((x' - x) * (x' - x))).
  - unfold S. field. exact D.
  - unfold S. rewrite H, H'. field. exact D.
Qed.

Lemma rep_add x1 y1 Q X2 Z2 X3 Z3 : x1 <> 0 -> on (A x1 y1) -> on Q ->
  rep X2 Z2 Q -> rep X3 Z3 (add Q (A x1 y1)) ->
  rep (addX X2 Z2 X3 Z3) (addZ x1 X2 Z2 X3 Z3) (add Q (add Q (A x1 y1))).
Proof.
  intros Hx1 HP HQ HrQ HrR. rewrite addX_eq, addZ_eq.
  assert (H4 : 4 <> 0) by (apply mul_nz; exact two).
  assert (HR : on (add Q (A x1 y1))).
  { apply (EcGroup.add_on F f0 f1 fadd fmul fsub fopp fdiv finv Fth Fdec two a 1 0); assumption. }
  assert (HD : add (opp Q) (add Q (A x1 y1)) = A x1 y1).
  { apply (EcGroup.cancel_l F f0 f1 fadd fmul fsub fopp fdiv finv Fth Fdec two a 1 0 nonsing); assumption. }
  destruct Q as [|x y].
  - rewrite !(EcGroup.add_O_l F f1 fadd fmul fsub fopp fdiv Fdec a 1) in *. destruct HrQ as [-> HX2], HrR as [HZ3 ->]. cbn [rep].
    replace (x1 * Z3 * 0 - Z3 * X2) with (- (Z3 * X2)) by ring.
    replace (X2 * (x1 * Z3) - 0 * Z3) with (x1 * (Z3 * X2)) by ring.
    assert (HZX : Z3 * X2 <> 0) by (apply mul_nz; assumption).
    split; [|ring]. apply mul_nz; [assumption|]. apply mul_nz; [assumption|].
    replace (- (Z3 * X2) * - (Z3 * X2)) with ((Z3 * X2) * (Z3 * X2)) by ring. apply sq_nz, HZX.
  - destruct HrQ as [HZ2 ->]. destruct (add (A x y) (A x1 y1)) as [|x' y'] eqn:ER.
    + (* Q = -P *)
      destruct HrR as [-> HX3]. cbn [EcGroup.opp EcGroup.add] in HD. injection HD as -> _.
      cbn [EcGroup.add rep]. assert (HZX : X3 * Z2 <> 0) by (apply mul_nz; assumption).
      replace (X3 * Z2 - 0 * (x1 * Z2)) with (X3 * Z2) by ring.
      replace (x1 * Z2 * X3 - Z2 * 0) with (x1 * (X3 * Z2)) by ring.
      split; [|ring]. apply mul_nz; [assumption|]. apply mul_nz; [assumption|]. apply sq_nz, HZX.
    + destruct HrR as [HZ3 ->]. pose proof (on_fact _ _ HQ) as Hf. pose proof (on_fact _ _ HR) as Hf'.
      replace (x' * Z3 * Z2 - Z3 * (x * Z2)) with (Z2 * Z3 * (x' - x)) by ring.
      replace (x * Z2 * (x' * Z3) - Z2 * Z3) with (Z2 * Z3 * (x * x' - 1)) by ring.
      assert (HZZ : Z2 * Z3 <> 0) by (apply mul_nz; assumption).
      destruct (Fdec x x') as [Ex|Nx].
      * subst x'. (* R = -Q, so Q + R is infinity, and P = -2Q *)
        assert (Hsame : A x y' = A x y \/ A x y' = opp (A x y)).
        { apply (EcGroup.same_x F f0 f1 fadd fmul fsub fopp fdiv finv Fth Fdec a 1 0); assumption. }
        destruct Hsame as [E|E].
        { exfalso. rewrite E in HD.
          assert (K : add (opp (A x y)) (A x y) = O).
          { rewrite (EcGroup.add_comm F f0 f1 fadd fmul fsub fopp fdiv finv Fth Fdec two a 1 0); [|apply (EcGroup.on_opp F f0 f1 fadd fmul fsub fopp fdiv finv Fth a 1 0); exact HQ|exact HQ].
            apply (EcGroup.add_opp_r F f0 f1 fadd fmul fsub fopp fdiv finv Fth Fdec a 1). }
          rewrite K in HD. discriminate. }
        cbn [EcGroup.opp] in E. injection E as ->.
        assert (KS : add (A x y) (A x (- y)) = O).
        { apply (EcGroup.add_opp_r F f0 f1 fadd fmul fsub fopp fdiv finv Fth Fdec a 1 (A x y)). }
        rewrite KS. cbn [rep]. split; [ring|].
        apply mul_nz; [assumption|]. apply sq_nz. apply mul_nz; [assumption|].
        cbn [EcGroup.opp] in HD.
        intros E1. apply Hx1.
        assert (Hy : - y <> 0).
        { intros E0. rewrite E0 in HD. cbn [EcGroup.add] in HD. destruct (Fdec x x); [|congruence].
          destruct (Fdec 0 (- 0)) as [_|N]; [discriminate|exfalso; apply N; ring]. }
        destruct (double_x x (- y) HR Hy) as [yy Ed]. rewrite Ed in HD. injection HD as Hx _. rewrite <- Hx, E1.
        field. assert (y <> 0) by (intros E0; apply Hy; rewrite E0; ring). fnz.
      * assert (D : x' - x <> 0) by (apply nsub; congruence).
        rewrite (EcGroup.add_chord F f1 fadd fmul fsub fopp fdiv Fdec a 1 x y x' y' Nx).
        cbn [EcGroup.opp] in HD.
        rewrite (EcGroup.add_chord F f1 fadd fmul fsub fopp fdiv Fdec a 1 x (- y) x' y' Nx) in HD.
        unfold EcGroup.via in *. cbv zeta in *. injection HD as Hx _.
        replace (y' - - y) with (y' + y) in Hx by ring.
        cbn [rep]. pose proof (chord_id x y x' y' Nx Hf Hf') as ID. rewrite Hx in ID.
        set (x5 := (y' - y) / (x' - x) * ((y' - y) / (x' - x)) - a - x - x') in *.
        split.
        { apply mul_nz; [assumption|]. apply mul_nz; [assumption|]. apply sq_nz, mul_nz; assumption. }
        transitivity (4 * (Z2 * Z3 * (Z2 * Z3)) * ((x * x' - 1) * (x * x' - 1))); [ring|]. rewrite <- ID. ring.
Qed.

End Mont.
