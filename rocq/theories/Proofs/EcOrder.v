(* n kills every point of a curve without points of order 2 that has a point of odd order n > (2p+1)/3. *)
From Coq Require Import ZArith Lia Znumtheory Bool List.
From Verif.Spec Require Import Ec.
From Verif.Proofs Require Import Number Fp EcGroup Weier Order.
Open Scope Z_scope.

Section EcOrder.

Variable E : weierstrass.
Notation p := (wp E).
Hypothesis Hp : prime p.
Hypothesis H2 : 2 < p.

Definition code (P : ecpoint) : Z :=
  match P with
  | Infinity => 2 * p
  | Affine x y => 2 * x + (if 2 * y <? p then 0 else 1)
  end.

Lemma p_odd : p mod 2 = 1.
Proof.
  destruct (Z.eq_dec (p mod 2) 0) as [H|H]; [|pose proof (Z.mod_pos_bound p 2 ltac:(lia)); lia].
  apply Z.mod_divide in H; [|lia]. apply prime_divisors in H; [lia|exact Hp].
Qed.

Lemma sq_eq y y' : 0 <= y < p -> 0 <= y' < p -> (y ^ 2) mod p = (y' ^ 2) mod p -> y = y' \/ y + y' = p \/ y = 0 /\ y' = 0.
Proof.
  intros Hy Hy' H. apply mod_eq_divide in H; [|lia].
  replace (y ^ 2 - y' ^ 2) with ((y - y') * (y + y')) in H by ring.
  apply prime_mult in H; [|exact Hp]. destruct H as [[k H]|[k H]].
  - left. assert (k = 0) by nia. subst. lia.
  - right. assert (k = 0 \/ k = 1) as [->| ->] by nia; [right|left]; lia.
Qed.

Lemma code_inj P Q : on_curve E P -> on_curve E Q -> code P = code Q -> P = Q.
Proof.
  destruct P as [|x y], Q as [|x' y']; cbn [on_curve code]; [reflexivity| | |].
  - intros _ (Hx & Hy & _) HE. destruct (2 * y' <? p); lia.
  - intros (Hx & Hy & _) _ HE. destruct (2 * y <? p); lia.
  - intros (Hx & Hy & C) (Hx' & Hy' & C') HE.
    assert (x = x') by (destruct (2 * y <? p), (2 * y' <? p); lia). subst x'.
    rewrite <- C' in C. apply sq_eq in C; [|assumption|assumption].
    pose proof p_odd as Od. f_equal. destruct C as [C|[C|C]]; [assumption| |lia].
    destruct (Z.ltb_spec (2 * y) p), (Z.ltb_spec (2 * y') p); lia.
Qed.

Lemma code_range P : on_curve E P -> 0 <= code P < 2 * p + 1.
Proof. destruct P as [|x y]; cbn [on_curve code]; [lia|]. intros (Hx & Hy & _). destruct (2 * y <? p); lia. Qed.

Lemma ec_opp_on P : on_curve E P -> on_curve E (ec_opp E P).
Proof.
  destruct P as [|x y]; cbn [on_curve ec_opp]; [auto|]. intros (Hx & Hy & C). split; [assumption|].
  split; [apply Z.mod_pos_bound; lia|]. rewrite <- C. rewrite pow_mod_idemp by lia. f_equal. ring.
Qed.

Lemma ec_add_opp P : on_curve E P -> ec_add E P (ec_opp E P) = Infinity.
Proof.
  destruct P as [|x y]; cbn [on_curve ec_opp ec_add]; [reflexivity|]. intros (Hx & Hy & C).
  rewrite Z.eqb_refl, Zplus_mod_idemp_r. replace (y + - y) with 0 by lia. rewrite Z.mod_0_l by lia. reflexivity.
Qed.

Lemma ec_no_two P : (forall x, ~ on_curve E (Affine x 0)) -> on_curve E P -> ec_add E P P = Infinity -> P = Infinity.
Proof.
  intros N0 HP H. destruct P as [|x y]; [reflexivity|exfalso]. cbn [ec_add] in H. rewrite Z.eqb_refl in H.
  destruct (Z.eqb_spec ((y + y) mod p) 0) as [HE|]; [|discriminate].
  assert (y = 0).
  { destruct HP as (Hx & Hy & _). apply Z.mod_divide in HE; [|lia]. destruct HE as [k HE].
    assert (k = 0 \/ k = 1) as [->| ->] by nia; [lia|].
    pose proof p_odd. pose proof (Z.div_mod p 2 ltac:(lia)). lia. }
  subst. destruct (N0 x HP).
Qed.

Definition ecpoint_dec (P Q : ecpoint) : {P = Q} + {P <> Q}.
Proof. decide equality; apply Z.eq_dec. Defined.

Variable n : Z.
Variable G : ecpoint.
Hypothesis assoc : forall P Q R, on_curve E P -> on_curve E Q -> on_curve E R ->
  ec_add E (ec_add E P Q) R = ec_add E P (ec_add E Q R).
Hypothesis no_y0 : forall x, ~ on_curve E (Affine x 0).
Hypothesis size : 2 * p + 1 < 3 * n.
Hypothesis odd : n mod 2 = 1.
Hypothesis G_on : on_curve E G.
Hypothesis order : ec_mul E (Z.to_nat n) G = Infinity.
Hypothesis exact_order : forall k, 0 < k < n -> ec_mul E (Z.to_nat k) G <> Infinity.

Theorem n_kills P : on_curve E P -> ec_mul E (Z.to_nat n) P = Infinity.
Proof.
  apply (kills ecpoint ecpoint_dec (on_curve E) Infinity (ec_add E) (ec_opp E) (ec_mul E)
           I (ec_add_on E Hp H2) ec_opp_on (ec_add_comm E Hp H2) assoc (fun P => eq_refl) ec_add_opp
           (fun P => eq_refl) (fun k P => eq_refl)
           (fun P => Z.to_nat (code P)) (Z.to_nat (2 * p + 1))) with (G := G) (h := Z.to_nat (n / 2)).
  - intros A B HA HB H. apply code_inj; try assumption. pose proof (code_range A HA). pose proof (code_range B HB). lia.
  - intros A HA. pose proof (code_range A HA). lia.
  - lia.
  - pose proof (Z.div_mod n 2 ltac:(lia)). lia.
  - exact G_on.
  - exact order.
  - intros k Hk. rewrite <- (Nat2Z.id k). apply exact_order. lia.
  - intros A. apply ec_no_two. exact no_y0.
Qed.

End EcOrder.
