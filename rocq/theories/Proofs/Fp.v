(* The integers modulo a prime, as a field with Leibniz equality. *)
From Coq Require Import ZArith Lia Znumtheory Bool Eqdep_dec Field_theory Ring_theory.
From Verif.Proofs Require Import Number.
Open Scope Z_scope.

Section Fp.
Variable p : Z.

Record Fp := mkFp { val : Z; val_ok : (val mod p =? val) = true }.

Lemma Fp_eq (x y : Fp) : val x = val y -> x = y.
Proof.
  destruct x as [x Hx], y as [y Hy]. cbn. intros ->. f_equal. apply UIP_dec, bool_dec.
Qed.

Hypothesis Hp : prime p.

Let p2 : 2 <= p := prime_ge_2 _ Hp.

Lemma inj_ok z : ((z mod p) mod p =? z mod p) = true.
Proof. apply Z.eqb_eq, Z.mod_mod. lia. Qed.

Definition inj (z : Z) : Fp := mkFp (z mod p) (inj_ok z).

Lemma val_inj z : val (inj z) = z mod p.
Proof. reflexivity. Qed.

Lemma val_range x : 0 <= val x < p.
Proof. destruct x as [x Hx]. cbn. apply Z.eqb_eq in Hx. rewrite <- Hx. apply Z.mod_pos_bound. lia. Qed.

Lemma val_mod x : val x mod p = val x.
Proof. apply Z.mod_small, val_range. Qed.

Lemma inj_val x : inj (val x) = x.
Proof. apply Fp_eq. cbn. apply val_mod. Qed.

Lemma inj_eq a b : inj a = inj b <-> a mod p = b mod p.
Proof. split; [intros H; apply (f_equal val) in H; exact H|intros H; apply Fp_eq; exact H]. Qed.

Lemma inj_mod a : inj (a mod p) = inj a.
Proof. apply inj_eq, Z.mod_mod. lia. Qed.

Definition F0 := inj 0.
Definition F1 := inj 1.
Definition Fadd x y := inj (val x + val y).
Definition Fmul x y := inj (val x * val y).
Definition Fsub x y := inj (val x - val y).
Definition Fopp x := inj (- val x).
Definition Finv x := inj (val x ^ (p - 2)).
Definition Fdiv x y := Fmul x (Finv y).

Lemma inj_add a b : inj (a + b) = Fadd (inj a) (inj b).
Proof. apply inj_eq. cbn. apply Z.add_mod. lia. Qed.
Lemma inj_mul a b : inj (a * b) = Fmul (inj a) (inj b).
Proof. apply inj_eq. cbn. apply Z.mul_mod. lia. Qed.
Lemma inj_sub a b : inj (a - b) = Fsub (inj a) (inj b).
Proof. apply inj_eq. cbn. apply Zminus_mod. Qed.
Lemma inj_opp a : inj (- a) = Fopp (inj a).
Proof. apply inj_eq. cbn. change ((0 - a) mod p = (0 - a mod p) mod p). symmetry. apply Zminus_mod_idemp_r. Qed.

Lemma Fdec (x y : Fp) : {x = y} + {x <> y}.
Proof.
  destruct (Z.eq_dec (val x) (val y)) as [E|N]; [left; apply Fp_eq, E|right; congruence].
Qed.

Lemma inj_nz a : inj a <> F0 <-> ~ (p | a).
Proof.
  unfold F0. rewrite inj_eq, Z.mod_0_l by lia. split; intros H E; apply H.
  - apply Z.mod_divide; [lia|exact E].
  - apply Z.mod_divide in E; [exact E|lia].
Qed.

Lemma Finv_l x : x <> F0 -> Fmul (Finv x) x = F1.
Proof.
  intros H. rewrite <- (inj_val x) in H |- *. apply inj_nz in H.
  set (a := val x) in *. clearbody a.
  unfold Finv. rewrite val_inj, <- inj_mul. unfold F1. apply inj_eq.
  rewrite Z.mul_mod, pow_mod_idemp, <- Z.mul_mod by lia.
  rewrite Z.mul_comm, <- Z.pow_succ_r by lia. replace (Z.succ (p - 2)) with (p - 1) by lia.
  rewrite fermat by assumption. rewrite Z.mod_1_l by lia. reflexivity.
Qed.

Lemma Fth : field_theory F0 F1 Fadd Fmul Fsub Fopp Fdiv Finv (@eq Fp).
Proof.
  constructor.
  - constructor; intros;
    repeat match goal with x : Fp |- _ => rewrite <- (inj_val x); generalize (val x); clear x; intros x end;
    unfold F0, F1; rewrite <- ?inj_mul, <- ?inj_add, <- ?inj_sub, <- ?inj_opp, <- ?inj_mul, <- ?inj_add;
    apply inj_eq; f_equal; ring.
  - unfold F0, F1. rewrite inj_eq, Z.mod_1_l, Z.mod_0_l by lia. lia.
  - reflexivity.
  - apply Finv_l.
Qed.

Lemma F2 : 2 < p -> Fadd F1 F1 <> F0.
Proof.
  intros H. unfold F1. rewrite <- inj_add. apply inj_nz. intros D. apply Z.divide_pos_le in D; lia.
Qed.

Lemma inj_inv a : inj (a ^ (p - 2)) = Finv (inj a).
Proof. unfold Finv. apply inj_eq. rewrite val_inj, pow_mod_idemp by lia. reflexivity. Qed.

End Fp.
