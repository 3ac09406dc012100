(* A quicker way to evaluate the RFC 7748 function on literals *)
From Coq Require Import ZArith Lia List Bool Setoid Morphisms.
From Verif.Spec Require Import Enc Rfc7748.
From Verif.Proofs Require Import X25519.
Import ListNotations.
Open Scope Z_scope.

Definition mask : Z := 2 ^ 255 - 1.
Definition fold1 (x : Z) : Z := Z.land x mask + 19 * Z.shiftr x 255.
Definition red (x : Z) : Z := fold1 (fold1 x).

Lemma fold1_ok x : fold1 x == x.
Proof.
  constructor. unfold fold1. change mask with (Z.ones 255). rewrite Z.land_ones, Z.shiftr_div_pow2 by lia.
  rewrite (Z.div_mod x (2 ^ 255)) at 3 by discriminate.
  assert (P2 : 2 ^ 255 = 19 + p) by reflexivity. generalize (x mod 2 ^ 255), (x / 2 ^ 255). rewrite P2. intros r q.
  replace ((19 + p) * q + r) with (r + 19 * q + q * p) by ring. symmetry. apply Z_mod_plus_full.
Qed.
Lemma red_ok x : red x == x.
Proof. unfold red. rewrite fold1_ok. apply fold1_ok. Qed.

Definition fast_step (x1 x2 z2 x3 z3 : Z) : Z * Z * Z * Z :=
  let A := x2 + z2 in
  let B := x2 - z2 in
  let AA := red (A * A) in
  let BB := red (B * B) in
  let E := AA - BB in
  let DA := red ((x3 - z3) * A) in
  let CB := red ((x3 + z3) * B) in
  let s := DA + CB in
  let d := DA - CB in
  (red (AA * BB), red (E * (AA + a24 * E)), red (s * s), red (x1 * red (d * d))).

Lemma step_eq x1 x2 z2 x3 z3 y1 y2 w2 y3 w3 : x1 == y1 -> x2 == y2 -> z2 == w2 -> x3 == y3 -> z3 == w3 ->
  let '(a, b, c, d) := fast_step x1 x2 z2 x3 z3 in
  let '(a', b', c', d') := montgomery_step y1 y2 w2 y3 w3 in
  a == a' /\ b == b' /\ c == c' /\ d == d'.
Proof.
  intros H1 H2 H3 H4 H5. unfold fast_step, montgomery_step. cbv zeta. rewrite !Z.pow_2_r.
  assert (S : x2 + z2 == y2 + w2) by (rewrite H2, H3; reflexivity).
  assert (D : x2 - z2 == y2 - w2) by (rewrite H2, H3; reflexivity).
  assert (S3 : x3 + z3 == y3 + w3) by (rewrite H4, H5; reflexivity).
  assert (D3 : x3 - z3 == y3 - w3) by (rewrite H4, H5; reflexivity).
  revert S D S3 D3. generalize (x2 + z2), (y2 + w2), (x2 - z2), (y2 - w2), (x3 + z3), (y3 + w3), (x3 - z3), (y3 - w3).
  intros A A' B B' C C' D D' HA HB HC HD. clear - H1 HA HB HC HD.
  assert (AA : red (A * A) == A' * A') by (rewrite red_ok, HA; reflexivity).
  assert (BB : red (B * B) == B' * B') by (rewrite red_ok, HB; reflexivity).
  assert (DA : red (D * A) == D' * A') by (rewrite red_ok, HA, HD; reflexivity).
  assert (CB : red (C * B) == C' * B') by (rewrite red_ok, HB, HC; reflexivity).
  revert AA BB DA CB. generalize (red (A * A)), (red (B * B)), (red (D * A)), (red (C * B)).
  generalize (A' * A'), (B' * B'), (D' * A'), (C' * B'). intros a b c d a' b' c' d' Ha Hb Hc Hd. clear - H1 Ha Hb Hc Hd.
  split; [|split; [|split]]; rewrite eqm_mod, red_ok; rewrite ?red_ok, ?Ha, ?Hb, ?Hc, ?Hd, ?H1; reflexivity.
Qed.

Fixpoint fast_loop (n : nat) (k x1 x2 z2 x3 z3 : Z) (swap : bool) : Z * Z :=
  match n with
  | O => if swap then (x3, z3) else (x2, z2)
  | S t =>
      let k_t := Z.testbit k (Z.of_nat t) in
      let '(a, b, c, d) := if xorb swap k_t then fast_step x1 x3 z3 x2 z2 else fast_step x1 x2 z2 x3 z3 in
      fast_loop t k x1 a b c d k_t
  end.

Lemma loop_eq k x1 y1 : x1 == y1 -> forall n x2 z2 x3 z3 y2 w2 y3 w3 s, x2 == y2 -> z2 == w2 -> x3 == y3 -> z3 == w3 ->
  let '(a, b) := fast_loop n k x1 x2 z2 x3 z3 s in
  let '(a', b') := x25519_loop n k y1 y2 w2 y3 w3 s in
  a == a' /\ b == b'.
Proof.
  intros H1. induction n as [|n IH]; intros x2 z2 x3 z3 y2 w2 y3 w3 s H2 H3 H4 H5; cbn [fast_loop x25519_loop]; cbv zeta.
  - destruct s; cbn [cswap]; split; assumption.
  - destruct (xorb s (Z.testbit k (Z.of_nat n))); cbn [cswap].
    + pose proof (step_eq x1 x3 z3 x2 z2 y1 y3 w3 y2 w2 H1 H4 H5 H2 H3) as S.
      destruct (fast_step x1 x3 z3 x2 z2) as [[[a b] c] d], (montgomery_step y1 y3 w3 y2 w2) as [[[a' b'] c'] d'].
      destruct S as (S1 & S2 & S3 & S4). apply IH; assumption.
    + pose proof (step_eq x1 x2 z2 x3 z3 y1 y2 w2 y3 w3 H1 H2 H3 H4 H5) as S.
      destruct (fast_step x1 x2 z2 x3 z3) as [[[a b] c] d], (montgomery_step y1 y2 w2 y3 w3) as [[[a' b'] c'] d'].
      destruct S as (S1 & S2 & S3 & S4). apply IH; assumption.
Qed.

Fixpoint fast_pow (b : Z) (e : positive) : Z :=
  match e with
  | xH => b
  | xO e' => let h := fast_pow b e' in red (h * h)
  | xI e' => let h := fast_pow b e' in red (b * red (h * h))
  end.
Lemma pow_eq b b' e : b == b' -> fast_pow b e == powm b' e.
Proof.
  intros H. induction e as [e IH|e IH|]; cbn [fast_pow powm]; cbv zeta; rewrite ?red_ok, ?eqm_mod, ?IH, ?H; reflexivity.
Qed.

Definition fast_num (k u : Z) : Z :=
  let '(x2, z2) := fast_loop 255 k u 1 0 u 1 false in
  (x2 * fast_pow z2 (Z.to_pos (p25519 - 2))) mod p25519.
Theorem fast_num_ok k u : fast_num k u = x25519_num k u.
Proof.
  unfold fast_num, x25519_num. pose proof (loop_eq k u u ltac:(reflexivity) 255 1 0 u 1 1 0 u 1 false
    ltac:(reflexivity) ltac:(reflexivity) ltac:(reflexivity) ltac:(reflexivity)) as L.
  destruct (fast_loop 255 k u 1 0 u 1 false) as [a b], (x25519_loop 255 k u 1 0 u 1 false) as [a' b'].
  destruct L as [L1 L2]. apply eqp_mod. rewrite (pow_eq _ _ _ L2), L1. reflexivity.
Qed.

Definition fast_X25519 (k u : list Z) : list Z :=
  encodeUCoordinate (fast_num (decodeScalar k) (decodeUCoordinate u)).
Theorem fast_ok k u : fast_X25519 k u = X25519 k u.
Proof. unfold fast_X25519, X25519. rewrite fast_num_ok. reflexivity. Qed.
