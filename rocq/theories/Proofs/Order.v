(* In a commutative group with fewer than 3n elements and no element of order 2, an element
   of odd order n generates the group, so n kills every element. *)
From Coq Require Import List Arith Lia FinFun.
Import ListNotations.

Section Order.

Variable T : Type.
Variable T_dec : forall x y : T, {x = y} + {x <> y}.
Variable on : T -> Prop.
Variable o : T.
Variable add : T -> T -> T.
Variable opp : T -> T.
Variable mul : nat -> T -> T.
Hypothesis on_o : on o.
Hypothesis on_add : forall P Q, on P -> on Q -> on (add P Q).
Hypothesis on_opp : forall P, on P -> on (opp P).
Hypothesis comm : forall P Q, on P -> on Q -> add P Q = add Q P.
Hypothesis assoc : forall P Q R, on P -> on Q -> on R -> add (add P Q) R = add P (add Q R).
Hypothesis add_o : forall P, add o P = P.
Hypothesis add_opp : forall P, on P -> add P (opp P) = o.
Hypothesis mul_0 : forall P, mul 0 P = o.
Hypothesis mul_S : forall k P, mul (S k) P = add P (mul k P).

Variable code : T -> nat.
Variable N : nat.
Hypothesis code_inj : forall P Q, on P -> on Q -> code P = code Q -> P = Q.
Hypothesis code_lt : forall P, on P -> code P < N.

Variables (n h : nat) (G : T).
Hypothesis size : N < 3 * n.
Hypothesis odd : n = 2 * h + 1.
Hypothesis on_G : on G.
Hypothesis order : mul n G = o.
Hypothesis exact_order : forall i, 0 < i < n -> mul i G <> o.
Hypothesis no_two : forall P, on P -> add P P = o -> P = o.

Lemma mul_on k P : on P -> on (mul k P).
Proof. intros H. induction k; [rewrite mul_0|rewrite mul_S]; auto. Qed.
Hint Resolve mul_on : core.
Hint Resolve on_add on_opp on_o on_G : core.

Lemma mul_plus i j P : on P -> mul (i + j) P = add (mul i P) (mul j P).
Proof.
  intros H. induction i as [|i IH]; cbn [Nat.add]; [rewrite mul_0, add_o; reflexivity|].
  rewrite !mul_S, IH, assoc by auto. reflexivity.
Qed.

Lemma mul_o k : mul k o = o.
Proof. induction k as [|k IH]; [apply mul_0|]. rewrite mul_S, IH, add_o. reflexivity. Qed.

Lemma mul_mult i j P : on P -> mul (i * j) P = mul i (mul j P).
Proof.
  intros H. induction i as [|i IH]; cbn [Nat.mul]; [rewrite !mul_0; reflexivity|].
  rewrite mul_plus, mul_S, IH by auto. reflexivity.
Qed.

Lemma cancel_l A B C : on A -> on B -> on C -> add A B = add A C -> B = C.
Proof.
  intros HA HB HC H. rewrite <- (add_o B), <- (add_o C), <- (add_opp A), (comm A (opp A)), !assoc by auto.
  congruence.
Qed.

Lemma opp_uniq A B : on A -> on B -> add A B = o -> B = opp A.
Proof. intros HA HB H. apply (cancel_l A); auto. rewrite H, add_opp; auto. Qed.

(* <G> *)
Definition gen (P : T) : Prop := exists i, P = mul i G.

Lemma gen_kill P : gen P -> mul n P = o.
Proof. intros [i ->]. rewrite <- mul_mult, Nat.mul_comm, mul_mult, order, mul_o by auto. reflexivity. Qed.

Lemma gen_add P Q : gen P -> gen Q -> gen (add P Q).
Proof. intros [i ->] [j ->]. exists (i + j). rewrite mul_plus by auto. reflexivity. Qed.

Lemma gen_opp i : gen (opp (mul i G)).
Proof.
  exists (i * (n - 1)). symmetry. apply opp_uniq; auto.
  rewrite <- mul_plus by auto. replace (i + i * (n - 1)) with (i * n) by nia.
  rewrite mul_mult, order, mul_o by auto. reflexivity.
Qed.

(* if iG + A = jG + B then A = B up to <G> *)
Lemma gen_move i j A B : on A -> on B -> add (mul i G) A = add (mul j G) B -> exists D, gen D /\ A = add D B.
Proof.
  intros HA HB H. exists (add (opp (mul i G)) (mul j G)). split.
  - apply gen_add; [apply gen_opp|exists j; reflexivity].
  - apply (cancel_l (mul i G)); auto.
    rewrite H, <- !assoc, add_opp, add_o by auto. reflexivity.
Qed.

Lemma gen_on P : gen P -> on P.
Proof. intros [i ->]. auto. Qed.

Lemma gen_split D B : on B -> gen D -> gen (add D B) -> gen B.
Proof.
  intros HB [i ->] [j H]. exists ((i * (n - 1)) + j). rewrite mul_plus by auto.
  rewrite <- H, <- assoc by auto. rewrite <- mul_plus by auto.
  replace (i * (n - 1) + i) with (i * n) by nia. rewrite mul_mult, order, mul_o, add_o by auto. reflexivity.
Qed.

Lemma mul_inj i j : i < n -> j < n -> mul i G = mul j G -> i = j.
Proof.
  assert (W : forall i j, i < j -> j < n -> mul i G <> mul j G).
  { intros a b Hab Hb E. apply (exact_order (b - a)); [lia|].
    apply (cancel_l (mul a G)); auto. rewrite <- mul_plus by auto. replace (a + (b - a)) with b by lia.
    rewrite <- E, comm, add_o by auto. reflexivity. }
  intros Hi Hj E. destruct (Nat.lt_trichotomy i j) as [L|[L|L]]; [|assumption|].
  - destruct (W i j L Hj E).
  - destruct (W j i L Hi (eq_sym E)).
Qed.

Lemma half P : on P -> gen (add P P) -> gen P.
Proof.
  intros HP [i H]. set (j := i * (h + 1)).
  assert (J : add (mul j G) (mul j G) = mul i G).
  { rewrite <- mul_plus by auto. unfold j. replace (i * (h + 1) + i * (h + 1)) with (i + i * n) by nia.
    rewrite mul_plus, (mul_mult i n), order, mul_o by auto. rewrite comm, add_o by auto. reflexivity. }
  set (D := opp (mul j G)). assert (HD : on D) by (unfold D; auto).
  assert (Q0 : add P D = o).
  { apply no_two; auto.
    rewrite assoc by auto. rewrite <- (assoc D P D) by auto. rewrite (comm D P) by auto. rewrite (assoc P D D) by auto.
    rewrite <- (assoc P P (add D D)) by auto. rewrite H, <- J.
    rewrite assoc by auto. rewrite <- (assoc (mul j G) D D) by auto. unfold D. rewrite add_opp, add_o, add_opp by auto. reflexivity. }
  exists j. apply (cancel_l D); auto. rewrite comm by auto. rewrite Q0. symmetry. rewrite comm by auto. apply add_opp; auto.
Qed.

Definition coset (A : T) : list T := map (fun i => add (mul i G) A) (seq 0 n).

Lemma coset_nodup A : on A -> NoDup (coset A).
Proof.
  intros HA. unfold coset.
  assert (W : forall l, (forall i, In i l -> i < n) -> NoDup l -> NoDup (map (fun i => add (mul i G) A) l)).
  { induction l as [|i l IH]; intros B D; cbn; [constructor|]. apply NoDup_cons_iff in D; destruct D as [D1 D2]. constructor.
    - rewrite in_map_iff. intros (j & E & Ij). rewrite (comm (mul j G) A), (comm (mul i G) A) in E by auto. apply cancel_l in E; auto.
      apply mul_inj in E; [subst; contradiction| |]; apply B; cbn; auto.
    - apply IH; [intros; apply B; cbn; auto|assumption]. }
  apply W; [intros i; rewrite in_seq; lia|apply seq_NoDup].
Qed.

Lemma coset_on A : on A -> forall P, In P (coset A) -> on P.
Proof. intros HA P. unfold coset. rewrite in_map_iff. intros (i & <- & _). auto. Qed.

Lemma nodup_app {A} (l1 l2 : list A) : NoDup l1 -> NoDup l2 -> (forall x, In x l1 -> ~ In x l2) -> NoDup (l1 ++ l2).
Proof.
  intros H1 H2 H. induction H1 as [|x l Hx Hl IH]; cbn; [assumption|]. constructor.
  - rewrite in_app_iff. intros [?|?]; [contradiction|]. apply (H x); cbn; auto.
  - apply IH. intros y Hy. apply H. cbn. auto.
Qed.

Lemma coset_meet A B : on A -> on B -> forall x, In x (coset A) -> In x (coset B) -> exists D, gen D /\ A = add D B.
Proof.
  intros HA HB x. unfold coset. rewrite !in_map_iff. intros (i & Ei & _) (j & Ej & _).
  apply (gen_move i j); auto. congruence.
Qed.

Theorem kills P : on P -> mul n P = o.
Proof.
  intros HP. destruct (T_dec (mul n P) o) as [E|NE]; [assumption|exfalso].
  assert (N1 : ~ gen P) by (intros Hg; apply NE, gen_kill, Hg).
  assert (N2 : ~ gen (add P P)) by (intros Hg; apply N1, half; assumption).
  set (L := coset o ++ coset P ++ coset (add P P)).
  assert (LL : length L = 3 * n).
  { unfold L, coset. rewrite !app_length, !map_length, seq_length. lia. }
  assert (O_gen : gen o) by (exists 0; rewrite mul_0; reflexivity).
  assert (LN : NoDup L).
  { unfold L. apply nodup_app; [apply coset_nodup; auto| |].
    - apply nodup_app; try (apply coset_nodup; auto). intros x H1 H2'.
      destruct (coset_meet _ _ HP (on_add _ _ HP HP) x H1 H2') as (D & gD & ED).
      assert (oD : on D) by (apply gen_on, gD). apply N1. apply (gen_split D); auto. exists 0. rewrite mul_0.
      apply (cancel_l P); auto. rewrite (comm P o), add_o by auto.
      rewrite <- assoc by (auto using gen_on). rewrite (comm P D), assoc by (auto using gen_on). congruence.
    - intros x H1. rewrite in_app_iff. intros [H2'|H2'].
      + destruct (coset_meet _ _ on_o HP x H1 H2') as (D & gD & ED). apply N1. apply (gen_split D); auto. rewrite <- ED. assumption.
      + destruct (coset_meet _ _ on_o (on_add _ _ HP HP) x H1 H2') as (D & gD & ED). apply N2. apply (gen_split D); auto. rewrite <- ED. assumption. }
  assert (LO : forall x, In x L -> on x).
  { intros x. unfold L. rewrite !in_app_iff. intros [Hx|[Hx|Hx]]; revert x Hx; apply coset_on; auto. }
  assert (CN : NoDup (map code L)).
  { clear - LN LO code_inj. induction LN as [|x l Hx Hl IH]; cbn; [constructor|]. constructor.
    - rewrite in_map_iff. intros (y & E & Iy). apply code_inj in E; [subst; contradiction| |]; apply LO; cbn; auto.
    - apply IH. intros y Hy. apply LO. cbn. auto. }
  assert (IL : incl (map code L) (seq 0 N)).
  { intros k. rewrite in_map_iff. intros (x & <- & Ix). apply in_seq. pose proof (code_lt x (LO x Ix)). lia. }
  pose proof (NoDup_incl_length CN IL) as Len. rewrite map_length, seq_length, LL in Len. lia.
Qed.

End Order.
