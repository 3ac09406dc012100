(* X25519 computes multiples of a point of Curve25519, so the two ends of an exchange agree. *)
From Coq Require Import ZArith Znumtheory Lia List Bool Ring Field.
From Verif.Model Require Import Base.
From Verif.Spec Require Import Enc Rfc7748.
From Verif.Proofs Require Import Bytes X25519 Number Primes EcGroup Montgomery Fp.
Import ListNotations.
Open Scope Z_scope.

Lemma Hp25519 : prime p25519.
Proof. exact prime_25519. Qed.
Lemma p25519_big : 2 < p25519.
Proof. reflexivity. Qed.

Section Dh.
(* kept abstract so that nothing tries to compute with p *)
Variable p : Z.
Hypothesis Hp : prime p.
Hypothesis H2 : 2 < p.
Hypothesis Hpe : p = p25519.

Notation F := (Fp p).
Notation i := (inj p Hp).
Declare Scope F_scope.
Notation "0" := (F0 p Hp) : F_scope.
Notation "1" := (F1 p Hp) : F_scope.
Notation "x + y" := (Fadd p Hp x y) : F_scope.
Notation "x * y" := (Fmul p Hp x y) : F_scope.
Notation "x - y" := (Fsub p Hp x y) : F_scope.
Notation "- x" := (Fopp p Hp x) : F_scope.
Notation "x / y" := (Fdiv p Hp x y) : F_scope.
Delimit Scope F_scope with F.

Let Fd := Fdec p.
Let two := F2 p Hp H2.
Add Field FF : (Fth p Hp).

Notation a2 := (i 486662).
Notation gadd := (add F (F1 p Hp) (Fadd p Hp) (Fmul p Hp) (Fsub p Hp) (Fopp p Hp) (Fdiv p Hp) Fd a2 (F1 p Hp)).
Notation gon := (on F (Fadd p Hp) (Fmul p Hp) a2 (F1 p Hp) (F0 p Hp)).
Notation gopp := (opp F (Fopp p Hp)).
Notation gmul := (mul F (F1 p Hp) (Fadd p Hp) (Fmul p Hp) (Fsub p Hp) (Fopp p Hp) (Fdiv p Hp) Fd a2 (F1 p Hp)).
Notation rep := (Montgomery.rep F (F0 p Hp) (Fmul p Hp)).

Lemma i_2 : i 2 = (1 + 1)%F. Proof. unfold F1. rewrite <- inj_add. reflexivity. Qed.
Lemma i_4 : i 4 = ((1 + 1) * (1 + 1))%F. Proof. rewrite <- i_2, <- inj_mul. reflexivity. Qed.

Lemma Ha24 : ((1 + 1) * (1 + 1) * i 121665 = a2 - (1 + 1))%F.
Proof. rewrite <- i_4, <- i_2, <- inj_mul, <- inj_sub. reflexivity. Qed.

Lemma disc : (a2 * a2 <> (1 + 1) * (1 + 1))%F.
Proof.
  rewrite <- i_4, <- inj_mul. intros H. apply Fp.inj_eq in H. rewrite Hpe in H. vm_compute in H. discriminate.
Qed.

Let ns := nonsing F (F0 p Hp) (F1 p Hp) (Fadd p Hp) (Fmul p Hp) (Fsub p Hp) (Fopp p Hp) (Fdiv p Hp) (Finv p Hp) (Fth p Hp) Fd a2 disc.

Lemma i_pow2 x : i (x ^ 2) = (i x * i x)%F.
Proof. rewrite <- inj_mul. f_equal. ring. Qed.

Lemma i_mod x : i (x mod p25519) = i x.
Proof. rewrite <- Hpe. apply inj_mod. Qed.

(* one step of the ladder, in the field *)
Lemma step_field x1 x2 z2 x3 z3 :
  let '(x2', z2', x3', z3') := montgomery_step x1 x2 z2 x3 z3 in
  i x2' = dblX F (Fadd p Hp) (Fmul p Hp) (Fsub p Hp) (i x2) (i z2) /\
  i z2' = dblZ F (Fadd p Hp) (Fmul p Hp) (Fsub p Hp) (i 121665) (i x2) (i z2) /\
  i x3' = addX F (Fadd p Hp) (Fmul p Hp) (Fsub p Hp) (i x2) (i z2) (i x3) (i z3) /\
  i z3' = addZ F (Fadd p Hp) (Fmul p Hp) (Fsub p Hp) (i x1) (i x2) (i z2) (i x3) (i z3).
Proof.
  unfold montgomery_step, dblX, dblZ, addX, addZ, a24. cbv zeta. rewrite !i_mod.
  rewrite !inj_mul, !i_pow2, !inj_add, !inj_mul, !inj_sub, !i_pow2, !inj_mul, !inj_sub, !inj_add.
  repeat split; reflexivity.
Qed.

Section Ladder.
Variables (u : Z) (y : F).
Hypothesis Hu : i u <> 0%F.
Notation P := (A F (i u) y).
Hypothesis HP : gon P.

Lemma gmul_on n : gon (gmul n P).
Proof. apply (mul_on F _ _ _ _ _ _ _ _ (Fth p Hp) Fd two a2 _ _ n P HP). Qed.
Lemma gadd_comm Q R : gon Q -> gon R -> gadd Q R = gadd R Q.
Proof. apply (add_comm F _ _ _ _ _ _ _ _ (Fth p Hp) Fd two). Qed.
Lemma gmul_plus m n : gmul (m + n) P = gadd (gmul m P) (gmul n P).
Proof. apply (mul_plus F _ _ _ _ _ _ _ _ (Fth p Hp) Fd two a2 _ _ ns m n P HP). Qed.
Lemma gmul_1 : gmul 1 P = P.
Proof. cbn [mul]. apply add_O_r. Qed.

Lemma both x2 z2 x3 z3 m : rep (i x2) (i z2) (gmul m P) -> rep (i x3) (i z3) (gmul (S m) P) ->
  let '(x2', z2', x3', z3') := montgomery_step u x2 z2 x3 z3 in
  rep (i x2') (i z2') (gmul (2 * m) P) /\ rep (i x3') (i z3') (gmul (S (2 * m)) P).
Proof.
  intros H2' H3'. pose proof (step_field u x2 z2 x3 z3) as HS.
  destruct (montgomery_step u x2 z2 x3 z3) as [[[x2' z2'] x3'] z3']. destruct HS as (-> & -> & -> & ->).
  assert (ES : gmul (S m) P = gadd (gmul m P) P).
  { replace (S m) with (m + 1)%nat by lia. rewrite gmul_plus, gmul_1. reflexivity. }
  split.
  - replace (2 * m)%nat with (m + m)%nat by lia. rewrite gmul_plus.
    apply (rep_double F _ _ _ _ _ _ _ _ (Fth p Hp) Fd two a2 _ Ha24 disc); [apply gmul_on|exact H2'].
  - replace (S (2 * m)) with (m + S m)%nat by lia. rewrite gmul_plus, ES.
    apply (rep_add F _ _ _ _ _ _ _ _ (Fth p Hp) Fd two a2 disc (i u) y (gmul m P)); try assumption; [apply gmul_on|].
    rewrite <- ES. exact H3'.
Qed.

(* the same after a swap *)
Lemma both' x2 z2 x3 z3 m : rep (i x2) (i z2) (gmul (S m) P) -> rep (i x3) (i z3) (gmul m P) ->
  let '(x2', z2', x3', z3') := montgomery_step u x2 z2 x3 z3 in
  rep (i x2') (i z2') (gmul (S (S (2 * m))) P) /\ rep (i x3') (i z3') (gmul (S (2 * m)) P).
Proof.
  intros H2' H3'. pose proof (step_field u x2 z2 x3 z3) as HS.
  destruct (montgomery_step u x2 z2 x3 z3) as [[[x2' z2'] x3'] z3']. destruct HS as (-> & -> & -> & ->).
  assert (ES : gmul (S m) P = gadd (gmul m P) P).
  { replace (S m) with (m + 1)%nat by lia. rewrite gmul_plus, gmul_1. reflexivity. }
  split.
  - replace (S (S (2 * m)))%nat with (S m + S m)%nat by lia. rewrite gmul_plus.
    apply (rep_double F _ _ _ _ _ _ _ _ (Fth p Hp) Fd two a2 _ Ha24 disc); [apply gmul_on|exact H2'].
  - replace (S (2 * m)) with (m + S m)%nat by lia. rewrite gmul_plus, ES.
    replace (addX F (Fadd p Hp) (Fmul p Hp) (Fsub p Hp) (i x2) (i z2) (i x3) (i z3))
      with (addX F (Fadd p Hp) (Fmul p Hp) (Fsub p Hp) (i x3) (i z3) (i x2) (i z2)) by (unfold addX; cbv zeta; ring).
    replace (addZ F (Fadd p Hp) (Fmul p Hp) (Fsub p Hp) (i u) (i x2) (i z2) (i x3) (i z3))
      with (addZ F (Fadd p Hp) (Fmul p Hp) (Fsub p Hp) (i u) (i x3) (i z3) (i x2) (i z2)) by (unfold addZ; cbv zeta; ring).
    apply (rep_add F _ _ _ _ _ _ _ _ (Fth p Hp) Fd two a2 disc (i u) y (gmul m P)); try assumption; [apply gmul_on|].
    rewrite <- ES. exact H2'.
Qed.

Lemma bit_step k t : 0 <= k -> Z.to_nat (k / 2 ^ Z.of_nat t) = (2 * Z.to_nat (k / 2 ^ Z.of_nat (S t)) + Nat.b2n (Z.testbit k (Z.of_nat t)))%nat.
Proof.
  intros Hk. rewrite Nat2Z.inj_succ, Z.pow_succ_r by lia.
  assert (0 < 2 ^ Z.of_nat t) by (apply Z.pow_pos_nonneg; lia).
  rewrite (Z.mul_comm 2), <- Z.div_div by lia. set (q := k / 2 ^ Z.of_nat t).
  assert (Hq : 0 <= q) by (apply Z.div_pos; lia).
  assert (Hb : Z.of_nat (Nat.b2n (Z.testbit k (Z.of_nat t))) = q mod 2).
  { unfold q. rewrite <- Z.testbit_spec' by lia. destruct (Z.testbit k (Z.of_nat t)); reflexivity. }
  pose proof (Z.div_mod q 2 ltac:(lia)) as D. assert (0 <= q / 2) by (apply Z.div_pos; lia). lia.
Qed.

Lemma loop_rep k : 0 <= k -> forall n x2 z2 x3 z3 (swap : bool),
  let m := Z.to_nat (k / 2 ^ Z.of_nat n) in
  rep (i x2) (i z2) (gmul (if swap then S m else m) P) -> rep (i x3) (i z3) (gmul (if swap then m else S m) P) ->
  let '(x, z) := x25519_loop n k u x2 z2 x3 z3 swap in rep (i x) (i z) (gmul (Z.to_nat k) P).
Proof.
  intros Hk. induction n as [|t IH]; intros x2 z2 x3 z3 swap m H2' H3'; cbn [x25519_loop]; rewrite !cswap_eq.
  - assert (Em : m = Z.to_nat k). { unfold m. change (2 ^ Z.of_nat 0) with 1. rewrite Z.div_1_r. reflexivity. }
    clearbody m. subst m. destruct swap; assumption.
  - pose proof (bit_step k t Hk) as Hb. fold m in Hb. cbv zeta in IH. rewrite Hb in IH.
    clear Hb. clearbody m. set (kt := Z.testbit k (Z.of_nat t)) in *. clearbody kt.
    destruct swap, kt; cbn [xorb Nat.b2n] in *; rewrite ?Nat.add_0_r, ?Nat.add_1_r in IH.
    + pose proof (both' x2 z2 x3 z3 m H2' H3') as B. destruct (montgomery_step u x2 z2 x3 z3) as [[[x2' z2'] x3'] z3'].
      destruct B. apply IH; assumption.
    + pose proof (both x3 z3 x2 z2 m H3' H2') as B. destruct (montgomery_step u x3 z3 x2 z2) as [[[x2' z2'] x3'] z3'].
      destruct B. apply IH; assumption.
    + pose proof (both' x3 z3 x2 z2 m H3' H2') as B. destruct (montgomery_step u x3 z3 x2 z2) as [[[x2' z2'] x3'] z3'].
      destruct B. apply IH; assumption.
    + pose proof (both x2 z2 x3 z3 m H2' H3') as B. destruct (montgomery_step u x2 z2 x3 z3) as [[[x2' z2'] x3'] z3'].
      destruct B. apply IH; assumption.
Qed.

End Ladder.

(* the x coordinate, 0 for the point at infinity *)
Definition xc (P : pt F) : Z := match P with O _ => 0 | A _ x _ => val p x end.

Lemma final_val x z P : rep (i x) (i z) P -> (x * powm z (Z.to_pos (p25519 - 2))) mod p25519 = xc P.
Proof.
  intros HR. rewrite powm_eq, Z.mul_mod_idemp_r by discriminate.
  change (Z.pos (Z.to_pos (p25519 - 2))) with (p25519 - 2). rewrite <- Hpe, <- (val_inj p Hp), inj_mul, inj_inv.
  destruct P as [|px py].
  - destruct HR as [-> _]. cbn [xc]. unfold Finv, F0. rewrite !val_inj, Zmod_0_l, Z.pow_0_l by lia.
    change (i 0) with (0%F). replace (i x * 0)%F with 0%F by ring. unfold F0. rewrite val_inj. apply Zmod_0_l.
  - destruct HR as [Hz ->]. cbn [xc]. f_equal.
    transitivity (px * (Finv p Hp (i z) * i z))%F; [ring|]. rewrite (Finv_l p Hp _ Hz). ring.
Qed.

(* u = 0: every z stays 0 *)
Lemma loop_zero k : forall n x2 z2 x3 z3 (swap : bool), x2 * z2 = 0 -> x3 * z3 = 0 -> (n = 0%nat -> z2 = 0 /\ z3 = 0) ->
  snd (x25519_loop n k 0 x2 z2 x3 z3 swap) = 0.
Proof.
  assert (H : forall n x2 z2 x3 z3 (swap : bool), x2 * z2 = 0 -> x3 * z3 = 0 -> (n = 0%nat -> z2 = 0 /\ z3 = 0) ->
    snd (x25519_loop n k 0 x2 z2 x3 z3 swap) = 0); [|exact H].
  induction n as [|t IH]; intros x2 z2 x3 z3 swap E2 E3 E0; cbn [x25519_loop]; rewrite !cswap_eq.
  - destruct (E0 eq_refl) as [-> ->]. destruct swap; reflexivity.
  - set (s := xorb swap (Z.testbit k (Z.of_nat t))). clearbody s.
    assert (Q : forall X2 Z2 X3 Z3, X2 * Z2 = 0 -> X3 * Z3 = 0 ->
      snd (let '(x2, z2, x3, z3) := montgomery_step 0 X2 Z2 X3 Z3 in x25519_loop t k 0 x2 z2 x3 z3 (Z.testbit k (Z.of_nat t))) = 0).
    { intros X2 Z2 X3 Z3 F2' F3'. unfold montgomery_step. cbv zeta.
      replace ((X2 + Z2) ^ 2 - (X2 - Z2) ^ 2) with (4 * (X2 * Z2)) by ring. rewrite F2'. cbn [Z.mul]. rewrite Zmod_0_l.
      apply IH; auto; apply Z.mul_0_r. }
    destruct s; apply Q; assumption.
Qed.

Lemma val_nz x : val p x <> 0 -> x <> 0%F.
Proof. intros H E. apply H. rewrite E. unfold F0. rewrite val_inj. apply Zmod_0_l. Qed.

(* the ladder computes multiples *)
Theorem ladder_is_multiplication k P : gon P -> 0 <= k < 2 ^ 255 -> Z.even k = true ->
  x25519_num k (xc P) = xc (gmul (Z.to_nat k) P).
Proof.
  intros HP Hk He. destruct (Z.eq_dec (xc P) 0) as [E|E].
  - (* infinity or (0,0): an even multiple is infinity *)
    assert (K : gmul (Z.to_nat k) P = O F).
    { apply Z.even_spec in He. destruct He as [h Hh]. assert (0 <= h) by lia.
      replace (Z.to_nat k) with (Z.to_nat h * 2)%nat by lia.
      rewrite (mul_mult F _ _ _ _ _ _ _ _ (Fth p Hp) Fd two a2 _ _ ns _ _ P HP).
      assert (K2 : gmul 2 P = O F).
      { destruct P as [|x y]; [reflexivity|]. cbn [xc] in E.
        assert (Ex : x = 0%F). { rewrite <- (inj_val p Hp x), E. reflexivity. }
        cbn [mul]. rewrite add_O_r. cbn [on] in HP. unfold cubic in HP. subst x.
        assert (Ey : (y * y = 0)%F) by (rewrite HP; ring).
        assert (Ey' : y = 0%F). { destruct (EcGroup.integral F _ _ _ _ _ _ _ _ (Fth p Hp) Fd y y Ey); assumption. }
        subst y. cbn [add]. destruct (Fd 0%F 0%F) as [_|N]; [|congruence].
        destruct (Fd 0%F (- 0)%F) as [_|N]; [reflexivity|exfalso; apply N; ring]. }
      rewrite K2. apply mul_O. }
    rewrite K, E. cbn [xc]. unfold x25519_num.
    pose proof (loop_zero k 255 1 0 0 1 false eq_refl eq_refl ltac:(discriminate)) as HZ.
    destruct (x25519_loop 255 k 0 1 0 0 1 false) as [x z]. cbn [snd] in HZ. subst z.
    rewrite powm_eq. change (Z.pos (Z.to_pos (p25519 - 2))) with (p25519 - 2). rewrite Z.pow_0_l by reflexivity.
    rewrite Zmod_0_l, Z.mul_0_r. reflexivity.
  - destruct P as [|x y]; [cbn [xc] in E; congruence|]. cbn [xc] in *.
    assert (Hx : i (val p x) = x) by apply inj_val.
    assert (Hnz : i (val p x) <> 0%F) by (rewrite Hx; apply val_nz, E).
    assert (HP' : gon (A F (i (val p x)) y)) by (rewrite Hx; exact HP).
    set (u := val p x) in *. unfold x25519_num.
    pose proof (loop_rep u y Hnz HP' k ltac:(lia) 255 1 0 u 1 false) as L. cbv zeta in L.
    assert (Em : Z.to_nat (k / 2 ^ Z.of_nat 255) = 0%nat).
    { change (Z.of_nat 255) with 255. rewrite Z.div_small by lia. reflexivity. }
    rewrite Em in L. rewrite (gmul_1 u y) in L.
    destruct (x25519_loop 255 k u 1 0 u 1 false) as [rx rz].
    rewrite <- Hx. rewrite (final_val rx rz (gmul (Z.to_nat k) (A F (i u) y))); [reflexivity|].
    apply L.
    + cbn [mul Montgomery.rep]. split; [reflexivity|]. exact (F_1_neq_0 (Fth p Hp)).
    + cbn [Montgomery.rep]. change (i 1) with (1%F). split; [exact (F_1_neq_0 (Fth p Hp))|ring].
Qed.

(* the base point u = 9 *)
Definition base_y : Z := 14781619447589544791020593568409986887264606134616475288964881837755586237401.

Lemma base_on : gon (A F (i 9) (i base_y)).
Proof.
  cbn [on]. unfold cubic. unfold F0, F1. rewrite <- !inj_mul, <- !inj_add. apply Fp.inj_eq. rewrite Hpe. vm_compute. reflexivity.
Qed.

Lemma base_xc : xc (A F (i 9) (i base_y)) = 9.
Proof. cbn [xc]. rewrite val_inj, Hpe. reflexivity. Qed.

Lemma mul_comm_on m n P : gon P -> gmul m (gmul n P) = gmul n (gmul m P).
Proof.
  intros HP. rewrite <- !(mul_mult F _ _ _ _ _ _ _ _ (Fth p Hp) Fd two a2 _ _ ns _ _ P HP). f_equal. lia.
Qed.

Theorem num_agree a b : 0 <= a < 2 ^ 255 -> 0 <= b < 2 ^ 255 -> Z.even a = true -> Z.even b = true ->
  x25519_num a (x25519_num b 9) = x25519_num b (x25519_num a 9).
Proof.
  intros Ha Hb Ea Eb. rewrite <- base_xc. pose proof base_on as HG. set (G := A F (i 9) (i base_y)) in *. clearbody G.
  rewrite !ladder_is_multiplication; try assumption.
  - rewrite mul_comm_on by assumption. reflexivity.
  - apply (mul_on F _ _ _ _ _ _ _ _ (Fth p Hp) Fd two a2). exact HG.
  - apply (mul_on F _ _ _ _ _ _ _ _ (Fth p Hp) Fd two a2). exact HG.
Qed.
(* (1, y) has order 4 *)
Lemma order_4 y : gon (A F (i 1) y) -> gmul 4 (A F (i 1) y) = O F.
Proof.
  intros HP. change (i 1) with (1%F) in *.
  assert (S : (y * y = a2 + (1 + 1))%F). { cbn [on] in HP. unfold cubic in HP. rewrite HP. ring. }
  assert (T : (a2 + (1 + 1) <> 0)%F).
  { rewrite <- i_2, <- inj_add. apply (inj_nz p Hp). rewrite Hpe. intros [q Hq]. 
    apply (f_equal (fun z => Z.modulo z p25519)) in Hq. rewrite Z_mod_mult in Hq. vm_compute in Hq. discriminate. }
  assert (Y : y <> 0%F) by (intros ->; apply T; rewrite <- S; ring).
  assert (D : gadd (A F 1%F y) (A F 1%F y) = A F 0%F 0%F).
  { cbn [add]. destruct (Fd 1%F 1%F) as [_|N]; [|congruence].
    destruct (Fd y (- y)%F) as [E|_].
    { exfalso. assert (E2 : ((1 + 1) * y = 0)%F) by (rewrite E at 1; replace ((1 + 1) * - y)%F with (- y + - y)%F by ring; rewrite <- E at 1; ring).
      destruct (EcGroup.integral F _ _ _ _ _ _ _ _ (Fth p Hp) Fd _ _ E2) as [C|C]; [exact (two C)|exact (Y C)]. }
    unfold via, cubic'. 
    assert (L : (((1 + 1 + 1) * 1 * 1 + (1 + 1) * a2 * 1 + 1) / ((1 + 1) * y) = y)%F).
    { replace ((1 + 1 + 1) * 1 * 1 + (1 + 1) * a2 * 1 + 1)%F with ((1 + 1) * (a2 + (1 + 1)))%F by ring. rewrite <- S. field. split; [exact Y|exact two]. }
    rewrite L, S. f_equal; ring. }
  change 4%nat with (2 + 2)%nat.
  rewrite (mul_plus F _ _ _ _ _ _ _ _ (Fth p Hp) Fd two a2 _ _ ns) by exact HP.
  cbn [mul]. rewrite add_O_r, D. cbn [add]. destruct (Fd 0%F 0%F) as [_|N]; [|congruence].
  destruct (Fd 0%F (- 0)%F) as [_|N]; [reflexivity|exfalso; apply N; ring].
Qed.

Definition one_y : Z := 48802004052532134862652268456126542835229456083994414501085850622543968879637.
Lemma one_on : gon (A F (i 1) (i one_y)).
Proof.
  cbn [on]. unfold cubic. unfold F0, F1. rewrite <- !inj_mul, <- !inj_add. apply Fp.inj_eq. rewrite Hpe. vm_compute. reflexivity.
Qed.
Lemma num_one k : 0 <= k < 2 ^ 255 -> k mod 4 = 0 -> x25519_num k 1 = 0.
Proof.
  intros Hk H4. assert (X : xc (A F (i 1) (i one_y)) = 1) by (cbn [xc]; rewrite val_inj, Hpe; reflexivity).
  pose proof one_on as HG. rewrite <- X at 1. rewrite ladder_is_multiplication; [|exact HG|exact Hk|].
  - apply Z.mod_divide in H4; [|lia]. destruct H4 as [h Hh]. replace (Z.to_nat k) with (Z.to_nat h * 4)%nat by lia.
    rewrite (mul_mult F _ _ _ _ _ _ _ _ (Fth p Hp) Fd two a2 _ _ ns _ _ _ HG), order_4 by exact HG. rewrite mul_O. reflexivity.
  - apply Z.mod_divide in H4; [|lia]. destruct H4 as [h ->]. apply Z.even_spec. exists (2 * h). lia.
Qed.
End Dh.

Lemma scalar_range k : is_bytes k -> length k = 32%nat -> 0 <= decodeScalar k < 2 ^ 255 /\ Z.even (decodeScalar k) = true.
Proof.
  intros Hk L. unfold decodeScalar. pose proof (Z.mod_pos_bound (le_val k / 8) (2 ^ 251) ltac:(lia)) as M.
  split; [lia|]. apply Z.even_spec. exists (2 ^ 253 + 4 * ((le_val k / 8) mod 2 ^ 251)). lia.
Qed.

Lemma decode_encode x : decodeUCoordinate (encodeUCoordinate x) = x mod p25519.
Proof.
  unfold decodeUCoordinate, encodeUCoordinate. rewrite le_val_enc. pose proof (Z.mod_pos_bound x p25519 ltac:(reflexivity)) as M.
  assert (p25519 = 2 ^ 255 - 19) by reflexivity. change (256 ^ Z.of_nat 32) with (2 ^ 256).
  rewrite (Z.mod_small _ (2 ^ 256)) by lia. apply Z.mod_small. lia.
Qed.

Lemma num_mod k u : x25519_num k u mod p25519 = x25519_num k u.
Proof. unfold x25519_num. destruct (x25519_loop 255 k u 1 0 u 1 false). apply Z.mod_mod. discriminate. Qed.

Lemma agree a b : is_bytes a -> is_bytes b -> length a = 32%nat -> length b = 32%nat ->
  X25519 a (X25519 b (le_enc 32 9)) = X25519 b (X25519 a (le_enc 32 9)).
Proof.
  intros Ha Hb La Lb. unfold X25519. rewrite !decode_encode, !num_mod.
  change (decodeUCoordinate (le_enc 32 9)) with 9.
  destruct (scalar_range a Ha La) as [Ra Ea], (scalar_range b Hb Lb) as [Rb Eb].
  f_equal. apply (num_agree p25519 Hp25519 p25519_big eq_refl); assumption.
Qed.

(* the point u = 1 has small order: every clamped multiple of it is 0 *)
Lemma X25519_one k : is_bytes k -> length k = 32%nat -> X25519 k (le_enc 32 1) = repeat 0 32.
Proof.
  intros Hk L. unfold X25519. change (decodeUCoordinate (le_enc 32 1)) with 1.
  destruct (scalar_range k Hk L) as [R _]. rewrite (num_one p25519 Hp25519 p25519_big eq_refl); [reflexivity|exact R|].
  unfold decodeScalar. replace (2 ^ 254 + 8 * ((le_val k / 8) mod 2 ^ 251)) with ((2 ^ 252 + 2 * ((le_val k / 8) mod 2 ^ 251)) * 4) by lia.
  apply Z_mod_mult.
Qed.
