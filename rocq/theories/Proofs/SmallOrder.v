(* The base point of Curve25519 has prime order (times a power of two), so shares and secrets tell private keys apart. *)
From Coq Require Import ZArith Znumtheory Lia List Bool Ring Field.
From Verif.Model Require Import Base.
From Verif.Spec Require Import Enc Rfc7748 SmallOrder.
From Verif.Proofs Require Import Bytes X25519 Number Primes EcGroup Montgomery Fp Dh25519.
Import ListNotations.
Open Scope Z_scope.

Local Ltac small := apply small_prime_ok; vm_compute; reflexivity.
Local Ltac cert a q l := apply (pock_prime _ a q l);
  [vm_compute; reflexivity
  |repeat (apply NoDup_cons; [cbn; intuition discriminate|]); apply NoDup_nil
  |repeat (apply Forall_cons; [assumption|]); apply Forall_nil].
Lemma P531581 : prime 531581. Proof. small. Qed.
Lemma P1224481 : prime 1224481. Proof. small. Qed.
Lemma P1257559732178653 : prime 1257559732178653.
Proof. pose proof P531581. pose proof P1224481. cert 2 531581 ([1224481]). Qed.
Lemma P4434155615661930479 : prime 4434155615661930479.
Proof. pose proof P1257559732178653. cert 2 1257559732178653 (@nil Z). Qed.
Lemma P172054593956031949258510691 : prime 172054593956031949258510691.
Proof. pose proof P4434155615661930479. cert 2 4434155615661930479 (@nil Z). Qed.
Lemma P19757330305831588566944191468367130476339 : prime 19757330305831588566944191468367130476339.
Proof. pose proof P172054593956031949258510691. cert 2 172054593956031949258510691 (@nil Z). Qed.
Lemma P276602624281642239937218680557139826668747 : prime 276602624281642239937218680557139826668747.
Proof. pose proof P19757330305831588566944191468367130476339. cert 2 19757330305831588566944191468367130476339 (@nil Z). Qed.
Lemma order_prime : prime base_order.
Proof.
  pose proof P276602624281642239937218680557139826668747. change base_order with 7237005577332262213973186563042994240857116359379907606001950938285454250989.
  cert 2 276602624281642239937218680557139826668747 (@nil Z).
Qed.

Section Order.
Variable p : Z.
Hypothesis Hp : prime p.
Hypothesis H2 : 2 < p.
Hypothesis Hpe : p = p25519.
Notation F := (Fp p).
Notation i := (inj p Hp).
Declare Scope F_scope.
Notation "0" := (F0 p Hp) : F_scope.
Notation "1" := (F1 p Hp) : F_scope.
Notation "x + y" := (Fadd p Hp x y) : F_scope.
Notation "x * y" := (Fmul p Hp x y) : F_scope.
Notation "x - y" := (Fsub p Hp x y) : F_scope.
Notation "- x" := (Fopp p Hp x) : F_scope.
Notation "x / y" := (Fdiv p Hp x y) : F_scope.
Delimit Scope F_scope with F.
Let Fd := Fdec p.
Let two := F2 p Hp H2.
Add Field FF2 : (Fth p Hp).
Notation a2 := (i 486662).
Notation gadd := (add F (F1 p Hp) (Fadd p Hp) (Fmul p Hp) (Fsub p Hp) (Fopp p Hp) (Fdiv p Hp) Fd a2 (F1 p Hp)).
Notation gon := (on F (Fadd p Hp) (Fmul p Hp) a2 (F1 p Hp) (F0 p Hp)).
Notation gopp := (opp F (Fopp p Hp)).
Notation gmul := (mul F (F1 p Hp) (Fadd p Hp) (Fmul p Hp) (Fsub p Hp) (Fopp p Hp) (Fdiv p Hp) Fd a2 (F1 p Hp)).
Let ns := nonsing F (F0 p Hp) (F1 p Hp) (Fadd p Hp) (Fmul p Hp) (Fsub p Hp) (Fopp p Hp) (Fdiv p Hp) (Finv p Hp) (Fth p Hp) Fd a2 (disc p Hp Hpe).
Notation xc := (xc p).
Notation O := (O F).

Lemma on_mul n P : gon P -> gon (gmul n P).
Proof. apply (mul_on F _ _ _ _ _ _ _ _ (Fth p Hp) Fd two a2). Qed.
Lemma mul_prod m n P : gon P -> gmul (m * n) P = gmul m (gmul n P).
Proof. intros H. apply (mul_mult F _ _ _ _ _ _ _ _ (Fth p Hp) Fd two _ _ _ ns). exact H. Qed.
Lemma mul_sum m n P : gon P -> gmul (m + n) P = gadd (gmul m P) (gmul n P).
Proof. intros H. apply (mul_plus F _ _ _ _ _ _ _ _ (Fth p Hp) Fd two _ _ _ ns). exact H. Qed.

(* x = 0: the point or its double is infinity *)
Lemma xc_0 P : gon P -> xc P = 0 -> gmul 2 P = O.
Proof.
  intros HP E. destruct P as [|x y]; [reflexivity|]. cbn [Dh25519.xc] in E.
  assert (Ex : x = 0%F). { rewrite <- (inj_val p Hp x), E. reflexivity. }
  cbn [mul]. rewrite add_O_r. cbn [on] in HP. unfold cubic in HP. subst x.
  assert (Ey : (y * y = 0)%F) by (rewrite HP; ring).
  assert (Ey' : y = 0%F). { destruct (EcGroup.integral F _ _ _ _ _ _ _ _ (Fth p Hp) Fd y y Ey); assumption. }
  subst y. cbn [add]. destruct (Fd 0%F 0%F) as [_|N]; [|congruence].
  destruct (Fd 0%F (- 0)%F) as [_|N]; [reflexivity|exfalso; apply N; ring].
Qed.
(* same x: the same point or the opposite one, if it is not 0 *)
Lemma xc_eq P Q : gon P -> gon Q -> xc P = xc Q -> xc P <> 0 -> P = Q \/ P = gopp Q.
Proof.
  intros HP HQ E N. destruct P as [|x y]; [cbn in N; congruence|]. destruct Q as [|x' y']; [cbn [Dh25519.xc] in *; congruence|]. cbn [Dh25519.xc] in E.
  assert (x' = x) as ->. { rewrite <- (inj_val p Hp x), E. symmetry. apply inj_val. }
  cbn [on] in HP, HQ. assert (D : ((y - y') * (y + y') = 0)%F). { replace ((y - y') * (y + y'))%F with (y * y - y' * y')%F by ring. rewrite HP, HQ. ring. }
  destruct (EcGroup.integral F _ _ _ _ _ _ _ _ (Fth p Hp) Fd _ _ D) as [C|C].
  - left. f_equal. transitivity (y - y' + y')%F; [ring|]. rewrite C. ring.
  - right. cbn [opp]. f_equal. transitivity (y + y' - y')%F; [ring|]. rewrite C. ring.
Qed.
Lemma xc_opp P : xc (gopp P) = xc P.
Proof. destruct P; reflexivity. Qed.

Definition G : pt F := A F (i 9) (i base_y).
Lemma G_on : gon G. Proof. apply base_on; assumption. Qed.

(* the ladder with a reduction that is quick to compute *)
Definition fold (x : Z) : Z := Z.land x (Z.ones 255) + 19 * Z.shiftr x 255.
Definition red (x : Z) : Z := fold (fold x).
Lemma i_fold x : i (fold x) = i x.
Proof.
  unfold fold. rewrite Z.land_ones, Z.shiftr_div_pow2 by lia. apply Fp.inj_eq. rewrite Hpe.
  pose proof (Z.div_mod x (2 ^ 255) ltac:(discriminate)) as D.
  replace (x mod 2 ^ 255 + 19 * (x / 2 ^ 255)) with (x + (- (x / 2 ^ 255)) * p25519) by (rewrite D at 1; assert (p25519 = 2 ^ 255 - 19) as -> by reflexivity; ring).
  apply Z_mod_plus_full.
Qed.
Lemma i_red x : i (red x) = i x.
Proof. unfold red. now rewrite !i_fold. Qed.
Definition fstep (x1 x2 z2 x3 z3 : Z) : Z * Z * Z * Z :=
  let A := x2 + z2 in let B := x2 - z2 in
  let AA := red (A * A) in let BB := red (B * B) in let E := AA - BB in
  let DA := red ((x3 - z3) * A) in let CB := red ((x3 + z3) * B) in
  let S := DA + CB in let T := DA - CB in
  (red (AA * BB), red (E * (AA + 121665 * E)), red (S * S), red (x1 * red (T * T))).
Fixpoint floop (n : nat) (k x1 x2 z2 x3 z3 : Z) (swap : bool) : Z * Z :=
  match n with
  | 0%nat => if swap then (x3, z3) else (x2, z2)
  | S t =>
      let k_t := Z.testbit k (Z.of_nat t) in
      let '(x2, z2, x3, z3) := if xorb swap k_t then fstep x1 x3 z3 x2 z2 else fstep x1 x2 z2 x3 z3 in
      floop t k x1 x2 z2 x3 z3 k_t
  end.
Lemma fstep_ok u x2 z2 x3 z3 x2' z2' x3' z3' : i x2 = i x2' -> i z2 = i z2' -> i x3 = i x3' -> i z3 = i z3' ->
  let '(a, b, c, d) := fstep u x2 z2 x3 z3 in let '(a', b', c', d') := montgomery_step u x2' z2' x3' z3' in
  i a = i a' /\ i b = i b' /\ i c = i c' /\ i d = i d'.
Proof.
  intros E1 E2 E3 E4. pose proof (step_field p Hp Hpe u x2' z2' x3' z3') as M.
  destruct (montgomery_step u x2' z2' x3' z3') as [[[a' b'] c'] d']. destruct M as (-> & -> & -> & ->). unfold fstep. cbv zeta.
  unfold dblX, dblZ, addX, addZ. rewrite !i_red, !inj_mul, !inj_add, !inj_sub, !i_red, !inj_mul, ?inj_add, ?inj_sub, ?i_red, ?inj_mul, ?inj_add, ?inj_sub, E1, E2, E3, E4. repeat split; ring.
Qed.
Lemma floop_ok k u : forall n x2 z2 x3 z3 x2' z2' x3' z3' swap, i x2 = i x2' -> i z2 = i z2' -> i x3 = i x3' -> i z3 = i z3' ->
  i (fst (floop n k u x2 z2 x3 z3 swap)) = i (fst (x25519_loop n k u x2' z2' x3' z3' swap)) /\
  i (snd (floop n k u x2 z2 x3 z3 swap)) = i (snd (x25519_loop n k u x2' z2' x3' z3' swap)).
Proof.
  induction n as [|t IH]; intros x2 z2 x3 z3 x2' z2' x3' z3' swap E1 E2 E3 E4; cbn [floop x25519_loop]; rewrite !cswap_eq.
  - destruct swap; cbn [fst snd]; auto.
  - destruct (xorb swap (Z.testbit k (Z.of_nat t))).
    + pose proof (fstep_ok u x3 z3 x2 z2 x3' z3' x2' z2' E3 E4 E1 E2) as F.
      destruct (fstep u x3 z3 x2 z2) as [[[a b] c] d], (montgomery_step u x3' z3' x2' z2') as [[[a' b'] c'] d']. apply IH; tauto.
    + pose proof (fstep_ok u x2 z2 x3 z3 x2' z2' x3' z3' E1 E2 E3 E4) as F.
      destruct (fstep u x2 z2 x3 z3) as [[[a b] c] d], (montgomery_step u x2' z2' x3' z3') as [[[a' b'] c'] d']. apply IH; tauto.
Qed.
Lemma floop_rep u y k n : i u <> 0%F -> gon (A F (i u) y) -> 0 <= k < 2 ^ Z.of_nat n ->
  Montgomery.rep F (F0 p Hp) (Fmul p Hp) (i (fst (floop n k u 1 0 u 1 false))) (i (snd (floop n k u 1 0 u 1 false))) (gmul (Z.to_nat k) (A F (i u) y)).
Proof.
  intros Hu HP Hk. destruct (floop_ok k u n 1 0 u 1 1 0 u 1 false eq_refl eq_refl eq_refl eq_refl) as (-> & ->).
  pose proof (loop_rep p Hp H2 Hpe u y Hu HP k ltac:(lia) n 1 0 u 1 false) as L. cbv zeta in L. rewrite Z.div_small in L by lia.
  destruct (x25519_loop n k u 1 0 u 1 false) as [x z]. cbn [fst snd]. apply L.
  - change (Z.to_nat 0) with 0%nat. cbn [mul Montgomery.rep]. split; [reflexivity|]. exact (F_1_neq_0 (Fth p Hp)).
  - change (Z.to_nat 0) with 0%nat. rewrite (gmul_1 p Hp u y). cbn [Montgomery.rep]. change (i 1) with (1%F). split; [exact (F_1_neq_0 (Fth p Hp))|ring].
Qed.
Lemma floop_O u y k n : i u <> 0%F -> gon (A F (i u) y) -> 0 <= k < 2 ^ Z.of_nat n ->
  (gmul (Z.to_nat k) (A F (i u) y) = O <-> snd (floop n k u 1 0 u 1 false) mod p25519 = 0).
Proof.
  intros Hu HP Hk. pose proof (floop_rep u y k n Hu HP Hk) as R. set (x := fst _) in R. set (z := snd (floop n k u 1 0 u 1 false)) in *.
  rewrite <- Hpe, <- (val_inj p Hp). destruct (gmul (Z.to_nat k) (A F (i u) y)) as [|px py]; cbn [Montgomery.rep] in R.
  - split; [|reflexivity]. intros _. destruct R as (-> & _). unfold F0. rewrite val_inj. apply Zmod_0_l.
  - split; [discriminate|]. intros V. exfalso. destruct R as (N & _). apply N. rewrite <- (inj_val p Hp (i z)), V. reflexivity.
Qed.
Lemma i_nz u : u mod p25519 <> 0 -> i u <> 0%F.
Proof. intros N E. apply N. rewrite <- Hpe, <- (val_inj p Hp), E. unfold F0. rewrite val_inj. apply Zmod_0_l. Qed.

Lemma four_orders : gmul (Z.to_nat (4 * base_order)) G = O.
Proof.
  assert (gmul (Z.to_nat base_order) G = O) as E.
  { apply (floop_O 9 (i base_y) base_order 253); [apply i_nz; discriminate|apply G_on|split; [discriminate|reflexivity]|]. vm_compute. reflexivity. }
  rewrite Z2Nat.inj_mul by (try lia; discriminate). rewrite mul_prod, E by apply G_on. apply mul_O.
Qed.
Lemma four_not_O : gmul (Z.to_nat 4) G <> O.
Proof.
  intros E. apply (floop_O 9 (i base_y) 4 3) in E; [|apply i_nz; discriminate|apply G_on|split; [discriminate|reflexivity]].
  assert (snd (floop 3 4 9 1 0 9 1 false) mod p25519 =? 0 = false) as X by (vm_compute; reflexivity). rewrite E in X. discriminate X.
Qed.

(* multiples that are infinity are multiples of the order *)
Lemma order_divides l n : prime l -> gmul (Z.to_nat (4 * l)) G = O -> 0 <= n -> gmul (Z.to_nat n) G = O -> (l | n).
Proof.
  intros Pl El Hn En. destruct (Zdivide_dec l n) as [D|D]; [exact D|exfalso].
  assert (2 <= l) as L2 by (now apply prime_ge_2).
  pose proof (prime_rel_prime l Pl n D) as RP. destruct (rel_prime_bezout l n RP) as [u v B].
  set (w := v mod l). pose proof (Z.mod_pos_bound v l ltac:(lia)) as W. fold w in W.
  assert (M : (n * w) mod l = 1). { unfold w. rewrite Z.mul_mod_idemp_r by lia. replace (n * v) with (1 + (- u) * l) by lia. rewrite Z_mod_plus_full. apply Z.mod_small. lia. }
  set (q := (n * w) / l). assert (Q : n * w = 1 + q * l) by (pose proof (Z.div_mod (n * w) l ltac:(lia)); fold q in H; lia).
  assert (0 <= q) by (apply Z.div_pos; nia).
  apply four_not_O. transitivity (gmul (Z.to_nat 4 + Z.to_nat (q * (4 * l))) G).
  - rewrite mul_sum by apply G_on. rewrite (Z2Nat.inj_mul q (4 * l)) by lia. rewrite mul_prod, El, mul_O by apply G_on. now rewrite add_O_r.
  - rewrite <- Z2Nat.inj_add by nia. replace (4 + q * (4 * l)) with ((4 * w) * n) by lia. rewrite Z2Nat.inj_mul by lia. rewrite mul_prod, En by apply G_on. apply mul_O.
Qed.
Lemma O_divides n : 0 <= n -> gmul (Z.to_nat n) G = O -> (base_order | n).
Proof. intros. apply order_divides; [exact order_prime|exact four_orders|assumption..]. Qed.
Lemma divides_O n : 0 <= n -> (4 * base_order | n) -> gmul (Z.to_nat n) G = O.
Proof.
  intros Hn (q & ->). assert (0 < base_order) by reflexivity. rewrite Z2Nat.inj_mul by lia. rewrite mul_prod, four_orders by apply G_on. apply mul_O.
Qed.

Lemma xc_mul_nz n : 0 <= n -> ~ (base_order | n) -> xc (gmul (Z.to_nat n) G) <> 0.
Proof.
  intros Hn D E. apply D. apply (Gauss base_order 2 n).
  - apply O_divides; [lia|]. rewrite Z2Nat.inj_mul by lia. change (Z.to_nat 2) with 2%nat. rewrite mul_prod by apply G_on. apply xc_0; [apply on_mul, G_on|exact E].
  - apply prime_rel_prime; [exact order_prime|]. intros (q & Q). assert (base_order = 2 ^ 252 + 0x14def9dea2f79cd65812631a5cf5d3ed) by reflexivity. nia.
Qed.

(* two multiples with the same x *)
Lemma same_x m n : 0 <= m -> 0 <= n -> (4 | m) -> (4 | n) -> ~ (base_order | m) ->
  (xc (gmul (Z.to_nat m) G) = xc (gmul (Z.to_nat n) G) <-> (base_order | m - n) \/ (base_order | m + n)).
Proof.
  intros Hm Hn (m4 & M4) (n4 & N4) D.
  assert (Q4 : forall z, (4 | z) -> (base_order | z) -> (4 * base_order | z)).
  { intros z Z4 (q & Q). destruct (Gauss 4 base_order q) as (q' & Q').
    - rewrite Z.mul_comm, <- Q. exact Z4.
    - apply rel_prime_sym, prime_rel_prime; [exact order_prime|]. intros (q' & Q'). assert (base_order = 2 ^ 252 + 0x14def9dea2f79cd65812631a5cf5d3ed) by reflexivity. nia.
    - exists q'. rewrite Q, Q'. ring. }
  assert (Sub : forall a b, 0 <= a -> 0 <= b -> b <= a -> gmul (Z.to_nat a) G = gadd (gmul (Z.to_nat (a - b)) G) (gmul (Z.to_nat b) G)).
  { intros a b A B L. rewrite <- mul_sum by apply G_on. f_equal. lia. }
  assert (Inv : forall P Q, gon P -> gon Q -> P = gadd Q P -> Q = O).
  { intros P Q HP HQ E. transitivity (gadd Q (gadd P (gopp P))).
    { rewrite (add_opp_r F _ _ _ _ _ _ _ _ (Fth p Hp) Fd). now rewrite add_O_r. }
    rewrite <- (add_assoc F _ _ _ _ _ _ _ _ (Fth p Hp) Fd two _ _ _ ns) by (try assumption; apply (on_opp F _ _ _ _ _ _ _ _ (Fth p Hp)); assumption).
    rewrite <- E. apply (add_opp_r F _ _ _ _ _ _ _ _ (Fth p Hp) Fd). }
  split.
  - intros E. destruct (xc_eq _ _ (on_mul (Z.to_nat m) G G_on) (on_mul (Z.to_nat n) G G_on) E (xc_mul_nz m Hm D)) as [C|C].
    + left. destruct (Z.le_ge_cases n m) as [L|L].
      * apply O_divides; [lia|]. apply (Inv (gmul (Z.to_nat n) G)); [apply on_mul, G_on..|]. rewrite <- Sub by lia. congruence.
      * replace (m - n) with (- (n - m)) by lia. apply Z.divide_opp_r. apply O_divides; [lia|]. apply (Inv (gmul (Z.to_nat m) G)); [apply on_mul, G_on..|]. rewrite <- Sub by lia. congruence.
    + right. apply O_divides; [lia|]. rewrite Z2Nat.inj_add by lia. rewrite mul_sum by apply G_on. rewrite C.
      rewrite (add_comm F _ _ _ _ _ _ _ _ (Fth p Hp) Fd two _ _ 0%F) by (try apply (on_opp F _ _ _ _ _ _ _ _ (Fth p Hp)); apply on_mul, G_on).
      apply (add_opp_r F _ _ _ _ _ _ _ _ (Fth p Hp) Fd).
  - intros [C|C].
    + destruct (Z.le_ge_cases n m) as [L|L].
      * rewrite (Sub m n) by lia. rewrite (divides_O (m - n)); [reflexivity|lia|]. apply Q4; [exists (m4 - n4); lia|exact C].
      * rewrite (Sub n m) by lia. rewrite (divides_O (n - m)); [reflexivity|lia|]. apply Q4; [exists (n4 - m4); lia|]. replace (n - m) with (- (m - n)) by lia. now apply Z.divide_opp_r.
    + assert (E : gadd (gmul (Z.to_nat m) G) (gmul (Z.to_nat n) G) = O).
      { rewrite <- mul_sum by apply G_on. rewrite <- Z2Nat.inj_add by lia. apply divides_O; [lia|]. apply Q4; [exists (m4 + n4); lia|exact C]. }
      assert (gmul (Z.to_nat m) G = gopp (gmul (Z.to_nat n) G)) as ->; [|apply xc_opp].
      set (P := gmul (Z.to_nat m) G) in *. set (Q := gmul (Z.to_nat n) G) in *.
      assert (gon P) by (apply on_mul, G_on). assert (gon Q) by (apply on_mul, G_on).
      transitivity (gadd P (gadd Q (gopp Q))). { rewrite (add_opp_r F _ _ _ _ _ _ _ _ (Fth p Hp) Fd). now rewrite add_O_r. }
      rewrite <- (add_assoc F _ _ _ _ _ _ _ _ (Fth p Hp) Fd two _ _ _ ns) by (try assumption; apply (on_opp F _ _ _ _ _ _ _ _ (Fth p Hp)); assumption).
      rewrite E. reflexivity.
Qed.

(* points whose order divides 8 *)
Lemma num_eight u y k : 0 < u < p25519 -> gon (A F (i u) (i y)) -> snd (floop 4 8 u 1 0 u 1 false) mod p25519 = 0 ->
  0 <= k < 2 ^ 255 -> k mod 8 = 0 -> x25519_num k u = 0.
Proof.
  intros Hu HP E8 Hk H8. apply Z.mod_divide in H8; [|lia]. destruct H8 as (h & Hh).
  assert (X : xc (A F (i u) (i y)) = u) by (cbn [Dh25519.xc]; rewrite val_inj, Hpe; apply Z.mod_small; lia).
  apply (floop_O u (i y) 8 4) in E8; [|apply i_nz; rewrite Z.mod_small; lia|exact HP|split; [discriminate|reflexivity]].
  rewrite <- X at 1. etransitivity; [apply (ladder_is_multiplication p Hp H2 Hpe k (A F (i u) (i y)) HP Hk)|].
  { rewrite Hh. apply Z.even_spec. exists (4 * h). lia. }
  change (xc (gmul (Z.to_nat k) (A F (i u) (i y))) = 0). rewrite Hh, Z2Nat.inj_mul by lia. rewrite mul_prod, E8, mul_O by exact HP. reflexivity.
Qed.

(* numbers of shares and secrets *)
Lemma num_base k : 0 <= k < 2 ^ 255 -> Z.even k = true -> x25519_num k 9 = xc (gmul (Z.to_nat k) G).
Proof. intros Hk He. rewrite <- (base_xc p Hp Hpe) at 1. exact (ladder_is_multiplication p Hp H2 Hpe k G G_on Hk He). Qed.
Lemma num_num a b : 0 <= a < 2 ^ 255 -> 0 <= b < 2 ^ 255 -> Z.even a = true -> Z.even b = true ->
  x25519_num a (x25519_num b 9) = xc (gmul (Z.to_nat (a * b)) G).
Proof.
  intros Ha Hb Ea Eb. rewrite num_base by assumption.
  etransitivity; [exact (ladder_is_multiplication p Hp H2 Hpe a (gmul (Z.to_nat b) G) (on_mul _ _ G_on) Ha Ea)|].
  rewrite Z2Nat.inj_mul by lia. rewrite mul_prod by apply G_on. reflexivity.
Qed.
End Order.

Lemma order_eq : base_order = 2 ^ 252 + 0x14def9dea2f79cd65812631a5cf5d3ed. Proof. reflexivity. Qed.
Lemma order_small n : (base_order | n) -> Z.abs n < base_order -> n = 0.
Proof. intros D L. destruct (Z.eq_dec n 0) as [E|E]; [exact E|]. pose proof (Z.divide_pos_le base_order (Z.abs n) ltac:(lia) ltac:(now apply Z.divide_abs_r)). lia. Qed.
Lemma order_odd n : (base_order | 8 * n) -> (base_order | n).
Proof.
  intros D. apply (Gauss base_order 8 n D). apply prime_rel_prime; [exact order_prime|]. intros Q.
  pose proof (Z.divide_pos_le base_order 8 ltac:(lia) Q). pose proof order_eq. lia.
Qed.

(* private keys: 8 times a number between 2^251 and 2^252 *)
Lemma scalar_form k : exists h, decodeScalar k = 8 * h /\ 2 ^ 251 <= h < 2 ^ 252.
Proof.
  unfold decodeScalar. pose proof (Z.mod_pos_bound (le_val k / 8) (2 ^ 251) ltac:(lia)) as M.
  exists (2 ^ 251 + (le_val k / 8) mod 2 ^ 251). split; lia.
Qed.
Lemma scalar_ok k : 0 <= decodeScalar k < 2 ^ 255 /\ Z.even (decodeScalar k) = true /\ (4 | decodeScalar k) /\ ~ (base_order | decodeScalar k).
Proof.
  destruct (scalar_form k) as (h & -> & Hh). split; [lia|]. split; [apply Z.even_spec; exists (4 * h); lia|]. split; [exists (2 * h); lia|].
  intros D. apply order_odd in D. pose proof order_eq. apply order_small in D; lia.
Qed.

Lemma twins_divide a b : (base_order | decodeScalar a - decodeScalar b) \/ (base_order | decodeScalar a + decodeScalar b) <-> twins a b.
Proof.
  unfold twins. destruct (scalar_form a) as (h & -> & Hh), (scalar_form b) as (k & -> & Hk). pose proof order_eq as OE. split.
  - intros [D|D].
    + left. replace (8 * h - 8 * k) with (8 * (h - k)) in D by lia. apply order_odd, order_small in D; lia.
    + right. replace (8 * h + 8 * k) with (8 * (h + k)) in D by lia. apply order_odd in D.
      assert (h + k - base_order = 0); [|lia]. apply order_small; [|lia]. apply Z.divide_sub_r; [exact D|apply Z.divide_refl].
  - intros [E|E]; [left; exists 0; lia|right; exists 8; lia].
Qed.
Lemma order_mul_prime a b : (base_order | a * b) -> ~ (base_order | b) -> (base_order | a).
Proof. intros D N. destruct (prime_mult _ order_prime _ _ D) as [Q|Q]; [exact Q|contradiction]. Qed.

Lemma encode_inj x y : encodeUCoordinate (x mod p25519) = encodeUCoordinate (y mod p25519) -> x mod p25519 = y mod p25519.
Proof. intros E. apply (f_equal decodeUCoordinate) in E. rewrite !decode_encode, !Z.mod_mod in E by discriminate. exact E. Qed.
Lemma X_inj k u k' u' : X25519 k u = X25519 k' u' <-> x25519_num (decodeScalar k) (decodeUCoordinate u) = x25519_num (decodeScalar k') (decodeUCoordinate u').
Proof.
  unfold X25519. split; [|now intros ->]. intros E. rewrite <- (num_mod (decodeScalar k)), <- (num_mod (decodeScalar k')) in *. apply encode_inj, E.
Qed.
Lemma X_9 b : decodeUCoordinate (X25519 b (le_enc 32 9)) = x25519_num (decodeScalar b) 9.
Proof. unfold X25519 at 1. change (decodeUCoordinate (le_enc 32 9)) with 9. rewrite decode_encode. apply num_mod. Qed.

(* the share of a private key *)
Lemma shares_equal a b : X25519 a (le_enc 32 9) = X25519 b (le_enc 32 9) <-> twins a b.
Proof.
  rewrite X_inj. change (decodeUCoordinate (le_enc 32 9)) with 9.
  destruct (scalar_ok a) as (Ra & Ea & Fa & Na), (scalar_ok b) as (Rb & Eb & Fb & Nb).
  rewrite !(num_base p25519 Hp25519 p25519_big eq_refl) by assumption.
  rewrite (same_x p25519 Hp25519 p25519_big eq_refl) by (lia || assumption). apply twins_divide.
Qed.
(* the secret with an honest peer *)
Lemma secrets_equal a a' b : X25519 a (X25519 b (le_enc 32 9)) = X25519 a' (X25519 b (le_enc 32 9)) <-> twins a a'.
Proof.
  rewrite X_inj, X_9.
  destruct (scalar_ok a) as (Ra & Ea & Fa & Na), (scalar_ok a') as (Ra' & Ea' & Fa' & Na'), (scalar_ok b) as (Rb & Eb & Fb & Nb).
  rewrite !(num_num p25519 Hp25519 p25519_big eq_refl) by assumption.
  rewrite (same_x p25519 Hp25519 p25519_big eq_refl).
  - rewrite <- twins_divide, <- Z.mul_sub_distr_r, <- Z.mul_add_distr_r. split; (intros [D|D]; [left|right]); try (eapply order_mul_prime; eassumption); apply Z.divide_mul_l; exact D.
  - apply Z.mul_nonneg_nonneg; lia.
  - apply Z.mul_nonneg_nonneg; lia.
  - now apply Z.divide_mul_l.
  - now apply Z.divide_mul_l.
  - intros D. apply Na. eapply order_mul_prime; eassumption.
Qed.
Lemma secret_nonzero a b : X25519 a (X25519 b (le_enc 32 9)) <> repeat 0 32.
Proof.
  intros E. apply (f_equal decodeUCoordinate) in E. change (decodeUCoordinate (repeat 0 32)) with 0 in E.
  unfold X25519 at 1 in E. rewrite decode_encode, num_mod, X_9 in E.
  destruct (scalar_ok a) as (Ra & Ea & Fa & Na), (scalar_ok b) as (Rb & Eb & Fb & Nb).
  rewrite (num_num p25519 Hp25519 p25519_big eq_refl) in E by assumption.
  apply (xc_mul_nz p25519 Hp25519 p25519_big eq_refl) in E; [exact E|apply Z.mul_nonneg_nonneg; lia|]. intros D. apply Na. eapply order_mul_prime; eassumption.
Qed.
Lemma share_nonzero b : X25519 b (le_enc 32 9) <> repeat 0 32.
Proof.
  intros E. apply (f_equal decodeUCoordinate) in E. change (decodeUCoordinate (repeat 0 32)) with 0 in E. rewrite X_9 in E.
  destruct (scalar_ok b) as (Rb & Eb & Fb & Nb). rewrite (num_base p25519 Hp25519 p25519_big eq_refl) in E by assumption.
  apply (xc_mul_nz p25519 Hp25519 p25519_big eq_refl) in E; [exact E|lia|exact Nb].
Qed.

(* the shares that fix the secret *)
Definition y8a : Z := 32026303591712962751241307547882981359278212717910236697706316503764922500307.
Definition y8b : Z := 47389623381099381275796781267935282128369626952426857267179501978497824351671.
Lemma on_curve p (Hp : prime p) (Hpe : p = p25519) u y : (y * y) mod p25519 = (u * u * u + 486662 * u * u + u) mod p25519 ->
  on (Fp p) (Fadd p Hp) (Fmul p Hp) (inj p Hp 486662) (F1 p Hp) (F0 p Hp) (A (Fp p) (inj p Hp u) (inj p Hp y)).
Proof.
  intros E. cbn [on]. unfold cubic. unfold F0, F1. rewrite <- !inj_mul, <- !inj_add. apply Fp.inj_eq. rewrite Hpe, E. f_equal. ring.
Qed.
Lemma small_zero k u : is_bytes k -> length k = 32%nat -> In u small_shares -> X25519 k u = repeat 0 32.
Proof.
  intros Bk Lk. pose proof (scalar_ok k) as (Rk & Ek & _). destruct (scalar_form k) as (h & Hh & _).
  assert (M8 : decodeScalar k mod 8 = 0) by (rewrite Hh, Z.mul_comm; apply Z_mod_mult).
  intros [<-|[<-|[<-|[<-|[]]]]].
  - unfold X25519. change (decodeUCoordinate (le_enc 32 0)) with 0.
    pose proof (ladder_is_multiplication p25519 Hp25519 p25519_big eq_refl (decodeScalar k) (O (Fp p25519)) I Rk Ek) as E. cbn [xc] in E. rewrite E, mul_O. reflexivity.
  - now apply X25519_one.
  - unfold X25519. match goal with |- context [decodeUCoordinate ?u] => change (decodeUCoordinate u) with 325606250916557431795983626356110631294008115727848805560023387167927233504 end.
    rewrite (num_eight p25519 Hp25519 p25519_big eq_refl _ y8a); [reflexivity|split; reflexivity|apply (on_curve p25519 Hp25519 eq_refl); vm_compute; reflexivity|vm_compute; reflexivity|assumption..].
  - unfold X25519. match goal with |- context [decodeUCoordinate ?u] => change (decodeUCoordinate u) with 39382357235489614581723060781553021112529911719440698176882885853963445705823 end.
    rewrite (num_eight p25519 Hp25519 p25519_big eq_refl _ y8b); [reflexivity|split; reflexivity|apply (on_curve p25519 Hp25519 eq_refl); vm_compute; reflexivity|vm_compute; reflexivity|assumption..].
Qed.
