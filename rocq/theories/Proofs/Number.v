(* Number theory used by the elliptic-curve proofs: Fermat's little theorem,
   modular exponentiation, and Pocklington's primality criterion.  Nothing
   here refers to the code. *)
From Coq Require Import ZArith List Lia Znumtheory Permutation Bool.
Import ListNotations.
Open Scope Z_scope.

(* ---------- congruence as equality of residues ---------- *)

Lemma mod_eq_divide a b n : 0 < n -> a mod n = b mod n <-> (n | a - b).
Proof.
  intros Hn. split; intros H.
  - exists (a / n - b / n). pose proof (Z.div_mod a n ltac:(lia)). pose proof (Z.div_mod b n ltac:(lia)).
    nia.
  - destruct H as [k Hk]. replace a with (b + k * n) by lia. apply Z.mod_add. lia.
Qed.

Lemma mul_cancel_mod p a x y : prime p -> ~ (p | a) -> (a * x) mod p = (a * y) mod p -> x mod p = y mod p.
Proof.
  intros Hp Ha H. pose proof (prime_ge_2 _ Hp).
  apply mod_eq_divide in H; [|lia]. apply mod_eq_divide; [lia|].
  replace (a * x - a * y) with (a * (x - y)) in H by ring.
  destruct (prime_mult p Hp _ _ H); tauto.
Qed.

(* ---------- Fermat ---------- *)

Definition units (p : Z) : list Z := map (fun i => Z.of_nat i) (seq 1 (Z.to_nat (p - 1))).

Lemma in_units p x : In x (units p) <-> 1 <= x < p.
Proof.
  unfold units. rewrite in_map_iff. split.
  - intros (i & <- & Hi). apply in_seq in Hi. lia.
  - intros H. exists (Z.to_nat x). split; [lia|]. apply in_seq. lia.
Qed.

Lemma nodup_units p : NoDup (units p).
Proof. apply FinFun.Injective_map_NoDup; [intros i j; lia|apply seq_NoDup]. Qed.

Lemma length_units p : length (units p) = Z.to_nat (p - 1).
Proof. unfold units. rewrite map_length, seq_length. reflexivity. Qed.

Definition zprod (l : list Z) : Z := fold_right Z.mul 1 l.

Lemma zprod_perm l l' : Permutation l l' -> zprod l = zprod l'.
Proof. unfold zprod. induction 1; cbn [fold_right]; [reflexivity|congruence|ring|congruence]. Qed.

Lemma zprod_scale a p l : 0 < p ->
  zprod (map (fun x => (a * x) mod p) l) mod p = (a ^ Z.of_nat (length l) * zprod l) mod p.
Proof.
  intros Hp. induction l as [|x l IH].
  - cbn. reflexivity.
  - cbn [map zprod fold_right length]. fold (zprod l). fold (zprod (map (fun x => (a * x) mod p) l)).
    rewrite Z.mul_mod, IH, <- Z.mul_mod, Z.mul_mod, Z.mod_mod, <- Z.mul_mod by lia.
    rewrite Nat2Z.inj_succ, Z.pow_succ_r by lia. f_equal. ring.
Qed.

Lemma zprod_not_div p l : prime p -> (forall x, In x l -> 1 <= x < p) -> ~ (p | zprod l).
Proof.
  intros Hp. pose proof (prime_ge_2 _ Hp). induction l as [|x l IH]; cbn; intros Hl.
  - intros Hk. apply Z.divide_1_r_nonneg in Hk; lia.
  - intros Hd. apply (prime_mult p Hp) in Hd. destruct Hd as [Hd|Hd].
    + apply Z.divide_pos_le in Hd; pose proof (Hl x (or_introl eq_refl)); lia.
    + apply IH in Hd; auto.
Qed.

Theorem fermat p a : prime p -> ~ (p | a) -> a ^ (p - 1) mod p = 1.
Proof.
  intros Hp Ha. pose proof (prime_ge_2 _ Hp).
  assert (HP : Permutation (map (fun x => (a * x) mod p) (units p)) (units p)).
  { apply NoDup_Permutation_bis.
    - assert (Hgen : forall l, NoDup l -> (forall x, In x l -> 1 <= x < p) ->
                NoDup (map (fun x => (a * x) mod p) l)).
      { induction 1 as [|x l Hx Hl IH]; intros Hin; cbn; constructor.
        - intros Hi. apply in_map_iff in Hi. destruct Hi as (y & Hy & Hyl).
          apply (mul_cancel_mod p a) in Hy; [|assumption|assumption].
          pose proof (Hin x (or_introl eq_refl)). pose proof (Hin y (or_intror Hyl)).
          rewrite !Z.mod_small in Hy by lia. subst. contradiction.
        - apply IH. intros; apply Hin; right; assumption. }
      apply Hgen; [apply nodup_units|intros x; apply in_units].
    - rewrite map_length. lia.
    - intros y Hy. apply in_map_iff in Hy. destruct Hy as (x & <- & Hx). apply in_units in Hx.
      apply in_units. pose proof (Z.mod_pos_bound (a * x) p ltac:(lia)).
      assert ((a * x) mod p <> 0); [|lia].
      intros Hz. apply Z.mod_divide in Hz; [|lia]. apply (prime_mult p Hp) in Hz.
      destruct Hz as [Hz|Hz]; [tauto|]. apply Z.divide_pos_le in Hz; lia. }
  apply zprod_perm in HP. pose proof (zprod_scale a p (units p) ltac:(lia)) as HS.
  rewrite HP, length_units, Z2Nat.id in HS by lia.
  transitivity (1 mod p); [|apply Z.mod_1_l; lia].
  apply (mul_cancel_mod p (zprod (units p))); [assumption|apply zprod_not_div; [assumption|intros x; apply in_units]|].
  rewrite Z.mul_1_r, HS. f_equal. ring.
Qed.

(* ---------- modular exponentiation ---------- *)

Fixpoint powp (a : Z) (e : positive) (n : Z) : Z :=
  match e with
  | xH => a mod n
  | xO e' => let t := powp a e' n in (t * t) mod n
  | xI e' => let t := powp a e' n in ((t * t) mod n * a) mod n
  end.

Lemma powp_spec a e n : 0 < n -> powp a e n = (a ^ Zpos e) mod n.
Proof.
  intros Hn. induction e as [e IH|e IH|]; cbn [powp].
  - rewrite IH. rewrite <- Z.mul_mod, Z.mul_mod_idemp_l by lia.
    rewrite Pos2Z.inj_xI, Z.pow_add_r, Z.pow_1_r, Z.mul_comm, (Z.pow_mul_r _ 2) by lia.
    rewrite Z.mul_comm, <- Z.pow_mul_r, Z.mul_comm by lia.
    f_equal. rewrite Z.mul_comm. f_equal. rewrite <- Z.pow_add_r by lia. f_equal. lia.
  - rewrite IH. rewrite <- Z.mul_mod by lia. f_equal. rewrite <- Z.pow_add_r by lia. f_equal. lia.
  - rewrite Z.pow_1_r. reflexivity.
Qed.

Lemma pow_mod_idemp a k n : 0 < n -> 0 <= k -> ((a mod n) ^ k) mod n = (a ^ k) mod n.
Proof.
  intros Hn Hk. pattern k. apply natlike_ind; [reflexivity| |exact Hk].
  intros j Hj IH. rewrite !Z.pow_succ_r by assumption.
  rewrite Z.mul_mod, IH, Z.mod_mod, <- Z.mul_mod by lia. reflexivity.
Qed.

Lemma pow_one_mod a k m n : 1 < n -> 0 <= k -> 0 <= m -> a ^ k mod n = 1 -> a ^ (k * m) mod n = 1.
Proof.
  intros Hn Hk Hm H. rewrite Z.pow_mul_r by lia. rewrite <- pow_mod_idemp, H by lia.
  rewrite Z.pow_1_l by lia. apply Z.mod_1_l. lia.
Qed.

(* exponents of a that give 1 are closed under gcd *)
Lemma pow_gcd a n : 1 < n -> forall k m, 0 < k -> 0 < m ->
  a ^ k mod n = 1 -> a ^ m mod n = 1 -> a ^ (Z.gcd k m) mod n = 1.
Proof.
  intros Hn k m Hk Hm H1 H2.
  destruct (Z.gcd_bezout k m (Z.gcd k m) eq_refl) as (u & v & Huv).
  (* make the coefficients of the right sign: g + c*k = d*m with c,d >= 0 *)
  set (g := Z.gcd k m) in *.
  assert (Hg : 0 < g) by (pose proof (Z.gcd_nonneg k m); destruct (Z.eq_dec g 0) as [E|]; [apply Z.gcd_eq_0_l in E; lia|unfold g in *; lia]).
  set (t := Z.abs u + Z.abs v).
  (* g = u k + v m ;  add t*k*m to both sides with v replaced *)
  assert (E : g + (t * m - u) * k = (v + t * k) * m) by (unfold t; nia).
  assert (Hc : 0 <= t * m - u) by (unfold t; nia).
  assert (Hd : 0 <= v + t * k) by (unfold t; nia).
  assert (A : a ^ (g + (t * m - u) * k) mod n = 1).
  { rewrite E, Z.mul_comm. apply pow_one_mod; lia. }
  rewrite Z.pow_add_r in A by nia.
  rewrite Z.mul_mod in A by lia. rewrite (Z.mul_comm (t * m - u)) in A.
  rewrite (pow_one_mod a k) in A by lia. rewrite Z.mul_1_r, Z.mod_mod in A by lia. exact A.
Qed.

(* ---------- every n > 1 has a prime divisor at most its square root ---------- *)

Lemma prime_divisor n : 1 < n -> exists r, prime r /\ (r | n).
Proof.
  intros Hn. assert (H : 0 <= n) by lia. revert Hn.
  pattern n. apply Zlt_0_ind; [|exact H]. clear n H. intros n IH _ Hn.
  destruct (prime_dec n) as [Hp|Hp].
  - exists n. split; [assumption|apply Z.divide_refl].
  - apply not_prime_divide in Hp; [|assumption]. destruct Hp as (k & Hk & Hd).
    destruct (IH k) as (r & Hr & Hrk); [lia|lia|].
    exists r. split; [assumption|]. eapply Z.divide_trans; eassumption.
Qed.

Lemma small_prime_divisor n : 1 < n -> ~ prime n -> exists r, prime r /\ (r | n) /\ r * r <= n.
Proof.
  intros Hn Hp. apply not_prime_divide in Hp; [|assumption]. destruct Hp as (k & Hk & Hd).
  destruct Hd as [j Hj]. assert (Hj1 : 1 < j < n) by nia.
  assert (Hm : exists d, 1 < d /\ (d | n) /\ d * d <= n).
  { destruct (Z.le_gt_cases k j).
    - exists k. repeat split; [lia|exists j; lia|nia].
    - exists j. repeat split; [lia|exists k; lia|nia]. }
  destruct Hm as (d & Hd1 & Hd2 & Hd3). destruct (prime_divisor d Hd1) as (r & Hr & Hrd).
  exists r. split; [assumption|]. split; [eapply Z.divide_trans; eassumption|].
  pose proof (prime_ge_2 _ Hr). apply Z.divide_pos_le in Hrd; [nia|lia].
Qed.

(* ---------- Pocklington ---------- *)

Definition distinct (l : list Z) : Prop := NoDup l.

Lemma prod_primes_divide l m : NoDup l -> (forall q, In q l -> prime q /\ (q | m)) -> (zprod l | m).
Proof.
  induction 1 as [|q l Hq Hl IH]; intros H; cbn.
  - apply Z.divide_1_l.
  - fold (zprod l). destruct (H q (or_introl eq_refl)) as [Hpq Hqm].
    assert (HI : (zprod l | m)) by (apply IH; intros; apply H; right; assumption).
    destruct Hqm as [c ->]. destruct HI as [d Hd].
    assert (R : rel_prime q (zprod l)).
    { clear IH Hl Hd d. assert (Hn : forall x, In x l -> prime x /\ x <> q).
      { intros x Hx. split; [apply (H x); right; assumption|]. intros ->. contradiction. }
      clear Hq H. induction l as [|x l IHl]; cbn.
      - apply rel_prime_sym, rel_prime_1.
      - fold (zprod l). apply rel_prime_mult.
        + destruct (Hn x (or_introl eq_refl)). apply rel_prime_sym.
          apply prime_rel_prime; [assumption|]. intros Hd. symmetry in Hd || idtac.
          destruct (prime_divisors q Hpq x Hd) as [Hx|[Hx|[Hx|Hx]]]; pose proof (prime_ge_2 x ltac:(assumption));
          pose proof (prime_ge_2 _ Hpq); lia.
        + apply IHl. intros; apply Hn; right; assumption. }
    assert (Hdiv : (zprod l | c)).
    { apply Gauss with q; [exists d; rewrite (Z.mul_comm q), Hd; ring|apply rel_prime_sym; assumption]. }
    destruct Hdiv as [e ->]. exists e. ring.
Qed.

Theorem pocklington N a l : 1 < N -> NoDup l ->
  (forall q, In q l -> prime q /\ (q | N - 1)) ->
  N < zprod l * zprod l ->
  a ^ (N - 1) mod N = 1 ->
  (forall q, In q l -> Z.gcd (a ^ ((N - 1) / q) - 1) N = 1) ->
  prime N.
Proof.
  intros HN Hl Hq Hbig Ha Hg.
  destruct (prime_dec N) as [|Hnp]; [assumption|exfalso].
  destruct (small_prime_divisor N HN Hnp) as (r & Hr & HrN & Hrr).
  pose proof (prime_ge_2 _ Hr) as Hr2.
  assert (Har : a ^ (N - 1) mod r = 1).
  { destruct HrN as [k Hk].
    pose proof (Z.div_mod (a ^ (N - 1)) N ltac:(lia)) as E. rewrite Ha in E.
    rewrite E. generalize (a ^ (N - 1) / N). intros t. replace (N * t + 1) with (1 + (k * t) * r) by (rewrite Hk; ring).
    rewrite Z.mod_add by lia. apply Z.mod_1_l. lia. }
  assert (Hra : ~ (r | a)).
  { intros Hd. assert (Hd' : (r | a ^ (N - 1))).
    { replace (N - 1) with (Z.succ (N - 2)) by lia. rewrite Z.pow_succ_r by lia. apply Z.divide_mul_l. assumption. }
    apply Z.mod_divide in Hd'; lia. }
  pose proof (fermat r a Hr Hra) as Hf.
  assert (Hdiv : forall q, In q l -> (q | r - 1)).
  { intros q Hin. destruct (Hq q Hin) as [Hpq [R HR]]. pose proof (prime_ge_2 _ Hpq) as Hq2.
    destruct (Zdivide_dec q (r - 1)) as [|Hnd]; [assumption|exfalso].
    assert (HRpos : 0 < R) by nia.
    assert (Hgc : a ^ (Z.gcd (N - 1) (r - 1)) mod r = 1) by (apply pow_gcd; lia).
    set (g := Z.gcd (N - 1) (r - 1)) in *.
    assert (HgN : (g | q * R)) by (rewrite Z.mul_comm, <- HR; apply Z.gcd_divide_l).
    assert (Hgr : (g | r - 1)) by apply Z.gcd_divide_r.
    assert (HgR : (g | R)).
    { apply Gauss with q; [assumption|]. apply rel_prime_sym, prime_rel_prime; [assumption|].
      intros Hqg. apply Hnd. eapply Z.divide_trans; eassumption. }
    destruct HgR as [k Hk].
    assert (Hg0 : 0 <= g) by apply Z.gcd_nonneg.
    assert (HaR : a ^ R mod r = 1).
    { rewrite Hk, Z.mul_comm. apply pow_one_mod; [lia|lia|nia|assumption]. }
    assert (HrR : (r | a ^ R - 1)).
    { rewrite <- (Z.mod_small 1 r) in HaR by lia. apply mod_eq_divide in HaR; [assumption|lia]. }
    specialize (Hg q Hin). rewrite HR, Z.div_mul in Hg by lia.
    assert (Hr1 : (r | 1)) by (rewrite <- Hg; apply Z.gcd_greatest; assumption).
    apply Z.divide_1_r_nonneg in Hr1; lia. }
  assert (Hall : (zprod l | r - 1)).
  { apply prod_primes_divide; [assumption|]. intros q Hin. split; [apply Hq; assumption|apply Hdiv; assumption]. }
  apply Z.divide_pos_le in Hall; [|lia].
  assert (0 <= zprod l).
  { clear -Hq. induction l as [|q l IH]; cbn; [lia|]. fold (zprod l).
    destruct (Hq q (or_introl eq_refl)) as [Hp _]. pose proof (prime_ge_2 _ Hp).
    assert (0 <= zprod l) by (apply IH; intros; apply Hq; right; assumption). nia. }
  nia.
Qed.

(* ---------- an executable form ---------- *)

Definition zpow (a e n : Z) : Z := match e with Zpos e => powp a e n | _ => 1 mod n end.

Lemma zpow_spec a e n : 0 < n -> 0 <= e -> zpow a e n = a ^ e mod n.
Proof. intros Hn He. destruct e; cbn [zpow]; [reflexivity|apply powp_spec; assumption|lia]. Qed.

(* a^(N-1) is computed as (a^((N-1)/q))^q, sharing the work with the gcd test *)
Definition pock1 (N a q : Z) : bool :=
  let b := zpow a ((N - 1) / q) N in
  ((N - 1) mod q =? 0) && (Z.gcd (b - 1) N =? 1) && (zpow b q N =? 1).

Definition pockq (N a q : Z) : bool :=
  let b := zpow a ((N - 1) / q) N in
  ((N - 1) mod q =? 0) && (Z.gcd (b - 1) N =? 1).

Definition pock (N a q : Z) (l : list Z) : bool :=
  (1 <? N) && (zprod (q :: l) * zprod (q :: l) >? N) && pock1 N a q && forallb (pockq N a) l.

Lemma pockq_ok N a q : 1 < N -> prime q -> pockq N a q = true ->
  (q | N - 1) /\ Z.gcd (a ^ ((N - 1) / q) - 1) N = 1.
Proof.
  intros HN Hp. unfold pockq. rewrite andb_true_iff, !Z.eqb_eq. intros [H1 H2].
  pose proof (prime_ge_2 _ Hp). split; [apply Z.mod_divide; [lia|assumption]|].
  rewrite zpow_spec in H2 by (try apply Z.div_pos; lia).
  etransitivity; [|exact H2]. set (t := a ^ ((N - 1) / q)).
  pose proof (Z.div_mod t N ltac:(lia)) as E.
  replace (t - 1) with (t mod N - 1 + (t / N) * N) by lia.
  rewrite (Z.gcd_comm (_ + _)), Z.gcd_add_mult_diag_r, Z.gcd_comm. reflexivity.
Qed.

Lemma pock_prime N a q l : pock N a q l = true -> NoDup (q :: l) -> Forall prime (q :: l) -> prime N.
Proof.
  unfold pock. rewrite !andb_true_iff, forallb_forall. intros [[[H1 H2] H3] H4] Hnd Hp.
  apply Z.ltb_lt in H1. apply Z.gtb_lt in H2.
  rewrite Forall_forall in Hp.
  assert (Hall : forall x, In x (q :: l) -> pockq N a x = true).
  { intros x [<-|Hx]; [|apply H4; assumption]. unfold pock1 in H3. apply andb_true_iff in H3. apply H3. }
  assert (Hone : a ^ (N - 1) mod N = 1).
  { destruct (pockq_ok N a q H1 (Hp q (or_introl eq_refl)) (Hall q (or_introl eq_refl))) as [[k Hk] _].
    pose proof (prime_ge_2 _ (Hp q (or_introl eq_refl))).
    unfold pock1 in H3. apply andb_true_iff in H3. destruct H3 as [_ H3]. apply Z.eqb_eq in H3.
    rewrite !zpow_spec in H3 by (try apply Z.div_pos; lia).
    rewrite pow_mod_idemp in H3 by lia.
    rewrite Hk, Z.div_mul in H3 by lia. rewrite Hk, Z.pow_mul_r by nia. exact H3. }
  apply pocklington with a (q :: l); try assumption; try lia.
  - intros x Hx. split; [auto|]. apply (pockq_ok N a x H1 (Hp x Hx) (Hall x Hx)).
  - intros x Hx. apply (pockq_ok N a x H1 (Hp x Hx) (Hall x Hx)).
Qed.

(* trial division *)
Definition small_prime (n : Z) : bool :=
  (1 <? n) && forallb (fun i => negb (n mod Z.of_nat (i + 2) =? 0)) (seq 0 (Z.to_nat (Z.sqrt n - 1))).

Lemma small_prime_ok n : small_prime n = true -> prime n.
Proof.
  unfold small_prime. rewrite andb_true_iff, forallb_forall. intros [H1 H2]. apply Z.ltb_lt in H1.
  destruct (prime_dec n) as [|Hnp]; [assumption|exfalso].
  destruct (small_prime_divisor n H1 Hnp) as (r & Hr & Hd & Hrr).
  pose proof (prime_ge_2 _ Hr).
  assert (r <= Z.sqrt n) by (apply Z.sqrt_le_square; lia).
  specialize (H2 (Z.to_nat (r - 2))). rewrite Nat2Z.inj_add, Z2Nat.id in H2 by lia.
  replace (r - 2 + Z.of_nat 2) with r in H2 by lia.
  apply Z.mod_divide in Hd; [|lia]. rewrite Hd in H2. cbn in H2. 
  assert (false = true); [|discriminate]. apply H2. apply in_seq. lia.
Qed.

Lemma fermat_all p a : prime p -> a ^ p mod p = a mod p.
Proof.
  intros Hp. pose proof (prime_ge_2 _ Hp). destruct (Zdivide_dec p a) as [D|N].
  - assert (E0 : a mod p = 0) by (apply Z.mod_divide; [lia|assumption]).
    rewrite <- pow_mod_idemp, E0, Z.pow_0_l by lia. apply Z.mod_0_l. lia.
  - pose proof (fermat p a Hp N) as Fe. replace p with (Z.succ (p - 1)) at 1 by lia.
    rewrite Z.pow_succ_r, Z.mul_mod, Fe, Z.mul_1_r, Z.mod_mod by lia. reflexivity.
Qed.
