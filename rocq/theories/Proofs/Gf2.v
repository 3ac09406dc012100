From Verif Require Import Proofs.Util Spec.Gf2.

(* ---- bit lemmas ---- *)
Lemma lxor_nonneg' a b : 0 <= a -> 0 <= b -> 0 <= Z.lxor a b.
Proof. intros. apply Z.lxor_nonneg. tauto. Qed.
Lemma double_lxor a b : 2 * Z.lxor a b = Z.lxor (2 * a) (2 * b).
Proof.
  apply Z.bits_inj'. intros n Hn. rewrite Z.lxor_spec.
  destruct (Z.eq_dec n 0) as [->|]; [now rewrite !Z.testbit_even_0|].
  replace n with (Z.succ (n - 1)) by lia. rewrite !Z.testbit_even_succ by lia. apply Z.lxor_spec.
Qed.
Lemma half_lxor a b : Z.lxor a b / 2 = Z.lxor (a / 2) (b / 2).
Proof. rewrite <- !Z.div2_div, !Z.div2_spec. apply Z.shiftr_lxor. Qed.
Lemma odd_lxor a b : Z.odd (Z.lxor a b) = xorb (Z.odd a) (Z.odd b).
Proof. rewrite <- !Z.bit0_odd. apply Z.lxor_spec. Qed.
Lemma pow_lxor a b k : 0 <= k -> Z.lxor a b * 2^k = Z.lxor (a * 2^k) (b * 2^k).
Proof. intros. rewrite <- !Z.shiftl_mul_pow2 by lia. apply Z.shiftl_lxor. Qed.
Lemma lxor_4 a b c d : Z.lxor (Z.lxor a b) (Z.lxor c d) = Z.lxor (Z.lxor a c) (Z.lxor b d).
Proof. rewrite !Z.lxor_assoc. f_equal. rewrite <- !Z.lxor_assoc. f_equal. apply Z.lxor_comm. Qed.
Lemma bit_split b : b = Z.lxor (if Z.odd b then 1 else 0) (2 * (b / 2)).
Proof.
  pose proof (Z.div_mod b 2 ltac:(lia)) as H. rewrite Zmod_odd in H.
  rewrite H at 1. destruct (Z.odd b).
  - rewrite Z.lxor_comm. rewrite <- Z.add_nocarry_lxor; [reflexivity|].
    apply Z.bits_inj'. intros n Hn. rewrite Z.land_spec, Z.bits_0.
    destruct (Z.eq_dec n 0) as [->|]; [now rewrite Z.testbit_even_0|].
    rewrite (testbit_above 1 1 n) by lia. apply andb_false_r.
  - rewrite Z.lxor_0_l. lia.
Qed.

(* ---- pmul_bits ---- *)
Lemma pmul_bits_nonneg n a b : 0 <= a -> 0 <= pmul_bits n a b.
Proof.
  intros Ha. revert b. induction n as [|n IH]; intros b; [cbn; lia|]. cbn [pmul_bits].
  apply lxor_nonneg'; [destruct (Z.odd b); lia|]. specialize (IH (b / 2)). lia.
Qed.
Lemma pmul_bits_0_r n a : pmul_bits n a 0 = 0.
Proof. induction n as [|n IH]; [reflexivity|]. cbn [pmul_bits]. change (Z.odd 0) with false. change (0 / 2) with 0. now rewrite IH. Qed.
Lemma pmul_bits_0_l n b : pmul_bits n 0 b = 0.
Proof. revert b. induction n as [|n IH]; intros b; [reflexivity|]. cbn [pmul_bits]. rewrite IH. destruct (Z.odd b); reflexivity. Qed.
Lemma pmul_bits_xor_l n a a' b : pmul_bits n (Z.lxor a a') b = Z.lxor (pmul_bits n a b) (pmul_bits n a' b).
Proof.
  revert b. induction n as [|n IH]; intros b; [reflexivity|]. cbn [pmul_bits].
  rewrite IH, double_lxor, lxor_4. f_equal. destruct (Z.odd b); [reflexivity|now rewrite Z.lxor_0_l].
Qed.
Lemma pmul_bits_xor_r n a b b' : pmul_bits n a (Z.lxor b b') = Z.lxor (pmul_bits n a b) (pmul_bits n a b').
Proof.
  revert b b'. induction n as [|n IH]; intros b b'; [reflexivity|]. cbn [pmul_bits].
  rewrite half_lxor, IH, double_lxor, lxor_4. f_equal. rewrite odd_lxor.
  destruct (Z.odd b), (Z.odd b'); cbn [xorb]; rewrite ?Z.lxor_0_r, ?Z.lxor_nilpotent, ?Z.lxor_0_l; reflexivity.
Qed.
Lemma pmul_bits_double n a b : pmul_bits n (2 * a) b = 2 * pmul_bits n a b.
Proof.
  revert b. induction n as [|n IH]; intros b; [reflexivity|]. cbn [pmul_bits].
  rewrite IH, double_lxor. f_equal. destruct (Z.odd b); lia.
Qed.
Lemma pmul_bits_pow n a b k : 0 <= k -> pmul_bits n (a * 2^k) b = pmul_bits n a b * 2^k.
Proof.
  intros Hk. pattern k. apply natlike_ind; [now rewrite !Z.mul_1_r| |assumption].
  intros x Hx IH. rewrite Z.pow_succ_r by lia.
  replace (a * (2 * 2^x)) with (2 * (a * 2^x)) by lia. rewrite pmul_bits_double, IH. lia.
Qed.
(* the number of steps does not matter once it covers b *)
Lemma pmul_bits_fuel n m a b : 0 <= b < 2^Z.of_nat n -> (n <= m)%nat -> pmul_bits m a b = pmul_bits n a b.
Proof.
  revert m b. induction n as [|n IH]; intros m b Hb Hm.
  - assert (b = 0) as -> by (cbn in Hb; lia). apply pmul_bits_0_r.
  - destruct m as [|m]; [lia|]. cbn [pmul_bits]. f_equal. f_equal. apply IH; [|lia].
    rewrite Nat2Z.inj_succ, Z.pow_succ_r in Hb by lia. lia.
Qed.
Lemma log2_bound b : 0 <= b -> b < 2^Z.of_nat (Z.to_nat (Z.log2 b + 1)).
Proof.
  intros H. pose proof (Z.log2_nonneg b). rewrite Z2Nat.id by lia.
  destruct (Z.eq_dec b 0) as [->|]; [reflexivity|]. apply (Z.log2_spec b). lia.
Qed.
Lemma pmul_eq n a b : 0 <= b < 2^Z.of_nat n -> pmul a b = pmul_bits n a b.
Proof.
  intros Hb. unfold pmul. pose proof (log2_bound b ltac:(lia)) as L.
  set (l := Z.to_nat (Z.log2 b + 1)) in *.
  destruct (Nat.le_ge_cases l n).
  - symmetry. apply pmul_bits_fuel; [split; lia|assumption].
  - apply pmul_bits_fuel; [split; lia|assumption].
Qed.
Lemma ex_bits a b : 0 <= a -> 0 <= b -> exists n, a < 2^Z.of_nat n /\ b < 2^Z.of_nat n.
Proof.
  intros. exists (Z.to_nat (Z.log2 a + 1) + Z.to_nat (Z.log2 b + 1))%nat.
  pose proof (log2_bound a H). pose proof (log2_bound b H0).
  split; (eapply Z.lt_le_trans; [eassumption|]); apply Z.pow_le_mono_r; lia.
Qed.

(* ---- pmul ---- *)
Lemma pmul_nonneg a b : 0 <= a -> 0 <= pmul a b.
Proof. apply pmul_bits_nonneg. Qed.
Lemma pmul_0_r a : pmul a 0 = 0.
Proof. apply pmul_bits_0_r. Qed.
Lemma pmul_0_l b : pmul 0 b = 0.
Proof. apply pmul_bits_0_l. Qed.
Lemma pmul_xor_l a a' b : pmul (Z.lxor a a') b = Z.lxor (pmul a b) (pmul a' b).
Proof. apply pmul_bits_xor_l. Qed.
Lemma pmul_double_l a b : pmul (2 * a) b = 2 * pmul a b.
Proof. apply pmul_bits_double. Qed.
Lemma pmul_pow_l a b k : 0 <= k -> pmul (a * 2^k) b = pmul a b * 2^k.
Proof. apply pmul_bits_pow. Qed.
Lemma pmul_xor_r a b b' : 0 <= b -> 0 <= b' -> pmul a (Z.lxor b b') = Z.lxor (pmul a b) (pmul a b').
Proof.
  intros Hb Hb'. destruct (ex_bits b b' Hb Hb') as (n & H1 & H2).
  rewrite !(pmul_eq n); [apply pmul_bits_xor_r| | |]; try lia. apply lxor_bound; lia.
Qed.
Lemma pmul_step a b : 0 <= b -> pmul a b = Z.lxor (if Z.odd b then a else 0) (2 * pmul a (b / 2)).
Proof.
  intros Hb. pose proof (log2_bound b Hb) as L. set (n := Z.to_nat (Z.log2 b + 1)) in *.
  rewrite (pmul_eq (S n)), (pmul_eq n a (b/2)); [reflexivity|split; lia|].
  rewrite Nat2Z.inj_succ, Z.pow_succ_r by lia. lia.
Qed.
Lemma pmul_1_l b : 0 <= b -> pmul 1 b = b.
Proof.
  intros Hb. destruct (ex_bits b b Hb Hb) as (n & Hn & _). revert b Hb Hn.
  induction n as [|n IH]; intros b Hb Hn.
  - assert (b = 0) as -> by (cbn in Hn; lia). apply pmul_0_r.
  - rewrite pmul_step by assumption. rewrite IH; [symmetry; apply bit_split|lia|].
    rewrite Nat2Z.inj_succ, Z.pow_succ_r in Hn by lia. lia.
Qed.
Lemma pmul_comm a b : 0 <= a -> 0 <= b -> pmul a b = pmul b a.
Proof.
  intros Ha Hb. destruct (ex_bits a a Ha Ha) as (n & Hn & _). revert a Ha Hn.
  induction n as [|n IH]; intros a Ha Hn.
  - assert (a = 0) as -> by (cbn in Hn; lia). now rewrite pmul_0_r, pmul_0_l.
  - rewrite (pmul_step b a) by assumption. rewrite (bit_split a) at 1.
    rewrite pmul_xor_l, pmul_double_l. rewrite (IH (a / 2)); [|lia|rewrite Nat2Z.inj_succ, Z.pow_succ_r in Hn by lia; lia].
    f_equal. destruct (Z.odd a); [now apply pmul_1_l|apply pmul_0_l].
Qed.
Lemma pmul_1_r a : 0 <= a -> pmul a 1 = a.
Proof. intros. rewrite pmul_comm by lia. now apply pmul_1_l. Qed.
Lemma pmul_double_r a b : 0 <= a -> 0 <= b -> pmul a (2 * b) = 2 * pmul a b.
Proof. intros. rewrite pmul_comm, pmul_double_l, pmul_comm by lia. reflexivity. Qed.
Lemma pmul_assoc a b c : 0 <= a -> 0 <= b -> 0 <= c -> pmul (pmul a b) c = pmul a (pmul b c).
Proof.
  intros Ha Hb Hc. destruct (ex_bits c c Hc Hc) as (n & Hn & _). revert c Hc Hn.
  induction n as [|n IH]; intros c Hc Hn.
  - assert (c = 0) as -> by (cbn in Hn; lia). now rewrite !pmul_0_r.
  - rewrite (pmul_step _ c), (pmul_step b c) by assumption.
    assert (0 <= pmul b (c / 2)) by now apply pmul_nonneg.
    rewrite pmul_xor_r; [|destruct (Z.odd c); lia|lia].
    rewrite pmul_double_r by lia.
    rewrite (IH (c / 2)); [|lia|rewrite Nat2Z.inj_succ, Z.pow_succ_r in Hn by lia; lia].
    f_equal. destruct (Z.odd c); [reflexivity|now rewrite pmul_0_r].
Qed.

(* ---- degrees ---- *)
Lemma lxor_top a b k : 0 <= k -> 0 <= a < 2^k -> 2^k <= b < 2^(k+1) -> 2^k <= Z.lxor a b < 2^(k+1).
Proof.
  intros Hk Ha Hb. pose proof (lxor_bound a b (k + 1) ltac:(lia) ltac:(rewrite Z.pow_add_r; lia) ltac:(lia)) as L.
  split; [|lia].
  assert (Z.testbit (Z.lxor a b) k = true) as T.
  { rewrite Z.lxor_spec, (testbit_above a k k) by lia.
    assert (Z.testbit b k = true) as ->; [|reflexivity].
    assert (b = 1 * 2^k + (b - 2^k)) as -> by lia.
    rewrite <- lor_mul_add by (rewrite ?Z.pow_add_r in Hb; lia).
    rewrite Z.lor_spec, <- Z.shiftl_mul_pow2, Z.shiftl_spec, Z.sub_diag by lia. reflexivity. }
  destruct (Z.lt_ge_cases (Z.lxor a b) (2^k)) as [C|C]; [|assumption].
  rewrite (testbit_above _ k k) in T by lia. discriminate.
Qed.
(* degree of a product *)
Lemma pmul_degree m k q : 0 <= k -> 2^k <= m < 2^(k+1) -> 0 < q -> 2^k <= pmul m q.
Proof.
  intros Hk Hm Hq.
  assert (forall n q, 2^Z.of_nat n <= q < 2^(Z.of_nat n + 1) ->
            2^(k + Z.of_nat n) <= pmul m q < 2^(k + Z.of_nat n + 1)) as G.
  { clear q Hq. induction n as [|n IH]; intros q Hq.
    - assert (q = 1) as -> by (cbn in Hq; lia). rewrite pmul_1_r by lia. rewrite !Z.add_0_r. exact Hm.
    - rewrite Nat2Z.inj_succ in *. rewrite pmul_step by (assert (0 < 2^Z.succ (Z.of_nat n)) by lia; lia).
      assert (2^Z.of_nat n <= q / 2 < 2^(Z.of_nat n + 1)) as Hq2.
      { replace (Z.succ (Z.of_nat n) + 1) with (Z.succ (Z.of_nat n + 1)) in Hq by lia.
        rewrite !Z.pow_succ_r in Hq by lia. lia. }
      specialize (IH _ Hq2).
      replace (k + Z.succ (Z.of_nat n)) with (Z.succ (k + Z.of_nat n)) by lia.
      apply lxor_top; [lia| |].
      + destruct (Z.odd q); [|assert (0 < 2^Z.succ (k + Z.of_nat n)) by lia; lia].
        split; [assert (0 < 2^k) by lia; lia|]. eapply Z.lt_le_trans; [apply Hm|]. apply Z.pow_le_mono_r; lia.
      + replace (Z.succ (k + Z.of_nat n) + 1) with (Z.succ (k + Z.of_nat n + 1)) by lia.
        rewrite !Z.pow_succ_r by lia. lia. }
  specialize (G (Z.to_nat (Z.log2 q)) q). rewrite Z2Nat.id in G by apply Z.log2_nonneg.
  pose proof (Z.log2_spec q Hq) as S. specialize (G S).
  etransitivity; [|apply G]. apply Z.pow_le_mono_r; [lia|]. pose proof (Z.log2_nonneg q). lia.
Qed.

(* ---- remainders ---- *)
Definition rem_of (k m p r : Z) : Prop := 0 <= r < 2^k /\ exists q, 0 <= q /\ p = Z.lxor (pmul m q) r.

Lemma rem_unique k m p r r' : 0 <= k -> 2^k <= m < 2^(k+1) -> rem_of k m p r -> rem_of k m p r' -> r = r'.
Proof.
  intros Hk Hm [Hr (q & Hq & Hp)] [Hr' (q' & Hq' & Hp')].
  assert (pmul m (Z.lxor q q') = Z.lxor r r') as E.
  { rewrite pmul_xor_r by assumption.
    assert (Z.lxor (pmul m q) r = Z.lxor (pmul m q') r') as X by congruence.
    apply (f_equal (fun t => Z.lxor t (Z.lxor (pmul m q') r))) in X.
    rewrite lxor_4, Z.lxor_nilpotent, Z.lxor_0_r in X. rewrite lxor_4, Z.lxor_nilpotent, Z.lxor_0_l in X.
    rewrite X. apply Z.lxor_comm. }
  destruct (Z.eq_dec (Z.lxor q q') 0) as [Z0|NZ].
  - rewrite Z0, pmul_0_r in E. symmetry in E. now apply Z.lxor_eq in E.
  - pose proof (lxor_nonneg' q q' Hq Hq'). pose proof (pmul_degree m k (Z.lxor q q') Hk Hm ltac:(lia)) as D.
    pose proof (lxor_bound r r' k Hk Hr Hr'). lia.
Qed.
Lemma rem_xor k m p r p' r' : 0 <= k -> rem_of k m p r -> rem_of k m p' r' -> rem_of k m (Z.lxor p p') (Z.lxor r r').
Proof.
  intros Hk [Hr (q & Hq & ->)] [Hr' (q' & Hq' & ->)]. split; [now apply lxor_bound|].
  exists (Z.lxor q q'). split; [now apply lxor_nonneg'|]. rewrite pmul_xor_r by assumption. apply lxor_4.
Qed.
Lemma rem_small k m p : 0 <= p < 2^k -> rem_of k m p p.
Proof. intros H. split; [assumption|]. exists 0. split; [lia|]. now rewrite pmul_0_r, Z.lxor_0_l. Qed.
Lemma rem_add_mul k m p r c : 0 <= c -> rem_of k m p r -> rem_of k m (Z.lxor p (pmul m c)) r.
Proof.
  intros Hc [Hr (q & Hq & ->)]. split; [assumption|]. exists (Z.lxor q c). split; [now apply lxor_nonneg'|].
  rewrite pmul_xor_r by assumption. rewrite Z.lxor_assoc, (Z.lxor_comm r), <- Z.lxor_assoc. reflexivity.
Qed.

Lemma pmul_pow_r m j : 0 <= m -> 0 <= j -> pmul m (2^j) = m * 2^j.
Proof.
  intros Hm Hj. rewrite pmul_comm by lia. replace (2^j) with (1 * 2^j) at 1 by lia.
  rewrite pmul_pow_l by assumption. now rewrite pmul_1_l.
Qed.
Lemma lxor_same_top a b d : 0 <= d -> 2^d <= a < 2^(d+1) -> 2^d <= b < 2^(d+1) -> 0 <= Z.lxor a b < 2^d.
Proof.
  intros Hd Ha Hb. rewrite Z.pow_add_r in * by lia.
  replace a with (1 * 2^d + (a - 2^d)) by lia. replace b with (1 * 2^d + (b - 2^d)) by lia.
  assert (forall x, 0 <= x < 2^d -> 1 * 2^d + x = Z.lxor (1 * 2^d) x) as N.
  { intros x Hx. rewrite <- lor_mul_add by lia. symmetry. apply Z.lxor_lor.
    apply Z.bits_inj'. intros n Hn. rewrite Z.land_spec, Z.bits_0, <- Z.shiftl_mul_pow2 by lia.
    destruct (Z.lt_ge_cases n d).
    - now rewrite Z.shiftl_spec_low.
    - rewrite (testbit_above x d n) by lia. apply andb_false_r. }
  rewrite !N by lia. rewrite lxor_4, Z.lxor_nilpotent, Z.lxor_0_l. apply lxor_bound; lia.
Qed.
Lemma pmod_steps_rem n k m p : 0 <= k -> 2^k <= m < 2^(k+1) -> 0 <= p -> p < 2^Z.of_nat n ->
  rem_of k m p (pmod_steps n p m).
Proof.
  intros Hk Hm. revert p. induction n as [|n IH]; intros p Hp Hn.
  - assert (p = 0) as -> by (cbn in Hn; lia). apply rem_small. cbn. lia.
  - cbn [pmod_steps]. assert (Z.log2 m = k) as -> by (apply Z.log2_unique; [lia|]; rewrite <- Z.add_1_r; lia).
    destruct (Z.ltb_spec p (2^k)); [apply rem_small; lia|].
    assert (0 < 2^k) by lia.
    pose proof (Z.log2_spec p ltac:(lia)) as S. set (d := Z.log2 p) in *.
    assert (k <= d) as Hd. { apply Z.lt_succ_r. apply (Z.pow_lt_mono_r_iff 2); [lia| |lia]. pose proof (Z.log2_nonneg p). lia. }
    pose proof (pmul_pow_r m (d - k) ltac:(lia) ltac:(lia)) as PM.
    rewrite <- PM.
    assert (0 <= Z.lxor p (pmul m (2^(d-k))) < 2^d) as B.
    { apply lxor_same_top; [lia|rewrite Z.add_1_r; lia|]. rewrite PM.
      replace (2^d) with (2^k * 2^(d-k)) by (rewrite <- Z.pow_add_r by lia; f_equal; lia).
      replace (2^(d+1)) with (2^(k+1) * 2^(d-k)) by (rewrite <- Z.pow_add_r by lia; f_equal; lia).
      split; [apply Z.mul_le_mono_nonneg_r; lia|apply Z.mul_lt_mono_pos_r; lia]. }
    assert (d <= Z.of_nat n) as Dn.
    { rewrite Nat2Z.inj_succ in Hn. apply Z.lt_succ_r. apply (Z.pow_lt_mono_r_iff 2); lia. }
    assert (2^d <= 2^Z.of_nat n) by (apply Z.pow_le_mono_r; lia).
    specialize (IH (Z.lxor p (pmul m (2^(d-k)))) ltac:(lia) ltac:(lia)).
    apply (rem_add_mul _ _ _ _ (2^(d-k))) in IH; [|lia].
    rewrite lxor_cancel in IH. exact IH.
Qed.
Lemma pmod_rem k m p : 0 <= k -> 2^k <= m < 2^(k+1) -> 0 <= p -> rem_of k m p (pmod p m).
Proof. intros. apply pmod_steps_rem; auto using log2_bound. Qed.

(* ---- the field product ---- *)
Section Field.
  Variables (k m : Z).
  Hypothesis Hk : 0 <= k.
  Hypothesis Hm : 2^k <= m < 2^(k+1).

  Lemma gf_mul_rem a b : 0 <= a -> rem_of k m (pmul a b) (gf_mul m a b).
  Proof. intros. apply pmod_rem; auto. now apply pmul_nonneg. Qed.
  Lemma gf_mul_range a b : 0 <= a -> 0 <= gf_mul m a b < 2^k.
  Proof. intros H. apply (gf_mul_rem a b H). Qed.
  Lemma gf_mul_unique a b r : 0 <= a -> rem_of k m (pmul a b) r -> gf_mul m a b = r.
  Proof. intros Ha Hr. exact (rem_unique k m (pmul a b) _ _ Hk Hm (gf_mul_rem a b Ha) Hr). Qed.
  Lemma gf_mul_comm a b : 0 <= a -> 0 <= b -> gf_mul m a b = gf_mul m b a.
  Proof. intros Ha Hb. apply gf_mul_unique; [assumption|]. rewrite pmul_comm by assumption. now apply gf_mul_rem. Qed.
  Lemma gf_mul_xor_l a a' b : 0 <= a -> 0 <= a' -> gf_mul m (Z.lxor a a') b = Z.lxor (gf_mul m a b) (gf_mul m a' b).
  Proof.
    intros Ha Ha'. apply gf_mul_unique; [now apply lxor_nonneg'|]. rewrite pmul_xor_l.
    apply rem_xor; auto using gf_mul_rem.
  Qed.
  Lemma gf_mul_xor_r a b b' : 0 <= a -> 0 <= b -> 0 <= b' -> gf_mul m a (Z.lxor b b') = Z.lxor (gf_mul m a b) (gf_mul m a b').
  Proof.
    intros Ha Hb Hb'. apply gf_mul_unique; [assumption|]. rewrite pmul_xor_r by assumption.
    apply rem_xor; auto using gf_mul_rem.
  Qed.
  Lemma gf_mul_0_r a : gf_mul m a 0 = 0.
  Proof.
    unfold gf_mul. rewrite pmul_0_r. unfold pmod. change (Z.to_nat (Z.log2 0 + 1)) with 1%nat. cbn [pmod_steps].
    pose proof (Z.log2_nonneg m). destruct (Z.ltb_spec 0 (2^Z.log2 m)); [reflexivity|]. lia.
  Qed.
  Lemma gf_mul_1_l a : 0 <= a < 2^k -> gf_mul m 1 a = a.
  Proof. intros Ha. apply gf_mul_unique; [lia|]. rewrite pmul_1_l by lia. now apply rem_small. Qed.
  Lemma gf_mul_pmul a b c : 0 <= a -> 0 <= b -> 0 <= c -> gf_mul m (gf_mul m a b) c = pmod (pmul (pmul a b) c) m.
  Proof.
    intros Ha Hb Hc. pose proof (gf_mul_rem a b Ha) as [Hr (q & Hq & E)].
    apply gf_mul_unique; [lia|].
    rewrite E, pmul_xor_l, pmul_assoc by lia.
    pose proof (pmul_nonneg q c Hq).
    set (r := gf_mul m a b) in *.
    assert (pmul r c = Z.lxor (Z.lxor (pmul m (pmul q c)) (pmul r c)) (pmul m (pmul q c))) as X
      by now rewrite (Z.lxor_comm (pmul m (pmul q c))), lxor_cancel.
    rewrite X at 1.
    apply rem_add_mul; [assumption|]. apply pmod_rem; auto.
    apply lxor_nonneg'; apply pmul_nonneg; lia.
  Qed.
  Lemma gf_mul_assoc a b c : 0 <= a -> 0 <= b -> 0 <= c ->
    gf_mul m (gf_mul m a b) c = gf_mul m a (gf_mul m b c).
  Proof.
    intros Ha Hb Hc. rewrite gf_mul_pmul by assumption.
    pose proof (gf_mul_range b c Hb).
    rewrite (gf_mul_comm a) by lia. rewrite gf_mul_pmul by assumption.
    rewrite (pmul_comm (pmul b c) a) by (try apply pmul_nonneg; lia). now rewrite pmul_assoc.
  Qed.

  (* Russian peasant multiplication: one bit of b at a time *)
  Definition xtime (a : Z) : Z :=
    if Z.testbit a (k - 1) then Z.lxor ((2 * a) mod 2^k) (m - 2^k) else 2 * a.
  Definition peasant (s : Z * Z * Z) : Z * Z * Z :=
    let '(a, b, p) := s in (xtime a, b / 2, if Z.odd b then Z.lxor p a else p).
  Lemma xtime_rem a : 0 < k -> 0 <= a < 2^k ->
    0 <= xtime a < 2^k /\ exists e, (e = 0 \/ e = 1) /\ 2 * a = Z.lxor (pmul m e) (xtime a).
  Proof.
    intros Hk0 Ha. unfold xtime.
    assert (2^k = 2 * 2^(k-1)) as P by (rewrite <- Z.pow_succ_r by lia; f_equal; lia).
    assert (a = (a / 2^(k-1)) * 2^(k-1) + a mod 2^(k-1)) as D by (pose proof (Z.div_mod a (2^(k-1)) ltac:(lia)); lia).
    pose proof (Z.mod_pos_bound a (2^(k-1)) ltac:(lia)) as B.
    assert (Z.testbit a (k-1) = Z.odd (a / 2^(k-1))) as T.
    { rewrite Z.testbit_odd, Z.shiftr_div_pow2 by lia. reflexivity. }
    assert (0 <= a / 2^(k-1) < 2) as H2.
    { split; [apply Z.div_pos; lia|apply Z.div_lt_upper_bound; lia]. }
    destruct (Z.testbit a (k-1)).
    - assert (a / 2^(k-1) = 1) as Q1.
      { destruct (Z.eq_dec (a / 2^(k-1)) 0) as [E|]; [rewrite E in T; discriminate|lia]. }
      set (x := a mod 2^(k-1)) in *. clearbody x. rewrite Q1 in D.
      assert ((2 * a) mod 2^k = 2 * x) as M.
      { rewrite D, P. replace (2 * (1 * 2^(k-1) + x)) with (2 * x + 1 * (2 * 2^(k-1))) by lia.
        rewrite Z.mod_add by lia. apply Z.mod_small. lia. }
      rewrite M. assert (0 <= m - 2^k < 2^k) as Hl by (rewrite Z.pow_add_r in Hm; lia).
      split; [apply lxor_bound; lia|]. exists 1. split; [now right|]. rewrite pmul_1_r by lia.
      assert (forall y, 0 <= y < 2^k -> 1 * 2^k + y = Z.lxor (1 * 2^k) y) as N.
      { intros y Hy. rewrite <- lor_mul_add by lia. symmetry. apply Z.lxor_lor.
        apply Z.bits_inj'. intros n Hn. rewrite Z.land_spec, Z.bits_0, <- Z.shiftl_mul_pow2 by lia.
        destruct (Z.lt_ge_cases n k).
        - now rewrite Z.shiftl_spec_low.
        - rewrite (testbit_above y k n) by lia. apply andb_false_r. }
      replace m with (1 * 2^k + (m - 2^k)) at 1 by lia. rewrite N by lia.
      rewrite (Z.lxor_comm (2 * x)), <- Z.lxor_assoc, lxor_cancel, <- N by lia. lia.
    - assert (a / 2^(k-1) = 0) as Q0.
      { destruct (Z.eq_dec (a / 2^(k-1)) 1) as [E|]; [rewrite E in T; discriminate|lia]. }
      split; [lia|]. exists 0. split; [now left|]. rewrite pmul_0_r. now rewrite Z.lxor_0_l.
  Qed.
  Lemma peasant_spec n a b p : 0 < k -> 0 <= a < 2^k -> 0 <= b < 2^Z.of_nat n ->
    snd (Nat.iter n peasant (a, b, p)) = Z.lxor p (gf_mul m a b).
  Proof.
    intros Hk0. revert a b p. induction n as [|n IH]; intros a b p Ha Hb.
    - assert (b = 0) as -> by (cbn in Hb; lia). rewrite gf_mul_0_r, Z.lxor_0_r. reflexivity.
    - rewrite iter_succ_r. cbn [peasant].
      destruct (xtime_rem a Hk0 Ha) as [Hx (e & He & E)].
      assert (0 <= b / 2 < 2^Z.of_nat n) as Hb2 by (rewrite Nat2Z.inj_succ, Z.pow_succ_r in Hb by lia; lia).
      rewrite IH by assumption.
      assert (gf_mul m a b = Z.lxor (if Z.odd b then a else 0) (gf_mul m (xtime a) (b / 2))) as ->.
      { apply gf_mul_unique; [lia|]. rewrite pmul_step by lia. apply rem_xor; [assumption| |].
        - destruct (Z.odd b); apply rem_small; lia.
        - rewrite <- pmul_double_l, E, pmul_xor_l, Z.lxor_comm, pmul_assoc by lia.
          apply rem_add_mul; [apply pmul_nonneg; lia|]. apply gf_mul_rem. lia. }
      destruct (Z.odd b); [now rewrite Z.lxor_assoc|now rewrite Z.lxor_0_l].
  Qed.
End Field.
