(* curve25519.rs: the limb arithmetic never overflows and computes modulo 2^255-19 *)
From Coq Require Import ZArith Lia List Bool Setoid Morphisms.
From Verif.Model Require Import Base X25519.
From Verif.Spec Require Import Enc Rfc7748.
From Verif.Proofs Require Import Number Util Bytes.
Import ListNotations.
Open Scope Z_scope.

Notation W := 65536.
Notation p := p25519.

Fixpoint lval (l : list Z) : Z := match l with [] => 0 | x :: t => x + W * lval t end.

Definition bnd (B : Z) (l : list Z) : Prop := Forall (fun x => - B <= x <= B) l.

Lemma ck_ok {E} z : - 2 ^ 63 <= z < 2 ^ 63 -> ck (E:=E) z = Ok z.
Proof.
  intros H. unfold ck. destruct (Z.leb_spec (- 2 ^ 63) z); [|lia]. destruct (Z.ltb_spec z (2 ^ 63)); [|lia]. reflexivity.
Qed.

Lemma lval_app a b : lval (a ++ b) = lval a + W ^ zlen a * lval b.
Proof.
  induction a as [|x a IH]; [cbn [app lval zlen]; unfold zlen; cbn [length]; change (W ^ Z.of_nat 0) with 1; lia|]. cbn [app lval]. rewrite IH. unfold zlen. cbn [length].
  rewrite Nat2Z.inj_succ, Z.pow_succ_r by lia. lia.
Qed.

Lemma lval_bound B l : 0 <= B -> bnd B l -> - B * W ^ zlen l <= lval l * (W - 1) <= B * W ^ zlen l /\ - B * (W ^ zlen l - 1) <= lval l * (W - 1) <= B * (W ^ zlen l - 1).
Proof.
  intros HB H. induction H as [|x l Hx Hl IH]; [cbn; lia|]. cbn [lval]. unfold zlen in *. cbn [length].
  rewrite Nat2Z.inj_succ, Z.pow_succ_r by lia. set (P := W ^ Z.of_nat (length l)) in *.
  assert (0 < P) by (apply Z.pow_pos_nonneg; lia). nia.
Qed.

Definition limbs (l : list Z) : Prop := Forall (fun x => 0 <= x < W) l.

Lemma limbs_range l : limbs l -> 0 <= lval l < W ^ zlen l.
Proof.
  intros H. induction H as [|x l Hx Hl IH]; [cbn; lia|]. cbn [lval]. unfold zlen in *. cbn [length].
  rewrite Nat2Z.inj_succ, Z.pow_succ_r by lia. nia.
Qed.

Lemma limbs_bnd l : limbs l -> bnd W l.
Proof. apply Forall_impl. intros; lia. Qed.

(* ---------- carry ---------- *)

Lemma carry_go_ok {E} l : forall c B, bnd B l -> - B <= c <= B -> 4 <= B <= 2 ^ 61 ->
  exists r c', carry_go (E:=E) l c = Ok (r, c') /\ length r = length l /\ limbs r /\
  lval r + c' * W ^ zlen l = lval l + c /\ - B <= c' <= B.
Proof.
  induction l as [|x l IH]; intros c B Hl Hc HB.
  - exists [], c. cbn. repeat split; try lia. constructor.
  - inversion Hl as [|? ? Hx Hl']; subst. cbn [carry_go].
    rewrite ck_ok by lia. cbn [bind].
    rewrite Z.shiftr_div_pow2, Z.shiftl_mul_pow2 by lia. change (2 ^ 16) with W.
    pose proof (Z.div_mod (x + c) W ltac:(lia)) as D. pose proof (Z.mod_pos_bound (x + c) W ltac:(lia)) as M.
    set (q := (x + c) / W) in *. set (m := (x + c) mod W) in *.
    replace (x + c - q * W) with m by lia. rewrite ck_ok by lia. cbn [bind].
    destruct (IH q B Hl' ltac:(lia) HB) as (r & c' & Er & Lr & Rr & V & Bc). rewrite Er. cbn [bind].
    exists (m :: r), c'. split; [reflexivity|]. cbn [length lval]. unfold zlen in *. cbn [length].
    rewrite Nat2Z.inj_succ, Z.pow_succ_r by lia. split; [lia|]. split; [constructor; assumption|]. split; [|exact Bc]. nia.
Qed.

Definition W16 : Z := W ^ 16.

Lemma carry_ok {E} l B : length l = 16%nat -> bnd B l -> 4 <= B <= 2 ^ 57 ->
  exists x t, carry25519 (E:=E) l = Ok (x :: t) /\ length t = 15%nat /\ limbs t /\
  let q := lval l / W16 in
  0 <= x - 38 * q < W /\ lval (x :: t) = lval l - q * (W16 - 38).
Proof.
  intros Ll Hl HB. destruct (carry_go_ok (E:=E) l 0 B Hl ltac:(lia) ltac:(lia)) as (r & c' & Er & Lr & Rr & V & Bc).
  unfold carry25519. rewrite Er. cbn [bind]. destruct r as [|x t]; [cbn in Lr; lia|].
  rewrite ck_ok by lia. cbn [bind]. inversion Rr as [|? ? Hx Rt]; subst.
  rewrite ck_ok by lia. cbn [bind]. exists (x + 38 * c'), t. split; [reflexivity|].
  split; [cbn in Lr; lia|]. split; [assumption|].
  assert (Hq : lval l / W16 = c').
  { pose proof (limbs_range (x :: t) Rr) as R. unfold zlen in *. rewrite Lr, Ll in *. change (W ^ Z.of_nat 16) with W16 in *.
    symmetry. apply Z.div_unique with (r := lval (x :: t)); [lia|]. lia. }
  rewrite Hq. cbn zeta. split; [lia|]. unfold zlen in V. rewrite Ll in V. change (W ^ Z.of_nat 16) with W16 in V.
  cbn [lval] in *. lia.
Qed.

(* what fmul returns *)
Definition norm (l : list Z) : Prop :=
  exists x t, l = x :: t /\ length t = 15%nat /\ -38 <= x < W + 38 /\ limbs t.

Lemma norm_length l : norm l -> length l = 16%nat.
Proof. intros (x & t & -> & L & _). cbn. lia. Qed.
Lemma norm_bnd l : norm l -> bnd (W + 38) l.
Proof. intros (x & t & -> & L & Hx & Ht). constructor; [lia|]. revert Ht. apply Forall_impl. intros; lia. Qed.
Lemma limbs_norm l : length l = 16%nat -> limbs l -> norm l.
Proof. intros L H. destruct l as [|x t]; [discriminate|]. inversion H; subst. exists x, t. repeat split; try assumption; try lia. cbn in L; lia. Qed.

Lemma bnd_weaken B B' l : B <= B' -> bnd B l -> bnd B' l.
Proof. intros H. apply Forall_impl. intros; lia. Qed.

Lemma W16_val : W16 - 38 = 2 * p.
Proof. reflexivity. Qed.

Lemma carry_mod q v : (v - q * (W16 - 38)) mod p = v mod p.
Proof. rewrite W16_val. replace (v - q * (2 * p)) with (v + (- (2 * q)) * p) by ring. apply Z_mod_plus_full. Qed.

(* the second carry leaves limbs of 16 bits, up to the first *)
Lemma carry_twice {E} l : length l = 16%nat -> bnd (2 ^ 50) l ->
  exists t r, carry25519 (E:=E) l = Ok t /\ carry25519 (E:=E) t = Ok r /\ norm r /\ lval r mod p = lval l mod p.
Proof.
  intros Ll Hl. destruct (carry_ok (E:=E) l (2 ^ 50) Ll Hl ltac:(lia)) as (x & t & E1 & Lt & Rt & X & V).
  exists (x :: t).
  pose proof (lval_bound (2 ^ 50) l ltac:(lia) Hl) as [Bl _]. unfold zlen in Bl. rewrite Ll in Bl. change (W ^ Z.of_nat 16) with W16 in Bl.
  set (q := lval l / W16) in *. cbn zeta in X, V.
  assert (HW : W16 = 2 ^ 256) by reflexivity.
  assert (Bq : - 2 ^ 35 <= q <= 2 ^ 35).
  { pose proof (Z.div_mod (lval l) W16 ltac:(lia)) as D. pose proof (Z.mod_pos_bound (lval l) W16 ltac:(lia)) as M.
    fold q in D. clearbody q. rewrite HW in *. nia. }
  assert (Bx : bnd (2 ^ 42) (x :: t)).
  { constructor; [lia|]. revert Rt. apply Forall_impl. intros; lia. }
  assert (Lxt : length (x :: t) = 16%nat) by (cbn; lia).
  destruct (carry_ok (E:=E) (x :: t) (2 ^ 42) Lxt Bx ltac:(lia)) as (x' & t' & E2 & Lt' & Rt' & X' & V').
  exists (x' :: t'). split; [exact E1|]. split; [exact E2|].
  set (q' := lval (x :: t) / W16) in *. cbn zeta in X', V'.
  assert (Bq' : -1 <= q' <= 1).
  { pose proof (limbs_range t Rt) as R. unfold zlen in R. rewrite Lt in R. change (W ^ Z.of_nat 15) with (2 ^ 240) in R.
    pose proof (Z.div_mod (lval (x :: t)) W16 ltac:(lia)) as D. pose proof (Z.mod_pos_bound (lval (x :: t)) W16 ltac:(lia)) as M.
    fold q' in D. cbn [lval] in *. clearbody q'. rewrite HW in *. lia. }
  split.
  - exists x', t'. repeat split; try assumption; lia.
  - rewrite V', carry_mod, V, carry_mod. reflexivity.
Qed.

(* ---------- addition and subtraction ---------- *)

Lemma fadd_ok {E} a b A B : length a = length b -> bnd A a -> bnd B b -> 0 <= A <= 2 ^ 61 -> 0 <= B <= 2 ^ 61 ->
  exists r, fadd (E:=E) a b = Ok r /\ length r = length a /\ bnd (A + B) r /\ lval r = lval a + lval b.
Proof.
  unfold fadd. revert b. induction a as [|x a IH]; intros [|y b] L Ha Hb HA HB; try discriminate.
  - exists []. repeat split. constructor.
  - inversion Ha; inversion Hb; subst. cbn [zipM]. rewrite ck_ok by lia. cbn [bind].
    destruct (IH b ltac:(cbn in L; lia) ltac:(assumption) ltac:(assumption) HA HB) as (r & Er & Lr & Br & V). rewrite Er. cbn [bind].
    eexists. split; [reflexivity|]. cbn [length lval]. split; [lia|]. split; [constructor; [lia|assumption]|lia].
Qed.

Lemma fsub_ok {E} a b A B : length a = length b -> bnd A a -> bnd B b -> 0 <= A <= 2 ^ 61 -> 0 <= B <= 2 ^ 61 ->
  exists r, fsub (E:=E) a b = Ok r /\ length r = length a /\ bnd (A + B) r /\ lval r = lval a - lval b.
Proof.
  unfold fsub. revert b. induction a as [|x a IH]; intros [|y b] L Ha Hb HA HB; try discriminate.
  - exists []. repeat split. constructor.
  - inversion Ha; inversion Hb; subst. cbn [zipM]. rewrite ck_ok by lia. cbn [bind].
    destruct (IH b ltac:(cbn in L; lia) ltac:(assumption) ltac:(assumption) HA HB) as (r & Er & Lr & Br & V). rewrite Er. cbn [bind].
    eexists. split; [reflexivity|]. cbn [length lval]. split; [lia|]. split; [constructor; [lia|assumption]|lia].
Qed.

(* ---------- multiplication ---------- *)

Lemma add_at_ok {E} v : forall i d M D, (i < length v)%nat -> bnd M v -> - D <= d <= D -> 0 <= M -> 0 <= D -> M + D <= 2 ^ 62 ->
  exists v', add_at (E:=E) v i d = Ok v' /\ length v' = length v /\ bnd (M + D) v' /\ lval v' = lval v + d * W ^ Z.of_nat i.
Proof.
  induction v as [|x v IH]; intros i d M D Hi Hv Hd HM HD HMD; [cbn in Hi; lia|].
  inversion Hv as [|? ? Hx Hv']; subst. destruct i as [|i]; cbn [add_at].
  - rewrite ck_ok by lia. cbn [bind]. eexists. split; [reflexivity|]. split; [reflexivity|].
    split; [constructor; [lia|revert Hv'; apply bnd_weaken; lia]|]. cbn [lval]. change (W ^ Z.of_nat 0) with 1. lia.
  - destruct (IH i d M D ltac:(cbn in Hi; lia) Hv' Hd HM HD HMD) as (v' & Ev & Lv & Bv & V). rewrite Ev. cbn [bind].
    eexists. split; [reflexivity|]. cbn [length lval]. split; [lia|]. split; [constructor; [lia|assumption]|].
    rewrite Nat2Z.inj_succ, Z.pow_succ_r by lia. rewrite V. ring.
Qed.

Definition term (a b : list Z) (ij : nat * nat) : Z :=
  nth (fst ij) a 0 * nth (snd ij) b 0 * W ^ Z.of_nat (fst ij + snd ij).
Definition zsum (l : list Z) : Z := fold_right Z.add 0 l.

Lemma nth_bnd B l i : 0 <= B -> bnd B l -> - B <= nth i l 0 <= B.
Proof.
  intros HB H. destruct (nth_in_or_default i l 0) as [I| ->]; [|lia].
  unfold bnd in H. rewrite Forall_forall in H. apply H, I.
Qed.

Lemma products_ok {E} a b A : 0 <= A <= 2 ^ 20 -> bnd A a -> bnd A b ->
  forall ps v M, Forall (fun ij => (fst ij + snd ij < length v)%nat) ps -> bnd M v -> 0 <= M ->
  M + zlen ps * A ^ 2 <= 2 ^ 62 ->
  exists v', products (E:=E) a b ps v = Ok v' /\ length v' = length v /\ bnd (M + zlen ps * A ^ 2) v' /\
  lval v' = lval v + zsum (map (term a b) ps).
Proof.
  intros HA Ha Hb. induction ps as [|[i j] ps IH]; intros v M Hps Hv HM HS; cbn [products].
  - exists v. cbn. split; [reflexivity|]. split; [reflexivity|]. split; [revert Hv; apply bnd_weaken; lia|lia].
  - inversion Hps as [|? ? Hij Hps']; subst. cbn [fst snd] in Hij.
    pose proof (nth_bnd A a i ltac:(lia) Ha) as Hai. pose proof (nth_bnd A b j ltac:(lia) Hb) as Hbj.
    set (x := nth i a 0) in *. set (y := nth j b 0) in *.
    assert (Hxy : - A ^ 2 <= x * y <= A ^ 2) by nia. assert (0 <= A ^ 2 <= 2 ^ 40) by nia.
    unfold zlen in *. cbn [length] in *. rewrite Nat2Z.inj_succ in *.
    rewrite ck_ok by lia. cbn [bind].
    destruct (add_at_ok (E:=E) v (i + j) (x * y) M (A ^ 2) Hij Hv Hxy HM ltac:(lia) ltac:(nia)) as (v1 & E1 & L1 & B1 & V1).
    rewrite E1. cbn [bind].
    destruct (IH v1 (M + A ^ 2)) as (v2 & E2 & L2 & B2 & V2).
    + rewrite L1. exact Hps'.
    + exact B1.
    + lia.
    + lia.
    + exists v2. split; [exact E2|]. split; [lia|]. split; [revert B2; apply bnd_weaken; lia|].
      cbn [map zsum fold_right]. fold (zsum (map (term a b) ps)). unfold term at 1. cbn [fst snd]. fold x y. lia.
Qed.

Lemma zsum_app a b : zsum (a ++ b) = zsum a + zsum b.
Proof. unfold zsum. induction a as [|x a IH]; cbn; [reflexivity|]. rewrite IH. lia. Qed.

Lemma lval_sum_from l : forall k, zsum (map (fun i => nth (i - k) l 0 * W ^ Z.of_nat i) (seq k (length l))) = W ^ Z.of_nat k * lval l.
Proof.
  induction l as [|x l IH]; intros k; [cbn; lia|]. cbn [length seq map zsum fold_right].
  rewrite Nat.sub_diag. change (nth 0 (x :: l) 0) with x. cbn [lval].
  assert (Em : map (fun i => nth (i - k) (x :: l) 0 * W ^ Z.of_nat i) (seq (S k) (length l))
             = map (fun i => nth (i - S k) l 0 * W ^ Z.of_nat i) (seq (S k) (length l))).
  { apply map_ext_in. intros i Hi. apply in_seq in Hi. replace (i - k)%nat with (S (i - S k)) by lia. reflexivity. }
  rewrite Em. fold (zsum (map (fun i => nth (i - S k) l 0 * W ^ Z.of_nat i) (seq (S k) (length l)))).
  rewrite IH, Nat2Z.inj_succ, Z.pow_succ_r by lia. ring.
Qed.

Lemma lval_sum l : zsum (map (fun i => nth i l 0 * W ^ Z.of_nat i) (seq 0 (length l))) = lval l.
Proof.
  rewrite <- (Z.mul_1_l (lval l)). change 1 with (W ^ Z.of_nat 0). rewrite <- lval_sum_from.
  f_equal. apply map_ext. intros i. rewrite Nat.sub_0_r. reflexivity.
Qed.

Lemma zsum_scale c l : zsum (map (fun x => c * x) l) = c * zsum l.
Proof. unfold zsum. induction l as [|x l IH]; cbn; [lia|]. rewrite IH. lia. Qed.

Lemma zsum_prod a b is js :
  zsum (map (term a b) (list_prod is js)) =
  zsum (map (fun i => nth i a 0 * W ^ Z.of_nat i) is) * zsum (map (fun j => nth j b 0 * W ^ Z.of_nat j) js).
Proof.
  induction is as [|i is IH]; [reflexivity|]. cbn [list_prod map]. rewrite map_app, zsum_app, IH.
  cbn [zsum fold_right]. fold (zsum (map (fun i => nth i a 0 * W ^ Z.of_nat i) is)).
  rewrite Z.mul_add_distr_r. f_equal. rewrite <- zsum_scale, !map_map. f_equal. apply map_ext.
  intros j. unfold term. cbn [fst snd]. rewrite Nat2Z.inj_add, Z.pow_add_r by lia. ring.
Qed.

Lemma fold38_ok {E} lo : forall hi M, (length hi <= length lo)%nat -> bnd M lo -> bnd M hi -> 0 <= M <= 2 ^ 57 ->
  exists r, fold38 (E:=E) lo hi = Ok r /\ length r = length lo /\ bnd (39 * M) r /\ lval r = lval lo + 38 * lval hi.
Proof.
  induction lo as [|x lo IH]; intros hi M L Hl Hh HM.
  - destruct hi; [|cbn in L; lia]. exists []. cbn. repeat split. constructor.
  - destruct hi as [|y hi]; cbn [fold38].
    + exists (x :: lo). split; [reflexivity|]. split; [reflexivity|]. split; [revert Hl; apply bnd_weaken; lia|]. cbn [lval]. lia.
    + inversion Hl; inversion Hh; subst. rewrite !ck_ok by lia. cbn [bind]. rewrite ck_ok by lia. cbn [bind].
      destruct (IH hi M ltac:(cbn in L; lia) ltac:(assumption) ltac:(assumption) HM) as (r & Er & Lr & Br & V).
      rewrite Er. cbn [bind]. eexists. split; [reflexivity|]. cbn [length lval]. split; [lia|].
      split; [constructor; [lia|assumption]|lia].
Qed.

Lemma bnd_firstn B n l : bnd B l -> bnd B (firstn n l).
Proof. unfold bnd. rewrite !Forall_forall. intros H x I. apply H. rewrite <- (firstn_skipn n l), in_app_iff. auto. Qed.
Lemma bnd_skipn B n l : bnd B l -> bnd B (skipn n l).
Proof. unfold bnd. rewrite !Forall_forall. intros H x I. apply H. rewrite <- (firstn_skipn n l), in_app_iff. auto. Qed.

Lemma pairs16_lt : Forall (fun ij => (fst ij + snd ij < 31)%nat) pairs16.
Proof.
  apply Forall_forall. intros [i j] H. unfold pairs16 in H. apply in_prod_iff in H. rewrite !in_seq in H. cbn [fst snd]. lia.
Qed.

Theorem fmul_ok {E} a b : length a = 16%nat -> length b = 16%nat -> bnd (2 ^ 18) a -> bnd (2 ^ 18) b ->
  exists r, fmul (E:=E) a b = Ok r /\ norm r /\ lval r mod p = (lval a * lval b) mod p.
Proof.
  intros La Lb Ha Hb. unfold fmul.
  assert (Z0 : bnd 0 (repeat 0 31)) by (apply Forall_forall; intros x I; apply repeat_spec in I; lia).
  destruct (products_ok (E:=E) a b (2 ^ 18) ltac:(lia) Ha Hb pairs16 (repeat 0 31) 0) as (v & Ev & Lv & Bv & V).
  { rewrite repeat_length. exact pairs16_lt. }
  { exact Z0. }
  { lia. }
  { vm_compute. discriminate. }
  rewrite Ev. cbn [bind]. rewrite repeat_length in Lv.
  assert (Bv' : bnd (2 ^ 44) v) by (revert Bv; apply bnd_weaken; vm_compute; discriminate).
  destruct (fold38_ok (E:=E) (firstn 16 v) (skipn 16 v) (2 ^ 44)) as (r & Er & Lr & Br & Vr).
  { rewrite firstn_length, skipn_length, Lv. cbn. lia. }
  { apply bnd_firstn, Bv'. }
  { apply bnd_skipn, Bv'. }
  { lia. }
  rewrite Er. cbn [bind]. rewrite firstn_length, Lv in Lr. cbn in Lr.
  destruct (carry_twice (E:=E) r Lr ltac:(revert Br; apply bnd_weaken; lia)) as (t & s & E1 & E2 & Ns & Vs).
  rewrite E1. cbn [bind]. exists s. split; [exact E2|]. split; [exact Ns|]. rewrite Vs, Vr.
  rewrite <- (lval_sum a), <- (lval_sum b), La, Lb, <- zsum_prod. fold pairs16.
  change (lval (repeat 0 31)) with 0 in V. rewrite Z.add_0_l in V. rewrite <- V.
  rewrite <- (firstn_skipn 16 v) at 3. rewrite lval_app. unfold zlen. rewrite firstn_length, Lv.
  change (W ^ Z.of_nat (Nat.min 16 31)) with (38 + 2 * p).
  replace (lval (firstn 16 v) + (38 + 2 * p) * lval (skipn 16 v))
    with (lval (firstn 16 v) + 38 * lval (skipn 16 v) + (2 * lval (skipn 16 v)) * p) by ring.
  symmetry. apply Z_mod_plus_full.
Qed.

Lemma fmul_norm {E} a b : norm a -> norm b -> exists r, fmul (E:=E) a b = Ok r /\ norm r /\ lval r mod p = (lval a * lval b) mod p.
Proof.
  intros Ha Hb. apply fmul_ok; try (apply norm_length; assumption);
    (eapply bnd_weaken; [|apply norm_bnd; assumption]; lia).
Qed.

(* ---------- inversion ---------- *)

Inductive eqp (a b : Z) : Prop := eqp_intro : a mod p = b mod p -> eqp a b.
Notation "a == b" := (eqp a b) (at level 70).

Lemma eqp_mod a b : a == b -> a mod p = b mod p.
Proof. intros [H]. exact H. Qed.
#[global] Instance eqp_equiv : Equivalence eqp.
Proof.
  split.
  - intros a. constructor. reflexivity.
  - intros a b [H]. constructor. symmetry. exact H.
  - intros a b c [H1] [H2]. constructor. congruence.
Qed.
#[global] Instance eqp_add : Proper (eqp ==> eqp ==> eqp) Z.add.
Proof. intros a b [H] c d [K]. constructor. rewrite Z.add_mod, H, K, <- Z.add_mod by discriminate. reflexivity. Qed.
#[global] Instance eqp_mul : Proper (eqp ==> eqp ==> eqp) Z.mul.
Proof. intros a b [H] c d [K]. constructor. rewrite Z.mul_mod, H, K, <- Z.mul_mod by discriminate. reflexivity. Qed.
#[global] Instance eqp_sub : Proper (eqp ==> eqp ==> eqp) Z.sub.
Proof. intros a b [H] c d [K]. constructor. rewrite Zminus_mod, H, K, <- Zminus_mod. reflexivity. Qed.

Definition next_exp (i : nat) (e : Z) : Z := if Nat.eqb i 2 || Nat.eqb i 4 then 2 * e else 2 * e + 1.
Fixpoint inv_exp (n : nat) (e : Z) : Z := match n with O => e | S i => inv_exp i (next_exp i e) end.

Lemma pow_double v e : 0 <= e -> v ^ (2 * e) = v ^ e * v ^ e.
Proof. intros H. replace (2 * e) with (e + e) by lia. apply Z.pow_add_r; lia. Qed.

Lemma finverse_go_ok {E} input : norm input -> forall n c e, norm c -> 0 <= e -> lval c == lval input ^ e ->
  exists r, finverse_go (E:=E) n input c = Ok r /\ norm r /\ lval r == lval input ^ inv_exp n e.
Proof.
  intros Hi. induction n as [|i IH]; intros c e Hc He Hv; cbn [finverse_go inv_exp].
  - exists c. auto.
  - destruct (fmul_norm (E:=E) c c Hc Hc) as (s & Es & Ns & Vs). rewrite Es. cbn [bind].
    assert (Vs' : lval s == lval input ^ (2 * e)).
    { rewrite pow_double by lia. rewrite <- Hv. constructor. exact Vs. }
    unfold next_exp. destruct (Nat.eqb i 2 || Nat.eqb i 4).
    + cbn [bind]. refine (IH s (2 * e) Ns _ Vs'). clear - He; lia.
    + destruct (fmul_norm (E:=E) s input Ns Hi) as (t & Et & Nt & Vt). rewrite Et. cbn [bind].
      refine (IH t (2 * e + 1) Nt _ _); [clear - He; lia|]. rewrite Z.pow_add_r by (clear - He; lia). rewrite Z.pow_1_r, <- Vs'. constructor. exact Vt.
Qed.

Theorem finverse_ok {E} input : norm input -> exists r, finverse (E:=E) input = Ok r /\ norm r /\ lval r == lval input ^ (p - 2).
Proof.
  intros Hi. destruct (finverse_go_ok (E:=E) input Hi 254 input 1 Hi ltac:(lia)) as (r & Er & Nr & Vr).
  - rewrite Z.pow_1_r. reflexivity.
  - exists r. split; [exact Er|]. split; [exact Nr|].
    assert (Hx : inv_exp 254 1 = p - 2) by (vm_compute; reflexivity). rewrite Hx in Vr. exact Vr.
Qed.

(* ---------- swapping ---------- *)

Lemma swap_1 a : forall b, length a = length b -> swap25519 a b 1 = (b, a).
Proof.
  unfold swap25519. change (Z.lnot (1 - 1)) with (-1).
  induction a as [|x a IH]; intros [|y b] L; try discriminate; [reflexivity|].
  cbn [combine map]. specialize (IH b ltac:(cbn in L; lia)). cbv zeta in IH. apply pair_equal_spec in IH as [I1 I2].
  cbv zeta. rewrite I1, I2, Z.land_m1_l. rewrite <- Z.lxor_assoc, Z.lxor_nilpotent, Z.lxor_0_l.
  rewrite (Z.lxor_comm x y), <- Z.lxor_assoc, Z.lxor_nilpotent, Z.lxor_0_l. reflexivity.
Qed.

Lemma swap_0 a : forall b, length a = length b -> swap25519 a b 0 = (a, b).
Proof.
  unfold swap25519. change (Z.lnot (0 - 1)) with 0.
  induction a as [|x a IH]; intros [|y b] L; try discriminate; [reflexivity|].
  cbn [combine map]. specialize (IH b ltac:(cbn in L; lia)). cbv zeta in IH. apply pair_equal_spec in IH as [I1 I2].
  cbv zeta. rewrite I1, I2, Z.land_0_l, !Z.lxor_0_r. reflexivity.
Qed.

Lemma swap_bit a b (k : bool) : length a = length b -> swap25519 a b (Z.b2z k) = if k then (b, a) else (a, b).
Proof. intros L. destruct k; cbn [Z.b2z]; [apply swap_1, L|apply swap_0, L]. Qed.

(* ---------- packing ---------- *)

Lemma carry_range {E} l : norm l -> 0 <= lval l < W16 ->
  exists r, carry25519 (E:=E) l = Ok r /\ length r = 16%nat /\ limbs r /\ lval r = lval l.
Proof.
  intros N H. destruct (carry_ok (E:=E) l (W + 38) (norm_length l N) (norm_bnd l N) ltac:(lia)) as (x & t & Er & Lt & Rt & X & V).
  rewrite (Z.div_small _ _ H) in X, V. cbn zeta in X, V. exists (x :: t). split; [exact Er|]. split; [cbn; lia|].
  split; [constructor; [lia|assumption]|]. lia.
Qed.

Lemma norm_lval_range l : norm l -> -38 <= lval l < W16 + 38.
Proof.
  intros (x & t & -> & L & Hx & Ht). pose proof (limbs_range t Ht) as R. unfold zlen in R. rewrite L in R.
  cbn [lval]. change W16 with (W * W ^ Z.of_nat 15). lia.
Qed.

Lemma carry_first {E} l : norm l -> exists r, carry25519 (E:=E) l = Ok r /\ norm r /\ 0 <= lval r < W16 /\ lval r == lval l.
Proof.
  intros N. destruct (carry_ok (E:=E) l (W + 38) (norm_length l N) (norm_bnd l N) ltac:(lia)) as (x & t & Er & Lt & Rt & X & V).
  pose proof (norm_lval_range l N) as R. set (q := lval l / W16) in *. cbn zeta in X, V.
  assert (HW : W16 = 2 ^ 256) by reflexivity.
  pose proof (Z.div_mod (lval l) W16 ltac:(lia)) as D. pose proof (Z.mod_pos_bound (lval l) W16 ltac:(lia)) as M. fold q in D.
  exists (x :: t). split; [exact Er|]. assert (-1 <= q <= 1) by (clearbody q; rewrite HW in *; nia).
  split; [exists x, t; repeat split; try assumption; lia|].
  split; [clearbody q; rewrite HW in *; assert (q = -1 \/ q = 0 \/ q = 1) as [ -> |[ -> | -> ]] by lia; lia|].
  rewrite V. constructor. apply carry_mod.
Qed.

Lemma land_ffff z : Z.land z 0xffff = z mod W.
Proof. change 0xffff with (Z.ones 16). apply Z.land_ones. lia. Qed.

Lemma borrow_bit m : - W <= m < W -> Z.land (Z.shiftr m 16) 1 = if m <? 0 then 1 else 0.
Proof.
  intros H. rewrite Z.shiftr_div_pow2 by lia. change (2 ^ 16) with W.
  destruct (Z.ltb_spec m 0).
  - replace (m / W) with (-1); [reflexivity|]. apply Z.div_unique with (r := m + W); lia.
  - rewrite Z.div_small by lia. reflexivity.
Qed.

Lemma sub_go_ok {E} t : forall md b, limbs t -> limbs md -> length t = length md -> t <> [] -> 0 <= b <= 1 ->
  exists r c, sub_go (E:=E) t md b = Ok (r, c) /\ length r = length t /\ lval r = lval t - lval md - b /\
  c = (if lval r <? 0 then 1 else 0) /\ (0 <= lval r -> limbs r).
Proof.
  induction t as [|x t IH]; intros [|y md] b Ht Hm L NE Hb; try discriminate; [congruence|].
  inversion Ht as [|? ? Hx Ht']; inversion Hm as [|? ? Hy Hm']; subst.
  assert (Hs : - W <= x - y - b < W) by lia.
  destruct t as [|x2 t].
  - destruct md as [|]; [|discriminate]. cbn [sub_go]. rewrite ck_ok by lia. cbn [bind]. rewrite ck_ok by lia. cbn [bind].
    eexists _, _. split; [reflexivity|]. cbn [length lval]. split; [reflexivity|]. split; [lia|].
    rewrite borrow_bit by lia. rewrite Z.mul_0_r, Z.add_0_r. split; [reflexivity|]. intros. constructor; [lia|constructor].
  - destruct md as [|y2 md]; [discriminate|].
    destruct (IH (y2 :: md) (Z.land (Z.shiftr (x - y - b) 16) 1) Ht' Hm' ltac:(cbn in *; lia) ltac:(discriminate)) as (r & c & Er & Lr & Vr & Cr & Rr).
    { rewrite borrow_bit by lia. destruct (_ <? 0); lia. }
    remember (x2 :: t) as T eqn:HT. remember (y2 :: md) as MD eqn:HMD.
    assert (ES : sub_go (E:=E) (x :: T) (y :: MD) b =
      let! m := ck (x - y) in let! m := ck (m - b) in
      let! (r, c) := sub_go T MD (Z.land (Z.shiftr m 16) 1) in Ok (Z.land m 0xffff :: r, c)) by (subst T MD; reflexivity).
    rewrite ES. rewrite ck_ok by lia. cbn [bind]. rewrite ck_ok by lia. cbn [bind]. rewrite Er. cbn [bind].
    eexists _, _. split; [reflexivity|]. cbn [length lval]. rewrite land_ffff. split; [lia|].
    rewrite borrow_bit in Vr by lia.
    assert (Hv : (x - y - b) mod W + W * lval r = x + W * lval T - (y + W * lval MD) - b).
    { destruct (Z.ltb_spec (x - y - b) 0).
      - replace ((x - y - b) mod W) with (x - y - b + W); [lia|]. apply Z.mod_unique with (q := -1); lia.
      - rewrite Z.mod_small by lia. lia. }
    pose proof (Z.mod_pos_bound (x - y - b) W ltac:(lia)) as M. split; [lia|]. split.
    + rewrite Cr. destruct (Z.ltb_spec (lval r) 0), (Z.ltb_spec ((x - y - b) mod W + W * lval r) 0); try reflexivity; lia.
    + intros H. constructor; [lia|]. apply Rr. lia.
Qed.

Lemma modulus_limbs_ok : limbs modulus_limbs /\ lval modulus_limbs = p /\ length modulus_limbs = 16%nat.
Proof. split; [repeat constructor; lia|]. split; reflexivity. Qed.

Lemma cond_sub_ok {E} t : limbs t -> length t = 16%nat ->
  exists r, cond_sub (E:=E) t = Ok r /\ length r = 16%nat /\ limbs r /\ lval r = if lval t <? p then lval t else lval t - p.
Proof.
  intros Ht L. destruct modulus_limbs_ok as (Hm & Vm & Lm).
  destruct (sub_go_ok (E:=E) t modulus_limbs 0 Ht Hm ltac:(lia) ltac:(destruct t; [discriminate|congruence]) ltac:(lia)) as (r & c & Er & Lr & Vr & Cr & Rr).
  unfold cond_sub. rewrite Er. cbn [bind]. rewrite Vm in Vr. rewrite Cr.
  destruct (Z.ltb_spec (lval r) 0).
  - change (1 - 1) with 0. rewrite swap_0 by lia. exists t. split; [reflexivity|]. split; [assumption|]. split; [assumption|].
    destruct (Z.ltb_spec (lval t) p); [reflexivity|lia].
  - change (1 - 0) with 1. rewrite swap_1 by lia. exists r. split; [reflexivity|]. split; [lia|]. split; [apply Rr; lia|].
    destruct (Z.ltb_spec (lval t) p); lia.
Qed.

Lemma flat_bytes t : limbs t -> flat_map (fun x => [u8 x; u8 (Z.shiftr x 8)]) t = le_enc (2 * length t) (lval t).
Proof.
  intros H. induction H as [|x t Hx Ht IH]; [reflexivity|]. cbn [flat_map app length].
  replace (2 * S (length t))%nat with (S (S (2 * length t))) by lia. cbn [le_enc lval]. rewrite IH. unfold u8.
  rewrite Z.shiftr_div_pow2 by lia. change (2 ^ 8) with 256.
  assert (D : x / 256 < 256) by (apply Z.div_lt_upper_bound; lia). assert (0 <= x / 256) by (apply Z.div_pos; lia).
  assert (E1 : (x + W * lval t) / 256 = x / 256 + 256 * lval t).
  { replace (x + W * lval t) with (x + (256 * lval t) * 256) by ring. apply Z.div_add. lia. }
  rewrite E1. f_equal; [|f_equal].
  - replace (x + W * lval t) with (x + (256 * lval t) * 256) by ring. symmetry. apply Z_mod_plus_full.
  - replace (x / 256 + 256 * lval t) with (x / 256 + lval t * 256) by ring. symmetry. apply Z_mod_plus_full.
  - f_equal. replace (x / 256 + 256 * lval t) with (x / 256 + lval t * 256) by ring. rewrite Z.div_add by lia.
    rewrite (Z.div_small (x / 256)) by lia. reflexivity.
Qed.

Theorem pack_ok {E} l : norm l -> pack25519 (E:=E) l = Ok (encodeUCoordinate (lval l)).
Proof.
  intros N. unfold pack25519.
  destruct (carry_first (E:=E) l N) as (t1 & E1 & N1 & R1 & V1). rewrite E1. cbn [bind].
  destruct (carry_range (E:=E) t1 N1 R1) as (t2 & E2 & L2 & B2 & V2). rewrite E2. cbn [bind].
  destruct (carry_range (E:=E) t2 (limbs_norm t2 L2 B2) ltac:(lia)) as (t3 & E3 & L3 & B3 & V3). rewrite E3. cbn [bind].
  destruct (cond_sub_ok (E:=E) t3 B3 L3) as (t4 & E4 & L4 & B4 & V4). rewrite E4. cbn [bind].
  destruct (cond_sub_ok (E:=E) t4 B4 L4) as (t5 & E5 & L5 & B5 & V5). rewrite E5. cbn [bind].
  rewrite flat_bytes by assumption. rewrite L5. unfold encodeUCoordinate. change (2 * 16)%nat with 32%nat. do 2 f_equal.
  pose proof (limbs_range t3 B3) as R3. unfold zlen in R3. rewrite L3 in R3. change (W ^ Z.of_nat 16) with (38 + 2 * p) in R3.
  pose proof (limbs_range t5 B5) as R5.
  rewrite <- (eqp_mod _ _ V1). rewrite <- V2, <- V3.
  assert (Hp : p = 2 ^ 255 - 19) by reflexivity.
  destruct (Z.ltb_spec (lval t3) p).
  - rewrite Z.mod_small by lia. rewrite V5, V4. destruct (Z.ltb_spec (lval t3) p); lia.
  - rewrite V4 in V5. destruct (Z.ltb_spec (lval t3 - p) p).
    + rewrite V5. apply Z.mod_unique with (q := 1); lia.
    + rewrite V5. apply Z.mod_unique with (q := 2); lia.
Qed.

(* ---------- unpacking and the scalar ---------- *)

Lemma unpack_ok u : is_bytes u -> length u = 32%nat ->
  length (unpack25519 u) = 16%nat /\ limbs (unpack25519 u) /\ lval (unpack25519 u) = decodeUCoordinate u.
Proof.
  intros Hu L. split; [reflexivity|].
  do 32 (destruct u as [|? u]; [discriminate L|]). destruct u; [|discriminate L]. clear L.
  unfold is_bytes in Hu. repeat match goal with H : Forall _ (_ :: _) |- _ => apply Forall_cons_iff in H as [? H] end.
  unfold is_byte in *.
  unfold unpack25519. cbn [seq map Nat.mul Nat.add nth Nat.eqb]. rewrite !Z.shiftl_mul_pow2 by lia. change (2 ^ 8) with 256.
  change 0x7fff with (Z.ones 15). rewrite Z.land_ones by lia.
  match goal with |- context [?x mod 2 ^ 15] => set (top := x); assert (Htop : 0 <= top < W) by lia;
    pose proof (Z.mod_pos_bound top (2 ^ 15) ltac:(lia)) as Mtop end.
  split.
  - repeat constructor; lia.
  - unfold decodeUCoordinate. rewrite !le_val_cons. cbn [lval]. change (le_val []) with 0.
    pose proof (Z.div_mod top (2 ^ 15) ltac:(lia)) as D. unfold top in D at 1.
    apply Z.mod_unique_pos with (q := top / 2 ^ 15); lia.
Qed.

Lemma testbit_le_val l : is_bytes l -> forall i, Z.testbit (le_val l) (Z.of_nat i) = Z.testbit (nth (i / 8) l 0) (Z.of_nat (i mod 8)).
Proof.
  induction 1 as [|b l Hb Hl IH]; intros i.
  - destruct (i / 8)%nat; cbn [nth le_val fold_right]; rewrite !Z.bits_0; reflexivity.
  - rewrite le_val_cons. destruct (Nat.lt_ge_cases i 8) as [C|C].
    + rewrite Nat.div_small, Nat.mod_small by lia. cbn [nth].
      rewrite <- (Z.mod_pow2_bits_low (b + 256 * le_val l) 8) by lia. f_equal.
      change (2 ^ 8) with 256. replace (b + 256 * le_val l) with (b + le_val l * 256) by ring. rewrite Z_mod_plus_full.
      apply Z.mod_small. exact Hb.
    + replace i with (i - 8 + 1 * 8)%nat at 2 3 by lia. rewrite Nat.div_add, Nat.mod_add by lia.
      replace (((i - 8) / 8) + 1)%nat with (S ((i - 8) / 8)) by lia. cbn [nth]. rewrite <- IH.
      replace (Z.of_nat i) with (Z.of_nat (i - 8) + 8) by lia. rewrite <- Z.div_pow2_bits by lia.
      f_equal. change (2 ^ 8) with 256. replace (b + 256 * le_val l) with (b + le_val l * 256) by ring.
      rewrite Z.div_add by lia. rewrite (Z.div_small b) by exact Hb. lia.
Qed.

Lemma byte_sweep (f : Z -> bool) : forallb f (map Z.of_nat (seq 0 256)) = true -> forall b, is_byte b -> f b = true.
Proof.
  intros H b Hb. rewrite forallb_forall in H. apply H. apply in_map_iff. exists (Z.to_nat b). unfold is_byte in Hb.
  split; [lia|]. apply in_seq. lia.
Qed.

Lemma land_f8 b : is_byte b -> Z.land b 0xf8 = 8 * (b / 8).
Proof. intros H. apply Z.eqb_eq. revert b H. apply byte_sweep. vm_compute. reflexivity. Qed.
Lemma lor_40 b : is_byte b -> Z.lor (Z.land b 0x7f) 0x40 = 64 + b mod 64.
Proof. intros H. apply Z.eqb_eq. revert b H. apply byte_sweep. vm_compute. reflexivity. Qed.

Lemma clamp_split k : is_bytes k -> length k = 32%nat -> exists b0 m b31, k = b0 :: m ++ [b31] /\ length m = 30%nat /\
  is_byte b0 /\ is_bytes m /\ is_byte b31.
Proof.
  intros Hk L. destruct k as [|b0 k]; [discriminate|]. inversion Hk as [|? ? H0 Hk']; subst.
  destruct (exists_last (l := k)) as (m & b31 & ->); [destruct k; [discriminate|congruence]|].
  exists b0, m, b31. apply Forall_app in Hk' as [Hm H31]. inversion H31; subst. cbn in L. rewrite app_length in L. cbn in L.
  split; [reflexivity|]. split; [lia|]. auto.
Qed.

Lemma clamp_ok k : is_bytes k -> length k = 32%nat -> is_bytes (clamp k) /\ le_val (clamp k) = decodeScalar k.
Proof.
  intros Hk L. destruct (clamp_split k Hk L) as (b0 & m & b31 & -> & Lm & H0 & Hm & H31).
  unfold clamp. rewrite removelast_last, last_last. rewrite land_f8, lor_40 by assumption. unfold is_byte in H0, H31.
  pose proof (Z.div_mod b0 8 ltac:(lia)) as D0. pose proof (Z.mod_pos_bound b0 8 ltac:(lia)) as M0.
  pose proof (Z.div_mod b31 64 ltac:(lia)) as D1. pose proof (Z.mod_pos_bound b31 64 ltac:(lia)) as M1.
  split.
  - constructor; [unfold is_byte; lia|]. apply Forall_app. split; [assumption|]. constructor; [unfold is_byte; lia|constructor].
  - unfold decodeScalar. rewrite !le_val_cons, !le_val_app. unfold zlen. rewrite Lm. change (256 ^ Z.of_nat 30) with (2 ^ 240).
    cbn [le_val fold_right]. pose proof (le_val_range m Hm) as Rm. unfold zlen in Rm. rewrite Lm in Rm. change (256 ^ Z.of_nat 30) with (2 ^ 240) in Rm.
    rewrite !Z.mul_0_r, !Z.add_0_r.
    assert (E1 : (b0 + 256 * (le_val m + 2 ^ 240 * b31)) / 8 = b0 / 8 + 32 * le_val m + 2 ^ 245 * b31).
    { symmetry. apply Z.div_unique with (r := b0 mod 8); lia. }
    rewrite E1.
    assert (E2 : (b0 / 8 + 32 * le_val m + 2 ^ 245 * b31) mod 2 ^ 251 = b0 / 8 + 32 * le_val m + 2 ^ 245 * (b31 mod 64)).
    { symmetry. apply Z.mod_unique with (q := b31 / 64); lia. }
    rewrite E2. lia.
Qed.

Lemma bit_at_ok k i : is_bytes k -> length k = 32%nat -> bit_at (clamp k) i = Z.b2z (Z.testbit (decodeScalar k) (Z.of_nat i)).
Proof.
  intros Hk L. destruct (clamp_ok k Hk L) as [Hb Hv]. rewrite <- Hv, testbit_le_val by assumption.
  unfold bit_at. set (x := nth (i / 8) (clamp k) 0). set (j := Z.of_nat (i mod 8)).
  change 1 with (Z.ones 1). rewrite Z.land_ones by lia. rewrite Z.shiftr_div_pow2 by lia. rewrite Z.testbit_spec' by lia. reflexivity.
Qed.

(* ---------- the ladder ---------- *)

Lemma small_ok l : norm l -> length l = 16%nat /\ bnd (2 ^ 17) l.
Proof. intros N. split; [apply norm_length, N|]. eapply bnd_weaken; [|apply norm_bnd, N]. lia. Qed.

Definition sized (l : list Z) : Prop := length l = 16%nat /\ bnd (2 ^ 18) l.
Lemma norm_sized l : norm l -> sized l.
Proof. intros N. destruct (small_ok l N) as [L B]. split; [exact L|]. revert B. apply bnd_weaken. lia. Qed.

Lemma add_norm {E} a b : norm a -> norm b -> exists r, fadd (E:=E) a b = Ok r /\ sized r /\ lval r = lval a + lval b.
Proof.
  intros Na Nb. destruct (small_ok a Na) as [La Ba], (small_ok b Nb) as [Lb Bb].
  destruct (fadd_ok (E:=E) a b (2 ^ 17) (2 ^ 17) ltac:(lia) Ba Bb ltac:(lia) ltac:(lia)) as (r & Er & Lr & Br & V).
  exists r. split; [exact Er|]. split; [split; [lia|exact Br]|exact V].
Qed.
Lemma sub_norm {E} a b : norm a -> norm b -> exists r, fsub (E:=E) a b = Ok r /\ sized r /\ lval r = lval a - lval b.
Proof.
  intros Na Nb. destruct (small_ok a Na) as [La Ba], (small_ok b Nb) as [Lb Bb].
  destruct (fsub_ok (E:=E) a b (2 ^ 17) (2 ^ 17) ltac:(lia) Ba Bb ltac:(lia) ltac:(lia)) as (r & Er & Lr & Br & V).
  exists r. split; [exact Er|]. split; [split; [lia|exact Br]|exact V].
Qed.
Lemma mul_sized {E} a b : sized a -> sized b -> exists r, fmul (E:=E) a b = Ok r /\ norm r /\ lval r == lval a * lval b.
Proof. intros [La Ba] [Lb Bb]. destruct (fmul_ok (E:=E) a b La Lb Ba Bb) as (r & Er & N & V). exists r. split; [exact Er|]. split; [exact N|]. constructor. exact V. Qed.

Lemma constant_sized : sized constant.
Proof. split; [reflexivity|]. repeat constructor; lia. Qed.

Ltac fstep L := let r := fresh "r" in let Er := fresh "Er" in let N := fresh "N" in let V := fresh "V" in
  destruct L as (r & Er & N & V); rewrite Er; cbn [bind].

Lemma eqm_mod a : a mod p == a.
Proof. constructor. apply Z.mod_mod. discriminate. Qed.

Lemma step_ok {E} x a b c d : norm x -> norm a -> norm b -> norm c -> norm d ->
  exists a' b' c' d', ladder_step (E:=E) x a b c d = Ok (a', b', c', d') /\ norm a' /\ norm b' /\ norm c' /\ norm d' /\
  forall x1 x2 z2 x3 z3, lval x == x1 -> lval a == x2 -> lval b == x3 -> lval c == z2 -> lval d == z3 ->
  let '(x2', z2', x3', z3') := montgomery_step x1 x2 z2 x3 z3 in
  lval a' == x2' /\ lval b' == x3' /\ lval c' == z2' /\ lval d' == z3'.
Proof.
  intros Nx Na Nb Nc Nd. unfold ladder_step.
  fstep (add_norm (E:=E) a c Na Nc). fstep (sub_norm (E:=E) a c Na Nc).
  fstep (add_norm (E:=E) b d Nb Nd). fstep (sub_norm (E:=E) b d Nb Nd).
  fstep (mul_sized (E:=E) r r N N). fstep (mul_sized (E:=E) r0 r0 N0 N0).
  fstep (mul_sized (E:=E) r1 r0 N1 N0). fstep (mul_sized (E:=E) r2 r N2 N).
  fstep (add_norm (E:=E) r5 r6 N5 N6). fstep (sub_norm (E:=E) r5 r6 N5 N6).
  fstep (mul_sized (E:=E) r8 r8 N8 N8). fstep (sub_norm (E:=E) r3 r4 N3 N4).
  fstep (mul_sized (E:=E) r10 constant N10 constant_sized). fstep (add_norm (E:=E) r11 r3 N11 N3).
  fstep (mul_sized (E:=E) r10 r12 N10 N12). fstep (mul_sized (E:=E) r3 r4 (norm_sized _ N3) (norm_sized _ N4)).
  fstep (mul_sized (E:=E) r9 x (norm_sized _ N9) (norm_sized _ Nx)). fstep (mul_sized (E:=E) r7 r7 N7 N7).
  eexists _, _, _, _. split; [reflexivity|]. do 4 (split; [assumption|]).
  intros x1 x2 z2 x3 z3 Hx Ha Hb Hc Hd. unfold montgomery_step. cbv zeta. rewrite !eqm_mod.
  change (lval constant) with 121665 in V11.
  assert (A3 : lval r3 == (x2 + z2) ^ 2) by (rewrite V3, V, Ha, Hc; replace ((x2 + z2) ^ 2) with ((x2 + z2) * (x2 + z2)) by ring; reflexivity).
  assert (A4 : lval r4 == (x2 - z2) ^ 2) by (rewrite V4, V0, Ha, Hc; replace ((x2 - z2) ^ 2) with ((x2 - z2) * (x2 - z2)) by ring; reflexivity).
  assert (A5 : lval r5 == (x3 + z3) * (x2 - z2)) by (rewrite V5, V1, V0, Ha, Hc, Hb, Hd; reflexivity).
  assert (A6 : lval r6 == (x3 - z3) * (x2 + z2)) by (rewrite V6, V2, V, Ha, Hc, Hb, Hd; reflexivity).
  assert (A11 : lval r12 == (x2 + z2) ^ 2 + a24 * ((x2 + z2) ^ 2 - (x2 - z2) ^ 2)).
  { rewrite V12, V11, V10, A3, A4. unfold a24. match goal with |- ?l == ?r => replace l with r by ring end. reflexivity. }
  split; [rewrite V14, A3, A4; reflexivity|].
  split; [rewrite V16, V7, A5, A6; match goal with |- ?l == ?r => replace l with r by ring end; reflexivity|].
  split; [rewrite V13, A11, V10, A3, A4; reflexivity|].
  rewrite V15, V9, V8, A5, A6, Hx. match goal with |- ?l == ?r => replace l with r by ring end; reflexivity.
Qed.

Lemma cswap_eq (s : bool) (x y : Z) : cswap s x y = (if s then y else x, if s then x else y).
Proof. destruct s; reflexivity. Qed.

Lemma ladder_ok {E} k x x1 : is_bytes k -> length k = 32%nat -> norm x -> lval x == x1 ->
  forall n a b c d x2 z2 x3 z3 (swap : bool), norm a -> norm b -> norm c -> norm d ->
  lval a == (if swap then x3 else x2) -> lval b == (if swap then x2 else x3) ->
  lval c == (if swap then z3 else z2) -> lval d == (if swap then z2 else z3) ->
  exists a' c', ladder (E:=E) n (clamp k) x a b c d = Ok (a', c') /\ norm a' /\ norm c' /\
  let '(x2', z2') := x25519_loop n (decodeScalar k) x1 x2 z2 x3 z3 swap in lval a' == x2' /\ lval c' == z2'.
Proof.
  intros Hk Lk Nx Hx. induction n as [|i IH]; intros a b c d x2 z2 x3 z3 swap Na Nb Nc Nd Ha Hb Hc Hd.
  - cbn [ladder x25519_loop]. rewrite !cswap_eq. exists a, c. auto.
  - cbn [ladder x25519_loop]. rewrite bit_at_ok by assumption. set (kt := Z.testbit (decodeScalar k) (Z.of_nat i)).
    pose proof (norm_length _ Na). pose proof (norm_length _ Nb). pose proof (norm_length _ Nc). pose proof (norm_length _ Nd).
    rewrite (swap_bit a b) by lia. rewrite (swap_bit c d) by lia. rewrite !cswap_eq.
    assert (Q : forall (A B C D : list Z) X2 X3 Z2 Z3, norm A -> norm B -> norm C -> norm D ->
      lval A == X2 -> lval B == X3 -> lval C == Z2 -> lval D == Z3 ->
      exists a' c', (let! (a, b, c, d) := ladder_step x A B C D in
        let '(a, b) := swap25519 a b (Z.b2z kt) in let '(c, d) := swap25519 c d (Z.b2z kt) in ladder (E:=E) i (clamp k) x a b c d) = Ok (a', c') /\
        norm a' /\ norm c' /\
        let '(x2', z2') := let '(x2, z2, x3, z3) := montgomery_step x1 X2 Z2 X3 Z3 in x25519_loop i (decodeScalar k) x1 x2 z2 x3 z3 kt in
        lval a' == x2' /\ lval c' == z2').
    { intros A B C D X2 X3 Z2 Z3 NA NB NC ND HA HB HC HD.
      destruct (step_ok (E:=E) x A B C D Nx NA NB NC ND) as (a' & b' & c' & d' & ES & Na' & Nb' & Nc' & Nd' & HS).
      rewrite ES. cbn [bind]. specialize (HS x1 X2 Z2 X3 Z3 Hx HA HB HC HD).
      destruct (montgomery_step x1 X2 Z2 X3 Z3) as [[[x2' z2'] x3'] z3']. destruct HS as (S1 & S2 & S3 & S4).
      pose proof (norm_length _ Na'). pose proof (norm_length _ Nb'). pose proof (norm_length _ Nc'). pose proof (norm_length _ Nd').
      rewrite (swap_bit a' b') by lia. rewrite (swap_bit c' d') by lia. destruct kt; apply IH; assumption. }
    destruct swap, kt; cbn [xorb]; apply Q; assumption.
Qed.

Lemma powm_eq b e : powm b e = b ^ Zpos e mod p.
Proof.
  induction e as [e IH|e IH|]; cbn [powm].
  - rewrite IH. rewrite Pos2Z.inj_xI, Z.pow_add_r, pow_double by lia. rewrite Z.pow_1_r.
    rewrite <- Z.mul_mod by discriminate. rewrite Z.mul_mod_idemp_r by discriminate. f_equal. ring.
  - rewrite IH. rewrite Pos2Z.inj_xO, pow_double by lia. rewrite <- Z.mul_mod by discriminate. reflexivity.
  - rewrite Z.pow_1_r. reflexivity.
Qed.

Lemma pow_eqm a b e : 0 <= e -> a == b -> a ^ e == b ^ e.
Proof.
  intros He H. revert e He. apply natlike_ind; [reflexivity|]. intros e He IH. rewrite !Z.pow_succ_r by lia. apply eqp_mul; assumption.
Qed.

Lemma consts_norm : norm one /\ norm zero.
Proof. split; (apply limbs_norm; [reflexivity|repeat constructor; lia]). Qed.

Lemma final_gen {E} a c x2 z2 : norm a -> norm c -> lval a == x2 -> lval c == z2 ->
  (let! c := finverse (E:=E) c in let! a := fmul a c in pack25519 a) =
  Ok (encodeUCoordinate ((x2 * powm z2 (Z.to_pos (p - 2))) mod p)).
Proof.
  intros Na Nc Ha Hc. destruct (finverse_ok (E:=E) c Nc) as (i & Ei & Ni & Vi). rewrite Ei. cbn [bind].
  destruct (fmul_norm (E:=E) a i Na Ni) as (r & Er & Nr & Vr). rewrite Er. cbn [bind]. rewrite pack_ok by assumption.
  unfold encodeUCoordinate. do 2 f_equal. rewrite Z.mod_mod by discriminate. apply eqp_mod.
  rewrite powm_eq, eqm_mod. change (Z.pos (Z.to_pos (p - 2))) with (p - 2).
  apply eqp_intro in Vr. rewrite Vr, Ha, Vi. rewrite (pow_eqm (lval c) z2) by (try assumption; vm_compute; discriminate).
  reflexivity.
Qed.

Theorem scalarmult_ok {E} u k : is_bytes u -> is_bytes k -> length u = 32%nat -> length k = 32%nat ->
  scalarmult (E:=E) u k = Ok (X25519 k u).
Proof.
  intros Hu Hk Lu Lk. unfold scalarmult. destruct (unpack_ok u Hu Lu) as (L & B & V). destruct consts_norm as [N1 N0].
  pose proof (limbs_norm _ L B) as Nx.
  destruct (ladder_ok (E:=E) k (unpack25519 u) (decodeUCoordinate u) Hk Lk Nx ltac:(rewrite V; reflexivity)
    255 one (unpack25519 u) zero one 1 0 (decodeUCoordinate u) 1 false N1 Nx N0 N1) as (a & c & El & Na & Nc & HV).
  1,3,4: reflexivity.
  { rewrite V. reflexivity. }
  rewrite El. cbn [bind]. unfold X25519, x25519_num.
  destruct (x25519_loop 255 (decodeScalar k) (decodeUCoordinate u) 1 0 (decodeUCoordinate u) 1 false) as [x2 z2].
  destruct HV as [Ha Hc]. apply final_gen; assumption.
Qed.
