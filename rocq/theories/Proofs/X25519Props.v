From Coq Require Import ZArith Znumtheory Lia List Bool.
From Verif.Model Require Import Base X25519.
From Verif.Spec Require Import Enc Limbs Rfc7748.
From Verif.Proofs Require Import Number Util Bytes X25519 Dh25519.
From Verif.Proofs Require Fp.
Import ListNotations.
Open Scope Z_scope.

Lemma value_eq l : limbs_value l = lval l.
Proof. induction l as [|x l IH]; [reflexivity|]. cbn [limbs_value lval]. rewrite IH. reflexivity. Qed.
Lemma reduced_norm l : limbs_reduced l <-> norm l.
Proof. reflexivity. Qed.
Lemma within_sized l : limbs_within (2 ^ 18) l <-> sized l.
Proof. reflexivity. Qed.

Lemma add_ok {E} a b : limbs_reduced a -> limbs_reduced b ->
  exists r, fadd (E:=E) a b = Ok r /\ limbs_within (2 ^ 18) r /\ limbs_value r = limbs_value a + limbs_value b.
Proof. rewrite !value_eq. intros Ha Hb. destruct (add_norm (E:=E) a b Ha Hb) as (r & Er & S & V). exists r. rewrite (value_eq r). auto. Qed.
Lemma sub_ok {E} a b : limbs_reduced a -> limbs_reduced b ->
  exists r, fsub (E:=E) a b = Ok r /\ limbs_within (2 ^ 18) r /\ limbs_value r = limbs_value a - limbs_value b.
Proof. rewrite !value_eq. intros Ha Hb. destruct (sub_norm (E:=E) a b Ha Hb) as (r & Er & S & V). exists r. rewrite (value_eq r). auto. Qed.
Lemma mul_ok {E} a b : limbs_within (2 ^ 18) a -> limbs_within (2 ^ 18) b ->
  exists r, fmul (E:=E) a b = Ok r /\ limbs_reduced r /\
    limbs_value r mod p25519 = (limbs_value a * limbs_value b) mod p25519.
Proof.
  rewrite !value_eq. intros Ha Hb. destruct (mul_sized (E:=E) a b Ha Hb) as (r & Er & S & V).
  exists r. rewrite (value_eq r). split; [exact Er|]. split; [exact S|]. apply eqp_mod, V.
Qed.

Lemma fermat p a : prime p -> 2 < p -> a mod p <> 0 -> (a * a ^ (p - 2)) mod p = 1.
Proof.
  intros Hp H2 Ha.
  pose proof (Fp.inj_inv p Hp a) as I.
  assert (N : Fp.inj p Hp a <> Fp.F0 p Hp).
  { apply (Fp.inj_nz p Hp). intros D. apply Ha. apply Z.mod_divide; [lia|exact D]. }
  pose proof (Fp.Finv_l p Hp (Fp.inj p Hp a) N) as L. rewrite <- I, <- Fp.inj_mul in L.
  unfold Fp.F1 in L. apply Fp.inj_eq in L. rewrite (Z.mod_small 1 p) in L by lia. rewrite Z.mul_comm. exact L.
Qed.

Lemma inverse_ok {E} a : limbs_reduced a -> limbs_value a mod p25519 <> 0 ->
  exists r, finverse (E:=E) a = Ok r /\ limbs_reduced r /\ (limbs_value a * limbs_value r) mod p25519 = 1.
Proof.
  rewrite value_eq. intros Ha Hz. destruct (finverse_ok (E:=E) a Ha) as (r & Er & Nr & V).
  exists r. split; [exact Er|]. split; [exact Nr|]. rewrite (value_eq r). apply eqp_mod in V.
  rewrite <- Z.mul_mod_idemp_r, V, Z.mul_mod_idemp_r by discriminate.
  apply fermat; [exact Hp25519|exact p25519_big|exact Hz].
Qed.

Lemma pow_zero_mod q a e : 1 < q -> 0 < e -> a mod q = 0 -> a ^ e mod q = 0.
Proof.
  intros Hq He Ha. replace e with (Z.succ (e - 1)) by lia. rewrite Z.pow_succ_r by lia.
  rewrite <- Z.mul_mod_idemp_l, Ha by lia. reflexivity.
Qed.
Lemma inverse_zero {E} a : limbs_reduced a -> limbs_value a mod p25519 = 0 ->
  exists r, finverse (E:=E) a = Ok r /\ limbs_reduced r /\ limbs_value r mod p25519 = 0.
Proof.
  rewrite value_eq. intros Ha Hz. destruct (finverse_ok (E:=E) a Ha) as (r & Er & Nr & V).
  exists r. split; [exact Er|]. split; [exact Nr|]. rewrite (value_eq r). apply eqp_mod in V. rewrite V.
  apply pow_zero_mod; [reflexivity|reflexivity|exact Hz].
Qed.

Lemma pack_ok {E} a : limbs_reduced a ->
  exists bytes, pack25519 (E:=E) a = Ok bytes /\ length bytes = 32%nat /\ is_bytes bytes /\
    le_val bytes = limbs_value a mod p25519.
Proof.
  intros Ha. exists (encodeUCoordinate (lval a)). rewrite (value_eq a). split; [apply X25519.pack_ok, Ha|].
  unfold encodeUCoordinate. split; [apply le_enc_length|]. split; [apply le_enc_bytes|].
  rewrite le_val_enc. apply Z.mod_small. pose proof (Z.mod_pos_bound (lval a) p25519 ltac:(reflexivity)).
  change (256 ^ Z.of_nat 32) with (2 ^ 256). assert (p25519 = 2 ^ 255 - 19) by reflexivity. lia.
Qed.

Lemma unpack_ok u : is_bytes u -> length u = 32%nat ->
  limbs_reduced (unpack25519 u) /\ limbs_value (unpack25519 u) = le_val u mod 2 ^ 255.
Proof. intros H L. rewrite value_eq. destruct (X25519.unpack_ok u H L) as (A & B & C). split; [apply limbs_norm; assumption|exact C]. Qed.

Lemma reduced_within a : limbs_reduced a -> limbs_within (2 ^ 18) a.
Proof. intros H. apply norm_sized. exact H. Qed.

Lemma X25519_bytes k u : is_bytes (X25519 k u) /\ length (X25519 k u) = 32%nat /\ le_val (X25519 k u) < p25519.
Proof.
  unfold X25519, encodeUCoordinate. split; [apply le_enc_bytes|]. split; [apply le_enc_length|].
  rewrite le_val_enc. set (x := x25519_num _ _). pose proof (Z.mod_pos_bound x p25519 ltac:(reflexivity)).
  assert (0 <= x mod p25519 < 256 ^ Z.of_nat 32). { change (256 ^ Z.of_nat 32) with (2 ^ 256). assert (p25519 = 2 ^ 255 - 19) by reflexivity. lia. }
  rewrite Z.mod_small by assumption. lia.
Qed.

Definition nine : list Z := 9 :: repeat 0 31.
Lemma nine_ok : is_bytes nine /\ length nine = 32%nat /\ nine = le_enc 32 9.
Proof. split; [|split; reflexivity]. unfold nine; cbn [repeat]. unfold is_bytes. repeat constructor; lia. Qed.

Lemma agreement {E} a b pa pb sa sb :
  is_bytes a -> is_bytes b -> length a = 32%nat -> length b = 32%nat ->
  scalarmult (E:=E) nine a = Ok pa -> scalarmult (E:=E) nine b = Ok pb ->
  scalarmult (E:=E) pb a = Ok sa -> scalarmult (E:=E) pa b = Ok sb -> sa = sb.
Proof.
  intros Ha Hb La Lb. destruct nine_ok as (N1 & N2 & N3).
  rewrite !scalarmult_ok by assumption. intros H1 H2.
  injection H1 as H1. injection H2 as H2. subst pa pb. rewrite N3.
  destruct (X25519_bytes a (le_enc 32 9)) as (B1 & B2 & _), (X25519_bytes b (le_enc 32 9)) as (B3 & B4 & _).
  rewrite !scalarmult_ok by assumption. intros H1 H2. injection H1 as H1. injection H2 as H2. subst sa sb. apply agree; assumption.
Qed.

Lemma total {E} a : is_bytes a -> length a = 32%nat ->
  exists pa, scalarmult (E:=E) nine a = Ok pa /\ is_bytes pa /\ length pa = 32%nat /\ le_val pa < p25519.
Proof.
  intros Ha La. destruct nine_ok as (N1 & N2 & N3). exists (X25519 a nine). rewrite scalarmult_ok by assumption.
  split; [reflexivity|]. apply X25519_bytes.
Qed.
