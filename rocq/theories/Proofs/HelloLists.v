(* signature_algorithms and supported_groups of any length *)
From Coq Require Import Lia.
From Verif.Model Require Import Base Extensions.
From Verif.Spec Require Import Enc Rfc8446Hello.
From Verif.Proofs Require Import Util Bytes Hello.

Lemma entries l : flat_map (fun v => [hi v; lo v]) l = u16s l.
Proof. unfold u16s. induction l as [|v l IH]; [reflexivity|]. cbn [flat_map]. rewrite IH. f_equal. unfold Rfc8446Hello.u16. now rewrite enc2. Qed.
Lemma carry len : 0 <= len -> lo len < 254 -> hi (len + 2) = hi len /\ lo (len + 2) = lo len + 2.
Proof.
  unfold hi, lo, u8. intros H L. rewrite !Z.shiftr_div_pow2 by lia. change (2 ^ 8) with 256 in *.
  rewrite (Z.div_mod len 256) at 1 3 by lia. set (q := len / 256). set (r := len mod 256) in *.
  assert (0 <= r < 256) by (apply Z.mod_pos_bound; lia).
  replace (256 * q + r + 2) with (r + 2 + q * 256) by lia. rewrite Z.div_add, Z.mod_add by lia.
  rewrite (Z.div_small (r + 2)), (Z.mod_small (r + 2)) by lia. split; reflexivity.
Qed.
Lemma list_wire {E} t l : 0 <= t < 256 -> zlen l mod 128 <> 127 ->
  u16_list_bytes (E:=E) t l = Ok (extension t (vector16 (u16s l))).
Proof.
  intros Ht N. unfold u16_list_bytes. cbv zeta. pose proof (zlen_nonneg l) as Z0.
  assert (L : lo (2 * zlen l) < 254).
  { unfold lo, u8. change 256 with (2 * 128). change (2 ^ 8) with (2 * 128). rewrite Z.mul_mod_distr_l by lia. pose proof (Z.mod_pos_bound (zlen l) 128). lia. }
  destruct (Z.ltb_spec (lo (2 * zlen l) + 2) 256); [|lia]. f_equal. rewrite entries.
  destruct (carry (2 * zlen l)) as (C1 & C2); [lia|exact L|].
  unfold extension, vector16, Rfc8446Hello.u16. rewrite app_length, be_enc_length, u16s_length, !enc2.
  replace (Z.of_nat (2 + 2 * length l)) with (2 * zlen l + 2) by (unfold zlen; lia).
  replace (Z.of_nat (2 * length l)) with (2 * zlen l) by (unfold zlen; lia). rewrite C1, C2.
  assert (hi t = 0 /\ lo t = t) as (-> & ->).
  { unfold hi, lo, u8. rewrite Z.shiftr_div_pow2 by lia. change (2 ^ 8) with 256. rewrite Z.div_small by lia. split; [reflexivity|apply Z.mod_small; lia]. }
  reflexivity.
Qed.
Lemma list_panics {E} t l : zlen l mod 128 = 127 -> u16_list_bytes (E:=E) t l = Panic.
Proof.
  intros N. unfold u16_list_bytes. cbv zeta.
  assert (lo (2 * zlen l) = 254) as ->. { unfold lo, u8. change 256 with (2 * 128). change (2 ^ 8) with (2 * 128). rewrite Z.mul_mod_distr_l by lia. lia. }
  reflexivity.
Qed.
