(* What SignatureAlgorithms::server_parse makes of a list of codes *)
From Coq Require Import Lia.
From Verif.Model Require Import Base Alert Bytes Suite Curve Ecdsa Extensions Hello SigAlgs.
From Verif.Spec Require Import Enc Rfc8446Hello.
From Verif.Proofs Require Import Util Bytes Hello HelloLists.

Fixpoint named (l : list Z) : outcome tls_error (list sig_scheme) :=
  match l with
  | [] => Ok []
  | c :: l => let! s := sig_scheme_new c in let! r := named l in Ok (s :: r)
  end.
Lemma u16s_len l : length (u16s l) = (2 * length l)%nat.
Proof. unfold u16s, Rfc8446Hello.u16. induction l as [|c l IH]; [reflexivity|]. cbn [flat_map]. rewrite app_length, be_enc_length, IH. cbn [length]. lia. Qed.
Lemma to_u16_2 c : 0 <= c < 2^16 -> to_u16 (be_enc 2 c) = c.
Proof. intros B. rewrite <- (app_nil_r (be_enc 2 c)). now apply to_u16_enc. Qed.
Lemma scan_codes l : Forall (fun c => 0 <= c < 2^16) l -> forall pre tail,
  schemes_scan (length l) (pre ++ u16s l ++ tail) (length pre) = named l.
Proof.
  induction 1 as [|c l B _ IH]; intros pre tail; [reflexivity|].
  cbn [length schemes_scan named]. unfold u16s. cbn [flat_map]. change (Rfc8446Hello.u16 c) with (be_enc 2 c). fold (u16s l).
  rewrite <- app_assoc. rewrite (slice_mid pre (be_enc 2 c) (u16s l ++ tail)) by (rewrite ?be_enc_length; lia). cbn [bind].
  rewrite to_u16_2 by exact B.
  destruct (sig_scheme_new c) as [s| |]; cbn [bind]; [|reflexivity..].
  rewrite (app_assoc pre (be_enc 2 c)).
  replace (length pre + 2)%nat with (length (pre ++ be_enc 2 c)) by (rewrite app_length, be_enc_length; reflexivity).
  now rewrite IH.
Qed.
(* n pairs are wanted, fewer are there *)
Lemma scan_short l ss : Forall (fun c => 0 <= c < 2^16) l -> named l = Ok ss -> forall n pre, (length l < n)%nat ->
  schemes_scan n (pre ++ u16s l) (length pre) = Panic.
Proof.
  intros F. revert ss. induction F as [|c l B _ IH]; intros ss N n pre L; (destruct n as [|n]; [cbn in L; lia|]).
  - cbn [schemes_scan]. unfold u16s. cbn [flat_map]. rewrite app_nil_r. unfold slice. destruct (Nat.leb_spec (length pre + 2) (length pre)); [lia|].
    rewrite andb_false_r. reflexivity.
  - cbn [schemes_scan]. unfold u16s. cbn [flat_map]. change (Rfc8446Hello.u16 c) with (be_enc 2 c). fold (u16s l).
    rewrite (slice_mid pre (be_enc 2 c) (u16s l)) by (rewrite ?be_enc_length; lia). cbn [bind].
    rewrite to_u16_2 by exact B.
    cbn [named] in N. destruct (sig_scheme_new c) as [s| |]; cbn [bind] in *; [|discriminate N..].
    destruct (named l) as [r| |]; cbn [bind] in N; [|discriminate N..].
    rewrite (app_assoc pre (be_enc 2 c)).
    replace (length pre + 2)%nat with (length (pre ++ be_enc 2 c)) by (rewrite app_length, be_enc_length; reflexivity).
    cbn [length] in L. rewrite (IH r eq_refl n) by lia. reflexivity.
Qed.
Lemma parse_len n rest : (2 * Z.of_nat n < 2^16) -> sig_algs_parse (be_enc 2 (2 * Z.of_nat n) ++ rest) = schemes_scan (n - 1) (be_enc 2 (2 * Z.of_nat n) ++ rest) 2.
Proof.
  intros B. unfold sig_algs_parse. rewrite to_u16_enc by lia. replace (Z.to_nat (2 * Z.of_nat n)) with (2 * n)%nat by lia. cbv zeta.
  replace (Nat.even (2 * n)) with true by (symmetry; apply Nat.even_spec; exists n; reflexivity). now rewrite Nat.div2_double.
Qed.
Lemma parse_codes l tail : Forall (fun c => 0 <= c < 2^16) l -> 2 * zlen l < 2^16 ->
  sig_algs_parse (vector16 (u16s l) ++ tail) = named (removelast l).
Proof.
  intros F B. unfold vector16. rewrite u16s_len. replace (Z.of_nat (2 * length l)) with (2 * Z.of_nat (length l)) by lia.
  rewrite <- app_assoc, parse_len by exact B.
  set (h := be_enc 2 _). assert (length h = 2%nat) as Lh by apply be_enc_length.
  destruct l as [|c0 l0]; [reflexivity|]. set (l := c0 :: l0) in *. assert (l <> []) as N by discriminate.
  destruct (exists_last N) as (l' & c & E). rewrite E in *. rewrite removelast_last.
  apply Forall_app in F. destruct F as (F & _). rewrite app_length. cbn [length]. replace (length l' + 1 - 1)%nat with (length l') by lia.
  unfold u16s. rewrite flat_map_app. fold (u16s l'). rewrite <- app_assoc. rewrite <- Lh. apply scan_codes, F.
Qed.
Lemma parse_short l ss n : Forall (fun c => 0 <= c < 2^16) l -> named l = Ok ss -> (length l < n - 1)%nat -> 2 * Z.of_nat n < 2^16 ->
  sig_algs_parse (Rfc8446Hello.u16 (2 * Z.of_nat n) ++ u16s l) = Panic.
Proof.
  intros F N L B. unfold Rfc8446Hello.u16. rewrite parse_len by exact B.
  replace 2%nat with (length (be_enc 2 (2 * Z.of_nat n))) at 3 by apply be_enc_length. eapply scan_short; eauto.
Qed.
Lemma parse_odd n rest : 0 <= 2 * n + 1 < 2^16 -> sig_algs_parse (Rfc8446Hello.u16 (2 * n + 1) ++ rest) = Ok [].
Proof.
  intros B. unfold sig_algs_parse, Rfc8446Hello.u16. rewrite to_u16_enc by exact B. cbv zeta.
  replace (Nat.even (Z.to_nat (2 * n + 1))) with false; [reflexivity|]. symmetry. replace (Z.to_nat (2 * n + 1)) with (S (2 * Z.to_nat n)) by lia.
  rewrite Nat.even_succ. apply Bool.not_true_is_false. intros O. apply Nat.odd_spec in O. destruct O as (k & O). lia.
Qed.
Lemma named_app l c r ss : named l = Ok ss -> named (l ++ c :: r) = let! s := sig_scheme_new c in let! t := named r in Ok (ss ++ s :: t).
Proof.
  revert ss. induction l as [|a l IH]; intros ss N; cbn [named app] in *.
  - injection N as <-. reflexivity.
  - destruct (sig_scheme_new a) as [s| |]; cbn [bind] in *; [|discriminate N..]. destruct (named l) as [t| |] eqn:Nl; cbn [bind] in N; [|discriminate N..].
    injection N as <-. rewrite (IH t eq_refl). destruct (sig_scheme_new c) as [x| |]; cbn [bind]; [|reflexivity..].
    destruct (named r) as [y| |]; reflexivity.
Qed.
Lemma scheme_unknown c : c <> 0x0403 -> c <> 0x0503 -> c <> 0x0603 -> sig_scheme_new c = Err DecodeError.
Proof. intros A B C. unfold sig_scheme_new. destruct (Z.eqb_spec c 0x0403), (Z.eqb_spec c 0x0503), (Z.eqb_spec c 0x0603); tauto. Qed.
