From Coq Require Import List ZArith Lia Bool.
From Verif Require Import Model.Base Model.Bytes Model.Curve Model.Pem Model.Ecdsa Spec.Enc Spec.Rfc4648 Spec.PemFile Spec.X509 Spec.Sec1.
From Verif Require Import Proofs.Util Proofs.Bytes Proofs.Pem.
Import ListNotations.
Open Scope Z_scope.

Lemma key_body secret extra : length secret = 32%nat ->
  concat [INTEGER [1]; der 0x04 secret; extra] = [2; 1; 1; 4; 32] ++ secret ++ extra.
Proof. intros H. unfold INTEGER, der. rewrite H. cbn. rewrite app_nil_r. reflexivity. Qed.

Lemma get_of_file is key : Forall item_ok is -> last_block EC_PRIVATE_KEY is = Some key ->
  private_key_from_pem (text_of_lines (file_lines is)) =
  let! b := slice key 7 39 in Ok (PrivateKey secp256r1 (to_ibig_be b)).
Proof.
  intros Hok Hl.
  assert (Hb : has_block is).
  { clear Hok. revert Hl. generalize EC_PRIVATE_KEY as title. intros title Hl.
    induction is as [|i is IH]; [discriminate|]. cbn [last_block] in Hl.
    destruct (last_block title is) eqn:E.
    - destruct (IH Hl) as (t & b & d & I). exists t, b, d. right. exact I.
    - destruct i as [|t b d]; [discriminate|]. exists t, b, d. left. reflexivity. }
  destruct (proj1 (pem_parse_items is Hok) Hb) as (m & Hm & Hg).
  unfold private_key_from_pem. rewrite Hm. cbn [bind].
  change s_EC_PRIVATE_KEY with EC_PRIVATE_KEY. rewrite Hg, Hl. reflexivity.
Qed.

Lemma key_short is secret extra : Forall item_ok is -> length secret = 32%nat -> (length extra <= 90)%nat ->
  last_block EC_PRIVATE_KEY is = Some (ECPrivateKey secret extra) ->
  private_key_from_pem (text_of_lines (file_lines is)) = Ok (PrivateKey secp256r1 (be_val secret)).
Proof.
  intros Hok Hs He Hl. rewrite (get_of_file is _ Hok Hl). unfold ECPrivateKey, SEQUENCE, der at 1.
  rewrite key_body by assumption. unfold der_length.
  destruct (Z.ltb_spec (Z.of_nat (length ([2; 1; 1; 4; 32] ++ secret ++ extra))) 128) as [L|L];
    [|rewrite !app_length in L; cbn [length] in L; lia].
  rewrite (slice_mid ([0x30; Z.of_nat (length ([2; 1; 1; 4; 32] ++ secret ++ extra))] ++ [2; 1; 1; 4; 32]) secret extra);
    [|reflexivity|rewrite Hs; reflexivity].
  cbn [bind]. rewrite to_ibig_be_val. reflexivity.
Qed.

Lemma key_long is secret extra : Forall item_ok is -> length secret = 32%nat -> (90 < length extra <= 200)%nat ->
  last_block EC_PRIVATE_KEY is = Some (ECPrivateKey secret extra) ->
  private_key_from_pem (text_of_lines (file_lines is)) = Ok (PrivateKey secp256r1 (be_val (32 :: firstn 31 secret))).
Proof.
  intros Hok Hs He Hl. rewrite (get_of_file is _ Hok Hl). unfold ECPrivateKey, SEQUENCE, der at 1.
  rewrite key_body by assumption. unfold der_length.
  set (n := Z.of_nat (length ([2; 1; 1; 4; 32] ++ secret ++ extra))).
  assert (L : 128 <= n < 256) by (unfold n; rewrite !app_length; cbn [length]; lia). clearbody n.
  destruct (Z.ltb_spec n 128); [lia|]. destruct (Z.ltb_spec n 256); [|lia].
  unfold be_enc. cbn [le_enc rev app].
  rewrite <- (firstn_skipn 31 secret) at 1. rewrite <- app_assoc.
  rewrite (slice_mid [0x30; 0x81; n mod 256; 2; 1; 1; 4] (32 :: firstn 31 secret) (skipn 31 secret ++ extra));
    [|reflexivity|cbn [length]; rewrite firstn_length, Hs; reflexivity].
  cbn [bind]. rewrite to_ibig_be_val. reflexivity.
Qed.
