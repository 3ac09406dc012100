(* Records opened and handshake messages read, in the terms of Spec.Connection *)
From Verif Require Import Proofs.Util Proofs.Bytes Model.Alert Model.Bytes Model.Suite Model.Sha2 Model.Hmac Model.KeySchedule Model.Record Model.Channel
  Model.Gcm Model.Chacha Model.Curve Model.Signature Model.Ecdsa Model.X509 Model.Extensions Model.Hello Model.Kex Model.Handshake Model.Certificate
  Model.Stream Model.AppChannel Model.Keylog Model.Server
  Spec.Enc Spec.Rfc2104 Spec.Fips180 Spec.Rfc8446Keys Spec.Tls13Record Spec.Endpoints Spec.Writes Spec.Rfc8446Auth Spec.Connection.
From Verif Require Spec.Rfc8446Hello Spec.Ecdsa Spec.Rfc8439 Spec.Sp80038d.
From Verif Require Import Proofs.KeySchedule Proofs.Record Proofs.Channel Proofs.Stream Proofs.ServerRun Proofs.ServerKeys.
From Verif Require Proofs.Hmac Proofs.Auth Proofs.HelloTotal Proofs.Kex Proofs.EcdsaP256 Proofs.Gcm Proofs.Chacha.

Local Opaque gcm_encrypt gcm_decrypt poly_encrypt poly_decrypt Sp80038d.tag Rfc8439.aead_tag Sp80038d.GCM_AE Sp80038d.GCM_AD
  Sp80038d.GCTR Rfc8439.chacha20_encrypt nonce_of.

Lemma cipher_decrypt_bytes c key nonce e aad t p :
  good_cipher c -> is_bytes key -> length key = fst (key_iv_len (cipher_get_suite c)) ->
  is_bytes nonce -> length nonce = 12%nat -> is_bytes e -> is_bytes aad -> zlen e < 2^20 -> zlen aad < 2^10 ->
  cipher_decrypt c key nonce e aad t = Ok p -> is_bytes p /\ length p = length e.
Proof.
  intros Hc Hk Lk Hn Ln He Ha Le La. destruct c as [s|].
  - apply good_cipher_gcm in Hc. cbn [cipher_get_suite] in Lk.
    assert (length key = 16 \/ length key = 24 \/ length key = 32)%nat as K by (destruct Hc as [-> | ->]; cbn in Lk; lia).
    destruct (Proofs.Gcm.blocksize_of key K) as (bs & _ & Hl & Nk).
    cbn [cipher_decrypt].
    rewrite (Proofs.Gcm.gcm_decrypt_spec key nonce e aad t Hk K Hn Ln He Ha) by lia.
    Local Transparent Sp80038d.GCM_AD. unfold Sp80038d.GCM_AD. Local Opaque Sp80038d.GCM_AD.
    destruct (list_eq_dec _ _ _); intros H; [|discriminate]. apply Ok_inj in H. subst p.
    rewrite <- Nk. split; [now apply Proofs.Gcm.GCTR_bytes|now apply Proofs.Gcm.GCTR_length].
  - cbn [cipher_get_suite key_iv_len fst] in Lk. cbn [cipher_decrypt].
    rewrite Proofs.Chacha.poly_decrypt_spec by (try assumption; lia).
    destruct (list_eqb _ t); intros H; [|discriminate]. apply Ok_inj in H. subst p.
    split; [now apply Proofs.Chacha.sent_bytes|apply Proofs.Chacha.sent_length].
Qed.

Lemma strip_inv p t content : strip_padding p = Ok (t, content) -> t <> RInvalid ->
  exists pad, p = content ++ [rt_code t] ++ repeat 0 pad.
Proof.
  intros H Ht. unfold strip_padding in H. destruct (last_nonzero p) as [[i b]|] eqn:L; [|congruence].
  apply bind_ok in H. destruct H as (t' & Hr & H). apply Ok_inj in H. injection H as -> <-. apply rt_new_ok in Hr. subst b.
  revert i L. induction p as [|x p IH] using rev_ind; intros i L; [discriminate|].
  rewrite last_nonzero_snoc in L. destruct (Z.eqb_spec x 0) as [->|Hx].
  - destruct (IH _ L) as (pad & Hp). exists (S pad).
    assert (i <= length p)%nat.
    { rewrite Hp in L. clear - L Ht. assert (Q := strip_spec (firstn i p) t pad Ht). unfold strip_padding in Q. rewrite L in Q.
      rewrite rt_new_code, bind_Ok in Q. apply Ok_inj in Q. injection Q as Q.
      apply (f_equal (@length Z)) in Q. rewrite firstn_length, !app_length, firstn_length in Q. cbn [length] in Q. rewrite repeat_length in Q. lia. }
    rewrite firstn_app. replace (i - length p)%nat with 0%nat by lia. cbn [firstn]. rewrite app_nil_r.
    rewrite Hp at 1. rewrite <- !app_assoc. do 2 f_equal. symmetry. apply repeat_cons.
  - injection L as <- <-. exists 0%nat. rewrite firstn_app_l. reflexivity.
Qed.

Local Opaque cipher_encrypt cipher_decrypt per_record_nonce.
Definition peer_key (p : rpp) : tkey := side_key (negb (rp_is_client p)) (cur_keys p).

Lemma decrypt_shape p rec p' t content : rpp_decrypt p rec = (p', Ok (t, content)) ->
  exists k', p' = set_keys p (set_side (negb (rp_is_client p)) (cur_keys p) k').
Proof.
  unfold rpp_decrypt. destruct (Nat.ltb _ _); [discriminate|].
  destruct (per_record_nonce _) as [[n k']|e|]; try discriminate. intros H. injection H as <- _. now exists k'.
Qed.

(* one received record of the handshake *)
Lemma decrypt_opened H g p secret n rec p' t content :
  keyed H g p -> rp_application p = None ->
  peer_key p = key_at (Connection.traffic_key g secret) n -> good_key (cipher_get_suite (g_cipher g)) (Connection.traffic_key g secret) ->
  0 <= n -> n + 1 < 2^64 ->
  is_bytes (r_fragment rec) -> is_bytes (r_header rec) -> zlen (r_fragment rec) < 2^16 -> length (r_header rec) = 5%nat ->
  rpp_decrypt p rec = (p', Ok (t, content)) -> t <> RInvalid ->
  opened (g_cipher g) (g_alg g) (g_klen g) secret n t content rec /\ is_bytes content /\ zlen content < 2^16 /\
  keyed H g p' /\ rp_is_client p' = rp_is_client p /\ rp_application p' = None /\
  side_key (rp_is_client p) (cur_keys p') = side_key (rp_is_client p) (cur_keys p) /\
  peer_key p' = key_at (Connection.traffic_key g secret) (n + 1).
Proof.
  intros (S & Hc & Hs) N Hk Gk H0 H1 Bf Bh Lf Lh D Ht. pose proof S as (EA & Gc & Ek & _).
  pose proof D as D0. unfold rpp_decrypt in D. destruct (Nat.ltb_spec (length (r_fragment rec)) 16) as [|L16]; [discriminate|].
  fold (peer_key p) in D. destruct Gk as (Bk & Lk & Bi & Li).
  rewrite Hk in D. rewrite per_record_nonce_spec in D by (cbn [key_at k_iv k_seq]; assumption).
  injection D as Ep D. cbn [next_key key_at k_key k_iv k_seq] in D.
  set (n16 := (length (r_fragment rec) - 16)%nat) in *.
  destruct (cipher_decrypt _ _ _ _ _ _) as [pl|e|] eqn:Dc; try discriminate.
  destruct (record_nonce_ok (k_iv (Connection.traffic_key g secret)) n Bi) as [NB NL].
  rewrite Hc in Dc.
  assert (Be : is_bytes (firstn n16 (r_fragment rec))) by now apply is_bytes_firstn.
  assert (Le : zlen (firstn n16 (r_fragment rec)) < 2^20) by (unfold zlen in *; rewrite firstn_length; lia).
  assert (La : zlen (r_header rec) < 2^10) by (unfold zlen; lia).
  destruct (cipher_decrypt_bytes _ _ _ _ _ _ _ Gc Bk Lk NB ltac:(lia) Be Bh Le La Dc) as (Bp & Lp).
  pose proof (cipher_decrypt_ok _ _ _ _ _ _ _ Gc Bk Lk NB ltac:(lia) Be Bh Le La Dc) as Et.
  destruct (strip_inv _ _ _ D Ht) as (pad & Epl). rewrite Epl in Bp, Lp, Dc. apply is_bytes_app in Bp. destruct Bp as (Bc & _).
  split.
  { exists (firstn n16 (r_fragment rec)), (skipn n16 (r_fragment rec)), pad. split; [symmetry; apply firstn_skipn|].
    cbv zeta. split; [exact Et|exact Dc]. }
  split; [exact Bc|]. split.
  { rewrite !app_length, firstn_length in Lp. unfold zlen in *. lia. }
  rewrite <- Ep. unfold peer_key in *. rewrite !cur_set_keys, !set_keys_side. unfold keyed. rewrite set_keys_cipher.
  split; [split; [exact S|]; split; [exact Hc|]; unfold set_keys; rewrite N; exact Hs|].
  split; [reflexivity|]. split; [unfold set_keys; now rewrite N|].
  split; [destruct (rp_is_client p); reflexivity|]. rewrite side_set_same. reflexivity.
Qed.

(* ---- messages ---- *)
Lemma ht_new_u8 b t : handshake_type_new b = Some t -> handshake_type_u8 t = b.
Proof.
  unfold handshake_type_new. intros H.
  repeat match type of H with (if ?b =? ?n then _ else _) = _ => destruct (Z.eqb_spec b n); [injection H as <-; subst; reflexivity|] end.
  discriminate.
Qed.
Lemma len24 b1 b2 b3 : is_byte b1 -> is_byte b2 -> is_byte b3 ->
  Z.lor (Z.lor (u32 (Z.shiftl b1 16)) (u32 (Z.shiftl b2 8))) b3 = be_val [b1; b2; b3].
Proof.
  intros B1 B2 B3. unfold is_byte in *. unfold u32. rewrite !Z.mod_small by (rewrite Z.shiftl_mul_pow2; lia).
  replace (Z.shiftl b1 16) with (Z.shiftl (Z.shiftl b1 8) 8) by (rewrite Z.shiftl_shiftl by lia; reflexivity).
  rewrite <- Z.shiftl_lor. rewrite (lor_shiftl_add b1 b2 8) by lia. rewrite lor_shiftl_add by lia.
  unfold be_val. cbn [fold_left]. lia.
Qed.
Lemma message_read m hs : is_bytes m -> handshake_from_raw m = Ok hs ->
  exists extra, m = Rfc8446Hello.handshake (handshake_type_u8 (hs_type hs)) (hs_fraqment hs) ++ extra /\
    is_bytes (hs_fraqment hs) /\ hs_raw hs = Rfc8446Hello.handshake (handshake_type_u8 (hs_type hs)) (hs_fraqment hs).
Proof.
  intros B H. Local Transparent handshake_from_raw. unfold handshake_from_raw in H. Local Opaque handshake_from_raw.
  destruct (Nat.ltb_spec (length m) 4) as [|L]; [discriminate|].
  destruct m as [|b0 [|b1 [|b2 [|b3 rest]]]]; cbn [length] in L; try lia.
  unfold idx in H. cbn [nth_error unwrap] in H. rewrite bind_Ok in H.
  destruct (handshake_type_new b0) as [t|] eqn:T; [|discriminate]. rewrite !bind_Ok in H.
  inversion B as [|? ? B0 Bt]; subst. inversion Bt as [|? ? B1 Bt1]; subst. inversion Bt1 as [|? ? B2 Bt2]; subst.
  inversion Bt2 as [|? ? B3 Br]; subst. rewrite len24 in H by assumption.
  set (len := be_val [b1; b2; b3]) in *. apply bind_ok in H. destruct H as (f & Hf & H). apply bind_ok in H. destruct H as (raw & Hr & H).
  apply Ok_inj in H. subst hs. cbn [hs_fraqment hs_type hs_raw]. apply slice_ok in Hf. destruct Hf as (Hf & ->).
  apply slice_ok in Hr. destruct Hr as (Hr & ->). cbn [length] in Hf. cbn [skipn].
  replace (Z.to_nat len + 4 - 4)%nat with (Z.to_nat len) by lia.
  replace (Z.to_nat len + 4 - 0)%nat with (S (S (S (S (Z.to_nat len))))) by lia.
  assert (0 <= len) by (unfold len, be_val, is_byte in *; cbn [fold_left]; lia).
  assert (LF : length (firstn (Z.to_nat len) rest) = Z.to_nat len) by (rewrite firstn_length; lia).
  assert (E3 : be_enc 3 (Z.of_nat (length (firstn (Z.to_nat len) rest))) = [b1; b2; b3]).
  { rewrite LF, Z2Nat.id by lia. unfold len. apply (be_enc_val [b1; b2; b3]). do 3 (constructor; [assumption|]). constructor. }
  exists (skipn (Z.to_nat len) rest). rewrite (ht_new_u8 _ _ T).
  unfold Rfc8446Hello.handshake, Rfc8446Hello.vector24. rewrite E3. cbn [app firstn]. rewrite firstn_skipn. split; [reflexivity|]. split; [now apply is_bytes_firstn|reflexivity].
Qed.
