From Verif Require Import Proofs.Util Proofs.Bytes Model.Sha2 Model.Hmac Model.Alert Model.Suite Model.Gcm Model.Chacha
  Model.KeySchedule Model.Record Spec.Endpoints Spec.Enc Spec.Rfc2104 Spec.Rfc8446Keys Spec.Tls13Record.
From Verif Require Proofs.Gcm Proofs.Chacha Proofs.KeySchedule Proofs.Hmac Spec.Rfc8439 Spec.Sp80038d.
Import Proofs.KeySchedule.

(* ---- the two AEADs under one roof ---- *)
Lemma good_cipher_gcm s : good_cipher (CGcm s) -> s = AES_256_GCM_SHA384 \/ s = AES_128_GCM_SHA256.
Proof. intros [cs H]. destruct cs; cbn in H; try discriminate; injection H as <-; auto. Qed.

Local Opaque gcm_encrypt gcm_decrypt poly_encrypt poly_decrypt Sp80038d.tag Rfc8439.aead_tag Sp80038d.GCM_AE Sp80038d.GCM_AD
  Sp80038d.GCTR Rfc8439.chacha20_encrypt nonce_of.

Lemma cipher_round_trip c key nonce p aad :
  good_cipher c -> is_bytes key -> length key = fst (key_iv_len (cipher_get_suite c)) ->
  is_bytes nonce -> length nonce = 12%nat -> is_bytes p -> is_bytes aad -> zlen p < 2^20 -> zlen aad < 2^10 ->
  exists e t, cipher_encrypt c key nonce p aad = Ok (e, t) /\ length e = length p /\ length t = 16%nat /\ is_bytes e /\
    t = aead_tag_of (c_aead c) key nonce aad e /\ cipher_decrypt c key nonce e aad t = Ok p.
Proof.
  intros Hc Hk Lk Hn Ln Hp Ha Lp La. destruct c as [s|].
  - apply good_cipher_gcm in Hc. cbn [cipher_get_suite] in Lk.
    assert (length key = 16 \/ length key = 24 \/ length key = 32)%nat as K by (destruct Hc as [-> | ->]; cbn in Lk; lia).
    pose proof (Proofs.Gcm.gcm_encrypt_spec key nonce p aad Hk K Hn Ln Hp Ha ltac:(lia) ltac:(lia)) as E.
    pose proof (Proofs.Gcm.gcm_round_trip key nonce p aad) as R.
    destruct (Proofs.Gcm.blocksize_of key K) as (bs & _ & Hl & Nk).
    cbn [cipher_encrypt cipher_decrypt c_aead aead_tag_of]. 
    destruct (Sp80038d.GCM_AE (Proofs.Gcm.nk_of key) key nonce p aad) as [e t] eqn:G.
    exists e, t. split; [exact E|].
    destruct (R e t Hk K Hn Ln Hp Ha ltac:(lia) ltac:(lia) E) as (L1 & L2 & D).
    Local Transparent Sp80038d.GCM_AE. unfold Sp80038d.GCM_AE in G. injection G as G1 G2.
    repeat split; try assumption.
    + rewrite <- G1, <- Nk. now apply Proofs.Gcm.GCTR_bytes.
    + rewrite <- G2, G1. reflexivity.
  - cbn [cipher_get_suite key_iv_len fst] in Lk. cbn [cipher_encrypt cipher_decrypt c_aead aead_tag_of].
    exists (Proofs.Chacha.sent key nonce p), (Rfc8439.aead_tag key nonce aad (Proofs.Chacha.sent key nonce p)).
    assert (zlen aad + zlen p < 2^24 - 46) as Ls by lia.
    pose proof (Proofs.Chacha.sent_bytes key nonce p Hp) as SB. pose proof (Proofs.Chacha.sent_length key nonce p) as SL.
    split; [now apply Proofs.Chacha.poly_encrypt_spec|]. split; [assumption|].
    split; [apply Proofs.Chacha.aead_tag_length|]. split; [assumption|]. split; [reflexivity|].
    rewrite Proofs.Chacha.poly_decrypt_spec by (try assumption; unfold zlen in *; lia).
    rewrite list_eqb_refl, Proofs.Chacha.sent_twice. reflexivity.
Qed.
Lemma cipher_decrypt_checked c key nonce e aad t :
  good_cipher c -> is_bytes key -> length key = fst (key_iv_len (cipher_get_suite c)) ->
  is_bytes nonce -> length nonce = 12%nat -> is_bytes e -> is_bytes aad -> zlen e < 2^20 -> zlen aad < 2^10 ->
  (t = aead_tag_of (c_aead c) key nonce aad e -> exists p, cipher_decrypt c key nonce e aad t = Ok p /\ length p = length e) /\
  (t <> aead_tag_of (c_aead c) key nonce aad e -> cipher_decrypt c key nonce e aad t = Err BadRecordMac).
Proof.
  intros Hc Hk Lk Hn Ln He Ha Le La. destruct c as [s|].
  - apply good_cipher_gcm in Hc. cbn [cipher_get_suite] in Lk.
    assert (length key = 16 \/ length key = 24 \/ length key = 32)%nat as K by (destruct Hc as [-> | ->]; cbn in Lk; lia).
    destruct (Proofs.Gcm.blocksize_of key K) as (bs & _ & Hl & Nk).
    cbn [cipher_decrypt c_aead aead_tag_of].
    rewrite (Proofs.Gcm.gcm_decrypt_spec key nonce e aad t Hk K Hn Ln He Ha) by lia.
    Local Transparent Sp80038d.GCM_AD. unfold Sp80038d.GCM_AD. change (length key / 4)%nat with (Proofs.Gcm.nk_of key).
    destruct (list_eq_dec Z.eq_dec t (Sp80038d.tag (Proofs.Gcm.nk_of key) key nonce e aad)); split; intros; try contradiction; [|reflexivity].
    eexists. split; [reflexivity|]. rewrite <- Nk. now apply Proofs.Gcm.GCTR_length.
  - cbn [cipher_get_suite key_iv_len fst] in Lk. cbn [cipher_decrypt c_aead aead_tag_of].
    rewrite Proofs.Chacha.poly_decrypt_spec by (try assumption; lia). split; intros H.
    + subst t. rewrite list_eqb_refl. eexists. split; [reflexivity|]. apply Proofs.Chacha.sent_length.
    + destruct (list_eqb _ t) eqn:Q; [|reflexivity]. apply list_eqb_spec in Q. now subst.
Qed.
Lemma cipher_decrypt_ok c key nonce e aad t p :
  good_cipher c -> is_bytes key -> length key = fst (key_iv_len (cipher_get_suite c)) ->
  is_bytes nonce -> length nonce = 12%nat -> is_bytes e -> is_bytes aad -> zlen e < 2^20 -> zlen aad < 2^10 ->
  cipher_decrypt c key nonce e aad t = Ok p -> t = aead_tag_of (c_aead c) key nonce aad e.
Proof.
  intros. destruct (list_eq_dec Z.eq_dec t (aead_tag_of (c_aead c) key nonce aad e)); [assumption|].
  destruct (cipher_decrypt_checked c key nonce e aad t) as [_ X]; try assumption. rewrite X in *; [discriminate|assumption].
Qed.

(* ---- record framing ---- *)
Lemma rt_code_byte t : is_byte (rt_code t).
Proof. destruct t; unfold is_byte; cbn; lia. Qed.
Lemma rt_new_code t : rt_new (rt_code t) = Ok t.
Proof. now destruct t. Qed.
Lemma rt_new_ok b t : rt_new b = Ok t -> b = rt_code t.
Proof.
  unfold rt_new. intros H.
  destruct (Z.eqb_spec b 0); [injection H as <-; assumption|].
  destruct (Z.eqb_spec b 20); [injection H as <-; assumption|].
  destruct (Z.eqb_spec b 21); [injection H as <-; assumption|].
  destruct (Z.eqb_spec b 22); [injection H as <-; assumption|].
  destruct (Z.eqb_spec b 23); [injection H as <-; assumption|discriminate].
Qed.
Lemma rt_new_no_panic b : rt_new b <> Panic.
Proof. unfold rt_new. repeat destruct (_ =? _); discriminate. Qed.
Lemma as_bytes_spec r : zlen (r_fragment r) < 2^16 ->
  record_as_bytes r = encode_record (rt_code (r_type r)) (r_fragment r).
Proof.
  intros H. unfold record_as_bytes, encode_record, be_enc, zlen. cbn [le_enc rev app].
  rewrite Z.shiftr_div_pow2 by lia. reflexivity.
Qed.
Lemma two_bytes hi lo : is_byte hi -> is_byte lo -> Z.lor (Z.shiftl hi 8) lo = hi * 256 + lo.
Proof. intros. unfold is_byte in *. rewrite lor_shiftl_add by lia. reflexivity. Qed.
Lemma len_bytes n : 0 <= n < 2^16 -> Z.lor (Z.shiftl (u8 (Z.shiftr n 8)) 8) (u8 n) = n.
Proof.
  intros H. rewrite two_bytes by apply u8_range. rewrite Z.shiftr_div_pow2 by lia. change (2^8) with 256.
  unfold u8. change (2^8) with 256. lia.
Qed.
(* what from_raw does on five header bytes *)
Lemma from_raw_eq t v1 v2 h l rest ty : rt_new t = Ok ty ->
  record_from_raw (t :: v1 :: v2 :: h :: l :: rest) =
  let len := Z.to_nat (Z.lor (Z.shiftl h 8) l) in
  if Nat.ltb (3 + length rest) len then Err DecodeError
  else if Nat.ltb (length rest) len then Panic
  else Ok ((5 + len)%nat, {| r_type := ty; r_version := Z.lor (Z.shiftl v1 8) v2; r_len := len;
                            r_header := [t; v1; v2; h; l]; r_fragment := firstn len rest |}).
Proof.
  intros Ht. unfold record_from_raw. change (Nat.ltb (length (t :: v1 :: v2 :: h :: l :: rest)) 5) with false. cbn [idx nth_error unwrap].
  rewrite bind_Ok, Ht, !bind_Ok. cbn [length].
  set (len := Z.to_nat (Z.lor (Z.shiftl h 8) l)). cbv zeta.
  destruct (Nat.ltb_spec (S (S (S (S (S (length rest)))))) (2 + len)); destruct (Nat.ltb_spec (3 + length rest) len); try lia; [reflexivity|].
  unfold slice at 1. cbn [length Nat.leb andb firstn skipn Nat.sub]. rewrite bind_Ok.
  destruct (Nat.ltb_spec (length rest) len).
  - rewrite slice_out by (cbn [length]; lia). reflexivity.
  - rewrite slice_in by (cbn [length]; lia). rewrite bind_Ok. do 2 f_equal. cbn [skipn].
    replace (5 + len - 5)%nat with len by lia. reflexivity.
Qed.
Lemma from_raw_short buf : (length buf < 5)%nat -> record_from_raw buf = Err DecodeError.
Proof. intros H. unfold record_from_raw. destruct (Nat.ltb_spec (length buf) 5); [reflexivity|lia]. Qed.
Lemma from_raw_bad_type t rest : rt_new t = Err DecodeError -> record_from_raw (t :: rest) = Err DecodeError.
Proof.
  intros Ht. unfold record_from_raw. destruct (Nat.ltb _ _); [reflexivity|].
  cbn [idx nth_error unwrap]. rewrite bind_Ok, Ht. reflexivity.
Qed.
Lemma record_round_trip t frag rest : zlen frag < 2^16 ->
  exists r, record_from_raw (record_as_bytes (record_new t frag) ++ rest) = Ok ((5 + length frag)%nat, r) /\
    r_type r = t /\ r_fragment r = frag /\ r_version r = 0x0303 /\ r_len r = length frag /\
    r_header r = firstn 5 (record_as_bytes (record_new t frag)).
Proof.
  intros H. unfold record_as_bytes. cbn [r_fragment r_type record_new app].
  rewrite (from_raw_eq _ _ _ _ _ _ t) by apply rt_new_code. unfold zlen in *.
  rewrite len_bytes by lia. rewrite Nat2Z.id. cbv zeta. rewrite app_length.
  destruct (Nat.ltb_spec (3 + (length frag + length rest)) (length frag)); [lia|].
  destruct (Nat.ltb_spec (length frag + length rest) (length frag)); [lia|].
  eexists. split; [reflexivity|]. cbn [r_type r_fragment r_version r_len r_header firstn].
  rewrite firstn_app_l. repeat split; reflexivity.
Qed.

(* ---- padding ---- *)
Lemma combine_app_eq {A B} (a1 a2 : list A) (b1 b2 : list B) : length a1 = length b1 ->
  combine (a1 ++ a2) (b1 ++ b2) = combine a1 b1 ++ combine a2 b2.
Proof.
  revert b1. induction a1 as [|x a1 IH]; intros [|y b1] H; try discriminate; [reflexivity|].
  cbn [app combine]. f_equal. apply IH. now injection H.
Qed.
Lemma last_nonzero_snoc p b : last_nonzero (p ++ [b]) = if b =? 0 then last_nonzero p else Some (length p, b).
Proof.
  unfold last_nonzero. rewrite app_length. cbn [length]. rewrite Nat.add_1_r, seq_S, combine_app_eq by now rewrite seq_length.
  cbn [combine]. rewrite rev_app_distr. cbn [rev app find snd]. now destruct (b =? 0).
Qed.
Lemma strip_spec content t n : t <> RInvalid ->
  strip_padding (content ++ [rt_code t] ++ repeat 0 n) = Ok (t, content).
Proof.
  intros Ht. unfold strip_padding.
  assert (last_nonzero (content ++ [rt_code t] ++ repeat 0 n) = Some (length content, rt_code t)) as ->.
  { induction n as [|n IH].
    - cbn [repeat]. rewrite app_nil_r, last_nonzero_snoc. destruct t; (reflexivity || congruence).
    - replace (content ++ [rt_code t] ++ repeat 0 (S n)) with ((content ++ [rt_code t] ++ repeat 0 n) ++ [0]).
      + rewrite last_nonzero_snoc. exact IH.
      + rewrite <- !app_assoc. do 2 f_equal. symmetry. apply repeat_cons. }
  rewrite rt_new_code, bind_Ok, firstn_app_l. reflexivity.
Qed.
Lemma strip_no_panic p : strip_padding p <> Panic.
Proof.
  unfold strip_padding. destruct (last_nonzero p) as [[i b]|]; [|discriminate].
  pose proof (rt_new_no_panic b). destruct (rt_new b); cbn; congruence.
Qed.

(* ---- protection ---- *)
Lemma per_record_nonce_spec {E} k : length (k_iv k) = 12%nat -> 0 <= k_seq k -> k_seq k + 1 < 2^64 ->
  per_record_nonce (E:=E) k = Ok (record_nonce (k_iv k) (k_seq k), next_key k).
Proof.
  intros L H0 H. unfold per_record_nonce. destruct (Z.ltb_spec (k_seq k + 1) (2^64)); [|lia].
  now rewrite nonce_spec by (assumption || lia).
Qed.
Local Opaque per_record_nonce cipher_encrypt cipher_decrypt.

Lemma cur_set_keys r k : cur_keys (set_keys r k) = k.
Proof. unfold cur_keys, set_keys. destruct (rp_application r); reflexivity. Qed.
Lemma set_keys_cipher r k : rp_cipher (set_keys r k) = rp_cipher r.
Proof. unfold set_keys. destruct (rp_application r); reflexivity. Qed.
Lemma set_keys_side r k : rp_is_client (set_keys r k) = rp_is_client r.
Proof. unfold set_keys. destruct (rp_application r); reflexivity. Qed.
Lemma side_set_same b k t : side_key b (set_side b k t) = t.
Proof. now destruct b. Qed.
Lemma side_set_other b k t : side_key (negb b) (set_side b k t) = side_key (negb b) k.
Proof. now destruct b. Qed.
Lemma side_set_other' b k t : side_key b (set_side (negb b) k t) = side_key b k.
Proof. now destruct b. Qed.

Definition rec_header (n : Z) : list Z := [23; 3; 3] ++ be_enc 2 n.
Lemma hdr_eq n : [23; 3; 3; u8 (Z.shiftr n 8); u8 n] = rec_header n.
Proof. unfold rec_header, be_enc. cbn [le_enc rev app]. rewrite Z.shiftr_div_pow2 by lia. reflexivity. Qed.
Lemma rec_header_bytes n : is_bytes (rec_header n).
Proof. apply is_bytes_app. split; [repeat constructor; unfold is_byte; lia|apply be_enc_bytes]. Qed.
Lemma rec_header_length n : length (rec_header n) = 5%nat.
Proof. reflexivity. Qed.

(* the wire image of an inner plaintext under key k *)
Definition sealed (c : cipher) (k : tkey) (inner wire : list Z) : Prop :=
  exists e t, cipher_encrypt c (k_key k) (record_nonce (k_iv k) (k_seq k)) inner (rec_header (zlen inner + 16)) = Ok (e, t)
    /\ length e = length inner /\ length t = 16%nat /\ is_bytes e
    /\ t = aead_tag_of (c_aead c) (k_key k) (record_nonce (k_iv k) (k_seq k)) (rec_header (zlen inner + 16)) e
    /\ cipher_decrypt c (k_key k) (record_nonce (k_iv k) (k_seq k)) e (rec_header (zlen inner + 16)) t = Ok inner
    /\ wire = encode_record 23 (e ++ t).
Lemma seal_exists c k inner : good_cipher c -> key_ready c k -> is_bytes inner -> zlen inner + 16 < 2^16 ->
  exists w, sealed c k inner w.
Proof.
  intros Hc [(B1 & L1 & B2 & L2) Hs] Hi Li. destruct (record_nonce_ok (k_iv k) (k_seq k) B2) as [NB NL].
  destruct (cipher_round_trip c (k_key k) (record_nonce (k_iv k) (k_seq k)) inner (rec_header (zlen inner + 16))
              Hc B1 L1 NB ltac:(lia) Hi (rec_header_bytes _) ltac:(lia)) as (e & t & H).
  - unfold zlen. rewrite rec_header_length. lia.
  - exists (encode_record 23 (e ++ t)), e, t. tauto.
Qed.
Lemma encrypt_sealed r t content : let k := side_key (rp_is_client r) (cur_keys r) in
  key_ready (rp_cipher r) k -> good_cipher (rp_cipher r) -> is_bytes content -> zlen content + 17 < 2^16 ->
  exists w, rpp_encrypt r (record_new t content)
    = (set_keys r (set_side (rp_is_client r) (cur_keys r) (next_key k)), Ok w)
    /\ sealed (rp_cipher r) k (content ++ [rt_code t]) w.
Proof.
  intros k Hk Hc Hb Hl.
  assert (is_bytes (content ++ [rt_code t])) as Bi by (apply is_bytes_app; split; [assumption|repeat constructor; apply rt_code_byte]).
  assert (zlen (content ++ [rt_code t]) = zlen content + 1) as Lz by (rewrite zlen_app; reflexivity).
  destruct (seal_exists (rp_cipher r) k (content ++ [rt_code t]) Hc Hk Bi ltac:(lia)) as (w & S). exists w.
  split; [|exact S]. destruct S as (e & tg & E & Le & Lt & Be & _ & _ & Ew).
  destruct Hk as [(B1 & L1 & B2 & L2) [H0 H1]].
  unfold rpp_encrypt. cbv zeta. fold k. rewrite per_record_nonce_spec by assumption. f_equal.
  cbn [record_new r_fragment r_type]. rewrite hdr_eq. cbn [next_key k_key]. rewrite E, bind_Ok. subst w.
  unfold encode_record, rec_header. rewrite <- app_assoc. do 3 f_equal. f_equal. f_equal.
  rewrite app_length, Le, Lt. unfold zlen. lia.
Qed.
(* a sealed record, followed by anything, parses to a record that opens to the inner plaintext *)
Lemma sealed_parse c k inner w rest : sealed c k inner w -> zlen inner + 16 < 2^16 ->
  exists rec, record_from_raw (w ++ rest) = Ok (length w, rec) /\ r_type rec = RApplicationData /\
    r_header rec = rec_header (zlen inner + 16) /\
    exists e t, r_fragment rec = e ++ t /\ length t = 16%nat /\
      cipher_decrypt c (k_key k) (record_nonce (k_iv k) (k_seq k)) e (rec_header (zlen inner + 16)) t = Ok inner.
Proof.
  intros (e & t & E & Le & Lt & Be & _ & D & ->) Hl.
  assert (zlen (e ++ t) = zlen inner + 16) as Lz by (rewrite zlen_app; unfold zlen; lia).
  destruct (record_round_trip RApplicationData (e ++ t) rest ltac:(lia)) as (rec & P & T & F & _ & _ & Hh).
  rewrite as_bytes_spec in P, Hh by (cbn [record_new r_fragment]; lia). cbn [record_new r_fragment r_type rt_code] in P, Hh.
  exists rec. split; [|split; [assumption|split]].
  - rewrite P. reflexivity.
  - rewrite Hh. unfold encode_record, rec_header. rewrite app_assoc. rewrite firstn_app_eq by reflexivity.
    do 2 f_equal. exact Lz.
  - exists e, t. repeat split; assumption.
Qed.
Lemma decrypt_sealed r rec inner e t : let k := side_key (negb (rp_is_client r)) (cur_keys r) in
  length (k_iv k) = 12%nat -> 0 <= k_seq k -> k_seq k + 1 < 2^64 ->
  r_fragment rec = e ++ t -> length t = 16%nat ->
  cipher_decrypt (rp_cipher r) (k_key k) (record_nonce (k_iv k) (k_seq k)) e (r_header rec) t = Ok inner ->
  rpp_decrypt r rec = (set_keys r (set_side (negb (rp_is_client r)) (cur_keys r) (next_key k)), strip_padding inner).
Proof.
  intros k L H0 H1 Hf Lt D. unfold rpp_decrypt. rewrite Hf, app_length, Lt.
  destruct (Nat.ltb_spec (length e + 16) 16); [lia|]. replace (length e + 16 - 16)%nat with (length e) by lia.
  rewrite firstn_app_l, skipn_app_l. fold k. rewrite per_record_nonce_spec by assumption.
  cbn [next_key k_key]. rewrite D. reflexivity.
Qed.

(* the RFC's ciphertext *)
Lemma cipher_seal c key nonce p aad :
  good_cipher c -> is_bytes key -> length key = fst (key_iv_len (cipher_get_suite c)) ->
  is_bytes nonce -> length nonce = 12%nat -> is_bytes p -> is_bytes aad -> zlen p < 2^20 -> zlen aad < 2^10 ->
  (c_aead c = CHACHA20_POLY1305 -> (length p mod 64 <> 0)%nat) ->
  exists e t, cipher_encrypt c key nonce p aad = Ok (e, t) /\ e ++ t = aead_seal (c_aead c) key nonce aad p.
Proof.
  intros Hc Hk Lk Hn Ln Hp Ha Lp La H64. destruct c as [s|].
  - apply good_cipher_gcm in Hc. cbn [cipher_get_suite] in Lk.
    assert (length key = 16 \/ length key = 24 \/ length key = 32)%nat as K by (destruct Hc as [-> | ->]; cbn in Lk; lia).
    pose proof (Proofs.Gcm.gcm_encrypt_spec key nonce p aad Hk K Hn Ln Hp Ha ltac:(lia) ltac:(lia)) as E.
    Local Transparent cipher_encrypt. cbn [cipher_encrypt c_aead]. Local Opaque cipher_encrypt. rewrite E.
    unfold aead_seal. change (length key / 4)%nat with (Proofs.Gcm.nk_of key). eexists. eexists. split; [reflexivity|].
    reflexivity.
  - cbn [cipher_get_suite key_iv_len fst] in Lk.
    Local Transparent cipher_encrypt. cbn [cipher_encrypt c_aead]. Local Opaque cipher_encrypt.
    assert (zlen aad + zlen p < 2^24 - 46) as Ls by lia.
    rewrite Proofs.Chacha.poly_encrypt_spec by assumption. rewrite Proofs.Chacha.sent_exact by (left; now apply H64).
    eexists. eexists. split; reflexivity.
Qed.
Lemma sealed_rfc c k content t n w : good_cipher c -> key_ready c k -> is_bytes content ->
  zlen content + Z.of_nat n + 17 < 2^16 ->
  (c_aead c = CHACHA20_POLY1305 -> ((length content + n + 1) mod 64 <> 0)%nat) ->
  sealed c k (content ++ [rt_code t] ++ repeat 0 n) w <->
  w = TLSCiphertext (c_aead c) (k_key k) (k_iv k) (k_seq k) (rt_code t) content n.
Proof.
  intros Hc Hk Hb Hl H64. set (inner := content ++ [rt_code t] ++ repeat 0 n).
  assert (length inner = length content + n + 1)%nat as Ln.
  { unfold inner. rewrite !app_length, repeat_length. cbn [length]. lia. }
  assert (is_bytes inner) as Bi.
  { unfold inner. apply is_bytes_app. split; [assumption|]. apply is_bytes_app.
    split; [repeat constructor; apply rt_code_byte|]. apply is_bytes_repeat. unfold is_byte. lia. }
  assert (forall w, sealed c k inner w -> w = TLSCiphertext (c_aead c) (k_key k) (k_iv k) (k_seq k) (rt_code t) content n) as Imp.
  { clear w. intros w (e & tg & E & Le & Lt & Be & _ & _ & Ew).
    destruct Hk as [(B1 & L1 & B2 & L2) [H0 H1]]. destruct (record_nonce_ok (k_iv k) (k_seq k) B2) as [NB NL].
    destruct (cipher_seal c (k_key k) (record_nonce (k_iv k) (k_seq k)) inner (rec_header (zlen inner + 16)) Hc B1 L1 NB
                ltac:(lia) Bi (rec_header_bytes _) ltac:(unfold zlen in *; lia)) as (e' & t' & E' & S).
    - unfold zlen. rewrite rec_header_length. lia.
    - intros Q. rewrite Ln. now apply H64.
    - rewrite E in E'. injection E' as <- <-. subst w. unfold TLSCiphertext. fold inner. cbv zeta.
      change (Z.of_nat (length inner)) with (zlen inner). unfold rec_header in S. rewrite <- S. unfold encode_record.
      rewrite <- app_assoc. do 4 f_equal. rewrite app_length, Le, Lt. unfold zlen. lia. }
  split; [apply Imp|]. intros ->.
  destruct (seal_exists c k inner Hc Hk Bi ltac:(unfold zlen in *; lia)) as (w & S). now rewrite <- (Imp w S).
Qed.

(* what decryption can answer *)
Lemma decrypt_cases r rec : let k := side_key (negb (rp_is_client r)) (cur_keys r) in
  good_cipher (rp_cipher r) -> key_ready (rp_cipher r) k ->
  is_bytes (r_fragment rec) -> is_bytes (r_header rec) -> zlen (r_fragment rec) < 2^16 -> zlen (r_header rec) < 2^10 ->
  (length (r_fragment rec) < 16)%nat /\ rpp_decrypt r rec = (r, Panic) \/
  exists e t, r_fragment rec = e ++ t /\ length t = 16%nat /\
    let next := set_keys r (set_side (negb (rp_is_client r)) (cur_keys r) (next_key k)) in
    let right := aead_tag_of (c_aead (rp_cipher r)) (k_key k) (record_nonce (k_iv k) (k_seq k)) (r_header rec) e in
    (t = right /\ exists p, length p = length e /\ rpp_decrypt r rec = (next, strip_padding p)) \/
    (t <> right /\ rpp_decrypt r rec = (next, Err DecryptError)).
Proof.
  intros k Hc [(B1 & L1 & B2 & L2) [H0 H1]] Hf Hh Lf Lh.
  destruct (Nat.lt_ge_cases (length (r_fragment rec)) 16) as [Hs|Hs].
  - left. split; [assumption|]. unfold rpp_decrypt. destruct (Nat.ltb_spec (length (r_fragment rec)) 16); [reflexivity|lia].
  - right. set (n := length (r_fragment rec)) in *. exists (firstn (n - 16) (r_fragment rec)), (skipn (n - 16) (r_fragment rec)).
    split; [symmetry; apply firstn_skipn|]. split; [rewrite skipn_length; lia|]. cbv zeta.
    destruct (record_nonce_ok (k_iv k) (k_seq k) B2) as [NB NL].
    set (e := firstn (n - 16) (r_fragment rec)). set (t := skipn (n - 16) (r_fragment rec)).
    destruct (cipher_decrypt_checked (rp_cipher r) (k_key k) (record_nonce (k_iv k) (k_seq k)) e (r_header rec) t Hc B1 L1 NB ltac:(lia))
      as [D1 D2].
    + now apply is_bytes_firstn.
    + assumption.
    + unfold zlen in *. unfold e. rewrite firstn_length. lia.
    + assumption.
    + assert (rpp_decrypt r rec = (set_keys r (set_side (negb (rp_is_client r)) (cur_keys r) (next_key k)),
        match cipher_decrypt (rp_cipher r) (k_key k) (record_nonce (k_iv k) (k_seq k)) e (r_header rec) t with
        | Ok p => strip_padding p | Err _ => Err DecryptError | Panic => Panic end)) as E.
      { unfold rpp_decrypt. fold n. destruct (Nat.ltb_spec n 16); [lia|]. fold k e t. rewrite per_record_nonce_spec by assumption.
        reflexivity. }
      rewrite E. destruct (list_eq_dec Z.eq_dec t (aead_tag_of (c_aead (rp_cipher r)) (k_key k) (record_nonce (k_iv k) (k_seq k)) (r_header rec) e)) as [Q|Q].
      * left. split; [assumption|]. destruct (D1 Q) as (p & -> & Lp). exists p. split; [assumption|reflexivity].
      * right. split; [assumption|]. now rewrite (D2 Q).
Qed.

(* from_raw keeps bytes bytes and sizes small *)
Lemma from_raw_ok buf n rec : is_bytes buf -> record_from_raw buf = Ok (n, rec) ->
  r_header rec = firstn 5 buf /\ n = (5 + length (r_fragment rec))%nat /\ (n <= length buf)%nat /\
  r_fragment rec = firstn (n - 5) (skipn 5 buf) /\ zlen (r_fragment rec) < 2^16 /\
  be_val (firstn 2 (skipn 3 buf)) = zlen (r_fragment rec) /\ nth 0 buf 0 = rt_code (r_type rec).
Proof.
  intros Hb H. destruct buf as [|t [|v1 [|v2 [|h [|l rest]]]]];
    try (rewrite from_raw_short in H by (cbn; lia); discriminate).
  destruct (rt_new t) as [ty|e|] eqn:T.
  - rewrite (from_raw_eq _ _ _ _ _ _ ty T) in H. cbv zeta in H.
    inversion Hb as [|? ? _ Hb1]; subst. inversion Hb1 as [|? ? _ Hb2]; subst. inversion Hb2 as [|? ? _ Hb3]; subst.
    inversion Hb3 as [|? ? Hh Hb4]; subst. inversion Hb4 as [|? ? Hl Hb5]; subst.
    unfold is_byte in Hh, Hl.
    assert (Z.lor (Z.shiftl h 8) l = 256 * h + l) as Q.
    { rewrite two_bytes by (unfold is_byte; lia). lia. }
    rewrite Q in H. remember (256 * h + l) as len eqn:El.
    destruct (Nat.ltb_spec (3 + length rest) (Z.to_nat len)); [discriminate|].
    destruct (Nat.ltb_spec (length rest) (Z.to_nat len)); [discriminate|].
    injection H as <- <-. cbn [r_header r_fragment r_type firstn skipn length nth].
    assert (length (firstn (Z.to_nat len) rest) = Z.to_nat len) as Lf by (rewrite firstn_length; lia).
    unfold zlen. rewrite Lf.
    split; [reflexivity|]. split; [reflexivity|]. split; [lia|]. split; [f_equal; lia|].
    split; [lia|]. split; [unfold be_val; cbn [fold_left]; lia|].
    apply rt_new_ok in T. congruence.
  - pose proof (rt_new_no_panic t). unfold record_from_raw in H. cbn [length Nat.ltb Nat.leb idx nth_error unwrap] in H. rewrite bind_Ok, T in H. discriminate.
  - now apply rt_new_no_panic in T.
Qed.

(* ---- one direction of a channel ---- *)
From Verif Require Import Model.Channel.
Definition key_at (k : tkey) (n : Z) : tkey :=
  {| k_secret := k_secret k; k_key := k_key k; k_iv := k_iv k; k_seq := n |}.
Inductive in_flight (c : cipher) (k : tkey) : Z -> list (list Z) -> list msg -> Prop :=
| IF_nil n : in_flight c k n [] []
| IF_cons n w ws m ms : msg_ok m -> sealed c (key_at k n) (snd m ++ [rt_code (fst m)]) w ->
    in_flight c k (n + 1) ws ms -> in_flight c k n (w :: ws) (m :: ms).
Lemma in_flight_snoc c k n ws ms w m : in_flight c k n ws ms -> msg_ok m ->
  sealed c (key_at k (n + zlen ms)) (snd m ++ [rt_code (fst m)]) w ->
  in_flight c k n (ws ++ [w]) (ms ++ [m]).
Proof.
  intros H Hm. induction H as [n|n w' ws m' ms Hm' Hs H IH]; intros S.
  - cbn [app]. constructor; [assumption| |constructor]. replace (n + zlen (@nil msg)) with n in S by (unfold zlen; cbn; lia). exact S.
  - cbn [app]. constructor; [assumption|assumption|]. apply IH.
    replace (n + 1 + zlen ms) with (n + zlen (m' :: ms)); [exact S|]. unfold zlen. cbn [length]. lia.
Qed.
Lemma in_flight_same c k k' n ws ms : k_key k = k_key k' -> k_iv k = k_iv k' -> in_flight c k n ws ms -> in_flight c k' n ws ms.
Proof.
  intros Ek Ei H. induction H as [n|n w ws m ms Hm Hs H IH]; [constructor|]. constructor; [assumption| |assumption].
  unfold sealed, key_at in *. cbn [k_key k_iv k_seq] in *. rewrite <- Ek, <- Ei. exact Hs.
Qed.

From Coq Require String.
Import String.StringSyntax.
Local Open Scope string_scope.
Local Open Scope list_scope.
Local Open Scope Z_scope.
(* ---- keys of an endpoint ---- *)
Definition rfc_traffic_key (A : alg) (klen : nat) (secret : list Z) : tkey :=
  {| k_secret := secret; k_key := write_key A secret klen; k_iv := write_iv A secret 12; k_seq := 0 |}.
Lemma suite_facts cs c t0 a A klen : suite_cipher cs = Ok c -> suite_tshash cs = Ok t0 ->
  suite_parameters (suite_u16 cs) = Some (a, A, klen) ->
  t0 = th_new (th_type t0) /\ A = Proofs.Hmac.alg_of (th_type t0) /\ klen = fst (key_iv_len (cipher_get_suite c)) /\ a = c_aead c.
Proof.
  destruct cs; cbn; intros E1 E2 E3; try discriminate; injection E1 as <-; injection E2 as <-; injection E3 as <- <- <-; repeat split.
Qed.
Local Opaque do_key_schedule.
Lemma rpp_keys cs c t0 a A klen is_client hellos ecdhe :
  suite_cipher cs = Ok c -> suite_tshash cs = Ok t0 -> suite_parameters (suite_u16 cs) = Some (a, A, klen) ->
  is_bytes hellos -> zlen hellos < 2^53 -> is_bytes ecdhe -> zlen ecdhe < 2^52 ->
  exists ks r, do_key_schedule (th_type t0) (th_finalize (th_update t0 hellos)) ecdhe = Some ks /\
    rpp_new (E:=tls_error) ks c is_client = Ok (Some r) /\ rp_is_client r = is_client /\ rp_cipher r = c /\
    cur_keys r = {| wk_server := rfc_traffic_key A klen (server_handshake_traffic_secret A ecdhe hellos);
                    wk_client := rfc_traffic_key A klen (client_handshake_traffic_secret A ecdhe hellos) |} /\
    good_key (cipher_get_suite c) (wk_server (cur_keys r)) /\ good_key (cipher_get_suite c) (wk_client (cur_keys r)) /\
    forall msgs, is_bytes msgs -> zlen msgs < 2^53 ->
      exists r', generate_application_keys r (th_update t0 msgs) = (r', Ok tt) /\
        rp_is_client r' = is_client /\ rp_cipher r' = c /\
        cur_keys r' = {| wk_server := rfc_traffic_key A klen (server_application_traffic_secret_0 A ecdhe msgs);
                         wk_client := rfc_traffic_key A klen (client_application_traffic_secret_0 A ecdhe msgs) |} /\
        good_key (cipher_get_suite c) (wk_server (cur_keys r')) /\ good_key (cipher_get_suite c) (wk_client (cur_keys r')).
Proof.
  intros E1 E2 E3 Hh Lh He Le. destruct (suite_facts _ _ _ _ _ _ E1 E2 E3) as (Et & EA & Ek & _).
  rewrite Et. cbn [th_new th_type]. rewrite Proofs.Hmac.th_digest. set (h := th_type t0) in *.
  destruct (schedule_spec h hellos ecdhe Hh Lh He Le) as (S & (B1 & L1) & (B2 & L2) & (B3 & L3)).
  subst A klen.
  eexists. eexists. split; [exact S|]. unfold rpp_new.
  rewrite (handshake_keys_spec h (cipher_get_suite c) _ _ _ B1 L1 B2 L2). unfold oobind. rewrite bind_Ok.
  split; [reflexivity|]. cbn [rp_is_client rp_cipher]. split; [reflexivity|]. split; [reflexivity|].
  unfold cur_keys at 1 2 3. cbn [rp_application rp_handshake wk_server wk_client].
  split; [reflexivity|].
  split; [exact (proj2 (key_from_hkdf_spec (E:=tls_error) h _ (cipher_get_suite c) B2 L2))|].
  split; [exact (proj2 (key_from_hkdf_spec (E:=tls_error) h _ (cipher_get_suite c) B1 L1))|].
  intros msgs Hm Lm. unfold generate_application_keys. cbn [rp_schedule rp_cipher rp_handshake rp_is_client ks_master].
  rewrite Proofs.Hmac.th_digest. rewrite (application_keys_spec (E:=tls_error) h (cipher_get_suite c) _ msgs B3 L3 Hm Lm).
  eexists. split; [reflexivity|]. cbn [rp_is_client rp_cipher]. split; [reflexivity|]. split; [reflexivity|].
  unfold cur_keys. cbn [rp_application wk_server wk_client]. split; [reflexivity|].
  pose proof (derive_good h (Master_Secret (Proofs.Hmac.alg_of h) ecdhe) (Spec.Rfc4648.codes "s ap traffic") msgs (cipher_get_suite c) B3 L3 (codes_bytes _) ltac:(cbn; lia) Hm Lm) as G1.
  pose proof (derive_good h (Master_Secret (Proofs.Hmac.alg_of h) ecdhe) (Spec.Rfc4648.codes "c ap traffic") msgs (cipher_get_suite c) B3 L3 (codes_bytes _) ltac:(cbn; lia) Hm Lm) as G2.
  split; [exact G1|exact G2].
Qed.

(* ---- nonces drawn from one key ---- *)
Lemma draw_spec n k : length (k_iv k) = 12%nat -> 0 <= k_seq k -> k_seq k + Z.of_nat n < 2^64 ->
  draw n k = Ok (map (fun i => record_nonce (k_iv k) (k_seq k + Z.of_nat i)) (List.seq 0 n),
                 key_at k (k_seq k + Z.of_nat n)).
Proof.
  revert k. induction n as [|n IH]; intros k L H0 H.
  - cbn [draw seq map]. do 2 f_equal. destruct k. unfold key_at. cbn. f_equal. lia.
  - cbn [draw]. rewrite per_record_nonce_spec by (assumption || lia). rewrite bind_Ok.
    rewrite IH by (cbn [next_key k_iv k_seq]; (assumption || lia)). rewrite bind_Ok.
    cbn [seq map next_key k_iv k_seq]. rewrite <- seq_shift, map_map. do 2 f_equal.
    + f_equal; [f_equal; lia|]. apply map_ext. intros i. f_equal. lia.
    + unfold key_at. cbn. f_equal. lia.
Qed.
Lemma NoDup_map_seq {A} (f : nat -> A) n : (forall a b, (a < n)%nat -> (b < n)%nat -> f a = f b -> a = b) ->
  NoDup (map f (List.seq 0 n)).
Proof.
  intros H. induction n as [|n IH]; [constructor|]. rewrite seq_S, map_app. cbn [map Nat.add].
  apply NoDup_Add with (a := f n) (l := map f (List.seq 0 n)).
  - pose proof (Add_app (f n) (map f (List.seq 0 n)) []) as X. rewrite app_nil_r in X. exact X.
  - split; [apply IH; intros a b Ha Hb Q; apply (H a b); [lia|lia|exact Q]|]. intros I. apply in_map_iff in I. destruct I as (i & E & Hi).
    apply in_seq in Hi. apply H in E; [subst i; lia|lia|lia].
Qed.
Lemma draw_stops n k ns k' : draw n k = Ok (ns, k') -> k_seq k' = k_seq k + Z.of_nat n /\ (n <> 0%nat -> k_seq k' < 2^64).
Proof.
  revert k ns. induction n as [|n IH]; intros k ns H; cbn [draw] in H.
  - injection H as _ <-. split; lia.
  - Local Transparent per_record_nonce. unfold per_record_nonce in H. Local Opaque per_record_nonce.
    destruct (Z.ltb_spec (k_seq k + 1) (2^64)); [|discriminate]. rewrite bind_Ok in H.
    destruct (draw n _) as [[xs k2]|e|] eqn:E; try discriminate. rewrite bind_Ok in H. injection H as _ <-.
    apply IH in E. cbn [k_seq] in E. destruct E as [E1 E2]. split; [lia|]. intros _.
    destruct n; [|apply E2; discriminate]. rewrite E1. lia.
Qed.
Lemma draw_nodup n k : length (k_iv k) = 12%nat -> 0 <= k_seq k -> k_seq k + Z.of_nat n < 2^64 ->
  NoDup (map (fun i => record_nonce (k_iv k) (k_seq k + Z.of_nat i)) (List.seq 0 n)).
Proof.
  intros L H0 H. assert (forall a b, (a < n)%nat -> (b < n)%nat ->
    record_nonce (k_iv k) (k_seq k + Z.of_nat a) = record_nonce (k_iv k) (k_seq k + Z.of_nat b) -> a = b) as Inj.
  { intros a b Ha Hb E. apply record_nonce_inj in E; [lia|assumption|lia|lia]. }
  apply NoDup_map_seq. exact Inj.
Qed.
