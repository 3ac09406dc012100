From Coq Require String.
From Verif Require Import Proofs.Util Proofs.Bytes Model.Sha2 Model.Hmac Model.Alert Model.Suite Model.KeySchedule
  Spec.Enc Spec.Rfc4648 Spec.Fips180 Spec.Rfc2104 Spec.Rfc8446Keys Spec.Endpoints Proofs.Hmac.
Import String.StringSyntax.
Local Open Scope string_scope.
Local Open Scope list_scope.
Local Open Scope Z_scope.

Lemma label_spec label context n : (length label <= 249)%nat -> (length context <= 255)%nat -> Z.of_nat n < 2^16 ->
  hkdf_expand_label label context n = HkdfLabel label context n.
Proof.
  intros Hl Hc Hn. unfold hkdf_expand_label, HkdfLabel, vec8.
  assert (be_enc 2 (Z.of_nat n) = [u8 (Z.shiftr (Z.of_nat n) 8); u8 (Z.of_nat n)]) as ->.
  { unfold be_enc. cbn [le_enc rev app]. rewrite Z.shiftr_div_pow2 by lia. reflexivity. }
  rewrite app_length, (u8_id (6 + zlen label)), (u8_id (zlen context)) by (unfold zlen; lia).
  change (length (codes "tls13 ")) with 6%nat. unfold zlen. cbn [app].
  do 3 f_equal. lia.
Qed.
Lemma app_len_inj {A} (a b c d : list A) : length a = length c -> a ++ b = c ++ d -> a = c /\ b = d.
Proof.
  revert c. induction a as [|x a IH]; intros [|y c] H E; try discriminate; [now split|].
  injection E as -> E. injection H as H. destruct (IH c H E) as [-> ->]. now split.
Qed.
Lemma vec8_inj a b c d : vec8 a ++ b = vec8 c ++ d -> a = c /\ b = d.
Proof. unfold vec8. cbn [app]. intros [= H E]. apply app_len_inj; [lia|assumption]. Qed.
Lemma label_inj l1 c1 n1 l2 c2 n2 :
  (length l1 <= 249)%nat -> (length c1 <= 255)%nat -> Z.of_nat n1 < 2^16 ->
  (length l2 <= 249)%nat -> (length c2 <= 255)%nat -> Z.of_nat n2 < 2^16 ->
  hkdf_expand_label l1 c1 n1 = hkdf_expand_label l2 c2 n2 -> l1 = l2 /\ c1 = c2 /\ n1 = n2.
Proof.
  intros. rewrite !label_spec in H5 by assumption. unfold HkdfLabel in H5.
  apply app_len_inj in H5; [|now rewrite !be_enc_length]. destruct H5 as [E1 E2].
  apply (f_equal be_val) in E1. rewrite !be_val_enc in E1. change (256 ^ Z.of_nat 2) with (2^16) in E1.
  rewrite !Z.mod_small in E1 by lia.
  apply vec8_inj in E2. destruct E2 as [E2 E3]. apply app_inv_head in E2.
  rewrite <- (app_nil_r (vec8 c1)), <- (app_nil_r (vec8 c2)) in E3. apply vec8_inj in E3.
  destruct E3. repeat split; [assumption|assumption|lia].
Qed.

(* ---- sizes ---- *)
Lemma expand_loop_bytes f k info L okm last i : is_bytes okm -> is_bytes (expand_loop f k info L okm last i).
Proof.
  revert okm last i. induction f as [|f IH]; intros okm last i H; cbn [expand_loop]; destruct (Nat.ltb _ _); try assumption.
  apply IH. apply is_bytes_app. split; [assumption|]. apply is_bytes_firstn, hmac_bytes.
Qed.
Lemma expand_bytes k info L okm : hkdf_expand k info L = Some okm -> is_bytes okm.
Proof.
  unfold hkdf_expand. destruct (Nat.ltb _ _); [discriminate|]. intros [= <-]. apply expand_loop_bytes. constructor.
Qed.
Lemma codes_bytes s : is_bytes (codes s).
Proof.
  unfold codes. apply Forall_map, Forall_forall. intros a _. pose proof (Ascii.nat_ascii_bounded a).
  unfold is_byte. lia.
Qed.
Lemma vec8_bytes l : is_bytes l -> (length l <= 255)%nat -> is_bytes (vec8 l).
Proof. intros H L. constructor; [unfold is_byte; lia|assumption]. Qed.
Lemma HkdfLabel_bytes label context n : is_bytes label -> is_bytes context ->
  (length label <= 249)%nat -> (length context <= 255)%nat -> is_bytes (HkdfLabel label context n).
Proof.
  intros. unfold HkdfLabel. apply is_bytes_app. split; [apply be_enc_bytes|]. apply is_bytes_app. split.
  - apply vec8_bytes; [apply is_bytes_app; split; [apply codes_bytes|assumption]|].
    rewrite app_length. change (length (codes "tls13 ")) with 6%nat. lia.
  - now apply vec8_bytes.
Qed.
Lemma HkdfLabel_length label context n :
  length (HkdfLabel label context n) = (10 + length label + length context)%nat.
Proof.
  unfold HkdfLabel, vec8. rewrite !app_length, be_enc_length. cbn [length]. rewrite app_length.
  change (length (codes "tls13 ")) with 6%nat. lia.
Qed.

Local Opaque sha_x hmac hkdf_expand HKDF_Expand HMAC alg_hash.

(* one labelled expansion *)
Lemma expand_label_spec k label context n :
  is_bytes (hk_prk k) -> length (hk_prk k) = hash_len (hk_hash k) -> is_bytes label -> is_bytes context ->
  (length label <= 249)%nat -> (length context <= 255)%nat -> (n <= 48)%nat ->
  let v := Expand_Label (alg_of (hk_hash k)) (hk_prk k) label context n in
  hkdf_expand k (hkdf_expand_label label context n) n = Some v /\ is_bytes v /\ length v = n.
Proof.
  intros Hk Lk Hl Hc Ll Lc Hn v. rewrite label_spec by lia.
  assert (32 <= hash_len (hk_hash k) <= 48)%nat by (destruct (hk_hash k); cbn; lia).
  assert (zlen (HkdfLabel label context n) < 2^51) as LH by (unfold zlen; rewrite HkdfLabel_length; lia).
  pose proof (expand_spec k (HkdfLabel label context n) n Hk ltac:(unfold zlen; lia) ltac:(unfold bad_key; lia)
    (HkdfLabel_bytes label context n Hl Hc Ll Lc) LH) as S.
  unfold v, Expand_Label.
  pose proof (expand_size k (HkdfLabel label context n) n) as Z.
  pose proof (expand_bytes k (HkdfLabel label context n) n) as B.
  rewrite S in Z, B |- *.
  destruct (HKDF_Expand (alg_of (hk_hash k)) (hk_prk k) (HkdfLabel label context n) n) as [okm|].
  - split; [reflexivity|]. split; [now apply B|apply Z].
  - lia.
Qed.
Lemma hash_len_le h : (32 <= hash_len h <= 48)%nat.
Proof. destruct h; cbn; lia. Qed.
Lemma alg_len_of h : alg_len (alg_of h) = hash_len h.
Proof. now destruct h. Qed.

(* extraction from a salt of digest size *)
Lemma extract_label_spec h salt ikm : is_bytes salt -> length salt = hash_len h -> is_bytes ikm -> zlen ikm < 2^52 ->
  hkdf_extract h salt ikm = from_prk h (HKDF_Extract (alg_of h) salt ikm)
  /\ is_bytes (HKDF_Extract (alg_of h) salt ikm) /\ length (HKDF_Extract (alg_of h) salt ikm) = hash_len h.
Proof.
  intros Hs Ls Hi Li. pose proof (hash_len_le h).
  pose proof (extract_spec h salt ikm Hs Hi ltac:(unfold zlen; lia) Li ltac:(unfold bad_key; lia)) as E.
  split; [exact E|]. unfold hkdf_extract in E. injection E as E. rewrite <- E. split; [apply hmac_bytes|apply hmac_length].
Qed.

Lemma labels_codes :
  l_tls13 = codes "tls13 " /\ l_key = codes "key" /\ l_iv = codes "iv" /\ l_derived = codes "derived" /\
  l_c_hs = codes "c hs traffic" /\ l_s_hs = codes "s hs traffic" /\ l_c_ap = codes "c ap traffic" /\ l_s_ap = codes "s ap traffic".
Proof. repeat split. Qed.

Lemma digest_ctx h m : is_bytes m -> zlen m < 2^53 ->
  sha_x h m = alg_hash (alg_of h) m /\ is_bytes (alg_hash (alg_of h) m) /\ length (alg_hash (alg_of h) m) = hash_len h.
Proof.
  intros Hm Lm. rewrite <- sha_x_spec by assumption. split; [reflexivity|]. split; [apply sha_x_bytes|apply sha_x_length].
Qed.

(* Derive-Secret *)
Lemma derive_spec h prk label m : is_bytes prk -> length prk = hash_len h -> is_bytes label -> (length label <= 249)%nat ->
  is_bytes m -> zlen m < 2^53 ->
  let v := Derive_Secret (alg_of h) prk label m in
  hkdf_expand (from_prk h prk) (hkdf_expand_label label (sha_x h m) (hash_len h)) (hash_len h) = Some v
  /\ is_bytes v /\ length v = hash_len h.
Proof.
  intros Hp Lp Hl Ll Hm Lm v. pose proof (hash_len_le h).
  destruct (digest_ctx h m Hm Lm) as (E & B & L). rewrite E. unfold v, Derive_Secret. rewrite alg_len_of.
  apply (expand_label_spec (from_prk h prk)); try assumption; lia.
Qed.

Lemma schedule_spec h hellos ecdhe : is_bytes hellos -> zlen hellos < 2^53 -> is_bytes ecdhe -> zlen ecdhe < 2^52 ->
  let A := alg_of h in
  do_key_schedule h (sha_x h hellos) ecdhe = Some
    {| ks_client_hs := from_prk h (client_handshake_traffic_secret A ecdhe hellos);
       ks_server_hs := from_prk h (server_handshake_traffic_secret A ecdhe hellos);
       ks_master := from_prk h (Master_Secret A ecdhe) |}
  /\ (is_bytes (client_handshake_traffic_secret A ecdhe hellos) /\ length (client_handshake_traffic_secret A ecdhe hellos) = hash_len h)
  /\ (is_bytes (server_handshake_traffic_secret A ecdhe hellos) /\ length (server_handshake_traffic_secret A ecdhe hellos) = hash_len h)
  /\ (is_bytes (Master_Secret A ecdhe) /\ length (Master_Secret A ecdhe) = hash_len h).
Proof.
  intros Hm Lm He Le A. pose proof (hash_len_le h) as HL.
  assert (is_bytes (repeat 0 (hash_len h))) as Z0 by (apply is_bytes_repeat; unfold is_byte; lia).
  assert (length (repeat 0 (hash_len h)) = hash_len h) as Z1 by apply repeat_length.
  assert (zlen (repeat 0 (hash_len h)) < 2^52) as Z2 by (unfold zlen; lia).
  assert (zeros A = repeat 0 (hash_len h)) as EZ by (unfold zeros, A; now rewrite alg_len_of).
  assert (is_bytes []) as BN by constructor.
  destruct labels_codes as (_ & _ & _ & Ld & Lc & Ls & _ & _).
  unfold do_key_schedule. rewrite Ld, Lc, Ls.
  (* early *)
  destruct (extract_label_spec h _ _ Z0 Z1 Z0 Z2) as (-> & B1 & L1).
  destruct (derive_spec h _ (codes "derived") [] B1 L1 (codes_bytes _) ltac:(cbn; lia) BN ltac:(cbn; lia)) as (-> & B2 & L2).
  cbn [opt_bind].
  (* handshake *)
  destruct (extract_label_spec h _ _ B2 L2 He Le) as (-> & B3 & L3).
  destruct (derive_spec h _ (codes "c hs traffic") hellos B3 L3 (codes_bytes _) ltac:(cbn; lia) Hm Lm) as (-> & B4 & L4).
  cbn [opt_bind].
  destruct (derive_spec h _ (codes "s hs traffic") hellos B3 L3 (codes_bytes _) ltac:(cbn; lia) Hm Lm) as (-> & B5 & L5).
  cbn [opt_bind].
  destruct (derive_spec h _ (codes "derived") [] B3 L3 (codes_bytes _) ltac:(cbn; lia) BN ltac:(cbn; lia)) as (-> & B6 & L6).
  cbn [opt_bind].
  destruct (extract_label_spec h _ _ B6 L6 Z0 Z2) as (-> & B7 & L7).
  unfold client_handshake_traffic_secret, server_handshake_traffic_secret, Master_Secret, Handshake_Secret, Early_Secret.
  rewrite EZ. unfold A. repeat split; assumption.
Qed.

(* traffic keys *)
Definition traffic_key (A : alg) (cs : cipher_suite) (secret : list Z) : tkey :=
  {| k_secret := secret; k_key := write_key A secret (fst (key_iv_len cs));
     k_iv := write_iv A secret 12; k_seq := 0 |}.
Lemma key_iv_len_eq cs : key_iv_len cs = (fst (key_iv_len cs), 12%nat) /\ (fst (key_iv_len cs) = 16 \/ fst (key_iv_len cs) = 32)%nat.
Proof. destruct cs; split; (reflexivity || (cbn; lia)). Qed.
Lemma key_from_hkdf_spec {E} h secret cs : is_bytes secret -> length secret = hash_len h ->
  key_from_hkdf (E:=E) (from_prk h secret) (fst (key_iv_len cs)) 12 = Ok (Some (traffic_key (alg_of h) cs secret))
  /\ good_key cs (traffic_key (alg_of h) cs secret).
Proof.
  intros Hs Ls. destruct (key_iv_len_eq cs) as [_ K]. destruct labels_codes as (_ & Lk & Li & _).
  unfold key_from_hkdf. rewrite Lk, Li. assert (is_bytes []) as BN by constructor.
  destruct (expand_label_spec (from_prk h secret) (codes "key") [] (fst (key_iv_len cs)) Hs Ls (codes_bytes _) BN
              ltac:(cbn; lia) ltac:(cbn; lia) ltac:(lia)) as (-> & B1 & L1). cbn [obind].
  destruct (expand_label_spec (from_prk h secret) (codes "iv") [] 12 Hs Ls (codes_bytes _) BN
              ltac:(cbn; lia) ltac:(cbn; lia) ltac:(lia)) as (-> & B2 & L2). cbn [obind].
  rewrite L2. cbn [Nat.eqb]. split; [reflexivity|]. repeat split; assumption.
Qed.

Lemma handshake_keys_spec {E} h cs c s m : is_bytes c -> length c = hash_len h -> is_bytes s -> length s = hash_len h ->
  handshake_keys (E:=E) {| ks_client_hs := from_prk h c; ks_server_hs := from_prk h s; ks_master := m |} cs
  = Ok (Some {| wk_server := traffic_key (alg_of h) cs s; wk_client := traffic_key (alg_of h) cs c |}).
Proof.
  intros Hc Lc Hs Ls. unfold handshake_keys. destruct (key_iv_len_eq cs) as [-> _]. cbn [ks_server_hs ks_client_hs].
  destruct (key_from_hkdf_spec (E:=E) h s cs Hs Ls) as [-> _]. unfold oobind. rewrite bind_Ok.
  destruct (key_from_hkdf_spec (E:=E) h c cs Hc Lc) as [-> _]. now rewrite bind_Ok.
Qed.
Lemma application_keys_spec {E} h cs master msgs : is_bytes master -> length master = hash_len h -> is_bytes msgs -> zlen msgs < 2^53 ->
  application_keys_from_master_secret (E:=E) (from_prk h master) (sha_x h msgs) cs
  = Ok (Some {| wk_server := traffic_key (alg_of h) cs (Derive_Secret (alg_of h) master (codes "s ap traffic") msgs);
                wk_client := traffic_key (alg_of h) cs (Derive_Secret (alg_of h) master (codes "c ap traffic") msgs) |}).
Proof.
  intros Hm Lm Hg Lg. unfold application_keys_from_master_secret. cbn [from_prk hk_hash].
  destruct (key_iv_len_eq cs) as [-> _]. destruct labels_codes as (_ & _ & _ & _ & _ & _ & -> & ->).
  destruct (derive_spec h master (codes "c ap traffic") msgs Hm Lm (codes_bytes _) ltac:(cbn; lia) Hg Lg) as (-> & B1 & L1).
  cbn [obind]. destruct (key_from_hkdf_spec (E:=E) h _ cs B1 L1) as [-> _]. unfold oobind. rewrite bind_Ok.
  destruct (derive_spec h master (codes "s ap traffic") msgs Hm Lm (codes_bytes _) ltac:(cbn; lia) Hg Lg) as (-> & B2 & L2).
  cbn [obind]. destruct (key_from_hkdf_spec (E:=E) h _ cs B2 L2) as [-> _]. now rewrite bind_Ok.
Qed.
Lemma derive_good h prk label m cs : is_bytes prk -> length prk = hash_len h -> is_bytes label -> (length label <= 249)%nat ->
  is_bytes m -> zlen m < 2^53 -> good_key cs (traffic_key (alg_of h) cs (Derive_Secret (alg_of h) prk label m)).
Proof.
  intros. destruct (derive_spec h prk label m) as (_ & B & L); try assumption.
  now apply (key_from_hkdf_spec (E:=unit)).
Qed.

(* ---- nonces ---- *)
Lemma nonce_spec iv s : length iv = 12%nat -> 0 <= s < 2^64 -> nonce_of iv s = record_nonce iv s.
Proof.
  intros L Hs. unfold nonce_of, record_nonce, be_enc. rewrite <- map_shift_le, L.
  do 12 (destruct iv as [|? iv]; [discriminate|]). destruct iv; [|discriminate].
  cbn [List.seq map rev app combine fst snd Nat.leb Nat.sub].
  assert (forall k, 64 <= k -> u8 (Z.shiftr s k) = 0) as Z0.
  { intros k Hk. rewrite Z.shiftr_div_pow2 by lia. rewrite Z.div_small; [reflexivity|].
    split; [lia|]. apply Z.lt_le_trans with (2^64); [lia|]. apply Z.pow_le_mono_r; lia. }
  rewrite !(Z0 (Z.of_nat 11 * 8)), !(Z0 (Z.of_nat 10 * 8)), !(Z0 (Z.of_nat 9 * 8)), !(Z0 (Z.of_nat 8 * 8)) by lia.
  rewrite !Z.lxor_0_r. reflexivity.
Qed.
Lemma map_xor_inj a b c : length b = length a -> length c = length a ->
  map (fun p => Z.lxor (fst p) (snd p)) (combine a b) = map (fun p => Z.lxor (fst p) (snd p)) (combine a c) -> b = c.
Proof.
  revert b c. induction a as [|x a IH]; intros [|y b] [|z c] Hb Hc E; try discriminate; [reflexivity|].
  cbn [combine map fst snd] in E. injection E as E1 E2. f_equal; [now apply lxor_inj_l in E1|].
  apply IH; [now injection Hb|now injection Hc|assumption].
Qed.
Lemma record_nonce_inj iv s t : length iv = 12%nat -> 0 <= s < 2^64 -> 0 <= t < 2^64 ->
  record_nonce iv s = record_nonce iv t -> s = t.
Proof.
  intros L Hs Ht E. apply map_xor_inj in E; [|now rewrite be_enc_length..].
  apply (f_equal be_val) in E. rewrite !be_val_enc, L in E. change (256 ^ Z.of_nat 12) with (2^96) in E.
  rewrite !Z.mod_small in E by lia. exact E.
Qed.
Lemma record_nonce_ok iv s : is_bytes iv -> is_bytes (record_nonce iv s) /\ length (record_nonce iv s) = length iv.
Proof.
  intros H. unfold record_nonce. split.
  - pose proof (be_enc_bytes (length iv) s) as B. revert B. generalize (be_enc (length iv) s). intros l Hl.
    revert l Hl. induction H as [|x iv Hx H IH]; intros l Hl; [constructor|]. destruct Hl as [|y l Hy Hl]; [constructor|].
    cbn [combine map fst snd]. constructor; [now apply byte_lxor|now apply IH].
  - rewrite map_length, combine_length, be_enc_length. lia.
Qed.
