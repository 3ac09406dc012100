(* Certificate, CertificateVerify and Finished messages *)
From Verif Require Import Model.Base Model.Bytes Model.Alert Model.Sha2 Model.Hmac Model.KeySchedule Model.Curve Model.Signature Model.Ecdsa Model.X509
  Model.Extensions Model.Handshake Model.Certificate Spec.Enc Spec.Rfc4648 Spec.Fips180 Spec.Rfc2104 Spec.Rfc8446Keys Spec.Rfc8446Auth Spec.X509
  Proofs.Util Proofs.Bytes Proofs.Sha2 Proofs.Hmac Proofs.KeySchedule Proofs.X509Cert Proofs.X509Bytes Proofs.Signature Proofs.HelloTotal.
From Verif Require Spec.Rfc8446Hello Spec.Ecdsa Spec.Ec Proofs.EcdsaP256.
From Coq Require Import Lia.
From Coq Require String.
Import ListNotations.
Import String.StringSyntax.
Local Open Scope string_scope.
Local Open Scope list_scope.
Local Open Scope Z_scope.

Local Opaque sha_x hmac hkdf_expand HKDF_Expand HMAC alg_hash sha256 sha256_spec.

Lemma finished_codes : l_finished = codes "finished".
Proof. reflexivity. Qed.
Lemma th_type_update t m : th_type (th_update t m) = th_type t.
Proof. now destruct t. Qed.
Lemma th_type_new h : th_type (th_new h) = h.
Proof. now destruct h. Qed.
Lemma finished_data h secret m : is_bytes secret -> length secret = hash_len h -> is_bytes m -> zlen m < 2^53 ->
  verify_data_for_finished (from_prk h secret) (th_update (th_new h) m) = Ok (finished_verify_data (alg_of h) secret m)
  /\ length (finished_verify_data (alg_of h) secret m) = hash_len h /\ is_bytes (finished_verify_data (alg_of h) secret m).
Proof.
  intros Bs Ls Bm Lm. pose proof (hash_len_le h).
  unfold verify_data_for_finished. rewrite th_type_update, th_type_new, finished_codes.
  destruct (expand_label_spec (from_prk h secret) (codes "finished") [] (hash_len h) Bs Ls (codes_bytes _) ltac:(constructor)
    ltac:(cbn; lia) ltac:(cbn; lia) ltac:(lia)) as (-> & Bk & Lk).
  rewrite th_digest, (sha_x_spec h m Bm Lm). unfold finished_verify_data, finished_key. rewrite alg_len_of.
  cbn [from_prk hk_hash hk_prk] in *.
  assert (D : is_bytes (alg_hash (alg_of h) m) /\ length (alg_hash (alg_of h) m) = hash_len h).
  { rewrite <- (sha_x_spec h m Bm Lm). split; [apply sha_x_bytes|apply sha_x_length]. }
  destruct D as (Bd & Ld).
  assert (Q : hmac h (Expand_Label (alg_of h) secret (codes "finished") [] (hash_len h)) (alg_hash (alg_of h) m)
    = HMAC (alg_of h) (Expand_Label (alg_of h) secret (codes "finished") [] (hash_len h)) (alg_hash (alg_of h) m)).
  { apply hmac_spec; try assumption; unfold zlen, bad_key; try lia. }
  rewrite <- Q. repeat split; [apply hmac_length|apply hmac_bytes].
Qed.

Lemma finished_message h secret m : is_bytes secret -> length secret = hash_len h -> is_bytes m -> zlen m < 2^53 ->
  finished_handshake (from_prk h secret) (th_update (th_new h) m) =
    Ok (Rfc8446Hello.handshake 20 (finished_verify_data (alg_of h) secret m)).
Proof.
  intros Bs Ls Bm Lm. unfold finished_handshake. destruct (finished_data h secret m Bs Ls Bm Lm) as (-> & _ & _).
  cbn [bind]. now rewrite to_bytes_wire.
Qed.

(* Certificate *)
Lemma be_enc_3 n : be_enc 3 n = [u8 (Z.shiftr n 16); u8 (Z.shiftr n 8); u8 n].
Proof.
  unfold be_enc. cbn [le_enc rev app]. unfold u8. rewrite !Z.shiftr_div_pow2 by lia. rewrite Z.div_div by lia.
  reflexivity.
Qed.
Lemma be_enc_2 n : be_enc 2 n = [u8 (Z.shiftr n 8); u8 n].
Proof.
  unfold be_enc. cbn [le_enc rev app]. unfold u8. rewrite !Z.shiftr_div_pow2 by lia. reflexivity.
Qed.
Lemma certificate_bytes c context : zlen (ct_raw c) + 5 < 2^24 ->
  certificate_for_handshake c (Rfc8446Hello.vector8 context) = Rfc8446Hello.certificate_wire context (ct_raw c).
Proof.
  intros H. unfold certificate_for_handshake, Rfc8446Hello.certificate_wire, Rfc8446Hello.vector24, Rfc8446Hello.vector16.
  f_equal. fold (zlen (ct_raw c)). rewrite (app_length (_ ++ _)), app_length, be_enc_length.
  replace (Z.of_nat (3 + length (ct_raw c) + length (be_enc 2 (Z.of_nat (length (@nil Z))) ++ []))) with (zlen (ct_raw c) + 5)
    by (unfold zlen; cbn; lia).
  rewrite !be_enc_3. cbn [app]. reflexivity.
Qed.

(* what the receiver makes of a Certificate message whose list starts with a given certificate *)
Definition entry (cert exts : list Z) : list Z := Rfc8446Hello.vector24 cert ++ Rfc8446Hello.vector16 exts.
Lemma to_nat_be24 (l : list Z) : Z.of_nat (length l) < 2^24 -> Z.to_nat (to_u128_be_fill (be_enc 3 (Z.of_nat (length l)))) = length l.
Proof.
  intros H. rewrite to_u128_be_fill_val; [|apply be_enc_bytes|rewrite be_enc_length; lia].
  rewrite be_val_enc, Z.mod_small by (cbn; lia). lia.
Qed.
Lemma certificates_read context cert exts more tail now :
  zlen context < 256 -> zlen cert < 2^24 ->
  zlen (entry cert exts ++ more) < 2^24 ->
  certificates_from_hello (Rfc8446Hello.vector8 context ++ Rfc8446Hello.vector24 (entry cert exts ++ more) ++ tail) now =
  (let! c := certificate_from_raw cert in
   let! x := unwrap (ct_x509 c) in
   let! valid := is_valid (x_validity x) now in
   if negb valid then Err CertificateExpired else Ok [c]).
Proof.
  intros Hc Hr Hl. unfold certificates_from_hello, Rfc8446Hello.vector8. unfold zlen in *.
  change (be_enc 1 (Z.of_nat (length context))) with [Z.of_nat (length context) mod 256].
  rewrite Z.mod_small by lia. cbn [app].
  unfold idx at 1. cbn [nth_error unwrap]. rewrite bind_Ok. rewrite Nat2Z.id.
  set (L := entry cert exts ++ more) in *.
  change (Rfc8446Hello.vector24 L) with (be_enc 3 (Z.of_nat (length L)) ++ L).
  set (n0 := Z.of_nat (length context)).
  assert (E0 : n0 :: context ++ (be_enc 3 (Z.of_nat (length L)) ++ L) ++ tail
    = (n0 :: context) ++ be_enc 3 (Z.of_nat (length L)) ++ (L ++ tail)) by (cbn [app]; now rewrite <- app_assoc).
  rewrite E0. rewrite slice_mid by (cbn [length]; rewrite ?be_enc_length; lia). cbn [bind].
  rewrite to_nat_be24 by assumption.
  destruct (Nat.eqb_spec (length L) 0) as [Z0|Z0].
  { unfold L, entry, Rfc8446Hello.vector24 in Z0. rewrite !app_length, be_enc_length in Z0. lia. }
  clear E0.
  set (P := (n0 :: context) ++ be_enc 3 (Z.of_nat (length L))).
  assert (LP : length P = (1 + length context + 3)%nat) by (unfold P; rewrite app_length, be_enc_length; cbn [length]; lia).
  assert (E1 : (n0 :: context) ++ be_enc 3 (Z.of_nat (length L)) ++ L ++ tail
    = P ++ be_enc 3 (Z.of_nat (length cert)) ++ (cert ++ Rfc8446Hello.vector16 exts ++ more ++ tail)).
  { unfold P, L, entry, Rfc8446Hello.vector24. rewrite <- !app_assoc. reflexivity. }
  clearbody P L. rewrite E1. rewrite slice_mid by (rewrite ?be_enc_length; lia). cbn [bind].
  rewrite to_nat_be24 by assumption.
  assert (E2 : P ++ be_enc 3 (Z.of_nat (length cert)) ++ (cert ++ Rfc8446Hello.vector16 exts ++ more ++ tail)
    = (P ++ be_enc 3 (Z.of_nat (length cert))) ++ cert ++ (Rfc8446Hello.vector16 exts ++ more ++ tail)) by (now rewrite <- app_assoc).
  rewrite E2. rewrite slice_mid by (rewrite app_length, be_enc_length; lia). cbn [bind].
  destruct (certificate_from_raw cert) as [c|e|]; [|reflexivity|reflexivity]. cbn [bind].
  unfold Rfc8446Hello.vector16. rewrite <- (app_assoc (be_enc 2 _)).
  assert (E3 : (P ++ be_enc 3 (Z.of_nat (length cert))) ++ cert ++ (be_enc 2 (Z.of_nat (length exts)) ++ exts ++ more ++ tail)
    = ((P ++ be_enc 3 (Z.of_nat (length cert))) ++ cert) ++ be_enc 2 (Z.of_nat (length exts)) ++ (exts ++ more ++ tail)) by (rewrite <- !app_assoc; reflexivity).
  rewrite E3. rewrite slice_mid by (rewrite !app_length, ?be_enc_length; lia). reflexivity.
Qed.

(* CertificateVerify *)
Lemma verify_content_server hash : verify_content l_server hash = signed_content server_context hash.
Proof. reflexivity. Qed.
Lemma verify_content_client hash : verify_content l_client hash = signed_content client_context hash.
Proof. reflexivity. Qed.
Lemma signed_content_bytes c h : is_bytes c -> is_bytes h -> is_bytes (signed_content c h).
Proof.
  intros Bc Bh. unfold signed_content. apply is_bytes_app. split; [apply is_bytes_repeat; unfold is_byte; lia|].
  apply is_bytes_app. split; [assumption|]. constructor; [unfold is_byte; lia|assumption].
Qed.
Lemma signed_content_len c h : length (signed_content c h) = (65 + length c + length h)%nat.
Proof. unfold signed_content. rewrite !app_length, repeat_length. cbn [length]. lia. Qed.
Lemma context_ok : is_bytes server_context /\ is_bytes client_context /\ length server_context = 33%nat /\ length client_context = 33%nat.
Proof. split; [apply codes_bytes|]. split; [apply codes_bytes|]. split; reflexivity. Qed.

(* the digest that is signed *)
Lemma verify_digest h m label ctx : is_bytes m -> zlen m < 2^53 ->
  (label = l_server /\ ctx = server_context \/ label = l_client /\ ctx = client_context) ->
  sha256 (verify_content label (th_finalize (th_update (th_new h) m))) = sha256_spec (verify_message (alg_of h) ctx m).
Proof.
  intros Bm Lm HL. rewrite th_digest. unfold verify_message.
  destruct (digest_ctx h m Bm Lm) as (-> & Bd & Ld). pose proof (hash_len_le h). destruct context_ok as (B1 & B2 & L1 & L2).
  destruct HL as [[-> ->]|[-> ->]]; [rewrite verify_content_server|rewrite verify_content_client];
    apply sha256_correct; try (apply signed_content_bytes; assumption); unfold zlen; rewrite signed_content_len; lia.
Qed.
Lemma cv_wire der : zlen der < 2^16 ->
  [0x04; 0x03; u8 (Z.shiftr (zlen der) 8); u8 (zlen der)] ++ der = Rfc8446Hello.certificate_verify_wire 0x0403 der.
Proof.
  intros H. unfold Rfc8446Hello.certificate_verify_wire, Rfc8446Hello.vector16, Rfc8446Hello.u16. fold (zlen der).
  rewrite (be_enc_2 (zlen der)). reflexivity.
Qed.

Lemma sha256_len m : length (sha256 m) = 32%nat.
Proof. exact (sha_x_length SHA256 m). Qed.
Lemma hash_int_32 h : length h = 32%nat -> Ecdsa.hash_int h = be_val h.
Proof. intros L. unfold Ecdsa.hash_int. rewrite firstn_all2 by lia. reflexivity. Qed.

Lemma verify_key {F} a b sg m : 0 <= a -> 0 <= b ->
  exists v, ecdsa_verify (E:=F) (PublicKey (Point a b) secp256r1) sg (sha256 m) = Ok v /\
  (v = true <-> signed_under (a, b) (sha256 m) (sg_r sg) (sg_s sg)).
Proof.
  intros Ha Hb. destruct (EcdsaP256.p256_verify F a b sg (sha256 m) Ha Hb) as (v & H1 & H2). exists v. split; [exact H1|].
  unfold signed_under. cbn [fst snd]. rewrite hash_int_32 by apply sha256_len. exact H2.
Qed.

(* the check of a CertificateVerify *)
Lemma valid_true {F} c x sg t label : ct_x509 c = Some x -> is_bytes (ct_raw c) -> x509_from_raw (ct_raw c) = Ok x ->
  is_certificate_valid (E:=F) c sg t label = Ok true ->
  exists key, X509.get_public_key (E:=F) x = Ok (Some key) /\ signed_under key (sha256 (verify_content label (th_finalize t))) (sg_r sg) (sg_s sg).
Proof.
  intros Hc B Hx H. unfold is_certificate_valid in H. rewrite Hc in H. cbn [unwrap bind] in H.
  apply bind_ok in H. destruct H as (o & Hk & H). destruct o as [k|]; [|discriminate].
  destruct (certificate_key_ok _ _ _ B Hx Hk) as (a & b & -> & Hg & Ra & Rb).
  exists (a, b). split; [exact Hg|].
  destruct (verify_key (F:=F) a b sg (verify_content label (th_finalize t)) ltac:(lia) ltac:(lia)) as (v & H1 & H2).
  apply H2. congruence.
Qed.
Lemma valid_made {F} c x sg t label a b : ct_x509 c = Some x -> (forall F', X509.get_public_key (E:=F') x = Ok (Some (a, b))) -> 0 <= a -> 0 <= b ->
  signed_under (a, b) (sha256 (verify_content label (th_finalize t))) (sg_r sg) (sg_s sg) ->
  is_certificate_valid (E:=F) c sg t label = Ok true.
Proof.
  intros Hc Hg Ha Hb S. unfold is_certificate_valid. rewrite Hc. cbn [unwrap bind]. unfold certificate_key. rewrite Hg. cbn [bind].
  destruct (verify_key (F:=F) a b sg (verify_content label (th_finalize t)) Ha Hb) as (v & H1 & H2).
  rewrite H1. f_equal. apply H2. exact S.
Qed.

(* the check of the CA signature *)
Lemma has_signed_true ca cax other x : ct_x509 ca = Some cax -> is_bytes (ct_raw ca) -> x509_from_raw (ct_raw ca) = Ok cax ->
  ct_x509 other = Some x -> has_signed ca other = Ok tt ->
  exists key r s part, X509.get_public_key (E:=tls_error) cax = Ok (Some key) /\ x_signature x = Some (r, s) /\
    signed_part (E:=tls_error) (ct_raw other) x = Ok part /\ signed_under key (sha256 part) r s.
Proof.
  intros Hc B Hx Ho H. unfold has_signed in H. rewrite Hc, Ho in H.
  apply bind_ok in H. destruct H as (o & Hk & H). apply bind_ok in H. destruct H as (k & Hu & H).
  destruct o as [k'|]; [|discriminate]. cbn in Hu. injection Hu as <-.
  destruct (certificate_key_ok _ _ _ B Hx Hk) as (a & b & -> & Hg & Ra & Rb).
  destruct (x_signature x) as [[r s]|] eqn:Es; [|discriminate].
  apply bind_ok in H. destruct H as (part & Hp & H). apply bind_ok in H. destruct H as (v & Hv & H).
  destruct v; [|discriminate]. exists (a, b), r, s, part. split; [exact Hg|]. split; [reflexivity|]. split; [exact Hp|].
  destruct (verify_key (F:=tls_error) a b {| sg_r := r; sg_s := s |} part ltac:(lia) ltac:(lia)) as (v & H1 & H2).
  apply H2. congruence.
Qed.

(* sending a CertificateVerify *)
Lemma sign_range d e k r s : 0 <= k -> Ecdsa.sign_with d e k = Some (r, s) -> 0 < r < 2^256 /\ 0 < s < 2^256.
Proof.
  intros Hk H. apply EcdsaP256.p256_sign_valid in H; [|exact Hk]. destruct H as (H1 & H2 & _).
  assert (Ec.P256_n < 2^256) by reflexivity. lia.
Qed.
Lemma der_bounds {E} r s der : 0 < r < 2^256 -> 0 < s < 2^256 -> sig_to_der (E:=E) {| sg_r := r; sg_s := s |} = Ok der ->
  is_bytes der /\ (length der <= 72)%nat.
Proof.
  intros Hr Hs H. destruct (to_32_big (E:=E) r Hr) as (R & HR & LR & BR & _). destruct (to_32_big (E:=E) s Hs) as (S & HS & LS & BS & _).
  rewrite (sig_to_der_spec R S r s LR LS BR BS HR HS) in H. injection H as <-.
  pose proof (int_octets_len R LR). pose proof (int_octets_len S LS).
  assert (BI : forall b, is_bytes b -> is_bytes (int_octets b)).
  { intros b Hb. unfold int_octets. destruct (128 <=? hd 0 b); [constructor; [unfold is_byte; lia|exact Hb]|exact Hb]. }
  assert (BN : forall b, is_bytes b -> (length b < 128)%nat -> is_bytes (INTEGER b)).
  { intros b Hb Lb. unfold INTEGER, der, der_length. destruct (Z.ltb_spec (Z.of_nat (length b)) 128); [|lia].
    cbn [app]. constructor; [unfold is_byte; lia|]. constructor; [unfold is_byte; lia|exact Hb]. }
  unfold EcdsaSigValue, SEQUENCE, der, der_length. cbn [concat]. rewrite app_nil_r.
  assert (LL : Z.of_nat (length (INTEGER (int_octets R) ++ INTEGER (int_octets S))) < 128)
    by (rewrite app_length, !INTEGER_len by lia; lia).
  destruct (Z.ltb_spec (Z.of_nat (length (INTEGER (int_octets R) ++ INTEGER (int_octets S)))) 128); [|lia].
  split.
  - cbn [app]. constructor; [unfold is_byte; lia|]. constructor; [unfold is_byte; lia|].
    apply is_bytes_app. split; apply BN; try apply BI; try assumption; lia.
  - cbn [app length]. rewrite app_length, !INTEGER_len by lia. lia.
Qed.
Lemma cv_sent {E} d t label nonces body : Forall (fun k => 0 <= k) nonces ->
  certificate_verify_for_handshake (E:=E) (PrivateKey secp256r1 d) t label nonces = Ok (Some body) ->
  exists k r s der, In k nonces /\
    Ecdsa.sign_with d (Ecdsa.hash_int (sha256 (verify_content label (th_finalize t)))) k = Some (r, s) /\
    sig_to_der (E:=E) {| sg_r := r; sg_s := s |} = Ok der /\ body = Rfc8446Hello.certificate_verify_wire 0x0403 der /\
    is_bytes der /\ (length der <= 72)%nat.
Proof.
  intros Hn H. unfold certificate_verify_for_handshake in H. rewrite EcdsaP256.p256_sign in H by exact Hn. cbn [bind] in H.
  rewrite hash_int_32 by apply sha256_len.
  set (e := be_val (sha256 (verify_content label (th_finalize t)))) in *.
  destruct (flat_map (fun k => match Ecdsa.sign_with d e k with Some x => [x] | None => [] end) nonces) as [|[r s] l] eqn:F; [discriminate|].
  apply bind_ok in H. destruct H as (der & Hd & H). injection H as <-.
  assert (I : In (r, s) ((r, s) :: l)) by (left; reflexivity). rewrite <- F in I. apply in_flat_map in I.
  destruct I as (k & Ik & Hk). destruct (Ecdsa.sign_with d e k) as [x|] eqn:Q; [|destruct Hk].
  destruct Hk as [->|[]]. exists k, r, s, der. rewrite Forall_forall in Hn.
  destruct (sign_range _ _ _ _ _ (Hn k Ik) Q) as (Rr & Rs). destruct (der_bounds r s der Rr Rs Hd) as (Bd & Ld).
  split; [exact Ik|]. split; [exact Q|]. split; [exact Hd|]. split; [|auto].
  apply cv_wire. unfold zlen. lia.
Qed.
(* reading one *)
Lemma cv_slices {E} der : zlen der < 2^16 ->
  slice (E:=E) (Rfc8446Hello.certificate_verify_wire 0x0403 der) 0 2 = Ok [4; 3] /\
  slice_from (E:=E) (Rfc8446Hello.certificate_verify_wire 0x0403 der) 4 = Ok der /\
  (exists b, slice (E:=E) (Rfc8446Hello.certificate_verify_wire 0x0403 der) 2 4 = Ok b /\ to_u16 b = zlen der).
Proof.
  intros H. rewrite <- cv_wire by exact H. split; [|split].
  - rewrite slice_in by (cbn [app length]; lia). reflexivity.
  - rewrite slice_from_in by (cbn [app length]; lia). reflexivity.
  - exists [u8 (Z.shiftr (zlen der) 8); u8 (zlen der)]. split; [rewrite slice_in by (cbn [app length]; lia); reflexivity|].
    rewrite to_u16_val by (apply u8_range). unfold u8, zlen in *. rewrite Z.shiftr_div_pow2 by lia. change (2^8) with 256.
    rewrite (Z.mod_small (_ / _)); [|split; [apply Z.div_pos; lia|apply Z.div_lt_upper_bound; lia]].
    pose proof (Z.div_mod (Z.of_nat (length der)) 256). lia.
Qed.
