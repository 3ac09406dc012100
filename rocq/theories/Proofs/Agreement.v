(* Equal secrets come from equal inputs, or the hash function collides *)
From Coq Require Import Lia.
From Coq Require String.
From Verif Require Import Model.Base Proofs.Util Proofs.Bytes Spec.Enc Spec.Rfc4648 Spec.Fips180 Spec.Rfc2104 Spec.Rfc8446Keys Spec.Rfc8446Auth Spec.Agreement.
From Verif Require Import Proofs.KeySchedule.
Import String.StringSyntax.
Local Open Scope string_scope.
Local Open Scope list_scope.

Definition standard (A : alg) : Prop := A = alg_sha256 \/ A = alg_sha384.

(* ---- lengths ---- *)
Lemma compress_length V H b : length (compress V H b) = 8%nat.
Proof. reflexivity. Qed.
Lemma compressed V bs H : length H = 8%nat -> length (fold_left (compress V) bs H) = 8%nat.
Proof. revert H. induction bs as [|b bs IH]; intros H L; cbn [fold_left]; [exact L|]. apply IH. apply compress_length. Qed.
Lemma enc_words n H : length (flat_map (be_enc n) H) = (length H * n)%nat.
Proof. induction H as [|x H IH]; cbn [flat_map length]; [reflexivity|]. rewrite app_length, be_enc_length, IH. lia. Qed.
Lemma digest_length A m : standard A -> length (alg_hash A m) = alg_len A.
Proof.
  intros [-> | ->]; cbn [alg_hash alg_len alg_sha256 alg_sha384]; unfold sha256_spec, sha384_spec, hash; rewrite firstn_length, enc_words, compressed by (vm_compute; reflexivity).
  - change (wbytes SHA_256) with 4%nat. reflexivity.
  - change (wbytes SHA_384) with 8%nat. reflexivity.
Qed.
Lemma alg_fits A : standard A -> (alg_len A <= alg_block A)%nat /\ (alg_len A <= 255)%nat.
Proof. intros [-> | ->]; cbn; lia. Qed.
Lemma HMAC_length A k t : standard A -> length (HMAC A k t) = alg_len A.
Proof. intros S. unfold HMAC. now apply digest_length. Qed.

(* ---- HMAC ---- *)
Lemma xor_all_inj c a b : xor_all c a = xor_all c b -> a = b.
Proof.
  revert b. induction a as [|x a IH]; intros [|y b] H; try discriminate; [reflexivity|]. cbn [xor_all map] in H.
  assert (E : Z.lxor x c = Z.lxor y c) by congruence. assert (E2 : xor_all c a = xor_all c b) by (unfold xor_all; congruence).
  f_equal; [|now apply IH]. apply (f_equal (fun z => Z.lxor z c)) in E. now rewrite !Z.lxor_assoc, Z.lxor_nilpotent, !Z.lxor_0_r in E.
Qed.
Lemma xor_all_length c a : length (xor_all c a) = length a.
Proof. apply map_length. Qed.
Lemma key_block_length A k : (length k <= alg_block A)%nat -> length (key_block A k) = alg_block A.
Proof. intros L. unfold key_block. destruct (Nat.ltb_spec (alg_block A) (length k)); [lia|]. rewrite app_length, repeat_length. lia. Qed.
Lemma key_block_inj A k1 k2 : (length k1 <= alg_block A)%nat -> length k2 = length k1 -> key_block A k1 = key_block A k2 -> k1 = k2.
Proof.
  intros L E. unfold key_block. destruct (Nat.ltb_spec (alg_block A) (length k1)); [lia|]. destruct (Nat.ltb_spec (alg_block A) (length k2)); [lia|].
  intros H1. apply app_len_inj in H1; [apply H1|lia].
Qed.
Lemma list_dec (a b : list Z) : {a = b} + {a <> b}.
Proof. apply list_eq_dec, Z.eq_dec. Qed.

Lemma hmac_inj A k1 t1 k2 t2 : standard A -> length k1 = alg_len A -> length k2 = alg_len A -> HMAC A k1 t1 = HMAC A k2 t2 ->
  (k1 = k2 /\ t1 = t2) \/ collide A (hmac_hashes A k1 t1) (hmac_hashes A k2 t2).
Proof.
  intros S L1 L2 E. destruct (alg_fits A S) as (F & _). unfold HMAC in E.
  set (i1 := xor_all 0x36 (key_block A k1) ++ t1) in *. set (i2 := xor_all 0x36 (key_block A k2) ++ t2) in *.
  set (o1 := xor_all 0x5C (key_block A k1) ++ alg_hash A i1) in *. set (o2 := xor_all 0x5C (key_block A k2) ++ alg_hash A i2) in *.
  destruct (list_dec o1 o2) as [Eo|No].
  - unfold o1, o2 in Eo. apply app_len_inj in Eo; [|rewrite !xor_all_length, !key_block_length by lia; reflexivity].
    destruct Eo as (Ek & Eh). apply xor_all_inj in Ek. apply key_block_inj in Ek; [|lia|lia].
    destruct (list_dec i1 i2) as [Ei|Ni].
    + left. unfold i1, i2 in Ei. rewrite Ek in Ei. apply app_inv_head in Ei. now split.
    + right. exists i1, i2. split; [now left|]. split; [now left|]. now split.
  - right. exists o1, o2. split; [right; now left|]. split; [right; now left|]. now split.
Qed.

Lemma collide_incl A l1 l2 m1 m2 : incl l1 m1 -> incl l2 m2 -> collide A l1 l2 -> collide A m1 m2.
Proof. intros I1 I2 (x & y & X & Y & H). exists x, y. auto. Qed.

(* ---- Derive-Secret ---- *)
Lemma expand_one A k info : standard A -> HKDF_Expand A k info (alg_len A) = Some (HMAC A k (info ++ [1])).
Proof.
  intros S. unfold HKDF_Expand. assert (Nat.leb (alg_len A) (255 * alg_len A) = true) as -> by (apply Nat.leb_le; lia).
  f_equal. change (seq 1 255) with (1%nat :: seq 2 254). cbn [map concat]. change (T A k info 1) with (HMAC A k ([] ++ info ++ [Z.of_nat 1])). cbn [app].
  rewrite firstn_app, HMAC_length, Nat.sub_diag by exact S. cbn [firstn]. rewrite app_nil_r. apply firstn_all2. rewrite HMAC_length by exact S. lia.
Qed.
Lemma derive_hmac A s l m : standard A -> Derive_Secret A s l m = HMAC A s (HkdfLabel l (alg_hash A m) (alg_len A) ++ [1]).
Proof. intros S. unfold Derive_Secret, Expand_Label. now rewrite expand_one. Qed.
Lemma derive_length A s l m : standard A -> length (Derive_Secret A s l m) = alg_len A.
Proof. intros S. rewrite derive_hmac by exact S. now apply HMAC_length. Qed.
Lemma HkdfLabel_inj l1 c1 l2 c2 n : HkdfLabel l1 c1 n = HkdfLabel l2 c2 n -> l1 = l2 /\ c1 = c2.
Proof.
  unfold HkdfLabel. intros E. apply app_inv_head in E. apply vec8_inj in E. destruct E as (E1 & E2). apply app_inv_head in E1.
  rewrite <- (app_nil_r (vec8 c1)), <- (app_nil_r (vec8 c2)) in E2. apply vec8_inj in E2. now split.
Qed.
Lemma derive_inj A s1 l1 m1 s2 l2 m2 : standard A -> length s1 = alg_len A -> length s2 = alg_len A ->
  Derive_Secret A s1 l1 m1 = Derive_Secret A s2 l2 m2 ->
  (s1 = s2 /\ l1 = l2 /\ m1 = m2) \/ collide A (derive_hashes A s1 l1 m1) (derive_hashes A s2 l2 m2).
Proof.
  intros S L1 L2 E. rewrite !derive_hmac in E by exact S. destruct (hmac_inj _ _ _ _ _ S L1 L2 E) as [(Ek & Et)|C].
  - apply app_inv_tail in Et. apply HkdfLabel_inj in Et. destruct Et as (El & Eh).
    destruct (list_dec m1 m2) as [Em|Nm]; [now left|]. right. exists m1, m2. split; [now left|]. split; [now left|]. now split.
  - right. revert C. apply collide_incl; apply incl_tl, incl_refl.
Qed.

(* ---- the schedule ---- *)
Lemma hs_length A e : standard A -> length (Handshake_Secret A e) = alg_len A.
Proof. intros S. now apply HMAC_length. Qed.
Lemma ms_length A e : standard A -> length (Master_Secret A e) = alg_len A.
Proof. intros S. now apply HMAC_length. Qed.

Lemma incl_hs A e h m : incl (hmac_hashes A (Derive_Secret A (Early_Secret A) (codes "derived") []) e) (schedule_hashes A e h m).
Proof. intros x H. unfold schedule_hashes. rewrite !in_app_iff. tauto. Qed.
Lemma incl_chs A e h m : incl (derive_hashes A (Handshake_Secret A e) (codes "c hs traffic") h) (schedule_hashes A e h m).
Proof. intros x H. unfold schedule_hashes. rewrite !in_app_iff. tauto. Qed.
Lemma incl_shs A e h m : incl (derive_hashes A (Handshake_Secret A e) (codes "s hs traffic") h) (schedule_hashes A e h m).
Proof. intros x H. unfold schedule_hashes. rewrite !in_app_iff. tauto. Qed.
Lemma incl_der A e h m : incl (derive_hashes A (Handshake_Secret A e) (codes "derived") []) (schedule_hashes A e h m).
Proof. intros x H. unfold schedule_hashes. rewrite !in_app_iff. tauto. Qed.
Lemma incl_ms A e h m : incl (hmac_hashes A (Derive_Secret A (Handshake_Secret A e) (codes "derived") []) (zeros A)) (schedule_hashes A e h m).
Proof. intros x H. unfold schedule_hashes. rewrite !in_app_iff. tauto. Qed.
Lemma incl_cap A e h m : incl (derive_hashes A (Master_Secret A e) (codes "c ap traffic") m) (schedule_hashes A e h m).
Proof. intros x H. unfold schedule_hashes. rewrite !in_app_iff. tauto. Qed.
Lemma incl_sap A e h m : incl (derive_hashes A (Master_Secret A e) (codes "s ap traffic") m) (schedule_hashes A e h m).
Proof. intros x H. unfold schedule_hashes. rewrite !in_app_iff. tauto. Qed.

(* the secret a traffic secret is derived from, and its label *)
Definition parent A e n := match n with ClientHandshake | ServerHandshake => Handshake_Secret A e | _ => Master_Secret A e end.
Definition label n := match n with
  | ClientHandshake => codes "c hs traffic" | ServerHandshake => codes "s hs traffic" | ClientApplication => codes "c ap traffic" | ServerApplication => codes "s ap traffic" end.
Lemma traffic_derive A e h m n : traffic_secret A e h m n = Derive_Secret A (parent A e n) (label n) (covered h m n).
Proof. destruct n; reflexivity. Qed.
Lemma label_apart n1 n2 : label n1 = label n2 -> n1 = n2.
Proof. destruct n1, n2; intros E; try reflexivity; vm_compute in E; discriminate E. Qed.
Lemma incl_traffic A e h m n : incl (derive_hashes A (parent A e n) (label n) (covered h m n)) (schedule_hashes A e h m).
Proof. destruct n; [apply incl_chs|apply incl_shs|apply incl_cap|apply incl_sap]. Qed.
Lemma parent_length A e n : standard A -> length (parent A e n) = alg_len A.
Proof. destruct n; [apply hs_length|apply hs_length|apply ms_length|apply ms_length]. Qed.

Lemma hs_inj A e1 e2 h1 m1 h2 m2 : standard A -> Handshake_Secret A e1 = Handshake_Secret A e2 ->
  e1 = e2 \/ collide A (schedule_hashes A e1 h1 m1) (schedule_hashes A e2 h2 m2).
Proof.
  intros S E. unfold Handshake_Secret, HKDF_Extract in E. destruct (hmac_inj _ _ _ _ _ S (derive_length _ _ _ _ S) (derive_length _ _ _ _ S) E) as [(_ & Ee)|C]; [now left|].
  right. revert C. apply collide_incl; apply incl_hs.
Qed.
Lemma ms_inj A e1 e2 h1 m1 h2 m2 : standard A -> Master_Secret A e1 = Master_Secret A e2 ->
  e1 = e2 \/ collide A (schedule_hashes A e1 h1 m1) (schedule_hashes A e2 h2 m2).
Proof.
  intros S E. unfold Master_Secret, HKDF_Extract in E. destruct (hmac_inj _ _ _ _ _ S (derive_length _ _ _ _ S) (derive_length _ _ _ _ S) E) as [(Ed & _)|C].
  - destruct (derive_inj _ _ _ _ _ _ _ S (hs_length _ _ S) (hs_length _ _ S) Ed) as [(Eh & _)|C]; [now apply hs_inj|].
    right. revert C. apply collide_incl; apply incl_der.
  - right. revert C. apply collide_incl; apply incl_ms.
Qed.
Theorem secrets_commit A e1 h1 m1 n1 e2 h2 m2 n2 : standard A -> traffic_secret A e1 h1 m1 n1 = traffic_secret A e2 h2 m2 n2 ->
  (n1 = n2 /\ e1 = e2 /\ covered h1 m1 n1 = covered h2 m2 n2) \/ collide A (schedule_hashes A e1 h1 m1) (schedule_hashes A e2 h2 m2).
Proof.
  intros S E. rewrite !traffic_derive in E. destruct (derive_inj _ _ _ _ _ _ _ S (parent_length _ _ _ S) (parent_length _ _ _ S) E) as [(Ep & El & Em)|C].
  - apply label_apart in El. subst n2. assert (X : e1 = e2 \/ collide A (schedule_hashes A e1 h1 m1) (schedule_hashes A e2 h2 m2)).
    { destruct n1; [now apply hs_inj|now apply hs_inj|now apply ms_inj|now apply ms_inj]. }
    destruct X as [->|C]; [left; now repeat split|now right].
  - right. revert C. apply collide_incl; apply incl_traffic.
Qed.
Lemma traffic_length A e h m n : standard A -> length (traffic_secret A e h m n) = alg_len A.
Proof. intros S. rewrite traffic_derive. now apply derive_length. Qed.
Lemma lengths_apart A1 A2 : standard A1 -> standard A2 -> alg_len A1 = alg_len A2 -> A1 = A2.
Proof. intros [-> | ->] [-> | ->]; cbn; try discriminate; reflexivity. Qed.

Theorem finished_commits A s1 m1 s2 m2 : standard A -> length s1 = alg_len A -> length s2 = alg_len A ->
  finished_verify_data A s1 m1 = finished_verify_data A s2 m2 ->
  (s1 = s2 /\ m1 = m2) \/ collide A (finished_hashes A s1 m1) (finished_hashes A s2 m2).
Proof.
  intros S L1 L2 E. unfold finished_verify_data in E.
  assert (F : forall s, finished_key A s = HMAC A s (HkdfLabel (codes "finished") [] (alg_len A) ++ [1])) by (intros s; unfold finished_key, Expand_Label; now rewrite expand_one).
  assert (LF : forall s, length (finished_key A s) = alg_len A) by (intros s; rewrite F; now apply HMAC_length).
  destruct (hmac_inj _ _ _ _ _ S (LF s1) (LF s2) E) as [(Ek & Eh)|C].
  - rewrite !F in Ek. destruct (hmac_inj _ _ _ _ _ S L1 L2 Ek) as [(Es & _)|C].
    + destruct (list_dec m1 m2) as [->|N]; [now left|]. right. exists m1, m2. unfold finished_hashes. split; [apply in_app_iff; right; now left|]. split; [apply in_app_iff; right; now left|]. now split.
    + right. revert C. apply collide_incl; apply incl_appl, incl_refl.
  - right. revert C. apply collide_incl; apply incl_appr, incl_tl, incl_refl.
Qed.
