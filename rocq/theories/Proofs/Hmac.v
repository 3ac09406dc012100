From Verif Require Import Proofs.Util Proofs.Bytes Proofs.Sha2 Model.Sha2 Model.Hmac Spec.Fips180 Spec.Rfc2104 Spec.TranscriptOps.

Definition alg_of (h : hash_type) : alg :=
  match h with SHA256 => alg_sha256 | SHA384 => alg_sha384 end.

Lemma sha_update_app P s a b : sha_update P (sha_update P s a) b = sha_update P s (a ++ b).
Proof.
  unfold sha_update. destruct (fold_left (feed P) a (s_state s, s_pend s)) as [st pend] eqn:E.
  cbn. rewrite fold_left_app, E. destruct (fold_left (feed P) b (st, pend)).
  f_equal. unfold zlen. rewrite app_length. lia.
Qed.
Lemma sha_update_nil P s : sha_update P s [] = s.
Proof. unfold sha_update. destruct s as [p st n]. cbn. f_equal. unfold zlen. cbn. lia. Qed.
Lemma updates_concat P s chunks : fold_left (sha_update P) chunks s = sha_update P s (concat chunks).
Proof.
  revert s. induction chunks as [|c cs IH]; intros s; cbn [fold_left concat].
  - now rewrite sha_update_nil.
  - rewrite IH. apply sha_update_app.
Qed.
Lemma finalize_length P s : length (finalize P s) = sp_out P.
Proof. unfold finalize. now rewrite map_length, seq_length. Qed.
Lemma finalize_bytes P s : is_bytes (finalize P s).
Proof. unfold finalize. apply Forall_map, Forall_forall. intros. apply u8_range. Qed.
Lemma sha_x_length h m : length (sha_x h m) = hash_len h.
Proof. unfold sha_x, sha_digest. rewrite finalize_length. now destruct h. Qed.
Lemma sha_x_bytes h m : is_bytes (sha_x h m).
Proof. apply finalize_bytes. Qed.

Lemma sha_x_spec h m : is_bytes m -> zlen m < 2^53 -> sha_x h m = alg_hash (alg_of h) m.
Proof.
  intros Hm Hl. destruct h.
  - now apply sha256_correct.
  - apply sha384_correct; [assumption|lia].
Qed.

(* transcripts *)
Lemma th_updates t chunks : fold_left th_update chunks t = th_update t (concat chunks).
Proof.
  revert t. induction chunks as [|c cs IH]; intros t; cbn [fold_left concat].
  - unfold th_update. rewrite sha_update_nil. now destruct t.
  - rewrite IH. unfold th_update at 1 2. cbn [th_type th_sha]. rewrite sha_update_app. reflexivity.
Qed.
Lemma th_digest h m : th_finalize (th_update (th_new h) m) = sha_x h m.
Proof. reflexivity. Qed.

Lemma xor_bytes c l : is_byte c -> is_bytes l -> is_bytes (map (fun b => Z.lxor b c) l).
Proof. intros Hc. induction 1; constructor; auto. now apply byte_lxor. Qed.

Definition bad_key (h : hash_type) (key : list Z) : Prop := h = SHA384 /\ (64 < length key <= 128)%nat.

Lemma hmac_spec h key m : is_bytes key -> is_bytes m -> zlen key < 2^52 -> zlen m < 2^52 ->
  ~ bad_key h key -> hmac h key m = HMAC (alg_of h) key m.
Proof.
  intros Hk Hm Hkl Hml Hbad. unfold hmac.
  set (key' := if Nat.ltb 64 (length key) then sha_x h key else key).
  set (size := match h with SHA256 => 64%nat | SHA384 => 128%nat end).
  assert (Hsize : size = alg_block (alg_of h)) by now destruct h.
  assert (E : firstn size (firstn 128 (key' ++ repeat 0 128)) = key_block (alg_of h) key).
  { assert (Hk' : key' = if Nat.ltb (alg_block (alg_of h)) (length key) then alg_hash (alg_of h) key else key).
    { unfold key'. unfold bad_key in Hbad. rewrite sha_x_spec by (assumption || lia).
      destruct (Nat.ltb_spec 64 (length key)); destruct h; cbn [alg_of alg_sha256 alg_sha384 alg_block];
        try (destruct (Nat.ltb_spec 64 (length key)); [reflexivity|lia]);
        try (destruct (Nat.ltb_spec 64 (length key)); [lia|reflexivity]);
        destruct (Nat.ltb_spec 128 (length key)); try reflexivity; try lia.
      exfalso. apply Hbad. split; [reflexivity|lia]. }
    assert (L : (length key' <= 64)%nat).
    { unfold key'. destruct (Nat.ltb_spec 64 (length key)); [|lia].
      rewrite sha_x_length. destruct h; cbn; lia. }
    unfold key_block. rewrite <- Hk', <- Hsize.
    assert (Hs : size = 64%nat \/ size = 128%nat) by (destruct h; auto).
    rewrite firstn_firstn. replace (Nat.min size 128) with size by lia.
    rewrite firstn_app. rewrite firstn_all2 by lia. f_equal.
    assert (forall a b, (a <= b)%nat -> firstn a (repeat 0 b) = repeat 0 a) as R.
    { induction a; intros [|b] H; cbn; try lia; [reflexivity..|]. now rewrite IHa by lia. }
    apply R. lia. }
  rewrite E. unfold HMAC, xor_all.
  set (kb := key_block (alg_of h) key) in *.
  assert (Hkb : is_bytes kb).
  { rewrite <- E. apply is_bytes_firstn, is_bytes_firstn, is_bytes_app. split.
    - unfold key'. destruct (Nat.ltb _ _); [apply sha_x_bytes|assumption].
    - apply is_bytes_repeat. unfold is_byte; lia. }
  assert (Hkbl : (length kb <= 128)%nat).
  { rewrite <- E. rewrite !firstn_length. lia. }
  assert (Hi : sha_x h (map (fun b => Z.lxor b 0x36) kb ++ m)
               = alg_hash (alg_of h) (map (fun b => Z.lxor b 0x36) kb ++ m)).
  { apply sha_x_spec.
    - apply is_bytes_app; split; [apply xor_bytes; [unfold is_byte; lia|assumption]|assumption].
    - rewrite zlen_app. unfold zlen at 1. rewrite map_length. lia. }
  rewrite <- Hi. apply sha_x_spec.
  - apply is_bytes_app; split; [apply xor_bytes; [unfold is_byte; lia|assumption]|apply sha_x_bytes].
  - rewrite zlen_app. unfold zlen. rewrite map_length, sha_x_length. destruct h; cbn [hash_len]; lia.
Qed.

Lemma hmac_length h key m : length (hmac h key m) = hash_len h.
Proof. unfold hmac. apply sha_x_length. Qed.
Lemma hmac_bytes h key m : is_bytes (hmac h key m).
Proof. unfold hmac. apply sha_x_bytes. Qed.

(* HKDF-Expand *)
Definition okm_after (A : alg) (prk info : list Z) (i : nat) : list Z :=
  concat (map (T A prk info) (seq 1 i)).

Section Expand.
  Context (k : hkdf) (info : list Z) (L : nat).
  Notation h := (hk_hash k).
  Notation A := (alg_of h).
  Notation TT := (T A (hk_prk k) info).
  Hypothesis Hprk : is_bytes (hk_prk k).
  Hypothesis Hprkl : zlen (hk_prk k) < 2^52.
  Hypothesis Hgood : ~ bad_key h (hk_prk k).
  Hypothesis Hinfo : is_bytes info.
  Hypothesis Hinfol : zlen info < 2^51.
  Hypothesis HL : (L <= hash_len h * 255)%nat.

  Lemma hl_pos : (0 < hash_len h)%nat.
  Proof. destruct h; cbn; lia. Qed.

  Lemma T_step j : (j < 255)%nat -> is_bytes (TT j) -> zlen (TT j) <= 48 ->
    hmac h (hk_prk k) (TT j ++ info ++ [Z.of_nat j + 1]) = TT (S j).
  Proof.
    intros Hj Hb Hl. cbn [T]. rewrite hmac_spec; try assumption.
    - do 4 f_equal. lia.
    - rewrite !is_bytes_app. repeat split; try assumption. repeat constructor; unfold is_byte; lia.
    - rewrite !zlen_app. change (zlen [Z.of_nat j + 1]) with 1. lia.
  Qed.
  Lemma T_ok j : (j <= 255)%nat -> is_bytes (TT j) /\ zlen (TT j) <= 48 /\
    (j <> 0%nat -> length (TT j) = hash_len h).
  Proof.
    induction j as [|j IH]; intros Hj.
    - split; [constructor|]. split; [unfold zlen; cbn; lia|intros H; now elim H].
    - destruct IH as (B & Z & _); [lia|]. rewrite <- T_step by (assumption || lia).
      split; [apply hmac_bytes|]. unfold zlen. rewrite hmac_length. split; [destruct h; cbn; lia|reflexivity].
  Qed.

  Lemma okm_S j : okm_after A (hk_prk k) info (S j) = okm_after A (hk_prk k) info j ++ TT (S j).
  Proof.
    unfold okm_after. rewrite seq_S, map_app, concat_app. cbn [map concat]. now rewrite app_nil_r.
  Qed.
  Lemma okm_len j : (j <= 255)%nat -> length (okm_after A (hk_prk k) info j) = (j * hash_len h)%nat.
  Proof.
    induction j as [|j IH]; intros Hj; [reflexivity|].
    rewrite okm_S, app_length, IH by lia. destruct (T_ok (S j) Hj) as (_ & _ & E). rewrite E by lia. lia.
  Qed.
  Lemma okm_prefix i j : (i <= j)%nat -> exists r, okm_after A (hk_prk k) info j = okm_after A (hk_prk k) info i ++ r.
  Proof.
    induction 1 as [|j Hij [r IH]]; [exists []; now rewrite app_nil_r|].
    exists (r ++ TT (S j)). now rewrite okm_S, IH, app_assoc.
  Qed.

  (* loop invariant: okm is the first min(L, j*hashlen) bytes of T(1)|T(2)|... *)
  Lemma expand_loop_spec f j : (j <= 255)%nat ->
    (L - Nat.min L (j * hash_len h) <= f)%nat ->
    expand_loop f k info L (firstn L (okm_after A (hk_prk k) info j)) (TT j) (Z.of_nat j)
    = firstn L (okm_after A (hk_prk k) info 255).
  Proof.
    pose proof hl_pos as Hpos.
    revert j. induction f as [|f IH]; intros j Hj Hf.
    - cbn [expand_loop].
      assert (L <= j * hash_len h)%nat by lia.
      destruct (okm_prefix j 255) as [r Er]; [lia|].
      rewrite Er, (firstn_app L), okm_len by lia.
      replace (L - j * hash_len h)%nat with 0%nat by lia. cbn [firstn]. rewrite app_nil_r.
      now destruct (Nat.ltb _ _).
    - cbn [expand_loop]. rewrite firstn_length, okm_len by lia.
      destruct (Nat.ltb_spec (Nat.min L (j * hash_len h)) L) as [Hlt|Hge].
      + assert (j * hash_len h < L)%nat as Hlt' by lia.
        assert (j < 255)%nat as Hj'.
        { destruct (Nat.eq_dec j 255); [|lia]. subst. lia. }
        destruct (T_ok j Hj) as (B & Z & _).
        rewrite T_step by assumption.
        replace (Nat.min L (j * hash_len h)) with (j * hash_len h)%nat by lia.
        replace (Z.of_nat j + 1) with (Z.of_nat (S j)) by lia.
        assert (firstn L (okm_after A (hk_prk k) info j)
                ++ firstn (Nat.min L (j * hash_len h + hash_len h) - j * hash_len h) (TT (S j))
                = firstn L (okm_after A (hk_prk k) info (S j))) as ->.
        { rewrite okm_S, firstn_app, okm_len by lia. f_equal.
          destruct (T_ok (S j)) as (_ & _ & E); [lia|]. specialize (E ltac:(lia)).
          destruct (Nat.le_gt_cases L (j * hash_len h + hash_len h)).
          - f_equal. lia.
          - rewrite !firstn_all2 by lia. reflexivity. }
        apply IH; [lia|]. nia.
      + destruct (okm_prefix j 255) as [r Er]; [lia|].
        rewrite Er, (firstn_app L), okm_len by lia.
        replace (L - j * hash_len h)%nat with 0%nat by lia. cbn [firstn]. now rewrite app_nil_r.
  Qed.

  Lemma hkdf_expand_ok : hkdf_expand k info L = HKDF_Expand A (hk_prk k) info L.
  Proof.
    unfold hkdf_expand, HKDF_Expand.
    destruct (Nat.ltb_spec (hash_len h * 255) L); [lia|].
    replace (Nat.leb L (255 * alg_len A)) with true
      by (symmetry; apply Nat.leb_le; destruct h; cbn [alg_of alg_len alg_sha256 alg_sha384 hash_len] in *; lia).
    f_equal. pose proof (expand_loop_spec L 0 ltac:(lia) ltac:(lia)) as E.
    change (okm_after A (hk_prk k) info 0) with (@nil Z) in E. rewrite firstn_nil in E. exact E.
  Qed.
  Lemma HKDF_len : exists okm, HKDF_Expand A (hk_prk k) info L = Some okm /\ length okm = L /\ is_bytes okm.
  Proof.
    unfold HKDF_Expand.
    replace (Nat.leb L (255 * alg_len A)) with true
      by (symmetry; apply Nat.leb_le; destruct h; cbn [alg_of alg_len alg_sha256 alg_sha384 hash_len] in *; lia).
    eexists; split; [reflexivity|]. split.
    - fold (okm_after A (hk_prk k) info 255). rewrite firstn_length, okm_len; lia.
    - apply is_bytes_firstn. apply Forall_concat, Forall_map, Forall_forall. intros i Hi.
      apply in_seq in Hi. apply T_ok. lia.
  Qed.
End Expand.

Lemma hkdf_expand_refuse k info L : (hash_len (hk_hash k) * 255 < L)%nat -> hkdf_expand k info L = None.
Proof. intros. unfold hkdf_expand. destruct (Nat.ltb_spec (hash_len (hk_hash k) * 255) L); [reflexivity|lia]. Qed.

Lemma hmac384_bad_key_refuted : exists key m, is_bytes key /\ is_bytes m /\
  hmac SHA384 key m <> HMAC alg_sha384 key m.
Proof.
  exists (repeat 1 65), [].
  assert (B : is_bytes (repeat 1 65)) by (apply is_bytes_repeat; unfold is_byte; lia).
  split; [exact B|]. split; [constructor|].
  intros H.
  (* compute the standard value with the model's own SHA-384, proved equal to FIPS 180-4 *)
  set (kb := repeat 1 65 ++ repeat 0 63).
  assert (Bk : is_bytes kb).
  { apply is_bytes_app; split; [exact B|apply is_bytes_repeat; unfold is_byte; lia]. }
  assert (E : HMAC alg_sha384 (repeat 1 65) []
          = sha384 (map (fun b => Z.lxor b 0x5C) kb ++ sha384 (map (fun b => Z.lxor b 0x36) kb ++ []))).
  { set (ki := map (fun b => Z.lxor b 0x36) kb). set (ko := map (fun b => Z.lxor b 0x5C) kb).
    assert (Li : zlen ki = 128) by (unfold zlen, ki; rewrite map_length; reflexivity).
    assert (Lo : zlen ko = 128) by (unfold zlen, ko; rewrite map_length; reflexivity).
    assert (Bi : is_bytes ki) by (apply xor_bytes; [unfold is_byte; lia|assumption]).
    assert (Bo : is_bytes ko) by (apply xor_bytes; [unfold is_byte; lia|assumption]).
    change (HMAC alg_sha384 (repeat 1 65) []) with (sha384_spec (ko ++ sha384_spec (ki ++ []))).
    rewrite <- (sha384_correct (ki ++ [])).
    2:{ apply is_bytes_app; split; [assumption|constructor]. }
    2:{ rewrite app_nil_r, Li. lia. }
    assert (Bs : is_bytes (sha384 (ki ++ []))) by apply finalize_bytes.
    assert (Ls : zlen (sha384 (ki ++ [])) = 48)
      by (unfold zlen, sha384, sha_digest; rewrite finalize_length; reflexivity).
    clearbody ki ko. set (s := sha384 (ki ++ [])) in *. clearbody s.
    symmetry. apply sha384_correct.
    - apply is_bytes_app; auto.
    - rewrite zlen_app. lia. }
  rewrite E in H. apply list_eqb_spec in H. clear E Bk B. subst kb. revert H. apply not_true_iff_false.
  vm_compute. reflexivity.
Qed.

Lemma th_run_gen h t ops pre : t = th_update (th_new h) pre -> th_run t ops = th_expected h pre ops.
Proof.
  revert t pre. induction ops as [|[b|] ops IH]; intros t pre Ht; cbn [th_run th_expected]; [reflexivity| |].
  - apply IH. subst t. unfold th_update. cbn [th_type th_sha th_new]. now rewrite sha_update_app.
  - f_equal; [subst t; apply th_digest|now apply IH].
Qed.
Lemma th_run_expected h ops : th_run (th_new h) ops = th_expected h [] ops.
Proof. apply th_run_gen. unfold th_update. cbn [th_type th_sha th_new]. now rewrite sha_update_nil. Qed.

Lemma extract_spec h salt ikm :
  is_bytes salt -> is_bytes ikm -> zlen salt < 2^52 -> zlen ikm < 2^52 ->
  ~ bad_key h salt ->
  hkdf_extract h salt ikm = {| hk_hash := h; hk_prk := HKDF_Extract (alg_of h) salt ikm |}.
Proof. intros. unfold hkdf_extract, HKDF_Extract. now rewrite hmac_spec. Qed.

Lemma expand_spec k info L :
  is_bytes (hk_prk k) -> zlen (hk_prk k) < 2^52 -> ~ bad_key (hk_hash k) (hk_prk k) ->
  is_bytes info -> zlen info < 2^51 ->
  hkdf_expand k info L = HKDF_Expand (alg_of (hk_hash k)) (hk_prk k) info L.
Proof.
  intros. destruct (Nat.le_gt_cases L (hash_len (hk_hash k) * 255)).
  - now apply hkdf_expand_ok.
  - rewrite hkdf_expand_refuse by assumption. unfold HKDF_Expand.
    replace (Nat.leb L (255 * alg_len (alg_of (hk_hash k)))) with false; [reflexivity|].
    symmetry. apply Nat.leb_gt. destruct (hk_hash k); cbn [alg_of alg_len alg_sha256 alg_sha384 hash_len] in *; lia.
Qed.

Lemma expand_loop_len k info L f okm last i : (length okm <= L)%nat -> (L - length okm <= f)%nat ->
  length (expand_loop f k info L okm last i) = L.
Proof.
  assert (0 < hash_len (hk_hash k))%nat as Hp by (destruct (hk_hash k); cbn; lia).
  revert okm last i. induction f as [|f IH]; intros okm last i H1 H2; cbn [expand_loop].
  - destruct (Nat.ltb_spec (length okm) L); lia.
  - destruct (Nat.ltb_spec (length okm) L); [|lia].
    apply IH; rewrite app_length, firstn_length, hmac_length; lia.
Qed.
Lemma expand_size k info L :
  match hkdf_expand k info L with
  | Some okm => length okm = L /\ (L <= 255 * hash_len (hk_hash k))%nat
  | None => (255 * hash_len (hk_hash k) < L)%nat
  end.
Proof.
  unfold hkdf_expand. destruct (Nat.ltb_spec (hash_len (hk_hash k) * 255) L).
  - lia.
  - split; [|lia]. apply expand_loop_len; cbn; lia.
Qed.
