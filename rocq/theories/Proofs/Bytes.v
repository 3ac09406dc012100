From Verif Require Export Proofs.Util Model.Bytes Spec.Enc.

(* ---- positional values ---- *)
Lemma le_val_cons b l : le_val (b :: l) = b + 256 * le_val l.
Proof. reflexivity. Qed.
Lemma le_val_app a b : le_val (a ++ b) = le_val a + 256 ^ zlen a * le_val b.
Proof.
  unfold zlen. induction a as [|x a IH].
  - cbn [app length]. change (256 ^ Z.of_nat 0) with 1. cbn [le_val fold_right]. lia.
  - cbn [app length]. rewrite !le_val_cons, IH, Nat2Z.inj_succ, Z.pow_succ_r by lia. ring.
Qed.
Lemma fold_be acc l : fold_left (fun acc b => acc * 256 + b) l acc = acc * 256 ^ zlen l + be_val l.
Proof.
  unfold be_val, zlen. revert acc. induction l as [|x l IH]; intros acc.
  - cbn [fold_left length]. change (256 ^ Z.of_nat 0) with 1. lia.
  - cbn [fold_left length]. rewrite IH, (IH (0 * 256 + x)), Nat2Z.inj_succ, Z.pow_succ_r by lia. ring.
Qed.
Lemma be_val_cons b l : be_val (b :: l) = b * 256 ^ zlen l + be_val l.
Proof. unfold be_val at 1. cbn [fold_left]. rewrite fold_be. ring. Qed.
Lemma be_val_app a b : be_val (a ++ b) = be_val a * 256 ^ zlen b + be_val b.
Proof. unfold be_val at 1. rewrite fold_left_app, fold_be. reflexivity. Qed.
Lemma be_val_rev l : be_val (rev l) = le_val l.
Proof.
  induction l as [|x l IH]; [reflexivity|]. cbn [rev]. rewrite be_val_app, IH, le_val_cons.
  rewrite be_val_cons. unfold zlen. cbn [length]. change (256 ^ Z.of_nat 1) with 256.
  change (256 ^ Z.of_nat 0) with 1. change (be_val []) with 0. lia.
Qed.
Lemma le_val_rev l : le_val (rev l) = be_val l.
Proof. rewrite <- be_val_rev, rev_involutive. reflexivity. Qed.

Lemma zlen_app {A} (a b : list A) : zlen (a ++ b) = zlen a + zlen b.
Proof. unfold zlen. rewrite app_length. lia. Qed.
Lemma zlen_rev {A} (a : list A) : zlen (rev a) = zlen a.
Proof. unfold zlen. now rewrite rev_length. Qed.
Lemma zlen_nonneg {A} (a : list A) : 0 <= zlen a.
Proof. unfold zlen. lia. Qed.

Lemma le_val_range l : is_bytes l -> 0 <= le_val l < 256 ^ zlen l.
Proof.
  unfold zlen. induction 1 as [|x l Hx Hl IH]; [cbn; lia|].
  cbn [length]. rewrite le_val_cons, Nat2Z.inj_succ, Z.pow_succ_r by lia. unfold is_byte in Hx. lia.
Qed.
Lemma be_val_range l : is_bytes l -> 0 <= be_val l < 256 ^ zlen l.
Proof.
  intros. rewrite <- le_val_rev, <- zlen_rev. apply le_val_range. now apply is_bytes_rev.
Qed.

Lemma le_enc_length k n : length (le_enc k n) = k.
Proof. revert n; induction k; intros; cbn; [reflexivity|now rewrite IHk]. Qed.
Lemma be_enc_length k n : length (be_enc k n) = k.
Proof. unfold be_enc. now rewrite rev_length, le_enc_length. Qed.
Lemma le_enc_bytes k n : is_bytes (le_enc k n).
Proof.
  revert n; induction k; intros; cbn [le_enc]; constructor.
  - unfold is_byte. lia.
  - apply IHk.
Qed.
Lemma be_enc_bytes k n : is_bytes (be_enc k n).
Proof. apply is_bytes_rev, le_enc_bytes. Qed.
Lemma le_val_enc k n : le_val (le_enc k n) = n mod 256 ^ Z.of_nat k.
Proof.
  revert n; induction k as [|k IH]; intros.
  - cbn. change (256 ^ Z.of_nat 0) with 1. now rewrite Z.mod_1_r.
  - cbn [le_enc]. rewrite le_val_cons, IH.
    rewrite Nat2Z.inj_succ, Z.pow_succ_r by lia.
    rewrite Z.rem_mul_r by lia. lia.
Qed.
Lemma be_val_enc k n : be_val (be_enc k n) = n mod 256 ^ Z.of_nat k.
Proof. unfold be_enc. now rewrite be_val_rev, le_val_enc. Qed.
Lemma le_enc_val l : is_bytes l -> le_enc (length l) (le_val l) = l.
Proof.
  induction 1 as [|x l Hx Hl IH]; [reflexivity|].
  cbn [length le_enc]. rewrite le_val_cons. unfold is_byte in Hx.
  replace ((x + 256 * le_val l) mod 256) with x by lia.
  replace ((x + 256 * le_val l) / 256) with (le_val l) by lia. now rewrite IH.
Qed.
Lemma be_enc_val l : is_bytes l -> be_enc (length l) (be_val l) = l.
Proof.
  intros H. unfold be_enc. rewrite <- le_val_rev, <- (rev_length l), le_enc_val by now apply is_bytes_rev.
  apply rev_involutive.
Qed.
Lemma le_val_inj a b : is_bytes a -> is_bytes b -> length a = length b -> le_val a = le_val b -> a = b.
Proof. intros Ha Hb Hl Hv. rewrite <- (le_enc_val a), <- (le_enc_val b), Hl, Hv by assumption. reflexivity. Qed.
Lemma be_val_inj a b : is_bytes a -> is_bytes b -> length a = length b -> be_val a = be_val b -> a = b.
Proof. intros Ha Hb Hl Hv. rewrite <- (be_enc_val a), <- (be_enc_val b), Hl, Hv by assumption. reflexivity. Qed.
Lemma le_val_repeat0 n : le_val (repeat 0 n) = 0.
Proof. induction n; [reflexivity|]. cbn [repeat]. rewrite le_val_cons, IHn. reflexivity. Qed.
Lemma be_val_repeat0 n : be_val (repeat 0 n) = 0.
Proof.
  rewrite <- le_val_rev. replace (rev (repeat 0 n)) with (repeat 0 n); [apply le_val_repeat0|].
  induction n; [reflexivity|]. cbn [repeat rev]. rewrite <- IHn.
  clear. induction n; [reflexivity|]. cbn. now rewrite <- IHn.
Qed.
Lemma le_enc_app j k n : le_enc (j + k) n = le_enc j n ++ le_enc k (n / 256 ^ Z.of_nat j).
Proof.
  revert n; induction j as [|j IH]; intros.
  - cbn. change (256 ^ Z.of_nat 0) with 1. now rewrite Z.div_1_r.
  - cbn [Nat.add le_enc app]. rewrite IH. f_equal. f_equal.
    rewrite Zdiv_Zdiv by lia. now rewrite Nat2Z.inj_succ, Z.pow_succ_r by lia.
Qed.
Lemma le_enc_0 k : le_enc k 0 = repeat 0 k.
Proof. induction k; [reflexivity|]. cbn [le_enc repeat]. change (0 / 256) with 0. now rewrite IHk. Qed.
Lemma le_enc_mod k n m : n mod 256 ^ Z.of_nat k = m mod 256 ^ Z.of_nat k -> le_enc k n = le_enc k m.
Proof.
  intros H. apply le_val_inj; auto using le_enc_bytes.
  - now rewrite !le_enc_length.
  - now rewrite !le_val_enc.
Qed.

(* ---- the model's conversions ---- *)
Lemma to_ibig_le_from_val i l : 0 <= i -> to_ibig_le_from i l = 256 ^ i * le_val l.
Proof.
  revert i; induction l as [|b l IH]; intros i Hi; cbn [to_ibig_le_from].
  - cbn. lia.
  - rewrite IH, le_val_cons, Z.shiftl_mul_pow2 by lia.
    replace (2 ^ (i * 8)) with (256 ^ i) by (rewrite Z.mul_comm, Z.pow_mul_r by lia; reflexivity).
    rewrite Z.pow_add_r by lia. ring.
Qed.
Lemma to_ibig_le_val l : to_ibig_le l = le_val l.
Proof. unfold to_ibig_le. rewrite to_ibig_le_from_val by lia. lia. Qed.

Lemma to_ibig_be_from_val n i l : 0 <= i -> n = i + zlen l -> to_ibig_be_from n i l = be_val l.
Proof.
  unfold zlen. revert i; induction l as [|b l IH]; intros i Hi Hn; cbn [to_ibig_be_from]; [reflexivity|].
  cbn [length] in Hn. rewrite IH by lia. rewrite be_val_cons, Z.shiftl_mul_pow2 by lia. unfold zlen.
  replace ((n - 1) * 8 - i * 8) with (8 * Z.of_nat (length l)) by lia.
  rewrite Z.pow_mul_r by lia. reflexivity.
Qed.
Lemma to_ibig_be_val l : to_ibig_be l = be_val l.
Proof. unfold to_ibig_be. apply to_ibig_be_from_val; lia. Qed.

Lemma le_digits_val f n : 0 <= n < 256 ^ Z.of_nat f -> le_val (le_digits f n) = n.
Proof.
  revert n; induction f as [|f IH]; intros n Hn.
  - change (256 ^ Z.of_nat 0) with 1 in Hn. cbn. lia.
  - cbn [le_digits]. destruct (Z.eqb_spec n 0) as [->|Hz]; [reflexivity|].
    rewrite le_val_cons, IH; [lia|].
    rewrite Nat2Z.inj_succ, Z.pow_succ_r in Hn by lia. lia.
Qed.
Lemma le_digits_bytes f n : is_bytes (le_digits f n).
Proof.
  revert n; induction f as [|f IH]; intros n; cbn [le_digits]; [constructor|].
  destruct (n =? 0); constructor; [unfold is_byte; lia|apply IH].
Qed.
Lemma le_digits_pad f n k : 0 <= n < 256 ^ Z.of_nat f -> n < 256 ^ Z.of_nat k ->
  (length (le_digits f n) <= k)%nat /\
  le_digits f n ++ repeat 0 (k - length (le_digits f n)) = le_enc k n.
Proof.
  revert n k; induction f as [|f IH]; intros n k Hn Hk.
  - change (256 ^ Z.of_nat 0) with 1 in Hn. assert (n = 0) as -> by lia.
    cbn [le_digits length app]. split; [lia|]. rewrite Nat.sub_0_r. symmetry; apply le_enc_0.
  - cbn [le_digits]. destruct (Z.eqb_spec n 0) as [->|Hz].
    + cbn [length app]. split; [lia|]. rewrite Nat.sub_0_r. symmetry; apply le_enc_0.
    + destruct k as [|k]; [change (256 ^ Z.of_nat 0) with 1 in Hk; lia|].
      rewrite Nat2Z.inj_succ, Z.pow_succ_r in Hn, Hk by lia.
      destruct (IH (n / 256) k) as [IH1 IH2]; [lia|lia|].
      cbn [length le_enc app Nat.sub]. split; [lia|]. now rewrite IH2.
Qed.
Lemma le_digits_min f n k : 256 ^ Z.of_nat k <= n -> 0 <= n < 256 ^ Z.of_nat f ->
  (k < length (le_digits f n))%nat.
Proof.
  revert n k; induction f as [|f IH]; intros n k Hk Hn.
  - change (256 ^ Z.of_nat 0) with 1 in Hn. assert (0 < 256 ^ Z.of_nat k) by lia. lia.
  - cbn [le_digits]. destruct (Z.eqb_spec n 0) as [->|Hz]; [assert (0 < 256 ^ Z.of_nat k) by lia; lia|].
    cbn [length]. destruct k as [|k]; [lia|].
    rewrite Nat2Z.inj_succ, Z.pow_succ_r in Hn, Hk by lia.
    assert (k < length (le_digits f (n / 256)))%nat; [apply IH; lia|lia].
Qed.

Lemma ubig_fuel n : 0 <= n -> n < 256 ^ Z.of_nat (Z.to_nat (Z.log2 n + 1)).
Proof.
  intros H. pose proof (Z.log2_nonneg n). rewrite Z2Nat.id by lia.
  apply Z.lt_le_trans with (2 ^ (Z.log2 n + 1)).
  - destruct (Z.eq_dec n 0) as [->|]; [cbn; lia|]. apply Z.log2_spec. lia.
  - apply Z.pow_le_mono_l. lia.
Qed.
Lemma ubig_le_val n : 0 <= n -> le_val (ubig_to_le_bytes n) = n.
Proof. intros. apply le_digits_val. split; [lia|]. now apply ubig_fuel. Qed.
Lemma ubig_be_val n : 0 <= n -> be_val (ubig_to_be_bytes n) = n.
Proof. intros. unfold ubig_to_be_bytes. rewrite be_val_rev. now apply ubig_le_val. Qed.
Lemma ubig_le_bytes n : is_bytes (ubig_to_le_bytes n).
Proof. apply le_digits_bytes. Qed.
Lemma ubig_be_bytes n : is_bytes (ubig_to_be_bytes n).
Proof. apply is_bytes_rev, ubig_le_bytes. Qed.
Lemma ubig_le_pad n k : 0 <= n < 256 ^ Z.of_nat k ->
  (length (ubig_to_le_bytes n) <= k)%nat /\
  ubig_to_le_bytes n ++ repeat 0 (k - length (ubig_to_le_bytes n)) = le_enc k n.
Proof. intros. apply le_digits_pad; [|lia]. split; [lia|]. apply ubig_fuel; lia. Qed.
Lemma ubig_le_exact n k : 256 ^ Z.of_nat k <= n < 256 ^ Z.of_nat (S k) ->
  ubig_to_le_bytes n = le_enc (S k) n.
Proof.
  intros [H1 H2]. assert (0 < 256 ^ Z.of_nat k) by lia.
  destruct (ubig_le_pad n (S k)) as [L P]; [lia|].
  assert (k < length (ubig_to_le_bytes n))%nat.
  { apply le_digits_min; [lia|]. split; [lia|]. apply ubig_fuel; lia. }
  replace (S k - length (ubig_to_le_bytes n))%nat with 0%nat in P by lia.
  cbn [repeat] in P. now rewrite app_nil_r in P.
Qed.

Lemma fill32_length b : length (fill32 b) = 32%nat.
Proof. unfold fill32. rewrite firstn_length, app_length, repeat_length. lia. Qed.
Lemma fill32_bytes b : is_bytes b -> is_bytes (fill32 b).
Proof.
  intros. unfold fill32. apply is_bytes_firstn, is_bytes_app. split; [assumption|].
  apply is_bytes_repeat. unfold is_byte; lia.
Qed.
Lemma fill32_short b : (length b <= 32)%nat -> fill32 b = b ++ repeat 0 (32 - length b).
Proof.
  intros. unfold fill32. rewrite firstn_app. rewrite firstn_all2 by lia. f_equal.
  generalize (32 - length b)%nat (Nat.le_sub_l 32 (length b)). intros m Hm.
  clear H b. revert Hm. generalize 32%nat. induction m; intros [|k] Hk; cbn; try reflexivity; try lia.
  now rewrite IHm by lia.
Qed.

Lemma ibig_to_32_little {E} n : 0 <= n < 2^256 -> ibig_to_32bytes (E:=E) n Little = Ok (le_enc 32 n).
Proof.
  intros H. unfold ibig_to_32bytes, ibig_to_vec. destruct (Z.ltb_spec n 0); [lia|]. cbn [bind].
  destruct (ubig_le_pad n 32) as [L P]; [exact H|].
  now rewrite fill32_short, P by assumption.
Qed.
Lemma ibig_to_32_big_top {E} n : 2^248 <= n < 2^256 -> ibig_to_32bytes (E:=E) n Big = Ok (be_enc 32 n).
Proof.
  intros H. unfold ibig_to_32bytes, ibig_to_vec. destruct (Z.ltb_spec n 0); [lia|]. cbn [bind].
  unfold ubig_to_be_bytes. rewrite (ubig_le_exact n 31) by exact H.
  rewrite fill32_short by (rewrite rev_length, le_enc_length; lia).
  rewrite rev_length, le_enc_length. cbn [Nat.sub repeat]. now rewrite app_nil_r.
Qed.
(* what the big-endian conversion does in general: k significant bytes, left-aligned *)
Lemma ibig_to_32_big_short {E} n k : (k < 32)%nat -> 256 ^ Z.of_nat k <= n < 256 ^ Z.of_nat (S k) ->
  ibig_to_32bytes (E:=E) n Big = Ok (be_enc 32 (n * 256 ^ Z.of_nat (31 - k))).
Proof.
  intros Hk H. unfold ibig_to_32bytes, ibig_to_vec. assert (0 < 256 ^ Z.of_nat k) by lia.
  destruct (Z.ltb_spec n 0); [lia|]. cbn [bind]. f_equal.
  unfold ubig_to_be_bytes. rewrite (ubig_le_exact n k) by exact H.
  rewrite fill32_short by (rewrite rev_length, le_enc_length; lia).
  rewrite rev_length, le_enc_length.
  assert (256 ^ Z.of_nat (S k) * 256 ^ Z.of_nat (31 - k) = 256 ^ Z.of_nat 32) as HP.
  { rewrite <- Z.pow_add_r by lia. f_equal. lia. }
  apply be_val_inj.
  - apply is_bytes_app; split; [apply is_bytes_rev, le_enc_bytes|apply is_bytes_repeat; unfold is_byte; lia].
  - apply be_enc_bytes.
  - rewrite app_length, rev_length, le_enc_length, repeat_length, be_enc_length. lia.
  - rewrite be_val_app, be_val_rev, le_val_enc, be_val_repeat0, be_val_enc.
    unfold zlen. rewrite repeat_length. replace (32 - S k)%nat with (31 - k)%nat by lia.
    rewrite (Z.mod_small n) by lia. rewrite Z.mod_small; [lia|].
    rewrite <- HP. assert (0 < 256 ^ Z.of_nat (31 - k)) by lia. nia.
Qed.
Lemma ibig_to_32_zero {E} o : ibig_to_32bytes (E:=E) 0 o = Ok (repeat 0 32).
Proof. destruct o; reflexivity. Qed.

Lemma map_shift_le k n : map (fun i => u8 (Z.shiftr n (Z.of_nat i * 8))) (seq 0 k) = le_enc k n.
Proof.
  assert (forall j, map (fun i => u8 (Z.shiftr n (Z.of_nat i * 8))) (seq j k) = le_enc k (n / 256 ^ Z.of_nat j)) as G.
  { induction k as [|k IH]; intros j; [reflexivity|]. cbn [seq map le_enc]. rewrite IH. f_equal.
    - unfold u8. rewrite Z.shiftr_div_pow2 by lia.
      rewrite Z.mul_comm, Z.pow_mul_r by lia. reflexivity.
    - f_equal. rewrite Nat2Z.inj_succ, Z.pow_succ_r by lia.
      rewrite (Z.mul_comm 256), Z.div_div by lia. reflexivity. }
  rewrite G. change (256 ^ Z.of_nat 0) with 1. now rewrite Z.div_1_r.
Qed.
Lemma u64_to_bytes_le_enc n : u64_to_bytes_le n = le_enc 8 n.
Proof. apply map_shift_le. Qed.
Lemma u128_to_bytes_be_enc n : u128_to_bytes_be n = be_enc 16 n.
Proof.
  unfold u128_to_bytes_be, be_enc. rewrite <- map_shift_le. cbn [seq map rev app].
  reflexivity.
Qed.

Lemma to_u128_be_from_val i l : is_bytes l -> 0 <= i -> i + zlen l <= 16 ->
  to_u128_be_from i l = be_val l * 256 ^ (16 - i - zlen l).
Proof.
  unfold zlen. intros Hl. revert i. induction Hl as [|b l Hb Hl IH]; intros i Hi Hn; [reflexivity|].
  cbn [to_u128_be_from length] in *. rewrite IH by lia. rewrite be_val_cons. unfold zlen.
  assert (Z.shiftl b (15 * 8 - i * 8) = b * 256 ^ (15 - i)) as ->.
  { rewrite Z.shiftl_mul_pow2 by lia. replace (15 * 8 - i * 8) with (8 * (15 - i)) by lia.
    rewrite Z.pow_mul_r by lia. reflexivity. }
  rewrite u128_id.
  2:{ unfold is_byte in Hb. assert (256 ^ (15 - i) <= 256 ^ 15) by (apply Z.pow_le_mono_r; lia).
      change (2^128) with (256 * 256^15). nia. }
  replace (16 - i - Z.of_nat (S (length l))) with (16 - (i + 1) - Z.of_nat (length l)) by lia.
  replace (15 - i) with (Z.of_nat (length l) + (16 - (i + 1) - Z.of_nat (length l))) by lia.
  rewrite Z.pow_add_r by lia. ring.
Qed.
Lemma to_u128_be_short l : is_bytes l -> (length l <= 16)%nat ->
  to_u128_be l = be_val (l ++ repeat 0 (16 - length l)).
Proof.
  intros Hl Hn. unfold to_u128_be. rewrite firstn_all2 by lia.
  rewrite to_u128_be_from_val by (try assumption; unfold zlen; lia).
  rewrite be_val_app, be_val_repeat0. unfold zlen. rewrite repeat_length.
  replace (16 - 0 - Z.of_nat (length l)) with (Z.of_nat (16 - length l)) by lia. lia.
Qed.
Lemma to_u128_be_16 l : is_bytes l -> length l = 16%nat -> to_u128_be l = be_val l.
Proof.
  intros Hl Hn. rewrite to_u128_be_short by (auto; lia). rewrite Hn. cbn [Nat.sub repeat].
  now rewrite app_nil_r.
Qed.
Lemma to_u128_be_range l : is_bytes l -> 0 <= to_u128_be l < 2^128.
Proof.
  intros Hl. unfold to_u128_be.
  assert (is_bytes (firstn 16 l)) by now apply is_bytes_firstn.
  assert (length (firstn 16 l) <= 16)%nat by (rewrite firstn_length; lia).
  rewrite to_u128_be_from_val by (auto; unfold zlen; lia).
  pose proof (be_val_range _ H). unfold zlen in *.
  set (n := Z.of_nat (length (firstn 16 l))) in *.
  assert (256 ^ n * 256 ^ (16 - 0 - n) = 2^128) as <-.
  { rewrite <- Z.pow_add_r by lia. now replace (n + (16 - 0 - n)) with 16 by lia. }
  assert (0 < 256 ^ (16 - 0 - n)) by (apply Z.pow_pos_nonneg; lia). nia.
Qed.
Lemma to_u128_be_fill_val l : is_bytes l -> (length l <= 16)%nat -> to_u128_be_fill l = be_val l.
Proof.
  intros Hl Hn. unfold to_u128_be_fill.
  destruct (Nat.ltb_spec (length l) 16).
  - rewrite to_u128_be_16.
    + now rewrite be_val_app, be_val_repeat0, Z.mul_0_l, Z.add_0_l.
    + apply is_bytes_app; split; [apply is_bytes_repeat; unfold is_byte; lia|assumption].
    + rewrite app_length, repeat_length. lia.
  - rewrite firstn_all2 by lia. apply to_u128_be_16; auto; lia.
Qed.
Lemma to_u128_le_from_val i l : is_bytes l -> 0 <= i -> i + zlen l <= 16 ->
  to_u128_le_from i l = 256 ^ i * le_val l.
Proof.
  unfold zlen. intros Hl. revert i. induction Hl as [|b l Hb Hl IH]; intros i Hi Hn; [cbn; lia|].
  cbn [to_u128_le_from length] in *. rewrite IH by lia. rewrite le_val_cons.
  assert (Z.shiftl b (i * 8) = b * 256 ^ i) as ->.
  { rewrite Z.shiftl_mul_pow2 by lia. replace (i * 8) with (8 * i) by lia.
    rewrite Z.pow_mul_r by lia. reflexivity. }
  rewrite u128_id.
  2:{ unfold is_byte in Hb. assert (256 ^ i <= 256 ^ 15) by (apply Z.pow_le_mono_r; lia).
      assert (0 < 256 ^ i) by (apply Z.pow_pos_nonneg; lia).
      change (2^128) with (256 * 256^15). nia. }
  rewrite Z.pow_add_r by lia. ring.
Qed.
Lemma to_u128_le_val l : is_bytes l -> to_u128_le l = le_val (firstn 16 l).
Proof.
  intros Hl. unfold to_u128_le. rewrite to_u128_le_from_val.
  - lia.
  - now apply is_bytes_firstn.
  - lia.
  - unfold zlen. rewrite firstn_length. lia.
Qed.
Lemma to_u64_be_from_val i l : is_bytes l -> 0 <= i -> i + zlen l <= 8 ->
  to_u64_be_from i l = be_val l * 256 ^ (8 - i - zlen l).
Proof.
  unfold zlen. intros Hl. revert i. induction Hl as [|b l Hb Hl IH]; intros i Hi Hn; [reflexivity|].
  cbn [to_u64_be_from length] in *. rewrite IH by lia. rewrite be_val_cons. unfold zlen.
  assert (Z.shiftl b (7 * 8 - i * 8) = b * 256 ^ (7 - i)) as ->.
  { rewrite Z.shiftl_mul_pow2 by lia. replace (7 * 8 - i * 8) with (8 * (7 - i)) by lia.
    rewrite Z.pow_mul_r by lia. reflexivity. }
  rewrite u64_id.
  2:{ unfold is_byte in Hb. assert (256 ^ (7 - i) <= 256 ^ 7) by (apply Z.pow_le_mono_r; lia).
      change (2^64) with (256 * 256^7). nia. }
  replace (8 - i - Z.of_nat (S (length l))) with (8 - (i + 1) - Z.of_nat (length l)) by lia.
  replace (7 - i) with (Z.of_nat (length l) + (8 - (i + 1) - Z.of_nat (length l))) by lia.
  rewrite Z.pow_add_r by lia. ring.
Qed.
Lemma to_u64_le_val {E} l : is_bytes l -> (8 <= length l)%nat ->
  to_u64_le (E:=E) l = Ok (be_val (firstn 8 l)).
Proof.
  intros Hl Hn. unfold to_u64_le. rewrite slice_in by lia. cbn [bind skipn Nat.sub].
  assert (length (firstn 8 l) = 8%nat) as L by (rewrite firstn_length; lia).
  rewrite to_u64_be_from_val by (try (apply is_bytes_firstn; assumption); unfold zlen; rewrite ?L; lia).
  unfold zlen. rewrite L. f_equal. change (256 ^ (8 - 0 - Z.of_nat 8)) with 1. lia.
Qed.

Lemma to_u16_val a b t : is_byte a -> is_byte b -> to_u16 (a :: b :: t) = a * 256 + b.
Proof.
  unfold is_byte; intros. cbn [to_u16]. rewrite u16_id by (rewrite Z.shiftl_mul_pow2; lia).
  rewrite lor_shiftl_add; [reflexivity|lia|exact H0].
Qed.

Lemma hex_val_digit d : 0 <= d < 16 -> hex_val (hex_digit d) = Some d /\ hex_digit d <> 43.
Proof.
  intros H.
  assert (forallb (fun d => match hex_val (hex_digit d) with Some v => v =? d | None => false end
     && negb (hex_digit d =? 43)) (zrange 16) = true) as F by reflexivity.
  pose proof (forallb_zrange _ _ F d H) as G. cbv beta in G. apply andb_prop in G. destruct G as [G1 G2].
  destruct (hex_val (hex_digit d)); [|discriminate]. split; [f_equal; lia|lia].
Qed.
Lemma from_to_hex {E} l : is_bytes l -> from_hex (E:=E) (to_hex l) = Ok l.
Proof.
  induction 1 as [|b l Hb Hl IH]; [reflexivity|].
  unfold to_hex. cbn [flat_map app from_hex]. fold (to_hex l). unfold is_byte in Hb.
  unfold radix16. destruct (hex_val_digit (b / 16)) as [E1 N1]; [lia|].
  destruct (hex_val_digit (b mod 16)) as [E2 _]; [lia|].
  destruct (Z.eqb_spec (hex_digit (b / 16)) 43); [contradiction|].
  rewrite E1, E2. cbn [unwrap bind]. rewrite IH. cbn [bind]. do 2 f_equal. lia.
Qed.

Lemma to_u64_le_not_little_endian {E} : exists l, is_bytes l /\ length l = 8%nat /\
  to_u64_le (E:=E) l <> Ok (le_val l).
Proof.
  exists [1; 0; 0; 0; 0; 0; 0; 0]. split; [repeat constructor; unfold is_byte; lia|].
  split; [reflexivity|]. vm_compute. discriminate.
Qed.
Lemma ibig_vec_be {E} l : is_bytes l -> exists v, ibig_to_vec (E:=E) (be_val l) Big = Ok v /\ be_val v = be_val l /\ is_bytes v.
Proof.
  intros H. pose proof (be_val_range l H). unfold ibig_to_vec. destruct (Z.ltb_spec (be_val l) 0); [lia|].
  eexists; split; [reflexivity|]. split; [apply ubig_be_val; lia|apply ubig_be_bytes].
Qed.
Lemma ibig_vec_le {E} n : 0 <= n -> exists v, ibig_to_vec (E:=E) n Little = Ok v /\ le_val v = n /\ is_bytes v.
Proof.
  intros H. unfold ibig_to_vec. destruct (Z.ltb_spec n 0); [lia|].
  eexists; split; [reflexivity|]. split; [apply ubig_le_val; lia|apply ubig_le_bytes].
Qed.
Lemma ibig_vec_be' {E} n : 0 <= n -> exists v, ibig_to_vec (E:=E) n Big = Ok v /\ be_val v = n /\ is_bytes v.
Proof.
  intros H. unfold ibig_to_vec. destruct (Z.ltb_spec n 0); [lia|].
  eexists; split; [reflexivity|]. split; [apply ubig_be_val; lia|apply ubig_be_bytes].
Qed.
Lemma ibig_vec_neg {E} n o : n < 0 -> ibig_to_vec (E:=E) n o = Panic.
Proof. intros. unfold ibig_to_vec. destruct (Z.ltb_spec n 0); [reflexivity|lia]. Qed.
