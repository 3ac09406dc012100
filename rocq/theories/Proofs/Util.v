(* General lemmas: words, bit operations, lists, slices. *)
From Coq Require Export Lia ZifyBool ZifyNat ZifyN.
From Verif Require Export Model.Base.
Ltac Zify.zify_post_hook ::= Z.div_mod_to_equations.

Lemma u8_id x : 0 <= x < 256 -> u8 x = x.
Proof. intros; unfold u8; rewrite Z.mod_small; [reflexivity|]. change (2^8) with 256; lia. Qed.
Lemma u8_range x : 0 <= u8 x < 256.
Proof. unfold u8; change (2^8) with 256; apply Z.mod_pos_bound; lia. Qed.
Lemma u16_id x : 0 <= x < 2^16 -> u16 x = x.
Proof. intros; unfold u16; now apply Z.mod_small. Qed.
Lemma u16_range x : 0 <= u16 x < 2^16.
Proof. unfold u16; apply Z.mod_pos_bound; lia. Qed.
Lemma u32_id x : 0 <= x < 2^32 -> u32 x = x.
Proof. intros; unfold u32; now apply Z.mod_small. Qed.
Lemma u32_range x : 0 <= u32 x < 2^32.
Proof. unfold u32; apply Z.mod_pos_bound; lia. Qed.
Lemma u64_id x : 0 <= x < 2^64 -> u64 x = x.
Proof. intros; unfold u64; now apply Z.mod_small. Qed.
Lemma u64_range x : 0 <= u64 x < 2^64.
Proof. unfold u64; apply Z.mod_pos_bound; lia. Qed.
Lemma u128_id x : 0 <= x < 2^128 -> u128 x = x.
Proof. intros; unfold u128; now apply Z.mod_small. Qed.
Lemma u128_range x : 0 <= u128 x < 2^128.
Proof. unfold u128; apply Z.mod_pos_bound; lia. Qed.

(* ---- bits ---- *)
Lemma testbit_above a k n : 0 <= a < 2^k -> 0 <= k <= n -> Z.testbit a n = false.
Proof.
  intros Ha Hn. destruct (Z.eq_dec a 0) as [->|Hz]; [apply Z.bits_0|].
  apply Z.bits_above_log2; [lia|].
  assert (Z.log2 a < k) by (apply Z.log2_lt_pow2; lia). lia.
Qed.

Lemma lor_shiftl_add a b k : 0 <= k -> 0 <= b < 2^k -> Z.lor (Z.shiftl a k) b = a * 2^k + b.
Proof.
  intros Hk Hb.
  rewrite <- Z.shiftl_mul_pow2 by lia.
  symmetry.
  rewrite Z.add_nocarry_lxor.
  - apply Z.bits_inj'. intros n Hn. rewrite Z.lxor_spec, Z.lor_spec.
    destruct (Z_lt_dec n k).
    + rewrite Z.shiftl_spec_low by lia. now destruct (Z.testbit b n).
    + rewrite (testbit_above b k n) by lia. now rewrite xorb_false_r, orb_false_r.
  - apply Z.bits_inj'. intros n Hn. rewrite Z.land_spec, Z.bits_0.
    destruct (Z_lt_dec n k).
    + rewrite Z.shiftl_spec_low by lia. reflexivity.
    + rewrite (testbit_above b k n) by lia. apply andb_false_r.
Qed.

Lemma lor_mul_add a b k : 0 <= k -> 0 <= b < 2^k -> Z.lor (a * 2^k) b = a * 2^k + b.
Proof. intros. rewrite <- Z.shiftl_mul_pow2 by lia. rewrite lor_shiftl_add by lia. rewrite Z.shiftl_mul_pow2; lia. Qed.

Lemma land_mask a k : 0 <= k -> Z.land a (2^k - 1) = a mod 2^k.
Proof. intros. rewrite <- Z.land_ones by lia. f_equal. rewrite Z.ones_equiv. lia. Qed.

Lemma bitop_bound (f : Z -> Z -> Z) (g : bool -> bool -> bool) a b k :
  (forall x y n, 0 <= n -> Z.testbit (f x y) n = g (Z.testbit x n) (Z.testbit y n)) ->
  g false false = false ->
  0 <= k -> 0 <= a < 2^k -> 0 <= b < 2^k -> 0 <= f a b -> f a b < 2^k.
Proof.
  intros Hf Hg Hk Ha Hb Hp.
  destruct (Z.eq_dec (f a b) 0) as [->|Hz]; [lia|].
  apply Z.log2_lt_pow2; [lia|].
  destruct (Z_lt_dec (Z.log2 (f a b)) k) as [?|Hge]; [assumption|exfalso].
  assert (Z.testbit (f a b) (Z.log2 (f a b)) = true) as Hbit by (apply Z.bit_log2; lia).
  rewrite Hf in Hbit by apply Z.log2_nonneg.
  rewrite (testbit_above a k), (testbit_above b k), Hg in Hbit by lia. discriminate.
Qed.

Lemma lor_bound a b k : 0 <= k -> 0 <= a < 2^k -> 0 <= b < 2^k -> 0 <= Z.lor a b < 2^k.
Proof.
  intros Hk Ha Hb. assert (0 <= Z.lor a b) by (apply Z.lor_nonneg; lia). split; [lia|].
  apply (bitop_bound Z.lor orb a b k); [intros; apply Z.lor_spec|reflexivity|lia..].
Qed.
Lemma lxor_bound a b k : 0 <= k -> 0 <= a < 2^k -> 0 <= b < 2^k -> 0 <= Z.lxor a b < 2^k.
Proof.
  intros Hk Ha Hb. assert (0 <= Z.lxor a b) by (apply Z.lxor_nonneg; lia). split; [lia|].
  apply (bitop_bound Z.lxor xorb a b k); [intros; apply Z.lxor_spec|reflexivity|lia..].
Qed.
Lemma land_bound a b k : 0 <= k -> 0 <= a < 2^k -> 0 <= b < 2^k -> 0 <= Z.land a b < 2^k.
Proof.
  intros Hk Ha Hb. assert (0 <= Z.land a b) by (apply Z.land_nonneg; lia). split; [lia|].
  apply (bitop_bound Z.land andb a b k); [intros; apply Z.land_spec|reflexivity|lia..].
Qed.

Lemma byte_lxor a b : is_byte a -> is_byte b -> is_byte (Z.lxor a b).
Proof. unfold is_byte. intros. apply (lxor_bound a b 8); lia. Qed.

Lemma lxor_cancel a b : Z.lxor (Z.lxor a b) b = a.
Proof. rewrite Z.lxor_assoc, Z.lxor_nilpotent. apply Z.lxor_0_r. Qed.

Lemma lxor_inj_l a b c : Z.lxor a b = Z.lxor a c -> b = c.
Proof.
  intros H. rewrite <- (lxor_cancel b a), <- (lxor_cancel c a).
  rewrite (Z.lxor_comm b a), (Z.lxor_comm c a), H. reflexivity.
Qed.

(* ---- lists ---- *)
Lemma is_bytes_app a b : is_bytes (a ++ b) <-> is_bytes a /\ is_bytes b.
Proof. apply Forall_app. Qed.
Lemma is_bytes_firstn n l : is_bytes l -> is_bytes (firstn n l).
Proof.
  unfold is_bytes. rewrite !Forall_forall. intros H x Hx. apply H.
  rewrite <- (firstn_skipn n l). apply in_or_app. now left.
Qed.
Lemma is_bytes_skipn n l : is_bytes l -> is_bytes (skipn n l).
Proof.
  unfold is_bytes. rewrite !Forall_forall. intros H x Hx. apply H.
  rewrite <- (firstn_skipn n l). apply in_or_app. now right.
Qed.
Lemma is_bytes_repeat v n : is_byte v -> is_bytes (repeat v n).
Proof. intros. apply Forall_forall. intros x Hx. apply repeat_spec in Hx. now subst. Qed.
Lemma is_bytes_rev l : is_bytes l -> is_bytes (rev l).
Proof. unfold is_bytes. rewrite !Forall_forall. intros H x Hx. apply H. now apply in_rev. Qed.

Lemma firstn_app_l {A} (a b : list A) : firstn (length a) (a ++ b) = a.
Proof. rewrite firstn_app, Nat.sub_diag, firstn_all. cbn. apply app_nil_r. Qed.
Lemma skipn_app_l {A} (a b : list A) : skipn (length a) (a ++ b) = b.
Proof. rewrite skipn_app, Nat.sub_diag, skipn_all. reflexivity. Qed.
Lemma firstn_app_eq {A} n (a b : list A) : n = length a -> firstn n (a ++ b) = a.
Proof. intros ->. apply firstn_app_l. Qed.
Lemma skipn_app_eq {A} n (a b : list A) : n = length a -> skipn n (a ++ b) = b.
Proof. intros ->. apply skipn_app_l. Qed.

Lemma list_eqb_spec a b : list_eqb a b = true <-> a = b.
Proof.
  unfold list_eqb. split.
  - intros H. apply andb_prop in H. destruct H as [H1 H2]. apply Nat.eqb_eq in H1.
    revert b H1 H2. induction a as [|x a IH]; intros [|y b] H1 H2; try discriminate; [reflexivity|].
    cbn in H2. apply andb_prop in H2. destruct H2 as [H2 H3]. apply Z.eqb_eq in H2. subst.
    f_equal. apply IH; [cbn in H1; lia | assumption].
  - intros ->. rewrite Nat.eqb_refl. cbn. induction b as [|x b IH]; [reflexivity|].
    cbn. now rewrite Z.eqb_refl.
Qed.
Lemma list_eqb_refl a : list_eqb a a = true.
Proof. now apply list_eqb_spec. Qed.
Lemma list_eqb_false a b : list_eqb a b = false <-> a <> b.
Proof.
  destruct (list_eqb a b) eqn:E.
  - apply list_eqb_spec in E. split; [discriminate|congruence].
  - split; [|auto]. intros _ ->. rewrite list_eqb_refl in E. discriminate.
Qed.

(* ---- outcome ---- *)
Lemma bind_ok {E A B} (m : outcome E A) (k : A -> outcome E B) b :
  bind m k = Ok b -> exists a, m = Ok a /\ k a = Ok b.
Proof. destruct m; cbn; intros; try discriminate. eauto. Qed.

Lemma slice_ok {E A} (l : list A) a b r :
  slice (E:=E) l a b = Ok r -> (a <= b <= length l)%nat /\ r = firstn (b - a) (skipn a l).
Proof.
  unfold slice. destruct (Nat.leb a b && Nat.leb b (length l))%bool eqn:H; intros; try discriminate.
  apply andb_prop in H. destruct H as [H1 H2]. apply Nat.leb_le in H1, H2. inversion H0. auto.
Qed.
Lemma slice_in {E A} (l : list A) a b :
  (a <= b <= length l)%nat -> slice (E:=E) l a b = Ok (firstn (b - a) (skipn a l)).
Proof.
  intros [H1 H2]. unfold slice. apply Nat.leb_le in H1, H2. now rewrite H1, H2.
Qed.
Lemma slice_out {E A} (l : list A) a b :
  (b < a \/ length l < b)%nat -> slice (E:=E) l a b = Panic.
Proof.
  intros H. unfold slice.
  destruct (Nat.leb_spec a b), (Nat.leb_spec b (length l)); cbn; try reflexivity; lia.
Qed.
Lemma slice_from_ok {E A} (l : list A) a r :
  slice_from (E:=E) l a = Ok r -> (a <= length l)%nat /\ r = skipn a l.
Proof.
  unfold slice_from. destruct (Nat.leb_spec a (length l)); intros H0; inversion H0; auto.
Qed.
Lemma slice_from_in {E A} (l : list A) a :
  (a <= length l)%nat -> slice_from (E:=E) l a = Ok (skipn a l).
Proof. intros. unfold slice_from. destruct (Nat.leb_spec a (length l)); [reflexivity|lia]. Qed.
(* slices of concatenations *)
Lemma slice_mid {E A} (p m s : list A) a b :
  a = length p -> b = (length p + length m)%nat -> slice (E:=E) (p ++ m ++ s) a b = Ok m.
Proof.
  intros -> ->. rewrite slice_in by (rewrite !app_length; lia).
  rewrite skipn_app_l. f_equal. apply firstn_app_eq. lia.
Qed.
Lemma slice_from_app {E A} (p s : list A) a :
  a = length p -> slice_from (E:=E) (p ++ s) a = Ok s.
Proof.
  intros ->. rewrite slice_from_in by (rewrite app_length; lia). now rewrite skipn_app_l.
Qed.

(* forallb over an initial segment of Z *)
Definition zrange (n : nat) : list Z := map Z.of_nat (seq 0 n).
Lemma zrange_In n x : In x (zrange n) <-> 0 <= x < Z.of_nat n.
Proof.
  unfold zrange. rewrite in_map_iff. split.
  - intros (k & <- & Hk). apply in_seq in Hk. lia.
  - intros. exists (Z.to_nat x). split; [lia|]. apply in_seq. lia.
Qed.
Lemma forallb_zrange (f : Z -> bool) n :
  forallb f (zrange n) = true -> forall x, 0 <= x < Z.of_nat n -> f x = true.
Proof. intros H x Hx. rewrite forallb_forall in H. apply H. now apply zrange_In. Qed.

(* induction by groups of k elements *)
Lemma list_len_ind {A} (P : list A -> Prop) :
  (forall l, (forall m, (length m < length l)%nat -> P m) -> P l) -> forall l, P l.
Proof.
  intros H l. remember (length l) as n eqn:E. revert l E.
  induction n as [n IH] using lt_wf_ind. intros l ->. apply H. intros m Hm. now apply (IH (length m)).
Qed.

Lemma skipn_skipn {A} (i j : nat) (l : list A) : skipn i (skipn j l) = skipn (i + j) l.
Proof.
  revert j. induction l as [|x l IH]; intros j; [now rewrite !skipn_nil|].
  destruct j as [|j]; [now rewrite Nat.add_0_r|].
  rewrite Nat.add_succ_r. cbn [skipn]. apply IH.
Qed.

Lemma firstn_snoc {A} (l : list A) t d : (t < length l)%nat ->
  firstn (S t) l = firstn t l ++ [nth t l d].
Proof.
  revert t. induction l as [|x l IH]; intros [|t] H; cbn in *; try lia; [reflexivity|].
  f_equal. apply IH. lia.
Qed.
Lemma nth_firstn {A} (l : list A) i t d : (i < t)%nat -> nth i (firstn t l) d = nth i l d.
Proof.
  revert i t. induction l as [|x l IH]; intros [|i] [|t] H; cbn; try lia; try reflexivity.
  apply IH. lia.
Qed.


Lemma nth_map_seq {A} (f : nat -> A) n i d : (i < n)%nat -> nth i (map f (seq 0 n)) d = f i.
Proof.
  intros H. rewrite nth_indep with (d' := f 0%nat) by (rewrite map_length, seq_length; lia).
  rewrite map_nth, seq_nth by lia. reflexivity.
Qed.

Lemma iter_succ_r {A} n (f : A -> A) x : Nat.iter (S n) f x = Nat.iter n f (f x).
Proof. induction n as [|n IH]; [reflexivity|]. change (f (Nat.iter (S n) f x) = f (Nat.iter n f (f x))). now rewrite IH. Qed.
Lemma bind_Ok {E A B} (x : A) (k : A -> outcome E B) : bind (Ok x) k = k x.
Proof. reflexivity. Qed.
Lemma firstn_add {A} k m (l : list A) : firstn (k + m) l = firstn k l ++ firstn m (skipn k l).
Proof. revert l. induction k as [|k IH]; intros [|x l]; cbn; rewrite ?firstn_nil; try reflexivity. now rewrite IH. Qed.
Lemma is_bytes_check l : forallb (fun b => (0 <=? b) && (b <? 256)) l = true -> is_bytes l.
Proof.
  intros H. unfold is_bytes. apply Forall_forall. intros x Hx. rewrite forallb_forall in H. specialize (H x Hx).
  unfold is_byte. lia.
Qed.
Lemma testbit_split x b k n : 0 <= k -> 0 <= n -> 0 <= b < 2^k ->
  Z.testbit (x * 2^k + b) n = if n <? k then Z.testbit b n else Z.testbit x (n - k).
Proof.
  intros Hk Hn Hb. rewrite <- lor_mul_add by lia. rewrite Z.lor_spec, <- Z.shiftl_mul_pow2 by lia.
  destruct (Z.ltb_spec n k).
  - rewrite Z.shiftl_spec_low by lia. reflexivity.
  - rewrite Z.shiftl_spec by lia. rewrite (testbit_above b k n) by lia. apply orb_false_r.
Qed.
Lemma land_split x b y c k : 0 <= k -> 0 <= b < 2^k -> 0 <= c < 2^k ->
  Z.land (x * 2^k + b) (y * 2^k + c) = Z.land x y * 2^k + Z.land b c.
Proof.
  intros Hk Hb Hc. apply Z.bits_inj'. intros n Hn.
  rewrite Z.land_spec, !testbit_split; auto using land_bound.
  destruct (n <? k); now rewrite Z.land_spec.
Qed.
Lemma lxor_split x b y c k : 0 <= k -> 0 <= b < 2^k -> 0 <= c < 2^k ->
  Z.lxor (x * 2^k + b) (y * 2^k + c) = Z.lxor x y * 2^k + Z.lxor b c.
Proof.
  intros Hk Hb Hc. apply Z.bits_inj'. intros n Hn.
  rewrite Z.lxor_spec, !testbit_split; auto using lxor_bound.
  destruct (n <? k); now rewrite Z.lxor_spec.
Qed.
