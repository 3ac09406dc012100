From Verif Require Import Proofs.Util Proofs.Bytes Model.Bytes Model.Aes Model.Alert Model.Gcm
  Spec.Enc Spec.Gf2 Spec.Fips197 Spec.Sp80038d Proofs.Gf2 Proofs.Aes.
From Verif Require Proofs.Sha2.

(* ---- bit reversal ---- *)
Lemma rev_bits_testbit n x acc i : 0 <= i ->
  Z.testbit (rev_bits n x acc) i =
  if i <? Z.of_nat n then Z.testbit x (Z.of_nat n - 1 - i) else Z.testbit acc (i - Z.of_nat n).
Proof.
  revert x acc i. induction n as [|n IH]; intros x acc i Hi.
  - cbn [rev_bits]. destruct (Z.ltb_spec i (Z.of_nat 0)); [lia|]. f_equal. lia.
  - cbn [rev_bits]. rewrite IH by assumption. rewrite Nat2Z.inj_succ.
    destruct (Z.ltb_spec i (Z.of_nat n)).
    + destruct (Z.ltb_spec i (Z.succ (Z.of_nat n))); [|lia].
      rewrite Z.shiftr_spec by lia. f_equal. lia.
    + rewrite Z.lor_spec, Z.land_spec.
      destruct (Z.ltb_spec i (Z.succ (Z.of_nat n))).
      * replace (i - Z.of_nat n) with 0 by lia. rewrite Z.shiftl_spec_low by lia.
        change (Z.testbit 1 0) with true. rewrite andb_true_r. cbn [orb]. f_equal. lia.
      * rewrite Z.shiftl_spec by lia. replace (Z.testbit 1 (i - Z.of_nat n)) with false.
        -- rewrite andb_false_r, orb_false_r. f_equal. lia.
        -- symmetry. apply (testbit_above 1 1); lia.
Qed.
Lemma reverse_testbit x i : 0 <= i ->
  Z.testbit (reverse_bits x) i = if i <? 128 then Z.testbit x (127 - i) else false.
Proof.
  intros. unfold reverse_bits. rewrite rev_bits_testbit by assumption.
  change (Z.of_nat 128) with 128. destruct (Z.ltb_spec i 128); [f_equal; lia|apply Z.bits_0].
Qed.
Lemma bits_range x : 0 <= x -> (forall i, 128 <= i -> Z.testbit x i = false) -> x < 2^128.
Proof.
  intros H0 H. destruct (Z.lt_ge_cases x (2^128)) as [|G]; [assumption|].
  assert (x <> 0) as Hx by lia. pose proof (Z.bit_log2 x ltac:(lia)) as B.
  rewrite H in B; [discriminate|]. apply Z.log2_le_pow2; lia.
Qed.
Lemma rev_bits_nonneg n x acc : 0 <= x -> 0 <= acc -> 0 <= rev_bits n x acc.
Proof.
  revert x acc. induction n as [|n IH]; intros x acc Hx Ha; [assumption|]. cbn [rev_bits]. apply IH.
  - now apply Z.shiftr_nonneg.
  - apply Z.lor_nonneg. split; [now apply Z.shiftl_nonneg|apply Z.land_nonneg; lia].
Qed.
Lemma reverse_range x : 0 <= x -> 0 <= reverse_bits x < 2^128.
Proof.
  intros H. assert (0 <= reverse_bits x) by (unfold reverse_bits; apply rev_bits_nonneg; lia). split; [assumption|].
  apply bits_range; [assumption|]. intros i Hi. rewrite reverse_testbit by lia.
  destruct (Z.ltb_spec i 128); [lia|reflexivity].
Qed.
Local Opaque reverse_bits.
Lemma reverse_reverse x : 0 <= x < 2^128 -> reverse_bits (reverse_bits x) = x.
Proof.
  intros H. apply Z.bits_inj'. intros i Hi. rewrite reverse_testbit by assumption.
  destruct (Z.ltb_spec i 128).
  - rewrite reverse_testbit by lia. destruct (Z.ltb_spec (127 - i) 128); [f_equal; lia|lia].
  - symmetry. apply (testbit_above x 128); lia.
Qed.
Lemma reverse_lxor x y : reverse_bits (Z.lxor x y) = Z.lxor (reverse_bits x) (reverse_bits y).
Proof.
  apply Z.bits_inj'. intros i Hi. rewrite Z.lxor_spec, !reverse_testbit by assumption.
  destruct (i <? 128); [apply Z.lxor_spec|reflexivity].
Qed.
Lemma reverse_0 : reverse_bits 0 = 0.
Proof. vm_compute. reflexivity. Qed.
Lemma reverse_double a : 0 <= a -> reverse_bits ((2 * a) mod 2^128) = reverse_bits a / 2.
Proof.
  intros Ha. apply Z.bits_inj'. intros i Hi. rewrite reverse_testbit by assumption.
  rewrite Z.div2_bits by assumption. rewrite reverse_testbit by lia.
  destruct (Z.ltb_spec i 128).
  - rewrite Z.mod_pow2_bits_low by lia. destruct (Z.ltb_spec (Z.succ i) 128).
    + rewrite Z.double_bits. f_equal. lia.
    + replace (127 - i) with 0 by lia. now rewrite Z.testbit_even_0.
  - destruct (Z.ltb_spec (Z.succ i) 128); [lia|reflexivity].
Qed.

(* ---- the field product ---- *)
Definition m128 : Z := 2^128 + 2^7 + 2^2 + 2 + 1.
Lemma m128_range : 2^128 <= m128 < 2^(128+1).
Proof. unfold m128. lia. Qed.

Lemma gmult_step_peasant a b p : 0 <= a < 2^128 -> gmult_step (a, b, p) = peasant 128 m128 (a, b, p).
Proof.
  intros Ha. unfold gmult_step, peasant, xtime. rewrite land_1_odd.
  change 0x80000000000000000000000000000000 with (2^127). rewrite land_pow_testbit by lia.
  change (128 - 1) with 127. rewrite Z.shiftl_mul_pow2, Z.shiftr_div_pow2 by lia. change (2^1) with 2.
  unfold u128. rewrite (Z.mul_comm a 2). change (m128 - 2^128) with 0x87.
  destruct (Z.testbit a 127) eqn:T; [reflexivity|].
  f_equal. f_equal. apply Z.mod_small.
  assert (a < 2^127); [|lia]. destruct (Z.lt_ge_cases a (2^127)); [assumption|].
  assert (Z.testbit a 127 = true); [|congruence].
  replace a with (1 * 2^127 + (a - 2^127)) by lia. rewrite <- lor_mul_add by lia.
  rewrite Z.lor_spec. rewrite Z.mul_1_l, Z.pow2_bits_true by lia. reflexivity.
Qed.
Lemma peasant128_range a b p : 0 <= a < 2^128 ->
  exists a' b' p', peasant 128 m128 (a, b, p) = (a', b', p') /\ 0 <= a' < 2^128.
Proof.
  intros Ha. unfold peasant. do 3 eexists. split; [reflexivity|].
  exact (proj1 (xtime_rem 128 m128 ltac:(lia) m128_range a ltac:(lia) Ha)).
Qed.
Lemma gmult_iter n a b p : 0 <= a < 2^128 ->
  Nat.iter n gmult_step (a, b, p) = Nat.iter n (peasant 128 m128) (a, b, p).
Proof.
  revert a b p. induction n as [|n IH]; intros a b p Ha; [reflexivity|].
  rewrite !iter_succ_r. rewrite gmult_step_peasant by assumption.
  destruct (peasant128_range a b p Ha) as (a' & b' & p' & -> & Ha'). now apply IH.
Qed.
Lemma gmult_field a b : 0 <= a -> 0 <= b ->
  gmult a b = reverse_bits (gf_mul m128 (reverse_bits a) (reverse_bits b)).
Proof.
  intros Ha Hb. unfold gmult.
  pose proof (reverse_range a Ha) as Ra. pose proof (reverse_range b Hb) as Rb.
  rewrite gmult_iter by exact Ra.
  pose proof (peasant_spec 128 m128 ltac:(lia) m128_range 128 (reverse_bits a) (reverse_bits b) 0 ltac:(lia) Ra Rb) as P.
  destruct (Nat.iter 128 (peasant 128 m128) (reverse_bits a, reverse_bits b, 0)) as [[x y] z].
  cbn [snd] in P. now rewrite P, Z.lxor_0_l.
Qed.

(* Algorithm 1 simulates the same loop on reversed blocks *)
Lemma reverse_odd a : Z.odd (reverse_bits a) = Z.testbit a 127.
Proof. rewrite <- Z.bit0_odd, reverse_testbit by lia. reflexivity. Qed.
Lemma reverse_R : reverse_bits 0x87 = R.
Proof. vm_compute. reflexivity. Qed.
Lemma reverse_xtime a : 0 <= a < 2^128 ->
  reverse_bits (xtime 128 m128 a)
  = if Z.odd (reverse_bits a) then Z.lxor (reverse_bits a / 2) R else reverse_bits a / 2.
Proof.
  intros Ha. rewrite reverse_odd. unfold xtime. change (128 - 1) with 127.
  change (m128 - 2^128) with 0x87. destruct (Z.testbit a 127) eqn:T.
  - rewrite reverse_lxor, reverse_R, reverse_double by lia. reflexivity.
  - rewrite <- reverse_double by lia. f_equal. symmetry. apply Z.mod_small.
    split; [lia|]. apply bits_range; [lia|]. intros i Hi.
    replace i with (Z.succ (i - 1)) by lia. rewrite Z.double_bits_succ.
    destruct (Z.eq_dec i 128) as [->|]; [exact T|]. apply (testbit_above a 128); lia.
Qed.
Lemma peasant_eq k m a b p : peasant k m (a, b, p) = (xtime k m a, b / 2, if Z.odd b then Z.lxor p a else p).
Proof. reflexivity. Qed.
Lemma mul_step_eq X z v i :
  mul_step X (z, v) i = (if bit X i then Z.lxor z v else z, if Z.odd v then Z.lxor (v / 2) R else v / 2).
Proof. reflexivity. Qed.
Lemma block_mul_sim X n k a b p : 0 <= a < 2^128 -> 0 <= X ->
  (k + n <= 128)%nat -> b = reverse_bits X / 2 ^ Z.of_nat k -> 
  reverse_bits (snd (Nat.iter n (peasant 128 m128) (a, b, p)))
  = fst (fold_left (mul_step X) (seq k n) (reverse_bits p, reverse_bits a)).
Proof.
  intros Ha HX. revert k a b p Ha. induction n as [|n IH]; intros k a b p Ha Hk Hb; [reflexivity|].
  rewrite iter_succ_r, peasant_eq. change (seq k (S n)) with (k :: seq (S k) n).
  rewrite fold_cons, mul_step_eq. rewrite (IH (S k)).
  - f_equal. f_equal. f_equal.
    + assert (Z.odd b = bit X k) as ->.
      { rewrite Hb, <- Z.shiftr_div_pow2, <- Z.bit0_odd, Z.shiftr_spec by lia.
        rewrite reverse_testbit by lia. unfold bit. destruct (Z.ltb_spec (0 + Z.of_nat k) 128); [|lia].
        f_equal. }
      destruct (bit X k); [apply reverse_lxor|reflexivity].
    + now apply reverse_xtime.
  - exact (proj1 (xtime_rem 128 m128 ltac:(lia) m128_range a ltac:(lia) Ha)).
  - lia.
  - rewrite Hb, Nat2Z.inj_succ, Z.pow_succ_r by lia. rewrite Z.div_div by lia. f_equal. lia.
Qed.
Lemma block_mul_field X Y : 0 <= X < 2^128 -> 0 <= Y < 2^128 ->
  block_mul X Y = reverse_bits (gf_mul m128 (reverse_bits Y) (reverse_bits X)).
Proof.
  intros HX HY. unfold block_mul.
  pose proof (reverse_range X ltac:(lia)) as RX. pose proof (reverse_range Y ltac:(lia)) as RY.
  pose proof (block_mul_sim X 128 0 (reverse_bits Y) (reverse_bits X) 0 RY ltac:(lia) ltac:(lia)) as S.
  rewrite reverse_0, reverse_reverse in S by assumption. rewrite <- S; [|now rewrite Z.div_1_r].
  rewrite (peasant_spec 128 m128 ltac:(lia) m128_range 128 (reverse_bits Y) (reverse_bits X) 0 ltac:(lia) RY RX).
  now rewrite Z.lxor_0_l.
Qed.
Lemma gmult_range a b : 0 <= a -> 0 <= b -> 0 <= gmult a b < 2^128.
Proof.
  intros Ha Hb. rewrite gmult_field by assumption. apply reverse_range.
  apply (gf_mul_range 128 m128 ltac:(lia) m128_range).
  pose proof (reverse_range a Ha). lia.
Qed.
Lemma gmult_comm a b : 0 <= a -> 0 <= b -> gmult a b = gmult b a.
Proof.
  intros Ha Hb. rewrite !gmult_field by assumption. f_equal.
  apply (gf_mul_comm 128 m128 ltac:(lia) m128_range); now apply reverse_range.
Qed.
Lemma gmult_is_block_mul a b : 0 <= a < 2^128 -> 0 <= b < 2^128 -> gmult a b = block_mul a b.
Proof.
  intros Ha Hb. rewrite gmult_comm, gmult_field, block_mul_field by lia. reflexivity.
Qed.
Lemma gmult_xor_l a a' b : 0 <= a -> 0 <= a' -> 0 <= b -> gmult (Z.lxor a a') b = Z.lxor (gmult a b) (gmult a' b).
Proof.
  intros Ha Ha' Hb. rewrite !gmult_field by (try assumption; now apply lxor_nonneg'). rewrite reverse_lxor.
  rewrite (gf_mul_xor_l 128 m128 ltac:(lia) m128_range) by (now apply reverse_range). apply reverse_lxor.
Qed.
Lemma gmult_assoc a b c : 0 <= a -> 0 <= b -> 0 <= c -> gmult (gmult a b) c = gmult a (gmult b c).
Proof.
  intros Ha Hb Hc. rewrite (gmult_field (gmult a b)), (gmult_field a (gmult b c))
    by (try assumption; now apply gmult_range).
  rewrite (gmult_field a b), (gmult_field b c) by assumption.
  pose proof (reverse_range a Ha). pose proof (reverse_range b Hb). pose proof (reverse_range c Hc).
  rewrite !reverse_reverse by (apply (gf_mul_range 128 m128 ltac:(lia) m128_range); lia).
  f_equal. apply (gf_mul_assoc 128 m128 ltac:(lia) m128_range); lia.
Qed.
(* the block 10...0 is the unit *)
Lemma gmult_unit a : 0 <= a < 2^128 -> gmult (2^127) a = a.
Proof.
  intros Ha. rewrite gmult_field by lia. replace (reverse_bits (2^127)) with 1 by (vm_compute; reflexivity).
  rewrite (gf_mul_1_l 128 m128 ltac:(lia) m128_range) by (apply reverse_range; lia). now apply reverse_reverse.
Qed.

(* ---- blocks and padding ---- *)
Lemma chunks16_pieces f l : chunks16 f l = pieces f 16 l.
Proof.
  revert l. induction f as [|f IH]; intros l; [reflexivity|]. destruct l as [|x l]; [reflexivity|].
  cbn [chunks16 pieces]. now rewrite IH.
Qed.
Lemma pieces16_cons a l : length a = 16%nat ->
  pieces (length (a ++ l)) 16 (a ++ l) = a :: pieces (length l) 16 l.
Proof. intros Ha. apply Proofs.Sha2.pieces_app; [lia|assumption|lia]. Qed.
Lemma pieces16_short l : (0 < length l <= 16)%nat -> pieces (length l) 16 l = [l].
Proof.
  intros H. destruct l as [|x l]; [cbn [length] in H; lia|]. cbn [length]. cbn [pieces].
  change (x :: firstn 15 l) with (firstn 16 (x :: l)). rewrite firstn_all2 by lia.
  change (skipn 15 l) with (skipn 16 (x :: l)). rewrite skipn_all2 by lia.
  now rewrite Proofs.Sha2.pieces_nil.
Qed.
(* induction on a byte string, sixteen bytes at a time *)
Lemma blocks_ind (P : list Z -> Prop) :
  P [] -> (forall l, (0 < length l < 16)%nat -> P l) ->
  (forall a l, length a = 16%nat -> P l -> P (a ++ l)) -> forall l, P l.
Proof.
  intros H0 H1 H2 l. induction l as [l IH] using list_len_ind.
  destruct (Nat.eq_dec (length l) 0) as [E|E].
  - destruct l; [assumption|discriminate].
  - destruct (Nat.lt_ge_cases (length l) 16).
    + apply H1. lia.
    + rewrite <- (firstn_skipn 16 l). apply H2; [rewrite firstn_length; lia|].
      apply IH. rewrite skipn_length. lia.
Qed.
Lemma pad16_block a l : length a = 16%nat -> pad16 (a ++ l) = a ++ pad16 l.
Proof.
  intros Ha. unfold pad16. rewrite app_length, Ha, <- app_assoc. f_equal. f_equal.
  replace ((16 + length l) mod 16)%nat with (length l mod 16)%nat; [reflexivity|].
  replace (16 + length l)%nat with (length l + 1 * 16)%nat by lia. now rewrite Nat.mod_add by lia.
Qed.
Lemma pad16_short l : (0 < length l < 16)%nat -> pad16 l = l ++ repeat 0 (16 - length l).
Proof.
  intros H. unfold pad16. rewrite (Nat.mod_small (length l)) by lia. rewrite Nat.mod_small by lia. reflexivity.
Qed.
Lemma pad16_length l : (length (pad16 l) mod 16 = 0)%nat.
Proof.
  induction l as [|l H|a l Ha IH] using blocks_ind; [reflexivity| |].
  - rewrite pad16_short, app_length, repeat_length by assumption.
    replace (length l + (16 - length l))%nat with 16%nat by lia. reflexivity.
  - rewrite pad16_block, app_length, Ha by assumption.
    replace (16 + length (pad16 l))%nat with (length (pad16 l) + 1 * 16)%nat by lia.
    rewrite Nat.mod_add by lia. assumption.
Qed.
Lemma blocks_cons a l : length a = 16%nat -> blocks (a ++ l) = be_val a :: blocks l.
Proof. intros. unfold blocks. now rewrite pieces16_cons. Qed.
Lemma blocks_app a b : (length a mod 16 = 0)%nat -> blocks (a ++ b) = blocks a ++ blocks b.
Proof.
  induction a as [|l H|x l Hx IH] using blocks_ind; intros M; [reflexivity| |].
  - rewrite Nat.mod_small in M by lia. lia.
  - rewrite app_length, Hx in M. replace (16 + length l)%nat with (length l + 1 * 16)%nat in M by lia.
    rewrite Nat.mod_add in M by lia.
    rewrite <- app_assoc, (blocks_cons x (l ++ b)), (blocks_cons x l), IH by assumption. reflexivity.
Qed.
Lemma blocks_pad l : is_bytes l -> blocks (pad16 l) = map to_u128_be (pieces (length l) 16 l).
Proof.
  induction l as [|l H|a l Ha IH] using blocks_ind; intros Hb; [reflexivity| |].
  - rewrite pad16_short by assumption. unfold blocks.
    rewrite (pieces16_short (l ++ _)) by (rewrite app_length, repeat_length; lia).
    rewrite pieces16_short by lia. cbn [map]. now rewrite to_u128_be_short by (assumption || lia).
  - apply is_bytes_app in Hb. destruct Hb as [B1 B2].
    rewrite pad16_block, blocks_cons, pieces16_cons, IH by assumption. cbn [map].
    now rewrite to_u128_be_16.
Qed.
Definition word128 (x : Z) : Prop := 0 <= x < 2^128.
Lemma pieces_words l : is_bytes l -> Forall word128 (map to_u128_be (pieces (length l) 16 l)).
Proof.
  induction l as [|l H|a l Ha IH] using blocks_ind; intros Hb; [constructor| |].
  - rewrite pieces16_short by lia. repeat constructor; now apply to_u128_be_range.
  - apply is_bytes_app in Hb. destruct Hb as [B1 B2]. rewrite pieces16_cons by assumption. cbn [map].
    constructor; [now apply to_u128_be_range|now apply IH].
Qed.

(* ---- GHASH ---- *)
Definition gh (H Y : Z) (l : list Z) : Z := fold_left (fun Y Xi => block_mul (Z.lxor Y Xi) H) l Y.
Lemma gh_app H Y a b : gh H Y (a ++ b) = gh H (gh H Y a) b.
Proof. apply fold_left_app. Qed.
Local Opaque gmult block_mul.
Lemma fold_gh H Y l : word128 H -> word128 Y -> Forall word128 l ->
  fold_left (fun x c => gmult (Z.lxor x c) H) l Y = gh H Y l /\ word128 (gh H Y l).
Proof.
  intros HH HY Hl. revert Y HY. induction Hl as [|x l Hx Hl IH]; intros Y HY; [split; [reflexivity|exact HY]|].
  unfold gh. rewrite !fold_cons. fold (gh H (block_mul (Z.lxor Y x) H) l).
  assert (word128 (Z.lxor Y x)) as W by (apply lxor_bound; [lia|exact HY|exact Hx]).
  rewrite <- gmult_is_block_mul by assumption. apply IH.
  destruct W, HH. now apply gmult_range.
Qed.
Lemma gh_range H Y l : word128 H -> word128 Y -> Forall word128 l -> word128 (gh H Y l).
Proof. intros. now apply fold_gh. Qed.
Lemma fold_map {A B C} (f : A -> B -> A) (g : C -> B) l a :
  fold_left f (map g l) a = fold_left (fun x c => f x (g c)) l a.
Proof. revert a. induction l as [|x l IH]; intros a; [reflexivity|]. cbn [map fold_left]. apply IH. Qed.
Lemma absorb_gh H X l : word128 H -> word128 X -> is_bytes l ->
  absorb H X l = gh H X (blocks (pad16 l)).
Proof.
  intros HH HX Hl. unfold absorb. rewrite chunks16_pieces, blocks_pad by assumption.
  pose proof (pieces_words l Hl) as W. destruct (fold_gh H X _ HH HX W) as [E _]. rewrite <- E.
  now rewrite fold_map.
Qed.

(* ---- counter mode ---- *)
Lemma be_val_xor a b : is_bytes a -> is_bytes b -> length a = length b ->
  be_val (xor_bytes a b) = Z.lxor (be_val a) (be_val b).
Proof.
  unfold xor_bytes. intros Ha. revert b. induction Ha as [|x a Hx Ha IH]; intros b Hb L.
  - destruct b; [reflexivity|discriminate].
  - destruct Hb as [|y b Hy Hb]; [discriminate|]. cbn [length] in L. cbn [combine map fst snd].
    rewrite !be_val_cons. unfold zlen. rewrite map_length, combine_length.
    replace (Nat.min (length a) (length b)) with (length a) by lia.
    replace (length b) with (length a) by lia. rewrite IH by (assumption || lia).
    assert (256 ^ Z.of_nat (length a) = 2 ^ (8 * Z.of_nat (length a))) as P
      by (rewrite Z.pow_mul_r by lia; reflexivity).
    pose proof (be_val_range a Ha) as Ra. pose proof (be_val_range b Hb) as Rb. unfold zlen in *.
    replace (length b) with (length a) in Rb by lia.
    rewrite P in *. symmetry. apply lxor_split; lia.
Qed.
Lemma xor_bytes_firstn a b : xor_bytes a b = xor_bytes a (firstn (length a) b).
Proof.
  unfold xor_bytes. revert b. induction a as [|x a IH]; intros b; [reflexivity|].
  destruct b as [|y b]; [reflexivity|]. cbn [length firstn combine map]. now rewrite IH.
Qed.
Lemma xor_bytes_length a b : (length a <= length b)%nat -> length (xor_bytes a b) = length a.
Proof. intros. unfold xor_bytes. rewrite map_length, combine_length. lia. Qed.
Lemma xor_bytes_bytes a b : is_bytes a -> is_bytes b -> is_bytes (xor_bytes a b).
Proof.
  unfold xor_bytes. intros Ha. revert b. induction Ha as [|x a Hx Ha IH]; intros b Hb; [constructor|].
  destruct Hb as [|y b Hy Hb]; [constructor|]. cbn [combine map fst snd]. constructor; [now apply byte_lxor|now apply IH].
Qed.
Lemma xor_bytes_twice a b : (length a <= length b)%nat -> xor_bytes (xor_bytes a b) b = a.
Proof.
  unfold xor_bytes. revert b. induction a as [|x a IH]; intros [|y b] H; cbn [length] in H; try lia; try reflexivity.
  cbn [combine map fst snd]. rewrite lxor_cancel, IH by lia. reflexivity.
Qed.
Lemma be_enc_short v n k : (n <= k)%nat -> 0 <= v -> skipn (k - n) (be_enc k v) = be_enc n v.
Proof.
  intros H Hv. unfold be_enc. replace (le_enc k v) with (le_enc (n + (k - n)) v) by (f_equal; lia).
  rewrite le_enc_app, rev_app_distr. apply skipn_app_eq. now rewrite rev_length, le_enc_length.
Qed.

(* one block: the shifted XOR of the code is the byte-wise XOR *)
Lemma out_block p e : is_bytes p -> is_bytes e -> (0 < length p <= 16)%nat -> length e = 16%nat ->
  Z.shiftr (Z.lxor (to_u128_be p) (to_u128_be e)) ((16 - zlen p) * 8) = be_val (xor_bytes p e).
Proof.
  intros Hp He Lp Le. rewrite to_u128_be_short, to_u128_be_16 by (assumption || lia).
  rewrite Z.shiftr_lxor. rewrite xor_bytes_firstn, be_val_xor;
    [|assumption|now apply is_bytes_firstn|rewrite firstn_length; lia].
  rewrite <- (firstn_skipn (length p) e) at 1. rewrite !be_val_app. unfold zlen.
  rewrite repeat_length, skipn_length, Le, be_val_repeat0.
  replace ((16 - Z.of_nat (length p)) * 8) with (8 * Z.of_nat (16 - length p)) by lia.
  assert (256 ^ Z.of_nat (16 - length p) = 2 ^ (8 * Z.of_nat (16 - length p))) as P
    by (rewrite Z.pow_mul_r by lia; reflexivity). rewrite P.
  rewrite !Z.shiftr_div_pow2 by lia. rewrite Z.add_0_r, Z.div_mul by lia. f_equal.
  rewrite Z.div_add_l by lia.
  pose proof (be_val_range (skipn (length p) e) (is_bytes_skipn _ _ He)) as R.
  unfold zlen in R. rewrite skipn_length, Le, P in R. rewrite Z.div_small by lia. lia.
Qed.
Lemma shift_back q : is_bytes q -> (0 < length q <= 16)%nat ->
  u128 (Z.shiftl (be_val q) ((16 - zlen q) * 8)) = to_u128_be q.
Proof.
  intros Hq Lq. rewrite to_u128_be_short by (assumption || lia). rewrite be_val_app, be_val_repeat0.
  unfold zlen. rewrite repeat_length.
  assert (256 ^ Z.of_nat (16 - length q) = 2 ^ ((16 - Z.of_nat (length q)) * 8)) as P.
  { replace ((16 - Z.of_nat (length q)) * 8) with (8 * Z.of_nat (16 - length q)) by lia.
    rewrite Z.pow_mul_r by lia. reflexivity. }
  rewrite P, Z.shiftl_mul_pow2, Z.add_0_r by lia. apply u128_id.
  pose proof (be_val_range q Hq) as R. unfold zlen in R.
  assert (256 ^ Z.of_nat (length q) * 2 ^ ((16 - Z.of_nat (length q)) * 8) = 2 ^ 128).
  { rewrite <- P, <- Z.pow_add_r by lia. replace (Z.of_nat (length q) + Z.of_nat (16 - length q)) with 16 by lia. reflexivity. }
  nia.
Qed.

Lemma CIPH_block bs key X : is_bytes key -> length key = (4 * bs_nk bs)%nat ->
  aes_encrypt (expanded_key key bs) bs (u128_to_bytes_be X) = CIPH (bs_nk bs) key X
  /\ is_bytes (CIPH (bs_nk bs) key X) /\ length (CIPH (bs_nk bs) key X) = 16%nat.
Proof.
  intros Hk Hl. rewrite u128_to_bytes_be_enc.
  assert (block (be_enc 16 X)) as B by (split; [apply be_enc_bytes|apply be_enc_length]).
  unfold CIPH. rewrite <- aes_encrypt_spec by assumption. split; [reflexivity|].
  exact (aes_encrypt_block key bs _ Hk Hl B).
Qed.
Local Opaque aes_encrypt expanded_key CIPH to_u128_be u128_to_bytes_be.
Lemma gcm_block_spec {E} key bs Y0 H (iv96 enc : bool) c X out p CB :
  is_bytes key -> length key = (4 * bs_nk bs)%nat -> is_bytes p -> (0 < length p <= 16)%nat ->
  (if iv96 then Ok (Z.lor (Z.land Y0 (2 ^ 128 - 1 - 0xFFFFFFFF)) ((c + 1) mod 0x100000000))
   else if Y0 + (c + 1) mod 0x100000000 <? 2 ^ 128 then Ok (Y0 + (c + 1) mod 0x100000000) else Panic) = Ok (E:=E) CB ->
  let q := xor_bytes p (CIPH (bs_nk bs) key CB) in
  gcm_block (E:=E) (expanded_key key bs) bs Y0 H iv96 enc (c, X, out) p
  = Ok ((c + 1) mod 0x100000000, gmult (Z.lxor X (to_u128_be (if enc then q else p))) H, out ++ q)
  /\ is_bytes q /\ length q = length p.
Proof.
  intros Hk Hl Hp Lp HY q. destruct (CIPH_block bs key CB Hk Hl) as (EC & BC & LC).
  assert (is_bytes q) as Bq by now apply xor_bytes_bytes.
  assert (length q = length p) as Lq by (apply xor_bytes_length; lia).
  split; [|split; assumption].
  unfold gcm_block. rewrite HY, bind_Ok, EC, out_block by assumption. fold q.
  rewrite u128_to_bytes_be_enc, <- Lq, be_enc_short, be_enc_val; [|assumption|lia|now apply be_val_range].
  replace (zlen p) with (zlen q) by (unfold zlen; lia). rewrite shift_back by (assumption || lia).
  now destruct enc.
Qed.
Lemma yi96 Y0 c : word128 Y0 -> 0 <= c < 2^32 ->
  Z.lor (Z.land Y0 (2 ^ 128 - 1 - 0xFFFFFFFF)) c = Y0 / 2^32 * 2^32 + c.
Proof.
  intros HY Hc. pose proof (Z.div_mod Y0 (2^32) ltac:(lia)) as D. pose proof (Z.mod_pos_bound Y0 (2^32) ltac:(lia)) as M.
  assert (Z.land Y0 (2 ^ 128 - 1 - 0xFFFFFFFF) = Y0 / 2^32 * 2^32) as ->; [|apply lor_mul_add; lia].
  rewrite D at 1. replace (2 ^ 32 * (Y0 / 2 ^ 32)) with (Y0 / 2^32 * 2^32) by lia.
  replace (2 ^ 128 - 1 - 0xFFFFFFFF) with ((2^96 - 1) * 2^32 + 0) by reflexivity.
  rewrite land_split, land_mask, Z.land_0_r, Z.add_0_r by lia.
  rewrite Z.mod_small; [reflexivity|]. unfold word128 in HY. split; [apply Z.div_pos; lia|].
  apply Z.div_lt_upper_bound; lia.
Qed.
Lemma inc32_split h c : 0 <= c < 2^32 -> inc32 (h * 2^32 + c) = h * 2^32 + (c + 1) mod 2^32.
Proof.
  intros Hc. unfold inc32. rewrite Z.div_add_l, Z.div_small, Z.add_0_r by lia. f_equal.
  rewrite <- Z.add_assoc, Z.add_comm, Z.mod_add by lia. reflexivity.
Qed.

Lemma GCTR_cons Nk key CB a l : length a = 16%nat ->
  GCTR Nk key CB (a ++ l) = xor_bytes a (CIPH Nk key CB) ++ GCTR Nk key (inc32 CB) l.
Proof. intros Ha. unfold GCTR. now rewrite pieces16_cons. Qed.
Lemma GCTR_short Nk key CB l : (0 < length l <= 16)%nat -> GCTR Nk key CB l = xor_bytes l (CIPH Nk key CB).
Proof. intros Ha. unfold GCTR. rewrite pieces16_short by assumption. cbn [gctr]. apply app_nil_r. Qed.
Lemma GCTR_length bs key CB l : is_bytes key -> length key = (4 * bs_nk bs)%nat ->
  length (GCTR (bs_nk bs) key CB l) = length l.
Proof.
  intros Hk Hl. revert CB. induction l as [|l H|a l Ha IH] using blocks_ind; intros CB; [reflexivity| |].
  - rewrite GCTR_short by lia. apply xor_bytes_length. destruct (CIPH_block bs key CB Hk Hl) as (_ & _ & ->). lia.
  - rewrite GCTR_cons, !app_length, IH, xor_bytes_length by
      (try assumption; destruct (CIPH_block bs key CB Hk Hl) as (_ & _ & ->); lia). reflexivity.
Qed.
Lemma GCTR_bytes bs key CB l : is_bytes key -> length key = (4 * bs_nk bs)%nat -> is_bytes l ->
  is_bytes (GCTR (bs_nk bs) key CB l).
Proof.
  intros Hk Hl. revert CB. induction l as [|l H|a l Ha IH] using blocks_ind; intros CB Hb; [constructor| |].
  - rewrite GCTR_short by lia. apply xor_bytes_bytes; [assumption|]. apply (CIPH_block bs key CB Hk Hl).
  - apply is_bytes_app in Hb. destruct Hb. rewrite GCTR_cons by assumption. apply is_bytes_app. split; [|now apply IH].
    apply xor_bytes_bytes; [assumption|]. apply (CIPH_block bs key CB Hk Hl).
Qed.
Lemma GCTR_twice bs key CB l : is_bytes key -> length key = (4 * bs_nk bs)%nat ->
  GCTR (bs_nk bs) key CB (GCTR (bs_nk bs) key CB l) = l.
Proof.
  intros Hk Hl. revert CB. induction l as [|l H|a l Ha IH] using blocks_ind; intros CB; [reflexivity| |].
  - destruct (CIPH_block bs key CB Hk Hl) as (_ & _ & LC).
    rewrite (GCTR_short _ _ _ l) by lia. rewrite GCTR_short by (rewrite xor_bytes_length; lia).
    apply xor_bytes_twice. lia.
  - destruct (CIPH_block bs key CB Hk Hl) as (_ & _ & LC).
    rewrite (GCTR_cons _ _ _ a) by assumption. rewrite GCTR_cons by (rewrite xor_bytes_length; lia).
    rewrite IH, xor_bytes_twice by lia. reflexivity.
Qed.

Lemma gcm_blocks_cons {E} ek bs Y0 H iv96 enc s c r :
  gcm_blocks (E:=E) ek bs Y0 H iv96 enc s (c :: r)
  = bind (gcm_block ek bs Y0 H iv96 enc s c) (fun s' => gcm_blocks ek bs Y0 H iv96 enc s' r).
Proof. reflexivity. Qed.
Lemma gcm_blocks_nil {E} ek bs Y0 H iv96 enc s : gcm_blocks (E:=E) ek bs Y0 H iv96 enc s [] = Ok s.
Proof. reflexivity. Qed.

(* number of blocks *)
Definition nblocks (l : list Z) : Z := zlen (pieces (length l) 16 l).
(* the counter block c steps after Y0 is what the code computes, for the next n steps *)
Definition ctr_ok {E} (iv96 : bool) (Y0 c CB n : Z) : Prop :=
  forall i, 0 <= i < n ->
  (if iv96 then Ok (Z.lor (Z.land Y0 (2 ^ 128 - 1 - 0xFFFFFFFF)) ((c + i + 1) mod 0x100000000))
   else if Y0 + (c + i + 1) mod 0x100000000 <? 2 ^ 128 then Ok (Y0 + (c + i + 1) mod 0x100000000) else Panic)
  = Ok (E:=E) (Nat.iter (S (Z.to_nat i)) inc32 CB).
Local Opaque gcm_block.
Lemma gcm_blocks_spec {E} key bs Y0 H (iv96 enc : bool) : is_bytes key -> length key = (4 * bs_nk bs)%nat ->
  word128 H -> forall data c X out CB, is_bytes data -> word128 X -> 0 <= c < 2^32 ->
  ctr_ok (E:=E) iv96 Y0 c CB (nblocks data) ->
  let C := GCTR (bs_nk bs) key (inc32 CB) data in
  exists c', gcm_blocks (E:=E) (expanded_key key bs) bs Y0 H iv96 enc (c, X, out) (pieces (length data) 16 data)
  = Ok (c', gh H X (map to_u128_be (pieces (length (if enc then C else data)) 16 (if enc then C else data))), out ++ C).
Proof.
  intros Hk Hl HH data.
  assert (Hstep : forall X t, word128 X -> is_bytes t ->
    gmult (Z.lxor X (to_u128_be t)) H = block_mul (Z.lxor X (to_u128_be t)) H
    /\ word128 (gmult (Z.lxor X (to_u128_be t)) H)).
  { intros X t HX Ht. assert (word128 (Z.lxor X (to_u128_be t))) as W by (apply lxor_bound; [lia|exact HX|now apply to_u128_be_range]).
    split; [now apply gmult_is_block_mul|]. apply gmult_range; [apply W|apply HH]. }
  induction data as [|l Hn|a l Ha IH] using blocks_ind; intros c X out CB Hb HX Hc HC.
  - exists c. destruct enc; rewrite app_nil_r; reflexivity.
  - unfold nblocks, zlen in HC. rewrite pieces16_short in HC by lia. specialize (HC 0 ltac:(cbn; lia)).
    rewrite Z.add_0_r in HC. change (Nat.iter (S (Z.to_nat 0)) inc32 CB) with (inc32 CB) in HC.
    destruct (gcm_block_spec (E:=E) key bs Y0 H iv96 enc c X out l (inc32 CB) Hk Hl Hb ltac:(lia) HC) as (S1 & S2 & S3).
    eexists. rewrite (pieces16_short l), gcm_blocks_cons by lia. rewrite S1, bind_Ok, gcm_blocks_nil.
    rewrite GCTR_short by lia. f_equal. f_equal. f_equal. rewrite pieces16_short by (destruct enc; lia).
    cbn [map]. unfold gh. rewrite fold_cons, fold_nil. apply Hstep; [assumption|]. destruct enc; assumption.
  - apply is_bytes_app in Hb. destruct Hb as [Ba Bl].
    unfold nblocks, zlen in HC. rewrite pieces16_cons in HC by assumption. cbn [length] in HC. rewrite Nat2Z.inj_succ in HC.
    pose proof (HC 0 ltac:(lia)) as HC0.
    rewrite Z.add_0_r in HC0. change (Nat.iter (S (Z.to_nat 0)) inc32 CB) with (inc32 CB) in HC0.
    destruct (gcm_block_spec (E:=E) key bs Y0 H iv96 enc c X out a (inc32 CB) Hk Hl Ba ltac:(lia) HC0) as (S1 & S2 & S3).
    rewrite (pieces16_cons a), gcm_blocks_cons, S1, bind_Ok by assumption.
    rewrite GCTR_cons by assumption. set (q := xor_bytes a (CIPH (bs_nk bs) key (inc32 CB))) in *.
    assert (is_bytes (if enc then q else a)) as Bt by (destruct enc; assumption).
    destruct (Hstep X _ HX Bt) as [G1 G2].
    destruct (IH ((c + 1) mod 0x100000000) _ (out ++ q) (inc32 CB) Bl G2) as (c' & Ec).
    + change 0x100000000 with (2^32). lia.
    + intros i Hi. specialize (HC (i + 1) ltac:(unfold nblocks, zlen in Hi; lia)).
      replace (Z.to_nat (i + 1)) with (S (Z.to_nat i)) in HC by lia. rewrite iter_succ_r in HC.
      replace (((c + 1) mod 0x100000000 + i + 1) mod 0x100000000) with ((c + (i + 1) + 1) mod 0x100000000); [exact HC|].
      rewrite <- !Z.add_assoc. rewrite (Z.add_mod_idemp_l (c + 1)) by lia. f_equal. lia.
    + exists c'. rewrite Ec, <- app_assoc. f_equal. f_equal. f_equal.
      set (G := GCTR (bs_nk bs) key (inc32 (inc32 CB)) l).
      destruct enc.
      * rewrite (pieces16_cons q) by lia. cbn [map]. unfold gh. rewrite fold_cons. now rewrite G1.
      * rewrite (pieces16_cons a) by lia. cbn [map]. unfold gh. rewrite fold_cons. now rewrite G1.
Qed.

(* ---- the whole mode ---- *)
Definition nk_of (key : list Z) : nat := Nat.div (length key) 4.
Lemma blocksize_of key : (length key = 16 \/ length key = 24 \/ length key = 32)%nat ->
  exists bs, blocksize_new (zlen key * 8) = Some bs /\ length key = (4 * bs_nk bs)%nat /\ bs_nk bs = nk_of key.
Proof.
  unfold zlen, nk_of. intros [-> | [-> | ->]]; [exists B128|exists B192|exists B256]; repeat split; reflexivity.
Qed.
Lemma subkey_eq bs key : is_bytes key -> length key = (4 * bs_nk bs)%nat ->
  to_u128_be (aes_encrypt (expanded_key key bs) bs (repeat 0 16)) = hash_subkey (bs_nk bs) key
  /\ word128 (hash_subkey (bs_nk bs) key).
Proof.
  intros Hk Hl. destruct (CIPH_block bs key 0 Hk Hl) as (E & B & L).
  assert (u128_to_bytes_be 0 = repeat 0 16) as U by (rewrite u128_to_bytes_be_enc; reflexivity).
  rewrite U in E. rewrite E, to_u128_be_16 by assumption. split; [reflexivity|].
  unfold hash_subkey, word128. rewrite <- to_u128_be_16 by assumption. now apply to_u128_be_range.
Qed.
Lemma be_val_enc_small k v : 0 <= v < 256 ^ Z.of_nat k -> be_val (be_enc k v) = v.
Proof. intros. rewrite be_val_enc. now apply Z.mod_small. Qed.
Lemma len_block a b : 0 <= a < 2^64 -> 0 <= b < 2^64 ->
  Z.lor (Z.shiftl a 64) b = be_val (be_enc 8 a ++ be_enc 8 b).
Proof.
  intros Ha Hb. rewrite lor_shiftl_add, be_val_app, !be_val_enc_small by (exact Ha || exact Hb || lia).
  unfold zlen. now rewrite be_enc_length.
Qed.
Lemma J0_96 Nk key iv : is_bytes iv -> length iv = 12%nat -> Z.lor (to_u128_be iv) 1 = J0 Nk key iv /\ word128 (J0 Nk key iv).
Proof.
  intros Hb Hl. unfold J0. rewrite Hl. change (Nat.eqb 12 12) with true. cbv iota.
  rewrite to_u128_be_short, Hl by (assumption || lia). change (16 - 12)%nat with 4%nat.
  rewrite !be_val_app. unfold zlen. rewrite repeat_length. cbn [length]. change (256 ^ Z.of_nat 4) with (2^32).
  rewrite be_val_repeat0, Z.add_0_r. change (be_val [0; 0; 0; 1]) with 1. split; [apply lor_mul_add; lia|].
  pose proof (be_val_range iv Hb) as R. unfold zlen in R. rewrite Hl in R. change (256 ^ Z.of_nat 12) with (2^96) in R.
  unfold word128. lia.
Qed.
Lemma J0_other bs key iv : is_bytes key -> length key = (4 * bs_nk bs)%nat -> is_bytes iv -> length iv <> 12%nat -> zlen iv < 2^61 ->
  let H := hash_subkey (bs_nk bs) key in
  gmult (Z.lxor (absorb H 0 iv) (zlen iv * 8)) H = J0 (bs_nk bs) key iv /\ word128 (J0 (bs_nk bs) key iv).
Proof.
  intros Hk Hlk Hb Hl Hs H. destruct (subkey_eq bs key Hk Hlk) as [_ WH]. fold H in WH.
  unfold J0. destruct (Nat.eqb_spec (length iv) 12); [contradiction|].
  assert (word128 0) as W0 by (unfold word128; lia).
  rewrite absorb_gh by assumption. unfold GHASH. fold H.
  rewrite blocks_app by apply pad16_length.
  assert (blocks (repeat 0 8 ++ be_enc 8 (8 * Z.of_nat (length iv))) = [zlen iv * 8]) as ->.
  { unfold blocks. rewrite pieces16_short by (rewrite app_length, be_enc_length; cbn; lia). cbn [map].
    rewrite be_val_app, be_val_repeat0, be_val_enc_small. - f_equal. unfold zlen. lia.
    - unfold zlen in Hs. change (256 ^ Z.of_nat 8) with (2^64). lia. }
  fold (gh H 0 (blocks (pad16 iv) ++ [zlen iv * 8])). rewrite gh_app. unfold gh at 2. rewrite fold_cons, fold_nil.
  assert (Forall word128 (blocks (pad16 iv))) as WB by (rewrite blocks_pad by assumption; now apply pieces_words).
  assert (word128 (zlen iv * 8)) as WL by (unfold word128, zlen in *; lia).
  assert (word128 (Z.lxor (gh H 0 (blocks (pad16 iv))) (zlen iv * 8))) as W
    by (apply lxor_bound; [lia|now apply gh_range|exact WL]).
  unfold gh at 3. rewrite fold_cons, fold_nil. 
  rewrite gmult_is_block_mul by assumption. split; [reflexivity|].
  rewrite <- gmult_is_block_mul by assumption. apply gmult_range; [apply W|apply WH].
Qed.
Local Opaque gmult block_mul absorb gcm_blocks GCTR hash_subkey J0.

Lemma gcm_spec {E} key iv data aad (enc : bool) :
  is_bytes key -> (length key = 16 \/ length key = 24 \/ length key = 32)%nat ->
  is_bytes iv -> is_bytes data -> is_bytes aad -> zlen iv < 2^61 -> zlen data < 2^61 -> zlen aad < 2^61 ->
  ctr_ok (E:=E) (zlen iv * 8 =? 96) (J0 (nk_of key) key iv) (if zlen iv * 8 =? 96 then 1 else 0) (J0 (nk_of key) key iv) (nblocks data) ->
  let C := GCTR (nk_of key) key (inc32 (J0 (nk_of key) key iv)) data in
  gcm (E:=E) key iv data aad enc = Ok (C, tag (nk_of key) key iv (if enc then C else data) aad).
Proof.
  intros Hk Lk Hiv Hd Ha Siv Sd Sa HC C. unfold gcm.
  destruct (blocksize_of key Lk) as (bs & -> & Hl & Nk). cbn [unwrap]. rewrite bind_Ok.
  destruct (subkey_eq bs key Hk Hl) as [-> WH]. rewrite Nk in WH |- *.
  set (H := hash_subkey (nk_of key) key) in *.
  assert ((if zlen iv * 8 =? 96 then Z.lor (to_u128_be iv) 1
           else gmult (Z.lxor (absorb H 0 iv) (zlen iv * 8)) H) = J0 (nk_of key) key iv
          /\ word128 (J0 (nk_of key) key iv)) as [-> WJ].
  { destruct (Z.eqb_spec (zlen iv * 8) 96) as [e|e]; unfold zlen in e.
    - apply J0_96; [assumption|lia].
    - pose proof (J0_other bs key iv Hk Hl Hiv ltac:(lia) Siv) as J. rewrite Nk in J. exact J. }
  set (J := J0 (nk_of key) key iv) in *.
  destruct (CIPH_block bs key J Hk Hl) as (-> & BC & LC). rewrite Nk in BC, LC |- *.
  rewrite chunks16_pieces. assert (word128 0) as W0 by (unfold word128; lia).
  assert (Forall word128 (blocks (pad16 aad))) as WA by (rewrite blocks_pad by assumption; now apply pieces_words).
  rewrite absorb_gh by assumption.
  pose proof (gcm_blocks_spec (E:=E) key bs J H (zlen iv * 8 =? 96) enc Hk Hl WH data
    (if zlen iv * 8 =? 96 then 1 else 0) (gh H 0 (blocks (pad16 aad))) [] J Hd (gh_range _ _ _ WH W0 WA)
    ltac:(destruct (zlen iv * 8 =? 96); lia) HC) as G.
  rewrite Nk in G. fold C in G. cbv zeta in G. destruct G as (c' & ->). rewrite bind_Ok. cbn [app].
  set (T := if enc then C else data).
  assert (is_bytes C) as HCb by (unfold C; rewrite <- Nk; now apply GCTR_bytes).
  assert (length C = length data) as HCl by (unfold C; rewrite <- Nk; now apply GCTR_length).
  assert (is_bytes T) as HT by (unfold T; destruct enc; assumption).
  assert (length T = length data) as HTl by (unfold T; destruct enc; [assumption|reflexivity]).
  f_equal. f_equal. unfold tag. fold H. fold J.
  unfold zlen in Sd, Sa.
  rewrite len_block by (unfold zlen; lia).
  unfold GHASH. rewrite blocks_app by apply pad16_length. rewrite (blocks_app (pad16 T)) by apply pad16_length.
  set (LB := be_enc 8 (8 * Z.of_nat (length aad)) ++ be_enc 8 (8 * Z.of_nat (length T))).
  assert (blocks LB = [be_val LB]) as ->.
  { unfold blocks. rewrite pieces16_short; [reflexivity|]. unfold LB. rewrite app_length, !be_enc_length. lia. }
  replace (be_enc 8 (zlen aad * 8) ++ be_enc 8 (zlen data * 8)) with LB
    by (unfold LB, zlen; rewrite HTl; f_equal; f_equal; lia).
  match goal with |- context [fold_left ?f ?l ?a] => change (fold_left f l a) with (gh H 0 l) end.
  rewrite !gh_app. rewrite (blocks_pad T HT).
  assert (Forall word128 (map to_u128_be (pieces (length T) 16 T))) as WT by now apply pieces_words.
  pose proof (gh_range H _ _ WH (gh_range H 0 _ WH W0 WA) WT) as WG.
  set (G := gh H (gh H 0 (blocks (pad16 aad))) (map to_u128_be (pieces (length T) 16 T))) in *.
  assert (word128 (be_val LB)) as WL.
  { unfold word128. rewrite <- to_u128_be_16; [apply to_u128_be_range| |];
      unfold LB; try (apply is_bytes_app; split; apply be_enc_bytes). rewrite app_length, !be_enc_length. reflexivity. }
  assert (word128 (Z.lxor G (be_val LB))) as W by (apply lxor_bound; [lia|exact WG|exact WL]).
  unfold gh. rewrite fold_cons, fold_nil. rewrite <- gmult_is_block_mul by assumption.
  assert (word128 (gmult (Z.lxor G (be_val LB)) H)) as WS by (apply gmult_range; [apply W|apply WH]).
  set (S := gmult (Z.lxor G (be_val LB)) H) in *. clearbody S.
  rewrite GCTR_short by (rewrite be_enc_length; lia).
  rewrite u128_to_bytes_be_enc, to_u128_be_16 by assumption.
  rewrite <- (be_enc_val (xor_bytes (be_enc 16 S) (CIPH (nk_of key) key J))).
  2:{ apply xor_bytes_bytes; [apply be_enc_bytes|assumption]. }
  rewrite xor_bytes_length, be_val_xor, be_enc_length, be_val_enc_small;
    [|exact WS|apply be_enc_bytes|assumption|now rewrite be_enc_length|rewrite be_enc_length; lia].
  now rewrite Z.lxor_comm.
Qed.

(* the counters of both nonce kinds *)
Lemma inc32_iter h c n : 0 <= c < 2^32 -> Nat.iter n inc32 (h * 2^32 + c) = h * 2^32 + (c + Z.of_nat n) mod 2^32.
Proof.
  intros Hc. induction n as [|n IH].
  - cbn [Nat.iter nat_rect]. rewrite Z.add_0_r, Z.mod_small by lia. reflexivity.
  - cbn [Nat.iter nat_rect]. change (inc32 (Nat.iter n inc32 (h * 2 ^ 32 + c)) = h * 2 ^ 32 + (c + Z.of_nat (Datatypes.S n)) mod 2 ^ 32).
    rewrite IH, inc32_split by (apply Z.mod_pos_bound; lia). rewrite Z.add_mod_idemp_l by lia.
    f_equal. f_equal. lia.
Qed.
Lemma ctr_ok_96 {E} key iv n : is_bytes iv -> length iv = 12%nat ->
  ctr_ok (E:=E) true (J0 (nk_of key) key iv) 1 (J0 (nk_of key) key iv) n.
Proof.
  intros Hb Hl i Hi. destruct (J0_96 (nk_of key) key iv Hb Hl) as [EJ WJ]. f_equal.
  change 0x100000000 with (2^32). rewrite yi96 by (assumption || lia).
  assert (J0 (nk_of key) key iv = be_val iv * 2^32 + 1) as J.
  { rewrite <- EJ, to_u128_be_short, Hl, be_val_app, be_val_repeat0, Z.add_0_r by (assumption || lia).
    unfold zlen. rewrite repeat_length. change (256 ^ Z.of_nat (16 - 12)) with (2^32). apply lor_mul_add; lia. }
  rewrite J, inc32_iter by lia. rewrite Z.div_add_l, (Z.div_small 1), Z.add_0_r by lia.
  f_equal. f_equal. lia.
Qed.
Lemma ctr_ok_other {E} key iv n : word128 (J0 (nk_of key) key iv) ->
  (J0 (nk_of key) key iv) mod 2^32 + n < 2^32 ->
  ctr_ok (E:=E) false (J0 (nk_of key) key iv) 0 (J0 (nk_of key) key iv) n.
Proof.
  intros WJ HJ i Hi. set (J := J0 (nk_of key) key iv) in *. cbv iota. change 0x100000000 with (2^32).
  pose proof (Z.div_mod J (2^32) ltac:(lia)) as D. pose proof (Z.mod_pos_bound J (2^32) ltac:(lia)) as M.
  rewrite (Z.mod_small (0 + i + 1)) by lia.
  assert (J / 2^32 < 2^96) by (apply Z.div_lt_upper_bound; unfold word128 in WJ; lia).
  destruct (Z.ltb_spec (J + (0 + i + 1)) (2^128)); [|lia]. f_equal.
  replace (Nat.iter (Datatypes.S (Z.to_nat i)) inc32 J) with (Nat.iter (Datatypes.S (Z.to_nat i)) inc32 (J / 2^32 * 2^32 + J mod 2^32)) by (f_equal; lia).
  rewrite inc32_iter by assumption. rewrite Z.mod_small by lia. lia.
Qed.

Definition right_sizes (key iv aad : list Z) : Prop :=
  is_bytes key /\ (length key = 16 \/ length key = 24 \/ length key = 32)%nat /\
  is_bytes iv /\ is_bytes aad /\ zlen iv < 2^61 /\ zlen aad < 2^61.

Lemma gcm96 key iv data aad (enc : bool) :
  is_bytes key -> (length key = 16 \/ length key = 24 \/ length key = 32)%nat ->
  is_bytes iv -> length iv = 12%nat -> is_bytes data -> is_bytes aad -> zlen data < 2^61 -> zlen aad < 2^61 ->
  let C := GCTR (nk_of key) key (inc32 (J0 (nk_of key) key iv)) data in
  gcm (E:=tls_error) key iv data aad enc = Ok (C, tag (nk_of key) key iv (if enc then C else data) aad).
Proof.
  intros Hk Lk Hiv Liv Hd Ha Sd Sa. assert (zlen iv * 8 =? 96 = true) as E96 by (unfold zlen; rewrite Liv; reflexivity).
  apply gcm_spec; try assumption; [unfold zlen; rewrite Liv; lia|]. rewrite E96. now apply ctr_ok_96.
Qed.
Lemma gcm_encrypt_spec key iv P aad :
  is_bytes key -> (length key = 16 \/ length key = 24 \/ length key = 32)%nat ->
  is_bytes iv -> length iv = 12%nat -> is_bytes P -> is_bytes aad -> zlen P < 2^61 -> zlen aad < 2^61 ->
  gcm_encrypt key iv P aad = Ok (GCM_AE (nk_of key) key iv P aad).
Proof. intros. unfold gcm_encrypt. now rewrite gcm96. Qed.
Lemma gcm_decrypt_spec key iv C aad T :
  is_bytes key -> (length key = 16 \/ length key = 24 \/ length key = 32)%nat ->
  is_bytes iv -> length iv = 12%nat -> is_bytes C -> is_bytes aad -> zlen C < 2^61 -> zlen aad < 2^61 ->
  gcm_decrypt key iv C aad T = match GCM_AD (nk_of key) key iv C aad T with Some P => Ok P | None => Err BadRecordMac end.
Proof.
  intros. unfold gcm_decrypt, GCM_AD. rewrite gcm96, bind_Ok by assumption.
  destruct (list_eq_dec Z.eq_dec T (tag (nk_of key) key iv C aad)) as [->|N].
  - now rewrite list_eqb_refl.
  - destruct (list_eqb _ T) eqn:Q; [|reflexivity]. apply list_eqb_spec in Q. now subst.
Qed.
Lemma gcm_round_trip key iv P aad C T :
  is_bytes key -> (length key = 16 \/ length key = 24 \/ length key = 32)%nat ->
  is_bytes iv -> length iv = 12%nat -> is_bytes P -> is_bytes aad -> zlen P < 2^61 -> zlen aad < 2^61 ->
  gcm_encrypt key iv P aad = Ok (C, T) -> length C = length P /\ length T = 16%nat /\ gcm_decrypt key iv C aad T = Ok P.
Proof.
  intros Hk Lk Hiv Liv HP Ha SP Sa. rewrite gcm_encrypt_spec by assumption. unfold GCM_AE. intros [= <- <-].
  destruct (blocksize_of key Lk) as (bs & _ & Hl & Nk).
  set (C := GCTR (nk_of key) key (inc32 (J0 (nk_of key) key iv)) P).
  assert (length C = length P) as LC by (unfold C; rewrite <- Nk; now apply GCTR_length).
  split; [assumption|]. split.
  - unfold tag. rewrite <- Nk. rewrite GCTR_length by assumption. apply be_enc_length.
  - rewrite gcm_decrypt_spec; try assumption.
    + unfold GCM_AD. destruct (list_eq_dec Z.eq_dec _ _) as [_|N]; [|now destruct N].
      f_equal. unfold C. rewrite <- Nk. now apply GCTR_twice.
    + unfold C. rewrite <- Nk. now apply GCTR_bytes.
    + unfold zlen. now rewrite LC.
Qed.
Lemma gcm_other_spec key iv P aad :
  is_bytes key -> (length key = 16 \/ length key = 24 \/ length key = 32)%nat ->
  is_bytes iv -> length iv <> 12%nat -> is_bytes P -> is_bytes aad -> zlen iv < 2^61 -> zlen P < 2^61 -> zlen aad < 2^61 ->
  (J0 (nk_of key) key iv) mod 2^32 + (zlen P + 15) / 16 < 2^32 ->
  gcm_encrypt key iv P aad = Ok (GCM_AE (nk_of key) key iv P aad).
Proof.
  intros Hk Lk Hiv Liv HP Ha Siv SP Sa HJ. unfold gcm_encrypt.
  destruct (blocksize_of key Lk) as (bs & _ & Hl & Nk).
  assert (zlen iv * 8 =? 96 = false) as E96 by (apply Z.eqb_neq; unfold zlen; lia).
  rewrite gcm_spec; try assumption; [reflexivity|]. rewrite E96. apply ctr_ok_other.
  - rewrite <- Nk. now apply J0_other.
  - assert (nblocks P = (zlen P + 15) / 16); [|lia]. clear. unfold nblocks.
    induction P as [|l H|a l Ha IH] using blocks_ind; [reflexivity| |].
    + rewrite pieces16_short by lia. unfold zlen. cbn [length]. lia.
    + rewrite pieces16_cons by assumption. unfold zlen in *. cbn [length]. rewrite app_length. lia.
Qed.

Local Transparent reverse_bits aes_encrypt expanded_key gmult absorb gcm_blocks gcm_block to_u128_be u128_to_bytes_be.
Definition wrap_iv : list Z := [0x50;0x52;0x92;0x59;0x83;0x34;0x48;0xf2;0x77;0x37;0x3f;0x1e;0xc8;0x5c;0x48;0x91].
Lemma gcm_other_panic : gcm_encrypt (repeat 0 16) wrap_iv (repeat 0 16) [] = Panic.
Proof. vm_compute. reflexivity. Qed.
