From Coq Require Import Btauto.
From Verif Require Import Proofs.Util Model.Aes Spec.Gf2 Spec.Fips197 Proofs.Gf2.

(* ---- the byte field ---- *)
Lemma land_1_odd b : negb (Z.land b 1 =? 0) = Z.odd b.
Proof.
  change 1 with (2^1 - 1) at 1. rewrite land_mask by lia. change (2^1) with 2. rewrite Zmod_odd.
  now destruct (Z.odd b).
Qed.
Lemma land_pow_testbit a j : 0 <= j -> negb (Z.land a (2^j) =? 0) = Z.testbit a j.
Proof.
  intros Hj. destruct (Z.testbit a j) eqn:E.
  - destruct (Z.eqb_spec (Z.land a (2^j)) 0) as [H|H]; [|reflexivity].
    apply (f_equal (fun x => Z.testbit x j)) in H.
    rewrite Z.land_spec, E, Z.pow2_bits_true, Z.bits_0 in H by assumption. discriminate.
  - replace (Z.land a (2^j)) with 0; [reflexivity|]. symmetry. apply Z.bits_inj'. intros n Hn.
    rewrite Z.land_spec, Z.bits_0. destruct (Z.eq_dec n j) as [->|Hne]; [now rewrite E|].
    rewrite Z.pow2_bits_false by lia. apply andb_false_r.
Qed.
Lemma m8_range : 2^8 <= m8 < 2^(8+1).
Proof. unfold m8. lia. Qed.

Lemma gmult8_step_peasant a b p : gmult8_step (a, b, p) = peasant 8 m8 (a, b, p) \/ ~ (0 <= a < 2^8).
Proof.
  destruct (Z_le_dec 0 a); [destruct (Z_lt_dec a (2^8))|]; [left|right; lia|right; lia].
  unfold gmult8_step, peasant, xtime. rewrite land_1_odd. change 128 with (2^7). rewrite land_pow_testbit by lia.
  change (8 - 1) with 7. rewrite Z.shiftl_mul_pow2, Z.shiftr_div_pow2 by lia. change (2^1) with 2.
  unfold u8. rewrite (Z.mul_comm a 2). change (m8 - 2^8) with 0x1b.
  destruct (Z.testbit a 7) eqn:T; [reflexivity|].
  f_equal. f_equal. apply Z.mod_small.
  assert (a < 128); [|lia]. destruct (Z.lt_ge_cases a 128); [assumption|].
  assert (Z.testbit a 7 = true); [|congruence].
  replace a with (1 * 2^7 + (a - 128)) by lia. rewrite <- lor_mul_add by lia.
  rewrite Z.lor_spec. reflexivity.
Qed.
Lemma peasant_range a b p : 0 <= a < 2^8 -> exists a' b' p', peasant 8 m8 (a, b, p) = (a', b', p') /\ 0 <= a' < 2^8.
Proof.
  intros Ha. unfold peasant. do 3 eexists. split; [reflexivity|].
  exact (proj1 (xtime_rem 8 m8 ltac:(lia) m8_range a ltac:(lia) Ha)).
Qed.
Lemma gmult8_iter n a b p : 0 <= a < 2^8 ->
  Nat.iter n gmult8_step (a, b, p) = Nat.iter n (peasant 8 m8) (a, b, p).
Proof.
  revert a b p. induction n as [|n IH]; intros a b p Ha; [reflexivity|].
  rewrite !iter_succ_r. destruct (gmult8_step_peasant a b p) as [->|]; [|lia].
  destruct (peasant_range a b p Ha) as (a' & b' & p' & -> & Ha'). now apply IH.
Qed.
Lemma gmult8_spec a b : is_byte a -> is_byte b -> gmult8 a b = mul8 a b.
Proof.
  intros Ha Hb. unfold gmult8. rewrite gmult8_iter by exact Ha.
  pose proof (peasant_spec 8 m8 ltac:(lia) m8_range 8 a b 0 ltac:(lia) Ha Hb) as P.
  destruct (Nat.iter 8 (peasant 8 m8) (a, b, 0)) as [[x y] z]. cbn [snd] in P. now rewrite P, Z.lxor_0_l.
Qed.
Lemma mul8_byte a b : is_byte a -> is_byte (mul8 a b).
Proof. intros Ha. apply (gf_mul_range 8 m8 ltac:(lia) m8_range). unfold is_byte in Ha. lia. Qed.

(* ---- S-box ---- *)
Lemma sbox_spec b : is_byte b -> lookup SBOX b = Sbox b.
Proof.
  intros H.
  assert (P : forallb (fun b => lookup SBOX b =? Sbox b) (zrange 256) = true) by (vm_compute; reflexivity).
  pose proof (forallb_zrange _ _ P b H) as Q. now apply Z.eqb_eq in Q.
Qed.
Lemma sbox_inv b : is_byte b -> lookup INV_SBOX (lookup SBOX b) = b.
Proof.
  intros H.
  assert (P : forallb (fun b => lookup INV_SBOX (lookup SBOX b) =? b) (zrange 256) = true) by (vm_compute; reflexivity).
  pose proof (forallb_zrange _ _ P b H) as Q. now apply Z.eqb_eq in Q.
Qed.
Lemma sbox_byte b : is_byte b -> is_byte (lookup SBOX b).
Proof.
  intros H.
  assert (P : forallb (fun b => (0 <=? lookup SBOX b) && (lookup SBOX b <? 256)) (zrange 256) = true) by (vm_compute; reflexivity).
  pose proof (forallb_zrange _ _ P b H) as Q. unfold is_byte. cbv beta in Q. lia.
Qed.
Lemma inverse8_spec b : is_byte b -> b <> 0 -> mul8 b (inverse8 b) = 1.
Proof.
  intros H Hn.
  assert (P : forallb (fun b => (b =? 0) || (mul8 b (inverse8 b) =? 1)) (zrange 256) = true) by (vm_compute; reflexivity).
  pose proof (forallb_zrange _ _ P b H) as Q. cbv beta in Q. apply orb_true_iff in Q.
  destruct Q as [Q|Q]; apply Z.eqb_eq in Q; congruence.
Qed.

(* ---- state ---- *)
Definition block (s : list Z) : Prop := is_bytes s /\ length s = 16%nat.
Ltac open_block H :=
  let Hb := fresh "Hb" in let Hl := fresh "Hl" in
  destruct H as [Hb Hl]; unfold is_bytes in Hb;
  match type of Hl with length ?s = _ =>
    do 16 (destruct s as [|? s]; [discriminate Hl|]); destruct s; [|discriminate Hl] end;
  clear Hl;
  repeat match goal with X : Forall _ (_ :: _) |- _ =>
    let A := fresh "B" in let C := fresh in inversion X as [|? ? A C]; clear X; subst end.

Lemma sub_bytes_spec s : is_bytes s -> sub_bytes s = SubBytes s.
Proof. intros H. apply map_ext_in. intros b Hb. apply sbox_spec. unfold is_bytes in H. rewrite Forall_forall in H. auto. Qed.
Lemma sub_bytes_block s : block s -> block (sub_bytes s).
Proof.
  intros [Hb Hl]. split; [|unfold sub_bytes; now rewrite map_length].
  apply Forall_map. eapply Forall_impl; [|exact Hb]. intros. now apply sbox_byte.
Qed.
Lemma inv_sub_bytes_spec s : is_bytes s -> inv_sub_bytes (sub_bytes s) = s.
Proof.
  intros H. unfold inv_sub_bytes, sub_bytes. rewrite map_map. rewrite <- (map_id s) at 2. apply map_ext_in.
  intros b Hb. apply sbox_inv. unfold is_bytes in H. rewrite Forall_forall in H. auto.
Qed.
Lemma shift_rows_spec s : length s = 16%nat -> shift_rows s = ShiftRows s.
Proof. intros Hl. do 16 (destruct s as [|? s]; [discriminate Hl|]). destruct s; [|discriminate Hl]. reflexivity. Qed.
Lemma inv_shift_rows_spec s : length s = 16%nat -> inv_shift_rows (shift_rows s) = s.
Proof. intros Hl. do 16 (destruct s as [|? s]; [discriminate Hl|]). destruct s; [|discriminate Hl]. reflexivity. Qed.
Lemma shift_rows_block s : block s -> block (shift_rows s).
Proof. intros H. open_block H. split; [|reflexivity]. cbn. unfold is_bytes. auto 20. Qed.

Lemma lxor_byte_list l : is_bytes l -> is_byte (fold_right Z.lxor 0 l).
Proof. intros H. induction H; cbn [fold_right]; [unfold is_byte; lia|now apply byte_lxor]. Qed.

Definition x4 a b c d := Z.lxor (Z.lxor (Z.lxor a b) c) d.
Definition mixcol (inv : bool) (r : nat) (a b c d : Z) : Z :=
  let m := fun j => get (mix_matrix inv) (r * 4 + j) in
  x4 (mul8 (m 0%nat) a) (mul8 (m 1%nat) b) (mul8 (m 2%nat) c) (mul8 (m 3%nat) d).
Definition mixcols (inv : bool) (a b c d : Z) : list Z := map (fun r => mixcol inv r a b c d) (seq 0 4).
Lemma matrix_byte inv i : is_byte (get (mix_matrix inv) i).
Proof.
  unfold get. destruct (Nat.lt_ge_cases i (length (mix_matrix inv))) as [H|H].
  - assert (is_bytes (mix_matrix inv)) as B by (destruct inv; repeat constructor; unfold is_byte; lia).
    unfold is_bytes in B. rewrite Forall_forall in B. apply B. now apply nth_In.
  - rewrite nth_overflow by assumption. unfold is_byte; lia.
Qed.
Local Opaque mix_matrix gmult8 mul8.
Lemma mix_columns_cols inv s : block s ->
  mix_columns inv s = flat_map (fun c => mixcols inv (get s (0 + 4 * c)) (get s (1 + 4 * c)) (get s (2 + 4 * c)) (get s (3 + 4 * c))) (seq 0 4).
Proof.
  intros H. unfold mix_columns. apply flat_map_ext. intros c. unfold mixcols. apply map_ext. intros r.
  cbn [seq fold_left].
  assert (forall i, is_byte (get s i)) as B.
  { intros i. destruct H as [Hb _]. unfold get. destruct (Nat.lt_ge_cases i (length s)).
    - unfold is_bytes in Hb. rewrite Forall_forall in Hb. apply Hb. now apply nth_In.
    - rewrite nth_overflow by assumption. unfold is_byte; lia. }
  rewrite !gmult8_spec by (auto using matrix_byte). rewrite Z.lxor_0_l. reflexivity.
Qed.
Lemma mixcol_byte inv r a b c d : is_byte (mixcol inv r a b c d).
Proof. unfold mixcol, x4. repeat apply byte_lxor; apply mul8_byte, matrix_byte. Qed.
Lemma mix_columns_block inv s : block s -> block (mix_columns inv s).
Proof.
  intros H. rewrite mix_columns_cols by assumption. split; [|reflexivity].
  apply Forall_flat_map, Forall_forall. intros c _. apply Forall_map, Forall_forall. intros r _. apply mixcol_byte.
Qed.
Local Transparent mix_matrix.
Lemma mix_columns_spec s : block s -> mix_columns false s = MixColumns s.
Proof.
  intros H. rewrite mix_columns_cols by assumption. open_block H.
  unfold MixColumns, from_rc, mixcols, mixcol, x4, at_rc, get, coeff, mix_matrix.
  cbn [seq map flat_map nth Nat.add Nat.mul Nat.modulo Nat.divmod Nat.sub fst snd app fold_right].
  rewrite !Z.lxor_0_r, !Z.lxor_assoc. reflexivity.
Qed.

Lemma transpose4 a1 b1 c1 d1 a2 b2 c2 d2 a3 b3 c3 d3 a4 b4 c4 d4 :
  x4 (x4 a1 b1 c1 d1) (x4 a2 b2 c2 d2) (x4 a3 b3 c3 d3) (x4 a4 b4 c4 d4)
  = x4 (x4 a1 a2 a3 a4) (x4 b1 b2 b3 b4) (x4 c1 c2 c3 c4) (x4 d1 d2 d3 d4).
Proof.
  unfold x4. apply Z.bits_inj'. intros n Hn. rewrite !Z.lxor_spec. 
  repeat match goal with |- context [Z.testbit ?x n] => generalize (Z.testbit x n); intro end.
  btauto.
Qed.
Local Transparent mul8.
Lemma mul8_x4_r n a b c d : is_byte n -> is_byte a -> is_byte b -> is_byte c -> is_byte d ->
  mul8 n (x4 a b c d) = x4 (mul8 n a) (mul8 n b) (mul8 n c) (mul8 n d).
Proof.
  intros Hn Ha Hb Hc Hd. unfold x4, mul8.
  assert (forall x, is_byte x -> 0 <= x) as P by (unfold is_byte; intros; lia).
  assert (forall x y, 0 <= x -> 0 <= y -> gf_mul m8 n (Z.lxor x y) = Z.lxor (gf_mul m8 n x) (gf_mul m8 n y)) as X.
  { intros. apply (gf_mul_xor_r 8 m8 ltac:(lia) m8_range); auto. }
  rewrite !X; auto using lxor_nonneg'.
Qed.
Lemma mul8_assoc a b c : is_byte a -> is_byte b -> is_byte c -> mul8 a (mul8 b c) = mul8 (mul8 a b) c.
Proof. unfold is_byte. intros. unfold mul8. symmetry. apply (gf_mul_assoc 8 m8 ltac:(lia) m8_range); lia. Qed.
Lemma mul8_x4_l a b c d x : is_byte a -> is_byte b -> is_byte c -> is_byte d ->
  x4 (mul8 a x) (mul8 b x) (mul8 c x) (mul8 d x) = mul8 (x4 a b c d) x.
Proof.
  intros Ha Hb Hc Hd. unfold x4, mul8.
  assert (forall x, is_byte x -> 0 <= x) as P by (unfold is_byte; intros; lia).
  assert (forall y z, 0 <= y -> 0 <= z -> gf_mul m8 (Z.lxor y z) x = Z.lxor (gf_mul m8 y x) (gf_mul m8 z x)) as X.
  { intros. apply (gf_mul_xor_l 8 m8 ltac:(lia) m8_range); auto. }
  rewrite !X; auto using lxor_nonneg'.
Qed.
(* entries of the product of the two matrices *)
Definition prod_entry (q i : nat) : Z :=
  x4 (mul8 (get (mix_matrix true) (q * 4 + 0)) (get (mix_matrix false) (0 * 4 + i)))
     (mul8 (get (mix_matrix true) (q * 4 + 1)) (get (mix_matrix false) (1 * 4 + i)))
     (mul8 (get (mix_matrix true) (q * 4 + 2)) (get (mix_matrix false) (2 * 4 + i)))
     (mul8 (get (mix_matrix true) (q * 4 + 3)) (get (mix_matrix false) (3 * 4 + i))).
Lemma prod_identity q i : (q < 4)%nat -> (i < 4)%nat -> prod_entry q i = if Nat.eqb q i then 1 else 0.
Proof.
  intros Hq Hi. do 4 (destruct q as [|q]; [do 4 (destruct i as [|i]; [vm_compute; reflexivity|]); lia|]). lia.
Qed.
Local Opaque mix_matrix mul8.
Lemma mixcol_inv q a b c d : is_byte a -> is_byte b -> is_byte c -> is_byte d ->
  mixcol true q (mixcol false 0 a b c d) (mixcol false 1 a b c d) (mixcol false 2 a b c d) (mixcol false 3 a b c d)
  = x4 (mul8 (prod_entry q 0) a) (mul8 (prod_entry q 1) b) (mul8 (prod_entry q 2) c) (mul8 (prod_entry q 3) d).
Proof.
  intros Ha Hb Hc Hd. unfold mixcol at 1. unfold mixcol.
  rewrite !mul8_x4_r by (auto using matrix_byte, mul8_byte).
  rewrite !mul8_assoc by (auto using matrix_byte).
  rewrite transpose4. unfold prod_entry.
  rewrite !mul8_x4_l by (auto using matrix_byte, mul8_byte). reflexivity.
Qed.
Local Transparent mul8.
Lemma mul8_1 a : is_byte a -> mul8 1 a = a.
Proof. intros. apply (gf_mul_1_l 8 m8 ltac:(lia) m8_range). exact H. Qed.
Lemma mul8_0 a : is_byte a -> mul8 0 a = 0.
Proof.
  unfold is_byte. intros. unfold mul8. rewrite (gf_mul_comm 8 m8 ltac:(lia) m8_range) by lia. apply (gf_mul_0_r m8).
Qed.
Local Opaque mul8.
Lemma mixcols_inv a b c d : is_byte a -> is_byte b -> is_byte c -> is_byte d ->
  mixcols true (mixcol false 0 a b c d) (mixcol false 1 a b c d) (mixcol false 2 a b c d) (mixcol false 3 a b c d)
  = [a; b; c; d].
Proof.
  intros Ha Hb Hc Hd. unfold mixcols. cbn [seq map]. rewrite !mixcol_inv by assumption.
  rewrite !prod_identity by lia. cbn [Nat.eqb].
  rewrite !mul8_1, !mul8_0 by assumption. unfold x4. rewrite ?Z.lxor_0_r, ?Z.lxor_0_l. reflexivity.
Qed.
Lemma mixcols_eq inv a b c d :
  mixcols inv a b c d = [mixcol inv 0 a b c d; mixcol inv 1 a b c d; mixcol inv 2 a b c d; mixcol inv 3 a b c d].
Proof. reflexivity. Qed.
Lemma mix_columns_inv s : block s -> mix_columns true (mix_columns false s) = s.
Proof.
  intros H. rewrite mix_columns_cols by now apply mix_columns_block.
  rewrite (mix_columns_cols false) by assumption. open_block H.
  cbn [seq flat_map get nth Nat.add Nat.mul]. rewrite !(mixcols_eq false). unfold get. cbn [app nth].
  rewrite !mixcols_inv by assumption. reflexivity.
Qed.

(* ---- round keys ---- *)
Definition words_ok (w : list (list Z)) : Prop := Forall (fun x => is_bytes x) w.
Lemma key_byte w i j : words_ok w -> is_byte (get (nth i w []) j).
Proof.
  intros H. assert (is_bytes (nth i w [])) as B.
  { unfold words_ok in H. rewrite Forall_forall in H. destruct (Nat.lt_ge_cases i (length w)).
    - apply H. now apply nth_In.
    - rewrite nth_overflow by assumption. constructor. }
  unfold get. destruct (Nat.lt_ge_cases j (length (nth i w []))).
  - unfold is_bytes in B. rewrite Forall_forall in B. apply B. now apply nth_In.
  - rewrite nth_overflow by assumption. unfold is_byte; lia.
Qed.
Lemma add_round_key_block w r s : words_ok w -> block s -> block (add_round_key w r s).
Proof.
  intros Hw [Hb Hl]. split; [|reflexivity]. unfold add_round_key.
  apply Forall_flat_map, Forall_forall. intros x _. apply Forall_map, Forall_forall. intros y _.
  apply byte_lxor; [|now apply key_byte].
  unfold get. destruct (Nat.lt_ge_cases (x * 4 + y) (length s)).
  - unfold is_bytes in Hb. rewrite Forall_forall in Hb. apply Hb. now apply nth_In.
  - rewrite nth_overflow by assumption. unfold is_byte; lia.
Qed.
Lemma add_round_key_twice w r s : length s = 16%nat -> add_round_key w r (add_round_key w r s) = s.
Proof.
  intros Hl. do 16 (destruct s as [|? s]; [discriminate Hl|]). destruct s; [|discriminate Hl].
  unfold add_round_key. cbn [seq flat_map map app get nth Nat.mul Nat.add]. rewrite !lxor_cancel. reflexivity.
Qed.
Lemma add_round_key_spec w r s : add_round_key w r s = AddRoundKey w r s.
Proof.
  unfold add_round_key, AddRoundKey, from_rc, at_rc, get. apply flat_map_ext. intros c. apply map_ext. intros y.
  rewrite (Nat.mul_comm c 4), (Nat.add_comm (4 * c) y), (Nat.mul_comm r 4). reflexivity.
Qed.

Lemma xor_bytes_ok a b : is_bytes a -> is_bytes b -> is_bytes (xor_bytes a b).
Proof.
  intros Ha Hb. apply Forall_map, Forall_forall. intros [x y] Hin. cbn [fst snd].
  unfold is_bytes in *. rewrite Forall_forall in Ha, Hb. apply byte_lxor;
  [eapply Ha, in_combine_l|eapply Hb, in_combine_r]; eassumption.
Qed.
Definition word4 (w : list Z) : Prop := is_bytes w /\ length w = 4%nat.
Definition words4 (w : list (list Z)) : Prop := Forall word4 w.
Lemma nth_word4 w i : words4 w -> (i < length w)%nat -> word4 (nth i w []).
Proof. intros H Hi. unfold words4 in H. rewrite Forall_forall in H. apply H. now apply nth_In. Qed.
Lemma xor_word4 a b : word4 a -> word4 b -> word4 (xor_bytes a b).
Proof.
  intros [Ba La] [Bb Lb]. split; [now apply xor_bytes_ok|]. unfold xor_bytes. rewrite map_length, combine_length. lia.
Qed.
Lemma sub_word4 a : word4 a -> word4 (sub_word a).
Proof.
  intros [B L]. split; [|unfold sub_word; now rewrite map_length]. apply Forall_map.
  eapply Forall_impl; [|exact B]. intros. now apply sbox_byte.
Qed.
Lemma sub_word_spec a : is_bytes a -> sub_word a = SubWord a.
Proof. intros H. apply map_ext_in. intros b Hb. apply sbox_spec. unfold is_bytes in H. rewrite Forall_forall in H. auto. Qed.
Lemma rot_word4 a : word4 a -> word4 (rot_word a).
Proof.
  intros [B L]. unfold rot_word. split; [|rewrite app_length, skipn_length, firstn_length; lia].
  apply is_bytes_app. split; [now apply is_bytes_skipn|now apply is_bytes_firstn].
Qed.
Lemma rcon_nth i : (i < 10)%nat -> nth i rcon 0 = hd 0 (Rcon (S i)).
Proof.
  intros H. do 10 (destruct i as [|i]; [vm_compute; reflexivity|]). lia.
Qed.
Lemma rcon_byte i : is_byte (nth i rcon 0).
Proof.
  destruct (Nat.lt_ge_cases i 10) as [H|H].
  - assert (is_bytes rcon) as B by (repeat constructor; unfold is_byte; lia).
    unfold is_bytes in B. rewrite Forall_forall in B. apply B. now apply nth_In.
  - rewrite nth_overflow by exact H. unfold is_byte; lia.
Qed.
Local Opaque rcon Rcon.
Lemma next_word_spec nk ws : words4 ws -> (1 <= nk <= length ws)%nat -> (length ws / nk <= 10)%nat ->
  next_word nk ws = expand_word nk ws /\ word4 (next_word nk ws).
Proof.
  intros Hw Hn Hq. unfold next_word, expand_word.
  set (i := length ws) in *.
  assert (word4 (nth (i - 1) ws [])) as T by (apply nth_word4; [assumption|unfold i in *; lia]).
  assert (word4 (nth (i - nk) ws [])) as P by (apply nth_word4; [assumption|unfold i in *; lia]).
  set (temp := nth (i - 1) ws []) in *. set (prev := nth (i - nk) ws []) in *. clearbody temp prev.
  destruct (Nat.eqb_spec (i mod nk) 0) as [M|M].
  - assert (1 <= i / nk)%nat as Q1 by (apply Nat.div_le_lower_bound; lia).
    pose proof (sub_word4 _ (rot_word4 _ T)) as S4.
    assert (sub_word (rot_word temp) = SubWord (RotWord temp)) as E.
    { rewrite sub_word_spec by apply (rot_word4 _ T). unfold rot_word, RotWord.
      destruct temp as [|t0 t]; reflexivity. }
    rewrite E in *.
    set (t := SubWord (RotWord temp)) in *. clearbody t. clear E.
    destruct t as [|t0 [|t1 [|t2 [|t3 [|]]]]]; destruct S4 as [Bt Lt]; try discriminate Lt.
    assert (xor_words [t0; t1; t2; t3] (Rcon (i / nk)) = Z.lxor t0 (nth (i / nk - 1) rcon 0) :: [t1; t2; t3]) as ->.
    { rewrite rcon_nth by lia. replace (S (i / nk - 1)) with (i / nk)%nat by lia.
      Local Transparent Rcon. unfold Rcon. unfold xor_words. cbn [combine map fst snd hd].
      rewrite !Z.lxor_0_r. reflexivity. }
    split; [reflexivity|]. apply xor_word4; [assumption|]. split; [|reflexivity].
    inversion Bt as [|? ? B0 Br]; subst. constructor; [apply byte_lxor; [assumption|apply rcon_byte]|exact Br].
  - destruct (Nat.ltb 6 nk && Nat.eqb (i mod nk) 4)%bool.
    + rewrite sub_word_spec by apply T. split; [reflexivity|]. rewrite <- sub_word_spec by apply T.
      apply xor_word4; [assumption|now apply sub_word4].
    + split; [reflexivity|]. now apply xor_word4.
Qed.
Lemma expand_iter nk n ws : words4 ws -> (1 <= nk <= length ws)%nat -> ((length ws + n - 1) / nk <= 10)%nat ->
  Nat.iter n (expand_step nk) ws = Nat.iter n (fun w => w ++ [expand_word nk w]) ws /\
  words4 (Nat.iter n (expand_step nk) ws).
Proof.
  revert ws. induction n as [|n IH]; intros ws Hw Hn Hq; [split; [reflexivity|assumption]|].
  rewrite !iter_succ_r. unfold expand_step at 2 4.
  assert (length ws / nk <= 10)%nat as Q0.
  { etransitivity; [|exact Hq]. apply Nat.div_le_mono; lia. }
  destruct (next_word_spec nk ws Hw Hn Q0) as [E W]. rewrite <- E.
  apply IH.
  - apply Forall_app. split; [assumption|]. constructor; [assumption|constructor].
  - rewrite app_length. cbn [length]. lia.
  - rewrite app_length. cbn [length]. replace (length ws + 1 + n - 1)%nat with (length ws + S n - 1)%nat by lia. exact Hq.
Qed.
Lemma key_words4 nk key : is_bytes key -> length key = (4 * nk)%nat -> words4 (key_words nk key) /\ length (key_words nk key) = nk.
Proof.
  intros Hb Hl. unfold key_words. split; [|now rewrite map_length, seq_length].
  apply Forall_map, Forall_forall. intros i Hi. apply in_seq in Hi. split.
  - now apply is_bytes_firstn, is_bytes_skipn.
  - rewrite firstn_length, skipn_length. lia.
Qed.
Lemma expanded_key_spec key b : is_bytes key -> length key = (4 * bs_nk b)%nat ->
  expanded_key key b = KeyExpansion (bs_nk b) (bs_nk b + 6) key /\ words4 (expanded_key key b).
Proof.
  intros Hb Hl. unfold expanded_key, KeyExpansion, bs_rounds.
  destruct (key_words4 (bs_nk b) key Hb Hl) as [W L].
  assert (key_words (bs_nk b) key = map (fun i => firstn 4 (skipn (4 * i) key)) (seq 0 (bs_nk b))) as E.
  { apply map_ext. intros i. now rewrite Nat.mul_comm. }
  rewrite <- E. apply expand_iter; [assumption|rewrite L; destruct b; cbn; lia|].
  rewrite L. destruct b; cbn; lia.
Qed.
Lemma words4_ok w : words4 w -> words_ok w.
Proof. intros H. eapply Forall_impl; [|exact H]. now intros ? []. Qed.

(* ---- encryption ---- *)
Lemma enc_round_block ek R s r : words_ok ek -> block s -> block (enc_round ek R s r).
Proof.
  intros Hw Hs. unfold enc_round. apply add_round_key_block; [assumption|].
  destruct (Nat.ltb r R); [apply mix_columns_block|]; now apply shift_rows_block, sub_bytes_block.
Qed.
Lemma rounds_spec ek R l s : words_ok ek -> block s -> (forall r, In r l -> (r < R)%nat) ->
  fold_left (enc_round ek R) l s
  = fold_left (fun s round => AddRoundKey ek round (MixColumns (ShiftRows (SubBytes s)))) l s
  /\ block (fold_left (enc_round ek R) l s).
Proof.
  intros Hw. revert s. induction l as [|r l IH]; intros s Hs Hr; [now split|]. cbn [fold_left].
  assert (enc_round ek R s r = AddRoundKey ek r (MixColumns (ShiftRows (SubBytes s)))) as E.
  { unfold enc_round. assert (r < R)%nat by (apply Hr; now left). destruct (Nat.ltb_spec r R); [|lia].
    rewrite add_round_key_spec, mix_columns_spec by now apply shift_rows_block, sub_bytes_block.
    rewrite shift_rows_spec by apply (sub_bytes_block _ Hs). rewrite sub_bytes_spec by apply Hs. reflexivity. }
  rewrite <- E. apply IH; [now apply enc_round_block|]. intros. apply Hr. now right.
Qed.
Lemma aes_encrypt_ek ek b s : words_ok ek -> block s ->
  let E := fold_left (enc_round ek (bs_rounds b)) (seq 1 (bs_rounds b - 1)) (add_round_key ek 0 s) in
  aes_encrypt ek b s = add_round_key ek (bs_rounds b) (shift_rows (sub_bytes E)) /\ block E.
Proof.
  intros Hw Hs E. unfold aes_encrypt.
  assert (1 <= bs_rounds b)%nat as R1 by (unfold bs_rounds; lia).
  replace (seq 1 (bs_rounds b)) with (seq 1 (bs_rounds b - 1) ++ [bs_rounds b]).
  - rewrite fold_left_app. fold E. cbn [fold_left]. split.
    + unfold enc_round. rewrite Nat.ltb_irrefl. reflexivity.
    + apply rounds_spec; [assumption|now apply add_round_key_block|]. intros r Hr. apply in_seq in Hr. lia.
  - replace (bs_rounds b) with (bs_rounds b - 1 + 1)%nat at 3 by lia. rewrite seq_app. cbn [seq]. do 2 f_equal. lia.
Qed.
Lemma aes_encrypt_spec key b s : is_bytes key -> length key = (4 * bs_nk b)%nat -> block s ->
  aes_encrypt (expanded_key key b) b s = Cipher (bs_nk b) key s.
Proof.
  intros Hk Hl Hs. destruct (expanded_key_spec key b Hk Hl) as [E W]. apply words4_ok in W.
  destruct (aes_encrypt_ek (expanded_key key b) b s W Hs) as [-> B].
  unfold Cipher. rewrite <- E. change (bs_nk b + 6)%nat with (bs_rounds b).
  set (ek := expanded_key key b) in *. clearbody ek.
  pose proof (rounds_spec ek (bs_rounds b) (seq 1 (bs_rounds b - 1)) (add_round_key ek 0 s) W
    (add_round_key_block ek 0 s W Hs) ltac:(intros r Hr; apply in_seq in Hr; lia)) as [RS _].
  rewrite RS in *. rewrite (add_round_key_spec ek 0 s) in *.
  set (x := fold_left _ _ _) in *. clearbody x.
  rewrite add_round_key_spec, shift_rows_spec by apply (sub_bytes_block _ B).
  rewrite sub_bytes_spec by apply B. reflexivity.
Qed.
Lemma aes_encrypt_block key b s : is_bytes key -> length key = (4 * bs_nk b)%nat -> block s ->
  block (aes_encrypt (expanded_key key b) b s).
Proof.
  intros Hk Hl Hs. destruct (expanded_key_spec key b Hk Hl) as [E W]. apply words4_ok in W.
  destruct (aes_encrypt_ek (expanded_key key b) b s W Hs) as [-> B].
  apply add_round_key_block; [assumption|]. now apply shift_rows_block, sub_bytes_block.
Qed.

(* ---- decryption ---- *)
Lemma dec_step ek r X : words_ok ek -> block X ->
  dec_round ek (shift_rows (sub_bytes (add_round_key ek (S r) (mix_columns false X)))) (S r) = X.
Proof.
  intros Hw BS. pose proof (mix_columns_block false _ BS) as BM.
  pose proof (add_round_key_block ek (S r) _ Hw BM) as BA.
  unfold dec_round. rewrite inv_shift_rows_spec by apply (sub_bytes_block _ BA).
  rewrite inv_sub_bytes_spec by apply BA. rewrite add_round_key_twice by apply BM.
  change (Nat.leb 1 (S r)) with true. now apply mix_columns_inv.
Qed.
Lemma dec_step0 ek s : words_ok ek -> block s ->
  dec_round ek (shift_rows (sub_bytes (add_round_key ek 0 s))) 0 = s.
Proof.
  intros Hw Hs. pose proof (add_round_key_block ek 0 s Hw Hs) as BA.
  unfold dec_round. rewrite inv_shift_rows_spec by apply (sub_bytes_block _ BA).
  rewrite inv_sub_bytes_spec by apply BA. rewrite add_round_key_twice by apply Hs. reflexivity.
Qed.
Lemma enc_last ek R n s : (S n < R)%nat ->
  fold_left (enc_round ek R) (seq 1 (S n)) s
  = add_round_key ek (S n) (mix_columns false (shift_rows (sub_bytes (fold_left (enc_round ek R) (seq 1 n) s)))).
Proof.
  intros H. rewrite seq_S, fold_left_app. generalize (fold_left (enc_round ek R) (seq 1 n) s). intros E.
  change (fold_left (enc_round ek R) [(1 + n)%nat] E) with (enc_round ek R E (S n)). unfold enc_round.
  destruct (Nat.ltb_spec (S n) R); [reflexivity|lia].
Qed.
Lemma fold_cons {A B} (f : A -> B -> A) x l a : fold_left f (x :: l) a = fold_left f l (f a x).
Proof. reflexivity. Qed.
Lemma fold_nil {A B} (f : A -> B -> A) a : fold_left f [] a = a.
Proof. reflexivity. Qed.
Lemma rev_seq_S n : rev (seq 0 (S n)) = n :: rev (seq 0 n).
Proof. rewrite seq_S, rev_app_distr. reflexivity. Qed.
Lemma dec_rounds ek R n s : words_ok ek -> block s -> (n < R)%nat ->
  fold_left (dec_round ek) (rev (seq 0 (S n)))
    (shift_rows (sub_bytes (fold_left (enc_round ek R) (seq 1 n) (add_round_key ek 0 s)))) = s.
Proof.
  intros Hw Hs. induction n as [|n IH]; intros Hn.
  - assert (rev (seq 0 1) = [0%nat]) as -> by reflexivity. assert (seq 1 0 = []) as -> by reflexivity.
    rewrite fold_cons, !fold_nil. now apply dec_step0.
  - rewrite rev_seq_S, fold_cons. rewrite enc_last by lia.
    assert (block (fold_left (enc_round ek R) (seq 1 n) (add_round_key ek 0 s))) as BE.
    { apply rounds_spec; [assumption|now apply add_round_key_block|]. intros r Hr. apply in_seq in Hr. lia. }
    rewrite dec_step by (try assumption; now apply shift_rows_block, sub_bytes_block).
    apply IH. lia.
Qed.
Lemma aes_decrypt_encrypt_ek ek b s : words_ok ek -> block s -> aes_decrypt ek b (aes_encrypt ek b s) = s.
Proof.
  intros W Hs. destruct (aes_encrypt_ek ek b s W Hs) as [EE B].
  rewrite EE. clear EE. unfold aes_decrypt.
  rewrite add_round_key_twice by apply (shift_rows_block _ (sub_bytes_block _ B)). clear B.
  assert (exists n, bs_rounds b = S n) as [n Rn] by (exists (bs_nk b + 5)%nat; unfold bs_rounds; lia).
  rewrite Rn. replace (S n - 1)%nat with n by lia. apply dec_rounds; [assumption|assumption|lia].
Qed.
Lemma aes_decrypt_encrypt key b s : is_bytes key -> length key = (4 * bs_nk b)%nat -> block s ->
  aes_decrypt (expanded_key key b) b (aes_encrypt (expanded_key key b) b s) = s.
Proof.
  intros Hk Hl Hs. destruct (expanded_key_spec key b Hk Hl) as [_ W].
  apply aes_decrypt_encrypt_ek; [now apply words4_ok|assumption].
Qed.
