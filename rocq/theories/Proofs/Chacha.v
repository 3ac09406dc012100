From Verif Require Import Proofs.Util Proofs.Bytes Model.Bytes Model.F32 Model.Alert Model.Chacha Spec.Rfc8439.

(* ---- quarter rounds ---- *)
Definition w32 (x : Z) : Prop := 0 <= x < 2 ^ 32.

Lemma rotl_spec x n : 0 < n < 32 -> w32 x -> rotl32 x n = ROTL x n.
Proof.
  intros Hn Hx. unfold rotl32, ROTL, u32, w32 in *.
  rewrite Z.shiftl_mul_pow2, Z.shiftr_div_pow2 by lia.
  assert (2^32 = 2^(32-n) * 2^n) as E by (rewrite <- Z.pow_add_r by lia; f_equal; lia).
  assert (0 < 2^n) by lia. assert (0 < 2^(32-n)) by lia.
  assert ((x * 2^n) mod 2^32 = (x mod 2^(32-n)) * 2^n) as -> by (rewrite E, Zmult_mod_distr_r; reflexivity).
  apply lor_mul_add; [lia|]. split; [apply Z.div_pos; lia|]. apply Z.div_lt_upper_bound; lia.
Qed.
Lemma ROTL_w32 x n : 0 < n < 32 -> w32 x -> w32 (ROTL x n).
Proof.
  intros Hn Hx. rewrite <- rotl_spec by assumption. unfold rotl32, w32 in *.
  apply lor_bound; [lia|unfold u32; apply Z.mod_pos_bound; lia|].
  rewrite Z.shiftr_div_pow2 by lia. assert (0 < 2^(32-n)) by lia. split; [apply Z.div_pos; lia|].
  apply Z.le_lt_trans with x; [|lia]. apply Z.div_le_upper_bound; nia.
Qed.
Lemma plus32_w32 x y : w32 (plus32 x y).
Proof. unfold plus32, w32. apply Z.mod_pos_bound. lia. Qed.
Lemma lxor_w32 x y : w32 x -> w32 y -> w32 (Z.lxor x y).
Proof. unfold w32. intros. apply lxor_bound; lia. Qed.

Definition QRm (q : Z * Z * Z * Z) : Z * Z * Z * Z :=
  let '(a, b, c, d) := q in
  let a := u32 (a + b) in let d := rotl32 (Z.lxor d a) 16 in
  let c := u32 (c + d) in let b := rotl32 (Z.lxor b c) 12 in
  let a := u32 (a + b) in let d := rotl32 (Z.lxor d a) 8 in
  let c := u32 (c + d) in let b := rotl32 (Z.lxor b c) 7 in
  (a, b, c, d).
Definition q32 (q : Z * Z * Z * Z) : Prop := let '(a, b, c, d) := q in w32 a /\ w32 b /\ w32 c /\ w32 d.

Lemma QR_spec q : q32 q -> QRm q = QR q /\ q32 (QR q).
Proof.
  destruct q as [[[a b] c] d]. intros (Ha & Hb & Hc & Hd).
  unfold QRm, QR, q32. change u32 with (fun x => x mod 2^32). cbv beta.
  change ((a + b) mod 2^32) with (plus32 a b).
  set (a1 := plus32 a b). assert (H1 : w32 a1) by apply plus32_w32.
  rewrite (rotl_spec (Z.lxor d a1)) by (lia || now apply lxor_w32).
  set (d1 := ROTL (Z.lxor d a1) 16). assert (H2 : w32 d1) by (apply ROTL_w32; [lia|now apply lxor_w32]).
  change ((c + d1) mod 2^32) with (plus32 c d1).
  set (c1 := plus32 c d1). assert (H3 : w32 c1) by apply plus32_w32.
  rewrite (rotl_spec (Z.lxor b c1)) by (lia || now apply lxor_w32).
  set (b1 := ROTL (Z.lxor b c1) 12). assert (H4 : w32 b1) by (apply ROTL_w32; [lia|now apply lxor_w32]).
  change ((a1 + b1) mod 2^32) with (plus32 a1 b1).
  set (a2 := plus32 a1 b1). assert (H5 : w32 a2) by apply plus32_w32.
  rewrite (rotl_spec (Z.lxor d1 a2)) by (lia || now apply lxor_w32).
  set (d2 := ROTL (Z.lxor d1 a2) 8). assert (H6 : w32 d2) by (apply ROTL_w32; [lia|now apply lxor_w32]).
  change ((c1 + d2) mod 2^32) with (plus32 c1 d2).
  set (c2 := plus32 c1 d2). assert (H7 : w32 c2) by apply plus32_w32.
  rewrite (rotl_spec (Z.lxor b1 c2)) by (lia || now apply lxor_w32).
  set (b2 := ROTL (Z.lxor b1 c2) 7). assert (H8 : w32 b2) by (apply ROTL_w32; [lia|now apply lxor_w32]).
  split; [reflexivity|]. repeat split; (apply H5 || apply H8 || apply H7 || apply H6).
Qed.

Definition row32 (r : row) : Prop := q32 r.
Definition m32 (m : matrix) : Prop := let '(a, b, c, d) := m in row32 a /\ row32 b /\ row32 c /\ row32 d.

Lemma columns_spec m : m32 m ->
  (let x := matrix_list m in
   qround (qround (qround (qround x 0 4 8 12) 1 5 9 13) 2 6 10 14) 3 7 11 15) = matrix_list (columns m)
  /\ m32 (columns m).
Proof.
  destruct m as [[[r0 r1] r2] r3].
  destruct r0 as [[[a0 a1] a2] a3], r1 as [[[b0 b1] b2] b3], r2 as [[[c0 c1] c2] c3], r3 as [[[d0 d1] d2] d3].
  intros ((?&?&?&?) & (?&?&?&?) & (?&?&?&?) & (?&?&?&?)).
  destruct (QR_spec (a0, b0, c0, d0)) as [E0 R0]; [cbn; auto|].
  destruct (QR_spec (a1, b1, c1, d1)) as [E1 R1]; [cbn; auto|].
  destruct (QR_spec (a2, b2, c2, d2)) as [E2 R2]; [cbn; auto|].
  destruct (QR_spec (a3, b3, c3, d3)) as [E3 R3]; [cbn; auto|].
  unfold columns. rewrite <- E0, <- E1, <- E2, <- E3 in *.
  split; [reflexivity|].
  destruct (QRm (a0, b0, c0, d0)) as [[[? ?] ?] ?]. destruct (QRm (a1, b1, c1, d1)) as [[[? ?] ?] ?].
  destruct (QRm (a2, b2, c2, d2)) as [[[? ?] ?] ?]. destruct (QRm (a3, b3, c3, d3)) as [[[? ?] ?] ?].
  cbn in *. tauto.
Qed.
Lemma diagonals_spec m : m32 m ->
  (let x := matrix_list m in
   qround (qround (qround (qround x 0 5 10 15) 1 6 11 12) 2 7 8 13) 3 4 9 14)
  = matrix_list (unskew (columns (skew m)))
  /\ m32 (unskew (columns (skew m))).
Proof.
  destruct m as [[[r0 r1] r2] r3].
  destruct r0 as [[[a0 a1] a2] a3], r1 as [[[b0 b1] b2] b3], r2 as [[[c0 c1] c2] c3], r3 as [[[d0 d1] d2] d3].
  intros ((?&?&?&?) & (?&?&?&?) & (?&?&?&?) & (?&?&?&?)).
  destruct (QR_spec (a0, b1, c2, d3)) as [E0 R0]; [cbn; auto|].
  destruct (QR_spec (a1, b2, c3, d0)) as [E1 R1]; [cbn; auto|].
  destruct (QR_spec (a2, b3, c0, d1)) as [E2 R2]; [cbn; auto|].
  destruct (QR_spec (a3, b0, c1, d2)) as [E3 R3]; [cbn; auto|].
  unfold skew, rot_row_by, rot_row, columns. cbn [Nat.iter nat_rect Nat.iter]. unfold Nat.iter, nat_rect.
  rewrite <- E0, <- E1, <- E2, <- E3 in *.
  split; [reflexivity|].
  destruct (QRm (a0, b1, c2, d3)) as [[[? ?] ?] ?]. destruct (QRm (a1, b2, c3, d0)) as [[[? ?] ?] ?].
  destruct (QRm (a2, b3, c0, d1)) as [[[? ?] ?] ?]. destruct (QRm (a3, b0, c1, d2)) as [[[? ?] ?] ?].
  cbn in *. tauto.
Qed.

Lemma ten_step_spec m : m32 m -> ten_step (matrix_list m) = matrix_list (double_round m) /\ m32 (double_round m).
Proof.
  intros H. destruct (columns_spec m H) as [E1 H1]. destruct (diagonals_spec _ H1) as [E2 H2].
  split; [|exact H2]. unfold ten_step, double_round. cbv zeta in *. rewrite E1. exact E2.
Qed.
Lemma iter_spec n m : m32 m ->
  Nat.iter n ten_step (matrix_list m) = matrix_list (Nat.iter n double_round m) /\ m32 (Nat.iter n double_round m).
Proof.
  intros H. induction n as [|n [E I]]; [auto|].
  change (Nat.iter (S n) ten_step (matrix_list m)) with (ten_step (Nat.iter n ten_step (matrix_list m))).
  change (Nat.iter (S n) double_round m) with (double_round (Nat.iter n double_round m)).
  rewrite E. now apply ten_step_spec.
Qed.

Lemma add_lists (x y : matrix) :
  map (fun p => u32 (fst p + snd p)) (combine (matrix_list x) (matrix_list y)) = matrix_list (add_matrix x y).
Proof.
  destruct x as [[[r0 r1] r2] r3].
  destruct r0 as [[[? ?] ?] ?], r1 as [[[? ?] ?] ?], r2 as [[[? ?] ?] ?], r3 as [[[? ?] ?] ?].
  destruct y as [[[r0 r1] r2] r3].
  destruct r0 as [[[? ?] ?] ?], r1 as [[[? ?] ?] ?], r2 as [[[? ?] ?] ?], r3 as [[[? ?] ?] ?].
  reflexivity.
Qed.

Lemma le4 s : [u8 s; u8 (Z.shiftr s 8); u8 (Z.shiftr s 16); u8 (Z.shiftr s 24)] = le_enc 4 s.
Proof. rewrite <- map_shift_le. cbn [seq map Z.of_nat]. now rewrite Z.shiftr_0_r. Qed.

Lemma get_block_spec m : m32 m ->
  get_block (matrix_list m) = flat_map (le_enc 4) (matrix_list (add_matrix (Nat.iter 10 double_round m) m)).
Proof.
  intros H. unfold get_block. destruct (iter_spec 10 m H) as [E _]. rewrite E, add_lists.
  apply flat_map_ext. intros. apply le4.
Qed.

(* ---- initial state ---- *)
Lemma le_word b0 b1 b2 b3 : is_byte b0 -> is_byte b1 -> is_byte b2 -> is_byte b3 ->
  Z.lor (Z.lor (Z.lor b0 (Z.shiftl b1 8)) (Z.shiftl b2 16)) (Z.shiftl b3 24) = le_val [b0; b1; b2; b3].
Proof.
  unfold is_byte. intros.
  rewrite (Z.lor_comm b0), lor_shiftl_add by lia.
  rewrite (Z.lor_comm _ (Z.shiftl b2 16)), lor_shiftl_add by lia.
  rewrite (Z.lor_comm _ (Z.shiftl b3 24)), lor_shiftl_add by lia.
  cbn [le_val fold_right]. lia.
Qed.
Lemma word_spec l i : is_bytes l -> (4 * i + 4 <= length l)%nat ->
  u8_to_u32_le (skipn (i * 4) l) = word_at l i /\ w32 (word_at l i).
Proof.
  intros Hb Hl. unfold word_at, u8_to_u32_le. rewrite (Nat.mul_comm i 4).
  assert (is_bytes (skipn (4 * i) l)) as Hs by now apply is_bytes_skipn.
  assert (4 <= length (skipn (4 * i) l))%nat as Hn by (rewrite skipn_length; lia).
  destruct (skipn (4 * i) l) as [|b0 [|b1 [|b2 [|b3 t]]]]; cbn in Hn; try lia.
  inversion Hs as [|? ? B0 T0]; subst. inversion T0 as [|? ? B1 T1]; subst.
  inversion T1 as [|? ? B2 T2]; subst. inversion T2 as [|? ? B3 T3]; subst.
  cbn [firstn nth]. split; [now apply le_word|].
  assert (is_bytes [b0; b1; b2; b3]) as B4 by (unfold is_bytes; auto).
  pose proof (le_val_range _ B4) as R.
  unfold w32. change (256 ^ zlen [b0; b1; b2; b3]) with (2^32) in R. exact R.
Qed.

Lemma chacha_init_spec key iv : is_bytes key -> is_bytes iv -> length key = 32%nat -> length iv = 12%nat ->
  exists st, chacha_init key iv 0 = Some st /\
    st = matrix_list (initial key iv 0) /\
    forall c, set_counter st (u32 c) = matrix_list (initial key iv c) /\ m32 (initial key iv c).
Proof.
  intros Hk Hi Lk Li.
  pose proof (fun i => word_spec key i Hk) as WK. pose proof (fun i => word_spec iv i Hi) as WI.
  eexists. split.
  - unfold chacha_init. rewrite Lk, Li. cbn [Nat.eqb andb negb]. reflexivity.
  - assert (forall c, m32 (initial key iv c)) as M.
    { intros c. unfold initial, m32, row32, q32.
      assert (w32 (c mod 2^32)) by (unfold w32; apply Z.mod_pos_bound; lia).
      repeat split; try (apply WK; lia); try (apply WI; lia); try lia; try (apply H). }
    split.
    + cbn [seq map]. rewrite (proj1 (WK 0%nat ltac:(lia))), (proj1 (WK 1%nat ltac:(lia))), (proj1 (WK 2%nat ltac:(lia))),
        (proj1 (WK 3%nat ltac:(lia))), (proj1 (WK 4%nat ltac:(lia))), (proj1 (WK 5%nat ltac:(lia))),
        (proj1 (WK 6%nat ltac:(lia))), (proj1 (WK 7%nat ltac:(lia))),
        (proj1 (WI 0%nat ltac:(lia))), (proj1 (WI 1%nat ltac:(lia))), (proj1 (WI 2%nat ltac:(lia))).
      reflexivity.
    + intros c. split; [|apply M].
      cbn [seq map]. rewrite (proj1 (WK 0%nat ltac:(lia))), (proj1 (WK 1%nat ltac:(lia))), (proj1 (WK 2%nat ltac:(lia))),
        (proj1 (WK 3%nat ltac:(lia))), (proj1 (WK 4%nat ltac:(lia))), (proj1 (WK 5%nat ltac:(lia))),
        (proj1 (WK 6%nat ltac:(lia))), (proj1 (WK 7%nat ltac:(lia))),
        (proj1 (WI 0%nat ltac:(lia))), (proj1 (WI 1%nat ltac:(lia))), (proj1 (WI 2%nat ltac:(lia))).
      reflexivity.
Qed.

Lemma get_block_spec' key iv c : m32 (initial key iv c) ->
  get_block (matrix_list (initial key iv c)) = chacha20_block key iv c.
Proof. exact (get_block_spec _). Qed.

Lemma block_length key iv c : length (chacha20_block key iv c) = 64%nat.
Proof.
  unfold chacha20_block. destruct (add_matrix _ _) as [[[r0 r1] r2] r3].
  destruct r0 as [[[? ?] ?] ?], r1 as [[[? ?] ?] ?], r2 as [[[? ?] ?] ?], r3 as [[[? ?] ?] ?].
  reflexivity.
Qed.
Lemma block_bytes key iv c : is_bytes (chacha20_block key iv c).
Proof.
  unfold chacha20_block. apply Forall_flat_map. apply Forall_forall. intros. apply le_enc_bytes.
Qed.

(* ---- encryption ---- *)
Local Opaque chacha20_block get_block.
Definition xor_list (a b : list Z) : list Z := xor_into a b.

Lemma nth_combine_seq_map {A} (f : nat -> Z -> A) k l d :
  map (fun p => f (fst p) (snd p)) (combine (seq k (length l)) l)
  = map (fun i => f (k + i)%nat (nth i l d)) (seq 0 (length l)).
Proof.
  revert k. induction l as [|x l IH]; intros k; [reflexivity|].
  cbn [length seq combine map fst snd]. f_equal; [f_equal; lia|].
  rewrite IH. rewrite <- seq_shift, map_map. apply map_ext. intros i. cbn [nth]. f_equal. lia.
Qed.
Lemma enc_index key iv c l :
  chacha20_encrypt key iv c l = map (fun i => Z.lxor (nth i l 0) (key_stream key iv c i)) (seq 0 (length l)).
Proof.
  unfold chacha20_encrypt.
  exact (nth_combine_seq_map (fun i b => Z.lxor b (key_stream key iv c i)) 0 l 0).
Qed.
Lemma enc_length key iv c l : length (chacha20_encrypt key iv c l) = length l.
Proof. rewrite enc_index. now rewrite map_length, seq_length. Qed.

Lemma xor_into_index a b : (length a <= length b)%nat ->
  xor_into a b = map (fun i => Z.lxor (nth i a 0) (nth i b 0)) (seq 0 (length a)).
Proof.
  unfold xor_into. revert b. induction a as [|x a IH]; intros [|y b] H; cbn [length] in H; try lia; try reflexivity.
  cbn [combine map length seq fst snd nth]. f_equal. rewrite IH by lia.
  rewrite <- seq_shift, map_map. reflexivity.
Qed.

Lemma enc_short key iv c l : (length l <= 64)%nat ->
  chacha20_encrypt key iv c l = xor_into l (chacha20_block key iv c).
Proof.
  intros H. rewrite enc_index, xor_into_index by (rewrite block_length; lia).
  apply map_ext_in. intros i Hi. apply in_seq in Hi. unfold key_stream.
  rewrite Nat.mod_small, Nat.div_small by lia. change (Z.of_nat 0) with 0. rewrite Z.add_0_r. reflexivity.
Qed.
Lemma enc_app key iv c a b : length a = 64%nat ->
  chacha20_encrypt key iv c (a ++ b) = xor_into a (chacha20_block key iv c) ++ chacha20_encrypt key iv (c + 1) b.
Proof.
  intros H. rewrite enc_index, app_length, H, seq_app, map_app. f_equal.
  - rewrite <- enc_short, enc_index by lia. rewrite H. apply map_ext_in. intros i Hi. apply in_seq in Hi.
    rewrite app_nth1 by lia. reflexivity.
  - rewrite enc_index. cbn [Nat.add]. rewrite <- (Nat.add_0_r 64) at 1.
    assert (forall k n, seq (64 + k) n = map (fun i => 64 + i)%nat (seq k n)) as S.
    { intros k n. revert k. induction n as [|n IH]; intros k; [reflexivity|].
      cbn [seq map]. f_equal. rewrite <- IH. f_equal. }
    rewrite S, map_map. apply map_ext_in. intros i Hi.
    rewrite app_nth2 by lia. replace (64 + i - length a)%nat with i by lia.
    unfold key_stream.
    assert (((64 + i) mod 64 = i mod 64)%nat /\ ((64 + i) / 64 = 1 + i / 64)%nat) as [-> ->] by lia.
    replace (c + Z.of_nat (1 + i / 64)) with (c + 1 + Z.of_nat (i / 64)) by lia. reflexivity.
Qed.


(* the prefix that is really encrypted *)
Definition enc_part (n : nat) : nat := if Nat.eqb (Nat.modulo n 64) 0 then (n - 64)%nat else n.

Lemma enc_loop_spec {E} key iv st ctr len n j rest :
  (forall c, set_counter st (u32 c) = matrix_list (initial key iv c) /\ m32 (initial key iv c)) ->
  0 <= j -> len = j * 64 + zlen rest -> n = Z.to_nat ((zlen rest + 63) / 64) ->
  enc_loop (E:=E) n st len j ctr rest
  = Ok (chacha20_encrypt key iv (ctr + j) (firstn (enc_part (length rest)) rest)
        ++ skipn (enc_part (length rest)) rest).
Proof.
  intros Hst. unfold zlen. revert j rest. induction n as [|n IH]; intros j rest Hj Hlen Hn.
  - assert (length rest = 0%nat) by lia. destruct rest; [|discriminate]. reflexivity.
  - cbn [enc_loop].
    assert (get_block (set_counter st (u32 (ctr + j))) = chacha20_block key iv (ctr + j)) as KS.
    { destruct (Hst (ctr + j)) as [E1 M]. rewrite E1. now apply get_block_spec'. }
    rewrite KS.
    destruct (Z.geb_spec (j * 64 + 64) len) as [Hlast|Hmore].
    + (* last block *)
      assert (Hr : (0 < length rest <= 64)%nat) by lia.
      assert (len mod 64 = Z.of_nat (length rest) mod 64) as Hm.
      { rewrite Hlen. replace (j * 64 + Z.of_nat (length rest)) with (Z.of_nat (length rest) + j * 64) by lia.
        apply Z.mod_add. lia. }
      rewrite Hm.
      assert (n = 0%nat) as -> by lia. cbn [enc_loop bind].
      rewrite (skipn_all2 (n:=64)) by lia. rewrite (firstn_all2 (n:=64)) by lia.
      unfold enc_part.
      destruct (Nat.eqb_spec (length rest mod 64) 0) as [Z0|NZ].
      * assert (length rest = 64%nat) as L64 by lia. rewrite L64.
        change (Z.to_nat (Z.of_nat 64 mod 64)) with 0%nat.
        change (64 - 64)%nat with 0%nat. cbn [Nat.ltb Nat.leb firstn skipn app].
        rewrite app_nil_r. reflexivity.
      * assert (length rest < 64)%nat as L64 by lia.
        replace (Z.to_nat (Z.of_nat (length rest) mod 64)) with (length rest) by lia.
        rewrite Nat.ltb_irrefl. rewrite firstn_all, skipn_all. cbn [app]. rewrite !app_nil_r.
        now rewrite enc_short by lia.
    + assert (Hr : (64 < length rest)%nat) by lia.
      change (Z.to_nat 64) with 64%nat.
      destruct (Nat.ltb_spec (length rest) 64); [lia|].
      rewrite IH; [|lia|rewrite skipn_length; lia|rewrite skipn_length; lia].
      cbn [bind]. f_equal.
      rewrite skipn_all2 by (rewrite firstn_length; lia). cbn [app].
      rewrite skipn_length.
      assert (enc_part (length rest) = (64 + enc_part (length rest - 64))%nat) as EP.
      { unfold enc_part.
        assert (length rest mod 64 = (length rest - 64) mod 64)%nat as M by lia.
        rewrite M. destruct (Nat.eqb_spec ((length rest - 64) mod 64) 0); lia. }
      rewrite EP.
      assert (length (firstn 64 rest) = 64%nat) as L by (rewrite firstn_length; lia).
      rewrite firstn_add, (Nat.add_comm 64), <- skipn_skipn.
      rewrite enc_app by assumption. rewrite <- app_assoc.
      replace (ctr + (j + 1)) with (ctr + j + 1) by lia. reflexivity.
Qed.

Lemma f32_exact n d : 0 <= n < 2^24 -> f32_ceil_div n d = (n + d - 1) / d.
Proof. intros. unfold f32_ceil_div, f32_of. destruct (Z.ltb_spec n (2^24)); [reflexivity|lia]. Qed.

Lemma chacha_encrypt_spec {E} key iv ctr p :
  is_bytes key -> is_bytes iv -> length key = 32%nat -> length iv = 12%nat -> zlen p < 2^24 ->
  chacha_encrypt (E:=E) p key iv ctr
  = Ok (Some (chacha20_encrypt key iv ctr (firstn (enc_part (length p)) p) ++ skipn (enc_part (length p)) p)).
Proof.
  intros Hk Hi Lk Li Lp. unfold chacha_encrypt.
  destruct (chacha_init_spec key iv Hk Hi Lk Li) as (st & Est & _ & Hst).
  rewrite Est. rewrite f32_exact by (unfold zlen in *; lia).
  rewrite (enc_loop_spec key iv); [cbn [bind]; now rewrite Z.add_0_r|assumption|lia|lia|].
  f_equal. f_equal. lia.
Qed.

Lemma chacha_encrypt_bad {E} key iv ctr p :
  ~ (length key = 32%nat /\ length iv = 12%nat) -> p <> [] -> zlen p < 2^24 ->
  chacha_encrypt (E:=E) p key iv ctr = Ok None.
Proof.
  intros H Hp Lp. unfold chacha_encrypt, chacha_init.
  replace (Nat.eqb (length key) 32 && Nat.eqb (length iv) 12)%bool with false.
  - cbn [negb]. rewrite f32_exact by (unfold zlen in *; lia).
    destruct (Nat.eqb_spec (Z.to_nat ((zlen p + 64 - 1) / 64)) 0); [|reflexivity].
    destruct p; [congruence|]. unfold zlen in *. cbn [length] in *. lia.
  - symmetry. apply andb_false_iff. rewrite !Nat.eqb_neq. lia.
Qed.

(* involution *)
Lemma xor_into_twice a b : (length a <= length b)%nat -> xor_into (xor_into a b) b = a.
Proof.
  unfold xor_into. revert b. induction a as [|x a IH]; intros [|y b] H; cbn [length] in H; try lia; try reflexivity.
  cbn [combine map fst snd]. rewrite lxor_cancel, IH by lia. reflexivity.
Qed.
Lemma enc_twice key iv c l : chacha20_encrypt key iv c (chacha20_encrypt key iv c l) = l.
Proof.
  rewrite enc_index, enc_length.
  transitivity (map (fun i => nth i l 0) (seq 0 (length l))).
  - apply map_ext_in. intros i Hi. apply in_seq in Hi. rewrite enc_index.
    rewrite nth_map_seq by lia. apply lxor_cancel.
  - apply nth_ext with (d := 0) (d' := 0); [now rewrite map_length, seq_length|].
    intros i Hi. rewrite map_length, seq_length in Hi. now rewrite nth_map_seq by lia.
Qed.
Lemma lxor_bytes_enc key iv c l : is_bytes l -> is_bytes (chacha20_encrypt key iv c l).
Proof.
  intros H. rewrite enc_index. apply Forall_map, Forall_forall. intros i Hi. apply in_seq in Hi.
  apply byte_lxor.
  - unfold is_bytes in H. rewrite Forall_forall in H. apply H. apply nth_In. lia.
  - unfold key_stream. pose proof (block_bytes key iv (c + Z.of_nat (i / 64))) as B.
    pose proof (block_length key iv (c + Z.of_nat (i / 64))) as L.
    unfold is_bytes in B. rewrite Forall_forall in B. apply B. apply nth_In. rewrite L.
    apply Nat.mod_upper_bound. lia.
Qed.

(* ---- Poly1305 ---- *)
Lemma repeat_cons' k : repeat 0 (S k) = repeat 0 k ++ [0].
Proof. exact (repeat_cons k 0). Qed.

Definition land_list (a b : list Z) : list Z := map (fun p => Z.land (fst p) (snd p)) (combine a b).
Lemma land_le_val a b : is_bytes a -> is_bytes b -> length a = length b ->
  Z.land (le_val a) (le_val b) = le_val (land_list a b).
Proof.
  intros Ha. revert b. induction Ha as [|x a Hx Ha IH]; intros [|y b] Hb L; try discriminate L; [reflexivity|].
  inversion Hb as [|? ? Hy Hb']; subst. unfold land_list. cbn [combine map fst snd]. rewrite !le_val_cons.
  fold (land_list a b). rewrite <- IH by (assumption || (cbn in L; lia)).
  replace (x + 256 * le_val a) with (le_val a * 2^8 + x) by lia.
  replace (y + 256 * le_val b) with (le_val b * 2^8 + y) by lia.
  rewrite land_split by (unfold is_byte in *; lia). lia.
Qed.

Definition mask_bytes : list Z := [255; 255; 255; 15; 252; 255; 255; 15; 252; 255; 255; 15; 252; 255; 255; 15].
Lemma mask_val : poly_mask = le_val mask_bytes.
Proof. reflexivity. Qed.

Lemma land_255 b : is_byte b -> Z.land b 255 = b.
Proof. intros. change 255 with (2^8 - 1). rewrite land_mask by lia. apply Z.mod_small. exact H. Qed.
Lemma land_15 b : is_byte b -> Z.land b 15 = b mod 16.
Proof. intros. change 15 with (2^4 - 1). rewrite land_mask by lia. reflexivity. Qed.
Lemma land_252 b : is_byte b -> Z.land b 252 = b / 4 * 4.
Proof.
  intros H.
  assert (P : forallb (fun b => Z.land b 252 =? b / 4 * 4) (zrange 256) = true) by (vm_compute; reflexivity).
  pose proof (forallb_zrange _ _ P b H) as Q. cbv beta in Q. now apply Z.eqb_eq in Q.
Qed.
Lemma clamp_spec k : is_bytes k -> length k = 16%nat -> Z.land (le_val k) poly_mask = le_val (clamp k).
Proof.
  intros Hb Hl. rewrite mask_val, land_le_val.
  - f_equal. do 16 (destruct k as [|? k]; [discriminate Hl|]). destruct k; [|discriminate Hl].
    unfold is_bytes in Hb. repeat match goal with H : Forall _ (_ :: _) |- _ => inversion H; clear H; subst end.
    unfold land_list, mask_bytes, clamp. cbn [combine map fst snd seq clamp_byte].
    rewrite !land_255, !land_15, !land_252 by assumption. reflexivity.
  - assumption.
  - repeat constructor; unfold is_byte; lia.
  - now rewrite Hl.
Qed.

Lemma pieces16_cons l : l <> [] -> pieces (length l) 16 l = firstn 16 l :: pieces (length (skipn 16 l)) 16 (skipn 16 l).
Proof.
  assert (Hf : forall f1 f2 l, (length l <= f1)%nat -> (length l <= f2)%nat -> pieces f1 16 l = pieces f2 16 l).
  { induction f1 as [|f1 IH]; intros f2 m H1 H2.
    - destruct m; [|cbn in H1; lia]. now destruct f2.
    - destruct m as [|x m]; [now destruct f2|]. destruct f2 as [|f2]; [cbn in H2; lia|].
      cbn [pieces]. f_equal. apply IH; rewrite skipn_length; cbn [length] in *; lia. }
  intros H. destruct l as [|x l]; [congruence|]. cbn [length pieces]. f_equal.
  apply Hf; rewrite ?skipn_length; cbn [length] in *; lia.
Qed.

Lemma poly_loop_spec {E} n r a rest : is_bytes rest -> 0 <= r -> 0 <= a -> n = Z.to_nat ((zlen rest + 15) / 16) ->
  poly_loop (E:=E) n r a false rest
  = Ok (fold_left (fun a block => ((a + le_val (block ++ [1])) * r) mod P1305) (pieces (length rest) 16 rest) a).
Proof.
  unfold zlen. revert a rest. induction n as [|n IH]; intros a rest Hb Hr Ha Hn.
  - assert (length rest = 0%nat) by lia. destruct rest; [reflexivity|discriminate].
  - assert (rest <> []) as Hne by (intros ->; cbn in Hn; lia).
    rewrite pieces16_cons by assumption. cbn [poly_loop fold_left].
    assert (Hv : (if Nat.ltb (length rest) 16 then to_ibig_le (rest ++ [1])
              else to_ibig_le (firstn 16 rest) + 0x100000000000000000000000000000000)
            = le_val (firstn 16 rest ++ [1])).
    { destruct (Nat.ltb_spec (length rest) 16).
      - rewrite firstn_all2 by lia. apply to_ibig_le_val.
      - rewrite to_ibig_le_val, le_val_app. unfold zlen. rewrite firstn_length.
        replace (Nat.min 16 (length rest)) with 16%nat by lia. cbn. lia. }
    rewrite Hv.
    assert (0 <= le_val (firstn 16 rest ++ [1])) as Hp.
    { apply le_val_range. apply is_bytes_app; split; [now apply is_bytes_firstn|repeat constructor; unfold is_byte; lia]. }
    assert (Z.rem (r * (a + le_val (firstn 16 rest ++ [1]))) poly_p
            = ((a + le_val (firstn 16 rest ++ [1])) * r) mod P1305) as ->.
    { rewrite Z.rem_mod_nonneg by (unfold poly_p; nia). rewrite Z.mul_comm. reflexivity. }
    destruct (Nat.ltb_spec (length rest) 16) as [Hs|Hs].
    + assert (n = 0%nat) as -> by lia. cbn [poly_loop]. rewrite skipn_all2 by lia. reflexivity.
    + apply IH; [now apply is_bytes_skipn|assumption|apply Z.mod_pos_bound; unfold P1305; lia|].
      rewrite skipn_length. lia.
Qed.

Lemma poly_mac_spec {E} key msg : is_bytes key -> length key = 32%nat -> is_bytes msg -> zlen msg < 2^24 ->
  poly_mac (E:=E) key msg = Ok (poly1305_mac key msg).
Proof.
  intros Hk Lk Hm Lm. unfold poly_mac.
  rewrite slice_in by lia. cbn [bind]. rewrite slice_in by lia. cbn [bind]. change (skipn 0 key) with key.
  change (16 - 0)%nat with 16%nat. change (32 - 16)%nat with 16%nat.
  rewrite !to_ibig_le_val.
  assert (length (firstn 16 key) = 16%nat) as L0 by (rewrite firstn_length; lia).
  assert (is_bytes (firstn 16 key)) as B0 by now apply is_bytes_firstn.
  rewrite clamp_spec by assumption.
  assert (is_bytes (clamp (firstn 16 key)) /\ 0 <= le_val (clamp (firstn 16 key))) as [Bc Rc].
  { assert (is_bytes (clamp (firstn 16 key))) as Bc.
    { unfold clamp. apply Forall_map, Forall_forall. intros [i b] Hin. apply in_combine_r in Hin.
      unfold is_bytes in B0. rewrite Forall_forall in B0. specialize (B0 b Hin). cbn [fst snd]. unfold is_byte in *.
      unfold clamp_byte. do 17 (destruct i as [|i]; try lia). }
    split; [assumption|]. apply le_val_range. assumption. }
  rewrite f32_exact by (unfold zlen in *; lia).
  rewrite poly_loop_spec; [|assumption|assumption|lia|f_equal; f_equal; lia].
  cbn [bind]. unfold poly1305_mac.
  set (a := fold_left _ _ 0).
  assert (0 <= a < P1305) as Ra.
  { unfold a. clear. 
    assert (forall l x, 0 <= x < P1305 ->
      0 <= fold_left (fun a block => ((a + le_val (block ++ [1])) * le_val (clamp (firstn 16 key))) mod P1305) l x < P1305) as G.
    { induction l as [|b l IH]; intros x Hx; [exact Hx|]. cbn [fold_left]. apply IH. apply Z.mod_pos_bound. unfold P1305; lia. }
    apply G. unfold P1305; lia. }
  assert (0 <= le_val (firstn 16 (skipn 16 key))) as Rs.
  { apply le_val_range. now apply is_bytes_firstn, is_bytes_skipn. }
  set (x := a + le_val (firstn 16 (skipn 16 key))) in *. assert (0 <= x) as Hx by lia. clearbody x.
  unfold ibig_to_vec. destruct (Z.ltb_spec x 0); [lia|]. cbn [bind]. f_equal.
  (* minimal bytes, zero-extended or cut to 16 *)
  assert (forall f n k, 0 <= n < 256 ^ Z.of_nat f -> firstn k (le_digits f n ++ repeat 0 k) = le_enc k n) as G.
  { clear. induction f as [|f IH]; intros n k Hn.
    - assert (n = 0) as -> by (cbn in Hn; lia). cbn [le_digits app]. rewrite firstn_all2 by (rewrite repeat_length; lia).
      symmetry. apply le_enc_0.
    - cbn [le_digits]. destruct (Z.eqb_spec n 0) as [->|Hz].
      + cbn [app]. rewrite firstn_all2 by (rewrite repeat_length; lia). symmetry. apply le_enc_0.
      + destruct k as [|k]; [reflexivity|]. cbn [app firstn le_enc]. f_equal.
        rewrite <- IH.
        * rewrite (repeat_cons' k). rewrite app_assoc, firstn_app.
          rewrite app_length, repeat_length.
          replace (k - _)%nat with 0%nat by lia. cbn [firstn]. apply app_nil_r.
        * rewrite Nat2Z.inj_succ, Z.pow_succ_r in Hn by lia. lia. }
  unfold ubig_to_le_bytes. apply G. split; [lia|]. apply ubig_fuel. lia.
Qed.

(* ---- AEAD ---- *)
Lemma pad16_zeros l x :
  pad16 l x = l ++ repeat 0 ((16 - x mod 16) mod 16)%nat.
Proof.
  unfold pad16. destruct (Nat.eqb_spec (x mod 16) 0) as [H|H]; cbn [negb].
  - rewrite H. change ((16 - 0) mod 16)%nat with 0%nat. cbn [repeat]. now rewrite app_nil_r.
  - f_equal. f_equal. lia.
Qed.
Lemma mac_data_spec c aad : zlen c < 2^64 -> zlen aad < 2^64 -> get_mac_data c aad = mac_input aad c.
Proof.
  intros Hc Ha. unfold get_mac_data, mac_input, zeros16. rewrite !u64_to_bytes_le_enc.
  rewrite !pad16_zeros.
  rewrite (u64_id (zlen aad)), (u64_id (zlen c)) by (unfold zlen in *; lia). unfold zlen.
  rewrite <- !app_assoc. reflexivity.
Qed.
Lemma mac_input_length aad c : zlen (mac_input aad c) <= zlen aad + zlen c + 46.
Proof.
  unfold mac_input, zeros16, zlen. rewrite !app_length, !repeat_length, !le_enc_length. lia.
Qed.
Lemma mac_input_bytes aad c : is_bytes aad -> is_bytes c -> is_bytes (mac_input aad c).
Proof.
  intros Ha Hc. unfold mac_input, zeros16. repeat (apply is_bytes_app; split); auto using le_enc_bytes;
  apply is_bytes_repeat; unfold is_byte; lia.
Qed.

Lemma poly_key_gen_spec {E} key iv : is_bytes key -> is_bytes iv -> length key = 32%nat -> length iv = 12%nat ->
  poly_key_gen (E:=E) key iv = Ok (poly1305_key key iv).
Proof.
  intros Hk Hi Lk Li. unfold poly_key_gen, poly1305_key.
  destruct (chacha_init_spec key iv Hk Hi Lk Li) as (st & Est & E0 & Hst). rewrite Est, E0. cbn [unwrap bind].
  rewrite get_block_spec' by apply (Hst 0). reflexivity.
Qed.
Lemma otk_props key iv : is_bytes (poly1305_key key iv) /\ length (poly1305_key key iv) = 32%nat.
Proof.
  unfold poly1305_key. split; [apply is_bytes_firstn, block_bytes|].
  rewrite firstn_length, block_length. reflexivity.
Qed.

Lemma aead_mac {E} key iv aad c : is_bytes aad -> is_bytes c -> zlen aad + zlen c < 2^24 - 46 ->
  poly_mac (E:=E) (poly1305_key key iv) (get_mac_data c aad) = Ok (aead_tag key iv aad c).
Proof.
  intros Ha Hc Hl. destruct (otk_props key iv) as [B L].
  pose proof (mac_input_length aad c) as ML. unfold zlen in *.
  rewrite mac_data_spec by (unfold zlen; lia).
  apply poly_mac_spec; auto using mac_input_bytes. unfold zlen. lia.
Qed.

(* what the library sends as ciphertext *)
Definition sent (key iv p : list Z) : list Z :=
  chacha20_encrypt key iv 1 (firstn (enc_part (length p)) p) ++ skipn (enc_part (length p)) p.
Lemma sent_length key iv p : length (sent key iv p) = length p.
Proof. unfold sent. rewrite app_length, enc_length, firstn_length, skipn_length. lia. Qed.
Lemma sent_bytes key iv p : is_bytes p -> is_bytes (sent key iv p).
Proof.
  intros H. unfold sent. apply is_bytes_app. split; [apply lxor_bytes_enc; now apply is_bytes_firstn|now apply is_bytes_skipn].
Qed.
Lemma enc_part_le n : (enc_part n <= n)%nat.
Proof. unfold enc_part. destruct (Nat.eqb _ _); lia. Qed.
Lemma sent_twice key iv p : sent key iv (sent key iv p) = p.
Proof.
  unfold sent at 1. rewrite sent_length. unfold sent.
  pose proof (enc_part_le (length p)) as L.
  assert (length (chacha20_encrypt key iv 1 (firstn (enc_part (length p)) p)) = enc_part (length p)) as LE.
  { rewrite enc_length, firstn_length. lia. }
  rewrite firstn_app_eq, skipn_app_eq by (symmetry; exact LE).
  rewrite enc_twice. apply firstn_skipn.
Qed.

Lemma poly_encrypt_spec key iv p aad : is_bytes key -> is_bytes iv -> length key = 32%nat -> length iv = 12%nat ->
  is_bytes aad -> is_bytes p -> zlen aad + zlen p < 2^24 - 46 ->
  poly_encrypt key iv p aad = Ok (sent key iv p, aead_tag key iv aad (sent key iv p)).
Proof.
  intros Hk Hi Lk Li Ha Hp Hl. unfold poly_encrypt.
  rewrite chacha_encrypt_spec by (try assumption; unfold zlen in *; lia). rewrite bind_Ok. cbn [unwrap].
  rewrite bind_Ok, poly_key_gen_spec, bind_Ok by assumption.
  change (chacha20_encrypt key iv 1 (firstn (enc_part (length p)) p) ++ skipn (enc_part (length p)) p) with (sent key iv p).
  rewrite aead_mac; [rewrite bind_Ok; reflexivity|assumption|now apply sent_bytes|].
  unfold zlen in *. rewrite sent_length. exact Hl.
Qed.
Lemma poly_decrypt_spec key iv c aad tag : is_bytes key -> is_bytes iv -> length key = 32%nat -> length iv = 12%nat ->
  is_bytes aad -> is_bytes c -> zlen aad + zlen c < 2^24 - 46 ->
  poly_decrypt key iv c aad tag
  = if list_eqb (aead_tag key iv aad c) tag then Ok (sent key iv c) else Err BadRecordMac.
Proof.
  intros Hk Hi Lk Li Ha Hc Hl. unfold poly_decrypt.
  rewrite poly_key_gen_spec, bind_Ok, aead_mac, bind_Ok by assumption.
  destruct (list_eqb _ _); [|reflexivity].
  unfold chacha_decrypt. rewrite chacha_encrypt_spec by (try assumption; unfold zlen in *; lia).
  rewrite bind_Ok. reflexivity.
Qed.

(* ---- what an attacker sees when 64 divides the length ---- *)
Lemma sent_last_block_clear key iv p k : length p = (64 * S k)%nat ->
  skipn (64 * k) (sent key iv p) = skipn (64 * k) p.
Proof.
  intros L. unfold sent.
  assert (enc_part (length p) = (64 * k)%nat) as EP.
  { unfold enc_part. rewrite L. replace ((64 * S k) mod 64)%nat with 0%nat; [cbn [Nat.eqb]; lia|].
    rewrite Nat.mul_comm, Nat.mod_mul by lia. reflexivity. }
  rewrite EP. apply skipn_app_eq. rewrite enc_length, firstn_length. lia.
Qed.
Lemma enc_part_full n : (n mod 64 <> 0)%nat -> enc_part n = n.
Proof. intros H. unfold enc_part. destruct (Nat.eqb_spec (n mod 64) 0); [congruence|reflexivity]. Qed.
Lemma chacha_exact {E} key iv ctr p :
  is_bytes key -> is_bytes iv -> length key = 32%nat -> length iv = 12%nat -> zlen p < 2^24 ->
  (length p mod 64 <> 0 \/ length p = 0)%nat ->
  chacha_encrypt (E:=E) p key iv ctr = Ok (Some (chacha20_encrypt key iv ctr p)).
Proof.
  intros Hk Hi Lk Li Lp M. rewrite chacha_encrypt_spec by assumption. do 2 f_equal.
  destruct M as [M|M].
  - rewrite enc_part_full, firstn_all, skipn_all by assumption. apply app_nil_r.
  - destruct p; [reflexivity|discriminate].
Qed.
Lemma chacha_last_block_clear {E} key iv ctr p k :
  is_bytes key -> is_bytes iv -> length key = 32%nat -> length iv = 12%nat -> zlen p < 2^24 ->
  length p = (64 * S k)%nat ->
  chacha_encrypt (E:=E) p key iv ctr
  = Ok (Some (chacha20_encrypt key iv ctr (firstn (64 * k) p) ++ skipn (64 * k) p)).
Proof.
  intros Hk Hi Lk Li Lp L. rewrite chacha_encrypt_spec by assumption.
  assert (enc_part (length p) = (64 * k)%nat) as EP.
  { unfold enc_part. rewrite L. replace ((64 * S k) mod 64)%nat with 0%nat; [cbn [Nat.eqb]; lia|].
    rewrite Nat.mul_comm, Nat.mod_mul by lia. reflexivity. }
  now rewrite EP.
Qed.
Lemma chacha_last_block_refuted : exists key iv p, is_bytes key /\ is_bytes iv /\ length key = 32%nat /\
  length iv = 12%nat /\ is_bytes p /\ chacha_encrypt (E:=tls_error) p key iv 1 = Ok (Some p) /\
  chacha20_encrypt key iv 1 p <> p.
Proof.
  exists (repeat 0 32), (repeat 0 12), (repeat 0 64).
  assert (forall n, is_bytes (repeat 0 n)) as B by (intros; apply is_bytes_repeat; unfold is_byte; lia).
  split; [apply B|]. split; [apply B|]. split; [reflexivity|]. split; [reflexivity|]. split; [apply B|].
  split; [apply (chacha_last_block_clear _ _ 1 _ 0); auto; vm_compute; reflexivity|].
  apply list_eqb_false. vm_compute. reflexivity.
Qed.

(* ---- messages over 2^24 bytes: the f32 block count ---- *)
Lemma poly_loop_prefix {E} n r a rest tail : (16 * n <= length rest)%nat ->
  poly_loop (E:=E) n r a false (rest ++ tail) = poly_loop (E:=E) n r a false rest.
Proof.
  revert a rest. induction n as [|n IH]; intros a rest H; [reflexivity|].
  cbn [poly_loop].
  rewrite app_length. destruct (Nat.ltb_spec (length rest + length tail) 16); [lia|].
  destruct (Nat.ltb_spec (length rest) 16); [lia|].
  rewrite firstn_app, skipn_app. replace (16 - length rest)%nat with 0%nat by lia.
  change (skipn 0 tail) with tail. change (firstn 0 tail) with (@nil Z).
  rewrite app_nil_r. apply IH. rewrite skipn_length. lia.
Qed.
Lemma poly_big_gen {E} key z x y : length key = 32%nat -> zlen z = 2^24 ->
  poly_mac (E:=E) key (z ++ [x]) = poly_mac (E:=E) key (z ++ [y]).
Proof.
  intros Lk Lz.
  assert (forall x, f32_ceil_div (zlen (z ++ [x])) 16 = 2^20) as F.
  { intros. rewrite zlen_app, Lz. reflexivity. }
  unfold poly_mac. rewrite !F. 
  assert (16 * Z.to_nat (2^20) <= length z)%nat as L by (unfold zlen in Lz; lia).
  generalize dependent (Z.to_nat (2^20)). intros n L.
  rewrite slice_in by lia. rewrite !bind_Ok. rewrite slice_in by lia. rewrite !bind_Ok.
  rewrite !(poly_loop_prefix n _ _ z) by exact L. reflexivity.
Qed.
Lemma big_list : exists z, is_bytes z /\ zlen z = 2^24.
Proof.
  exists (repeat 0 (Z.to_nat (2^24))). split; [apply is_bytes_repeat; unfold is_byte; lia|].
  unfold zlen. rewrite repeat_length. apply Z2Nat.id. lia.
Qed.
Lemma poly_big_refuted : exists key m m', is_bytes key /\ length key = 32%nat /\ is_bytes m /\ is_bytes m' /\
  length m = length m' /\ m <> m' /\
  poly_mac (E:=tls_error) key m = poly_mac key m' /\ exists t, poly_mac (E:=tls_error) key m = Ok t.
Proof.
  destruct big_list as (z & Bz & Lz).
  exists (repeat 1 32), (z ++ [0]), (z ++ [1]).
  split; [apply is_bytes_repeat; unfold is_byte; lia|]. split; [reflexivity|].
  split; [apply is_bytes_app; split; [assumption|repeat constructor; unfold is_byte; lia]|].
  split; [apply is_bytes_app; split; [assumption|repeat constructor; unfold is_byte; lia]|].
  split; [rewrite !app_length; reflexivity|].
  split; [intros H; apply app_inv_head in H; discriminate|].
  split; [now apply poly_big_gen|].
  unfold poly_mac.
  rewrite zlen_app, Lz. change (f32_ceil_div (2^24 + zlen [0]) 16) with (2^20).
  assert (16 * Z.to_nat (2^20) <= length z)%nat as L by (unfold zlen in Lz; lia).
  generalize dependent (Z.to_nat (2^20)). intros n L.
  rewrite slice_in by (rewrite repeat_length; lia). rewrite bind_Ok.
  rewrite slice_in by (rewrite repeat_length; lia). rewrite bind_Ok.
  rewrite (poly_loop_prefix n _ _ z) by exact L.
  set (r := Z.land _ _). assert (0 <= r) as Hr by (vm_compute; discriminate). clearbody r.
  assert (forall n a rest, 0 <= a -> is_bytes rest -> (16 * n <= length rest)%nat ->
            exists v, 0 <= v /\ poly_loop (E:=tls_error) n r a false rest = Ok v) as G.
  { clear n L. induction n as [|n IH]; intros a rest Ha Hb L; [exists a; split; [assumption|reflexivity]|].
    cbn [poly_loop]. destruct (Nat.ltb_spec (length rest) 16); [lia|].
    apply IH; [|now apply is_bytes_skipn|rewrite skipn_length; lia].
    rewrite to_ibig_le_val.
    assert (0 <= le_val (firstn 16 rest)) by (apply le_val_range; now apply is_bytes_firstn).
    rewrite Z.rem_mod_nonneg by (unfold poly_p; nia). apply Z.mod_pos_bound. reflexivity. }
  destruct (G n 0 z ltac:(lia) Bz L) as (v & Hv & ->). rewrite bind_Ok.
  set (sv := to_ibig_le _). assert (0 <= sv) as Hs by (vm_compute; discriminate). clearbody sv.
  unfold ibig_to_vec. destruct (Z.ltb_spec (v + sv) 0); [lia|]. rewrite bind_Ok. eexists; reflexivity.
Qed.

Lemma aead_tag_length key iv aad c : length (aead_tag key iv aad c) = 16%nat.
Proof. unfold aead_tag, poly1305_mac. apply le_enc_length. Qed.
Lemma aead_round_trip key iv aad p : is_bytes key -> is_bytes iv -> length key = 32%nat -> length iv = 12%nat ->
  is_bytes aad -> is_bytes p -> zlen aad + zlen p < 2^24 - 46 ->
  exists c tag, poly_encrypt key iv p aad = Ok (c, tag) /\ length c = length p /\ length tag = 16%nat /\
    poly_decrypt key iv c aad tag = Ok p.
Proof.
  intros Hk Hi Lk Li Ha Hp Hl. exists (sent key iv p), (aead_tag key iv aad (sent key iv p)).
  split; [now apply poly_encrypt_spec|]. split; [apply sent_length|]. split; [apply aead_tag_length|].
  rewrite poly_decrypt_spec; [|try assumption..|now apply sent_bytes|unfold zlen in *; now rewrite sent_length].
  rewrite list_eqb_refl, sent_twice. reflexivity.
Qed.
Lemma aead_tag_checked key iv aad c tag : is_bytes key -> is_bytes iv -> length key = 32%nat -> length iv = 12%nat ->
  is_bytes aad -> is_bytes c -> zlen aad + zlen c < 2^24 - 46 ->
  (tag = aead_tag key iv aad c -> exists p, poly_decrypt key iv c aad tag = Ok p) /\
  (tag <> aead_tag key iv aad c -> poly_decrypt key iv c aad tag = Err BadRecordMac).
Proof.
  intros. rewrite poly_decrypt_spec by assumption. split.
  - intros ->. rewrite list_eqb_refl. eauto.
  - intros Hn. destruct (list_eqb _ _) eqn:E; [|reflexivity]. apply list_eqb_spec in E. congruence.
Qed.
Lemma sent_exact key iv p : (length p mod 64 <> 0 \/ length p = 0)%nat -> sent key iv p = chacha20_encrypt key iv 1 p.
Proof.
  intros [H|H]; unfold sent.
  - rewrite enc_part_full, firstn_all, skipn_all by assumption. apply app_nil_r.
  - destruct p; [reflexivity|discriminate].
Qed.
Lemma aead_is_rfc key iv aad p : is_bytes key -> is_bytes iv -> length key = 32%nat -> length iv = 12%nat ->
  is_bytes aad -> is_bytes p -> zlen aad + zlen p < 2^24 - 46 -> (length p mod 64 <> 0 \/ length p = 0)%nat ->
  poly_encrypt key iv p aad = Ok (chacha20_encrypt key iv 1 p, aead_tag key iv aad (chacha20_encrypt key iv 1 p)) /\
  poly_decrypt key iv p aad (aead_tag key iv aad p) = Ok (chacha20_encrypt key iv 1 p).
Proof.
  intros. rewrite poly_encrypt_spec, poly_decrypt_spec by assumption. rewrite list_eqb_refl, sent_exact by assumption.
  split; reflexivity.
Qed.
