From Verif Require Import Proofs.Util Proofs.Bytes Model.Sha2 Spec.Fips180.

(* ---- words ---- *)
Lemma lxor_ones x w : 0 <= w -> 0 <= x < 2^w -> Z.lxor x (2^w - 1) = 2^w - 1 - x.
Proof.
  intros Hw Hx.
  assert (2^w - 1 = Z.ones w) as E by (rewrite Z.ones_equiv; lia).
  assert (Z.land x (Z.lxor x (Z.ones w)) = 0) as D.
  { apply Z.bits_inj'. intros n Hn. rewrite Z.land_spec, Z.lxor_spec, Z.bits_0.
    destruct (Z_lt_dec n w).
    - rewrite Z.ones_spec_low by lia. now destruct (Z.testbit x n).
    - rewrite (testbit_above x w n) by lia. reflexivity. }
  assert (Z.lor x (Z.lxor x (Z.ones w)) = Z.ones w) as L.
  { apply Z.bits_inj'. intros n Hn. rewrite Z.lor_spec, Z.lxor_spec.
    destruct (Z_lt_dec n w).
    - rewrite Z.ones_spec_low by lia. now destruct (Z.testbit x n).
    - rewrite (testbit_above x w n) by lia. rewrite Z.ones_spec_high by lia. reflexivity. }
  rewrite E.
  assert (x + Z.lxor x (Z.ones w) = Z.ones w); [|lia].
  rewrite Z.add_nocarry_lxor by exact D.
  rewrite <- Z.lxor_assoc, Z.lxor_nilpotent. apply Z.lxor_0_l.
Qed.

Lemma plus_assoc V x y z : plus V (plus V x y) z = plus V x (plus V y z).
Proof.
  unfold plus. rewrite Zplus_mod_idemp_l, Zplus_mod_idemp_r. f_equal. lia.
Qed.

Section Words.
  Context (P : sha_params) (V : variant).
  Notation w := (sp_w P).
  Hypothesis Hw : w = v_w V.
  Hypothesis Hwpos : 8 <= w.
  Hypothesis Hmask : forall n, 0 < n < w -> Z.land (w - n) (w - 1) = w - n.
  Definition word (x : Z) : Prop := 0 <= x < 2 ^ w.
  Definition rots_ok (r : Z * Z * Z) := let '(a, b, c) := r in 0 < a < w /\ 0 < b < w /\ 0 < c < w.

  Lemma rotr_spec n x : 0 < n < w -> word x -> rotr P n x = ROTR V n x.
  Proof.
    intros Hn Hx. unfold rotr, ROTR, wtrunc, word in *. rewrite Hmask by lia. rewrite <- Hw.
    rewrite Z.shiftl_mul_pow2, Z.shiftr_div_pow2 by lia.
    assert (2^w = 2^n * 2^(w-n)) as E by (rewrite <- Z.pow_add_r by lia; f_equal; lia).
    assert (0 < 2^n) by lia. assert (0 < 2^(w-n)) by lia.
    assert ((x * 2^(w-n)) mod 2^w = (x mod 2^n) * 2^(w-n)) as ->.
    { rewrite E. rewrite Zmult_mod_distr_r. reflexivity. }
    rewrite Z.lor_comm, lor_mul_add; [lia|lia|].
    split; [apply Z.div_pos; lia|]. apply Z.div_lt_upper_bound; lia.
  Qed.
  Lemma ROTR_word n x : 0 < n < w -> word x -> word (ROTR V n x).
  Proof.
    intros Hn Hx. rewrite <- rotr_spec by assumption. unfold rotr, wtrunc, word in *.
    apply lor_bound; [lia| |apply Z.mod_pos_bound; lia].
    rewrite Z.shiftr_div_pow2 by lia. assert (0 < 2^n) by lia. split; [apply Z.div_pos; lia|].
    apply Z.le_lt_trans with x; [|lia]. apply Z.div_le_upper_bound; nia.
  Qed.
  Lemma bsig_spec r x : rots_ok r -> word x -> bsig P r x = Sigma V r x.
  Proof. destruct r as [[a b] c]. intros (Ha & Hb & Hc) Hx. unfold bsig, Sigma. now rewrite !rotr_spec. Qed.
  Lemma ssig_spec r x : rots_ok r -> word x -> ssig P r x = sigma V r x.
  Proof.
    destruct r as [[a b] c]. intros (Ha & Hb & Hc) Hx. unfold ssig, sigma, SHR.
    rewrite !rotr_spec by assumption. rewrite Z.shiftr_div_pow2 by lia. reflexivity.
  Qed.
  Lemma ch_spec x y z : word x -> ch P x y z = Ch V x y z.
  Proof. intros. unfold ch, Ch, NOT. rewrite lxor_ones, Hw by (unfold word in *; lia). reflexivity. Qed.
  Lemma add_plus x y : add P x y = plus V x y.
  Proof. unfold add, plus, wtrunc. now rewrite Hw. Qed.
  Lemma plus_word x y : word (plus V x y).
  Proof. unfold plus, word. rewrite <- Hw. apply Z.mod_pos_bound. lia. Qed.
  Lemma load_word_val bs : is_bytes bs -> 8 * zlen bs <= w ->
    load_word P bs (8 * zlen bs - 8) = be_val bs.
  Proof.
    induction 1 as [|b bs Hb Hbs IH]; intros Hl; [reflexivity|].
    unfold zlen in *. cbn [load_word length] in *. rewrite be_val_cons.
    replace (8 * Z.of_nat (S (length bs)) - 8 - 8) with (8 * Z.of_nat (length bs) - 8) by lia.
    rewrite IH by lia. f_equal. unfold zlen.
    rewrite Z.shiftl_mul_pow2 by lia.
    replace (8 * Z.of_nat (S (length bs)) - 8) with (8 * Z.of_nat (length bs)) by lia.
    unfold wtrunc. rewrite Z.mod_small.
    - rewrite Z.pow_mul_r by lia. reflexivity.
    - unfold is_byte in Hb. rewrite Nat2Z.inj_succ in Hl.
      assert (2 ^ (8 + 8 * Z.of_nat (length bs)) <= 2^w) by (apply Z.pow_le_mono_r; lia).
      rewrite Z.pow_add_r in H by lia. change (2^8) with 256 in H. nia.
  Qed.
End Words.

(* ---- pieces ---- *)
Lemma pieces_nil f k : pieces f k [] = [].
Proof. destruct f; reflexivity. Qed.
Lemma pieces_fuel f1 f2 k l : (0 < k)%nat -> (length l <= f1)%nat -> (length l <= f2)%nat ->
  pieces f1 k l = pieces f2 k l.
Proof.
  intros Hk. revert f2 l. induction f1 as [|f1 IH]; intros f2 l H1 H2.
  - destruct l; [|cbn in H1; lia]. now rewrite !pieces_nil.
  - destruct l as [|x l]; [now rewrite !pieces_nil|].
    destruct f2 as [|f2]; [cbn in H2; lia|]. cbn [pieces]. f_equal. apply IH.
    + rewrite skipn_length. cbn [length] in *. lia.
    + rewrite skipn_length. cbn [length] in *. lia.
Qed.
Lemma pieces_app k a l f : (0 < k)%nat -> length a = k -> (length (a ++ l) <= f)%nat ->
  pieces f k (a ++ l) = a :: pieces (length l) k l.
Proof.
  intros Hk Ha Hf. destruct f as [|f].
  - rewrite app_length in Hf. lia.
  - destruct a as [|x a]; [cbn in Ha; lia|]. cbn [pieces app].
    change (x :: a ++ l) with ((x :: a) ++ l).
    rewrite firstn_app_eq, skipn_app_eq by lia. f_equal. apply pieces_fuel; [assumption| |lia].
    rewrite app_length in Hf. cbn in Hf, Ha. lia.
Qed.
Lemma pieces_nth k l t : (0 < k)%nat -> (S t * k <= length l)%nat ->
  nth t (pieces (length l) k l) [] = firstn k (skipn (t * k) l).
Proof.
  intros Hk. revert l. induction t as [|t IH]; intros l Hl.
  - destruct l as [|x l]; [cbn in Hl; lia|]. reflexivity.
  - assert (l = firstn k l ++ skipn k l) as E by (symmetry; apply firstn_skipn).
    assert (length (firstn k l) = k) as L by (rewrite firstn_length; lia).
    rewrite E at 1 2. rewrite pieces_app; [|lia|assumption|lia].
    cbn [nth]. rewrite IH by (rewrite skipn_length; lia).
    rewrite skipn_skipn. do 2 f_equal. lia.
Qed.
Lemma pieces_length k m l : (0 < k)%nat -> length l = (m * k)%nat ->
  length (pieces (length l) k l) = m.
Proof.
  intros Hk. revert l. induction m as [|m IH]; intros l Hl.
  - destruct l; [reflexivity|discriminate].
  - rewrite <- (firstn_skipn k l). rewrite pieces_app; [|lia|rewrite firstn_length; lia|lia].
    cbn [length]. rewrite IH; [reflexivity|]. rewrite skipn_length. lia.
Qed.

Section Block.
  Context (P : sha_params) (V : variant).
  Notation w := (sp_w P).
  Notation wb := (word_bytes P).
  Hypothesis Hw : w = v_w V.
  Hypothesis Hwpos : 8 <= w.
  Hypothesis Hwb : Z.of_nat wb * 8 = w.
  Hypothesis Hmask : forall n, 0 < n < w -> Z.land (w - n) (w - 1) = w - n.
  Hypothesis Hblk : sp_block P = (16 * wb)%nat.
  Hypothesis Hrounds : sp_rounds P = v_rounds V.
  Hypothesis Hrge : (16 <= sp_rounds P)%nat.
  Hypothesis Hk : sp_k P = K V.
  Hypothesis Hklen : length (K V) = sp_rounds P.
  Hypothesis HS0 : sp_b0 P = v_S0 V. Hypothesis HS1 : sp_b1 P = v_S1 V.
  Hypothesis Hs0 : sp_s0 P = v_s0 V. Hypothesis Hs1 : sp_s1 P = v_s1 V.
  Hypothesis R0 : rots_ok P (v_S0 V). Hypothesis R1 : rots_ok P (v_S1 V).
  Hypothesis r0 : rots_ok P (v_s0 V). Hypothesis r1 : rots_ok P (v_s1 V).

  Lemma ssig' r x : rots_ok P r -> word P x -> ssig P r x = sigma V r x.
  Proof. intros; eapply ssig_spec; eauto. Qed.
  Lemma bsig' r x : rots_ok P r -> word P x -> bsig P r x = Sigma V r x.
  Proof. intros; eapply bsig_spec; eauto. Qed.
  Lemma ch' x y z : word P x -> ch P x y z = Ch V x y z.
  Proof. intros; eapply ch_spec; eauto. Qed.
  Lemma add' x y : add P x y = plus V x y.
  Proof. intros; eapply add_plus; eauto. Qed.

  Lemma wb_eq : wbytes V = wb.
  Proof. unfold wbytes, word_bytes. now rewrite Hw. Qed.
  Lemma wb_pos : (0 < wb)%nat.
  Proof. lia. Qed.

  Lemma input_word_spec block t : is_bytes block -> length block = sp_block P -> (t < 16)%nat ->
    input_word P block t = nth t (words V block) 0 /\ word P (input_word P block t).
  Proof.
    intros Hb Hl Ht. pose proof wb_pos as Hp. rewrite Hblk in Hl.
    assert (is_bytes (firstn wb (skipn (t * wb) block))) as HB
      by now apply is_bytes_firstn, is_bytes_skipn.
    assert (S t * wb <= 16 * wb)%nat as HT by (apply Nat.mul_le_mono_r; lia).
    assert (length (firstn wb (skipn (t * wb) block)) = wb) as HL.
    { rewrite firstn_length, skipn_length. lia. }
    assert (input_word P block t = be_val (firstn wb (skipn (t * wb) block))) as E.
    { unfold input_word. rewrite <- load_word_val with (P := P); auto.
      - f_equal. unfold zlen. rewrite HL. lia.
      - unfold zlen. rewrite HL. lia. }
    split.
    - rewrite E. unfold words. rewrite wb_eq.
      change 0 with (be_val []). rewrite map_nth. f_equal.
      symmetry. apply pieces_nth; lia.
    - rewrite E. unfold word. pose proof (be_val_range _ HB) as R. unfold zlen in R. rewrite HL in R.
      replace (2^w) with (256 ^ Z.of_nat wb); [exact R|].
      change 256 with (2^8). rewrite <- Z.pow_mul_r by lia. f_equal. lia.
  Qed.

  Lemma words_length block : length block = sp_block P -> length (words V block) = 16%nat.
  Proof.
    intros Hl. unfold words. rewrite map_length, wb_eq. apply pieces_length; [apply wb_pos|].
    now rewrite Hl, Hblk.
  Qed.

  (* the schedule *)
  Definition rec_word (W : list Z) (t : nat) : Z :=
    plus V (plus V (plus V (sigma V (v_s1 V) (nth (t - 2) W 0)) (nth (t - 7) W 0))
                   (sigma V (v_s0 V) (nth (t - 15) W 0))) (nth (t - 16) W 0).
  Lemma rec_word_app W X t : (16 <= t)%nat -> (t <= length W)%nat -> rec_word (W ++ X) t = rec_word W t.
  Proof. intros. unfold rec_word. rewrite !app_nth1 by lia. reflexivity. Qed.

  Lemma extend_spec k ws : (16 <= length ws)%nat ->
    length (extend V k ws) = (length ws + k)%nat /\
    (exists tl, extend V k ws = ws ++ tl) /\
    forall t, (length ws <= t < length ws + k)%nat -> nth t (extend V k ws) 0 = rec_word (extend V k ws) t.
  Proof.
    revert ws. induction k as [|k IH]; intros ws Hl.
    - cbn [extend]. split; [lia|]. split; [exists []; now rewrite app_nil_r|]. intros; lia.
    - cbn [extend].
      match goal with |- context [extend V k (ws ++ [?x])] => change x with (rec_word ws (length ws)) end.
      destruct (IH (ws ++ [rec_word ws (length ws)])) as (L & (tl & T) & N).
      { rewrite app_length. cbn. lia. }
      rewrite app_length in L. cbn [length] in L.
      split; [lia|]. split.
      + exists (rec_word ws (length ws) :: tl). rewrite T, <- app_assoc. reflexivity.
      + intros t Ht. destruct (Nat.eq_dec t (length ws)) as [->|Hne].
        * rewrite T. rewrite <- app_assoc. rewrite app_nth2, Nat.sub_diag by lia. cbn [app nth].
          rewrite rec_word_app by lia. reflexivity.
        * apply N. rewrite app_length. cbn. lia.
  Qed.

  Lemma schedule_spec block : is_bytes block -> length block = sp_block P ->
    let W := schedule V block in
    length W = sp_rounds P /\
    (forall t, (t < 16)%nat -> nth t W 0 = input_word P block t) /\
    (forall t, (16 <= t < sp_rounds P)%nat -> nth t W 0 = rec_word W t) /\
    (forall t, (t < sp_rounds P)%nat -> word P (nth t W 0)).
  Proof.
    intros Hb Hl W. pose proof (words_length block Hl) as HL.
    destruct (extend_spec (v_rounds V - 16) (words V block)) as (L & (tl & T) & N); [lia|].
    fold (schedule V block) in L, T, N. fold W in L, T, N.
    assert (forall t, (t < 16)%nat -> nth t W 0 = input_word P block t) as A.
    { intros t Ht. rewrite T, app_nth1 by lia.
      now rewrite (proj1 (input_word_spec block t Hb Hl Ht)). }
    assert (forall t, (16 <= t < sp_rounds P)%nat -> nth t W 0 = rec_word W t) as B.
    { intros t Ht. apply N. lia. }
    split; [lia|]. split; [exact A|]. split; [exact B|].
    intros t Ht. destruct (Nat.lt_ge_cases t 16).
    - rewrite A by assumption. now apply input_word_spec.
    - rewrite B by lia. (eapply plus_word; eauto).
  Qed.

  (* round by round *)
  Definition pack_regs (s : regs) := (ra s, rb s, rc s, rd s, re s, rf s, rg s, rh s).
  Definition regs_ok (s : regs) : Prop :=
    word P (ra s) /\ word P (rb s) /\ word P (rc s) /\ word P (rd s) /\
    word P (re s) /\ word P (rf s) /\ word P (rg s) /\ word P (rh s).

  Lemma round_ok s k x : regs_ok s -> regs_ok (round V s (k, x)).
  Proof.
    intros (A & B & C & D & E & F & G & H). unfold regs_ok, round; cbn.
    repeat split; try (eapply plus_word; eauto); assumption || (apply A || apply B || apply C || apply E || apply F || apply G).
  Qed.

  Lemma rounds_spec block s0' t : is_bytes block -> length block = sp_block P -> regs_ok s0' ->
    (t <= sp_rounds P)%nat ->
    let W := schedule V block in
    let st := fold_left (round V) (firstn t (combine (K V) W)) s0' in
    regs_ok st /\
    fold_left (round_step P block) (seq 0 t) ([], pack_regs s0') = (firstn t W, pack_regs st).
  Proof.
    intros Hb Hl Hok. induction t as [|t IH]; intros Ht W st.
    - cbn [firstn fold_left seq] in *. split; [exact Hok|reflexivity].
    - destruct IH as [IHok IHe]; [lia|]. fold W in IHok, IHe.
      destruct (schedule_spec block Hb Hl) as (SL & SA & SB & SW). fold W in SL, SA, SB, SW.
      set (st' := fold_left (round V) (firstn t (combine (K V) W)) s0') in *.
      assert (length (combine (K V) W) = sp_rounds P) as CL by (rewrite combine_length; lia).
      assert (st = round V st' (nth t (K V) 0, nth t W 0)) as Est.
      { unfold st. rewrite (firstn_snoc _ t (0, 0)) by lia. rewrite fold_left_app. cbn [fold_left].
        rewrite combine_nth by lia. reflexivity. }
      split.
      + rewrite Est. now apply round_ok.
      + rewrite seq_S, fold_left_app. cbn [fold_left Nat.add]. rewrite IHe.
        assert (forall i, (i < t)%nat -> nth i (firstn t W) 0 = nth i W 0) as NF
          by (intros; now apply nth_firstn).
        unfold round_step, pack_regs at 1.
        set (wt := if Nat.leb t 15 then _ else _).
        assert (wt = nth t W 0) as Ewt.
        { unfold wt. destruct (Nat.leb_spec t 15).
          - rewrite SA by lia. reflexivity.
          - rewrite SB by lia. unfold rec_word. rewrite !NF by lia.
            rewrite !ssig', !add', Hs0, Hs1
              by (try (rewrite Hs0 || rewrite Hs1); auto; apply SW; lia).
            rewrite !(plus_assoc V). reflexivity. }
        rewrite Ewt. rewrite (firstn_snoc W t 0) by lia. rewrite Est.
        destruct IHok as (A & B & C & D & E & F & G & H).
        unfold round, pack_regs. cbn [ra rb rc rd re rf rg rh].
        rewrite !add', ch', HS0, HS1,
          !bsig' by auto.
        rewrite Hk. unfold maj, Maj. rewrite !(plus_assoc V). reflexivity.
  Qed.

  Definition state_ok (H : list Z) : Prop := length H = 8%nat /\ Forall (word P) H.

  Lemma word0 : word P 0.
  Proof. unfold word. lia. Qed.
  Lemma state_nth H i : state_ok H -> word P (nth i H 0).
  Proof.
    intros [L F]. destruct (Nat.lt_ge_cases i (length H)).
    - rewrite Forall_forall in F. apply F. now apply nth_In.
    - rewrite nth_overflow by lia. apply word0.
  Qed.

  Lemma calc_round_spec H block : state_ok H -> is_bytes block -> length block = sp_block P ->
    calc_round P H block = compress V H block /\ state_ok (compress V H block).
  Proof.
    intros HH Hb Hl. split.
    - unfold calc_round, compress.
      set (s0' := {| ra := nth 0 H 0; rb := nth 1 H 0; rc := nth 2 H 0; rd := nth 3 H 0;
                     re := nth 4 H 0; rf := nth 5 H 0; rg := nth 6 H 0; rh := nth 7 H 0 |}).
      assert (regs_ok s0') as Hok by (unfold regs_ok; cbn; repeat split; apply state_nth; assumption).
      destruct (rounds_spec block s0' (sp_rounds P) Hb Hl Hok (le_n _)) as [_ E].
      change (nth 0 H 0, nth 1 H 0, nth 2 H 0, nth 3 H 0, nth 4 H 0, nth 5 H 0, nth 6 H 0, nth 7 H 0)
        with (pack_regs s0').
      rewrite E. unfold pack_regs.
      destruct (schedule_spec block Hb Hl) as (SL & _).
      rewrite (firstn_all2 (combine (K V) (schedule V block))) by (rewrite combine_length; lia).
      rewrite !add'. reflexivity.
    - unfold compress. split; [reflexivity|].
      repeat constructor; (eapply plus_word; eauto).
  Qed.

  (* ---- absorbing bytes ---- *)
  Lemma feed_short st pend b : (length pend + 1 < sp_block P)%nat ->
    feed P (st, pend) b = (st, pend ++ [b]).
  Proof.
    intros H. unfold feed. rewrite app_length. cbn [length].
    destruct (Nat.eqb_spec (length pend + 1) (sp_block P)); [lia|reflexivity].
  Qed.
  Lemma feed_partial st pend l : (length pend + length l < sp_block P)%nat ->
    fold_left (feed P) l (st, pend) = (st, pend ++ l).
  Proof.
    revert pend. induction l as [|b l IH]; intros pend Hl; cbn [fold_left].
    - now rewrite app_nil_r.
    - cbn [length] in Hl. rewrite (feed_short st pend b) by lia.
      rewrite IH by (rewrite app_length; cbn; lia). now rewrite <- app_assoc.
  Qed.
  Lemma feed_block st pend b l : (length pend + length (b :: l) = sp_block P)%nat ->
    fold_left (feed P) (b :: l) (st, pend) = (calc_round P st (pend ++ b :: l), []).
  Proof.
    revert pend b. induction l as [|c l IH]; intros pend b Hl; cbn [fold_left].
    - unfold feed. rewrite app_length. cbn [length] in *. rewrite Hl, Nat.eqb_refl. reflexivity.
    - cbn [length] in Hl. rewrite (feed_short st pend b) by lia.
      change (fold_left (feed P) l (feed P (st, pend ++ [b]) c))
        with (fold_left (feed P) (c :: l) (st, pend ++ [b])).
      rewrite IH by (rewrite app_length; cbn; lia). now rewrite <- app_assoc.
  Qed.
  Lemma feed_blocks st l m : length l = (m * sp_block P)%nat ->
    fold_left (feed P) l (st, []) = (fold_left (calc_round P) (pieces (length l) (sp_block P) l) st, []).
  Proof.
    assert (0 < sp_block P)%nat as HB by (rewrite Hblk; pose proof wb_pos; lia).
    revert st l. induction m as [|m IH]; intros st l Hl.
    - destruct l; [reflexivity|discriminate].
    - rewrite <- (firstn_skipn (sp_block P) l) at 1 3.
      assert (length (firstn (sp_block P) l) = sp_block P) as L by (rewrite firstn_length; lia).
      rewrite pieces_app; [|assumption|assumption|rewrite firstn_skipn; lia].
      rewrite fold_left_app. cbn [fold_left].
      destruct (firstn (sp_block P) l) as [|b l'] eqn:E; [cbn in L; lia|].
      rewrite feed_block by (cbn [length] in *; lia). cbn [app].
      rewrite IH by (rewrite skipn_length; lia). reflexivity.
  Qed.
  Lemma compress_blocks st l m : state_ok st -> is_bytes l -> length l = (m * sp_block P)%nat ->
    fold_left (calc_round P) (pieces (length l) (sp_block P) l) st
    = fold_left (compress V) (pieces (length l) (sp_block P) l) st
    /\ state_ok (fold_left (compress V) (pieces (length l) (sp_block P) l) st).
  Proof.
    assert (0 < sp_block P)%nat as HB by (rewrite Hblk; pose proof wb_pos; lia).
    revert st l. induction m as [|m IH]; intros st l Hs Hb Hl.
    - destruct l; [split; [reflexivity|assumption]|discriminate].
    - rewrite <- (firstn_skipn (sp_block P) l) at 2 4 6.
      assert (length (firstn (sp_block P) l) = sp_block P) as L by (rewrite firstn_length; lia).
      rewrite pieces_app; [|assumption|assumption|rewrite firstn_skipn; lia].
      cbn [fold_left].
      destruct (calc_round_spec st (firstn (sp_block P) l)) as [E1 E2];
        [assumption|now apply is_bytes_firstn|assumption|].
      rewrite E1. apply IH; [assumption|now apply is_bytes_skipn|]. rewrite skipn_length. lia.
  Qed.

  Lemma update_app s a b : sha_update P (sha_update P s a) b = sha_update P s (a ++ b).
  Proof.
    unfold sha_update. destruct (fold_left (feed P) a (s_state s, s_pend s)) as [st pend] eqn:E.
    cbn. rewrite fold_left_app, E. destruct (fold_left (feed P) b (st, pend)).
    f_equal. unfold zlen. rewrite app_length. lia.
  Qed.

  (* ---- padding ---- *)
  Hypothesis Hlenhi : sp_lenhi P = (2 * wb)%nat.
  Hypothesis Hpadmin : sp_padmin P = (1 + 2 * wb)%nat.
  Hypothesis Hpadz : forall len, (0 <= len) ->
    let n := (sp_block P - Z.to_nat (len mod Z.of_nat (sp_block P)))%nat in
    (0 < n)%nat /\
    pad_zeros V (Z.to_nat len)
    = if Nat.ltb n (sp_padmin P) then (n - 1 + (sp_block P - 2 * wb))%nat else (n - 1 - 2 * wb)%nat.
  Hypothesis Hiv : sp_iv P = v_H0 V.
  Hypothesis Hivok : state_ok (v_H0 V).

  Lemma set_nth_split (a b : list Z) x v n : n = length a -> set_nth n v (a ++ x :: b) = a ++ v :: b.
  Proof.
    intros ->. unfold set_nth. rewrite firstn_app_l.
    replace (a ++ x :: b) with ((a ++ [x]) ++ b) by now rewrite <- app_assoc.
    rewrite skipn_app_eq by (rewrite app_length; cbn; lia). reflexivity.
  Qed.
  Lemma be_enc_S k x : be_enc (S k) x = (x / 256 ^ Z.of_nat k) mod 256 :: be_enc k x.
  Proof.
    unfold be_enc. replace (S k) with (k + 1)%nat by lia. rewrite le_enc_app, rev_app_distr. reflexivity.
  Qed.
  Lemma put_len_loop len n p k : (k <= n)%nat -> (n <= length p)%nat ->
    fold_left (fun p i => set_nth (n - i) (u8 (Z.shiftr (len * 8) ((Z.of_nat i - 1) * 8))) p)
      (seq 1 k) p
    = firstn (n - k) p ++ be_enc k (len * 8) ++ skipn n p.
  Proof.
    induction k as [|k IH]; intros Hkn Hn.
    - cbn [seq fold_left]. rewrite Nat.sub_0_r. change (be_enc 0 (len * 8)) with (@nil Z).
      cbn [app]. symmetry. apply firstn_skipn.
    - rewrite seq_S, fold_left_app, IH by lia. cbn [fold_left].
      replace (n - k)%nat with (S (n - S k)) by lia.
      rewrite (firstn_snoc p (n - S k) 0) by lia. rewrite <- app_assoc. cbn [app].
      replace (n - (1 + k))%nat with (n - S k)%nat by lia.
      rewrite set_nth_split by (rewrite firstn_length; lia).
      rewrite be_enc_S. cbn [app]. do 2 f_equal.
      unfold u8. rewrite Z.shiftr_div_pow2 by lia. change (2^8) with 256. do 2 f_equal.
      replace ((Z.of_nat (1 + k) - 1) * 8) with (8 * Z.of_nat k) by lia.
      rewrite Z.pow_mul_r by lia. reflexivity.
  Qed.

  Lemma put_len_spec len n p : 0 <= len -> len * 8 < 256 ^ Z.of_nat (2 * wb - 1) ->
    (2 * wb <= n)%nat -> (n <= length p)%nat ->
    nth (n - 2 * wb) p 0 = 0 ->
    firstn n (put_len P len n p) = firstn (n - 2 * wb) p ++ be_enc (2 * wb) (8 * len).
  Proof.
    intros Hlen Hlt Hn Hp Hz. unfold put_len. rewrite Hlenhi. pose proof wb_pos.
    rewrite put_len_loop by lia.
    replace (n - (2 * wb - 1))%nat with (S (n - 2 * wb)) by lia.
    rewrite (firstn_snoc p (n - 2 * wb) 0), Hz by lia.
    rewrite app_assoc. rewrite firstn_app_eq.
    2:{ rewrite !app_length, be_enc_length, firstn_length. cbn [length]. lia. }
    rewrite <- app_assoc. f_equal. cbn [app].
    replace (2 * wb)%nat with (S (2 * wb - 1)) at 2 by lia. rewrite be_enc_S.
    rewrite (Z.mul_comm 8). rewrite Z.div_small by lia. reflexivity.
  Qed.

  Lemma firstn_repeat0 a b : (a <= b)%nat -> firstn a (repeat 0 b) = repeat 0 a.
  Proof. revert b. induction a; intros [|b] H; cbn; try lia; [reflexivity..|]. now rewrite IHa by lia. Qed.

  Lemma padding_spec s : 0 <= s_len s -> s_len s * 8 < 256 ^ Z.of_nat (2 * wb - 1) ->
    padd_input P s = sha_update P s ([128] ++ repeat 0 (pad_zeros V (Z.to_nat (s_len s)))
                                      ++ be_enc (2 * wb) (8 * s_len s)).
  Proof.
    intros Hlen Hlt. unfold padd_input.
    destruct (Hpadz (s_len s) Hlen) as [Hnpos Hz].
    set (n := (sp_block P - Z.to_nat (s_len s mod Z.of_nat (sp_block P)))%nat) in *.
    pose proof wb_pos. assert (n <= sp_block P)%nat by (unfold n; lia).
    clearbody n.
    destruct (Nat.ltb_spec 0 n); [|lia].
    assert (exists B', sp_block P = S B') as [B' HB'] by (exists (sp_block P - 1)%nat; lia).
    assert (set_nth 0 128 (repeat 0 (sp_block P)) = 128 :: repeat 0 B') as E1 by (rewrite HB'; reflexivity).
    assert (set_nth 0 0 (128 :: repeat 0 B') = repeat 0 (sp_block P)) as E2 by (rewrite HB'; reflexivity).
    rewrite E1, E2. rewrite Hz.
    assert (firstn n (128 :: repeat 0 B') = 128 :: repeat 0 (n - 1)) as E3.
    { destruct n as [|n']; [lia|]. cbn [firstn]. rewrite firstn_repeat0 by lia. do 2 f_equal. lia. }
    destruct (Nat.ltb_spec n (sp_padmin P)) as [Hsmall|Hbig].
    - rewrite put_len_spec; auto; try lia.
      2:{ rewrite repeat_length. lia. }
      2:{ apply nth_repeat. }
      rewrite update_app. f_equal. rewrite E3. cbn [app]. f_equal. rewrite app_assoc. f_equal.
      rewrite firstn_repeat0 by lia. rewrite <- repeat_app. reflexivity.
    - rewrite put_len_spec; auto; try lia.
      2:{ cbn [length]. rewrite repeat_length. lia. }
      2:{ replace (n - 2 * wb)%nat with (S (n - 2 * wb - 1)) by lia. cbn [nth]. apply nth_repeat. }
      f_equal. replace (n - 2 * wb)%nat with (S (n - 1 - 2 * wb)) by lia. cbn [firstn app]. f_equal.
      rewrite firstn_repeat0 by lia. reflexivity.
  Qed.

  Lemma block_mul m : exists q, length (pad V m) = (q * sp_block P)%nat.
  Proof.
    unfold pad. rewrite !app_length, be_enc_length, repeat_length. cbn [length]. rewrite wb_eq.
    unfold pad_zeros, block_bytes. rewrite wb_eq. rewrite <- Hblk.
    assert (sp_block P <> 0)%nat as HB by (rewrite Hblk; pose proof wb_pos; lia).
    set (B := sp_block P) in *. set (x := (length m + 1 + 2 * wb)%nat).
    pose proof (Nat.mod_upper_bound x B HB). pose proof (Nat.div_mod x B HB).
    exists (x / B + (if Nat.eqb (x mod B) 0 then 0 else 1))%nat.
    destruct (Nat.eqb_spec (x mod B) 0) as [E|E].
    - rewrite E, Nat.sub_0_r, Nat.mod_same by assumption. rewrite E in H0.
      replace (length m + (1 + (0 + 2 * wb)))%nat with x by (unfold x; lia). nia.
    - rewrite (Nat.mod_small (B - x mod B)) by lia.
      replace (length m + (1 + (B - x mod B + 2 * wb)))%nat with (x + (B - x mod B))%nat by (unfold x; lia).
      nia.
  Qed.

  Lemma pad_bytes m : is_bytes m -> is_bytes (pad V m).
  Proof.
    intros. unfold pad. rewrite !is_bytes_app. repeat split; try assumption.
    - repeat constructor; unfold is_byte; lia.
    - apply is_bytes_repeat; unfold is_byte; lia.
    - apply be_enc_bytes.
  Qed.

  Lemma final_state m : is_bytes m -> zlen m * 8 < 256 ^ Z.of_nat (2 * wb - 1) ->
    s_state (padd_input P (sha_update P (sha_new P) m)) = fold_left (compress V) (blocks V (pad V m)) (v_H0 V).
  Proof.
    intros Hm Hlt.
    assert (s_len (sha_update P (sha_new P) m) = zlen m) as L.
    { unfold sha_update, sha_new. cbn [s_state s_pend s_len].
      destruct (fold_left (feed P) m _). reflexivity. }
    rewrite padding_spec by (rewrite L; try assumption; unfold zlen; lia). rewrite L.
    rewrite update_app.
    assert (m ++ [128] ++ repeat 0 (pad_zeros V (Z.to_nat (zlen m))) ++ be_enc (2 * wb) (8 * zlen m) = pad V m) as ->.
    { unfold pad, zlen. rewrite Nat2Z.id, wb_eq. reflexivity. }
    unfold sha_update, sha_new. cbn [s_state s_pend s_len].
    destruct (block_mul m) as [q Hq]. rewrite (feed_blocks _ _ q Hq). cbn [s_state].
    rewrite Hiv. unfold blocks. replace (block_bytes V) with (sp_block P) by (unfold block_bytes; rewrite wb_eq; exact Hblk).
    apply compress_blocks with (m := q); auto using pad_bytes.
  Qed.
  Lemma final_state_ok m : is_bytes m ->
    state_ok (fold_left (compress V) (blocks V (pad V m)) (v_H0 V)).
  Proof.
    intros Hm. unfold blocks. replace (block_bytes V) with (sp_block P) by (unfold block_bytes; rewrite wb_eq; exact Hblk).
    destruct (block_mul m) as [q Hq]. apply compress_blocks with (m := q); auto using pad_bytes.
  Qed.
End Block.

(* ---- the two instances ---- *)
Lemma K256 : sp_k sha256_params = K SHA_256.
Proof. vm_compute. reflexivity. Qed.
Lemma K384 : sp_k sha384_params = K SHA_384.
Proof. vm_compute. reflexivity. Qed.
Lemma IV256 : sp_iv sha256_params = v_H0 SHA_256.
Proof. vm_compute. reflexivity. Qed.
Lemma IV384 : sp_iv sha384_params = v_H0 SHA_384.
Proof. vm_compute. reflexivity. Qed.

Lemma be_enc_4 x : be_enc 4 x = [u8 (Z.shiftr x 24); u8 (Z.shiftr x 16); u8 (Z.shiftr x 8); u8 (Z.shiftr x 0)].
Proof. unfold be_enc. rewrite <- map_shift_le. reflexivity. Qed.
Lemma be_enc_8 x : be_enc 8 x =
  [u8 (Z.shiftr x 56); u8 (Z.shiftr x 48); u8 (Z.shiftr x 40); u8 (Z.shiftr x 32);
   u8 (Z.shiftr x 24); u8 (Z.shiftr x 16); u8 (Z.shiftr x 8); u8 (Z.shiftr x 0)].
Proof. unfold be_enc. rewrite <- map_shift_le. reflexivity. Qed.

Lemma mask256 n : 0 < n < 32 -> Z.land (32 - n) (32 - 1) = 32 - n.
Proof. intros. change (32 - 1) with (2^5 - 1). rewrite land_mask by lia. apply Z.mod_small. lia. Qed.
Lemma mask384 n : 0 < n < 64 -> Z.land (64 - n) (64 - 1) = 64 - n.
Proof. intros. change (64 - 1) with (2^6 - 1). rewrite land_mask by lia. apply Z.mod_small. lia. Qed.

Lemma padz256 len : 0 <= len ->
  let n := (64 - Z.to_nat (len mod Z.of_nat 64))%nat in
  (0 < n)%nat /\
  pad_zeros SHA_256 (Z.to_nat len) = if Nat.ltb n 9 then (n - 1 + (64 - 2 * 4))%nat else (n - 1 - 2 * 4)%nat.
Proof.
  intros Hl n. subst n. split; [lia|]. unfold pad_zeros, block_bytes.
  change (wbytes SHA_256) with 4%nat. change (16 * 4)%nat with 64%nat. change (Z.of_nat 64) with 64.
  destruct (Nat.ltb_spec (64 - Z.to_nat (len mod 64)) 9); lia.
Qed.
Lemma padz384 len : 0 <= len ->
  let n := (128 - Z.to_nat (len mod Z.of_nat 128))%nat in
  (0 < n)%nat /\
  pad_zeros SHA_384 (Z.to_nat len) = if Nat.ltb n 17 then (n - 1 + (128 - 2 * 8))%nat else (n - 1 - 2 * 8)%nat.
Proof.
  intros Hl n. subst n. split; [lia|]. unfold pad_zeros, block_bytes.
  change (wbytes SHA_384) with 8%nat. change (16 * 8)%nat with 128%nat. change (Z.of_nat 128) with 128.
  destruct (Nat.ltb_spec (128 - Z.to_nat (len mod 128)) 17); lia.
Qed.

Lemma iv256_ok : state_ok sha256_params (v_H0 SHA_256).
Proof. rewrite <- IV256. split; [reflexivity|]. unfold word. cbn. repeat constructor; lia. Qed.
Lemma iv384_ok : state_ok sha384_params (v_H0 SHA_384).
Proof. rewrite <- IV384. split; [reflexivity|]. unfold word. cbn. repeat constructor; lia. Qed.

Ltac rots := cbn; repeat split; lia.

Lemma sha256_correct m : is_bytes m -> zlen m < 2^53 -> sha256 m = sha256_spec m.
Proof.
  intros Hm Hl. unfold sha256, sha_digest, finalize.
  assert (Klen : length (K SHA_256) = 64%nat) by (rewrite <- K256; reflexivity).
  assert (Hlt : zlen m * 8 < 256 ^ Z.of_nat (2 * 4 - 1)).
  { change (256 ^ Z.of_nat (2 * 4 - 1)) with (2^56). lia. }
  pose proof (final_state sha256_params SHA_256 eq_refl ltac:(cbn; lia) eq_refl mask256 eq_refl eq_refl
     ltac:(cbn; lia) K256 Klen eq_refl eq_refl eq_refl eq_refl ltac:(rots) ltac:(rots) ltac:(rots) ltac:(rots)
     eq_refl eq_refl padz256 IV256 iv256_ok m Hm Hlt) as F.
  pose proof (final_state_ok sha256_params SHA_256 eq_refl ltac:(cbn; lia) eq_refl mask256 eq_refl eq_refl
     ltac:(cbn; lia) K256 Klen eq_refl eq_refl eq_refl eq_refl ltac:(rots) ltac:(rots) ltac:(rots) ltac:(rots)
     eq_refl eq_refl padz256 iv256_ok m Hm) as G.
  rewrite F. unfold sha256_spec, hash.
  set (H := fold_left (compress SHA_256) (blocks SHA_256 (pad SHA_256 m)) (v_H0 SHA_256)) in *.
  clearbody H. destruct G as [G _].
  do 8 (destruct H as [|? H]; [discriminate G|]). destruct H; [|discriminate G].
  change (wbytes SHA_256) with 4%nat. change (v_out SHA_256) with 32%nat.
  cbn [flat_map]. rewrite !be_enc_4. reflexivity.
Qed.

Lemma sha384_correct m : is_bytes m -> zlen m < 2^117 -> sha384 m = sha384_spec m.
Proof.
  intros Hm Hl. unfold sha384, sha_digest, finalize.
  assert (Klen : length (K SHA_384) = 80%nat) by (rewrite <- K384; reflexivity).
  assert (Hlt : zlen m * 8 < 256 ^ Z.of_nat (2 * 8 - 1)).
  { change (256 ^ Z.of_nat (2 * 8 - 1)) with (2^120). lia. }
  pose proof (final_state sha384_params SHA_384 eq_refl ltac:(cbn; lia) eq_refl mask384 eq_refl eq_refl
     ltac:(cbn; lia) K384 Klen eq_refl eq_refl eq_refl eq_refl ltac:(rots) ltac:(rots) ltac:(rots) ltac:(rots)
     eq_refl eq_refl padz384 IV384 iv384_ok m Hm Hlt) as F.
  pose proof (final_state_ok sha384_params SHA_384 eq_refl ltac:(cbn; lia) eq_refl mask384 eq_refl eq_refl
     ltac:(cbn; lia) K384 Klen eq_refl eq_refl eq_refl eq_refl ltac:(rots) ltac:(rots) ltac:(rots) ltac:(rots)
     eq_refl eq_refl padz384 iv384_ok m Hm) as G.
  rewrite F. unfold sha384_spec, hash.
  set (H := fold_left (compress SHA_384) (blocks SHA_384 (pad SHA_384 m)) (v_H0 SHA_384)) in *.
  clearbody H. destruct G as [G _].
  do 8 (destruct H as [|? H]; [discriminate G|]). destruct H; [|discriminate G].
  change (wbytes SHA_384) with 8%nat. change (v_out SHA_384) with 48%nat.
  cbn [flat_map]. rewrite !be_enc_8. reflexivity.
Qed.
