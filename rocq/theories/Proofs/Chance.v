(* Counting the reads of /dev/urandom that give a number *)
From Coq Require Import Lia FinFun Zpow_facts.
From Verif Require Import Model.Base Spec.Enc Spec.Chance Proofs.Util Proofs.Bytes Model.Bytes Model.Rand.
From Verif Require Proofs.Rand.

(* ---- the strings ---- *)
Lemma byte_values_spec b : In b byte_values <-> is_byte b.
Proof.
  unfold byte_values, is_byte. rewrite in_map_iff. split.
  - intros (n & <- & H). apply in_seq in H. lia.
  - intros H. exists (Z.to_nat b). split; [lia|]. apply in_seq. lia.
Qed.
Lemma byte_values_nodup : NoDup byte_values.
Proof. unfold byte_values. apply Injective_map_NoDup; [intros x y; lia|apply seq_NoDup]. Qed.
Lemma strings_spec n : forall s, In s (strings n) <-> is_bytes s /\ length s = n.
Proof.
  induction n as [|n IH]; intros s; cbn [strings].
  - split; [intros [<-|[]]; split; [constructor|reflexivity]|]. intros (_ & H). destruct s; [left; reflexivity|discriminate].
  - rewrite in_flat_map. split.
    + intros (b & Hb & H). apply in_map_iff in H. destruct H as (t & <- & H). apply IH in H. apply byte_values_spec in Hb. destruct H as (B & L).
      split; [constructor; assumption|cbn [length]; lia].
    + intros (B & L). destruct s as [|b t]; [discriminate|]. apply Forall_cons_iff in B. destruct B as (B1 & B2). cbn [length] in L.
      exists b. split; [apply byte_values_spec; exact B1|]. apply in_map. apply IH. split; [exact B2|lia].
Qed.
Lemma nodup_flat {A B} (f : A -> list B) l : NoDup l -> (forall a, In a l -> NoDup (f a)) -> (forall a b x, In x (f a) -> In x (f b) -> a = b) -> NoDup (flat_map f l).
Proof.
  intros N F D. induction N as [|a l Ha N IH]; cbn [flat_map]; [constructor|].
  assert (IH' : NoDup (flat_map f l)) by (apply IH; intros b Hb; apply F; right; exact Hb).
  assert (Fa : NoDup (f a)) by (apply F; left; reflexivity).
  assert (Dj : forall x, In x (f a) -> ~ In x (flat_map f l)).
  { intros x Hx Hy. apply in_flat_map in Hy. destruct Hy as (b & Hb & Hy). rewrite (D a b x Hx Hy) in Ha. contradiction. }
  clear F IH. induction Fa as [|x la Hx Fa IHa]; [exact IH'|]. cbn [app]. constructor.
  - rewrite in_app_iff. intros [H|H]; [contradiction|]. apply (Dj x); [left; reflexivity|exact H].
  - apply IHa. intros y Hy. apply Dj. right. exact Hy.
Qed.
Lemma strings_nodup n : NoDup (strings n).
Proof.
  induction n as [|n IH]; cbn [strings]; [constructor; [intros []|constructor]|].
  apply nodup_flat; [exact byte_values_nodup| |].
  - intros b _. apply Injective_map_NoDup; [intros x y H; now injection H|exact IH].
  - intros a b x Ha Hb. apply in_map_iff in Ha, Hb. destruct Ha as (s & <- & _), Hb as (t & E & _). now injection E.
Qed.

(* ---- sums and counts ---- *)
Definition cnt {A} (f : A -> bool) (l : list A) : Z := Z.of_nat (length (filter f l)).
Lemma count_cnt n f : count n f = cnt f (strings n). Proof. reflexivity. Qed.
Lemma cnt_nil {A} (f : A -> bool) : cnt f [] = 0. Proof. reflexivity. Qed.
Lemma cnt_cons {A} (f : A -> bool) a l : cnt f (a :: l) = (if f a then 1 else 0) + cnt f l.
Proof. unfold cnt. cbn [filter]. destruct (f a); cbn [length]; lia. Qed.
Lemma cnt_app {A} (f : A -> bool) l l' : cnt f (l ++ l') = cnt f l + cnt f l'.
Proof. unfold cnt. rewrite filter_app, app_length. lia. Qed.
Lemma cnt_map {A B} (g : A -> B) (f : B -> bool) l : cnt f (map g l) = cnt (fun a => f (g a)) l.
Proof. induction l as [|a l IH]; [reflexivity|]. cbn [map]. rewrite !cnt_cons, IH. reflexivity. Qed.
Lemma cnt_ext {A} (f g : A -> bool) l : (forall a, In a l -> f a = g a) -> cnt f l = cnt g l.
Proof. intros H. induction l as [|a l IH]; [reflexivity|]. rewrite !cnt_cons, IH, (H a); [reflexivity|left; reflexivity|]. intros b Hb. apply H. right. exact Hb. Qed.
Lemma cnt_nonneg {A} (f : A -> bool) l : 0 <= cnt f l. Proof. unfold cnt. lia. Qed.
Lemma cnt_const {A} b (l : list A) : cnt (fun _ => b) l = if b then Z.of_nat (length l) else 0.
Proof. induction l as [|a l IH]; [destruct b; reflexivity|]. rewrite cnt_cons, IH. destruct b; cbn [length]; lia. Qed.
Definition sum {A} (f : A -> Z) (l : list A) : Z := fold_right (fun a s => f a + s) 0 l.
Lemma sum_ext {A} (f g : A -> Z) l : (forall a, In a l -> f a = g a) -> sum f l = sum g l.
Proof. intros H. induction l as [|a l IH]; [reflexivity|]. cbn [sum fold_right]. fold (sum f l) (sum g l). rewrite IH, (H a); [reflexivity|left; reflexivity|]. intros b Hb. apply H. right. exact Hb. Qed.
Lemma sum_le {A} (f g : A -> Z) l : (forall a, In a l -> f a <= g a) -> sum f l <= sum g l.
Proof. intros H. induction l as [|a l IH]; [reflexivity|]. cbn [sum fold_right]. fold (sum f l) (sum g l). pose proof (H a (or_introl eq_refl)).
  assert (sum f l <= sum g l) by (apply IH; intros b Hb; apply H; right; exact Hb). lia. Qed.
Lemma sum_mul {A} c (f : A -> Z) l : sum (fun a => c * f a) l = c * sum f l.
Proof. induction l as [|a l IH]; cbn [sum fold_right]; [lia|]. fold (sum f l) (sum (fun a => c * f a) l). rewrite IH. lia. Qed.
Lemma sum_const {A} c (l : list A) : sum (fun _ => c) l = c * Z.of_nat (length l).
Proof. induction l as [|a l IH]; cbn [sum fold_right length]; [lia|]. fold (sum (fun _ : A => c) l). rewrite IH. lia. Qed.
Lemma cnt_flat {A B} (g : A -> list B) (f : B -> bool) l : cnt f (flat_map g l) = sum (fun a => cnt f (g a)) l.
Proof. induction l as [|a l IH]; [reflexivity|]. cbn [flat_map sum fold_right]. rewrite cnt_app, IH. reflexivity. Qed.
Lemma strings_app a b : strings (a + b) = flat_map (fun p => map (app p) (strings b)) (strings a).
Proof.
  induction a as [|a IH]; cbn [strings Nat.add].
  - cbn [flat_map]. rewrite app_nil_r. rewrite <- (map_id (strings b)) at 1. apply map_ext. reflexivity.
  - rewrite IH. induction byte_values as [|v l IHl]; [reflexivity|]. cbn [flat_map]. rewrite IHl, flat_map_app. f_equal.
    generalize (strings a) as s. intros s. clear. induction s as [|p s IH]; [reflexivity|]. cbn [flat_map map]. rewrite map_app, IH, map_map. reflexivity.
Qed.
Lemma count_app a b f : count (a + b) f = sum (fun p => count b (fun t => f (p ++ t))) (strings a).
Proof.
  rewrite !count_cnt. rewrite strings_app, cnt_flat. apply sum_ext. intros p _. rewrite cnt_map. reflexivity.
Qed.
Lemma strings_size n : Z.of_nat (length (strings n)) = 256 ^ Z.of_nat n.
Proof.
  induction n as [|n IH]; [reflexivity|]. cbn [strings]. rewrite Nat2Z.inj_succ, Z.pow_succ_r, <- IH by lia.
  assert (H : forall l : list Z, Z.of_nat (length (flat_map (fun b => map (cons b) (strings n)) l)) = Z.of_nat (length l) * Z.of_nat (length (strings n))).
  { induction l as [|b l IHl]; [reflexivity|]. cbn [flat_map length]. rewrite app_length, map_length, Nat2Z.inj_add, IHl. lia. }
  rewrite H. unfold byte_values. rewrite map_length, seq_length. reflexivity.
Qed.

(* ---- the strings in order are the numbers in order ---- *)
Definition zrange (a : Z) (n : nat) : list Z := map (fun i => a + Z.of_nat i) (seq 0 n).
Lemma zrange_S a n : zrange a (S n) = a :: zrange (a + 1) n.
Proof. unfold zrange. cbn [seq map]. f_equal; [lia|]. rewrite <- seq_shift, map_map. apply map_ext. intros i. lia. Qed.
Lemma zrange_app a n m : zrange a (n + m) = zrange a n ++ zrange (a + Z.of_nat n) m.
Proof.
  revert a. induction n as [|n IH]; intros a; cbn [Nat.add]; [unfold zrange at 2; cbn [seq map app]; f_equal; lia|].
  rewrite !zrange_S, IH. cbn [app]. do 3 f_equal. lia.
Qed.
Lemma zrange_flat m : forall n a, flat_map (fun b => zrange (b * Z.of_nat m) m) (zrange a n) = zrange (a * Z.of_nat m) (n * m).
Proof.
  induction n as [|n IH]; intros a; [reflexivity|]. rewrite zrange_S. cbn [flat_map Nat.mul]. rewrite IH, zrange_app. do 2 f_equal. lia.
Qed.
Lemma numbers n : map be_val (strings n) = zrange 0 (256 ^ n)%nat.
Proof.
  induction n as [|n IH]; [reflexivity|]. cbn [strings]. rewrite Nat.pow_succ_r'.
  assert (Pw : Z.of_nat (256 ^ n) = 256 ^ Z.of_nat n) by apply Nat2Z.inj_pow.
  pose proof (zrange_flat (256 ^ n) 256 0) as Fl. rewrite Z.mul_0_l in Fl. rewrite <- Fl.
  assert (H : forall l, map be_val (flat_map (fun b => map (cons b) (strings n)) l) = flat_map (fun b => zrange (b * Z.of_nat (256 ^ n)) (256 ^ n)) l).
  { induction l as [|b l IHl]; [reflexivity|]. cbn [flat_map]. rewrite map_app, IHl. f_equal. rewrite map_map.
    transitivity (map (fun x => b * Z.of_nat (256 ^ n) + x) (map be_val (strings n))).
    - rewrite map_map. apply map_ext_in. intros s Hs. apply strings_spec in Hs. destruct Hs as (_ & L). rewrite be_val_cons. unfold zlen. rewrite L, Pw. lia.
    - rewrite IH. unfold zrange. rewrite map_map. apply map_ext. intros i. lia. }
  rewrite H. replace byte_values with (zrange 0 256); [reflexivity|]. unfold byte_values, zrange. apply map_ext. intros i. lia.
Qed.

(* ---- how often a residue occurs ---- *)
Lemma window R r : 0 <= r < R -> forall a, 0 <= a -> cnt (fun x => x mod R =? r) (zrange a (Z.to_nat R)) = 1.
Proof.
  intros H. assert (Sh : forall a, 0 <= a -> cnt (fun x => x mod R =? r) (zrange (a + 1) (Z.to_nat R)) = cnt (fun x => x mod R =? r) (zrange a (Z.to_nat R))).
  { intros a Ha. pose proof (zrange_app a 1 (Z.to_nat R)) as E1. pose proof (zrange_app a (Z.to_nat R) 1) as E2. rewrite Nat.add_comm in E2. rewrite E1 in E2.
    apply (f_equal (cnt (fun x => x mod R =? r))) in E2. rewrite !cnt_app in E2. change (Z.of_nat 1) with 1 in E2.
    assert (O : forall b, zrange b 1 = [b]). { intros b. unfold zrange. cbn [seq map]. f_equal. lia. }
    rewrite !O, !cnt_cons, !cnt_nil in E2. replace (a + Z.of_nat (Z.to_nat R)) with (a + 1 * R) in E2 by lia. rewrite Z.mod_add in E2 by lia. lia. }
  assert (Z0 : cnt (fun x => x mod R =? r) (zrange 0 (Z.to_nat R)) = 1).
  { replace (Z.to_nat R) with (Z.to_nat r + (1 + Z.to_nat (R - r - 1)))%nat by lia. rewrite !zrange_app, !cnt_app.
    assert (No : forall a n, (0 <= a /\ a + Z.of_nat n <= R) -> (a + Z.of_nat n <= r \/ r < a) -> cnt (fun x => x mod R =? r) (zrange a n) = 0).
    { intros a n B D. rewrite (cnt_ext _ (fun _ => false)); [apply cnt_const|]. intros x Hx. unfold zrange in Hx. apply in_map_iff in Hx. destruct Hx as (i & <- & Hi).
      apply in_seq in Hi. rewrite Z.mod_small by lia. apply Z.eqb_neq. lia. }
    rewrite (No 0) by lia. rewrite (No _ (Z.to_nat (R - r - 1))) by lia. unfold zrange. cbn [seq map]. rewrite cnt_cons, cnt_nil.
    rewrite Z.mod_small by lia. destruct (Z.eqb_spec (0 + Z.of_nat (Z.to_nat r) + Z.of_nat 0) r); lia. }
  intros a Ha. rewrite <- Z0. rewrite <- (Z2Nat.id a Ha). induction (Z.to_nat a) as [|k IH]; [reflexivity|].
  rewrite Nat2Z.inj_succ. unfold Z.succ. rewrite Sh by lia. exact IH.
Qed.
Lemma residues R r n : 0 <= r < R -> Z.of_nat n / R <= cnt (fun x => x mod R =? r) (zrange 0 n) <= Z.of_nat n / R + 1.
Proof.
  intros H. set (q := Z.of_nat n / R). set (m := Z.of_nat n mod R). assert (D : Z.of_nat n = R * q + m) by (apply Z.div_mod; lia).
  assert (M : 0 <= m < R) by (apply Z.mod_pos_bound; lia). assert (Q : 0 <= q) by (apply Z.div_pos; lia). clearbody q m.
  assert (Full : forall k a, 0 <= a -> cnt (fun x => x mod R =? r) (zrange a (k * Z.to_nat R)) = Z.of_nat k).
  { induction k as [|k IH]; intros a Ha; [reflexivity|]. cbn [Nat.mul]. rewrite zrange_app, cnt_app, window, IH by lia. lia. }
  replace n with (Z.to_nat q * Z.to_nat R + Z.to_nat m)%nat by nia. rewrite zrange_app, cnt_app, Full by lia.
  set (a := 0 + _). assert (Ha : 0 <= a) by (unfold a; lia). pose proof (window R r H a Ha) as W.
  replace (Z.to_nat R) with (Z.to_nat m + Z.to_nat (R - m))%nat in W by lia. rewrite zrange_app, cnt_app in W.
  pose proof (cnt_nonneg (fun x => x mod R =? r) (zrange a (Z.to_nat m))). pose proof (cnt_nonneg (fun x => x mod R =? r) (zrange (a + Z.of_nat (Z.to_nat m)) (Z.to_nat (R - m)))). lia.
Qed.

(* ---- URandomRng ---- *)
Definition gives (min max : nat) (v : Z) (buf : list Z) : bool :=
  match urandom_between (E:=Empty_set) buf min max with Ok w => w =? v | _ => false end.
Lemma gives_tail min max v p : (min < max)%nat -> 2 ^ (8 * Z.of_nat min) <= v < 2 ^ (8 * Z.of_nat max) -> is_bytes p -> length p = 8%nat ->
  exists k, (42 <= k < 92)%nat /\ forall q t, is_bytes q -> is_bytes t -> length q = k -> length t = (92 - k)%nat ->
    gives min max v (p ++ q ++ t) = (be_val q mod (2 ^ (8 * Z.of_nat max) - 2 ^ (8 * Z.of_nat min)) =? v - 2 ^ (8 * Z.of_nat min)).
Proof.
  intros M V Bp Lp. set (s := match to_u64_le (E:=Empty_set) p with Ok s => s | _ => 0 end).
  assert (U : to_u64_le (E:=Empty_set) p = Ok s).
  { unfold s, to_u64_le. rewrite slice_in by lia. reflexivity. }
  assert (S0 : 0 <= s).
  { unfold s, to_u64_le. rewrite slice_in by lia. rewrite bind_Ok. apply Rand.to_u64_range; [apply is_bytes_firstn, is_bytes_skipn; exact Bp|lia]. }
  clearbody s. pose proof (Z.mod_pos_bound s 50 ltac:(lia)) as Ms. exists (Z.to_nat (s mod 50 + 50) - 8)%nat. split; [lia|].
  intros q t Bq Bt Lq Lt. unfold gives, urandom_between, urandom_next.
  change (p ++ q ++ t) with ([] ++ p ++ (q ++ t)) at 1. rewrite slice_mid by (cbn [length]; lia). rewrite bind_Ok, U, bind_Ok.
  rewrite slice_mid by lia. rewrite !bind_Ok, to_ibig_be_val. pose proof (be_val_range q Bq) as Rq. pose proof (Rand.pow_lt _ _ M) as P. rewrite !(Z.mul_comm 8) in *.
  set (lo := 2 ^ (Z.of_nat min * 8)) in *. set (hi := 2 ^ (Z.of_nat max * 8)) in *. clearbody lo hi. unfold ibig_rem. destruct (Z.eqb_spec (hi - lo) 0); [lia|]. rewrite bind_Ok.
  rewrite Z.rem_mod_nonneg by lia. destruct (Z.eqb_spec (be_val q mod (hi - lo) + lo) v), (Z.eqb_spec (be_val q mod (hi - lo)) (v - lo)); try reflexivity; lia.
Qed.
Lemma tail_count min max v p : (min < max)%nat -> 2 ^ (8 * Z.of_nat min) <= v < 2 ^ (8 * Z.of_nat max) -> In p (strings 8) ->
  exists k, (42 <= k < 92)%nat /\ let R := 2 ^ (8 * Z.of_nat max) - 2 ^ (8 * Z.of_nat min) in
    256 ^ Z.of_nat (92 - k) * (256 ^ Z.of_nat k / R) <= count 92 (fun t => gives min max v (p ++ t)) <= 256 ^ Z.of_nat (92 - k) * (256 ^ Z.of_nat k / R + 1).
Proof.
  intros M V Hp. apply strings_spec in Hp. destruct Hp as (Bp & Lp). destruct (gives_tail min max v p M V Bp Lp) as (k & K & G). exists k. split; [exact K|]. cbv zeta.
  set (lo := 2 ^ (8 * Z.of_nat min)) in *. set (hi := 2 ^ (8 * Z.of_nat max)) in *.
  assert (E : count 92 (fun t => gives min max v (p ++ t)) = 256 ^ Z.of_nat (92 - k) * cnt (fun x => x mod (hi - lo) =? v - lo) (zrange 0 (256 ^ k))).
  { replace 92%nat with (k + (92 - k))%nat at 1 by lia. rewrite count_app. rewrite <- numbers, cnt_map.
    rewrite (sum_ext _ (fun q => if be_val q mod (hi - lo) =? v - lo then 256 ^ Z.of_nat (92 - k) else 0)).
    - generalize (strings k) as l. generalize (256 ^ Z.of_nat (92 - k)) as c. intros c l. clear. induction l as [|q l IH]; [cbn; lia|].
      cbn [sum fold_right]. fold (sum (fun q => if be_val q mod (hi - lo) =? v - lo then c else 0) l). rewrite cnt_cons, IH. destruct (_ =? _); lia.
    - intros q Hq. apply strings_spec in Hq. destruct Hq as (Bq & Lq). rewrite !count_cnt.
      rewrite (cnt_ext _ (fun _ => be_val q mod (hi - lo) =? v - lo)); [rewrite cnt_const, strings_size; reflexivity|].
      intros t Ht. apply strings_spec in Ht. destruct Ht as (Bt & Lt). apply G; assumption. }
  rewrite E. assert (Pw : Z.of_nat (256 ^ k) = 256 ^ Z.of_nat k) by apply Nat2Z.inj_pow. rewrite <- Pw.
  assert (C : 0 <= 256 ^ Z.of_nat (92 - k)) by (apply Z.pow_nonneg; lia).
  pose proof (residues (hi - lo) (v - lo) (256 ^ k) ltac:(lia)) as W. split; apply Z.mul_le_mono_nonneg_l; lia.
Qed.
Lemma split_reads f : count 100 f = sum (fun p => count 92 (fun t => f (p ++ t))) (strings 8).
Proof. exact (count_app 8 92 f). Qed.
Lemma reads_size : 256 ^ 100 = 256 ^ 92 * Z.of_nat (length (strings 8)).
Proof. rewrite strings_size. vm_compute. reflexivity. Qed.
Local Opaque strings count.
(* within one part in 256^(42 - max) of what it would be if all numbers of the range were as likely *)
Lemma uniform min max v : (min < max <= 42)%nat -> 2 ^ (8 * Z.of_nat min) <= v < 2 ^ (8 * Z.of_nat max) ->
  let R := 2 ^ (8 * Z.of_nat max) - 2 ^ (8 * Z.of_nat min) in let c := 256 ^ (42 - Z.of_nat max) in
  c * (R * count 100 (gives min max v)) <= (c + 1) * 256 ^ 100 /\ c * 256 ^ 100 <= (c + 1) * (R * count 100 (gives min max v)).
Proof.
  intros M V R c. rewrite split_reads.
  assert (R0 : 0 < R) by (unfold R; lia).
  assert (C0 : 0 < c) by (unfold c; apply Z.pow_pos_nonneg; lia).
  assert (RC : c * R <= 256 ^ 42).
  { assert (R <= 256 ^ Z.of_nat max).
    { unfold R. change 256 with (2 ^ 8). rewrite <- Z.pow_mul_r by lia. pose proof (Z.pow_pos_nonneg 2 (8 * Z.of_nat min)). lia. }
    replace 42 with (42 - Z.of_nat max + Z.of_nat max) by lia. rewrite Z.pow_add_r by lia. fold c. apply Z.mul_le_mono_nonneg_l; lia. }
  assert (Each : forall p, In p (strings 8) -> c * R * count 92 (fun t => gives min max v (p ++ t)) <= (c + 1) * 256 ^ 92 /\
                                              c * 256 ^ 92 <= (c + 1) * R * count 92 (fun t => gives min max v (p ++ t))).
  { intros p Hp. destruct (tail_count min max v p ltac:(lia) V Hp) as (k & K & B). cbv zeta in B. fold R in B. set (n := count 92 _) in *. clearbody n.
    assert (P92 : 256 ^ 92 = 256 ^ Z.of_nat (92 - k) * 256 ^ Z.of_nat k) by (rewrite <- Z.pow_add_r by lia; f_equal; lia).
    assert (P42 : 256 ^ 42 <= 256 ^ Z.of_nat k) by (apply Z.pow_le_mono_r; lia).
    assert (T0 : 0 < 256 ^ Z.of_nat (92 - k)) by (apply Z.pow_pos_nonneg; lia).
    rewrite P92. clear P92. generalize dependent (256 ^ 42). intros p42 RC P42.
    set (T := 256 ^ Z.of_nat (92 - k)) in *. set (W := 256 ^ Z.of_nat k) in *. clearbody T W R c.
    pose proof (Z.div_mod W R ltac:(lia)) as DM. pose proof (Z.mod_pos_bound W R R0) as MB. set (q := W / R) in *. set (m := W mod R) in *.
    assert (Q : c <= q). { unfold q. apply Z.div_le_lower_bound; lia. } clearbody q m. clear p42 RC P42 V M Hp p.
    destruct B as (B1 & B2). split.
    - apply Z.le_trans with (c * R * (T * (q + 1))); [apply Z.mul_le_mono_nonneg_l; [nia|exact B2]|].
      replace (c * R * (T * (q + 1))) with (T * (R * (c * q + c))) by ring. replace ((c + 1) * (T * W)) with (T * ((c + 1) * W)) by ring.
      apply Z.mul_le_mono_nonneg_l; [lia|]. apply Z.le_trans with (R * ((c + 1) * q)); [apply Z.mul_le_mono_nonneg_l; lia|].
      replace (R * ((c + 1) * q)) with ((c + 1) * (R * q)) by ring. apply Z.mul_le_mono_nonneg_l; lia.
    - apply Z.le_trans with ((c + 1) * R * (T * q)); [|apply Z.mul_le_mono_nonneg_l; [nia|exact B1]].
      replace ((c + 1) * R * (T * q)) with (T * (R * (c * q + q))) by ring. replace (c * (T * W)) with (T * (c * W)) by ring.
      apply Z.mul_le_mono_nonneg_l; [lia|]. apply Z.le_trans with (c * (R * (q + 1))); [apply Z.mul_le_mono_nonneg_l; lia|].
      replace (c * (R * (q + 1))) with (R * (c * q + c)) by ring. apply Z.mul_le_mono_nonneg_l; lia. }
  rewrite reads_size. set (S8 := strings 8) in *. clearbody S8. generalize dependent (256 ^ 92). intros p92 Each. set (F := fun p => count 92 (fun t => gives min max v (p ++ t))) in *.
  split.
  - replace (c * (R * sum F S8)) with ((c * R) * sum F S8) by ring. rewrite <- sum_mul.
    replace ((c + 1) * (p92 * Z.of_nat (length S8))) with (((c + 1) * p92) * Z.of_nat (length S8)) by ring. rewrite <- sum_const. apply sum_le.
    intros p Hp. apply (Each p Hp).
  - replace ((c + 1) * (R * sum F S8)) with (((c + 1) * R) * sum F S8) by ring. rewrite <- sum_mul.
    replace (c * (p92 * Z.of_nat (length S8))) with ((c * p92) * Z.of_nat (length S8)) by ring. rewrite <- sum_const. apply sum_le.
    intros p Hp. apply (Each p Hp).
Qed.

(* every string of a size is drawn by as many reads *)
Local Transparent strings count.
Definition gives_bytes (size : nat) (s : list Z) (buf : list Z) : bool :=
  match urandom_bytes (E:=Empty_set) buf size with Ok b => list_eqb b s | _ => false end.
Lemma one_string n s : is_bytes s -> length s = n -> count n (fun t => list_eqb t s) = 1.
Proof.
  intros B L. rewrite !count_cnt.
  assert (In s (strings n)) as I by (apply strings_spec; auto). pose proof (strings_nodup n) as N. revert I N. generalize (strings n) as l.
  induction l as [|x l IH]; intros I N; [destruct I|]. rewrite cnt_cons. inversion N as [|? ? Nx Nl]; subst.
  destruct (list_eqb x s) eqn:Ex.
  - apply list_eqb_spec in Ex. subst x. rewrite (cnt_ext _ (fun _ => false)); [rewrite cnt_const; reflexivity|].
    intros y Hy. destruct (list_eqb y s) eqn:Ey; [|reflexivity]. apply list_eqb_spec in Ey. subst y. contradiction.
  - destruct I as [->|I]; [rewrite list_eqb_refl in Ex; discriminate|]. rewrite IH by assumption. reflexivity.
Qed.
Lemma bytes_uniform size s : (size <= 100)%nat -> is_bytes s -> length s = size -> count 100 (gives_bytes size s) = 256 ^ (100 - Z.of_nat size).
Proof.
  intros H B L. assert (E : forall m, count (size + m) (fun buf => list_eqb (firstn size buf) s) = 256 ^ Z.of_nat m).
  { intros m. rewrite count_app. rewrite (sum_ext _ (fun p => 256 ^ Z.of_nat m * (if list_eqb p s then 1 else 0))).
    - rewrite sum_mul. rewrite <- (Z.mul_1_r (256 ^ Z.of_nat m)) at 2. f_equal. transitivity (count size (fun t => list_eqb t s)); [|exact (one_string size s B L)]. rewrite !count_cnt.
      generalize (strings size) as l. induction l as [|x l IH]; [reflexivity|]. rewrite cnt_cons, <- IH. reflexivity.
    - intros p Hp. apply strings_spec in Hp. destruct Hp as (_ & Lp). rewrite !count_cnt.
      rewrite (cnt_ext _ (fun _ => list_eqb p s)).
      + rewrite cnt_const, strings_size. destruct (list_eqb p s); lia.
      + intros t _. rewrite firstn_app, Lp, Nat.sub_diag, firstn_O, app_nil_r, firstn_all2 by lia. reflexivity. }
  replace (100 - Z.of_nat size) with (Z.of_nat (100 - size)) by lia. rewrite <- E. replace (size + (100 - size))%nat with 100%nat by lia.
  rewrite !count_cnt. apply cnt_ext.
  intros buf Hb. apply strings_spec in Hb. destruct Hb as (_ & Lb). unfold gives_bytes. rewrite Rand.bytes_ok by lia. reflexivity.
Qed.

(* ---- what the ECDSA nonce is used for is its residue ---- *)
Definition gives_residue (n k : Z) (buf : list Z) : bool :=
  match urandom_between (E:=Empty_set) buf 1 32 with Ok w => w mod n =? k | _ => false end.
Lemma cnt_or {A} (f g : A -> bool) l : (forall a, In a l -> f a = true -> g a = false) -> cnt (fun a => f a || g a)%bool l = cnt f l + cnt g l.
Proof.
  intros H. induction l as [|a l IH]; [reflexivity|]. rewrite !cnt_cons, IH by (intros b Hb; apply H; right; exact Hb).
  pose proof (H a (or_introl eq_refl)) as D. destruct (f a); [rewrite D by reflexivity; cbn [orb]; lia|cbn [orb]; lia].
Qed.
Lemma residue_count_gen top n k : top = 2 ^ (8 * Z.of_nat 32) -> top < 2 * n -> n < top -> 256 <= k < n ->
  count 100 (gives_residue n k) = count 100 (gives 1 32 k) + (if k + n <? top then count 100 (gives 1 32 (k + n)) else 0).
Proof.
  intros T T2 T1 K. rewrite !count_cnt.
  assert (W : forall buf, In buf (strings 100) -> exists w, urandom_between (E:=Empty_set) buf 1 32 = Ok w /\ 0 <= w < top).
  { intros buf Hb. apply strings_spec in Hb. destruct Hb as (B & L). destruct (Rand.between_ok Empty_set buf 1 32 B L ltac:(lia)) as (w & Ew & R). exists w. split; [exact Ew|].
    rewrite T. pose proof (Z.pow_nonneg 2 (8 * Z.of_nat 1)). lia. }
  destruct (Z.ltb_spec (k + n) top) as [Lt|Ge].
  - rewrite <- cnt_or.
    + apply cnt_ext. intros buf Hb. destruct (W buf Hb) as (w & Ew & R). unfold gives_residue, gives. rewrite Ew.
      destruct (Z.lt_ge_cases w n) as [S|G].
      * rewrite Z.mod_small by lia. destruct (Z.eqb_spec w k), (Z.eqb_spec w (k + n)); cbn [orb]; try reflexivity; lia.
      * replace w with (w - n + 1 * n) at 1 by lia. rewrite Z.mod_add by lia. rewrite Z.mod_small by lia.
        destruct (Z.eqb_spec (w - n) k), (Z.eqb_spec w k), (Z.eqb_spec w (k + n)); cbn [orb]; try reflexivity; lia.
    + intros buf Hb. destruct (W buf Hb) as (w & Ew & R). unfold gives. rewrite Ew. intros E. apply Z.eqb_eq in E. apply Z.eqb_neq. lia.
  - rewrite Z.add_0_r. apply cnt_ext. intros buf Hb. destruct (W buf Hb) as (w & Ew & R). unfold gives_residue, gives. rewrite Ew.
    destruct (Z.lt_ge_cases w n) as [S|G]; [rewrite Z.mod_small by lia; reflexivity|].
    replace w with (w - n + 1 * n) at 1 by lia. rewrite Z.mod_add by lia. rewrite Z.mod_small by lia.
    destruct (Z.eqb_spec (w - n) k), (Z.eqb_spec w k); try reflexivity; lia.
Qed.
From Verif Require Import Spec.Ec Spec.Ecdsa Model.Curve Model.Ecdsa.
From Verif Require Proofs.EcdsaP256.
Lemma residue_count k : 256 <= k < P256_n ->
  count 100 (gives_residue P256_n k) = count 100 (gives 1 32 k) + (if k + P256_n <? 2 ^ 256 then count 100 (gives 1 32 (k + P256_n)) else 0).
Proof. intros K. apply residue_count_gen; [reflexivity|reflexivity|reflexivity|exact K]. Qed.
Lemma fdiv_shift n z s : 0 < n -> fdiv n z (s + n) = fdiv n z s.
Proof.
  intros N. unfold fdiv. rewrite <- (Zmult_mod_idemp_r ((s + n) ^ (n - 2))), <- (Zmult_mod_idemp_r (s ^ (n - 2))). do 2 f_equal.
  rewrite (Zpower_mod (s + n)), (Zpower_mod s) by lia. replace (s + n) with (s + 1 * n) by lia. rewrite Z.mod_add by lia. reflexivity.
Qed.
Lemma sign_shift d e k : sign_with d e (k + P256_n) = sign_with d e k.
Proof.
  unfold sign_with. replace ((k + P256_n) mod P256_n) with (k mod P256_n) by (replace (k + P256_n) with (k + 1 * P256_n) by ring; symmetry; apply Z.mod_add; discriminate).
  destruct (ec_mul P256 (Z.to_nat (k mod P256_n)) P256_G) as [|x y]; [reflexivity|]. cbv zeta. rewrite (fdiv_shift P256_n) by reflexivity. reflexivity.
Qed.
Lemma same_signature d h k : 0 <= k -> ecdsa_sign (E:=Empty_set) (PrivateKey secp256r1 d) h [k + P256_n] = ecdsa_sign (E:=Empty_set) (PrivateKey secp256r1 d) h [k].
Proof.
  intros K. assert (N : 0 <= P256_n) by discriminate.
  rewrite !EcdsaP256.p256_sign by (constructor; [lia|constructor]). cbn [flat_map]. rewrite sign_shift. reflexivity.
Qed.
