(* Random numbers; what a configuration built from files and numbers drawn from /dev/urandom satisfy *)
From Coq Require Import Lia.
From Verif Require Import Model.Base Spec.Enc Proofs.Util Proofs.Bytes Model.Bytes Model.Base64 Model.Pem Model.Alert Model.Curve Model.Ecdsa Model.X509 Model.Certificate
  Model.Server Model.Client Model.Config Model.Rand Spec.Config Spec.Connection Spec.ClientConnection.
From Verif Require Proofs.Config Proofs.Gcm.

(* ---- /dev/urandom ---- *)
Lemma to_u64_range l : is_bytes l -> forall i, 0 <= i -> 0 <= to_u64_be_from i l.
Proof.
  induction 1 as [|b l B L IH]; intros i Hi; cbn [to_u64_be_from]; [lia|]. specialize (IH (i + 1) ltac:(lia)).
  unfold u64. pose proof (Z.mod_pos_bound (Z.shiftl b (7 * 8 - i * 8)) (2^64) ltac:(lia)). lia.
Qed.
Lemma next_ok E buf : is_bytes buf -> length buf = 100%nat ->
  exists n, (50 <= n < 100)%nat /\ urandom_next (E:=E) buf = Ok (be_val (firstn (n - 8) (skipn 8 buf))).
Proof.
  intros B L. unfold urandom_next. rewrite slice_in by lia. rewrite bind_Ok. change (skipn 0 buf) with buf. change (8 - 0)%nat with 8%nat.
  unfold to_u64_le. rewrite slice_in by (rewrite firstn_length; lia). rewrite !bind_Ok.
  set (v := to_u64_be_from 0 _). assert (V : 0 <= v) by (apply to_u64_range; [apply is_bytes_firstn, is_bytes_skipn, is_bytes_firstn; exact B|lia]).
  pose proof (Z.mod_pos_bound v 50 ltac:(lia)) as M. exists (Z.to_nat (v mod 50 + 50)). split; [lia|]. rewrite slice_in by lia. rewrite bind_Ok, to_ibig_be_val. reflexivity.
Qed.
Lemma pow_lt (a b : nat) : (a < b)%nat -> 2 ^ (Z.of_nat a * 8) < 2 ^ (Z.of_nat b * 8).
Proof. intros H. apply Z.pow_lt_mono_r; lia. Qed.
Lemma between_ok E buf min max : is_bytes buf -> length buf = 100%nat -> (min < max)%nat ->
  exists v, urandom_between (E:=E) buf min max = Ok v /\ 2 ^ (8 * Z.of_nat min) <= v < 2 ^ (8 * Z.of_nat max).
Proof.
  intros B L M. destruct (next_ok E buf B L) as (n & _ & H). unfold urandom_between. rewrite H, bind_Ok.
  set (x := be_val _). assert (X : 0 <= x) by (apply be_val_range, is_bytes_firstn, is_bytes_skipn; exact B). clearbody x.
  pose proof (pow_lt _ _ M) as P. rewrite !(Z.mul_comm 8). set (lo := 2 ^ (Z.of_nat min * 8)) in *. set (hi := 2 ^ (Z.of_nat max * 8)) in *. clearbody lo hi.
  unfold ibig_rem. destruct (Z.eqb_spec (hi - lo) 0); [lia|]. rewrite bind_Ok. eexists. split; [reflexivity|].
  pose proof (Z.rem_bound_pos x (hi - lo) X ltac:(lia)). lia.
Qed.
Lemma between_same E buf n : is_bytes buf -> length buf = 100%nat -> urandom_between (E:=E) buf n n = Panic.
Proof.
  intros B L. destruct (next_ok E buf B L) as (k & _ & H). unfold urandom_between. rewrite H, bind_Ok. unfold ibig_rem. rewrite Z.sub_diag. reflexivity.
Qed.
Lemma bytes_ok E buf size : length buf = 100%nat -> (size <= 100)%nat -> urandom_bytes (E:=E) buf size = Ok (firstn size buf).
Proof. intros L H. unfold urandom_bytes. rewrite slice_in by lia. rewrite Nat.sub_0_r. reflexivity. Qed.
Lemma bytes_panic E buf size : length buf = 100%nat -> (100 < size)%nat -> urandom_bytes (E:=E) buf size = Panic.
Proof. intros L H. unfold urandom_bytes, slice. destruct (Nat.leb_spec size (length buf)); [lia|]. rewrite Bool.andb_false_r. reflexivity. Qed.

Lemma every_value min max v : (min < max <= 91)%nat -> 2 ^ (8 * Z.of_nat min) <= v < 2 ^ (8 * Z.of_nat max) ->
  exists buf, is_bytes buf /\ length buf = 100%nat /\ urandom_between (E:=Empty_set) buf min max = Ok v.
Proof.
  intros M R. set (w := v - 2 ^ (8 * Z.of_nat min)). set (buf := repeat 0 7 ++ [49] ++ be_enc 91 w ++ [0]).
  assert (W : 0 <= w < 256 ^ Z.of_nat 91).
  { split; [unfold w; lia|]. change 256 with (2^8). rewrite <- Z.pow_mul_r by lia. apply Z.lt_le_trans with (2 ^ (8 * Z.of_nat max)); [|apply Z.pow_le_mono_r; lia].
    pose proof (Z.pow_pos_nonneg 2 (8 * Z.of_nat min) ltac:(lia) ltac:(lia)). unfold w. lia. }
  assert (BB : is_bytes buf).
  { unfold buf. rewrite !is_bytes_app. split; [|split; [|split; [apply be_enc_bytes|]]]; apply is_bytes_check; reflexivity. }
  assert (L : length buf = 100%nat) by (unfold buf; rewrite !app_length, be_enc_length, repeat_length; reflexivity).
  exists buf. split; [exact BB|]. split; [exact L|].
  assert (N : urandom_next (E:=Empty_set) buf = Ok w).
  { unfold urandom_next. unfold buf at 1. replace (repeat 0 7 ++ [49] ++ be_enc 91 w ++ [0]) with ([] ++ (repeat 0 7 ++ [49]) ++ (be_enc 91 w ++ [0])) by reflexivity.
    rewrite slice_mid by reflexivity. rewrite bind_Ok. assert (to_u64_le (E:=Empty_set) (repeat 0 7 ++ [49]) = Ok 49) as -> by reflexivity. rewrite bind_Ok.
    change (Z.to_nat (49 mod 50 + 50)) with 99%nat.
    unfold buf. replace (repeat 0 7 ++ [49] ++ be_enc 91 w ++ [0]) with ((repeat 0 7 ++ [49]) ++ be_enc 91 w ++ [0]) by reflexivity.
    rewrite slice_mid by (rewrite ?be_enc_length; reflexivity). rewrite bind_Ok, to_ibig_be_val, be_val_enc, Z.mod_small by exact W. reflexivity. }
  unfold urandom_between. rewrite N, bind_Ok. pose proof (pow_lt min max ltac:(lia)) as P. rewrite !(Z.mul_comm 8) in R. unfold w. rewrite !(Z.mul_comm 8).
  set (lo := 2 ^ (Z.of_nat min * 8)) in *. set (hi := 2 ^ (Z.of_nat max * 8)) in *. clearbody lo hi. clear N BB L W buf w.
  unfold ibig_rem. destruct (Z.eqb_spec (hi - lo) 0); [lia|]. rewrite bind_Ok, Z.rem_small by lia. f_equal. lia.
Qed.
Lemma not_every_value min max buf : (min < max)%nat -> (92 <= max)%nat -> is_bytes buf -> length buf = 100%nat ->
  urandom_between (E:=Empty_set) buf min max <> Ok (2 ^ (8 * Z.of_nat max) - 1).
Proof.
  intros M M' B L H. destruct (next_ok Empty_set buf B L) as (n & N & Hn). unfold urandom_between in H. rewrite Hn, bind_Ok in H.
  set (x := be_val _) in *. assert (X : 0 <= x < 2 ^ 728).
  { unfold x. assert (I : is_bytes (firstn (n - 8) (skipn 8 buf))) by (apply is_bytes_firstn, is_bytes_skipn; exact B).
    pose proof (be_val_range _ I) as R. split; [lia|]. apply Z.lt_le_trans with (1 := proj2 R). change 256 with (2^8). rewrite <- Z.pow_mul_r by (unfold zlen; lia).
    apply Z.pow_le_mono_r; [lia|]. unfold zlen. rewrite firstn_length, skipn_length. lia. }
  clearbody x. assert (P : 2 ^ (Z.of_nat min * 8) <= 2 ^ (8 * Z.of_nat max - 8)) by (apply Z.pow_le_mono_r; lia).
  assert (Q : 2 ^ (Z.of_nat max * 8) = 256 * 2 ^ (8 * Z.of_nat max - 8)).
  { change 256 with (2^8). rewrite <- Z.pow_add_r by lia. f_equal. lia. }
  assert (T : 2 ^ 728 <= 2 ^ (8 * Z.of_nat max - 8)) by (apply Z.pow_le_mono_r; lia).
  rewrite (Z.mul_comm 8 (Z.of_nat max)) in H. rewrite Q in H.
  set (lo := 2 ^ (Z.of_nat min * 8)) in *. set (t := 2 ^ (8 * Z.of_nat max - 8)) in *. assert (0 < t) by (unfold t; apply Z.pow_pos_nonneg; lia).
  clear Q. generalize dependent (2^728). intros c X T. clearbody lo t.
  unfold ibig_rem in H. destruct (Z.eqb_spec (256 * t - lo) 0); [lia|]. rewrite bind_Ok, Z.rem_small in H by lia. assert (H1 : x + lo = 256 * t - 1) by congruence. lia.
Qed.

(* ---- SimpleRng ---- *)
Lemma simple32_range s : let (s', n) := simple32_next s in 0 <= s' < 2^32 /\ 0 <= n < 2^32 - 1.
Proof.
  unfold simple32_next. split; [apply Z.mod_pos_bound; lia|]. apply Z.mod_pos_bound. lia.
Qed.
Lemma product_nonneg n : forall s b, 0 <= b -> 0 <= product_of n s b.
Proof.
  induction n as [|n IH]; intros s b B; cbn [product_of]; [exact B|]. pose proof (simple32_range s) as R. destruct (simple32_next s) as [s' v]. apply IH. nia.
Qed.
Lemma simple_between_ok E s min max : 0 <= s -> (min < max)%nat ->
  exists v, simple_between (E:=E) s min max = (s + 10, Ok v) /\ 2 ^ (8 * Z.of_nat min) <= v < 2 ^ (8 * Z.of_nat max).
Proof.
  intros S M. unfold simple_between, simple_next, ibig_to_32bytes, ibig_to_vec. destruct (Z.ltb_spec s 0); [lia|]. rewrite !bind_Ok.
  set (x := product_of _ _ _). assert (X : 0 <= x) by (apply product_nonneg; lia). clearbody x.
  pose proof (pow_lt _ _ M) as P. rewrite !(Z.mul_comm 8). set (lo := 2 ^ (Z.of_nat min * 8)) in *. set (hi := 2 ^ (Z.of_nat max * 8)) in *. clearbody lo hi.
  unfold ibig_rem. destruct (Z.eqb_spec (hi - lo) 0); [lia|]. rewrite bind_Ok. eexists. split; [reflexivity|].
  pose proof (Z.rem_bound_pos x (hi - lo) X ltac:(lia)). lia.
Qed.
Lemma simple32_between_ok E s min max : 0 <= min < max -> max < 2^32 ->
  exists v, snd (simple32_between (E:=E) s min max) = Ok v /\ min <= v < max.
Proof.
  intros H H'. unfold simple32_between, u32. rewrite !Z.mod_small by lia. pose proof (simple32_range s) as R. destruct (simple32_next s) as [s' n]. cbn [snd].
  destruct (Z.leb_spec max min); [lia|]. pose proof (Z.mod_pos_bound n (max - min) ltac:(lia)). cbv zeta. destruct (Z.ltb_spec (n mod (max - min) + min) (2^32)); [|lia].
  eexists. split; [reflexivity|]. lia.
Qed.
Lemma simple_bytes_empty E fuel s size : (0 < size)%nat -> simple_bytes (E:=E) fuel s [] size = Some (Ok []) /\ simple32_bytes fuel s [] size = Some [].
Proof.
  intros H. destruct size as [|size]; [lia|]. split; destruct fuel; reflexivity.
Qed.
Lemma simple_bytes_loops E fuel : forall s res, 0 <= s -> simple_bytes (E:=E) fuel s res 0 = None.
Proof.
  induction fuel as [|fuel IH]; intros s res S; [reflexivity|]. cbn [simple_bytes Nat.leb]. unfold simple_next, ibig_to_32bytes at 1, ibig_to_vec at 1.
  destruct (Z.ltb_spec s 0); [lia|]. rewrite !bind_Ok. set (x := product_of _ _ _). assert (X : 0 <= x) by (apply product_nonneg; lia). clearbody x.
  unfold ibig_to_32bytes, ibig_to_vec. destruct (Z.ltb_spec x 0); [lia|]. rewrite !bind_Ok. apply IH. lia.
Qed.
Lemma simple32_bytes_loops fuel : forall s res, simple32_bytes fuel s res 0 = None.
Proof. induction fuel as [|fuel IH]; intros s res; [reflexivity|]. cbn [simple32_bytes Nat.leb]. destruct (simple32_next s). apply IH. Qed.
Lemma simple_constant E s : 0 <= s < 2^96 -> simple_next (E:=E) s = (s + 10, Ok (product_of 10 0 1)).
Proof.
  intros S. unfold simple_next. rewrite ibig_to_32_little by lia. rewrite bind_Ok. f_equal. f_equal. f_equal.
  assert (E1 : le_enc 32 s = (le_enc 12 s ++ repeat 0 4) ++ repeat 0 16).
  { change 32%nat with (12 + 20)%nat. rewrite le_enc_app. replace (s / 256 ^ Z.of_nat 12) with 0 by (symmetry; apply Z.div_small; change (256 ^ Z.of_nat 12) with (2^96); lia).
    rewrite le_enc_0, <- app_assoc, <- repeat_app. reflexivity. }
  rewrite E1. unfold to_u128_be. rewrite firstn_app_eq by (rewrite app_length, le_enc_length; reflexivity).
  assert (B : is_bytes (le_enc 12 s ++ repeat 0 4)) by (rewrite is_bytes_app; split; [apply le_enc_bytes|apply is_bytes_check; reflexivity]).
  assert (L : length (le_enc 12 s ++ repeat 0 4) = 16%nat) by (rewrite app_length, le_enc_length; reflexivity).
  pose proof (to_u128_be_16 _ B L) as H. unfold to_u128_be in H. rewrite <- L in H at 1. rewrite firstn_all in H. rewrite H, be_val_app, be_val_repeat0. unfold u32. change (256 ^ zlen (repeat 0 4)) with (2^32).
  rewrite Z.add_0_r, Z.mod_mul by lia. reflexivity.
Qed.

(* ---- a configuration from files ---- *)
Lemma pos_of_range c l : forall i, 0 <= i -> 0 <= pos_of c i l <= i + zlen l.
Proof.
  induction l as [|x l IH]; intros i I; cbn [pos_of]; [rewrite Z.add_0_r; lia|]. unfold zlen in *. cbn [length]. destruct (x =? c); [lia|]. specialize (IH (i + 1) ltac:(lia)). lia.
Qed.
Lemma dec_char_range E c v p : dec_char (E:=E) c = Ok (v, p) -> 0 <= v <= 64.
Proof.
  unfold dec_char. destruct (c =? 61); [intros [= <- _]; lia|]. destruct (c <=? 122); [|discriminate]. intros [= <- _]. apply (pos_of_range c CHARS 0). lia.
Qed.
Lemma lor_byte a b : 0 <= b < 256 -> is_byte (Z.lor (u8 a) b).
Proof. intros B. unfold is_byte. change 256 with (2^8). apply lor_bound; [lia|unfold u8; apply Z.mod_pos_bound; lia|exact B]. Qed.
Lemma decode_loop_bytes E n : forall l o p, (length l <= n)%nat -> decode_loop (E:=E) l = Ok (o, p) -> is_bytes o.
Proof.
  induction n as [|n IH]; intros l o p L H.
  - destruct l; [|cbn in L; lia]. injection H as <- <-. constructor.
  - destruct l as [|c0 [|c1 [|c2 [|c3 l]]]]; try discriminate. { injection H as <- <-. constructor. }
    cbn [decode_loop] in H. apply bind_ok in H as ([t0 p0] & H0 & H). apply bind_ok in H as ([t1 p1] & H1 & H). apply bind_ok in H as ([t2 p2] & H2 & H). apply bind_ok in H as ([t3 p3] & H3 & H).
    apply bind_ok in H as ([o' n'] & H4 & H). injection H as <- _. apply dec_char_range in H0, H1, H2, H3. cbn [length] in L. apply IH in H4; [|lia].
    apply Forall_cons; [|apply Forall_cons; [|apply Forall_cons; [|exact H4]]]; apply lor_byte; rewrite ?Z.shiftr_div_pow2 by lia; try lia.
Qed.
Lemma decode_bytes l o : decode l = Ok o -> is_bytes o.
Proof.
  unfold decode. destruct (negb _); [discriminate|]. intros H. apply bind_ok in H as ([o' p] & H & H'). injection H' as <-. apply is_bytes_firstn. eapply decode_loop_bytes; [|exact H]. reflexivity.
Qed.
Definition map_bytes (m : pem_map) : Prop := Forall (fun e => is_bytes (snd e)) m.
Lemma pem_line_bytes s l s' : map_bytes (p_map s) -> pem_line s l = Ok s' -> map_bytes (p_map s').
Proof.
  intros M. unfold pem_line. destruct (p_state s).
  1, 3: destruct (starts_with s_BEGIN l); [|intros [= <-]; exact M]; destruct (Nat.ltb _ _); [discriminate|]; intros H; apply bind_ok in H as (t & _ & H); injection H as <-; exact M.
  destruct (starts_with s_END l); [|intros [= <-]; exact M]. intros H. apply bind_ok in H as (raw & R & H). injection H as <-. constructor; [|exact M]. exact (decode_bytes _ _ R).
Qed.
Lemma pem_lines_bytes ls : forall s s', map_bytes (p_map s) -> pem_lines s ls = Ok s' -> map_bytes (p_map s').
Proof.
  induction ls as [|l ls IH]; intros s s' M H; cbn [pem_lines] in H; [injection H as <-; exact M|]. apply bind_ok in H as (s1 & H1 & H). eapply IH; [|exact H]. eapply pem_line_bytes; eassumption.
Qed.
Lemma pem_parse_bytes text m t d : pem_parse text = Ok m -> pem_get m t = Some d -> is_bytes d.
Proof.
  unfold pem_parse. intros H G. apply bind_ok in H as (s & H & H'). assert (M : map_bytes (p_map s)) by (eapply pem_lines_bytes; [|exact H]; constructor).
  destruct (p_state s); try discriminate. injection H' as <-. unfold pem_get in G. destruct (find _ _) as [e|] eqn:F; [|discriminate]. injection G as <-.
  apply find_some in F as (F & _). unfold map_bytes in M. rewrite Forall_forall in M. exact (M _ F).
Qed.
Lemma cert_loaded f c : loaded certificate_from_pem f = Some c -> is_bytes (ct_raw c).
Proof.
  destruct f as [text|]; [|discriminate]. cbn [loaded]. destruct (certificate_from_pem text) as [c'| |] eqn:E; try discriminate. intros [= ->]. unfold certificate_from_pem in E.
  apply bind_ok in E as (m & P & E). destruct (pem_get m _) as [d|] eqn:G; [|discriminate]. injection E as <-. exact (pem_parse_bytes _ _ _ _ P G).
Qed.
Lemma ca_loaded f c : loaded certificate_from_pem_x509 f = Some c -> is_bytes (ct_raw c) /\ exists x, ct_x509 c = Some x /\ x509_from_raw (ct_raw c) = Ok x.
Proof.
  destruct f as [text|]; [|discriminate]. cbn [loaded]. destruct (certificate_from_pem_x509 text) as [c'| |] eqn:E; try discriminate. intros [= ->]. unfold certificate_from_pem_x509 in E.
  apply bind_ok in E as (m & P & E). destruct (pem_get m _) as [d|] eqn:G; [|discriminate]. unfold certificate_from_raw in E. destruct (x509_from_raw d) as [x| |] eqn:X; try discriminate. injection E as <-.
  split; [exact (pem_parse_bytes _ _ _ _ P G)|]. exists x. split; [reflexivity|exact X].
Qed.
Lemma key_loaded f k : loaded private_key_from_pem f = Some k -> sk_curve k = secp256r1 /\ 0 <= sk_secret k < 2^256.
Proof.
  destruct f as [text|]; [|discriminate]. cbn [loaded]. destruct (private_key_from_pem text) as [c'| |] eqn:E; try discriminate. intros [= ->]. unfold private_key_from_pem in E.
  apply bind_ok in E as (m & P & E). destruct (pem_get m _) as [d|] eqn:G; [|discriminate]. apply bind_ok in E as (b & Sl & E). injection E as <-. split; [reflexivity|]. cbn [sk_secret].
  rewrite to_ibig_be_val. apply slice_ok in Sl as (L & ->). pose proof (pem_parse_bytes _ _ _ _ P G) as B.
  assert (B' : is_bytes (firstn (39 - 7) (skipn 7 d))) by (apply is_bytes_firstn, is_bytes_skipn; exact B). pose proof (be_val_range _ B') as R. unfold zlen in R.
  rewrite firstn_length, skipn_length, Nat.min_l in R by lia. exact R.
Qed.
Lemma last_set_in {C A} (f : C -> option A) cs a : last_set f cs = Some a -> exists c, In c cs /\ f c = Some a.
Proof.
  induction cs as [|c cs IH]; cbn [last_set]; [discriminate|]. destruct (last_set f cs) as [x|].
  - intros [= ->]. destruct (IH eq_refl) as (c' & I & H). exists c'. split; [right; exact I|exact H].
  - intros H. exists c. split; [left; reflexivity|exact H].
Qed.
Lemma loads_dec c : loads c \/ ~ loads c.
Proof.
  destruct c; cbn [loads]; try (left; exact I).
  - destruct (sets_cert _); [left; discriminate|right; intros H; apply H; reflexivity].
  - destruct (sets_ca _); [left; discriminate|right; intros H; apply H; reflexivity].
  - destruct (sets_key _); [left; discriminate|right; intros H; apply H; reflexivity].
Qed.
Lemma split_loads cs : Forall loads cs \/ exists a c b, cs = a ++ c :: b /\ Forall loads a /\ ~ loads c.
Proof.
  induction cs as [|c cs IH]; [left; constructor|]. destruct (loads_dec c) as [L|L].
  - destruct IH as [F|(a & c' & b & -> & F & N)]; [left; constructor; assumption|]. right. exists (c :: a), c', b. split; [reflexivity|]. split; [constructor; assumption|exact N].
  - right. exists [], c, cs. split; [reflexivity|]. split; [constructor|exact L].
Qed.
Lemma configured_loads cs cfg : server_configure cs = Ok cfg -> Forall loads cs.
Proof.
  intros H. destruct (split_loads cs) as [F|(a & c & b & -> & F & N)]; [exact F|]. rewrite (Proofs.Config.configure_panics a c b F N) in H. discriminate.
Qed.
Lemma map_between E l n : Forall (fun b => is_bytes b /\ length b = 100%nat) l -> map_outcome (fun b => urandom_between (E:=E) b 1 32) l = Ok n -> Forall (fun k => 2^8 <= k < 2^256) n.
Proof.
  intros F. revert n. induction F as [|b l (B & L) F IH]; intros n H; cbn [map_outcome] in H; [injection H as <-; constructor|].
  destruct (between_ok E b 1 32 B L ltac:(lia)) as (v & V & R). rewrite V, bind_Ok in H. apply bind_ok in H as (bs & H & H'). injection H' as <-. constructor; [exact R|]. apply IH. exact H.
Qed.
Lemma map_between_total E l : Forall (fun b => is_bytes b /\ length b = 100%nat) l -> exists n, map_outcome (fun b => urandom_between (E:=E) b 1 32) l = Ok n /\ length n = length l.
Proof.
  induction 1 as [|b l (B & L) F (n & IH & Ln)]; [exists []; split; reflexivity|]. cbn [map_outcome]. destruct (between_ok E b 1 32 B L ltac:(lia)) as (v & V & _). rewrite V, bind_Ok, IH, bind_Ok.
  exists (v :: n). split; [reflexivity|]. cbn [length]. rewrite Ln. reflexivity.
Qed.
Definition read_ok (b : list Z) : Prop := is_bytes b /\ length b = 100%nat.
Lemma urandom_draws E random shares context loop : read_ok random -> Forall read_ok shares -> read_ok context -> Forall read_ok loop ->
  exists d, server_draws (E:=E) PrngURandom random shares context loop = Ok d /\ is_bytes (d_random d) /\ length (d_random d) = 32%nat /\
    is_bytes (d_context d) /\ length (d_context d) = 32%nat /\ Forall (fun k => 2^8 <= k < 2^256) (d_secrets d) /\ Forall (fun k => 2^8 <= k < 2^256) (d_nonces d) /\
    length (d_secrets d) = length shares /\ length (d_nonces d) = length loop.
Proof.
  intros (Br & Lr) Fs (Bc & Lc) Fl. unfold server_draws. rewrite !bytes_ok by lia. rewrite bind_Ok. unfold to_array32.
  assert (L32 : length (firstn 32 random) = 32%nat) by (rewrite firstn_length; lia). rewrite L32. cbn [Nat.eqb]. rewrite bind_Ok.
  destruct (map_between_total E shares Fs) as (s & Hs & Ls). destruct (map_between_total E loop Fl) as (n & Hn & Ln). rewrite Hs, !bind_Ok, Hn, bind_Ok.
  eexists. split; [reflexivity|]. cbn [d_random d_context d_secrets d_nonces]. split; [apply is_bytes_firstn; exact Br|]. split; [exact L32|]. split; [apply is_bytes_firstn; exact Bc|].
  split; [rewrite firstn_length; lia|]. split; [exact (map_between E _ _ Fs Hs)|]. split; [exact (map_between E _ _ Fl Hn)|]. split; assumption.
Qed.
Lemma simple_draws E random shares context loop : server_draws (E:=E) PrngSimple random shares context loop = Panic.
Proof. reflexivity. Qed.

Lemma server_meets calls cfg p random shares context loop : server_configure calls = Ok (cfg, p) -> zlen (ct_raw (sc_cert cfg)) + 5 < 2^24 ->
  read_ok random -> Forall read_ok shares -> read_ok context -> Forall read_ok loop ->
  exists d, server_draws (E:=tls_error) PrngURandom random shares context loop = Ok d /\ server_ok cfg d.
Proof.
  intros H Z Rr Rs Rc Rl. destruct (urandom_draws tls_error random shares context loop Rr Rs Rc Rl) as (d & D & B1 & L1 & B2 & L2 & _ & N & _). exists d. split; [exact D|].
  pose proof (configured_loads _ _ H) as F. rewrite (Proofs.Config.configured _ F) in H.
  destruct (last_set sets_cert calls) as [c|] eqn:C; [|discriminate]. destruct (last_set sets_key calls) as [k|] eqn:K; [|discriminate].
  assert (X : Ok ({| sc_privkey := k; sc_cert := c; sc_client_ca := last_set sets_ca calls; sc_verify := last_set sets_check calls;
                 sc_keylog := last_set sets_keylog calls; sc_server_name := last_set sets_name calls |}, match last_set sets_prng calls with Some p => p | None => PrngURandom end) = Ok (E:=build_error) (cfg, p)).
  { destruct (last_set sets_check calls), (last_set sets_ca calls); first [exact H|discriminate]. }
  injection X as X _. subst cfg. clear H.
  unfold server_ok. cbn [sc_privkey sc_cert sc_client_ca]. cbn [sc_cert] in Z.
  apply last_set_in in C as (cc & _ & C). apply last_set_in in K as (kc & _ & K).
  assert (Ck : is_bytes (ct_raw c)) by (destruct cc; try discriminate; exact (cert_loaded _ _ C)).
  assert (Kk : sk_curve k = secp256r1) by (destruct kc; try discriminate; exact (proj1 (key_loaded _ _ K))).
  repeat (split; [assumption|]). split; [eapply Forall_impl; [|exact N]; intros a Ha; cbv beta in Ha; clear - Ha; lia|].
  intros ca A. apply last_set_in in A as (ac & _ & A). destruct ac; try discriminate. exact (ca_loaded _ _ A).
Qed.

Lemma client_loads_dec c : client_loads c \/ ~ client_loads c.
Proof.
  destruct c; cbn [client_loads]; try (left; exact I).
  - destruct (client_sets_cert _); [left; discriminate|right; intros H; apply H; reflexivity].
  - destruct (client_sets_key _); [left; discriminate|right; intros H; apply H; reflexivity].
Qed.
Lemma client_configured_loads cs cfg : client_configure cs = Ok cfg -> Forall client_loads cs.
Proof.
  intros H. assert (D : Forall client_loads cs \/ exists a c b, cs = a ++ c :: b /\ Forall client_loads a /\ ~ client_loads c).
  { clear H. induction cs as [|c cs IH]; [left; constructor|]. destruct (client_loads_dec c) as [L|L].
    - destruct IH as [F|(a & c' & b & -> & F & N)]; [left; constructor; assumption|]. right. exists (c :: a), c', b. split; [reflexivity|]. split; [constructor; assumption|exact N].
    - right. exists [], c, cs. split; [reflexivity|]. split; [constructor|exact L]. }
  destruct D as [F|(a & c & b & -> & F & N)]; [exact F|]. rewrite (Proofs.Config.client_configure_panics a c b F N) in H. discriminate.
Qed.
Lemma client_meets calls cfg secret random session loop took : client_configure calls = Ok cfg ->
  (forall n, cc_server_name cfg = Some n -> is_bytes n /\ zlen n <= 65000) -> (forall c, cc_cert cfg = Some c -> zlen (ct_raw c) + 5 < 2^24) ->
  read_ok secret -> read_ok random -> read_ok session -> Forall read_ok loop ->
  exists e, client_draws_of (E:=tls_error) secret random session loop took = Ok e /\ client_ok cfg e.
Proof.
  intros H Hn Hc (Bk & Lk) (Br & Lr) (Bs & Ls) Fl. unfold client_draws_of. destruct (between_ok tls_error secret 1 32 Bk Lk ltac:(lia)) as (v & V & R). rewrite V, bind_Ok, !bytes_ok by lia. rewrite !bind_Ok.
  destruct (map_between_total tls_error loop Fl) as (n & N & _). rewrite N, bind_Ok. eexists. split; [reflexivity|]. apply map_between in N; [|exact Fl].
  pose proof (client_configured_loads _ _ H) as F. rewrite (Proofs.Config.client_configured _ F) in H.
  assert (X : Ok {| cc_server_name := last_set client_sets_name calls; cc_cert := last_set client_sets_cert calls; cc_key := last_set client_sets_key calls; cc_keylog := last_set client_sets_keylog calls |} = Ok (E:=Empty_set) cfg).
  { destruct (last_set client_sets_cert calls), (last_set client_sets_key calls); first [exact H|discriminate]. }
  injection X as X. subst cfg. clear H. unfold client_ok. cbn [e_secret e_random e_session e_nonces cc_cert cc_key cc_server_name] in *.
  assert (2 ^ (8 * Z.of_nat 1) = 256) as E1 by reflexivity. assert (2 ^ (8 * Z.of_nat 32) = 2^256) as E2 by reflexivity. rewrite E1, E2 in R. clear E1 E2.
  split; [lia|]. split; [apply is_bytes_firstn; exact Br|]. split; [rewrite firstn_length; lia|]. split; [apply is_bytes_firstn; exact Bs|]. split; [rewrite firstn_length; lia|].
  split; [eapply Forall_impl; [|exact N]; intros a Ha; cbv beta in Ha; clear - Ha; lia|]. split; [exact Hn|]. split.
  - intros c C. split; [|exact (Hc c C)]. apply last_set_in in C as (cc & _ & C). destruct cc; try discriminate. exact (proj1 (ca_loaded _ _ C)).
  - intros k K. apply last_set_in in K as (kc & _ & K). destruct kc; try discriminate. exact (proj1 (key_loaded _ _ K)).
Qed.
