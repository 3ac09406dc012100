From Verif Require Import Model.Base Model.Bytes Model.Alert Model.Der Model.Signature Spec.Enc Spec.X509
  Proofs.Util Proofs.Bytes Proofs.X509Cert.
From Coq Require Import Lia.

Lemma sig_int_at pre content post : Z.of_nat (length content) < 2^24 ->
  sig_int (pre ++ INTEGER content ++ post) (length pre) = Ok (be_val content, (length pre + length (INTEGER content))%nat).
Proof.
  intros H. unfold sig_int, INTEGER. rewrite (der_parse_at pre 2 content post (Primitive DInteger)) by (auto).
  rewrite data_split, slice_mid by (rewrite pre_length; lia). cbn [bind]. rewrite to_ibig_be_val, der_len_eq. do 2 f_equal. lia.
Qed.
Lemma sig_from_der_spec r s rest : Z.of_nat (length (EcdsaSigValue r s)) < 2^24 ->
  sig_from_der (EcdsaSigValue r s ++ rest) =
    Ok ({| sg_r := be_val r; sg_s := be_val s |}, length (EcdsaSigValue r s)).
Proof.
  intros H. unfold sig_from_der, EcdsaSigValue in *.
  pose proof (len_concat_seq [INTEGER r; INTEGER s]) as L. cbn [concat] in L. rewrite app_nil_r, app_length in L.
  pose proof (len_der 2 r). pose proof (len_der 2 s).
  change (der 2 r) with (INTEGER r) in *. change (der 2 s) with (INTEGER s) in *.
  assert (EC : concat [INTEGER r; INTEGER s] = INTEGER r ++ INTEGER s) by (cbn [concat]; now rewrite app_nil_r).
  unfold SEQUENCE in *. rewrite EC in *. set (C := INTEGER r ++ INTEGER s) in *.
  assert (LC : length C = (length (INTEGER r) + length (INTEGER s))%nat) by (unfold C; apply app_length).
  pose proof (der_parse_at [] 0x30 C rest (Constructed DSequence) eq_refl) as D.
  cbn [app length Nat.add] in D. rewrite D by lia.
  pose proof (data_split [] 0x30 C rest) as DS. cbn [app] in DS.
  set (P := 0x30 :: der_length (Z.of_nat (length C))) in *.
  assert (LP : hlen C = length P) by reflexivity. rewrite LP.
  assert (DS2 : der 0x30 C ++ rest = P ++ INTEGER r ++ INTEGER s ++ rest) by (rewrite DS; unfold C at 2; now rewrite <- app_assoc).
  rewrite DS2.
  rewrite sig_int_at by lia. cbn [bind].
  replace (P ++ INTEGER r ++ INTEGER s ++ rest) with ((P ++ INTEGER r) ++ INTEGER s ++ rest) by (rewrite <- app_assoc; reflexivity).
  rewrite <- app_length. rewrite sig_int_at by lia. cbn [bind]. do 2 f_equal. rewrite app_length, der_len_eq, LP. lia.
Qed.

(* the content octets to_der writes for a 32-byte number *)
Definition int_octets (b : list Z) : list Z := if 128 <=? hd 0 b then 0 :: b else b.
Lemma sig_int_der_spec b : length b = 32%nat -> is_bytes b -> sig_int_der b = INTEGER (int_octets b).
Proof.
  intros L B. unfold sig_int_der, int_octets, INTEGER, der, zlen. rewrite L. cbn [Z.of_nat].
  destruct b as [|x b]; [discriminate|]. cbn [hd]. inversion_clear B as [|? ? Hx _]. unfold is_byte in Hx.
  rewrite Z.shiftr_div_pow2 by lia. change (2^7) with 128.
  destruct (Z.leb_spec 128 x).
  - replace (x / 128 =? 1) with true by lia. cbn [length] in *. rewrite L. reflexivity.
  - replace (x / 128 =? 1) with false by lia. rewrite L. reflexivity.
Qed.
Lemma int_octets_len b : length b = 32%nat -> (32 <= length (int_octets b) <= 33)%nat.
Proof. intros L. unfold int_octets. destruct (128 <=? hd 0 b); cbn [length]; lia. Qed.
Lemma int_octets_val b : be_val (int_octets b) = be_val b.
Proof. unfold int_octets. destruct (128 <=? hd 0 b); [|reflexivity]. rewrite be_val_cons. lia. Qed.
Lemma INTEGER_len b : (length b < 128)%nat -> length (INTEGER b) = (2 + length b)%nat.
Proof.
  intros H. unfold INTEGER, der, der_length. destruct (Z.ltb_spec (Z.of_nat (length b)) 128); [|lia].
  reflexivity.
Qed.
Lemma sig_to_der_spec {E} R S r s : length R = 32%nat -> length S = 32%nat -> is_bytes R -> is_bytes S ->
  ibig_to_32bytes (E:=E) r Big = Ok R -> ibig_to_32bytes (E:=E) s Big = Ok S ->
  sig_to_der (E:=E) {| sg_r := r; sg_s := s |} = Ok (EcdsaSigValue (int_octets R) (int_octets S)).
Proof.
  intros LR LS BR BS HR HS. unfold sig_to_der. cbn [sg_r sg_s]. rewrite HR, HS. cbn [bind].
  rewrite !sig_int_der_spec by assumption. unfold EcdsaSigValue, SEQUENCE, der. cbn [concat]. rewrite app_nil_r.
  pose proof (int_octets_len R LR). pose proof (int_octets_len S LS).
  assert (L : zlen (INTEGER (int_octets R) ++ INTEGER (int_octets S)) < 128).
  { unfold zlen. rewrite app_length, !INTEGER_len by lia. lia. }
  change (Z.of_nat (length (INTEGER (int_octets R) ++ INTEGER (int_octets S)))) with (zlen (INTEGER (int_octets R) ++ INTEGER (int_octets S))).
  unfold der_length. destruct (Z.ltb_spec (zlen (INTEGER (int_octets R) ++ INTEGER (int_octets S))) 128); [|lia].
  rewrite u8_id by (unfold zlen in *; lia). reflexivity.
Qed.

(* 256^(bytes of n - 1) *)
Lemma byte_size n : 0 < n < 2^256 -> exists k, (k < 32)%nat /\ Z.of_nat k = Z.log2 n / 8 /\ 256 ^ Z.of_nat k <= n < 256 ^ Z.of_nat (S k).
Proof.
  intros H. exists (Z.to_nat (Z.log2 n / 8)).
  assert (0 <= Z.log2 n < 256) by (split; [apply Z.log2_nonneg|apply Z.log2_lt_pow2; lia]).
  assert (0 <= Z.log2 n / 8 < 32) by (split; [apply Z.div_pos; lia|apply Z.div_lt_upper_bound; lia]).
  split; [lia|]. split; [lia|]. pose proof (Z.log2_spec n ltac:(lia)) as [S1 S2].
  rewrite Nat2Z.inj_succ, Z2Nat.id by lia. change 256 with (2^8). rewrite <- !Z.pow_mul_r by lia. split.
  - apply Z.le_trans with (2 ^ Z.log2 n); [|lia]. apply Z.pow_le_mono_r; lia.
  - apply Z.lt_le_trans with (2 ^ Z.succ (Z.log2 n)); [lia|]. apply Z.pow_le_mono_r; lia.
Qed.
Definition shifted (n : Z) : Z := n * 256 ^ (31 - Z.log2 n / 8).
Lemma to_32_big {E} n : 0 < n < 2^256 -> exists b, ibig_to_32bytes (E:=E) n Big = Ok b /\ length b = 32%nat /\ is_bytes b /\
  be_val b = shifted n.
Proof.
  intros H. destruct (byte_size n H) as (k & Hk & Hl & Hr). exists (be_enc 32 (n * 256 ^ Z.of_nat (31 - k))).
  split; [now apply ibig_to_32_big_short|]. split; [apply be_enc_length|]. split; [apply be_enc_bytes|].
  rewrite be_val_enc. unfold shifted. rewrite <- Hl. replace (Z.of_nat (31 - k)) with (31 - Z.of_nat k) by lia.
  apply Z.mod_small. assert (0 < 256 ^ (31 - Z.of_nat k)) by (apply Z.pow_pos_nonneg; lia). split; [nia|].
  replace (256 ^ Z.of_nat 32) with (256 ^ Z.of_nat (S k) * 256 ^ (31 - Z.of_nat k)); [nia|].
  rewrite <- Z.pow_add_r by lia. f_equal. lia.
Qed.
Lemma round_trip {E} r s : 0 < r < 2^256 -> 0 < s < 2^256 ->
  exists der, sig_to_der (E:=E) {| sg_r := r; sg_s := s |} = Ok der /\
    sig_from_der der = Ok ({| sg_r := shifted r; sg_s := shifted s |}, length der).
Proof.
  intros Hr Hs. destruct (to_32_big (E:=E) r Hr) as (R & HR & LR & BR & VR).
  destruct (to_32_big (E:=E) s Hs) as (S & HS & LS & BS & VS).
  exists (EcdsaSigValue (int_octets R) (int_octets S)). split; [now apply sig_to_der_spec|].
  pose proof (sig_from_der_spec (int_octets R) (int_octets S) []) as P. rewrite app_nil_r in P. rewrite P.
  - rewrite !int_octets_val, VR, VS. reflexivity.
  - pose proof (int_octets_len R LR). pose proof (int_octets_len S LS). unfold EcdsaSigValue, SEQUENCE.
    rewrite der_len_eq. cbn [concat]. rewrite app_nil_r, app_length, !INTEGER_len by lia. unfold hlen.
    rewrite app_length, !INTEGER_len by lia. unfold der_length. destruct (_ <? 128) eqn:Q; [cbn [length]; lia|apply Z.ltb_ge in Q; lia].
Qed.
Lemma shifted_top n : 2^248 <= n < 2^256 -> shifted n = n.
Proof.
  intros H. unfold shifted. assert (248 <= Z.log2 n < 256).
  { split; [apply Z.log2_le_pow2; lia|apply Z.log2_lt_pow2; lia]. }
  replace (Z.log2 n / 8) with 31; [cbn; lia|]. apply Z.div_unique with (Z.log2 n - 248); lia.
Qed.
Lemma shifted_short n : 0 < n < 2^248 -> shifted n <> n.
Proof.
  intros H. unfold shifted. assert (0 <= Z.log2 n < 248) by (split; [apply Z.log2_nonneg|apply Z.log2_lt_pow2; lia]).
  assert (Z.log2 n / 8 < 31) by (apply Z.div_lt_upper_bound; lia).
  assert (256 ^ 1 <= 256 ^ (31 - Z.log2 n / 8)) by (apply Z.pow_le_mono_r; lia). nia.
Qed.
