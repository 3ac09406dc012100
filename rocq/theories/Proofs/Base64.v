From Verif Require Import Proofs.Util Model.Base64 Spec.Rfc4648.

Lemma chars_alphabet : CHARS = alphabet.
Proof. reflexivity. Qed.

Lemma char_at_digit v : 0 <= v < 64 -> char_at v = digit v.
Proof. intros. unfold char_at, digit. rewrite chars_alphabet, Z.mod_small by lia. reflexivity. Qed.

Lemma sextet0 a : is_byte a -> Z.land (Z.shiftr a 2) 63 = a / 4.
Proof.
  unfold is_byte; intros. change 63 with (2^6 - 1). rewrite land_mask by lia.
  rewrite Z.shiftr_div_pow2 by lia. change (2^2) with 4; change (2^6) with 64. lia.
Qed.
Lemma sextet1 a b : is_byte a -> is_byte b ->
  Z.land (Z.lor (u8 (Z.shiftl (Z.land a 3) 4)) (Z.shiftr b 4)) 63 = (a mod 4) * 16 + b / 16.
Proof.
  unfold is_byte; intros. change 3 with (2^2-1). rewrite land_mask by lia. change (2^2) with 4.
  rewrite u8_id by (rewrite Z.shiftl_mul_pow2 by lia; change (2^4) with 16; lia).
  rewrite lor_shiftl_add by (rewrite ?Z.shiftr_div_pow2 by lia; change (2^4) with 16; lia).
  change 63 with (2^6-1). rewrite land_mask by lia.
  rewrite Z.shiftr_div_pow2 by lia. change (2^4) with 16; change (2^6) with 64. lia.
Qed.
Lemma sextet2 a b : is_byte a -> is_byte b ->
  Z.land (Z.lor (u8 (Z.shiftl (Z.land a 15) 2)) (Z.shiftr b 6)) 63 = (a mod 16) * 4 + b / 64.
Proof.
  unfold is_byte; intros. change 15 with (2^4-1). rewrite land_mask by lia. change (2^4) with 16.
  rewrite u8_id by (rewrite Z.shiftl_mul_pow2 by lia; change (2^2) with 4; lia).
  rewrite lor_shiftl_add by (rewrite ?Z.shiftr_div_pow2 by lia; change (2^2) with 4; change (2^6) with 64; lia).
  change 63 with (2^6-1). rewrite land_mask by lia.
  rewrite Z.shiftr_div_pow2 by lia. change (2^2) with 4; change (2^6) with 64. lia.
Qed.
Lemma sextet3 a : is_byte a -> Z.land a 63 = a mod 64.
Proof. intros. change 63 with (2^6-1). now rewrite land_mask by lia. Qed.

Lemma digit_mod v w : v mod 64 = w mod 64 -> digit v = digit w.
Proof. unfold digit. now intros ->. Qed.

Lemma encode_group_spec a b c : is_byte a -> is_byte b -> is_byte c ->
  let v := a * 65536 + b * 256 + c in
  encode_group a b c = [digit (v / 262144); digit (v / 4096); digit (v / 64); digit v].
Proof.
  intros Ha Hb Hc v. unfold encode_group.
  rewrite sextet0, sextet1, sextet2, sextet3 by assumption.
  unfold is_byte in *. rewrite !char_at_digit by lia. subst v.
  repeat (apply (f_equal2 cons); [apply digit_mod; lia|]). reflexivity.
Qed.

Lemma byte0 : is_byte 0. Proof. unfold is_byte; lia. Qed.

Lemma encode_loop_spec l : is_bytes l ->
  let (o, add) := encode_loop l in
  (add <= length o)%nat /\ firstn (length o - add) o ++ repeat 61 add = b64 l.
Proof.
  induction l as [l IH] using list_len_ind. intros Hl.
  destruct l as [|a [|b [|c t]]].
  - cbn. auto.
  - inversion Hl; subst. cbn [encode_loop b64].
    pose proof (encode_group_spec a 0 0) as E. cbv zeta in E.
    rewrite E by auto using byte0. cbn [length firstn Nat.sub app repeat]. split; [lia|].
    replace (a * 65536 + 0 * 256 + 0) with (a * 65536) by lia. reflexivity.
  - inversion Hl as [|? ? Ha Hl']; subst. inversion Hl' as [|? ? Hb _]; subst.
    cbn [encode_loop b64].
    pose proof (encode_group_spec a b 0) as E. cbv zeta in E.
    rewrite E by auto using byte0. cbn [length firstn Nat.sub app repeat]. split; [lia|].
    replace (a * 65536 + b * 256 + 0) with (a * 65536 + b * 256) by lia. reflexivity.
  - inversion Hl as [|? ? Ha Hl']; subst. inversion Hl' as [|? ? Hb Hl'']; subst.
    inversion Hl'' as [|? ? Hc Ht]; subst.
    cbn [encode_loop b64]. specialize (IH t ltac:(cbn; lia) Ht).
    destruct (encode_loop t) as [o add]. destruct IH as [IHl IHe].
    rewrite (encode_group_spec a b c) by auto. split; [cbn; lia|].
    cbn [length app]. rewrite <- IHe.
    replace (S (S (S (S (length o)))) - add)%nat with (4 + (length o - add))%nat by lia. reflexivity.
Qed.

Lemma encode_spec l : is_bytes l -> encode l = b64 l.
Proof.
  intros H. pose proof (encode_loop_spec l H) as E. unfold encode.
  destruct (encode_loop l). apply E.
Qed.

(* decoding *)
Lemma digit_range_ok v : 0 <= v < 64 ->
  digit v <> 61 /\ digit v <= 122 /\ reverse_char (digit v) = v.
Proof.
  intros H.
  assert (forallb (fun v => negb (digit v =? 61) && (digit v <=? 122) && (reverse_char (digit v) =? v))
            (zrange 64) = true) as F by reflexivity.
  pose proof (forallb_zrange _ _ F v H) as G. cbv beta in G.
  apply andb_prop in G. destruct G as [G G3]. apply andb_prop in G. destruct G as [G1 G2]. lia.
Qed.
Lemma dec_char_digit {E} v : dec_char (E:=E) (digit v) = Ok (v mod 64, 0%nat).
Proof.
  assert (digit v = digit (v mod 64)) as -> by (apply digit_mod; lia).
  destruct (digit_range_ok (v mod 64)) as (H1 & H2 & H3); [lia|].
  unfold dec_char. destruct (Z.eqb_spec (digit (v mod 64)) 61); [contradiction|].
  destruct (Z.leb_spec (digit (v mod 64)) 122); [|lia]. now rewrite H3.
Qed.
Lemma dec_char_pad {E} : dec_char (E:=E) pad = Ok (0, 1%nat).
Proof. reflexivity. Qed.

Lemma glue s t k : 0 <= k <= 8 -> 0 <= t < 2^k -> Z.lor (u8 (Z.shiftl s k)) t = (s * 2^k) mod 256 + t.
Proof.
  intros Hk Ht. unfold u8. change (2^8) with 256. rewrite Z.shiftl_mul_pow2 by lia.
  assert ((s * 2^k) mod 256 = (s mod 2^(8-k)) * 2^k) as ->.
  { rewrite <- Zmult_mod_distr_r. f_equal.
    rewrite <- Z.pow_add_r by lia. now replace (8 - k + k) with 8 by lia. }
  apply lor_mul_add; lia.
Qed.

Lemma group_bytes a b c : is_byte a -> is_byte b -> is_byte c ->
  let v := a * 65536 + b * 256 + c in
  let s0 := (v / 262144) mod 64 in let s1 := (v / 4096) mod 64 in
  let s2 := (v / 64) mod 64 in let s3 := v mod 64 in
  Z.lor (u8 (Z.shiftl s0 2)) (Z.shiftr s1 4) = a /\
  Z.lor (u8 (Z.shiftl s1 4)) (Z.shiftr s2 2) = b /\
  Z.lor (u8 (Z.shiftl s2 6)) s3 = c.
Proof.
  unfold is_byte. cbv zeta. intros.
  rewrite !Z.shiftr_div_pow2 by lia.
  change (2^4) with 16 in *; change (2^2) with 4 in *.
  rewrite !glue by (try lia; change (2^4) with 16; change (2^2) with 4; change (2^6) with 64; lia).
  change (2^4) with 16; change (2^2) with 4; change (2^6) with 64. lia.
Qed.

Lemma decode_loop_b64 {E} l : is_bytes l ->
  exists o p, decode_loop (E:=E) (b64 l) = Ok (o, p) /\ (p <= length o)%nat /\
    firstn (length o - p) o = l.
Proof.
  induction l as [l IH] using list_len_ind. intros Hl.
  destruct l as [|a [|b [|c t]]].
  - exists [], 0%nat. cbn. auto.
  - inversion Hl as [|? ? Ha _]; subst. cbn [b64 decode_loop].
    rewrite !dec_char_digit, !dec_char_pad. cbn [bind].
    pose proof (group_bytes a 0 0 Ha byte0 byte0) as G. cbv zeta in G.
    replace (a * 65536 + 0 * 256 + 0) with (a * 65536) in G by lia. destruct G as (G1 & _ & _).
    eexists _, _. split; [reflexivity|]. rewrite G1. split; cbn; [lia|reflexivity].
  - inversion Hl as [|? ? Ha Hl']; subst. inversion Hl' as [|? ? Hb _]; subst.
    cbn [b64 decode_loop]. rewrite !dec_char_digit, !dec_char_pad. cbn [bind].
    pose proof (group_bytes a b 0 Ha Hb byte0) as G. cbv zeta in G.
    replace (a * 65536 + b * 256 + 0) with (a * 65536 + b * 256) in G by lia.
    destruct G as (G1 & G2 & _).
    eexists _, _. split; [reflexivity|]. rewrite G1, G2. split; cbn; [lia|reflexivity].
  - inversion Hl as [|? ? Ha Hl']; subst. inversion Hl' as [|? ? Hb Hl'']; subst.
    inversion Hl'' as [|? ? Hc Ht]; subst.
    destruct (IH t ltac:(cbn; lia) Ht) as (o & p & E1 & E2 & E3).
    cbn [b64 app decode_loop]. rewrite !dec_char_digit. cbn [bind]. rewrite E1. cbn [bind].
    pose proof (group_bytes a b c Ha Hb Hc) as G. cbv zeta in G. destruct G as (G1 & G2 & G3).
    eexists _, _. split; [reflexivity|]. rewrite G1, G2, G3. cbn [app length Nat.add]. split; [lia|].
    replace (S (S (S (length o))) - p)%nat with (3 + (length o - p))%nat by lia.
    cbn [Nat.add firstn]. now rewrite E3.
Qed.

Lemma b64_len4 l : Nat.modulo (length (b64 l)) 4 = 0%nat.
Proof.
  induction l as [l IH] using list_len_ind.
  destruct l as [|a [|b [|c t]]]; try reflexivity.
  specialize (IH t ltac:(cbn; lia)). cbn [b64 app length].
  replace (S (S (S (S (length (b64 t)))))) with (length (b64 t) + 1 * 4)%nat by lia.
  now rewrite Nat.mod_add.
Qed.

Lemma decode_encode l : is_bytes l -> decode (encode l) = Ok l.
Proof.
  intros Hl. rewrite encode_spec by assumption. unfold decode.
  rewrite b64_len4. cbn [Nat.eqb negb].
  destruct (decode_loop_b64 (E:=unit) l Hl) as (o & p & E1 & E2 & E3).
  rewrite E1. cbn [bind]. now rewrite E3.
Qed.
