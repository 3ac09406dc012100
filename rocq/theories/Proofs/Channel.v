From Verif Require Import Proofs.Util Proofs.Bytes Model.Alert Model.Suite Model.KeySchedule Model.Record Model.Channel
  Spec.Rfc8446Keys Spec.Tls13Record Spec.Endpoints Proofs.KeySchedule Proofs.Record.

Local Opaque rpp_encrypt rpp_decrypt record_from_raw.

Definition half (c : cipher) (ks kr : tkey) (queue : list (list Z)) (sent got : list rmsg) : Prop :=
  good_key (cipher_get_suite c) ks /\ k_key ks = k_key kr /\ k_iv ks = k_iv kr /\ 0 <= k_seq kr /\
  exists pending, sent = got ++ pending /\ length pending = length queue /\
    in_flight c ks (k_seq kr) queue pending /\ k_seq ks = k_seq kr + zlen pending.

Lemma half_send c r ks kr q sent got t content :
  ks = side_key (rp_is_client r) (cur_keys r) -> rp_cipher r = c -> good_cipher c ->
  half c ks kr q sent got -> msg_ok (t, content) -> k_seq ks + 1 < 2^64 ->
  exists w r', rpp_encrypt r (record_new t content) = (r', Ok w) /\
    rp_cipher r' = c /\ rp_is_client r' = rp_is_client r /\
    side_key (rp_is_client r) (cur_keys r') = next_key ks /\
    side_key (negb (rp_is_client r)) (cur_keys r') = side_key (negb (rp_is_client r)) (cur_keys r) /\
    half c (next_key ks) kr (q ++ [w]) (sent ++ [(t, content)]) got.
Proof.
  intros Ek Ec Hc (G & Kk & Ki & Hr & pending & Es & Lp & F & Sq) Hm Hb.
  assert (key_ready c ks) as KR.
  { split; [assumption|]. assert (0 <= zlen pending) by apply zlen_nonneg. lia. }
  destruct Hm as (M1 & M2 & M3). cbn [fst snd] in M1, M2, M3.
  destruct (encrypt_sealed r t content) as (w & E & S); rewrite <- ?Ek, ?Ec; try assumption.
  exists w. eexists. split; [exact E|]. rewrite set_keys_cipher, set_keys_side, cur_set_keys, side_set_same, side_set_other.
  rewrite <- Ek. split; [assumption|]. split; [reflexivity|]. split; [reflexivity|]. split; [reflexivity|].
  split; [exact G|]. split; [exact Kk|]. split; [exact Ki|]. split; [exact Hr|].
  exists (pending ++ [(t, content)]). split; [now rewrite Es, app_assoc|]. split; [rewrite !app_length; cbn [length]; lia|].
  split.
  - apply in_flight_same with ks; [reflexivity|reflexivity|]. apply in_flight_snoc; [assumption|now split|].
    change (@zlen msg) with (@zlen rmsg). rewrite <- Sq. rewrite <- Ek, Ec in S. cbn [fst snd].
    replace (key_at ks (k_seq ks)) with ks; [exact S|]. now destruct ks.
  - cbn [next_key k_seq]. rewrite Sq, zlen_app. unfold zlen at 3. cbn [length]. lia.
Qed.

Lemma half_recv c r ks kr w q sent got :
  kr = side_key (negb (rp_is_client r)) (cur_keys r) -> rp_cipher r = c -> good_cipher c ->
  half c ks kr (w :: q) sent got -> k_seq ks < 2^64 ->
  exists m r', receive r w = Some (r', m) /\
    rp_cipher r' = c /\ rp_is_client r' = rp_is_client r /\
    side_key (negb (rp_is_client r)) (cur_keys r') = next_key kr /\
    side_key (rp_is_client r) (cur_keys r') = side_key (rp_is_client r) (cur_keys r) /\
    half c ks (next_key kr) q sent (got ++ [m]).
Proof.
  intros Ek Ec Hc (G & Kk & Ki & Hr & pending & Es & Lp & F & Sq) Hb.
  inversion F as [|n w' ws m ms Hm S F' E1 E2 E3]. subst n w' ws pending. clear F.
  change (@zlen rmsg) with (@zlen msg) in *.
  assert (zlen (m :: ms) = 1 + zlen ms) as Lm by (unfold zlen; cbn [length]; lia).
  pose proof (zlen_nonneg ms).
  destruct Hm as (M1 & M2 & M3).
  assert (zlen (snd m ++ [rt_code (fst m)]) = zlen (snd m) + 1) as Lz by (rewrite zlen_app; reflexivity).
  destruct (sealed_parse _ _ _ _ [] S ltac:(lia)) as (rec & P & _ & Hh & e & t & Hf & Lt & D).
  rewrite app_nil_r in P. cbn [key_at k_key k_iv k_seq] in D. rewrite Kk, Ki in D. rewrite <- Hh in D.
  destruct G as (G1 & G2 & G3 & G4).
  pose proof (decrypt_sealed r rec (snd m ++ [rt_code (fst m)]) e t) as DS. cbv zeta in DS. rewrite <- Ek, Ec in DS.
  specialize (DS ltac:(rewrite <- Ki; assumption) Hr ltac:(lia) Hf Lt D).
  exists m. eexists. split.
  - unfold receive. rewrite P, DS. pose proof (strip_spec (snd m) (fst m) 0 M1) as ST. cbn [repeat app] in ST. rewrite ST.
    rewrite <- surjective_pairing. reflexivity.
  - rewrite set_keys_cipher, set_keys_side, cur_set_keys, side_set_same, side_set_other'.
    split; [assumption|]. split; [reflexivity|]. split; [reflexivity|]. split; [reflexivity|].
    split; [repeat split; assumption|]. split; [exact Kk|]. split; [exact Ki|]. cbn [next_key k_seq]. split; [lia|].
    exists ms. split; [rewrite Es, <- app_assoc; reflexivity|]. cbn [length] in Lp. split; [lia|]. split; [assumption|]. change (@zlen rmsg) with (@zlen msg). lia.
Qed.

Definition chan_inv (c : cipher) (ch : chan) (sc ss : list rmsg) : Prop :=
  good_cipher c /\ rp_cipher (ch_client ch) = c /\ rp_cipher (ch_server ch) = c /\
  rp_is_client (ch_client ch) = true /\ rp_is_client (ch_server ch) = false /\
  half c (wk_client (cur_keys (ch_client ch))) (wk_client (cur_keys (ch_server ch))) (ch_c2s ch) sc (ch_at_server ch) /\
  half c (wk_server (cur_keys (ch_server ch))) (wk_server (cur_keys (ch_client ch))) (ch_s2c ch) ss (ch_at_client ch).
Definition budget (ch : chan) (n : nat) : Prop :=
  k_seq (wk_client (cur_keys (ch_client ch))) + Z.of_nat n < 2^64 /\
  k_seq (wk_server (cur_keys (ch_server ch))) + Z.of_nat n < 2^64.

Lemma step_inv c ch sc ss e n : chan_inv c ch sc ss -> ev_ok e -> budget ch (S n) ->
  exists ch', chan_step ch e = Some ch' /\ chan_inv c ch' (sc ++ sent_by true [e]) (ss ++ sent_by false [e]) /\ budget ch' n.
Proof.
  intros (Hc & C1 & C2 & S1 & S2 & H1 & H2) He [B1 B2]. destruct e as [[|] t content|[|]]; cbn [ev_ok] in He.
  - destruct (half_send c (ch_client ch) (wk_client (cur_keys (ch_client ch))) _ _ _ _ t content ltac:(now rewrite S1) C1 Hc H1 He ltac:(lia))
      as (w & r' & E & R1 & R2 & R3 & R4 & R5). rewrite S1 in R2, R3, R4. cbn [negb side_key] in R3, R4.
    cbn [chan_step]. rewrite E. eexists. split; [reflexivity|]. cbn [sent_by Bool.eqb]. rewrite app_nil_r.
    split; [unfold chan_inv|unfold budget];
      cbn [ch_client ch_server ch_c2s ch_s2c ch_at_client ch_at_server].
    + rewrite R3, R4. repeat (split; [assumption|]). assumption.
    + rewrite R3. cbn [next_key k_seq]. lia.
  - destruct (half_send c (ch_server ch) (wk_server (cur_keys (ch_server ch))) _ _ _ _ t content ltac:(now rewrite S2) C2 Hc H2 He ltac:(lia))
      as (w & r' & E & R1 & R2 & R3 & R4 & R5). rewrite S2 in R2, R3, R4. cbn [negb side_key] in R3, R4.
    cbn [chan_step]. rewrite E. eexists. split; [reflexivity|]. cbn [sent_by Bool.eqb]. rewrite app_nil_r.
    split; [unfold chan_inv|unfold budget];
      cbn [ch_client ch_server ch_c2s ch_s2c ch_at_client ch_at_server].
    + rewrite R3, R4. repeat (split; [assumption|]). assumption.
    + rewrite R3. cbn [next_key k_seq]. lia.
  - cbn [chan_step sent_by]. rewrite !app_nil_r. destruct (ch_c2s ch) as [|w q] eqn:Q.
    + exists ch. split; [reflexivity|]. split; [unfold chan_inv; rewrite Q; tauto|unfold budget; lia].
    + destruct (half_recv c (ch_server ch) _ (wk_client (cur_keys (ch_server ch))) w q _ _ ltac:(now rewrite S2) C2 Hc H1 ltac:(lia))
        as (m & r' & E & R1 & R2 & R3 & R4 & R5). rewrite S2 in R2, R3, R4. cbn [negb side_key] in R3, R4.
      rewrite E. eexists. split; [reflexivity|].
      split; [unfold chan_inv|unfold budget];
        cbn [ch_client ch_server ch_c2s ch_s2c ch_at_client ch_at_server].
      * rewrite R3, R4. repeat (split; [assumption|]). assumption.
      * rewrite R4. lia.
  - cbn [chan_step sent_by]. rewrite !app_nil_r. destruct (ch_s2c ch) as [|w q] eqn:Q.
    + exists ch. split; [reflexivity|]. split; [unfold chan_inv; rewrite Q; tauto|unfold budget; lia].
    + destruct (half_recv c (ch_client ch) _ (wk_server (cur_keys (ch_client ch))) w q _ _ ltac:(now rewrite S1) C1 Hc H2 ltac:(lia))
        as (m & r' & E & R1 & R2 & R3 & R4 & R5). rewrite S1 in R2, R3, R4. cbn [negb side_key] in R3, R4.
      rewrite E. eexists. split; [reflexivity|].
      split; [unfold chan_inv|unfold budget];
        cbn [ch_client ch_server ch_c2s ch_s2c ch_at_client ch_at_server].
      * rewrite R3, R4. repeat (split; [assumption|]). assumption.
      * rewrite R4. lia.
Qed.
Lemma sent_by_cons b e es : sent_by b (e :: es) = sent_by b [e] ++ sent_by b es.
Proof. destruct e as [c t x|]; [|reflexivity]. cbn [sent_by]. destruct (Bool.eqb c b); reflexivity. Qed.
Lemma run_inv c ch sc ss es : chan_inv c ch sc ss -> Forall ev_ok es -> budget ch (length es) ->
  exists ch', chan_run ch es = Some ch' /\ chan_inv c ch' (sc ++ sent_by true es) (ss ++ sent_by false es).
Proof.
  intros I H. revert ch sc ss I. induction H as [|e es He H IH]; intros ch sc ss I B.
  - exists ch. split; [reflexivity|]. cbn [sent_by]. now rewrite !app_nil_r.
  - destruct (step_inv c ch sc ss e (length es) I He B) as (ch' & E & I' & B').
    destruct (IH ch' _ _ I' B') as (ch'' & E' & I''). exists ch''. cbn [chan_run]. rewrite E.
    split; [assumption|]. rewrite (sent_by_cons true), (sent_by_cons false), !app_assoc. assumption.
Qed.

(* two endpoints that agree on cipher and keys, nothing in flight *)
Lemma history client server es : paired client server -> Forall ev_ok es ->
  (forall b, k_seq (side_key b (cur_keys client)) + zlen es < 2^64) ->
  exists ch waiting_c waiting_s, chan_run (fresh_chan client server) es = Some ch /\
    sent_by true es = ch_at_server ch ++ waiting_c /\ length waiting_c = length (ch_c2s ch) /\
    sent_by false es = ch_at_client ch ++ waiting_s /\ length waiting_s = length (ch_s2c ch).
Proof.
  intros (P1 & P2 & P3 & P4 & P5 & P6) He Hb.
  destruct (run_inv (rp_cipher client) (fresh_chan client server) [] [] es) as (ch & E & I).
  - unfold chan_inv, fresh_chan. cbn [ch_client ch_server ch_c2s ch_s2c ch_at_client ch_at_server].
    split; [exact P5|]. split; [reflexivity|]. split; [now symmetry|]. split; [assumption|]. split; [assumption|].
    rewrite <- P4. destruct (P6 true) as (K1 & K2 & K3 & K4 & K5). destruct (P6 false) as (Q1 & Q2 & Q3 & Q4 & Q5).
    split; (split; [split; [assumption|split; [assumption|split; assumption]]|]);
      (split; [reflexivity|]); (split; [reflexivity|]); (split; [assumption|]);
      exists []; (split; [reflexivity|]); (split; [reflexivity|]); (split; [constructor|]); unfold zlen; cbn; lia.
  - assumption.
  - unfold budget, fresh_chan. cbn [ch_client ch_server]. rewrite <- P4.
    pose proof (Hb true). pose proof (Hb false). unfold zlen in *. cbn [side_key] in *. lia.
  - destruct I as (_ & _ & _ & _ & _ & (_ & _ & _ & _ & p1 & E1 & L1 & _) & (_ & _ & _ & _ & p2 & E2 & L2 & _)).
    exists ch, p1, p2. cbn [app] in E1, E2. tauto.
Qed.

From Verif Require Import Model.Sha2 Spec.Enc.
Lemma paired_of c t0 (r s : rpp) : good_cipher c -> rp_is_client r = true -> rp_is_client s = false ->
  rp_cipher r = c -> rp_cipher s = c -> cur_keys r = cur_keys s -> k_seq (wk_client (cur_keys r)) = 0 -> k_seq (wk_server (cur_keys r)) = 0 ->
  good_key (cipher_get_suite c) (wk_server (cur_keys r)) -> good_key (cipher_get_suite c) (wk_client (cur_keys r)) ->
  t0 = tt -> paired r s.
Proof.
  intros Hc E1 E2 C1 C2 K S1 S2 (A1 & A2 & A3 & A4) (B1 & B2 & B3 & B4) _. unfold paired. rewrite C1, C2.
  repeat split; try assumption; destruct b; cbn [side_key]; try assumption; rewrite ?S1, ?S2; lia.
Qed.
Lemma params_exist cs c : suite_cipher cs = Ok c -> exists p, suite_parameters (suite_u16 cs) = Some p.
Proof. destruct cs; intros H; cbn in H |- *; try discriminate; eauto. Qed.
Lemma peers_agree cs c t0 hellos ecdhe messages :
  suite_cipher cs = Ok c -> suite_tshash cs = Ok t0 ->
  is_bytes hellos -> zlen hellos < 2^53 -> is_bytes ecdhe -> zlen ecdhe < 2^52 ->
  is_bytes messages -> zlen messages < 2^53 ->
  exists ks client server client' server',
    do_key_schedule (th_type t0) (th_finalize (th_update t0 hellos)) ecdhe = Some ks /\
    rpp_new (E:=tls_error) ks c true = Ok (Some client) /\ rpp_new (E:=tls_error) ks c false = Ok (Some server) /\
    paired client server /\
    generate_application_keys client (th_update t0 messages) = (client', Ok tt) /\
    generate_application_keys server (th_update t0 messages) = (server', Ok tt) /\
    paired client' server'.
Proof.
  intros E1 E2 H1 H2 H3 H4 H5 H6. destruct (params_exist cs c E1) as [[[a A] klen] E3].
  destruct (rpp_keys cs c t0 a A klen true hellos ecdhe E1 E2 E3 H1 H2 H3 H4) as (ks & r & S & N & R1 & R2 & K & G1 & G2 & F).
  destruct (rpp_keys cs c t0 a A klen false hellos ecdhe E1 E2 E3 H1 H2 H3 H4) as (ks' & s & S' & N' & R1' & R2' & K' & G1' & G2' & F').
  rewrite S in S'. injection S' as <-.
  destruct (F messages H5 H6) as (r2 & P & Q1 & Q2 & Q3 & Q4 & Q5).
  destruct (F' messages H5 H6) as (s2 & P' & Q1' & Q2' & Q3' & Q4' & Q5').
  exists ks, r, s, r2, s2.
  assert (good_cipher c) as Hc by (now exists cs).
  split; [assumption|]. split; [assumption|]. split; [assumption|].
  split; [apply (paired_of c tt); try assumption; try reflexivity; [congruence|rewrite K; reflexivity|rewrite K; reflexivity]|].
  split; [assumption|]. split; [assumption|].
  apply (paired_of c tt); try assumption; try reflexivity; [congruence|rewrite Q3; reflexivity|rewrite Q3; reflexivity].
Qed.
Lemma wire_is_rfc r t content : let k := side_key (rp_is_client r) (cur_keys r) in
  good_cipher (rp_cipher r) -> key_ready (rp_cipher r) k ->
  is_bytes content -> zlen content + 17 < 2^16 ->
  (rp_cipher r = CPoly -> ((length content + 1) mod 64 <> 0)%nat) ->
  exists r', rpp_encrypt r (record_new t content) =
    (r', Ok (TLSCiphertext (c_aead (rp_cipher r)) (k_key k) (k_iv k) (k_seq k) (rt_code t) content 0)) /\
    side_key (rp_is_client r) (cur_keys r') = next_key k.
Proof.
  intros k Hc Hk Hb Hl H64. destruct (encrypt_sealed r t content Hk Hc Hb Hl) as (w & E & S).
  eexists. split; [|rewrite cur_set_keys; apply side_set_same]. rewrite E. f_equal. f_equal.
  apply (sealed_rfc (rp_cipher r) k content t 0); try assumption; [lia|].
  intros Q. rewrite Nat.add_0_r. apply H64. destruct (rp_cipher r); [discriminate|reflexivity].
Qed.
Lemma padding_ok r t content padding rest : let k := side_key (negb (rp_is_client r)) (cur_keys r) in
  good_cipher (rp_cipher r) -> key_ready (rp_cipher r) k ->
  t <> RInvalid -> is_bytes content -> zlen content + Z.of_nat padding + 17 < 2^16 ->
  (rp_cipher r = CPoly -> ((length content + padding + 1) mod 64 <> 0)%nat) ->
  let wire := TLSCiphertext (c_aead (rp_cipher r)) (k_key k) (k_iv k) (k_seq k) (rt_code t) content padding in
  exists rec r', record_from_raw (wire ++ rest) = Ok (length wire, rec) /\
    rpp_decrypt r rec = (r', Ok (t, content)) /\
    side_key (negb (rp_is_client r)) (cur_keys r') = next_key k.
Proof.
  intros k Hc Hk Ht Hb Hl H64 wire.
  assert (sealed (rp_cipher r) k (content ++ [rt_code t] ++ repeat 0 padding) wire) as S.
  { apply sealed_rfc; try assumption; [|reflexivity]. intros Q. apply H64. destruct (rp_cipher r); [discriminate|reflexivity]. }
  assert (zlen (content ++ [rt_code t] ++ repeat 0 padding) = zlen content + Z.of_nat padding + 1) as Lz.
  { unfold zlen. rewrite !app_length, repeat_length. cbn [length]. lia. }
  destruct (sealed_parse _ _ _ _ rest S ltac:(lia)) as (rec & P & _ & Hh & e & tg & Hf & Lt & D).
  rewrite <- Hh in D. destruct Hk as [(B1 & L1 & B2 & L2) [H0 H1]].
  pose proof (decrypt_sealed r rec _ e tg L2 H0 H1 Hf Lt D) as DS.
  rewrite (strip_spec content t padding Ht) in DS. exists rec. eexists. split; [exact P|]. split; [exact DS|].
  rewrite cur_set_keys. apply side_set_same.
Qed.
Lemma only_authentic r buf n rec : let k := side_key (negb (rp_is_client r)) (cur_keys r) in
  good_cipher (rp_cipher r) -> key_ready (rp_cipher r) k ->
  is_bytes buf -> record_from_raw buf = Ok (n, rec) ->
  forall r' t content, rpp_decrypt r rec = (r', Ok (t, content)) ->
  exists ciphertext tag,
    buf = firstn 5 buf ++ ciphertext ++ tag ++ skipn n buf /\ length tag = 16%nat /\
    tag = aead_tag_of (c_aead (rp_cipher r)) (k_key k) (record_nonce (k_iv k) (k_seq k)) (firstn 5 buf) ciphertext /\
    r' = set_keys r (set_side (negb (rp_is_client r)) (cur_keys r) (next_key k)).
Proof.
  intros k Hc Hk Hb P r' t content D.
  destruct (from_raw_ok buf n rec Hb P) as (F1 & F2 & F3 & F4 & F5 & _).
  assert (is_bytes (r_fragment rec)) as B1 by (rewrite F4; apply is_bytes_firstn; now apply is_bytes_skipn).
  assert (is_bytes (r_header rec)) as B2 by (rewrite F1; now apply is_bytes_firstn).
  assert (zlen (r_header rec) < 2^10) as B3 by (rewrite F1; unfold zlen; rewrite firstn_length; lia).
  destruct (decrypt_cases r rec Hc Hk B1 B2 F5 B3) as [[_ X]|(e & tg & Ef & Lt & [(Et & p & Lp & X)|(_ & X)])];
    fold k in X; rewrite X in D; try discriminate.
  injection D as <- D. exists e, tg. split; [|split; [assumption|split; [|reflexivity]]].
  - rewrite <- (firstn_skipn 5 buf) at 1. f_equal. rewrite <- (firstn_skipn (n - 5) (skipn 5 buf)) at 1.
    rewrite <- F4, Ef, <- app_assoc. do 2 f_equal. rewrite skipn_skipn. f_equal. lia.
  - rewrite <- F1. exact Et.
Qed.
Lemma wrong_tag r rec ciphertext tag : let k := side_key (negb (rp_is_client r)) (cur_keys r) in
  good_cipher (rp_cipher r) -> key_ready (rp_cipher r) k ->
  is_bytes (r_fragment rec) -> is_bytes (r_header rec) -> zlen (r_fragment rec) < 2^16 -> length (r_header rec) = 5%nat ->
  r_fragment rec = ciphertext ++ tag -> length tag = 16%nat ->
  tag <> aead_tag_of (c_aead (rp_cipher r)) (k_key k) (record_nonce (k_iv k) (k_seq k)) (r_header rec) ciphertext ->
  snd (rpp_decrypt r rec) = Err DecryptError.
Proof.
  intros k Hc Hk B1 B2 F5 Lh Ef Lt Hn.
  destruct (decrypt_cases r rec Hc Hk B1 B2 F5 ltac:(unfold zlen; lia)) as [[L _]|(e & tg & Ef' & Lt' & C)].
  - rewrite Ef, app_length in L. lia.
  - rewrite Ef in Ef'. assert (ciphertext = e /\ tag = tg) as [<- <-].
    { apply app_len_inj in Ef'; [assumption|]. apply (f_equal (@length Z)) in Ef'. rewrite !app_length in Ef'. lia. }
    destruct C as [(Et & _)|(_ & X)]; [now elim Hn|]. now rewrite X.
Qed.
Lemma decrypt_panics r rec : let k := side_key (negb (rp_is_client r)) (cur_keys r) in
  good_cipher (rp_cipher r) -> key_ready (rp_cipher r) k ->
  is_bytes (r_fragment rec) -> is_bytes (r_header rec) -> zlen (r_fragment rec) < 2^16 -> length (r_header rec) = 5%nat ->
  snd (rpp_decrypt r rec) = Panic <-> (length (r_fragment rec) < 16)%nat.
Proof.
  intros k Hc Hk B1 B2 F5 Lh.
  destruct (decrypt_cases r rec Hc Hk B1 B2 F5 ltac:(unfold zlen; lia)) as [[L X]|(e & tg & Ef & Lt & [(Et & p & Lp & X)|(_ & X)])];
    rewrite X; cbn [snd].
  - split; auto.
  - pose proof (strip_no_panic p). rewrite Ef, app_length. split; [congruence|lia].
  - rewrite Ef, app_length. split; [congruence|lia].
Qed.
Lemma parses_only buf n rec : is_bytes buf -> record_from_raw buf = Ok (n, rec) ->
  exists v1 v2, buf = [rt_code (r_type rec); v1; v2] ++ be_enc 2 (zlen (r_fragment rec)) ++ r_fragment rec ++ skipn n buf /\
    n = (5 + length (r_fragment rec))%nat.
Proof.
  intros Hb P. destruct (from_raw_ok buf n rec Hb P) as (F1 & F2 & F3 & F4 & F5 & F6 & F7).
  destruct buf as [|t [|v1 [|v2 [|h [|l rest]]]]]; cbn [length] in F3; try lia.
  exists v1, v2. split; [|assumption]. cbn [nth firstn skipn] in F4, F6, F7. subst t. cbn [app]. do 3 f_equal.
  rewrite <- F6. assert (is_bytes [h; l]) as B2.
  { apply (is_bytes_firstn 2) with (l := skipn 3 _) in Hb || idtac. pose proof (is_bytes_firstn 2 _ (is_bytes_skipn 3 _ Hb)) as X. exact X. }
  pose proof (be_enc_val [h; l] B2) as BV. cbn [length] in BV. rewrite BV. cbn [app]. do 2 f_equal.
  rewrite F4 at 1. replace n with (5 + (n - 5))%nat at 2 by lia. change (skipn (5 + (n - 5)) (rt_code (r_type rec) :: v1 :: v2 :: h :: l :: rest)) with (skipn (n - 5) rest).
  symmetry. apply firstn_skipn.
Qed.
Lemma panics_exactly t v1 v2 h l rest : is_bytes (t :: v1 :: v2 :: h :: l :: rest) ->
  record_from_raw (t :: v1 :: v2 :: h :: l :: rest) = Panic <->
  In t [0; 20; 21; 22; 23] /\ zlen rest < 256 * h + l <= zlen rest + 3.
Proof.
  intros Hb. pose proof (is_bytes_firstn 2 _ (is_bytes_skipn 3 _ Hb)) as B2. cbn [skipn firstn] in B2.
  inversion B2 as [|? ? Hh B3]; subst. inversion B3 as [|? ? Hl _]; subst. unfold is_byte in *.
  destruct (rt_new t) as [ty|e|] eqn:T.
  - rewrite (from_raw_eq _ _ _ _ _ _ ty T). cbv zeta. rewrite two_bytes by assumption. unfold zlen.
    assert (In t [0; 20; 21; 22; 23]) as I by (apply rt_new_ok in T; subst t; destruct ty; cbn; auto 10).
    remember (h * 256 + l) as len eqn:El.
    destruct (Nat.ltb_spec (3 + length rest) (Z.to_nat len)); [split; [discriminate|lia]|].
    destruct (Nat.ltb_spec (length rest) (Z.to_nat len)); [split; [intros; split; [assumption|lia]|reflexivity]|].
    split; [discriminate|lia].
  - assert (e = DecodeError) as -> by (unfold rt_new in T; repeat destruct (_ =? _); congruence).
    rewrite from_raw_bad_type by assumption. split; [discriminate|]. intros [I _]. exfalso.
    cbn [In] in I. destruct I as [<- | [<- | [<- | [<- | [<- | []]]]]]; discriminate.
  - now apply rt_new_no_panic in T.
Qed.
From Verif Require Proofs.Chacha Spec.Rfc8439.
Local Opaque Rfc8439.chacha20_encrypt Rfc8439.aead_tag.
Lemma clear_text r prefix block t : let k := side_key (rp_is_client r) (cur_keys r) in
  rp_cipher r = CPoly -> key_ready (rp_cipher r) k ->
  is_bytes (prefix ++ block) -> (length prefix mod 64 = 0)%nat -> length block = 63%nat ->
  zlen (prefix ++ block) + 17 < 2^16 ->
  exists r' before after, rpp_encrypt r (record_new t (prefix ++ block)) = (r', Ok (before ++ block ++ after)).
Proof.
  intros k Hc Hk Hb Hp Hblk Hl.
  destruct (encrypt_sealed r t (prefix ++ block)) as (w & E & S); try assumption.
  { exists CHACHA20_POLY1305_SHA256. now rewrite Hc. }
  fold k in S. rewrite E. destruct S as (e & tg & C & _ & _ & _ & _ & _ & Ew). rewrite Hc in C, Hk.
  destruct Hk as [(B1 & L1 & B2 & L2) [H0 H1]]. destruct (record_nonce_ok (k_iv k) (k_seq k) B2) as [NB NL].
  set (inner := (prefix ++ block) ++ [rt_code t]) in *.
  assert (length inner = length prefix + 64)%nat as Li by (unfold inner; rewrite !app_length, Hblk; cbn [length]; lia).
  assert (is_bytes inner) as Bi.
  { unfold inner. apply is_bytes_app. split; [assumption|repeat constructor; apply rt_code_byte]. }
  assert (zlen inner = zlen (prefix ++ block) + 1) as Lz by (unfold inner; now rewrite zlen_app).
  Local Transparent cipher_encrypt. cbn [cipher_encrypt] in C.
  rewrite Proofs.Chacha.poly_encrypt_spec in C; try assumption; [|lia|apply rec_header_bytes|unfold zlen at 1; rewrite rec_header_length; lia].
  injection C as Ee Et. unfold Proofs.Chacha.sent in Ee.
  assert (Proofs.Chacha.enc_part (length inner) = length prefix) as Ep.
  { unfold Proofs.Chacha.enc_part. rewrite Li. replace ((length prefix + 64) mod 64)%nat with 0%nat; [cbn [Nat.eqb]; lia|].
    rewrite Nat.add_mod, Hp by lia. reflexivity. }
  rewrite Ep in Ee. unfold inner in Ee at 2. rewrite <- app_assoc, skipn_app_l in Ee.
  eexists. exists ([23; 3; 3] ++ be_enc 2 (Z.of_nat (length (e ++ tg))) ++ Rfc8439.chacha20_encrypt (k_key k) (record_nonce (k_iv k) (k_seq k)) 1 (firstn (length prefix) inner)), ([rt_code t] ++ tg).
  f_equal. f_equal. rewrite Ew. unfold encode_record. rewrite <- Ee at 2. rewrite !app_assoc. reflexivity.
Qed.
