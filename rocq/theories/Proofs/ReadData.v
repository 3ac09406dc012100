(* What tls_read returns once keys are installed *)
From Verif Require Import Proofs.Util Proofs.Bytes Model.Alert Model.Suite Model.KeySchedule Model.Record Model.Stream
  Spec.Tls13Record Spec.Endpoints Spec.Rfc8446Keys.
From Verif Require Import Proofs.KeySchedule Proofs.Record Proofs.Channel Proofs.Opened Proofs.ServerRun.

Local Opaque cipher_decrypt aead_tag_of.

Lemma read_data s p cap chunk s' data : let k := side_key (negb (rp_is_client p)) (cur_keys p) in
  st_protection s = Some p -> good_cipher (rp_cipher p) -> key_ready (rp_cipher p) k -> is_bytes chunk ->
  tls_read s cap chunk = (s', Ok data) ->
  exists n rec e tag padding, record_from_raw chunk = Ok (n, rec) /\ r_fragment rec = e ++ tag /\ length tag = 16%nat /\
    tag = aead_tag_of (c_aead (rp_cipher p)) (k_key k) (record_nonce (k_iv k) (k_seq k)) (r_header rec) e /\
    cipher_decrypt (rp_cipher p) (k_key k) (record_nonce (k_iv k) (k_seq k)) e (r_header rec) tag =
      Ok (data ++ [rt_code RApplicationData] ++ repeat 0 padding) /\
    (length data <= cap)%nat /\
    s' = Stream (st_sock s) (Some (set_keys p (set_side (negb (rp_is_client p)) (cur_keys p) (next_key k)))) (st_buffer s).
Proof.
  intros k Hp Gc KR Bc R. unfold tls_read in R.
  apply sbind_pure in R. destruct R as (rx & Tr & R).
  assert (rx = chunk) by (unfold tcp_read in Tr; destruct chunk; [discriminate|]; now injection Tr). subst rx.
  apply sbind_pure in R. destruct R as ((n & rec) & Pr & R). cbn [snd] in R. destruct (negb (Nat.eqb (r_len rec) (length (r_fragment rec)))); [discriminate|].
  destruct (from_raw_ok _ _ _ Bc Pr) as (Hh & Hn & Ln & Hf & Lf & _).
  assert (Bf : is_bytes (r_fragment rec)) by (rewrite Hf; apply is_bytes_firstn, is_bytes_skipn, Bc).
  assert (Bh : is_bytes (r_header rec)) by (rewrite Hh; apply is_bytes_firstn, Bc).
  assert (Lh : length (r_header rec) = 5%nat) by (rewrite Hh, firstn_length; lia).
  rewrite Hp in R. destruct KR as ((B1 & L1 & B2 & L2) & H0 & H1).
  destruct (rpp_decrypt p rec) as [p' r] eqn:D. unfold rpp_decrypt in D.
  set (m := length (r_fragment rec)) in *. destruct (Nat.ltb_spec m 16) as [|L16]; [injection D as <- <-; discriminate|].
  fold k in D. rewrite per_record_nonce_spec in D by assumption. injection D as <- <-. cbn [next_key k_key] in R.
  set (e := firstn (m - 16) (r_fragment rec)) in *. set (t := skipn (m - 16) (r_fragment rec)) in *.
  set (nonce := record_nonce (k_iv k) (k_seq k)) in *.
  destruct (cipher_decrypt (rp_cipher p) (k_key k) nonce e (r_header rec) t) as [pl|x|] eqn:Dc; try discriminate.
  destruct (record_nonce_ok (k_iv k) (k_seq k) B2) as [NB NL].
  assert (Be : is_bytes e) by now apply is_bytes_firstn.
  assert (Le : zlen e < 2^20) by (unfold zlen, e in *; rewrite firstn_length; lia).
  assert (La : zlen (r_header rec) < 2^10) by (unfold zlen; lia).
  pose proof (cipher_decrypt_ok _ _ _ _ _ _ _ Gc B1 L1 NB ltac:(lia) Be Bh Le La Dc) as Et.
  apply sbind_ok in R. destruct R as (s1 & data1 & R1 & R). apply sbind_pure in R1. destruct R1 as ((ty & d1) & St & R1).
  cbn [fst snd] in R1. destruct ty; try discriminate. injection R1 as <- <-.
  destruct (Nat.ltb_spec cap (length d1)); [discriminate|]. injection R as <- <-.
  destruct (strip_inv _ _ _ St ltac:(discriminate)) as (pad & Epl). rewrite Epl in Dc.
  exists n, rec, e, t, pad. split; [exact Pr|]. split; [symmetry; apply firstn_skipn|].
  split; [unfold t; rewrite skipn_length; fold m; lia|]. split; [exact Et|]. split; [exact Dc|]. split; [lia|]. reflexivity.
Qed.
Lemma from_raw_len buf n rec : record_from_raw buf = Ok (n, rec) -> r_len rec = length (r_fragment rec).
Proof.
  intros H. destruct buf as [|t [|v1 [|v2 [|h [|l rest]]]]]; try (rewrite from_raw_short in H by (cbn; lia); discriminate).
  destruct (rt_new t) as [ty|e|] eqn:T;
    [|unfold record_from_raw in H; cbn [length Nat.ltb Nat.leb idx nth_error unwrap] in H; rewrite bind_Ok, T in H; discriminate..].
  rewrite (from_raw_eq _ _ _ _ _ _ ty T) in H. cbv zeta in H. destruct (Nat.ltb _ _); [discriminate|].
  destruct (Nat.ltb_spec (length rest) (Z.to_nat (Z.lor (Z.shiftl h 8) l))); [discriminate|]. injection H as _ <-. cbn [r_len r_fragment].
  rewrite firstn_length, Nat.min_l by assumption. reflexivity.
Qed.
(* other contents: never data *)
Lemma read_other s p cap chunk n rec e tag t content padding : let k := side_key (negb (rp_is_client p)) (cur_keys p) in
  st_protection s = Some p -> key_ready (rp_cipher p) k -> t <> RInvalid -> t <> RApplicationData ->
  record_from_raw chunk = Ok (n, rec) -> r_fragment rec = e ++ tag -> length tag = 16%nat ->
  cipher_decrypt (rp_cipher p) (k_key k) (record_nonce (k_iv k) (k_seq k)) e (r_header rec) tag =
      Ok (content ++ [rt_code t] ++ repeat 0 padding) ->
  exists s', tls_read s cap chunk = (s', Err UnexpectedMessage) /\ st_sock s' = st_sock s /\ st_buffer s' = st_buffer s.
Proof.
  intros k Hp KR Hi Ht Pr Ef Lt D. destruct KR as ((B1 & L1 & B2 & L2) & H0 & H1).
  pose proof (decrypt_sealed p rec _ e tag L2 H0 H1 Ef Lt D) as Dr. rewrite strip_spec in Dr by exact Hi.
  unfold tls_read, tcp_read. destruct chunk as [|c chunk]; [discriminate|]. cbn [sbind]. rewrite Pr.
  cbn [sbind snd]. rewrite (from_raw_len _ _ _ Pr), Nat.eqb_refl. cbn [negb]. rewrite Hp, Dr. cbn [sbind fst snd].
  destruct t; try (eexists; split; [reflexivity|split; reflexivity]). now destruct Ht.
Qed.
