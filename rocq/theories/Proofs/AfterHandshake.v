(* What reads return for the records a peer sends after the handshake *)
From Verif Require Import Proofs.Util Proofs.Bytes Model.Alert Model.Suite Model.KeySchedule Model.Record Model.Channel Model.Stream
  Spec.Tls13Record Spec.Endpoints Spec.Rfc8446Keys Spec.AfterHandshake.
From Verif Require Import Proofs.KeySchedule Proofs.Record Proofs.Channel Proofs.Stream Proofs.ReadData Proofs.ServerRun.

Local Opaque cipher_decrypt aead_tag_of rpp_encrypt rpp_decrypt record_from_raw.

Definition met (p r : rpp) : Prop := paired p r \/ paired r p.
Lemma paired_next p r c ks : paired p r ->
  (forall b, k_key (side_key b ks) = k_key (side_key b (cur_keys p)) /\ k_iv (side_key b ks) = k_iv (side_key b (cur_keys p)) /\ 0 <= k_seq (side_key b ks)) ->
  c = rp_cipher p -> paired (set_keys p ks) (set_keys r ks).
Proof.
  intros (P1 & P2 & P3 & P4 & P5 & P6) H ->. unfold paired. rewrite !set_keys_side, !set_keys_cipher, !cur_set_keys.
  repeat (split; [assumption || reflexivity|]). intros b. cbv zeta. destruct (H b) as (-> & -> & H0). destruct (P6 b) as (Q1 & Q2 & Q3 & Q4 & _).
  now repeat split.
Qed.
Lemma met_cur p r : met p r -> cur_keys r = cur_keys p.
Proof. intros [(_ & _ & _ & E & _)|(_ & _ & _ & E & _)]; congruence. Qed.
Lemma met_next p r ks : met p r ->
  (forall b, k_key (side_key b ks) = k_key (side_key b (cur_keys p)) /\ k_iv (side_key b ks) = k_iv (side_key b (cur_keys p)) /\ 0 <= k_seq (side_key b ks)) ->
  met (set_keys p ks) (set_keys r ks).
Proof.
  intros M H. destruct M as [M|M].
  - left. now apply paired_next with (rp_cipher p).
  - right. apply paired_next with (rp_cipher r); [exact M| |reflexivity]. rewrite (met_cur p r (or_intror M)). exact H.
Qed.

Lemma met_hop p r t content rest : met p r -> (forall side, k_seq (side_key side (cur_keys p)) + 1 < 2^64) ->
  t <> RInvalid -> is_bytes content -> zlen content + 17 < 2^16 ->
  exists w rec ks, rpp_encrypt p (record_new t content) = (set_keys p ks, Ok w) /\
    length w = (length content + 22)%nat /\
    record_from_raw (w ++ rest) = Ok (length w, rec) /\
    rpp_decrypt r rec = (set_keys r ks, Ok (t, content)) /\
    met (set_keys p ks) (set_keys r ks) /\
    (forall side, k_seq (side_key side ks) <= k_seq (side_key side (cur_keys p)) + 1).
Proof.
  intros M B Ht Hb Hl. destruct (paired_facts p r M B) as (Ec & Er & Ek & Hc & Hk).
  set (k := side_key (rp_is_client p) (cur_keys p)) in *.
  destruct (encrypt_sealed p t content Hk Hc Hb Hl) as (w & E & S). fold k in E, S.
  assert (zlen (content ++ [rt_code t]) = zlen content + 1) as Lz by (rewrite zlen_app; reflexivity).
  destruct (sealed_parse _ _ _ _ rest S ltac:(lia)) as (rec & P & T & Hh & e & tg & Hf & Lt & D). rewrite <- Hh in D.
  pose proof Hk as [(B1 & L1 & B2 & L2) [H0 H1]].
  pose proof (decrypt_sealed r rec (content ++ [rt_code t]) e tg) as DS. cbv zeta in DS. rewrite Er, Bool.negb_involutive, Ek, <- Ec in DS.
  specialize (DS L2 H0 H1 Hf Lt D). rewrite (met_cur _ _ M) in DS.
  exists w, rec, (set_side (rp_is_client p) (cur_keys p) (next_key k)). split; [exact E|].
  split; [rewrite (sealed_length _ _ _ _ S), app_length; cbn [length]; lia|]. split; [exact P|].
  split; [rewrite DS; pose proof (strip_spec content t 0 Ht) as ST; cbn [repeat app] in ST; now rewrite ST|].
  assert (N : forall b, 0 <= k_seq (side_key b (cur_keys p))).
  { intros b. destruct M as [(_ & _ & _ & _ & _ & M)|(_ & _ & _ & E4 & _ & M)]; [now destruct (M b) as (_ & _ & _ & _ & ?)|].
    rewrite <- E4. now destruct (M b) as (_ & _ & _ & _ & ?). }
  split; [apply met_next; [exact M|]|]; intros b; unfold k; pose proof (N b);
    destruct b, (rp_is_client p); cbn [side_key set_side wk_client wk_server next_key k_key k_iv k_seq] in *; repeat split; lia.
Qed.

Lemma read_any s r cap w n rec r' t d : st_protection s = Some r -> w <> [] -> record_from_raw w = Ok (n, rec) ->
  rpp_decrypt r rec = (r', Ok (t, d)) -> (length d <= cap)%nat ->
  tls_read s cap w = (Stream (st_sock s) (Some r') (st_buffer s), told (t, d)).
Proof.
  intros Hp Nw P D L. unfold tls_read, tcp_read. destruct w as [|x w]; [congruence|].
  cbn [sbind]. rewrite P. cbn [sbind snd]. rewrite (from_raw_len _ _ _ P), Nat.eqb_refl. cbn [negb].
  rewrite Hp, D. cbn [sbind fst snd]. unfold told. cbn [fst snd].
  destruct t; cbn [sbind]; try reflexivity. destruct (Nat.ltb_spec cap (length d)); [lia|reflexivity].
Qed.

Lemma in_step ms : forall p r s cap, met p r -> st_protection s = Some r ->
  (forall side, k_seq (side_key side (cur_keys p)) + zlen ms < 2^64) ->
  Forall (fun m => fst m <> RInvalid /\ is_bytes (snd m) /\ zlen (snd m) + 17 < 2^16 /\ (length (snd m) <= cap)%nat) ms ->
  exists p' ws r', seal_all p ms = Some (p', ws) /\ met p' r' /\
    read_each s cap ws = (Stream (st_sock s) (Some r') (st_buffer s), map told ms) /\
    Forall2 (fun m w => length w = (length (snd m) + 22)%nat) ms ws.
Proof.
  induction ms as [|[t d] ms IH]; intros p r s cap M Hs B F.
  - exists p, [], r. cbn [seal_all read_each map]. repeat split; [exact M| |constructor]. rewrite <- Hs. now destruct s.
  - inversion F as [|? ? (F1 & F2 & F3 & F4) F']. subst. cbn [fst snd] in *.
    assert (Lm : zlen ((t, d) :: ms) = 1 + zlen ms) by (unfold zlen; cbn [length]; lia).
    pose proof (zlen_nonneg ms) as Zm.
    destruct (met_hop p r t d [] M) as (w & rec & ks & E & Lw & P & D & M' & B'); try assumption.
    { intros side. specialize (B side). lia. }
    rewrite app_nil_r in P.
    assert (Nw : w <> []) by (intros ->; cbn [length] in Lw; lia).
    pose proof (read_any s r cap w _ rec _ t d Hs Nw P D F4) as R.
    destruct (IH (set_keys p ks) (set_keys r ks) (Stream (st_sock s) (Some (set_keys r ks)) (st_buffer s)) cap M' eq_refl) as (p' & ws & r' & Sa & M2 & Re & F2'); [|exact F'|].
    { intros side. rewrite cur_set_keys. specialize (B side). specialize (B' side). lia. }
    exists p', (w :: ws), r'. cbn [seal_all read_each map]. rewrite E, Sa, R, Re. cbn [st_sock st_buffer].
    split; [reflexivity|]. split; [exact M2|]. split; [reflexivity|]. constructor; [exact Lw|exact F2'].
Qed.
Lemma oks_told ms : oks (map told ms) = data_only ms.
Proof.
  induction ms as [|[t d] ms IH]; [reflexivity|]. unfold oks, data_only in *. cbn [map flat_map filter fst]. rewrite IH.
  destruct t; reflexivity.
Qed.

Lemma after_handshake ms p r s cap : paired p r \/ paired r p -> st_protection s = Some r ->
  (forall side, k_seq (side_key side (cur_keys p)) + zlen ms < 2^64) -> Forall fits ms -> 4074 <= Z.of_nat cap ->
  exists p' ws s' r', seal_all p ms = Some (p', ws) /\ Forall (fun w => (length w <= 4096)%nat) ws /\
    read_each s cap ws = (s', map told ms) /\ oks (map told ms) = data_only ms /\
    st_sock s' = st_sock s /\ st_protection s' = Some r' /\ (paired p' r' \/ paired r' p').
Proof.
  intros M Hs B F C. destruct (in_step ms p r s cap M Hs B) as (p' & ws & r' & Sa & M' & Re & F2).
  { eapply Forall_impl; [|exact F]. intros m (F1 & F2 & F3). repeat split; try assumption; unfold zlen in *; lia. }
  exists p', ws. eexists. exists r'. split; [exact Sa|]. split; [|split; [exact Re|split; [apply oks_told|now repeat split]]].
  clear - F F2. induction F2 as [|m w ms ws L _ IH]; [constructor|]. inversion F as [|? ? (_ & _ & Z) F']. subst.
  constructor; [unfold zlen in Z; lia|now apply IH].
Qed.


(* the errors of a read *)
Local Transparent rpp_decrypt record_from_raw.
Lemma rt_new_err b e : rt_new b = Err e -> e = DecodeError.
Proof. unfold rt_new. repeat (destruct (_ =? _); [discriminate|]). congruence. Qed.
Lemma from_raw_err buf e : record_from_raw buf = Err e -> e = DecodeError.
Proof.
  unfold record_from_raw. destruct (Nat.ltb_spec (length buf) 5) as [|L]; [congruence|].
  destruct buf as [|b0 [|b1 [|b2 [|b3 [|b4 buf]]]]]; try (cbn [length] in L; lia). cbn [idx unwrap nth_error bind].
  destruct (rt_new b0) as [t|x|] eqn:T; cbn [bind]; [|intros [= <-]; now apply rt_new_err in T|discriminate].
  destruct (Nat.ltb _ _); [congruence|]. unfold slice. repeat (destruct (_ && _)%bool; cbn [bind]; try discriminate).
Qed.
Lemma decrypt_err r rec r' e : rpp_decrypt r rec = (r', Err e) -> e = DecodeError \/ e = DecryptError.
Proof.
  unfold rpp_decrypt. destruct (Nat.ltb _ _); [discriminate|].
  destruct (per_record_nonce _) as [[nonce k']|x|] eqn:N; [|unfold per_record_nonce in N; destruct (_ <? _); try discriminate..].
  - destruct (cipher_decrypt _ _ _ _ _ _) as [pl|x|]; intros [= _ H]; [|now right].
    left. unfold strip_padding in H. destruct (last_nonzero pl) as [[i b]|]; [|discriminate].
    destruct (rt_new b) eqn:T; cbn [bind] in H; try discriminate. injection H as <-. now apply rt_new_err in T.
Qed.
Lemma read_errors s cap chunk s' e : tls_read s cap chunk = (s', Err e) ->
  (e = BrokenPipe /\ chunk = []) \/ e = DecodeError \/ e = DecryptError \/ e = UnexpectedMessage.
Proof.
  unfold tls_read. destruct chunk as [|x chunk]; [cbn [tcp_read sbind]; intros [= _ <-]; now left|].
  unfold tcp_read. cbn [sbind]. destruct (record_from_raw (x :: chunk)) as [[n rec]|e1|] eqn:P; cbn [sbind snd].
  2: { intros [= _ <-]. apply from_raw_err in P. subst. now right; left. } 2: discriminate.
  destruct (negb _); [discriminate|]. destruct (st_protection s) as [p|].
  - destruct (rpp_decrypt p rec) as [p' [[t d]|e1|]] eqn:D; cbn [sbind fst snd].
    + destruct t; cbn [sbind]; try (intros [= _ <-]; now right; right; right). destruct (Nat.ltb _ _); discriminate.
    + intros [= _ <-]. destruct (decrypt_err _ _ _ _ D); subst; [now right; left|now right; right; left].
    + discriminate.
  - destruct (r_type rec); cbn [sbind]; try (intros [= _ <-]; now right; right; right). destruct (Nat.ltb _ _); discriminate.
Qed.
Lemma read_end s cap chunk : snd (tls_read s cap chunk) = Err BrokenPipe <-> chunk = [].
Proof.
  split; [|now intros ->]. intros H. destruct (tls_read s cap chunk) as [s' r] eqn:E. cbn [snd] in H. subst r.
  apply read_errors in E. destruct E as [[_ E]|[E|[E|E]]]; [exact E|discriminate..].
Qed.
Lemma close_notify p r s cap level description message :
  paired p r \/ paired r p -> st_protection s = Some r ->
  (forall side, k_seq (side_key side (cur_keys p)) + 1 < 2^64) -> 4074 <= Z.of_nat cap ->
  is_bytes [level; description] -> is_bytes message -> zlen message <= 4074 ->
  exists p1 w1 p2 w2, seal_all p [(RAlert, [level; description])] = Some (p1, [w1]) /\
    seal_all p [(RHandshake, message)] = Some (p2, [w2]) /\
    snd (tls_read s cap w1) = Err UnexpectedMessage /\ snd (tls_read s cap w2) = Err UnexpectedMessage.
Proof.
  intros M Hs B C B1 B2 L.
  assert (one : forall t d, t <> RInvalid -> is_bytes d -> zlen d <= 4074 -> exists p1 w, seal_all p [(t, d)] = Some (p1, [w]) /\ snd (tls_read s cap w) = told (t, d)).
  { intros t d Ht Hd Ld. destruct (after_handshake [(t, d)] p r s cap M Hs B) as (p1 & ws & s' & r' & E & _ & R & _).
    - constructor; [now split|constructor].
    - exact C.
    - destruct ws as [|w [|w2 ws]]; cbn [read_each map] in R.
      + discriminate.
      + destruct (tls_read s cap w) as [s1 o] eqn:T. injection R as _ ->. exists p1, w. now rewrite T.
      + destruct (tls_read s cap w) as [s1 o], (tls_read s1 cap w2) as [s2 o2], (read_each s2 cap ws). discriminate. }
  destruct (one RAlert [level; description]) as (p1 & w1 & E1 & R1); [discriminate|exact B1|unfold zlen; cbn [length]; lia|].
  destruct (one RHandshake message) as (p2 & w2 & E2 & R2); [discriminate|exact B2|exact L|].
  exists p1, w1, p2, w2. now repeat split.
Qed.
Lemma ticket_seen p r s cap before message after :
  paired p r \/ paired r p -> st_protection s = Some r ->
  (forall side, k_seq (side_key side (cur_keys p)) + zlen (before ++ (RHandshake, message) :: after) < 2^64) ->
  Forall fits (before ++ (RHandshake, message) :: after) -> 4074 <= Z.of_nat cap ->
  exists p' ws s' rs, seal_all p (before ++ (RHandshake, message) :: after) = Some (p', ws) /\
    read_each s cap ws = (s', rs) /\ nth_error rs (length before) = Some (Err UnexpectedMessage).
Proof.
  intros M Hs B F C. destruct (after_handshake _ p r s cap M Hs B F C) as (p' & ws & s' & r' & E & _ & R & _).
  exists p', ws, s'. eexists. split; [exact E|]. split; [exact R|]. rewrite map_app, nth_error_app2 by (rewrite map_length; lia).
  rewrite map_length, Nat.sub_diag. reflexivity.
Qed.
