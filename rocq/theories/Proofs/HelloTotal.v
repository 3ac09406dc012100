From Verif.Model Require Import Base Alert Bytes Suite Extensions Hello Handshake.
From Verif.Spec Require Import Enc Rfc8446Hello HelloView.
From Verif.Proofs Require Import Util Bytes Hello.

(* ---- the fuel of the loops never runs out ---- *)
Lemma client_fuel n : forall rest f g, (length rest <= n)%nat -> (length rest <= f)%nat -> (length rest <= g)%nat ->
  client_exts_loop f rest = client_exts_loop g rest.
Proof.
  induction n as [|n IH]; intros rest f g Hn Hf Hg.
  - destruct rest; [|cbn in Hn; lia]. destruct f, g; reflexivity.
  - destruct rest as [|x rest]; [destruct f, g; reflexivity|].
    destruct f as [|f]; [cbn in Hf; lia|]. destruct g as [|g]; [cbn in Hg; lia|].
    cbn [client_exts_loop]. set (w := x :: rest) in *.
    destruct (slice w 0 2) as [t| |] eqn:E1; [|reflexivity..]. rewrite !bind_Ok.
    destruct (slice w 2 4) as [s| |] eqn:E2; [|reflexivity..]. rewrite !bind_Ok.
    apply slice_ok in E2. destruct E2 as [L2 _].
    set (k := Z.to_nat (to_u16 s)).
    assert (length (skipn k (skipn 4 w)) + 4 <= length w)%nat as Hd by (rewrite !skipn_length; lia).
    assert (length w = S (length rest)) as Hw by reflexivity.
    rewrite (IH (skipn k (skipn 4 w)) f g) by lia. reflexivity.
Qed.
Lemma server_fuel n : forall rest f g, (length rest <= n)%nat -> (length rest <= f)%nat -> (length rest <= g)%nat ->
  server_exts_loop f rest = server_exts_loop g rest.
Proof.
  induction n as [|n IH]; intros rest f g Hn Hf Hg.
  - destruct rest; [|cbn in Hn; lia]. destruct f, g; reflexivity.
  - destruct rest as [|x rest]; [destruct f, g; reflexivity|].
    destruct f as [|f]; [cbn in Hf; lia|]. destruct g as [|g]; [cbn in Hg; lia|].
    cbn [server_exts_loop]. set (w := x :: rest) in *.
    destruct (slice w 0 2) as [t| |] eqn:E1; [|reflexivity..]. rewrite !bind_Ok.
    destruct (slice w 2 4) as [s| |] eqn:E2; [|reflexivity..]. rewrite !bind_Ok.
    apply slice_ok in E2. destruct E2 as [L2 _].
    set (k := Z.to_nat (to_u16 s)).
    assert (length (skipn k (skipn 4 w)) + 4 <= length w)%nat as Hd by (rewrite !skipn_length; lia).
    assert (length (skipn 4 w) + 4 <= length w)%nat as Hd2 by (rewrite !skipn_length; lia).
    assert (length w = S (length rest)) as Hw by reflexivity.
    rewrite (IH (skipn k (skipn 4 w)) f g), (IH (skipn 4 w) f g) by lia. reflexivity.
Qed.
Lemma request_fuel n : forall rest f g, (length rest <= n)%nat -> (length rest <= f)%nat -> (length rest <= g)%nat ->
  request_exts_loop f rest = request_exts_loop g rest.
Proof.
  induction n as [|n IH]; intros rest f g Hn Hf Hg.
  - destruct rest; [|cbn in Hn; lia]. destruct f, g; reflexivity.
  - destruct rest as [|x rest]; [destruct f, g; reflexivity|].
    destruct f as [|f]; [cbn in Hf; lia|]. destruct g as [|g]; [cbn in Hg; lia|].
    cbn [request_exts_loop]. set (w := x :: rest) in *.
    destruct (slice w 0 2) as [t| |] eqn:E1; [|reflexivity..]. rewrite !bind_Ok.
    destruct (slice w 2 4) as [s| |] eqn:E2; [|reflexivity..]. rewrite !bind_Ok.
    apply slice_ok in E2. destruct E2 as [L2 _].
    set (k := Z.to_nat (to_u16 s)).
    assert (length (skipn k (skipn 4 w)) + 4 <= length w)%nat as Hd by (rewrite !skipn_length; lia).
    assert (length (skipn 4 w) + 4 <= length w)%nat as Hd2 by (rewrite !skipn_length; lia).
    assert (length w = S (length rest)) as Hw by reflexivity.
    rewrite (IH (skipn k (skipn 4 w)) f g), (IH (skipn 4 w) f g) by lia. reflexivity.
Qed.
Lemma kse_parse_used b used e : kse_parse b = Ok (used, e) -> (used <= length b)%nat.
Proof.
  unfold kse_parse. destruct (named_group_new (to_u16 b)); [|discriminate]. intros H.
  apply bind_ok in H. destruct H as (c & Hc & H).
  destruct (to_u16 c + 4 <? 2^16); [|discriminate]. apply bind_ok in H. destruct H as (o & Ho & H).
  apply slice_ok in Ho. injection H as H _. lia.
Qed.
Lemma ks_fuel n : forall buf consumed len f g, (length buf - consumed <= n)%nat ->
  (length buf - consumed < f)%nat -> (length buf - consumed < g)%nat ->
  ks_loop f buf consumed len = ks_loop g buf consumed len.
Proof.
  induction n as [|n IH]; intros buf consumed len f g Hn Hf Hg;
    (destruct f as [|f]; [lia|]); (destruct g as [|g]; [lia|]); cbn [ks_loop];
    (destruct (slice_from buf consumed) as [b| |] eqn:Eb; [|reflexivity..]); rewrite !bind_Ok;
    (destruct (kse_parse b) as [[used e]| |] eqn:Ek; [|reflexivity..]); rewrite !bind_Ok;
    (destruct (Nat.leb_spec used 7); [reflexivity|]); (destruct (Nat.leb_spec len (consumed + used)); [reflexivity|]);
    apply kse_parse_used in Ek; apply slice_from_ok in Eb; destruct Eb as [Hc ->]; rewrite skipn_length in Ek; [exfalso; lia|].
  now rewrite (IH buf (consumed + used)%nat len f g) by lia.
Qed.

(* ---- session ids ---- *)
Lemma sid_32 buf c s : client_hello_from_raw buf = Ok c -> ch_sid c = Some s -> length s = 32%nat.
Proof.
  unfold client_hello_from_raw. destruct (Nat.ltb _ _); [discriminate|]. intros H Hs.
  apply bind_ok in H. destruct H as (v & _ & H). destruct (negb _); [discriminate|].
  apply bind_ok in H. destruct H as (r & _ & H). apply bind_ok in H. destruct H as (n & _ & H).
  apply bind_ok in H. destruct H as ((k & sid) & Hsid & H).
  apply bind_ok in H. destruct H as (l & _ & H). destruct (_ || _); [discriminate|].
  apply bind_ok in H. destruct H as (su & _ & H). apply bind_ok in H. destruct H as (el & _ & H).
  apply bind_ok in H. destruct H as (b & _ & H). apply bind_ok in H. destruct H as (ex & _ & H).
  injection H as <-. cbn [ch_sid] in Hs. subst sid.
  destruct (negb (n =? 0)); [|discriminate]. apply bind_ok in Hsid. destruct Hsid as (s' & Hs' & Hsid).
  injection Hsid as _ <-. apply slice_ok in Hs'. destruct Hs' as [Hl ->]. rewrite firstn_length, skipn_length. lia.
Qed.
Lemma short_session_lost m c : (1 <= length (m_session_id m) < 32)%nat ->
  client_hello_from_raw (client_hello_wire m) = Ok c -> ch_sid c <> Some (m_session_id m).
Proof. intros Hl H Hs. apply (sid_32 _ _ _ H) in Hs. lia. Qed.

(* ---- panics ---- *)
Lemma u16_at_head {E} a b t : is_byte a -> is_byte b -> u16_at (E:=E) (a :: b :: t) 0 = Ok (a * 256 + b).
Proof.
  intros Ha Hb. unfold u16_at, idx. cbn [nth_error Nat.add unwrap]. rewrite !bind_Ok. f_equal. exact (to_u16_val a b t Ha Hb).
Qed.
Lemma client_hello_panics t : (43 <= length t < 65)%nat -> nth 32 t 0 <> 0 ->
  client_hello_from_raw (3 :: 3 :: t) = Panic.
Proof.
  intros Hl Hn. unfold client_hello_from_raw. cbn [length].
  destruct (Nat.ltb_spec (S (S (length t))) 45); [lia|].
  rewrite u16_at_head by (unfold is_byte; lia). rewrite bind_Ok. cbn [Z.eqb negb Z.mul Z.add Pos.mul Pos.add Pos.eqb].
  change (negb (3 * 256 + 3 =? 771)) with false. cbv iota.
  rewrite slice_in by (cbn [length]; lia). rewrite bind_Ok.
  unfold idx at 1. rewrite (nth_error_nth' (3 :: 3 :: t) 0) by (cbn [length]; lia). cbn [unwrap]. rewrite bind_Ok.
  cbn [nth]. destruct (Z.eqb_spec (nth 32 t 0) 0); [congruence|]. cbn [negb].
  rewrite slice_out by (cbn [length]; lia). reflexivity.
Qed.
Lemma server_hello_panics t : (34 <= length t < 65)%nat -> nth 32 t 0 <> 0 ->
  server_hello_from_raw (3 :: 3 :: t) = Panic.
Proof.
  intros Hl Hn. unfold server_hello_from_raw. cbn [length].
  destruct (Nat.ltb_spec (S (S (length t))) 36); [lia|].
  rewrite u16_at_head by (unfold is_byte; lia). rewrite bind_Ok.
  change (negb (3 * 256 + 3 =? 771)) with false. cbv iota.
  rewrite slice_in by (cbn [length]; lia). rewrite bind_Ok.
  unfold idx at 1. rewrite (nth_error_nth' (3 :: 3 :: t) 0) by (cbn [length]; lia). cbn [unwrap]. rewrite bind_Ok.
  cbn [nth]. destruct (Z.eqb_spec (nth 32 t 0) 0); [congruence|]. cbn [negb].
  rewrite slice_out by (cbn [length]; lia). reflexivity.
Qed.

(* ---- handshake framing ---- *)
Lemma ht_round t : handshake_type_new (handshake_type_u8 t) = Some t.
Proof. destruct t; reflexivity. Qed.
Lemma ht_byte t : is_byte (handshake_type_u8 t).
Proof. destruct t; unfold is_byte; cbn; lia. Qed.
Lemma ht_new_u8 b t : handshake_type_new b = Some t -> b = handshake_type_u8 t.
Proof.
  unfold handshake_type_new. repeat (match goal with |- context [b =? ?c] => destruct (Z.eqb_spec b c); [intros [= <-]; subst; reflexivity|] end).
  discriminate.
Qed.
Lemma len24 b1 b2 b3 : is_byte b1 -> is_byte b2 -> is_byte b3 ->
  Z.lor (Z.lor (u32 (Z.shiftl b1 16)) (u32 (Z.shiftl b2 8))) b3 = b1 * 65536 + b2 * 256 + b3.
Proof.
  unfold is_byte. intros H1 H2 H3. rewrite !Z.shiftl_mul_pow2 by lia.
  rewrite !u32_id by (change (2^32) with 4294967296; change (2^16) with 65536; change (2^8) with 256; lia).
  rewrite lor_mul_add by (change (2^16) with 65536; change (2^8) with 256; lia).
  replace (b1 * 2 ^ 16 + b2 * 2 ^ 8) with ((b1 * 256 + b2) * 2^8) by (change (2^16) with 65536; change (2^8) with 256; lia).
  rewrite lor_mul_add by (change (2^8) with 256; lia). change (2^8) with 256. lia.
Qed.
Lemma from_raw_exact b0 b1 b2 b3 t : is_byte b1 -> is_byte b2 -> is_byte b3 ->
  handshake_from_raw (b0 :: b1 :: b2 :: b3 :: t) =
  match handshake_type_new b0 with
  | None => Err DecodeError
  | Some ty => let n := Z.to_nat (b1 * 65536 + b2 * 256 + b3) in
      if Nat.leb n (length t) then Ok (Handshake ty (firstn n t) (b0 :: b1 :: b2 :: b3 :: firstn n t)) else Panic
  end.
Proof.
  intros H1 H2 H3. unfold handshake_from_raw. cbn [length Nat.ltb Nat.leb].
  unfold idx. cbn [nth_error unwrap]. rewrite bind_Ok. destruct (handshake_type_new b0) as [ty|]; [|reflexivity].
  rewrite !bind_Ok. rewrite len24 by assumption. cbv zeta. set (n := Z.to_nat _).
  destruct (Nat.leb_spec n (length t)).
  - rewrite slice_in by (cbn [length]; lia). rewrite bind_Ok. rewrite slice_in by (cbn [length]; lia). rewrite bind_Ok.
    cbn [skipn]. replace (n + 4 - 4)%nat with n by lia. replace (n + 4 - 0)%nat with (S (S (S (S n)))) by lia. reflexivity.
  - rewrite slice_out by (cbn [length]; lia). reflexivity.
Qed.
Lemma to_bytes_wire t data : handshake_to_bytes t data = Rfc8446Hello.handshake (handshake_type_u8 t) data.
Proof.
  unfold handshake_to_bytes, Rfc8446Hello.handshake, vector24, be_enc, u8, zlen. cbn [le_enc rev app].
  rewrite !Z.shiftr_div_pow2 by lia. change (2^16) with (256*256). rewrite Z.div_div by lia. reflexivity.
Qed.
Lemma frame_round t data rest : zlen data < 2^24 ->
  handshake_from_raw (handshake_to_bytes t data ++ rest) = Ok (Handshake t data (handshake_to_bytes t data)).
Proof.
  intros H. unfold handshake_to_bytes. cbn [app]. unfold zlen in *.
  rewrite from_raw_exact by (unfold is_byte; apply u8_range). rewrite ht_round. cbv zeta.
  assert (u8 (Z.shiftr (Z.of_nat (length data)) 16) * 65536 + u8 (Z.shiftr (Z.of_nat (length data)) 8) * 256 + u8 (Z.of_nat (length data))
    = Z.of_nat (length data)) as E.
  { unfold u8. rewrite !Z.shiftr_div_pow2 by lia. change (2^16) with 65536. change (2^8) with 256. change (2^24) with 16777216 in H. lia. }
  rewrite E, Nat2Z.id. rewrite app_length. destruct (Nat.leb_spec (length data) (length data + length rest)); [|lia].
  rewrite firstn_app_l. reflexivity.
Qed.
