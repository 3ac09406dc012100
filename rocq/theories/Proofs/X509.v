From Verif Require Import Model.Base Model.Bytes Model.Der Model.X509 Spec.Enc Spec.Calendar Spec.X509
  Proofs.Util Proofs.Bytes Proofs.Time.
From Coq Require Import Lia.

(* ---- termination ---- *)
Lemma bind_inv {E A B} (m : outcome E A) (k : A -> outcome E B) r : bind m k = r ->
  (exists a, m = Ok a /\ k a = r) \/ (exists e, m = Err e /\ r = Err e) \/ (m = Panic /\ r = Panic).
Proof. destruct m; cbn; intros; subst; eauto 10. Qed.

Lemma idx_lt {E A} (l : list A) i a : idx (E:=E) l i = Ok a -> (i < length l)%nat.
Proof.
  unfold idx, unwrap. destruct (nth_error l i) eqn:H; [|discriminate]. intros _.
  apply nth_error_Some. congruence.
Qed.
Lemma idx_no_err {E A} (l : list A) i e : idx (E:=E) l i <> Err e.
Proof. unfold idx, unwrap. destruct (nth_error l i); discriminate. Qed.
Lemma slice_no_err {E A} (l : list A) i j e : slice (E:=E) l i j <> Err e.
Proof. unfold slice. destruct (_ && _)%bool; discriminate. Qed.
Lemma slice_from_no_err {E A} (l : list A) i e : slice_from (E:=E) l i <> Err e.
Proof. unfold slice_from. destruct (Nat.leb _ _); discriminate. Qed.

Lemma der_parse_progress c data size f c' :
  der_parse c data = Ok (size, f, c') -> (c + 2 <= c' <= length data)%nat.
Proof.
  unfold der_parse, get_len. intros H. apply bind_ok in H. destruct H as (tag & _ & H).
  destruct (der_from_u8 tag); [|discriminate].
  apply bind_ok in H. destruct H as ((sz & c1) & H1 & H).
  assert (c1 = c').
  { destruct (zlen data <? sz); [discriminate|]. congruence. }
  subst c1. apply bind_ok in H1. destruct H1 as (b & Hb & H1). apply idx_lt in Hb.
  destruct (Z.land (Z.shiftr b 7) 1 =? 1).
  - apply bind_ok in H1. destruct H1 as (s & Hs & H1). apply slice_ok in Hs. injection H1 as _ <-. lia.
  - injection H1 as _ <-. lia.
Qed.

Lemma lift_not_fuel {A} (m : outcome parse_error A) : lift m <> Err None.
Proof. destruct m; discriminate. Qed.

Lemma parse_total data : forall fuel b st c, (length data - c < fuel)%nat -> (c <= length data)%nat ->
  parse fuel b st data c <> Err None /\
  forall b' c', parse fuel b st data c = Ok (b', c') -> (c + 2 <= c' <= length data)%nat.
Proof.
  induction fuel as [|f IH]; intros b st c Hf Hc; [lia|]. cbn [parse].
  destruct (der_parse c data) as [[[size form] c1]|e|] eqn:Hd; cbn [lift bind]; [|split; discriminate|split; discriminate].
  apply der_parse_progress in Hd.
  destruct (slice data c1 (c1 + size)) as [body|e|] eqn:Hb; cbn [bind];
    [|exfalso; eapply slice_no_err; exact Hb|split; discriminate].
  apply slice_ok in Hb. destruct Hb as [Hb _].
  assert (W : forall (st' : parsing_state) limit b0 c0, (c1 <= c0 <= length data)%nat ->
    parse_while (fun b c => parse f b st' data c) f limit b0 c0 <> Err None /\
    forall b' c', parse_while (fun b c => parse f b st' data c) f limit b0 c0 = Ok (b', c') -> (c + 2 <= c' <= length data)%nat).
  { intros st' limit b0 c0 Hc0.
    assert (G : forall k b0 c0, (length data - c0 < k)%nat -> (c1 <= c0 <= length data)%nat ->
      parse_while (fun b c => parse f b st' data c) k limit b0 c0 <> Err None /\
      forall b' c', parse_while (fun b c => parse f b st' data c) k limit b0 c0 = Ok (b', c') -> (c0 <= c' <= length data)%nat).
    { induction k as [|k IHk]; intros b1 c2 Hk Hc2; [lia|]. cbn [parse_while].
      destruct (Nat.ltb c2 limit).
      - destruct (IH b1 st' c2 ltac:(lia) ltac:(lia)) as [I1 I2].
        destruct (parse f b1 st' data c2) as [[b3 c3]|e|]; cbn [bind].
        + specialize (I2 _ _ eq_refl). destruct (IHk b3 c3 ltac:(lia) ltac:(lia)) as [J1 J2]. split; [exact J1|].
          intros b' c' H. specialize (J2 _ _ H). lia.
        + split; [congruence|discriminate].
        + split; discriminate.
      - split; [discriminate|]. intros b' c' H. injection H as _ <-. lia. }
    destruct (G f b0 c0 ltac:(lia) ltac:(lia)) as [G1 G2]. split; [exact G1|]. intros b' c' H. specialize (G2 _ _ H). lia. }
  assert (D : forall (m : perr builder), m <> Err None ->
    (let! x := m in Ok (x, (c1 + size)%nat)) <> Err None /\
    forall b' c', (let! x := m in Ok (x, (c1 + size)%nat)) = Ok (b', c') -> (c + 2 <= c' <= length data)%nat).
  { intros m Hm. destruct m; cbn [bind]; split; try congruence; try discriminate.
    intros b' c' H. injection H as _ <-. lia. }
  assert (D0 : forall b1 : builder, Ok (b1, (c1 + size)%nat) <> Err (E:=option parse_error) None /\
    forall b' c', Ok (E:=option parse_error) (b1, (c1 + size)%nat) = Ok (b', c') -> (c + 2 <= c' <= length data)%nat).
  { intros b1. split; [discriminate|]. intros b' c' H. injection H as _ <-. lia. }
  destruct form as [d|d].
  - destruct d; try (split; discriminate).
    + apply W. lia.
    + destruct (IH b InSet c1 ltac:(lia) ltac:(lia)) as [I1 I2]. split; [exact I1|].
      intros b' c' H. specialize (I2 _ _ H). lia.
    + apply D. destruct (tag =? 0); [|discriminate].
      destruct (slice_from body 2) eqn:Hs; cbn [bind]; [|exfalso; eapply slice_from_no_err; exact Hs|discriminate].
      destruct (version_parse a); cbn; discriminate.
  - destruct d; try (split; discriminate).
    + apply D0.
    + destruct (idx data (c1 + 1)) eqn:Hi; cbn [bind]; [|exfalso; eapply idx_no_err; exact Hi|split; discriminate].
      apply idx_lt in Hi. destruct (a =? 0x30); [apply W; lia|].
      destruct (idx data c1) eqn:Hj; cbn [bind]; [|exfalso; eapply idx_no_err; exact Hj|split; discriminate].
      destruct (negb (a0 =? 0)); [split; discriminate|]. apply D.
      destruct (b_spki_key b); [discriminate|].
      destruct (slice_from body 1) eqn:Hs; cbn [bind]; [|exfalso; eapply slice_from_no_err; exact Hs|discriminate]. discriminate.
    + destruct st; [apply D, lift_not_fuel|split; discriminate|apply D0].
    + apply D, lift_not_fuel.
    + apply D, lift_not_fuel.
    + apply D, lift_not_fuel.
Qed.

Lemma from_raw_total data : x509_from_raw data <> Err None.
Proof.
  unfold x509_from_raw. destruct (parse_total data (S (length data)) builder_new Init 0 ltac:(lia) ltac:(lia)) as [H _].
  destruct (parse _ _ _ _ _) as [[b c]|e|]; cbn [bind]; [apply lift_not_fuel|congruence|discriminate].
Qed.

Lemma parse_S f b st data c : parse (S f) b st data c =
      (let! (size, form, c) := lift (der_parse c data) in
      let! body := slice data c (c + size) in
      match form with
      | Constructed DSequence =>
          parse_while (fun b c => parse f b st data c) f (size + c) (on_sequence b size) c
      | Constructed (DContextSpecific tag) =>
          let! b' := (if tag =? 0 then let! v := slice_from body 2 in
                                       let! x := lift (version_parse v) in Ok (set_version x b)
                      else Ok b) in
          Ok (b', (c + size)%nat)
      | Constructed DSet => parse f b InSet data c
      | Constructed _ => Panic
      | Primitive DInteger => Ok (on_integer b (to_ibig_be body), (c + size)%nat)
      | Primitive DObjectIdentifier =>
          match st with
          | InSet => Ok (on_set_oid b body, (c + size)%nat)
          | Init => let! b' := lift (on_init_oid b body) in Ok (b', (c + size)%nat)
          | InBitString => Panic
          end
      | Primitive DPrintableString | Primitive DUtf8String =>
          let! b' := lift (on_string b body) in Ok (b', (c + size)%nat)
      | Primitive DOctetString => Panic
      | Primitive DUtcTime => let! b' := lift (on_time b body) in Ok (b', (c + size)%nat)
      | Primitive DBitString =>
          let! x := idx data (c + 1) in
          if x =? 0x30 then
            parse_while (fun b c => parse f b InBitString data c) f (size + (c + 1) - 1) b (c + 1)
          else
            let! unused := idx data c in
            if negb (unused =? 0) then Panic
            else
              let! b' := match b_spki_key b with
                         | None => let! k := slice_from body 1 in Ok (set_spki_key k b)
                         | Some _ => Ok b
                         end in
              Ok (b', (c + size)%nat)
      | Primitive DNull => Panic
      | Primitive _ => Err (Some PNotYetImplemented)
      end).
Proof. reflexivity. Qed.

(* more fuel changes nothing once there is enough *)
Lemma parse_while_mono (s1 s2 : builder -> nat -> perr (builder * nat)) :
  (forall b c, s1 b c <> Err None -> s2 b c = s1 b c) ->
  forall k limit b c, parse_while s1 k limit b c <> Err None -> parse_while s2 (S k) limit b c = parse_while s1 k limit b c.
Proof.
  intros Hs. induction k as [|k IH]; intros limit b c H; [exfalso; apply H; reflexivity|].
  cbn [parse_while] in H |- *. destruct (Nat.ltb c limit); [|reflexivity].
  assert (Hn : s1 b c <> Err None). { intros Z. rewrite Z in H. apply H. reflexivity. }
  rewrite Hs by exact Hn. destruct (s1 b c) as [[b1 c1]| |]; cbn [bind] in *; [|reflexivity|reflexivity].
  specialize (IH limit b1 c1 H). cbn [parse_while] in IH. exact IH.
Qed.
Lemma parse_mono data : forall fuel b st c, parse fuel b st data c <> Err None ->
  parse (S fuel) b st data c = parse fuel b st data c.
Proof.
  induction fuel as [|f IH]; intros b st c H; [exfalso; apply H; reflexivity|].
  assert (Hw : forall st' limit b0 c0, parse_while (fun b c => parse f b st' data c) f limit b0 c0 <> Err None ->
    parse_while (fun b c => parse (S f) b st' data c) (S f) limit b0 c0 =
    parse_while (fun b c => parse f b st' data c) f limit b0 c0).
  { intros. apply parse_while_mono; [|assumption]. intros b1 c1. apply IH. }
  rewrite (parse_S (S f)). rewrite (parse_S f) in H |- *. remember (S f) as sf eqn:Esf.
  destruct (lift (der_parse c data)) as [[[size form] c1]| |]; cbn [bind] in *; [|reflexivity|reflexivity].
  destruct (slice data c1 (c1 + size)) as [body| |]; cbn [bind] in *; [|reflexivity|reflexivity].
  destruct form as [d|d]; destruct d; try reflexivity.
  - apply Hw, H.
  - apply IH, H.
  - destruct (idx data (c1 + 1)); cbn [bind] in *; [|reflexivity|reflexivity].
    destruct (a =? 0x30); [apply Hw, H|reflexivity].
Qed.
Lemma parse_fuel data fuel : (length data < fuel)%nat ->
  parse fuel builder_new Init data 0 = parse (S (length data)) builder_new Init data 0.
Proof.
  intros H. replace fuel with ((fuel - S (length data)) + S (length data))%nat by lia.
  generalize (fuel - S (length data))%nat. intros n.
  induction n as [|n IHn]; [reflexivity|]. rewrite <- IHn. apply parse_mono. rewrite IHn.
  destruct (parse_total data (S (length data)) builder_new Init 0 ltac:(lia) ltac:(lia)) as [T _]. exact T.
Qed.
