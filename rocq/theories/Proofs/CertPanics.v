(* What makes the certificate reader panic *)
From Verif Require Import Proofs.Util Proofs.Bytes Model.Bytes Model.Der Model.X509 Spec.Enc Spec.VerifyPanics Spec.CertPanics Proofs.VerifyPanics.
From Verif Require Proofs.X509 Proofs.TimeText.

Definition state_of (p : place) : parsing_state := match p with Plain => Init | InASet => InSet | InBits => InBitString end.

(* ---- tags ---- *)
Definition prims (k t : Z) : bool := existsb (Z.eqb t) [k; 64 + k; 192 + k].
Definition conss (k t : Z) : bool := existsb (Z.eqb t) [32 + k; 96 + k; 224 + k].
Lemma prims_ok k t : prims k t = true -> primitive k t.
Proof. intros H. apply existsb_exists in H. destruct H as (y & Y & Z). apply Z.eqb_eq in Z. now subst y. Qed.
Lemma conss_ok k t : conss k t = true -> constructed k t.
Proof. intros H. apply existsb_exists in H. destruct H as (y & Y & Z). apply Z.eqb_eq in Z. now subst y. Qed.
Definition form_check (t : Z) (f : encoded_form) : bool :=
  match f with
  | Constructed DSequence => true
  | Constructed DSet => conss 17 t
  | Constructed (DContextSpecific tag) => (160 <=? t) && (t <? 192) && (negb (tag =? 0) || (t =? 0xA0) || (t =? 0xB0))
  | Constructed _ => existsb (fun k => conss k t) [3; 4; 12; 19; 22; 23; 24]
  | Primitive DInteger => prims 2 t
  | Primitive DObjectIdentifier => prims 6 t
  | Primitive DPrintableString | Primitive DUtf8String => existsb (fun k => prims k t) [12; 19; 22]
  | Primitive DOctetString => prims 4 t
  | Primitive DNull => prims 5 t
  | Primitive DUtcTime => prims 23 t
  | Primitive DBitString => prims 3 t
  | Primitive _ => true
  end.
Lemma form_tag t f : is_byte t -> der_from_u8 t = Some f -> form_check t f = true.
Proof.
  intros B E. assert (H : forallb (fun t => match der_from_u8 t with Some f => form_check t f | None => true end) (map Z.of_nat (seq 0 256)) = true) by (vm_compute; reflexivity).
  rewrite forallb_forall in H. unfold is_byte in B. specialize (H t). rewrite in_map_iff in H.
  assert (I : exists x, Z.of_nat x = t /\ In x (seq 0 256)) by (exists (Z.to_nat t); split; [lia|apply in_seq; lia]). apply H in I. now rewrite E in I.
Qed.

(* ---- what the builder has ---- *)
Definition level (b : builder) : nat :=
  match b_signature_alg b with None => 0 | Some _ =>
  match b_spki_alg b with None => 1 | Some ai => match ai_parameters ai with None => 2 | Some _ => match b_cert_alg b with None => 3 | Some _ => 4 end end end end.
Definition keyed (b : builder) : bool := match b_spki_key b with Some _ => true | None => false end.
Definition in_order (b : builder) : Prop := (b_signature_alg b = None -> b_spki_alg b = None) /\ (b_cert_alg b <> None -> level b = 4%nat).
Definition tracks (b : builder) (ev : list event) (b' : builder) : Prop :=
  keyed b' = (keyed b || has_key ev)%bool /\ ((level b' < 4)%nat -> (level b + algorithms ev <= level b')%nat) /\
  (in_order b -> in_order b' /\ (level b' <= level b + algorithms ev)%nat).
Lemma algorithms_app e1 e2 : algorithms (e1 ++ e2) = (algorithms e1 + algorithms e2)%nat.
Proof. unfold algorithms. now rewrite filter_app, app_length. Qed.
Lemma has_key_app e1 e2 : has_key (e1 ++ e2) = (has_key e1 || has_key e2)%bool.
Proof. apply existsb_app. Qed.
Lemma tracks_app b e1 b1 e2 b2 : tracks b e1 b1 -> tracks b1 e2 b2 -> tracks b (e1 ++ e2) b2.
Proof.
  intros (K1 & L1 & W1) (K2 & L2 & W2). split; [|split].
  - now rewrite K2, K1, has_key_app, orb_assoc.
  - intros H. specialize (L2 H). specialize (L1 ltac:(lia)). rewrite algorithms_app. lia.
  - intros W. destruct (W1 W) as (W3 & Le1). destruct (W2 W3) as (W4 & Le2). split; [exact W4|]. rewrite algorithms_app. lia.
Qed.
Lemma tracks_same b b' : b_spki_key b' = b_spki_key b -> b_signature_alg b' = b_signature_alg b -> b_spki_alg b' = b_spki_alg b -> b_cert_alg b' = b_cert_alg b -> tracks b [] b'.
Proof.
  intros K A1 A2 A3. assert (L : level b' = level b) by (unfold level; now rewrite A1, A2, A3). split; [unfold keyed; rewrite K; now rewrite orb_false_r|]. split; [intros _; rewrite L; cbn; lia|].
  intros (W1 & W2). split; [split; [now rewrite A1, A2|now rewrite A3, L]|rewrite L; lia].
Qed.
Lemma tracks_oid b body b' : on_init_oid b body = Ok b' -> tracks b [Algorithm] b'.
Proof.
  unfold on_init_oid. intros H. unfold tracks, in_order, keyed. change (algorithms [Algorithm]) with 1%nat. change (has_key [Algorithm]) with false. rewrite orb_false_r.
  destruct (b_signature_alg b) as [sa|] eqn:E1; [destruct (b_spki_alg b) as [ai|] eqn:E2; [destruct (ai_parameters ai) as [pa|] eqn:E3; [destruct (b_cert_alg b) as [ca|] eqn:E4|]|]|];
    try (apply bind_ok in H; destruct H as (? & _ & H)); apply f_equal with (f := fun o => match o with Ok x => x | _ => b end) in H; cbv beta iota in H; subst b';
    cbn [set_cert_alg set_spki_alg set_signature_alg b_signature_alg b_spki_alg b_cert_alg b_spki_key]; (split; [reflexivity|]); unfold level;
    cbn [set_cert_alg set_spki_alg set_signature_alg b_signature_alg b_spki_alg b_cert_alg b_spki_key ai_parameters]; rewrite ?E1, ?E2, ?E3, ?E4; cbn [ai_parameters].
  all: split; [repeat match goal with |- context [match ?x with _ => _ end] => destruct x end; lia|]; intros (W1 & W2).
  all: try (rewrite (W1 eq_refl) in * ).
  all: split; [split; try discriminate; try congruence|]; repeat match goal with |- context [match ?x with _ => _ end] => destruct x eqn:? end; try lia; try congruence; try tauto.
  all: try (intros Hx; specialize (W2 Hx); discriminate).
  all: try (specialize (W2 ltac:(congruence)); discriminate).
Qed.
Lemma tracks_string b body b' : on_string b body = Ok b' -> tracks b [] b'.
Proof.
  unfold on_string. destruct (negb _); [discriminate|]. intros H. destruct (b_not_after b); apply bind_ok in H; destruct H as (n & _ & H); injection H as <-; now apply tracks_same.
Qed.
Lemma tracks_time b body b' : on_time b body = Ok b' -> tracks b [] b'.
Proof.
  unfold on_time. destruct (negb _); [discriminate|]. intros H. apply bind_ok in H. destruct H as ([t|] & _ & H); [|discriminate]. destruct (b_not_before b); injection H as <-; now apply tracks_same.
Qed.
Lemma tracks_integer b v : tracks b [] (on_integer b v).
Proof. unfold on_integer. destruct (b_serial b); [destruct (b_sig0 b)|]; now apply tracks_same. Qed.
Lemma tracks_set_oid b body : tracks b [] (on_set_oid b body).
Proof. unfold on_set_oid. destruct (b_not_after b); now apply tracks_same. Qed.
Lemma tracks_sequence b n : tracks b [] (on_sequence b n).
Proof. unfold on_sequence. destruct (Nat.eqb _ 0); [|destruct (Nat.eqb _ 1)]; now apply tracks_same. Qed.
Lemma keyed_sequence b n : keyed (on_sequence b n) = keyed b.
Proof. unfold on_sequence. destruct (Nat.eqb _ 0); [|destruct (Nat.eqb _ 1)]; reflexivity. Qed.
Lemma tracks_cons b b1 ev b2 : tracks b [] b1 -> tracks b1 ev b2 -> tracks b ev b2.
Proof. intros A B. exact (tracks_app _ _ _ _ _ A B). Qed.
Lemma time_panics b body : match on_time b body with
  | Panic => (12 <= length body)%nat /\ exists c, In c (firstn 13 body) /\ 128 <= c < 192
  | Ok _ => Forall (fun c => ~ 128 <= c < 192) (firstn 13 body)
  | Err _ => True end.
Proof.
  unfold on_time. destruct (negb _); [exact I|]. rewrite TimeText.from_utc_text. destruct (Nat.ltb_spec (length body) 12) as [L|L]; [exact I|].
  destruct (existsb (TimeText.cont_at body) (seq 0 13)) eqn:X; cbn [bind].
  - split; [exact L|]. apply existsb_exists in X. destruct X as (k & I & C). apply in_seq in I. unfold TimeText.cont_at in C. destruct (nth_error body k) as [c|] eqn:N; [|discriminate].
    exists c. split.
    + apply (nth_error_In _ k). rewrite <- N. rewrite <- (firstn_skipn 13 body) at 2. rewrite nth_error_app1; [reflexivity|]. rewrite firstn_length. apply (proj2 (Nat.min_glb_lt_iff _ _ _)). split; [lia|]. apply nth_error_Some. congruence.
    + unfold TimeText.cont_byte in C. apply andb_prop in C. destruct C as (C1 & C2). apply Z.leb_le in C1. apply Z.ltb_lt in C2. lia.
  - assert (R : Forall (fun c => ~ 128 <= c < 192) (firstn 13 body)).
    { apply Forall_forall. intros c Ic H. apply In_nth_error in Ic. destruct Ic as (k & N). assert (Lk : (k < length (firstn 13 body))%nat) by (apply nth_error_Some; congruence). rewrite firstn_length in Lk.
      assert (Y : existsb (TimeText.cont_at body) (seq 0 13) = true); [|congruence]. apply existsb_exists. exists k. split; [apply in_seq; lia|]. unfold TimeText.cont_at.
      rewrite <- (firstn_skipn 13 body), nth_error_app1, N by (rewrite firstn_length; lia). unfold TimeText.cont_byte. apply andb_true_intro. split; [apply Z.leb_le; lia|apply Z.ltb_lt; lia]. }
    destruct (b_not_before b); exact R.
Qed.

(* ---- the reader ---- *)
Definition outcome_of (total : Z) (p : place) (x pre : list Z) (b : builder) (r : perr (builder * nat)) : Prop :=
  match r with
  | Ok (b', c') => exists ev head y, passes (keyed b) p x ev y /\ x = head ++ y /\ c' = length (pre ++ head) /\ tracks b ev b'
  | Err _ => True
  | Panic => stumbles total (keyed b) p x
  end.
Definition outcome_until (total : Z) (n : nat) (p : place) (x pre : list Z) (b : builder) (r : perr (builder * nat)) : Prop :=
  match r with
  | Ok (b', c') => exists ev head y, passes_until n (keyed b) p x ev y /\ x = head ++ y /\ c' = length (pre ++ head) /\ tracks b ev b'
  | Err _ => True
  | Panic => stumbles_until total n (keyed b) p x
  end.
Lemma while_sort data step p limit : (limit <= length data)%nat ->
  (forall b pre x, data = pre ++ x -> outcome_of (zlen data) p x pre b (step b (length pre))) ->
  forall k b pre x, data = pre ++ x -> outcome_until (zlen data) (length data - limit) p x pre b (parse_while step k limit b (length pre)).
Proof.
  intros Ll IH. induction k as [|k IHk]; intros b pre x E; [exact I|]. cbn [parse_while].
  assert (Ld : length data = (length pre + length x)%nat) by (rewrite E; apply app_length).
  destruct (Nat.ltb_spec (length pre) limit) as [L|L].
  2:{ cbn [outcome_until]. exists [], [], x. split; [apply until_done; lia|]. split; [reflexivity|]. split; [now rewrite app_nil_r|]. now apply tracks_same. }
  pose proof (IH b pre x E) as H. destruct (step b (length pre)) as [[b1 c1]|e|]; cbn [bind outcome_of] in *; [|exact I|apply stu_here; [lia|exact H]].
  destruct H as (ev & head & y & P & Ex & -> & T). pose proof (proj1 T) as Kb. assert (E1 : data = (pre ++ head) ++ y) by (rewrite E, Ex; apply app_assoc).
  pose proof (IHk b1 (pre ++ head) y E1) as H2. destruct (parse_while step k limit b1 (length (pre ++ head))) as [[b2 c2]|e|]; cbn [outcome_until] in *; [|exact I|].
  - destruct H2 as (ev2 & head2 & z & P2 & Ey & -> & T2). exists (ev ++ ev2), (head ++ head2), z. split; [eapply until_more; [lia|exact P|rewrite <- Kb; exact P2]|].
    split; [rewrite Ex, Ey; apply app_assoc|]. split; [now rewrite !app_assoc|]. eapply tracks_app; eassumption.
  - eapply stu_later; [lia|exact P|rewrite <- Kb; exact H2].
Qed.

Lemma parse_sort data : is_bytes data -> forall fuel b p pre x, data = pre ++ x -> outcome_of (zlen data) p x pre b (parse fuel b (state_of p) data (length pre)).
Proof.
  intros B. induction fuel as [|f IH]; intros b p pre x E; [exact I|]. cbn [parse].
  assert (Bx : is_bytes x) by (rewrite E in B; apply is_bytes_app in B; apply B).
  pose proof (elem_cases pre x Bx) as H. rewrite <- E in H. set (total := zlen data) in *.
  assert (Lt : total = zlen pre + zlen x) by (unfold total; rewrite E; apply zlen_app).
  assert (FT : forall t l, x = t :: l -> is_byte t) by (intros t l ->; now inversion Bx).
  destruct H as [E0|t l e E0 K|t l E0 K C|t l n rest e E0 K L N|t l n rest head f0 E0 K F8 _ L N Ex]; cbn [lift bind outcome_of]; try exact I.
  - rewrite E0. constructor.
  - rewrite E0. now constructor.
  - pose proof (form_tag t f0 (FT _ _ E0) F8) as FC.
    assert (Ed : data = (pre ++ head) ++ rest) by (rewrite E, Ex; apply app_assoc).
    assert (Sl : slice (E:=option parse_error) data (length (pre ++ head)) (length (pre ++ head) + Z.to_nat n) =
      if Nat.leb (Z.to_nat n) (length rest) then Ok (firstn (Z.to_nat n) rest) else Panic).
    { assert (Lx : length data = (length (pre ++ head) + length rest)%nat) by (rewrite Ed; apply app_length). unfold slice. rewrite Lx. destruct (Nat.leb_spec (length (pre ++ head)) (length (pre ++ head) + Z.to_nat n)); [|lia]. cbn [andb].
      destruct (Nat.leb_spec (length (pre ++ head) + Z.to_nat n) (length (pre ++ head) + length rest)); destruct (Nat.leb_spec (Z.to_nat n) (length rest)); try lia; [|reflexivity].
      f_equal. rewrite Ed, skipn_app, skipn_all, Nat.sub_diag. cbn [app skipn]. f_equal. lia. }
    rewrite Sl. clear Sl. destruct (Nat.leb_spec (Z.to_nat n) (length rest)) as [Ln|Ln]; cbn [bind outcome_of].
    2:{ rewrite E0. apply (st_short _ _ p t l n rest K L). unfold zlen. lia. }
    set (content := firstn (Z.to_nat n) rest). set (more := skipn (Z.to_nat n) rest).
    assert (Er : rest = content ++ more) by (symmetry; apply firstn_skipn).
    assert (Lc : length content = Z.to_nat n) by (unfold content; rewrite firstn_length; lia).
    assert (El : element t x content more) by (exists l; split; [exact E0|]; split; [exact K|]; rewrite <- Er; replace (zlen content) with n by (unfold zlen; lia); exact L).
    clearbody content more. assert (Exm : x = (head ++ content) ++ more) by (rewrite Ex, Er; apply app_assoc).
    assert (Pos : (length (pre ++ head) + Z.to_nat n)%nat = length (pre ++ head ++ content)) by (rewrite !app_length; lia).
    assert (Ld : length data = (length (pre ++ head) + Z.to_nat n + length more)%nat) by (rewrite Ed, Er, !app_length; lia).
    assert (WH : forall q limit b1 pre1 x1, limit = (Z.to_nat n + length (pre ++ head))%nat -> data = pre1 ++ x1 ->
      outcome_until total (length more) q x1 pre1 b1 (parse_while (fun b c => parse f b (state_of q) data c) f limit b1 (length pre1))).
    { intros q limit b1 pre1 x1 El1 E1. replace (length more) with (length data - limit)%nat by lia. apply while_sort; [lia| |exact E1]. intros b2 pre2 x2 E2. now apply IH. }
    assert (GO : forall ev b1, passes (keyed b) p x ev more -> tracks b ev b1 ->
      exists ev head0 y, passes (keyed b) p x ev y /\ x = head0 ++ y /\ (length (pre ++ head) + Z.to_nat n)%nat = length (pre ++ head0) /\ tracks b ev b1).
    { intros ev b1 P T. exists ev, (head ++ content), more. auto. }
    assert (CT : (x = [] \/ x <> []) -> True) by auto. clear CT.
    assert (Er2 : rest = content ++ more) by exact Er.
    assert (IX : forall i, idx (E:=option parse_error) data (length (pre ++ head) + i) = unwrap (nth_error rest i)).
    { intros i. unfold idx. rewrite Ed, nth_error_app2 by lia. do 2 f_equal. lia. }
    destruct f0 as [d|d]; destruct d; cbn [form_check] in FC; try exact I;
      try (match type of FC with existsb _ _ = true => apply existsb_exists in FC; destruct FC as (k & Ik & FC) end); match type of FC with prims _ _ = true => apply prims_ok in FC | conss _ _ = true => apply conss_ok in FC | _ => idtac end.
    all: try (apply (st_constructed _ _ p t k x content more El FC Ik)).
    all: try (apply (st_octets _ _ p t x content more El); auto; fail).
    + (* SEQUENCE *)
      assert (Sq : sequence_tag t) by (apply (sequences t _ (FT _ _ E0) F8); reflexivity).
      pose proof (WH p (Z.to_nat n + length (pre ++ head))%nat (on_sequence b (Z.to_nat n)) (pre ++ head) rest eq_refl Ed) as W. unfold outcome_until in W. rewrite keyed_sequence in W.
      destruct (parse_while _ f _ _ (length (pre ++ head))) as [[b' c']|e|]; cbn [outcome_until outcome_of] in *; [|exact I|].
      * destruct W as (ev & head1 & y & P & Ey & -> & T). exists ev, (head ++ head1), y. rewrite Er2 in P. split; [eapply pass_sequence; eassumption|].
        split; [rewrite Ex, Ey; apply app_assoc|]. split; [now rewrite app_assoc|]. eapply tracks_cons; [apply tracks_sequence|exact T].
      * rewrite Er2 in W. eapply st_in_sequence; eassumption.
    + (* SET *)
      pose proof (IH b InASet (pre ++ head) rest Ed) as W. cbn [state_of] in W.
      destruct (parse f b InSet data (length (pre ++ head))) as [[b' c']|e|]; cbn [outcome_of] in *; [|exact I|].
      * destruct W as (ev & head1 & y & P & Ey & -> & T). exists ev, (head ++ head1), y. rewrite Er2 in P. split; [eapply pass_set; [exact El|exact FC|exact P]|].
        split; [rewrite Ex, Ey; apply app_assoc|]. split; [now rewrite app_assoc|exact T].
      * rewrite Er2 in W. eapply st_in_set; eassumption.
    + (* context-specific *)
      apply andb_prop in FC. destruct FC as (FC & F2). apply andb_prop in FC. destruct FC as (F0 & F1). apply Z.leb_le in F0. apply Z.ltb_lt in F1.
      assert (Ps : (t = 0xA0 \/ t = 0xB0 -> (2 <= length content)%nat) -> passes (keyed b) p x [] more) by (intros Q; eapply pass_context; [exact El|lia|exact Q]).
      destruct (tag =? 0) eqn:Tg; cbn [negb orb bind] in *.
      2:{ cbn [outcome_of]. apply (GO [] b); [|now apply tracks_same]. apply Ps. intros Q. exfalso. apply Z.eqb_neq in Tg. apply Tg. destruct Q as [-> | ->]; vm_compute in F8; injection F8 as <-; reflexivity. }
      assert (Q : t = 0xA0 \/ t = 0xB0) by (apply orb_prop in F2; destruct F2 as [F2|F2]; apply Z.eqb_eq in F2; auto).
      unfold slice_from. destruct (Nat.leb_spec 2 (length content)) as [L2|L2]; cbn [bind].
      * destruct (version_parse (skipn 2 content)) as [v|e|] eqn:V; cbn [lift bind outcome_of]; [|exact I|exfalso; unfold version_parse in V; destruct (skipn 2 content) as [|w [|? ?]]; try discriminate; match type of V with context [if ?c then _ else _] => destruct c end; discriminate].
        apply (GO [] _ (Ps (fun _ => L2))). now apply tracks_same.
      * cbn [outcome_of]. eapply st_version; [exact El|exact Q|lia].
    + (* INTEGER *)
      cbn [outcome_of]. apply (GO []); [|apply tracks_integer]. eapply (pass_other _ p t 2); [exact El|exact FC|now left].
    + (* BIT STRING *)
      replace (length (pre ++ head) + 1)%nat with (length (pre ++ head) + 1)%nat by lia. rewrite IX.
      destruct rest as [|u [|v rest']]; cbn [nth_error unwrap bind]; [cbn [outcome_of]; eapply st_bits; [exact El|exact FC|rewrite <- Er2; cbn; lia]|cbn [outcome_of]; eapply st_bits; [exact El|exact FC|rewrite <- Er2; cbn; lia]|].
      destruct (Z.eqb_spec v 0x30) as [->|V].
      * assert (E1 : data = (pre ++ head ++ [u]) ++ 0x30 :: rest') by (rewrite Ed, <- !app_assoc; reflexivity).
        replace (length (pre ++ head) + 1)%nat with (length (pre ++ head ++ [u])) by (rewrite !app_length; cbn [length]; lia).
        pose proof (WH InBits (Z.to_nat n + length (pre ++ head ++ [u]) - 1)%nat b (pre ++ head ++ [u]) (0x30 :: rest') ltac:(rewrite !app_length; cbn [length]; lia) E1) as W.
        destruct (parse_while _ f _ _ (length (pre ++ head ++ [u]))) as [[b' c']|e|]; cbn [outcome_until outcome_of] in *; [|exact I|].
        -- destruct W as (ev & head1 & y & P & Ey & -> & T). exists ev, (head ++ u :: head1), y. split; [eapply pass_bits; [exact El|exact FC|symmetry; exact Er2|exact P]|].
           split; [rewrite Ex, Ey, <- app_assoc; reflexivity|]. split; [|exact T]. rewrite <- !app_assoc. reflexivity.
        -- eapply st_in_bits; [exact El|exact FC|symmetry; exact Er2|exact W].
      * replace (length (pre ++ head)) with (length (pre ++ head) + 0)%nat at 1 by lia. rewrite IX. cbn [nth_error unwrap bind].
        destruct (Z.eqb_spec u 0) as [->|U]; cbn [negb].
        2:{ cbn [outcome_of]. eapply st_unused; [exact El|exact FC|symmetry; exact Er2|exact V|exact U]. }
        destruct (b_spki_key b) as [key|] eqn:Kb; cbn [bind].
        -- cbn [outcome_of]. assert (Kd : keyed b = true) by (unfold keyed; now rewrite Kb). apply (GO [Key] b); [eapply pass_key; [exact El|exact FC|symmetry; exact Er2|exact V|now right]|].
           split; [now rewrite Kd|]. split; [cbn; lia|]. intros W. split; [exact W|lia].
        -- assert (Kd : keyed b = false) by (unfold keyed; now rewrite Kb). unfold slice_from.
           destruct content as [|u0 content]; [cbn [length Nat.leb bind outcome_of]; rewrite Kd; eapply st_empty; [exact El|exact FC|symmetry; exact Er2|exact V]|]. cbn [length Nat.leb bind outcome_of].
           apply (GO [Key]); [eapply pass_key; [exact El|exact FC|symmetry; exact Er2|exact V|left; discriminate]|].
           split; [rewrite Kd; reflexivity|]. split; [unfold level; cbn; lia|]. intros (W1 & W2). split; [split; [exact W1|exact W2]|]. unfold level. cbn. lia.
    + (* OBJECT IDENTIFIER *)
      destruct p; cbn [state_of].
      * destruct (on_init_oid b content) as [b'|e|] eqn:O; cbn [lift bind outcome_of]; [|exact I|].
        -- apply (GO [Algorithm]); [eapply pass_algorithm; eassumption|]. eapply tracks_oid; exact O.
        -- exfalso. unfold on_init_oid in O. destruct (b_signature_alg b); [destruct (b_spki_alg b) as [ai|]; [destruct (ai_parameters ai); [destruct (b_cert_alg b)|]|]|]; try discriminate;
             destruct (parse_object_identifier content); discriminate.
      * cbn [outcome_of]. apply (GO []); [eapply pass_name; eassumption|apply tracks_set_oid].
      * eapply st_oid; eassumption.
    + destruct (on_string b content) as [b'|e|] eqn:O; cbn [lift bind outcome_of]; [|exact I|].
      * apply (GO []); [eapply (pass_other _ p t k); [exact El|exact FC|cbn in Ik |- *; tauto]|eapply tracks_string; exact O].
      * exfalso. unfold on_string in O. destruct (negb _); [discriminate|]. unfold add_value in O. destruct (b_not_after b); [destruct (n_key (b_subject b))|destruct (n_key (b_issuer b))]; discriminate.
    + destruct (on_string b content) as [b'|e|] eqn:O; cbn [lift bind outcome_of]; [|exact I|].
      * apply (GO []); [eapply (pass_other _ p t k); [exact El|exact FC|cbn in Ik |- *; tauto]|eapply tracks_string; exact O].
      * exfalso. unfold on_string in O. destruct (negb _); [discriminate|]. unfold add_value in O. destruct (b_not_after b); [destruct (n_key (b_subject b))|destruct (n_key (b_issuer b))]; discriminate.
    + pose proof (time_panics b content) as Tp. destruct (on_time b content) as [b'|e|] eqn:O; cbn [lift bind outcome_of]; [|exact I|].
      * apply (GO []); [eapply pass_time; eassumption|eapply tracks_time; exact O].
      * destruct Tp as (O1 & c & O2 & O3). eapply st_time; eassumption.
Qed.

Lemma trouble data : is_bytes data -> x509_from_raw data = Panic -> certificate_trouble data.
Proof.
  intros B H. unfold x509_from_raw in H. pose proof (parse_sort data B (S (length data)) builder_new Plain [] data eq_refl) as P. cbn [state_of length] in P.
  destruct (parse (S (length data)) builder_new Init data 0) as [[b c]|e|]; cbn [bind outcome_of] in *; [|discriminate|now left].
  right. destruct P as (ev & head & y & P & _ & _ & (K & A & _)). exists ev, y. split; [exact P|]. unfold build in H.
  destruct (b_serial b); [|discriminate]. destruct (b_signature_alg b) eqn:E1; [|discriminate]. destruct (b_spki_alg b) as [ai|] eqn:E2; [|discriminate].
  unfold keyed in K at 1. destruct (b_spki_key b) as [key|]; [|left; now symmetry]. cbn [unwrap bind] in H. destruct (b_cert_alg b) eqn:E4; [discriminate|]. right.
  assert (L : (level b < 4)%nat) by (unfold level; rewrite E1, E2, E4; destruct (ai_parameters ai); lia). specialize (A L). lia.
Qed.

(* ---- the two do not go together ---- *)
Definition class (t : Z) : Z :=
  if (160 <=? t) && (t <? 192) then 2 else
  match t mod 64 with
  | 48 => 0 | 49 => 1 | 2 | 12 | 19 | 22 => 3 | 23 => 4 | 6 => 5 | 3 => 6 | 4 | 5 => 7 | 35 | 36 | 44 | 51 | 54 | 55 | 56 => 8 | _ => 9
  end.
Ltac every := repeat match goal with H : _ \/ _ |- _ => destruct H as [H|H] | H : False |- _ => destruct H end; subst; reflexivity.
Lemma class_seq t : sequence_tag t -> class t = 0. Proof. unfold sequence_tag. cbn [In]. intros H. every. Qed.
Lemma class_set t : constructed 17 t -> class t = 1. Proof. unfold constructed. cbn [In]. intros H. every. Qed.
Lemma class_context t : 160 <= t < 192 -> class t = 2.
Proof. intros H. unfold class. destruct (Z.leb_spec 160 t), (Z.ltb_spec t 192); try lia; reflexivity. Qed.
Lemma class_version t : t = 0xA0 \/ t = 0xB0 -> class t = 2. Proof. intros H. every. Qed.
Lemma class_other m t : primitive m t -> In m [2; 12; 19; 22] -> class t = 3. Proof. unfold primitive. cbn [In]. intros H I. every. Qed.
Lemma class_time t : primitive 23 t -> class t = 4. Proof. unfold primitive. cbn [In]. intros H. every. Qed.
Lemma class_oid t : primitive 6 t -> class t = 5. Proof. unfold primitive. cbn [In]. intros H. every. Qed.
Lemma class_bits t : primitive 3 t -> class t = 6. Proof. unfold primitive. cbn [In]. intros H. every. Qed.
Lemma class_octets t : primitive 4 t \/ primitive 5 t -> class t = 7. Proof. unfold primitive. cbn [In]. intros H. every. Qed.
Lemma class_constructed m t : constructed m t -> In m [3; 4; 12; 19; 22; 23; 24] -> class t = 8. Proof. unfold constructed. cbn [In]. intros H I. every. Qed.

Lemma element_fun t x c r t' c' r' : element t x c r -> element t' x c' r' -> t = t' /\ c = c' /\ r = r'.
Proof.
  intros (l & E & _ & L) (l' & E' & _ & L'). rewrite E in E'. injection E' as <- <-. destruct (length_fun _ _ _ _ _ L L') as (N & A). split; [reflexivity|].
  apply HelloPanics.app_split in A; [exact A|]. unfold zlen in N. lia.
Qed.
Ltac classes := repeat match goal with
  | H : sequence_tag ?t |- _ => apply class_seq in H
  | H : constructed 17 ?t |- _ => apply class_set in H
  | H : 160 <= ?t < 192 |- _ => apply class_context in H
  | H : ?t = 0xA0 \/ ?t = 0xB0 |- _ => apply class_version in H
  | H : primitive 23 ?t |- _ => apply class_time in H
  | H : primitive 6 ?t |- _ => apply class_oid in H
  | H : primitive 3 ?t |- _ => apply class_bits in H
  | H : primitive 4 ?t \/ _ |- _ => apply class_octets in H
  | H : primitive ?m ?t, I : In ?m [2; 12; 19; 22] |- _ => apply (class_other m t H) in I; clear H
  | H : constructed ?m ?t, I : In ?m _ |- _ => apply (class_constructed m t H) in I; clear H
  end.
Ltac same := match goal with A : element _ ?x _ _, B : element _ ?x _ _ |- _ => destruct (element_fun _ _ _ _ _ _ _ A B) as (-> & -> & ->); clear A end.

Scheme passes_mind := Minimality for passes Sort Prop with passes_until_mind := Minimality for passes_until Sort Prop.
Combined Scheme passes_both from passes_mind, passes_until_mind.
Lemma passes_fun : (forall k p x ev y, passes k p x ev y -> forall ev' y', passes k p x ev' y' -> ev = ev' /\ y = y') /\
  (forall n k p x ev y, passes_until n k p x ev y -> forall ev' y', passes_until n k p x ev' y' -> ev = ev' /\ y = y').
Proof.
  apply passes_both.
  - intros k p t x content rest ev y El T U IH ev' y' P. inversion P; subst; same; try (classes; congruence). now apply IH.
  - intros k p t x content rest ev y El T U IH ev' y' P. inversion P; subst; same; try (classes; congruence). now apply IH.
  - intros k p t x content rest El T C ev' y' P. inversion P; subst; same; try (classes; congruence). now split.
  - intros k p t m x content rest El T I ev' y' P. inversion P; subst; same; try (classes; congruence). now split.
  - intros k p t x content rest El T F ev' y' P. inversion P; subst; same; try (classes; congruence). now split.
  - intros k t x content rest El T ev' y' P. inversion P; subst; same; try (classes; congruence). now split.
  - intros k t x content rest El T ev' y' P. inversion P; subst; same; try (classes; congruence). now split.
  - intros k p t x content rest u more ev y El T E U IH ev' y' P. inversion P; subst; same; try (classes; congruence).
    apply IH. match goal with A : _ ++ _ = ?v :: _ |- _ => match A with E => fail 1 | _ => rewrite E in A; injection A as <- <- end end. assumption.
  - intros k p t x content rest b more El T E N C ev' y' P. inversion P; subst; same; try (classes; congruence). now split.
  - intros n k p x L ev' y' P. inversion P; subst; [now split|lia].
  - intros n k p x ev1 x1 ev2 y L P1 IH1 P2 IH2 ev' y' P. inversion P; subst; [lia|].
    match goal with A : passes k p x _ _ |- _ => destruct (IH1 _ _ A) as (<- & <-) end. match goal with A : passes_until n _ p x1 _ y' |- _ => destruct (IH2 _ _ A) as (<- & <-) end. now split.
Qed.

Scheme stumbles_mind := Minimality for stumbles Sort Prop with stumbles_until_mind := Minimality for stumbles_until Sort Prop.
Combined Scheme stumbles_both from stumbles_mind, stumbles_until_mind.
Lemma apart total : (forall k p x, stumbles total k p x -> forall ev y, passes k p x ev y -> False) /\
  (forall n k p x, stumbles_until total n k p x -> forall ev y, passes_until n k p x ev y -> False).
Proof.
  assert (NOEL : forall k p x ev y, passes k p x ev y -> exists t content rest, element t x content rest) by (intros k p x ev y P; inversion P; subst; eauto).
  apply stumbles_both.
  - intros k p ev y P. apply NOEL in P. destruct P as (t & c & r & l & E & _). discriminate.
  - intros k p t l K C ev y P. apply NOEL in P. destruct P as (t' & c & r & l' & E & _ & L). injection E as <- <-. eapply cut_not; eassumption.
  - intros k p t l n rest K L N ev y P. apply NOEL in P. destruct P as (t' & c & r & l' & E & _ & L'). injection E as <- <-. destruct (length_fun _ _ _ _ _ L L') as (-> & ->). unfold zlen in N. rewrite app_length in N. lia.
  - intros k p t x c r El T ev y P. inversion P; subst; same; classes; congruence.
  - intros k p t m x c r El T I ev y P. inversion P; subst; same; classes; congruence.
  - intros k p t x c r El T L ev y P. inversion P; subst; same; try (classes; congruence). match goal with A : _ -> (2 <= _)%nat |- _ => specialize (A T) end. lia.
  - intros k p t x c r b El T L I B ev y P. inversion P; subst; same; try (classes; congruence). match goal with A : Forall _ _ |- _ => rewrite Forall_forall in A; exact (A b I B) end.
  - intros k t x c r El T ev y P. inversion P; subst; same; classes; congruence.
  - intros k p t x c r El T L ev y P. inversion P; subst; same; try (classes; congruence); match goal with A : _ ++ _ = _ |- _ => rewrite A in L end; cbn [length] in L; lia.
  - intros k p t x c r u b more El T E B U ev y P. inversion P; subst; same; try (classes; congruence); match goal with A : _ ++ _ = _ |- _ => rewrite E in A; injection A as ? ? ?; congruence end.
  - intros p t x r b more El T E B ev y P. inversion P; subst; same; try (classes; congruence).
    + match goal with A : [] ++ _ = _ |- _ => cbn [app] in A; injection A as ? ? ?; congruence end.
    + match goal with A : _ \/ _ |- _ => destruct A; congruence end.
  - intros k p t x c r El T U IH ev y P. inversion P; subst; same; try (classes; congruence). eapply IH; eassumption.
  - intros k p t x c r El T U IH ev y P. inversion P; subst; same; try (classes; congruence). eapply IH; eassumption.
  - intros k p t x c r u more El T E U IH ev y P. inversion P; subst; same; try (classes; congruence).
    match goal with A : _ ++ _ = _ :: _ |- _ => match A with E => fail 1 | _ => rewrite E in A; injection A as <- <- end end. eapply IH; eassumption.
  - intros n k p x L S IH ev y P. inversion P; subst; [lia|]. eapply IH; eassumption.
  - intros n k p x ev x1 L P1 S IH ev' y P. inversion P; subst; [lia|].
    match goal with A : passes k p x _ ?x2 |- _ => match A with P1 => fail 1 | _ => destruct (proj1 passes_fun _ _ _ _ _ P1 _ _ A) as (<- & <-) end end. eapply IH; eassumption.
Qed.

Lemma refused data x : is_bytes data -> certificate_trouble data -> x509_from_raw data <> Ok x.
Proof.
  intros B T H. unfold x509_from_raw in H. pose proof (parse_sort data B (S (length data)) builder_new Plain [] data eq_refl) as P. cbn [state_of length] in P.
  destruct (parse (S (length data)) builder_new Init data 0) as [[b c]|e|]; cbn [bind outcome_of] in *; [|discriminate|discriminate].
  destruct P as (ev & head & y & P & _ & _ & (K & _ & A)). change (keyed builder_new) with false in *. destruct T as [T|(ev' & y' & P' & T)]; [exact (proj1 (apart _) _ _ _ T _ _ P)|].
  destruct (proj1 passes_fun _ _ _ _ _ P _ _ P') as (<- & _). destruct A as ((O1 & O2) & A); [split; [reflexivity|intros Q; now contradiction Q]|]. change (level builder_new) with 0%nat in A.
  unfold build in H. destruct (b_serial b); [|discriminate]. destruct (b_signature_alg b) eqn:E1; [|discriminate]. destruct (b_spki_alg b) as [ai|] eqn:E2; [|discriminate].
  unfold keyed in K at 1. destruct (b_spki_key b) as [key|]; [|discriminate]. cbn [unwrap bind] in H. destruct (b_cert_alg b) eqn:E4; [|discriminate].
  cbn [orb] in K. destruct T as [T|T]; [congruence|]. specialize (O2 ltac:(discriminate)). lia.
Qed.
