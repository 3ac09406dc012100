From Verif Require Model.Alert Model.Certificate.
From Verif Require Import Model.Base Model.Bytes Model.Der Model.X509 Spec.Enc Spec.Calendar Spec.X509 Spec.X509Any
  Proofs.Util Proofs.Bytes Proofs.Time Proofs.TimeText Proofs.X509 Proofs.X509Cert.
From Coq Require Import Lia.

(* how parsing ends early: None is a panic *)
Definition failing {A} (f : option parse_error) : perr A := match f with None => Panic | Some e => Err (Some e) end.
Definition fails (st : parsing_state) (e : list Z) (b : builder) (f : option parse_error) : Prop :=
  forall pre post fuel, (length e < fuel)%nat -> parse fuel b st (pre ++ e ++ post) (length pre) = failing f.

Lemma while_fails st l1 b b1 e l2 f : items st l1 b b1 -> (0 < length e)%nat -> fails st e b1 f -> forall pre post fuel k,
  let l := l1 ++ e :: l2 in (length (concat l) < fuel)%nat -> (length (concat l) < k)%nat ->
  parse_while (fun b c => parse fuel b st (pre ++ concat l ++ post) c) k (length pre + length (concat l)) b (length pre) = failing f.
Proof.
  intros H He Hf. induction H as [b|e0 l b b1 b2 He0 Hp _ IH]; intros pre post fuel k L Hf1 Hk; subst L; destruct k as [|k]; try lia; cbn [parse_while].
  - cbn [app concat] in *. rewrite app_length in *. replace (Nat.ltb _ _) with true by (symmetry; apply Nat.ltb_lt; lia).
    rewrite <- app_assoc. rewrite Hf by lia. destruct f; reflexivity.
  - cbn [app concat] in *. rewrite app_length in *. replace (Nat.ltb _ _) with true by (symmetry; apply Nat.ltb_lt; lia).
    rewrite <- app_assoc. rewrite Hp by lia. cbn [bind]. specialize (IH Hf (pre ++ e0) post fuel k ltac:(lia) ltac:(lia)). cbv zeta in IH.
    rewrite app_length, <- app_assoc in IH. rewrite <- Nat.add_assoc in IH. exact IH.
Qed.
Lemma seq_fails st l1 e l2 b b1 f : Z.of_nat (length (concat (l1 ++ e :: l2))) < 2^24 -> (0 < length e)%nat ->
  items st l1 (on_sequence b (length (concat (l1 ++ e :: l2)))) b1 -> fails st e b1 f -> fails st (SEQUENCE (l1 ++ e :: l2)) b f.
Proof.
  intros Hn He Hi Hf. unfold SEQUENCE. start. rewrite data_split, <- pre_length with (tag := 0x30). pose proof (hlen_min (concat (l1 ++ e :: l2))).
  rewrite (Nat.add_comm (length (concat (l1 ++ e :: l2)))).
  rewrite (while_fails _ _ _ _ _ l2 _ Hi He Hf) by lia. reflexivity.
Qed.
Lemma oid_fails content b er : Z.of_nat (length content) < 2^24 -> on_init_oid b content = Err er ->
  fails Init (OBJECT_IDENTIFIER content) b (Some er).
Proof. intros Hn Hb. unfold OBJECT_IDENTIFIER. start. rewrite Hb. reflexivity. Qed.
Lemma null_fails st b : fails st NULL b None.
Proof. unfold NULL. assert (Hn : Z.of_nat (length (@nil Z)) < 2^24) by (cbn; lia). start. reflexivity. Qed.
Lemma generalized_fails st text b : Z.of_nat (length text) < 2^24 -> fails st (der 0x18 text) b (Some PNotYetImplemented).
Proof. intros Hn. start. reflexivity. Qed.
Lemma time_fails st content b f : Z.of_nat (length content) < 2^24 -> on_time b content = match f with None => Panic | Some er => Err er end -> fails st (der 0x17 content) b f.
Proof. intros Hn Hb. start. rewrite Hb. destruct f; reflexivity. Qed.
Lemma string_fails st s content b er : Z.of_nat (length content) < 2^24 -> on_string b content = Err er ->
  fails st (der (string_tag s) content) b (Some er).
Proof. intros Hn Hb. destruct s; cbn [string_tag]; start; rewrite Hb; reflexivity. Qed.

Lemma raw_fails data f : fails Init data builder_new f -> x509_from_raw data = failing f.
Proof.
  intros H. unfold x509_from_raw. specialize (H [] [] (S (length data)) ltac:(lia)). cbn [app length] in H. rewrite app_nil_r in H. rewrite H. destruct f; reflexivity.
Qed.
Lemma nz tag c : (0 < length (der tag c))%nat.
Proof. pose proof (len_der tag c). lia. Qed.

Definition start_builder (size : nat) : builder := mk None None None name_new None None name_new None None (size + 4).
Lemma inside k before e after b1 f : any_elements k = before ++ e :: after -> Z.of_nat (length (any_wire k)) < 2^24 -> (0 < length e)%nat ->
  items Init before (start_builder (length (concat (any_elements k)))) b1 -> fails Init e b1 f -> x509_from_raw (any_wire k) = failing f.
Proof.
  intros El Hn He Hi Hf. apply raw_fails. unfold any_wire in *.
  pose proof (len_concat_seq [SEQUENCE (any_elements k); algorithm_identifier (k_outer_algorithm k); BIT_STRING (k_signature k)]) as L1.
  pose proof (len_seq (SEQUENCE (any_elements k)) [SEQUENCE (any_elements k); algorithm_identifier (k_outer_algorithm k); BIT_STRING (k_signature k)] ltac:(cbn; auto)) as L2.
  pose proof (len_concat_seq (any_elements k)) as L3.
  eapply (seq_fails Init [] (SEQUENCE (any_elements k)) [algorithm_identifier (k_outer_algorithm k); BIT_STRING (k_signature k)]); [cbn [app]; lia|apply nz|apply items_nil|].
  cbn [app]. change (on_sequence builder_new _) with (mk None None None name_new None None name_new None None 1).
  rewrite El in *. eapply seq_fails; [lia|exact He| |exact Hf].
  change (on_sequence _ ?n) with (start_builder n). exact Hi.
Qed.

Lemma hd_range x l : octets (x :: l) -> x <> 0 -> 256 ^ zlen l <= be_val (x :: l) < 256 ^ (zlen l + 1).
Proof.
  intros O N. pose proof (be_val_range (x :: l) O) as R. replace (zlen (x :: l)) with (zlen l + 1) in R by (unfold zlen; cbn [length]; lia).
  split; [|lia]. rewrite be_val_cons. pose proof (be_val_range l ltac:(now inversion O)) as R'. assert (0 <= x < 256) by (now inversion O).
  set (P := 256 ^ zlen l) in *. nia.
Qed.
Lemma oid_inj l l' : octets l -> octets l' -> hd 0 l <> 0 -> hd 0 l' <> 0 -> be_val l = be_val l' -> l = l'.
Proof.
  destruct l as [|x l]; [cbn; congruence|]. destruct l' as [|y l']; [cbn; congruence|]. cbn [hd]. intros O O' N N' E.
  pose proof (hd_range x l O N) as R. pose proof (hd_range y l' O' N') as R'. rewrite E in R.
  assert (L : zlen l = zlen l').
  { destruct (Z.lt_trichotomy (zlen l) (zlen l')) as [H|[H|H]]; [|exact H|].
    - pose proof (Z.pow_le_mono_r 256 (zlen l + 1) (zlen l') ltac:(lia) ltac:(lia)). lia.
    - pose proof (Z.pow_le_mono_r 256 (zlen l' + 1) (zlen l) ltac:(lia) ltac:(lia)). lia. }
  assert (L' : length (x :: l) = length (y :: l')) by (unfold zlen in L; cbn [length]; lia).
  rewrite <- (be_enc_val (x :: l)), <- (be_enc_val (y :: l')) by assumption. now rewrite E, L'.
Qed.
Lemma unnamed content : octets content -> (length content <= 16)%nat -> hd 0 content <> 0 -> ~ In content named_algorithms ->
  algorithm_new (parse_object_identifier content) = Err PAlgorithms.
Proof.
  intros O L16 N X. unfold parse_object_identifier. rewrite to_u128_be_fill_val by assumption.
  assert (D : forall a, In a named_algorithms -> be_val content <> be_val a).
  { intros a Ha E. apply X. rewrite (oid_inj content a O); [exact Ha| |exact N| |exact E].
    - unfold named_algorithms in Ha. repeat destruct Ha as [<-|Ha]; try (apply is_bytes_check; reflexivity). destruct Ha.
    - unfold named_algorithms in Ha. repeat destruct Ha as [<-|Ha]; try discriminate. destruct Ha. }
  repeat match goal with |- context [?x =? ?c] => destruct (Z.eqb_spec x c); [first [reflexivity |
    exfalso; match goal with H : be_val content = _ |- _ => 
      first [refine (D id_ecdsa_sha256 _ H); cbn; tauto | refine (D id_ecdsa_sha384 _ H); cbn; tauto | refine (D id_ecPublicKey _ H); cbn; tauto
            | refine (D id_sha256WithRSAEncryption _ H); cbn; tauto | refine (D id_rsaEncryption _ H); cbn; tauto] end]|] end.
  reflexivity.
Qed.

(* ---- the fields before the one that fails ---- *)
Lemma element_small k e : Z.of_nat (length (any_wire k)) < 2^24 -> In e (any_elements k) -> Z.of_nat (length e) < 2^24.
Proof.
  intros Hn He. unfold any_wire in Hn.
  pose proof (len_seq (SEQUENCE (any_elements k)) [SEQUENCE (any_elements k); algorithm_identifier (k_outer_algorithm k); BIT_STRING (k_signature k)] ltac:(cbn; auto)).
  pose proof (len_seq e (any_elements k) He). lia.
Qed.
Lemma der_small tag c : Z.of_nat (length (der tag c)) < 2^24 -> Z.of_nat (length c) < 2^24.
Proof. pose proof (len_der tag c). lia. Qed.
Lemma elements_in k e : In e [INTEGER (k_serial k); algorithm_identifier (k_signed_with k); Name (k_issuer k);
   SEQUENCE [Time (k_from k); Time (k_until k)]; Name (k_subject k);
   SEQUENCE [algorithm_identifier (k_key_kind k); BIT_STRING (k_key k)]] -> In e (any_elements k).
Proof. intros H. unfold any_elements. apply in_or_app. right. apply in_or_app. now left. Qed.

Definition version_part k : list (list Z) := opt (fun v => EXPLICIT 0 (INTEGER [v])) (k_version k).
Lemma serial_items k size : version_ok k -> Z.of_nat (length (any_wire k)) < 2^24 ->
  items Init (version_part k ++ [INTEGER (k_serial k)]) (start_builder size)
    (mk (k_version k) (Some (be_val (k_serial k))) None name_new None None name_new None None (size + 4)).
Proof.
  intros Hv Hn. apply items_app with (mk (k_version k) None None name_new None None name_new None None (size + 4)).
  - unfold version_part, version_ok in *. destruct (k_version k) as [v|] eqn:Ev; cbn [opt]; [|constructor]. apply items_one; [cbn; lia|].
    apply (parses_version Init v (start_builder size)). apply Hv. reflexivity.
  - apply items_one; [apply nz|]. apply (parses_int Init (k_serial k) (mk (k_version k) None None name_new None None name_new None None (size + 4))).
    apply (der_small 2). apply (element_small k); [exact Hn|]. apply elements_in. left. reflexivity.
Qed.

Lemma signed_alg_ok v sn size a : (1 < size)%nat ->
  parses Init (algorithm_identifier (ecdsa a)) (mk v sn None name_new None None name_new None None size)
    (mk v sn (Some (Spec.X509View.ai (Spec.X509View.alg_of a) None)) name_new None None name_new None None size).
Proof.
  intros HS. unfold algorithm_identifier. apply parses_seq; [destruct a; cbn; lia|]. rewrite seq_noop by exact HS.
  apply items_one; [apply nz|]. apply parses_oid_init; destruct a; try reflexivity; cbn; lia.
Qed.

Lemma rsa_signed k : version_ok k -> Z.of_nat (length (any_wire k)) < 2^24 ->
  k_signed_with k = rsa_sha256 \/ k_signed_with k = rsa_key -> x509_from_raw (any_wire k) = Panic.
Proof.
  intros Hv Hn R.
  refine (inside k (version_part k ++ [INTEGER (k_serial k)]) _ _ _ None _ Hn _ (serial_items k _ Hv Hn) _).
  - unfold any_elements. rewrite <- app_assoc. reflexivity.
  - apply nz.
  - destruct R as [-> | ->].
    + refine (seq_fails Init [OBJECT_IDENTIFIER id_sha256WithRSAEncryption] NULL [] _ _ None _ _ _ (null_fails _ _)); [cbn; lia|cbn; lia|].
      rewrite seq_noop by (cbn; lia). apply items_one; [apply nz|]. apply parses_oid_init; [cbn; lia|reflexivity].
    + refine (seq_fails Init [OBJECT_IDENTIFIER id_rsaEncryption] NULL [] _ _ None _ _ _ (null_fails _ _)); [cbn; lia|cbn; lia|].
      rewrite seq_noop by (cbn; lia). apply items_one; [apply nz|]. apply parses_oid_init; [cbn; lia|reflexivity].
Qed.

Lemma alg_small a : Z.of_nat (length (algorithm_identifier a)) < 2^24 ->
  Z.of_nat (length (concat (OBJECT_IDENTIFIER (al_oid a) :: al_parameters a))) < 2^24 /\ Z.of_nat (length (al_oid a)) < 2^24.
Proof.
  intros H. unfold algorithm_identifier in H. pose proof (len_concat_seq (OBJECT_IDENTIFIER (al_oid a) :: al_parameters a)).
  split; [lia|]. apply (der_small 6). pose proof (len_seq (OBJECT_IDENTIFIER (al_oid a)) (OBJECT_IDENTIFIER (al_oid a) :: al_parameters a) ltac:(cbn; auto)). unfold OBJECT_IDENTIFIER in *. lia.
Qed.
Lemma other_signed k : version_ok k -> Z.of_nat (length (any_wire k)) < 2^24 -> plain_oid (al_oid (k_signed_with k)) ->
  ~ In (al_oid (k_signed_with k)) named_algorithms -> x509_from_raw (any_wire k) = Err (Some PAlgorithms).
Proof.
  intros Hv Hn (O & L & N) X. assert (A := element_small k (algorithm_identifier (k_signed_with k)) Hn (elements_in k (algorithm_identifier (k_signed_with k)) ltac:(cbn; auto))).
  destruct (alg_small _ A) as [A1 A2].
  refine (inside k (version_part k ++ [INTEGER (k_serial k)]) _ _ _ (Some PAlgorithms) _ Hn _ (serial_items k _ Hv Hn) _).
  - unfold any_elements. rewrite <- app_assoc. reflexivity.
  - apply nz.
  - refine (seq_fails Init [] (OBJECT_IDENTIFIER (al_oid (k_signed_with k))) (al_parameters (k_signed_with k)) _ _ _ A1 (nz _ _) (items_nil _ _) _).
    rewrite seq_noop by (cbn; lia). apply oid_fails; [exact A2|]. unfold on_init_oid. cbn [b_signature_alg mk]. rewrite unnamed by assumption. reflexivity.
Qed.
Lemma names_items k a size : version_ok k -> names_ok (k_issuer k) -> Z.of_nat (length (any_wire k)) < 2^24 -> k_signed_with k = ecdsa a ->
  items Init ((version_part k ++ [INTEGER (k_serial k)]) ++ [algorithm_identifier (k_signed_with k); Name (k_issuer k)]) (start_builder size)
    (mk (k_version k) (Some (be_val (k_serial k))) (Some (Spec.X509View.ai (Spec.X509View.alg_of a) None)) (name_of (k_issuer k)) None None name_new None None (size + 4)).
Proof.
  intros Hv Hi Hn E. eapply items_app; [apply serial_items; assumption|]. rewrite E.
  econstructor; [apply nz|apply signed_alg_ok; lia|]. apply items_one; [apply nz|]. apply name_issuer; [exact Hi|lia|].
  apply (element_small k); [exact Hn|]. apply elements_in. cbn. auto.
Qed.

Lemma dates_small k : Z.of_nat (length (any_wire k)) < 2^24 -> Z.of_nat (length (concat [Time (k_from k); Time (k_until k)])) < 2^24.
Proof. intros Hn. apply (der_small 0x30). apply (element_small k); [exact Hn|]. apply elements_in. cbn. auto. Qed.
Lemma generalized_refused k a : version_ok k -> names_ok (k_issuer k) -> Z.of_nat (length (any_wire k)) < 2^24 -> k_signed_with k = ecdsa a ->
  is_generalized (k_from k) \/ (exists i, k_from k = utc i /\ time_ok i) /\ is_generalized (k_until k) ->
  x509_from_raw (any_wire k) = Err (Some PNotYetImplemented).
Proof.
  intros Hv Hi Hn E G. pose proof (dates_small k Hn) as D.
  refine (inside k ((version_part k ++ [INTEGER (k_serial k)]) ++ [algorithm_identifier (k_signed_with k); Name (k_issuer k)]) _ _ _ (Some PNotYetImplemented) _ Hn _ (names_items k a _ Hv Hi Hn E) _).
  - unfold any_elements. rewrite <- !app_assoc. reflexivity.
  - apply nz.
  - destruct G as [(text & G) | ((i & F & T) & text & G)].
    + pose proof (len_in (Time (k_from k)) [Time (k_from k); Time (k_until k)] ltac:(cbn; auto)).
      refine (seq_fails Init [] (Time (k_from k)) [Time (k_until k)] _ _ _ D _ (items_nil _ _) _); rewrite G in *; [apply nz|]. apply generalized_fails. apply (der_small 0x18). cbn [Time] in *. lia.
    + pose proof (len_in (Time (k_until k)) [Time (k_from k); Time (k_until k)] ltac:(cbn; auto)).
      refine (seq_fails Init [Time (k_from k)] (Time (k_until k)) [] _ _ _ D _ _ _).
      * rewrite G. apply nz.
      * rewrite F. apply items_one; [apply nz|]. apply parses_time, on_time_ok, T.
      * rewrite G in *. apply generalized_fails. apply (der_small 0x18). cbn [Time] in *. lia.
Qed.
Lemma date_fails k a f : version_ok k -> names_ok (k_issuer k) -> Z.of_nat (length (any_wire k)) < 2^24 -> k_signed_with k = ecdsa a ->
  (forall b, Z.of_nat (length (Time (k_from k))) < 2^24 -> fails Init (Time (k_from k)) b f) \/
  (exists i, k_from k = utc i /\ time_ok i) /\ (forall b, Z.of_nat (length (Time (k_until k))) < 2^24 -> fails Init (Time (k_until k)) b f) ->
  x509_from_raw (any_wire k) = failing f.
Proof.
  intros Hv Hi Hn E G. pose proof (dates_small k Hn) as D.
  assert (NZ : forall d, (0 < length (Time d))%nat) by (intros d; destruct d; apply nz).
  refine (inside k ((version_part k ++ [INTEGER (k_serial k)]) ++ [algorithm_identifier (k_signed_with k); Name (k_issuer k)]) _ _ _ f _ Hn _ (names_items k a _ Hv Hi Hn E) _).
  - unfold any_elements. rewrite <- !app_assoc. reflexivity.
  - apply nz.
  - destruct G as [G | ((i & F & T) & G)].
    + pose proof (len_in (Time (k_from k)) [Time (k_from k); Time (k_until k)] ltac:(cbn; auto)).
      refine (seq_fails Init [] (Time (k_from k)) [Time (k_until k)] _ _ _ D _ (items_nil _ _) _); [apply NZ|]. apply G. lia.
    + pose proof (len_in (Time (k_until k)) [Time (k_from k); Time (k_until k)] ltac:(cbn; auto)).
      refine (seq_fails Init [Time (k_from k)] (Time (k_until k)) [] _ _ _ D _ _ _).
      * apply NZ.
      * rewrite F. apply items_one; [apply nz|]. apply parses_time, on_time_ok, T.
      * apply G. lia.
Qed.
Lemma foreign_time k a : version_ok k -> names_ok (k_issuer k) -> Z.of_nat (length (any_wire k)) < 2^24 -> k_signed_with k = ecdsa a ->
  is_foreign (k_from k) \/ (exists i, k_from k = utc i /\ time_ok i) /\ is_foreign (k_until k) -> x509_from_raw (any_wire k) = Panic.
Proof.
  assert (X : forall d b, is_foreign d -> Z.of_nat (length (Time d)) < 2^24 -> fails Init (Time d) b None).
  { intros d b (text & -> & S & L & A) Hn. cbn [Time] in *. apply time_fails; [exact (der_small 0x17 _ Hn)|]. unfold on_time. rewrite utf8_text_valid by exact S. cbn [negb]. now rewrite utc_other. }
  intros Hv Hi Hn E G. apply (date_fails k a None Hv Hi Hn E). destruct G as [G | (F & G)]; [left|right; split; [exact F|]]; intros b Hl; apply X; assumption.
Qed.
Lemma short_time k a : version_ok k -> names_ok (k_issuer k) -> Z.of_nat (length (any_wire k)) < 2^24 -> k_signed_with k = ecdsa a ->
  is_short (k_from k) \/ (exists i, k_from k = utc i /\ time_ok i) /\ is_short (k_until k) -> x509_from_raw (any_wire k) = Err (Some PTimeStamp).
Proof.
  assert (X : forall d b, is_short d -> Z.of_nat (length (Time d)) < 2^24 -> fails Init (Time d) b (Some PTimeStamp)).
  { intros d b (text & -> & S & L) Hn. cbn [Time] in *. apply time_fails; [exact (der_small 0x17 _ Hn)|]. unfold on_time. rewrite utf8_text_valid by exact S. cbn [negb]. now rewrite utc_short. }
  intros Hv Hi Hn E G. apply (date_fails k a (Some PTimeStamp) Hv Hi Hn E). destruct G as [G | (F & G)]; [left|right; split; [exact F|]]; intros b Hl; apply X; assumption.
Qed.

Lemma subject_items k a i j size : version_ok k -> names_ok (k_issuer k) -> names_ok (k_subject k) -> Z.of_nat (length (any_wire k)) < 2^24 -> k_signed_with k = ecdsa a ->
  k_from k = utc i -> k_until k = utc j -> time_ok i -> time_ok j ->
  items Init (((version_part k ++ [INTEGER (k_serial k)]) ++ [algorithm_identifier (k_signed_with k); Name (k_issuer k)]) ++
     [SEQUENCE [Time (k_from k); Time (k_until k)]; Name (k_subject k)]) (start_builder size)
    (mk (k_version k) (Some (be_val (k_serial k))) (Some (Spec.X509View.ai (Spec.X509View.alg_of a) None)) (name_of (k_issuer k))
       (Some (Spec.X509View.as_utc i)) (Some (Spec.X509View.as_utc j)) (name_of (k_subject k)) None None (size + 4)).
Proof.
  intros Hv Hi Hs Hn E F U Ti Tj. eapply items_app; [apply (names_items k a); assumption|]. pose proof (dates_small k Hn) as D.
  econstructor; [apply nz| |apply items_one; [apply nz|]].
  - apply parses_seq; [exact D|]. rewrite seq_noop by (cbn; lia). rewrite F, U.
    econstructor; [apply nz|apply parses_time, on_time_ok, Ti|]. cbn [b_not_before mk].
    apply items_one; [apply nz|]. apply parses_time. rewrite on_time_ok by exact Tj. reflexivity.
  - refine (name_subject _ _ _ _ _ _ name_new None None (size + 4) _ Hs _ _); [lia|]. apply (element_small k); [exact Hn|]. apply elements_in. cbn. auto 10.
Qed.
Lemma key_refused k a i j f : version_ok k -> names_ok (k_issuer k) -> names_ok (k_subject k) -> Z.of_nat (length (any_wire k)) < 2^24 -> k_signed_with k = ecdsa a ->
  k_from k = utc i -> k_until k = utc j -> time_ok i -> time_ok j ->
  (forall b, b_signature_alg b <> None -> b_spki_alg b = None -> (1 < b_tbs_size b)%nat -> fails Init (algorithm_identifier (k_key_kind k)) b f) ->
  x509_from_raw (any_wire k) = failing f.
Proof.
  intros Hv Hi Hs Hn E F U Ti Tj Hf.
  assert (A := element_small k (SEQUENCE [algorithm_identifier (k_key_kind k); BIT_STRING (k_key k)]) Hn (elements_in k (SEQUENCE [algorithm_identifier (k_key_kind k); BIT_STRING (k_key k)]) ltac:(cbn; auto 10))).
  refine (inside k _ (SEQUENCE [algorithm_identifier (k_key_kind k); BIT_STRING (k_key k)]) (k_rest k) _ f _ Hn _ (subject_items k a i j _ Hv Hi Hs Hn E F U Ti Tj) _).
  - unfold any_elements. rewrite <- !app_assoc. reflexivity.
  - apply nz.
  - refine (seq_fails Init [] (algorithm_identifier (k_key_kind k)) [BIT_STRING (k_key k)] _ _ _ (der_small _ _ A) (nz _ _) (items_nil _ _) _).
    rewrite seq_noop by (cbn; lia). apply Hf; [discriminate|reflexivity|cbn; lia].
Qed.
Lemma rsa_keyed k a i j : version_ok k -> names_ok (k_issuer k) -> names_ok (k_subject k) -> Z.of_nat (length (any_wire k)) < 2^24 -> k_signed_with k = ecdsa a ->
  k_from k = utc i -> k_until k = utc j -> time_ok i -> time_ok j -> k_key_kind k = rsa_key -> x509_from_raw (any_wire k) = Panic.
Proof.
  intros Hv Hi Hs Hn E F U Ti Tj R. apply (key_refused k a i j None); try assumption. rewrite R. intros b B1 B2 B3.
  refine (seq_fails Init [OBJECT_IDENTIFIER id_rsaEncryption] NULL [] _ _ None _ _ _ (null_fails _ _)); [cbn; lia|cbn; lia|].
  rewrite seq_noop by exact B3. apply items_one; [apply nz|]. apply parses_oid_init; [cbn; lia|].
  unfold on_init_oid. destruct (b_signature_alg b); [|congruence]. rewrite B2. reflexivity.
Qed.
Lemma other_keyed k a i j : version_ok k -> names_ok (k_issuer k) -> names_ok (k_subject k) -> Z.of_nat (length (any_wire k)) < 2^24 -> k_signed_with k = ecdsa a ->
  k_from k = utc i -> k_until k = utc j -> time_ok i -> time_ok j -> plain_oid (al_oid (k_key_kind k)) -> ~ In (al_oid (k_key_kind k)) named_algorithms ->
  x509_from_raw (any_wire k) = Err (Some PAlgorithms).
Proof.
  intros Hv Hi Hs Hn E F U Ti Tj (O & L & N) X. 
  assert (A := element_small k (SEQUENCE [algorithm_identifier (k_key_kind k); BIT_STRING (k_key k)]) Hn (elements_in k (SEQUENCE [algorithm_identifier (k_key_kind k); BIT_STRING (k_key k)]) ltac:(cbn; auto 10))).
  pose proof (len_seq (algorithm_identifier (k_key_kind k)) [algorithm_identifier (k_key_kind k); BIT_STRING (k_key k)] ltac:(cbn; auto)).
  destruct (alg_small (k_key_kind k) ltac:(lia)) as [A1 A2].
  apply (key_refused k a i j (Some PAlgorithms)); try assumption. intros b B1 B2 B3.
  refine (seq_fails Init [] (OBJECT_IDENTIFIER (al_oid (k_key_kind k))) (al_parameters (k_key_kind k)) _ _ _ A1 (nz _ _) (items_nil _ _) _).
  rewrite seq_noop by exact B3. apply oid_fails; [exact A2|]. unfold on_init_oid. destruct (b_signature_alg b); [|congruence]. rewrite B2, unnamed by assumption. reflexivity.
Qed.

(* a string outside a name *)
Lemma name_key l : n_key (name_of l) = None.
Proof.
  unfold name_of. assert (H : forall n, n_key n = None -> n_key (fold_left add_attr l n) = None); [|now apply H].
  induction l as [|a l IH]; intros n H; [exact H|]. cbn [fold_left]. now apply IH.
Qed.
Lemma stray_string c s text more : tbs_ok (c_tbs c) -> Forall scalar_value text -> Z.of_nat (length (stuffed_certificate c (der (string_tag s) (utf8 text) :: more))) < 2^24 ->
  x509_from_raw (stuffed_certificate c (der (string_tag s) (utf8 text) :: more)) = Err (Some PNameAddValue).
Proof.
  intros Ht Hs Hn. apply (raw_fails _ (Some PNameAddValue)). unfold stuffed_certificate in *.
  set (tail := more ++ [AlgorithmIdentifier (c_algorithm c); BIT_STRING (EcdsaSigValue (c_r c) (c_s c))]) in *.
  change ([TBSCertificate (c_tbs c)] ++ (der (string_tag s) (utf8 text) :: more) ++ [AlgorithmIdentifier (c_algorithm c); BIT_STRING (EcdsaSigValue (c_r c) (c_s c))])
    with ([TBSCertificate (c_tbs c)] ++ der (string_tag s) (utf8 text) :: tail) in *.
  pose proof (len_concat_seq ([TBSCertificate (c_tbs c)] ++ der (string_tag s) (utf8 text) :: tail)) as L1.
  pose proof (len_seq (TBSCertificate (c_tbs c)) ([TBSCertificate (c_tbs c)] ++ der (string_tag s) (utf8 text) :: tail) ltac:(cbn; auto)) as L2.
  pose proof (len_seq (der (string_tag s) (utf8 text)) ([TBSCertificate (c_tbs c)] ++ der (string_tag s) (utf8 text) :: tail) ltac:(cbn; auto)) as L4.
  pose proof (len_concat_seq (tbs_elements (c_tbs c))) as L3. fold (TBSCertificate (c_tbs c)) in L3.
  refine (seq_fails Init [TBSCertificate (c_tbs c)] _ tail _ (tbs_builder (c_tbs c) (length (concat (tbs_elements (c_tbs c))))) _ _ (nz _ _) _ _); [lia| |].
  - apply items_one; [apply nz|]. unfold TBSCertificate. apply parses_seq; [lia|].
    change (on_sequence builder_new _) with (mk None None None name_new None None name_new None None 1).
    change (on_sequence _ ?n) with (mk None None None name_new None None name_new None None (n + 4)). apply tbs_items; [exact Ht|lia].
  - apply string_fails; [apply (der_small (string_tag s)); lia|]. unfold on_string. rewrite utf8_text_valid by exact Hs. cbn [negb tbs_builder mk b_not_after b_subject].
    unfold add_value. now rewrite name_key.
Qed.

(* EC keys on any curve, in any form *)
Lemma ec_parse k a i j curve b0 bs ext o r s : version_ok k -> names_ok (k_issuer k) -> names_ok (k_subject k) -> Z.of_nat (length (any_wire k)) < 2^24 ->
  k_signed_with k = ecdsa a -> k_from k = utc i -> k_until k = utc j -> time_ok i -> time_ok j ->
  k_key_kind k = ec_key curve -> k_key k = b0 :: bs -> b0 <> 0x30 -> k_rest k = opt (EXPLICIT 3) ext ->
  k_outer_algorithm k = ecdsa o -> k_signature k = EcdsaSigValue r s ->
  exists x, x509_from_raw (any_wire k) = Ok x /\ x_spki_alg x = Spec.X509View.ai EcPublicKey (Some (parse_object_identifier curve)) /\ x_spki_key x = b0 :: bs.
Proof.
  intros Hv Hi Hs Hn E F U Ti Tj K1 K2 Hb R O Sg.
  assert (A := element_small k (SEQUENCE [algorithm_identifier (k_key_kind k); BIT_STRING (k_key k)]) Hn (elements_in k (SEQUENCE [algorithm_identifier (k_key_kind k); BIT_STRING (k_key k)]) ltac:(cbn; auto 10))).
  pose proof (len_seq (algorithm_identifier (k_key_kind k)) [algorithm_identifier (k_key_kind k); BIT_STRING (k_key k)] ltac:(cbn; auto)) as A1.
  pose proof (len_seq (BIT_STRING (k_key k)) [algorithm_identifier (k_key_kind k); BIT_STRING (k_key k)] ltac:(cbn; auto)) as A2.
  pose proof (len_concat_seq [algorithm_identifier (k_key_kind k); BIT_STRING (k_key k)]) as A3.
  pose proof (len_der 3 (0 :: k_key k)) as A4. fold (BIT_STRING (k_key k)) in A4.
  rewrite K1 in A, A1, A2, A3. unfold algorithm_identifier, ec_key in A, A1, A2, A3. cbn [al_oid al_parameters] in A, A1, A2, A3.
  pose proof (len_concat_seq [OBJECT_IDENTIFIER id_ecPublicKey; OBJECT_IDENTIFIER curve]) as A5.
  pose proof (len_seq (OBJECT_IDENTIFIER curve) [OBJECT_IDENTIFIER id_ecPublicKey; OBJECT_IDENTIFIER curve] ltac:(cbn; auto)) as A6.
  pose proof (len_der 6 curve) as A7. fold (OBJECT_IDENTIFIER curve) in A7.
  set (n := length (concat (any_elements k))).
  set (B1 := mk (k_version k) (Some (be_val (k_serial k))) (Some (Spec.X509View.ai (Spec.X509View.alg_of a) None)) (name_of (k_issuer k))
       (Some (Spec.X509View.as_utc i)) (Some (Spec.X509View.as_utc j)) (name_of (k_subject k)) (Some (Spec.X509View.ai EcPublicKey (Some (parse_object_identifier curve)))) (Some (b0 :: bs)) (n + 4)).
  assert (I1 : items Init (any_elements k) (start_builder n) B1).
  { replace (any_elements k) with ((((version_part k ++ [INTEGER (k_serial k)]) ++ [algorithm_identifier (k_signed_with k); Name (k_issuer k)]) ++
     [SEQUENCE [Time (k_from k); Time (k_until k)]; Name (k_subject k)]) ++ (SEQUENCE [algorithm_identifier (k_key_kind k); BIT_STRING (k_key k)] :: k_rest k))
      by (unfold any_elements; rewrite <- !app_assoc; reflexivity).
    eapply items_app; [apply (subject_items k a i j); assumption|].
    econstructor; [apply nz| |].
    - rewrite K1. unfold algorithm_identifier, ec_key. cbn [al_oid al_parameters]. apply parses_seq; [lia|]. rewrite seq_noop by (cbn; lia).
      econstructor; [apply nz| |].
      + apply parses_seq; [lia|]. rewrite seq_noop by (cbn; lia).
        econstructor; [apply nz|apply parses_oid_init; [cbn; lia|reflexivity]|].
        apply items_one; [apply nz|]. apply parses_oid_init; [lia|reflexivity].
      + apply items_one; [apply nz|]. rewrite K2 in *. apply parses_key; [lia|exact Hb|reflexivity].
    - rewrite R. destruct ext as [ext|]; cbn [opt]; [|constructor].
      apply items_one; [apply nz|]. apply parses_skip; [lia|].
      assert (LE : In (EXPLICIT 3 ext) (any_elements k)) by (unfold any_elements; rewrite R; cbn [opt]; rewrite !in_app_iff; cbn; auto).
      pose proof (element_small k _ Hn LE) as L. unfold EXPLICIT in L. apply der_small in L. exact L. }
  unfold any_wire in *.
  set (W := [SEQUENCE (any_elements k); algorithm_identifier (k_outer_algorithm k); BIT_STRING (k_signature k)]) in *.
  pose proof (len_concat_seq W) as L1.
  pose proof (len_seq (SEQUENCE (any_elements k)) W ltac:(cbn; auto)) as L2. pose proof (len_concat_seq (any_elements k)) as L3.
  pose proof (len_seq (BIT_STRING (k_signature k)) W ltac:(cbn; auto)) as L4.
  pose proof (len_der 3 (0 :: k_signature k)) as L5. fold (BIT_STRING (k_signature k)) in L5. cbn [length] in L5. rewrite Sg in L4, L5.
  pose proof (len_seq (INTEGER r) [INTEGER r; INTEGER s] ltac:(cbn; auto)) as LR. pose proof (len_seq (INTEGER s) [INTEGER r; INTEGER s] ltac:(cbn; auto)) as LS.
  pose proof (len_der 2 r) as LR2. pose proof (len_der 2 s) as LS2. fold (INTEGER r) in LR2. fold (INTEGER s) in LS2.
  fold (EcdsaSigValue r s) in LR, LS.
  set (BT := set_sig1 (be_val s) (set_sig0 (be_val r) (set_cert_alg (Spec.X509View.alg_of o) B1))).
  assert (P : parses Init (SEQUENCE W) builder_new BT).
  { apply parses_seq; [lia|]. change (on_sequence builder_new _) with (mk None None None name_new None None name_new None None 1). unfold W.
    econstructor; [apply nz|apply parses_seq; [lia|]; change (on_sequence _ ?m) with (start_builder m); exact I1|].
    econstructor; [apply nz| |].
    { rewrite O. unfold algorithm_identifier, ecdsa. cbn [al_oid al_parameters]. apply parses_seq; [destruct o; cbn; lia|].
      rewrite seq_noop by (cbn; lia). apply items_one; [apply nz|].
      apply parses_oid_init with (b' := set_cert_alg (Spec.X509View.alg_of o) B1); destruct o; try reflexivity; cbn; lia. }
    rewrite Sg. apply items_one; [apply nz|]. unfold EcdsaSigValue. apply parses_sig; [|cbn; lia|cbn; lia|].
    - change (Z.of_nat (length (0 :: EcdsaSigValue r s)) < 2^24). cbn [length]. lia.
    - econstructor; [apply nz|apply parses_int; lia|]. apply items_one; [apply nz|]. apply parses_int. lia. }
  unfold x509_from_raw. specialize (P [] [] (S (length (SEQUENCE W))) ltac:(lia)).
  cbn [app length] in P. rewrite app_nil_r in P. rewrite P. eexists. split; [reflexivity|]. split; reflexivity.
Qed.
Lemma not_p256 curve : plain_oid curve -> curve <> id_prime256v1 -> parse_object_identifier curve <> Prime256v1.
Proof.
  intros (O & L & N) X. unfold parse_object_identifier. rewrite to_u128_be_fill_val by assumption.
  assert (D : be_val curve <> 0x2a8648ce3d030107).
  { intros E. apply X. apply oid_inj; try assumption; [apply is_bytes_check; reflexivity|discriminate]. }
  repeat match goal with |- context [?x =? ?c] => destruct (Z.eqb_spec x c); [first [discriminate | contradiction]|] end. discriminate.
Qed.
Lemma ec_no_key {E} k a i j curve b0 bs ext o r s : version_ok k -> names_ok (k_issuer k) -> names_ok (k_subject k) -> Z.of_nat (length (any_wire k)) < 2^24 ->
  k_signed_with k = ecdsa a -> k_from k = utc i -> k_until k = utc j -> time_ok i -> time_ok j ->
  k_key_kind k = ec_key curve -> k_key k = b0 :: bs -> b0 <> 0x30 -> k_rest k = opt (EXPLICIT 3) ext ->
  k_outer_algorithm k = ecdsa o -> k_signature k = EcdsaSigValue r s -> plain_oid curve ->
  exists x, x509_from_raw (any_wire k) = Ok x /\
    (curve <> id_prime256v1 -> get_public_key (E:=E) x = Ok None) /\ (curve = id_prime256v1 -> b0 <> 4 -> get_public_key (E:=E) x = Panic).
Proof.
  intros. destruct (ec_parse k a i j curve b0 bs ext o r s) as (x & P & A & K); try assumption. exists x. split; [exact P|].
  unfold get_public_key. rewrite A, K. cbn [ai_algorithm ai_parameters Spec.X509View.ai idx nth_error bind]. split.
  - intros N. pose proof (not_p256 curve ltac:(assumption) N) as D. destruct (parse_object_identifier curve); try reflexivity. contradiction.
  - intros -> N4. change (parse_object_identifier id_prime256v1) with Prime256v1. cbv iota. unfold idx. cbn [nth_error unwrap bind].
    destruct (Z.eqb_spec b0 4); [contradiction|reflexivity].
Qed.
Lemma ca_no_key k a i j curve b0 bs ext o r s raw raw' other : version_ok k -> names_ok (k_issuer k) -> names_ok (k_subject k) -> Z.of_nat (length (any_wire k)) < 2^24 ->
  k_signed_with k = ecdsa a -> k_from k = utc i -> k_until k = utc j -> time_ok i -> time_ok j ->
  k_key_kind k = ec_key curve -> k_key k = b0 :: bs -> b0 <> 0x30 -> k_rest k = opt (EXPLICIT 3) ext ->
  k_outer_algorithm k = ecdsa o -> k_signature k = EcdsaSigValue r s -> plain_oid curve -> curve <> id_prime256v1 \/ b0 <> 4 ->
  exists x, x509_from_raw (any_wire k) = Ok x /\
    Certificate.has_signed {| Certificate.ct_raw := raw; Certificate.ct_x509 := Some x |} {| Certificate.ct_raw := raw'; Certificate.ct_x509 := Some other |} = Panic.
Proof.
  intros. destruct (ec_no_key (E:=Alert.tls_error) k a i j curve b0 bs ext o r s) as (x & P & K1 & K2); try assumption. exists x. split; [exact P|].
  unfold Certificate.has_signed, Certificate.certificate_key. cbn [Certificate.ct_x509].
  destruct (list_eq_dec Z.eq_dec curve id_prime256v1) as [Ec|Ec]; [|now rewrite (K1 Ec)].
  rewrite (K2 Ec); [reflexivity|]. intuition congruence.
Qed.
