(* The Certificate messages on which the library can panic, exactly *)
From Verif Require Import Proofs.Util Proofs.Bytes Model.Alert Model.Bytes Model.Der Model.Signature Model.Curve Model.Ecdsa Model.Extensions Spec.Enc Spec.VerifyPanics Spec.CertMessagePanics.
From Verif Require Import Model.Hello Model.Handshake Model.KeySchedule Model.X509 Model.Certificate Model.Stream Model.Server Model.Client.
From Verif Require Proofs.X509Bytes Proofs.Proper Proofs.ServerAccept Proofs.ServerAccept2 Proofs.ServerSteps Proofs.Dates Proofs.Auth Proofs.VerifyPanics Spec.Proper Spec.Rfc8446Hello.

Local Opaque x509_from_raw get_unix_timestamp.
Lemma fill3 a b c : is_byte a -> is_byte b -> is_byte c -> to_u128_be_fill [a; b; c] = n24 a b c.
Proof.
  intros A B C. rewrite to_u128_be_fill_val; [|repeat (constructor; [assumption|]); constructor|cbn; lia].
  change [a; b; c] with (([] ++ [a]) ++ [b] ++ [c]). unfold n24, is_byte in *. cbn. lia.
Qed.
Lemma idx0 {E A} (x : A) l : idx (E:=E) (x :: l) 0 = Ok x. Proof. reflexivity. Qed.
(* the message up to the certificate *)
Lemma hello_carries body cert more now : is_bytes body -> carries body cert more ->
  certificates_from_hello body now =
    (let! c := certificate_from_raw cert in
     if (length more <? 2)%nat then Panic
     else let! x := unwrap (ct_x509 c) in let! valid := is_valid (x_validity x) now in if negb valid then Err CertificateExpired else Ok [c]).
Proof.
  intros B (c & context & a & b & d & e & f & g & E & Lc & N & Lk). subst body.
  assert (B' := B). apply Forall_cons_iff in B'. destruct B' as (Bc & B'). apply is_bytes_app in B'. destruct B' as (_ & B').
  inversion B' as [|? ? Ba B1]; subst. inversion B1 as [|? ? Bb B2]; subst. inversion B2 as [|? ? Bd B3]; subst. inversion B3 as [|? ? Be B4]; subst.
  inversion B4 as [|? ? Bf B5]; subst. inversion B5 as [|? ? Bg _]; subst. clear B1 B2 B3 B4 B5 B'.
  assert (Fa := fill3 a b d Ba Bb Bd). assert (Fe := fill3 e f g Be Bf Bg). unfold zlen in *.
  unfold certificates_from_hello. rewrite idx0, bind_Ok. cbv zeta. rewrite Nat2Z.id.
  change (Z.of_nat (length context) :: context ++ a :: b :: d :: e :: f :: g :: cert ++ more) with ((Z.of_nat (length context) :: context) ++ [a; b; d] ++ [e; f; g] ++ cert ++ more).
  rewrite slice_mid by (cbn [length]; lia). rewrite bind_Ok, Fa. destruct (Nat.eqb_spec (Z.to_nat (n24 a b d)) 0) as [Z0|_]; [unfold n24, is_byte in *; lia|].
  rewrite (app_assoc _ [a; b; d]). rewrite slice_mid by (rewrite app_length; cbn [length]; lia). rewrite bind_Ok, Fe.
  rewrite (app_assoc _ [e; f; g]). rewrite slice_mid by (rewrite ?app_length; cbn [length]; lia). rewrite bind_Ok.
  destruct (certificate_from_raw cert) as [c1|er|]; [|reflexivity..]. rewrite !bind_Ok.
  rewrite (app_assoc _ cert). match goal with |- context [slice ?l ?i ?j] => set (L := l); set (I := i) end.
  assert (LI : length L = (I + length more)%nat) by (unfold L, I; rewrite !app_length; cbn [length]; lia).
  destruct (Nat.ltb_spec (length more) 2).
  - unfold slice. destruct (Nat.leb_spec (I + 2) (length L)); [lia|]. rewrite Bool.andb_false_r. reflexivity.
  - unfold slice. destruct (Nat.leb_spec I (I + 2)); [|lia]. destruct (Nat.leb_spec (I + 2) (length L)); [|lia]. cbn [andb]. rewrite bind_Ok. reflexivity.
Qed.
Lemma slice_past {E A} (l : list A) i j : (length l < j)%nat -> slice (E:=E) l i j = Panic.
Proof. intros H. unfold slice. destruct (Nat.leb_spec j (length l)); [lia|]. now rewrite Bool.andb_false_r. Qed.
Lemma app_split {A} (a b c d : list A) : length a = length c -> a ++ b = c ++ d -> a = c /\ b = d.
Proof. revert c. induction a as [|x a IH]; intros [|y c] L E; try discriminate; [auto|]. cbn in L, E. injection E as -> E. destruct (IH c ltac:(lia) E) as (-> & ->). auto. Qed.
Lemma split_at {A} n (l : list A) : (n <= length l)%nat -> exists a b, l = a ++ b /\ length a = n.
Proof. intros H. exists (firstn n l), (skipn n l). split; [symmetry; apply firstn_skipn|rewrite firstn_length; lia]. Qed.
(* the frames that fail *)
Definition frame_fails (body : list Z) : Prop :=
  body = [] \/ (exists c rest, body = c :: rest /\ zlen rest < c + 3) \/
  (exists c context a b d rest, body = c :: context ++ a :: b :: d :: rest /\ zlen context = c /\ n24 a b d <> 0 /\ (length rest < 3)%nat) \/
  (exists c context a b d e f g rest, body = c :: context ++ a :: b :: d :: e :: f :: g :: rest /\ zlen context = c /\ n24 a b d <> 0 /\ zlen rest < n24 e f g).
Lemma fails_panic body now : is_bytes body -> frame_fails body -> certificates_from_hello body now = Panic.
Proof.
  intros B [-> |[(c & rest & -> & L)|[(c & context & a & b & d & rest & -> & Lc & N & L)|(c & context & a & b & d & e & f & g & rest & -> & Lc & N & L)]]]; [reflexivity|..].
  - inversion B as [|? ? Bc Br]; subst. unfold certificates_from_hello. rewrite idx0, bind_Ok. cbv zeta. rewrite slice_past; [reflexivity|]. unfold zlen, is_byte in *. cbn [length]. lia.
  - assert (B' := B). apply Forall_cons_iff in B'. destruct B' as (Bc & B'). apply is_bytes_app in B'. destruct B' as (_ & B').
    inversion B' as [|? ? Ba B1]; subst. inversion B1 as [|? ? Bb B2]; subst. inversion B2 as [|? ? Bd B3]; subst. assert (Fa := fill3 a b d Ba Bb Bd).
    unfold certificates_from_hello. rewrite idx0, bind_Ok. cbv zeta. unfold zlen. rewrite Nat2Z.id.
    change (Z.of_nat (length context) :: context ++ a :: b :: d :: rest) with ((Z.of_nat (length context) :: context) ++ [a; b; d] ++ rest).
    rewrite slice_mid by (cbn [length]; lia). rewrite bind_Ok, Fa. destruct (Nat.eqb_spec (Z.to_nat (n24 a b d)) 0) as [Z0|_]; [unfold n24, is_byte in *; lia|].
    rewrite slice_past; [reflexivity|]. rewrite !app_length. cbn [length]. lia.
  - assert (B' := B). apply Forall_cons_iff in B'. destruct B' as (Bc & B'). apply is_bytes_app in B'. destruct B' as (_ & B').
    inversion B' as [|? ? Ba B1]; subst. inversion B1 as [|? ? Bb B2]; subst. inversion B2 as [|? ? Bd B3]; subst. inversion B3 as [|? ? Be B4]; subst.
    inversion B4 as [|? ? Bf B5]; subst. inversion B5 as [|? ? Bg _]; subst. assert (Fa := fill3 a b d Ba Bb Bd). assert (Fe := fill3 e f g Be Bf Bg).
    unfold certificates_from_hello. rewrite idx0, bind_Ok. cbv zeta. unfold zlen in *. rewrite Nat2Z.id.
    change (Z.of_nat (length context) :: context ++ a :: b :: d :: e :: f :: g :: rest) with ((Z.of_nat (length context) :: context) ++ [a; b; d] ++ [e; f; g] ++ rest).
    rewrite slice_mid by (cbn [length]; lia). rewrite bind_Ok, Fa. destruct (Nat.eqb_spec (Z.to_nat (n24 a b d)) 0) as [Z0|_]; [unfold n24, is_byte in *; lia|].
    rewrite (app_assoc _ [a; b; d]). rewrite slice_mid by (rewrite app_length; cbn [length]; lia). rewrite bind_Ok, Fe.
    rewrite slice_past; [reflexivity|]. rewrite !app_length. cbn [length]. unfold n24, is_byte in *. lia.
Qed.
Lemma frames body : is_bytes body -> frame_fails body \/ (exists cert more, carries body cert more) \/ (forall now, exists e, certificates_from_hello body now = Err e).
Proof.
  intros B. destruct body as [|c rest]; [left; left; reflexivity|]. inversion B as [|? ? Bc Br]; subst.
  destruct (Z.ltb_spec (zlen rest) (c + 3)) as [L|L]; [left; right; left; eauto|]. unfold zlen, is_byte in *.
  destruct (split_at (Z.to_nat c) rest ltac:(lia)) as (context & r & -> & Lc). rewrite app_length in L.
  destruct r as [|a [|b [|d r]]]; cbn [length] in L; try lia.
  apply is_bytes_app in Br. destruct Br as (_ & Br). inversion Br as [|? ? Ba B1]; subst. inversion B1 as [|? ? Bb B2]; subst. inversion B2 as [|? ? Bd B3]; subst.
  assert (Fa := fill3 a b d Ba Bb Bd).
  destruct (Z.eqb_spec (n24 a b d) 0) as [N|N].
  { right. right. intros now. exists CertificateRequired. unfold certificates_from_hello. rewrite idx0, bind_Ok. cbv zeta.
    change (c :: context ++ a :: b :: d :: r) with ((c :: context) ++ [a; b; d] ++ r). rewrite slice_mid by (cbn [length]; lia). rewrite bind_Ok, Fa, N. reflexivity. }
  destruct r as [|e [|f [|g r]]]; try (left; right; right; left; exists c, context, a, b, d; eexists; split; [reflexivity|]; split; [unfold zlen; lia|]; split; [exact N|cbn; lia]).
  destruct (Z.ltb_spec (zlen r) (n24 e f g)) as [L2|L2]; [left; right; right; right; exists c, context, a, b, d, e, f, g, r; split; [reflexivity|]; split; [unfold zlen; lia|]; auto|].
  inversion B3 as [|? ? Be B4]; subst. inversion B4 as [|? ? Bf B5]; subst. inversion B5 as [|? ? Bg _]; subst. unfold zlen, n24, is_byte in *.
  destruct (split_at (Z.to_nat (e * 65536 + f * 256 + g)) r ltac:(lia)) as (cert & more & -> & Lk). right. left. exists cert, more, c, context, a, b, d, e, f, g.
  split; [reflexivity|]. unfold zlen, n24. lia.
Qed.

(* dates *)
Local Transparent get_unix_timestamp.
Lemma stamp_exact {E} t : (countable t /\ exists n, get_unix_timestamp (E:=E) t = Ok n) \/ (~ countable t /\ get_unix_timestamp (E:=E) t = Panic).
Proof.
  unfold countable. destruct (Z.leb_spec 0 (t_month t)) as [M|M], (Z.leb_spec 0 (t_day t)) as [D|D].
  - destruct (Dates.stamp_exact (E:=E) t M D) as [(A & B & C & X) | (A & X)]; [left; auto|right; auto].
  - right. split; [lia|]. unfold get_unix_timestamp. destruct (usub (t_year t) 1) as [y1|e|] eqn:Q; [|unfold usub in Q; destruct (_ <? _); discriminate|reflexivity]. rewrite bind_Ok. unfold usub. cbv zeta.
    repeat match goal with |- context [if ?x <? ?y then _ else _] => destruct (Z.ltb_spec x y); [reflexivity|]; rewrite ?bind_Ok; cbv zeta end. 
    all: try (destruct (idx days_since_year_start _) as [md| |] eqn:I; [rewrite ?bind_Ok|exfalso; unfold idx in I; destruct (nth_error _ _); discriminate|reflexivity]).
    all: try (destruct (Z.ltb_spec (t_day t) 1); [reflexivity|lia]).
  - right. split; [lia|]. unfold get_unix_timestamp. destruct (usub (t_year t) 1) as [y1|e|] eqn:Q; [|unfold usub in Q; destruct (_ <? _); discriminate|reflexivity]. rewrite bind_Ok. unfold usub. cbv zeta.
    repeat match goal with |- context [if ?x <? ?y then _ else _] => destruct (Z.ltb_spec x y); [reflexivity|]; rewrite ?bind_Ok; cbv zeta end; lia.
  - right. split; [lia|]. unfold get_unix_timestamp. destruct (usub (t_year t) 1) as [y1|e|] eqn:Q; [|unfold usub in Q; destruct (_ <? _); discriminate|reflexivity]. rewrite bind_Ok. unfold usub. cbv zeta.
    repeat match goal with |- context [if ?x <? ?y then _ else _] => destruct (Z.ltb_spec x y); [reflexivity|]; rewrite ?bind_Ok; cbv zeta end; lia.
Qed.
Local Opaque get_unix_timestamp.
Lemma dates_exact {E} v : (exists now, is_valid (E:=E) v now = Panic) <-> exists t, (v_not_before v = Some t \/ v_not_after v = Some t) /\ ~ countable t.
Proof.
  split.
  - intros (now & H). unfold is_valid in H. destruct (v_not_before v) as [nb|].
    + destruct (stamp_exact (E:=E) nb) as [(_ & n & Hn) | (N & _)]; [|exists nb; auto]. rewrite Hn, !bind_Ok in H. destruct (now <? n); [discriminate|].
      destruct (v_not_after v) as [na|]; [|discriminate]. destruct (stamp_exact (E:=E) na) as [(_ & k & Hk) | (N & _)]; [rewrite Hk, !bind_Ok in H; discriminate|exists na; auto].
    + rewrite bind_Ok in H. destruct (v_not_after v) as [na|]; [|discriminate]. destruct (stamp_exact (E:=E) na) as [(_ & k & Hk) | (N & _)]; [rewrite Hk, !bind_Ok in H; discriminate|exists na; auto].
  - intros (t & Ht & N). unfold is_valid. destruct (v_not_before v) as [nb|].
    + destruct (stamp_exact (E:=E) nb) as [(Y & n & Hn) | (_ & Hn)]; [|exists 0; rewrite Hn; reflexivity]. exists n. rewrite Hn, !bind_Ok, Z.ltb_irrefl.
      destruct Ht as [Ht|Ht]; [injection Ht as <-; contradiction|]. rewrite Ht. destruct (stamp_exact (E:=E) t) as [(C & _) | (_ & Hk)]; [contradiction|rewrite Hk; reflexivity].
    + exists 0. destruct Ht as [Ht|Ht]; [discriminate|]. rewrite bind_Ok, Ht. destruct (stamp_exact (E:=E) t) as [(C & _) | (_ & Hk)]; [contradiction|rewrite Hk; reflexivity].
Qed.

Lemma certificate_exact body : is_bytes body -> ((exists now, certificates_from_hello body now = Panic) <-> certificate_message_panics body).
Proof.
  intros B. split.
  - intros (now & H). destruct (frames body B) as [F|[(cert & more & C)|F]].
    + destruct F as [F|[(c & rest & F)|[(c & context & a & b & d & rest & F1 & F2 & F3 & F4)|(c & context & a & b & d & e & f & g & rest & F1 & F2 & F3 & F4)]]].
      * now apply cm_empty. * eapply cm_context; apply F. * eapply cm_entry; eassumption. * eapply cm_cut; eassumption.
    + rewrite (hello_carries body cert more now B C) in H. unfold certificate_from_raw in H. destruct (x509_from_raw cert) as [x|e|] eqn:X; [|discriminate|eapply cm_reader; eassumption].
      rewrite bind_Ok in H. destruct (Nat.ltb_spec (length more) 2); [eapply cm_extensions; eassumption|]. cbn [ct_x509 unwrap] in H. rewrite bind_Ok in H.
      destruct (is_valid (x_validity x) now) as [v|e|] eqn:V; [rewrite bind_Ok in H; destruct (negb v); discriminate|discriminate|].
      destruct (proj1 (dates_exact (E:=tls_error) (x_validity x)) (ex_intro _ now V)) as (t & T & N). eapply cm_dates; eassumption.
    + destruct (F now) as (e & F'). congruence.
  - intros [->|c rest E L|c context a b d rest E Lc N L|c context a b d e f g rest E Lc N L|cert more C X|cert more x C X L|cert more x t C X T N].
    + exists 0. reflexivity.
    + exists 0. apply fails_panic; [exact B|]. right. left. eauto.
    + exists 0. apply fails_panic; [exact B|]. right. right. left. eauto 12.
    + exists 0. apply fails_panic; [exact B|]. right. right. right. eauto 16.
    + exists 0. rewrite (hello_carries body cert more 0 B C). unfold certificate_from_raw. rewrite X. reflexivity.
    + exists 0. rewrite (hello_carries body cert more 0 B C). unfold certificate_from_raw. rewrite X, bind_Ok. destruct (Nat.ltb_spec (length more) 2); [reflexivity|lia].
    + destruct (proj2 (dates_exact (E:=tls_error) (x_validity x)) (ex_intro _ t (conj T N))) as (now & V). exists now. rewrite (hello_carries body cert more now B C). unfold certificate_from_raw.
      rewrite X, bind_Ok. destruct (Nat.ltb (length more) 2); [reflexivity|]. cbn [ct_x509 unwrap]. rewrite bind_Ok, V. reflexivity.
Qed.

(* the certificate that is kept *)
Lemma kept_carries body now c : is_bytes body -> certificates_from_hello body now = Ok [c] -> exists cert more x, carries body cert more /\ x509_from_raw cert = Ok x /\ c = Cert cert (Some x).
Proof.
  intros B H. destruct (frames body B) as [F|[(cert & more & C)|F]]; [rewrite fails_panic in H by assumption; discriminate| |destruct (F now) as (e & F'); congruence].
  rewrite (hello_carries body cert more now B C) in H. unfold certificate_from_raw in H. destruct (x509_from_raw cert) as [x|e|] eqn:X; [|discriminate..].
  exists cert, more, x. split; [exact C|]. split; [exact X|]. rewrite bind_Ok in H. destruct (Nat.ltb _ _); [discriminate|]. cbn [ct_x509 unwrap] in H. rewrite bind_Ok in H.
  apply bind_ok in H. destruct H as (v & _ & H). destruct (negb v); [discriminate|]. injection H as <-. reflexivity.
Qed.
Lemma key_cases {E} x : is_bytes (x_spki_key x) -> (exists k, X509.get_public_key (E:=E) x = Ok k /\ forall a b, k = Some (a, b) -> 0 <= a /\ 0 <= b) \/
  X509.get_public_key (E:=E) x = Panic /\ ai_algorithm (x_spki_alg x) = EcPublicKey /\ ai_parameters (x_spki_alg x) = Some Prime256v1 /\
    ~ exists coordinates, x_spki_key x = 4 :: coordinates /\ (64 <= length coordinates)%nat.
Proof.
  intros B. unfold X509.get_public_key. destruct (ai_algorithm (x_spki_alg x)); try (left; exists None; split; [reflexivity|discriminate]).
  destruct (ai_parameters (x_spki_alg x)) as [[]|]; try (left; exists None; split; [reflexivity|discriminate]).
  destruct (x_spki_key x) as [|b0 coords]; [right; split; [reflexivity|]; repeat (split; [reflexivity|]); intros (? & ? & _); discriminate|].
  rewrite idx0, bind_Ok. destruct (Z.eqb_spec b0 4) as [-> |N]; cbn [negb]; [|right; split; [reflexivity|]; repeat (split; [reflexivity|]); intros (? & H & _); injection H as ? ?; contradiction].
  destruct (Nat.leb_spec 64 (length coords)) as [L|L].
  - left. destruct (split_at 32 coords ltac:(lia)) as (p & l & -> & Lp). rewrite app_length in L. destruct (split_at 32 l ltac:(lia)) as (q & r & -> & Lq).
    inversion B as [|? ? _ B']; subst. apply is_bytes_app in B'. destruct B' as (Bp & B'). apply is_bytes_app in B'. destruct B' as (Bq & _).
    change (4 :: p ++ q ++ r) with ([4] ++ p ++ q ++ r). rewrite slice_mid by (cbn [length]; lia). rewrite bind_Ok, (app_assoc [4] p). rewrite slice_mid by (rewrite ?app_length; cbn [length]; lia). rewrite bind_Ok.
    eexists. split; [reflexivity|]. intros a b H1. injection H1 as <- <-. rewrite !to_ibig_be_val. split; now apply be_val_range.
  - right. split; [|repeat (split; [reflexivity|]); intros (r & H & ?); injection H as <-; lia].
    unfold slice. cbn [length]. destruct (Nat.leb_spec 65 (S (length coords))); [lia|]. rewrite (Bool.andb_false_r (Nat.leb 33 65)). destruct (Nat.leb 1 33 && Nat.leb 33 (S (length coords)))%bool; reflexivity.
Qed.

(* checking a signature with it *)
Lemma checks {E} c x sg th label : ct_x509 c = Some x -> is_bytes (x_spki_key x) -> is_certificate_valid (E:=E) c sg th label = Panic ->
  ai_algorithm (x_spki_alg x) = EcPublicKey /\ ai_parameters (x_spki_alg x) = Some Prime256v1 /\ ~ exists coordinates, x_spki_key x = 4 :: coordinates /\ (64 <= length coordinates)%nat.
Proof.
  intros X B H. unfold is_certificate_valid in H. rewrite X in H. cbn [unwrap] in H. rewrite bind_Ok in H. unfold certificate_key in H.
  destruct (key_cases (E:=E) x B) as [(k & K & P) | (_ & K)]; [|exact K]. exfalso. rewrite K, !bind_Ok in H. destruct k as [[a b]|]; [|discriminate].
  destruct (P a b eq_refl) as (A & A'). destruct (Auth.verify_key (F:=E) a b sg (verify_content label (Sha2.th_finalize th)) A A') as (v & Hv & _). congruence.
Qed.
Lemma unchecked {E} c x sg th label : ct_x509 c = Some x -> is_bytes (x_spki_key x) ->
  ai_algorithm (x_spki_alg x) = EcPublicKey -> ai_parameters (x_spki_alg x) = Some Prime256v1 -> ~ (exists coordinates, x_spki_key x = 4 :: coordinates /\ (64 <= length coordinates)%nat) ->
  is_certificate_valid (E:=E) c sg th label = Panic.
Proof.
  intros X B A P N. unfold is_certificate_valid. rewrite X. cbn [unwrap]. rewrite bind_Ok. unfold certificate_key.
  destruct (key_cases (E:=E) x B) as [(k & K & _) | (K & _)]; [|rewrite K; reflexivity]. exfalso. apply N. unfold X509.get_public_key in K. rewrite A, P in K. cbv zeta in K.
  destruct (x_spki_key x) as [|b0 r]; [discriminate|]. rewrite idx0, bind_Ok in K. destruct (Z.eqb_spec b0 4) as [-> |]; [|discriminate]. cbn [negb] in K.
  apply bind_ok in K. destruct K as (xs & _ & K). apply bind_ok in K. destruct K as (ys & K & _). apply slice_ok in K. exists r. split; [reflexivity|]. cbn [length] in K. lia.
Qed.
Lemma carries_bytes body cert more : is_bytes body -> carries body cert more -> is_bytes cert.
Proof.
  intros B (c & context & a & b & d & e & f & g & -> & _). apply Forall_cons_iff in B. destruct B as (_ & B). apply is_bytes_app in B. destruct B as (_ & B).
  do 6 (apply Forall_cons_iff in B; destruct B as (_ & B)). apply is_bytes_app in B. apply B.
Qed.
Lemma carries_fun body cert more cert' more' : carries body cert more -> carries body cert' more' -> cert = cert' /\ more = more'.
Proof.
  intros (c & context & a & b & d & e & f & g & -> & Lc & _ & Lk) (c' & context' & a' & b' & d' & e' & f' & g' & E & Lc' & _ & Lk'). injection E as -> E. unfold zlen in *.
  apply app_split in E; [|lia]. destruct E as (-> & E). injection E as -> -> -> -> -> -> E. apply app_split in E; [exact E|lia].
Qed.

(* the handlers of CertificateVerify, whatever the certificate *)
Lemma client_verify h c t body1 now raw body : cl_cert h = Some c -> cl_th h = Some t -> is_bytes body1 -> certificates_from_hello body1 now = Ok [c] -> is_bytes body ->
  snd (handle_server_certificate_verify h (Handshake HtCertificateVerify body raw)) = Panic -> verify_panics body \/ bad_key body1.
Proof.
  intros Hc Th B1 F B H. destruct (kept_carries body1 now c B1 F) as (cert & more & x & C & X & ->).
  unfold handle_server_certificate_verify in H. rewrite Hc in H. cbn [hs_type hs_fraqment] in H. change (negb (ht_eqb HtCertificateVerify HtCertificateVerify)) with false in H. cbv iota in H.
  destruct (VerifyPanics.verify_cases body B) as [V|[(e & V)|(b1 & V1 & [(e & V2)|(V2 & rest & b2 & V3 & V4 & V5)])]]; [left; exact V|rewrite V in H; discriminate|rewrite V1, ServerAccept.sbind_Ok, V2 in H; discriminate|].
  right. rewrite V1, ServerAccept.sbind_Ok, V2, ServerAccept.sbind_Ok, V3, ServerAccept.sbind_Ok in H. destruct (sig_from_der rest) as [[sg size]|e|]; [|discriminate|congruence].
  rewrite Th in H. cbn [unwrap] in H. rewrite ServerAccept.sbind_Ok in H.
  destruct (is_certificate_valid (E:=tls_error) (Cert cert (Some x)) sg t l_server) as [v|e|] eqn:Hv.
  - exfalso. rewrite ServerAccept.sbind_Ok in H. destruct (negb v); [discriminate|]. cbv zeta in H. rewrite V4, ServerAccept.sbind_Ok in H. match type of H with context [if ?x then _ else _] => destruct x end; cbn [snd] in H; discriminate.
  - discriminate.
  - exists cert, more, x. split; [exact C|]. split; [exact X|]. apply (checks (E:=tls_error) (Cert cert (Some x)) x sg t l_server eq_refl); [|exact Hv].
    apply (X509Bytes.x509_key_bytes cert x); [now apply (carries_bytes body1 cert more)|exact X].
Qed.
Lemma server_verify h m hs c t body1 now : handshake_from_raw m = Ok hs -> hs_type hs = HtCertificateVerify -> sv_cert h = Some c -> sv_th h = Some t -> is_bytes body1 ->
  certificates_from_hello body1 now = Ok [c] -> is_bytes (hs_fraqment hs) ->
  snd (handle_client_certificate_verify h m) = Panic -> verify_panics (hs_fraqment hs) \/ bad_key body1.
Proof.
  intros F0 T Hc Th B1 F B H. destruct (kept_carries body1 now c B1 F) as (cert & more & x & C & X & ->).
  unfold handle_client_certificate_verify in H. rewrite F0, ServerAccept.sbind_Ok, Hc, T in H. change (negb (ht_eqb HtCertificateVerify HtCertificateVerify)) with false in H. cbv iota in H. set (body := hs_fraqment hs) in *. clearbody body.
  destruct (VerifyPanics.verify_cases body B) as [V|[(e & V)|(b1 & V1 & [(e & V2)|(V2 & rest & b2 & V3 & V4 & V5)])]]; [left; exact V|rewrite V in H; discriminate|rewrite V1, ServerAccept.sbind_Ok, V2 in H; discriminate|].
  right. rewrite V1, ServerAccept.sbind_Ok, V2, ServerAccept.sbind_Ok, V3, ServerAccept.sbind_Ok in H. destruct (sig_from_der rest) as [[sg size]|e|]; [|discriminate|congruence].
  rewrite Th in H. cbn [unwrap] in H. rewrite ServerAccept.sbind_Ok in H.
  destruct (is_certificate_valid (E:=tls_error) (Cert cert (Some x)) sg t l_client) as [v|e|] eqn:Hv.
  - exfalso. rewrite ServerAccept.sbind_Ok in H. destruct (negb v); [discriminate|]. rewrite V4, ServerAccept.sbind_Ok in H. match type of H with context [if ?x then _ else _] => destruct x end; cbn [snd] in H; discriminate.
  - discriminate.
  - exists cert, more, x. split; [exact C|]. split; [exact X|]. apply (checks (E:=tls_error) (Cert cert (Some x)) x sg t l_client eq_refl); [|exact Hv].
    apply (X509Bytes.x509_key_bytes cert x); [now apply (carries_bytes body1 cert more)|exact X].
Qed.
(* after such a certificate every signature that is read makes it panic *)
Lemma client_bad_key h c t body1 now raw body l1 l2 der sg : cl_cert h = Some c -> cl_th h = Some t -> is_bytes body1 -> certificates_from_hello body1 now = Ok [c] -> bad_key body1 ->
  body = 4 :: 3 :: l1 :: l2 :: der -> sig_from_der der = Ok sg -> snd (handle_server_certificate_verify h (Handshake HtCertificateVerify body raw)) = Panic.
Proof.
  intros Hc Th B1 F (cert' & more' & x' & C' & X' & A & P & N) -> S. destruct (kept_carries body1 now c B1 F) as (cert & more & x & C & X & ->).
  destruct (carries_fun _ _ _ _ _ C C') as (<- & _). assert (x' = x) as -> by congruence.
  unfold handle_server_certificate_verify. rewrite Hc. cbn [hs_type hs_fraqment]. change (negb (ht_eqb HtCertificateVerify HtCertificateVerify)) with false. cbv iota.
  change (slice (4 :: 3 :: l1 :: l2 :: der) 0 2) with (Ok (E:=tls_error) [4; 3]). rewrite ServerAccept.sbind_Ok. change (sig_scheme_new (to_u16 [4; 3])) with (Ok (E:=tls_error) ecdsa_secp256r1_sha256). rewrite ServerAccept.sbind_Ok.
  change (slice_from (4 :: 3 :: l1 :: l2 :: der) 4) with (Ok (E:=tls_error) der). rewrite ServerAccept.sbind_Ok, S. destruct sg as [sg size]. rewrite Th. cbn [unwrap]. rewrite ServerAccept.sbind_Ok.
  rewrite (unchecked (Cert cert (Some x)) x sg t l_server eq_refl); [reflexivity| |assumption..].
  apply (X509Bytes.x509_key_bytes cert x); [now apply (carries_bytes body1 cert more)|exact X].
Qed.

(* whatever the certificate, these panic *)
Lemma client_falls h c raw body : cl_cert h = Some c -> is_bytes body -> verify_panics body ->
  snd (handle_server_certificate_verify h (Handshake HtCertificateVerify body raw)) = Panic.
Proof.
  intros Hc B V. unfold handle_server_certificate_verify. rewrite Hc. cbn [hs_type hs_fraqment]. change (negb (ht_eqb HtCertificateVerify HtCertificateVerify)) with false. cbv iota.
  destruct (VerifyPanics.verify_falls body B V) as [-> |(b1 & -> & F)]; [reflexivity|]. rewrite ServerAccept.sbind_Ok. destruct F as [-> |[-> |(-> & F)]]; rewrite ServerAccept.sbind_Ok; [reflexivity|reflexivity|].
  destruct F as [-> |(rest & -> & F)]; [reflexivity|]. rewrite ServerAccept.sbind_Ok, F. reflexivity.
Qed.

(* a proper Certificate message has none of these faults *)
Lemma proper_fine body : is_bytes body -> Spec.Proper.proper_certificate body -> ~ certificate_message_panics body.
Proof.
  intros B P H. apply (certificate_exact body B) in H. destruct H as (now & H). destruct (Proper.from_hello_proper body now P) as [(e & F)|(c & F & _)]; congruence.
Qed.

(* what the server checks of it *)
Lemma signed_total ca c x raw : c = Cert raw (Some x) -> (exists y k, ct_x509 ca = Some y /\ 0 <= fst k /\ 0 <= snd k /\ X509.get_public_key (E:=tls_error) y = Ok (Some k)) ->
  has_signed ca c = Panic -> zlen raw < 4 + Z.of_nat (x_tbs_size x).
Proof.
  intros -> (y & (a & b) & Y & A & B & K) H. cbn [fst snd] in A, B. unfold has_signed in H. rewrite Y in H. cbn [ct_x509 ct_raw] in H. unfold certificate_key in H. rewrite K, !bind_Ok in H. cbn [unwrap] in H. rewrite bind_Ok in H.
  destruct (x_signature x) as [[r s]|]; [|discriminate]. destruct (signed_part (E:=tls_error) raw x) as [part|e|] eqn:S.
  - rewrite bind_Ok in H. destruct (Auth.verify_key (F:=tls_error) a b {| sg_r := r; sg_s := s |} part A B) as (v & Hv & _). rewrite Hv, bind_Ok in H. destruct v; discriminate.
  - discriminate.
  - unfold signed_part, slice in S. destruct (Nat.leb_spec 4 (4 + x_tbs_size x)); [|lia]. destruct (Nat.leb_spec (4 + x_tbs_size x) (length raw)); [discriminate|]. unfold zlen. lia.
Qed.
Lemma signed_exact ca raw x : (exists y k, ct_x509 ca = Some y /\ 0 <= fst k /\ 0 <= snd k /\ X509.get_public_key (E:=tls_error) y = Ok (Some k)) ->
  (has_signed ca (Cert raw (Some x)) = Panic <-> x_signature x <> None /\ zlen raw < 4 + Z.of_nat (x_tbs_size x)).
Proof.
  intros K. split.
  - intros H. split; [|exact (signed_total ca _ x raw eq_refl K H)]. intros S. destruct K as (y & (a & b) & Y & A & B & K).
    unfold has_signed in H. rewrite Y in H. cbn [ct_x509 ct_raw] in H. unfold certificate_key in H. rewrite K, !bind_Ok in H. cbn [unwrap] in H. rewrite bind_Ok, S in H. discriminate.
  - intros (S & L). destruct K as (y & (a & b) & Y & A & B & K). unfold has_signed. rewrite Y. cbn [ct_x509 ct_raw]. unfold certificate_key. rewrite K, !bind_Ok. cbn [unwrap]. rewrite bind_Ok.
    destruct (x_signature x) as [[r s]|]; [|congruence]. unfold signed_part. rewrite slice_past; [reflexivity|]. unfold zlen in L. lia.
Qed.
