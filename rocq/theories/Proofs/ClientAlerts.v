(* What the client sends when a handshake fails *)
From Verif Require Import Proofs.Util Proofs.Bytes Model.Alert Model.Bytes Model.Suite Model.Sha2 Model.Hmac Model.KeySchedule Model.Record Model.Channel
  Model.Curve Model.Signature Model.Ecdsa Model.X509 Model.Extensions Model.Hello Model.Kex Model.Handshake Model.Certificate
  Model.Stream Model.Keylog Model.Server Model.Client Spec.Alerts Spec.Tls13Record Spec.Endpoints Spec.Connection.
From Verif Require Spec.Handshaking Spec.ClientConnection Spec.ClientAccept Proofs.ClientAccept2.
From Verif Require Import Proofs.Record Proofs.Stream Proofs.ServerRun Proofs.ServerKeys Proofs.ServerFlow Proofs.ServerAccept Proofs.ServerAccept2 Proofs.Reads Proofs.Alerting Proofs.ClientReads.

Local Opaque handshake_from_raw server_hello_from_raw suite_tshash suite_cipher
  from_handshake rpp_new certificate_verify_for_handshake finished_handshake th_update certificate_for_handshake
  append_handshake_traffic_secrets rpp_encrypt rpp_decrypt certificates_from_hello has_signed sig_from_der is_certificate_valid
  sig_scheme_new verify_data_for_finished generate_application_keys append_from_protection list_eqb slice slice_from to_u16 record_from_raw
  server_public_key_share from_request_exts idx keylog_new.

Definition tc (n : Z) (h : client_hs) : Prop := talk true n (cl_stream h).
Lemma tc_mono n m h : tc n h -> n <= m -> tc m h.
Proof. apply talk_mono. Qed.
Lemma tc_write n h t data h' o : tc n h -> n + 1 < 2^64 -> cl_write h t data = (h', o) -> tc (n + 1) h'.
Proof.
  unfold cl_write, tc. intros T H E. pose proof (talk_write _ _ _ t data T H) as X. destruct (write_record _ _ _). injection E as <- _. exact X.
Qed.
Lemma tc_flush n h h' o : tc n h -> cl_flush h = (h', o) -> tc n h'.
Proof. unfold cl_flush, flush, tc, talk. intros T E. destruct (write_all _ _) as [so' []]; injection E as <- _; exact T. Qed.

(* a result: usable for an alert; after a success not used before, or ready *)
Definition fine (x : client_hs * outcome tls_error unit) : Prop :=
  tc 4 (fst x) /\ (forall u, snd x = Ok u -> cl_state (fst x) = CsReady \/ tc 0 (fst x)).
Lemma fine_same h h' o : tc 0 h -> cl_stream h' = cl_stream h -> fine (h', o).
Proof. unfold fine, tc. cbn [fst snd]. intros T ->. split; [eapply talk_mono; [exact T|lia]|]. intros _ _. now right. Qed.
Lemma fine_bind {A} h (o : outcome tls_error A) k : tc 0 h -> (forall a, o = Ok a -> fine (k h a)) -> fine (let@ (h, a) := (h, o) in k h a).
Proof. intros T K. destruct o as [a|e|]; cbn [sbind]; [now apply K| |]; (split; [eapply tc_mono; [exact T|lia]|discriminate]). Qed.
Lemma late_bind {A} n h (o : outcome tls_error A) k : tc n h -> n <= 4 -> (forall a, o = Ok a -> fine (k h a)) -> fine (let@ (h, a) := (h, o) in k h a).
Proof. intros T L K. destruct o as [a|e|]; cbn [sbind]; [now apply K| |]; (split; [eapply tc_mono; [exact T|lia]|discriminate]). Qed.
Lemma step_bind {A} n (m : client_hs * outcome tls_error A) k : tc n (fst m) -> n <= 4 -> (forall h a, m = (h, Ok a) -> fine (k h a)) -> fine (sbind m k).
Proof. intros T L K. destruct m as [h [a|e|]]; cbn [sbind fst] in *; [now apply K| |]; (split; [eapply tc_mono; [exact T|lia]|discriminate]). Qed.

Lemma hello_fine cfg h rec : st_protection (cl_stream h) = None -> fine (handle_server_hello cfg h rec).
Proof.
  intros N. assert (T : tc 0 h) by (unfold tc, talk; now rewrite N). unfold handle_server_hello.
  apply fine_bind; [exact T|]. intros hs _. destruct (negb _); [now apply (fine_same h)|].
  apply fine_bind; [exact T|]. intros sh _. apply fine_bind; [exact T|]. intros th _. apply fine_bind; [exact T|]. intros he _.
  destruct (server_public_key_share _) as [entry|]; [|now apply (fine_same h)].
  apply fine_bind; [exact T|]. intros ks _. apply fine_bind; [exact T|]. intros c Ec. apply fine_bind; [exact T|]. intros p Ep.
  assert (K : forall h', fine (cl_with_state (cl_with_th (cl_with_protection h' p) (th_update (th_update th he) (r_fragment rec))) CsEncryptedExtensions, Ok tt)).
  { intros h'. assert (T0 : tc 0 (cl_with_state (cl_with_th (cl_with_protection h' p) (th_update (th_update th he) (r_fragment rec))) CsEncryptedExtensions)).
    { unfold tc, talk. cbn. destruct p as [p|]; [|exact I]. eapply new_speaks; [|exact Ep]. eexists; exact Ec. }
    split; [eapply tc_mono; [exact T0|lia]|]. intros _ _. now right. }
  destruct (cc_keylog cfg) as [path|]; [destruct p as [p|]|]; cbn [sbind]; try apply K.
  destruct (cl_random h) as [random|]; cbn [unwrap sbind]; [apply K|]. split; [eapply tc_mono; [exact T|lia]|discriminate].
Qed.
Lemma request_fine cfg e h : tc 0 h -> tc 3 (fst (handle_certificate_request cfg e h)) /\ (forall h' u, handle_certificate_request cfg e h = (h', Ok u) -> tc 2 h').
Proof.
  intros T. set (R := handle_certificate_request cfg e h). assert (X : tc 2 (fst R)).
  2:{ split; [eapply tc_mono; [exact X|lia]|]. intros h' u E. rewrite E in X. exact X. }
  unfold R, handle_certificate_request. clear R. assert (T2 := tc_mono 0 2 h T ltac:(lia)).
  assert (B : forall A B (o : outcome tls_error A) (k : client_hs -> A -> client_hs * outcome tls_error B) h0, tc 2 h0 -> (forall a, o = Ok a -> tc 2 (fst (k h0 a))) -> tc 2 (fst (let@ (h, a) := (h0, o) in k h a))).
  { intros A B [a|er|] k h0 T0 K; cbn [sbind fst]; [now apply K|exact T0|exact T0]. }
  apply B; [exact T2|]. intros request _. apply B; [exact T2|]. intros b0 _. apply B; [exact T2|]. intros context _. apply B; [exact T2|]. intros b _. apply B; [exact T2|]. intros b' _.
  apply (sbind_pres (tc 2)); [destruct (from_request_exts b'); exact T2|]. intros h0 u0 E0. assert (h0 = h) as -> by (destruct (from_request_exts b'); congruence). clear E0 u0.
  assert (T2' : forall h1, tc 1 h1 -> tc 2 h1) by (intros h1 T1; exact (tc_mono 1 2 _ T1 ltac:(lia))).
  apply (sbind_pres (tc 2)).
  { match goal with |- context [cl_write ?x RHandshake ?raw] => destruct (cl_write x RHandshake raw) as [h1 o1] eqn:E1 end. apply T2'. exact (tc_write 0 _ _ _ _ _ T ltac:(lia) E1). }
  intros h1 u1 E1. pose proof (tc_write 0 _ _ _ _ _ T ltac:(lia) E1) as T1. change (0 + 1) with 1 in T1. clear E1.
  apply B; [now apply T2'|]. intros th _. cbv zeta.
  set (h3 := cl_with_th h1 _). assert (T3 : tc 1 h3) by exact T1. clearbody h3.
  assert (Q : forall x : client_hs * outcome tls_error unit, tc 2 (fst x) -> tc 2 (fst (let@ (h, _) := x in (cl_with_state h CsServerCertificate, Ok tt))))
    by (intros [x [ux|ex|]]; cbn [sbind fst]; auto). apply Q.
  destruct (cc_cert cfg) as [c|]; [|now apply T2']. destruct (cc_key cfg) as [key|]; [|now apply T2'].
  apply B; [now apply T2'|]. intros cv _. apply B; [now apply T2'|]. intros cv' _.
  match goal with |- context [cl_write ?h2 RHandshake ?raw] => destruct (cl_write h2 RHandshake raw) as [h4 o4] eqn:E4; assert (T4 : tc 1 h2) by exact T3 end.
  exact (tc_write 1 _ _ _ _ _ T4 ltac:(lia) E4).
Qed.
Lemma finish_fine cfg e h hs : tc 0 h -> fine (handle_server_finish cfg e h hs).
Proof.
  intros T. unfold handle_server_finish. destruct (negb _); [destruct (cl_state h); now apply (fine_same h)|].
  apply fine_bind; [exact T|]. intros p _. apply fine_bind; [exact T|]. intros th _. apply fine_bind; [exact T|]. intros vd _.
  assert (X : fine (if negb (list_eqb (hs_fraqment hs) vd) then (h, Err DecryptError)
      else let h := cl_with_th h (th_update th (hs_raw hs)) in
        let@ (h, _) := match cl_request h with Some _ => handle_certificate_request cfg e h | None => (h, Ok tt) end in
        let@ (h, p) := (h, unwrap (st_protection (cl_stream h))) in
        let@ (h, th0) := (h, unwrap (cl_th h)) in
        let@ (h, finished) := (h, finished_handshake (ks_client_hs (rp_schedule p)) th0) in
        let@ (h, _) := cl_write h RHandshake finished in
        let@ (h, _) := cl_flush h in
        let@ (h, p) := (h, unwrap (st_protection (cl_stream h))) in
        let (p', r) := generate_application_keys p (th_update th (hs_raw hs)) in
        let@ (h, _) := (cl_with_protection h (Some p'), r) in
        let h := match cl_keylog h with Some k => cl_append_log h (append_from_protection k p') | None => h end in
        (cl_with_state h CsReady, Ok tt))).
  { destruct (negb _); [now apply (fine_same h)|]. cbv zeta. set (h0 := cl_with_th h _). assert (T0 : tc 0 h0) by exact T. clearbody h0.
    assert (Y : exists h1 o1, match cl_request h0 with Some _ => handle_certificate_request cfg e h0 | None => (h0, Ok tt) end = (h1, o1) /\ tc 3 h1 /\ (forall u, o1 = Ok u -> tc 2 h1)).
    { destruct (cl_request h0); [|exists h0, (Ok tt); split; [reflexivity|]; split; [exact (tc_mono 0 3 _ T0 ltac:(lia))|intros _ _; exact (tc_mono 0 2 _ T0 ltac:(lia))]].
      destruct (request_fine cfg e h0 T0) as (A & B). destruct (handle_certificate_request cfg e h0) as [h1 o1]. exists h1, o1. split; [reflexivity|]. split; [exact A|]. intros u ->. eapply B. reflexivity. }
    destruct Y as (h1' & o1 & -> & T1 & T2'). apply (step_bind 3); [exact T1|lia|]. intros h1 u E1. assert (T2 : tc 2 h1) by (injection E1 as -> ->; exact (T2' _ eq_refl)). clear E1 T2' T1.
    apply (late_bind 2); [exact T2|lia|]. intros p1 _. apply (late_bind 2); [exact T2|lia|]. intros th1 _. apply (late_bind 2); [exact T2|lia|]. intros fin _.
    destruct (cl_write h1 RHandshake fin) as [h2' o2] eqn:E2. pose proof (tc_write 2 _ _ _ _ _ T2 ltac:(lia) E2) as T3'. change (2 + 1) with 3 in T3'.
    apply (step_bind 3); [exact T3'|lia|]. intros h2 u2 E2'. assert (T3 : tc 3 h2) by congruence.
    destruct (cl_flush h2) as [h3' o3] eqn:E3. pose proof (tc_flush _ _ _ _ T3 E3) as T4'.
    apply (step_bind 3); [exact T4'|lia|]. intros h3 u3 E3'. assert (T4 : tc 3 h3) by congruence.
    apply (late_bind 3); [exact T4|lia|]. intros p4 Ep. unfold tc, talk in T4. destruct (st_protection (cl_stream h3)) as [p3|] eqn:P3; [|discriminate].
    cbn [unwrap] in Ep. apply Ok_inj in Ep. subst p4. destruct (generate_application_keys p3 _) as [p' r] eqn:G. destruct (application_speaks _ _ _ _ _ _ T4 G) as (T5 & ->). cbn [sbind].
    split; [|intros _ _; left; reflexivity]. cbn [fst]. unfold tc, talk. destruct (cl_keylog _); cbn; exact (speaks_mono _ 3 4 _ T5 ltac:(lia)). }
  destruct (cl_state h); try exact X. now apply (fine_same h).
Qed.
Lemma message_fine cfg e now h hs : tc 0 h -> fine (handle_message cfg e now h hs).
Proof.
  intros T. unfold handle_message.
  assert (C : fine (handle_server_certificate now h hs)).
  { unfold handle_server_certificate. destruct (negb _); [now apply (fine_same h)|]. apply fine_bind; [exact T|]. intros th _. destruct (certificates_from_hello _ _); try now apply (fine_same h).
    apply fine_bind; [exact T|]. intros c _. now apply (fine_same h). }
  assert (Q : fine (if ht_eqb (hs_type hs) HtCertificateRequest then let@ (h0, th) := (cl_with_request h (hs_fraqment hs), unwrap (cl_th (cl_with_request h (hs_fraqment hs)))) in (cl_with_state (cl_with_th h0 (th_update th (hs_raw hs))) CsServerCertificate, Ok tt) else handle_server_certificate now h hs)).
  { destruct (ht_eqb _ _); [|exact C]. apply fine_bind; [exact T|]. intros th _. now apply (fine_same h). }
  destruct (cl_state h) eqn:St; try exact Q; try (now apply finish_fine); try (now apply (fine_same h)).
  - unfold handle_encrypted_extension. destruct (negb _); [now apply (fine_same h)|]. apply fine_bind; [exact T|]. intros th _. now apply (fine_same h).
  - unfold handle_server_certificate_verify. destruct (cl_cert h); [|now apply (fine_same h)]. destruct (negb _); [now apply (fine_same h)|].
    apply fine_bind; [exact T|]. intros b _. apply fine_bind; [exact T|]. intros al _. destruct al; try now apply (fine_same h).
    apply fine_bind; [exact T|]. intros rest _. destruct (sig_from_der rest) as [[sg size]|er|]; try now apply (fine_same h).
    apply fine_bind; [exact T|]. intros th _. apply fine_bind; [exact T|]. intros v _. destruct (negb v); [now apply (fine_same h)|].
    apply fine_bind; [exact T|]. intros b2 _. destruct (negb _); now apply (fine_same h).
Qed.
Definition unused (h : client_hs) : Prop := tc 4 h /\ (cl_state h = CsReady \/ tc 0 h).
Lemma messages_fine cfg e now fuel : forall h buf, unused h -> fine (client_messages fuel cfg e now h buf).
Proof.
  assert (F0 : forall h o, unused h -> fine (h, o)) by (intros h o (A & B); split; [exact A|intros _ _; exact B]).
  induction fuel as [|fuel IH]; intros h buf U; cbn [client_messages]; (destruct buf as [|b buf]; [now apply F0|]); [now apply F0|].
  destruct (handshake_from_raw (b :: buf)) as [hs|er|]; cbn [sbind]; [|now apply F0..].
  assert (M : fine (handle_message cfg e now h hs)).
  { destruct U as (A & [St|T0]); [|now apply message_fine]. unfold handle_message. rewrite St. apply F0. split; [exact A|now left]. }
  destruct (handle_message cfg e now h hs) as [h1 [u|er|]]; cbn [sbind]; [|exact M..]. apply IH. destruct M as (A & B). split; [exact A|exact (B _ eq_refl)].
Qed.
Definition cfresh (h : client_hs) : Prop := unused h /\ (cl_state h = CsServerHello -> st_protection (cl_stream h) = None).
Lemma record_fine cfg e now h rec : cfresh h -> fine (client_record cfg e now h rec).
Proof.
  intros (U & N). assert (F0 : forall o, fine (h, o)) by (intros o; destruct U as (A & B); split; [exact A|intros _ _; exact B]).
  assert (X : cl_state h <> CsReady -> fine (client_encrypted_record cfg e now h rec)).
  { intros NR. assert (T : tc 0 h) by (destruct U as (_ & [St|T]); [contradiction|exact T]). unfold client_encrypted_record. apply fine_bind; [exact T|]. intros p Ep.
    unfold tc, talk in T. destruct (st_protection (cl_stream h)) as [q|] eqn:P; [|discriminate]. cbn [unwrap] in Ep. apply Ok_inj in Ep. subst q.
    destruct (rpp_decrypt p rec) as [p' r] eqn:D. pose proof (speaks_decrypt _ _ _ _ _ _ T D) as T'. assert (T1 : tc 0 (cl_with_protection h (Some p'))) by exact T'.
    apply fine_bind; [exact T1|]. intros [t content] _. destruct t; try (now apply (fine_same (cl_with_protection h (Some p')))).
    - apply fine_bind; [exact T1|]. intros c _. now apply (fine_same (cl_with_protection h (Some p'))).
    - apply messages_fine. split; [exact (tc_mono 0 4 _ T1 ltac:(lia))|right; exact T1]. }
  assert (Y : fine (match cl_state h with CsServerHello => match r_type rec with RHandshake => handle_server_hello cfg h rec | _ => (h, Err UnexpectedMessage) end
      | CsReady => (h, Ok tt) | _ => client_encrypted_record cfg e now h rec end)).
  { destruct (cl_state h) eqn:St; try (apply X; congruence); [|apply F0]. destruct (r_type rec); try apply F0. apply hello_fine. now apply N. }
  unfold client_record. destruct (r_type rec); try exact Y.
  - destruct (cl_state h); apply F0.
  - destruct (idx (r_fragment rec) 1); apply F0.
Qed.
Lemma record_cfresh cfg e now h rec h' u : idle h -> cfresh h -> client_record cfg e now h rec = (h', Ok u) -> cfresh h' /\ idle h'.
Proof.
  intros I F E. pose proof (record_fine cfg e now h rec F) as (A & B). rewrite E in A, B. destruct (record_step _ _ _ _ _ _ _ E I) as (I' & M'). split; [|exact I'].
  split; [split; [exact A|exact (B _ eq_refl)]|]. intros St. contradiction.
Qed.
Lemma records_fine cfg e now rx fuel : forall h d off, idle h -> cfresh h ->
  tc 4 (fst (fst (client_records fuel cfg e now h rx d off))) /\
  (forall h' d' u, client_records fuel cfg e now h rx d off = ((h', d'), Ok u) -> cfresh h' /\ idle h').
Proof.
  induction fuel as [|fuel IH]; intros h d off I F; cbn [client_records].
  - destruct (negb _); cbn [fst]; (split; [apply F|]); intros h' d' u E; [injection E as <- _ _; split; assumption|discriminate].
  - destruct (negb _); cbn [fst]; [split; [apply F|]; intros h' d' u E; injection E as <- _ _; split; assumption|].
    destruct (match d with [] => slice_from rx off | _ => slice_from d off end) as [buf|er|]; cbn [sbind fst snd]; [|split; [apply F|discriminate]..].
    destruct (record_from_raw buf) as [[n rec]|er|]; cbn [fst snd]; [|split; [apply F|]; intros h' d' u E; injection E as <- _ _; split; assumption|split; [apply F|discriminate]].
    pose proof (record_fine cfg e now h rec F) as (A & _). destruct (client_record cfg e now h rec) as [h1 [u|er|]] eqn:E; cbn [fst] in *; [|split; [exact A|discriminate]..].
    destruct (record_cfresh _ _ _ _ _ _ _ I F E) as (F1 & I1). destruct (Nat.eqb _ _); [cbn [fst]; split; [exact A|]; intros h' d' u' E'; injection E' as <- _ _; split; assumption|]. now apply IH.
Qed.
Lemma reads_fine cfg e now : forall reads h d, idle h -> cfresh h -> tc 4 (fst (client_reads cfg e now h d reads)).
Proof.
  induction reads as [|chunk reads IH]; intros h d I F; cbn [client_reads].
  - destruct (cl_state h); apply F.
  - assert (X : tc 4 (fst (match tcp_read chunk with
        | Ok rx => let d := match d with [] => [] | _ => d ++ rx end in
            match client_records (S (length rx + length d)) cfg e now h rx d 0 with
            | ((h, d), Ok _) => match cl_flush h with (h, Ok _) => client_reads cfg e now h d reads | (h, o) => (h, Some o) end
            | ((h, _), o) => (h, Some o) end
        | Err er => (h, Some (Err er)) | Panic => (h, Some Panic) end))).
    { destruct (tcp_read chunk) as [rx|er|]; [|apply F..]. cbv zeta. set (d1 := match d with [] => [] | _ => d ++ rx end).
      destruct (records_fine cfg e now rx (S (length rx + length d1)) h d1 0%nat I F) as (A & B). destruct (client_records _ _ _ _ _ _ _ _) as [[h1 d2] [u|er|]]; cbn [fst] in *; [|exact A..].
      destruct (B _ _ _ eq_refl) as (F1 & I1). rewrite flush_idle by assumption. now apply IH. }
    destruct (cl_state h); try exact X; apply F.
Qed.
Lemma connect_talk cfg e now so reads : tc 4 (fst (client_do_handshake cfg e now (client_new e so) reads)).
Proof.
  unfold client_do_handshake. destruct (send_client_hello cfg e (client_new e so)) as [h0 [u|er|]] eqn:S.
  - apply hello_idle in S. destruct S as (I & St & N). apply reads_fine; [exact I|]. assert (T0 : forall n, tc n h0) by (intros n; unfold tc, talk; now rewrite N).
    split; [split; [apply T0|right; apply T0]|]. intros _. exact N.
  - cbn [fst]. unfold tc, talk. enough (st_protection (cl_stream h0) = None) as -> by exact I. revert S. unfold send_client_hello.
    destruct (client_hello_of _ _ _ _); cbn [sbind]; [|intros [= <- _]; reflexivity|discriminate]. destruct (client_hello_bytes _); cbn [sbind]; [|intros [= <- _]; reflexivity|discriminate].
    unfold tcp_write. destruct (write_all _ _) as [so' [|]]; cbn [sbind]; [discriminate|intros [= <- _]; reflexivity].
  - cbn [fst]. unfold tc, talk. enough (st_protection (cl_stream h0) = None) as -> by exact I. revert S. unfold send_client_hello.
    destruct (client_hello_of _ _ _ _); cbn [sbind]; [|discriminate|intros [= <-]; reflexivity]. destruct (client_hello_bytes _); cbn [sbind]; [|discriminate|intros [= <-]; reflexivity].
    unfold tcp_write. destruct (write_all _ _) as [so' [|]]; cbn [sbind]; discriminate.
Qed.
Lemma connect_error cfg e now so reads h o : connect cfg e now so reads = (h, Some o) -> o <> Ok tt -> o <> Panic ->
  exists h0 er, client_do_handshake cfg e now (client_new e so) reads = (h0, Some (Err er)) /\
    (rfc8446_code er = None -> cl_stream h = cl_stream h0 /\ o = Err (reported er)) /\
    (rfc8446_code er <> None -> exists w, alert_record (st_protection (cl_stream h0)) (alert_level er) (error_as_u8 er) w /\
      ((so_sent (st_sock (cl_stream h)) = so_sent (st_sock (cl_stream h0)) ++ w /\ o = Err er) \/
       (exists k, so_left (st_sock (cl_stream h0)) = Some k /\ (k < length w)%nat /\
          so_sent (st_sock (cl_stream h)) = so_sent (st_sock (cl_stream h0)) ++ firstn k w /\ o = Err BrokenPipe))).
Proof.
  unfold connect. pose proof (connect_talk cfg e now so reads) as T.
  destruct (client_do_handshake cfg e now (client_new e so) reads) as [h0 [[[]|er|]|]]; intros A N1 N2; try congruence.
  cbn [fst] in T. destruct (report_error (cl_stream h0) er) as [s r] eqn:R. injection A as <- <-. exists h0, er. split; [reflexivity|].
  exact (report_spec _ _ _ _ _ _ T ltac:(lia) R).
Qed.

Lemma delivers_one r : Spec.Handshaking.delivers [r] [wire r].
Proof. rewrite wire1. apply (Spec.Handshaking.delivers_whole [r] [] []); [discriminate|constructor]. Qed.
Lemma report_fails s er s' : report_error s er <> (s', Ok tt).
Proof. unfold report_error. destruct (is_official er); cbn [sbind]; [destruct (write_alert _ _) as [? [| |]]|]; discriminate. Qed.
Lemma second_hello cfg e now so h1 hello rest h : connect cfg e now so [wire hello] = (h1, None) -> parses hello ->
  r_type hello = RHandshake -> connect cfg e now so ([wire hello] ++ wire hello :: rest) = (h, Some (Ok tt)) ->
  exists p p' content, st_protection (cl_stream h1) = Some p /\ rpp_decrypt p hello = (p', Ok (RHandshake, content)).
Proof.
  intros H P T E. destruct (waiting cfg e now so [hello] [wire hello] h1 (delivers_one hello) ltac:(repeat constructor; assumption)) as (I & St & M & h0 & u & _ & _ & X);
    [repeat constructor; unfold no_alert; congruence|exact H|]. specialize (M ltac:(discriminate)). rewrite X in E. rewrite (wire1 hello) in E.
  rewrite reads_group in E; try assumption; [|discriminate|now repeat constructor]. cbn [csteps] in E.
  assert (R : client_record cfg e now h1 hello = client_encrypted_record cfg e now h1 hello) by (unfold client_record; rewrite T; unfold met in M; destruct (cl_state h1); try reflexivity; contradiction).
  rewrite R in E. unfold client_encrypted_record in E. destruct (st_protection (cl_stream h1)) as [p|]; [|discriminate]. cbn [unwrap] in E. rewrite sbind_Ok in E.
  exists p. destruct (rpp_decrypt p hello) as [p' [[t content]|er|]]; [| |discriminate].
  - exists p', content. split; [reflexivity|]. destruct t; try reflexivity; exfalso; cbn [sbind then_reads] in E.
    all: try (destruct (idx content 1) as [c|ec|]; cbn [sbind then_reads] in E); try discriminate E;
      match type of E with (let (_, _) := ?x in _) = _ => destruct x as [s r] eqn:Rp end; injection E as _ ->; exact (report_fails _ _ _ Rp).
  - cbn [sbind then_reads] in E. destruct (report_error _ er) as [s r] eqn:Rp in E. injection E as _ ->. destruct (report_fails _ _ _ Rp).
Qed.
Lemma early_ccs cfg e now so h0 ccs more rest : connect cfg e now so [] = (h0, None) -> so_left (st_sock (cl_stream h0)) = None -> parses ccs -> is_ccs ccs = true ->
  exists h, connect cfg e now so ((wire ccs ++ more) :: rest) = (h, Some (Err UnexpectedMessage)) /\
    so_sent (st_sock (cl_stream h)) = so_sent (st_sock (cl_stream h0)) ++ [21; 3; 3; 0; 2; 2; 10].
Proof.
  intros H L P C. apply connect_none in H. destruct H as (h & u & S & H). destruct (hello_idle _ _ _ _ _ S) as (I & St & N). cbn [client_reads] in H. rewrite St in H. injection H as <-.
  unfold connect, client_do_handshake. rewrite S. destruct (parse_at ccs more P) as (Q & L5). assert (Ne : wire ccs ++ more <> []) by (intros Y; apply app_eq_nil in Y; destruct Y as (Y & _); rewrite Y in L5; cbn in L5; lia).
  rewrite reads_cons; [|congruence|exact Ne]. cbv zeta. cbn [client_records]. destruct (Nat.ltb_spec 0 (length (wire ccs ++ more))) as [_|Z0]; [|rewrite app_length in Z0; lia]. cbn [orb negb].
  pose proof (@ClientAccept2.slice_from_pre tls_error [] (wire ccs ++ more)) as SF. cbn [app length] in SF. rewrite SF, sbind_Ok, Q. cbn [fst snd].
  unfold client_record. unfold is_ccs in C. destruct (r_type ccs); try discriminate. rewrite St.
  destruct h as [[so' p b] st rq kl lg th ke ce he ra]. cbn [cl_stream st_protection st_sock] in *. cbn [idle cl_stream st_buffer] in I. unfold idle in I. cbn [cl_stream st_buffer] in I. subst p b. destruct so' as [sent left]. cbn [so_left] in L. subst left.
  unfold report_error. cbn. eexists. split; [reflexivity|]. reflexivity.
Qed.
Lemma accepted_cut cfg e now so first sh g : Spec.ClientConnection.client_ok cfg e -> so_left so = None -> parses first /\ is_bytes (wire first) -> r_type first = RHandshake ->
  Spec.ClientConnection.agrees cfg e (r_fragment first) sh g ->
  forall parts more reads later, Spec.ClientAccept.server_conforms cfg e now g (concat parts) -> carry g (map (@concat Z) parts) (without_ccs more) ->
    Forall (fun r => parses r /\ is_bytes (wire r)) more -> Forall (fun r => r_type r = RApplicationData) (without_ccs more) ->
    zlen (concat (concat parts)) < 2^50 -> zlen more < 2^50 -> Spec.Handshaking.delivers (first :: more) reads ->
    exists h, connect cfg e now so (reads ++ later) = (h, Some (Ok tt)).
Proof.
  intros Ok1 L P T A parts more reads later C Ca F Ty Z1 Z2 D.
  rewrite (delivered cfg e now so (first :: more) reads later D).
  - destruct (Proofs.ClientAccept2.client_accepted cfg e now so first sh g Ok1 L P T A parts more (map (fun r => [r]) (first :: more)) later C Ca F Ty Z1 Z2) as (h & E).
    + apply Forall_forall. intros gr I. apply in_map_iff in I. destruct I as (r & <- & _). discriminate.
    + generalize (first :: more) as l. induction l as [|r l IH]; [reflexivity|]. cbn [map concat app]. now f_equal.
    + exists h. rewrite <- E. rewrite map_map. f_equal. f_equal. apply map_ext. intros r. cbn [map concat]. symmetry. apply app_nil_r.
  - constructor; [apply P|]. eapply Forall_impl; [|exact F]. intros r X. apply X.
  - constructor; [unfold no_alert; congruence|]. clear - Ty. unfold without_ccs in Ty. induction more as [|r m IH]; [constructor|]. cbn [filter] in Ty. unfold is_ccs in Ty at 1.
    destruct (r_type r) eqn:R; cbn [negb] in Ty; (constructor; [unfold no_alert; try congruence|apply IH; try exact Ty; now inversion Ty]).
    inversion Ty as [|? ? X _]. congruence.
Qed.
