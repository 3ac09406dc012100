(* What brings a client down *)
From Verif Require Import Proofs.Util Proofs.Bytes Model.Alert Model.Bytes Model.Suite Model.Sha2 Model.Hmac Model.KeySchedule Model.Record Model.Channel
  Model.Curve Model.Signature Model.Ecdsa Model.X509 Model.Extensions Model.Hello Model.Kex Model.Handshake Model.Certificate
  Model.Stream Model.AppChannel Model.Keylog Model.Server Model.Client
  Spec.Alerts Spec.Enc Spec.Rfc8446Keys Spec.Tls13Record Spec.Endpoints Spec.Connection Spec.ClientConnection Spec.ClientAccept Spec.Crashes Spec.RequestPanics Spec.ClientCrashes Spec.HelloCrashes Spec.Proper Spec.VerifyPanics Spec.CertMessagePanics.
From Verif Require Spec.Rfc8446Hello Spec.Ecdsa Spec.HelloView Spec.Negotiation.
From Verif Require Import Proofs.KeySchedule Proofs.Record Proofs.Channel Proofs.Stream Proofs.ServerRun Proofs.ServerKeys Proofs.Opened
  Proofs.ServerSteps Proofs.ServerFlow Proofs.ClientSteps Proofs.ClientFlow Proofs.ClientRun Proofs.Alerting.
From Verif Require Proofs.Hmac Proofs.HelloTotal Proofs.ServerAccept Proofs.Crashes Proofs.Cuts Proofs.ClientReads Proofs.ClientAlerts Proofs.ClientAccept Proofs.Auth Proofs.Proper Proofs.VerifyPanics Proofs.CertMessagePanics Proofs.Hello Proofs.ServerHelloPanics Proofs.HelloCrashes Proofs.RequestPanics.

Local Opaque handle_server_hello rpp_decrypt rpp_encrypt record_from_raw handshake_from_raw certificates_from_hello x509_from_raw is_certificate_valid sig_from_der
  generate_application_keys verify_data_for_finished th_update client_greeting Rfc8446Hello.handshake.

(* ---- writing and finishing do not panic ---- *)
Lemma flush_total s s' : flush s <> (s', Panic).
Proof. unfold flush. destruct (write_all _ _) as [so' []]; discriminate. Qed.
Lemma write_total s t data p n : st_protection s = Some p -> speaks true n p -> n + 1 < 2^64 -> is_bytes data -> zlen data + 17 < 2^20 ->
  forall s', write_record s t data <> (s', Panic).
Proof.
  intros P (Si & Gc & Gk & Rs) Hn B L s' E. unfold write_record, protect in E. rewrite P in E.
  destruct (encrypt_any p t data) as (e & tg & En & _); [rewrite Si; split; [exact Gk|lia]|exact Gc|exact B|exact L|].
  rewrite En in E. cbn [sbind] in E. destruct (Nat.leb _ _); [exact (flush_total _ _ E)|discriminate].
Qed.
Local Transparent verify_data_for_finished.
Lemma verify_bytes s t v : verify_data_for_finished s t = Ok v -> is_bytes v /\ (length v <= 48)%nat.
Proof.
  unfold verify_data_for_finished. destruct (hkdf_expand _ _ _); [|discriminate]. intros [= <-]. split; [apply Hmac.hmac_bytes|].
  rewrite Hmac.hmac_length. destruct (th_type t); cbn; lia.
Qed.
Local Opaque verify_data_for_finished.

(* ---- the state ---- *)
Definition carm (bytes : list Z) (x : cgreet) (k : Z) (h : client_hs) : Prop :=
  exists n p t, 0 <= n <= k /\ cl_th h = Some t /\ st_protection (cl_stream h) = Some p /\ guarded x p n /\
    (forall rq, cl_request h = Some rq -> came bytes (cg_g x) 13 rq /\ is_bytes rq) /\
    (forall c, cl_cert h = Some c -> exists body now, came bytes (cg_g x) 11 body /\ is_bytes body /\ certificates_from_hello body now = Ok [c]).
Definition cmid (bytes : list Z) (x : cgreet) (k : Z) (h : client_hs) : Prop :=
  match cl_state h with CsServerHello => False | CsReady => True | _ => carm bytes x k h end.
Lemma carm_like bytes x k h h' t : carm bytes x k h -> cl_stream h' = cl_stream h -> cl_th h' = Some t -> cl_request h' = cl_request h -> cl_cert h' = cl_cert h -> carm bytes x k h'.
Proof. intros (n & p & t0 & N & _ & P & G & A) S T R C. exists n, p, t. rewrite S, R, C. auto. Qed.
Lemma guarded_speaks cfg e x p n : cgreeted cfg e x -> guarded x p n -> speaks true 0 p.
Proof.
  intros G (K & C & _ & Sk & _). destruct (cgreeted_keys _ _ _ G) as (G1 & _). pose proof K as ((_ & Gc & _) & Hc & _).
  unfold speaks. rewrite Sk, Hc. split; [exact C|]. split; [exact Gc|]. split; [exact G1|]. cbn [key_at k_seq]. lia.
Qed.

(* ---- one message ---- *)
Definition culprit (cfg : client_config) (e : client_draws) (bytes : list Z) (g : agreed) (ty : Z) (body : list Z) : Prop :=
  (ty = 11 /\ certificate_message_panics body) \/
  (ty = 15 /\ exists body1, came bytes g 11 body1 /\ (verify_panics body \/ bad_key body1)) \/
  (ty = 20 /\ exists request, came bytes g 13 request /\ (request_panics request \/ ~ can_answer cfg e)).
Lemma cert_step now h hs h' o bytes x k : carm bytes x k h -> (hs_type hs = HtCertificate -> came bytes (cg_g x) 11 (hs_fraqment hs)) -> is_bytes (hs_fraqment hs) ->
  handle_server_certificate now h hs = (h', o) ->
  match o with Ok _ => cmid bytes x k h' | Err _ => True | Panic => hs_type hs = HtCertificate /\ certificate_message_panics (hs_fraqment hs) end.
Proof.
  intros A Ca Bf E. unfold handle_server_certificate in E. destruct (ht_eqb (hs_type hs) HtCertificate) eqn:T; cbn [negb] in E; [|apply pair_equal_spec in E; destruct E as (_ & <-); exact I].
  apply ht_eqb_eq in T. specialize (Ca T). destruct o as [u|er|]; [|exact I|].
  - sinv E t Et. destruct (certificates_from_hello _ _) as [certs|er|] eqn:Ce; [| |discriminate].
    + sinv E c Ec. apply pair_equal_spec in E. destruct E as (<- & _). unfold cmid. cbn [cl_with_state cl_state].
      destruct A as (n & p & t0 & N & _ & P & G & Rq & _). exists n, p. eexists. split; [exact N|]. split; [reflexivity|]. split; [exact P|]. split; [exact G|]. split; [exact Rq|].
      cbn. intros c0 [= <-]. exists (hs_fraqment hs), now. split; [exact Ca|]. split; [exact Bf|]. rewrite Ce. f_equal. destruct (certificates_inv _ _ _ Bf Ce) as (? & ? & cert & ? & y & _ & _ & _ & -> & _). cbn [hd_error unwrap] in Ec. apply Ok_inj in Ec. now rewrite Ec.
    + apply pair_equal_spec in E. destruct E as (<- & _). unfold cmid. cbn [cl_with_state cl_state]. eapply carm_like; [exact A|reflexivity..].
  - split; [exact T|]. destruct A as (n & p & t0 & _ & Th & _). rewrite Th in E. cbn [unwrap] in E. rewrite ServerAccept.sbind_Ok in E.
    destruct (certificates_from_hello _ _) as [certs|er|] eqn:Ce; [|discriminate|apply (CertMessagePanics.certificate_exact _ Bf); eauto].
    destruct (certificates_inv _ _ _ Bf Ce) as (? & ? & cert & ? & y & _ & _ & _ & -> & _). cbn [hd_error unwrap] in E. rewrite ServerAccept.sbind_Ok in E. discriminate.
Qed.
Lemma cv_step h hs h' o bytes x k : carm bytes x k h -> is_bytes (hs_fraqment hs) -> handle_server_certificate_verify h hs = (h', o) ->
  match o with Ok _ => cmid bytes x k h' | Err _ => True
  | Panic => hs_type hs = HtCertificateVerify /\ exists body1, came bytes (cg_g x) 11 body1 /\ (verify_panics (hs_fraqment hs) \/ bad_key body1) end.
Proof.
  intros A Bf E. pose proof E as E0. unfold handle_server_certificate_verify in E. destruct (cl_cert h) as [c|] eqn:Hc; [|apply pair_equal_spec in E; destruct E as (_ & <-); exact I].
  destruct (ht_eqb (hs_type hs) HtCertificateVerify) eqn:T; cbn [negb] in E; [|apply pair_equal_spec in E; destruct E as (_ & <-); exact I].
  apply ht_eqb_eq in T. destruct o as [u|er|]; [|exact I|].
  - pose proof A as (_ & _ & t0 & _ & Th & _). sinv E b Eb. sinv E algo Ea. destruct algo; try discriminate. sinv E rest Er.
    assert (ERR : forall er, cmid bytes x k (cl_with_state h (CsFinishWithError er))) by (intros er; unfold cmid; cbn [cl_with_state cl_state]; exact (carm_like _ _ _ _ _ _ A eq_refl Th eq_refl eq_refl)).
    destruct (sig_from_der rest) as [[sg size]|er|]; [|injection E as <- _; apply ERR|discriminate].
    sinv E t Et. sinv E v Ev. destruct (negb v); [injection E as <- _; apply ERR|]. sinv E b2 Eb2.
    destruct (negb _); injection E as <- _; unfold cmid; cbn [cl_with_state cl_state]; (eapply carm_like; [exact A|reflexivity..]).
  - split; [exact T|]. destruct A as (n & p & t0 & _ & Th & _ & _ & _ & Ct). destruct (Ct c Hc) as (body1 & now & Ca & Bb & Fc). exists body1. split; [exact Ca|].
    destruct hs as [ty body raw]. cbn [hs_type hs_fraqment] in *. subst ty. apply (CertMessagePanics.client_verify h c t0 body1 now raw body Hc Th Bb Fc Bf). rewrite E0. reflexivity.
Qed.

Lemma cl_write_total h t data p n h' o : st_protection (cl_stream h) = Some p -> speaks true n p -> n + 1 < 2^64 -> is_bytes data -> zlen data + 17 < 2^20 ->
  cl_write h t data = (h', o) -> o <> Panic /\ (forall u, o = Ok u -> exists s p', h' = cl_with_stream h s /\ st_protection s = Some p' /\ speaks true (n + 1) p').
Proof.
  intros P Sp Hn B L W. split.
  - intros ->. unfold cl_write in W. destruct (write_record (cl_stream h) t data) as [s r] eqn:W1. apply pair_equal_spec in W. destruct W as (_ & ->). exact (write_total _ _ _ _ n P Sp Hn B L _ W1).
  - intros u ->. apply cl_write_ok in W. destruct W as (s & w & -> & _ & Q). rewrite P in Q. destruct Q as (p' & E & P'). exists s, p'. split; [reflexivity|]. split; [exact P'|].
    exact (speaks_encrypt _ _ _ _ _ _ Sp Hn E).
Qed.

Local Opaque certificate_for_handshake handshake_to_bytes certificate_verify_for_handshake cl_write.
(* an answer to a CertificateRequest *)
Lemma request_total cfg e h body t p h' o : client_ok cfg e -> cl_request h = Some body -> is_bytes body -> can_answer cfg e ->
  cl_th h = Some t -> st_protection (cl_stream h) = Some p -> speaks true 0 p -> handle_certificate_request cfg e h = (h', o) -> request_panics body \/
  (o <> Panic /\ (forall u, o = Ok u -> exists t' p', cl_th h' = Some t' /\ st_protection (cl_stream h') = Some p' /\ speaks true 2 p')).
Proof.
  intros Ok' Rq Bb Cert Th P Sp E. pose proof Ok' as (_ & _ & _ & _ & _ & Nn & _ & Hc & Hk).
  destruct (Proofs.RequestPanics.request_cases cfg e h body Rq Bb) as [(Pr & _) | (_ & context & Lctx & Bctx & R)]; [left; exact Pr|right].
  rewrite R in E. clear R. unfold Proofs.RequestPanics.answer in E. cbv zeta in E.
  rewrite HelloTotal.to_bytes_wire in E. cbn [handshake_type_u8] in E.
  match type of E with context[Rfc8446Hello.handshake 11 ?r] => set (resp := r) in * end.
  assert (BR : is_bytes resp /\ zlen resp < 2^20 - 100).
  { unfold resp. assert (B0 : is_bytes [zlen context]) by (constructor; [unfold is_byte; pose proof (zlen_nonneg context); lia|constructor]).
    change (zlen context :: context ++ ?l) with ([zlen context] ++ context ++ l).
    destruct (cc_cert cfg) as [c|] eqn:Cc.
    - destruct (Hc c eq_refl) as (Bc & _). destruct (Cert c Cc) as (Lc & _). Local Transparent certificate_for_handshake. unfold certificate_for_handshake. Local Opaque certificate_for_handshake. split.
      + repeat first [assumption | apply is_bytes_app; split]; try (apply is_bytes_check; reflexivity).
        repeat (constructor; [apply u8_range|]). constructor.
      + unfold zlen in *. rewrite !app_length. cbn [length]. lia.
    - split; [repeat first [assumption | apply is_bytes_app; split]; apply is_bytes_check; reflexivity|]. unfold zlen in *. rewrite !app_length. cbn [length]. lia. }
  clearbody resp. destruct BR as (BR & LR).
  assert (B1 : is_bytes (Rfc8446Hello.handshake 11 resp)) by (apply is_bytes_handshake; [unfold is_byte; lia|exact BR]).
  assert (L1 : zlen (Rfc8446Hello.handshake 11 resp) + 17 < 2^20) by (unfold zlen in *; rewrite handshake_length; lia).
  set (m1 := Rfc8446Hello.handshake 11 resp) in *. clearbody m1.
  destruct (cl_write h RHandshake m1) as [h1 o1] eqn:W1. destruct (cl_write_total _ _ _ _ 0 _ _ P Sp ltac:(lia) B1 L1 W1) as (N1 & K1).
  destruct o1 as [u1|er|]; [|cbn [sbind] in E; apply pair_equal_spec in E; destruct E as (_ & <-); split; discriminate|congruence].
  rewrite ServerAccept.sbind_Ok in E. destruct (K1 u1 eq_refl) as (s1 & p1 & -> & P1 & Sp1). cbn [cl_with_stream cl_th] in E. rewrite Th in E. cbn [unwrap] in E. rewrite ServerAccept.sbind_Ok in E. cbv zeta in E.
  destruct (cc_cert cfg) as [c|] eqn:Cc.
  - destruct (cc_key cfg) as [key|] eqn:Ck; [|cbn [sbind] in E; apply pair_equal_spec in E; destruct E as (_ & <-); split; discriminate].
    destruct (Cert c Cc) as (_ & Sg). specialize (Sg key Ck). pose proof (Hk key eq_refl) as Hcu. destruct key as [cu kk]. cbn [sk_curve sk_secret] in Hcu, Sg. subst cu.
    destruct (ServerAccept.cv_fwd (E:=tls_error) kk (th_update t m1) l_client (e_nonces e) Nn) as (cv & Ecv); [apply Sg, Auth.sha256_len|].
    destruct (Auth.cv_sent (E:=tls_error) _ _ _ _ _ Nn Ecv) as (k' & r & s & der & _ & _ & _ & Ewire & Bder & Lder).
    assert (B2 : is_bytes (Rfc8446Hello.handshake 15 cv) /\ zlen (Rfc8446Hello.handshake 15 cv) + 17 < 2^20).
    { unfold zlen. rewrite handshake_length, Ewire. unfold Rfc8446Hello.certificate_verify_wire, Rfc8446Hello.u16, Rfc8446Hello.vector16. rewrite !app_length, !be_enc_length.
      split; [|lia]. apply is_bytes_handshake; [unfold is_byte; lia|]. repeat first [assumption | apply be_enc_bytes | apply is_bytes_app; split]. }
    rewrite Ecv, ServerAccept.sbind_Ok in E. cbn [unwrap] in E. rewrite ServerAccept.sbind_Ok in E. rewrite HelloTotal.to_bytes_wire in E. cbn [handshake_type_u8] in E.
    match type of E with context[cl_write ?hh RHandshake (Rfc8446Hello.handshake 15 cv)] => set (h2 := hh) in *; assert (P2 : st_protection (cl_stream h2) = Some p1) by exact P1 end.
    assert (T2 : exists t2, cl_th h2 = Some t2) by (eexists; reflexivity). clearbody h2.
    destruct (cl_write h2 RHandshake (Rfc8446Hello.handshake 15 cv)) as [h3 o3] eqn:W2. destruct (cl_write_total _ _ _ _ 1 _ _ P2 Sp1 ltac:(lia) (proj1 B2) (proj2 B2) W2) as (N2 & K2).
    destruct o3 as [u3|er|]; [|cbn [sbind] in E; apply pair_equal_spec in E; destruct E as (_ & <-); split; discriminate|congruence].
    rewrite ServerAccept.sbind_Ok in E. apply pair_equal_spec in E. destruct E as (<- & <-). split; [discriminate|]. intros _ _. destruct (K2 u3 eq_refl) as (s2 & p2 & -> & P2' & Sp2). destruct T2 as (t2 & T2).
    exists t2, p2. split; [exact T2|]. split; [exact P2'|exact Sp2].
  - rewrite ServerAccept.sbind_Ok in E. apply pair_equal_spec in E. destruct E as (<- & <-). split; [discriminate|]. intros _ _. eexists _, p1. split; [reflexivity|]. split; [exact P1|].
    eapply speaks_mono; [exact Sp1|lia].
Qed.
Local Opaque handle_certificate_request.

Lemma fin_step cfg e h hs h' o bytes x k : client_ok cfg e -> cgreeted cfg e x -> carm bytes x k h -> cl_state h = CsFinished \/ (exists er, cl_state h = CsFinishWithError er) ->
  handle_server_finish cfg e h hs = (h', o) ->
  match o with Ok _ => cmid bytes x k h' | Err _ => True
  | Panic => hs_type hs = HtFinished /\ exists request, came bytes (cg_g x) 13 request /\ (request_panics request \/ ~ can_answer cfg e) end.
Proof.
  intros Ok' G A St E. pose proof A as (n & p & t & N & Th & P & Gp & Rqs & _). unfold handle_server_finish in E.
  destruct (ht_eqb (hs_type hs) HtFinished) eqn:T; cbn [negb] in E.
  2:{ destruct St as [St|(er & St)]; rewrite St in E; apply pair_equal_spec in E; destruct E as (<- & <-); [exact I|]. unfold cmid. rewrite St. exact A. }
  apply ht_eqb_eq in T. rewrite P in E. cbn [unwrap] in E. rewrite ServerAccept.sbind_Ok, Th in E. cbn [unwrap] in E. rewrite ServerAccept.sbind_Ok in E.
  pose proof (Crashes.verify_total (ks_server_hs (rp_schedule p)) t) as V. destruct (verify_data_for_finished (ks_server_hs (rp_schedule p)) t) as [v|er|] eqn:Ev;
    [|cbn [sbind] in E; apply pair_equal_spec in E; destruct E as (_ & <-); exact I|congruence].
  rewrite ServerAccept.sbind_Ok in E. destruct St as [St|(er & St)]; rewrite St in E; [|apply pair_equal_spec in E; destruct E as (_ & <-); exact I].
  destruct (negb (list_eqb (hs_fraqment hs) v)); [apply pair_equal_spec in E; destruct E as (_ & <-); exact I|]. cbv zeta in E.
  destruct o as [u|er|]; [|exact I|].
  - apply sbind_ok in E. destruct E as (h1 & u1 & _ & E). sinv E p1 E1. sinv E t1 E2. sinv E f E3. apply sbind_ok in E. destruct E as (h2 & u2 & _ & E).
    apply sbind_ok in E. destruct E as (h3 & u3 & _ & E). sinv E p3 E4. destruct (generate_application_keys p3 _) as [p4 r]. sinv E u4 E5. injection E as <- _.
    unfold cmid. cbn [cl_with_state cl_state]. exact I.
  - split; [exact T|]. pose proof (guarded_speaks _ _ _ _ _ G Gp) as Sp. set (th := th_update t (hs_raw hs)) in *.
    (* what comes after the request does not panic *)
    assert (REST : forall h1 p1 t1, st_protection (cl_stream h1) = Some p1 -> speaks true 2 p1 -> cl_th h1 = Some t1 ->
      (let@ (h, p) := (h1, unwrap (st_protection (cl_stream h1))) in
       let@ (h, th0) := (h, unwrap (cl_th h)) in
       let@ (h, finished) := (h, finished_handshake (ks_client_hs (rp_schedule p)) th0) in
       let@ (h, _) := cl_write h RHandshake finished in
       let@ (h, _) := cl_flush h in
       let@ (h, p) := (h, unwrap (st_protection (cl_stream h))) in
       let (p', r) := generate_application_keys p th in
       let@ (h, _) := (cl_with_protection h (Some p'), r) in
       let h := match cl_keylog h with Some k => cl_append_log h (append_from_protection k p') | None => h end in
       (cl_with_state h CsReady, Ok tt)) <> (h', Panic)).
    { clear E. intros h1 p1 t1 P1 Sp1 Th1 E. rewrite P1 in E. cbn [unwrap] in E. rewrite ServerAccept.sbind_Ok, Th1 in E. cbn [unwrap] in E. rewrite ServerAccept.sbind_Ok in E. unfold finished_handshake in E.
      pose proof (Crashes.verify_total (ks_client_hs (rp_schedule p1)) t1) as V'.
      destruct (verify_data_for_finished (ks_client_hs (rp_schedule p1)) t1) as [v'|er|] eqn:Ev'; [|cbn [Base.bind sbind] in E; apply pair_equal_spec in E; destruct E as (_ & E); discriminate E|congruence].
      destruct (verify_bytes _ _ _ Ev') as (Bv & Lv). rewrite bind_Ok, ServerAccept.sbind_Ok in E. rewrite HelloTotal.to_bytes_wire in E. cbn [handshake_type_u8] in E.
      set (m := Rfc8446Hello.handshake 20 v') in *.
      assert (Bm : is_bytes m) by (apply is_bytes_handshake; [unfold is_byte; lia|exact Bv]).
      assert (Lm : zlen m + 17 < 2^20) by (unfold m, zlen; rewrite handshake_length; lia). clearbody m.
      destruct (cl_write h1 RHandshake m) as [h2 o2] eqn:W. destruct (cl_write_total _ _ _ _ 2 _ _ P1 Sp1 ltac:(lia) Bm Lm W) as (N2 & K2).
      destruct o2 as [u2|er|]; [|discriminate|congruence]. rewrite ServerAccept.sbind_Ok in E. destruct (K2 u2 eq_refl) as (s2 & p2 & -> & P2 & _).
      destruct (cl_flush (cl_with_stream h1 s2)) as [h3 [u3|er|]] eqn:Fl; [|discriminate|].
      2:{ unfold cl_flush in Fl. cbn [cl_with_stream cl_stream] in Fl. destruct (flush s2) as [s3 r] eqn:F1. apply pair_equal_spec in Fl. destruct Fl as (_ & ->). exact (flush_total _ _ F1). }
      rewrite ServerAccept.sbind_Ok in E. apply cl_flush_ok in Fl. destruct Fl as (s3 & -> & _ & P3 & _). cbn [cl_with_stream cl_stream] in P3, E. rewrite P3, P2 in E. cbn [unwrap] in E.
      rewrite ServerAccept.sbind_Ok in E. destruct (Crashes.keys_total p2 th) as (p4 & K). rewrite K in E. rewrite ServerAccept.sbind_Ok in E. discriminate. }
    set (h1 := cl_with_th h th) in *. assert (P1 : st_protection (cl_stream h1) = Some p) by exact P. assert (T1 : cl_th h1 = Some th) by reflexivity.
    change (cl_request h1) with (cl_request h) in E. destruct (cl_request h) as [rq|] eqn:Rq.
    + destruct (Rqs rq eq_refl) as (Ca & Brq). exists rq. split; [exact Ca|]. destruct (Proofs.RequestPanics.request_cases cfg e h1 rq Rq Brq) as [(Pr & _) | (NPr & _)]; [left; exact Pr|right]. intros Can.
      destruct (handle_certificate_request cfg e h1) as [h2 o2] eqn:R2.
      destruct (request_total cfg e h1 rq th p h2 o2 Ok' Rq Brq Can T1 P1 Sp R2) as [Pr|(N2 & K2)]; [contradiction|]. destruct o2 as [u2|er|]; [|discriminate|congruence].
      rewrite ServerAccept.sbind_Ok in E. destruct (K2 u2 eq_refl) as (t2 & p2 & T2 & P2 & Sp2). exact (REST h2 p2 t2 P2 Sp2 T2 E).
    + exfalso. rewrite ServerAccept.sbind_Ok in E. refine (REST h1 p th P1 _ T1 E). eapply speaks_mono; [exact Sp|lia].
Qed.

Lemma message_step cfg e now h hs h' o bytes x k content done rest seq rec : client_ok cfg e -> cgreeted cfg e x -> cmid bytes x k h ->
  within bytes rec -> opens_server (cg_g x) seq RHandshake content rec -> content = done ++ hs_raw hs ++ rest ->
  hs_raw hs = Rfc8446Hello.handshake (handshake_type_u8 (hs_type hs)) (hs_fraqment hs) -> is_bytes (hs_fraqment hs) ->
  handle_message cfg e now h hs = (h', o) ->
  match o with Ok _ => cmid bytes x k h' | Err _ => True | Panic => culprit cfg e bytes (cg_g x) (handshake_type_u8 (hs_type hs)) (hs_fraqment hs) end.
Proof.
  intros Ok' G M Wi Op Ec ER Bf E. pose proof M as M0. unfold cmid in M. unfold handle_message in E.
  assert (CAME : came bytes (cg_g x) (handshake_type_u8 (hs_type hs)) (hs_fraqment hs)) by (exists rec, seq, done, rest; split; [exact Wi|]; rewrite <- ER, <- Ec; exact Op).
  assert (CERT : carm bytes x k h -> (if ht_eqb (hs_type hs) HtCertificateRequest then
        let h := cl_with_request h (hs_fraqment hs) in let@ (h, th) := (h, unwrap (cl_th h)) in
        (cl_with_state (cl_with_th h (th_update th (hs_raw hs))) CsServerCertificate, Ok tt)
      else handle_server_certificate now h hs) = (h', o) ->
    match o with Ok _ => cmid bytes x k h' | Err _ => True | Panic => culprit cfg e bytes (cg_g x) (handshake_type_u8 (hs_type hs)) (hs_fraqment hs) end).
  { intros A E1. destruct (ht_eqb (hs_type hs) HtCertificateRequest) eqn:T.
    - apply ht_eqb_eq in T. pose proof A as (n & p & t & N & Th & P & Gp & _ & Ct).
      cbv zeta in E1. cbn [cl_with_request cl_th] in E1. rewrite Th in E1. cbn [unwrap] in E1. rewrite ServerAccept.sbind_Ok in E1. apply pair_equal_spec in E1. destruct E1 as (<- & <-).
      unfold cmid. cbn [cl_with_state cl_state]. exists n, p. eexists. split; [exact N|]. split; [reflexivity|]. split; [exact P|]. split; [exact Gp|]. split; [|exact Ct].
      cbn. intros rq [= <-]. rewrite T in CAME. split; [exact CAME|exact Bf].
    - assert (Cc : hs_type hs = HtCertificate -> came bytes (cg_g x) 11 (hs_fraqment hs)) by (intros T1; rewrite T1 in CAME; exact CAME).
      pose proof (cert_step _ _ _ _ _ _ _ _ A Cc Bf E1) as C. destruct o; try exact C. unfold culprit. destruct C as (C & D). rewrite C. cbn [handshake_type_u8]. auto. }
  destruct (cl_state h) eqn:St; try contradiction.
  - pose proof M as (n & p & t & N & Th & P & Gp & As). unfold handle_encrypted_extension in E.
    destruct (negb _); [apply pair_equal_spec in E; destruct E as (_ & <-); exact I|]. rewrite Th in E. cbn [unwrap] in E. rewrite ServerAccept.sbind_Ok in E.
    apply pair_equal_spec in E. destruct E as (<- & <-). unfold cmid. cbn [cl_with_state cl_state]. eapply carm_like; [exact M|reflexivity..].
  - exact (CERT M E).
  - exact (CERT M E).
  - pose proof (cv_step _ _ _ _ _ _ _ M Bf E) as C. destruct o; try exact C. unfold culprit. destruct C as (C & D). rewrite C. cbn [handshake_type_u8]. auto.
  - pose proof (fin_step _ _ _ _ _ _ _ _ _ Ok' G M (or_intror (ex_intro _ _ St)) E) as C. destruct o; try exact C. unfold culprit. destruct C as (C & D). rewrite C. cbn [handshake_type_u8]. auto.
  - pose proof (fin_step _ _ _ _ _ _ _ _ _ Ok' G M (or_introl St) E) as C. destruct o; try exact C. unfold culprit. destruct C as (C & D). rewrite C. cbn [handshake_type_u8]. auto.
  - apply pair_equal_spec in E. destruct E as (<- & <-). exact M0.
Qed.

(* ---- the messages of a record ---- *)
Lemma messages_snoc l ty body : whole_messages l -> whole_messages (l ++ Rfc8446Hello.handshake ty body).
Proof. intros (ms & ->). exists (ms ++ [(ty, body)]). rewrite map_app, concat_app. cbn [map concat fst snd]. now rewrite app_nil_r. Qed.
Definition fault (cfg : client_config) (e : client_draws) (bytes : list Z) (g : agreed) (y : list Z) : Prop :=
  (exists ty b1 b2 b3 rest, y = ty :: b1 :: b2 :: b3 :: rest /\ zlen rest < b1 * 65536 + b2 * 256 + b3) \/
  (exists ty body after, y = Rfc8446Hello.handshake ty body ++ after /\ culprit cfg e bytes g ty body).
Lemma messages_step cfg e now bytes x k content seq rec fuel : forall h buf done h' o, (length buf <= fuel)%nat -> client_ok cfg e -> cgreeted cfg e x -> cmid bytes x k h ->
  within bytes rec -> opens_server (cg_g x) seq RHandshake content rec -> content = done ++ buf -> whole_messages done -> is_bytes buf ->
  client_messages fuel cfg e now h buf = (h', o) ->
  match o with Ok _ => cmid bytes x k h' | Err _ => True | Panic => exists before y, content = before ++ y /\ whole_messages before /\ fault cfg e bytes (cg_g x) y end.
Proof.
  induction fuel as [|f IH]; intros h buf done h' o Lb Ok' G M Wi Op Ec Wd B E; cbn [client_messages] in E.
  - destruct buf; [|cbn in Lb; lia]. apply pair_equal_spec in E. destruct E as (<- & <-). exact M.
  - destruct buf as [|b0 buf0]; [apply pair_equal_spec in E; destruct E as (<- & <-); exact M|]. set (buf := b0 :: buf0) in *. clearbody buf.
    destruct (handshake_from_raw buf) as [hs|er|] eqn:R.
    + rewrite ServerAccept.sbind_Ok in E. destruct (read_message _ _ B R) as (Eb & ER & Br & Bf & L4). set (rest := skipn (length (hs_raw hs)) buf) in *.
      assert (Ec1 : content = done ++ hs_raw hs ++ rest) by (rewrite <- Eb; exact Ec).
      destruct (handle_message cfg e now h hs) as [h1 o1] eqn:E1.
      pose proof (message_step _ _ _ _ _ _ _ _ _ k _ _ _ _ _ Ok' G M Wi Op Ec1 ER Bf E1) as C. destruct o1 as [u1|er|].
      * rewrite ServerAccept.sbind_Ok in E. refine (IH h1 rest (done ++ hs_raw hs) h' o _ Ok' G C Wi Op _ _ _ E).
        -- unfold rest. rewrite skipn_length. lia.
        -- rewrite <- app_assoc. exact Ec1.
        -- rewrite ER. now apply messages_snoc.
        -- now apply is_bytes_skipn.
      * cbn [sbind] in E. apply pair_equal_spec in E. destruct E as (_ & <-). exact I.
      * cbn [sbind] in E. apply pair_equal_spec in E. destruct E as (_ & <-). exists done, (hs_raw hs ++ rest). split; [exact Ec1|]. split; [exact Wd|].
        right. exists (handshake_type_u8 (hs_type hs)), (hs_fraqment hs), rest. rewrite <- ER. split; [reflexivity|exact C].
    + cbn [sbind] in E. apply pair_equal_spec in E. destruct E as (_ & <-). exact I.
    + cbn [sbind] in E. apply pair_equal_spec in E. destruct E as (_ & <-). exists done, buf. split; [exact Ec|]. split; [exact Wd|]. left. exact (Crashes.frame_panics _ B R).
Qed.

(* ---- one record ---- *)
Lemma encrypted_step cfg e now bytes x k h rec buf n h' o : client_ok cfg e -> cgreeted cfg e x -> wellformed rec -> within bytes rec -> record_from_raw buf = Ok (n, rec) ->
  r_type rec <> RAlert -> r_type rec <> RChangeCipherSpec -> k < 2^60 -> cl_state h <> CsReady -> cmid bytes x k h ->
  client_encrypted_record cfg e now h rec = (h', o) ->
  match o with Ok _ => cmid bytes x (k + 1) h' | Err _ => True | Panic => client_crash cfg e bytes (cg_g x) buf end.
Proof.
  intros Ok' G (Bh & Lh & Bf & Lf) Wi Pb T1 T2 Lk Nr M E.
  assert (A : carm bytes x k h) by (unfold cmid in M; destruct (cl_state h); try exact M; [destruct M|congruence]).
  assert (St : cl_state h <> CsServerHello) by (intros S; unfold cmid in M; rewrite S in M; exact M).
  pose proof A as (nn & p & t & N & Th & P & (K & Cp & Ap & Sk & Pk) & As). destruct (cgreeted_keys _ _ _ G) as (_ & G2 & _). pose proof K as ((_ & Gc & _) & Hc & _).
  unfold client_encrypted_record in E. rewrite P in E. cbn [unwrap] in E. rewrite ServerAccept.sbind_Ok in E.
  destruct (rpp_decrypt p rec) as [p' [[ty content]|er|]] eqn:D.
  - rewrite ServerAccept.sbind_Ok in E. cbv beta iota zeta in E.
    destruct ty; try (apply pair_equal_spec in E; destruct E as (_ & <-); exact I).
    + destruct (decrypt_opened _ _ _ _ _ _ _ _ _ K Ap Pk G2 ltac:(lia) ltac:(lia) Bf Bh Lf Lh D ltac:(discriminate)) as (Op & Bc & _).
      destruct content as [|a [|b l]].
      * cbn in E. apply pair_equal_spec in E. destruct E as (_ & <-). apply (ccrash_sealed_alert _ _ _ _ _ _ _ _ _ Pb Op). cbn. lia.
      * cbn in E. apply pair_equal_spec in E. destruct E as (_ & <-). apply (ccrash_sealed_alert _ _ _ _ _ _ _ _ _ Pb Op). cbn. lia.
      * cbn [idx nth_error unwrap] in E. rewrite ServerAccept.sbind_Ok in E. apply pair_equal_spec in E. destruct E as (_ & <-). exact I.
    + destruct (decrypt_opened _ _ _ _ _ _ _ _ _ K Ap Pk G2 ltac:(lia) ltac:(lia) Bf Bh Lf Lh D ltac:(discriminate)) as (Op & Bc & _ & K' & C' & A' & S' & Pk').
      set (h1 := cl_with_protection h (Some p')) in *.
      assert (M1 : cmid bytes x (k + 1) h1).
      { assert (A1 : carm bytes x (k + 1) h1).
        { exists (nn + 1), p', t. split; [lia|]. split; [exact Th|]. split; [reflexivity|]. split; [|exact As].
          unfold guarded. split; [exact K'|]. split; [congruence|]. split; [exact A'|]. split; [rewrite Cp in S'; congruence|exact Pk']. }
        unfold cmid. change (cl_state h1) with (cl_state h). destruct (cl_state h); try exact A1; [congruence|exact I]. }
      pose proof (messages_step cfg e now bytes x (k + 1) content nn rec (length content) h1 content [] h' o (le_n _) Ok' G M1 Wi Op eq_refl (ex_intro _ [] eq_refl) Bc E) as C.
      destruct o as [u|er|]; try exact C. destruct C as (before & y & -> & Wb & [(ty & b1 & b2 & b3 & rest & -> & L)|(ty & body & after & -> & [(-> & Cu)|[(-> & body1 & Ca & Cu)|(-> & rq & Ca & Cu)]])]).
      * exact (ccrash_frame _ _ _ _ _ _ _ _ _ _ _ _ _ _ Pb Op Wb L).
      * exact (ccrash_certificate _ _ _ _ _ _ _ _ _ _ _ Pb Op Wb Cu).
      * exact (ccrash_verify _ _ _ _ _ _ _ _ _ _ _ _ Pb Op Wb Ca Cu).
      * exact (ccrash_finished _ _ _ _ _ _ _ _ _ _ _ _ Pb Op Wb Ca Cu).
  - cbn [sbind] in E. apply pair_equal_spec in E. destruct E as (_ & <-). exact I.
  - cbn [sbind] in E. apply pair_equal_spec in E. destruct E as (_ & <-). apply (ccrash_short _ _ _ _ _ _ _ Pb T1 T2).
    assert (R : snd (rpp_decrypt p rec) = Panic) by (rewrite D; reflexivity).
    apply (decrypt_panics p rec) in R; try assumption; [rewrite Hc; exact Gc|]. fold (peer_key p). rewrite Pk, Hc. split; [exact G2|]. cbn [key_at k_seq]. lia.
Qed.

Definition cheld (cfg : client_config) (e : client_draws) (bytes : list Z) (k : Z) (h : client_hs) : Prop :=
  match cl_state h with
  | CsServerHello => cl_hello h = Some (client_greeting cfg e) /\ cl_random h = Some (e_random e) /\ cl_key h = PrivateKey curve25519 (e_secret e) /\
      cl_request h = None /\ cl_cert h = None /\ st_protection (cl_stream h) = None
  | _ => exists x, cgreeted cfg e x /\ within bytes (cg_first x) /\ cmid bytes x k h
  end.
Lemma cheld_mid cfg e bytes k h : cl_state h <> CsServerHello -> cheld cfg e bytes k h <-> exists x, cgreeted cfg e x /\ within bytes (cg_first x) /\ cmid bytes x k h.
Proof. intros N. unfold cheld. destruct (cl_state h); try reflexivity. congruence. Qed.
Lemma mid_not bytes x k h : cmid bytes x k h -> cl_state h <> CsServerHello.
Proof. intros M S. unfold cmid in M. now rewrite S in M. Qed.
Lemma came_more bytes more g ty body : came bytes g ty body -> came (bytes ++ more) g ty body.
Proof. intros (r & n & b & a & Wi & O). exists r, n, b, a. split; [now apply within_more|exact O]. Qed.
Lemma carm_more bytes more x k k' h : k <= k' -> carm bytes x k h -> carm (bytes ++ more) x k' h.
Proof.
  intros L (n & p & t & N & Th & P & Gp & As). exists n, p, t. split; [lia|]. do 3 (split; [assumption|]). destruct As as (Rq & Ct). split.
  - intros rq R. destruct (Rq rq R) as (C & B). split; [now apply came_more|exact B].
  - intros c Hc. destruct (Ct c Hc) as (body & now & C & F). exists body, now. split; [now apply came_more|exact F].
Qed.
Lemma cmid_more bytes more x k k' h : k <= k' -> cmid bytes x k h -> cmid (bytes ++ more) x k' h.
Proof. intros L M. unfold cmid in *. destruct (cl_state h); try exact M; now apply (carm_more _ _ _ k). Qed.
Lemma cheld_more cfg e bytes more k k' h : k <= k' -> cheld cfg e bytes k h -> cheld cfg e (bytes ++ more) k' h.
Proof.
  intros L H. destruct (cl_state h) eqn:St; try (unfold cheld in *; rewrite St in *; exact H);
  (apply cheld_mid; [congruence|]; apply cheld_mid in H; [|congruence]; destruct H as (x & G & W & M); exists x; split; [exact G|]; split; [now apply within_more|]; now apply (cmid_more _ _ _ k)).
Qed.
Lemma cheld_up cfg e bytes k k' h : k <= k' -> cheld cfg e bytes k h -> cheld cfg e bytes k' h.
Proof. intros L H. rewrite <- (app_nil_r bytes). now apply (cheld_more _ _ _ _ k). Qed.

Lemma at_hello h : cl_state h = CsServerHello \/ cl_state h <> CsServerHello.
Proof. destruct (cl_state h); auto; right; discriminate. Qed.
(* the ServerHello *)
Lemma used_in l share : server_public_key_share l = Some share -> exists pre ks post, l = pre ++ SKeyShare (share :: ks) :: post.
Proof.
  induction l as [|y l IH]; [discriminate|]. intros H.
  assert (GO : server_public_key_share l = Some share -> exists pre ks post, y :: l = pre ++ SKeyShare (share :: ks) :: post)
    by (intros H'; destruct (IH H') as (pre & ks & post & ->); exists (y :: pre), ks, post; reflexivity).
  destruct y as [|[|k ks]|]; cbn [server_public_key_share] in H; try (apply GO; exact H). injection H as ->. exists [], ks, l. reflexivity.
Qed.
Lemma used_share body sh share : is_bytes body -> server_hello_from_raw body = Ok sh -> server_public_key_share (sh_exts sh) = Some share ->
  is_bytes (ks_opaque share) /\ (long_share sh \/ (ks_group share = X25519g -> (length (ks_opaque share) <= 32)%nat)).
Proof.
  intros B H P. destruct (used_in _ _ P) as (pre & ks & post & E). pose proof (HelloCrashes.server_hello_shares _ _ B H) as F. rewrite E in F. apply Forall_app in F. destruct F as (_ & F).
  inversion F as [|? ? F1 _]; subst. split; [now inversion F1|]. destruct share as [g k]. cbn [ks_group ks_opaque].
  destruct (Nat.leb_spec (length k) 32); [right; auto|]. destruct g; try (right; discriminate). left. exists pre, k, ks, post. auto.
Qed.
Local Transparent handle_server_hello.
Lemma hello_panics cfg e h rec h' buf n : client_ok cfg e -> is_bytes (r_fragment rec) -> record_from_raw buf = Ok (n, rec) -> r_type rec = RHandshake ->
  cl_hello h = Some (client_greeting cfg e) -> cl_random h = Some (e_random e) -> cl_key h = PrivateKey curve25519 (e_secret e) ->
  handle_server_hello cfg h rec = (h', Panic) -> server_hello_crash buf.
Proof.
  intros (Hs & _) B Pb T Eh Er Ek E. unfold handle_server_hello in E. destruct (handshake_from_raw (r_fragment rec)) as [hs|er|] eqn:F.
  2:{ cbn [sbind] in E. apply pair_equal_spec in E. destruct E as (_ & E). discriminate E. }
  2:{ destruct (Crashes.frame_panics _ B F) as (ty & b1 & b2 & b3 & rest & Em & L). exact (shcrash_frame _ _ _ _ _ _ _ _ Pb T Em L). }
  rewrite ServerAccept.sbind_Ok in E. destruct (ht_eqb (hs_type hs) HtServerHello) eqn:Ty; cbn [negb] in E; [|apply pair_equal_spec in E; destruct E as (_ & E); discriminate E]. apply ht_eqb_eq in Ty.
  destruct (Crashes.frame_body _ hs 2 B F ltac:(rewrite Ty; reflexivity)) as (rest & Em). apply (shcrash_hello _ _ _ _ _ Pb T Em).
  destruct (read_message _ _ B F) as (_ & _ & _ & Bf & _).
  destruct (server_hello_from_raw (hs_fraqment hs)) as [sh|er|] eqn:Esh; [|discriminate E|left; now apply ServerHelloPanics.server_hello_sort]. right. exists sh. split; [reflexivity|].
  rewrite ServerAccept.sbind_Ok in E. destruct sh as [rnd sid cs xs]. cbn [sh_suite sh_exts] in E.
  assert (Sc : cs = SCSV \/ exists HH c, suite_tshash cs = Ok (th_new HH) /\ suite_cipher cs = Ok c).
  { destruct (Negotiate.suite_dec cs SCSV) as [S|S]; [left; exact S|right; now apply HelloCrashes.suite_total]. }
  destruct Sc as [-> |(HH & c & E1 & E2)]; [discriminate|]. rewrite E1, ServerAccept.sbind_Ok, Eh in E. cbn [unwrap] in E. rewrite ServerAccept.sbind_Ok in E.
  destruct (server_public_key_share _) as [share|] eqn:Sh; [|discriminate]. destruct (used_share _ _ _ Bf Esh Sh) as (Bs & [Is|Is]); [exact Is|]. exfalso. rewrite Ek in E.
  match type of E with context [from_handshake ?t ?k ?sh] => assert (FT : from_handshake t k sh <> Panic) by (apply HelloCrashes.from_handshake_total; [exact Hs|left; exact Bs|exact Is]);
    destruct (from_handshake t k sh) as [ks|er|] end; [|discriminate|congruence].
  rewrite ServerAccept.sbind_Ok, E2, ServerAccept.sbind_Ok in E. destruct (HelloCrashes.rpp_new_total ks c true) as (p & Ep). rewrite Ep, ServerAccept.sbind_Ok in E.
  destruct (cc_keylog cfg); [rewrite Er in E; cbn [unwrap] in E; rewrite !ServerAccept.sbind_Ok in E; discriminate|rewrite ServerAccept.sbind_Ok in E; discriminate].
Qed.
Local Opaque handle_server_hello.

Lemma record_step cfg e now bytes k h rec buf n h' o : client_ok cfg e -> wellformed rec -> within bytes rec -> record_from_raw buf = Ok (n, rec) -> 0 <= k < 2^60 ->
  cheld cfg e bytes k h -> client_record cfg e now h rec = (h', o) ->
  match o with
  | Ok _ => cheld cfg e bytes (k + 1) h' /\ cl_state h' <> CsServerHello
  | Err _ => True
  | Panic => (cl_state h = CsServerHello /\ server_hello_crash buf) \/ exists x, cgreeted cfg e x /\ within bytes (cg_first x) /\ client_crash cfg e bytes (cg_g x) buf
  end.
Proof.
  intros Ok' W Wi Pb Lk Hh E. pose proof W as (Bh & Lh & Bf & Lf). unfold client_record in E.
  assert (SAME : cl_state h <> CsServerHello -> h' = h -> o = Ok tt -> match o with
    | Ok _ => cheld cfg e bytes (k + 1) h' /\ cl_state h' <> CsServerHello
    | Err _ => True
    | Panic => (cl_state h = CsServerHello /\ server_hello_crash buf) \/ exists x, cgreeted cfg e x /\ within bytes (cg_first x) /\ client_crash cfg e bytes (cg_g x) buf end).
  { intros N -> ->. split; [eapply cheld_up; [|exact Hh]; lia|exact N]. }
  assert (ENC : r_type rec <> RAlert -> r_type rec <> RChangeCipherSpec ->
    match cl_state h with CsServerHello => match r_type rec with RHandshake => handle_server_hello cfg h rec | _ => (h, Err UnexpectedMessage) end
      | CsReady => (h, Ok tt) | _ => client_encrypted_record cfg e now h rec end = (h', o) -> match o with
    | Ok _ => cheld cfg e bytes (k + 1) h' /\ cl_state h' <> CsServerHello
    | Err _ => True
    | Panic => (cl_state h = CsServerHello /\ server_hello_crash buf) \/ exists x, cgreeted cfg e x /\ within bytes (cg_first x) /\ client_crash cfg e bytes (cg_g x) buf end).
  { intros T1 T2 E1. assert (EE : cl_state h <> CsServerHello -> cl_state h <> CsReady -> client_encrypted_record cfg e now h rec = (h', o) -> match o with
      | Ok _ => cheld cfg e bytes (k + 1) h' /\ cl_state h' <> CsServerHello
      | Err _ => True
      | Panic => (cl_state h = CsServerHello /\ server_hello_crash buf) \/ exists x, cgreeted cfg e x /\ within bytes (cg_first x) /\ client_crash cfg e bytes (cg_g x) buf end).
    { intros N1 N2 E2. apply cheld_mid in Hh; [|exact N1]. destruct Hh as (x & G & Wx & M).
      pose proof (encrypted_step _ _ _ _ _ _ _ _ _ _ _ _ Ok' G W Wi Pb T1 T2 (proj2 Lk) N2 M E2) as C. destruct o as [u|er|]; [|exact I|].
      - pose proof (mid_not _ _ _ _ C) as N'. split; [|exact N']. apply cheld_mid; [exact N'|]. eauto.
      - right. eauto. }
    destruct (cl_state h) eqn:St; try (apply EE; [discriminate|discriminate|exact E1]).
    - unfold cheld in Hh. rewrite St in Hh. destruct Hh as (Eh & Er & Ek & Rq & Cn & Pn).
      destruct (r_type rec) eqn:T; try (apply pair_equal_spec in E1; destruct E1 as (_ & <-); exact I).
      destruct o as [u|er|]; [|exact I|left; split; [reflexivity|]; exact (hello_panics _ _ _ _ _ _ _ Ok' Bf Pb T Eh Er Ek E1)].
      destruct (server_hello_step cfg e h rec h' u Ok' Bf Lf Eh Er Ek E1) as (HH & sh & g & p0 & A & S & N & Es & Th & St' & Rq' & Ct' & Kl' & Lg').
      split; [|congruence]. apply cheld_mid; [congruence|]. exists (CGreet rec HH sh g p0).
      assert (G : cgreeted cfg e (CGreet rec HH sh g p0)).
      { unfold cgreeted. cbn [cg_first cg_hash cg_sh cg_g cg_p0]. split; [exact T|]. split; [exact A|]. split; [exact S|]. split; [|exact N].
        destruct A as (hs & share & a & _ & _ & _ & -> & _). rewrite zlen_app. destruct (greeting_bytes cfg e Ok'). lia. }
      split; [exact G|]. split; [exact Wi|]. unfold cmid. rewrite St'. exists 0, p0. eexists. split; [lia|]. split; [exact Th|]. split; [rewrite Es; reflexivity|].
      split; [|rewrite Rq', Rq, Ct', Cn; split; discriminate].
      destruct (cgreeted_keys _ _ _ G) as (_ & _ & Hk). cbn [cg_p0 cg_g] in Hk. destruct (rpp_new_shape _ _ _ _ N) as (N1 & N2 & N3 & N4).
      unfold guarded, peer_key, cur_keys, keyed. cbn [cg_hash cg_g]. rewrite N1, N2, N3, N4, Hk. cbn [negb]. auto 10.
    - apply pair_equal_spec in E1. destruct E1 as (E1 & E2). apply SAME; congruence. }
  destruct (r_type rec) eqn:T; try (apply ENC; [discriminate|discriminate|exact E]).
  - destruct (cl_state h) eqn:St; apply pair_equal_spec in E; destruct E as (E1 & E2); try (apply SAME; congruence). subst o. exact I.
  - assert (ALERT : (length (r_fragment rec) < 2)%nat -> (cl_state h = CsServerHello /\ server_hello_crash buf) \/ exists x, cgreeted cfg e x /\ within bytes (cg_first x) /\ client_crash cfg e bytes (cg_g x) buf).
    { intros L. destruct (at_hello h) as [N|N]; [left; split; [exact N|exact (shcrash_alert _ _ _ Pb T L)]|]. right. apply cheld_mid in Hh; [|exact N]. destruct Hh as (x & G & Wx & _).
      exists x. split; [exact G|]. split; [exact Wx|]. exact (ccrash_alert _ _ _ _ _ _ _ Pb T L). }
    destruct (r_fragment rec) as [|a [|b l]] eqn:F.
    + cbn in E. apply pair_equal_spec in E. destruct E as (_ & <-). apply ALERT. cbn. lia.
    + cbn in E. apply pair_equal_spec in E. destruct E as (_ & <-). apply ALERT. cbn. lia.
    + cbn [idx nth_error unwrap] in E. rewrite ServerAccept.sbind_Ok in E. apply pair_equal_spec in E. destruct E as (_ & <-). exact I.
Qed.

(* ---- the records of a read ---- *)
Local Transparent record_from_raw.
Lemma cut_crash cfg e bytes g x : is_bytes x -> record_from_raw x = Panic -> client_crash cfg e bytes g x.
Proof.
  intros B E. destruct x as [|t [|v1 [|v2 [|a [|b rest]]]]]; try (unfold record_from_raw in E; discriminate E).
  apply panics_exactly in E; [|exact B]. destruct E as (I & L). exact (ccrash_cut _ _ _ _ _ t v1 v2 a b rest eq_refl I L).
Qed.
Lemma hello_cut x : is_bytes x -> record_from_raw x = Panic -> server_hello_crash x.
Proof.
  intros B E. destruct x as [|t [|v1 [|v2 [|a [|b rest]]]]]; try (unfold record_from_raw in E; discriminate E).
  apply panics_exactly in E; [|exact B]. destruct E as (I & L). exact (shcrash_cut _ t v1 v2 a b rest eq_refl I L).
Qed.
Local Opaque record_from_raw.
Lemma records_snoc l r : whole_records l -> record_from_raw (wire r) = Ok (length (wire r), r) -> whole_records (l ++ wire r).
Proof. intros (rs & -> & F) H. exists (rs ++ [r]). rewrite map_app, concat_app. cbn [map concat]. rewrite app_nil_r. split; [reflexivity|]. apply Forall_app. auto. Qed.
Lemma records_app a b : whole_records a -> whole_records b -> whole_records (a ++ b).
Proof. intros (r1 & -> & F1) (r2 & -> & F2). exists (r1 ++ r2). rewrite map_app, concat_app. split; [reflexivity|]. apply Forall_app. auto. Qed.
Lemma records_none : whole_records [].
Proof. exists []. split; [reflexivity|constructor]. Qed.

Lemma records_step cfg e now bytes k fuel : forall h rx defrag offset h' d' o pre, client_ok cfg e -> is_bytes bytes -> 0 <= k -> rx <> [] ->
  bytes = pre ++ source rx defrag -> k + zlen (source rx defrag) < 2^60 -> (offset <= length (source rx defrag))%nat ->
  (length (source rx defrag) - offset < fuel)%nat -> (defrag <> [] -> (offset < length defrag)%nat) -> whole_records (firstn offset (source rx defrag)) ->
  (cl_state h = CsServerHello -> offset = 0%nat) -> cheld cfg e bytes (k + Z.of_nat offset) h ->
  client_records fuel cfg e now h rx defrag offset = ((h', d'), o) ->
  match o with
  | Ok _ => cheld cfg e bytes (k + zlen (source rx defrag)) h' /\ (cl_state h <> CsServerHello -> cl_state h' <> CsServerHello) /\
      exists w, source rx defrag = w ++ d' /\ whole_records w /\ (cl_state h' = CsServerHello -> w = [])
  | Err _ => True
  | Panic => (cl_state h = CsServerHello /\ server_hello_crash (source rx defrag)) \/ exists x w y, source rx defrag = w ++ y /\ whole_records w /\
      cgreeted cfg e x /\ within bytes (cg_first x) /\ client_crash cfg e bytes (cg_g x) y
  end.
Proof.
  induction fuel as [|f IH]; intros h rx defrag offset h' d' o pre Ok' B K0 Nx Eb Lk Lo Lf Ld Wo O0 F E; [lia|]. cbn [client_records] in E.
  destruct (negb (Nat.ltb offset (length rx) || negb match defrag with [] => true | _ => false end)) eqn:Cnd.
  { apply pair_equal_spec in E. destruct E as (E & <-). apply pair_equal_spec in E. destruct E as (<- & <-).
    apply Bool.negb_true_iff, Bool.orb_false_iff in Cnd. destruct Cnd as (C1 & C2). apply Nat.ltb_ge in C1. destruct defrag; [|discriminate].
    split; [eapply cheld_up; [|exact F]; unfold zlen; lia|]. split; [auto|]. cbn [source] in *. exists rx. rewrite app_nil_r. split; [reflexivity|].
    rewrite firstn_all2 in Wo by lia. split; [exact Wo|]. intros S. rewrite (O0 S) in C1. destruct rx; [reflexivity|cbn in C1; lia]. }
  assert (SB : match defrag with [] => slice_from (E:=tls_error) rx offset | _ => slice_from defrag offset end = Ok (skipn offset (source rx defrag))).
  { unfold source in *. destruct defrag; unfold slice_from; destruct (Nat.leb_spec offset (length rx)); try reflexivity; try lia;
      destruct (Nat.leb_spec offset (length (z :: defrag))); try reflexivity; lia. }
  rewrite SB, ServerAccept.sbind_Ok in E. cbn [fst snd] in E. set (src := source rx defrag) in *.
  assert (Bsrc : is_bytes src) by (rewrite Eb in B; apply is_bytes_app in B; apply B).
  assert (Bbuf : is_bytes (skipn offset src)) by now apply is_bytes_skipn.
  destruct (record_from_raw (skipn offset src)) as [[n rec]|er|] eqn:R.
  - destruct (from_raw_wire _ _ _ Bbuf R) as (W & Ew & En & Ln). rewrite skipn_length in Ln. destruct (parsed _ _ _ Bbuf R) as (_ & Ef & Pr & Hn).
    assert (Wi : within bytes rec).
    { exists (pre ++ firstn offset src), (skipn n (skipn offset src)). rewrite <- Ew, <- app_assoc, firstn_skipn. exact Eb. }
    assert (Wo' : whole_records (firstn (offset + n) src)).
    { assert (firstn (offset + n) src = firstn offset src ++ wire rec) as ->; [|now apply records_snoc].
      rewrite <- Ef. rewrite <- (firstn_skipn offset src) at 1. rewrite firstn_app, firstn_firstn, firstn_length. f_equal; [f_equal; lia|f_equal; lia]. }
    destruct (client_record cfg e now h rec) as [h1 o1] eqn:C.
    pose proof (record_step cfg e now bytes (k + Z.of_nat offset) h rec _ n h1 o1 Ok' W Wi R ltac:(unfold zlen in *; lia) F C) as H1.
    destruct o1 as [u1|e1|].
    + destruct H1 as (H1 & N1).
      assert (F1 : cheld cfg e bytes (k + Z.of_nat (offset + n)) h1) by (eapply cheld_up; [|exact H1]; lia).
      destruct (Nat.eqb_spec (offset + n) (length defrag)) as [Q|Q].
      * apply pair_equal_spec in E. destruct E as (E & <-). apply pair_equal_spec in E. destruct E as (<- & <-).
        split; [eapply cheld_up; [|exact F1]; unfold zlen; lia|]. split; [auto|]. exists src. rewrite app_nil_r. split; [reflexivity|].
        assert (length src = length defrag) as Ls by (unfold src, source in *; destruct defrag; [cbn in Q; lia|reflexivity]).
        rewrite firstn_all2 in Wo' by lia. split; [exact Wo'|congruence].
      * assert (HI : (length src - (offset + n) < f)%nat) by lia. assert (HO : (offset + n <= length src)%nat) by lia.
        assert (HD : defrag <> [] -> (offset + n < length defrag)%nat) by (intros Nd; unfold src, source in HO; destruct defrag; [congruence|lia]).
        pose proof (IH h1 rx defrag (offset + n)%nat h' d' o pre Ok' B K0 Nx Eb Lk HO HI HD Wo' ltac:(congruence) F1 E) as H2.
        destruct o as [u|er|]; [|exact I|]; [destruct H2 as (X1 & X2 & X3); auto|]. destruct H2 as [(H2 & _)|H2]; [congruence|right; exact H2].
    + apply pair_equal_spec in E. destruct E as (_ & <-). exact I.
    + apply pair_equal_spec in E. destruct E as (_ & <-). destruct H1 as [(N & H1)|(x & G & Wx & Cr)]; [left; split; [exact N|]; rewrite (O0 N) in H1; exact H1|]. right. exists x, (firstn offset src), (skipn offset src).
      split; [symmetry; apply firstn_skipn|]. auto.
  - apply pair_equal_spec in E. destruct E as (E & <-). apply pair_equal_spec in E. destruct E as (<- & <-).
    split; [eapply cheld_up; [|exact F]; unfold zlen; lia|]. split; [auto|]. unfold src, source in *. destruct defrag as [|d0 dr].
    + exists (firstn offset rx). split; [symmetry; apply firstn_skipn|]. split; [exact Wo|]. intros S. now rewrite (O0 S).
    + exists []. split; [reflexivity|]. split; [exact records_none|reflexivity].
  - apply pair_equal_spec in E. destruct E as (_ & <-). destruct (at_hello h) as [N|N]; [left; split; [exact N|]; rewrite (O0 N) in *; exact (hello_cut _ Bbuf R)|]. right. apply cheld_mid in F; [|exact N]. destruct F as (x & G & Wx & _).
    exists x, (firstn offset src), (skipn offset src). split; [symmetry; apply firstn_skipn|]. split; [exact Wo|]. split; [exact G|]. split; [exact Wx|]. now apply cut_crash.
Qed.

(* ---- the reads ---- *)
Lemma flush_step cfg e bytes k h h' u : cl_flush h = (h', Ok u) -> cheld cfg e bytes k h -> cheld cfg e bytes k h' /\ cl_state h' = cl_state h.
Proof.
  intros E H. apply cl_flush_ok in E. destruct E as (s & -> & _ & P & _). split; [|reflexivity].
  unfold cheld, cmid, carm in *. cbn [cl_with_stream cl_state cl_hello cl_random cl_key cl_request cl_cert cl_stream cl_th]. rewrite P. exact H.
Qed.
Lemma reads_step cfg e now T reads : forall pre w h defrag h' o k, client_ok cfg e -> is_bytes (pre ++ concat reads) -> zlen (pre ++ concat reads) <= T -> T < 2^25 ->
  0 <= k <= zlen pre * T -> cheld cfg e pre k h -> pre = w ++ defrag -> whole_records w -> (cl_state h = CsServerHello -> w = []) ->
  client_reads cfg e now h defrag reads = (h', o) ->
  match o with
  | None => exists df w' k', 0 <= k' <= zlen (pre ++ concat reads) * T /\ cheld cfg e (pre ++ concat reads) k' h' /\ pre ++ concat reads = w' ++ df /\ whole_records w' /\
      forall later, client_reads cfg e now h defrag (reads ++ later) = client_reads cfg e now h' df later
  | Some Panic => (cl_state h = CsServerHello /\ exists r1 r2, reads = r1 ++ r2 /\ server_hello_crash (pre ++ concat r1)) \/ exists x r1 r2 w' y, reads = r1 ++ r2 /\ pre ++ concat r1 = w' ++ y /\ whole_records w' /\
      cgreeted cfg e x /\ within (pre ++ concat r1) (cg_first x) /\ client_crash cfg e (pre ++ concat r1) (cg_g x) y
  | Some _ => True
  end.
Proof.
  induction reads as [|chunk rest IH]; intros pre w h defrag h' o k Ok' B LT T26 Lk F D Ww W0 E; cbn [client_reads] in E.
  - destruct (cl_state h); apply pair_equal_spec in E; destruct E as (<- & <-); try exact I; exists defrag, w, k; cbn [concat app]; rewrite app_nil_r; auto 10.
  - set (GOAL := match o with None => exists df w' k', 0 <= k' <= zlen (pre ++ concat (chunk :: rest)) * T /\ cheld cfg e (pre ++ concat (chunk :: rest)) k' h' /\ pre ++ concat (chunk :: rest) = w' ++ df /\ whole_records w' /\
      forall later, client_reads cfg e now h defrag ((chunk :: rest) ++ later) = client_reads cfg e now h' df later | Some Panic => (cl_state h = CsServerHello /\ exists r1 r2, chunk :: rest = r1 ++ r2 /\ server_hello_crash (pre ++ concat r1)) \/ exists x r1 r2 w' y, chunk :: rest = r1 ++ r2 /\ pre ++ concat r1 = w' ++ y /\ whole_records w' /\
      cgreeted cfg e x /\ within (pre ++ concat r1) (cg_first x) /\ client_crash cfg e (pre ++ concat r1) (cg_g x) y | Some _ => True end).
    assert (STEP : cl_state h <> CsReady -> chunk <> [] -> forall h1 d1 u1 h2 u2, client_records (S (length chunk + length (match defrag with [] => [] | _ => defrag ++ chunk end))) cfg e now h chunk (match defrag with [] => [] | _ => defrag ++ chunk end) 0 = ((h1, d1), Ok u1) ->
      cl_flush h1 = (h2, Ok u2) -> forall later, client_reads cfg e now h defrag ((chunk :: rest) ++ later) = client_reads cfg e now h2 d1 (rest ++ later)).
    { intros Nr Nc h1 d1 u1 h2 u2 C Fl later. cbn [app client_reads]. destruct chunk as [|c0 ck]; [congruence|]. cbn [tcp_read]. cbv zeta. rewrite C, Fl. destruct (cl_state h); congruence. }
    assert (REST : cl_state h <> CsReady -> (match tcp_read chunk with
      | Ok rx =>
          let defrag := match defrag with [] => [] | _ => defrag ++ rx end in
          match client_records (S (length rx + length defrag)) cfg e now h rx defrag 0 with
          | ((h, defrag), Ok _) => match cl_flush h with (h, Ok _) => client_reads cfg e now h defrag rest | (h, o) => (h, Some o) end
          | ((h, _), o) => (h, Some o)
          end
      | Err er => (h, Some (Err er))
      | Panic => (h, Some Panic)
      end = (h', o)) -> GOAL).
    { clear E. intros NR E. unfold GOAL. destruct chunk as [|c0 chunk0]; [cbn [tcp_read] in E; apply pair_equal_spec in E; destruct E as (_ & <-); exact I|]. cbn [tcp_read] in E. set (rx := c0 :: chunk0) in *.
      assert (Lrx : 1 <= zlen rx) by (unfold rx, zlen; cbn [length]; lia). assert (Nrx : rx <> []) by discriminate. specialize (STEP NR Nrx). clearbody rx. cbn [concat] in B, LT. rewrite app_assoc in B, LT.
      cbv zeta in E. set (dd := match defrag with [] => [] | _ => defrag ++ rx end) in *.
      assert (SRC : pre ++ rx = w ++ source rx dd).
      { unfold source, dd. rewrite D. destruct defrag as [|d0 dr]; [now rewrite app_nil_r|]. cbn [app]. rewrite <- app_assoc. reflexivity. }
      pose proof B as B0. apply is_bytes_app in B0. destruct B0 as (B0 & _).
      pose proof (zlen_nonneg pre) as Np. pose proof (zlen_nonneg (concat rest)) as Nr. pose proof (zlen_nonneg w) as Nw.
      assert (LS : zlen (source rx dd) <= T) by (rewrite zlen_app in LT; pose proof (f_equal (@zlen Z) SRC) as Q; rewrite !zlen_app in Q; rewrite zlen_app in LT; lia).
      assert (LP : zlen pre + zlen rx <= T) by (rewrite !zlen_app in LT; lia).
      assert (KT : k <= T * T) by nia. assert (TT : T * T < 2^51) by (change (2^51) with (2^25 * 2^26); assert (0 <= T) by lia; nia).
      assert (F0 : cheld cfg e (pre ++ rx) (k + Z.of_nat 0) h) by (eapply cheld_more; [|exact F]; lia).
      destruct (client_records _ cfg e now h rx dd 0) as [[h1 d1] o1] eqn:C.
      assert (HF : (length (source rx dd) - 0 < S (length rx + length dd))%nat) by (unfold source; destruct dd; cbn [length]; lia).
      assert (HD : dd <> [] -> (0 < length dd)%nat) by (destruct dd; [congruence|cbn; lia]).
      pose proof (records_step cfg e now (pre ++ rx) k _ h rx dd 0 h1 d1 o1 w Ok' B0 (proj1 Lk) Nrx SRC ltac:(lia) (Nat.le_0_l _) HF HD records_none ltac:(reflexivity) F0 C) as H1.
      destruct o1 as [u1|e1|].
      - destruct H1 as (H1 & N1 & w1 & Es & W1 & W10). destruct (cl_flush h1) as [h2 [u2|e2|]] eqn:Fl.
        + destruct (flush_step _ _ _ _ _ _ _ Fl H1) as (H2 & S2). pose proof (zlen_nonneg (source rx dd)) as Ls.
          pose proof (IH (pre ++ rx) (w ++ w1) h2 d1 h' o (k + zlen (source rx dd)) Ok' B LT T26 ltac:(rewrite zlen_app; nia) H2) as H3.
          rewrite SRC, Es, app_assoc in H3. assert (W2 : cl_state h2 = CsServerHello -> w ++ w1 = []).
          { intros S. rewrite S2 in S. rewrite (W10 S), app_nil_r. apply W0. destruct (at_hello h) as [N|N]; [exact N|]. now apply N1 in N. }
          specialize (H3 eq_refl (records_app _ _ Ww W1) W2 E). destruct o as [[u|er|]|]; try exact I.
          2:{ destruct H3 as (df & w' & k' & X1 & X2 & X3 & X4 & X5). exists df, w', k'. cbn [concat]. rewrite app_assoc, SRC, Es, (app_assoc w). do 4 (split; [assumption|]).
              intros later. rewrite (STEP _ _ _ _ _ eq_refl Fl). apply X5. }
          destruct H3 as [(S & r1 & r2 & E1 & X)|(x & r1 & r2 & w' & y & E1 & E2 & X)].
          { left. split; [destruct (at_hello h) as [N|N]; [exact N|]; rewrite S2 in S; now apply N1 in N|]. exists (rx :: r1), r2. split; [cbn [app]; now rewrite E1|].
            cbn [concat]. rewrite app_assoc, SRC, Es, (app_assoc w). exact X. }
          right. exists x, (rx :: r1), r2, w', y. split; [cbn [app]; now rewrite E1|].
          cbn [concat]. rewrite app_assoc, SRC, Es, (app_assoc w). split; [exact E2|exact X].
        + apply pair_equal_spec in E. destruct E as (_ & <-). exact I.
        + exfalso. unfold cl_flush in Fl. destruct (flush (cl_stream h1)) as [s r] eqn:F1. apply pair_equal_spec in Fl. destruct Fl as (_ & ->). exact (flush_total _ _ F1).
      - apply pair_equal_spec in E. destruct E as (_ & <-). exact I.
      - apply pair_equal_spec in E. destruct E as (_ & <-). destruct H1 as [(N & H1)|(x & w1 & y & Es & W1 & G & Wx & Cr)].
        { left. split; [exact N|]. exists [rx], rest. split; [reflexivity|]. cbn [concat]. rewrite app_nil_r, SRC, (W0 N). exact H1. }
        right. exists x, [rx], rest, (w ++ w1), y. split; [reflexivity|]. cbn [concat]. rewrite app_nil_r. split; [rewrite SRC, Es, app_assoc; reflexivity|]. split; [now apply records_app|]. auto. }
    destruct (cl_state h) eqn:St; try exact (REST ltac:(discriminate) E). unfold GOAL. apply pair_equal_spec in E. destruct E as (_ & <-). exact I.
Qed.

Lemma crashes cfg e now so before reads h p : client_ok cfg e -> is_bytes (concat (before ++ reads)) -> zlen (concat (before ++ reads)) < 2^25 ->
  connect cfg e now so before = (h, None) -> st_protection (cl_stream h) = Some p -> snd (connect cfg e now so (before ++ reads)) = Some Panic ->
  exists first sh g r1 r2 done x, reads = r1 ++ r2 /\ concat (before ++ r1) = done ++ x /\ whole_records done /\
    within (concat (before ++ r1)) first /\ r_type first = RHandshake /\ agrees cfg e (r_fragment first) sh g /\ client_crash cfg e (concat (before ++ r1)) g x.
Proof.
  intros Ok' B L C Hp Pa. destruct (ClientReads.connect_none _ _ _ _ _ _ C) as (h0 & u0 & S & R0).
  destruct (hello_sent _ _ _ _ _ Ok' S) as (Eh & Pn & Bf & O). rewrite concat_app in B, L.
  assert (H0 : cheld cfg e [] 0 h0).
  { unfold cheld. assert (cl_state h0 = CsServerHello) as -> by (rewrite Eh; reflexivity). do 5 (split; [rewrite Eh; reflexivity|]). exact Pn. }
  set (T := zlen (concat before ++ concat reads)) in *. assert (L0 : zlen ([] ++ concat before) <= T) by (cbn [app]; unfold T; rewrite zlen_app; pose proof (zlen_nonneg (concat reads)); lia).
  pose proof (reads_step cfg e now T before [] [] h0 [] h None 0 Ok' (proj1 (proj1 (is_bytes_app _ _) B)) L0 L ltac:(cbn; lia) H0 eq_refl records_none ltac:(reflexivity) R0) as N. cbn [app] in N.
  destruct N as (df & w & k & Lk & Hk & Es & Ww & App).
  assert (Ns : cl_state h <> CsServerHello).
  { intros St. unfold cheld in Hk. rewrite St in Hk. destruct Hk as (_ & _ & _ & _ & _ & X). congruence. }
  assert (PR : exists h', client_reads cfg e now h df reads = (h', Some Panic)).
  { unfold connect, client_do_handshake in Pa. pose proof (ClientAlerts.connect_talk cfg e now so (before ++ reads)) as T4. unfold client_do_handshake in T4. rewrite S in Pa, T4. rewrite App in Pa, T4.
    destruct (client_reads cfg e now h df reads) as [h' o] eqn:E. exists h'. f_equal. cbn [fst] in T4. destruct o as [[u|er|]|]; try discriminate Pa; [|reflexivity].
    destruct (report_error (cl_stream h') er) as [s o] eqn:Re. cbn [snd] in Pa. exfalso.
    destruct (report_spec _ _ _ _ _ _ T4 ltac:(lia) Re) as (R1 & R2). destruct (is_official er) eqn:Oe.
    - apply official_code in Oe. destruct (R2 Oe) as (wr & _ & [(_ & X)|(j & _ & _ & _ & X)]); rewrite X in Pa; discriminate Pa.
    - assert (Cd : rfc8446_code er = None) by (destruct (rfc8446_code er) eqn:Cd; [|reflexivity]; assert (X : is_official er = true) by (apply official_code; congruence); congruence).
      destruct (R1 Cd) as (_ & X). rewrite X in Pa. discriminate Pa. }
  destruct PR as (h' & PR).
  destruct (reads_step cfg e now T reads (concat before) w h df h' (Some Panic) k Ok' B (Z.le_refl _) L Lk Hk Es Ww ltac:(congruence) PR) as [(S' & _)|(x & r1 & r2 & w' & y & E1 & E2 & W' & (Ft & Ag & _) & Wx & Cr)]; [congruence|].
  exists (cg_first x), (cg_sh x), (cg_g x), r1, r2, w', y. rewrite concat_app. auto 10.
Qed.

Lemma hello_total cfg e so h' : client_ok cfg e -> send_client_hello cfg e (client_new e so) <> (h', Panic).
Proof.
  intros Ok' E. destruct (hello_built cfg e Ok') as (ch & body & H1 & H2 & H3). unfold send_client_hello in E.
  cbn [client_new cl_key] in E. rewrite H1, ServerAccept.sbind_Ok, H2, ServerAccept.sbind_Ok in E. cbv zeta in E. unfold tcp_write in E.
  destruct (write_all _ _) as [so' []]; discriminate E.
Qed.
Lemma all_crashes cfg e now so reads : client_ok cfg e -> is_bytes (concat reads) -> zlen (concat reads) < 2^25 -> snd (connect cfg e now so reads) = Some Panic ->
  (exists r1 r2, reads = r1 ++ r2 /\ server_hello_crash (concat r1)) \/
  exists first sh g r1 r2 done x, reads = r1 ++ r2 /\ concat r1 = done ++ x /\ whole_records done /\
    within (concat r1) first /\ r_type first = RHandshake /\ agrees cfg e (r_fragment first) sh g /\ client_crash cfg e (concat r1) g x.
Proof.
  intros Ok' B L Pa. unfold connect, client_do_handshake in Pa. pose proof (ClientAlerts.connect_talk cfg e now so reads) as T4. unfold client_do_handshake in T4.
  destruct (send_client_hello cfg e (client_new e so)) as [h0 [u0|er|]] eqn:S.
  3:{ destruct (hello_total _ _ _ _ Ok' S). }
  - destruct (hello_sent _ _ _ _ _ Ok' S) as (Eh & Pn & Bf & O).
    assert (St : cl_state h0 = CsServerHello) by (rewrite Eh; reflexivity).
    assert (H0 : cheld cfg e [] 0 h0).
    { unfold cheld. rewrite St. do 5 (split; [rewrite Eh; reflexivity|]). exact Pn. }
    destruct (client_reads cfg e now h0 [] reads) as [h' o] eqn:E. cbn [fst] in T4.
    assert (o = Some Panic) as ->.
    { destruct o as [[u|er|]|]; try discriminate Pa; [|reflexivity]. destruct (report_error (cl_stream h') er) as [s o] eqn:Re. cbn [snd] in Pa. exfalso.
      destruct (report_spec _ _ _ _ _ _ T4 ltac:(lia) Re) as (R1 & R2). destruct (is_official er) eqn:Oe.
      - apply official_code in Oe. destruct (R2 Oe) as (wr & _ & [(_ & X)|(j & _ & _ & _ & X)]); rewrite X in Pa; discriminate Pa.
      - assert (Cd : rfc8446_code er = None) by (destruct (rfc8446_code er) eqn:Cd; [|reflexivity]; assert (X : is_official er = true) by (apply official_code; congruence); congruence).
        destruct (R1 Cd) as (_ & X). rewrite X in Pa. discriminate Pa. }
    destruct (reads_step cfg e now (zlen (concat reads)) reads [] [] h0 [] h' (Some Panic) 0 Ok' B (Z.le_refl _) L ltac:(cbn; lia) H0 eq_refl records_none ltac:(reflexivity) E)
      as [(_ & r1 & r2 & X)|(x & r1 & r2 & w' & y & E1 & E2 & W' & (Ft & Ag & _) & Wx & Cr)]; [left; exists r1, r2; exact X|].
    right. exists (cg_first x), (cg_sh x), (cg_g x), r1, r2, w', y. cbn [app] in *. auto 10.
  - exfalso. cbn [fst] in T4. destruct (report_error (cl_stream h0) er) as [s o] eqn:Re. cbn [snd] in Pa.
    destruct (report_spec _ _ _ _ _ _ T4 ltac:(lia) Re) as (R1 & R2). destruct (is_official er) eqn:Oe.
    + apply official_code in Oe. destruct (R2 Oe) as (wr & _ & [(_ & X)|(j & _ & _ & _ & X)]); rewrite X in Pa; discriminate Pa.
    + assert (Cd : rfc8446_code er = None) by (destruct (rfc8446_code er) eqn:Cd; [|reflexivity]; assert (X : is_official er = true) by (apply official_code; congruence); congruence).
      destruct (R1 Cd) as (_ & X). rewrite X in Pa. discriminate Pa.
Qed.
