(* a client with a certificate for "ca" that the server takes for "otsmr", and one whose certificate has expired *)
From Verif Require Import Proofs.Util Proofs.Bytes Model.Alert Model.Record Model.Curve Model.Signature Model.X509 Model.Certificate Model.Stream Model.Server
  Spec.Enc Spec.Fips180 Spec.HelloView Spec.Rfc8446Auth Spec.Tls13Record Spec.Calendar Spec.X509 Spec.X509View Spec.Connection Spec.Impersonation.
From Verif Require Spec.Rfc8446Hello Spec.Ecdsa Proofs.X509Cert Proofs.EcdsaP256 Proofs.P256.
From Verif Require Import Proofs.KeySchedule Proofs.Record Proofs.Channel Proofs.Stream Proofs.ServerRun Proofs.ServerKeys Proofs.Opened Proofs.ServerSteps Proofs.ServerFlow Proofs.ServerAccept
  Proofs.ServerAccept2 Proofs.ServerExample Proofs.Impersonation.

Definition otsmr : list Z := [111; 116; 115; 109; 114].
Definition im_cfg (who : list Z) : server_config :=
  {| sc_privkey := sc_privkey (ex_cfg true); sc_cert := sc_cert (ex_cfg true); sc_client_ca := sc_client_ca (ex_cfg true);
     sc_verify := Some (common_name_is who); sc_keylog := sc_keylog (ex_cfg true); sc_server_name := sc_server_name (ex_cfg true) |}.
Lemma im_server_ok who : server_ok (im_cfg who) ex_draws. Proof. exact (ex_server_ok true). Qed.
Lemma im_answered who : exists body g, answers (im_cfg who) ex_draws ex_first (hello_view ex_hello) body g. Proof. exact (ex_answered true). Qed.
Lemma im_can_sign who g : can_sign (im_cfg who) ex_draws g. Proof. exact (ex_can_sign true g). Qed.
Lemma im_issued : issued (Gx, Gy) own_cert.
Proof.
  split; [exact own_tbs_ok|]. split; [vm_compute; discriminate|].
  destruct own_signed as (r & s & part & E1 & E2 & E3).
  assert (Er : (r, s) = (be_val (c_r own_cert), be_val (c_s own_cert))).
  { apply (f_equal (fun o => match o with Some v => v | None => (0, 0) end)) in E1. rewrite <- E1. vm_compute. reflexivity. }
  apply pair_equal_spec in Er. destruct Er as (Er & Es). subst r s. assert (Ep : signed_part (E:=tls_error) own_raw own_x = Ok (TBSCertificate own_tbs)).
  { apply (X509Cert.signed_part_ok (E:=tls_error) own_cert own_x own_tbs_ok); [vm_compute; discriminate|vm_compute; reflexivity|exact own_parse]. }
  rewrite Ep in E2. apply Ok_inj in E2. subst part. exact E3.
Qed.

Definition im_m1 (cert : list Z) : list Z :=
  Rfc8446Hello.handshake 11 (Rfc8446Hello.vector8 (d_context ex_draws) ++
    Rfc8446Hello.vector24 (Rfc8446Hello.vector24 cert ++ Rfc8446Hello.vector16 [] ++ [])).
Lemma im_accepted who cert now : is_bytes (im_m1 cert) -> zlen (im_m1 cert) + 17 < 2^16 ->
  (forall hello body g, whole hello -> r_type hello = RHandshake -> answers (im_cfg who) ex_draws (r_fragment hello) (hello_view ex_hello) body g ->
     let_in (im_cfg who) ex_draws now ex_sock hello g own_cert cert) ->
  exists reads h, Forall is_bytes reads /\ accept (im_cfg who) ex_draws now ex_sock reads = (h, Some (Ok tt)).
Proof.
  intros B1 L1 LI. destruct (im_answered who) as (body & g & A).
  assert (Bf : is_bytes ex_first) by (apply is_bytes_check; vm_compute; reflexivity).
  assert (Lf : zlen ex_first < 2^16) by (vm_compute; reflexivity).
  destruct (hello_record ex_first Bf Lf) as (hello & Wh & Th & Fh). rewrite <- Fh in A.
  destruct (LI hello body g Wh Th A) as (der & Sg & C).
  pose proof Bf as Bf'. pose proof Lf as Lf'. rewrite <- Fh in Bf', Lf'. destruct (answers_facts _ _ _ _ _ _ (im_server_ok who) Bf' Lf' A) as (_ & _ & _ & _ & H & _ & _ & _ & _ & _ & _ & _ & _ & _ & S & _).
  assert (Bv : forall msgs, is_bytes msgs -> zlen msgs < 2^53 -> is_bytes (Rfc8446Hello.handshake 20 (verify_data g (client_secret g) msgs)) /\
    zlen (Rfc8446Hello.handshake 20 (verify_data g (client_secret g) msgs)) + 17 < 2^16).
  { intros msgs Bm Lm. destruct (suited_schedule H g S) as (_ & (Bs & Ls) & _). pose proof S as (EA & _).
    destruct (Auth.finished_data H (client_secret g) msgs Bs Ls Bm Lm) as (_ & Lv & Bv). unfold verify_data. rewrite EA.
    split; [apply is_bytes_handshake; [unfold is_byte; lia|exact Bv]|]. unfold zlen. rewrite handshake_length, Lv. destruct H; cbn; lia. }
  assert (Dv : is_bytes der /\ (length der <= 72)%nat).
  { destruct Sg as (k & r & s & _ & (Hr & Hs & _) & Ed). assert (Spec.Ec.P256_n < 2^256) by (vm_compute; reflexivity).
    apply (Auth.der_bounds r s der ltac:(lia) ltac:(lia) Ed). }
  destruct (to_finished_ok H (im_cfg who) ex_draws g der S (im_server_ok who) (proj1 Dv) (proj2 Dv)) as (Bb & Lb).
  set (before := to_server_finished (im_cfg who) ex_draws g der) in *. set (m1 := im_m1 cert) in *.
  destruct (ex_possession (g_alg g) (before ++ m1)) as (m2 & B2 & L2 & (key & sg & dv & size & extra & K & Sd & Em & Su)).
  assert (key = holder_key own_cert) as -> by (rewrite own_public in K; apply Ok_inj in K; apply (f_equal (fun o => match o with Some v => v | None => (0, 0) end)) in K; symmetry; exact K).
  destruct (client_record H g 0 m1 S B1 L1 ltac:(lia)) as (r1 & W1 & T1 & F1).
  destruct (client_record H g 1 m2 S B2 ltac:(lia) ltac:(lia)) as (r2 & W2 & T2 & F2).
  assert (BM : is_bytes (before ++ m1 ++ m2)) by (apply is_bytes_app; split; [exact Bb|]; apply is_bytes_app; split; [exact B1|exact B2]).
  assert (LM : zlen (before ++ m1 ++ m2) < 2^53) by (rewrite !zlen_app; lia).
  destruct (Bv _ BM LM) as (B3 & L3).
  destruct (client_record H g 2 _ S B3 L3 ltac:(lia)) as (r3 & W3 & T3 & F3).
  destruct (C [[hello; r1]; [r2; r3]] [] [r1; r2; r3] [r1; r2] r3 (before ++ m1 ++ m2)) as (h & E).
  - repeat constructor; discriminate.
  - reflexivity.
  - repeat (constructor; [assumption|]). constructor.
  - unfold without_ccs. cbn [filter]. unfold is_ccs. rewrite T1, T2, T3. reflexivity.
  - exists [], [], sg, dv, size, extra, r1, r2, m1, m2. do 9 (split; [first [reflexivity|assumption]|]). split; [exact Em|]. split; [exact Sd|exact Su].
  - exact T3.
  - exact F3.
  - rewrite app_nil_r in E. eexists _, h. split; [|exact E].
    cbn [map concat]. rewrite !app_nil_r. repeat constructor; apply is_bytes_app; split; [apply Wh|apply W1|apply W2|apply W3].
Qed.

Lemma im_name : exists reads h, Forall is_bytes reads /\ accept (im_cfg otsmr) ex_draws own_now ex_sock reads = (h, Some (Ok tt)).
Proof.
  apply (im_accepted otsmr (stuffed_certificate own_cert [rdn (common otsmr)])).
  - apply is_bytes_check. vm_compute. reflexivity.
  - vm_compute. reflexivity.
  - intros hello body g Wh Th A.
    apply (any_name (im_cfg otsmr) ex_draws own_now ex_sock hello (hello_view ex_hello) body g (Cert own_raw (Some own_x)) own_x (Gx, Gy) own_cert (im_server_ok otsmr));
      try assumption; try reflexivity; try (exact own_public); try (exact im_issued); try (apply im_can_sign).
    + unfold otsmr, scalar_value. repeat constructor; lia.
    + cbn. lia.
    + cbn. lia.
    + vm_compute. split; discriminate.
Qed.
Definition im_late : Z := 2100000000. (* 2036 *)
Lemma im_time : exists reads h, Forall is_bytes reads /\ accept (im_cfg [99; 97]) ex_draws im_late ex_sock reads = (h, Some (Ok tt)).
Proof.
  apply (im_accepted [99; 97] (stuffed_certificate own_cert [UTCTime (own_time 2049)])).
  - apply is_bytes_check. vm_compute. reflexivity.
  - vm_compute. reflexivity.
  - intros hello body g Wh Th A.
    apply (any_time (im_cfg [99; 97]) ex_draws im_late ex_sock hello (hello_view ex_hello) body g (Cert own_raw (Some own_x)) own_x (Gx, Gy) own_cert (im_server_ok [99; 97])) with (who := [99; 97]);
      try assumption; try reflexivity; try (exact own_public); try (exact im_issued); try (apply im_can_sign).
    + split; [vm_compute; intuition discriminate|cbn; lia].
    + cbn. lia.
    + cbn. lia.
    + vm_compute. split; discriminate.
Qed.
