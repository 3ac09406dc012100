(* A concrete handshake in two reads, for the statements of Props.Handshake *)
From Verif Require Import Proofs.Util Proofs.Bytes Model.Alert Model.Bytes Model.Suite Model.Sha2 Model.Hmac Model.KeySchedule Model.Record Model.Channel
  Model.Curve Model.Signature Model.Ecdsa Model.X509 Model.Extensions Model.Hello Model.Kex Model.Handshake Model.Certificate
  Model.Stream Model.AppChannel Model.Keylog Model.Server
  Spec.Enc Spec.Rfc2104 Spec.Fips180 Spec.Rfc7748 Spec.KeyShare Spec.Rfc8446Keys Spec.Tls13Record Spec.Endpoints Spec.Writes Spec.Rfc8446Auth Spec.Connection.
From Verif Require Import Spec.HelloView Spec.Negotiation.
From Verif Require Spec.Rfc8446Hello Spec.Ecdsa Proofs.Auth Proofs.X25519Props.
From Verif Require Import Proofs.KeySchedule Proofs.Record Proofs.Channel Proofs.Stream Proofs.ServerRun Proofs.ServerKeys Proofs.Opened Proofs.ServerSteps
  Proofs.ServerFlow Proofs.ServerAccept Proofs.ServerAccept2 Proofs.ServerExample Proofs.Reads Proofs.Alerting Proofs.Cuts.

Local Opaque X25519 shared_secret key_share_of handle_client_hello handle_handshake_record record_from_raw.

Lemma ex_answered_small b : exists body g, answers (ex_cfg b) ex_draws ex_first (hello_view ex_hello) body g /\ zlen body < 200.
Proof.
  destruct (answered (ex_cfg b) ex_draws ex_hello [Rfc8446Hello.OtherExt 0x2a2a []] (repeat 6 32) [(30, repeat 5 56)]
    [Rfc8446Hello.Host [97; 46; 98]; Rfc8446Hello.Versions [0x0303; 0x0304]]) as (g & cs & _ & A & _).
  - exact ex_hello_ok.
  - reflexivity.
  - cbn [app]. repeat (apply Forall_cons || apply Forall_nil); cbn; tauto.
  - cbn [app]. repeat (apply Forall_cons || apply Forall_nil); cbn; tauto.
  - exists 0x1301. split; [right; now left|now left].
  - apply is_bytes_check; reflexivity.
  - reflexivity.
  - cbn [ex_draws d_secrets hd]. lia.
  - eexists _, g. split; [exact A|]. unfold Rfc8446Hello.server_hello_wire, Rfc8446Hello.vector8, Rfc8446Hello.vector16.
    cbn [Rfc8446Hello.s_random Rfc8446Hello.s_session_id Rfc8446Hello.s_suite Rfc8446Hello.s_extensions flat_map Rfc8446Hello.server_extension_wire].
    unfold Rfc8446Hello.extension, Rfc8446Hello.key_share_entry, Rfc8446Hello.vector16. cbn [fst snd].
    set (X := X25519 _ _). assert (LX : length X = 32%nat) by apply X25519Props.X25519_bytes. clearbody X.
    unfold zlen, Rfc8446Hello.u16. rewrite ?app_length, ?be_enc_length, ?app_length, ?be_enc_length, LX. cbn [ex_draws d_random ex_hello Rfc8446Hello.m_session_id length]. rewrite !repeat_length. lia.
Qed.
Lemma hello_waits_keyed cfg d now so hello ch body g :
  server_ok cfg d -> zlen (ct_raw (sc_cert cfg)) < 2^16 - 64 -> so_left so = None ->
  whole hello -> r_type hello = RHandshake -> answers cfg d (r_fragment hello) ch body g -> can_sign cfg d g ->
  exists h p, accept cfg d now so [wire hello] = (h, None) /\ st_protection (sv_stream h) = Some p /\ sv_state h <> SvClientHello /\
    good_cipher (rp_cipher p) /\ key_ready (rp_cipher p) (side_key (negb (rp_is_client p)) (cur_keys p)).
Proof.
  intros Ok' Lcert Nso Wh Th A CS. pose proof (whole_formed _ Wh) as Wf. pose proof Wf as (_ & _ & Bf & Lf).
  destruct (hello_fwd cfg d (server_new so) hello ch body g Ok' Lcert Bf Lf eq_refl Nso A CS) as (h1 & E1 & N1).
  destruct (hello_spec cfg d (server_new so) hello h1 tt Ok' Bf Lf eq_refl E1) as (H & ch' & body' & g' & der & p0 & p1 & ws & A' & Sg & Bd & Ld & S & N & En & O' & P' & Th' & St' & _).
  destruct (flush_endless _ N1) as (s2 & F & _ & Fp & _).
  assert (Fl : sv_flush h1 = (with_stream h1 s2, Ok tt)) by (unfold sv_flush; now rewrite F).
  exists (with_stream h1 s2), p1. split; [|split; [|split; [|]]]; cycle 1.
  { cbn [with_stream sv_stream]. congruence. }
  { cbn [with_stream sv_state]. rewrite St'. destruct (sc_client_ca cfg); discriminate. }
  { pose proof S as (_ & Gc & _). destruct (suited_keys _ _ false S) as (q & Hq & Kq & G1 & G2). rewrite Hq in N. apply Ok_inj in N. injection N as ->.
    destruct (rpp_new_shape _ _ _ _ Hq) as (_ & N2 & N3 & N4). destruct (enc_all_same _ _ _ _ En) as (M1 & M2 & M3 & M4 & M5).
    rewrite M3, M2, N2, N3. rewrite N3 in M5. rewrite M5. unfold cur_keys. rewrite N4, Kq. cbn [negb side_key wk_client wk_server]. split; [exact Gc|]. split; [exact G2|]. cbn [Connection.traffic_key k_seq]. lia. }
  unfold accept. rewrite loop_cons by discriminate.
  assert (Er : read_of [hello] = wire hello) by (unfold read_of; cbn; apply app_nil_r). rewrite <- Er.
  rewrite one_read_group; [|discriminate|constructor; [exact (proj1 Wh)|constructor]].
  cbn [steps]. Local Transparent handle_handshake_record. unfold handle_handshake_record. Local Opaque handle_handshake_record.
  rewrite Th. cbn [server_new sv_state]. fold (server_new so). rewrite E1, !sbind_Ok, Fl.
  cbn [server_do_handshake with_stream sv_state]. rewrite St'. destruct (sc_client_ca cfg); reflexivity.
Qed.
Lemma hello_waits cfg d now so hello ch body g :
  server_ok cfg d -> zlen (ct_raw (sc_cert cfg)) < 2^16 - 64 -> so_left so = None ->
  whole hello -> r_type hello = RHandshake -> answers cfg d (r_fragment hello) ch body g -> can_sign cfg d g ->
  exists h, accept cfg d now so [wire hello] = (h, None).
Proof. intros. edestruct hello_waits_keyed as (h & p & E & _); eauto. Qed.
Lemma ex_two_reads : exists hello fin h1 h, whole hello /\ whole fin /\ r_type hello = RHandshake /\ r_type fin = RApplicationData /\
  r_fragment hello = ex_first /\
  accept (ex_cfg false) ex_draws own_now ex_sock [wire hello] = (h1, None) /\
  accept (ex_cfg false) ex_draws own_now ex_sock [wire hello; wire fin] = (h, Some (Ok tt)).
Proof.
  destruct (ex_answered false) as (body & g & A).
  assert (Bf : is_bytes ex_first) by (apply is_bytes_check; vm_compute; reflexivity).
  assert (Lf : zlen ex_first < 2^16) by (vm_compute; reflexivity).
  destruct (hello_record ex_first Bf Lf) as (hello & Wh & Th & Fh). rewrite <- Fh in A.
  assert (Lc : zlen (ct_raw (sc_cert (ex_cfg false))) < 2^16 - 64) by (change (ct_raw (sc_cert (ex_cfg false))) with own_raw; rewrite own_length; lia).
  destruct (hello_waits (ex_cfg false) ex_draws own_now ex_sock hello _ body g (ex_server_ok false) Lc eq_refl Wh Th A (ex_can_sign false g)) as (h1 & E1).
  destruct (accepted (ex_cfg false) ex_draws own_now ex_sock hello _ body g (ex_server_ok false) Lc eq_refl Wh Th A (ex_can_sign false g)) as (der & Sg & C).
  pose proof Bf as Bf'. pose proof Lf as Lf'. rewrite <- Fh in Bf', Lf'. destruct (answers_facts _ _ _ _ _ _ (ex_server_ok false) Bf' Lf' A) as (_ & _ & _ & _ & H & _ & _ & _ & _ & _ & _ & _ & _ & _ & S & _).
  assert (Dv : is_bytes der /\ (length der <= 72)%nat).
  { destruct Sg as (k & r & s & _ & (Hr & Hs & _) & Ed). assert (Spec.Ec.P256_n < 2^256) by (vm_compute; reflexivity).
    apply (Auth.der_bounds r s der ltac:(lia) ltac:(lia) Ed). }
  destruct (to_finished_ok H (ex_cfg false) ex_draws g der S (ex_server_ok false) (proj1 Dv) (proj2 Dv)) as (Bb & Lb).
  set (before := to_server_finished (ex_cfg false) ex_draws g der) in *.
  assert (Bv : is_bytes (Rfc8446Hello.handshake 20 (verify_data g (client_secret g) before)) /\
    zlen (Rfc8446Hello.handshake 20 (verify_data g (client_secret g) before)) + 17 < 2^16).
  { destruct (suited_schedule H g S) as (_ & (Bs & Ls) & _). pose proof S as (EA & _).
    destruct (Auth.finished_data H (client_secret g) before Bs Ls Bb ltac:(lia)) as (_ & Lv & Bv). unfold verify_data. rewrite EA.
    split; [apply is_bytes_handshake; [unfold is_byte; lia|exact Bv]|]. unfold zlen. rewrite handshake_length, Lv. destruct H; cbn; lia. }
  destruct Bv as (B3 & L3). destruct (client_record H g 0 _ S B3 L3 ltac:(lia)) as (r3 & W3 & T3 & F3).
  destruct (C [[hello]; [r3]] [] [r3] [] r3 before) as (h & E).
  + repeat constructor; discriminate.
  + reflexivity.
  + repeat (constructor; [assumption|]). constructor.
  + unfold without_ccs. cbn [filter]. unfold is_ccs. rewrite T3. reflexivity.
  + split; reflexivity.
  + exact T3.
  + exact F3.
  + cbn [map concat app] in E. rewrite !app_nil_r in E. exists hello, r3, h1, h. auto 8.
Qed.
