(* A server that conforms but for its CertificateRequest, for the examples *)
From Verif Require Import Proofs.Util Proofs.Bytes Model.Alert Model.Curve Model.Signature Model.Ecdsa Model.X509 Model.KeySchedule Model.Record Model.Channel Model.Certificate Model.Stream Model.Client
  Spec.Enc Spec.Fips180 Spec.Rfc8446Keys Spec.Tls13Record Spec.Endpoints Spec.Rfc8446Auth Spec.Connection Spec.ClientConnection Spec.Rfc8446Hello Spec.Loopback Spec.RequestPanics.
From Verif Require Spec.Ec Spec.Ecdsa.
From Verif Require Import Proofs.Record Proofs.Channel Proofs.ServerRun Proofs.ServerKeys Proofs.Opened Proofs.ServerFlow Proofs.ServerAccept Proofs.ServerAccept2 Proofs.ClientAccept.
From Verif Require Proofs.ServerExample Proofs.Loopback Proofs.LoopbackExample Proofs.CertExample Proofs.EcdsaP256 Proofs.Signature Proofs.Auth Proofs.Hmac Proofs.ClientSteps.

Lemma possessed A msgs : exists m2, is_bytes m2 /\ zlen m2 <= 200 /\ server_possesses A ServerExample.own_x msgs m2.
Proof.
  set (digest := sha256_spec (verify_message A server_context msgs)).
  destruct (Proofs.LoopbackExample.sign_long (Ecdsa.hash_int digest)) as (k & Ik & (k1 & [<-|[]] & S) & Lg). cbn [sk_secret] in *.
  destruct (Ecdsa.sign_with 1 (Ecdsa.hash_int digest) k) as [[r s]|] eqn:E; [|contradiction]. destruct (Lg k r s (or_introl eq_refl) E) as (R1 & R2).
  assert (Hk : 0 <= k) by (destruct Ik as [<-|[<-|[]]]; lia).
  pose proof (Proofs.EcdsaP256.p256_sign_valid _ _ _ _ _ Hk E) as V. pose proof V as (V1 & V2 & _).
  assert (NB : Ec.P256_n < 2^256) by (vm_compute; reflexivity).
  destruct (Proofs.Signature.round_trip (E:=tls_error) r s ltac:(lia) ltac:(lia)) as (der & Ed & _).
  destruct (Proofs.Auth.der_bounds r s der ltac:(lia) ltac:(lia) Ed) as (Bd & Ld).
  pose proof (Proofs.Loopback.signed_read _ _ _ _ _ V (conj R1 R2) Ed) as D.
  destruct (Proofs.Loopback.certified_under _ _ _ _ digest r s Proofs.LoopbackExample.own_certifies V) as (kk & K & Su).
  exists (handshake 15 (certificate_verify_wire 0x0403 der)). split; [|split].
  - apply is_bytes_handshake; [unfold is_byte; lia|]. unfold certificate_verify_wire, u16, vector16. repeat first [assumption | apply be_enc_bytes | apply is_bytes_app; split].
  - rewrite Proofs.Loopback.zlen_handshake, Proofs.Loopback.zlen_verify. unfold zlen. lia.
  - exists kk, {| sg_r := r; sg_s := s |}, der, (length der). split; [exact K|]. split; [exact D|]. split; [reflexivity|exact Su].
Qed.
Lemma conforming rq : is_bytes rq -> zlen rq < 1000 -> request_panics rq -> exists cfg e first sh g parts more,
  client_ok cfg e /\ whole first /\ r_type first = RHandshake /\ agrees cfg e (r_fragment first) sh g /\
  conforms_but_request ServerExample.own_now g (concat parts) /\ zlen (concat (concat parts)) < 2^50 /\ carry g (map (@concat Z) parts) (without_ccs more) /\
  Forall whole more /\ Forall (fun r => r_type r = RApplicationData) (without_ccs more) /\ zlen more < 2^50.
Proof.
  intros Bq Lq RP. destruct (Proofs.LoopbackExample.lb_compatible true) as (k & k' & _ & _ & C).
  destruct (Proofs.Loopback.conforming _ _ _ _ _ C) as (first & sh & g & parts0 & more & H1 & H2 & H3 & _).
  assert (Ok' : client_ok (LoopbackExample.lb_client true) (LoopbackExample.lb_client_draws k')) by apply C.
  destruct (whole_formed _ H1) as (_ & _ & Bf & Lf).
  destruct (agrees_facts _ _ _ _ _ Ok' Bf Lf H3) as (_ & _ & H & _ & _ & _ & _ & _ & _ & _ & S & _). pose proof S as (EA & _).
  set (m1 := handshake 11 (vector8 [] ++ vector24 (vector24 ServerExample.own_raw ++ vector16 [] ++ []))).
  destruct (possessed (g_alg g) (g_hellos g ++ opening [0; 0] ([] ++ [rq]) ++ m1)) as (m2 & B2 & L2 & P2).
  set (fin := server_finished g (g_hellos g ++ opening [0; 0] ([] ++ [rq]) ++ m1 ++ m2)).
  set (flight := handshake 8 [0; 0] :: map (handshake 13) ([] ++ [rq]) ++ [m1; m2; fin]).
  assert (Q : is_bytes (concat flight) /\ zlen (concat flight) + 17 < 2^16).
  { assert (B1 : is_bytes m1) by (apply is_bytes_check; vm_compute; reflexivity). assert (L1 : zlen m1 < 5000) by (vm_compute; reflexivity).
    assert (Br : is_bytes (handshake 13 rq)) by (apply is_bytes_handshake; [unfold is_byte; lia|exact Bq]). assert (Lr : zlen (handshake 13 rq) < 1004) by (rewrite Proofs.Loopback.zlen_handshake; lia).
    assert (Bo : is_bytes (opening [0; 0] ([] ++ [rq]))).
    { unfold opening. cbn [app map concat]. rewrite app_nil_r. apply is_bytes_app. split; [apply is_bytes_check; reflexivity|exact Br]. }
    assert (Lo : zlen (opening [0; 0] ([] ++ [rq])) < 2000).
    { unfold opening. cbn [app map concat]. rewrite app_nil_r, zlen_app, Proofs.Loopback.zlen_handshake. change (zlen [0; 0]) with 2. lia. }
    assert (Lf' : zlen fin <= 68) by (unfold fin, server_finished; apply (Proofs.Loopback.zlen_finished H); exact EA).
    assert (Bfin : is_bytes fin).
    { destruct (suited_schedule H g S) as (_ & _ & (Bss & Lss) & _). pose proof S as (_ & _ & _ & Bh & _).
      assert (Lh : zlen (g_hellos g) < 2^20).
      { destruct H3 as (hs & share & a & _ & _ & _ & -> & _). rewrite zlen_app. destruct (Proofs.ClientSteps.greeting_bytes _ _ Ok'). lia. }
      unfold fin, server_finished. apply is_bytes_handshake; [unfold is_byte; lia|]. unfold verify_data. rewrite EA.
      apply (Proofs.Auth.finished_data H _ _ Bss Lss); [repeat first [assumption | apply is_bytes_app; split]|rewrite !zlen_app; lia]. }
    clearbody m1 fin. unfold flight. cbn [app map concat]. rewrite !app_nil_r. split.
    - repeat first [assumption | solve [apply is_bytes_check; reflexivity] | apply is_bytes_app; split].
    - rewrite !zlen_app. change (zlen (handshake 8 [0; 0])) with 6. lia. }
  destruct Q as (Bq' & Lq').
  assert (CF : conforms_but_request ServerExample.own_now g flight).
  { exists [0; 0], [], rq, [], ServerExample.own_raw, ServerExample.own_x, [], [], m2. cbv zeta. fold m1. split; [reflexivity|]. split; [reflexivity|]. split; [exact ServerExample.own_parse|].
    split; [exact ServerExample.own_valid|]. split; [exact P2|exact RP]. }
  clearbody flight.
  destruct (Proofs.CertExample.server_record H g 0 (concat flight) S Bq' Lq' ltac:(lia)) as (r & W & T & F).
  exists (LoopbackExample.lb_client true), (LoopbackExample.lb_client_draws k'), first, sh, g, [flight], [r].
  do 4 (split; [assumption|]). assert (NC : without_ccs [r] = [r]) by (unfold without_ccs; cbn [filter]; unfold is_ccs; rewrite T; reflexivity). rewrite NC.
  assert (CC : concat [flight] = flight) by (cbn [concat]; apply app_nil_r). rewrite CC. split; [exact CF|].
  split; [lia|]. split.
  { split; [reflexivity|]. intros i m r' Hm Hr. destruct i as [|i]; [|destruct i; discriminate Hr]. injection Hr as <-. cbn [map nth_error] in Hm. injection Hm as <-. exact F. }
  split; [constructor; [exact W|constructor]|]. split; [constructor; [exact T|constructor]|reflexivity].
Qed.
