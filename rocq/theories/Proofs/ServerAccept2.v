(* The records of a conforming client, one at a time, and the whole handshake *)
From Verif Require Import Proofs.Util Proofs.Bytes Model.Alert Model.Bytes Model.Suite Model.Sha2 Model.Hmac Model.KeySchedule Model.Record Model.Channel
  Model.Curve Model.Der Model.Signature Model.Ecdsa Model.X509 Model.Extensions Model.Hello Model.Kex Model.Handshake Model.Certificate
  Model.Stream Model.AppChannel Model.Keylog Model.Server
  Spec.Enc Spec.Rfc2104 Spec.Fips180 Spec.Rfc8446Keys Spec.Tls13Record Spec.Endpoints Spec.Writes Spec.Rfc8446Auth Spec.Connection.
From Verif Require Spec.Rfc8446Hello Spec.Ecdsa Spec.Sp80038d.
From Verif Require Import Proofs.KeySchedule Proofs.Record Proofs.Channel Proofs.Stream Proofs.ServerRun Proofs.ServerKeys Proofs.Opened Proofs.ServerSteps
  Proofs.ServerFlow Proofs.ServerAccept.
From Verif Require Proofs.Hmac Proofs.Sha2 Proofs.Auth Proofs.HelloTotal Proofs.Kex Proofs.EcdsaP256 Proofs.Gcm Proofs.Chacha Proofs.Signature Proofs.X509Bytes.

Lemma frame_read t body extra : zlen body < 2^24 ->
  handshake_from_raw (Rfc8446Hello.handshake (handshake_type_u8 t) body ++ extra) =
  Ok (Handshake t body (Rfc8446Hello.handshake (handshake_type_u8 t) body)).
Proof. intros L. rewrite <- HelloTotal.to_bytes_wire. now apply HelloTotal.frame_round. Qed.

Local Opaque x509_from_raw is_valid X509.get_public_key ecdsa_verify handshake_from_raw sig_from_der is_certificate_valid
  sha256 sha256_spec verify_data_for_finished generate_application_keys signed_part.

Lemma key_of_cert {E} raw x key : is_bytes raw -> x509_from_raw raw = Ok x -> X509.get_public_key (E:=E) x = Ok (Some key) ->
  certificate_key (E:=E) x = Ok (Some (PublicKey (Point (fst key) (snd key)) secp256r1)) /\ 0 <= fst key /\ 0 <= snd key.
Proof.
  intros B X K. destruct key as [a b].
  assert (C : certificate_key (E:=E) x = Ok (Some (PublicKey (Point a b) secp256r1))) by (unfold certificate_key; rewrite K; reflexivity).
  split; [exact C|]. destruct (X509Bytes.certificate_key_ok _ _ _ B X C) as (a' & b' & Q & _ & Ra & Rb). injection Q as <- <-. cbn. lia.
Qed.
Lemma has_signed_fwd ca cax key cert x : ct_x509 ca = Some cax -> is_bytes (ct_raw ca) -> x509_from_raw (ct_raw ca) = Ok cax ->
  X509.get_public_key (E:=tls_error) cax = Ok (Some key) -> is_bytes cert -> zlen cert < 2^53 -> signed_by key cert x ->
  has_signed ca (Cert cert (Some x)) = Ok tt.
Proof.
  intros Cx B X K Bc Lc (r & s & part & Es & Ep & Sg). unfold has_signed. rewrite Cx. cbn [ct_x509 ct_raw].
  destruct (key_of_cert _ _ _ B X K) as (Ck & Ka & Kb). rewrite Ck, bind_Ok. cbn [unwrap]. rewrite bind_Ok, Es, Ep, bind_Ok.
  destruct (Auth.verify_key (F:=tls_error) (fst key) (snd key) {| sg_r := r; sg_s := s |} part Ka Kb) as (v & V1 & V2).
  rewrite V1, bind_Ok. assert (v = true) as ->; [|reflexivity]. apply V2. cbn [sg_r sg_s]. destruct key as [a b]. cbn [fst snd].
  Local Transparent signed_part. unfold signed_part in Ep. Local Opaque signed_part. apply slice_ok in Ep. destruct Ep as (R3 & E3).
  rewrite Sha2.sha256_correct; [exact Sg| |].
  - subst part. now apply is_bytes_firstn, is_bytes_skipn.
  - subst part. unfold zlen in *. rewrite firstn_length, skipn_length. lia.
Qed.

Definition certificate_body (context cert exts others : list Z) : list Z :=
  Rfc8446Hello.vector8 context ++ Rfc8446Hello.vector24 (Rfc8446Hello.vector24 cert ++ Rfc8446Hello.vector16 exts ++ others).
Lemma body_length context cert exts others :
  length (certificate_body context cert exts others) = (1 + length context + 3 + 3 + length cert + 2 + length exts + length others)%nat.
Proof.
  unfold certificate_body, Rfc8446Hello.vector8, Rfc8446Hello.vector24, Rfc8446Hello.vector16. rewrite !app_length, !be_enc_length. lia.
Qed.
Lemma body_bytes context cert exts others : is_bytes (certificate_body context cert exts others) -> is_bytes cert.
Proof.
  unfold certificate_body, Rfc8446Hello.vector8, Rfc8446Hello.vector24, Rfc8446Hello.vector16. intros B.
  apply is_bytes_app in B. destruct B as (_ & B). apply is_bytes_app in B. destruct B as (_ & B). apply is_bytes_app in B. destruct B as (B & _).
  apply is_bytes_app in B. tauto.
Qed.

Lemma cert_fwd cfg d now ca cax key h cert x exts others t :
  sc_client_ca cfg = Some ca -> ct_x509 ca = Some cax -> is_bytes (ct_raw ca) -> x509_from_raw (ct_raw ca) = Ok cax ->
  length (d_context d) = 32%nat ->
  is_bytes (certificate_body (d_context d) cert exts others) -> zlen (certificate_body (d_context d) cert exts others) < 2^16 ->
  sv_th h = Some t -> sv_context h = Some (d_context d) ->
  X509.get_public_key (E:=tls_error) cax = Ok (Some key) -> x509_from_raw cert = Ok x -> is_valid (E:=tls_error) (x_validity x) now = Ok true ->
  signed_by key cert x -> (forall check, sc_verify cfg = Some check -> check x = true) ->
  exists h', handle_client_certificate cfg now h (Rfc8446Hello.handshake 11 (certificate_body (d_context d) cert exts others)) = (h', Ok tt) /\
    sv_state h' = SvClientCertificateVerify /\ sv_cert h' = Some (Cert cert (Some x)).
Proof.
  intros Ca Cx Bca Xca Lctx Bb Lb Th Cc K X V Sb Ck. pose proof (body_bytes _ _ _ _ Bb) as Bc.
  pose proof (body_length (d_context d) cert exts others) as LB.
  set (body := certificate_body (d_context d) cert exts others) in *.
  unfold handle_client_certificate. 
  pose proof (frame_read HtCertificate body [] ltac:(lia)) as FR. rewrite app_nil_r in FR. cbn [handshake_type_u8] in FR. rewrite FR, sbind_Ok, Ca.
  cbn [hs_type hs_fraqment]. change (negb (ht_eqb HtCertificate HtCertificate)) with false. cbv iota.
  rewrite Th. cbn [unwrap]. rewrite sbind_Ok.
  assert (EB : body = [32] ++ d_context d ++ Rfc8446Hello.vector24 (Rfc8446Hello.vector24 cert ++ Rfc8446Hello.vector16 exts ++ others)).
  { unfold body, certificate_body, Rfc8446Hello.vector8. rewrite Lctx. reflexivity. }
  assert (I0 : idx (E:=tls_error) body 0 = Ok 32) by (rewrite EB; reflexivity). rewrite I0, sbind_Ok.
  assert (I1 : slice (E:=tls_error) body 1 (Z.to_nat 32 + 1) = Ok (d_context d)).
  { rewrite EB. apply slice_mid; cbn [length]; [reflexivity|]. rewrite Lctx. reflexivity. }
  rewrite I1, sbind_Ok. cbn [with_th with_th_finished sv_context]. rewrite Cc. cbn [unwrap]. rewrite sbind_Ok, list_eqb_refl. cbn [negb].
  assert (CR : certificates_from_hello body now = Ok [Cert cert (Some x)]).
  { pose proof (Auth.certificates_read (d_context d) cert exts others [] now) as R. rewrite app_nil_r in R. unfold Auth.entry in R.
    rewrite <- app_assoc in R. fold (certificate_body (d_context d) cert exts others) in R. fold body in R. rewrite R; clear R.
    - unfold certificate_from_raw. rewrite X, bind_Ok. cbn [ct_x509 unwrap]. rewrite bind_Ok, V, bind_Ok. reflexivity.
    - unfold zlen. lia.
    - unfold zlen in *. lia.
    - unfold zlen in *. unfold Rfc8446Hello.vector24, Rfc8446Hello.vector16. rewrite !app_length, !be_enc_length. lia. }
  rewrite CR. cbn [map List.last unwrap]. rewrite sbind_Ok.
  assert (Lc : zlen cert < 2^53) by (unfold zlen in *; lia).
  rewrite (has_signed_fwd ca cax key cert x Cx Bca Xca K Bc Lc Sb).
  destruct (sc_verify cfg) as [f|] eqn:F.
  - cbn [ct_x509 unwrap]. rewrite sbind_Ok, (Ck f eq_refl). eexists. split; [reflexivity|]. split; reflexivity.
  - eexists. split; [reflexivity|]. split; reflexivity.
Qed.

Lemma sig_int_size buf c r c' : sig_int buf c = Ok (r, c') -> (c' <= length buf)%nat.
Proof.
  unfold sig_int. destruct (der_parse c buf) as [[[n f] c1]|e|]; try discriminate.
  intros H. apply bind_ok in H. destruct H as (b & Hb & H). apply slice_ok in Hb. destruct Hb as (Hb & _). apply Ok_inj in H. injection H as _ <-. lia.
Qed.
Lemma sig_size der sg size : sig_from_der der = Ok (sg, size) -> (size <= length der)%nat.
Proof.
  Local Transparent sig_from_der. unfold sig_from_der. Local Opaque sig_from_der.
  destruct (der_parse 0 der) as [[[n f] c]|e|]; try discriminate. destruct f as [dt|dt]; try discriminate. destruct dt; try discriminate.
  intros H. apply bind_ok in H. destruct H as ([r c1] & _ & H). apply bind_ok in H. destruct H as ([s c2] & H2 & H).
  apply Ok_inj in H. injection H as _ <-. exact (sig_int_size _ _ _ _ H2).
Qed.
Lemma cv_fwd2 h m H msgs cert x :
  is_bytes m -> zlen m < 2^16 -> sv_cert h = Some (Cert cert (Some x)) -> is_bytes cert -> x509_from_raw cert = Ok x ->
  sv_th h = Some (th_update (th_new H) msgs) -> is_bytes msgs -> zlen msgs < 2^53 ->
  proves_possession (Proofs.Hmac.alg_of H) x msgs m ->
  exists h', handle_client_certificate_verify h m = (h', Ok tt) /\ sv_state h' = SvClientFinished.
Proof.
  intros Bm Lm Hc Bc X Th Bs Ls (key & sg & der & size & extra & K & D & Em & Sg).
  set (body := Rfc8446Hello.u16 1027 ++ Rfc8446Hello.u16 (Z.of_nat size) ++ der) in *.
  assert (Lb : zlen body < 2^16).
  { rewrite Em in Lm. rewrite zlen_app in Lm. pose proof (zlen_nonneg extra). unfold zlen in *. rewrite handshake_length in Lm. lia. }
  unfold handle_client_certificate_verify. rewrite Em.
  pose proof (frame_read HtCertificateVerify body extra ltac:(lia)) as FR. cbn [handshake_type_u8] in FR. rewrite FR, sbind_Ok, Hc. cbn [hs_type hs_fraqment].
  change (negb (ht_eqb HtCertificateVerify HtCertificateVerify)) with false. cbv iota.
  assert (EB : body = [4; 3] ++ be_enc 2 (Z.of_nat size) ++ der) by reflexivity.
  assert (I0 : slice (E:=tls_error) body 0 2 = Ok [4; 3]).
  { rewrite EB. change ([4; 3] ++ be_enc 2 (Z.of_nat size) ++ der) with ([] ++ [4; 3] ++ be_enc 2 (Z.of_nat size) ++ der). apply slice_mid; reflexivity. }
  rewrite I0, sbind_Ok. change (sig_scheme_new (to_u16 [4; 3])) with (Ok (E:=tls_error) ecdsa_secp256r1_sha256). rewrite sbind_Ok.
  assert (I1 : slice_from (E:=tls_error) body 4 = Ok der).
  { rewrite EB, app_assoc. apply slice_from_app. rewrite app_length, be_enc_length. reflexivity. }
  rewrite I1, sbind_Ok, D, Th. cbn [unwrap]. rewrite sbind_Ok.
  destruct (key_of_cert _ _ _ Bc X K) as (_ & Ka & Kb).
  assert (VV : is_certificate_valid (E:=tls_error) (Cert cert (Some x)) sg (th_update (th_new H) msgs) l_client = Ok true).
  { Local Transparent is_certificate_valid. unfold is_certificate_valid. Local Opaque is_certificate_valid. cbn [ct_x509 unwrap]. rewrite bind_Ok.
    unfold certificate_key. rewrite K, bind_Ok. destruct key as [a b]. rewrite bind_Ok.
    destruct (Auth.verify_key (F:=tls_error) a b sg (verify_content l_client (th_finalize (th_update (th_new H) msgs))) Ka Kb) as (v & V1 & V2).
    rewrite V1. f_equal. apply V2. rewrite (Auth.verify_digest H msgs l_client client_context Bs Ls); [exact Sg|]. right; split; reflexivity. }
  rewrite VV, sbind_Ok. cbn [negb].
  assert (I2 : slice (E:=tls_error) body 2 4 = Ok (be_enc 2 (Z.of_nat size))) by (rewrite EB; apply slice_mid; reflexivity).
  rewrite I2, sbind_Ok.
  assert (Bsize : Z.of_nat size < 2^16).
  { pose proof (sig_size der sg size D) as Q. unfold zlen in Lb. unfold body, Rfc8446Hello.u16 in Lb. rewrite !app_length, !be_enc_length in Lb. lia. }
  assert (TU : to_u16 (be_enc 2 (Z.of_nat size)) = Z.of_nat size).
  { rewrite Auth.be_enc_2. rewrite to_u16_val by apply u8_range. unfold u8. rewrite Z.shiftr_div_pow2 by lia. change (2^8) with 256.
    rewrite (Z.mod_small (_ / _)); [|split; [apply Z.div_pos; lia|apply Z.div_lt_upper_bound; lia]].
    pose proof (Z.div_mod (Z.of_nat size) 256). lia. }
  rewrite TU, Nat2Z.id, Nat.eqb_refl. cbn [negb]. eexists. split; [reflexivity|]. reflexivity.
Qed.

Lemma fin_fwd h H g p msgs before :
  sv_state h = SvClientFinished -> st_protection (sv_stream h) = Some p -> keyed H g p ->
  sv_th h = Some (th_update (th_new H) msgs) -> is_bytes msgs -> zlen msgs < 2^53 ->
  (match sv_th_finished h with Some t => t = th_update (th_new H) before | None => before = msgs end) -> is_bytes before -> zlen before < 2^53 ->
  exists h', handle_client_finish h (Rfc8446Hello.handshake 20 (verify_data g (client_secret g) msgs)) = (h', Ok tt) /\ sv_state h' = SvReady.
Proof.
  intros St Pr K Th Bs Ls Tf Bb Lb. pose proof K as (S & _ & Sch). destruct (suited_schedule H g S) as (_ & (Bcs & Lcs) & _). destruct S as (EA & _).
  destruct (Auth.finished_data H _ _ Bcs Lcs Bs Ls) as (F & V2 & V1).
  set (vd := verify_data g (client_secret g) msgs).
  assert (Evd : vd = finished_verify_data (Proofs.Hmac.alg_of H) (client_secret g) msgs) by (unfold vd, verify_data; now rewrite EA).
  assert (Lv : zlen vd < 2^24) by (rewrite Evd; unfold zlen; rewrite V2; pose proof (hash_len_le H); lia).
  unfold handle_client_finish. pose proof (frame_read HtFinished vd [] Lv) as FR. cbn [handshake_type_u8] in FR. rewrite app_nil_r in FR.
  rewrite FR, sbind_Ok. cbn [hs_type hs_fraqment]. change (negb (ht_eqb HtFinished HtFinished)) with false. cbv iota.
  rewrite Pr. cbn [unwrap]. rewrite sbind_Ok, Th. cbn [unwrap]. rewrite sbind_Ok, Sch. cbn [schedule_of ks_client_hs].
  rewrite F, sbind_Ok, <- Evd, list_eqb_refl. cbn [negb].
  assert (ET : match sv_th_finished h with Some t => t | None => th_update (th_new H) msgs end = th_update (th_new H) before)
    by (destruct (sv_th_finished h); congruence).
  rewrite ET. destruct (keyed_application H g p before K Bb Lb) as (p' & G & _). rewrite G, sbind_Ok.
  set (h1 := with_protection h (Some p')).
  assert (SS : sv_state (match sv_keylog h1 with Some k => append_log h1 (append_from_protection k p') | None => h1 end) = SvClientFinished)
    by (destruct (sv_keylog h1); exact St).
  rewrite SS. eexists. split; [reflexivity|]. reflexivity.
Qed.

(* ---- waiting for the rest of a conforming client's records ---- *)
(* the keys at the end *)
Definition sfin (cfg : server_config) (d : draws) (x : greeting) (h : server_hs) : Prop :=
  exists p, st_protection (sv_stream h) = Some p /\ rp_is_client p = false /\ rp_cipher p = g_cipher (gr_g x) /\
    rp_application p = Some (application_keys (gr_g x) (gr_msgs cfg d x)).
Definition waits (cfg : server_config) (d : draws) (now : Z) (so : sock) (x : greeting) (used : list record) (fin : record) (msgs : list Z)
    (h : server_hs) (rest : list record) : Prop :=
  endless (sv_stream h) /\
  match sv_state h with
  | SvClientCertificate => sc_client_ca cfg <> None /\ live cfg d so x h 0 (gr_msgs cfg d x) /\ without_ccs rest = used ++ [fin]
  | SvClientCertificateVerify => exists r1 r2 m1 m2 cert y, used = [r1; r2] /\ without_ccs rest = [r2; fin] /\ msgs = gr_msgs cfg d x ++ m1 ++ m2 /\
      live cfg d so x h 1 (gr_msgs cfg d x ++ m1) /\ sv_th_finished h = Some (th_update (th_new (gr_hash x)) (gr_msgs cfg d x)) /\
      sv_cert h = Some (Cert cert (Some y)) /\ is_bytes cert /\ x509_from_raw cert = Ok y /\
      from_client (gr_g x) 1 m2 r2 /\ proves_possession (g_alg (gr_g x)) y (gr_msgs cfg d x ++ m1) m2
  | SvClientFinished => without_ccs rest = [fin] /\ live cfg d so x h (zlen used) msgs /\
      (match sv_th_finished h with Some t => t = th_update (th_new (gr_hash x)) (gr_msgs cfg d x) | None => gr_msgs cfg d x = msgs end)
  | SvReady => without_ccs rest = [] /\ sfin cfg d x h
  | _ => False
  end.
Lemma without_cons r l : without_ccs (r :: l) = (if is_ccs r then without_ccs l else r :: without_ccs l).
Proof. unfold without_ccs. cbn [filter]. now destruct (is_ccs r). Qed.

Local Opaque handle_client_certificate handle_client_certificate_verify handle_client_finish rpp_decrypt handle_client_hello.
(* reading one record in its turn *)
Lemma enc_fwd cfg d now so x h n msgs m r : greeted cfg d x -> live cfg d so x h n msgs -> n <= 2 -> whole r ->
  r_type r = RApplicationData -> from_client (gr_g x) n m r ->
  match sv_state h with SvClientHello | SvReady => False | _ => True end ->
  exists h1, live cfg d so x h1 (n + 1) msgs /\ is_bytes m /\ zlen m < 2^16 /\ (exists p', h1 = with_protection h (Some p')) /\
    handle_handshake_record cfg d now h r =
      match sv_state h with
      | SvClientCertificate => handle_client_certificate cfg now h1 m
      | SvClientCertificateVerify => handle_client_certificate_verify h1 m
      | SvClientFinished | SvFinishWithError _ => handle_client_finish h1 m
      | _ => (h1, Ok tt)
      end.
Proof.
  intros G L N2 W T F St. pose proof (whole_formed _ W) as Wf.
  pose proof L as (_ & _ & _ & _ & Rn & Cx & _ & _ & p & P & K & C & A & _ & Pk).
  destruct (greeted_keys _ _ _ G) as (G1 & _).
  destruct (opened_decrypt _ _ p (client_secret (gr_g x)) n r RHandshake m K A Pk G1 ltac:(discriminate) ltac:(lia) ltac:(lia) F) as (p' & D).
  destruct (live_decrypt _ _ _ _ _ _ _ _ _ _ _ _ G L N2 Wf P D ltac:(discriminate)) as (_ & Bm & Lm & L1).
  exists (with_protection h (Some p')). split; [exact L1|]. split; [exact Bm|]. split; [exact Lm|]. split; [eauto|].
  assert (NC : (match sc_client_ca cfg, sv_context (with_protection h (Some p')) with Some _, None => true | _, _ => false end) = false).
  { change (sv_context (with_protection h (Some p'))) with (sv_context h). rewrite Cx. now destruct (sc_client_ca cfg). }
  unfold handle_handshake_record. rewrite T.
  assert (HE : handle_handshake_encrypted_record cfg now h r = match sv_state h with
      | SvClientCertificate => handle_client_certificate cfg now (with_protection h (Some p')) m
      | SvClientCertificateVerify => handle_client_certificate_verify (with_protection h (Some p')) m
      | SvClientFinished | SvFinishWithError _ => handle_client_finish (with_protection h (Some p')) m
      | _ => (with_protection h (Some p'), Ok tt) end).
  { unfold handle_handshake_encrypted_record. rewrite P. cbn [unwrap]. rewrite sbind_Ok, D, sbind_Ok. cbv iota beta zeta. rewrite NC. reflexivity. }
  rewrite HE. destruct (sv_state h); try contradiction; reflexivity.
Qed.

Lemma waits_step cfg d now so x used fin msgs h r rest : server_ok cfg d -> greeted cfg d x ->
  client_conforms cfg d now (gr_g x) (gr_msgs cfg d x) used msgs ->
  whole fin -> r_type fin = RApplicationData ->
  from_client (gr_g x) (zlen used) (Rfc8446Hello.handshake 20 (verify_data (gr_g x) (client_secret (gr_g x)) msgs)) fin ->
  waits cfg d now so x used fin msgs h (r :: rest) ->
  exists h', handle_handshake_record cfg d now h r = (h', Ok tt) /\ waits cfg d now so x used fin msgs h' rest.
Proof.
  intros Ok' G CC Wfin Tfin Ffin (N & W).
  destruct (is_ccs r) eqn:C.
  { exists h. unfold handle_handshake_record.
    assert (T : r_type r = RChangeCipherSpec) by (unfold is_ccs in C; destruct (r_type r); congruence). rewrite T.
    split; [destruct (sv_state h); try reflexivity; contradiction|]. split; [exact N|].
    destruct (sv_state h); try exact W; rewrite without_cons, C in W; exact W. }
  pose proof Ok' as (_ & _ & _ & _ & _ & _ & Lctx & _ & OkCa).
  pose proof G as (_ & _ & _ & Bd & Ld & S & _). destruct (to_finished_ok _ cfg d _ _ S Ok' Bd Ld) as (Bb & Lb).
  fold (gr_msgs cfg d x) in Bb, Lb.
  destruct (sv_state h) eqn:St; try contradiction.
  - (* Certificate *)
    destruct W as (Ca & L & Ew). rewrite without_cons, C in Ew. unfold client_conforms in CC.
    destruct (sc_client_ca cfg) as [ca|] eqn:ECa; [|contradiction].
    destruct CC as (cax & cak & cert & y & exts & others & r1 & r2 & m1 & m2 & -> & Em & W1 & W2 & T1 & T2 & F1 & F2 & Em1 & Cx & Kca & Xc & Vc & Sb & Ck & PP).
    cbn [app] in Ew. injection Ew as -> Ew.
    destruct (enc_fwd cfg d now so x h 0 _ m1 r1 G L ltac:(lia) W1 T1 F1 ltac:(rewrite St; exact I)) as (h1 & L1 & Bm & Lm & (p' & E1) & HR).
    rewrite St in HR. rewrite HR. clear HR.
    destruct (OkCa ca eq_refl) as (Bca & cax' & Cx' & Xca). rewrite Cx in Cx'. injection Cx' as <-.
    pose proof L1 as (O1 & Th1 & Bm1 & Lm1 & _ & Cx1 & Kl1 & Lg1 & Lp1). rewrite ECa in Cx1.
    fold (certificate_body (d_context d) cert exts others) in Em1.
    assert (Bbody : is_bytes (certificate_body (d_context d) cert exts others) /\ zlen (certificate_body (d_context d) cert exts others) < 2^16).
    { rewrite Em1 in Bm, Lm. unfold zlen in *. rewrite handshake_length in Lm. split; [|lia].
      unfold Rfc8446Hello.handshake, Rfc8446Hello.vector24 in Bm. apply is_bytes_app in Bm. destruct Bm as (_ & Bm). apply is_bytes_app in Bm. tauto. }
    destruct Bbody as (Bbo & Lbo).
    destruct (cert_fwd cfg d now ca cax cak h1 cert y exts others _ ECa Cx Bca Xca Lctx Bbo Lbo Th1 Cx1 Kca Xc Vc Sb Ck) as (h' & HC & S' & Ct).
    rewrite <- Em1 in HC. exists h'. split; [exact HC|].
    destruct (cert_step cfg d now ca cax h1 m1 h' tt _ ECa Cx Bca Xca Bm Lm Th1 Cx1 HC) as
      [(e & Se)|(_ & Str & Th & Tf & Kl & Lg & Ctx & _)]; [congruence|].
    split; [rewrite Str, E1; exact N|]. rewrite S'. exists r1, r2, m1, m2, cert, y.
    split; [reflexivity|]. split; [exact Ew|]. split; [exact Em|]. split.
    { unfold live. rewrite Str, Kl, Lg, Ctx, ECa. split; [exact O1|]. split; [rewrite th_update_app; exact Th|].
      split; [apply is_bytes_app; auto|]. split; [destruct L as (_ & _ & _ & L & _); rewrite zlen_app; lia|]. split; [lia|].
      split; [exact Cx1|]. split; [exact Kl1|]. split; [exact Lg1|]. exact Lp1. }
    split; [exact Tf|]. split; [exact Ct|]. split; [exact (body_bytes _ _ _ _ Bbo)|]. auto.
  - (* CertificateVerify *)
    destruct W as (r1 & r2 & m1 & m2 & cert & y & -> & Ew & Em & L & Tf0 & Ct & Bcert & X & F2 & PP).
    rewrite without_cons, C in Ew. injection Ew as -> Ew.
    unfold client_conforms in CC. destruct (sc_client_ca cfg) as [ca|] eqn:ECa; [|destruct CC; discriminate].
    destruct CC as (cax & cak & cert' & y' & exts & others & r1' & r2' & m1' & m2' & Eu & _ & _ & W2 & _ & T2 & _). injection Eu as <- <-.
    destruct (enc_fwd cfg d now so x h 1 _ m2 r2 G L ltac:(lia) W2 T2 F2 ltac:(rewrite St; exact I)) as (h1 & L1 & Bm & Lm & (p' & E1) & HR).
    rewrite St in HR. rewrite HR. clear HR.
    pose proof L1 as (O1 & Th1 & Bm1 & Lm1 & _ & Cx1 & Kl1 & Lg1 & Lp1).
    assert (EA : g_alg (gr_g x) = Proofs.Hmac.alg_of (gr_hash x)) by apply S. rewrite EA in PP.
    assert (Ct1 : sv_cert h1 = Some (Cert cert (Some y))) by (rewrite E1; exact Ct).
    destruct (cv_fwd2 h1 m2 _ _ cert y Bm Lm Ct1 Bcert X Th1 Bm1 ltac:(lia) PP) as (h' & HC & S').
    exists h'. split; [exact HC|].
    destruct (cv_step h1 m2 h' tt _ _ cert y Bm Ct1 Bcert X Th1 Bm1 ltac:(lia) HC) as
      [(e & Se)|(_ & Str & Th & Tf & Kl & Lg & Ctx & _)]; [congruence|].
    split; [rewrite Str, E1; exact N|]. rewrite S'. split; [exact Ew|]. split.
    { unfold live. rewrite Str, Kl, Lg, Ctx, Em, app_assoc. split; [exact O1|]. split; [exact Th|].
      split; [apply is_bytes_app; auto|]. split; [destruct L as (_ & _ & _ & L & _); rewrite zlen_app; change (zlen [r1; r2]) with 2; lia|].
      split; [change (zlen [r1; r2]) with 2; lia|].
      split; [exact Cx1|]. split; [exact Kl1|]. split; [exact Lg1|]. exact Lp1. }
    rewrite Tf, E1. cbn [with_protection with_stream sv_th_finished]. rewrite Tf0. reflexivity.
  - (* Finished *)
    destruct W as (Ew & L & Tf0). rewrite without_cons, C in Ew. injection Ew as -> Ew.
    assert (Lu : zlen used <= 2).
    { unfold client_conforms in CC. destruct (sc_client_ca cfg).
      - destruct CC as (cax & cak & cert & y & exts & others & r1 & r2 & m1 & m2 & -> & _). unfold zlen; cbn; lia.
      - destruct CC as (-> & _). unfold zlen; cbn; lia. }
    destruct (enc_fwd cfg d now so x h _ _ _ fin G L Lu Wfin Tfin Ffin ltac:(rewrite St; exact I)) as (h1 & L1 & Bm & Lm & (p' & E1) & HR).
    rewrite St in HR. rewrite HR. clear HR.
    pose proof L1 as (O1 & Th1 & Bm1 & Lm1 & _ & Cx1 & Kl1 & Lg1 & q & Pq & Kq & Cq & Aq & Sq & Pk).
    assert (St1 : sv_state h1 = SvClientFinished) by (rewrite E1; exact St).
    assert (Tf1 : match sv_th_finished h1 with Some t => t = th_update (th_new (gr_hash x)) (gr_msgs cfg d x) | None => gr_msgs cfg d x = msgs end)
      by (rewrite E1; exact Tf0).
    destruct (fin_fwd h1 _ _ q msgs (gr_msgs cfg d x) St1 Pq Kq Th1 Bm1 ltac:(lia) Tf1 Bb ltac:(lia)) as (h' & HC & S').
    exists h'. split; [exact HC|].
    destruct (fin_step h1 _ h' tt _ _ q msgs (gr_msgs cfg d x) Bm St1 Pq Kq Th1 Bm1 ltac:(lia) Tf1 Bb ltac:(lia) HC) as
      (_ & _ & pf & _ & Str & Ci & Cc & Ck & _).
    split; [rewrite Str, E1; exact N|]. rewrite S'. split; [exact Ew|]. exists pf. rewrite Str. split; [reflexivity|]. split; [congruence|]. split; [exact Cc|exact Ck].
  - rewrite without_cons, C in W. destruct W. discriminate.
Qed.

Lemma waits_steps cfg d now so x used fin msgs : server_ok cfg d -> greeted cfg d x ->
  client_conforms cfg d now (gr_g x) (gr_msgs cfg d x) used msgs ->
  whole fin -> r_type fin = RApplicationData ->
  from_client (gr_g x) (zlen used) (Rfc8446Hello.handshake 20 (verify_data (gr_g x) (client_secret (gr_g x)) msgs)) fin ->
  forall recs h rest, waits cfg d now so x used fin msgs h (recs ++ rest) ->
  exists h', steps cfg d now h recs = (h', Ok tt) /\ waits cfg d now so x used fin msgs h' rest.
Proof.
  intros Ok' G CC Wf Tf Ff. induction recs as [|r recs IH]; intros h rest W; [exists h; auto|].
  cbn [app] in W. destruct (waits_step _ _ _ _ _ _ _ _ _ _ _ Ok' G CC Wf Tf Ff W) as (h1 & E1 & W1).
  destruct (IH h1 rest W1) as (h' & E' & W'). exists h'. cbn [steps]. rewrite E1, sbind_Ok. auto.
Qed.
Lemma waits_flush cfg d now so x used fin msgs h rest : waits cfg d now so x used fin msgs h rest ->
  exists h', sv_flush h = (h', Ok tt) /\ waits cfg d now so x used fin msgs h' rest.
Proof.
  intros (N & W). unfold sv_flush. destruct (flush_endless (sv_stream h) N) as (s' & F & N' & P & O). rewrite F.
  exists (with_stream h s'). split; [reflexivity|]. split; [exact N'|].
  unfold live, sfin in *. cbn [with_stream sv_state sv_stream sv_keylog sv_log sv_cert sv_context sv_th sv_th_finished]. rewrite P, O. exact W.
Qed.
Definition read_of (group : list record) : list Z := concat (map wire group).
Lemma waits_loop cfg d now so x used fin msgs later : server_ok cfg d -> greeted cfg d x ->
  client_conforms cfg d now (gr_g x) (gr_msgs cfg d x) used msgs ->
  whole fin -> r_type fin = RApplicationData ->
  from_client (gr_g x) (zlen used) (Rfc8446Hello.handshake 20 (verify_data (gr_g x) (client_secret (gr_g x)) msgs)) fin ->
  forall groups h, Forall (fun g => g <> []) groups -> Forall whole (concat groups) ->
  waits cfg d now so x used fin msgs h (concat groups) ->
  exists h', server_do_handshake cfg d now h (map read_of groups ++ later) = (h', Some (Ok tt)) /\ sfin cfg d x h' /\ endless (sv_stream h').
Proof.
  intros Ok' G CC Wf Tf Ff. induction groups as [|gr groups IH]; intros h NE WA W.
  - cbn [concat] in W. destruct W as (Nn & W).
    assert (sv_state h = SvReady /\ sfin cfg d x h) as (R & Fin).
    { destruct (sv_state h); try contradiction; try (split; [reflexivity|apply W]).
      - destruct W as (_ & _ & W). destruct used; discriminate.
      - destruct W as (r1 & r2 & m1 & m2 & cert & y & _ & W & _). discriminate.
      - destruct W as (W & _). discriminate. }
    exists h. split; [|exact (conj Fin Nn)]. cbn [map app]. destruct later; cbn [server_do_handshake]; rewrite R; reflexivity.
  - inversion NE as [|? ? NE1 NE2]; subst. cbn [concat] in WA, W. apply Forall_app in WA. destruct WA as (WA1 & WA2).
    cbn [map app server_do_handshake].
    destruct (waits_steps _ _ _ _ _ _ _ _ Ok' G CC Wf Tf Ff gr h (concat groups) W) as (h1 & E1 & W1).
    destruct (waits_flush _ _ _ _ _ _ _ _ _ _ W1) as (h2 & E2 & W2).
    destruct (IH h2 NE2 WA2 W2) as (h' & E' & Fin).
    assert (PW : Forall (fun r => record_from_raw (wire r) = Ok (length (wire r), r)) gr) by (eapply Forall_impl; [|exact WA1]; intros a [P _]; exact P).
    assert (TR : tcp_read (read_of gr) = Ok (read_of gr)).
    { unfold tcp_read. destruct (read_of gr) eqn:R; [|reflexivity]. exfalso. destruct gr as [|r gr]; [contradiction|].
      pose proof (wires_length _ PW) as LL. unfold read_of in R. rewrite R in LL. cbn [length] in LL. lia. }
    assert (EL : (let@ (h, rx) := (h, tcp_read (read_of gr)) in let@ (h, _) := server_records (length rx) cfg d now h rx in sv_flush h) = (h2, Ok tt)).
    { rewrite TR, sbind_Ok. unfold read_of. rewrite (records_steps cfg d now gr _ h PW (wires_length _ PW)). rewrite E1, sbind_Ok. exact E2. }
    destruct (sv_state h) eqn:St; try (rewrite EL; eauto; fail). destruct W as (Nn & W). rewrite St in W. exists h. split; [reflexivity|split; [apply W|exact Nn]].
Qed.

(* with the Finished still to come the server waits for it *)
Lemma without_app a b : without_ccs (a ++ b) = without_ccs a ++ without_ccs b.
Proof. induction a as [|r a IH]; [reflexivity|]. cbn [app]. rewrite !without_cons, IH. now destruct (is_ccs r). Qed.
Lemma waits_short cfg d now so x used fin msgs : server_ok cfg d -> greeted cfg d x ->
  client_conforms cfg d now (gr_g x) (gr_msgs cfg d x) used msgs ->
  whole fin -> r_type fin = RApplicationData ->
  from_client (gr_g x) (zlen used) (Rfc8446Hello.handshake 20 (verify_data (gr_g x) (client_secret (gr_g x)) msgs)) fin ->
  forall groups h rest, Forall (fun g => g <> []) groups -> Forall whole (concat groups) -> without_ccs rest <> [] ->
  waits cfg d now so x used fin msgs h (concat groups ++ rest) ->
  exists h', server_do_handshake cfg d now h (map read_of groups) = (h', None).
Proof.
  intros Ok' G CC Wf Tf Ff. induction groups as [|gr groups IH]; intros h rest NE WA NR W.
  - cbn [concat app] in W. destruct W as (Nn & W). exists h. cbn [map server_do_handshake].
    destruct (sv_state h); try reflexivity. destruct W. contradiction.
  - inversion NE as [|? ? NE1 NE2]; subst. cbn [concat] in WA, W. apply Forall_app in WA. destruct WA as (WA1 & WA2).
    cbn [map app server_do_handshake]. rewrite <- app_assoc in W.
    assert (NS : sv_state h <> SvReady).
    { intros R. destruct W as (_ & W). rewrite R in W. destruct W as (W & _). rewrite !without_app in W. apply app_eq_nil in W. destruct W as (_ & W).
      apply app_eq_nil in W. destruct W as (_ & W). contradiction. }
    destruct (waits_steps _ _ _ _ _ _ _ _ Ok' G CC Wf Tf Ff gr h _ W) as (h1 & E1 & W1).
    destruct (waits_flush _ _ _ _ _ _ _ _ _ _ W1) as (h2 & E2 & W2).
    destruct (IH h2 rest NE2 WA2 NR W2) as (h' & E').
    assert (PW : Forall (fun r => record_from_raw (wire r) = Ok (length (wire r), r)) gr) by (eapply Forall_impl; [|exact WA1]; intros a [P _]; exact P).
    assert (TR : tcp_read (read_of gr) = Ok (read_of gr)).
    { unfold tcp_read. destruct (read_of gr) eqn:R; [|reflexivity]. exfalso. destruct gr as [|r gr]; [contradiction|].
      pose proof (wires_length _ PW) as LL. unfold read_of in R. rewrite R in LL. cbn [length] in LL. lia. }
    assert (EL : (let@ (h, rx) := (h, tcp_read (read_of gr)) in let@ (h, _) := server_records (length rx) cfg d now h rx in sv_flush h) = (h2, Ok tt)).
    { rewrite TR, sbind_Ok. unfold read_of. rewrite (records_steps cfg d now gr _ h PW (wires_length _ PW)). rewrite E1, sbind_Ok. exact E2. }
    exists h'. destruct (sv_state h) eqn:St; try (rewrite EL; exact E'); congruence.
Qed.

Lemma answers_fun cfg d hello ch body g ch' body' g' : answers cfg d hello ch body g -> answers cfg d hello ch' body' g' -> ch' = ch /\ body' = body /\ g' = g.
Proof.
  intros (hs & sh & pk & share & a & E1 & _ & E2 & E3 & E5 & Eg & Ek & _ & Es & Ec & Ep)
         (hs' & sh' & pk' & share' & a' & E1' & _ & E2' & E3' & E5' & Eg' & Ek' & _ & Es' & Ec' & Ep').
  rewrite E1 in E1'. apply Ok_inj in E1'. subst hs'. rewrite E2 in E2'. apply Ok_inj in E2'. subst ch'.
  rewrite E3 in E3'. apply Ok_inj in E3'. injection E3' as <- <-. rewrite E5 in E5'. apply Ok_inj in E5'. subst body'.
  rewrite Ek in Ek'. injection Ek' as <-. rewrite Es in Es'. apply Ok_inj in Es'. rewrite Ec in Ec'. apply Ok_inj in Ec'.
  rewrite Ep in Ep'. injection Ep' as _ Ea Ekl. split; [reflexivity|]. split; [reflexivity|].
  destruct g as [c1 a1 k1 e1 h1], g' as [c2 a2 k2 e2 h2]. cbn in *. subst. reflexivity.
Qed.

(* ---- the whole handshake ---- *)
Lemma accepts cfg d now so hello ch body g :
  server_ok cfg d -> zlen (ct_raw (sc_cert cfg)) < 2^16 - 64 -> so_left so = None ->
  whole hello -> r_type hello = RHandshake -> answers cfg d (r_fragment hello) ch body g -> can_sign cfg d g ->
  exists x, (greeted cfg d x /\ gr_hello x = hello /\ gr_ch x = ch /\ gr_body x = body /\ gr_g x = g) /\
  (exists h, accept cfg d now so [wire hello] = (h, None) /\ so_sent (st_sock (sv_stream h)) = so_sent so ++ gr_out x) /\
  forall groups later more used finished messages,
    Forall (fun x => x <> []) groups -> concat groups = hello :: more -> Forall whole more ->
    without_ccs more = used ++ [finished] ->
    client_conforms cfg d now g (gr_msgs cfg d x) used messages ->
    r_type finished = RApplicationData ->
    from_client g (zlen used) (Rfc8446Hello.handshake 20 (verify_data g (client_secret g) messages)) finished ->
    (exists h, accept cfg d now so (map (fun x => concat (map wire x)) groups ++ later) = (h, Some (Ok tt)) /\ sfin cfg d x h /\ endless (sv_stream h)) /\
    forall before rest, groups = before ++ rest -> before <> [] -> without_ccs (concat rest) <> [] ->
      exists h, accept cfg d now so (map (fun x => concat (map wire x)) before) = (h, None).
Proof.
  intros Ok' Lcert Nso Wh Th A CS. pose proof (whole_formed _ Wh) as Wf. pose proof Wf as (_ & _ & Bf & Lf).
  destruct (hello_fwd cfg d (server_new so) hello ch body g Ok' Lcert Bf Lf eq_refl Nso A CS) as (h1 & E1 & N1).
  destruct (hello_spec cfg d (server_new so) hello h1 tt Ok' Bf Lf eq_refl E1) as (H & ch' & body' & g' & der & p0 & p1 & ws & A' & Sg & Bd & Ld & S & N & En & O' & P' & Th' & St' & Cx & Ct & Tf & Kl & Lg).
  destruct (answers_fun _ _ _ _ _ _ _ _ _ A A') as (-> & -> & ->).
  set (x := Greeting hello H ch body g der p0 p1 ws).
  assert (G : greeted cfg d x) by (unfold greeted, x; cbn; auto 10).
  assert (L : live cfg d so x h1 0 (gr_msgs cfg d x)).
  { destruct (to_finished_ok H cfg d g der S Ok' Bd Ld) as (Bm & Lm).
    destruct (rpp_new_shape _ _ _ _ N) as (N1' & N2 & N3 & N4). destruct (enc_all_same _ _ _ _ En) as (M1 & M2 & M3 & M4 & M5).
    destruct (greeted_keys _ _ _ G) as (_ & _ & Hk). cbn [x gr_p0 gr_g] in Hk.
    unfold live, gr_msgs, gr_keylog, gr_out. cbn [x gr_hash gr_g gr_der gr_ch gr_p0 gr_p1 gr_ws gr_body].
    split; [rewrite O'; unfold out at 1; cbn; now rewrite app_nil_r|]. split; [exact Th'|]. split; [exact Bm|]. split; [lia|]. split; [lia|].
    split; [rewrite Cx; reflexivity|]. split; [rewrite Kl; reflexivity|]. split; [rewrite Lg; reflexivity|].
    exists p1. split; [exact P'|]. split; [unfold keyed; rewrite M1, M2, N1', N2; auto|]. split; [congruence|]. split; [auto|].
    split; [reflexivity|]. unfold peer_key. rewrite M3, M5. rewrite N3. unfold cur_keys. rewrite N4, Hk. reflexivity. }
  exists x. split; [unfold x; cbn [gr_hello gr_ch gr_body gr_g]; auto 6|]. split.
  { assert (PW : Forall (fun r => record_from_raw (wire r) = Ok (length (wire r), r)) [hello]) by (constructor; [apply Wh|constructor]).
    pose proof (wires_length _ PW) as WL. pose proof (records_steps cfg d now [hello] _ (server_new so) PW WL) as RS.
    cbn [map concat] in WL, RS. rewrite app_nil_r in WL, RS. 
    destruct (flush_cases (sv_stream h1)) as [(so' & F & So & _)|(so' & rest & F & _ & LL)]; [|contradiction].
    assert (TR : tcp_read (wire hello) = Ok (wire hello)) by (unfold tcp_read; destruct (wire hello); [cbn [length] in WL; lia|reflexivity]).
    eexists. split.
    - unfold accept. cbn [server_do_handshake server_new sv_state]. fold (server_new so). rewrite TR, sbind_Ok, RS.
      cbn [steps]. unfold handle_handshake_record. rewrite Th. cbn [server_new sv_state]. fold (server_new so). rewrite E1, !sbind_Ok.
      unfold sv_flush. rewrite F. cbn [server_do_handshake with_stream sv_state]. rewrite St'. destruct (sc_client_ca cfg); reflexivity.
    - cbn [with_stream sv_stream st_sock]. rewrite So. destruct L as (Lo & _). exact Lo. }
  intros groups later more used fin msgs NE EC WM EW CC Tfin Ffin.
  assert (Wfin : whole fin).
  { rewrite Forall_forall in WM. apply WM. assert (In fin (without_ccs more)) as I by (rewrite EW; apply in_or_app; right; left; reflexivity).
    unfold without_ccs in I. apply filter_In in I. tauto. }
  assert (W : waits cfg d now so x used fin msgs h1 more).
  { split; [exact N1|]. rewrite St'. destruct (sc_client_ca cfg) as [ca|] eqn:Ca.
    - split; [congruence|]. split; [exact L|exact EW].
    - unfold client_conforms in CC. rewrite Ca in CC. destruct CC as (-> & ->). split; [exact EW|]. split; [exact L|]. rewrite Tf. reflexivity. }
  destruct groups as [|gr groups]; [discriminate|]. inversion NE as [|? ? NE1 NE2]; subst.
  destruct gr as [|r gr]; [contradiction|]. cbn [concat app] in EC. injection EC as -> EC. rewrite <- EC in W, WM.
  apply Forall_app in WM. destruct WM as (WM1 & WM2).
  split.
  2:{ intros before rest EG NB NR. destruct before as [|b0 before]; [contradiction|]. injection EG as <- ->. rewrite concat_app in WM2, W. apply Forall_app in WM2. destruct WM2 as (WM2 & _).
    apply Forall_app in NE2. destruct NE2 as (NE2 & _).
    change (gr_g x) with g in *. change (gr_msgs cfg d x) with (to_server_finished cfg d g der) in *.
    destruct (waits_steps cfg d now so x used fin msgs Ok' G CC Wfin Tfin Ffin gr h1 _ W) as (h2 & E2 & W2).
    destruct (waits_flush _ _ _ _ _ _ _ _ _ _ W2) as (h3 & E3 & W3).
    destruct (waits_short cfg d now so x used fin msgs Ok' G CC Wfin Tfin Ffin before h3 (concat rest) NE2 WM2 NR W3) as (h' & E').
    exists h'. unfold accept. cbn [map app server_do_handshake server_new sv_state].
    assert (PW : Forall (fun r => record_from_raw (wire r) = Ok (length (wire r), r)) (hello :: gr)).
    { constructor; [apply Wh|]. eapply Forall_impl; [|exact WM1]; intros a [P _]; exact P. }
    set (rd := concat (map wire (hello :: gr))).
    assert (TR : tcp_read rd = Ok rd).
    { unfold tcp_read. destruct rd eqn:R; [|reflexivity]. exfalso. pose proof (wires_length _ PW) as LL. fold rd in LL. rewrite R in LL. cbn [length] in LL. lia. }
    assert (EL : (let@ (h, rx) := (server_new so, tcp_read rd) in let@ (h, _) := server_records (length rx) cfg d now h rx in sv_flush h) = (h3, Ok tt)).
    { rewrite TR, sbind_Ok. unfold rd. rewrite (records_steps cfg d now (hello :: gr) _ _ PW (wires_length _ PW)).
      cbn [steps]. unfold handle_handshake_record at 1. rewrite Th. cbn [server_new sv_state]. fold (server_new so). rewrite E1, sbind_Ok, E2, sbind_Ok. exact E3. }
    change (map wire (hello :: gr)) with (wire hello :: map wire gr) in rd. fold rd. fold (server_new so). rewrite EL.
    change (map read_of before) with (map (fun x => concat (map wire x)) before) in E'. rewrite E'. reflexivity. }
  change (gr_g x) with g in *. change (gr_msgs cfg d x) with (to_server_finished cfg d g der) in *.
  destruct (waits_steps cfg d now so x used fin msgs Ok' G CC Wfin Tfin Ffin gr h1 (concat groups) W) as (h2 & E2 & W2).
  destruct (waits_flush _ _ _ _ _ _ _ _ _ _ W2) as (h3 & E3 & W3).
  destruct (waits_loop cfg d now so x used fin msgs later Ok' G CC Wfin Tfin Ffin groups h3 NE2 WM2 W3) as (h' & E' & Fin).
  exists h'. split; [|exact Fin]. unfold accept. cbn [map app server_do_handshake server_new sv_state].
  assert (PW : Forall (fun r => record_from_raw (wire r) = Ok (length (wire r), r)) (hello :: gr)).
  { constructor; [apply Wh|]. eapply Forall_impl; [|exact WM1]; intros a [P _]; exact P. }
  set (rd := concat (map wire (hello :: gr))).
  assert (TR : tcp_read rd = Ok rd).
  { unfold tcp_read. destruct rd eqn:R; [|reflexivity]. exfalso. pose proof (wires_length _ PW) as LL. fold rd in LL. rewrite R in LL. cbn [length] in LL. lia. }
  assert (EL : (let@ (h, rx) := (server_new so, tcp_read rd) in let@ (h, _) := server_records (length rx) cfg d now h rx in sv_flush h) = (h3, Ok tt)).
  { rewrite TR, sbind_Ok. unfold rd. rewrite (records_steps cfg d now (hello :: gr) _ _ PW (wires_length _ PW)).
    cbn [steps]. unfold handle_handshake_record at 1. rewrite Th. cbn [server_new sv_state]. fold (server_new so). rewrite E1, sbind_Ok, E2, sbind_Ok. exact E3. }
  change (map wire (hello :: gr)) with (wire hello :: map wire gr) in rd. fold rd. fold (server_new so). rewrite EL.
  change (map read_of groups) with (map (fun x => concat (map wire x)) groups) in E'. rewrite E'. reflexivity.
Qed.
Lemma accepted cfg d now so hello ch body g :
  server_ok cfg d -> zlen (ct_raw (sc_cert cfg)) < 2^16 - 64 -> so_left so = None ->
  whole hello -> r_type hello = RHandshake -> answers cfg d (r_fragment hello) ch body g -> can_sign cfg d g ->
  exists der, server_signed cfg d g der /\
  forall groups later more used finished messages,
    Forall (fun x => x <> []) groups -> concat groups = hello :: more -> Forall whole more ->
    without_ccs more = used ++ [finished] ->
    client_conforms cfg d now g (to_server_finished cfg d g der) used messages ->
    r_type finished = RApplicationData ->
    from_client g (zlen used) (Rfc8446Hello.handshake 20 (verify_data g (client_secret g) messages)) finished ->
    exists h, accept cfg d now so (map (fun x => concat (map wire x)) groups ++ later) = (h, Some (Ok tt)).
Proof.
  intros Ok' Lcert Nso Wh Th A CS. destruct (accepts cfg d now so hello ch body g Ok' Lcert Nso Wh Th A CS) as (x & (G & _ & _ & _ & Eg) & _ & C).
  unfold gr_msgs in C. rewrite Eg in C. exists (gr_der x). split; [destruct G as (_ & _ & G & _); now rewrite Eg in G|].
  intros groups later more used fin msgs H1 H2 H3 H4 H5 H6 H7. destruct (C groups later more used fin msgs H1 H2 H3 H4 H5 H6 H7) as ((h & E & _) & _). eauto.
Qed.
