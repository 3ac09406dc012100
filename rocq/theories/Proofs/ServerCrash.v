(* A client whose Certificate or CertificateVerify message the server panics on brings it down *)
From Verif Require Import Proofs.Util Proofs.Bytes Model.Alert Model.Bytes Model.Suite Model.Sha2 Model.Hmac Model.KeySchedule Model.Record Model.Channel
  Model.Curve Model.Signature Model.Ecdsa Model.X509 Model.Extensions Model.Hello Model.Kex Model.Handshake Model.Certificate
  Model.Stream Model.AppChannel Model.Keylog Model.Server
  Spec.Enc Spec.Rfc2104 Spec.Fips180 Spec.Rfc8446Keys Spec.Tls13Record Spec.Endpoints Spec.Writes Spec.Rfc8446Auth Spec.Connection Spec.VerifyPanics Spec.CertMessagePanics Spec.Broken.
From Verif Require Spec.Rfc8446Hello Spec.Ecdsa.
From Verif Require Import Proofs.KeySchedule Proofs.Record Proofs.Channel Proofs.Stream Proofs.ServerRun Proofs.ServerKeys Proofs.Opened
  Proofs.ServerSteps Proofs.ServerFlow Proofs.ServerAccept Proofs.ServerAccept2.
From Verif Require Proofs.Hmac Proofs.Sha2 Proofs.VerifyPanics Proofs.CertMessagePanics Proofs.HelloTotal Proofs.X509Bytes Proofs.Auth Proofs.ServerExample.

(* a message that is said to be longer than it is *)
Lemma frame_down ty b1 b2 b3 rest : is_bytes (ty :: b1 :: b2 :: b3 :: rest) -> In ty handshake_types -> zlen rest < n24 b1 b2 b3 -> handshake_from_raw (ty :: b1 :: b2 :: b3 :: rest) = Panic.
Proof.
  intros B I L. inversion B as [|? ? B0 Bt]; subst. inversion Bt as [|? ? B1 Bt1]; subst. inversion Bt1 as [|? ? B2 Bt2]; subst. inversion Bt2 as [|? ? B3 Br]; subst.
  rewrite HelloTotal.from_raw_exact by assumption. 
  assert (exists t, handshake_type_new ty = Some t) as (t & ->) by (cbn [handshake_types In] in I; repeat (destruct I as [<- | I]; [eexists; reflexivity|]); contradiction).
  cbv zeta. unfold n24, zlen in L. destruct (Nat.leb_spec (Z.to_nat (b1 * 65536 + b2 * 256 + b3)) (length rest)); [lia|reflexivity].
Qed.
Lemma decrypt_short p r : (length (r_fragment r) < 16)%nat -> rpp_decrypt p r = (p, Panic).
Proof. intros H. unfold rpp_decrypt. apply Nat.ltb_lt in H. now rewrite H. Qed.

Local Opaque x509_from_raw is_valid X509.get_public_key ecdsa_verify handshake_from_raw sig_from_der is_certificate_valid has_signed certificates_from_hello.

Lemma to_certificates cfg d now ca h t body extra : sc_client_ca cfg = Some ca -> is_bytes body -> zlen body < 2^24 ->
  sv_th h = Some t -> sv_context h = Some (d_context d) -> with_context (d_context d) body ->
  let m := Rfc8446Hello.handshake 11 body ++ extra in
  snd (handle_client_certificate cfg now h m) = Panic \/
  handle_client_certificate cfg now h m =
    (let h := with_th (with_th_finished h t) (th_update t m) in
      match certificates_from_hello body now with
      | Panic => (h, Panic)
      | Err e => (with_state h (SvFinishWithError e), Ok tt)
      | Ok certs =>
          let@ (h, c) := (h, unwrap (List.last (map Some certs) None)) in
          match has_signed ca c with
          | Panic => (h, Panic)
          | Err _ => (with_state h (SvFinishWithError UnknownCa), Ok tt)
          | Ok _ =>
              match sc_verify cfg with
              | Some f =>
                  let@ (h, x) := (h, unwrap (ct_x509 c)) in
                  if f x then (with_state (with_cert h c) SvClientCertificateVerify, Ok tt)
                  else (with_state h (SvFinishWithError AccessDenied), Ok tt)
              | None => (with_state (with_cert h c) SvClientCertificateVerify, Ok tt)
              end
          end
      end).
Proof.
  intros Ca B L Th Cc W m. unfold handle_client_certificate, m. 
  pose proof (frame_read HtCertificate body extra L) as FR. cbn [handshake_type_u8] in FR. rewrite FR, sbind_Ok, Ca.
  cbn [hs_type hs_fraqment]. change (negb (ht_eqb HtCertificate HtCertificate)) with false. cbv iota.
  rewrite Th. cbn [unwrap]. rewrite sbind_Ok. destruct body as [|b0 rest]; [left; reflexivity|].
  change (idx (b0 :: rest) 0) with (Ok (E:=tls_error) b0). rewrite sbind_Ok.
  inversion B as [|? ? B0 Br]; subst. assert (H0 : 0 <= b0) by (unfold is_byte in B0; lia).
  destruct (Z_lt_ge_dec (zlen rest) b0) as [S|S].
  - left. rewrite CertMessagePanics.slice_past; [reflexivity|]. unfold zlen in S. cbn [length]. lia.
  - right. unfold zlen in S.
    assert (I1 : slice (E:=tls_error) (b0 :: rest) 1 (Z.to_nat b0 + 1) = Ok (firstn (Z.to_nat b0) rest)).
    { rewrite <- (firstn_skipn (Z.to_nat b0) rest) at 1. change (b0 :: ?a ++ ?b) with ([b0] ++ a ++ b).
      apply slice_mid; cbn [length]; [reflexivity|]. rewrite firstn_length. lia. }
    rewrite I1, sbind_Ok. cbn [with_th with_th_finished sv_context]. rewrite Cc. cbn [unwrap]. rewrite sbind_Ok.
    rewrite (W b0 (firstn (Z.to_nat b0) rest) (skipn (Z.to_nat b0) rest)); [|now rewrite firstn_skipn|unfold zlen; rewrite firstn_length; lia].
    rewrite list_eqb_refl. reflexivity.
Qed.
Lemma cert_down cfg d now ca h t body extra : sc_client_ca cfg = Some ca -> is_bytes body -> zlen body < 2^24 ->
  sv_th h = Some t -> sv_context h = Some (d_context d) -> with_context (d_context d) body ->
  certificates_from_hello body now = Panic \/ (exists c, certificates_from_hello body now = Ok [c] /\ has_signed ca c = Panic) ->
  snd (handle_client_certificate cfg now h (Rfc8446Hello.handshake 11 body ++ extra)) = Panic.
Proof.
  intros Ca B L Th Cc W X. destruct (to_certificates cfg d now ca h t body extra Ca B L Th Cc W) as [E|E]; [exact E|]. rewrite E.
  destruct X as [-> | (c & -> & S)]; [reflexivity|]. cbn [map List.last unwrap]. rewrite sbind_Ok, S. reflexivity.
Qed.
Lemma cert_taken cfg d now ca h t body extra c v : sc_client_ca cfg = Some ca -> is_bytes body -> zlen body < 2^24 ->
  sv_th h = Some t -> sv_context h = Some (d_context d) -> with_context (d_context d) body ->
  certificates_from_hello body now = Ok [c] -> has_signed ca c = Ok v -> (forall check, sc_verify cfg = Some check -> exists y, ct_x509 c = Some y /\ check y = true) ->
  exists h', (handle_client_certificate cfg now h (Rfc8446Hello.handshake 11 body ++ extra) = (h', Panic) \/
    handle_client_certificate cfg now h (Rfc8446Hello.handshake 11 body ++ extra) = (h', Ok tt)) /\
    (handle_client_certificate cfg now h (Rfc8446Hello.handshake 11 body ++ extra) = (h', Ok tt) -> sv_state h' = SvClientCertificateVerify /\ sv_cert h' = Some c).
Proof.
  intros Ca B L Th Cc W R S Ck. destruct (to_certificates cfg d now ca h t body extra Ca B L Th Cc W) as [E|E].
  - destruct (handle_client_certificate _ _ _ _) as [h' o]. cbn [snd] in E. subst o. exists h'. split; [now left|discriminate].
  - rewrite E, R. cbn [map List.last unwrap]. rewrite sbind_Ok, S. cbv zeta. destruct (sc_verify cfg) as [f|].
    + destruct (Ck f eq_refl) as (y & Y & F). rewrite Y. cbn [unwrap]. rewrite sbind_Ok, F. eexists. split; [now right|]. split; reflexivity.
    + eexists. split; [now right|]. split; reflexivity.
Qed.

(* the CertificateVerify message after certificate c *)
Lemma verify_down h c t body1 now body2 extra : is_bytes body1 -> is_bytes body2 -> zlen body2 < 2^24 -> sv_cert h = Some c -> sv_th h = Some t -> certificates_from_hello body1 now = Ok [c] ->
  verify_panics body2 \/ bad_key body1 /\ (exists l1 l2 der sg, body2 = 4 :: 3 :: l1 :: l2 :: der /\ sig_from_der der = Ok sg) ->
  snd (handle_client_certificate_verify h (Rfc8446Hello.handshake 15 body2 ++ extra)) = Panic.
Proof.
  intros B1 B2 L Hc Th R V. unfold handle_client_certificate_verify. 
  pose proof (frame_read HtCertificateVerify body2 extra L) as FR. cbn [handshake_type_u8] in FR. rewrite FR, sbind_Ok, Hc.
  cbn [hs_type hs_fraqment]. change (negb (ht_eqb HtCertificateVerify HtCertificateVerify)) with false. cbv iota.
  destruct V as [V | ((cert' & more' & x' & C' & X' & A & P & N) & l1 & l2 & der & sg & -> & S)].
  - destruct (VerifyPanics.verify_falls body2 B2 V) as [-> |(b1 & -> & F)]; [reflexivity|]. rewrite sbind_Ok. destruct F as [-> |[-> |(-> & F)]]; rewrite sbind_Ok; [reflexivity|reflexivity|].
    destruct F as [-> |(rest & -> & F)]; [reflexivity|]. rewrite sbind_Ok, F. reflexivity.
  - destruct (CertMessagePanics.kept_carries body1 now c B1 R) as (cert & more & x & C & X & ->).
    destruct (CertMessagePanics.carries_fun _ _ _ _ _ C C') as (<- & _). assert (x' = x) as -> by congruence.
    change (slice (4 :: 3 :: l1 :: l2 :: der) 0 2) with (Ok (E:=tls_error) [4; 3]). rewrite sbind_Ok. change (sig_scheme_new (to_u16 [4; 3])) with (Ok (E:=tls_error) ecdsa_secp256r1_sha256). rewrite sbind_Ok.
    change (slice_from (4 :: 3 :: l1 :: l2 :: der) 4) with (Ok (E:=tls_error) der). rewrite sbind_Ok, S. destruct sg as [sg size]. rewrite Th. cbn [unwrap]. rewrite sbind_Ok.
    rewrite (CertMessagePanics.unchecked (Cert cert (Some x)) x sg t l_client eq_refl); [reflexivity| |assumption..].
    apply (X509Bytes.x509_key_bytes cert x); [now apply (CertMessagePanics.carries_bytes body1 cert more)|exact X].
Qed.
Local Opaque handle_client_certificate handle_client_certificate_verify handle_client_finish rpp_decrypt handle_client_hello.

Section Fixed.
Variables (cfg : server_config) (d : draws) (now : Z) (so : sock) (x : greeting) (ca : cert).
Hypothesis OK : server_ok cfg d.
Hypothesis G : greeted cfg d x.

Definition comes (n : Z) (m : list Z) (r : record) : Prop := whole r /\ r_type r = RApplicationData /\ from_client (gr_g x) n m r.
Definition verify_fatal (body1 : list Z) (c : cert) (rest : list record) : Prop :=
  exists body2 extra r tl, rest = r :: tl /\ comes 1 (Rfc8446Hello.handshake 15 body2 ++ extra) r /\ is_bytes body1 /\ is_bytes body2 /\ certificates_from_hello body1 now = Ok [c] /\
    (verify_panics body2 \/ bad_key body1 /\ (exists l1 l2 der sg, body2 = 4 :: 3 :: l1 :: l2 :: der /\ sig_from_der der = Ok sg)).
Definition cert_fatal (rest : list record) : Prop := sc_client_ca cfg = Some ca /\
  exists body extra r tl, rest = r :: tl /\ comes 0 (Rfc8446Hello.handshake 11 body ++ extra) r /\ is_bytes body /\ with_context (d_context d) body /\
    ((certificates_from_hello body now = Panic \/ (exists c, certificates_from_hello body now = Ok [c] /\ has_signed ca c = Panic)) \/
     exists c v, certificates_from_hello body now = Ok [c] /\ has_signed ca c = Ok v /\ (forall check, sc_verify cfg = Some check -> exists y, ct_x509 c = Some y /\ check y = true) /\
       verify_fatal body c tl).

(* or the first record is of Spec/Broken.v *)
Definition first_fatal (rest : list record) : Prop :=
  exists r tl, rest = r :: tl /\ whole r /\ broken (opened (g_cipher (gr_g x)) (g_alg (gr_g x)) (g_klen (gr_g x)) (client_secret (gr_g x)) 0) r.

Definition doomed (h : server_hs) (rest : list record) : Prop :=
  endless (sv_stream h) /\
  match sv_state h with
  | SvClientCertificate => live cfg d so x h 0 (gr_msgs cfg d x) /\ (cert_fatal (without_ccs rest) \/ first_fatal (without_ccs rest))
  | SvClientFinished => live cfg d so x h 0 (gr_msgs cfg d x) /\ first_fatal (without_ccs rest)
  | SvClientCertificateVerify => exists ms body1 c, live cfg d so x h 1 ms /\ sv_cert h = Some c /\ verify_fatal body1 c (without_ccs rest) /\ sc_client_ca cfg = Some ca
  | _ => False
  end.

Lemma fits ty body extra : zlen (Rfc8446Hello.handshake ty body ++ extra) < 2^16 -> zlen body < 2^24.
Proof. intros L. unfold zlen in *. rewrite app_length, handshake_length in L. lia. Qed.

Lemma first_crash h r rest : (sv_state h = SvClientCertificate \/ sv_state h = SvClientFinished) -> live cfg d so x h 0 (gr_msgs cfg d x) -> first_fatal (r :: rest) ->
  exists h', handle_handshake_record cfg d now h r = (h', Panic).
Proof.
  intros St L (r' & tl & Er & W & X). injection Er as <- _. pose proof L as (_ & _ & _ & _ & _ & Cx & _ & _ & p & P & K & C & A & _ & Pk). pose proof (whole_formed _ W) as Wf.
  assert (ENC : r_type r <> RAlert -> r_type r <> RChangeCipherSpec -> handle_handshake_record cfg d now h r = handle_handshake_encrypted_record cfg now h r).
  { intros N1 N2. unfold handle_handshake_record. destruct (r_type r); try congruence; destruct St as [-> | ->]; reflexivity. }
  assert (OPEN : forall t content, r_type r = RApplicationData -> t <> RInvalid -> opened (g_cipher (gr_g x)) (g_alg (gr_g x)) (g_klen (gr_g x)) (client_secret (gr_g x)) 0 t content r ->
    is_bytes content /\ exists p', rpp_decrypt p r = (p', Ok (t, content))).
  { intros t content T NI O. destruct (greeted_keys _ _ _ G) as (G1 & _).
    destruct (opened_decrypt _ _ p (client_secret (gr_g x)) 0 r t content K A Pk G1 NI ltac:(lia) ltac:(lia) O) as (p' & D).
    destruct (live_decrypt _ _ _ _ _ _ _ _ _ _ _ _ G L ltac:(lia) Wf P D NI) as (_ & Bm & _). eauto. }
  destruct X as [T S|N1 N2 S|content T O S|ty b1 b2 b3 body T O I S].
  - exists h. unfold handle_handshake_record. rewrite T. destruct (r_fragment r) as [|a [|b f]]; [reflexivity|reflexivity|cbn [length] in S; lia].
  - rewrite (ENC N1 N2). unfold handle_handshake_encrypted_record. rewrite P. cbn [unwrap]. rewrite sbind_Ok, (decrypt_short p r S). eexists. reflexivity.
  - rewrite ENC by congruence. destruct (OPEN RAlert content T ltac:(discriminate) O) as (_ & p' & D). unfold handle_handshake_encrypted_record. rewrite P. cbn [unwrap]. rewrite sbind_Ok, D, sbind_Ok.
    cbv iota beta zeta. eexists. destruct content as [|a [|b f]]; [reflexivity|reflexivity|cbn [length] in S; lia].
  - rewrite ENC by congruence. destruct (OPEN RHandshake _ T ltac:(discriminate) O) as (Bm & p' & D). unfold handle_handshake_encrypted_record. rewrite P. cbn [unwrap]. rewrite sbind_Ok, D, sbind_Ok.
    cbv iota beta zeta. change (sv_context (with_protection h (Some p'))) with (sv_context h). change (sv_state (with_protection h (Some p'))) with (sv_state h).
    pose proof (frame_down ty b1 b2 b3 body Bm I S) as FD.
    assert (NC : (match sc_client_ca cfg, sv_context h with Some _, None => true | _, _ => false end) = false) by (rewrite Cx; now destruct (sc_client_ca cfg)). rewrite NC.
    Local Transparent handle_client_certificate handle_client_finish.
    destruct St as [-> | ->]; [unfold handle_client_certificate|unfold handle_client_finish]; rewrite FD; eexists; reflexivity.
    Local Opaque handle_client_certificate handle_client_finish.
Qed.
Lemma record_crash h r rest : doomed h (r :: rest) ->
  exists h', handle_handshake_record cfg d now h r = (h', Panic) \/ handle_handshake_record cfg d now h r = (h', Ok tt) /\ doomed h' rest.
Proof.
  intros (N & W). destruct (is_ccs r) eqn:C.
  { exists h. right. unfold handle_handshake_record.
    assert (T : r_type r = RChangeCipherSpec) by (unfold is_ccs in C; destruct (r_type r); congruence). rewrite T.
    split; [destruct (sv_state h); try reflexivity; contradiction|]. split; [exact N|].
    destruct (sv_state h); try exact W; rewrite without_cons, C in W; exact W. }
  destruct (sv_state h) eqn:St; try contradiction.
  - destruct W as (L & [W | W]); [|rewrite without_cons, C in W; destruct (first_crash h r _ (or_introl St) L W) as (h' & E); exists h'; now left].
    destruct W as (CA & body & extra & r1 & tl & Ew & (Wr & Tr & Fr) & Bb & WC & K). rewrite without_cons, C in Ew. injection Ew as <- Ew.
    destruct (enc_fwd cfg d now so x h 0 _ _ r G L ltac:(lia) Wr Tr Fr ltac:(rewrite St; exact I)) as (h1 & L1 & Bm & Lm & (p' & E1) & HR).
    rewrite St in HR. rewrite HR. clear HR. pose proof L1 as (O1 & Th1 & Bm1 & Lm1 & _ & Cx1 & Kl1 & Lg1 & Lp1). rewrite CA in Cx1.
    pose proof OK as (_ & _ & _ & _ & _ & _ & Lctx & _ & OkCa). destruct (OkCa ca CA) as (Bca & cax & Cx & Xca).
    destruct K as [K | (c & v & R & Hs & Ck & V)].
    + pose proof (cert_down cfg d now ca h1 _ body extra CA Bb (fits _ _ _ Lm) Th1 Cx1 WC K) as P. destruct (handle_client_certificate _ _ _ _) as [h' o]. cbn [snd] in P. subst o. exists h'. now left.
    + destruct (cert_taken cfg d now ca h1 _ body extra c v CA Bb (fits _ _ _ Lm) Th1 Cx1 WC R Hs Ck) as (h' & [E|E] & F); [exists h'; now left|]. exists h'. right.
      destruct (F E) as (S' & Ct). split; [exact E|].
      destruct (cert_step cfg d now ca cax h1 _ h' tt _ CA Cx Bca Xca Bm Lm Th1 Cx1 E) as [(e & Se)|(_ & Str & Th & Tf & Kl & Lg & Ctx & _)]; [congruence|].
      split; [rewrite Str, E1; exact N|]. rewrite S'. exists (gr_msgs cfg d x ++ (Rfc8446Hello.handshake 11 body ++ extra)), body, c. split; [|split; [exact Ct|split; [rewrite Ew; exact V|exact CA]]].
      unfold live. rewrite Str, Kl, Lg, Ctx, CA. split; [exact O1|]. split; [rewrite th_update_app; exact Th|].
      split; [apply is_bytes_app; auto|]. split; [destruct L as (_ & _ & _ & L & _); rewrite zlen_app; lia|]. split; [lia|].
      split; [exact Cx1|]. split; [exact Kl1|]. split; [exact Lg1|]. exact Lp1.
  - destruct W as (ms & body1 & c & L & Ct & (body2 & extra & r1 & tl & Ew & (Wr & Tr & Fr) & B1 & B2 & R & V) & CA). rewrite without_cons, C in Ew. injection Ew as <- Ew.
    destruct (enc_fwd cfg d now so x h 1 _ _ r G L ltac:(lia) Wr Tr Fr ltac:(rewrite St; exact I)) as (h1 & L1 & Bm & Lm & (p' & E1) & HR).
    rewrite St in HR. rewrite HR. clear HR. pose proof L1 as (_ & Th1 & _).
    assert (Ct1 : sv_cert h1 = Some c) by (rewrite E1; exact Ct).
    pose proof (verify_down h1 c _ body1 now body2 extra B1 B2 (fits _ _ _ Lm) Ct1 Th1 R V) as P.
    destruct (handle_client_certificate_verify _ _) as [h' o]. cbn [snd] in P. subst o. exists h'. now left.
  - destruct W as (L & W). rewrite without_cons, C in W. destruct (first_crash h r _ (or_intror St) L W) as (h' & E). exists h'. now left.
Qed.
Lemma steps_crash : forall recs h rest, doomed h (recs ++ rest) ->
  exists h', steps cfg d now h recs = (h', Panic) \/ steps cfg d now h recs = (h', Ok tt) /\ doomed h' rest.
Proof.
  induction recs as [|r recs IH]; intros h rest W; [exists h; auto|]. cbn [app] in W. cbn [steps].
  destruct (record_crash _ _ _ W) as (h1 & [E1 | (E1 & W1)]); rewrite E1; [exists h1; now left|]. rewrite sbind_Ok. exact (IH h1 rest W1).
Qed.
Lemma doomed_flush h rest : doomed h rest -> exists h', sv_flush h = (h', Ok tt) /\ doomed h' rest.
Proof.
  intros (N & W). unfold sv_flush. destruct (flush_endless (sv_stream h) N) as (s' & F & N' & P & O). rewrite F.
  exists (with_stream h s'). split; [reflexivity|]. split; [exact N'|].
  unfold live in *. cbn [with_stream sv_state sv_stream sv_keylog sv_log sv_cert sv_context sv_th sv_th_finished]. rewrite P, O. exact W.
Qed.
Lemma doomed_more h : ~ doomed h [].
Proof. intros (_ & W). destruct (sv_state h); try contradiction; [destruct W as (_ & [(_ & ? & ? & ? & ? & W & _) | (? & ? & W & _)])|destruct W as (? & ? & ? & _ & _ & (? & ? & ? & ? & W & _) & _)|destruct W as (_ & ? & ? & W & _)]; discriminate. Qed.
Lemma doomed_open h rest : doomed h rest -> sv_state h <> SvReady.
Proof. intros (_ & W) E. rewrite E in W. exact W. Qed.

Lemma loop_crash later : forall groups h, Forall (fun g => g <> []) groups -> Forall whole (concat groups) -> doomed h (concat groups) ->
  snd (server_do_handshake cfg d now h (map read_of groups ++ later)) = Some Panic.
Proof.
  induction groups as [|gr groups IH]; intros h NE WA W; [destruct (doomed_more h W)|].
  inversion NE as [|? ? NE1 NE2]; subst. cbn [concat] in WA, W. apply Forall_app in WA. destruct WA as (WA1 & WA2).
  cbn [map app server_do_handshake]. pose proof (doomed_open _ _ W) as NR.
  assert (PW : Forall (fun r => record_from_raw (wire r) = Ok (length (wire r), r)) gr) by (eapply Forall_impl; [|exact WA1]; intros a [P _]; exact P).
  assert (TR : tcp_read (read_of gr) = Ok (read_of gr)).
  { unfold tcp_read. destruct (read_of gr) eqn:R; [|reflexivity]. exfalso. destruct gr as [|r gr]; [contradiction|].
    pose proof (wires_length _ PW) as LL. unfold read_of in R. rewrite R in LL. cbn [length] in LL. lia. }
  destruct (steps_crash gr h (concat groups) W) as (h1 & [E1 | (E1 & W1)]).
  - assert (EL : (let@ (h, rx) := (h, tcp_read (read_of gr)) in let@ (h, _) := server_records (length rx) cfg d now h rx in sv_flush h) = (h1, Panic)).
    { rewrite TR, sbind_Ok. unfold read_of. rewrite (records_steps cfg d now gr _ h PW (wires_length _ PW)). rewrite E1. reflexivity. }
    destruct (sv_state h) eqn:St; try (rewrite EL; reflexivity). congruence.
  - destruct (doomed_flush _ _ W1) as (h2 & E2 & W2).
    assert (EL : (let@ (h, rx) := (h, tcp_read (read_of gr)) in let@ (h, _) := server_records (length rx) cfg d now h rx in sv_flush h) = (h2, Ok tt)).
    { rewrite TR, sbind_Ok. unfold read_of. rewrite (records_steps cfg d now gr _ h PW (wires_length _ PW)). rewrite E1, sbind_Ok. exact E2. }
    destruct (sv_state h) eqn:St; try (rewrite EL; exact (IH h2 NE2 WA2 W2)). congruence.
Qed.
End Fixed.

Lemma server_crashed_by cfg d now so hello ch body g ca :
  server_ok cfg d -> zlen (ct_raw (sc_cert cfg)) < 2^16 - 64 -> so_left so = None ->
  whole hello -> r_type hello = RHandshake -> answers cfg d (r_fragment hello) ch body g -> can_sign cfg d g ->
  forall groups later more, Forall (fun x => x <> []) groups -> concat groups = hello :: more -> Forall whole more ->
  (forall x, gr_g x = g -> cert_fatal cfg d now x ca (without_ccs more) \/ first_fatal x (without_ccs more)) ->
  snd (accept cfg d now so (map (fun x => concat (map wire x)) groups ++ later)) = Some Panic.
Proof.
  intros Ok' Lcert Nso Wh Th A CS groups later more NE EC WM CF. pose proof (whole_formed _ Wh) as Wf. pose proof Wf as (_ & _ & Bf & Lf).
  destruct (hello_fwd cfg d (server_new so) hello ch body g Ok' Lcert Bf Lf eq_refl Nso A CS) as (h1 & E1 & N1).
  destruct (hello_spec cfg d (server_new so) hello h1 tt Ok' Bf Lf eq_refl E1) as (H & ch' & body' & g' & der & p0 & p1 & ws & A' & Sg & Bd & Ld & S & N & En & O' & P' & Th' & St' & Cx & Ct & Tf & Kl & Lg).
  destruct (answers_fun _ _ _ _ _ _ _ _ _ A A') as (-> & -> & ->).
  set (x := Greeting hello H ch body g der p0 p1 ws).
  assert (G : greeted cfg d x) by (unfold greeted, x; cbn; auto 10).
  assert (L : live cfg d so x h1 0 (gr_msgs cfg d x)).
  { destruct (to_finished_ok H cfg d g der S Ok' Bd Ld) as (Bm & Lm).
    destruct (rpp_new_shape _ _ _ _ N) as (N1' & N2 & N3 & N4). destruct (enc_all_same _ _ _ _ En) as (M1 & M2 & M3 & M4 & M5).
    destruct (greeted_keys _ _ _ G) as (_ & _ & Hk). cbn [x gr_p0 gr_g] in Hk.
    unfold live, gr_msgs, gr_keylog, gr_out. cbn [x gr_hash gr_g gr_der gr_ch gr_p0 gr_p1 gr_ws gr_body].
    split; [rewrite O'; unfold out at 1; cbn; now rewrite app_nil_r|]. split; [exact Th'|]. split; [exact Bm|]. split; [lia|]. split; [lia|].
    split; [rewrite Cx; reflexivity|]. split; [rewrite Kl; reflexivity|]. split; [rewrite Lg; reflexivity|].
    exists p1. split; [exact P'|]. split; [unfold keyed; rewrite M1, M2, N1', N2; auto|]. split; [congruence|]. split; [auto|].
    split; [reflexivity|]. unfold peer_key. rewrite M3, M5. rewrite N3. unfold cur_keys. rewrite N4, Hk. reflexivity. }
  assert (W : doomed cfg d now so x ca h1 more).
  { split; [exact N1|]. rewrite St'. destruct (sc_client_ca cfg) as [ca'|] eqn:Ca; split; try exact L; destruct (CF x eq_refl) as [F|F]; [left; exact F|right; exact F|destruct F as (F & _); congruence|exact F]. }
  destruct groups as [|gr groups]; [discriminate|]. inversion NE as [|? ? NE1 NE2]; subst.
  destruct gr as [|r gr]; [contradiction|]. cbn [concat app] in EC. injection EC as -> EC. rewrite <- EC in W, WM.
  apply Forall_app in WM. destruct WM as (WM1 & WM2).
  unfold accept. cbn [map app server_do_handshake server_new sv_state]. fold (server_new so).
  assert (PW : Forall (fun r => record_from_raw (wire r) = Ok (length (wire r), r)) (hello :: gr)).
  { constructor; [apply Wh|]. eapply Forall_impl; [|exact WM1]; intros a [P _]; exact P. }
  set (rd := concat (map wire (hello :: gr))).
  assert (TR : tcp_read rd = Ok rd).
  { unfold tcp_read. destruct rd eqn:R; [|reflexivity]. exfalso. pose proof (wires_length _ PW) as LL. fold rd in LL. rewrite R in LL. cbn [length] in LL. lia. }
  change (map wire (hello :: gr)) with (wire hello :: map wire gr) in rd. fold rd.
  destruct (steps_crash cfg d now so x ca Ok' G gr h1 (concat groups) W) as (h2 & [E2 | (E2 & W2)]).
  - assert (EL : (let@ (h, rx) := (server_new so, tcp_read rd) in let@ (h, _) := server_records (length rx) cfg d now h rx in sv_flush h) = (h2, Panic)).
    { rewrite TR, sbind_Ok. unfold rd. change (wire hello :: map wire gr) with (map wire (hello :: gr)). rewrite (records_steps cfg d now (hello :: gr) _ _ PW (wires_length _ PW)).
      cbn [steps]. unfold handle_handshake_record at 1. rewrite Th. cbn [server_new sv_state]. fold (server_new so). rewrite E1, sbind_Ok, E2. reflexivity. }
    rewrite EL. reflexivity.
  - destruct (doomed_flush _ _ _ _ _ _ _ _ W2) as (h3 & E3 & W3).
    assert (EL : (let@ (h, rx) := (server_new so, tcp_read rd) in let@ (h, _) := server_records (length rx) cfg d now h rx in sv_flush h) = (h3, Ok tt)).
    { rewrite TR, sbind_Ok. unfold rd. change (wire hello :: map wire gr) with (map wire (hello :: gr)). rewrite (records_steps cfg d now (hello :: gr) _ _ PW (wires_length _ PW)).
      cbn [steps]. unfold handle_handshake_record at 1. rewrite Th. cbn [server_new sv_state]. fold (server_new so). rewrite E1, sbind_Ok, E2, sbind_Ok. exact E3. }
    rewrite EL. pose proof (loop_crash cfg d now so x ca Ok' G later groups h3 NE2 WM2 W3) as R.
    change (map (fun x0 => concat (map wire x0)) groups) with (map read_of groups).
    destruct (server_do_handshake cfg d now h3 (map read_of groups ++ later)) as (h4 & o). cbn [snd] in R. rewrite R. reflexivity.
Qed.

(* ---- for the examples ---- *)
Lemma context_wire ctx tail : zlen ctx < 256 -> with_context ctx (Rfc8446Hello.vector8 ctx ++ tail).
Proof.
  intros L c ctx' more E Lc. unfold Rfc8446Hello.vector8 in E. pose proof (zlen_nonneg ctx).
  assert (B1 : be_enc 1 (Z.of_nat (length ctx)) = [zlen ctx]) by (cbn; rewrite Z.mod_small by (unfold zlen in *; lia); reflexivity).
  rewrite B1 in E. cbn [app] in E. injection E as <- E. apply CertMessagePanics.app_split in E; [|unfold zlen in Lc; lia]. destruct E as (-> & _). reflexivity.
Qed.
(* a server that asks for a certificate, and two records of a client *)
Lemma asks m1 m2 : is_bytes m1 -> zlen m1 + 17 < 2^16 -> is_bytes m2 -> zlen m2 + 17 < 2^16 ->
  exists hello ch body g r1 r2, whole hello /\ r_type hello = RHandshake /\ answers (ServerExample.ex_cfg true) ServerExample.ex_draws (r_fragment hello) ch body g /\
    can_sign (ServerExample.ex_cfg true) ServerExample.ex_draws g /\
    (whole r1 /\ r_type r1 = RApplicationData /\ from_client g 0 m1 r1) /\ whole r2 /\ r_type r2 = RApplicationData /\ from_client g 1 m2 r2.
Proof.
  intros B1 L1 B2 L2. destruct (ServerExample.ex_answered true) as (body & g & A).
  assert (Bf : is_bytes ServerExample.ex_first) by (apply is_bytes_check; vm_compute; reflexivity).
  assert (Lf : zlen ServerExample.ex_first < 2^16) by (vm_compute; reflexivity).
  destruct (ServerExample.hello_record ServerExample.ex_first Bf Lf) as (hello & Wh & Th & Fh). rewrite <- Fh in A, Bf, Lf.
  destruct (answers_facts _ _ _ _ _ _ (ServerExample.ex_server_ok true) Bf Lf A) as (_ & _ & _ & _ & H & _ & _ & _ & _ & _ & _ & _ & _ & _ & S & _).
  destruct (ServerExample.client_record H g 0 m1 S B1 L1 ltac:(lia)) as (r1 & W1 & T1 & F1). destruct (ServerExample.client_record H g 1 m2 S B2 L2 ltac:(lia)) as (r2 & W2 & T2 & F2).
  exists hello. eexists _, body, g, r1, r2. split; [exact Wh|]. split; [exact Th|]. split; [exact A|]. split; [exact (ServerExample.ex_can_sign true g)|]. auto 10.
Qed.
Lemma own_read : certificates_from_hello (Rfc8446Hello.vector8 (d_context ServerExample.ex_draws) ++
    Rfc8446Hello.vector24 (Rfc8446Hello.vector24 ServerExample.own_raw ++ Rfc8446Hello.vector16 [] ++ [])) ServerExample.own_now = Ok [Cert ServerExample.own_raw (Some ServerExample.own_x)].
Proof.
  assert (R : forall context cert exts others now, zlen context < 256 -> zlen cert < 2^24 -> zlen (Rfc8446Hello.vector24 cert ++ Rfc8446Hello.vector16 exts ++ others) < 2^24 ->
    zlen exts < 2^16 -> certificates_from_hello (Rfc8446Hello.vector8 context ++ Rfc8446Hello.vector24 (Rfc8446Hello.vector24 cert ++ Rfc8446Hello.vector16 exts ++ others)) now =
    let! c := certificate_from_raw cert in let! x := unwrap (ct_x509 c) in let! v := is_valid (x_validity x) now in if negb v then Err CertificateExpired else Ok [c]).
  { intros context cert exts others now L1 L2 L3 L4. pose proof (Auth.certificates_read context cert exts others [] now) as R. rewrite app_nil_r in R. unfold Auth.entry in R.
    rewrite <- app_assoc in R. exact (R L1 L2 L3). }
  rewrite R by (vm_compute; reflexivity). clear R.
  unfold certificate_from_raw. rewrite ServerExample.own_parse, bind_Ok. cbn [ct_x509 unwrap]. rewrite bind_Ok, ServerExample.own_valid, bind_Ok. reflexivity.
Qed.
Lemma own_issued : has_signed (Cert ServerExample.own_raw (Some ServerExample.own_x)) (Cert ServerExample.own_raw (Some ServerExample.own_x)) = Ok tt.
Proof.
  apply (has_signed_fwd _ ServerExample.own_x (ServerExample.Gx, ServerExample.Gy)); [reflexivity|exact ServerExample.own_bytes|exact ServerExample.own_parse|exact ServerExample.own_public|exact ServerExample.own_bytes| |exact ServerExample.own_signed].
  rewrite ServerExample.own_length. lia.
Qed.
