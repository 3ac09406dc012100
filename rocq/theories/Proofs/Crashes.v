(* What brings a server down once the keys are agreed *)
From Verif Require Import Proofs.Util Proofs.Bytes Model.Alert Model.Bytes Model.Suite Model.Sha2 Model.KeySchedule Model.Record
  Model.X509 Model.Extensions Model.Hello Model.Handshake Model.Certificate
  Model.Stream Model.Server Spec.Alerts Spec.Rfc8446Keys Spec.Tls13Record Spec.Endpoints Spec.Connection Spec.ClientConnection Spec.Proper Spec.VerifyPanics Spec.CertMessagePanics Spec.Crashes.
From Verif Require Import Proofs.Record Proofs.Channel Proofs.Stream Proofs.ServerRun Proofs.ServerKeys Proofs.Opened Proofs.ServerFlow Proofs.ServerAccept Proofs.Reads Proofs.Alerting Proofs.Cuts.
From Verif Require Proofs.HelloTotal Proofs.Ends Proofs.Proper Proofs.VerifyPanics Proofs.CertMessagePanics Spec.Rfc8446Hello Spec.X509.

Local Opaque handle_client_hello rpp_decrypt record_from_raw handshake_from_raw has_signed certificates_from_hello x509_from_raw is_certificate_valid
  Signature.sig_from_der server_flight generate_application_keys verify_data_for_finished to_server_finished.

(* the frame of a handshake message *)
Local Transparent handshake_from_raw.
Lemma frame_short m : (length m < 4)%nat -> handshake_from_raw m = Err DecodeError.
Proof. intros H. unfold handshake_from_raw. apply Nat.ltb_lt in H. now rewrite H. Qed.
Local Opaque handshake_from_raw.
Lemma frame_panics m : is_bytes m -> handshake_from_raw m = Panic -> exists ty b1 b2 b3 rest, m = ty :: b1 :: b2 :: b3 :: rest /\ zlen rest < b1 * 65536 + b2 * 256 + b3.
Proof.
  intros B H. destruct m as [|b0 [|b1 [|b2 [|b3 rest]]]]; try (rewrite frame_short in H by (cbn; lia); discriminate H).
  inversion B as [|? ? B0 Bt]; subst. inversion Bt as [|? ? B1 Bt1]; subst. inversion Bt1 as [|? ? B2 Bt2]; subst. inversion Bt2 as [|? ? B3 Br]; subst.
  rewrite HelloTotal.from_raw_exact in H by assumption. destruct (handshake_type_new b0); [|discriminate]. cbv zeta in H.
  destruct (Nat.leb_spec (Z.to_nat (b1 * 65536 + b2 * 256 + b3)) (length rest)); [discriminate|]. exists b0, b1, b2, b3, rest. split; [reflexivity|]. unfold zlen, is_byte in *. lia.
Qed.
Lemma frame_type m hs : is_bytes m -> handshake_from_raw m = Ok hs -> exists rest, m = handshake_type_u8 (hs_type hs) :: rest.
Proof. intros B H. destruct (message_read m hs B H) as (extra & -> & _). unfold Rfc8446Hello.handshake. eexists. reflexivity. Qed.

(* the handlers *)
Definition misframed (m : list Z) : Prop := exists ty b1 b2 b3 rest, m = ty :: b1 :: b2 :: b3 :: rest /\ zlen rest < b1 * 65536 + b2 * 256 + b3.
Lemma frame_body m hs ty : is_bytes m -> handshake_from_raw m = Ok hs -> handshake_type_u8 (hs_type hs) = ty -> exists rest, m = Rfc8446Hello.handshake ty (hs_fraqment hs) ++ rest.
Proof. intros B H <-. destruct (message_read m hs B H) as (extra & E & _). eauto. Qed.
Lemma ca_key cfg d ca : server_ok cfg d -> p256_ca cfg -> sc_client_ca cfg = Some ca ->
  exists x k, ct_x509 ca = Some x /\ 0 <= fst k /\ 0 <= snd k /\ X509.get_public_key (E:=tls_error) x = Ok (Some k).
Proof.
  intros (_ & _ & _ & _ & _ & _ & _ & _ & Ca) P E. destruct (Ca _ E) as (_ & x & X & R). destruct (P _ E) as (c & Er & T & L).
  destruct (Proper.sound_proper c T L) as (x' & R' & (y & k & Y & K0 & K1 & K & _) & _). rewrite Er in R. assert (Ex : Ok (E:=option Der.parse_error) x = Ok x') by congruence. apply Ok_inj in Ex. subst x'.
  cbn [ct_x509] in Y. exists x, k. split; [exact X|]. split; [exact K0|]. split; [exact K1|]. injection Y as <-. apply K.
Qed.
Lemma cert_panics cfg d now h m h' t ctx : server_ok cfg d -> is_bytes m -> sv_th h = Some t -> sv_context h = Some ctx -> handle_client_certificate cfg now h m = (h', Panic) ->
  misframed m \/ exists body rest, m = Rfc8446Hello.handshake 11 body ++ rest /\ (p256_ca cfg -> certificate_message_panics body \/ signed_part_cut body).
Proof.
  intros Ok' B Th Cx H. unfold handle_client_certificate in H. destruct (handshake_from_raw m) as [hs|e|] eqn:F; [|discriminate|left; now apply frame_panics].
  right. rewrite sbind_Ok in H. destruct (sc_client_ca cfg) as [ca|] eqn:Ca; [|discriminate]. destruct (ht_eqb (hs_type hs) HtCertificate) eqn:T; [|discriminate].
  apply ht_eqb_eq in T. destruct (frame_body m hs 11 B F ltac:(rewrite T; reflexivity)) as (rest & Em). exists (hs_fraqment hs), rest. split; [exact Em|].
  intros P. assert (Bf : is_bytes (hs_fraqment hs)) by (destruct (message_read m hs B F) as (? & _ & Bf & _); exact Bf).
  cbn [negb] in H. rewrite Th in H. cbn [unwrap] in H. rewrite sbind_Ok in H. set (body := hs_fraqment hs) in *. clearbody body.
  destruct body as [|len l]; [left; now apply cm_empty|]. change (idx (len :: l) 0) with (Ok (E:=tls_error) len) in H. rewrite sbind_Ok in H.
  destruct (slice (len :: l) 1 (Z.to_nat len + 1)) as [context|e|] eqn:I2; [|discriminate|].
  2:{ left. apply (cm_context _ len l eq_refl). unfold slice in I2. destruct (Nat.leb_spec 1 (Z.to_nat len + 1)); [|lia]. cbn [andb length] in I2.
      destruct (Nat.leb_spec (Z.to_nat len + 1) (S (length l))); [discriminate|]. inversion Bf as [|? ? B0 _]; subst. unfold zlen, is_byte in *. lia. }
  rewrite sbind_Ok in H. cbn [with_th with_th_finished sv_context] in H. rewrite Cx in H. cbn [unwrap] in H. rewrite sbind_Ok in H.
  destruct (negb (list_eqb context ctx)); [discriminate|]. destruct (certificates_from_hello (len :: l) now) as [certs|e|] eqn:Fc; [|discriminate|left; apply (CertMessagePanics.certificate_exact _ Bf); eauto].
  destruct (ServerSteps.certificates_inv _ _ _ Bf Fc) as (? & ? & cert0 & ? & y0 & _ & _ & _ & -> & _).
  destruct (CertMessagePanics.kept_carries _ _ _ Bf Fc) as (cert & more & y & C & X & Ec).
  cbn [map List.last unwrap] in H. rewrite sbind_Ok in H.
  destruct (has_signed ca (Cert cert0 (Some y0))) as [v|e|] eqn:Sg; [|discriminate|].
  - exfalso. cbn [ct_x509] in H. destruct (sc_verify cfg) as [f|]; [|discriminate]. cbn [unwrap] in H. rewrite sbind_Ok in H. destruct (f y0); discriminate.
  - right. exists cert, more, y. split; [exact C|]. split; [exact X|]. apply (CertMessagePanics.signed_total ca _ y cert Ec (ca_key _ _ _ Ok' P Ca) Sg).
Qed.
Lemma cv_panics h m h' t : is_bytes m -> sv_th h = Some t -> handle_client_certificate_verify h m = (h', Panic) ->
  misframed m \/ exists body rest c, m = Rfc8446Hello.handshake 15 body ++ rest /\ sv_cert h = Some c /\ forall body1 now, is_bytes body1 -> certificates_from_hello body1 now = Ok [c] -> verify_panics body \/ bad_key body1.
Proof.
  intros B Th H. pose proof H as H0. unfold handle_client_certificate_verify in H. destruct (handshake_from_raw m) as [hs|e|] eqn:F; [|discriminate|left; now apply frame_panics].
  right. rewrite sbind_Ok in H. destruct (sv_cert h) as [c|] eqn:Hc; [|discriminate]. destruct (ht_eqb (hs_type hs) HtCertificateVerify) eqn:T; [|discriminate].
  apply ht_eqb_eq in T. destruct (frame_body m hs 15 B F ltac:(rewrite T; reflexivity)) as (rest & Em). exists (hs_fraqment hs), rest, c. split; [exact Em|]. split; [reflexivity|].
  intros body1 now Bb Fc. assert (Bf : is_bytes (hs_fraqment hs)) by (destruct (message_read m hs B F) as (? & _ & Bf & _); exact Bf).
  apply (CertMessagePanics.server_verify h m hs c t body1 now F T Hc Th Bb Fc Bf). rewrite H0. reflexivity.
Qed.
Lemma verify_total s t : verify_data_for_finished s t <> Panic.
Proof. Local Transparent verify_data_for_finished. unfold verify_data_for_finished. Local Opaque verify_data_for_finished. destruct (Hmac.hkdf_expand _ _ _); discriminate. Qed.
Lemma keys_total p t : exists p', generate_application_keys p t = (p', Ok tt).
Proof.
  Local Transparent generate_application_keys. unfold generate_application_keys. Local Opaque generate_application_keys.
  destruct (application_keys_some (ks_master (rp_schedule p)) (th_finalize t) (cipher_get_suite (rp_cipher p))) as (w & ->). eauto.
Qed.
Lemma fin_panics h m h' p t : is_bytes m -> st_protection (sv_stream h) = Some p -> sv_th h = Some t -> handle_client_finish h m = (h', Panic) -> misframed m.
Proof.
  intros B P T H. unfold handle_client_finish in H. destruct (handshake_from_raw m) as [hs|e|] eqn:F; [|discriminate|now apply frame_panics].
  exfalso. rewrite sbind_Ok in H. destruct (ht_eqb (hs_type hs) HtFinished); cbn [negb] in H.
  2:{ rewrite T in H. cbn [unwrap] in H. destruct (sv_state h); discriminate H. }
  rewrite P in H. cbn [unwrap] in H. rewrite sbind_Ok, T in H. cbn [unwrap] in H. rewrite sbind_Ok in H.
  pose proof (verify_total (ks_client_hs (rp_schedule p)) t) as V. destruct (verify_data_for_finished _ t) as [v|e|]; [|discriminate|congruence]. rewrite sbind_Ok in H.
  destruct (negb (list_eqb (hs_fraqment hs) v)); [discriminate|]. destruct (keys_total p match sv_th_finished h with Some t0 => t0 | None => t end) as (p' & G). rewrite G, sbind_Ok in H.
  destruct (sv_state _); discriminate H.
Qed.

(* ---- the state ---- *)
Definition begun (cfg : server_config) (d : draws) (x : greeting) : Prop := greeted cfg d x /\ Reads.parses (gr_hello x).
(* the certificate kept came in a Certificate message *)
Definition kept (seen : list Z) (g : agreed) (c : cert) : Prop :=
  exists r seq body rest now, within seen r /\ opens g seq RHandshake (Rfc8446Hello.handshake 11 body ++ rest) r /\ is_bytes body /\ certificates_from_hello body now = Ok [c].
Lemma kept_more seen more g c : kept seen g c -> kept (seen ++ more) g c.
Proof. intros (r & seq & body & rest & now & (a & b & ->) & X). exists r, seq, body, rest, now. split; [exists a, (b ++ more); now rewrite <- !app_assoc|exact X]. Qed.
Definition armed (cfg : server_config) (d : draws) (h : server_hs) (seen : list Z) : Prop :=
  exists x rest n p t, begun cfg d x /\ seen = wire (gr_hello x) ++ rest /\ 0 <= n <= zlen seen /\ sv_th h = Some t /\ st_protection (sv_stream h) = Some p /\
    keyed (gr_hash x) (gr_g x) p /\ rp_is_client p = false /\ rp_application p = None /\ peer_key p = key_at (Connection.traffic_key (gr_g x) (client_secret (gr_g x))) n /\
    (forall c, sv_cert h = Some c -> kept seen (gr_g x) c).
Definition held (cfg : server_config) (d : draws) (h : server_hs) (seen : list Z) : Prop :=
  match sv_state h with
  | SvClientHello => seen = [] /\ st_protection (sv_stream h) = None /\ sv_cert h = None
  | SvReady => exists x rest, begun cfg d x /\ seen = wire (gr_hello x) ++ rest
  | SvClientCertificate | SvClientCertificateVerify => armed cfg d h seen /\ sc_client_ca cfg <> None
  | _ => armed cfg d h seen
  end.
Lemma armed_more cfg d h seen more : armed cfg d h seen -> armed cfg d h (seen ++ more).
Proof.
  intros (x & rest & n & p & t & G & -> & N & Th & P & K & C & A & Pk & Ke). exists x, (rest ++ more), n, p, t. rewrite <- app_assoc.
  split; [exact G|]. split; [reflexivity|]. split; [rewrite app_assoc, zlen_app; pose proof (zlen_nonneg more); lia|].
  do 6 (split; [assumption|]). intros c Hc. rewrite app_assoc. apply kept_more. now apply Ke.
Qed.
Lemma armed_like cfg d h h' seen t : armed cfg d h seen -> sv_stream h' = sv_stream h -> sv_th h' = Some t -> sv_cert h' = sv_cert h -> armed cfg d h' seen.
Proof. intros (x & rest & n & p & t0 & G & E & N & Th & P & X) S T C. exists x, rest, n, p, t. rewrite S, T, C. auto 10. Qed.

(* one record *)
Lemma enc_crash cfg d now h rec h' seen : server_ok cfg d -> Forall is_byte (r_fragment rec) -> is_bytes (r_header rec) -> zlen (r_fragment rec) < 2^16 -> length (r_header rec) = 5%nat ->
  zlen seen < 2^60 -> armed cfg d h seen ->
  (sv_state h = SvClientCertificate \/ sv_state h = SvClientCertificateVerify -> sc_client_ca cfg <> None) ->
  match sv_state h with SvClientHello | SvReady => False | _ => True end ->
  handle_handshake_encrypted_record cfg now h rec = (h', Panic) ->
  exists x rest, begun cfg d x /\ seen = wire (gr_hello x) ++ rest /\
    ((length (r_fragment rec) < 16)%nat \/
     (exists n content, opens (gr_g x) n RAlert content rec /\ (length content < 2)%nat) \/
     (exists n content, opens (gr_g x) n RHandshake content rec /\ misframed content) \/
     (exists n body after, opens (gr_g x) n RHandshake (Rfc8446Hello.handshake 11 body ++ after) rec /\ sc_client_ca cfg <> None /\ (p256_ca cfg -> certificate_message_panics body \/ signed_part_cut body)) \/
     (exists n body after r1 n1 body1 after1, opens (gr_g x) n RHandshake (Rfc8446Hello.handshake 15 body ++ after) rec /\ sc_client_ca cfg <> None /\
        within seen r1 /\ opens (gr_g x) n1 RHandshake (Rfc8446Hello.handshake 11 body1 ++ after1) r1 /\ (verify_panics body \/ bad_key body1))).
Proof.
  intros Ok' Bf Bh Lf Lh Ls (x & rest & n & p & t & G & Es & N & Th & P & K & C & A & Pk & Ke) Ca St E. exists x, rest. split; [exact G|]. split; [exact Es|].
  destruct (greeted_keys _ _ _ (proj1 G)) as (G1 & _). pose proof K as (Su & Hc & _). pose proof Su as (_ & Gc & _).
  unfold handle_handshake_encrypted_record in E. rewrite P in E. cbn [unwrap] in E. rewrite sbind_Ok in E.
  destruct (rpp_decrypt p rec) as [p' [[ty content]|e|]] eqn:D; [|discriminate E|].
  2:{ left. assert (R : snd (rpp_decrypt p rec) = Panic) by (rewrite D; reflexivity).
      apply (decrypt_panics p rec) in R; try assumption; [rewrite Hc; exact Gc|].
      fold (peer_key p). rewrite Pk, Hc. split; [exact G1|]. cbn [key_at k_seq]. lia. }
  rewrite sbind_Ok in E. cbv beta iota zeta in E.
  assert (Op : ty <> RInvalid -> opens (gr_g x) n ty content rec /\ is_bytes content).
  { intros T. destruct (decrypt_opened _ _ _ _ _ _ _ _ _ K A Pk G1 ltac:(lia) ltac:(lia) Bf Bh Lf Lh D T) as (O & Bc & _). split; assumption. }
  destruct ty; try discriminate E.
  - destruct (Op ltac:(discriminate)) as (O & Bc). right. left. exists n, content. split; [exact O|].
    destruct content as [|a [|b l]]; cbn [length]; try lia. cbn [idx nth_error unwrap] in E. rewrite sbind_Ok in E. discriminate E.
  - destruct (Op ltac:(discriminate)) as (O & Bc). right. right.
    assert (Cx : sc_client_ca cfg <> None -> exists ctx, sv_context (with_protection h (Some p')) = Some ctx).
    { intros Nc. destruct (sc_client_ca cfg); [|congruence]. destruct (sv_context (with_protection h (Some p'))) as [ctx|]; [eauto|discriminate E]. }
    destruct (match sc_client_ca cfg, sv_context (with_protection h (Some p')) with Some _, None => true | _, _ => false end); [discriminate E|].
    assert (S1 : sv_state (with_protection h (Some p')) = sv_state h) by reflexivity. rewrite S1 in E.
    destruct (sv_state h) eqn:Sh; try contradiction.
    + assert (Nc : sc_client_ca cfg <> None) by (apply Ca; now left). destruct (Cx Nc) as (ctx & Hx).
      destruct (cert_panics cfg d now (with_protection h (Some p')) content h' t ctx Ok' Bc Th Hx E) as [M|(body & r & -> & X)]; [left; eauto|right; left; eauto 10].
    + assert (Nc : sc_client_ca cfg <> None) by (apply Ca; now right).
      destruct (cv_panics (with_protection h (Some p')) content h' t Bc Th E) as [M|(body & r & c & -> & Hc' & X)]; [left; eauto|].
      right. right. destruct (Ke c Hc') as (r1 & n1 & body1 & rest1 & now1 & Wi & O1 & B1 & F1). exists n, body, r, r1, n1, body1, rest1. do 4 (split; [assumption|]).
      exact (X body1 now1 B1 F1).
    + left. exists n, content. split; [exact O|]. exact (fin_panics (with_protection h (Some p')) _ _ p' t Bc eq_refl Th E).
    + left. exists n, content. split; [exact O|]. exact (fin_panics (with_protection h (Some p')) _ _ p' t Bc eq_refl Th E).
Qed.

(* the handlers leave the state so *)
Lemma cert_ok cfg now h m h' u : is_bytes m -> handle_client_certificate cfg now h m = (h', Ok u) ->
  (exists t, sv_th h' = Some t) /\
  ((exists body rest c, m = Rfc8446Hello.handshake 11 body ++ rest /\ (is_bytes body /\ certificates_from_hello body now = Ok [c]) /\ sv_cert h' = Some c /\ sv_state h' = SvClientCertificateVerify /\ sc_client_ca cfg <> None) \/
   sv_cert h' = sv_cert h /\ exists e, sv_state h' = SvFinishWithError e).
Proof.
  intros B E. unfold handle_client_certificate in E. sinv E hs E1. destruct (sc_client_ca cfg) as [ca|] eqn:Ca; [|discriminate].
  destruct (ht_eqb (hs_type hs) HtCertificate) eqn:Ty; [|discriminate]. cbn [negb] in E. apply ht_eqb_eq in Ty.
  sinv E th E2. sinv E len E3. sinv E ctx E4. sinv E ex E5.
  destruct (negb (list_eqb ctx ex)); [discriminate|]. destruct (certificates_from_hello (hs_fraqment hs) now) as [certs|e|] eqn:Fc; [| |discriminate].
  2:{ injection E as <- _. split; [eexists; reflexivity|]. right. split; [reflexivity|]. eexists. reflexivity. }
  sinv E c E6. destruct (has_signed ca c) as [v|e|]; [| |discriminate].
  2:{ injection E as <- _. split; [eexists; reflexivity|]. right. split; [reflexivity|]. eexists. reflexivity. }
  assert (Bf : is_bytes (hs_fraqment hs)) by (destruct (message_read m hs B E1) as (? & _ & Bf & _); exact Bf).
  destruct (ServerSteps.certificates_inv _ _ _ Bf Fc) as (? & ? & cert & ? & y & _ & _ & _ & -> & _). cbn [map List.last unwrap] in E6. apply Ok_inj in E6. subst c.
  assert (X : exists body rest c, m = Rfc8446Hello.handshake 11 body ++ rest /\ (is_bytes body /\ certificates_from_hello body now = Ok [c]) /\ c = Cert cert (Some y)).
  { destruct (frame_body m hs 11 B E1 ltac:(rewrite Ty; reflexivity)) as (rest & Em). eauto 10. }
  destruct X as (body & rest & c & Em & Fb & ->).
  destruct (sc_verify cfg) as [f|].
  - sinv E z E7. destruct (f z); injection E as <- _; (split; [eexists; reflexivity|]); [left; exists body, rest; eexists; split; [exact Em|]; split; [exact Fb|]; split; [reflexivity|]; split; [reflexivity|discriminate]|right; split; [reflexivity|]; eexists; reflexivity].
  - injection E as <- _. split; [eexists; reflexivity|]. left. exists body, rest; eexists; split; [exact Em|]; split; [exact Fb|]; split; [reflexivity|]; split; [reflexivity|discriminate].
Qed.
Lemma cv_ok h m h' u : handle_client_certificate_verify h m = (h', Ok u) -> (exists t, sv_th h = Some t) ->
  sv_cert h' = sv_cert h /\ (exists t, sv_th h' = Some t) /\ (sv_state h' = SvClientFinished \/ exists e, sv_state h' = SvFinishWithError e).
Proof.
  intros E T. unfold handle_client_certificate_verify in E. sinv E hs E1. destruct (sv_cert h) as [c|] eqn:Hc; [|discriminate].
  destruct (negb (ht_eqb (hs_type hs) HtCertificateVerify)); [discriminate|]. sinv E b E2. sinv E algo E3. destruct algo; try discriminate.
  sinv E r E4. destruct (Signature.sig_from_der r) as [[sg size]|e|]; [| |discriminate].
  2:{ injection E as <- _. split; [exact Hc|]. split; [exact T|]. right. eexists. reflexivity. }
  sinv E th E5. sinv E v E6. destruct (negb v); [injection E as <- _; split; [exact Hc|]; split; [exact T|right; eexists; reflexivity]|].
  sinv E b2 E7. destruct (negb _); injection E as <- _; (split; [exact Hc|]); (split; [first [exact T|eexists; reflexivity]|]); [right; eexists; reflexivity|left; reflexivity].
Qed.
Lemma fin_ok h m h' u t : handle_client_finish h m = (h', Ok u) -> sv_th h = Some t ->
  sv_state h' = SvReady \/ (sv_stream h' = sv_stream h /\ sv_state h' = sv_state h /\ (exists t', sv_th h' = Some t') /\ sv_cert h' = sv_cert h).
Proof.
  intros E T. unfold handle_client_finish in E. sinv E hs E1. destruct (negb (ht_eqb (hs_type hs) HtFinished)).
  - destruct (sv_state h) eqn:S; try discriminate. sinv E th E2. injection E as <- _. right. split; [reflexivity|]. split; [exact S|]. split; [eexists; reflexivity|reflexivity].
  - sinv E p E2. sinv E th E3. sinv E v E4. destruct (negb (list_eqb (hs_fraqment hs) v)); [discriminate|].
    destruct (generate_application_keys p _) as [p' r]. sinv E u1 E5. destruct (sv_state _); try discriminate; injection E as <- _; left; reflexivity.
Qed.
Lemma enc_held cfg d now h rec h' u seen : Forall is_byte (r_fragment rec) -> is_bytes (r_header rec) -> zlen (r_fragment rec) < 2^16 -> length (r_header rec) = 5%nat ->
  zlen seen < 2^60 -> armed cfg d h seen -> match sv_state h with SvClientHello | SvReady => False | _ => True end ->
  handle_handshake_encrypted_record cfg now h rec = (h', Ok u) -> held cfg d h' (seen ++ wire rec).
Proof.
  intros Bf Bh Lf Lh Ls (x & rest & n & p & t & G & Es & N & Th & P & K & C & A & Pk & Ke) St E.
  destruct (greeted_keys _ _ _ (proj1 G)) as (G1 & _).
  unfold handle_handshake_encrypted_record in E. rewrite P in E. cbn [unwrap] in E. rewrite sbind_Ok in E.
  destruct (rpp_decrypt p rec) as [p' [[ty content]|e|]] eqn:D; [|discriminate E|discriminate E].
  rewrite sbind_Ok in E. cbv beta iota zeta in E.
  destruct ty; try discriminate E; [destruct (idx content 1); discriminate E|].
  destruct (decrypt_opened _ _ _ _ _ _ _ _ _ K A Pk G1 ltac:(lia) ltac:(lia) Bf Bh Lf Lh D ltac:(discriminate)) as (Op & Bc & _ & K' & C' & A' & _ & Pk').
  set (h1 := with_protection h (Some p')) in *.
  assert (Wi : within (seen ++ wire rec) rec) by (exists seen, []; rewrite app_nil_r; reflexivity).
  assert (Ar : armed cfg d h1 (seen ++ wire rec)).
  { exists x, (rest ++ wire rec), (n + 1), p', t. split; [exact G|]. split; [rewrite Es, <- app_assoc; reflexivity|].
    split; [rewrite zlen_app; unfold wire; rewrite zlen_app; pose proof (zlen_nonneg (r_fragment rec)); assert (zlen (r_header rec) = 5) by (unfold zlen; rewrite Lh; reflexivity); lia|].
    split; [exact Th|]. split; [reflexivity|]. split; [exact K'|]. split; [congruence|]. split; [assumption|]. split; [assumption|]. intros c Hc. apply kept_more. exact (Ke c Hc). }
  destruct (match sc_client_ca cfg, sv_context h1 with Some _, None => true | _, _ => false end); [discriminate E|].
  assert (S1 : sv_state h1 = sv_state h) by reflexivity. rewrite S1 in E.
  destruct (sv_state h) eqn:Sh; try contradiction.
  - pose proof (cert_same cfg now h1 content) as Sm. rewrite E in Sm. cbn [fst] in Sm. destruct (cert_ok _ _ _ _ _ _ Bc E) as ((t' & T') & [(body & after & c & Em & Fb & Hc & S' & Nc)|(Hc & e & S')]); unfold held; rewrite S'.
    + split; [|exact Nc]. exists x, (rest ++ wire rec), (n + 1), p', t'. rewrite Sm.
      split; [exact G|]. split; [rewrite Es, <- app_assoc; reflexivity|].
      split; [rewrite zlen_app; unfold wire; rewrite zlen_app; pose proof (zlen_nonneg (r_fragment rec)); assert (zlen (r_header rec) = 5) by (unfold zlen; rewrite Lh; reflexivity); lia|].
      split; [exact T'|]. split; [reflexivity|]. split; [exact K'|]. split; [congruence|]. split; [assumption|]. split; [assumption|].
      intros c' Hc'. rewrite Hc in Hc'. injection Hc' as <-. exists rec, n, body, after, now. split; [exact Wi|]. rewrite <- Em. split; [exact Op|exact Fb].
    + exact (armed_like _ _ _ _ _ _ Ar Sm T' Hc).
  - pose proof (cv_same h1 content) as Sm. rewrite E in Sm. cbn [fst] in Sm. destruct (cv_ok _ _ _ _ E (ex_intro _ t Th)) as (Hc & (t' & T') & [S'|(e & S')]); unfold held; rewrite S';
      exact (armed_like _ _ _ _ _ _ Ar Sm T' Hc).
  - destruct (fin_ok _ _ _ _ t E Th) as [S'|(Sm & S' & (t' & T') & Hc)]; unfold held; rewrite S'.
    + exists x, (rest ++ wire rec). split; [exact G|]. rewrite Es, <- app_assoc. reflexivity.
    + rewrite S1. exact (armed_like _ _ _ _ _ _ Ar Sm T' Hc).
  - destruct (fin_ok _ _ _ _ t E Th) as [S'|(Sm & S' & (t' & T') & Hc)]; unfold held; rewrite S'.
    + exists x, (rest ++ wire rec). split; [exact G|]. rewrite Es, <- app_assoc. reflexivity.
    + rewrite S1. exact (armed_like _ _ _ _ _ _ Ar Sm T' Hc).
Qed.

Lemma seen_none r seen : length (r_header r) = 5%nat -> seen ++ wire r <> [].
Proof. intros L E. apply app_eq_nil in E. destruct E as (_ & E). unfold wire in E. apply app_eq_nil in E. destruct E as (E & _). rewrite E in L. discriminate. Qed.
Lemma record_held cfg d now h rec h' u seen : server_ok cfg d -> wellformed rec -> Reads.parses rec -> zlen seen < 2^60 -> held cfg d h seen ->
  handle_handshake_record cfg d now h rec = (h', Ok u) -> held cfg d h' (seen ++ wire rec).
Proof.
  intros Ok' W Pr Ls Hh E. pose proof W as (Bh & Lh & Bf & Lf). Local Transparent handle_handshake_record. unfold handle_handshake_record in E. Local Opaque handle_handshake_record.
  assert (IGN : sv_state h <> SvClientHello -> h' = h -> held cfg d h' (seen ++ wire rec)).
  { intros N ->. unfold held in *. destruct (sv_state h); try congruence; try (apply armed_more; exact Hh).
    - destruct Hh as (Ar & Ca). split; [apply armed_more; exact Ar|exact Ca].
    - destruct Hh as (Ar & Ca). split; [apply armed_more; exact Ar|exact Ca].
    - destruct Hh as (x & rest & G & ->). exists x, (rest ++ wire rec). rewrite <- app_assoc. auto. }
  assert (ENC : match sv_state h with SvClientHello => match r_type rec with RHandshake => handle_client_hello cfg d h rec | _ => (h, Err UnexpectedMessage) end
      | SvReady => (h, Ok tt) | _ => handle_handshake_encrypted_record cfg now h rec end = (h', Ok u) -> held cfg d h' (seen ++ wire rec)).
  { intros E1. unfold held in Hh. destruct (sv_state h) eqn:St.
    - destruct (r_type rec) eqn:T; try discriminate. destruct Hh as (-> & Pn & Cn).
      destruct (hello_spec _ _ _ _ _ _ Ok' Bf Lf Pn E1) as (H & ch & body & g & der & p0 & p1 & ws & A & Sg & Bd & Ld & S & N & En & O' & P' & Th & St' & _ & Ct & _).
      set (x := Greeting rec H ch body g der p0 p1 ws).
      assert (G : greeted cfg d x) by (unfold greeted, x; cbn; auto 10).
      assert (Ar : armed cfg d h' (wire rec)).
      { destruct (rpp_new_shape _ _ _ _ N) as (N1 & N2 & N3 & N4). destruct (enc_all_same _ _ _ _ En) as (M1 & M2 & M3 & M4 & M5).
        destruct (greeted_keys _ _ _ G) as (_ & _ & Hk). cbn [x gr_p0 gr_g] in Hk.
        exists x, [], 0, p1. eexists. split; [split; [exact G|exact Pr]|]. split; [rewrite app_nil_r; reflexivity|]. split; [pose proof (zlen_nonneg (wire rec)); lia|].
        split; [exact Th|]. split; [exact P'|]. cbn [x gr_hash gr_g]. split; [unfold keyed; rewrite M1, M2, N1, N2; auto|]. split; [congruence|]. split; [auto|].
        split; [unfold peer_key; rewrite M3, M5; rewrite N3; unfold cur_keys; rewrite N4, Hk; reflexivity|]. rewrite Ct, Cn. discriminate. }
      cbn [app]. unfold held. rewrite St'. destruct (sc_client_ca cfg); [split; [exact Ar|discriminate]|exact Ar].
    - apply (enc_held cfg d now h rec h' u seen); try assumption; [apply Hh|now rewrite St].
    - apply (enc_held cfg d now h rec h' u seen); try assumption; [apply Hh|now rewrite St].
    - apply (enc_held cfg d now h rec h' u seen); try assumption; now rewrite St.
    - apply (enc_held cfg d now h rec h' u seen); try assumption; now rewrite St.
    - apply IGN; [discriminate|]. now injection E1. }
  destruct (r_type rec) eqn:T; try (apply ENC; exact E).
  - apply IGN; destruct (sv_state h); try discriminate; now injection E.
  - sinv E code E1. discriminate.
Qed.

(* one record brings the server down *)
Lemma record_crash cfg d now h rec h' seen buf k : server_ok cfg d -> wellformed rec -> record_from_raw buf = Ok (k, rec) -> zlen seen < 2^60 -> held cfg d h seen -> sv_state h <> SvClientHello ->
  handle_handshake_record cfg d now h rec = (h', Panic) -> exists x rest, begun cfg d x /\ seen = wire (gr_hello x) ++ rest /\ crash cfg seen (gr_g x) buf.
Proof.
  intros Ok' (Bh & Lh & Bf & Lf) Pb Ls Hh N E. Local Transparent handle_handshake_record. unfold handle_handshake_record in E. Local Opaque handle_handshake_record.
  assert (ENC : r_type rec <> RAlert -> r_type rec <> RChangeCipherSpec -> sv_state h <> SvReady -> handle_handshake_encrypted_record cfg now h rec = (h', Panic) ->
    exists x rest, begun cfg d x /\ seen = wire (gr_hello x) ++ rest /\ crash cfg seen (gr_g x) buf).
  { intros N1 N2 NR E1. assert (Ar : armed cfg d h seen) by (unfold held in Hh; destruct (sv_state h); try congruence; try exact Hh; apply Hh).
    destruct (enc_crash cfg d now h rec h' seen Ok' Bf Bh Lf Lh Ls Ar) as (x & rest & G & Es & C).
    - unfold held in Hh. intros [S|S]; rewrite S in Hh; apply Hh.
    - destruct (sv_state h); first [exact I|congruence].
    - exact E1.
    - exists x, rest. split; [exact G|]. split; [exact Es|]. destruct C as [C|[(n & c & O & C)|[(n & c & O & (ty & b1 & b2 & b3 & r & -> & C))|[(n & body & r & O & Ca & C)|(n & body & r & r1 & n1 & body1 & a1 & O & Ca & Wi & O1 & C)]]]].
      + exact (crash_short _ _ _ _ _ _ Pb N1 N2 C).
      + exact (crash_sealed_alert _ _ _ _ _ _ _ _ Pb O C).
      + exact (crash_frame _ _ _ _ _ _ _ _ _ _ _ _ Pb O C).
      + exact (crash_certificate _ _ _ _ _ _ _ _ _ Pb Ca O C).
      + exact (crash_verify _ _ _ _ _ _ _ _ _ _ _ _ _ Pb Ca O Wi O1 C). }
  destruct (r_type rec) eqn:T.
  - destruct (sv_state h) eqn:St; try congruence; try discriminate E; apply ENC; congruence.
  - destruct (sv_state h); discriminate E.
  - assert (G : exists x rest, begun cfg d x /\ seen = wire (gr_hello x) ++ rest).
    { assert (X : armed cfg d h seen -> exists x rest, begun cfg d x /\ seen = wire (gr_hello x) ++ rest) by (intros (x & rest & ? & ? & ? & G & Es & _); eauto).
      unfold held in Hh. destruct (sv_state h); try congruence; try exact Hh; try (apply X; apply Hh). }
    destruct G as (x & rest & G & Es). exists x, rest. split; [exact G|]. split; [exact Es|]. apply (crash_alert _ _ _ _ _ _ Pb T).
    destruct (r_fragment rec) as [|a [|b l]]; cbn [length]; try lia. cbn [idx nth_error unwrap] in E. rewrite sbind_Ok in E. discriminate E.
  - destruct (sv_state h) eqn:St; try congruence; try discriminate E; apply ENC; congruence.
  - destruct (sv_state h) eqn:St; try congruence; try discriminate E; apply ENC; congruence.
Qed.

Lemma crash_more cfg seen more g y : crash cfg seen g y -> crash cfg (seen ++ more) g y.
Proof.
  intros C. destruct C.
  - eapply crash_cut; eassumption.
  - eapply crash_alert; eassumption.
  - eapply crash_short; eassumption.
  - eapply crash_sealed_alert; eassumption.
  - eapply crash_frame; eassumption.
  - eapply crash_certificate; eassumption.
  - match goal with W : within seen _ |- _ => destruct W as (b1 & b2 & ->) end. eapply crash_verify; try eassumption. eexists b1, (b2 ++ more). now rewrite <- !app_assoc.
Qed.
Local Transparent record_from_raw.
Lemma cut_crash cfg bytes g x : is_bytes x -> record_from_raw x = Panic -> crash cfg bytes g x.
Proof.
  intros B E. destruct x as [|t [|v1 [|v2 [|a [|b rest]]]]]; try (unfold record_from_raw in E; discriminate E).
  apply panics_exactly in E; [|exact B]. destruct E as (I & L). exact (crash_cut _ _ _ _ t v1 v2 a b rest eq_refl I L).
Qed.
Local Opaque record_from_raw.
Lemma held_begun cfg d h seen : held cfg d h seen -> sv_state h <> SvClientHello -> exists x rest, begun cfg d x /\ seen = wire (gr_hello x) ++ rest.
Proof.
  intros Hh N. assert (X : armed cfg d h seen -> exists x rest, begun cfg d x /\ seen = wire (gr_hello x) ++ rest) by (intros (x & rest & ? & ? & ? & G & Es & _); eauto).
  unfold held in Hh. destruct (sv_state h); try congruence; try exact Hh; apply X; apply Hh.
Qed.
Lemma held_later cfg d h seen : held cfg d h seen -> seen <> [] -> sv_state h <> SvClientHello.
Proof. intros H N S. unfold held in H. rewrite S in H. destruct H. contradiction. Qed.

(* one read *)
Lemma records_none : whole_records [].
Proof. exists []. split; [reflexivity|constructor]. Qed.
Lemma records_cons r l : record_from_raw (wire r) = Ok (length (wire r), r) -> whole_records l -> whole_records (wire r ++ l).
Proof. intros H (rs & -> & F). exists (r :: rs). split; [reflexivity|now constructor]. Qed.
Lemma records_held cfg d now fuel : forall h buf h' o seen, server_ok cfg d -> is_bytes buf -> (length buf <= fuel)%nat -> zlen (seen ++ buf) < 2^60 -> held cfg d h seen ->
  server_records fuel cfg d now h buf = (h', o) ->
  match o with
  | Ok _ => held cfg d h' (seen ++ buf)
  | Err _ => True
  | Panic => sv_state h <> SvClientHello -> exists done y x rest, buf = done ++ y /\ whole_records done /\ begun cfg d x /\ seen ++ done = wire (gr_hello x) ++ rest /\ crash cfg (seen ++ done) (gr_g x) y
  end.
Proof.
  induction fuel as [|fuel IH]; intros h buf h' o seen Ok' B Lb Ls Hh E.
  - destruct buf; [|cbn in Lb; lia]. apply pair_equal_spec in E. destruct E as (<- & <-). rewrite app_nil_r. exact Hh.
  - destruct buf as [|b buf]; [apply pair_equal_spec in E; destruct E as (<- & <-); rewrite app_nil_r; exact Hh|].
    cbn [server_records] in E. remember (b :: buf) as bs eqn:Eb. assert (Nb : bs <> []) by (subst; discriminate). clear Eb b buf.
    destruct (record_from_raw bs) as [[n rec]|e|] eqn:E1.
    + rewrite sbind_Ok in E. cbn [fst snd] in E. destruct (parsed _ _ _ B E1) as (W & Ew & Er & Hn).
      assert (L1 : zlen seen < 2^60) by (rewrite zlen_app in Ls; pose proof (zlen_nonneg bs); lia).
      destruct (handle_handshake_record cfg d now h rec) as [h1 [u|e|]] eqn:E2.
      * rewrite sbind_Ok in E.
        pose proof (record_held _ _ _ _ _ _ _ _ Ok' W Er L1 Hh E2) as H1.
        assert (Lk : (length (skipn n bs) <= fuel)%nat) by (rewrite skipn_length; lia).
        assert (Es : seen ++ bs = (seen ++ wire rec) ++ skipn n bs) by (rewrite <- app_assoc, <- Ew, firstn_skipn; reflexivity).
        specialize (IH _ _ _ _ (seen ++ wire rec) Ok' (is_bytes_skipn _ _ B) Lk ltac:(rewrite <- Es; exact Ls) H1 E). destruct o as [u'|e|]; [rewrite Es; exact IH|exact I|].
        intros _. pose proof (held_later _ _ _ _ H1 (seen_none _ _ (proj1 (proj2 W)))) as N1. destruct (IH N1) as (done & y & x & rest & E4 & Wd & G & E5 & C).
        exists (wire rec ++ done), y, x, rest. split; [rewrite <- app_assoc, <- E4, <- Ew, firstn_skipn; reflexivity|]. split; [now apply records_cons|]. split; [exact G|]. split; rewrite app_assoc; [exact E5|exact C].
      * cbn [sbind] in E. apply pair_equal_spec in E. destruct E as (_ & <-). exact I.
      * cbn [sbind] in E. apply pair_equal_spec in E. destruct E as (_ & <-). intros N. destruct (record_crash _ _ _ _ _ _ _ _ _ Ok' W E1 L1 Hh N E2) as (x & rest & G & Es & C).
        exists [], bs, x, rest. rewrite app_nil_r. pose proof records_none. auto.
    + cbn [sbind] in E. apply pair_equal_spec in E. destruct E as (_ & <-). exact I.
    + cbn [sbind] in E. apply pair_equal_spec in E. destruct E as (_ & <-). intros N. destruct (held_begun _ _ _ _ Hh N) as (x & rest & G & Es).
      exists [], bs, x, rest. rewrite app_nil_r. pose proof (cut_crash cfg seen (gr_g x) _ B E1). pose proof records_none. auto.
Qed.
Lemma held_stream cfg d h s seen : st_protection s = st_protection (sv_stream h) -> held cfg d h seen -> held cfg d (with_stream h s) seen.
Proof.
  intros E H. assert (A : armed cfg d h seen -> armed cfg d (with_stream h s) seen) by (unfold armed; cbn [with_stream sv_stream sv_th sv_cert]; rewrite E; exact (fun x => x)).
  unfold held in *. cbn [with_stream sv_state sv_stream sv_cert]. destruct (sv_state h); rewrite ?E; try exact H; try (apply A; exact H); destruct H; auto.
Qed.
Lemma flush_held cfg d h h' u seen : sv_flush h = (h', Ok u) -> held cfg d h seen -> held cfg d h' seen.
Proof.
  intros Fl H. unfold sv_flush, flush in Fl. destruct (write_all _ _) as [so' []]; [|discriminate]. injection Fl as <-. apply held_stream; [reflexivity|exact H].
Qed.
Lemma flush_total h h' : sv_flush h <> (h', Panic).
Proof. unfold sv_flush, flush. destruct (write_all _ _) as [so' []]; discriminate. Qed.

(* the reads *)
Lemma loop_held cfg d now : forall reads h h' o seen, server_ok cfg d -> Forall is_bytes reads -> zlen (seen ++ concat reads) < 2^60 -> held cfg d h seen ->
  server_do_handshake cfg d now h reads = (h', o) ->
  match o with
  | None => held cfg d h' (seen ++ concat reads)
  | Some Panic => sv_state h <> SvClientHello -> exists read done y x rest, In read reads /\ read = done ++ y /\ whole_records done /\ begun cfg d x /\ seen ++ concat reads = wire (gr_hello x) ++ rest /\ crash cfg (seen ++ concat reads) (gr_g x) y
  | Some _ => True
  end.
Proof.
  induction reads as [|c reads IH]; intros h h' o seen Ok' F Ls Hh E.
  - cbn [server_do_handshake] in E. cbn [concat]. rewrite app_nil_r. destruct (sv_state h); apply pair_equal_spec in E; destruct E as (<- & <-); try exact Hh; exact I.
  - destruct (Reads.ready h) eqn:R.
    { apply ready_true in R. rewrite loop_ready in E by exact R. apply pair_equal_spec in E. destruct E as (<- & <-). exact I. }
    assert (N : sv_state h <> SvReady) by (intros N; apply ready_true in N; congruence). rewrite loop_cons in E by exact N. unfold one_read in E.
    inversion F as [|? ? Fc Fr]; subst. cbn [concat] in *. rewrite app_assoc in *.
    destruct c as [|b c]; [cbn [tcp_read sbind] in E; apply pair_equal_spec in E; destruct E as (<- & <-); exact I|]. cbn [tcp_read] in E. rewrite sbind_Ok in E.
    remember (b :: c) as rx eqn:Erx. assert (Nx : rx <> []) by (subst; discriminate). clear Erx b c.
    assert (L1 : zlen (seen ++ rx) < 2^60) by (rewrite zlen_app in Ls; pose proof (zlen_nonneg (concat reads)); lia).
    destruct (server_records (length rx) cfg d now h rx) as [h2 [u|e|]] eqn:S.
    + pose proof (records_held _ _ _ _ _ _ _ _ _ Ok' Fc (le_n _) L1 Hh S) as H2. cbv iota beta in H2. rewrite sbind_Ok in E.
      destruct (sv_flush h2) as [h3 [u3|e|]] eqn:Fl; [|apply pair_equal_spec in E; destruct E as (<- & <-); exact I|destruct (flush_total _ _ Fl)].
      pose proof (flush_held _ _ _ _ _ _ Fl H2) as H3. specialize (IH _ _ _ _ Ok' Fr Ls H3 E).
      destruct o as [[u4|e|]|]; try exact IH. intros _.
      assert (N3 : sv_state h3 <> SvClientHello) by (apply (held_later _ _ _ _ H3); intros X; apply app_eq_nil in X; destruct X; contradiction).
      destruct (IH N3) as (read & done & y & x & rest & I & E4 & Wd & G & E5 & C). exists read, done, y, x, rest. split; [right; exact I|]. auto.
    + cbn [sbind] in E. apply pair_equal_spec in E. destruct E as (<- & <-). exact I.
    + cbn [sbind] in E. apply pair_equal_spec in E. destruct E as (<- & <-). intros N1.
      pose proof (records_held _ _ _ _ _ _ _ _ _ Ok' Fc (le_n _) L1 Hh S N1) as (done & y & x & rest & E4 & Wd & G & E5 & C).
      exists rx, done, y, x, (rest ++ y ++ concat reads). split; [left; reflexivity|]. split; [exact E4|]. split; [exact Wd|]. split; [exact G|]. split.
      * rewrite app_assoc, <- E5. rewrite E4. rewrite !app_assoc. reflexivity.
      * rewrite E4, app_assoc, <- (app_assoc _ y). now apply crash_more.
Qed.

Lemma crashes cfg d now so before reads h p : server_ok cfg d -> Forall is_bytes (before ++ reads) -> zlen (concat (before ++ reads)) < 2^60 ->
  accept cfg d now so before = (h, None) -> st_protection (sv_stream h) = Some p -> snd (accept cfg d now so (before ++ reads)) = Some Panic ->
  exists hello rest ch body g read done x, concat (before ++ reads) = wire hello ++ rest /\ record_from_raw (wire hello) = Ok (length (wire hello), hello) /\
    r_type hello = RHandshake /\ answers cfg d (r_fragment hello) ch body g /\ In read reads /\ read = done ++ x /\ whole_records done /\ crash cfg (concat (before ++ reads)) g x.
Proof.
  intros Ok' F L A Hp Pa. destruct (accept_app _ _ _ _ _ reads _ A) as (Lp & _). apply accept_none in A.
  apply Forall_app in F. destruct F as (Fb & Fr). rewrite concat_app in L |- *.
  assert (H0 : held cfg d (server_new so) []) by (split; [reflexivity|split; reflexivity]).
  assert (Lb : zlen ([] ++ concat before) < 2^60) by (cbn [app]; rewrite zlen_app in L; pose proof (zlen_nonneg (concat reads)); lia).
  pose proof (loop_held _ _ _ _ _ _ _ _ Ok' Fb Lb H0 A) as H1. cbv iota beta in H1. cbn [app] in H1.
  assert (N : sv_state h <> SvClientHello) by (intros S; unfold held in H1; rewrite S in H1; destruct H1 as (_ & H1 & _); congruence).
  destruct (server_do_handshake cfg d now h reads) as [h' o] eqn:E. pose proof (loop_held _ _ _ _ _ _ _ _ Ok' Fr L H1 E) as H2.
  assert (o = Some Panic) as ->.
  { destruct (loop_app cfg d now before reads _ _ A) as (L2 & _). pose proof (loop_talk cfg d now (before ++ reads) _ (new_fresh so)) as T. rewrite L2, E in T. cbn [fst] in T.
    rewrite Lp in Pa. cbv iota beta in Pa. destruct o as [[u|e|]|]; try discriminate Pa; [|reflexivity].
    destruct (report_error (sv_stream h') e) as [s o] eqn:Re. cbn [snd] in Pa. exfalso.
    destruct (report_spec _ _ _ _ _ _ T ltac:(lia) Re) as (R1 & R2). destruct (is_official e) eqn:Oe.
    - apply official_code in Oe. destruct (R2 Oe) as (w & _ & [(_ & X)|(k & _ & _ & _ & X)]); rewrite X in Pa; discriminate Pa.
    - assert (C : rfc8446_code e = None) by (destruct (rfc8446_code e) eqn:C; [|reflexivity]; assert (X : is_official e = true) by (apply official_code; congruence); congruence).
      destruct (R1 C) as (_ & X). rewrite X in Pa. discriminate Pa. }
  destruct (H2 N) as (read & done & y & x & rest & I & E4 & Wd & ((T & An & _) & Pr) & E5 & C).
  exists (gr_hello x), rest, (gr_ch x), (gr_body x), (gr_g x), read, done, y. auto 10.
Qed.
