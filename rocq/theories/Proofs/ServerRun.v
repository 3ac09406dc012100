From Verif Require Import Proofs.Util Proofs.Bytes Model.Alert Model.Bytes Model.Suite Model.Sha2 Model.Hmac Model.KeySchedule Model.Record Model.Channel
  Model.Curve Model.Signature Model.Ecdsa Model.X509 Model.Extensions Model.Hello Model.Kex Model.Handshake Model.Certificate
  Model.Stream Model.AppChannel Model.Keylog Model.Server
  Spec.Rfc2104 Spec.Rfc8446Keys Spec.Tls13Record Spec.Endpoints Spec.Writes Spec.Rfc8446Auth Spec.Connection.
From Verif Require Spec.Rfc8446Hello Spec.Ecdsa.
From Verif Require Import Proofs.KeySchedule Proofs.Record Proofs.Channel Proofs.Stream.
From Verif Require Proofs.Hmac Proofs.Auth Proofs.HelloTotal Proofs.Kex.

Lemma sbind_ok {S E A B} (m : S * outcome E A) (k : S -> A -> S * outcome E B) s' b :
  sbind m k = (s', Ok b) -> exists s a, m = (s, Ok a) /\ k s a = (s', Ok b).
Proof. destruct m as [s [a|e|]]; cbn [sbind]; intros H; try discriminate. now exists s, a. Qed.
Lemma sbind_pure {S E A B} (s : S) (r : outcome E A) (k : S -> A -> S * outcome E B) s' b :
  sbind (s, r) k = (s', Ok b) -> exists a, r = Ok a /\ k s a = (s', Ok b).
Proof. destruct r as [a|e|]; cbn [sbind]; intros H; try discriminate. now exists a. Qed.
Tactic Notation "sinv" hyp(H) simple_intropattern(x) simple_intropattern(E) := apply sbind_pure in H; destruct H as (x & E & H).

Local Opaque rpp_encrypt rpp_decrypt record_from_raw.

(* ---- one write of the handshake ---- *)
Lemma write_ok1 s t data s' u : write_record s t data = (s', Ok u) ->
  exists w, out s' = out s ++ w /\
    match st_protection s with
    | Some p => exists p', rpp_encrypt p (record_new t data) = (p', Ok w) /\ st_protection s' = Some p'
    | None => w = record_as_bytes (record_new t data) /\ st_protection s' = None
    end.
Proof.
  unfold write_record, protect. destruct s as [so pr b]; cbn [st_protection st_sock st_buffer].
  intros H. apply sbind_ok in H. destruct H as (s1 & w & H1 & H). exists w.
  assert (Hs1 : st_sock s1 = so /\ st_buffer s1 = b /\
    match pr with Some p => exists p', rpp_encrypt p (record_new t data) = (p', Ok w) /\ st_protection s1 = Some p'
                | None => w = record_as_bytes (record_new t data) /\ st_protection s1 = None end).
  { destruct pr as [p|].
    - destruct (rpp_encrypt p (record_new t data)) as [p' r] eqn:E. injection H1 as <- ->. cbn. repeat split. now exists p'.
    - injection H1 as <- <-. cbn. repeat split. }
  destruct Hs1 as (Es & Eb & Ep). cbn [st_buffer] in H.
  assert (H2 : out s' = out (Stream (st_sock s1) (st_protection s1) (st_buffer s1 ++ w)) /\ st_protection s' = st_protection s1).
  { destruct (Nat.leb _ _).
    - destruct (flush_cases (Stream (st_sock s1) (st_protection s1) (st_buffer s1 ++ w))) as [(so2 & F & So & _)|(so2 & rest & F & _)].
      + rewrite F in H. injection H as <- _. split; [|reflexivity]. unfold out at 1. cbn [st_sock st_buffer]. rewrite app_nil_r. exact So.
      + rewrite F in H. discriminate.
    - injection H as <- _. split; reflexivity. }
  destruct H2 as (H2 & H3). split.
  - rewrite H2. unfold out. cbn [st_sock st_buffer]. rewrite Es, Eb. now rewrite app_assoc.
  - rewrite H3. exact Ep.
Qed.
Lemma sv_write_ok h t data h' u : sv_write h t data = (h', Ok u) ->
  exists s' w, h' = with_stream h s' /\ out s' = out (sv_stream h) ++ w /\
    match st_protection (sv_stream h) with
    | Some p => exists p', rpp_encrypt p (record_new t data) = (p', Ok w) /\ st_protection s' = Some p'
    | None => w = record_as_bytes (record_new t data) /\ st_protection s' = None
    end.
Proof.
  unfold sv_write. destruct (write_record (sv_stream h) t data) as [s r] eqn:E. intros H. injection H as <- ->.
  destruct (write_ok1 _ _ _ _ _ E) as (w & H). exists s, w. split; [reflexivity|exact H].
Qed.

(* handshake messages encrypted one after the other *)
Fixpoint enc_all (p : rpp) (ms : list (list Z)) : option (rpp * list (list Z)) :=
  match ms with
  | [] => Some (p, [])
  | m :: t =>
      match rpp_encrypt p (record_new RHandshake m) with
      | (p', Ok w) => match enc_all p' t with Some (q, ws) => Some (q, w :: ws) | None => None end
      | _ => None
      end
  end.
Lemma enc_all_snoc ms : forall p q ws m q' w, enc_all p ms = Some (q, ws) -> rpp_encrypt q (record_new RHandshake m) = (q', Ok w) ->
  enc_all p (ms ++ [m]) = Some (q', ws ++ [w]).
Proof.
  induction ms as [|x ms IH]; intros p q ws m q' w H Hw; cbn [enc_all app] in *.
  - injection H as <- <-. now rewrite Hw.
  - destruct (rpp_encrypt p (record_new RHandshake x)) as [p' [w'|e|]]; try discriminate.
    destruct (enc_all p' ms) as [[q1 ws1]|] eqn:E; [|discriminate]. injection H as <- <-.
    rewrite (IH _ _ _ _ _ _ E Hw). reflexivity.
Qed.

Lemma encrypt_shape p rec p' w : rpp_encrypt p rec = (p', Ok w) ->
  exists k', p' = set_keys p (set_side (rp_is_client p) (cur_keys p) k').
Proof.
  Local Transparent rpp_encrypt. unfold rpp_encrypt. Local Opaque rpp_encrypt.
  destruct (per_record_nonce _) as [[n k']|e|]; intros H; try discriminate. injection H as <- _. now exists k'.
Qed.
(* what writing handshake messages leaves alone *)
Definition same_side (p q : rpp) : Prop :=
  rp_schedule q = rp_schedule p /\ rp_cipher q = rp_cipher p /\ rp_is_client q = rp_is_client p /\
  (rp_application p = None -> rp_application q = None) /\
  side_key (negb (rp_is_client p)) (cur_keys q) = side_key (negb (rp_is_client p)) (cur_keys p).
Lemma same_refl p : same_side p p.
Proof. unfold same_side. tauto. Qed.
Lemma same_trans p q r : same_side p q -> same_side q r -> same_side p r.
Proof.
  intros (A1 & A2 & A3 & A4 & A5) (B1 & B2 & B3 & B4 & B5). unfold same_side. rewrite A3 in *.
  repeat split; try congruence. auto.
Qed.
Lemma encrypt_same p rec p' w : rpp_encrypt p rec = (p', Ok w) -> same_side p p'.
Proof.
  intros H. destruct (encrypt_shape _ _ _ _ H) as (k & ->). unfold same_side.
  rewrite set_keys_cipher, set_keys_side, cur_set_keys, side_set_other. repeat split.
  - unfold set_keys. now destruct (rp_application p).
  - intros N. unfold set_keys. now rewrite N.
Qed.
Lemma enc_all_same ms : forall p q ws, enc_all p ms = Some (q, ws) -> same_side p q.
Proof.
  induction ms as [|m ms IH]; intros p q ws H; cbn [enc_all] in H; [injection H as <- _; apply same_refl|].
  destruct (rpp_encrypt p (record_new RHandshake m)) as [p' [w|e|]] eqn:E; try discriminate.
  destruct (enc_all p' ms) as [[q1 ws1]|] eqn:E1; [|discriminate]. injection H as <- _.
  eapply same_trans; [eapply encrypt_same, E|eapply IH, E1].
Qed.
Lemma rpp_new_shape ks c b p : rpp_new (E:=tls_error) ks c b = Ok (Some p) ->
  rp_schedule p = ks /\ rp_cipher p = c /\ rp_is_client p = b /\ rp_application p = None.
Proof.
  unfold rpp_new, oobind. intros H. apply bind_ok in H. destruct H as (o & _ & H). destruct o as [hk|]; [|discriminate].
  injection H as <-. repeat split.
Qed.

(* ---- the answer to the ClientHello ---- *)
Definition req_body (ctx : list Z) : list Z := [u8 (zlen ctx)] ++ ctx ++ [0; 8; 0; 13; 0; 4; 0; 2; 4; 3].
Lemma request_body {E} ctx : certificate_request (E:=E) ctx = Ok (req_body ctx).
Proof. reflexivity. Qed.
Definition req_msgs (cfg : server_config) (d : draws) : list (list Z) :=
  match sc_client_ca cfg with Some _ => [handshake_to_bytes HtCertificateRequest (req_body (d_context d))] | None => [] end.
Definition log_hs (cfg : server_config) (ch : client_hello) (p : rpp) : list Z :=
  match sc_keylog cfg with
  | Some _ => append_handshake_traffic_secrets (keylog_new (ch_random ch))
                (k_secret (wk_server (rp_handshake p))) (k_secret (wk_client (rp_handshake p)))
  | None => []
  end.

Local Opaque handshake_from_raw client_hello_from_raw server_hello_from_client suite_tshash suite_cipher server_hello_bytes
  from_handshake rpp_new certificate_verify_for_handshake finished_handshake th_update handshake_to_bytes certificate_for_handshake
  append_handshake_traffic_secrets req_body.

Lemma hello_ok cfg d h rec h' u : st_protection (sv_stream h) = None -> handle_client_hello cfg d h rec = (h', Ok u) ->
  exists hs ch sh pk t0 body entry ks c p0 cv fin p1 ws,
    handshake_from_raw (r_fragment rec) = Ok hs /\ ht_eqb (hs_type hs) HtClientHello = true /\
    client_hello_from_raw (hs_fraqment hs) = Ok ch /\
    server_hello_from_client ch (d_random d) (d_secrets d) (sc_server_name cfg) = Ok (sh, pk) /\
    suite_tshash (sh_suite sh) = Ok t0 /\ server_hello_bytes (E:=tls_error) sh = Ok body /\
    client_public_key_share (ch_exts ch) = Some entry /\
    let raw0 := handshake_to_bytes HtServerHello body in
    let hellos := [r_fragment rec; raw0] in
    from_handshake (fold_left th_update hellos t0) pk entry = Ok ks /\
    suite_cipher (sh_suite sh) = Ok c /\ rpp_new (E:=tls_error) ks c false = Ok (Some p0) /\
    let pre := handshake_to_bytes HtEncryptedExtensions [0; 0] :: req_msgs cfg d ++
               [handshake_to_bytes HtCertificate (certificate_for_handshake (sc_cert cfg) [0])] in
    certificate_verify_for_handshake (E:=tls_error) (sc_privkey cfg) (fold_left th_update (hellos ++ pre) t0) l_server (d_nonces d) = Ok (Some cv) /\
    let cvm := handshake_to_bytes HtCertificateVerify cv in
    finished_handshake (ks_server_hs ks) (fold_left th_update (hellos ++ pre ++ [cvm]) t0) = Ok fin /\
    enc_all p0 (pre ++ [cvm; fin]) = Some (p1, ws) /\
    out (sv_stream h') = out (sv_stream h) ++ record_as_bytes (record_new RHandshake raw0) ++
      (match ch_sid ch with Some _ => record_as_bytes (record_new RChangeCipherSpec [1]) | None => [] end) ++ concat ws /\
    st_protection (sv_stream h') = Some p1 /\
    sv_th h' = Some (fold_left th_update (hellos ++ pre ++ [cvm; fin]) t0) /\
    sv_state h' = (match sc_client_ca cfg with Some _ => SvClientCertificate | None => SvClientFinished end) /\
    sv_context h' = (match sc_client_ca cfg with Some _ => Some (d_context d) | None => sv_context h end) /\
    sv_cert h' = sv_cert h /\ sv_th_finished h' = sv_th_finished h /\
    sv_keylog h' = (match sc_keylog cfg with Some _ => Some (keylog_new (ch_random ch)) | None => sv_keylog h end) /\
    sv_log h' = sv_log h ++ log_hs cfg ch p0.
Proof.
  intros N H. unfold handle_client_hello in H.
  sinv H hs E1. destruct (ht_eqb (hs_type hs) HtClientHello) eqn:Et; [|discriminate]. cbn [negb] in H.
  sinv H ch E2. sinv H r E3. destruct r as [sh pk]. sinv H t0 E4. sinv H body E5.
  apply sbind_ok in H. destruct H as (h1 & u1 & W1 & H). apply sv_write_ok in W1. destruct W1 as (s1 & w1 & -> & O1 & P1).
  rewrite N in P1. destruct P1 as (-> & P1).
  apply sbind_ok in H. destruct H as (h2 & u2 & W2 & H).
  assert (X2 : exists s2, h2 = with_stream h s2 /\ st_protection s2 = None /\ out s2 = out s1 ++
    match ch_sid ch with Some _ => record_as_bytes (record_new RChangeCipherSpec [1]) | None => [] end).
  { destruct (ch_sid ch).
    - apply sv_write_ok in W2. destruct W2 as (s2 & w2 & -> & O2 & P2). cbn [with_stream sv_stream] in O2, P2. rewrite P1 in P2.
      destruct P2 as (-> & P2). exists s2. split; [reflexivity|]. split; assumption.
    - injection W2 as <- _. exists s1. rewrite app_nil_r. repeat split. exact P1. }
  destruct X2 as (s2 & -> & P2 & O2). clear W2.
  destruct (client_public_key_share (ch_exts ch)) as [entry|] eqn:Ek; [|discriminate].
  sinv H ks E6. sinv H c E7. sinv H p E8.
  change (server_exts_bytes (E:=tls_error) []) with (Ok (E:=tls_error) [0; 0]) in H.
  sinv H eeb Eee. injection Eee as <-.
  match type of H with sbind (sv_write (with_protection ?x p) _ _) _ = _ => set (hk := x) in H end.
  assert (K : sv_stream hk = s2 /\ sv_state hk = sv_state h /\ sv_context hk = sv_context h /\ sv_cert hk = sv_cert h /\
    sv_th_finished hk = sv_th_finished h /\
    forall p0, p = Some p0 ->
    sv_keylog hk = (match sc_keylog cfg with Some _ => Some (keylog_new (ch_random ch)) | None => sv_keylog h end) /\
    sv_log hk = sv_log h ++ log_hs cfg ch p0).
  { unfold hk, log_hs. destruct (sc_keylog cfg), p as [px|]; cbn; do 5 (split; [reflexivity|]);
      intros pz Q; try discriminate; try injection Q as <-; rewrite ?app_nil_r; split; reflexivity. }
  clearbody hk. destruct K as (K1 & K2 & K3 & K4 & K5 & K6).
  apply sbind_ok in H. destruct H as (h3 & u3 & W3 & H). apply sv_write_ok in W3. destruct W3 as (s3 & w3 & -> & O3 & P3).
  change (out (sv_stream (with_protection hk p))) with (out (sv_stream hk)) in O3. rewrite K1 in O3.
  change (st_protection (sv_stream (with_protection hk p))) with p in P3.
  apply sbind_ok in H. destruct H as (h4 & th & W4 & H).
  set (ee := handshake_to_bytes HtEncryptedExtensions [0; 0]) in *.
  set (raw0 := handshake_to_bytes HtServerHello body) in *.
  assert (X4 : exists s4 ws, sv_stream h4 = s4 /\ th = fold_left th_update ([r_fragment rec; raw0; ee] ++ req_msgs cfg d) t0 /\
    out s4 = out s3 ++ concat ws /\
    match st_protection s3 with
    | Some p => exists p', enc_all p (req_msgs cfg d) = Some (p', ws) /\ st_protection s4 = Some p'
    | None => st_protection s4 = None end /\
    sv_context h4 = (match sc_client_ca cfg with Some _ => Some (d_context d) | None => sv_context h end) /\
    sv_state h4 = sv_state h /\ sv_cert h4 = sv_cert h /\ sv_th_finished h4 = sv_th_finished h /\ sv_keylog h4 = sv_keylog hk /\
    sv_log h4 = sv_log hk).
  { unfold req_msgs. destruct (sc_client_ca cfg).
    - rewrite request_body in W4. sinv W4 rb Erb. injection Erb as <-.
      apply sbind_ok in W4. destruct W4 as (h5 & u5 & W5 & W4). apply sv_write_ok in W5. destruct W5 as (s5 & w5 & -> & O5 & P5).
      injection W4 as <- <-. cbn [with_stream with_context sv_stream] in O5, P5 |- *.
      exists s5, [w5]. split; [reflexivity|]. split; [reflexivity|]. split; [cbn [concat]; now rewrite app_nil_r|].
      split; [|cbn; auto 10].
      destruct (st_protection s3) as [q|]; [|apply P5]. destruct P5 as (q' & Q1 & Q2). exists q'. cbn [enc_all]. rewrite Q1. auto.
    - injection W4 as <- <-. exists s3, []. cbn. rewrite app_nil_r. repeat (split; [reflexivity||assumption|]).
      split; [destruct (st_protection s3) as [q|]; [now exists q|reflexivity]|]. auto 10. }
  destruct X4 as (s4 & ws4 & S4 & -> & O4 & P4 & F4 & G4 & I4 & J4 & L4 & M4). clear W4.
  apply sbind_ok in H. destruct H as (h5 & u5 & W5 & H). apply sv_write_ok in W5. destruct W5 as (s5 & w5 & -> & O5 & P5).
  rewrite S4 in O5, P5.
  set (crt := handshake_to_bytes HtCertificate (certificate_for_handshake (sc_cert cfg) [0])) in *.
  sinv H cvo E9. sinv H cv E10. destruct cvo as [cv'|]; [|discriminate]. injection E10 as ->.
  apply sbind_ok in H. destruct H as (h6 & u6 & W6 & H). apply sv_write_ok in W6. destruct W6 as (s6 & w6 & -> & O6 & P6).
  cbn [with_stream sv_stream] in O6, P6.
  set (cvm := handshake_to_bytes HtCertificateVerify cv) in *.
  sinv H p6 E10. cbn [with_stream sv_stream] in E10.
  destruct (st_protection s6) as [p6'|] eqn:Ep6; [|discriminate]. injection E10 as ->.
  sinv H fin E11.
  apply sbind_ok in H. destruct H as (h7 & u7 & W7 & H). apply sv_write_ok in W7. destruct W7 as (s7 & w7 & -> & O7 & P7).
  cbn [with_stream sv_stream] in O7, P7. rewrite Ep6 in P7. destruct P7 as (p7 & P7 & Ep7).
  injection H as <- _.
  destruct p as [p0|]; [|exfalso; destruct P3 as (_ & P3); rewrite P3 in P4; rewrite P4 in P5; destruct P5 as (_ & P5); rewrite P5 in P6;
    destruct P6 as (_ & P6); congruence].
  destruct P3 as (p3 & P3 & Ep3). rewrite Ep3 in P4. destruct P4 as (p4 & P4 & Ep4). rewrite Ep4 in P5. destruct P5 as (p5 & P5 & Ep5).
  rewrite Ep5 in P6. destruct P6 as (p6'' & P6 & Ep6'). injection Ep6' as <-.
  assert (EA : enc_all p0 (ee :: req_msgs cfg d ++ [crt; cvm]) = Some (p6, w3 :: ws4 ++ [w5; w6])).
  { cbn [enc_all]. rewrite P3.
    replace (req_msgs cfg d ++ [crt; cvm]) with ((req_msgs cfg d ++ [crt]) ++ [cvm]) by (rewrite <- app_assoc; reflexivity).
    rewrite (enc_all_snoc _ _ _ _ _ _ _ (enc_all_snoc _ _ _ _ _ _ _ P4 P5) P6). rewrite <- app_assoc. reflexivity. }
  pose proof (enc_all_snoc _ _ _ _ _ _ _ EA P7) as EB.
  pose proof (enc_all_same _ _ _ _ EA) as (Sch & _).
  destruct (rpp_new_shape _ _ _ _ E8) as (Sk & _). rewrite Sch, Sk in E11.
  exists hs, ch, sh, pk, t0, body, entry, ks, c, p0, cv, fin, p7, (w3 :: ws4 ++ [w5; w6; w7]).
  split; [exact E1|]. split; [exact Et|]. split; [exact E2|]. split; [exact E3|]. split; [exact E4|]. split; [exact E5|].
  split; [exact Ek|]. cbv zeta. fold raw0 ee crt. split; [exact E6|]. split; [exact E7|]. split; [exact E8|].
  assert (FL : forall l, th_update (fold_left th_update ([r_fragment rec; raw0; ee] ++ req_msgs cfg d) t0) l
     = fold_left th_update ([r_fragment rec; raw0] ++ ee :: req_msgs cfg d ++ [l]) t0).
  { intros l. change ([r_fragment rec; raw0] ++ ee :: req_msgs cfg d ++ [l]) with (([r_fragment rec; raw0; ee] ++ (req_msgs cfg d ++ [l]))).
    rewrite app_assoc, (fold_left_app th_update _ [l]). reflexivity. }
  rewrite FL in E9, E11. fold crt in E9, E11. split; [exact E9|].
  assert (FL2 : forall l, th_update (fold_left th_update ([r_fragment rec; raw0] ++ ee :: req_msgs cfg d ++ [crt]) t0) l
     = fold_left th_update ([r_fragment rec; raw0] ++ (ee :: req_msgs cfg d ++ [crt]) ++ [l]) t0).
  { intros l. rewrite app_assoc, (fold_left_app th_update _ [l]). reflexivity. }
  rewrite FL2 in E11. fold cvm. split; [exact E11|].
  split. { cbn [app] in EB |- *. rewrite <- !app_assoc in EB. rewrite <- !app_assoc. exact EB. }
  cbn [with_th with_state with_stream sv_stream sv_state sv_th sv_context sv_cert sv_th_finished sv_keylog sv_log].
  split. { rewrite O7, O6, O5, O4, O3, O2, O1. cbn [concat]. rewrite concat_app. cbn [concat]. rewrite <- !app_assoc. rewrite app_nil_r. reflexivity. }
  split; [exact Ep7|].
  split. { rewrite FL, FL2. f_equal.
    replace (th_update (fold_left th_update ([r_fragment rec; raw0] ++ (ee :: req_msgs cfg d ++ [crt]) ++ [cvm]) t0) fin)
      with (fold_left th_update (([r_fragment rec; raw0] ++ (ee :: req_msgs cfg d ++ [crt]) ++ [cvm]) ++ [fin]) t0)
      by (rewrite (fold_left_app th_update _ [fin]); reflexivity).
    f_equal. rewrite <- !app_assoc. reflexivity. }
  destruct (K6 p0 eq_refl) as (K7 & K8).
  split; [reflexivity|]. split; [exact F4|]. split; [exact I4|]. split; [exact J4|]. split; [now rewrite L4|]. now rewrite M4.
Qed.
