(* What the client has seen and done in each state of its handshake *)
From Verif Require Import Proofs.Util Proofs.Bytes Model.Alert Model.Bytes Model.Suite Model.Sha2 Model.Hmac Model.KeySchedule Model.Record Model.Channel
  Model.Curve Model.Signature Model.Ecdsa Model.X509 Model.Extensions Model.Hello Model.Kex Model.Handshake Model.Certificate
  Model.Stream Model.AppChannel Model.Keylog Model.Server Model.Client
  Spec.Enc Spec.Rfc2104 Spec.Fips180 Spec.Rfc8446Keys Spec.Tls13Record Spec.Endpoints Spec.Writes Spec.Rfc8446Auth Spec.Connection
  Spec.ClientConnection.
From Verif Require Spec.Rfc8446Hello Spec.Ecdsa.
From Verif Require Import Proofs.KeySchedule Proofs.Record Proofs.Channel Proofs.Stream Proofs.ServerRun Proofs.ServerKeys Proofs.Opened
  Proofs.ServerSteps Proofs.ServerFlow Proofs.ClientSteps.
From Verif Require Proofs.Hmac Proofs.Sha2 Proofs.Auth Proofs.HelloTotal Proofs.Kex Proofs.EcdsaP256.

Local Opaque handle_server_hello handle_server_certificate handle_server_certificate_verify handle_server_finish rpp_decrypt record_from_raw
  X509.get_public_key x509_from_raw client_greeting handshake_from_raw th_update client_flight.

Record cgreet := CGreet { cg_first : record; cg_hash : hash_type; cg_sh : server_hello; cg_g : agreed; cg_p0 : rpp }.
Definition cgreeted (cfg : client_config) (e : client_draws) (x : cgreet) : Prop :=
  r_type (cg_first x) = RHandshake /\ agrees cfg e (r_fragment (cg_first x)) (cg_sh x) (cg_g x) /\ suited (cg_hash x) (cg_g x) /\
  zlen (g_hellos (cg_g x)) < 2^18 /\
  rpp_new (E:=tls_error) (schedule_of (cg_hash x) (cg_g x)) (g_cipher (cg_g x)) true = Ok (Some (cg_p0 x)).
Lemma cgreeted_keys cfg e x : cgreeted cfg e x ->
  good_key (cipher_get_suite (g_cipher (cg_g x))) (Connection.traffic_key (cg_g x) (client_secret (cg_g x))) /\
  good_key (cipher_get_suite (g_cipher (cg_g x))) (Connection.traffic_key (cg_g x) (server_secret (cg_g x))) /\
  rp_handshake (cg_p0 x) = {| wk_server := Connection.traffic_key (cg_g x) (server_secret (cg_g x));
                              wk_client := Connection.traffic_key (cg_g x) (client_secret (cg_g x)) |}.
Proof.
  intros (_ & _ & S & _ & N). destruct (suited_keys _ _ true S) as (p & Hp & E & G1 & G2).
  rewrite Hp in N. apply Ok_inj in N. injection N as ->. auto.
Qed.

Definition cg_keylog (cfg : client_config) (e : client_draws) : option (list Z) :=
  match cc_keylog cfg with Some _ => Some (keylog_new (e_random e)) | None => None end.
(* the protection while the server authenticates: n records received, none sent *)
Definition guarded (x : cgreet) (p : rpp) (n : Z) : Prop :=
  keyed (cg_hash x) (cg_g x) p /\ rp_is_client p = true /\ rp_application p = None /\
  side_key true (cur_keys p) = key_at (Connection.traffic_key (cg_g x) (client_secret (cg_g x))) 0 /\
  peer_key p = key_at (Connection.traffic_key (cg_g x) (server_secret (cg_g x))) n.
Definition clive (cfg : client_config) (e : client_draws) (base : list Z) (x : cgreet) (h : client_hs) (n : Z) (ms : list Z) : Prop :=
  out (cl_stream h) = base /\ cl_th h = Some (th_update (th_new (cg_hash x)) (g_hellos (cg_g x) ++ ms)) /\
  cl_keylog h = cg_keylog cfg e /\ cl_log h = client_log cfg e (cg_p0 x) /\
  exists p, st_protection (cl_stream h) = Some p /\ guarded x p n.

Definition cstage (now : Z) (x : cgreet) (h : client_hs) (ms : list Z) : Prop :=
  let g := cg_g x in
  match cl_state h with
  | CsEncryptedExtensions => ms = [] /\ cl_request h = None
  | CsClientCertificateRequest | CsServerCertificate => exists ee rs, ms = opening ee rs /\ cl_request h = last_of rs /\ Forall is_bytes rs
  | CsServerCertificateVerify => exists ee rs m1 cert y, ms = opening ee rs ++ m1 /\ cl_request h = last_of rs /\ Forall is_bytes rs /\
      cl_cert h = Some (Cert cert (Some y)) /\ is_bytes cert /\ shows m1 cert /\ x509_from_raw cert = Ok y /\
      is_valid (E:=tls_error) (x_validity y) now = Ok true
  | CsFinished => exists ee rs m1 m2, ms = opening ee rs ++ m1 ++ m2 /\ cl_request h = last_of rs /\ Forall is_bytes rs /\
      server_authentic now g (g_hellos g ++ opening ee rs) m1 m2
  | _ => False
  end.
Definition cdone (cfg : client_config) (e : client_draws) (now : Z) (base : list Z) (x : cgreet) (h : client_hs) (n : Z) (all : list Z) : Prop :=
  let g := cg_g x in
  exists ee rs m1 m2 ignored replied q p1 ws p, let ms := g_hellos g ++ opening ee rs ++ m1 ++ m2 in
    all = opening ee rs ++ m1 ++ m2 ++ server_finished g ms ++ ignored /\
    server_authentic now g (g_hellos g ++ opening ee rs) m1 m2 /\
    (replies cfg e g (ms ++ server_finished g ms) (last_of rs) replied /\ is_bytes (concat replied)) /\ guarded x q n /\
    enc_all q (client_flight g (ms ++ server_finished g ms) replied) = Some (p1, ws) /\
    out (cl_stream h) = base ++ concat ws /\ st_buffer (cl_stream h) = [] /\
    st_protection (cl_stream h) = Some p /\ rp_is_client p = true /\ rp_cipher p = g_cipher g /\
    rp_application p = Some (application_keys g (ms ++ server_finished g ms)) /\
    good_key (cipher_get_suite (g_cipher g)) (wk_server (application_keys g (ms ++ server_finished g ms))) /\
    good_key (cipher_get_suite (g_cipher g)) (wk_client (application_keys g (ms ++ server_finished g ms))) /\
    cl_log h = client_log cfg e (cg_p0 x) ++ (match cg_keylog cfg e with Some k => append_from_protection k p | None => [] end).

(* recs: the protected records, contents: what was in them, rest: the part not looked at yet; k bounds both *)
Definition history (bytes : list Z) (x : cgreet) (k : Z) (recs : list record) (contents : list (list Z)) : Prop :=
  within bytes (cg_first x) /\ Forall (within bytes) recs /\ carry (cg_g x) contents recs /\
  is_bytes (concat contents) /\ zlen (concat contents) <= k /\ zlen recs <= k.
Definition cflow (cfg : client_config) (e : client_draws) (now : Z) (base bytes : list Z) (h : client_hs) (k : Z)
    (recs : list record) (contents : list (list Z)) (rest : list Z) : Prop :=
  match cl_state h with
  | CsServerHello => recs = [] /\ contents = [] /\ rest = [] /\ cl_hello h = Some (client_greeting cfg e) /\ cl_random h = Some (e_random e) /\
      cl_key h = PrivateKey curve25519 (e_secret e) /\ cl_request h = None /\ cl_keylog h = None /\ cl_log h = [] /\
      st_protection (cl_stream h) = None /\ out (cl_stream h) = base
  | CsFinishWithError _ => True
  | CsReady => exists x, cgreeted cfg e x /\ history bytes x k recs contents /\ cdone cfg e now base x h (zlen recs) (concat contents)
  | _ => exists x ms, cgreeted cfg e x /\ history bytes x k recs contents /\ concat contents = ms ++ rest /\
      clive cfg e base x h (zlen recs) ms /\ cstage now x h ms
  end.

(* ---- messages ---- *)
Lemma last_of_snoc {A} (l : list A) a : last_of (l ++ [a]) = Some a.
Proof. induction l as [|b l IH]; [reflexivity|]. destruct l; [reflexivity|]. exact IH. Qed.
Lemma opening_snoc ee rs r : opening ee (rs ++ [r]) = opening ee rs ++ Rfc8446Hello.handshake 13 r.
Proof. unfold opening. rewrite map_app, concat_app. cbn [map concat]. now rewrite app_nil_r, <- app_assoc. Qed.

Definition mid (s : client_state) : Prop := match s with CsServerHello => False | _ => True end.
Lemma message_flow cfg e now base bytes h k recs contents buf hs h' u : client_ok cfg e -> k < 2^52 -> zlen buf < 2^16 ->
  cflow cfg e now base bytes h k recs contents buf -> mid (cl_state h) ->
  is_bytes buf -> handshake_from_raw buf = Ok hs -> handle_message cfg e now h hs = (h', Ok u) ->
  mid (cl_state h') /\ cflow cfg e now base bytes h' k recs contents (skipn (length (hs_raw hs)) buf).
Proof.
  intros Ok' Lk Lb F M B R E. destruct (read_message _ _ B R) as (Eb & ER & Br & Bf & L4). clear R.
  set (rest := skipn (length (hs_raw hs)) buf) in *. clearbody rest.
  assert (Lr : zlen (hs_raw hs) < 2^16) by (rewrite Eb, zlen_app in Lb; pose proof (zlen_nonneg rest); lia).
  rewrite Eb in F. clear Eb Lb B. unfold handle_message in E. unfold cflow in F.
  assert (GO : forall x ms m, history bytes x k recs contents -> concat contents = ms ++ m ++ rest -> cgreeted cfg e x -> is_bytes (g_hellos (cg_g x) ++ ms) /\
    zlen (g_hellos (cg_g x) ++ ms) < 2^52 + 2^20).
  { intros x ms m (_ & _ & _ & Bc & Lc & _) Ec (_ & _ & S & Lh & _). destruct S as (_ & _ & _ & Bh & _). rewrite Ec in Bc, Lc. apply is_bytes_app in Bc.
    split; [apply is_bytes_app; tauto|]. rewrite !zlen_app in *. pose proof (zlen_nonneg m). pose proof (zlen_nonneg rest). lia. }
  destruct (cl_state h) eqn:St; try contradiction.
  - (* EncryptedExtensions *)
    destruct F as (x & ms & G & Hi & Ec & L & Sg). unfold cstage in Sg. rewrite St in Sg. destruct Sg as (-> & Rq).
    unfold handle_encrypted_extension in E. destruct (ht_eqb (hs_type hs) HtEncryptedExtensions) eqn:T; [|discriminate]. apply ht_eqb_eq in T. cbn [negb] in E.
    rewrite T in ER. cbn [handshake_type_u8] in ER. pose proof L as (O & Th & Kl & Lg & p & P & Gp). rewrite Th in E. sinv E t Et. cbn in Et. apply Ok_inj in Et. subst t.
    injection E as <- _. cbn [cl_with_state cl_with_th cl_state mid]. split; [exact I|]. unfold cflow. cbn [cl_with_state cl_with_th cl_state].
    exists x, (hs_raw hs). split; [exact G|]. split; [exact Hi|]. split; [exact Ec|]. split.
    { unfold clive. cbn [cl_with_state cl_with_th cl_stream cl_th cl_keylog cl_log]. split; [exact O|]. split; [rewrite app_nil_r, <- th_update_app; reflexivity|]. eauto 6. }
    unfold cstage. cbn [cl_with_state cl_with_th cl_state cl_request]. exists (hs_fraqment hs), []. split; [|auto].
    unfold opening. cbn [map concat]. now rewrite app_nil_r.
  - (* CertificateRequest or Certificate *)
    destruct F as (x & ms & G & Hi & Ec & L & Sg). unfold cstage in Sg. rewrite St in Sg. destruct Sg as (ee & rs & Em & Rq & Frs).
    pose proof L as (O & Th & Kl & Lg & p & P & Gp).
    destruct (ht_eqb (hs_type hs) HtCertificateRequest) eqn:T.
    + apply ht_eqb_eq in T. rewrite T in ER. cbn [handshake_type_u8] in ER. cbn [cl_with_request cl_th] in E. rewrite Th in E. sinv E t Et. cbn in Et. apply Ok_inj in Et. subst t.
      injection E as <- _. split; [exact I|]. unfold cflow. cbn [cl_with_state cl_with_th cl_state].
      exists x, (ms ++ hs_raw hs). split; [exact G|]. split; [exact Hi|]. split; [rewrite Ec, <- app_assoc; reflexivity|]. split.
      { unfold clive. cbn [cl_with_state cl_with_th cl_with_request cl_stream cl_th cl_keylog cl_log]. split; [exact O|]. split; [rewrite app_assoc, <- th_update_app; reflexivity|]. eauto 6. }
      unfold cstage. cbn [cl_with_state cl_with_th cl_with_request cl_state cl_request]. exists ee, (rs ++ [hs_fraqment hs]). split; [rewrite opening_snoc, Em, ER; reflexivity|].
      split; [now rewrite last_of_snoc|]. apply Forall_app. auto.
    + destruct (c_cert_step now h hs h' u _ ER Bf Th E) as [(er & Se)|(cert & y & -> & Bc & Sh & X & V)].
      { rewrite Se. split; [exact I|]. unfold cflow. rewrite Se. exact I. }
      split; [exact I|]. unfold cflow. cbn [cl_with_state cl_state]. exists x, (ms ++ hs_raw hs). split; [exact G|]. split; [exact Hi|].
      split; [rewrite Ec, <- app_assoc; reflexivity|]. split.
      { unfold clive. cbn [cl_with_state cl_with_th cl_with_cert cl_stream cl_th cl_keylog cl_log]. split; [exact O|]. split; [rewrite app_assoc, <- th_update_app; reflexivity|]. eauto 6. }
      unfold cstage. cbn [cl_with_state cl_with_th cl_with_cert cl_state cl_request cl_cert]. exists ee, rs, (hs_raw hs), cert, y. rewrite Em. auto 10.
  - (* the same *)
    destruct F as (x & ms & G & Hi & Ec & L & Sg). unfold cstage in Sg. rewrite St in Sg. destruct Sg as (ee & rs & Em & Rq & Frs).
    pose proof L as (O & Th & Kl & Lg & p & P & Gp).
    destruct (ht_eqb (hs_type hs) HtCertificateRequest) eqn:T.
    + apply ht_eqb_eq in T. rewrite T in ER. cbn [handshake_type_u8] in ER. cbn [cl_with_request cl_th] in E. rewrite Th in E. sinv E t Et. cbn in Et. apply Ok_inj in Et. subst t.
      injection E as <- _. split; [exact I|]. unfold cflow. cbn [cl_with_state cl_with_th cl_state].
      exists x, (ms ++ hs_raw hs). split; [exact G|]. split; [exact Hi|]. split; [rewrite Ec, <- app_assoc; reflexivity|]. split.
      { unfold clive. cbn [cl_with_state cl_with_th cl_with_request cl_stream cl_th cl_keylog cl_log]. split; [exact O|]. split; [rewrite app_assoc, <- th_update_app; reflexivity|]. eauto 6. }
      unfold cstage. cbn [cl_with_state cl_with_th cl_with_request cl_state cl_request]. exists ee, (rs ++ [hs_fraqment hs]). split; [rewrite opening_snoc, Em, ER; reflexivity|].
      split; [now rewrite last_of_snoc|]. apply Forall_app. auto.
    + destruct (c_cert_step now h hs h' u _ ER Bf Th E) as [(er & Se)|(cert & y & -> & Bc & Sh & X & V)].
      { rewrite Se. split; [exact I|]. unfold cflow. rewrite Se. exact I. }
      split; [exact I|]. unfold cflow. cbn [cl_with_state cl_state]. exists x, (ms ++ hs_raw hs). split; [exact G|]. split; [exact Hi|].
      split; [rewrite Ec, <- app_assoc; reflexivity|]. split.
      { unfold clive. cbn [cl_with_state cl_with_th cl_with_cert cl_stream cl_th cl_keylog cl_log]. split; [exact O|]. split; [rewrite app_assoc, <- th_update_app; reflexivity|]. eauto 6. }
      unfold cstage. cbn [cl_with_state cl_with_th cl_with_cert cl_state cl_request cl_cert]. exists ee, rs, (hs_raw hs), cert, y. rewrite Em. auto 10.
  - (* CertificateVerify *)
    destruct F as (x & ms & G & Hi & Ec & L & Sg). unfold cstage in Sg. rewrite St in Sg.
    destruct Sg as (ee & rs & m1 & cert & y & Em & Rq & Frs & Ct & Bc & Sh & X & V). pose proof L as (O & Th & Kl & Lg & p & P & Gp).
    destruct (GO x ms _ Hi Ec G) as (Bm & Lm).
    destruct (c_cv_step h hs h' u _ _ cert y ER Bf Ct Bc X Th Bm ltac:(lia) E) as [(er & Se)|(-> & Po)].
    { rewrite Se. split; [exact I|]. unfold cflow. rewrite Se. exact I. }
    split; [exact I|]. unfold cflow. cbn [cl_with_state cl_state]. exists x, (ms ++ hs_raw hs). split; [exact G|]. split; [exact Hi|].
    split; [rewrite Ec, <- app_assoc; reflexivity|]. split.
    { unfold clive. cbn [cl_with_state cl_with_th cl_stream cl_th cl_keylog cl_log]. split; [exact O|]. split; [rewrite app_assoc; reflexivity|]. eauto 6. }
    unfold cstage. cbn [cl_with_state cl_with_th cl_state cl_request]. exists ee, rs, m1, (hs_raw hs). split; [rewrite Em, <- app_assoc; reflexivity|].
    split; [exact Rq|]. split; [exact Frs|]. exists cert, y. do 3 (split; [assumption|]).
    destruct G as (_ & _ & (EA & _) & _). rewrite EA. rewrite Em in Po. rewrite <- app_assoc. exact Po.
  - (* after an error *)
    rename e0 into er. unfold cflow. Local Transparent handle_server_finish. unfold handle_server_finish in E. Local Opaque handle_server_finish.
    rewrite St in E. destruct (negb _).
    + injection E as <- _. rewrite St. split; exact I.
    + sinv E p E1. sinv E t E2. sinv E v E3. rewrite St in E. discriminate.
  - (* Finished *)
    destruct F as (x & ms & G & Hi & Ec & L & Sg). unfold cstage in Sg. rewrite St in Sg.
    destruct Sg as (ee & rs & m1 & m2 & Em & Rq & Frs & Au). pose proof L as (O & Th & Kl & Lg & p & P & Gp).
    destruct (GO x ms _ Hi Ec G) as (Bm & Lm). pose proof Gp as (K & Cp & Np & _).
    assert (Brq : forall b, cl_request h = Some b -> is_bytes b).
    { intros b Hb. rewrite Rq in Hb. rewrite Forall_forall in Frs. apply Frs. clear - Hb. induction rs as [|a rs IH]; [discriminate|].
      destruct rs; [injection Hb as <-; now left|right; now apply IH]. }
    destruct (c_fin_step cfg e h hs h' u _ _ p _ Ok' ER Br ltac:(lia) St P K Cp Np Th Bm Lm Brq E) as (EF & St' & replied & p1 & ws & p' & X). cbv zeta in X.
    destruct X as (X1 & X2 & X3 & X4 & X5 & X6 & X7 & X8 & X9 & X10 & X11). rewrite St'. split; [exact I|]. unfold cflow. rewrite St'.
    exists x. split; [exact G|]. split; [exact Hi|]. unfold cdone. exists ee, rs, m1, m2, rest, replied, p, p1, ws, p'. cbv zeta. rewrite <- Em.
    split; [rewrite Ec, EF, Em, <- !app_assoc; reflexivity|]. rewrite Rq in X1. rewrite O in X3. rewrite Kl, Lg in X11. auto 15.
  - (* Ready *)
    injection E as <- _. rewrite St. split; [exact I|]. unfold cflow. rewrite St. exact F.
Qed.

Lemma messages_flow cfg e now base bytes k recs contents fuel : forall h buf h' u, client_ok cfg e -> k < 2^52 -> zlen buf < 2^16 ->
  cflow cfg e now base bytes h k recs contents buf -> mid (cl_state h) -> is_bytes buf -> client_messages fuel cfg e now h buf = (h', Ok u) ->
  mid (cl_state h') /\ cflow cfg e now base bytes h' k recs contents [].
Proof.
  induction fuel as [|f IH]; intros h buf h' u Ok' Lk Lb F M B E; cbn [client_messages] in E.
  - destruct buf; [|discriminate]. injection E as <- _. auto.
  - destruct buf as [|b0 buf0]; [injection E as <- _; auto|]. set (buf := b0 :: buf0) in *. clearbody buf.
    sinv E hs R. apply sbind_ok in E. destruct E as (h1 & u1 & E1 & E).
    destruct (message_flow _ _ _ _ _ _ _ _ _ _ _ _ _ Ok' Lk Lb F M B R E1) as (M1 & F1).
    apply (IH _ _ _ _ Ok' Lk) in E; [exact E| |exact F1|exact M1|now apply is_bytes_skipn].
    unfold zlen in *. rewrite skipn_length. lia.
Qed.
