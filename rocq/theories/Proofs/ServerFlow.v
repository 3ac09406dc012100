(* What the server has seen and done in each state of its handshake *)
From Verif Require Import Proofs.Util Proofs.Bytes Model.Alert Model.Bytes Model.Suite Model.Sha2 Model.Hmac Model.KeySchedule Model.Record Model.Channel
  Model.Curve Model.Signature Model.Ecdsa Model.X509 Model.Extensions Model.Hello Model.Kex Model.Handshake Model.Certificate
  Model.Stream Model.AppChannel Model.Keylog Model.Server
  Spec.Enc Spec.Rfc2104 Spec.Fips180 Spec.Rfc8446Keys Spec.Tls13Record Spec.Endpoints Spec.Writes Spec.Rfc8446Auth Spec.Connection.
From Verif Require Spec.Rfc8446Hello Spec.Ecdsa.
From Verif Require Import Proofs.KeySchedule Proofs.Record Proofs.Channel Proofs.Stream Proofs.ServerRun Proofs.ServerKeys Proofs.Opened Proofs.ServerSteps.
From Verif Require Proofs.Hmac Proofs.Sha2 Proofs.Auth Proofs.HelloTotal Proofs.Kex Proofs.EcdsaP256.

Local Opaque handle_client_hello handle_client_certificate handle_client_certificate_verify handle_client_finish rpp_decrypt record_from_raw
  X509.get_public_key x509_from_raw server_flight to_server_finished.

Record greeting := Greeting {
  gr_hello : record; gr_hash : hash_type; gr_ch : client_hello; gr_body : list Z; gr_g : agreed; gr_der : list Z;
  gr_p0 : rpp; gr_p1 : rpp; gr_ws : list (list Z) }.
Definition greeted (cfg : server_config) (d : draws) (x : greeting) : Prop :=
  r_type (gr_hello x) = RHandshake /\ answers cfg d (r_fragment (gr_hello x)) (gr_ch x) (gr_body x) (gr_g x) /\
  server_signed cfg d (gr_g x) (gr_der x) /\ is_bytes (gr_der x) /\ (length (gr_der x) <= 72)%nat /\ suited (gr_hash x) (gr_g x) /\
  rpp_new (E:=tls_error) (schedule_of (gr_hash x) (gr_g x)) (g_cipher (gr_g x)) false = Ok (Some (gr_p0 x)) /\
  enc_all (gr_p0 x) (server_flight cfg d (gr_g x) (gr_der x)) = Some (gr_p1 x, gr_ws x).
Definition gr_out (x : greeting) : list Z :=
  record_as_bytes (record_new RHandshake (Rfc8446Hello.handshake 2 (gr_body x))) ++
  (match ch_sid (gr_ch x) with Some _ => record_as_bytes (record_new RChangeCipherSpec [1]) | None => [] end) ++ concat (gr_ws x).
Definition gr_msgs (cfg : server_config) (d : draws) (x : greeting) : list Z := to_server_finished cfg d (gr_g x) (gr_der x).
Definition gr_keylog (cfg : server_config) (x : greeting) : option (list Z) :=
  match sc_keylog cfg with Some _ => Some (keylog_new (ch_random (gr_ch x))) | None => None end.

(* after the answer: n protected records received, transcript msgs *)
Definition live (cfg : server_config) (d : draws) (so : sock) (x : greeting) (h : server_hs) (n : Z) (msgs : list Z) : Prop :=
  out (sv_stream h) = so_sent so ++ gr_out x /\ sv_th h = Some (th_update (th_new (gr_hash x)) msgs) /\
  is_bytes msgs /\ zlen msgs < 2^52 + 2^27 + n * 2^16 /\ 0 <= n <= 3 /\
  sv_context h = (match sc_client_ca cfg with Some _ => Some (d_context d) | None => None end) /\
  sv_keylog h = gr_keylog cfg x /\ sv_log h = log_hs cfg (gr_ch x) (gr_p0 x) /\
  exists p, st_protection (sv_stream h) = Some p /\ keyed (gr_hash x) (gr_g x) p /\ rp_is_client p = false /\ rp_application p = None /\
    side_key false (cur_keys p) = side_key false (cur_keys (gr_p1 x)) /\
    peer_key p = key_at (Connection.traffic_key (gr_g x) (client_secret (gr_g x))) n.

(* the client's authentication, if asked for: the records used and the transcript after them *)
Definition authed (cfg : server_config) (d : draws) (now : Z) (x : greeting) (used : list record) (msgs : list Z) : Prop :=
  match sc_client_ca cfg with
  | None => used = [] /\ msgs = gr_msgs cfg d x
  | Some ca => exists r1 r2 m1 m2 cax key, used = [r1; r2] /\ msgs = gr_msgs cfg d x ++ m1 ++ m2 /\
      ct_x509 ca = Some cax /\ X509.get_public_key (E:=tls_error) cax = Ok (Some key) /\
      from_client (gr_g x) 0 m1 r1 /\ from_client (gr_g x) 1 m2 r2 /\
      authentic cfg d now key (gr_g x) (gr_msgs cfg d x) m1 m2
  end.
Definition done (cfg : server_config) (d : draws) (now : Z) (so : sock) (h : server_hs) (recs : list record) : Prop :=
  exists x more used msgs rf extra ignored p, recs = gr_hello x :: more /\ without_ccs more = used ++ rf :: ignored /\
    greeted cfg d x /\ authed cfg d now x used msgs /\
    from_client (gr_g x) (zlen used) (Rfc8446Hello.handshake 20 (verify_data (gr_g x) (client_secret (gr_g x)) msgs) ++ extra) rf /\
    out (sv_stream h) = so_sent so ++ gr_out x /\
    st_protection (sv_stream h) = Some p /\ rp_is_client p = false /\ rp_cipher p = g_cipher (gr_g x) /\
    rp_application p = Some (application_keys (gr_g x) (gr_msgs cfg d x)) /\
    good_key (cipher_get_suite (g_cipher (gr_g x))) (wk_server (application_keys (gr_g x) (gr_msgs cfg d x))) /\
    good_key (cipher_get_suite (g_cipher (gr_g x))) (wk_client (application_keys (gr_g x) (gr_msgs cfg d x))) /\
    sv_log h = log_hs cfg (gr_ch x) (gr_p0 x) ++
      (match gr_keylog cfg x with Some k => append_from_protection k p | None => [] end).
Definition flow (cfg : server_config) (d : draws) (now : Z) (so : sock) (h : server_hs) (recs : list record) : Prop :=
  match sv_state h with
  | SvClientHello => recs = [] /\ h = with_stream (server_new so) (sv_stream h) /\ st_protection (sv_stream h) = None /\
      out (sv_stream h) = so_sent so
  | SvClientCertificate => exists x more ca, recs = gr_hello x :: more /\ without_ccs more = [] /\ sc_client_ca cfg = Some ca /\
      greeted cfg d x /\ live cfg d so x h 0 (gr_msgs cfg d x)
  | SvClientCertificateVerify => exists x more ca cax key r1 m1 cert y, recs = gr_hello x :: more /\ without_ccs more = [r1] /\
      sc_client_ca cfg = Some ca /\ greeted cfg d x /\ live cfg d so x h 1 (gr_msgs cfg d x ++ m1) /\
      sv_th_finished h = Some (th_update (th_new (gr_hash x)) (gr_msgs cfg d x)) /\
      from_client (gr_g x) 0 m1 r1 /\ sv_cert h = Some (Cert cert (Some y)) /\ is_bytes cert /\ presented (d_context d) m1 cert /\
      x509_from_raw cert = Ok y /\ is_valid (E:=tls_error) (x_validity y) now = Ok true /\ ct_x509 ca = Some cax /\
      X509.get_public_key (E:=tls_error) cax = Ok (Some key) /\ signed_by key cert y /\
      (forall check, sc_verify cfg = Some check -> check y = true)
  | SvClientFinished => exists x more used msgs, recs = gr_hello x :: more /\ without_ccs more = used /\ greeted cfg d x /\
      authed cfg d now x used msgs /\ live cfg d so x h (zlen used) msgs /\
      (match sv_th_finished h with Some t => t = th_update (th_new (gr_hash x)) (gr_msgs cfg d x) | None => gr_msgs cfg d x = msgs end)
  | SvFinishWithError _ => True
  | SvReady => done cfg d now so h recs
  end.

Definition wellformed (rec : record) : Prop :=
  is_bytes (r_header rec) /\ length (r_header rec) = 5%nat /\ is_bytes (r_fragment rec) /\ zlen (r_fragment rec) < 2^16.

Lemma without_snoc l r : without_ccs (l ++ [r]) = without_ccs l ++ (if is_ccs r then [] else [r]).
Proof. unfold without_ccs. rewrite filter_app. cbn [filter]. now destruct (is_ccs r). Qed.

Lemma greeted_keys cfg d x : greeted cfg d x ->
  good_key (cipher_get_suite (g_cipher (gr_g x))) (Connection.traffic_key (gr_g x) (client_secret (gr_g x))) /\
  good_key (cipher_get_suite (g_cipher (gr_g x))) (Connection.traffic_key (gr_g x) (server_secret (gr_g x))) /\
  rp_handshake (gr_p0 x) = {| wk_server := Connection.traffic_key (gr_g x) (server_secret (gr_g x));
                              wk_client := Connection.traffic_key (gr_g x) (client_secret (gr_g x)) |}.
Proof.
  intros (_ & _ & _ & _ & _ & S & N & _). destruct (suited_keys _ _ false S) as (p & Hp & E & G1 & G2).
  rewrite Hp in N. apply Ok_inj in N. injection N as ->. auto.
Qed.

(* the answer to the ClientHello *)
Lemma hello_flow cfg d now so h rec h' u : server_ok cfg d -> wellformed rec -> sv_state h = SvClientHello -> r_type rec = RHandshake ->
  flow cfg d now so h [] -> handle_client_hello cfg d h rec = (h', Ok u) -> flow cfg d now so h' [rec].
Proof.
  intros Ok' (_ & _ & Bf & Lf) St T F E. unfold flow in F. rewrite St in F. destruct F as (_ & Eh & Pn & O).
  destruct (hello_spec _ _ _ _ _ _ Ok' Bf Lf Pn E) as (H & ch & body & g & der & p0 & p1 & ws & A & Sg & Bd & Ld & S & N & En & O' & P' & Th & St' & Cx & Ct & Tf & Kl & Lg).
  set (x := Greeting rec H ch body g der p0 p1 ws).
  assert (G : greeted cfg d x) by (unfold greeted, x; cbn; auto 10).
  assert (Cx0 : sv_context h = None) by (rewrite Eh; reflexivity). assert (Tf0 : sv_th_finished h = None) by (rewrite Eh; reflexivity).
  assert (Kl0 : sv_keylog h = None) by (rewrite Eh; reflexivity). assert (Lg0 : sv_log h = []) by (rewrite Eh; reflexivity).
  assert (L : live cfg d so x h' 0 (gr_msgs cfg d x)).
  { destruct (to_finished_ok H cfg d g der S Ok' Bd Ld) as (Bm & Lm).
    destruct (rpp_new_shape _ _ _ _ N) as (N1 & N2 & N3 & N4). destruct (enc_all_same _ _ _ _ En) as (M1 & M2 & M3 & M4 & M5).
    destruct (greeted_keys _ _ _ G) as (_ & _ & Hk). cbn [x gr_p0 gr_g] in Hk.
    unfold live, gr_msgs, gr_keylog, gr_out. cbn [x gr_hash gr_g gr_der gr_ch gr_p0 gr_p1 gr_ws gr_body].
    split; [rewrite O', O; reflexivity|]. split; [exact Th|]. split; [exact Bm|]. split; [lia|]. split; [lia|].
    split; [rewrite Cx, Cx0; reflexivity|]. split; [rewrite Kl, Kl0; reflexivity|]. split; [rewrite Lg, Lg0; reflexivity|].
    exists p1. split; [exact P'|]. split; [unfold keyed; rewrite M1, M2, N1, N2; auto|]. split; [congruence|]. split; [auto|].
    split; [reflexivity|]. unfold peer_key. rewrite M3, M5. rewrite N3. unfold cur_keys. rewrite N4, Hk. reflexivity. }
  unfold flow. rewrite St'. destruct (sc_client_ca cfg) as [ca|] eqn:Ca.
  - exists x, [], ca. auto.
  - exists x, [], [], (gr_msgs cfg d x). split; [reflexivity|]. split; [reflexivity|]. split; [exact G|]. split; [unfold authed; rewrite Ca; auto|].
    split; [exact L|]. rewrite Tf, Tf0. reflexivity.
Qed.

Lemma live_decrypt cfg d so x h n msgs p rec p' t content : greeted cfg d x -> live cfg d so x h n msgs -> n <= 2 -> wellformed rec ->
  st_protection (sv_stream h) = Some p -> rpp_decrypt p rec = (p', Ok (t, content)) -> t <> RInvalid ->
  opened (g_cipher (gr_g x)) (g_alg (gr_g x)) (g_klen (gr_g x)) (client_secret (gr_g x)) n t content rec /\
  is_bytes content /\ zlen content < 2^16 /\ live cfg d so x (with_protection h (Some p')) (n + 1) msgs.
Proof.
  intros G (O & Th & Bm & Lm & Rn & Cx & Kl & Lg & q & Pq & Kq & Cq & Aq & Sq & Pk) N2 (Bh & Lh & Bf & Lf) P D T.
  rewrite P in Pq. injection Pq as <-. destruct (greeted_keys _ _ _ G) as (G1 & _).
  destruct (decrypt_opened _ _ _ _ _ _ _ _ _ Kq Aq Pk G1 ltac:(lia) ltac:(lia) Bf Bh Lf Lh D T)
    as (Op & Bc & Lc & K' & C' & A' & S' & P').
  split; [exact Op|]. split; [exact Bc|]. split; [exact Lc|].
  unfold live. cbn [with_protection with_stream sv_stream sv_th sv_context sv_keylog sv_log set_protection st_protection].
  split; [exact O|]. split; [exact Th|]. split; [exact Bm|]. split; [lia|]. split; [lia|]. do 3 (split; [assumption|]).
  exists p'. split; [reflexivity|]. split; [exact K'|]. split; [congruence|]. split; [exact A'|].
  split; [rewrite Cq in S'; congruence|exact P'].
Qed.

Lemma encrypted_flow cfg d now so h rec h' u recs : server_ok cfg d -> wellformed rec -> is_ccs rec = false ->
  match sv_state h with SvClientHello | SvReady | SvFinishWithError _ => False | _ => True end ->
  flow cfg d now so h recs -> handle_handshake_encrypted_record cfg now h rec = (h', Ok u) -> flow cfg d now so h' (recs ++ [rec]).
Proof.
  intros Ok' W C St F E. unfold handle_handshake_encrypted_record in E. sinv E p E1.
  destruct (st_protection (sv_stream h)) as [q|] eqn:P; [|discriminate]. cbn in E1. apply Ok_inj in E1. subst q.
  destruct (rpp_decrypt p rec) as [p' r] eqn:D. sinv E tc E2. subst r. destruct tc as [t content].
  destruct t; try discriminate; [sinv E code E3; discriminate|].
  set (h1 := with_protection h (Some p')) in *.
  destruct (match sc_client_ca cfg, sv_context h1 with Some _, None => true | _, _ => false end) eqn:NC; [discriminate|].
  assert (S1 : sv_state h1 = sv_state h) by reflexivity. rewrite S1 in E. unfold flow in F.
  pose proof Ok' as (_ & _ & _ & _ & _ & _ & _ & _ & OkCa).
  destruct (sv_state h) eqn:Sh; try contradiction.
  - (* Certificate *)
    destruct F as (x & more & ca & Er & Ew & Ca & G & L).
    destruct (live_decrypt _ _ _ _ _ _ _ _ _ _ _ _ G L ltac:(lia) W P D ltac:(discriminate)) as (Op & Bc & Lc & L1).
    destruct (OkCa ca Ca) as (Bca & cax & Cx & Xca).
    pose proof L1 as (O1 & Th1 & Bm1 & Lm1 & _ & Cx1 & Kl1 & Lg1 & Lp1). rewrite Ca in Cx1.
    destruct (cert_step cfg d now ca cax h1 content h' u _ Ca Cx Bca Xca Bc Lc Th1 Cx1 E) as
      [(e & Se)|(S' & Str & Th & Tf & Kl & Lg & Ctx & cert & y & key & Ct & Bcert & Pr & X & V & K & Sb & Ck)].
    { unfold flow. rewrite Se. exact I. }
    unfold flow. rewrite S'. exists x, (more ++ [rec]), ca, cax, key, rec, content, cert, y.
    split; [rewrite Er; reflexivity|]. split; [rewrite without_snoc, Ew, C; reflexivity|]. split; [exact Ca|]. split; [exact G|].
    split.
    { unfold live. rewrite Str, Kl, Lg, Ctx, Ca. split; [exact O1|]. split; [rewrite th_update_app; exact Th|].
      split; [apply is_bytes_app; auto|]. split; [destruct L as (_ & _ & _ & L & _); rewrite zlen_app; lia|]. split; [lia|].
      split; [exact Cx1|]. split; [exact Kl1|]. split; [exact Lg1|]. exact Lp1. }
    split; [exact Tf|]. split; [exact Op|]. auto 12.
  - (* CertificateVerify *)
    destruct F as (x & more & ca & cax & key & r1 & m1 & cert & y & Er & Ew & Ca & G & L & Tf0 & F1 & Ct & Bcert & Pr & X & V & Cx & K & Sb & Ck).
    destruct (live_decrypt _ _ _ _ _ _ _ _ _ _ _ _ G L ltac:(lia) W P D ltac:(discriminate)) as (Op & Bc & Lc & L1).
    pose proof L1 as (O1 & Th1 & Bm1 & Lm1 & _ & Cx1 & Kl1 & Lg1 & Lp1).
    destruct (cv_step h1 content h' u _ _ cert y Bc Ct Bcert X Th1 Bm1 ltac:(lia) E) as
      [(e & Se)|(S' & Str & Th & Tf & Kl & Lg & Ctx & PP)].
    { unfold flow. rewrite Se. exact I. }
    unfold flow. rewrite S'. exists x, (more ++ [rec]), [r1; rec], (gr_msgs cfg d x ++ m1 ++ content).
    split; [rewrite Er; reflexivity|]. split; [rewrite without_snoc, Ew, C; reflexivity|]. split; [exact G|].
    assert (EA : g_alg (gr_g x) = Proofs.Hmac.alg_of (gr_hash x)) by (destruct G as (_ & _ & _ & _ & _ & (EA & _) & _); exact EA).
    split.
    { unfold authed. rewrite Ca. exists r1, rec, m1, content, cax, key. do 6 (split; [first [reflexivity|assumption]|]).
      exists cert, y. do 5 (split; [assumption|]). rewrite EA. exact PP. }
    rewrite app_assoc. split.
    { unfold live. rewrite Str, Kl, Lg, Ctx. split; [exact O1|]. split; [exact Th|].
      split; [apply is_bytes_app; auto|]. split; [destruct L as (_ & _ & _ & L & _); rewrite zlen_app; change (zlen [r1; rec]) with 2; lia|].
      split; [change (zlen [r1; rec]) with 2; lia|].
      split; [exact Cx1|]. split; [exact Kl1|]. split; [exact Lg1|]. exact Lp1. }
    rewrite Tf. unfold h1. cbn [with_protection with_stream sv_th_finished]. rewrite Tf0. reflexivity.
  - (* Finished *)
    destruct F as (x & more & used & msgs & Er & Ew & G & Au & L & Tf0).
    assert (Lu : zlen used <= 2).
    { unfold authed in Au. destruct (sc_client_ca cfg); [destruct Au as (r1 & r2 & m1 & m2 & cax & key & -> & _)|destruct Au as (-> & _)]; unfold zlen; cbn; lia. }
    destruct (live_decrypt _ _ _ _ _ _ _ _ _ _ _ _ G L Lu W P D ltac:(discriminate)) as (Op & Bc & Lc & L1).
    pose proof L1 as (O1 & Th1 & Bm1 & Lm1 & _ & Cx1 & Kl1 & Lg1 & q & Pq & Kq & Cq & Aq & Sq & Pk). 
    pose proof G as (_ & _ & _ & Bd & Ld & S & _). destruct (to_finished_ok _ cfg d _ _ S Ok' Bd Ld) as (Bb & Lb).
    destruct (fin_step h1 content h' u _ _ q msgs (gr_msgs cfg d x) Bc Sh Pq Kq Th1 Bm1 ltac:(lia) Tf0 Bb ltac:(unfold gr_msgs; lia) E) as
      ((extra & Em) & S' & pf & Gk & Str & C' & Ci & Ap & K1 & K2 & Lg').
    unfold flow. rewrite S'. exists x, (more ++ [rec]), used, msgs, rec, extra, [], pf.
    split; [rewrite Er; reflexivity|]. split; [rewrite without_snoc, Ew, C; reflexivity|]. split; [exact G|]. split; [exact Au|].
    split; [rewrite <- Em; exact Op|]. split; [rewrite Str; exact O1|]. split; [rewrite Str; reflexivity|]. split; [congruence|].
    do 4 (split; [assumption|]). rewrite Lg'; unfold h1; rewrite Lg1, Kl1. reflexivity.
Qed.

Lemma flow_ignored cfg d now so h rec recs : 
  (is_ccs rec = true /\ sv_state h <> SvClientHello) \/ sv_state h = SvReady ->
  flow cfg d now so h recs -> flow cfg d now so h (recs ++ [rec]).
Proof.
  intros HC F. unfold flow in *.
  assert (WS : is_ccs rec = true -> forall l, without_ccs (l ++ [rec]) = without_ccs l)
    by (intros C l; rewrite without_snoc, C; apply app_nil_r).
  destruct (sv_state h).
  - destruct HC as [(_ & N)|N]; congruence.
  - destruct HC as [(C & _)|N]; [|discriminate]. destruct F as (x & more & ca & -> & Ew & F).
    exists x, (more ++ [rec]), ca. split; [reflexivity|]. rewrite WS by exact C. auto.
  - destruct HC as [(C & _)|N]; [|discriminate]. destruct F as (x & more & ca & cax & key & r1 & m1 & cert & y & -> & Ew & F).
    exists x, (more ++ [rec]), ca, cax, key, r1, m1, cert, y. split; [reflexivity|]. rewrite WS by exact C. auto.
  - destruct HC as [(C & _)|N]; [|discriminate]. destruct F as (x & more & used & msgs & -> & Ew & F).
    exists x, (more ++ [rec]), used, msgs. split; [reflexivity|]. rewrite WS by exact C. auto.
  - exact I.
  - destruct F as (x & more & used & msgs & rf & extra & ignored & p & -> & Ew & F).
    exists x, (more ++ [rec]), used, msgs, rf, extra, (ignored ++ (if is_ccs rec then [] else [rec])), p. split; [reflexivity|].
    split; [rewrite without_snoc, Ew, <- app_assoc; reflexivity|exact F].
Qed.
Lemma fin_error_stays h m h' u e : sv_state h = SvFinishWithError e -> handle_client_finish h m = (h', Ok u) -> sv_state h' = SvFinishWithError e.
Proof.
  Local Transparent handle_client_finish.
  intros St E. unfold handle_client_finish in E. sinv E hs0 E0. destruct (negb _).
  - rewrite St in E. sinv E t1 E1. injection E as <- _. exact St.
  - sinv E p E1. sinv E t1 E2. sinv E vd E3. destruct (negb _); [discriminate|].
    destruct (generate_application_keys _ _) as [p' r]. sinv E w E4.
    set (h1 := with_protection h (Some p')) in *.
    assert (SS : sv_state (match sv_keylog h1 with Some k => append_log h1 (append_from_protection k p') | None => h1 end) = SvFinishWithError e)
      by (destruct (sv_keylog h1); exact St).
    rewrite SS in E. discriminate.
Qed.
Lemma error_stays cfg now h rec h' u e : sv_state h = SvFinishWithError e -> 
  handle_handshake_encrypted_record cfg now h rec = (h', Ok u) -> sv_state h' = SvFinishWithError e.
Proof.
  intros St E. unfold handle_handshake_encrypted_record in E. sinv E p E1. destruct (rpp_decrypt p rec) as [p' r]. sinv E tc E2.
  destruct tc as [t content]. destruct t; try discriminate; [sinv E code E3; discriminate|].
  set (h1 := with_protection h (Some p')) in *. destruct (match sc_client_ca cfg, sv_context h1 with Some _, None => true | _, _ => false end); [discriminate|].
  assert (S1 : sv_state h1 = SvFinishWithError e) by exact St. rewrite S1 in E. exact (fin_error_stays _ _ _ _ _ S1 E).
Qed.

Lemma record_flow cfg d now so h rec h' u recs : server_ok cfg d -> wellformed rec -> flow cfg d now so h recs ->
  handle_handshake_record cfg d now h rec = (h', Ok u) -> flow cfg d now so h' (recs ++ [rec]).
Proof.
  intros Ok' W F E. unfold handle_handshake_record in E.
  assert (ENC : is_ccs rec = false ->
    match sv_state h with SvClientHello => match r_type rec with RHandshake => handle_client_hello cfg d h rec | _ => (h, Err UnexpectedMessage) end
      | SvReady => (h, Ok tt) | _ => handle_handshake_encrypted_record cfg now h rec end = (h', Ok u) -> flow cfg d now so h' (recs ++ [rec])).
  { intros C E1. destruct (sv_state h) eqn:St.
    - assert (recs = []) as -> by (unfold flow in F; rewrite St in F; apply F).
      destruct (r_type rec) eqn:T; try discriminate. eapply hello_flow; eassumption.
    - eapply encrypted_flow; try eassumption. now rewrite St.
    - eapply encrypted_flow; try eassumption. now rewrite St.
    - eapply encrypted_flow; try eassumption. now rewrite St.
    - unfold flow. rewrite (error_stays _ _ _ _ _ _ _ St E1). exact I.
    - injection E1 as <- _. apply flow_ignored; auto. }
  destruct (r_type rec) eqn:T; try (apply ENC; [unfold is_ccs; now rewrite T|exact E]).
  - assert (C : is_ccs rec = true) by (unfold is_ccs; now rewrite T).
    destruct (sv_state h) eqn:St; try discriminate; injection E as <- _; apply flow_ignored; try assumption; left; (split; [exact C|congruence]).
  - sinv E code E1. discriminate.
Qed.

(* the records of one read *)
Lemma parsed buf n rec : is_bytes buf -> record_from_raw buf = Ok (n, rec) ->
  wellformed rec /\ firstn n buf = wire rec /\ record_from_raw (wire rec) = Ok (length (wire rec), rec) /\ (0 < n)%nat.
Proof.
  intros B E. destruct (from_raw_ok _ _ _ B E) as (Hh & Hn & Hl & Hf & Lf & Hv & Ht).
  assert (L5 : length (r_header rec) = 5%nat) by (rewrite Hh, firstn_length; lia).
  assert (EW : firstn n buf = wire rec).
  { unfold wire. rewrite Hh, Hf. replace n with (5 + (n - 5))%nat at 1 by lia.
    rewrite <- (firstn_skipn 5 buf) at 1. rewrite firstn_app. rewrite firstn_length.
    replace (Nat.min 5 (length buf)) with 5%nat by lia. replace (5 + (n - 5) - 5)%nat with (n - 5)%nat by lia.
    f_equal. rewrite firstn_firstn. f_equal. lia. }
  split.
  { unfold wellformed. split; [rewrite Hh; now apply is_bytes_firstn|]. split; [exact L5|].
    split; [rewrite Hf; apply is_bytes_firstn, is_bytes_skipn; exact B|exact Lf]. }
  split; [exact EW|]. split; [|lia].
  assert (Lw : length (wire rec) = n) by (unfold wire; rewrite app_length; lia). rewrite Lw, <- EW.
  clear Lw EW Hh Hf Hv Ht Lf L5. destruct buf as [|t [|v1 [|v2 [|h [|l rest]]]]]; cbn [length] in Hl; try lia.
  destruct n as [|[|[|[|[|n]]]]]; try lia. cbn [firstn].
  Local Transparent record_from_raw. unfold record_from_raw in E. cbn [length Nat.ltb Nat.leb idx nth_error unwrap] in E. rewrite bind_Ok in E.
  Local Opaque record_from_raw.
  destruct (rt_new t) as [ty|e|] eqn:T; try discriminate.
  assert (EQ : record_from_raw (t :: v1 :: v2 :: h :: l :: rest) = Ok (S (S (S (S (S n)))), rec)).
  { Local Transparent record_from_raw. unfold record_from_raw. cbn [length Nat.ltb Nat.leb idx nth_error unwrap]. rewrite bind_Ok, T. exact E. Local Opaque record_from_raw. }
  rewrite (from_raw_eq _ _ _ _ _ _ ty T) in EQ. rewrite (from_raw_eq _ _ _ _ _ _ ty T). cbv zeta in *.
  set (len := Z.to_nat (Z.lor (Z.shiftl h 8) l)) in *. rewrite firstn_length.
  destruct (Nat.ltb_spec (3 + length rest) len); [discriminate|]. destruct (Nat.ltb_spec (length rest) len); [discriminate|].
  apply Ok_inj in EQ. injection EQ as En Er. assert (n = len) by lia. subst n.
  destruct (Nat.ltb_spec (3 + Nat.min len (length rest)) len); [lia|]. destruct (Nat.ltb_spec (Nat.min len (length rest)) len); [lia|].
  rewrite firstn_firstn, Nat.min_id. rewrite <- Er. reflexivity.
Qed.

Lemma received_nil : received [] [].
Proof. split; [reflexivity|constructor]. Qed.
Lemma received_app a b r s : received a r -> received b s -> received (a ++ b) (r ++ s).
Proof.
  intros (E1 & F1) (E2 & F2). split; [rewrite map_app, concat_app; congruence|apply Forall_app; auto].
Qed.
Lemma records_flow cfg d now so fuel : forall h buf h' u recs, server_ok cfg d -> is_bytes buf -> flow cfg d now so h recs ->
  server_records fuel cfg d now h buf = (h', Ok u) -> exists new, received buf new /\ flow cfg d now so h' (recs ++ new).
Proof.
  induction fuel as [|fuel IH]; intros h buf h' u recs Ok' B F E.
  - destruct buf; [|discriminate]. injection E as <- _. exists []. rewrite app_nil_r. split; [exact received_nil|exact F].
  - destruct buf as [|b buf]; [injection E as <- _; exists []; rewrite app_nil_r; split; [exact received_nil|exact F]|].
    cbn [server_records] in E. remember (b :: buf) as bs eqn:Eb. clear Eb b buf.
    sinv E cr E1. destruct cr as [n rec]. cbn [fst snd] in E. destruct (parsed _ _ _ B E1) as (W & Ew & Er & Hn).
    apply sbind_ok in E. destruct E as (h1 & u1 & E2 & E3).
    destruct (IH _ _ _ _ (recs ++ [rec]) Ok' (is_bytes_skipn _ _ B) (record_flow _ _ _ _ _ _ _ _ _ Ok' W F E2) E3) as (new & R & F').
    exists ([rec] ++ new). rewrite <- app_assoc in F'. split; [|exact F'].
    rewrite <- (firstn_skipn n bs). apply received_app; [|exact R]. split; [cbn; rewrite app_nil_r; exact Ew|constructor; [exact Er|constructor]].
Qed.
Lemma flow_stream cfg d now so h s recs : out s = out (sv_stream h) -> st_protection s = st_protection (sv_stream h) ->
  flow cfg d now so h recs -> flow cfg d now so (with_stream h s) recs.
Proof.
  intros O P F. unfold flow, live, done in *. destruct h as [st state kl lg ct cx th tf]. cbn [with_stream sv_state sv_stream sv_keylog sv_log sv_cert sv_context sv_th sv_th_finished] in *.
  rewrite O, P. destruct state; try exact F. destruct F as (F1 & F2 & F3). split; [exact F1|]. split; [|exact F3].
  injection F2 as -> -> -> -> -> ->. reflexivity.
Qed.
Lemma handshake_flow cfg d now so : forall reads h h' recs, server_ok cfg d -> Forall is_bytes reads -> flow cfg d now so h recs ->
  (sv_state h = SvReady -> st_buffer (sv_stream h) = []) ->
  server_do_handshake cfg d now h reads = (h', Some (Ok tt)) ->
  sv_state h' = SvReady /\ st_buffer (sv_stream h') = [] /\
  exists taken rest new, reads = taken ++ rest /\ received (concat taken) new /\ flow cfg d now so h' (recs ++ new).
Proof.
  induction reads as [|chunk reads IH]; intros h h' recs Ok' B F Bf E.
  - cbn [server_do_handshake] in E. destruct (sv_state h) eqn:St; try discriminate. injection E as <-.
    split; [exact St|]. split; [auto|]. exists [], [], []. rewrite (app_nil_r recs). split; [reflexivity|]. split; [exact received_nil|exact F].
  - cbn [server_do_handshake] in E.
    assert (RD : sv_state h = SvReady \/ match (let@ (h, rx) := (h, tcp_read chunk) in let@ (h, _) := server_records (length rx) cfg d now h rx in sv_flush h) with
          | (h, Ok _) => server_do_handshake cfg d now h reads
          | (h, o) => (h, Some o)
          end = (h', Some (Ok tt))) by (destruct (sv_state h); auto).
    destruct RD as [St|E'].
    + rewrite St in E. injection E as <-. split; [exact St|]. split; [auto|]. exists [], (chunk :: reads), []. rewrite (app_nil_r recs).
      split; [reflexivity|]. split; [exact received_nil|exact F].
    + clear E. rename E' into E.
      destruct (let@ (h, rx) := (h, tcp_read chunk) in let@ (h, _) := server_records (length rx) cfg d now h rx in sv_flush h) as [h2 o] eqn:E1.
      destruct o as [u|e|]; [|discriminate|discriminate].
      sinv E1 rx E2. assert (rx = chunk) as -> by (destruct chunk; [discriminate|now injection E2 as <-]).
      apply sbind_ok in E1. destruct E1 as (h1 & u1 & E3 & E4). inversion B as [|? ? Bc Br]; subst.
      destruct (records_flow _ _ _ _ _ _ _ _ _ _ Ok' Bc F E3) as (new & R & F1).
      unfold sv_flush in E4. destruct (flush (sv_stream h1)) as [s r] eqn:Fl. injection E4 as <- ->.
      destruct (flush_cases (sv_stream h1)) as [(so' & FC & Sent & _)|(so' & rs & FC & _)]; rewrite FC in Fl; [|discriminate].
      injection Fl as <- <-.
      assert (F2 : flow cfg d now so (with_stream h1 {| st_sock := so'; st_protection := st_protection (sv_stream h1); st_buffer := [] |}) (recs ++ new)).
      { apply flow_stream; [|reflexivity|exact F1]. unfold out. cbn [st_sock st_buffer]. rewrite app_nil_r. exact Sent. }
      destruct (IH _ _ _ Ok' Br F2 ltac:(reflexivity) E) as (S' & B' & taken & rest & new2 & -> & R2 & F3).
      split; [exact S'|]. split; [exact B'|]. exists (chunk :: taken), rest, (new ++ new2). split; [reflexivity|].
      rewrite app_assoc. split; [|exact F3]. cbn [concat]. now apply received_app.
Qed.
Lemma accept_done cfg d now so reads h : server_ok cfg d -> Forall is_bytes reads -> accept cfg d now so reads = (h, Some (Ok tt)) ->
  st_buffer (sv_stream h) = [] /\
  exists taken rest recs, reads = taken ++ rest /\ received (concat taken) recs /\ done cfg d now so h recs.
Proof.
  intros Ok' B E. unfold accept in E. destruct (server_do_handshake cfg d now (server_new so) reads) as [h1 o] eqn:E1.
  assert (E2 : o = Some (Ok tt) /\ h1 = h).
  { destruct o as [[u|e|]|]; try (injection E as <- <-; auto; fail); try discriminate.
    unfold report_error in E. destruct (if is_official e then _ else _) as [s1 [w|e1|]]; cbn [sbind] in E; injection E as _ E; discriminate. }
  destruct E2 as (-> & ->).
  assert (F0 : flow cfg d now so (server_new so) []).
  { unfold flow. cbn. split; [reflexivity|]. split; [reflexivity|]. split; [reflexivity|]. unfold out. cbn. apply app_nil_r. }
  destruct (handshake_flow _ _ _ _ _ _ _ _ Ok' B F0 ltac:(discriminate) E1) as (S & Bf & taken & rest & new & -> & R & F).
  split; [exact Bf|]. exists taken, rest, new. split; [reflexivity|]. split; [exact R|]. unfold flow in F. rewrite S in F. exact F.
Qed.

(* ---- what the server sends ---- *)
Lemma sealed_record c k inner w : sealed c k inner w -> zlen inner + 16 < 2^16 ->
  exists rec, record_from_raw w = Ok (length w, rec) /\ wire rec = w /\ r_type rec = RApplicationData /\
    r_header rec = rec_header (zlen inner + 16) /\
    exists e t, r_fragment rec = e ++ t /\ length t = 16%nat /\
      t = aead_tag_of (c_aead c) (k_key k) (record_nonce (k_iv k) (k_seq k)) (rec_header (zlen inner + 16)) e /\
      cipher_decrypt c (k_key k) (record_nonce (k_iv k) (k_seq k)) e (rec_header (zlen inner + 16)) t = Ok inner.
Proof.
  intros (e & t & E & Le & Lt & Be & Et & D & ->) Hl.
  assert (zlen (e ++ t) = zlen inner + 16) as Lz by (rewrite zlen_app; unfold zlen; lia).
  destruct (record_round_trip RApplicationData (e ++ t) [] ltac:(lia)) as (rec & P & T & F & _ & _ & Hh).
  rewrite app_nil_r in P.
  rewrite as_bytes_spec in P, Hh by (cbn [record_new r_fragment]; lia). cbn [record_new r_fragment r_type rt_code] in P, Hh.
  assert (Hr : r_header rec = rec_header (zlen inner + 16)).
  { rewrite Hh. unfold encode_record, rec_header. rewrite app_assoc. rewrite firstn_app_eq by reflexivity. do 2 f_equal. exact Lz. }
  exists rec. split; [rewrite P; reflexivity|]. split.
  { unfold wire. rewrite Hr, F. unfold rec_header, encode_record. rewrite <- app_assoc. do 3 f_equal. symmetry. exact Lz. }
  split; [exact T|]. split; [exact Hr|]. exists e, t. auto.
Qed.
Lemma tag_bytes c key nonce aad e : good_cipher c -> is_bytes key -> length key = fst (key_iv_len (cipher_get_suite c)) ->
  is_bytes (aead_tag_of (c_aead c) key nonce aad e).
Proof.
  intros Hc Hk Lk. destruct c as [s|].
  - apply good_cipher_gcm in Hc. cbn [cipher_get_suite] in Lk.
    assert (length key = 16 \/ length key = 24 \/ length key = 32)%nat as K by (destruct Hc as [-> | ->]; cbn in Lk; lia).
    destruct (Proofs.Gcm.blocksize_of key K) as (bs & _ & Hl & Nk).
    cbn [c_aead aead_tag_of]. change (length key / 4)%nat with (Proofs.Gcm.nk_of key).
    unfold Sp80038d.tag. rewrite <- Nk. apply Proofs.Gcm.GCTR_bytes; [assumption..|]. apply be_enc_bytes.
  - cbn [c_aead aead_tag_of]. unfold Rfc8439.aead_tag, Rfc8439.poly1305_mac. apply le_enc_bytes.
Qed.
Lemma enc_all_carried H g secret ms : forall p n q ws, keyed H g p -> rp_application p = None ->
  side_key (rp_is_client p) (cur_keys p) = key_at (Connection.traffic_key g secret) n ->
  good_key (cipher_get_suite (g_cipher g)) (Connection.traffic_key g secret) -> 0 <= n -> n + zlen ms < 2^64 ->
  Forall is_bytes ms -> Forall (fun m => zlen m + 17 < 2^16) ms -> enc_all p ms = Some (q, ws) ->
  exists recs, ws = map wire recs /\ Forall (fun r => record_from_raw (wire r) = Ok (length (wire r), r)) recs /\
    length recs = length ms /\
    (forall i m r, nth_error ms i = Some m -> nth_error recs i = Some r ->
       opened (g_cipher g) (g_alg g) (g_klen g) secret (n + Z.of_nat i) RHandshake m r) /\
    side_key (rp_is_client p) (cur_keys q) = key_at (Connection.traffic_key g secret) (n + zlen ms) /\
    Forall (fun r => is_bytes (wire r) /\ r_type r = RApplicationData) recs /\ zlen (concat ws) = zlen (concat ms) + 22 * zlen ms.
Proof.
  induction ms as [|m ms IH]; intros p n q ws K A Sk Gk H0 H1 B L E.
  - cbn [enc_all] in E. injection E as <- <-. exists []. split; [reflexivity|]. split; [constructor|]. split; [reflexivity|].
    split; [intros i m r X; destruct i; discriminate|]. split; [rewrite Sk; f_equal; unfold zlen; cbn; lia|]. split; [constructor|reflexivity].
  - cbn [enc_all] in E. inversion B as [|? ? Bm Bms]; subst. inversion L as [|? ? Lm Lms]; subst.
    assert (zlen (m :: ms) = zlen ms + 1) as Lz by (unfold zlen; cbn [length]; lia). pose proof (zlen_nonneg ms).
    pose proof K as (S & Hc & Hs). pose proof S as (_ & Gc & _).
    assert (KR : key_ready (rp_cipher p) (side_key (rp_is_client p) (cur_keys p))).
    { rewrite Sk, Hc. split; [exact Gk|]. cbn [key_at k_seq]. lia. }
    destruct (encrypt_sealed p RHandshake m KR ltac:(rewrite Hc; exact Gc) Bm Lm) as (w & Ew & Sw).
    rewrite Ew in E. destruct (enc_all _ ms) as [[q1 ws1]|] eqn:E1; [|discriminate]. injection E as <- <-.
    set (p' := set_keys p (set_side (rp_is_client p) (cur_keys p) (next_key (side_key (rp_is_client p) (cur_keys p))))) in *.
    assert (Ic : rp_is_client p' = rp_is_client p) by apply set_keys_side.
    destruct (encrypt_same _ _ _ _ Ew) as (M1 & M2 & M3 & M4 & M5). fold p' in M1, M2, M3, M4, M5.
    destruct (IH p' (n + 1) q1 ws1) as (recs & Er & Fr & Lr & Or & Kr & Ar & Zr); try assumption; try lia.
    { unfold keyed. rewrite M1, M2. exact K. } { auto. }
    { rewrite Ic. unfold p'. rewrite cur_set_keys, side_set_same, Sk. reflexivity. }
    assert (Li : zlen (m ++ [rt_code RHandshake]) + 16 < 2^16) by (rewrite zlen_app; unfold zlen in *; cbn [length]; lia).
    destruct (sealed_record _ _ _ _ Sw Li) as (rec & Pr & Wr & Tr & Hr & e & t & Fg & Lt & Et & D).
    exists (rec :: recs). split; [cbn [map]; congruence|]. split; [constructor; [rewrite Wr; exact Pr|exact Fr]|].
    split; [cbn [length]; lia|]. split; [|split; [rewrite Ic in Kr; rewrite Kr; f_equal; lia|]].
    2:{ destruct Sw as (e' & t' & _ & Le' & Lt' & Be & Et' & _ & Ew'). split.
      - constructor; [|exact Ar]. split; [|exact Tr]. rewrite Wr, Ew'.
        assert (Bt : is_bytes t') by (rewrite Et', Sk, Hc; apply tag_bytes; [exact Gc|apply Gk|apply Gk]).
        unfold encode_record. repeat first [assumption | apply be_enc_bytes | solve [apply is_bytes_check; reflexivity] | apply is_bytes_app; split].
      - cbn [concat]. rewrite !zlen_app, Zr, Ew'. unfold encode_record, zlen in *. rewrite !app_length, be_enc_length. rewrite app_length in Le'. cbn [length] in *. lia. }
    intros i m' r Hm Hrr. destruct i as [|i].
    + cbn [nth_error] in Hm, Hrr. injection Hm as <-. injection Hrr as <-. exists e, t, 0%nat. split; [exact Fg|]. cbv zeta.
      rewrite Sk, Hc in Et, D. cbn [key_at k_key k_iv k_seq Connection.traffic_key] in Et, D. rewrite Z.add_0_r.
      cbn [repeat]. rewrite app_nil_r, Hr. split; [exact Et|exact D].
    + cbn [nth_error] in Hm, Hrr. replace (n + Z.of_nat (Datatypes.S i)) with (n + 1 + Z.of_nat i) by lia. exact (Or i m' r Hm Hrr).
Qed.

Lemma flight_sizes H cfg d g der : server_ok cfg d -> suited H g -> is_bytes der -> (length der <= 72)%nat -> zlen (ct_raw (sc_cert cfg)) < 2^16 - 64 ->
  Forall (fun m => is_bytes m /\ zlen m + 17 < 2^16) (server_flight cfg d g der).
Proof.
  intros Ok' S Bd Ld Lcert. pose proof Ok' as (_ & Bcert & _ & _ & _ & Bctx & Lctx & _).
  Local Transparent server_flight. unfold server_flight, before_finished, before_verify. Local Opaque server_flight.
    destruct (before_finished_ok cfg d der Ok' Bd Ld) as (Bb & Lb).
    pose proof S as (EA & _ & _ & Bh & Lh & _). destruct (suited_schedule _ _ S) as (_ & _ & (Bs & Ls) & _).
    assert (V : is_bytes (verify_data g (server_secret g) (g_hellos g ++ concat (before_finished cfg d der))) /\
      length (verify_data g (server_secret g) (g_hellos g ++ concat (before_finished cfg d der))) = hash_len H).
    { unfold verify_data. rewrite EA.
      destruct (Auth.finished_data H (server_secret g) (g_hellos g ++ concat (before_finished cfg d der))) as (_ & V1 & V2); auto.
      - apply is_bytes_app; auto.
      - rewrite zlen_app. lia. }
    fold (before_verify cfg d). fold (before_finished cfg d der).
    assert (HM : forall t b, is_byte t -> is_bytes b -> zlen b < 2^16 - 21 -> is_bytes (Rfc8446Hello.handshake t b) /\ zlen (Rfc8446Hello.handshake t b) + 17 < 2^16).
    { intros t b Bt Bb' Lb'. split; [now apply is_bytes_handshake|]. unfold zlen in *. rewrite handshake_length. lia. }
    assert (BV : Forall (fun m => is_bytes m /\ zlen m + 17 < 2^16) (before_verify cfg d)).
    { unfold before_verify. apply Forall_app. split; [constructor; [|constructor]|].
      - apply HM; [unfold is_byte; lia|apply is_bytes_check; reflexivity|reflexivity].
      - apply Forall_app. split.
        + unfold request. destruct (sc_client_ca cfg); [|constructor]. constructor; [|constructor].
          apply HM; [unfold is_byte; lia| |].
          * unfold Rfc8446Hello.certificate_request_wire, Rfc8446Hello.vector8.
            repeat first [assumption | apply be_enc_bytes | solve [apply is_bytes_check; reflexivity] | apply is_bytes_app; split].
          * unfold Rfc8446Hello.certificate_request_wire, Rfc8446Hello.vector8. unfold zlen. rewrite !app_length, be_enc_length, Lctx. cbn [length]. cbn. lia.
        + constructor; [|constructor]. apply HM; [unfold is_byte; lia| |].
          * unfold Rfc8446Hello.certificate_wire, Rfc8446Hello.vector24, Rfc8446Hello.vector8, Rfc8446Hello.vector16.
            repeat first [assumption | apply be_enc_bytes | solve [apply is_bytes_check; reflexivity] | apply is_bytes_app; split].
          * unfold Rfc8446Hello.certificate_wire, Rfc8446Hello.vector24, Rfc8446Hello.vector8, Rfc8446Hello.vector16.
            unfold zlen in *. rewrite !app_length, !be_enc_length. cbn [length]. lia. }
    apply Forall_app. split.
    - unfold before_finished. apply Forall_app. split; [exact BV|]. constructor; [|constructor].
      apply HM; [unfold is_byte; lia| |].
      + unfold Rfc8446Hello.certificate_verify_wire, Rfc8446Hello.vector16, Rfc8446Hello.u16.
        repeat first [assumption | apply be_enc_bytes | solve [apply is_bytes_check; reflexivity] | apply is_bytes_app; split].
      + unfold Rfc8446Hello.certificate_verify_wire, Rfc8446Hello.vector16, Rfc8446Hello.u16, zlen. rewrite !app_length, !be_enc_length. lia.
    - constructor; [|constructor]. destruct V as (V1 & V2). pose proof (hash_len_le H).
      apply HM; [unfold is_byte; lia|exact V1|unfold zlen; lia].
Qed.
Lemma flight_carried cfg d x : server_ok cfg d -> greeted cfg d x -> zlen (ct_raw (sc_cert cfg)) < 2^16 - 64 ->
  exists recs, gr_ws x = map wire recs /\ received (concat (gr_ws x)) recs /\ carry (gr_g x) (server_flight cfg d (gr_g x) (gr_der x)) recs /\
    Forall (fun r => whole r /\ r_type r = RApplicationData) recs /\
    zlen (concat (gr_ws x)) = zlen (concat (server_flight cfg d (gr_g x) (gr_der x))) + 22 * zlen (server_flight cfg d (gr_g x) (gr_der x)).
Proof.
  intros Ok' G Lcert. destruct (greeted_keys _ _ _ G) as (G1 & G2 & Hk). destruct G as (_ & _ & _ & Bd & Ld & S & N & En).
  pose proof Ok' as (_ & Bcert & _ & _ & _ & Bctx & Lctx & _).
  destruct (rpp_new_shape _ _ _ _ N) as (N1 & N2 & N3 & N4).
  pose proof (flight_sizes _ cfg d _ _ Ok' S Bd Ld Lcert) as FB.
  assert (F1 : Forall is_bytes (server_flight cfg d (gr_g x) (gr_der x))) by (eapply Forall_impl; [|exact FB]; cbn; tauto).
  assert (F2 : Forall (fun m => zlen m + 17 < 2^16) (server_flight cfg d (gr_g x) (gr_der x))) by (eapply Forall_impl; [|exact FB]; cbn; tauto).
  assert (L9 : zlen (server_flight cfg d (gr_g x) (gr_der x)) <= 5).
  { Local Transparent server_flight. unfold server_flight, before_finished, before_verify, request, zlen. Local Opaque server_flight. rewrite !app_length. cbn [length].
    destruct (sc_client_ca cfg); cbn [length]; lia. }
  assert (L10 : 0 + zlen (server_flight cfg d (gr_g x) (gr_der x)) < 2^64) by lia.
  assert (K0 : keyed (gr_hash x) (gr_g x) (gr_p0 x)) by (unfold keyed; auto).
  assert (Sk : side_key (rp_is_client (gr_p0 x)) (cur_keys (gr_p0 x)) = key_at (Connection.traffic_key (gr_g x) (server_secret (gr_g x))) 0)
    by (rewrite N3; unfold cur_keys; rewrite N4, Hk; reflexivity).
  destruct (enc_all_carried _ _ _ _ _ _ _ _ K0 N4 Sk G2 (Z.le_refl 0) L10 F1 F2 En) as (recs & Er & Fr & Lr & Or & _ & Ar & Zr).
  exists recs. split; [exact Er|]. split; [split; [now rewrite Er|exact Fr]|]. split; [exact (conj Lr Or)|]. split; [|exact Zr].
  rewrite Forall_forall in *. intros r Hr. destruct (Ar r Hr) as (Br & Tr). exact (conj (conj (Fr r Hr) Br) Tr).
Qed.
