(* A client and a server with the same application traffic secret saw the same handshake *)
From Coq Require Import Lia.
From Verif Require Import Proofs.Util Proofs.Bytes Model.Alert Model.Bytes Model.Suite Model.Sha2 Model.KeySchedule Model.Record Model.X509
  Model.Extensions Model.Hello Model.Kex Model.Handshake Model.Certificate Model.Stream Model.Server Model.Client
  Spec.Enc Spec.Rfc2104 Spec.Rfc8446Keys Spec.Rfc8446Auth Spec.Tls13Record Spec.Endpoints Spec.Connection Spec.ClientConnection
  Spec.Agreement Spec.SameView.
From Verif Require Spec.Rfc8446Hello.
From Verif Require Import Proofs.KeySchedule Proofs.ServerKeys Proofs.Opened Proofs.ServerFlow Proofs.ClientSteps Proofs.ClientFlow Proofs.ClientRun Proofs.Agreement.
From Verif Require Proofs.Hmac Proofs.Loopback Proofs.HelloTotal Proofs.ServerAccept.

Local Opaque X509.get_public_key x509_from_raw handshake_from_raw client_hello_from_raw server_hello_from_raw.

(* ---- frames ---- *)
Lemma frame_inj t b r t' b' r' : zlen b < 2^24 -> zlen b' < 2^24 -> Rfc8446Hello.handshake t b ++ r = Rfc8446Hello.handshake t' b' ++ r' ->
  t = t' /\ b = b' /\ r = r'.
Proof.
  intros L L' E. unfold Rfc8446Hello.handshake, Rfc8446Hello.vector24 in E. rewrite <- !app_assoc in E.
  apply (app_len_inj [t] _ [t'] _ eq_refl) in E. destruct E as (Et & E). assert (t = t') by congruence. apply app_len_inj in E; [|now rewrite !be_enc_length]. destruct E as (El & E).
  apply (f_equal be_val) in El. rewrite !be_val_enc in El. change (256 ^ Z.of_nat 3) with (2^24) in El. unfold zlen in *.
  rewrite !Z.mod_small in El by lia. apply app_len_inj in E; [|lia]. tauto.
Qed.
Lemma frame_short t b r n : zlen (Rfc8446Hello.handshake t b ++ r) <= n -> zlen b <= n.
Proof. rewrite zlen_app. unfold Rfc8446Hello.handshake, Rfc8446Hello.vector24. rewrite !zlen_app. pose proof (zlen_nonneg r). pose proof (zlen_nonneg [t]). pose proof (zlen_nonneg (be_enc 3 (Z.of_nat (length b)))). lia. Qed.
Lemma vector_inj n a r a' r' : zlen a < 256 ^ Z.of_nat n -> zlen a' < 256 ^ Z.of_nat n ->
  be_enc n (Z.of_nat (length a)) ++ a ++ r = be_enc n (Z.of_nat (length a')) ++ a' ++ r' -> a = a' /\ r = r'.
Proof.
  intros L L' E. apply app_len_inj in E; [|now rewrite !be_enc_length]. destruct E as (El & E).
  apply (f_equal be_val) in El. rewrite !be_val_enc in El. unfold zlen in *. rewrite !Z.mod_small in El by lia. apply app_len_inj in E; [|lia]. exact E.
Qed.

(* ---- the suite in the ServerHello ---- *)
Lemma suite_read {E} sh0 body sh : length (sh_random sh0) = 32%nat -> (forall s, sh_sid sh0 = Some s -> length s = 32%nat) ->
  server_hello_bytes (E:=E) sh0 = Ok body -> server_hello_from_raw body = Ok sh -> sh_suite sh = sh_suite sh0.
Proof.
  intros Lr Ls Hb H. unfold server_hello_bytes in Hb. apply bind_ok in Hb. destruct Hb as (exts & _ & Hb). apply Ok_inj in Hb.
  set (code := suite_u16 (sh_suite sh0)) in *.
  assert (Hc : suite_new (Z.lor (u16 (Z.shiftl (hi code) 8)) (lo code)) = Ok (sh_suite sh0)) by (unfold code; destruct (sh_suite sh0); reflexivity).
  Local Transparent server_hello_from_raw. unfold server_hello_from_raw in H. Local Opaque server_hello_from_raw.
  destruct (Nat.ltb _ _) in H; [discriminate|]. apply bind_ok in H. destruct H as (v & _ & H). destruct (negb (v =? 771)); [discriminate|].
  apply bind_ok in H. destruct H as (random & _ & H). apply bind_ok in H. destruct H as (sl & Hsl & H).
  apply bind_ok in H. destruct H as ([consumed sid] & Hcs & H). apply bind_ok in H. destruct H as (c & Hu & H).
  apply bind_ok in H. destruct H as (suite & Hs & H). apply bind_ok in H. destruct H as (el & _ & H). apply bind_ok in H. destruct H as (b & _ & H).
  apply bind_ok in H. destruct H as (x & _ & H). destruct (server_tls13 x); [|discriminate]. apply Ok_inj in H. subst sh. cbn [sh_suite].
  assert (Hn : forall pre y rest i, body = pre ++ y :: rest -> length pre = i -> nth_error body i = Some y).
  { intros pre y rest i -> <-. rewrite nth_error_app2 by lia. now rewrite Nat.sub_diag. }
  unfold sid_bytes in Hb. destruct (sh_sid sh0) as [s|] eqn:Es.
  - specialize (Ls s eq_refl).
    assert (E1 : body = ([3; 3] ++ sh_random sh0) ++ u8 (zlen s) :: s ++ [hi code; lo code] ++ [0] ++ exts) by (rewrite <- Hb, <- !app_assoc; reflexivity).
    assert (E2 : body = ([3; 3] ++ sh_random sh0 ++ u8 (zlen s) :: s) ++ hi code :: lo code :: [0] ++ exts) by (rewrite <- Hb; cbn [app]; rewrite <- ?app_assoc; cbn [app]; rewrite <- ?app_assoc; reflexivity).
    assert (E3 : body = (([3; 3] ++ sh_random sh0 ++ u8 (zlen s) :: s) ++ [hi code]) ++ lo code :: [0] ++ exts) by (rewrite E2; rewrite <- (app_assoc _ [hi code]); reflexivity).
    pose proof (Hn _ _ _ 34%nat E1 ltac:(rewrite app_length; cbn [length]; lia)) as N0.
    pose proof (Hn _ _ _ 67%nat E2 ltac:(cbn [app length]; rewrite app_length; cbn [length]; lia)) as NA.
    pose proof (Hn _ _ _ 68%nat E3 ltac:(cbn [app length]; rewrite !app_length; cbn [length]; lia)) as NB.
    unfold idx in Hsl. rewrite N0 in Hsl. cbn [unwrap] in Hsl. apply Ok_inj in Hsl. subst sl.
    assert (Z0 : (u8 (zlen s) =? 0) = false) by (unfold zlen; rewrite Ls; reflexivity). rewrite Z0 in Hcs. cbn [negb] in Hcs. apply bind_ok in Hcs. destruct Hcs as (s' & _ & Q). injection Q as <- <-.
    unfold u16_at, idx in Hu. change (67 + 1)%nat with 68%nat in Hu. rewrite NA, NB in Hu. cbn [unwrap] in Hu. rewrite !bind_Ok in Hu. apply Ok_inj in Hu. subst c. rewrite Hc in Hs. now apply Ok_inj in Hs.
  - assert (E1 : body = ([3; 3] ++ sh_random sh0) ++ 0 :: [hi code; lo code] ++ [0] ++ exts) by (rewrite <- Hb, <- !app_assoc; reflexivity).
    assert (E2 : body = (([3; 3] ++ sh_random sh0) ++ [0]) ++ hi code :: lo code :: [0] ++ exts) by (rewrite E1, <- !app_assoc; reflexivity).
    assert (E3 : body = (([3; 3] ++ sh_random sh0) ++ [0; hi code]) ++ lo code :: [0] ++ exts) by (rewrite E1, <- !app_assoc; reflexivity).
    pose proof (Hn _ _ _ 34%nat E1 ltac:(rewrite app_length; cbn [length]; lia)) as N0.
    pose proof (Hn _ _ _ 35%nat E2 ltac:(rewrite !app_length; cbn [length]; lia)) as NA.
    pose proof (Hn _ _ _ 36%nat E3 ltac:(rewrite !app_length; cbn [length]; lia)) as NB.
    unfold idx in Hsl. rewrite N0 in Hsl. cbn [unwrap] in Hsl. apply Ok_inj in Hsl. subst sl. cbn [Z.eqb negb] in Hcs. injection Hcs as <- <-.
    unfold u16_at, idx in Hu. change (35 + 1)%nat with 36%nat in Hu. rewrite NA, NB in Hu. cbn [unwrap] in Hu. rewrite !bind_Ok in Hu. apply Ok_inj in Hu. subst c. rewrite Hc in Hs. now apply Ok_inj in Hs.
Qed.

(* ---- the two transcripts ---- *)
Lemma suited_standard H g : suited H g -> standard (g_alg g).
Proof. intros (-> & _). destruct H; [now left|now right]. Qed.
Lemma finished_split cfgs d g der : to_server_finished cfgs d g der =
  g_hellos g ++ Rfc8446Hello.handshake 8 [0; 0] ++ concat (request cfgs d) ++ Rfc8446Hello.handshake 11 (Rfc8446Hello.certificate_wire [] (ct_raw (sc_cert cfgs))) ++
  Rfc8446Hello.handshake 15 (Rfc8446Hello.certificate_verify_wire 0x0403 der) ++
  Rfc8446Hello.handshake 20 (verify_data g (server_secret g) (g_hellos g ++ concat (before_finished cfgs d der))).
Proof.
  unfold to_server_finished, server_flight. rewrite concat_app. cbn [concat]. rewrite app_nil_r.
  set (fin := Rfc8446Hello.handshake 20 _). clearbody fin. unfold before_finished, before_verify. rewrite !concat_app. cbn [concat]. rewrite !app_nil_r, <- !app_assoc. reflexivity.
Qed.
Lemma shown_unique context len cert more raw : length len = 3%nat -> zlen context < 256 -> zlen cert < 2^24 -> zlen raw < 2^24 ->
  Rfc8446Hello.vector8 context ++ len ++ Rfc8446Hello.vector24 cert ++ more = Rfc8446Hello.certificate_wire [] raw -> cert = raw.
Proof.
  intros L3 Lc L L' E. unfold Rfc8446Hello.certificate_wire, Rfc8446Hello.vector8, Rfc8446Hello.vector24 in E. rewrite <- !app_assoc in E.
  apply (vector_inj 1 context _ []) in E; [|exact Lc|reflexivity]. destruct E as (_ & E).
  apply app_len_inj in E; [|rewrite be_enc_length; exact L3]. destruct E as (_ & E). apply (vector_inj 3) in E; [exact (proj1 E)|exact L|exact L'].
Qed.
Lemma zlen_frame t b : zlen (Rfc8446Hello.handshake t b) = 4 + zlen b.
Proof. unfold Rfc8446Hello.handshake, Rfc8446Hello.vector24, zlen. rewrite !app_length, be_enc_length. cbn [length]. lia. Qed.
Lemma certificate_wire_zlen raw : zlen (Rfc8446Hello.certificate_wire [] raw) = zlen raw + 9.
Proof. unfold Rfc8446Hello.certificate_wire, Rfc8446Hello.vector8, Rfc8446Hello.vector24, Rfc8446Hello.vector16, zlen. rewrite !app_length, !be_enc_length. cbn [length]. lia. Qed.
Lemma certificate_same cfgs d ee rs m1 rest rest' : zlen (ct_raw (sc_cert cfgs)) < 2^16 -> length (d_context d) = 32%nat ->
  zlen (opening ee rs ++ m1 ++ rest) < 2^23 ->
  opening ee rs ++ m1 ++ rest =
  Rfc8446Hello.handshake 8 [0; 0] ++ concat (request cfgs d) ++ Rfc8446Hello.handshake 11 (Rfc8446Hello.certificate_wire [] (ct_raw (sc_cert cfgs))) ++ rest' ->
  forall cert, shows m1 cert -> cert = ct_raw (sc_cert cfgs).
Proof.
  intros Lraw Lctx Lt E cert (ctx & len & more & L3 & Lc & ->). unfold opening in E, Lt. rewrite <- !app_assoc in E. rewrite !zlen_app, !zlen_frame in Lt.
  set (B := Rfc8446Hello.vector8 ctx ++ len ++ Rfc8446Hello.vector24 cert ++ more) in *. set (W := Rfc8446Hello.certificate_wire [] (ct_raw (sc_cert cfgs))) in *.
  pose proof (zlen_nonneg rest) as N1. pose proof (zlen_nonneg ee) as N2. pose proof (zlen_nonneg B) as N3. pose proof (zlen_nonneg (concat (map (Rfc8446Hello.handshake 13) rs))) as N4.
  assert (LW : zlen W < 2^17) by (unfold W; rewrite certificate_wire_zlen; lia).
  apply frame_inj in E; [|lia|reflexivity]. destruct E as (_ & _ & E).
  assert (LB : B = W).
  { unfold request in E. destruct (sc_client_ca cfgs) as [ca|].
    - cbn [concat] in E. rewrite app_nil_r in E. set (q := Rfc8446Hello.certificate_request_wire _ _) in E.
      assert (Lq : zlen q < 2^16) by (unfold q, Rfc8446Hello.certificate_request_wire, Rfc8446Hello.vector8, zlen; rewrite !app_length, be_enc_length, Lctx; reflexivity).
      destruct rs as [|b rs]; cbn [map concat app] in E.
      + apply frame_inj in E; [|lia|lia]. destruct E as (E & _). discriminate E.
      + cbn [map concat] in Lt, N4. rewrite zlen_app, zlen_frame in Lt, N4. pose proof (zlen_nonneg (concat (map (Rfc8446Hello.handshake 13) rs))) as N5. pose proof (zlen_nonneg b).
        rewrite <- app_assoc in E. apply frame_inj in E; [|lia|lia]. destruct E as (_ & _ & E).
        destruct rs as [|b' rs]; cbn [map concat app] in E.
        * apply frame_inj in E; [|lia|lia]. exact (proj1 (proj2 E)).
        * cbn [map concat] in Lt, N5. rewrite zlen_app, zlen_frame in Lt, N5. pose proof (zlen_nonneg (concat (map (Rfc8446Hello.handshake 13) rs))).
          rewrite <- app_assoc in E. apply frame_inj in E; [|lia|lia]. destruct E as (E & _). discriminate E.
    - cbn [concat app] in E. destruct rs as [|b rs]; cbn [map concat app] in E.
      + apply frame_inj in E; [|lia|lia]. exact (proj1 (proj2 E)).
      + cbn [map concat] in Lt, N4. rewrite zlen_app, zlen_frame in Lt, N4. pose proof (zlen_nonneg (concat (map (Rfc8446Hello.handshake 13) rs))).
        rewrite <- app_assoc in E. apply frame_inj in E; [|lia|lia]. destruct E as (E & _). discriminate E. }
  unfold B, W in LB. apply shown_unique in LB; [exact LB|exact L3|exact Lc| |lia].
  assert (zlen cert <= zlen B) by (unfold B, Rfc8446Hello.vector24, zlen; rewrite !app_length; lia). lia.
Qed.

Lemma greeting_frame cfg e : exists b, client_greeting cfg e = Rfc8446Hello.handshake 1 b.
Proof. eexists. reflexivity. Qed.
Lemma greeting_random cfg e : exists pre rest, client_greeting cfg e = pre ++ e_random e ++ rest /\ length pre = 6%nat.
Proof.
  unfold client_greeting, Rfc8446Hello.handshake, Rfc8446Hello.vector24. set (w := Rfc8446Hello.client_hello_wire _).
  assert (W : exists rest, w = Rfc8446Hello.u16 0x0303 ++ e_random e ++ rest) by (eexists; reflexivity). destruct W as (rest & W).
  exists ([1] ++ be_enc 3 (Z.of_nat (length w)) ++ Rfc8446Hello.u16 0x0303), rest. rewrite W at 2. rewrite <- !app_assoc. split; [reflexivity|].
  rewrite !app_length, be_enc_length. reflexivity.
Qed.
Lemma within_bytes bytes r : is_bytes bytes -> within bytes r -> is_bytes (r_fragment r).
Proof. intros B (b & a & ->). apply is_bytes_app in B. destruct B as (_ & B). apply is_bytes_app in B. destruct B as (B & _). unfold wire in B. apply is_bytes_app in B. apply B. Qed.
Lemma received_first bytes r more : is_bytes bytes -> received bytes (r :: more) -> is_bytes (r_fragment r) /\ zlen (r_fragment r) < 2^16 /\ within bytes r.
Proof.
  intros B (-> & F). inversion F as [|? ? P _]; subst. cbn [map concat] in *. assert (W : within (wire r ++ concat (map wire more)) r) by (exists [], (concat (map wire more)); reflexivity).
  split; [exact (within_bytes _ _ B W)|]. split; [|exact W].
  apply is_bytes_app in B. destruct B as (B & _). destruct (ServerAccept.whole_formed r (conj P B)) as (_ & _ & _ & L). exact L.
Qed.
Theorem agreement cfgc e now so reads c pc cfgs d now' so' reads' s ps kc ks side :
  client_ok cfgc e -> is_bytes (concat reads) -> zlen (concat reads) < 2^25 -> connect cfgc e now so reads = (c, Some (Ok tt)) ->
  server_ok cfgs d -> zlen (ct_raw (sc_cert cfgs)) < 2^16 - 64 -> Forall is_bytes reads' -> accept cfgs d now' so' reads' = (s, Some (Ok tt)) ->
  st_protection (cl_stream c) = Some pc -> rp_application pc = Some kc -> st_protection (sv_stream s) = Some ps -> rp_application ps = Some ks ->
  k_secret (side_key side kc) = k_secret (side_key side ks) ->
  exists first sh gc extensions requests m1 m2 hello ch body gs der,
    let before := g_hellos gc ++ opening extensions requests ++ m1 ++ m2 in
    let client_saw := before ++ server_finished gc before in let server_saw := to_server_finished cfgs d gs der in
    (within (concat reads) first /\ agrees cfgc e (r_fragment first) sh gc /\ server_authentic now gc (g_hellos gc ++ opening extensions requests) m1 m2 /\
     kc = application_keys gc client_saw) /\
    (within (concat reads') hello /\ answers cfgs d (r_fragment hello) ch body gs /\ server_signed cfgs d gs der /\ ks = application_keys gs server_saw) /\
    g_alg gc = g_alg gs /\
    ((client_saw = server_saw /\ g_ecdhe gc = g_ecdhe gs /\ same_view cfgc e cfgs hello first body gc gs m1) \/
     collide (g_alg gc) (schedule_hashes (g_alg gc) (g_ecdhe gc) (g_hellos gc) client_saw) (schedule_hashes (g_alg gs) (g_ecdhe gs) (g_hellos gs) server_saw)).
Proof.
  intros Okc B L Ec Oks Lraw B' Es Pc Ac Ps As Ek.
  destruct (client_done _ _ _ _ _ _ Okc B L Ec) as (x & recs & contents & G & (W1 & _) & D).
  destruct D as (ee & rs & m1 & m2 & ignored & replied & q & p1 & ws & p & Ea & Au & _ & _ & _ & _ & _ & P & _ & _ & Ap & _).
  rewrite P in Pc. injection Pc as ->. rewrite Ap in Ac. injection Ac as <-. pose proof G as (_ & Ag & Su & _).
  destruct (accept_done _ _ _ _ _ _ Oks B' Es) as (_ & taken & rest & recs' & Er & R & D).
  destruct D as (y & more & used & msgs & rf & extra & ign & p' & Ex & _ & Gy & _ & _ & _ & P' & _ & _ & Ap' & _).
  rewrite P' in Ps. injection Ps as ->. rewrite Ap' in As. injection As as <-. pose proof Gy as (_ & An & Sg & _ & Ld & Su' & _). subst recs'.
  assert (Bt : is_bytes (concat taken)).
  { rewrite Er in B'. apply Forall_app in B'. destruct B' as (B' & _). clear -B'. induction B'; [constructor|]. cbn [concat]. apply is_bytes_app. auto. }
  destruct (received_first _ _ _ Bt R) as (Bh & Lh & Wh).
  exists (cg_first x), (cg_sh x), (cg_g x), ee, rs, m1, m2, (gr_hello y), (gr_ch y), (gr_body y), (gr_g y), (gr_der y). cbv zeta.
  set (gc := cg_g x) in *. set (gs := gr_g y) in *. set (der := gr_der y) in *. fold gs in An, Sg, Su'.
  set (before := g_hellos gc ++ opening ee rs ++ m1 ++ m2) in *. set (saw := before ++ server_finished gc before) in *.
  split; [auto|]. split.
  { split; [|auto]. destruct Wh as (b & a & Eb). exists b, (a ++ concat rest). rewrite Er, concat_app, Eb, <- !app_assoc. reflexivity. }
  assert (EA : g_alg gc = g_alg gs).
  { apply lengths_apart; [exact (suited_standard _ _ Su)|exact (suited_standard _ _ Su')|].
    rewrite <- (traffic_length (g_alg gc) (g_ecdhe gc) [] saw (if side then ClientApplication else ServerApplication) (suited_standard _ _ Su)).
    rewrite <- (traffic_length (g_alg gs) (g_ecdhe gs) [] (to_server_finished cfgs d gs der) (if side then ClientApplication else ServerApplication) (suited_standard _ _ Su')).
    f_equal. unfold gr_msgs in Ek. fold gs der in Ek. destruct side; exact Ek. }
  split; [exact EA|].
  assert (X : traffic_secret (g_alg gc) (g_ecdhe gc) (g_hellos gc) saw (if side then ClientApplication else ServerApplication) =
              traffic_secret (g_alg gc) (g_ecdhe gs) (g_hellos gs) (to_server_finished cfgs d gs der) (if side then ClientApplication else ServerApplication)).
  { unfold gr_msgs in Ek. fold gs der in Ek. rewrite EA at 2. destruct side; exact Ek. }
  destruct (secrets_commit _ _ _ _ _ _ _ _ _ (suited_standard _ _ Su) X) as [(_ & Ee & Et)|C]; [|right; rewrite <- EA; exact C].
  left. assert (Et' : saw = to_server_finished cfgs d gs der) by (destruct side; exact Et). clear Et X Ek. split; [exact Et'|]. split; [exact Ee|].
  (* decoding *)
  destruct An as (hs & sh0 & pk & share & a0 & H1 & H2 & H3 & H4 & H5 & H6 & _ & _ & _ & Hc & Hp).
  destruct Ag as (hs' & share' & a' & I1 & I2 & I3 & I4 & _ & _ & _ & Ic & Ip). fold gc in I4, Ic, Ip.
  pose proof (within_bytes _ _ B W1) as Bf.
  destruct (message_read _ _ Bh H1) as (xs & Xs & Bhs & _). rewrite H2 in Xs. cbn [handshake_type_u8] in Xs.
  destruct (message_read _ _ Bf I1) as (xc & Xc & _ & _). rewrite I2 in Xc. cbn [handshake_type_u8] in Xc.
  destruct (greeting_frame cfgc e) as (gb & Eg). destruct (greeting_bytes cfgc e Okc) as (Bg & Lg).
  destruct (client_hello_facts _ _ Bhs H3) as (Lx & _ & Lsid).
  pose proof Oks as (_ & _ & _ & Brd & Lrd & _ & Lctx & _).
  destruct (server_hello_facts _ _ _ _ _ _ _ Brd Lrd Lsid H4 H5) as (_ & Lbody).
  assert (Lhs : zlen (hs_fraqment hs) < 2^16) by (rewrite Xs, zlen_app, zlen_frame in Lh; pose proof (zlen_nonneg xs); lia).
  assert (Lb : zlen (gr_body y) < 2^22) by (unfold zlen in *; lia).
  pose proof (Loopback.flight_zlen _ cfgs d gs der Oks (proj1 Su') Ld) as Fz. pose proof (zlen_nonneg (server_flight cfgs d gs der)) as Fz'.
  assert (Lt : zlen saw < 2^23).
  { rewrite Et'. unfold to_server_finished. rewrite H6, !zlen_app, zlen_frame. lia. }
  assert (E1 : saw = Rfc8446Hello.handshake 1 gb ++ r_fragment (cg_first x) ++ opening ee rs ++ m1 ++ m2 ++ server_finished gc before)
    by (unfold saw, before; rewrite I4, Eg, <- !app_assoc; reflexivity).
  assert (E2 : saw = Rfc8446Hello.handshake 1 (hs_fraqment hs) ++ xs ++ Rfc8446Hello.handshake 2 (gr_body y) ++ concat (server_flight cfgs d gs der))
    by (rewrite Et'; unfold to_server_finished; rewrite H6, Xs, <- !app_assoc; reflexivity).
  assert (Lgb : zlen gb < 2^24) by (rewrite Eg, zlen_frame in Lg; lia).
  pose proof E1 as Q. rewrite E2 in Q. apply frame_inj in Q; [|lia|exact Lgb]. destruct Q as (_ & Q1 & Q2).
  exists xs. split; [rewrite Xs, Eg, Q1; reflexivity|]. intros ->. cbn [app] in Q2.
  rewrite Xc, <- app_assoc in Q2. rewrite E1, Xc in Lt. rewrite !zlen_app, !zlen_frame in Lt.
  pose proof (zlen_nonneg gb). pose proof (zlen_nonneg xc). pose proof (zlen_nonneg (opening ee rs)). pose proof (zlen_nonneg m1). pose proof (zlen_nonneg m2).
  pose proof (zlen_nonneg (server_finished gc before)). pose proof (zlen_nonneg (hs_fraqment hs')).
  apply frame_inj in Q2; [|lia|lia]. destruct Q2 as (_ & Q2 & Q3). exists xc. split; [rewrite Xc, Q2; reflexivity|].
  assert (Rs : sh_random sh0 = d_random d /\ sh_sid sh0 = ch_sid (gr_ch y)).
  { unfold server_hello_from_client in H4. apply bind_ok in H4. destruct H4 as ([? [k0|]] & _ & H4); [|discriminate]. destruct (choose_suite _ _); [|discriminate].
    apply Ok_inj in H4. injection H4 as <- _. split; reflexivity. }
  destruct Rs as (R1 & R2).
  assert (Sq : sh_suite (cg_sh x) = sh_suite sh0).
  { rewrite Q2 in H5. eapply suite_read; [rewrite R1; exact Lrd| |exact H5|exact I3].
    intros s0 Q0. rewrite R2 in Q0. rewrite Q0 in Lsid. apply Lsid. }
  assert (Cq : g_cipher gc = g_cipher gs) by (rewrite Sq, Hc in Ic; apply Ok_inj in Ic; now symmetry).
  split; [exact Cq|]. intros ->. cbn [app] in Q3. split.
  - rewrite Sq, Hp in Ip. assert (Kq : g_klen gs = g_klen gc) by congruence.
    assert (Hq : g_hellos gc = g_hellos gs) by (rewrite I4, H6, Xs, Xc, Eg, Q1, Q2, !app_nil_r; reflexivity).
    clear -Cq EA Kq Ee Hq. destruct gc, gs. cbn in *. congruence.
  - intros cert. pose proof (finished_split cfgs d gs der) as Fs. unfold to_server_finished in Fs. apply app_inv_head in Fs. rewrite Fs in Q3. symmetry in Q3.
    refine (certificate_same cfgs d ee rs m1 (m2 ++ server_finished gc before) _ _ Lctx _ Q3 cert); [lia|]. rewrite !zlen_app. lia.
Qed.

Theorem client_fresh cfg1 e1 now1 so1 reads1 c1 p1 k1 cfg2 e2 now2 so2 reads2 c2 p2 k2 side1 side2 :
  client_ok cfg1 e1 -> is_bytes (concat reads1) -> zlen (concat reads1) < 2^25 -> connect cfg1 e1 now1 so1 reads1 = (c1, Some (Ok tt)) ->
  client_ok cfg2 e2 -> is_bytes (concat reads2) -> zlen (concat reads2) < 2^25 -> connect cfg2 e2 now2 so2 reads2 = (c2, Some (Ok tt)) ->
  st_protection (cl_stream c1) = Some p1 -> rp_application p1 = Some k1 -> st_protection (cl_stream c2) = Some p2 -> rp_application p2 = Some k2 ->
  e_random e1 <> e_random e2 \/ side1 <> side2 -> k_secret (side_key side1 k1) = k_secret (side_key side2 k2) ->
  exists first1 sh1 g1 saw1 first2 sh2 g2 saw2,
    (within (concat reads1) first1 /\ agrees cfg1 e1 (r_fragment first1) sh1 g1 /\ k1 = application_keys g1 saw1) /\
    (within (concat reads2) first2 /\ agrees cfg2 e2 (r_fragment first2) sh2 g2 /\ k2 = application_keys g2 saw2) /\
    g_alg g1 = g_alg g2 /\
    collide (g_alg g1) (schedule_hashes (g_alg g1) (g_ecdhe g1) (g_hellos g1) saw1) (schedule_hashes (g_alg g2) (g_ecdhe g2) (g_hellos g2) saw2).
Proof.
  intros Ok1 B1 L1 E1 Ok2 B2 L2 E2 P1 A1 P2 A2 N Ek.
  destruct (client_done _ _ _ _ _ _ Ok1 B1 L1 E1) as (x & recs & contents & G & (W1 & _) & D).
  destruct D as (ee & rs & m1 & m2 & ignored & replied & q & pp & ws & p & Ea & _ & _ & _ & _ & _ & _ & P & _ & _ & Ap & _).
  rewrite P in P1. injection P1 as ->. rewrite Ap in A1. injection A1 as <-. pose proof G as (_ & Ag & Su & _).
  destruct (client_done _ _ _ _ _ _ Ok2 B2 L2 E2) as (y & recs' & contents' & G' & (W2 & _) & D).
  destruct D as (ee' & rs' & m1' & m2' & ignored' & replied' & q' & pp' & ws' & p' & Ea' & _ & _ & _ & _ & _ & _ & P' & _ & _ & Ap' & _).
  rewrite P' in P2. injection P2 as ->. rewrite Ap' in A2. injection A2 as <-. pose proof G' as (_ & Ag' & Su' & _).
  set (saw1 := (g_hellos (cg_g x) ++ opening ee rs ++ m1 ++ m2) ++ server_finished (cg_g x) (g_hellos (cg_g x) ++ opening ee rs ++ m1 ++ m2)) in *.
  set (saw2 := (g_hellos (cg_g y) ++ opening ee' rs' ++ m1' ++ m2') ++ server_finished (cg_g y) (g_hellos (cg_g y) ++ opening ee' rs' ++ m1' ++ m2')) in *.
  exists (cg_first x), (cg_sh x), (cg_g x), saw1, (cg_first y), (cg_sh y), (cg_g y), saw2.
  split; [auto|]. split; [auto|].
  set (n1 := if side1 then ClientApplication else ServerApplication). set (n2 := if side2 then ClientApplication else ServerApplication).
  assert (EA : g_alg (cg_g x) = g_alg (cg_g y)).
  { apply lengths_apart; [exact (suited_standard _ _ Su)|exact (suited_standard _ _ Su')|].
    rewrite <- (traffic_length (g_alg (cg_g x)) (g_ecdhe (cg_g x)) [] saw1 n1 (suited_standard _ _ Su)).
    rewrite <- (traffic_length (g_alg (cg_g y)) (g_ecdhe (cg_g y)) [] saw2 n2 (suited_standard _ _ Su')).
    f_equal. unfold n1, n2. destruct side1, side2; exact Ek. }
  split; [exact EA|].
  assert (X : traffic_secret (g_alg (cg_g x)) (g_ecdhe (cg_g x)) (g_hellos (cg_g x)) saw1 n1 =
              traffic_secret (g_alg (cg_g x)) (g_ecdhe (cg_g y)) (g_hellos (cg_g y)) saw2 n2).
  { rewrite EA at 2. unfold n1, n2. destruct side1, side2; exact Ek. }
  destruct (secrets_commit _ _ _ _ _ _ _ _ _ (suited_standard _ _ Su) X) as [(En & _ & Et)|C]; [exfalso|rewrite <- EA; exact C].
  destruct N as [N|N]; [|apply N; revert En; unfold n1, n2; destruct side1, side2; (reflexivity || discriminate)].
  apply N. clear N. assert (Et' : saw1 = saw2) by (revert Et; unfold n1, n2; destruct side1, side2; exact (fun h => h)). clear Et.
  destruct Ag as (? & ? & ? & _ & _ & _ & I1 & _). destruct Ag' as (? & ? & ? & _ & _ & _ & I2 & _).
  unfold saw1, saw2 in Et'. rewrite I1, I2, <- !app_assoc in Et'.
  destruct (greeting_random cfg1 e1) as (q1 & r1 & Eb1 & Lq1). destruct (greeting_random cfg2 e2) as (q2 & r2 & Eb2 & Lq2). rewrite Eb1, Eb2, <- !app_assoc in Et'.
  apply app_len_inj in Et'; [|congruence]. destruct Et' as (_ & Et'). pose proof Ok1 as (_ & _ & Lr1 & _). pose proof Ok2 as (_ & _ & Lr2 & _).
  apply app_len_inj in Et'; [exact (proj1 Et')|congruence].
Qed.
