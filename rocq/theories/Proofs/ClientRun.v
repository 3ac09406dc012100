(* The client's records and reads *)
From Verif Require Import Proofs.Util Proofs.Bytes Model.Alert Model.Bytes Model.Suite Model.Sha2 Model.Hmac Model.KeySchedule Model.Record Model.Channel
  Model.Curve Model.Signature Model.Ecdsa Model.X509 Model.Extensions Model.Hello Model.Kex Model.Handshake Model.Certificate
  Model.Stream Model.AppChannel Model.Keylog Model.Server Model.Client
  Spec.Enc Spec.Rfc2104 Spec.Fips180 Spec.Rfc8446Keys Spec.Tls13Record Spec.Endpoints Spec.Writes Spec.Rfc8446Auth Spec.Connection
  Spec.ClientConnection.
From Verif Require Spec.Rfc8446Hello Spec.Ecdsa.
From Verif Require Import Proofs.KeySchedule Proofs.Record Proofs.Channel Proofs.Stream Proofs.ServerRun Proofs.ServerKeys Proofs.Opened
  Proofs.ServerSteps Proofs.ServerFlow Proofs.ClientSteps Proofs.ClientFlow.
From Verif Require Proofs.Hmac Proofs.Sha2 Proofs.Auth Proofs.HelloTotal Proofs.Kex Proofs.EcdsaP256.

Local Opaque handle_server_hello client_messages rpp_decrypt record_from_raw
  X509.get_public_key x509_from_raw client_greeting handshake_from_raw th_update client_flight.

Lemma carry_snoc g cs rs c r : carry g cs rs -> from_server g (zlen rs) c r -> carry g (cs ++ [c]) (rs ++ [r]).
Proof.
  intros (L & F) O. split; [rewrite !app_length, L; reflexivity|]. intros i m x Hm Hx.
  destruct (Nat.ltb_spec i (length rs)) as [Hi|Hi].
  - rewrite nth_error_app1 in Hm by lia. rewrite nth_error_app1 in Hx by lia. eauto.
  - rewrite nth_error_app2 in Hm by lia. rewrite nth_error_app2 in Hx by lia. rewrite <- L in Hm.
    destruct (i - length rs)%nat as [|j] eqn:J; [|destruct j; discriminate]. cbn in Hm, Hx. injection Hm as <-. injection Hx as <-.
    assert (i = length rs) as -> by lia. exact O.
Qed.

Definition cl_flow (cfg : client_config) (e : client_draws) (now : Z) (base bytes : list Z) (h : client_hs) (k : Z) : Prop :=
  exists recs contents, cflow cfg e now base bytes h k recs contents [].

Lemma within_more bytes more r : within bytes r -> within (bytes ++ more) r.
Proof. intros (a & b & ->). exists a, (b ++ more). now rewrite <- !app_assoc. Qed.
Lemma history_more bytes more x k k' recs contents : history bytes x k recs contents -> k <= k' -> history (bytes ++ more) x k' recs contents.
Proof.
  intros (A & B & C & D & E & F) L. unfold history. split; [now apply within_more|]. split; [eapply Forall_impl; [|exact B]; intros; now apply within_more|].
  repeat split; try assumption; try lia; apply C.
Qed.
Lemma flow_more cfg e now base bytes more h k k' : cl_flow cfg e now base bytes h k -> k <= k' -> cl_flow cfg e now base (bytes ++ more) h k'.
Proof.
  intros (recs & contents & F) L. exists recs, contents. unfold cflow in *. destruct (cl_state h); try exact F;
    try (destruct F as (x & ms & G & H & R); exists x, ms; split; [exact G|]; split; [now apply (history_more _ _ _ k)|exact R]).
  destruct F as (x & G & H & R). exists x. split; [exact G|]. split; [now apply (history_more _ _ _ k)|exact R].
Qed.
Lemma flow_up cfg e now base bytes h k k' : cl_flow cfg e now base bytes h k -> k <= k' -> cl_flow cfg e now base bytes h k'.
Proof. intros F L. rewrite <- (app_nil_r bytes). now apply (flow_more _ _ _ _ _ _ _ k). Qed.


Lemma hello_record_flow cfg e now base bytes h k rec h' u : client_ok cfg e -> wellformed rec -> within bytes rec -> 0 <= k -> r_type rec = RHandshake ->
  cl_state h = CsServerHello -> cl_flow cfg e now base bytes h k -> handle_server_hello cfg h rec = (h', Ok u) -> cl_flow cfg e now base bytes h' k.
Proof.
  intros Ok' (Bh & Lh & Bf & Lf) Wi K0 T St (recs & contents & F) E.
  unfold cflow in F; rewrite St in F; destruct F as (-> & -> & _ & Eh & Er & Ek & Rq & Kl & Lg & Pn & O).
  destruct (server_hello_step cfg e h rec h' u Ok' Bf Lf Eh Er Ek E) as (HH & sh & g & p0 & A & S & N & Es & Th & St' & Rq' & Ct' & Kl' & Lg').
  exists [], []. unfold cflow. rewrite St'. exists (CGreet rec HH sh g p0), [].
  assert (G : cgreeted cfg e (CGreet rec HH sh g p0)).
  { unfold cgreeted. cbn [cg_first cg_hash cg_sh cg_g cg_p0]. split; [exact T|]. split; [exact A|]. split; [exact S|]. split; [|exact N].
    destruct A as (hs & share & a & _ & _ & _ & -> & _). rewrite zlen_app. destruct (greeting_bytes cfg e Ok'). lia. }
  destruct (cgreeted_keys _ _ _ G) as (_ & _ & Hk). cbn [cg_p0 cg_g] in Hk. destruct (rpp_new_shape _ _ _ _ N) as (N1 & N2 & N3 & N4).
  split; [exact G|]. split.
  { unfold history. cbn [cg_first cg_g concat]. split; [exact Wi|]. split; [constructor|]. split; [split; [reflexivity|intros i m r Hm; destruct i; discriminate]|].
    split; [constructor|]. unfold zlen. cbn [length]. lia. }
  split; [reflexivity|]. split.
  { unfold clive. cbn [cg_hash cg_g cg_p0]. rewrite Es, Th, Kl', Lg', Kl, Lg, app_nil_r. split; [exact O|]. split; [reflexivity|].
    split; [reflexivity|]. split; [reflexivity|]. exists p0. split; [reflexivity|]. unfold guarded, peer_key, cur_keys, keyed. cbn [cg_hash cg_g].
    rewrite N1, N2, N3, N4, Hk. cbn [negb]. auto 10. }
  unfold cstage. rewrite St', Rq'. auto.
Qed.

(* a decrypted record *)
Lemma live_open cfg e base x h n ms p rec p' t content : cgreeted cfg e x -> clive cfg e base x h n ms -> wellformed rec -> 0 <= n < 2^60 ->
  st_protection (cl_stream h) = Some p -> rpp_decrypt p rec = (p', Ok (t, content)) -> t <> RInvalid ->
  opened (g_cipher (cg_g x)) (g_alg (cg_g x)) (g_klen (cg_g x)) (server_secret (cg_g x)) n t content rec /\
  is_bytes content /\ zlen content < 2^16 /\ clive cfg e base x (cl_with_protection h (Some p')) (n + 1) ms.
Proof.
  intros G (O & Th & Kl & Lg & q & Pq & Kq & Cq & Aq & Sq & Pk) (Bh & Lh & Bf & Lf) N P D T.
  rewrite P in Pq. injection Pq as <-. destruct (cgreeted_keys _ _ _ G) as (_ & G2 & _).
  destruct (decrypt_opened _ _ _ _ _ _ _ _ _ Kq Aq Pk G2 ltac:(lia) ltac:(lia) Bf Bh Lf Lh D T) as (Op & Bc & Lc & K' & C' & A' & S' & P').
  split; [exact Op|]. split; [exact Bc|]. split; [exact Lc|].
  unfold clive. cbn [cl_with_protection cl_with_stream cl_stream cl_th cl_keylog cl_log set_protection st_protection].
  split; [exact O|]. split; [exact Th|]. do 2 (split; [assumption|]). exists p'. split; [reflexivity|].
  unfold guarded. split; [exact K'|]. split; [congruence|]. split; [exact A'|]. split; [rewrite Cq in S'; congruence|exact P'].
Qed.

Definition active (s : client_state) : Prop :=
  match s with CsEncryptedExtensions | CsClientCertificateRequest | CsServerCertificate | CsServerCertificateVerify | CsFinished => True | _ => False end.
Lemma active_flow cfg e now base bytes h k recs contents rest : active (cl_state h) -> cflow cfg e now base bytes h k recs contents rest ->
  exists x ms, cgreeted cfg e x /\ history bytes x k recs contents /\ concat contents = ms ++ rest /\ clive cfg e base x h (zlen recs) ms /\ cstage now x h ms.
Proof. unfold cflow. destruct (cl_state h); try contradiction; auto. Qed.
Lemma flow_active cfg e now base bytes h k recs contents rest : active (cl_state h) ->
  (exists x ms, cgreeted cfg e x /\ history bytes x k recs contents /\ concat contents = ms ++ rest /\ clive cfg e base x h (zlen recs) ms /\ cstage now x h ms) ->
  cflow cfg e now base bytes h k recs contents rest.
Proof. unfold cflow. destruct (cl_state h); try contradiction; auto. Qed.

Lemma encrypted_record_flow cfg e now base bytes h k rec h' u : client_ok cfg e -> wellformed rec -> within bytes rec ->
  0 <= k -> k + 1 + zlen (r_fragment rec) < 2^52 -> active (cl_state h) ->
  cl_flow cfg e now base bytes h k -> client_encrypted_record cfg e now h rec = (h', Ok u) ->
  cl_flow cfg e now base bytes h' (k + 1 + zlen (r_fragment rec)).
Proof.
  intros Ok' W Wi K0 Lk Ac (recs & contents & F) E. destruct (active_flow _ _ _ _ _ _ _ _ _ _ Ac F) as (x & ms & G & Hi & Ec & L & Sg).
  unfold client_encrypted_record in E. sinv E p E1. destruct (st_protection (cl_stream h)) as [q|] eqn:P; [|discriminate]. cbn in E1. apply Ok_inj in E1. subst q.
  destruct (rpp_decrypt p rec) as [p' r] eqn:D. sinv E tc E2. subst r. destruct tc as [t content]. destruct t; try discriminate; [sinv E code E3; discriminate|].
  set (h1 := cl_with_protection h (Some p')) in *. pose proof Hi as (I1 & I2 & I3 & I4 & I5 & I6).
  assert (Nr : 0 <= zlen recs < 2^60) by (pose proof (zlen_nonneg recs); pose proof (zlen_nonneg (r_fragment rec)); lia).
  destruct (live_open _ _ _ _ _ _ _ _ _ _ _ _ G L W Nr P D ltac:(discriminate)) as (Op & Bc & Lc & L1).
  assert (Lcf : zlen content <= zlen (r_fragment rec)).
  { destruct Op as (ee & tag & pad & Ef & _ & Dc). destruct (cgreeted_keys _ _ _ G) as (_ & (Bk & Lkk & Bi & Li) & _). destruct G as (_ & _ & (_ & Gc & _) & _).
    cbn [Connection.traffic_key k_key k_iv] in *. destruct W as (Bh & Lh & Bf & Lf). rewrite Ef in Bf, Lf. apply is_bytes_app in Bf. destruct Bf as (Be & Bt).
    rewrite zlen_app in Lf. pose proof (zlen_nonneg tag).
    destruct (record_nonce_ok _ (zlen recs) Bi) as [NB NL].
    destruct (cipher_decrypt_bytes _ _ _ _ _ _ _ Gc Bk Lkk NB ltac:(lia) Be Bh ltac:(lia) ltac:(unfold zlen; lia) Dc) as (_ & LL).
    rewrite Ef. unfold zlen in *. rewrite !app_length in *. lia. }
  assert (F1 : cflow cfg e now base bytes h1 (k + 1 + zlen (r_fragment rec)) (recs ++ [rec]) (contents ++ [content]) content).
  { apply flow_active; [exact Ac|]. exists x, ms. split; [exact G|]. split.
    { unfold history. split; [exact I1|]. split; [apply Forall_app; auto|]. split; [now apply carry_snoc|]. rewrite concat_app, !zlen_app. cbn [concat]. rewrite app_nil_r.
      split; [apply is_bytes_app; auto|]. change (zlen [rec]) with 1. pose proof (zlen_nonneg (r_fragment rec)). lia. }
    split; [rewrite concat_app, Ec; cbn [concat]; now rewrite !app_nil_r|]. split; [rewrite zlen_app; exact L1|exact Sg]. }
  apply (messages_flow _ _ _ _ _ _ _ _ _ _ _ _ _ Ok' Lk Lc F1) in E; [|destruct (cl_state h) eqn:St; try contradiction; unfold h1; cbn; rewrite St; exact I|exact Bc].
  exists (recs ++ [rec]), (contents ++ [content]). apply E.
Qed.

(* no way out of an error *)
Lemma failed_message cfg e now h hs h' u er : cl_state h = CsFinishWithError er -> handle_message cfg e now h hs = (h', Ok u) -> h' = h.
Proof.
  intros St E. unfold handle_message in E. rewrite St in E. unfold handle_server_finish in E. destruct (negb _).
  - rewrite St in E. now injection E as <- _.
  - sinv E p E1. sinv E t E2. sinv E v E3. rewrite St in E. discriminate.
Qed.
Lemma failed_messages cfg e now er fuel : forall h buf h' u, cl_state h = CsFinishWithError er -> client_messages fuel cfg e now h buf = (h', Ok u) ->
  cl_state h' = CsFinishWithError er.
Proof.
  Local Transparent client_messages.
  induction fuel as [|f IH]; intros h buf h' u St E; cbn [client_messages] in E; destruct buf as [|b0 buf0]; try discriminate; try (injection E as <- _; exact St).
  set (buf := b0 :: buf0) in *. clearbody buf. sinv E hs R. apply sbind_ok in E. destruct E as (h1 & u1 & E1 & E).
  apply (failed_message _ _ _ _ _ _ _ _ St) in E1. subst h1. eauto.
  Local Opaque client_messages.
Qed.
Lemma failed_record cfg e now er h rec h' u : cl_state h = CsFinishWithError er -> client_encrypted_record cfg e now h rec = (h', Ok u) ->
  cl_state h' = CsFinishWithError er.
Proof.
  intros St E. unfold client_encrypted_record in E. sinv E p E1. destruct (rpp_decrypt p rec) as [p' r]. sinv E tc E2. destruct tc as [t content].
  destruct t; try discriminate; [sinv E code E3; discriminate|]. eapply failed_messages; [|exact E]. exact St.
Qed.

Lemma record_flow cfg e now base bytes h k rec h' u : client_ok cfg e -> wellformed rec -> within bytes rec -> 0 <= k -> k + 1 + zlen (r_fragment rec) < 2^52 ->
  cl_flow cfg e now base bytes h k -> client_record cfg e now h rec = (h', Ok u) ->
  cl_flow cfg e now base bytes h' (k + 1 + zlen (r_fragment rec)).
Proof.
  intros Ok' W Wi K0 Lk F E. pose proof (zlen_nonneg (r_fragment rec)) as L0. unfold client_record in E.
  assert (SKIP : (h, Ok (E:=tls_error) tt) = (h', Ok u) -> cl_flow cfg e now base bytes h' (k + 1 + zlen (r_fragment rec))).
  { intros [= -> _]. eapply flow_up; [exact F|lia]. }
  assert (ENC : cl_state h <> CsServerHello -> cl_state h <> CsReady -> client_encrypted_record cfg e now h rec = (h', Ok u) ->
    cl_flow cfg e now base bytes h' (k + 1 + zlen (r_fragment rec))).
  { intros N1 N2 E'. destruct (cl_state h) eqn:St; try congruence;
      try (eapply encrypted_record_flow; try eassumption; rewrite St; exact I).
    apply (failed_record _ _ _ _ _ _ _ _ St) in E'. exists [], []. unfold cflow. rewrite E'. exact I. }
  destruct (r_type rec) eqn:T.
  all: try (sinv E code Ec; discriminate).
  all: destruct (cl_state h) eqn:St; try discriminate; try exact (SKIP E); try (apply ENC; [discriminate|discriminate|exact E]).
  apply (flow_up _ _ _ _ _ _ k); [eapply hello_record_flow; eassumption|lia].
Qed.

Lemma from_raw_wire buf n rec : is_bytes buf -> record_from_raw buf = Ok (n, rec) ->
  wellformed rec /\ buf = wire rec ++ skipn n buf /\ n = (5 + length (r_fragment rec))%nat /\ (n <= length buf)%nat.
Proof.
  intros B R. destruct (from_raw_ok _ _ _ B R) as (R1 & R2 & R3 & R4 & R5 & R6 & R7).
  assert (L5 : (5 <= length buf)%nat) by lia.
  split.
  { unfold wellformed. rewrite R1. split; [now apply is_bytes_firstn|]. split; [rewrite firstn_length; lia|].
    split; [rewrite R4; now apply is_bytes_firstn, is_bytes_skipn|exact R5]. }
  split; [|split; [exact R2|exact R3]]. unfold wire. rewrite R1, R4, R2. replace (5 + length (r_fragment rec) - 5)%nat with (length (r_fragment rec)) by lia.
  rewrite <- app_assoc. rewrite <- (firstn_skipn 5 buf) at 1. f_equal. rewrite Nat.add_comm, <- skipn_skipn. symmetry. rewrite skipn_skipn, Nat.add_comm, <- skipn_skipn.
  rewrite skipn_skipn, Nat.add_comm. rewrite <- skipn_skipn. apply firstn_skipn.
Qed.

(* the buffer the records of one read are taken from *)
Definition source (rx defrag : list Z) : list Z := match defrag with [] => rx | _ => defrag end.
Lemma records_flow cfg e now base bytes k fuel : forall h rx defrag offset h' d' u pre, client_ok cfg e -> is_bytes bytes -> 0 <= k ->
  bytes = pre ++ source rx defrag -> k + zlen (source rx defrag) < 2^52 -> (offset <= length (source rx defrag))%nat ->
  cl_flow cfg e now base bytes h (k + Z.of_nat offset) ->
  client_records fuel cfg e now h rx defrag offset = ((h', d'), Ok u) ->
  cl_flow cfg e now base bytes h' (k + zlen (source rx defrag)) /\ (d' = [] \/ exists pre', bytes = pre' ++ d').
Proof.
  induction fuel as [|f IH]; intros h rx defrag offset h' d' u pre Ok' B K0 Eb Lk Lo F E; cbn [client_records] in E.
  - destruct (negb _); [|discriminate]. injection E as <- <- _. split; [eapply flow_up; [exact F|unfold zlen; lia]|].
    unfold source in Eb. destruct defrag; [now left|right; now exists pre].
  - destruct (negb (Nat.ltb offset (length rx) || negb match defrag with [] => true | _ => false end)).
    { injection E as <- <- _. split; [eapply flow_up; [exact F|unfold zlen; lia]|]. unfold source in Eb. destruct defrag; [now left|right; now exists pre]. }
    assert (SB : match defrag with [] => slice_from (E:=tls_error) rx offset | _ => slice_from defrag offset end = Ok (skipn offset (source rx defrag))).
    { unfold source in *. destruct defrag; unfold slice_from; destruct (Nat.leb_spec offset (length rx)); try reflexivity; try lia;
        destruct (Nat.leb_spec offset (length (z :: defrag))); try reflexivity; lia. }
    rewrite SB in E. sinv E buf Ex. apply Ok_inj in Ex. subst buf. cbn [fst snd] in E. set (src := source rx defrag) in *.
    assert (Bsrc : is_bytes src) by (rewrite Eb in B; apply is_bytes_app in B; apply B).
    assert (Bbuf : is_bytes (skipn offset src)) by now apply is_bytes_skipn.
    destruct (record_from_raw (skipn offset src)) as [[n rec]|er|] eqn:R; [| |discriminate].
    + destruct (from_raw_wire _ _ _ Bbuf R) as (W & Ew & En & Ln). rewrite skipn_length in Ln.
      destruct (client_record cfg e now h rec) as [h1 [u1|e1|]] eqn:C; [|discriminate|discriminate].
      assert (Wi : within bytes rec).
      { exists (pre ++ firstn offset src), (skipn n (skipn offset src)). rewrite <- Ew, <- app_assoc, firstn_skipn. exact Eb. }
      assert (F1 : cl_flow cfg e now base bytes h1 (k + Z.of_nat (offset + n))).
      { apply (flow_up _ _ _ _ _ _ (k + Z.of_nat offset + 1 + zlen (r_fragment rec))); [|unfold zlen; lia].
        apply (record_flow _ _ _ _ _ h _ _ _ u1 Ok' W Wi); [lia|unfold zlen in *; lia|exact F|exact C]. }
      destruct (Nat.eqb_spec (offset + n) (length defrag)).
      * injection E as <- <- _. split; [eapply flow_up; [exact F1|unfold zlen; lia]|now left].
      * apply (IH h1 rx defrag (offset + n)%nat h' d' u pre Ok' B K0 Eb Lk); [fold src; lia|exact F1|exact E].
    + injection E as <- <- _. split; [eapply flow_up; [exact F|unfold zlen; lia]|]. right. subst src. unfold source in *. destruct defrag as [|d0 dr].
      * exists (pre ++ firstn offset rx). rewrite <- app_assoc, firstn_skipn. exact Eb.
      * now exists pre.
Qed.

Lemma flush_flow cfg e now base bytes h k h' u : cl_flow cfg e now base bytes h k -> cl_flush h = (h', Ok u) -> cl_flow cfg e now base bytes h' k.
Proof.
  intros (recs & contents & F) E. apply cl_flush_ok in E. destruct E as (s & -> & O & P & Bf). exists recs, contents.
  unfold cflow in *. cbn [cl_with_stream cl_state cl_hello cl_random cl_key cl_request cl_keylog cl_log cl_stream].
  unfold clive, cdone in *. cbn [cl_with_stream cl_state cl_th cl_stream cl_keylog cl_log]. unfold cstage in *. cbn [cl_with_stream cl_state cl_request cl_cert].
  destruct (cl_state h); rewrite ?P, ?O in *; try exact F.
  destruct F as (x & G & Hi & ee & rs & m1 & m2 & ig & rp & q & p1 & ws & p & X). exists x. split; [exact G|]. split; [exact Hi|].
  exists ee, rs, m1, m2, ig, rp, q, p1, ws, p. rewrite ?P, ?O.
  destruct X as (X1 & X2 & X3 & X4 & X5 & X6 & X7 & X8). rewrite ?P, ?O in *. do 6 (split; [assumption|]). split; [exact Bf|exact X8].
Qed.

Lemma reads_flow cfg e now base T reads : forall pre h defrag h' k, client_ok cfg e -> is_bytes (pre ++ concat reads) -> zlen (pre ++ concat reads) = T -> T < 2^25 ->
  0 <= k <= zlen pre * T -> cl_flow cfg e now base pre h k -> (defrag = [] \/ exists pre', pre = pre' ++ defrag) ->
  client_reads cfg e now h defrag reads = (h', Some (Ok tt)) ->
  exists recs contents, cl_state h' = CsReady /\ cflow cfg e now base (pre ++ concat reads) h' (T * T) recs contents [].
Proof.
  induction reads as [|chunk rest IH]; intros pre h defrag h' k Ok' B LT T26 Lk F D E; cbn [client_reads] in E.
  - assert (cl_state h = CsReady /\ h' = h) as (St & ->) by (destruct (cl_state h); try discriminate; now injection E).
    cbn [concat] in *. rewrite app_nil_r in LT. rewrite LT in Lk. destruct (flow_more _ _ _ _ _ [] _ _ (T * T) F (proj2 Lk)) as (recs & contents & X). now exists recs, contents.
  - assert (READY : cl_state h = CsReady -> h' = h -> exists recs contents, cl_state h' = CsReady /\ cflow cfg e now base (pre ++ concat (chunk :: rest)) h' (T * T) recs contents []).
    { intros St ->. rewrite zlen_app in LT. pose proof (zlen_nonneg (concat (chunk :: rest))).
      pose proof (zlen_nonneg pre). assert (KT : k <= T * T) by nia.
      destruct (flow_more _ _ _ _ _ (concat (chunk :: rest)) _ _ (T * T) F KT) as (recs & contents & X). now exists recs, contents. }
    assert (REST : (match tcp_read chunk with
      | Ok rx =>
          let defrag := match defrag with [] => [] | _ => defrag ++ rx end in
          match client_records (S (length rx + length defrag)) cfg e now h rx defrag 0 with
          | ((h, defrag), Ok _) => match cl_flush h with (h, Ok _) => client_reads cfg e now h defrag rest | (h, o) => (h, Some o) end
          | ((h, _), o) => (h, Some o)
          end
      | Err er => (h, Some (Err er))
      | Panic => (h, Some Panic)
      end = (h', Some (Ok tt))) -> exists recs contents, cl_state h' = CsReady /\ cflow cfg e now base (pre ++ concat (chunk :: rest)) h' (T * T) recs contents []).
    { clear E READY. intros E. unfold tcp_read in E. destruct chunk as [|c0 chunk0]; [discriminate|]. set (rx := c0 :: chunk0) in *.
      assert (Lrx : 1 <= zlen rx) by (unfold rx, zlen; cbn [length]; lia). clearbody rx. cbn [concat] in *. rewrite app_assoc in *.
      cbv zeta in E. set (dd := match defrag with [] => [] | _ => defrag ++ rx end) in *.
      assert (SRC : exists pre', pre ++ rx = pre' ++ source rx dd).
      { unfold source, dd. destruct defrag as [|d0 dr]; [now exists pre|]. destruct D as [D|(pre' & D)]; [discriminate|].
        exists pre'. cbn [app]. rewrite D, <- app_assoc. reflexivity. }
      destruct SRC as (pre' & SRC). pose proof B as B0. apply is_bytes_app in B0. destruct B0 as (B0 & _).
      pose proof (zlen_nonneg pre) as Np. pose proof (zlen_nonneg (concat rest)) as Nr. pose proof (zlen_nonneg pre') as Np'.
      assert (LS : zlen (source rx dd) <= T) by (rewrite zlen_app in LT; pose proof (f_equal (@zlen Z) SRC) as Q; rewrite !zlen_app in Q; rewrite zlen_app in LT; lia).
      assert (LP : zlen pre + zlen rx <= T) by (rewrite !zlen_app in LT; lia).
      destruct (client_records _ cfg e now h rx dd 0) as [[h1 d1] [u1|e1|]] eqn:C; [|discriminate|discriminate].
      assert (F0 : cl_flow cfg e now base (pre ++ rx) h (k + Z.of_nat 0)) by (eapply flow_more; [exact F|lia]).
      assert (k <= T * T) by nia. assert (T * T < 2^51) by (change (2^51) with (2^25 * 2^26); assert (0 <= T) by lia; nia).
      assert (KS : k + zlen (source rx dd) < 2^52) by lia.
      destruct (records_flow _ _ _ _ _ k _ _ _ _ _ _ _ _ pre' Ok' B0 (proj1 Lk) SRC KS (Nat.le_0_l _) F0 C) as (F1 & D1).
      destruct (cl_flush h1) as [h2 [u2|e2|]] eqn:Fl; [|discriminate|discriminate].
      pose proof (flush_flow _ _ _ _ _ _ _ _ _ F1 Fl) as F2.
      assert (0 <= zlen (source rx dd)) by apply zlen_nonneg.
      eapply (IH (pre ++ rx) h2 d1 h' (k + zlen (source rx dd)) Ok' B LT T26); [rewrite zlen_app; nia|exact F2|exact D1|exact E]. }
    destruct (cl_state h) eqn:St; try exact (REST E). apply READY; [reflexivity|now injection E].
Qed.

Lemma client_done cfg e now so reads h : client_ok cfg e -> is_bytes (concat reads) -> zlen (concat reads) < 2^25 ->
  connect cfg e now so reads = (h, Some (Ok tt)) ->
  exists x recs contents, cgreeted cfg e x /\ history (concat reads) x (2^52) recs contents /\
    cdone cfg e now (so_sent so ++ hello_out cfg e) x h (zlen recs) (concat contents).
Proof.
  intros Ok' B L E. unfold connect in E. destruct (client_do_handshake _ _ _ _ _) as [h1 o] eqn:D.
  assert (D' : (h1, o) = (h, Some (Ok tt))).
  { destruct o as [[u|er|]|]; try exact E. destruct (report_error (cl_stream h1) er) as [s r] eqn:R. exfalso. injection E as _ Er.
    unfold report_error in R. subst r. apply sbind_ok in R. destruct R as (s1 & u & _ & R). discriminate. }
  injection D' as -> ->. clear E. unfold client_do_handshake in D. destruct (send_client_hello cfg e (client_new e so)) as [h0 [u|er|]] eqn:S; [|discriminate|discriminate].
  destruct (hello_sent _ _ _ _ _ Ok' S) as (Eh & P & Bf & O).
  assert (F : cl_flow cfg e now (so_sent so ++ hello_out cfg e) [] h0 0).
  { exists [], []. unfold cflow. assert (cl_state h0 = CsServerHello) as -> by (rewrite Eh; reflexivity).
    do 3 (split; [reflexivity|]). do 6 (split; [rewrite Eh; reflexivity|]). split; [exact P|]. unfold out. rewrite Bf, O, app_nil_r. reflexivity. }
  destruct (reads_flow cfg e now (so_sent so ++ hello_out cfg e) (zlen (concat reads)) reads [] h0 [] h 0 Ok' B eq_refl L) as (recs & contents & St & X); [cbn; lia|exact F|now left|exact D|].
  unfold cflow in X. rewrite St in X. destruct X as (x & G & Hi & Dn). exists x, recs, contents. split; [exact G|]. split; [|exact Dn].
  cbn [app] in Hi. rewrite <- (app_nil_r (concat reads)). eapply history_more; [exact Hi|]. pose proof (zlen_nonneg (concat reads)). nia.
Qed.
