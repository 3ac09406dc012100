(* How the server's handshake depends on where the reads end; alerts of the client *)
From Verif Require Spec.Handshaking.
From Verif Require Import Proofs.Util Proofs.Bytes Model.Alert Model.Bytes Model.Suite Model.Sha2 Model.Hmac Model.KeySchedule Model.Record Model.Channel
  Model.Curve Model.Signature Model.Ecdsa Model.X509 Model.Extensions Model.Hello Model.Kex Model.Handshake Model.Certificate
  Model.Stream Model.AppChannel Model.Keylog Model.Server
  Spec.Alerts Spec.Rfc2104 Spec.Fips180 Spec.Rfc8446Keys Spec.Tls13Record Spec.Endpoints Spec.Writes Spec.Rfc8446Auth Spec.Connection.
From Verif Require Spec.Rfc8446Hello Spec.Ecdsa.
From Verif Require Import Proofs.KeySchedule Proofs.Record Proofs.Channel Proofs.Stream Proofs.ServerRun Proofs.ServerKeys Proofs.Opened Proofs.ServerSteps
  Proofs.ServerFlow Proofs.ServerAccept Proofs.ServerAccept2 Proofs.Reads Proofs.Alerting.

Local Opaque handle_handshake_record record_from_raw rpp_decrypt.

(* ---- the loop on a longer list of reads ---- *)
Lemma loop_app cfg d now : forall a b h h1, server_do_handshake cfg d now h a = (h1, None) ->
  server_do_handshake cfg d now h (a ++ b) = server_do_handshake cfg d now h1 b /\ sv_state h1 <> SvReady.
Proof.
  induction a as [|c a IH]; intros b h h1 E.
  - cbn [app]. cbn [server_do_handshake] in E. destruct (sv_state h) eqn:St; try discriminate; injection E as <-; (split; [reflexivity|congruence]).
  - assert (R : sv_state h <> SvReady) by (intros R; rewrite loop_ready in E by exact R; discriminate).
    cbn [app]. rewrite loop_cons in E |- * by exact R. destruct (one_read cfg d now h c) as [h2 [u|e|]]; try discriminate. now apply IH.
Qed.
Lemma accept_none cfg d now so a h1 : accept cfg d now so a = (h1, None) -> server_do_handshake cfg d now (server_new so) a = (h1, None).
Proof.
  unfold accept. destruct (server_do_handshake cfg d now (server_new so) a) as [h [[u|e|]|]]; try discriminate; auto.
  destruct (report_error _ _). discriminate.
Qed.
Lemma accept_app cfg d now so a b h1 : accept cfg d now so a = (h1, None) ->
  accept cfg d now so (a ++ b) =
  match server_do_handshake cfg d now h1 b with
  | (h, Some (Err e)) => let (s, r) := report_error (sv_stream h) e in (with_stream h s, Some r)
  | r => r
  end /\ sv_state h1 <> SvReady.
Proof. intros E. apply accept_none in E. destruct (loop_app cfg d now a b _ _ E) as (L & R). unfold accept. rewrite L. auto. Qed.
Lemma accept_ok cfg d now so reads h : accept cfg d now so reads = (h, Some (Ok tt)) -> server_do_handshake cfg d now (server_new so) reads = (h, Some (Ok tt)).
Proof.
  unfold accept. destruct (server_do_handshake cfg d now (server_new so) reads) as [h0 [[u|e|]|]]; try discriminate; auto.
  unfold report_error. destruct (is_official e); cbn [sbind]; [|discriminate]. destruct (write_alert _ _) as [s [u|e0|]]; cbn [sbind]; discriminate.
Qed.

(* ---- a read that ends inside a record ---- *)
Lemma records_whole cfg d now fuel : forall h buf h' u, is_bytes buf ->
  server_records fuel cfg d now h buf = (h', Ok u) -> exists new, received buf new.
Proof.
  induction fuel as [|fuel IH]; intros h buf h' u B E.
  - destruct buf; [|discriminate]. exists []. exact received_nil.
  - destruct buf as [|b buf]; [exists []; exact received_nil|].
    cbn [server_records] in E. remember (b :: buf) as bs eqn:Eb. clear Eb b buf.
    sinv E cr E1. destruct cr as [n rec]. cbn [fst snd] in E. destruct (parsed _ _ _ B E1) as (W & Ew & Er & Hn).
    apply sbind_ok in E. destruct E as (h1 & u1 & E2 & E3).
    destruct (IH _ _ _ _ (is_bytes_skipn _ _ B) E3) as (new & R). exists ([rec] ++ new).
    rewrite <- (firstn_skipn n bs). apply received_app; [|exact R]. split; [cbn; rewrite app_nil_r; exact Ew|constructor; [exact Er|constructor]].
Qed.
Lemma cut_fails cfg d now so a x rest h1 h : accept cfg d now so a = (h1, None) -> is_bytes x -> (~ exists recs, received x recs) ->
  accept cfg d now so (a ++ x :: rest) <> (h, Some (Ok tt)).
Proof.
  intros A B N E. destruct (accept_app _ _ _ _ _ (x :: rest) _ A) as (L & R). apply accept_ok in E. apply accept_none in A.
  destruct (loop_app cfg d now a (x :: rest) _ _ A) as (L' & _). rewrite L' in E. rewrite loop_cons in E by exact R.
  unfold one_read in E. destruct (tcp_read x) as [rx|e|] eqn:T; cbn [sbind] in E; try discriminate.
  assert (rx = x) as -> by (unfold tcp_read in T; destruct x; [discriminate|now apply Ok_inj in T]).
  destruct (server_records (length x) cfg d now h1 x) as [h2 [u|e|]] eqn:S; cbn [sbind] in E; try discriminate.
  apply N. eapply records_whole; eassumption.
Qed.

(* ---- records after the Finished in the same read ---- *)
Lemma last_read cfg d now so a gr h1 h : accept cfg d now so a = (h1, None) -> gr <> [] -> Forall parses gr ->
  accept cfg d now so (a ++ [read_of gr]) = (h, Some (Ok tt)) ->
  exists h2, steps cfg d now h1 gr = (h2, Ok tt) /\ sv_flush h2 = (h, Ok tt) /\ sv_state h2 = SvReady.
Proof.
  intros A NE P E. apply accept_ok in E. apply accept_none in A. destruct (loop_app cfg d now a [read_of gr] _ _ A) as (L & R). rewrite L in E.
  rewrite loop_cons in E by exact R. rewrite one_read_group in E by assumption.
  destruct (steps cfg d now h1 gr) as [h2 [[]|e|]]; cbn [sbind] in E; try discriminate.
  destruct (sv_flush h2) as [h3 [[]|e|]] eqn:F; try discriminate. exists h2. cbn [server_do_handshake] in E.
  assert (S3 : sv_state h3 = sv_state h2) by (unfold sv_flush in F; destruct (flush _); injection F as <- _; reflexivity).
  rewrite S3 in E. destruct (sv_state h2) eqn:S2; try discriminate. injection E as <-. auto.
Qed.
Lemma after_finished cfg d now so a gr extra h1 h : accept cfg d now so a = (h1, None) -> gr <> [] -> Forall parses gr ->
  accept cfg d now so (a ++ [read_of gr]) = (h, Some (Ok tt)) -> Forall parses extra -> Forall no_alert extra ->
  forall later, accept cfg d now so (a ++ read_of (gr ++ extra) :: later) = (h, Some (Ok tt)).
Proof.
  intros A NE P E Pe Ne later. destruct (last_read _ _ _ _ _ _ _ _ A NE P E) as (h2 & S & F & R).
  destruct (accept_app _ _ _ _ _ (read_of (gr ++ extra) :: later) _ A) as (L & R1). rewrite L, loop_cons by exact R1.
  rewrite one_read_group by (first [now apply Forall_app|destruct gr; discriminate || contradiction]).
  rewrite steps_app, S, sbind_Ok, steps_ready, sbind_Ok, F by assumption.
  rewrite loop_ready; [reflexivity|]. unfold sv_flush in F. destruct (flush _); injection F as <- _; exact R.
Qed.
Lemma alert_after_finished cfg d now so a gr alert lv code more h1 h : accept cfg d now so a = (h1, None) -> gr <> [] -> Forall parses gr ->
  accept cfg d now so (a ++ [read_of gr]) = (h, Some (Ok tt)) -> parses alert -> r_type alert = RAlert -> r_fragment alert = lv :: code :: more ->
  accept cfg d now so (a ++ [read_of gr; wire alert]) = (h, Some (Ok tt)) /\
  exists h', accept cfg d now so (a ++ [read_of (gr ++ [alert])]) = (h', Some (Err (error_new code))).
Proof.
  intros A NE P E Pa T Fr. destruct (last_read _ _ _ _ _ _ _ _ A NE P E) as (h2 & S & F & R). split.
  - destruct (accept_app _ _ _ _ _ [read_of gr; wire alert] _ A) as (L & R1). rewrite L, loop_cons by exact R1.
    rewrite one_read_group, S, sbind_Ok, F by assumption. rewrite loop_ready; [reflexivity|]. unfold sv_flush in F. destruct (flush _); injection F as <- _; exact R.
  - destruct (accept_app _ _ _ _ _ [read_of (gr ++ [alert])] _ A) as (L & R1). rewrite L, loop_cons by exact R1.
    rewrite one_read_group by (first [apply Forall_app; auto|destruct gr; discriminate || contradiction]).
    rewrite steps_app, S, sbind_Ok. cbn [steps]. Local Transparent handle_handshake_record. unfold handle_handshake_record. rewrite T, Fr.
    cbn [idx nth_error unwrap sbind]. unfold report_error. cbn [is_official sbind]. eexists. reflexivity.
Qed.

(* ---- alerts while waiting ---- *)
Lemma alert_step cfg d now so a alert rest h1 : accept cfg d now so a = (h1, None) -> parses alert -> r_type alert = RAlert ->
  match r_fragment alert with
  | lv :: code :: _ => accept cfg d now so (a ++ wire alert :: rest) = (h1, Some (Err (error_new code)))
  | _ => accept cfg d now so (a ++ wire alert :: rest) = (h1, Some Panic)
  end.
Proof.
  intros A P T. destruct (accept_app _ _ _ _ _ (wire alert :: rest) _ A) as (L & R).
  assert (Er : read_of [alert] = wire alert) by (unfold read_of; cbn; apply app_nil_r).
  assert (E : accept cfg d now so (a ++ wire alert :: rest) =
    match match steps cfg d now h1 [alert] with (h, Ok _) => match sv_flush h with (h, Ok _) => server_do_handshake cfg d now h rest | (h, o) => (h, Some o) end | (h, o) => (h, Some o) end with
    | (h, Some (Err e)) => let (s, r) := report_error (sv_stream h) e in (with_stream h s, Some r)
    | r => r
    end).
  { rewrite L, loop_cons by exact R. rewrite <- Er. rewrite one_read_group; [|discriminate|constructor; [exact P|constructor]].
    destruct (steps cfg d now h1 [alert]) as [h2 [u|e|]]; reflexivity. }
  rewrite E. cbn [steps]. unfold handle_handshake_record. rewrite T.
  destruct (r_fragment alert) as [|lv [|code more]]; cbn [idx nth_error unwrap sbind]; try reflexivity.
  unfold report_error. cbn [is_official sbind]. destruct h1; reflexivity.
Qed.
Local Opaque handle_handshake_record.
Lemma sealed_alert_step cfg d now so a r rest h1 p p' lv code more : accept cfg d now so a = (h1, None) -> parses r -> r_type r = RApplicationData ->
  st_protection (sv_stream h1) = Some p -> sv_state h1 <> SvClientHello -> rpp_decrypt p r = (p', Ok (RAlert, lv :: code :: more)) ->
  exists h, accept cfg d now so (a ++ wire r :: rest) = (h, Some (Err (error_new code))) /\ st_sock (sv_stream h) = st_sock (sv_stream h1).
Proof.
  intros A P T Hp NH D. destruct (accept_app _ _ _ _ _ (wire r :: rest) _ A) as (L & R).
  assert (Er : read_of [r] = wire r) by (unfold read_of; cbn; apply app_nil_r).
  assert (S : handle_handshake_record cfg d now h1 r = (with_protection h1 (Some p'), Err (GotAlert code))).
  { Local Transparent handle_handshake_record. unfold handle_handshake_record. Local Opaque handle_handshake_record. rewrite T.
    assert (X : handle_handshake_encrypted_record cfg now h1 r = (with_protection h1 (Some p'), Err (GotAlert code))).
    { unfold handle_handshake_encrypted_record. rewrite Hp. cbn [unwrap sbind]. rewrite D. cbn [sbind idx nth_error unwrap]. reflexivity. }
    destruct (sv_state h1); try exact X; contradiction. }
  exists (with_protection h1 (Some p')). split; [|reflexivity]. rewrite L, loop_cons by exact R. rewrite <- Er.
  rewrite one_read_group; [|discriminate|constructor; [exact P|constructor]]. cbn [steps]. rewrite S. cbn [sbind]. unfold report_error. cbn [is_official sbind].
  destruct h1; reflexivity.
Qed.

(* ---- an error in the read of the ClientHello ---- *)
Definition on_out (P : stream -> Prop) (h : server_hs) : Prop := P (sv_stream h).
Lemma hello_pres (P : stream -> Prop) cfg d h rec :
  (forall s t data, P s -> P (fst (write_record s t data))) -> (forall s p, P s -> P (set_protection s p)) ->
  on_out P h -> on_out P (fst (handle_client_hello cfg d h rec)).
Proof.
  intros HW HP W. Local Transparent handle_client_hello. unfold handle_client_hello. Local Opaque handle_client_hello.
  set (Q := on_out P) in *.
  assert (W1 : forall t data h, Q h -> Q (fst (sv_write h t data))).
  { intros t data h0 W0. unfold sv_write, Q, on_out in *. pose proof (HW _ t data W0) as X. destruct (write_record _ _ _). exact X. }
  assert (W2 : forall t data h h' r, Q h -> sv_write h t data = (h', r) -> Q h') by (intros t data h0 h' r W0 E; pose proof (W1 t data h0 W0) as X; now rewrite E in X).
  apply sbind_pres; [exact W|]. intros s hs E; injection E as <- _. destruct (negb _); [exact W|].
  apply sbind_pres; [exact W|]. intros s ch E; injection E as <- _. apply sbind_pres; [exact W|]. intros s [sh pk] E; injection E as <- _.
  apply sbind_pres; [exact W|]. intros s th E; injection E as <- _. apply sbind_pres; [exact W|]. intros s body E; injection E as <- _.
  apply sbind_pres; [now apply W1|]. intros h1 u1 E1. assert (X1 : Q h1) by eauto.
  apply sbind_pres; [destruct (ch_sid ch); [now apply W1|exact X1]|]. intros h2 u2 E2.
  assert (X2 : Q h2) by (destruct (ch_sid ch); [eauto|injection E2 as <- _; exact X1]).
  destruct (client_public_key_share (ch_exts ch)); [|exact X2].
  apply sbind_pres; [exact X2|]. intros s ks E; injection E as <- _. apply sbind_pres; [exact X2|]. intros s c E; injection E as <- _.
  apply sbind_pres; [exact X2|]. intros s p E; injection E as <- _.
  match goal with |- context [with_protection ?x p] => set (hk := x) end.
  assert (X3 : Q (with_protection hk p)).
  { unfold Q, on_out. change (P (set_protection (sv_stream hk) p)). apply HP. unfold hk. destruct (sc_keylog cfg), p; exact X2. } clearbody hk.
  apply sbind_pres; [exact X3|]. intros s ee E; injection E as <- _.
  apply sbind_pres; [now apply W1|]. intros h3 u3 E3. assert (X4 : Q h3) by eauto.
  apply sbind_pres.
  { destruct (sc_client_ca cfg); [|exact X4]. apply sbind_pres; [exact X4|]. intros s req E; injection E as <- _.
    apply sbind_pres; [now apply W1|]. intros h4 u4 E4. cbn [fst]. eapply W2; [|exact E4]. exact X4. }
  intros h4 th4 E4.
  assert (X5 : Q h4).
  { destruct (sc_client_ca cfg); [|injection E4 as <- _; exact X4]. apply sbind_ok in E4. destruct E4 as (s & req & Z & E4). injection Z as <- _.
    apply sbind_ok in E4. destruct E4 as (h5 & u5 & E5 & E4). injection E4 as <- _. eapply W2; [|exact E5]. exact X4. }
  apply sbind_pres; [now apply W1|]. intros h5 u5 E5. assert (X6 : Q h5) by eauto.
  apply sbind_pres; [exact X6|]. intros s cv E; injection E as <- _. apply sbind_pres; [exact X6|]. intros s cv' E; injection E as <- _.
  apply sbind_pres; [now apply W1|]. intros h6 u6 E6. assert (X7 : Q h6) by eauto.
  apply sbind_pres; [exact X7|]. intros s p6 E; injection E as <- _. apply sbind_pres; [exact X7|]. intros s raw E; injection E as <- _.
  apply sbind_pres; [now apply W1|]. intros h7 u7 E7. cbn [fst]. change (Q h7). eapply W2; [|exact E7]. exact X7.
Qed.
Definition unflushed (so : sock) (s : stream) : Prop :=
  (length (so_sent so) + 2048 <= length (out s))%nat \/ st_sock s = so.
Lemma unflushed_write so s t data : unflushed so s -> unflushed so (fst (write_record s t data)).
Proof.
  unfold unflushed, out. intros U. unfold write_record, protect.
  assert (K : forall p w, (length (so_sent so) + 2048 <= length (so_sent (st_sock (fst (let s2 := Stream (st_sock s) p (st_buffer s ++ w) in if Nat.leb 2048 (length (st_buffer s2)) then flush s2 else (s2, Ok (E:=tls_error) tt)))) ++
      st_buffer (fst (let s2 := Stream (st_sock s) p (st_buffer s ++ w) in if Nat.leb 2048 (length (st_buffer s2)) then flush s2 else (s2, Ok (E:=tls_error) tt)))))%nat \/
      st_sock (fst (let s2 := Stream (st_sock s) p (st_buffer s ++ w) in if Nat.leb 2048 (length (st_buffer s2)) then flush s2 else (s2, Ok (E:=tls_error) tt))) = so).
  { intros p w. cbv zeta. cbn [st_buffer]. rewrite app_length in U. destruct (Nat.leb_spec 2048 (length (st_buffer s ++ w))) as [L|L].
    - left. unfold flush. cbn [st_sock st_buffer st_protection]. unfold write_all. destruct (so_left (st_sock s)) as [k|].
      + destruct (Nat.leb_spec (length (st_buffer s ++ w)) k); cbn [fst st_sock st_buffer so_sent]; rewrite !app_length in *; (destruct U as [U|U]; [lia|rewrite U in *; lia]).
      + cbn [fst st_sock st_buffer so_sent]; rewrite !app_length in *; (destruct U as [U|U]; [lia|rewrite U in *; lia]).
    - cbn [fst st_sock st_buffer]. destruct U as [U|U]; [left; rewrite !app_length in *; lia|now right]. }
  destruct (st_protection s) as [p|].
  - destruct (rpp_encrypt p (record_new t data)) as [p' [w|e|]]; cbn [sbind st_sock st_protection st_buffer]; [apply K|exact U..].
  - cbn [sbind st_sock st_protection st_buffer]. apply K.
Qed.
Lemma encrypt_len side n p t m p' w : speaks side n p -> n + 1 < 2^64 -> is_bytes m -> zlen m + 17 < 2^16 -> 
  rpp_encrypt p (record_new t m) = (p', Ok w) -> zlen w = zlen m + 22.
Proof.
  intros (Si & Gc & Gk & Rs) Hn B L E. destruct (encrypt_sealed p t m) as (w' & E' & (e & tg & _ & Le & Lt & _ & _ & _ & Ew)); try assumption.
  { rewrite Si. split; [exact Gk|lia]. }
  rewrite E' in E. injection E as _ <-. rewrite Ew. unfold encode_record, zlen in *. rewrite !app_length, be_enc_length, Le, Lt, app_length. cbn [length]. lia.
Qed.
Lemma enc_all_len side ms : forall n p q ws, speaks side n p -> n + zlen ms < 2^64 -> Forall (fun m => is_bytes m /\ zlen m + 17 < 2^16) ms ->
  enc_all p ms = Some (q, ws) -> zlen (concat ws) = zlen (concat ms) + 22 * zlen ms.
Proof.
  induction ms as [|m ms IH]; intros n p q ws S Hn F E.
  - cbn [enc_all] in E. injection E as <- <-. reflexivity.
  - cbn [enc_all] in E. inversion F as [|? ? (Bm & Lm) Fms]; subst.
    assert (zlen (m :: ms) = zlen ms + 1) as Lz by (unfold zlen; cbn [length]; lia). pose proof (zlen_nonneg ms).
    destruct (rpp_encrypt p (record_new RHandshake m)) as [p' [w|e|]] eqn:Ew; try discriminate.
    destruct (enc_all p' ms) as [[q1 ws1]|] eqn:E1; [|discriminate]. injection E as <- <-. cbn [concat]. rewrite !zlen_app.
    rewrite (encrypt_len _ _ _ _ _ _ _ S ltac:(lia) Bm Lm Ew), (IH (n + 1) p' q1 ws1); try assumption; [lia|..|lia].
    eapply speaks_encrypt; [exact S| |exact Ew]. lia.
Qed.

Lemma flight_size H cfg d g der : server_ok cfg d -> suited H g -> is_bytes der -> (length der <= 72)%nat ->
  zlen (concat (server_flight cfg d g der)) <= zlen (ct_raw (sc_cert cfg)) + 218 /\ 1 <= zlen (server_flight cfg d g der) <= 5.
Proof.
  intros Ok' S Bd Ld. pose proof Ok' as (_ & Bcert & _ & _ & _ & Bctx & Lctx & _).
  destruct (before_finished_ok cfg d der Ok' Bd Ld) as (Bb & Lb).
  pose proof S as (EA & _ & _ & Bh & Lh & _). destruct (suited_schedule _ _ S) as (_ & _ & (Bs & Ls) & _).
  assert (V : length (verify_data g (server_secret g) (g_hellos g ++ concat (before_finished cfg d der))) = hash_len H).
  { unfold verify_data. rewrite EA.
    destruct (Auth.finished_data H (server_secret g) (g_hellos g ++ concat (before_finished cfg d der))) as (_ & V1 & V2); auto.
    - apply is_bytes_app. auto.
    - rewrite zlen_app. lia. }
  Local Transparent server_flight. unfold server_flight. Local Opaque server_flight.
  set (v := verify_data _ _ _) in *. clearbody v.
  assert (HL : (hash_len H <= 48)%nat) by (destruct H; cbn; lia).
  unfold before_finished, before_verify, request. split.
  - rewrite !concat_app. cbn [concat]. rewrite !app_nil_r, !zlen_app. unfold zlen. rewrite !handshake_length, V.
    unfold Rfc8446Hello.certificate_wire, Rfc8446Hello.certificate_verify_wire, Rfc8446Hello.vector16, Rfc8446Hello.vector24, Rfc8446Hello.vector8, Rfc8446Hello.u16.
    rewrite ?app_length, ?be_enc_length. cbn [length].
    destruct (sc_client_ca cfg); cbn [concat length]; rewrite ?app_nil_r; try rewrite handshake_length;
      unfold Rfc8446Hello.certificate_request_wire, Rfc8446Hello.extension, Rfc8446Hello.u16s, Rfc8446Hello.certificate_wire, Rfc8446Hello.vector16, Rfc8446Hello.vector24, Rfc8446Hello.vector8, Rfc8446Hello.u16; cbn [flat_map map concat]; rewrite ?app_length, ?be_enc_length, ?Lctx; cbn [length]; lia.
  - unfold zlen. rewrite !app_length. cbn [length]. destruct (sc_client_ca cfg); cbn [length]; lia.
Qed.

Lemma lost_flight cfg d now so hello ch body g junk rest :
  server_ok cfg d -> zlen body + zlen (ct_raw (sc_cert cfg)) < 1700 -> so_left so = None ->
  whole hello -> r_type hello = RHandshake -> answers cfg d (r_fragment hello) ch body g -> can_sign cfg d g ->
  junk <> [] -> (length junk < 5)%nat ->
  exists h w rec n, accept cfg d now so ((wire hello ++ junk) :: rest) = (h, Some (Err DecodeError)) /\
    so_sent (st_sock (sv_stream h)) = so_sent so ++ w /\ wire rec = w /\ parses rec /\
    opened (g_cipher g) (g_alg g) (g_klen g) (server_secret g) n RAlert [2; 51] rec.
Proof.
  intros Ok' Sz Nso Wh Th A CS NJ LJ. pose proof (whole_formed _ Wh) as Wf. pose proof Wf as (_ & _ & Bf & Lf).
  pose proof (zlen_nonneg body) as Zb. pose proof (zlen_nonneg (ct_raw (sc_cert cfg))) as Zc.
  assert (Lcert : zlen (ct_raw (sc_cert cfg)) < 2^16 - 64) by lia.
  destruct (hello_fwd cfg d (server_new so) hello ch body g Ok' Lcert Bf Lf eq_refl Nso A CS) as (h1 & E1 & N1).
  destruct (hello_spec cfg d (server_new so) hello h1 tt Ok' Bf Lf eq_refl E1) as (H & ch' & body' & g' & der & p0 & p1 & ws & A' & Sg & Bd & Ld & S & N & En & O' & P' & _).
  destruct (answers_fun _ _ _ _ _ _ _ _ _ A A') as (-> & -> & ->).
  destruct (rpp_new_shape _ _ _ _ N) as (M1 & M2 & M3 & M4). pose proof S as (_ & Gc & _).
  pose proof (new_speaks _ _ _ _ Gc N) as Sp. destruct (flight_size H cfg d g der Ok' S Bd Ld) as (F1 & F2).
  pose proof (flight_sizes _ cfg d _ _ Ok' S Bd Ld Lcert) as FB.
  assert (F3 : 0 + zlen (server_flight cfg d g der) < 2^64) by lia. pose proof (enc_all_len false _ 0 _ _ _ Sp F3 FB En) as Lw.
  assert (U : unflushed so (sv_stream h1)).
  { pose proof (hello_pres (unflushed so) cfg d (server_new so) hello (unflushed_write so) (fun s p X => X) (or_intror eq_refl)) as X. rewrite E1 in X. exact X. }
  assert (Sk1 : st_sock (sv_stream h1) = so).
  { destruct U as [U|U]; [exfalso|exact U]. rewrite O' in U. unfold out in U. cbn [server_new sv_stream stream_new st_sock st_buffer] in U.
    rewrite !app_length in U. cbn [length] in U.
    assert (X1 : length (record_as_bytes (record_new RHandshake (Rfc8446Hello.handshake 2 body))) = (9 + length body)%nat).
    { rewrite as_bytes_spec by (cbn [record_new r_fragment]; unfold zlen in *; rewrite handshake_length; lia).
      unfold encode_record. rewrite !app_length, be_enc_length. cbn [record_new r_fragment length]. rewrite handshake_length. lia. }
    assert (X2 : (length (match ch_sid ch with Some _ => record_as_bytes (record_new RChangeCipherSpec [1%Z]) | None => [] end) <= 6)%nat) by (destruct (ch_sid ch); vm_compute; repeat constructor).
    unfold zlen in *. rewrite X1 in U. lia. }
  assert (Dh : server_do_handshake cfg d now (server_new so) ((wire hello ++ junk) :: rest) = (h1, Some (Err DecodeError))).
  { rewrite loop_cons by discriminate. destruct (parse_prefix hello junk (proj1 Wh)) as (Pp & L5).
    assert (NE : wire hello ++ junk <> []) by (destruct (wire hello); [cbn in L5; lia|discriminate]).
    unfold one_read, tcp_read. destruct (wire hello ++ junk) as [|b buf] eqn:Eb; [contradiction|]. rewrite sbind_Ok.
    destruct (length (b :: buf)) as [|f] eqn:Ef; [discriminate|]. cbn [server_records]. rewrite Pp, sbind_Ok.
    cbn [snd fst]. unfold handle_handshake_record at 1. rewrite Th. cbn [server_new sv_state]. fold (server_new so). rewrite E1, sbind_Ok.
    rewrite <- Eb, skipn_app_eq by reflexivity. rewrite <- Eb, app_length in Ef.
    destruct junk as [|j junk]; [contradiction|]. destruct f as [|f]; [lia|]. cbn [server_records]. rewrite from_raw_short by exact LJ. reflexivity. }
  destruct (greeted_keys cfg d (Greeting hello H ch body g der p0 p1 ws)) as (_ & G2 & Hk).
  { unfold greeted. cbn [gr_hello gr_hash gr_ch gr_body gr_g gr_der gr_p0 gr_p1 gr_ws]. auto 10. }
  cbn [gr_g gr_p0] in G2, Hk.
  assert (K0 : keyed H g p0) by (unfold keyed; auto).
  assert (Sk : side_key (rp_is_client p0) (cur_keys p0) = key_at (Connection.traffic_key g (server_secret g)) 0)
    by (rewrite M3; unfold cur_keys; rewrite M4, Hk; reflexivity).
  assert (B1 : Forall is_bytes (server_flight cfg d g der)) by (eapply Forall_impl; [|exact FB]; cbn; tauto).
  assert (B2 : Forall (fun m => zlen m + 17 < 2^16) (server_flight cfg d g der)) by (eapply Forall_impl; [|exact FB]; cbn; tauto).
  destruct (enc_all_carried _ _ _ _ _ _ _ _ K0 M4 Sk G2 (Z.le_refl 0) F3 B1 B2 En) as (_ & _ & _ & _ & _ & Kq & _).
  destruct (enc_all_same _ _ _ _ En) as (Q1 & Q2 & Q3 & Q4 & Q5).
  unfold accept. rewrite Dh. pose proof (loop_talk cfg d now ((wire hello ++ junk) :: rest) _ (new_fresh so)) as T. rewrite Dh in T. cbn [fst] in T.
  destruct (report_error (sv_stream h1) DecodeError) as [s r] eqn:R.
  destruct (report_spec _ _ _ _ _ _ T ltac:(lia) R) as (_ & R2). destruct (R2 ltac:(discriminate)) as (w & Aw & R3).
  rewrite P' in Aw. cbn [alert_record alert_level error_as_u8] in Aw.
  destruct R3 as [(R3 & ->)|(k & X & _)]; [|unfold endless in N1; congruence].
  rewrite Sk1 in R3. destruct (sealed_record _ _ _ _ Aw ltac:(unfold zlen; cbn [length]; lia)) as (rec & Pr & Wr & Tr & Hr & e & t & Fg & Lt & Et & D).
  exists (with_stream h1 s), w, rec, (0 + zlen (server_flight cfg d g der)). split; [reflexivity|]. split; [exact R3|]. split; [exact Wr|].
  split; [unfold parses; now rewrite Wr|]. exists e, t, 0%nat. split; [exact Fg|]. cbv zeta.
  assert (Kp : side_key (rp_is_client p1) (cur_keys p1) = key_at (Connection.traffic_key g (server_secret g)) (0 + zlen (server_flight cfg d g der)))
    by (replace (rp_is_client p1) with (rp_is_client p0) by congruence; exact Kq).
  assert (Cp : rp_cipher p1 = g_cipher g) by congruence.
  rewrite Kp, Cp in Et, D. cbn [key_at k_key k_iv k_seq Connection.traffic_key] in Et, D. cbn [repeat]. rewrite Hr. split; [exact Et|exact D].
Qed.

(* ---- in the terms of Spec.Handshaking ---- *)
Lemma alert_record_bytes p level code w : alert_record p level code w -> Spec.Handshaking.alert_bytes p level code w.
Proof.
  unfold alert_record, Spec.Handshaking.alert_bytes. destruct p as [p|]; [|intros ->; reflexivity].
  intros (e & t & E & Le & Lt & Be & Et & D & Ew). cbv zeta. exists e, t.
  change [23; 3; 3; 0; 19] with (rec_header (zlen [level; code; 21] + 16)). split; [|split; [exact Le|split; [exact Et|exact D]]].
  rewrite Ew. unfold encode_record, rec_header. rewrite app_assoc. do 3 f_equal.
  unfold zlen. rewrite app_length, Le, Lt. reflexivity.
Qed.
Lemma ccs_first cfg d now so ccs more rest : parses ccs -> is_ccs ccs = true ->
  so_left so = None ->
  exists h, accept cfg d now so ((wire ccs ++ more) :: rest) = (h, Some (Err UnexpectedMessage)) /\
    so_sent (st_sock (sv_stream h)) = so_sent so ++ [21; 3; 3; 0; 2; 2; 10].
Proof.
  intros P C N. destruct so as [se le]. cbn [so_left] in N. subst le. unfold accept. rewrite loop_cons by discriminate.
  destruct (parse_prefix ccs more P) as (Pp & L5). unfold one_read, tcp_read.
  destruct (wire ccs ++ more) as [|b buf] eqn:Eb; [destruct (wire ccs); [cbn in L5; lia|discriminate]|]. rewrite sbind_Ok.
  cbn [length server_records]. rewrite Pp, sbind_Ok. cbn [snd]. Local Transparent handle_handshake_record. unfold handle_handshake_record. Local Opaque handle_handshake_record.
  unfold is_ccs in C. destruct (r_type ccs); try discriminate. cbn [server_new sv_state sbind].
  unfold report_error. cbn [is_official sv_stream]. unfold write_alert, protect, stream_new. cbn [st_protection sbind st_sock]. unfold write_all. cbn [so_left]. eexists. split; reflexivity.
Qed.
