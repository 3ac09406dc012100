(* How a handshake ends: when the peer hangs up, when it is refused, and when it panics *)
From Verif Require Import Proofs.Util Proofs.Bytes Model.Alert Model.Bytes Model.Suite Model.KeySchedule Model.Record
  Model.Curve Model.Ecdsa Model.X509 Model.Extensions Model.Hello Model.Kex Model.Handshake Model.Certificate
  Model.Stream Model.Server Model.Client Spec.Alerts Spec.Rfc8446Keys Spec.Tls13Record Spec.Endpoints Spec.Connection Spec.Negotiation Spec.Ends.
From Verif Require Spec.Handshaking Spec.Rfc8446Hello Proofs.ClientReads Proofs.ClientAlerts Proofs.Loopback.
From Verif Require Import Proofs.Record Proofs.Channel Proofs.Hello Proofs.ServerRun Proofs.ServerKeys Proofs.ServerAccept Proofs.ServerAccept2 Proofs.Reads Proofs.Alerting Proofs.Cuts.

Local Opaque handle_handshake_record record_from_raw rpp_decrypt handle_client_hello.

(* ---- the peer hangs up ---- *)
Lemma loop_end cfg d now later : forall reads h,
  server_do_handshake cfg d now h (reads ++ [] :: later) =
  match server_do_handshake cfg d now h reads with (h', None) => (h', Some (Err BrokenPipe)) | x => x end.
Proof.
  induction reads as [|c reads IH]; intros h.
  - cbn [app server_do_handshake]. destruct (sv_state h); reflexivity.
  - destruct (Reads.ready h) eqn:R.
    + apply ready_true in R. cbn [app]. now rewrite !loop_ready by exact R.
    + assert (N : sv_state h <> SvReady) by (intros N; apply ready_true in N; congruence). cbn [app]. rewrite !loop_cons by exact N.
      destruct (one_read cfg d now h c) as [h2 [u|e|]]; [apply IH|reflexivity|reflexivity].
Qed.
Lemma sv_same h : with_stream h (sv_stream h) = h.
Proof. destruct h; reflexivity. Qed.
Lemma accept_end cfg d now so reads later :
  accept cfg d now so (reads ++ [] :: later) =
  match accept cfg d now so reads with (h, None) => (h, Some (Err BrokenPipe)) | x => x end.
Proof.
  unfold accept. rewrite loop_end. destruct (server_do_handshake cfg d now (server_new so) reads) as [h [[u|e|]|]]; try reflexivity.
  - destruct (report_error (sv_stream h) e) as [s r]. reflexivity.
  - unfold report_error. cbn [is_official sbind]. now rewrite sv_same.
Qed.
(* once it has ended nothing more is read *)
Lemma loop_more cfg d now later : forall reads h h' o, server_do_handshake cfg d now h reads = (h', Some o) ->
  server_do_handshake cfg d now h (reads ++ later) = (h', Some o).
Proof.
  induction reads as [|c reads IH]; intros h h' o E.
  - cbn [server_do_handshake] in E. destruct (sv_state h) eqn:St; try discriminate. cbn [app]. rewrite loop_ready by exact St. exact E.
  - destruct (Reads.ready h) eqn:R.
    + apply ready_true in R. cbn [app]. rewrite loop_ready in E |- * by exact R. exact E.
    + assert (N : sv_state h <> SvReady) by (intros N; apply ready_true in N; congruence). cbn [app]. rewrite loop_cons in E |- * by exact N.
      destruct (one_read cfg d now h c) as [h2 [u|e|]]; [now apply IH|exact E|exact E].
Qed.
Lemma accept_more cfg d now so reads later h o : accept cfg d now so reads = (h, Some o) -> accept cfg d now so (reads ++ later) = (h, Some o).
Proof.
  unfold accept. intros E. destruct (server_do_handshake cfg d now (server_new so) reads) as [h1 [o1|]] eqn:L.
  - rewrite (loop_more _ _ _ later _ _ _ _ L). exact E.
  - discriminate.
Qed.

Lemma creads_end cfg e now later : forall reads h df,
  client_reads cfg e now h df (reads ++ [] :: later) =
  match client_reads cfg e now h df reads with (h', None) => (h', Some (Err BrokenPipe)) | x => x end.
Proof.
  induction reads as [|c reads IH]; intros h df.
  - cbn [app client_reads]. destruct (cl_state h); reflexivity.
  - cbn [app client_reads]. destruct (cl_state h); try reflexivity;
      (destruct (tcp_read c) as [rx|er|]; [|reflexivity|reflexivity]);
      (destruct (client_records _ _ _ _ _ _ _ _) as [[h1 df1] [u|er|]]; [|reflexivity|reflexivity]);
      (destruct (cl_flush h1) as [h2 [u2|er|]]; [apply IH|reflexivity|reflexivity]).
Qed.
Lemma connect_end cfg e now so reads later :
  connect cfg e now so (reads ++ [] :: later) =
  match connect cfg e now so reads with (h, None) => (h, Some (Err BrokenPipe)) | x => x end.
Proof.
  unfold connect, client_do_handshake. destruct (send_client_hello cfg e (client_new e so)) as [h0 [u|er|]].
  - rewrite creads_end. destruct (client_reads cfg e now h0 [] reads) as [h [[u1|er|]|]]; try reflexivity.
    + destruct (report_error (cl_stream h) er) as [s r]. reflexivity.
    + unfold report_error. cbn [is_official sbind]. now rewrite ClientReads.cl_same.
  - destruct (report_error (cl_stream h0) er) as [s r]. reflexivity.
  - reflexivity.
Qed.
Lemma creads_more cfg e now later : forall reads h df h' o, client_reads cfg e now h df reads = (h', Some o) ->
  client_reads cfg e now h df (reads ++ later) = (h', Some o).
Proof.
  induction reads as [|c reads IH]; intros h df h' o E.
  - cbn [client_reads] in E. destruct (cl_state h) eqn:St; try discriminate. cbn [app]. rewrite ClientReads.reads_ready by exact St. exact E.
  - cbn [app client_reads] in E |- *. destruct (cl_state h); try exact E;
      (destruct (tcp_read c) as [rx|er|]; [|exact E|exact E]);
      (destruct (client_records _ _ _ _ _ _ _ _) as [[h1 df1] [u|er|]]; [|exact E|exact E]);
      (destruct (cl_flush h1) as [h2 [u2|er|]]; [now apply IH|exact E|exact E]).
Qed.
Lemma connect_more cfg e now so reads later h o : connect cfg e now so reads = (h, Some o) -> connect cfg e now so (reads ++ later) = (h, Some o).
Proof.
  unfold connect, client_do_handshake. destruct (send_client_hello cfg e (client_new e so)) as [h0 [u|er|]]; try (intros E; exact E).
  intros E. destruct (client_reads cfg e now h0 [] reads) as [h1 [o1|]] eqn:L.
  - rewrite (creads_more _ _ _ later _ _ _ _ _ L). exact E.
  - discriminate.
Qed.

(* ---- a hello that is not served ---- *)
Lemma hello_loop cfg d now so hello rest : Reads.parses hello -> r_type hello = RHandshake ->
  server_do_handshake cfg d now (server_new so) (wire hello :: rest) =
  match handle_client_hello cfg d (server_new so) hello with
  | (h, Ok _) => match sv_flush h with (h, Ok _) => server_do_handshake cfg d now h rest | (h, o) => (h, Some o) end
  | (h, o) => (h, Some o)
  end.
Proof.
  intros P T. assert (Er : read_of [hello] = wire hello) by (unfold read_of; cbn; apply app_nil_r). rewrite <- Er.
  rewrite loop_first; [|discriminate|constructor; [exact P|constructor]|reflexivity]. cbn [steps].
  Local Transparent handle_handshake_record. unfold handle_handshake_record. Local Opaque handle_handshake_record.
  rewrite T. change (sv_state (server_new so)) with SvClientHello. cbv iota.
  destruct (handle_client_hello cfg d (server_new so) hello) as [h [u|e|]]; reflexivity.
Qed.
Local Transparent handle_client_hello.
Lemma hello_unserved cfg d so hello body : r_fragment hello = Rfc8446Hello.handshake 1 body -> zlen body < 2^24 ->
  (forall r, answer body (d_random d) (d_secrets d) (sc_server_name cfg) <> Ok r) ->
  handle_client_hello cfg d (server_new so) hello =
  (server_new so, match answer body (d_random d) (d_secrets d) (sc_server_name cfg) with Ok _ => Ok tt | Err e => Err e | Panic => Panic end).
Proof.
  intros F L N. unfold handle_client_hello. rewrite F. pose proof (frame_read HtClientHello body [] L) as FR. rewrite app_nil_r in FR.
  change (handshake_type_u8 HtClientHello) with 1 in FR. rewrite FR, sbind_Ok. cbn [hs_type hs_fraqment].
  change (negb (ht_eqb HtClientHello HtClientHello)) with false. cbv iota. unfold answer in *.
  destruct (client_hello_from_raw body) as [ch|e|]; [|reflexivity|reflexivity]. rewrite sbind_Ok. cbn [bind] in *.
  destruct (server_hello_from_client ch (d_random d) (d_secrets d) (sc_server_name cfg)) as [r|e|]; [|reflexivity|reflexivity].
  destruct (N r). reflexivity.
Qed.
Local Opaque handle_client_hello.
Lemma unserved cfg d now so body rest : so_left so = None -> is_bytes body -> zlen (Rfc8446Hello.handshake 1 body) < 2^16 ->
  match answer body (d_random d) (d_secrets d) (sc_server_name cfg) with
  | Ok _ => True
  | Panic => accept cfg d now so (encode_record 22 (Rfc8446Hello.handshake 1 body) :: rest) = (server_new so, Some Panic)
  | Err e => exists h, accept cfg d now so (encode_record 22 (Rfc8446Hello.handshake 1 body) :: rest) = (h, Some (Err (reported e))) /\
      so_sent (st_sock (sv_stream h)) = so_sent so ++ (if is_official e then encode_record 21 [alert_level e; error_as_u8 e] else [])
  end.
Proof.
  intros N B L. destruct (answer body (d_random d) (d_secrets d) (sc_server_name cfg)) as [r|e|] eqn:A; [exact I| |].
  all: assert (Bh : is_bytes (Rfc8446Hello.handshake 1 body))
    by (unfold Rfc8446Hello.handshake, Rfc8446Hello.vector24; apply is_bytes_app; split; [apply is_bytes_check; reflexivity|]; apply is_bytes_app; split; [apply be_enc_bytes|exact B]).
  all: destruct (Loopback.clear_record RHandshake _ Bh L) as (r & (P & _) & T & F & W); change (rt_code RHandshake) with 22 in W; rewrite <- W.
  all: assert (L24 : zlen body < 2^24) by (unfold Rfc8446Hello.handshake, Rfc8446Hello.vector24 in L; unfold zlen in *; rewrite !app_length in L; lia).
  all: unfold accept; rewrite (hello_loop cfg d now so r rest P T); rewrite (hello_unserved cfg d so r body F L24) by (rewrite A; discriminate); rewrite A.
  - destruct (report_error (sv_stream (server_new so)) e) as [s o] eqn:R.
    destruct (report_spec false 0 (sv_stream (server_new so)) e s o I ltac:(lia) R) as (R1 & R2). exists (with_stream (server_new so) s).
    change (sv_stream (with_stream (server_new so) s)) with s. destruct (is_official e) eqn:Oe.
    + apply official_code in Oe. destruct (R2 Oe) as (w & Aw & [(S1 & ->)|(k & K & _)]).
      * cbn [alert_record server_new sv_stream stream_new st_protection st_sock] in Aw, S1. split; [|rewrite S1; congruence].
        do 3 f_equal. destruct e; try reflexivity. now destruct Oe.
      * cbn [server_new sv_stream stream_new st_sock] in K. congruence.
    + assert (C : rfc8446_code e = None) by (destruct (rfc8446_code e) eqn:C; [|reflexivity]; assert (X : is_official e = true) by (apply official_code; congruence); congruence).
      destruct (R1 C) as (-> & ->). split; [reflexivity|]. now rewrite app_nil_r.
  - reflexivity.
Qed.

(* ---- somebody without the keys ---- *)
Local Transparent record_from_raw.
Lemma consumes x n r : record_from_raw x = Ok (n, r) -> (5 <= n)%nat.
Proof.
  unfold record_from_raw. destruct (Nat.ltb (length x) 5); [discriminate|]. intros P.
  do 6 (apply bind_ok in P; destruct P as (? & _ & P)). destruct (Nat.ltb _ _); [discriminate|].
  do 2 (apply bind_ok in P; destruct P as (? & _ & P)). apply Ok_inj in P. injection P as <- _. lia.
Qed.
Local Opaque record_from_raw.
Definition waits_sealed (h : server_hs) (p : rpp) : Prop := st_protection (sv_stream h) = Some p /\ sv_state h <> SvClientHello /\ sv_state h <> SvReady.
Lemma record_unkeyed cfg d now h p r : waits_sealed h p -> (r_type r = RAlert -> (2 <= length (r_fragment r))%nat) ->
  (r_type r <> RAlert -> r_type r <> RChangeCipherSpec -> exists e, snd (rpp_decrypt p r) = Err e) ->
  handle_handshake_record cfg d now h r = (h, Ok tt) \/ exists h' e, handle_handshake_record cfg d now h r = (h', Err e).
Proof.
  intros (Hp & S1 & S2) Ha Hd. Local Transparent handle_handshake_record. unfold handle_handshake_record. Local Opaque handle_handshake_record.
  assert (X : r_type r <> RAlert -> r_type r <> RChangeCipherSpec -> exists h' e, handle_handshake_encrypted_record cfg now h r = (h', Err e)).
  { intros N1 N2. destruct (Hd N1 N2) as (e & E). unfold handle_handshake_encrypted_record. rewrite Hp. cbn [unwrap]. rewrite sbind_Ok.
    destruct (rpp_decrypt p r) as [p' o]. cbn [snd] in E. subst o. eexists. exists e. reflexivity. }
  destruct (r_type r) eqn:T.
  - right. destruct (X ltac:(discriminate) ltac:(discriminate)) as (h' & e & E). exists h', e. destruct (sv_state h); try contradiction; exact E.
  - left. destruct (sv_state h); try contradiction; reflexivity.
  - right. specialize (Ha eq_refl). destruct (r_fragment r) as [|a [|b l]]; cbn [length] in Ha; try lia.
    cbn [idx nth_error unwrap]. rewrite sbind_Ok. eauto.
  - right. destruct (X ltac:(discriminate) ltac:(discriminate)) as (h' & e & E). exists h', e. destruct (sv_state h); try contradiction; exact E.
  - right. destruct (X ltac:(discriminate) ltac:(discriminate)) as (h' & e & E). exists h', e. destruct (sv_state h); try contradiction; exact E.
Qed.
Lemma records_unkeyed cfg d now h p : waits_sealed h p -> forall x, unkeyed p x -> forall fuel, (length x <= fuel)%nat ->
  server_records fuel cfg d now h x = (h, Ok tt) \/ exists h' e, server_records fuel cfg d now h x = (h', Err e).
Proof.
  intros W. induction 1 as [|x (e & E)|x n r E Ha Hd _ IH]; intros fuel Lf.
  - left. destruct fuel; reflexivity.
  - destruct x as [|b x]; [left; destruct fuel; reflexivity|]. destruct fuel as [|fuel]; [cbn in Lf; lia|].
    right. cbn [server_records]. rewrite E. cbn [sbind]. eauto.
  - pose proof (consumes _ _ _ E) as N5. destruct x as [|b x]; [left; destruct fuel; reflexivity|]. destruct fuel as [|fuel]; [cbn in Lf; lia|].
    cbn [server_records]. rewrite E, sbind_Ok. cbn [fst snd].
    destruct (record_unkeyed cfg d now h p r W Ha Hd) as [S|(h' & e & S)]; rewrite S; [rewrite sbind_Ok|right; cbn [sbind]; eauto].
    apply IH. rewrite skipn_length. cbn [length] in Lf |- *. lia.
Qed.
Lemma loop_unkeyed cfg d now p : forall reads h, waits_sealed h p -> st_buffer (sv_stream h) = [] -> Forall (unkeyed p) reads ->
  server_do_handshake cfg d now h reads = (h, None) \/ exists h' e, server_do_handshake cfg d now h reads = (h', Some (Err e)).
Proof.
  induction reads as [|x reads IH]; intros h W B F.
  - left. cbn [server_do_handshake]. destruct W as (_ & _ & S2). destruct (sv_state h); try reflexivity. contradiction.
  - inversion F as [|? ? Fx Fr]; subst. rewrite loop_cons by apply W. unfold one_read. destruct x as [|b x].
    + right. cbn [tcp_read sbind]. eauto.
    + cbn [tcp_read]. rewrite sbind_Ok. destruct (records_unkeyed cfg d now h p W _ Fx _ (le_n _)) as [S|(h' & e & S)]; rewrite S.
      * rewrite sbind_Ok, flush_empty by exact B. now apply IH.
      * right. cbn [sbind]. eauto.
Qed.
Lemma accept_unkeyed cfg d now so before reads h1 p : accept cfg d now so before = (h1, None) ->
  st_protection (sv_stream h1) = Some p -> Forall (unkeyed p) reads ->
  accept cfg d now so (before ++ reads) = (h1, None) \/ exists h e, accept cfg d now so (before ++ reads) = (h, Some (Err e)).
Proof.
  intros A Hp F. destruct (accept_app _ _ _ _ _ reads _ A) as (L & R). apply accept_none in A.
  assert (I : fresh_or 5 h1 /\ st_buffer (sv_stream h1) = []).
  { clear - A. assert (G : forall a h, fresh_or 5 h -> st_buffer (sv_stream h) = [] -> server_do_handshake cfg d now h a = (h1, None) -> fresh_or 5 h1 /\ st_buffer (sv_stream h1) = []).
    2:{ apply (G before (server_new so)); [apply new_fresh|reflexivity|exact A]. }
    clear. induction a as [|c a IH]; intros h F B E.
    - cbn [server_do_handshake] in E. destruct (sv_state h); try discriminate; injection E as <-; now split.
    - destruct (Reads.ready h) eqn:R.
      + apply ready_true in R. rewrite loop_ready in E by exact R. discriminate.
      + assert (N : sv_state h <> SvReady) by (intros N; apply ready_true in N; congruence). rewrite loop_cons in E by exact N. unfold one_read in E.
        destruct (tcp_read c) as [rx|e|]; cbn [sbind] in E; try discriminate.
        destruct (server_records (length rx) cfg d now h rx) as [h2 [u|e|]] eqn:S; cbn [sbind] in E; try discriminate.
        destruct (records_fresh cfg d now (length rx) h rx F) as (_ & X). specialize (X _ _ S).
        destruct (sv_flush h2) as [h3 [[]|e|]] eqn:Fl; try discriminate. destruct (flush_done _ _ Fl) as (B3 & S3).
        apply (IH h3); [|exact B3|exact E]. unfold sv_flush, flush in Fl. destruct (write_all _ _) as [so' []]; [|discriminate]. injection Fl as <-. exact X. }
  destruct I as ((_ & Fr) & B). assert (W : waits_sealed h1 p).
  { split; [exact Hp|]. split; [|exact R]. intros S. specialize (Fr S). congruence. }
  destruct (loop_app cfg d now before reads _ _ A) as (L2 & _). pose proof (loop_talk cfg d now (before ++ reads) _ (new_fresh so)) as T. rewrite L2 in T.
  rewrite L. destruct (loop_unkeyed cfg d now p reads h1 W B F) as [S|(h' & e & S)]; rewrite S in T |- *; [now left|right].
  cbn [fst] in T. destruct (report_error (sv_stream h') e) as [s o] eqn:Re. exists (with_stream h' s).
  destruct (report_spec _ _ _ _ _ _ T ltac:(lia) Re) as (R1 & R2). destruct (is_official e) eqn:Oe.
  - apply official_code in Oe. destruct (R2 Oe) as (w & _ & [(_ & ->)|(k & _ & _ & _ & ->)]); eauto.
  - assert (C : rfc8446_code e = None) by (destruct (rfc8446_code e) eqn:C; [|reflexivity]; assert (X : is_official e = true) by (apply official_code; congruence); congruence).
    destruct (R1 C) as (_ & ->). eauto.
Qed.

Definition cwaits_sealed (h : client_hs) (p : rpp) : Prop := st_protection (cl_stream h) = Some p /\ cl_state h <> CsServerHello /\ cl_state h <> CsReady.
Lemma crecord_unkeyed cfg e now h p r : cwaits_sealed h p -> sealed_out p r ->
  client_record cfg e now h r = (h, Ok tt) \/ exists h' er, client_record cfg e now h r = (h', Err er).
Proof.
  intros (Hp & S1 & S2) (Ha & Hd). unfold client_record.
  assert (X : r_type r <> RAlert -> r_type r <> RChangeCipherSpec -> exists h' er, client_encrypted_record cfg e now h r = (h', Err er)).
  { intros N1 N2. destruct (Hd N1 N2) as (er & E). unfold client_encrypted_record. rewrite Hp. cbn [unwrap]. rewrite sbind_Ok.
    destruct (rpp_decrypt p r) as [p' o]. cbn [snd] in E. subst o. eexists. exists er. reflexivity. }
  destruct (r_type r) eqn:T.
  - right. destruct (X ltac:(discriminate) ltac:(discriminate)) as (h' & er & E). exists h', er. destruct (cl_state h); try contradiction; exact E.
  - left. destruct (cl_state h); try contradiction; reflexivity.
  - right. specialize (Ha eq_refl). destruct (r_fragment r) as [|a [|b l]]; cbn [length] in Ha; try lia.
    cbn [idx nth_error unwrap]. rewrite sbind_Ok. eauto.
  - right. destruct (X ltac:(discriminate) ltac:(discriminate)) as (h' & er & E). exists h', er. destruct (cl_state h); try contradiction; exact E.
  - right. destruct (X ltac:(discriminate) ltac:(discriminate)) as (h' & er & E). exists h', er. destruct (cl_state h); try contradiction; exact E.
Qed.
Lemma csteps_unkeyed cfg e now h p : cwaits_sealed h p -> forall gr, Forall (sealed_out p) gr ->
  ClientReads.csteps cfg e now h gr = (h, Ok tt) \/ exists h' er, ClientReads.csteps cfg e now h gr = (h', Err er).
Proof.
  intros W. induction 1 as [|r gr R _ IH]; [now left|].
  change (ClientReads.csteps cfg e now h (r :: gr)) with (let@ (h, _) := client_record cfg e now h r in ClientReads.csteps cfg e now h gr).
  destruct (crecord_unkeyed cfg e now h p r W R) as [S|(h' & er & S)]; rewrite S; [rewrite sbind_Ok; exact IH|right; exists h', er; reflexivity].
Qed.
Lemma creads_unkeyed cfg e now p : forall groups h, cwaits_sealed h p -> ClientReads.idle h ->
  Forall (fun gr => gr <> [] /\ Forall ClientReads.parses gr /\ Forall (sealed_out p) gr) groups ->
  client_reads cfg e now h [] (map (fun gr => concat (map wire gr)) groups) = (h, None) \/
  exists h' er, client_reads cfg e now h [] (map (fun gr => concat (map wire gr)) groups) = (h', Some (Err er)).
Proof.
  induction groups as [|gr groups IH]; intros h W Id F.
  - left. cbn [map client_reads]. destruct W as (_ & _ & S2). destruct (cl_state h); try reflexivity. contradiction.
  - inversion F as [|? ? (N & P & R) Fr]; subst. change (map (fun gr => concat (map wire gr)) (gr :: groups)) with (Spec.Handshaking.bytes_of gr :: map (fun gr => concat (map wire gr)) groups).
    rewrite ClientReads.reads_group; [|apply W|exact Id|exact N|exact P].
    destruct (csteps_unkeyed cfg e now h p W gr R) as [S|(h' & er & S)]; rewrite S; cbn [ClientReads.then_reads]; [now apply IH|right; eauto].
Qed.
Lemma connect_unkeyed cfg e now so recs before h1 p groups : Spec.Handshaking.delivers recs before -> Forall ClientReads.parses recs -> Forall ClientReads.no_alert recs -> recs <> [] ->
  connect cfg e now so before = (h1, None) -> st_protection (cl_stream h1) = Some p ->
  Forall (fun gr => gr <> [] /\ Forall ClientReads.parses gr /\ Forall (sealed_out p) gr) groups ->
  let reads := map (fun gr => concat (map wire gr)) groups in
  connect cfg e now so (before ++ reads) = (h1, None) \/ exists h er, connect cfg e now so (before ++ reads) = (h, Some (Err er)).
Proof.
  intros D P A NE E Hp F reads. destruct (ClientReads.waiting _ _ _ _ _ _ _ D P A E) as (Id & St & M & h & u & S0 & C & _).
  destruct (ClientReads.hello_idle _ _ _ _ _ S0) as (Ih & _).
  pose proof (ClientReads.delivers_reads cfg e now reads _ _ D h Ih P A) as X. rewrite C in X. cbn [ClientReads.then_reads] in X.
  pose proof (ClientAlerts.connect_talk cfg e now so (before ++ reads)) as T. unfold connect, client_do_handshake in T |- *. rewrite S0, X in T |- *.
  destruct (creads_unkeyed cfg e now p groups h1 (conj Hp (conj (M NE) St)) Id F) as [S|(h' & er & S)]; fold reads in S; rewrite S in T |- *; [now left|right].
  cbn [fst] in T. destruct (report_error (cl_stream h') er) as [s o] eqn:Re. exists (cl_with_stream h' s).
  destruct (report_spec _ _ _ _ _ _ T ltac:(lia) Re) as (R1 & R2). destruct (is_official er) eqn:Oe.
  - apply official_code in Oe. destruct (R2 Oe) as (w & _ & [(_ & ->)|(k & _ & _ & _ & ->)]); eauto.
  - assert (Cn : rfc8446_code er = None) by (destruct (rfc8446_code er) eqn:Cn; [|reflexivity]; assert (Y : is_official er = true) by (apply official_code; congruence); congruence).
    destruct (R1 Cn) as (_ & ->). eauto.
Qed.

(* ---- panics ---- *)
Lemma accept_cut cfg d now so before x later h1 : accept cfg d now so before = (h1, None) -> x <> [] -> record_from_raw x = Panic ->
  accept cfg d now so (before ++ x :: later) = (h1, Some Panic).
Proof.
  intros A N P. destruct (accept_app _ _ _ _ _ (x :: later) _ A) as (L & R). rewrite L, loop_cons by exact R. unfold one_read.
  destruct x as [|b x]; [contradiction|]. cbn [tcp_read]. rewrite sbind_Ok. cbn [server_records length]. rewrite P. reflexivity.
Qed.
Local Transparent rpp_decrypt record_from_raw.
Lemma empty_sealed p : exists r, record_from_raw [23; 3; 3; 0; 0] = Ok (5%nat, r) /\ r_type r = RApplicationData /\ snd (rpp_decrypt p r) = Panic.
Proof. eexists. split; [reflexivity|]. split; reflexivity. Qed.
Local Opaque rpp_decrypt record_from_raw.
Lemma accept_empty cfg d now so before later h1 p : accept cfg d now so before = (h1, None) -> st_protection (sv_stream h1) = Some p -> sv_state h1 <> SvClientHello ->
  snd (accept cfg d now so (before ++ [23; 3; 3; 0; 0] :: later)) = Some Panic.
Proof.
  intros A Hp N. destruct (accept_app _ _ _ _ _ ([23; 3; 3; 0; 0] :: later) _ A) as (L & R). rewrite L, loop_cons by exact R. unfold one_read.
  cbn [tcp_read]. rewrite sbind_Ok. cbn [server_records length]. destruct (empty_sealed p) as (r & E & T & D). rewrite E, sbind_Ok. cbn [fst snd].
  Local Transparent handle_handshake_record. unfold handle_handshake_record. Local Opaque handle_handshake_record. rewrite T.
  assert (X : exists h', handle_handshake_encrypted_record cfg now h1 r = (h', Panic)).
  { unfold handle_handshake_encrypted_record. rewrite Hp. cbn [unwrap]. rewrite sbind_Ok. destruct (rpp_decrypt p r) as [p' o]. cbn [snd] in D. subst o. eexists. reflexivity. }
  destruct X as (h' & X). destruct (sv_state h1); try contradiction; rewrite X; reflexivity.
Qed.
Lemma connect_cut cfg e now so recs before x later h1 : Spec.Handshaking.delivers recs before -> Forall ClientReads.parses recs -> Forall ClientReads.no_alert recs ->
  connect cfg e now so before = (h1, None) -> x <> [] -> record_from_raw x = Panic -> snd (connect cfg e now so (before ++ x :: later)) = Some Panic.
Proof.
  intros D P A E N Px. destruct (ClientReads.waiting _ _ _ _ _ _ _ D P A E) as (Id & St & _ & h & u & _ & _ & X). rewrite X.
  rewrite ClientReads.reads_cons by assumption. cbv zeta. destruct x as [|b x]; [contradiction|]. cbn [client_records length Nat.ltb Nat.leb orb negb slice_from skipn].
  cbn [Nat.add]. unfold slice_from. cbn [Nat.leb skipn length]. rewrite sbind_Ok. rewrite Px. reflexivity.
Qed.
