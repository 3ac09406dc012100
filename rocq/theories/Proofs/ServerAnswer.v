(* What the client makes of a ServerHello *)
From Verif Require Import Proofs.Util Proofs.Bytes Model.Alert Model.Bytes Model.Suite Model.KeySchedule Model.Record
  Model.Curve Model.Ecdsa Model.Extensions Model.Hello Model.Kex Model.Handshake Model.Certificate
  Model.Stream Model.Server Model.Client Spec.Rfc8446Keys Spec.Tls13Record Spec.Endpoints Spec.Connection Spec.ClientConnection Spec.HelloView Spec.ServerAnswer.
From Verif Require Import Proofs.Hello Proofs.ServerRun Proofs.ServerKeys Proofs.ServerAccept Proofs.ClientReads.
From Verif Require Spec.Rfc8446Hello Proofs.Kex Proofs.ServerAccept2 Proofs.ClientSteps Proofs.ClientAccept Proofs.Record Proofs.Loopback.
Import Spec.Rfc8446Hello.

(* ---- the message ---- *)
Lemma parse_any c m : length (s_random m) = 32%nat -> (s_session_id m = [] \/ length (s_session_id m) = 32%nat) ->
  code16 (s_suite m) -> fits16 (flat_map server_extension_wire (s_extensions m)) ->
  server_hello_from_raw (hello_wire c m) =
  match suite_of (s_suite m) with
  | None => Err InsufficientSecurity
  | Some cs =>
      let! exts := server_exts_loop (length (flat_map server_extension_wire (s_extensions m))) (flat_map server_extension_wire (s_extensions m)) in
      if server_tls13 exts then Ok (ServerHello (s_random m) (session_of (s_session_id m)) cs exts) else Err ProtocolVersion
  end.
Proof.
  intros Hr Hs Hc He.
  unfold hello_wire. set (p := be_enc 2 0x0303 ++ s_random m ++ vector8 (s_session_id m)).
  set (x := flat_map server_extension_wire (s_extensions m)) in *. set (n := s_suite m) in *.
  pose proof He as He'. unfold fits16 in He'.
  assert (Rfc8446Hello.u16 0x0303 ++ s_random m ++ vector8 (s_session_id m) ++ Rfc8446Hello.u16 n ++ [c] ++ vector16 x
          = p ++ be_enc 2 n ++ [c] ++ be_enc 2 (Z.of_nat (length x)) ++ x) as E.
  { unfold p, Rfc8446Hello.u16, vector16. now rewrite <- !app_assoc. }
  rewrite E. clear E.
  assert (length p = 35%nat \/ length p = 67%nat) as Lp.
  { unfold p, vector8. rewrite !app_length, !be_enc_length, Hr. destruct Hs as [->| ->]; [left|right]; reflexivity. }
  unfold server_hello_from_raw.
  assert (length (p ++ be_enc 2 n ++ [c] ++ be_enc 2 (Z.of_nat (length x)) ++ x) = (length p + (5 + length x))%nat) as Lw
    by (rewrite !app_length, !be_enc_length; cbn [length]; lia).
  rewrite Lw. destruct (Nat.ltb_spec (length p + (5 + length x)) 36); [lia|].
  destruct (hello_head (E:=tls_error) 0x0303 (s_random m) (s_session_id m)
              (be_enc 2 n ++ [c] ++ be_enc 2 (Z.of_nat (length x)) ++ x) ltac:(lia) Hr Hs) as (H1 & H2 & H3).
  fold p in H1, H2, H3. rewrite H1, bind_Ok. cbn [Z.eqb negb Pos.eqb]. rewrite H2, bind_Ok.
  assert (forall {A B C} (a : outcome tls_error A) (f : A -> outcome tls_error B) (k : B -> outcome tls_error C),
    bind a (fun v => bind (f v) k) = bind (bind a f) k) as Assoc by (intros A B C [] f k; reflexivity).
  rewrite Assoc. rewrite H3, bind_Ok. clear Assoc H1 H2 H3. cbv beta iota.
  rewrite u16_at_enc by (reflexivity || assumption). rewrite bind_Ok.
  rewrite suite_of_new. destruct (suite_of n) as [cs|]; [|reflexivity]. rewrite bind_Ok.
  rewrite (app_assoc p), (app_assoc _ [c]). set (q := (p ++ be_enc 2 n) ++ [c]).
  assert (length p + 3 = length q)%nat as Lq by (unfold q; rewrite !app_length, be_enc_length; cbn [length]; lia).
  rewrite Lq. rewrite u16_at_enc by (reflexivity || lia). rewrite bind_Ok. rewrite Nat2Z.id.
  rewrite (app_assoc q). rewrite <- (app_nil_r (_ ++ x)), <- app_assoc.
  rewrite slice_mid by (rewrite app_length, be_enc_length; reflexivity). rewrite bind_Ok. reflexivity.
Qed.

Lemma version_view l : server_tls13 (flat_map server_view l) = match first_version l with Some c => c =? 0x0304 | None => false end.
Proof. induction l as [|[c|s|t d] l IH]; [reflexivity..| |]; cbn [flat_map server_view app first_version server_tls13]; exact IH. Qed.
Lemma parse_ok c m : server_hello_ok m ->
  server_hello_from_raw (hello_wire c m) =
  match suite_of (s_suite m) with
  | None => Err InsufficientSecurity
  | Some cs =>
      if match first_version (s_extensions m) with Some v => v =? 0x0304 | None => false end
      then Ok (ServerHello (s_random m) (session_of (s_session_id m)) cs (flat_map server_view (s_extensions m))) else Err ProtocolVersion
  end.
Proof.
  intros (Hr & Hs & Hc & He & Hx). rewrite parse_any by assumption. destruct (suite_of (s_suite m)) as [cs|]; [|reflexivity].
  rewrite server_exts_ok by (assumption || apply le_n). rewrite bind_Ok, version_view. reflexivity.
Qed.
Lemma share_view l : Forall server_ext_ok l ->
  match first_share l with
  | None => server_public_key_share (flat_map server_view l) = None
  | Some e => exists g, group_of (fst e) = Some g /\ server_public_key_share (flat_map server_view l) = Some (KSE g (snd e))
  end.
Proof.
  induction 1 as [|[c|s|t d] l He _ IH]; [reflexivity|exact IH| |exact IH].
  cbn [first_share flat_map server_view app]. destruct He as (Hg & _). unfold shares_of. cbn [flat_map].
  destruct (group_of (fst s)) as [g|]; [|congruence]. exists g. split; reflexivity.
Qed.
Lemma group_29 g code : group_of code = Some g -> (g = X25519g <-> code = 29).
Proof.
  intros H. unfold group_of in H. apply find_some in H. destruct H as (I & H). apply Z.eqb_eq in H. subst code.
  destruct g; cbn; split; congruence.
Qed.

(* ---- the retry request ---- *)
Lemma exts_pre l : Forall server_ext_ok l -> forall rest f, (length l <= f)%nat ->
  server_exts_loop f (flat_map server_extension_wire l ++ rest) =
  let! r := server_exts_loop (f - length l) rest in Ok (flat_map server_view l ++ r).
Proof.
  induction 1 as [|e l He _ IH]; intros rest f Hf.
  - cbn [flat_map app length]. rewrite Nat.sub_0_r. now destruct (server_exts_loop f rest).
  - cbn [flat_map length] in Hf |- *. destruct f as [|f]; [lia|]. replace (Datatypes.S f - Datatypes.S (length l))%nat with (f - length l)%nat by lia.
    rewrite <- app_assoc.
    assert (forall g : list server_ext -> outcome tls_error (list server_ext),
      (let! r := server_exts_loop f (flat_map server_extension_wire l ++ rest) in g r)
      = (let! r := server_exts_loop (f - length l) rest in g (flat_map server_view l ++ r))) as IH'.
    { intros g. rewrite IH by lia. now destruct (server_exts_loop (f - length l) rest). }
    destruct e as [c|s|t d]; cbn [server_extension_wire server_view server_ext_ok app] in *.
    + rewrite server_step by (unfold Rfc8446Hello.u16; rewrite ?be_enc_length; lia).
      change (ext_type_new 43) with (Some TSupportedVersions). cbv iota. unfold versions_client_parse, Rfc8446Hello.u16.
      rewrite (slice_mid [] (be_enc 2 c) _ 0 2 eq_refl (eq_sym (be_enc_length 2 c)) : slice (be_enc 2 c ++ _) 0 2 = _). rewrite !bind_Ok.
      rewrite w_t by assumption. now rewrite IH'.
    + destruct He as (Hg & H4 & H16). rewrite server_step by (rewrite ?entry_length; lia).
      change (ext_type_new 51) with (Some TKeyShare). cbv iota.
      rewrite key_share_client_ok by (repeat split; assumption). rewrite bind_Ok. now rewrite IH'.
    + destruct He as (Hc & H16 & H1 & H2 & H3). rewrite server_step by assumption.
      rewrite ext_type_other by assumption. now rewrite IH by lia.
Qed.
Lemma group_new code : 0 <= code < 2^16 -> named_group_new (to_u16 (be_enc 2 code)) = group_of code.
Proof.
  intros H. rewrite w_t by exact H. unfold group_of, groups_known, named_group_new. cbn [find named_group_u16]. rewrite !(Z.eqb_sym _ code).
  repeat (destruct (_ =? _); [reflexivity|]). reflexivity.
Qed.
Lemma retry_share g : 0 <= g < 2^16 -> key_share_parse (Rfc8446Hello.u16 g) true = match group_of g with Some _ => Panic | None => Err IllegalParameter end.
Proof.
  intros H. unfold key_share_parse, Rfc8446Hello.u16. rewrite be_enc_length. cbn [ks_loop]. rewrite slice_from_in by lia. rewrite bind_Ok. cbn [skipn].
  unfold kse_parse. rewrite group_new by exact H. destruct (group_of g); [|reflexivity].
  rewrite slice_from_in by (rewrite be_enc_length; lia). rewrite bind_Ok. rewrite skipn_all2 by (rewrite be_enc_length; lia). cbn [to_u16].
  change (0 + 4 <? 2^16) with true. cbv iota. unfold slice. rewrite be_enc_length. reflexivity.
Qed.
Lemma retry_parse c m pre g post : length (s_random m) = 32%nat -> (s_session_id m = [] \/ length (s_session_id m) = 32%nat) ->
  code16 (s_suite m) -> fits16 (flat_map server_extension_wire (s_extensions m)) ->
  s_extensions m = pre ++ retry_group g :: post -> Forall server_ext_ok pre -> 0 <= g < 2^16 -> suite_of (s_suite m) <> None ->
  server_hello_from_raw (hello_wire c m) = match group_of g with Some _ => Panic | None => Err IllegalParameter end.
Proof.
  intros Hr Hs Hc He Ex Fp Hg Su. rewrite parse_any by assumption. destruct (suite_of (s_suite m)) as [cs|]; [|congruence].
  rewrite Ex at 2. rewrite flat_map_app. rewrite exts_pre; [|exact Fp|].
  2: { rewrite Ex, flat_map_app, app_length. assert (length pre <= length (flat_map server_extension_wire pre))%nat; [|lia].
       clear. induction pre as [|e pre IH]; [apply le_n|]. cbn [flat_map length]. rewrite app_length.
       assert (1 <= length (server_extension_wire e))%nat by (destruct e; cbn [server_extension_wire]; rewrite ext_length; lia). lia. }
  set (F := (length (flat_map server_extension_wire (s_extensions m)) - length pre)%nat).
  assert (Hf : exists f, F = Datatypes.S f).
  { assert (1 <= F)%nat; [|destruct F as [|f]; [lia|eauto]]. unfold F. rewrite Ex, flat_map_app, app_length. cbn [flat_map]. rewrite app_length.
    assert (length pre <= length (flat_map server_extension_wire pre))%nat.
    { clear. induction pre as [|e pre IH]; [apply le_n|]. cbn [flat_map length]. rewrite app_length.
       assert (1 <= length (server_extension_wire e))%nat by (destruct e; cbn [server_extension_wire]; rewrite ext_length; lia). lia. }
    assert (1 <= length (server_extension_wire (retry_group g)))%nat by (unfold retry_group; cbn [server_extension_wire]; rewrite ext_length; lia). lia. }
  destruct Hf as (f & ->). cbn [flat_map]. unfold retry_group at 1. cbn [server_extension_wire].
  rewrite server_step by (unfold Rfc8446Hello.u16; rewrite ?be_enc_length; lia). change (ext_type_new 51) with (Some TKeyShare). cbv iota.
  rewrite retry_share by exact Hg. destruct (group_of g); reflexivity.
Qed.

(* ---- the connection ---- *)
Local Opaque handshake_from_raw server_hello_from_raw handle_server_hello.
Lemma first_record cfg e now so h0 r rest : connect cfg e now so [] = (h0, None) -> parses r -> r_type r = RHandshake ->
  cl_state h0 = CsServerHello /\ idle h0 /\ st_protection (cl_stream h0) = None /\
  (exists u, send_client_hello cfg e (client_new e so) = (h0, Ok u)) /\
  connect cfg e now so (wire r :: rest) =
    match handle_server_hello cfg h0 r with
    | (h, Ok _) => match client_reads cfg e now h [] rest with
                   | (h, Some (Err er)) => let (s, o) := report_error (cl_stream h) er in (cl_with_stream h s, Some o)
                   | x => x
                   end
    | (h, Err er) => let (s, o) := report_error (cl_stream h) er in (cl_with_stream h s, Some o)
    | (h, Panic) => (h, Some Panic)
    end.
Proof.
  intros H P T. apply connect_none in H. destruct H as (h & u & S & H). destruct (hello_idle _ _ _ _ _ S) as (I & St & N).
  cbn [client_reads] in H. rewrite St in H. injection H as <-.
  split; [exact St|]. split; [exact I|]. split; [exact N|]. split; [eauto|].
  unfold connect, client_do_handshake. rewrite S. rewrite wire1. rewrite reads_group; [|congruence|exact I|discriminate|now constructor].
  cbn [csteps]. unfold client_record. rewrite T, St. destruct (handle_server_hello cfg h r) as [h1 [u1|er|]]; cbn [sbind then_reads]; reflexivity.
Qed.
Definition refusals : list (tls_error * Z) :=
  [(InsufficientSecurity, 71); (ProtocolVersion, 70); (HandshakeFailure, 40); (IllegalParameter, 47)].
Lemma refusal_sent h er code : In (er, code) refusals -> st_protection (cl_stream h) = None -> so_left (st_sock (cl_stream h)) = None ->
  exists s, report_error (cl_stream h) er = (s, Err er) /\ so_sent (st_sock s) = so_sent (st_sock (cl_stream h)) ++ [21; 3; 3; 0; 2; 2; code].
Proof.
  intros I N L. destruct h as [[so' p b] st rq kl lg th ke ce he ra]. cbn [cl_stream st_protection st_sock] in *. subst p. destruct so' as [sent left]. cbn [so_left] in L. subst left.
  unfold refusals in I. cbn [In] in I.
  repeat (destruct I as [I|I]; [injection I as <- <-; eexists; split; reflexivity|]). destruct I.
Qed.
Lemma refused_hello cfg e now so h0 r rest er code : connect cfg e now so [] = (h0, None) -> so_left (st_sock (cl_stream h0)) = None ->
  parses r -> r_type r = RHandshake -> In (er, code) refusals -> handle_server_hello cfg h0 r = (h0, Err er) ->
  exists h, connect cfg e now so (wire r :: rest) = (h, Some (Err er)) /\
    so_sent (st_sock (cl_stream h)) = so_sent (st_sock (cl_stream h0)) ++ [21; 3; 3; 0; 2; 2; code].
Proof.
  intros H L P T I E. destruct (first_record cfg e now so h0 r rest H P T) as (St & Id & N & _ & X). rewrite X, E.
  destruct (refusal_sent h0 er code I N L) as (s & -> & Es). eexists. split; [reflexivity|]. exact Es.
Qed.

Local Transparent handle_server_hello.
Lemma handle_parse cfg h0 r body : r_fragment r = Rfc8446Hello.handshake 2 body -> zlen body < 2^24 ->
  handle_server_hello cfg h0 r =
  match server_hello_from_raw body with
  | Err er => (h0, Err er) | Panic => (h0, Panic)
  | Ok sh => handle_server_hello cfg h0 r
  end.
Proof.
  intros F L. destruct (server_hello_from_raw body) as [sh|er|] eqn:E; [reflexivity|..];
    unfold handle_server_hello; rewrite F;
    pose proof (ServerAccept2.frame_read HtServerHello body [] L) as FR; rewrite app_nil_r in FR;
    change (handshake_type_u8 HtServerHello) with 2 in FR; rewrite FR, sbind_Ok; cbn [hs_type hs_fraqment ht_eqb negb];
    rewrite E; reflexivity.
Qed.
Lemma retry_connect cfg e now so h0 r rest c m pre g post : connect cfg e now so [] = (h0, None) -> parses r -> r_type r = RHandshake ->
  r_fragment r = Rfc8446Hello.handshake 2 (hello_wire c m) -> zlen (hello_wire c m) < 2^24 ->
  length (s_random m) = 32%nat -> (s_session_id m = [] \/ length (s_session_id m) = 32%nat) ->
  code16 (s_suite m) -> fits16 (flat_map server_extension_wire (s_extensions m)) ->
  s_extensions m = pre ++ retry_group g :: post -> Forall server_ext_ok pre -> 0 <= g < 2^16 -> suite_of (s_suite m) <> None ->
  match group_of g with
  | Some _ => connect cfg e now so (wire r :: rest) = (h0, Some Panic)
  | None => so_left (st_sock (cl_stream h0)) = None ->
      exists h, connect cfg e now so (wire r :: rest) = (h, Some (Err IllegalParameter)) /\
        so_sent (st_sock (cl_stream h)) = so_sent (st_sock (cl_stream h0)) ++ [21; 3; 3; 0; 2; 2; 47]
  end.
Proof.
  intros H P T F L Hr Hs Hc He Ex Fp Hg Su. pose proof (retry_parse c m pre g post Hr Hs Hc He Ex Fp Hg Su) as R.
  pose proof (handle_parse cfg h0 r _ F L) as HP. rewrite R in HP. destruct (group_of g).
  - destruct (first_record cfg e now so h0 r rest H P T) as (_ & _ & _ & _ & ->). now rewrite HP.
  - intros Ls. apply (refused_hello cfg e now so h0 r rest IllegalParameter 47); try assumption. unfold refusals. cbn [In]. tauto.
Qed.

Lemma suite_of_cases n : (exists cs, suite_of n = Some cs /\ In n [0x1301; 0x1302; 0x1303] /\ cs <> SCSV /\ suite_u16 cs = n) \/
  (suite_of n = Some SCSV /\ n = 0x00ff) \/ (suite_of n = None /\ ~ In n [0x1301; 0x1302; 0x1303]).
Proof.
  unfold suite_of, suites_known. cbn [find suite_u16]. rewrite !(Z.eqb_sym _ n). cbn [In].
  destruct (Z.eqb_spec n 0x1301) as [->|]; [left; eexists; split; [reflexivity|]; split; [auto|]; split; [discriminate|reflexivity]|].
  destruct (Z.eqb_spec n 0x1302) as [->|]; [left; eexists; split; [reflexivity|]; split; [auto|]; split; [discriminate|reflexivity]|].
  destruct (Z.eqb_spec n 0x1303) as [->|]; [left; eexists; split; [reflexivity|]; split; [auto|]; split; [discriminate|reflexivity]|].
  destruct (Z.eqb_spec n 0x00ff) as [->|]; [right; left; split; reflexivity|]. right; right. split; [reflexivity|]. intuition congruence.
Qed.
Lemma hello_error cfg h0 r c m : server_hello_ok m -> r_fragment r = Rfc8446Hello.handshake 2 (hello_wire c m) -> zlen (hello_wire c m) < 2^24 ->
  (exists x, cl_hello h0 = Some x) -> ~ selects_offered m ->
  exists er code, In (er, code) refusals /\ handle_server_hello cfg h0 r = (h0, Err er).
Proof.
  intros Hm F L (hello & Hh) No. pose proof (parse_ok c m Hm) as PA. destruct Hm as (Hr & Hs & Hc & He & Hx).
  pose proof (handle_parse cfg h0 r _ F L) as HP. rewrite PA in HP.
  destruct (suite_of_cases (s_suite m)) as [(cs & Es & In3 & Ns & Eu)|[(Es & En)|(Es & Nin)]]; rewrite Es in *.
  3: { exists InsufficientSecurity, 71. split; [left; reflexivity|exact HP]. }
  2: { destruct (match first_version (s_extensions m) with Some v => v =? 0x0304 | None => false end) eqn:V;
       [|exists ProtocolVersion, 70; split; [right; left; reflexivity|exact HP]].
       exists InsufficientSecurity, 71. split; [left; reflexivity|]. unfold handle_server_hello. rewrite F.
       pose proof (ServerAccept2.frame_read HtServerHello (hello_wire c m) [] L) as FR; rewrite app_nil_r in FR;
       change (handshake_type_u8 HtServerHello) with 2 in FR; rewrite FR, sbind_Ok; cbn [hs_type hs_fraqment ht_eqb negb].
       rewrite PA, sbind_Ok. reflexivity. }
  destruct (match first_version (s_extensions m) with Some v => v =? 0x0304 | None => false end) eqn:V;
    [|exists ProtocolVersion, 70; split; [right; left; reflexivity|exact HP]].
  exists HandshakeFailure, 40. split; [right; right; left; reflexivity|]. clear HP. unfold handle_server_hello. rewrite F.
  pose proof (ServerAccept2.frame_read HtServerHello (hello_wire c m) [] L) as FR; rewrite app_nil_r in FR;
  change (handshake_type_u8 HtServerHello) with 2 in FR; rewrite FR, sbind_Ok; cbn [hs_type hs_fraqment ht_eqb negb].
  rewrite PA, sbind_Ok. cbn [sh_suite sh_exts].
  assert (exists th, suite_tshash cs = Ok th) as (th & Eth) by (destruct cs; cbn; eauto; congruence). rewrite Eth, sbind_Ok.
  rewrite Hh. cbn [unwrap]. rewrite sbind_Ok. pose proof (share_view _ Hx) as SV.
  destruct (first_share (s_extensions m)) as [[gc key]|] eqn:Fs; [|rewrite SV; reflexivity].
  destruct SV as (g & Eg & SV). cbn [fst snd] in *. rewrite SV. unfold from_handshake. cbn [ks_group].
  assert (Ng : g <> X25519g).
  { intros G. apply (group_29 g gc Eg) in G. subst gc. apply No. split; [exact In3|]. split; [|eauto].
    destruct (first_version (s_extensions m)) as [v|]; [|discriminate]. apply Z.eqb_eq in V. now subst v. }
  destruct g; try congruence; reflexivity.
Qed.
Lemma not_offered cfg e now so h0 r rest c m : client_ok cfg e -> connect cfg e now so [] = (h0, None) -> so_left (st_sock (cl_stream h0)) = None ->
  parses r -> r_type r = RHandshake -> r_fragment r = Rfc8446Hello.handshake 2 (hello_wire c m) -> zlen (hello_wire c m) < 2^24 ->
  server_hello_ok m -> ~ selects_offered m ->
  exists er code h, In (er, code) [(InsufficientSecurity, 71); (ProtocolVersion, 70); (HandshakeFailure, 40); (IllegalParameter, 47)] /\
    connect cfg e now so (wire r :: rest) = (h, Some (Err er)) /\
    so_sent (st_sock (cl_stream h)) = so_sent (st_sock (cl_stream h0)) ++ [21; 3; 3; 0; 2; 2; code].
Proof.
  intros Ok' H L P T F Lz Hm No. destruct (first_record cfg e now so h0 r rest H P T) as (_ & _ & _ & (u & S) & _).
  destruct (ClientSteps.hello_sent _ _ _ _ _ Ok' S) as (Eh & _).
  destruct (hello_error cfg h0 r c m Hm F Lz) as (er & code & I & E); [rewrite Eh; eexists; reflexivity|exact No|].
  destruct (refused_hello cfg e now so h0 r rest er code H L P T I E) as (h & E1 & E2). exists er, code, h. now repeat split.
Qed.

Lemma offered_goes_on cfg e now so h0 r c m key : client_ok cfg e -> connect cfg e now so [] = (h0, None) ->
  parses r -> is_bytes (r_fragment r) -> zlen (r_fragment r) < 2^16 -> r_type r = RHandshake -> r_fragment r = Rfc8446Hello.handshake 2 (hello_wire c m) ->
  server_hello_ok m -> selects_offered m -> first_share (s_extensions m) = Some (29, key) -> (length key <= 32)%nat -> is_bytes key ->
  exists h p, connect cfg e now so [wire r] = (h, None) /\ st_protection (cl_stream h) = Some p /\ st_sock (cl_stream h) = st_sock (cl_stream h0).
Proof.
  intros Ok' H P Bf Lf T F Hm (In3 & Ver & _) Fs Lk Bk. pose proof (parse_ok c m Hm) as PA. destruct Hm as (Hr & Hs & Hc & He & Hx).
  destruct (first_record cfg e now so h0 r [] H P T) as (_ & _ & _ & (u & S) & X).
  destruct (ClientSteps.hello_sent _ _ _ _ _ Ok' S) as (Eh & _).
  assert (Lz : zlen (hello_wire c m) < 2^24).
  { rewrite F in Lf. unfold Rfc8446Hello.handshake, vector24 in Lf. unfold zlen in *. rewrite !app_length in Lf. lia. }
  rewrite Ver in PA.
  change (0x0304 =? 0x0304) with true in PA. cbv iota in PA.
  destruct (suite_of_cases (s_suite m)) as [(cs & Es & _ & Ns & Eu)|[(Es & En)|(Es & Nin)]]; [|exfalso; rewrite En in In3; cbn [In] in In3; lia|contradiction].
  rewrite Es in PA.
  pose proof (share_view _ Hx) as SV. rewrite Fs in SV. destruct SV as (gr & Eg & SV). cbn [fst snd] in *.
  assert (gr = X25519g) by now apply (group_29 gr 29 Eg). subst gr.
  assert (exists a A klen ci, suite_cipher cs = Ok ci /\ suite_parameters (suite_u16 cs) = Some (a, A, klen)) as (a & A & klen & ci & Ec & Ep).
  { destruct cs; try congruence; do 4 eexists; split; reflexivity. }
  pose proof Ok' as (Hsec & _).
  pose proof (Kex.shared_exact (E:=tls_error) (e_secret e) (KSE X25519g key) Hsec Bk Lk) as SS.
  match type of SS with _ = Ok ?z => set (sec := z) in * end. clearbody sec.
  set (g := Agreed ci A klen sec (client_greeting cfg e ++ r_fragment r)).
  set (sh := ServerHello (s_random m) (session_of (s_session_id m)) cs (flat_map server_view (s_extensions m))) in *.
  assert (Ag : agrees cfg e (r_fragment r) sh g).
  { exists (Handshake HtServerHello (hello_wire c m) (r_fragment r)), (KSE X25519g key), a.
    pose proof (ServerAccept2.frame_read HtServerHello (hello_wire c m) [] Lz) as FR; rewrite app_nil_r in FR. rewrite F.
    change (handshake_type_u8 HtServerHello) with 2 in FR. rewrite FR. split; [reflexivity|]. split; [reflexivity|].
    split; [exact PA|]. split; [unfold g; cbn [g_hellos]; now rewrite F|]. split; [apply ClientSteps.share_first; exact SV|]. split; [reflexivity|]. split; [exact SS|]. split; [exact Ec|exact Ep]. }
  destruct (ClientAccept.sh_fwd cfg e h0 r sh g Ok' Bf Lf) as (h1 & E1); [rewrite Eh; reflexivity..|exact Ag|].
  destruct (ClientSteps.server_hello_step cfg e h0 r h1 tt Ok' Bf Lf) as (HH & sh' & g' & p0 & _ & _ & _ & Es1 & _ & St1 & _); [rewrite Eh; reflexivity..|exact E1|].
  exists h1, p0. rewrite X, E1. cbn [client_reads]. rewrite St1. rewrite Es1. cbn [set_protection st_protection st_sock]. now repeat split.
Qed.

(* a client that was started *)
Lemma starts cfg e now so : client_ok cfg e -> so_left so = None ->
  exists h0, connect cfg e now so [] = (h0, None) /\ so_left (st_sock (cl_stream h0)) = None /\
    so_sent (st_sock (cl_stream h0)) = so_sent so ++ firstn (e_took e) (encode_record 22 (client_greeting cfg e)).
Proof.
  intros Ok' Nso. destruct (ClientSteps.hello_built cfg e Ok') as (ch & body & H1 & H2 & H3).
  assert (HS : exists h0, send_client_hello cfg e (client_new e so) = (h0, Ok tt) /\ so_left (st_sock (cl_stream h0)) = None).
  { unfold send_client_hello. cbn [client_new cl_key]. rewrite H1, sbind_Ok, H2, sbind_Ok, H3. cbn [cl_with_hello cl_stream].
    unfold tcp_write. cbn [client_new cl_stream stream_new st_sock st_protection st_buffer].
    unfold write_all. rewrite Nso. eexists. rewrite sbind_Ok. split; reflexivity. }
  destruct HS as (h0 & S & N0). destruct (ClientSteps.hello_sent _ _ _ _ _ Ok' S) as (Eh & _ & _ & Sh).
  exists h0. split; [|split; [exact N0|]].
  2:{ rewrite Sh. unfold ClientSteps.hello_out. do 2 f_equal. apply Record.as_bytes_spec. cbn [record_new r_fragment]. exact (proj2 (ClientSteps.greeting_bytes cfg e Ok')). }
  unfold connect, client_do_handshake. rewrite S. cbn [client_reads].
  assert (cl_state h0 = CsServerHello) as -> by (rewrite Eh; reflexivity). reflexivity.
Qed.

Lemma answer_record body : is_bytes body -> zlen (Rfc8446Hello.handshake 2 body) < 2^16 ->
  exists r, parses r /\ r_type r = RHandshake /\ r_fragment r = Rfc8446Hello.handshake 2 body /\ is_bytes (r_fragment r) /\
    wire r = encode_record 22 (Rfc8446Hello.handshake 2 body) /\ zlen body < 2^24.
Proof.
  intros B L. assert (Bh : is_bytes (Rfc8446Hello.handshake 2 body)).
  { unfold Rfc8446Hello.handshake, vector24. apply is_bytes_app. split; [apply is_bytes_check; reflexivity|]. apply is_bytes_app. split; [apply be_enc_bytes|exact B]. }
  destruct (Loopback.clear_record RHandshake _ Bh L) as (r & (P & _) & T & F & W). exists r. rewrite F.
  split; [exact P|]. split; [exact T|]. split; [reflexivity|]. split; [exact Bh|]. split; [exact W|].
  unfold Rfc8446Hello.handshake, vector24 in L. unfold zlen in *. rewrite !app_length in L. lia.
Qed.

Definition hello_out (cfg : client_config) (e : client_draws) : list Z := firstn (e_took e) (encode_record 22 (client_greeting cfg e)).

Lemma known_group g : existsb (Z.eqb g) [23; 24; 25; 29; 30; 256; 257; 258; 259; 260] = match group_of g with Some _ => true | None => false end.
Proof.
  unfold group_of. change [23; 24; 25; 29; 30; 256; 257; 258; 259; 260] with (map named_group_u16 groups_known).
  induction groups_known as [|a l IH]; [reflexivity|]. cbn [map existsb find]. rewrite (Z.eqb_sym g). destruct (named_group_u16 a =? g); [reflexivity|exact IH].
Qed.
Lemma retry_final cfg e now so c m pre g post rest : client_ok cfg e -> so_left so = None ->
  is_bytes (hello_wire c m) -> zlen (Rfc8446Hello.handshake 2 (hello_wire c m)) < 2^16 ->
  length (s_random m) = 32%nat -> (s_session_id m = [] \/ length (s_session_id m) = 32%nat) -> In (s_suite m) [0x1301; 0x1302; 0x1303] ->
  fits16 (flat_map server_extension_wire (s_extensions m)) ->
  s_extensions m = pre ++ retry_group g :: post -> Forall server_ext_ok pre -> 0 <= g < 2^16 ->
  if existsb (Z.eqb g) [23; 24; 25; 29; 30; 256; 257; 258; 259; 260]
  then snd (connect cfg e now so (encode_record 22 (Rfc8446Hello.handshake 2 (hello_wire c m)) :: rest)) = Some Panic
  else exists h, connect cfg e now so (encode_record 22 (Rfc8446Hello.handshake 2 (hello_wire c m)) :: rest) = (h, Some (Err IllegalParameter)) /\
    so_sent (st_sock (cl_stream h)) = so_sent so ++ hello_out cfg e ++ [21; 3; 3; 0; 2; 2; 47].
Proof.
  intros Ok' N B L Lr Ls In3 Fx Ex Fp Hg. destruct (starts cfg e now so Ok' N) as (h0 & H0 & N0 & S0).
  destruct (answer_record _ B L) as (r & P & T & F & _ & W & L24). rewrite <- W.
  assert (Cs : code16 (s_suite m)) by (cbn [In] in In3; unfold code16; lia).
  assert (Su : suite_of (s_suite m) <> None) by (cbn [In] in In3; destruct In3 as [<-|[<-|[<-|[]]]]; discriminate).
  pose proof (retry_connect cfg e now so h0 r rest c m pre g post H0 P T F L24 Lr Ls Cs Fx Ex Fp Hg Su) as R.
  pose proof (known_group g) as K.
  destruct (group_of g) as [gr|] eqn:G; rewrite K.
  - now rewrite R.
  - destruct (R N0) as (h & E & S). exists h. split; [exact E|]. rewrite S, S0. now rewrite <- app_assoc.
Qed.

Lemma not_offered_final cfg e now so c m rest : client_ok cfg e -> so_left so = None ->
  is_bytes (hello_wire c m) -> zlen (Rfc8446Hello.handshake 2 (hello_wire c m)) < 2^16 -> server_hello_ok m -> ~ selects_offered m ->
  exists er code h, In (er, code) [(InsufficientSecurity, 71); (ProtocolVersion, 70); (HandshakeFailure, 40); (IllegalParameter, 47)] /\
    connect cfg e now so (encode_record 22 (Rfc8446Hello.handshake 2 (hello_wire c m)) :: rest) = (h, Some (Err er)) /\
    so_sent (st_sock (cl_stream h)) = so_sent so ++ hello_out cfg e ++ [21; 3; 3; 0; 2; 2; code].
Proof.
  intros Ok' N B L Hm Ns. destruct (starts cfg e now so Ok' N) as (h0 & H0 & N0 & S0).
  destruct (answer_record _ B L) as (r & P & T & F & _ & W & L24). rewrite <- W.
  destruct (not_offered cfg e now so h0 r rest c m Ok' H0 N0 P T F L24 Hm Ns) as (er & code & h & I & E & S).
  exists er, code, h. split; [exact I|]. split; [exact E|]. rewrite S, S0. now rewrite <- app_assoc.
Qed.
Lemma offered_final cfg e now so c m key : client_ok cfg e -> so_left so = None ->
  is_bytes (hello_wire c m) -> zlen (Rfc8446Hello.handshake 2 (hello_wire c m)) < 2^16 -> server_hello_ok m -> selects_offered m ->
  first_share (s_extensions m) = Some (29, key) -> (length key <= 32)%nat -> is_bytes key ->
  exists h p, connect cfg e now so [encode_record 22 (Rfc8446Hello.handshake 2 (hello_wire c m))] = (h, None) /\
    st_protection (cl_stream h) = Some p /\ so_sent (st_sock (cl_stream h)) = so_sent so ++ hello_out cfg e.
Proof.
  intros Ok' N B L Hm Ns Fs Lk Bk. destruct (starts cfg e now so Ok' N) as (h0 & H0 & N0 & S0).
  destruct (answer_record _ B L) as (r & P & T & F & Bf & W & L24). rewrite <- W. rewrite <- F in L.
  destruct (offered_goes_on cfg e now so h0 r c m key Ok' H0 P Bf L T F Hm Ns Fs Lk Bk) as (h & p & E & Sp & Sk).
  exists h, p. split; [exact E|]. split; [exact Sp|]. now rewrite Sk.
Qed.

(* whatever arrives: a connection that is established selects what was offered *)
Lemma agrees_offered cfg e answer sh g : agrees cfg e answer sh g ->
  In (suite_u16 (sh_suite sh)) [0x1301; 0x1302; 0x1303] /\ server_tls13 (sh_exts sh) = true /\
  exists share, used_share (sh_exts sh) share /\ ks_group share = X25519g.
Proof.
  intros (hs & share & a & _ & _ & P & _ & S1 & S2 & _ & _ & Sp). split; [|split].
  - destruct (sh_suite sh); cbn [suite_u16 In] in *; (discriminate Sp || auto).
  - clear - P. revert P. Local Transparent server_hello_from_raw. unfold server_hello_from_raw. Local Opaque server_hello_from_raw. destruct (Nat.ltb _ _); [discriminate|]. intros P.
    apply bind_ok in P. destruct P as (v & _ & P). destruct (negb _); [discriminate|]. apply bind_ok in P. destruct P as (rd & _ & P). apply bind_ok in P. destruct P as (sl & _ & P).
    apply bind_ok in P. destruct P as ((cs & sid) & _ & P). apply bind_ok in P. destruct P as (code & _ & P). apply bind_ok in P. destruct P as (su & _ & P).
    apply bind_ok in P. destruct P as (el & _ & P). apply bind_ok in P. destruct P as (b & _ & P). apply bind_ok in P. destruct P as (ex & _ & P).
    destruct (server_tls13 ex) eqn:T; [|discriminate]. apply Ok_inj in P. subst sh. exact T.
  - eauto.
Qed.
