(* The first protected record of the server, if it is one of Spec/Broken.v, brings the client down *)
From Verif Require Import Proofs.Util Proofs.Bytes Model.Alert Model.Bytes Model.Suite Model.Sha2 Model.Hmac Model.KeySchedule Model.Record Model.Channel
  Model.Curve Model.Signature Model.Ecdsa Model.X509 Model.Extensions Model.Hello Model.Kex Model.Handshake Model.Certificate
  Model.Stream Model.AppChannel Model.Keylog Model.Server Model.Client
  Spec.Enc Spec.Rfc2104 Spec.Fips180 Spec.Rfc8446Keys Spec.Tls13Record Spec.Endpoints Spec.Writes Spec.Rfc8446Auth Spec.Connection
  Spec.ClientConnection Spec.ClientAccept Spec.Broken Spec.ClientCrashes.
From Verif Require Spec.Rfc8446Hello Spec.Ecdsa.
From Verif Require Import Proofs.KeySchedule Proofs.Record Proofs.Channel Proofs.Stream Proofs.ServerRun Proofs.ServerKeys Proofs.Opened
  Proofs.ServerSteps Proofs.ServerFlow Proofs.ClientSteps Proofs.ClientFlow Proofs.ClientRun Proofs.ServerAccept Proofs.ServerAccept2 Proofs.ClientAccept Proofs.ClientAccept2.
From Verif Require Proofs.Hmac Proofs.Sha2 Proofs.Auth Proofs.HelloTotal Proofs.Kex Proofs.EcdsaP256 Proofs.ServerCrash.

Local Opaque client_greeting th_update rpp_encrypt rpp_decrypt record_from_raw handle_server_hello handshake_from_raw.

Section Fixed.
Variables (cfg : client_config) (e : client_draws) (now : Z) (base : list Z) (g : agreed).
Definition doomed (h : client_hs) (rest : list record) : Prop :=
  endless (cl_stream h) /\ cl_state h = CsEncryptedExtensions /\ (exists x, cg_g x = g /\ cgreeted cfg e x /\ clive cfg e base x h 0 []) /\
  exists r tl, without_ccs rest = r :: tl /\ broken (opens_server g 0) r.
Lemma doomed_more h : ~ doomed h [].
Proof. intros (_ & _ & _ & r & tl & E & _). discriminate. Qed.

Lemma record_crash h r rest : wellformed r -> doomed h (r :: rest) ->
  exists h', client_record cfg e now h r = (h', Panic) \/ client_record cfg e now h r = (h', Ok tt) /\ doomed h' rest.
Proof.
  intros W (N & St & (x & Eg & G & L) & r' & tl & Er & X). rewrite without_cons in Er. destruct (is_ccs r) eqn:IC.
  - assert (T : r_type r = RChangeCipherSpec) by (unfold is_ccs in IC; destruct (r_type r); congruence). exists h. right. unfold client_record. rewrite T, St.
    split; [reflexivity|]. split; [exact N|]. split; [exact St|]. split; [eauto|]. exists r', tl. auto.
  - injection Er as <- _. pose proof L as (_ & _ & _ & _ & p & P & K & Ic & Na & _ & Pk).
    assert (ENC : r_type r <> RAlert -> r_type r <> RChangeCipherSpec -> client_record cfg e now h r = client_encrypted_record cfg e now h r).
    { intros N1 N2. unfold client_record. rewrite St. destruct (r_type r); congruence. }
    assert (OPEN : forall t content, t <> RInvalid -> opens_server g 0 t content r -> is_bytes content /\ exists p', rpp_decrypt p r = (p', Ok (t, content))).
    { intros t content NI O. rewrite <- Eg in O. destruct (cgreeted_keys _ _ _ G) as (_ & G2 & _).
      destruct (opened_decrypt _ _ p (server_secret (cg_g x)) 0 r t content K Na Pk G2 NI ltac:(lia) ltac:(lia) O) as (p' & D).
      destruct (live_open cfg e base x h 0 [] p r p' t content G L W ltac:(lia) P D NI) as (_ & Bc & _). eauto. }
    destruct X as [T S|N1 N2 S|content T O S|ty b1 b2 b3 body T O I S].
    + exists h. left. unfold client_record. rewrite T. destruct (r_fragment r) as [|a [|b f]]; [reflexivity|reflexivity|cbn [length] in S; lia].
    + rewrite (ENC N1 N2). unfold client_encrypted_record. rewrite P. cbn [unwrap]. rewrite sbind_Ok, (Proofs.ServerCrash.decrypt_short p r S). eexists. left. reflexivity.
    + rewrite ENC by congruence. destruct (OPEN RAlert content ltac:(discriminate) O) as (_ & p' & D). unfold client_encrypted_record. rewrite P. cbn [unwrap]. rewrite sbind_Ok, D, sbind_Ok.
      cbv iota beta zeta. eexists. left. destruct content as [|a [|b f]]; [reflexivity|reflexivity|cbn [length] in S; lia].
    + rewrite ENC by congruence. destruct (OPEN RHandshake _ ltac:(discriminate) O) as (Bm & p' & D). unfold client_encrypted_record. rewrite P. cbn [unwrap]. rewrite sbind_Ok, D, sbind_Ok.
      cbv iota beta zeta. cbn [length client_messages]. rewrite (Proofs.ServerCrash.frame_down ty b1 b2 b3 body Bm I S). eexists. left. reflexivity.
Qed.
Local Opaque client_record.
Lemma group_crash : forall gr fuel pre h rest, Forall whole gr -> (length (read_of gr) < fuel)%nat ->
  pre <> [] -> doomed h (gr ++ rest) ->
  exists h', (exists d, client_records fuel cfg e now h (pre ++ read_of gr) [] (length pre) = ((h', d), Panic)) \/
    client_records fuel cfg e now h (pre ++ read_of gr) [] (length pre) = ((h', []), Ok tt) /\ doomed h' rest.
Proof.
  induction gr as [|r gr IH]; intros fuel pre h rest FW F NP C.
  - exists h. right. split; [|exact C]. unfold read_of. cbn [map concat]. rewrite app_nil_r. destruct fuel; [lia|]. cbn [client_records]. rewrite Nat.ltb_irrefl. reflexivity.
  - inversion FW as [|? ? W1 W2]; subst. cbn [app] in C.
    change (read_of (r :: gr)) with (wire r ++ read_of gr) in *. rewrite app_length in F. destruct (parse_prefix r (read_of gr) (proj1 W1)) as (P & L5).
    destruct fuel as [|fuel]; [lia|]. cbn [client_records]. rewrite app_length. replace (Nat.ltb (length pre) (length pre + length (wire r ++ read_of gr))) with true
      by (symmetry; apply Nat.ltb_lt; rewrite app_length; lia). cbn [orb negb]. rewrite slice_from_pre, sbind_Ok, P. cbn [fst snd].
    destruct (record_crash h r (gr ++ rest) (whole_formed _ W1) C) as (h1 & [E1 | (E1 & C1)]); rewrite E1; [exists h1; left; eexists; reflexivity|].
    replace (Nat.eqb (length pre + length (wire r)) (length (@nil Z))) with false by (symmetry; apply Nat.eqb_neq; cbn [length]; lia).
    destruct (IH fuel (pre ++ wire r) h1 rest W2 ltac:(lia)) as (h' & H); [intros Q; apply app_eq_nil in Q; destruct Q; contradiction|exact C1|].
    exists h'. rewrite app_length, <- app_assoc in H. exact H.
Qed.
Lemma group_first_crash gr h rest : gr <> [] -> Forall whole gr -> doomed h (gr ++ rest) ->
  exists h', (exists d, client_records (Datatypes.S (length (read_of gr) + length (@nil Z))) cfg e now h (read_of gr) [] 0 = ((h', d), Panic)) \/
    client_records (Datatypes.S (length (read_of gr) + length (@nil Z))) cfg e now h (read_of gr) [] 0 = ((h', []), Ok tt) /\ doomed h' rest.
Proof.
  intros NE FW C. destruct gr as [|r gr]; [contradiction|]. inversion FW as [|? ? W1 W2]; subst. cbn [app] in C.
  change (read_of (r :: gr)) with (wire r ++ read_of gr) in *. destruct (parse_prefix r (read_of gr) (proj1 W1)) as (P & L5).
  remember (length (wire r ++ read_of gr) + length (@nil Z))%nat as fuel eqn:Ef. cbn [client_records].
  replace (Nat.ltb 0 (length (wire r ++ read_of gr))) with true by (symmetry; apply Nat.ltb_lt; rewrite app_length; lia). cbn [orb negb].
  pose proof (@slice_from_pre tls_error [] (wire r ++ read_of gr)) as SF. cbn [app length] in SF. rewrite SF, sbind_Ok, P. cbn [fst snd].
  destruct (record_crash h r (gr ++ rest) (whole_formed _ W1) C) as (h1 & [E1 | (E1 & C1)]); rewrite E1; [exists h1; left; eexists; reflexivity|].
  replace (Nat.eqb (0 + length (wire r)) (length (@nil Z))) with false by (symmetry; apply Nat.eqb_neq; cbn [length]; lia).
  destruct (group_crash gr fuel (wire r) h1 rest W2) as (h' & H); [subst fuel; rewrite app_length; cbn [length]; lia|destruct (wire r); [cbn in L5; lia|discriminate]|exact C1|].
  exists h'. exact H.
Qed.
Lemma doomed_flush h rest : doomed h rest -> exists h', cl_flush h = (h', Ok tt) /\ doomed h' rest.
Proof.
  intros (N & St & (x & Eg & G & L) & X). destruct (flush_endless _ N) as (s' & F & N' & P & O). unfold cl_flush. rewrite F.
  exists (cl_with_stream h s'). split; [reflexivity|]. split; [exact N'|]. split; [exact St|]. split; [|exact X]. exists x. split; [exact Eg|]. split; [exact G|].
  unfold clive in *. cbn [cl_with_stream cl_stream cl_th cl_keylog cl_log]. rewrite O, P. exact L.
Qed.
Lemma reads_crash later : forall groups h, Forall (fun gr => gr <> []) groups -> Forall whole (concat groups) -> doomed h (concat groups) ->
  snd (client_reads cfg e now h [] (map read_of groups ++ later)) = Some Panic.
Proof.
  induction groups as [|gr groups IH]; intros h NE FW C; [destruct (doomed_more h C)|].
  inversion NE as [|? ? NE1 NE2]; subst. cbn [concat] in *. apply Forall_app in FW. destruct FW as (FW1 & FW2).
  cbn [map app client_reads]. destruct (read_nonempty gr NE1 FW1) as (b & t & Eb).
  assert (TR : tcp_read (read_of gr) = Ok (read_of gr)) by (unfold tcp_read; rewrite Eb; reflexivity). rewrite TR.
  pose proof C as (_ & St & _).
  destruct (group_first_crash gr h (concat groups) NE1 FW1 C) as (h1 & [(d & E1) | (E1 & C1)]); rewrite E1.
  - rewrite St. reflexivity.
  - destruct (doomed_flush _ _ C1) as (h2 & E2 & C2). rewrite E2. specialize (IH h2 NE2 FW2 C2). rewrite St. exact IH.
Qed.
End Fixed.

Lemma client_crashed_first cfg e now so first sh g : client_ok cfg e -> so_left so = None -> whole first -> r_type first = RHandshake ->
  agrees cfg e (r_fragment first) sh g ->
  forall r rest more groups later, broken (opens_server g 0) r -> without_ccs more = r :: rest -> Forall whole more ->
    Forall (fun gr => gr <> []) groups -> concat groups = first :: more ->
    snd (connect cfg e now so (map (fun x => concat (map wire x)) groups ++ later)) = Some Panic.
Proof.
  intros Ok' Nso Wf Tf A r rest more groups later X EW WM NE EG.
  unfold connect, client_do_handshake.
  destruct (hello_built cfg e Ok') as (ch & body & H1 & H2 & H3).
  assert (HS : exists h0, send_client_hello cfg e (client_new e so) = (h0, Ok tt) /\ endless (cl_stream h0)).
  { unfold send_client_hello. cbn [client_new cl_key]. rewrite H1, sbind_Ok, H2, sbind_Ok, H3. cbn [cl_with_hello cl_stream].
    unfold tcp_write. cbn [client_new cl_stream stream_new st_sock st_protection st_buffer].
    unfold write_all. rewrite Nso. eexists. rewrite sbind_Ok. split; [reflexivity|]. reflexivity. }
  destruct HS as (h0 & S & N0). destruct (hello_sent _ _ _ _ _ Ok' S) as (Eh & _ & Bh & Sh). rewrite S.
  assert (St0 : cl_state h0 = CsServerHello) by (rewrite Eh; reflexivity).
  assert (HF : hello_facts cfg e h0) by (unfold hello_facts; rewrite Eh; auto 10). destruct HF as (Fh & Er & Ek & Rq & Kl & Lg).
  destruct (whole_formed _ Wf) as (Bhd & Lhd & Bf & Lf).
  destruct (sh_fwd cfg e h0 first sh g Ok' Bf Lf Fh Er Ek A) as (h1 & E).
  destruct (server_hello_step cfg e h0 first h1 tt Ok' Bf Lf Fh Er Ek E) as (HH & sh' & g' & p0 & A' & Su & Np & Es & Th & St' & Rq' & Ct' & Kl' & Lg').
  destruct (agrees_fun _ _ _ _ _ _ _ A A') as (-> & ->).
  assert (E1 : client_record cfg e now h0 first = (h1, Ok tt)) by (unfold client_record; rewrite Tf, St0; exact E).
  assert (C1 : doomed cfg e (out (cl_stream h0)) g h1 more).
  { assert (N' : endless (cl_stream h1)) by (rewrite Es; exact N0).
    split; [exact N'|]. split; [exact St'|]. split; [|exists r, rest; auto]. set (x := CGreet first HH sh g p0).
    assert (G : cgreeted cfg e x).
    { unfold cgreeted, x. cbn [cg_first cg_hash cg_sh cg_g cg_p0]. split; [exact Tf|]. split; [exact A|]. split; [exact Su|]. split; [|exact Np].
      destruct A as (hs & share & a & _ & _ & _ & -> & _). rewrite zlen_app. destruct (greeting_bytes cfg e Ok'). lia. }
    exists x. split; [reflexivity|]. split; [exact G|].
    destruct (cgreeted_keys _ _ _ G) as (_ & _ & Hk). unfold x in Hk. cbn [cg_p0 cg_g] in Hk. destruct (rpp_new_shape _ _ _ _ Np) as (N1 & N2 & N3 & N4).
    unfold clive, x. cbn [cg_hash cg_g cg_p0]. rewrite Es, Th, Kl', Lg', Kl, Lg, app_nil_r. split; [reflexivity|]. split; [reflexivity|].
    split; [reflexivity|]. split; [reflexivity|]. exists p0. split; [reflexivity|]. unfold guarded, peer_key, cur_keys, keyed. cbn [cg_hash cg_g].
    rewrite N1, N2, N3, N4, Hk. cbn [negb]. auto 10. }
  destruct groups as [|gr groups]; [discriminate|]. inversion NE as [|? ? NE1 NE2]; subst. destruct gr as [|r0 gr]; [contradiction|].
  cbn [concat app] in EG. injection EG as -> EG. rewrite <- EG in C1, WM. apply Forall_app in WM. destruct WM as (WM1 & WM2).
  change (fun x0 => concat (map wire x0)) with read_of. cbn [map app].
  change (read_of (first :: gr)) with (wire first ++ read_of gr). destruct (parse_prefix first (read_of gr) (proj1 Wf)) as (P & L5).
  cbn [client_reads]. rewrite St0. 
  assert (TR : tcp_read (wire first ++ read_of gr) = Ok (wire first ++ read_of gr)) by (unfold tcp_read; destruct (wire first ++ read_of gr) eqn:Q; [apply app_eq_nil in Q; destruct Q as (Q & _); rewrite Q in L5; cbn in L5; lia|reflexivity]).
  rewrite TR. remember (length (wire first ++ read_of gr) + length (@nil Z))%nat as fuel eqn:Ef. cbn [client_records].
  replace (Nat.ltb 0 (length (wire first ++ read_of gr))) with true by (symmetry; apply Nat.ltb_lt; rewrite app_length; lia). cbn [orb negb].
  pose proof (@slice_from_pre tls_error [] (wire first ++ read_of gr)) as SF. cbn [app length] in SF. rewrite SF, sbind_Ok, P. cbn [fst snd].
  rewrite E1. replace (Nat.eqb (0 + length (wire first)) (length (@nil Z))) with false by (symmetry; apply Nat.eqb_neq; cbn [length]; lia).
  destruct (group_crash cfg e now (out (cl_stream h0)) g gr fuel (wire first) h1 (concat groups) WM1) as (h2 & [(d & E2) | (E2 & C2)]);
    [subst fuel; rewrite app_length; cbn [length]; lia|destruct (wire first); [cbn in L5; lia|discriminate]|exact C1| |]; cbn [Nat.add]; rewrite E2; [reflexivity|].
  destruct (doomed_flush _ _ _ _ _ _ C2) as (h3 & E3 & C3). rewrite E3.
  pose proof (reads_crash cfg e now (out (cl_stream h0)) g later groups h3 NE2 WM2 C3) as R.
  destruct (client_reads cfg e now h3 [] (map read_of groups ++ later)) as (h4 & o). cbn [snd] in R. rewrite R. reflexivity.
Qed.
