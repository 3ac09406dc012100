(* A server whose certificate the parser panics on brings the client down *)
From Verif Require Import Proofs.Util Proofs.Bytes Model.Alert Model.Bytes Model.Suite Model.Sha2 Model.Hmac Model.KeySchedule Model.Record Model.Channel
  Model.Curve Model.Signature Model.Ecdsa Model.X509 Model.Extensions Model.Hello Model.Kex Model.Handshake Model.Certificate
  Model.Stream Model.AppChannel Model.Keylog Model.Server Model.Client
  Spec.Enc Spec.Rfc2104 Spec.Fips180 Spec.Rfc8446Keys Spec.Tls13Record Spec.Endpoints Spec.Writes Spec.Rfc8446Auth Spec.Connection
  Spec.ClientConnection Spec.ClientAccept.
From Verif Require Spec.Rfc8446Hello Spec.Ecdsa.
From Verif Require Import Proofs.KeySchedule Proofs.Record Proofs.Channel Proofs.Stream Proofs.ServerRun Proofs.ServerKeys Proofs.Opened
  Proofs.ServerSteps Proofs.ServerFlow Proofs.ClientSteps Proofs.ClientFlow Proofs.ClientRun Proofs.ServerAccept Proofs.ServerAccept2 Proofs.ClientAccept Proofs.ClientAccept2.
From Verif Require Proofs.Hmac Proofs.Sha2 Proofs.Auth Proofs.HelloTotal Proofs.Kex Proofs.EcdsaP256.

Local Opaque X509.get_public_key x509_from_raw client_greeting handshake_from_raw th_update rpp_encrypt rpp_decrypt record_from_raw handle_server_hello
  server_finished.

(* the parser panics, or the look at its dates does *)
Definition fatal (now : Z) (cert : list Z) : Prop :=
  x509_from_raw cert = Panic \/ exists x, x509_from_raw cert = Ok x /\ is_valid (E:=tls_error) (x_validity x) now = Panic.

Section Fixed.
Variables (cfg : client_config) (e : client_draws) (now : Z) (base : list Z) (g : agreed) (body : list Z).
Let m1 := Rfc8446Hello.handshake 11 body.
(* the CertificateVerify message, after certificate c *)
Definition verify_fatal (c : cert) (body2 : list Z) : Prop :=
  forall h t raw, cl_cert h = Some c -> cl_th h = Some t -> snd (handle_server_certificate_verify h (Handshake HtCertificateVerify body2 raw)) = Panic.
Definition next_fatal (c : cert) (todo : list (list Z)) : Prop := exists body2 rest, todo = Rfc8446Hello.handshake 15 body2 :: rest /\ verify_fatal c body2.
(* the Certificate message panics, or is read and the next message does *)
Definition cert_fatal (todo : list (list Z)) : Prop :=
  zlen body < 2^16 -> certificates_from_hello body now = Panic \/ exists c, certificates_from_hello body now = Ok [c] /\ next_fatal c todo.

(* the messages up to the Certificate message, and the client's state *)
Definition pending (h : client_hs) (todo : list (list Z)) : Prop :=
  match cl_state h with
  | CsEncryptedExtensions => exists ee rs rest, todo = Rfc8446Hello.handshake 8 ee :: map (Rfc8446Hello.handshake 13) rs ++ m1 :: rest /\ cert_fatal rest
  | CsClientCertificateRequest | CsServerCertificate => exists rs rest, todo = map (Rfc8446Hello.handshake 13) rs ++ m1 :: rest /\ cert_fatal rest
  | CsServerCertificateVerify => exists c, cl_cert h = Some c /\ next_fatal c todo
  | _ => False
  end.
Definition expects (x : cgreet) (h : client_hs) (n : Z) (todo : list (list Z)) : Prop :=
  pending h todo /\ exists ms, clive cfg e base x h n ms.

Lemma cert_panics h t : certificates_from_hello body now = Panic -> cl_th h = Some t -> snd (handle_server_certificate now h (Handshake HtCertificate body m1)) = Panic.
Proof.
  intros CR Th. unfold handle_server_certificate. cbn [hs_type hs_fraqment hs_raw]. change (negb (ht_eqb HtCertificate HtCertificate)) with false. cbv iota.
  rewrite Th. cbn [unwrap]. rewrite sbind_Ok, CR. reflexivity.
Qed.
Lemma cert_kept h t c : certificates_from_hello body now = Ok [c] -> cl_th h = Some t -> handle_server_certificate now h (Handshake HtCertificate body m1) =
  (cl_with_state (cl_with_cert (cl_with_th h (th_update t m1)) c) CsServerCertificateVerify, Ok tt).
Proof.
  intros CR Th. unfold handle_server_certificate. cbn [hs_type hs_fraqment hs_raw]. change (negb (ht_eqb HtCertificate HtCertificate)) with false. cbv iota.
  rewrite Th. cbn [unwrap]. rewrite sbind_Ok, CR. reflexivity.
Qed.
Local Opaque handle_server_certificate handle_server_certificate_verify.

Lemma message_crash x h n m todo rest : is_bytes m -> zlen m < 2^16 -> expects x h n (m :: todo) ->
  exists hs h', handshake_from_raw (m ++ rest) = Ok hs /\ hs_raw hs = m /\
    (handle_message cfg e now h hs = (h', Panic) \/ handle_message cfg e now h hs = (h', Ok tt) /\ cl_stream h' = cl_stream h /\ expects x h' n todo).
Proof.
  intros Bm Lm (P & ms & L). pose proof L as (O & Th & Kl & Lg & p & Pp & Gp). unfold pending in P.
  assert (STEP : forall rs rst, m :: todo = map (Rfc8446Hello.handshake 13) rs ++ m1 :: rst -> cert_fatal rst -> cl_state h = CsClientCertificateRequest \/ cl_state h = CsServerCertificate ->
    exists hs h', handshake_from_raw (m ++ rest) = Ok hs /\ hs_raw hs = m /\
    (handle_message cfg e now h hs = (h', Panic) \/ handle_message cfg e now h hs = (h', Ok tt) /\ cl_stream h' = cl_stream h /\ expects x h' n todo)).
  { intros rs rst E CF St. destruct rs as [|r rs]; cbn [map app] in E.
    - injection E as E1 E2.
      assert (Lb : zlen body < 2^16) by (rewrite E1 in Lm; unfold m1, zlen in *; rewrite handshake_length in Lm; lia).
      assert (HH : handle_message cfg e now h (Handshake HtCertificate body m) = handle_server_certificate now h (Handshake HtCertificate body m1)).
      { unfold handle_message. cbn [hs_type]. change (ht_eqb HtCertificate HtCertificateRequest) with false. rewrite E1. fold m1. destruct St as [-> | ->]; reflexivity. }
      destruct (CF Lb) as [CR | (c & CR & NF)].
      + pose proof (cert_panics h _ CR Th) as CP. destruct (handle_server_certificate now h (Handshake HtCertificate body m1)) as [h' o]. cbn [snd] in CP. subst o.
        eexists _, h'. split; [apply (frame_here m rest HtCertificate body Lm); exact E1|]. split; [reflexivity|]. left. exact HH.
      + pose proof (cert_kept h _ c CR Th) as CK. eexists _, _. split; [apply (frame_here m rest HtCertificate body Lm); exact E1|]. split; [reflexivity|]. right.
        split; [rewrite HH; exact CK|]. split; [reflexivity|].
        split; [unfold pending; cbn [cl_with_state cl_state cl_with_cert cl_cert]; exists c; split; [reflexivity|rewrite E2; exact NF]|]. exists (ms ++ m).
        unfold clive. cbn [cl_with_state cl_with_th cl_with_cert cl_stream cl_th cl_keylog cl_log]. split; [exact O|].
        split; [rewrite app_assoc, <- th_update_app, E1; reflexivity|]. eauto 6.
    - injection E as E1 E2. eexists _, _. split; [apply (frame_here m rest HtCertificateRequest r Lm); exact E1|]. split; [reflexivity|]. right.
      unfold handle_message. cbn [hs_type hs_raw hs_fraqment]. change (ht_eqb HtCertificateRequest HtCertificateRequest) with true. cbv iota.
      change (cl_th (cl_with_request h r)) with (cl_th h). rewrite Th. cbn [unwrap]. rewrite sbind_Ok. split; [destruct St as [-> | ->]; reflexivity|]. split; [reflexivity|].
      split; [unfold pending; cbn [cl_with_state cl_state]; exists rs, rst; split; [exact E2|exact CF]|]. exists (ms ++ m).
      unfold clive. cbn [cl_with_state cl_with_th cl_with_request cl_stream cl_th cl_keylog cl_log]. split; [exact O|].
      split; [rewrite app_assoc, <- th_update_app; reflexivity|]. eauto 6. }
  destruct (cl_state h) eqn:St; try contradiction.
  - destruct P as (ee & rs & rst & E & CF). injection E as E1 E2.
    eexists _, _. split; [apply (frame_here m rest HtEncryptedExtensions ee Lm); exact E1|]. split; [reflexivity|]. right.
    unfold handle_message. rewrite St. unfold handle_encrypted_extension. cbn [hs_type hs_raw]. change (negb (ht_eqb HtEncryptedExtensions HtEncryptedExtensions)) with false. cbv iota.
    rewrite Th. cbn [unwrap]. rewrite sbind_Ok. split; [reflexivity|]. split; [reflexivity|].
    split; [unfold pending; cbn [cl_with_state cl_state]; exists rs, rst; split; [exact E2|exact CF]|]. exists (ms ++ m).
    unfold clive. cbn [cl_with_state cl_with_th cl_stream cl_th cl_keylog cl_log]. split; [exact O|]. split; [rewrite app_assoc, <- th_update_app; reflexivity|]. eauto 6.
  - destruct P as (rs & rst & E & CF). apply (STEP rs rst E CF). auto.
  - destruct P as (rs & rst & E & CF). apply (STEP rs rst E CF). auto.
  - destruct P as (c & Hc & body2 & rst & E & VF). injection E as E1 E2. pose proof (VF h _ m Hc Th) as CP.
    destruct (handle_server_certificate_verify h (Handshake HtCertificateVerify body2 m)) as [h' o] eqn:HV. cbn [snd] in CP. subst o.
    eexists _, h'. split; [apply (frame_here m rest HtCertificateVerify body2 Lm); exact E1|]. split; [reflexivity|]. left. unfold handle_message. rewrite St. exact HV.
Qed.
Local Opaque handle_message.

Lemma messages_crash x n : forall part fuel h rest, is_bytes (concat part) -> zlen (concat part) < 2^16 -> (length (concat part) <= fuel)%nat ->
  expects x h n (part ++ rest) ->
  exists h', client_messages fuel cfg e now h (concat part) = (h', Panic) \/
    client_messages fuel cfg e now h (concat part) = (h', Ok tt) /\ cl_stream h' = cl_stream h /\ expects x h' n rest.
Proof.
  induction part as [|m part IH]; intros fuel h rest B L F W.
  - exists h. cbn [concat]. right. split; [destruct fuel; reflexivity|]. split; [reflexivity|exact W].
  - cbn [concat app] in *. pose proof B as B0. apply is_bytes_app in B0. destruct B0 as (Bm & Bp). rewrite zlen_app in L. pose proof (zlen_nonneg m). pose proof (zlen_nonneg (concat part)).
    destruct (message_crash x h n m (part ++ rest) (concat part) Bm ltac:(lia) W) as (hs & h1 & R & Er & HM).
    destruct (read_message _ _ B R) as (_ & _ & _ & _ & L4). rewrite Er in L4. rewrite app_length in F.
    destruct fuel as [|fuel]; [lia|]. 
    destruct (m ++ concat part) as [|b buf] eqn:Eb; [apply app_eq_nil in Eb; destruct Eb as (-> & _); cbn in L4; lia|].
    cbn [client_messages]. rewrite R, sbind_Ok. destruct HM as [HM | (HM & S1 & W1)]; rewrite HM.
    + exists h1. left. reflexivity.
    + rewrite sbind_Ok, Er, <- Eb, skipn_app_l. destruct (IH fuel h1 rest Bp ltac:(lia) ltac:(lia) W1) as (h' & [E' | (E' & S' & W')]); exists h'; [left; exact E'|right].
      split; [exact E'|]. split; [congruence|exact W'].
Qed.

(* the records to come *)
Definition doomed (h : client_hs) (rest : list record) : Prop :=
  endless (cl_stream h) /\ exists x n parts, cg_g x = g /\ cgreeted cfg e x /\ 0 <= n /\ n + zlen (without_ccs rest) < 2^60 /\
    expects x h n (concat parts) /\ carried g n parts (without_ccs rest).
Lemma expects_state x h n todo : expects x h n todo -> cl_state h <> CsServerHello /\ cl_state h <> CsReady.
Proof. intros (P & _). unfold pending in P. split; intros E; rewrite E in P; exact P. Qed.
Lemma doomed_more h : ~ doomed h [].
Proof.
  intros (_ & x & n & parts & _ & _ & _ & _ & (P & _) & C). unfold without_ccs in C. cbn [filter] in C. destruct parts; [|contradiction]. cbn [concat] in P. unfold pending in P.
  destruct (cl_state h); try contradiction; [destruct P as (? & ? & ? & P & _); discriminate| | |destruct P as (? & _ & ? & ? & P & _); discriminate]; destruct P as (rs & rst & P & _); destruct rs; discriminate.
Qed.

Lemma record_crash h r rest : wellformed r -> data_or_ccs r -> doomed h (r :: rest) ->
  exists h', client_record cfg e now h r = (h', Panic) \/ client_record cfg e now h r = (h', Ok tt) /\ doomed h' rest.
Proof.
  intros W D (N & x & n & parts & Eg & G & N0 & NB & CW & CA). destruct (expects_state _ _ _ _ CW) as (NS & NR). rewrite without_cons in NB, CA. unfold client_record.
  destruct (is_ccs r) eqn:IC.
  - assert (T : r_type r = RChangeCipherSpec) by (unfold is_ccs in IC; destruct (r_type r); congruence). rewrite T.
    exists h. right. split; [destruct (cl_state h); congruence|]. split; [exact N|]. exists x, n, parts. auto 10.
  - destruct D as [D|T]; [congruence|]. rewrite T. destruct parts as [|part parts]; [contradiction|]. cbn [carried] in CA. destruct CA as (O & CA). rewrite <- Eg in O.
    assert (ZB : n + 1 + zlen (without_ccs rest) < 2^60) by (unfold zlen in *; cbn [length] in NB; lia). pose proof (zlen_nonneg (without_ccs rest)).
    assert (GO : exists h', client_encrypted_record cfg e now h r = (h', Panic) \/ client_encrypted_record cfg e now h r = (h', Ok tt) /\ doomed h' rest).
    { destruct CW as (Pe & ms & L). pose proof L as (_ & _ & _ & _ & p & P & K & Ic & Na & _ & Pk).
      destruct (cgreeted_keys _ _ _ G) as (_ & G2 & _). 
      destruct (opened_decrypt _ _ p (server_secret (cg_g x)) n r RHandshake (concat part) K Na Pk G2 ltac:(discriminate) N0 ltac:(lia) O) as (p' & Dp).
      destruct (live_open cfg e base x h n ms p r p' RHandshake (concat part) G L W ltac:(lia) P Dp ltac:(discriminate)) as (_ & Bc & Lc' & L').
      unfold client_encrypted_record. rewrite P. cbn [unwrap]. rewrite sbind_Ok, Dp. rewrite sbind_Ok.
      assert (CW3 : expects x (cl_with_protection h (Some p')) (n + 1) (part ++ concat parts)) by (split; [exact Pe|exists ms; exact L']).
      destruct (messages_crash x (n + 1) part (length (concat part)) _ (concat parts) Bc Lc' (le_n _) CW3) as (h' & [E' | (E' & S' & W')]); exists h'; [left; exact E'|right].
      split; [exact E'|]. split; [rewrite S'; exact N|]. exists x, (n + 1), parts. split; [exact Eg|]. split; [exact G|].
      split; [lia|]. split; [exact ZB|]. split; [exact W'|exact CA]. }
    destruct (cl_state h) eqn:St; try exact GO; congruence.
Qed.
Lemma group_crash : forall gr fuel pre h rest, Forall whole gr -> Forall data_or_ccs gr -> (length (read_of gr) < fuel)%nat ->
  pre <> [] -> doomed h (gr ++ rest) ->
  exists h', (exists d, client_records fuel cfg e now h (pre ++ read_of gr) [] (length pre) = ((h', d), Panic)) \/
    client_records fuel cfg e now h (pre ++ read_of gr) [] (length pre) = ((h', []), Ok tt) /\ doomed h' rest.
Proof.
  induction gr as [|r gr IH]; intros fuel pre h rest FW FD F NP C.
  - exists h. right. split; [|exact C]. unfold read_of. cbn [map concat]. rewrite app_nil_r. destruct fuel; [lia|]. cbn [client_records]. rewrite Nat.ltb_irrefl. reflexivity.
  - inversion FW as [|? ? W1 W2]; subst. inversion FD as [|? ? D1 D2]; subst. cbn [app] in C.
    change (read_of (r :: gr)) with (wire r ++ read_of gr) in *. rewrite app_length in F. destruct (parse_prefix r (read_of gr) (proj1 W1)) as (P & L5).
    destruct fuel as [|fuel]; [lia|]. cbn [client_records]. rewrite app_length. replace (Nat.ltb (length pre) (length pre + length (wire r ++ read_of gr))) with true
      by (symmetry; apply Nat.ltb_lt; rewrite app_length; lia). cbn [orb negb]. rewrite slice_from_pre, sbind_Ok, P. cbn [fst snd].
    destruct (record_crash h r (gr ++ rest) (whole_formed _ W1) D1 C) as (h1 & [E1 | (E1 & C1)]); rewrite E1; [exists h1; left; eexists; reflexivity|].
    replace (Nat.eqb (length pre + length (wire r)) (length (@nil Z))) with false by (symmetry; apply Nat.eqb_neq; cbn [length]; lia).
    destruct (IH fuel (pre ++ wire r) h1 rest W2 D2 ltac:(lia)) as (h' & H); [intros Q; apply app_eq_nil in Q; destruct Q; contradiction|exact C1|].
    exists h'. rewrite app_length, <- app_assoc in H. exact H.
Qed.
Lemma group_first_crash gr h rest : gr <> [] -> Forall whole gr -> Forall data_or_ccs gr -> doomed h (gr ++ rest) ->
  exists h', (exists d, client_records (Datatypes.S (length (read_of gr) + length (@nil Z))) cfg e now h (read_of gr) [] 0 = ((h', d), Panic)) \/
    client_records (Datatypes.S (length (read_of gr) + length (@nil Z))) cfg e now h (read_of gr) [] 0 = ((h', []), Ok tt) /\ doomed h' rest.
Proof.
  intros NE FW FD C. destruct gr as [|r gr]; [contradiction|]. inversion FW as [|? ? W1 W2]; subst. inversion FD as [|? ? D1 D2]; subst. cbn [app] in C.
  change (read_of (r :: gr)) with (wire r ++ read_of gr) in *. destruct (parse_prefix r (read_of gr) (proj1 W1)) as (P & L5).
  remember (length (wire r ++ read_of gr) + length (@nil Z))%nat as fuel eqn:Ef. cbn [client_records].
  replace (Nat.ltb 0 (length (wire r ++ read_of gr))) with true by (symmetry; apply Nat.ltb_lt; rewrite app_length; lia). cbn [orb negb].
  pose proof (@slice_from_pre tls_error [] (wire r ++ read_of gr)) as SF. cbn [app length] in SF. rewrite SF, sbind_Ok, P. cbn [fst snd].
  destruct (record_crash h r (gr ++ rest) (whole_formed _ W1) D1 C) as (h1 & [E1 | (E1 & C1)]); rewrite E1; [exists h1; left; eexists; reflexivity|].
  replace (Nat.eqb (0 + length (wire r)) (length (@nil Z))) with false by (symmetry; apply Nat.eqb_neq; cbn [length]; lia).
  destruct (group_crash gr fuel (wire r) h1 rest W2 D2) as (h' & H); [subst fuel; rewrite app_length; cbn [length]; lia|destruct (wire r); [cbn in L5; lia|discriminate]|exact C1|].
  exists h'. exact H.
Qed.
Lemma doomed_flush h rest : doomed h rest -> exists h', cl_flush h = (h', Ok tt) /\ doomed h' rest.
Proof.
  intros (N & x & n & parts & Eg & G & N0 & NB & (W & ms & L) & C). destruct (flush_endless _ N) as (s' & F & N' & P & O). unfold cl_flush. rewrite F.
  exists (cl_with_stream h s'). split; [reflexivity|]. split; [exact N'|]. exists x, n, parts. do 4 (split; [assumption|]). split; [|exact C].
  split; [exact W|]. exists ms. unfold clive in *. cbn [cl_with_stream cl_stream cl_th cl_keylog cl_log]. rewrite O, P. exact L.
Qed.
Lemma reads_crash later : forall groups h, Forall (fun gr => gr <> []) groups -> Forall whole (concat groups) ->
  Forall data_or_ccs (concat groups) -> doomed h (concat groups) ->
  snd (client_reads cfg e now h [] (map read_of groups ++ later)) = Some Panic.
Proof.
  induction groups as [|gr groups IH]; intros h NE FW FD C; [destruct (doomed_more h C)|].
  inversion NE as [|? ? NE1 NE2]; subst. cbn [concat] in *. apply Forall_app in FW, FD. destruct FW as (FW1 & FW2), FD as (FD1 & FD2).
  cbn [map app client_reads]. destruct (read_nonempty gr NE1 FW1) as (b & t & Eb).
  assert (TR : tcp_read (read_of gr) = Ok (read_of gr)) by (unfold tcp_read; rewrite Eb; reflexivity). rewrite TR.
  pose proof C as (_ & x & n & parts & _ & _ & _ & _ & EX & _). destruct (expects_state _ _ _ _ EX) as (_ & NR).
  destruct (group_first_crash gr h (concat groups) NE1 FW1 FD1 C) as (h1 & [(d & E1) | (E1 & C1)]); rewrite E1.
  - destruct (cl_state h); congruence || reflexivity.
  - destruct (doomed_flush _ _ C1) as (h2 & E2 & C2). rewrite E2. specialize (IH h2 NE2 FW2 FD2 C2). destruct (cl_state h); congruence || exact IH.
Qed.
End Fixed.

Lemma client_crashed_by cfg e now so first sh g : client_ok cfg e -> so_left so = None -> whole first -> r_type first = RHandshake ->
  agrees cfg e (r_fragment first) sh g ->
  forall extensions requests cbody rest parts more groups later,
    cert_fatal now cbody rest ->
    concat parts = Rfc8446Hello.handshake 8 extensions :: map (Rfc8446Hello.handshake 13) requests ++ Rfc8446Hello.handshake 11 cbody :: rest ->
    carry g (map (@concat Z) parts) (without_ccs more) ->
    Forall whole more -> Forall (fun r => r_type r = RApplicationData) (without_ccs more) -> zlen more < 2^50 ->
    Forall (fun gr => gr <> []) groups -> concat groups = first :: more ->
    snd (connect cfg e now so (map (fun x => concat (map wire x)) groups ++ later)) = Some Panic.
Proof.
  intros Ok' Nso Wf Tf A extensions requests cbody rest parts more groups later CR EP (CL & CF) WM TM LM NE EG.
  assert (CA : carried g 0 parts (without_ccs more)) by (apply carry_carried; auto).
  assert (L60 : zlen (without_ccs more) < 2^60) by (unfold zlen in *; pose proof (without_length more); lia).
  unfold connect, client_do_handshake.
  destruct (hello_built cfg e Ok') as (ch & body & H1 & H2 & H3).
  assert (HS : exists h0, send_client_hello cfg e (client_new e so) = (h0, Ok tt) /\ endless (cl_stream h0)).
  { unfold send_client_hello. cbn [client_new cl_key]. rewrite H1, sbind_Ok, H2, sbind_Ok, H3. cbn [cl_with_hello cl_stream].
    unfold tcp_write. cbn [client_new cl_stream stream_new st_sock st_protection st_buffer].
    unfold write_all. rewrite Nso. eexists. rewrite sbind_Ok. split; [reflexivity|]. reflexivity. }
  destruct HS as (h0 & S & N0). destruct (hello_sent _ _ _ _ _ Ok' S) as (Eh & _ & Bh & Sh). rewrite S.
  assert (St0 : cl_state h0 = CsServerHello) by (rewrite Eh; reflexivity).
  assert (HF : hello_facts cfg e h0) by (unfold hello_facts; rewrite Eh; auto 10). destruct HF as (Fh & Er & Ek & Rq & Kl & Lg).
  destruct (whole_formed _ Wf) as (Bhd & Lhd & Bf & Lf).
  destruct (sh_fwd cfg e h0 first sh g Ok' Bf Lf Fh Er Ek A) as (h1 & E).
  destruct (server_hello_step cfg e h0 first h1 tt Ok' Bf Lf Fh Er Ek E) as (HH & sh' & g' & p0 & A' & Su & Np & Es & Th & St' & Rq' & Ct' & Kl' & Lg').
  destruct (agrees_fun _ _ _ _ _ _ _ A A') as (-> & ->).
  assert (E1 : client_record cfg e now h0 first = (h1, Ok tt)) by (unfold client_record; rewrite Tf, St0; exact E).
  assert (C1 : doomed cfg e now (out (cl_stream h0)) g cbody h1 more).
  { assert (N' : endless (cl_stream h1)) by (rewrite Es; exact N0).
    split; [exact N'|]. set (x := CGreet first HH sh g p0).
    assert (G : cgreeted cfg e x).
    { unfold cgreeted, x. cbn [cg_first cg_hash cg_sh cg_g cg_p0]. split; [exact Tf|]. split; [exact A|]. split; [exact Su|]. split; [|exact Np].
      destruct A as (hs & share & a & _ & _ & _ & -> & _). rewrite zlen_app. destruct (greeting_bytes cfg e Ok'). lia. }
    exists x, 0, parts. split; [reflexivity|]. split; [exact G|]. split; [lia|]. split; [lia|]. split; [|exact CA].
    destruct (cgreeted_keys _ _ _ G) as (_ & _ & Hk). unfold x in Hk. cbn [cg_p0 cg_g] in Hk. destruct (rpp_new_shape _ _ _ _ Np) as (N1 & N2 & N3 & N4).
    split; [unfold pending; rewrite St', EP; exists extensions, requests, rest; split; [reflexivity|exact CR]|]. exists [].
    unfold clive, x. cbn [cg_hash cg_g cg_p0]. rewrite Es, Th, Kl', Lg', Kl, Lg, app_nil_r. split; [reflexivity|]. split; [reflexivity|].
    split; [reflexivity|]. split; [reflexivity|]. exists p0. split; [reflexivity|]. unfold guarded, peer_key, cur_keys, keyed. cbn [cg_hash cg_g].
    rewrite N1, N2, N3, N4, Hk. cbn [negb]. auto 10. }
  assert (DM : Forall data_or_ccs more).
  { apply Forall_forall. intros r Hr. destruct (is_ccs r) eqn:IC; [now left|]. right. rewrite Forall_forall in TM. apply TM. apply filter_In. rewrite IC. auto. }
  destruct groups as [|gr groups]; [discriminate|]. inversion NE as [|? ? NE1 NE2]; subst. destruct gr as [|r gr]; [contradiction|].
  cbn [concat app] in EG. injection EG as -> EG. rewrite <- EG in C1, WM, DM. apply Forall_app in WM, DM. destruct WM as (WM1 & WM2), DM as (DM1 & DM2).
  change (fun x0 => concat (map wire x0)) with read_of. cbn [map app].
  change (read_of (first :: gr)) with (wire first ++ read_of gr). destruct (parse_prefix first (read_of gr) (proj1 Wf)) as (P & L5).
  cbn [client_reads]. rewrite St0. 
  assert (TR : tcp_read (wire first ++ read_of gr) = Ok (wire first ++ read_of gr)) by (unfold tcp_read; destruct (wire first ++ read_of gr) eqn:Q; [apply app_eq_nil in Q; destruct Q as (Q & _); rewrite Q in L5; cbn in L5; lia|reflexivity]).
  rewrite TR. remember (length (wire first ++ read_of gr) + length (@nil Z))%nat as fuel eqn:Ef. cbn [client_records].
  replace (Nat.ltb 0 (length (wire first ++ read_of gr))) with true by (symmetry; apply Nat.ltb_lt; rewrite app_length; lia). cbn [orb negb].
  pose proof (@slice_from_pre tls_error [] (wire first ++ read_of gr)) as SF. cbn [app length] in SF. rewrite SF, sbind_Ok, P. cbn [fst snd].
  rewrite E1. replace (Nat.eqb (0 + length (wire first)) (length (@nil Z))) with false by (symmetry; apply Nat.eqb_neq; cbn [length]; lia).
  destruct (group_crash cfg e now (out (cl_stream h0)) g cbody gr fuel (wire first) h1 (concat groups) WM1 DM1) as (h2 & [(d & E2) | (E2 & C2)]);
    [subst fuel; rewrite app_length; cbn [length]; lia|destruct (wire first); [cbn in L5; lia|discriminate]|exact C1| |]; cbn [Nat.add]; rewrite E2; [reflexivity|].
  destruct (doomed_flush _ _ _ _ _ _ _ _ C2) as (h3 & E3 & C3). rewrite E3.
  pose proof (reads_crash cfg e now (out (cl_stream h0)) g cbody later groups h3 NE2 WM2 DM2 C3) as R.
  destruct (client_reads cfg e now h3 [] (map read_of groups ++ later)) as (h4 & o). cbn [snd] in R. rewrite R. reflexivity.
Qed.

Lemma client_crashed cfg e now so first sh g : client_ok cfg e -> so_left so = None -> whole first -> r_type first = RHandshake ->
  agrees cfg e (r_fragment first) sh g ->
  forall extensions requests context cert exts others rest parts more groups later,
    fatal now cert -> zlen context < 256 ->
    concat parts = Rfc8446Hello.handshake 8 extensions :: map (Rfc8446Hello.handshake 13) requests ++
      Rfc8446Hello.handshake 11 (Rfc8446Hello.vector8 context ++ Rfc8446Hello.vector24 (Rfc8446Hello.vector24 cert ++ Rfc8446Hello.vector16 exts ++ others)) :: rest ->
    carry g (map (@concat Z) parts) (without_ccs more) ->
    Forall whole more -> Forall (fun r => r_type r = RApplicationData) (without_ccs more) -> zlen more < 2^50 ->
    Forall (fun gr => gr <> []) groups -> concat groups = first :: more ->
    snd (connect cfg e now so (map (fun x => concat (map wire x)) groups ++ later)) = Some Panic.
Proof.
  intros Ok' Nso Wf Tf A extensions requests context cert exts others rest parts more groups later X Lc EP CA WM TM LM NE EG.
  refine (client_crashed_by cfg e now so first sh g Ok' Nso Wf Tf A extensions requests _ rest parts more groups later _ EP CA WM TM LM NE EG).
  intros Lb. left. pose proof (body_length context cert exts others) as LB. unfold certificate_body in LB.
  pose proof (Auth.certificates_read context cert exts others [] now) as R. rewrite app_nil_r in R. unfold Auth.entry in R.
  rewrite <- app_assoc in R. rewrite R; clear R.
  - unfold certificate_from_raw. destruct X as [-> | (x & -> & V)]; [reflexivity|]. cbn [bind ct_x509 unwrap]. rewrite V. reflexivity.
  - exact Lc.
  - unfold zlen in *. lia.
  - unfold zlen in *. unfold Rfc8446Hello.vector24, Rfc8446Hello.vector16. rewrite !app_length, !be_enc_length. lia.
Qed.
