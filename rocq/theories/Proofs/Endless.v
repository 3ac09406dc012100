(* A peer that knows the keys keeps an end waiting as long as it likes *)
From Verif Require Import Proofs.Util Proofs.Bytes Model.Alert Model.Bytes Model.Suite Model.Sha2 Model.KeySchedule Model.Record Model.Channel
  Model.Extensions Model.Hello Model.Handshake Model.Certificate Model.Stream Model.Server Model.Client
  Spec.Enc Spec.Rfc8446Keys Spec.Tls13Record Spec.Endpoints Spec.Connection Spec.ClientConnection Spec.Handshaking.
From Verif Require Spec.Rfc8446Hello.
From Verif Require Import Proofs.Record Proofs.Channel Proofs.Stream Proofs.ServerRun Proofs.ServerKeys Proofs.Opened Proofs.ServerSteps
  Proofs.ServerFlow Proofs.ServerAccept Proofs.ServerAccept2 Proofs.Reads Proofs.Cuts Proofs.Bounded.
From Verif Require Proofs.ClientReads Proofs.ClientSteps Proofs.ClientAccept Proofs.ClientAccept2.

Local Opaque handle_client_hello handle_server_hello client_greeting record_from_raw rpp_decrypt aead_tag_of handshake_from_raw th_update.

(* an end that listens, as record number seq, for what is protected by a secret *)
Definition listening (g : agreed) (secret : list Z) (p : rpp) (seq : Z) : Prop :=
  let k := side_key (negb (rp_is_client p)) (cur_keys p) in good_cipher (rp_cipher p) /\ good_key (cipher_get_suite (rp_cipher p)) k /\ k_seq k = seq /\
    rp_cipher p = g_cipher g /\ k_key k = write_key (g_alg g) secret (g_klen g) /\ k_iv k = write_iv (g_alg g) secret 12.
(* records with these contents, from number seq on *)
Fixpoint run (g : agreed) (secret : list Z) (seq : Z) (ms : list (list Z)) (recs : list record) : Prop :=
  match ms, recs with
  | [], [] => True
  | m :: ms, r :: recs => opened (g_cipher g) (g_alg g) (g_klen g) secret seq RHandshake m r /\ run g secret (seq + 1) ms recs
  | _, _ => False
  end.
Lemma run_nth g secret : forall ms seq recs, run g secret seq ms recs -> length recs = length ms /\
  forall i m r, nth_error ms i = Some m -> nth_error recs i = Some r -> opened (g_cipher g) (g_alg g) (g_klen g) secret (seq + Z.of_nat i) RHandshake m r.
Proof.
  induction ms as [|m ms IH]; intros seq [|r recs] H; try contradiction; [split; [reflexivity|intros [|i] ? ? Q; discriminate Q]|].
  destruct H as (O & H). destruct (IH _ _ H) as (L & N). split; [cbn [length]; lia|]. intros [|i] m' r' E1 E2.
  - cbn in E1, E2. injection E1 as <-. injection E2 as <-. now rewrite Z.add_0_r.
  - cbn in E1, E2. specialize (N i m' r' E1 E2). now replace (seq + Z.of_nat (S i)) with (seq + 1 + Z.of_nat i) by lia.
Qed.
Lemma carried g secret p seq m : listening g secret p seq -> 0 <= seq -> seq + 1 < 2^64 -> is_bytes m -> zlen m + 17 < 2^16 ->
  exists r p', whole r /\ r_type r = RApplicationData /\ rpp_decrypt p r = (p', Ok (RHandshake, m)) /\ listening g secret p' (seq + 1) /\
    opened (g_cipher g) (g_alg g) (g_klen g) secret seq RHandshake m r.
Proof.
  intros (Gc & Gk & Es & Ec & Ek & Ei) H0 H1 Bm Lm. set (k := side_key (negb (rp_is_client p)) (cur_keys p)) in *.
  assert (Bi : is_bytes (m ++ [22])) by (apply is_bytes_app; split; [exact Bm|apply is_bytes_check; reflexivity]).
  assert (Li : zlen (m ++ [22]) + 16 < 2^16) by (rewrite zlen_app; change (zlen [22]) with 1; lia).
  destruct (seal_exists (rp_cipher p) k (m ++ [22]) Gc) as (w & Sw); [split; [exact Gk|lia]|exact Bi|exact Li|].
  destruct (sealed_record _ _ _ _ Sw Li) as (rec & P & Wr & T & Hh & e & t & F & Lt & Et & D).
  exists rec. eexists. split; [|split; [exact T|split; [|split]]].
  - split; [rewrite Wr; exact P|]. rewrite Wr. destruct Sw as (e' & t' & _ & _ & _ & Be & Et' & _ & ->).
    assert (Bt : is_bytes t') by (rewrite Et'; apply tag_bytes; [exact Gc|apply Gk|apply Gk]).
    unfold encode_record. repeat first [assumption | apply be_enc_bytes | solve [apply is_bytes_check; reflexivity] | apply is_bytes_app; split].
  - rewrite <- Hh in D. rewrite (decrypt_sealed p rec (m ++ [22]) e t); try assumption; [|apply Gk|fold k; lia|fold k; lia].
    pose proof (strip_spec m RHandshake 0 ltac:(discriminate)) as S. cbn [repeat app rt_code] in S. rewrite S. reflexivity.
  - unfold listening. rewrite set_keys_cipher, set_keys_side, cur_set_keys, side_set_same. split; [exact Gc|].
    split; [exact Gk|]. fold k. change (k_seq (next_key k)) with (k_seq k + 1). rewrite Es. auto.
  - exists e, t, 0%nat. split; [exact F|]. cbv zeta. rewrite <- Ek, <- Ei, <- Ec, <- Es, Hh. split; [exact Et|]. exact D.
Qed.

(* ---- the server ---- *)
Lemma hello_listens cfg d now so hello ch body g :
  server_ok cfg d -> zlen (ct_raw (sc_cert cfg)) < 2^16 - 64 -> so_left so = None ->
  whole hello -> r_type hello = RHandshake -> answers cfg d (r_fragment hello) ch body g -> can_sign cfg d g -> sc_client_ca cfg <> None ->
  exists h p, accept cfg d now so [wire hello] = (h, None) /\ st_protection (sv_stream h) = Some p /\ sv_state h = SvClientCertificate /\
    st_buffer (sv_stream h) = [] /\ sv_th h <> None /\ sv_context h = Some (d_context d) /\ listening g (client_secret g) p 0.
Proof.
  intros Ok' Lcert Nso Wh Th A CS CA. pose proof (whole_formed _ Wh) as Wf. pose proof Wf as (_ & _ & Bf & Lf).
  destruct (hello_fwd cfg d (server_new so) hello ch body g Ok' Lcert Bf Lf eq_refl Nso A CS) as (h1 & E1 & N1).
  destruct (hello_spec cfg d (server_new so) hello h1 tt Ok' Bf Lf eq_refl E1) as (H & ch' & body' & g' & der & p0 & p1 & ws & A' & Sg & Bd & Ld & S & N & En & O' & P' & Th' & St' & Cx' & _).
  destruct (answers_fun _ _ _ _ _ _ _ _ _ A A') as (-> & -> & ->).
  destruct (flush_endless _ N1) as (s2 & F & _ & Fp & _).
  assert (Fl : sv_flush h1 = (with_stream h1 s2, Ok tt)) by (unfold sv_flush; now rewrite F).
  destruct (sc_client_ca cfg) as [ca|] eqn:Eca; [|contradiction].
  exists (with_stream h1 s2), p1. split; [|split; [|split; [|split; [|split; [|split]]]]]; cycle 1.
  { cbn [with_stream sv_stream]. congruence. }
  { exact St'. }
  { exact (proj1 (flush_done _ _ Fl)). }
  { cbn [with_stream sv_th]. rewrite Th'. discriminate. }
  { exact Cx'. }
  { pose proof S as (_ & Gc & _). destruct (suited_keys _ _ false S) as (q & Hq & Kq & G1 & G2). rewrite Hq in N. apply Ok_inj in N. injection N as ->.
    destruct (rpp_new_shape _ _ _ _ Hq) as (_ & N2 & N3 & N4). destruct (enc_all_same _ _ _ _ En) as (M1 & M2 & M3 & M4 & M5). unfold listening.
    rewrite M3, M2, N2, N3. rewrite N3 in M5. rewrite M5. unfold cur_keys. rewrite N4, Kq. cbn [negb side_key wk_client wk_server]. split; [exact Gc|]. split; [exact G2|]. auto. }
  unfold accept. rewrite loop_cons by discriminate.
  assert (Er : read_of [hello] = wire hello) by (unfold read_of; cbn; apply app_nil_r). rewrite <- Er.
  rewrite one_read_group; [|discriminate|constructor; [exact (proj1 Wh)|constructor]].
  cbn [steps]. unfold handle_handshake_record.
  rewrite Th. cbn [server_new sv_state]. fold (server_new so). rewrite E1, !sbind_Ok, Fl.
  cbn [server_do_handshake with_stream sv_state]. rewrite St'. reflexivity.
Qed.
(* the Certificate message of a client that has none *)
Definition no_certificate (context : list Z) : list Z := Rfc8446Hello.handshake 11 (Rfc8446Hello.vector8 context ++ Rfc8446Hello.vector24 []).
Lemma none_refused context now : length context = 32%nat ->
  certificates_from_hello (Rfc8446Hello.vector8 context ++ Rfc8446Hello.vector24 []) now = Err CertificateRequired /\
  idx (E:=tls_error) (Rfc8446Hello.vector8 context ++ Rfc8446Hello.vector24 []) 0 = Ok 32 /\
  slice (E:=tls_error) (Rfc8446Hello.vector8 context ++ Rfc8446Hello.vector24 []) 1 33 = Ok context.
Proof. intros L. do 32 (destruct context as [|? context]; [discriminate|]). destruct context; [|discriminate]. repeat split. Qed.
Lemma no_certificate_bytes context : is_bytes context -> length context = 32%nat -> is_bytes (no_certificate context) /\ zlen (no_certificate context) = 40.
Proof.
  intros B L. unfold no_certificate, Rfc8446Hello.handshake, Rfc8446Hello.vector8, Rfc8446Hello.vector24. split.
  - repeat first [assumption | apply be_enc_bytes | solve [apply is_bytes_check; reflexivity] | apply is_bytes_app; split].
  - unfold zlen. rewrite !app_length, !be_enc_length, L. reflexivity.
Qed.
(* the state of a server that waits only to say no *)
Definition refusing (h : server_hs) (p : rpp) : Prop :=
  (exists er, sv_state h = SvFinishWithError er) /\ st_buffer (sv_stream h) = [] /\ sv_th h <> None /\ sv_context h <> None /\ st_protection (sv_stream h) = Some p.
Lemma no_certificate_step cfg d now so before h1 p p' r : length (d_context d) = 32%nat -> accept cfg d now so before = (h1, None) -> sv_state h1 = SvClientCertificate ->
  sc_client_ca cfg <> None ->
  st_buffer (sv_stream h1) = [] -> sv_th h1 <> None -> sv_context h1 = Some (d_context d) -> st_protection (sv_stream h1) = Some p ->
  whole r -> r_type r = RApplicationData -> rpp_decrypt p r = (p', Ok (RHandshake, no_certificate (d_context d))) ->
  exists h2, accept cfg d now so (before ++ [wire r]) = (h2, None) /\ refusing h2 p'.
Proof.
  intros Lx A St CA Bf Th Cx Pr (P & _) T De. destruct (accept_app _ _ _ _ _ [wire r] _ A) as (L & R).
  destruct (none_refused (d_context d) now Lx) as (N1 & N2 & N3).
  assert (Hm : handshake_from_raw (no_certificate (d_context d)) = Ok (Handshake HtCertificate (Rfc8446Hello.vector8 (d_context d) ++ Rfc8446Hello.vector24 []) (no_certificate (d_context d)))).
  { pose proof (frame_read HtCertificate (Rfc8446Hello.vector8 (d_context d) ++ Rfc8446Hello.vector24 []) []) as X. rewrite app_nil_r in X. apply X.
    unfold Rfc8446Hello.vector8, Rfc8446Hello.vector24, zlen. rewrite !app_length, !be_enc_length, Lx. reflexivity. }
  set (body := Rfc8446Hello.vector8 (d_context d) ++ Rfc8446Hello.vector24 []) in *. clearbody body.
  assert (S1 : exists t1 t2, steps cfg d now h1 [r] = (with_state (with_th (with_th_finished (with_protection h1 (Some p')) t1) t2) (SvFinishWithError CertificateRequired), Ok tt)).
  { cbn [steps]. unfold handle_handshake_record. rewrite T, St. unfold handle_handshake_encrypted_record. rewrite Pr. cbn [unwrap]. rewrite sbind_Ok, De, sbind_Ok.
    change (sv_context (with_protection h1 (Some p'))) with (sv_context h1). change (sv_state (with_protection h1 (Some p'))) with (sv_state h1). rewrite St, Cx.
    destruct (sc_client_ca cfg) as [ca|] eqn:Eca; [|contradiction].
    unfold handle_client_certificate. rewrite Hm, sbind_Ok, Eca. cbn [hs_type ht_eqb negb]. change (sv_th (with_protection h1 (Some p'))) with (sv_th h1). destruct (sv_th h1) as [t1|]; [|contradiction].
    cbn [unwrap hs_fraqment]. rewrite sbind_Ok. cbv zeta. rewrite N2, sbind_Ok. change (Z.to_nat 32 + 1)%nat with 33%nat. rewrite N3, sbind_Ok.
    cbn [with_th with_th_finished with_protection with_stream sv_context]. rewrite Cx. cbn [unwrap]. rewrite sbind_Ok. rewrite list_eqb_refl. cbn [negb]. rewrite N1. cbn [sbind]. eexists _, _. reflexivity. }
  destruct S1 as (t1 & t2 & S1). rewrite L. rewrite loop_cons by exact R. replace (wire r) with (read_of [r]) by (unfold read_of; cbn; apply app_nil_r).
  rewrite one_read_group; [|discriminate|now constructor]. rewrite S1, sbind_Ok. rewrite flush_empty by exact Bf. cbn [server_do_handshake]. cbn [with_state sv_state].
  eexists. split; [reflexivity|]. unfold refusing. cbn. rewrite Cx. repeat split; eauto; discriminate.
Qed.
Lemma refusing_waits cfg d now so m hs : is_bytes m -> zlen m + 17 < 2^16 -> handshake_from_raw m = Ok hs -> hs_type hs <> HtFinished ->
  forall g secret n before h p seq, accept cfg d now so before = (h, None) -> refusing h p -> listening g secret p seq -> 0 <= seq -> seq + Z.of_nat n < 2^64 ->
  exists recs h', run g secret seq (repeat m n) recs /\ Forall whole recs /\ Forall (fun r => r_type r = RApplicationData) recs /\ accept cfg d now so (before ++ map wire recs) = (h', None).
Proof.
  intros Bm Lm Hm NF g secret. induction n as [|n IH]; intros before h p seq A Rf Li S0 Sn.
  - exists [], h. cbn. rewrite app_nil_r. auto.
  - destruct (carried g secret p seq m Li S0 ltac:(lia) Bm Lm) as (r & p' & W & T & De & Li' & Op). pose proof Rf as ((er & St) & Bf & Th & Cx & Pr).
    destruct (rejected_step cfg d now so before h er p p' r m hs A St Bf Th Cx (proj1 W) T Pr De Hm NF) as (h2 & A2 & St2 & Bf2 & Th2 & Cx2 & Pr2 & _).
    destruct (IH (before ++ [wire r]) h2 p' (seq + 1) A2) as (recs & h' & Ln & Wn & Tn & An); [unfold refusing; eauto 10|exact Li'|lia|lia|].
    exists (r :: recs), h'. cbn [repeat run map]. rewrite <- app_assoc in An. repeat split; [exact Op|exact Ln|now constructor|now constructor|exact An].
Qed.
Theorem server_endless cfg d now so hello ch body g :
  server_ok cfg d -> zlen (ct_raw (sc_cert cfg)) < 2^16 - 64 -> so_left so = None -> sc_client_ca cfg <> None ->
  whole hello -> r_type hello = RHandshake -> answers cfg d (r_fragment hello) ch body g -> can_sign cfg d g ->
  forall n, Z.of_nat n < 2^64 - 1 -> exists recs h, carry_client g (repeat (no_certificate (d_context d)) n) recs /\ Forall whole recs /\ Forall (fun r => r_type r = RApplicationData) recs /\
    accept cfg d now so (wire hello :: map wire recs) = (h, None).
Proof.
  intros Ok' Lc Ns CA Wh Th An CS n Hn. pose proof Ok' as (_ & _ & _ & _ & _ & Bx & Lx & _).
  destruct (hello_listens cfg d now so hello ch body g Ok' Lc Ns Wh Th An CS CA) as (h1 & p & A & Pr & St & Bf & Tr & Cx & Li).
  destruct n as [|n]; [exists [], h1; repeat split; auto; intros [|i] ? ? Q; discriminate Q|].
  destruct (no_certificate_bytes (d_context d) Bx Lx) as (Bm & Lm).
  destruct (carried g (client_secret g) p 0 (no_certificate (d_context d)) Li ltac:(lia) ltac:(lia) Bm ltac:(lia)) as (r & p' & W & T & De & Li' & Op).
  destruct (no_certificate_step cfg d now so [wire hello] h1 p p' r Lx A St CA Bf Tr Cx Pr W T De) as (h2 & A2 & Rf).
  assert (Hm : exists hs, handshake_from_raw (no_certificate (d_context d)) = Ok hs /\ hs_type hs <> HtFinished).
  { pose proof (frame_read HtCertificate (Rfc8446Hello.vector8 (d_context d) ++ Rfc8446Hello.vector24 []) []) as X. rewrite app_nil_r in X.
    eexists. split; [apply X|discriminate].
    unfold Rfc8446Hello.vector8, Rfc8446Hello.vector24, zlen. rewrite !app_length, !be_enc_length, Lx. reflexivity. }
  destruct Hm as (hs & Hm & NF).
  destruct (refusing_waits cfg d now so _ hs Bm ltac:(lia) Hm NF g (client_secret g) n _ h2 p' 1 A2 Rf Li' ltac:(lia) ltac:(lia)) as (recs & h' & Ln & Wn & Tn & Af).
  assert (Rn : run g (client_secret g) 0 (repeat (no_certificate (d_context d)) (S n)) (r :: recs)) by (cbn [repeat run]; auto).
  exists (r :: recs), h'. split; [exact (run_nth _ _ _ _ _ Rn)|]. split; [now constructor|]. split; [now constructor|exact Af].
Qed.

(* ---- the client ---- *)
Lemma client_step cfg e now so recs before h p p' r m h2 : delivers recs before -> Forall parses recs -> Forall (fun r => r_type r <> RAlert) recs -> recs <> [] ->
  connect cfg e now so before = (h, None) -> st_protection (cl_stream h) = Some p -> whole r -> r_type r = RApplicationData ->
  rpp_decrypt p r = (p', Ok (RHandshake, m)) -> client_messages (length m) cfg e now (cl_with_protection h (Some p')) m = (h2, Ok tt) -> cl_state h2 <> CsReady ->
  connect cfg e now so (before ++ [wire r]) = (h2, None) /\ delivers (recs ++ [r]) (before ++ [wire r]).
Proof.
  intros D P A NE E Pr (W & _) T De M NR. destruct (ClientReads.waiting _ _ _ _ _ _ _ D P A E) as (I & St & Mt & _ & _ & _ & _ & X). specialize (Mt NE).
  split.
  - rewrite X, ClientReads.wire1. rewrite ClientReads.reads_group; [|exact St|exact I|discriminate|now constructor]. cbn [ClientReads.csteps].
    assert (CR : client_record cfg e now h r = (h2, Ok tt)).
    { assert (client_record cfg e now h r = client_encrypted_record cfg e now h r) as -> by (unfold client_record; rewrite T; unfold ClientReads.met in Mt; destruct (cl_state h); try reflexivity; contradiction).
      unfold client_encrypted_record. rewrite Pr. cbn [unwrap]. rewrite sbind_Ok, De, sbind_Ok. exact M. }
    rewrite CR, sbind_Ok. cbn [ClientReads.then_reads client_reads]. destruct (cl_state h2); try reflexivity. contradiction.
  - clear - D. assert (G : forall a b, delivers a b -> delivers (a ++ [r]) (b ++ [wire r])).
    { clear. intros a b D. induction D as [|gr recs reads NE D IH|bf r0 after first mids last recs reads Wc F C D IH].
      - cbn [app]. rewrite ClientReads.wire1. apply (delivers_whole [r] [] []); [discriminate|constructor].
      - rewrite <- app_assoc. cbn [app]. now apply delivers_whole.
      - replace ((bf ++ r0 :: after ++ recs) ++ [r]) with (bf ++ r0 :: after ++ (recs ++ [r])) by (rewrite <- !app_assoc; cbn [app]; now rewrite <- app_assoc).
        replace (((bytes_of bf ++ first) :: mids ++ (last ++ bytes_of after) :: reads) ++ [wire r]) with ((bytes_of bf ++ first) :: mids ++ (last ++ bytes_of after) :: (reads ++ [wire r])) by (cbn [app]; rewrite <- app_assoc; reflexivity).
        now apply delivers_cut. }
    now apply G.
Qed.

(* once the keys are agreed *)
Definition client_at (cfg : client_config) (e : client_draws) (now : Z) (so : sock) (g : agreed) (recs : list record) (before : list (list Z)) (h : client_hs) (seq : Z) : Prop :=
  delivers recs before /\ Forall parses recs /\ Forall (fun r => r_type r <> RAlert) recs /\ recs <> [] /\ connect cfg e now so before = (h, None) /\
  exists p, st_protection (cl_stream h) = Some p /\ listening g (server_secret g) p seq.
Lemma client_more cfg e now so g recs before h seq m : client_at cfg e now so g recs before h seq -> 0 <= seq -> seq + 1 < 2^64 -> is_bytes m -> zlen m + 17 < 2^16 ->
  (forall h1, cl_state h1 = cl_state h -> cl_th h1 = cl_th h -> exists h2, client_messages (length m) cfg e now h1 m = (h2, Ok tt) /\ cl_state h2 <> CsReady /\ cl_stream h2 = cl_stream h1) ->
  exists r p h2, whole r /\ r_type r = RApplicationData /\ client_at cfg e now so g (recs ++ [r]) (before ++ [wire r]) h2 (seq + 1) /\ from_server g seq m r /\
    client_messages (length m) cfg e now (cl_with_protection h (Some p)) m = (h2, Ok tt).
Proof.
  intros (D & P & A & NE & C & p & Pr & Li) S0 S1 Bm Lm M. destruct (carried _ _ p seq m Li S0 S1 Bm Lm) as (r & p' & W & T & De & Li' & Op).
  destruct (M (cl_with_protection h (Some p')) eq_refl eq_refl) as (h2 & M1 & NR & Es).
  destruct (client_step cfg e now so recs before h p p' r m h2 D P A NE C Pr W T De M1 NR) as (C2 & D2).
  exists r, p', h2. split; [exact W|]. split; [exact T|]. split; [|split; [exact Op|exact M1]].
  split; [exact D2|]. split; [apply Forall_app; split; [exact P|constructor; [exact (proj1 W)|constructor]]|].
  split; [apply Forall_app; split; [exact A|constructor; [congruence|constructor]]|]. split; [intros Q; apply app_eq_nil in Q; destruct Q; discriminate|].
  split; [exact C2|]. exists p'. rewrite Es. split; [reflexivity|exact Li'].
Qed.
(* records that say nothing *)
Lemma client_empty cfg e now so g : forall n recs before h seq, client_at cfg e now so g recs before h seq -> 0 <= seq -> seq + Z.of_nat n < 2^64 ->
  exists more h', run g (server_secret g) seq (repeat [] n) more /\ Forall whole more /\ Forall (fun r => r_type r = RApplicationData) more /\
    connect cfg e now so (before ++ map wire more) = (h', None).
Proof.
  induction n as [|n IH]; intros recs before h seq C S0 Sn.
  - exists [], h. cbn. rewrite app_nil_r. destruct C as (_ & _ & _ & _ & C & _). auto.
  - pose proof C as (D & P & A & NE & E & _). destruct (ClientReads.waiting _ _ _ _ _ _ _ D P A E) as (_ & St & _).
    destruct (client_more cfg e now so g recs before h seq [] C S0 ltac:(lia)) as (r & p & h2 & W & T & C2 & Op & _); [constructor|reflexivity| |].
    { intros h1 S1 _. exists h1. split; [reflexivity|]. split; [congruence|reflexivity]. }
    destruct (IH _ _ _ _ C2 ltac:(lia) ltac:(lia)) as (more & h' & Ln & Wn & Tn & En).
    exists (r :: more), h'. cbn [repeat run map]. rewrite <- app_assoc in En. repeat split; [exact Op|exact Ln|now constructor|now constructor|exact En].
Qed.
(* requests for a certificate *)
Lemma client_requests cfg e now so g body : is_bytes body -> zlen body + 21 < 2^16 -> forall n recs before h seq, client_at cfg e now so g recs before h seq ->
  (cl_state h = CsClientCertificateRequest \/ cl_state h = CsServerCertificate) -> cl_th h <> None -> 0 <= seq -> seq + Z.of_nat n < 2^64 ->
  exists more h', run g (server_secret g) seq (repeat (Rfc8446Hello.handshake 13 body) n) more /\ Forall whole more /\ Forall (fun r => r_type r = RApplicationData) more /\
    connect cfg e now so (before ++ map wire more) = (h', None).
Proof.
  intros Bb Lb. set (m := Rfc8446Hello.handshake 13 body).
  assert (Bm : is_bytes m) by (unfold m, Rfc8446Hello.handshake, Rfc8446Hello.vector24; repeat first [assumption | apply be_enc_bytes | solve [apply is_bytes_check; reflexivity] | apply is_bytes_app; split]).
  assert (Lm : zlen m = zlen body + 4) by (unfold m, Rfc8446Hello.handshake, Rfc8446Hello.vector24, zlen; rewrite !app_length, be_enc_length; cbn [length]; lia).
  assert (Hm : handshake_from_raw m = Ok (Handshake HtCertificateRequest body m)).
  { pose proof (frame_read HtCertificateRequest body []) as X. rewrite app_nil_r in X. apply X. lia. }
  change (Rfc8446Hello.handshake 13 body) with m. clearbody m.
  assert (MM : forall h1, (cl_state h1 = CsClientCertificateRequest \/ cl_state h1 = CsServerCertificate) -> cl_th h1 <> None ->
    exists h2, client_messages (length m) cfg e now h1 m = (h2, Ok tt) /\ cl_state h2 = CsServerCertificate /\ cl_stream h2 = cl_stream h1 /\ cl_th h2 <> None).
  { intros h1 St Th. destruct m as [|m0 m1]; [unfold zlen in *; cbn [length] in Lm; lia|].
    assert (HM : exists h2, handle_message cfg e now h1 (Handshake HtCertificateRequest body (m0 :: m1)) = (h2, Ok tt) /\ cl_state h2 = CsServerCertificate /\ cl_stream h2 = cl_stream h1 /\ cl_th h2 <> None).
    { destruct (cl_th h1) as [t|] eqn:Et; [|contradiction]. unfold handle_message.
      assert (Q : (if ht_eqb HtCertificateRequest HtCertificateRequest then let h := cl_with_request h1 body in let@ (h, th) := (h, unwrap (cl_th h)) in
        (cl_with_state (cl_with_th h (th_update th (m0 :: m1))) CsServerCertificate, Ok tt) else handle_server_certificate now h1 (Handshake HtCertificateRequest body (m0 :: m1)))
        = (cl_with_state (cl_with_th (cl_with_request h1 body) (th_update t (m0 :: m1))) CsServerCertificate, Ok tt)).
      { cbn [ht_eqb]. cbv zeta. change (cl_th (cl_with_request h1 body)) with (cl_th h1). rewrite Et. reflexivity. }
      exists (cl_with_state (cl_with_th (cl_with_request h1 body) (th_update t (m0 :: m1))) CsServerCertificate).
      split; [destruct St as [-> | ->]; exact Q|]. split; [reflexivity|]. split; [reflexivity|]. discriminate. }
    destruct HM as (h2 & HM & R). exists h2. split; [|exact R]. cbn [length client_messages]. rewrite Hm, sbind_Ok, HM, sbind_Ok. cbn [hs_raw].
    change (length (Handshake.hs_raw _)) with (length (m0 :: m1)). rewrite skipn_all. destruct (length m1); reflexivity. }
  induction n as [|n IH]; intros recs before h seq C St Th S0 Sn.
  - exists [], h. cbn. rewrite app_nil_r. destruct C as (_ & _ & _ & _ & C & _). auto.
  - destruct (client_more cfg e now so g recs before h seq m C S0 ltac:(lia) Bm ltac:(lia)) as (r & p & h2 & W & T & C2 & Op & M2).
    { intros h1 S1 T1. destruct (MM h1) as (h2 & M2 & S2 & E2 & _); [rewrite S1; exact St|rewrite T1; exact Th|]. exists h2. split; [exact M2|]. split; [rewrite S2; discriminate|exact E2]. }
    destruct (MM (cl_with_protection h (Some p))) as (h2' & M2' & S2 & _ & T2); [exact St|exact Th|]. rewrite M2' in M2. apply pair_equal_spec in M2. destruct M2 as (<- & _).
    destruct (IH _ _ _ _ C2 (or_intror S2) T2 ltac:(lia) ltac:(lia)) as (more & h' & Ln & Wn & Tn & En).
    exists (r :: more), h'. cbn [repeat run map]. rewrite <- app_assoc in En. repeat split; [exact Op|exact Ln|now constructor|now constructor|exact En].
Qed.
Lemma client_keyed cfg e now so first sh g : client_ok cfg e -> so_left so = None -> whole first -> r_type first = RHandshake -> agrees cfg e (r_fragment first) sh g ->
  exists h, client_at cfg e now so g [first] [wire first] h 0 /\ cl_state h = CsEncryptedExtensions /\ cl_th h <> None.
Proof.
  intros Ok' Nso W T A. destruct (ClientSteps.hello_built cfg e Ok') as (ch & body & H1 & H2 & H3).
  assert (HS : exists h0, send_client_hello cfg e (client_new e so) = (h0, Ok tt)).
  { unfold send_client_hello. cbn [client_new cl_key]. rewrite H1, sbind_Ok, H2, sbind_Ok, H3. cbn [cl_with_hello cl_stream].
    unfold tcp_write. cbn [client_new cl_stream stream_new st_sock st_protection st_buffer].
    unfold write_all. rewrite Nso. eexists. rewrite sbind_Ok. reflexivity. }
  destruct HS as (h0 & S). destruct (ClientReads.hello_idle _ _ _ _ _ S) as (I & St & _). destruct (ClientSteps.hello_sent _ _ _ _ _ Ok' S) as (Eh & _ & _ & _).
  pose proof (whole_formed _ W) as (_ & _ & Bf & Lf).
  destruct (ClientAccept.sh_fwd cfg e h0 first sh g Ok' Bf Lf ltac:(rewrite Eh; reflexivity) ltac:(rewrite Eh; reflexivity) ltac:(rewrite Eh; reflexivity) A) as (h2 & H).
  destruct (ClientSteps.server_hello_step cfg e h0 first h2 tt Ok' Bf Lf) as (HH & sh' & g' & p0 & A' & Su & N & Es & Th & St' & _); try exact H; try (rewrite Eh; reflexivity).
  destruct (ClientAccept2.agrees_fun _ _ _ _ _ _ _ A A') as (-> & ->).
  exists h2. split; [|split; [exact St'|rewrite Th; discriminate]].
  split; [rewrite ClientReads.wire1; apply (delivers_whole [first] [] []); [discriminate|constructor]|].
  split; [constructor; [exact (proj1 W)|constructor]|]. split; [constructor; [congruence|constructor]|]. split; [discriminate|]. split.
  - unfold connect, client_do_handshake. rewrite S. rewrite ClientReads.wire1, ClientReads.reads_group; [|congruence|exact I|discriminate|constructor; [exact (proj1 W)|constructor]].
    cbn [ClientReads.csteps]. unfold client_record. rewrite T, St, H, sbind_Ok. cbn [ClientReads.then_reads client_reads]. rewrite St'. reflexivity.
  - exists p0. rewrite Es. split; [reflexivity|]. pose proof Su as (_ & Gc & _). destruct (suited_keys _ _ true Su) as (q & Hq & Kq & G1 & G2). rewrite Hq in N. apply Ok_inj in N. injection N as ->.
    destruct (rpp_new_shape _ _ _ _ Hq) as (_ & N2 & N3 & N4). unfold listening. rewrite N2, N3. unfold cur_keys. rewrite N4, Kq.
    cbn [negb side_key wk_client wk_server]. split; [exact Gc|]. split; [exact G1|]. auto.
Qed.
Theorem client_endless_empty cfg e now so first sh g : client_ok cfg e -> so_left so = None -> whole first -> r_type first = RHandshake -> agrees cfg e (r_fragment first) sh g ->
  forall n, Z.of_nat n < 2^64 -> exists recs h, carry g (repeat [] n) recs /\ Forall whole recs /\ Forall (fun r => r_type r = RApplicationData) recs /\
    connect cfg e now so (wire first :: map wire recs) = (h, None).
Proof.
  intros Ok' Nso W T A n Hn. destruct (client_keyed cfg e now so first sh g Ok' Nso W T A) as (h & C & _).
  destruct (client_empty cfg e now so g n _ _ _ 0 C ltac:(lia) ltac:(lia)) as (recs & h' & Rn & R). exists recs, h'. split; [exact (run_nth _ _ _ _ _ Rn)|exact R].
Qed.
Theorem client_endless_requests cfg e now so first sh g extensions request : client_ok cfg e -> so_left so = None -> whole first -> r_type first = RHandshake -> agrees cfg e (r_fragment first) sh g ->
  is_bytes extensions -> zlen extensions + 21 < 2^16 -> is_bytes request -> zlen request + 21 < 2^16 ->
  forall n, Z.of_nat n < 2^64 - 1 -> exists ee recs h, carry g (Rfc8446Hello.handshake 8 extensions :: repeat (Rfc8446Hello.handshake 13 request) n) (ee :: recs) /\ Forall whole (ee :: recs) /\ Forall (fun r => r_type r = RApplicationData) (ee :: recs) /\
    connect cfg e now so (wire first :: wire ee :: map wire recs) = (h, None).
Proof.
  intros Ok' Nso W T A Bx Lx Br Lr n Hn. destruct (client_keyed cfg e now so first sh g Ok' Nso W T A) as (h & C & St & Th).
  set (m := Rfc8446Hello.handshake 8 extensions).
  assert (Bm : is_bytes m) by (unfold m, Rfc8446Hello.handshake, Rfc8446Hello.vector24; repeat first [assumption | apply be_enc_bytes | solve [apply is_bytes_check; reflexivity] | apply is_bytes_app; split]).
  assert (Lm : zlen m = zlen extensions + 4) by (unfold m, Rfc8446Hello.handshake, Rfc8446Hello.vector24, zlen; rewrite !app_length, be_enc_length; cbn [length]; lia).
  assert (Hm : handshake_from_raw m = Ok (Handshake HtEncryptedExtensions extensions m)).
  { pose proof (frame_read HtEncryptedExtensions extensions []) as X. rewrite app_nil_r in X. apply X. lia. }
  change (Rfc8446Hello.handshake 8 extensions) with m. clearbody m.
  assert (MM : forall h1, cl_state h1 = CsEncryptedExtensions -> cl_th h1 <> None ->
    exists h2, client_messages (length m) cfg e now h1 m = (h2, Ok tt) /\ cl_state h2 = CsClientCertificateRequest /\ cl_stream h2 = cl_stream h1 /\ cl_th h2 <> None).
  { intros h1 S1 T1. destruct m as [|m0 m1]; [unfold zlen in *; cbn [length] in Lm; lia|]. destruct (cl_th h1) as [t|] eqn:Et; [|contradiction].
    eexists. cbn [length client_messages]. rewrite Hm, sbind_Ok. unfold handle_message. rewrite S1. unfold handle_encrypted_extension. cbn [hs_type ht_eqb negb]. rewrite Et. cbn [unwrap]. rewrite !sbind_Ok. cbn [hs_raw].
    change (length (Handshake.hs_raw _)) with (length (m0 :: m1)). rewrite skipn_all. split; [destruct (length m1); reflexivity|]. split; [reflexivity|]. split; [reflexivity|]. discriminate. }
  destruct (client_more cfg e now so g _ _ h 0 m C ltac:(lia) ltac:(lia) Bm ltac:(lia)) as (r & p & h2 & W2 & T2 & C2 & Op & M2).
  { intros h1 S1 T1. destruct (MM h1) as (h2 & M2 & S2 & E2 & _); [congruence|rewrite T1; exact Th|]. exists h2. split; [exact M2|]. split; [rewrite S2; discriminate|exact E2]. }
  destruct (MM (cl_with_protection h (Some p))) as (h2' & M2' & S2 & _ & T3); [exact St|exact Th|]. rewrite M2' in M2. apply pair_equal_spec in M2. destruct M2 as (<- & _).
  destruct (client_requests cfg e now so g request Br Lr n _ _ _ _ C2 (or_introl S2) T3 ltac:(lia) ltac:(lia)) as (more & h' & Ln & Wn & Tn & En).
  assert (Rn : run g (server_secret g) 0 (m :: repeat (Rfc8446Hello.handshake 13 request) n) (r :: more)) by (split; [exact Op|exact Ln]).
  exists r, more, h'. split; [exact (run_nth _ _ _ _ _ Rn)|]. split; [now constructor|]. split; [now constructor|exact En].
Qed.
