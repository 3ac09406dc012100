(* A conforming server is accepted by the client: records and reads *)
From Verif Require Import Proofs.Util Proofs.Bytes Model.Alert Model.Bytes Model.Suite Model.Sha2 Model.Hmac Model.KeySchedule Model.Record Model.Channel
  Model.Curve Model.Signature Model.Ecdsa Model.X509 Model.Extensions Model.Hello Model.Kex Model.Handshake Model.Certificate
  Model.Stream Model.AppChannel Model.Keylog Model.Server Model.Client
  Spec.Enc Spec.Rfc2104 Spec.Fips180 Spec.Rfc8446Keys Spec.Tls13Record Spec.Endpoints Spec.Writes Spec.Rfc8446Auth Spec.Connection
  Spec.ClientConnection Spec.ClientAccept.
From Verif Require Spec.Rfc8446Hello Spec.Ecdsa.
From Verif Require Import Proofs.KeySchedule Proofs.Record Proofs.Channel Proofs.Stream Proofs.ServerRun Proofs.ServerKeys Proofs.Opened
  Proofs.ServerSteps Proofs.ServerFlow Proofs.ClientSteps Proofs.ClientFlow Proofs.ClientRun Proofs.ServerAccept Proofs.ServerAccept2 Proofs.ClientAccept.
From Verif Require Proofs.Hmac Proofs.Sha2 Proofs.Auth Proofs.HelloTotal Proofs.Kex Proofs.EcdsaP256.

Local Opaque X509.get_public_key x509_from_raw client_greeting handshake_from_raw th_update rpp_encrypt rpp_decrypt handle_message record_from_raw handle_server_hello
  server_finished.

Lemma messages_fwd cfg e now base x l n : client_ok cfg e -> cgreeted cfg e x -> pl_ok cfg e now (cg_g x) l ->
  forall part fuel h rest, is_bytes (concat part) -> zlen (concat part) < 2^16 -> (length (concat part) <= fuel)%nat ->
  cwaits cfg e base x l h n (part ++ rest) ->
  exists h', client_messages fuel cfg e now h (concat part) = (h', Ok tt) /\ cwaits cfg e base x l h' n rest.
Proof.
  intros Ok' G PL. induction part as [|m part IH]; intros fuel h rest B L F W.
  - exists h. cbn [concat]. split; [destruct fuel; reflexivity|exact W].
  - cbn [concat app] in *. pose proof B as B0. apply is_bytes_app in B0. destruct B0 as (Bm & Bp). rewrite zlen_app in L. pose proof (zlen_nonneg m). pose proof (zlen_nonneg (concat part)).
    destruct (message_fwd cfg e now base x l h n m (part ++ rest) (concat part) Ok' G PL Bm ltac:(lia) W) as (hs & h1 & R & Er & HM & W1).
    destruct (read_message _ _ B R) as (_ & _ & _ & _ & L4). rewrite Er in L4. rewrite app_length in F.
    destruct fuel as [|fuel]; [lia|]. destruct (IH fuel h1 rest Bp ltac:(lia) ltac:(lia) W1) as (h' & E' & W').
    exists h'. split; [|exact W']. destruct (m ++ concat part) as [|b buf] eqn:Eb; [apply app_eq_nil in Eb; destruct Eb as (-> & _); cbn in L4; lia|].
    cbn [client_messages]. rewrite R, sbind_Ok, HM, sbind_Ok, Er, <- Eb, skipn_app_l. exact E'.
Qed.

Fixpoint carried (g : agreed) (n : Z) (parts : list (list (list Z))) (recs : list record) : Prop :=
  match parts, recs with
  | [], [] => True
  | p :: ps, r :: rs => from_server g n (concat p) r /\ carried g (n + 1) ps rs
  | _, _ => False
  end.
Lemma carry_carried g : forall parts recs n, length recs = length (map (@concat Z) parts) ->
  (forall i m r, nth_error (map (@concat Z) parts) i = Some m -> nth_error recs i = Some r -> from_server g (n + Z.of_nat i) m r) -> carried g n parts recs.
Proof.
  induction parts as [|p parts IH]; intros [|r recs] n L F; cbn [map length] in L; try discriminate; [exact I|]. cbn [carried]. split.
  - specialize (F O (concat p) r eq_refl eq_refl). rewrite Z.add_0_r in F. exact F.
  - apply IH; [lia|]. intros i m x Hm Hx. specialize (F (Datatypes.S i) m x Hm Hx). replace (n + 1 + Z.of_nat i) with (n + Z.of_nat (Datatypes.S i)) by lia. exact F.
Qed.

Definition hello_facts (cfg : client_config) (e : client_draws) (h : client_hs) : Prop :=
  cl_hello h = Some (client_greeting cfg e) /\ cl_random h = Some (e_random e) /\ cl_key h = PrivateKey curve25519 (e_secret e) /\
  cl_request h = None /\ cl_keylog h = None /\ cl_log h = [].
(* strict: no record without a message in it *)
Section Strict.
Variable strict : bool.
Definition later_facts (cfg : client_config) (e : client_draws) (now : Z) (base : list Z) (g : agreed) (l : plan) (h : client_hs) (rest : list record) : Prop :=
  exists x n parts, cg_g x = g /\ cgreeted cfg e x /\ pl_ok cfg e now g l /\ 0 <= n /\ n + zlen (without_ccs rest) < 2^60 /\
    cwaits cfg e base x l h n (concat parts) /\ carried g n parts (without_ccs rest) /\ (strict = true -> Forall (fun p => p <> []) parts).
Definition cw (cfg : client_config) (e : client_draws) (now : Z) (base : list Z) (g : agreed) (l : plan) (h : client_hs) (rest : list record) : Prop :=
  endless (cl_stream h) /\ later_facts cfg e now base g l h rest.
Definition data_or_ccs (r : record) : Prop := is_ccs r = true \/ r_type r = RApplicationData.

Lemma not_hello cfg e base x l h n todo : cwaits cfg e base x l h n todo -> cl_state h <> CsServerHello.
Proof. intros (_ & W) S. unfold ready_or in W. rewrite S in W. destruct W as (ms & _ & _ & _ & C). unfold coming in C. now rewrite S in C. Qed.
Lemma agrees_fun cfg e answer sh g sh' g' : agrees cfg e answer sh g -> agrees cfg e answer sh' g' -> sh' = sh /\ g' = g.
Proof.
  intros (hs & share & a & E1 & _ & E2 & Eg & Ek & _ & Es & Ec & Ep) (hs' & share' & a' & E1' & _ & E2' & Eg' & Ek' & _ & Es' & Ec' & Ep').
  rewrite E1 in E1'. apply Ok_inj in E1'. subst hs'. rewrite E2 in E2'. apply Ok_inj in E2'. subst sh'.
  apply share_first in Ek. apply share_first in Ek'. rewrite Ek in Ek'. injection Ek' as <-. rewrite Es in Es'. apply Ok_inj in Es'. rewrite Ec in Ec'. apply Ok_inj in Ec'.
  rewrite Ep in Ep'. injection Ep' as _ Ea Ekl. split; [reflexivity|].
  destruct g as [c1 a1 k1 e1 h1], g' as [c2 a2 k2 e2 h2]. cbn in *. subst. reflexivity.
Qed.

Lemma hello_fwd cfg e now first more g sh l parts h : client_ok cfg e -> wellformed first -> r_type first = RHandshake ->
  agrees cfg e (r_fragment first) sh g -> pl_ok cfg e now g l -> zlen (concat (concat parts)) < 2^50 -> zlen (without_ccs more) < 2^60 ->
  concat parts = Rfc8446Hello.handshake 8 (pl_ee l) :: map (Rfc8446Hello.handshake 13) (pl_rs l) ++ pl_end g l ->
  carried g 0 parts (without_ccs more) -> (strict = true -> Forall (fun p => p <> []) parts) -> endless (cl_stream h) -> cl_state h = CsServerHello -> hello_facts cfg e h ->
  exists h', client_record cfg e now h first = (h', Ok tt) /\ cw cfg e now (out (cl_stream h)) g l h' more.
Proof.
  intros Ok' (Bh & Lh & Bf & Lf) T A PL L50 L60 EP C NP N St (Eh & Er & Ek & Rq & Kl & Lg).
  destruct (sh_fwd cfg e h first sh g Ok' Bf Lf Eh Er Ek A) as (h' & E).
  destruct (server_hello_step cfg e h first h' tt Ok' Bf Lf Eh Er Ek E) as (HH & sh' & g' & p0 & A' & S & Np & Es & Th & St' & Rq' & Ct' & Kl' & Lg').
  destruct (agrees_fun _ _ _ _ _ _ _ A A') as (-> & ->). exists h'. unfold client_record. rewrite T, St. split; [exact E|].
  assert (N' : endless (cl_stream h')) by (rewrite Es; exact N).
  split; [exact N'|]. set (x := CGreet first HH sh g p0).
  assert (G : cgreeted cfg e x).
  { unfold cgreeted, x. cbn [cg_first cg_hash cg_sh cg_g cg_p0]. split; [exact T|]. split; [exact A|]. split; [exact S|]. split; [|exact Np].
    destruct A as (hs & share & a & _ & _ & _ & -> & _). rewrite zlen_app. destruct (greeting_bytes cfg e Ok'). lia. }
  exists x, 0, parts. split; [reflexivity|]. split; [exact G|]. split; [exact PL|]. split; [lia|]. split; [lia|]. split; [|exact (conj C NP)].
  destruct (cgreeted_keys _ _ _ G) as (_ & _ & Hk). unfold x in Hk. cbn [cg_p0 cg_g] in Hk. destruct (rpp_new_shape _ _ _ _ Np) as (N1 & N2 & N3 & N4).
  split; [exact N'|]. unfold ready_or. rewrite St'. exists []. split.
  { unfold clive, x. cbn [cg_hash cg_g cg_p0]. rewrite Es, Th, Kl', Lg', Kl, Lg, app_nil_r. split; [reflexivity|]. split; [reflexivity|].
    split; [reflexivity|]. split; [reflexivity|]. exists p0. split; [reflexivity|]. unfold guarded, peer_key, cur_keys, keyed. cbn [cg_hash cg_g].
    rewrite N1, N2, N3, N4, Hk. cbn [negb]. auto 10. }
  split; [constructor|]. split; [change (zlen []) with 0; lia|]. unfold coming. rewrite St', Rq', Rq. cbn [cg_g x]. auto.
Qed.

Lemma record_fwd cfg e now base g l h r rest : client_ok cfg e -> wellformed r -> data_or_ccs r ->
  cw cfg e now base g l h (r :: rest) ->
  exists h', client_record cfg e now h r = (h', Ok tt) /\ cw cfg e now base g l h' rest.
Proof.
  intros Ok' W D (N & C).
  destruct C as (x & n & parts & <- & G & PL & N0 & NB & CW & CA & NP). pose proof (not_hello _ _ _ _ _ _ _ _ CW) as NS. rewrite without_cons in NB, CA. unfold client_record.
  destruct (is_ccs r) eqn:IC.
  - assert (T : r_type r = RChangeCipherSpec) by (unfold is_ccs in IC; destruct (r_type r); congruence). rewrite T.
    exists h. split; [destruct (cl_state h); congruence|]. split; [exact N|]. exists x, n, parts. auto 12.
  - destruct D as [D|T]; [congruence|]. rewrite T. destruct parts as [|part parts]; [contradiction|]. cbn [carried] in CA. destruct CA as (O & CA).
    assert (NP' : strict = true -> Forall (fun p => p <> []) parts) by (intros Q; specialize (NP Q); inversion NP; assumption).
    assert (ZB : n + 1 + zlen (without_ccs rest) < 2^60) by (unfold zlen in *; cbn [length] in NB; lia). pose proof (zlen_nonneg (without_ccs rest)).
    pose proof CW as (_ & CW'). unfold ready_or in CW'.
    assert (READY : cl_state h = CsReady -> exists h', (h, Ok (E:=tls_error) tt) = (h', Ok tt) /\ cw cfg e now base (cg_g x) l h' rest).
    { intros St. exists h. split; [reflexivity|]. rewrite St in CW'. cbn [concat] in CW'. destruct CW' as (CW' & CF). apply app_eq_nil in CW'. destruct CW' as (-> & E0).
      split; [exact N|]. exists x, (n + 1), parts. split; [reflexivity|]. do 2 (split; [assumption|]). split; [lia|]. split; [exact ZB|].
      split; [|exact (conj CA NP')]. split; [exact N|]. unfold ready_or. rewrite St. exact (conj E0 CF). }
    assert (GO : cl_state h <> CsReady -> exists h', client_encrypted_record cfg e now h r = (h', Ok tt) /\ cw cfg e now base (cg_g x) l h' rest).
    { intros NR. assert (CW2 : exists ms, clive cfg e base x h n ms /\ is_bytes ms /\ zlen ms + zlen (concat (concat (part :: parts))) < 2^50 /\ coming (cg_g x) l h ms (concat (part :: parts)))
        by (destruct (cl_state h); congruence || exact CW').
      destruct CW2 as (ms & L & Bm & Lm & Co). pose proof L as (_ & _ & _ & _ & p & P & K & Ic & Na & _ & Pk).
      destruct (cgreeted_keys _ _ _ G) as (_ & G2 & _). 
      destruct (opened_decrypt _ _ p (server_secret (cg_g x)) n r RHandshake (concat part) K Na Pk G2 ltac:(discriminate) N0 ltac:(lia) O) as (p' & Dp).
      destruct (live_open cfg e base x h n ms p r p' RHandshake (concat part) G L W ltac:(lia) P Dp ltac:(discriminate)) as (_ & Bc & Lc & L').
      unfold client_encrypted_record. rewrite P. cbn [unwrap]. rewrite sbind_Ok, Dp. rewrite sbind_Ok.
      assert (CW3 : cwaits cfg e base x l (cl_with_protection h (Some p')) (n + 1) (part ++ concat parts)).
      { split; [exact N|]. unfold ready_or. assert (Q : exists ms0, clive cfg e base x (cl_with_protection h (Some p')) (n + 1) ms0 /\
          is_bytes ms0 /\ zlen ms0 + zlen (concat (part ++ concat parts)) < 2^50 /\ coming (cg_g x) l (cl_with_protection h (Some p')) ms0 (part ++ concat parts))
          by (exists ms; auto). change (cl_state (cl_with_protection h (Some p'))) with (cl_state h). destruct (cl_state h); congruence || exact Q. }
      destruct (messages_fwd cfg e now base x l (n + 1) Ok' G PL part (length (concat part)) _ (concat parts) Bc Lc (le_n _) CW3) as (h' & E' & W').
      exists h'. split; [exact E'|]. split; [exact (proj1 W')|]. exists x, (n + 1), parts. split; [reflexivity|]. do 2 (split; [assumption|]).
      split; [lia|]. split; [exact ZB|]. split; [exact W'|exact (conj CA NP')]. }
    destruct (cl_state h) eqn:St; try (apply GO; congruence); [congruence|]. now apply READY.
Qed.

Lemma slice_from_pre {E} (a b : list Z) : slice_from (E:=E) (a ++ b) (length a) = Ok b.
Proof. unfold slice_from. rewrite app_length. destruct (Nat.leb_spec (length a) (length a + length b)); [|lia]. now rewrite skipn_app_l. Qed.

Lemma waits_nonready cfg e now base g l h rest : cw cfg e now base g l h rest -> without_ccs rest = [] ->
  cl_state h = CsReady /\ exists x, cg_g x = g /\ cgreeted cfg e x /\ cfin cfg e base x l h /\ endless (cl_stream h).
Proof.
  intros (N & x & n & parts & <- & G & _ & _ & _ & (_ & W) & C & _) E. rewrite E in C. destruct parts; [|contradiction]. cbn [concat] in W.
  unfold ready_or, coming in W.
  assert (PE : forall b, [] <> b ++ pl_end (cg_g x) l) by (intros [|]; discriminate).
  destruct (cl_state h); try (destruct W as (ms & _ & _ & _ & Co); try contradiction).
  - destruct Co as (_ & _ & Co). discriminate.
  - destruct Co as (a & b & _ & _ & _ & _ & Co). destruct (PE _ Co).
  - destruct Co as (a & b & _ & _ & _ & _ & Co). destruct (PE _ Co).
  - destruct Co as (_ & _ & _ & _ & _ & Co). discriminate.
  - destruct Co as (_ & _ & _ & Co). discriminate.
  - destruct W as (_ & W). split; [reflexivity|]. exists x. auto.
Qed.
Lemma cw_ready cfg e now base g l h rest : cw cfg e now base g l h rest -> cl_state h = CsReady -> exists x, cg_g x = g /\ cgreeted cfg e x /\ cfin cfg e base x l h /\ endless (cl_stream h).
Proof.
  intros (N & x & n & parts & <- & G & _ & _ & _ & (_ & W) & C) E. unfold ready_or in W. rewrite E in W. exists x. destruct W as (_ & W). auto.
Qed.
Lemma cw_not_ready cfg e now base g l h rest : strict = true -> cw cfg e now base g l h rest -> without_ccs rest <> [] -> cl_state h <> CsReady.
Proof.
  intros S (N & x & n & parts & <- & G & _ & _ & _ & (_ & W) & C & NP) NR E. unfold ready_or in W. rewrite E in W. destruct W as (W & _). specialize (NP S).
  destruct parts as [|p parts].
  - destruct (without_ccs rest); [contradiction|contradiction].
  - cbn [concat] in W. apply app_eq_nil in W. destruct W as (W & _). inversion NP; contradiction.
Qed.
Lemma group_fwd cfg e now base g l : client_ok cfg e -> forall gr fuel pre h rest, Forall whole gr -> Forall data_or_ccs gr -> (length (read_of gr) < fuel)%nat ->
  pre <> [] -> cw cfg e now base g l h (gr ++ rest) ->
  exists h', client_records fuel cfg e now h (pre ++ read_of gr) [] (length pre) = ((h', []), Ok tt) /\ cw cfg e now base g l h' rest.
Proof.
  intros Ok'. induction gr as [|r gr IH]; intros fuel pre h rest FW FD F NP C.
  - exists h. split; [|exact C]. unfold read_of. cbn [map concat]. rewrite app_nil_r. destruct fuel; [lia|]. cbn [client_records]. rewrite Nat.ltb_irrefl. reflexivity.
  - inversion FW as [|? ? W1 W2]; subst. inversion FD as [|? ? D1 D2]; subst. cbn [app] in C.
    destruct (record_fwd cfg e now base g l h r (gr ++ rest) Ok' (whole_formed _ W1) D1 C) as (h1 & E1 & C1).
    change (read_of (r :: gr)) with (wire r ++ read_of gr) in *. rewrite app_length in F. destruct (parse_prefix r (read_of gr) (proj1 W1)) as (P & L5).
    destruct fuel as [|fuel]; [lia|].
    destruct (IH fuel (pre ++ wire r) h1 rest W2 D2 ltac:(lia)) as (h' & E' & C'); [intros Q; apply app_eq_nil in Q; destruct Q; contradiction|exact C1|].
    exists h'. split; [|exact C']. cbn [client_records]. rewrite app_length. replace (Nat.ltb (length pre) (length pre + length (wire r ++ read_of gr))) with true
      by (symmetry; apply Nat.ltb_lt; rewrite app_length; lia). cbn [orb negb]. rewrite slice_from_pre, sbind_Ok, P. cbn [fst snd].
    rewrite E1. replace (Nat.eqb (length pre + length (wire r)) (length (@nil Z))) with false by (symmetry; apply Nat.eqb_neq; cbn [length]; lia).
    rewrite app_length, <- app_assoc in E'. exact E'.
Qed.

Lemma cw_flush cfg e now base g l h rest : cw cfg e now base g l h rest -> exists h', cl_flush h = (h', Ok tt) /\ cw cfg e now base g l h' rest.
Proof.
  intros (N & x & n & parts & Eg & G & PL & N0 & NB & (_ & W) & C). destruct (flush_endless _ N) as (s' & F & N' & P & O). unfold cl_flush. rewrite F.
  exists (cl_with_stream h s'). split; [reflexivity|]. split; [exact N'|]. exists x, n, parts. do 5 (split; [assumption|]). split; [|exact C].
  split; [exact N'|]. unfold ready_or in *. change (cl_state (cl_with_stream h s')) with (cl_state h).
  assert (Q : (exists ms, clive cfg e base x h n ms /\ is_bytes ms /\ zlen ms + zlen (concat (concat parts)) < 2^50 /\ coming (cg_g x) l h ms (concat parts)) ->
    exists ms, clive cfg e base x (cl_with_stream h s') n ms /\ is_bytes ms /\ zlen ms + zlen (concat (concat parts)) < 2^50 /\ coming (cg_g x) l (cl_with_stream h s') ms (concat parts)).
  { intros (ms & L & Bm & Lm & Co). exists ms. split; [|auto]. unfold clive in *. cbn [cl_with_stream cl_stream cl_th cl_keylog cl_log].
    rewrite O, P. exact L. }
  destruct (cl_state h); try (apply Q; exact W). destruct W as (W0 & W). split; [exact W0|].
  unfold cfin in *. cbv zeta in *. destruct W as (replied & q & nq & p1 & ws & p & F1 & F2 & F3 & F4 & F5 & F6). cbn [cl_with_stream cl_stream]. rewrite O, P.
  exists replied, q, nq, p1, ws, p. do 4 (split; [assumption|]). split; [|exact F6].
  assert (CF : cl_flush h = (cl_with_stream h s', Ok tt)) by (unfold cl_flush; now rewrite F).
  apply cl_flush_ok in CF. destruct CF as (s2 & Es & _ & _ & Bf). injection Es as ->. exact Bf.
Qed.
Lemma read_nonempty gr : gr <> [] -> Forall whole gr -> exists b t, read_of gr = b :: t.
Proof.
  intros NE W. destruct gr as [|r gr]; [contradiction|]. assert (PW : Forall (fun r => record_from_raw (wire r) = Ok (length (wire r), r)) (r :: gr))
    by (eapply Forall_impl; [|exact W]; intros a [P _]; exact P).
  pose proof (wires_length _ PW) as LL. fold (read_of (r :: gr)) in LL. destruct (read_of (r :: gr)); [cbn [length] in LL; lia|eauto].
Qed.
Lemma group_first cfg e now base g l : client_ok cfg e -> forall gr h rest, gr <> [] -> Forall whole gr -> Forall data_or_ccs gr ->
  cw cfg e now base g l h (gr ++ rest) ->
  exists h', client_records (Datatypes.S (length (read_of gr) + length (@nil Z))) cfg e now h (read_of gr) [] 0 = ((h', []), Ok tt) /\ cw cfg e now base g l h' rest.
Proof.
  intros Ok' gr h rest NE FW FD C. destruct gr as [|r gr]; [contradiction|]. inversion FW as [|? ? W1 W2]; subst. inversion FD as [|? ? D1 D2]; subst. cbn [app] in C.
  destruct (record_fwd cfg e now base g l h r (gr ++ rest) Ok' (whole_formed _ W1) D1 C) as (h1 & E1 & C1).
  change (read_of (r :: gr)) with (wire r ++ read_of gr) in *. destruct (parse_prefix r (read_of gr) (proj1 W1)) as (P & L5).
  destruct (group_fwd cfg e now base g l Ok' gr (length (wire r ++ read_of gr) + length (@nil Z)) (wire r) h1 rest W2 D2) as (h' & E' & C');
    [rewrite app_length; cbn [length]; lia|destruct (wire r); [cbn in L5; lia|discriminate]|exact C1|].
  exists h'. split; [|exact C']. remember (length (wire r ++ read_of gr) + length (@nil Z))%nat as fuel. cbn [client_records].
  replace (Nat.ltb 0 (length (wire r ++ read_of gr))) with true by (symmetry; apply Nat.ltb_lt; rewrite app_length; lia). cbn [orb negb].
  pose proof (@slice_from_pre tls_error [] (wire r ++ read_of gr)) as SF. cbn [app length] in SF. rewrite SF, sbind_Ok, P. cbn [fst snd].
  rewrite E1. replace (Nat.eqb (0 + length (wire r)) (length (@nil Z))) with false by (symmetry; apply Nat.eqb_neq; cbn [length]; lia). exact E'.
Qed.
Lemma reads_fwd cfg e now base g l later : client_ok cfg e -> forall groups h, Forall (fun gr => gr <> []) groups -> Forall whole (concat groups) ->
  Forall data_or_ccs (concat groups) -> cw cfg e now base g l h (concat groups) ->
  exists h', client_reads cfg e now h [] (map read_of groups ++ later) = (h', Some (Ok tt)) /\
    exists x, cg_g x = g /\ cgreeted cfg e x /\ cfin cfg e base x l h' /\ endless (cl_stream h').
Proof.
  intros Ok'. induction groups as [|gr groups IH]; intros h NE FW FD C.
  - cbn [concat] in C. destruct (waits_nonready _ _ _ _ _ _ _ _ C eq_refl) as (R & Fin). exists h. split; [|exact Fin]. cbn [map app]. destruct later; cbn [client_reads]; rewrite R; reflexivity.
  - inversion NE as [|? ? NE1 NE2]; subst. cbn [concat] in *. apply Forall_app in FW, FD. destruct FW as (FW1 & FW2), FD as (FD1 & FD2).
    destruct (group_first cfg e now base g l Ok' gr h (concat groups) NE1 FW1 FD1 C) as (h1 & E1 & C1).
    destruct (cw_flush _ _ _ _ _ _ _ _ C1) as (h2 & E2 & C2). destruct (IH h2 NE2 FW2 FD2 C2) as (h' & E' & Fin).
    cbn [map app client_reads]. destruct (read_nonempty gr NE1 FW1) as (b & t & Eb).
    assert (TR : tcp_read (read_of gr) = Ok (read_of gr)) by (unfold tcp_read; rewrite Eb; reflexivity). rewrite TR, E1, E2, E'.
    destruct (cl_state h) eqn:St; try (exists h'; split; [reflexivity|exact Fin]). exists h. split; [reflexivity|]. exact (cw_ready _ _ _ _ _ _ _ _ C St).
Qed.

End Strict.

Lemma without_length l : (length (without_ccs l) <= length l)%nat.
Proof. induction l as [|r l IH]; [apply le_n|]. rewrite without_cons. destruct (is_ccs r); cbn [length]; lia. Qed.
Lemma client_ends cfg e now so first sh g : client_ok cfg e -> so_left so = None -> whole first -> r_type first = RHandshake ->
  agrees cfg e (r_fragment first) sh g ->
  forall l parts more groups later, pl_ok cfg e now g l ->
    concat parts = Rfc8446Hello.handshake 8 (pl_ee l) :: map (Rfc8446Hello.handshake 13) (pl_rs l) ++ pl_end g l -> carry g (map (@concat Z) parts) (without_ccs more) ->
    Forall whole more -> Forall (fun r => r_type r = RApplicationData) (without_ccs more) ->
    zlen (concat (concat parts)) < 2^50 -> zlen more < 2^50 ->
    Forall (fun gr => gr <> []) groups -> concat groups = first :: more ->
    exists h, connect cfg e now so (map (fun x => concat (map wire x)) groups ++ later) = (h, Some (Ok tt)) /\
      exists x, cg_g x = g /\ cgreeted cfg e x /\ cfin cfg e (so_sent so ++ hello_out cfg e) x l h /\ endless (cl_stream h).
Proof.
  intros Ok' Nso Wf Tf A l parts more groups later PL EP (CL & CF) WM TM L50 LM NE EG.
  assert (CA : carried g 0 parts (without_ccs more)) by (apply carry_carried; auto).
  assert (L60 : zlen (without_ccs more) < 2^60).
  { unfold zlen in *. pose proof (without_length more). lia. }
  unfold connect, client_do_handshake.
  destruct (hello_built cfg e Ok') as (ch & body & H1 & H2 & H3).
  assert (HS : exists h0, send_client_hello cfg e (client_new e so) = (h0, Ok tt) /\ endless (cl_stream h0)).
  { unfold send_client_hello. cbn [client_new cl_key]. rewrite H1, sbind_Ok, H2, sbind_Ok, H3. cbn [cl_with_hello cl_stream].
    unfold tcp_write. cbn [client_new cl_stream stream_new st_sock st_protection st_buffer].
    unfold write_all. rewrite Nso. eexists. rewrite sbind_Ok. split; [reflexivity|]. reflexivity. }
  destruct HS as (h0 & S & N0). destruct (hello_sent _ _ _ _ _ Ok' S) as (Eh & _ & Bh & Sh). rewrite S.
  assert (Oh : out (cl_stream h0) = so_sent so ++ hello_out cfg e) by (unfold out; now rewrite Bh, app_nil_r).
  assert (St0 : cl_state h0 = CsServerHello) by (rewrite Eh; reflexivity).
  assert (HF : hello_facts cfg e h0) by (unfold hello_facts; rewrite Eh; auto 10).
  destruct (hello_fwd false cfg e now first more g sh l parts h0 Ok' (whole_formed _ Wf) Tf A PL L50 L60 EP CA ltac:(discriminate) N0 St0 HF) as (h1 & E1 & C1).
  assert (DM : Forall data_or_ccs more).
  { apply Forall_forall. intros r Hr. destruct (is_ccs r) eqn:IC; [now left|]. right. rewrite Forall_forall in TM. apply TM. apply filter_In. rewrite IC. auto. }
  destruct groups as [|gr groups]; [discriminate|]. inversion NE as [|? ? NE1 NE2]; subst. destruct gr as [|r gr]; [contradiction|].
  cbn [concat app] in EG. injection EG as -> EG. rewrite <- EG in C1, WM, DM. apply Forall_app in WM, DM. destruct WM as (WM1 & WM2), DM as (DM1 & DM2).
  change (fun x0 => concat (map wire x0)) with read_of. cbn [map app].
  change (read_of (first :: gr)) with (wire first ++ read_of gr). destruct (parse_prefix first (read_of gr) (proj1 Wf)) as (P & L5).
  destruct (group_fwd false cfg e now (out (cl_stream h0)) g l Ok' gr (length (wire first ++ read_of gr) + length (@nil Z)) (wire first) h1 (concat groups) WM1 DM1) as (h2 & E2 & C2);
    [rewrite app_length; cbn [length]; lia|destruct (wire first); [cbn in L5; lia|discriminate]|exact C1|].
  destruct (cw_flush _ _ _ _ _ _ _ _ _ C2) as (h3 & E3 & C3).
  destruct (reads_fwd false cfg e now (out (cl_stream h0)) g l later Ok' groups h3 NE2 WM2 DM2 C3) as (h' & E' & Fin).
  assert (R : client_reads cfg e now h0 [] ((wire first ++ read_of gr) :: map read_of groups ++ later) = (h', Some (Ok tt))).
  { cbn [client_reads]. rewrite St0. 
    assert (TR : tcp_read (wire first ++ read_of gr) = Ok (wire first ++ read_of gr)) by (unfold tcp_read; destruct (wire first ++ read_of gr) eqn:Q; [apply app_eq_nil in Q; destruct Q as (Q & _); rewrite Q in L5; cbn in L5; lia|reflexivity]).
    rewrite TR.
    assert (CR : client_records (Datatypes.S (length (wire first ++ read_of gr) + length (@nil Z))) cfg e now h0 (wire first ++ read_of gr) [] 0 = ((h2, []), Ok tt)).
    { remember (length (wire first ++ read_of gr) + length (@nil Z))%nat as fuel. cbn [client_records].
    replace (Nat.ltb 0 (length (wire first ++ read_of gr))) with true by (symmetry; apply Nat.ltb_lt; rewrite app_length; lia). cbn [orb negb].
    pose proof (@slice_from_pre tls_error [] (wire first ++ read_of gr)) as SF. cbn [app length] in SF. rewrite SF, sbind_Ok, P. cbn [fst snd].
    rewrite E1. replace (Nat.eqb (0 + length (wire first)) (length (@nil Z))) with false by (symmetry; apply Nat.eqb_neq; cbn [length]; lia). exact E2. }
    rewrite CR, E3. exact E'. }
  rewrite R. exists h'. split; [reflexivity|]. rewrite Oh in Fin. exact Fin.
Qed.
(* with the Finished still to come the client waits for it *)
Lemma client_short cfg e now so first sh g : client_ok cfg e -> so_left so = None -> whole first -> r_type first = RHandshake ->
  agrees cfg e (r_fragment first) sh g ->
  forall l parts more, pl_ok cfg e now g l ->
    concat parts = Rfc8446Hello.handshake 8 (pl_ee l) :: map (Rfc8446Hello.handshake 13) (pl_rs l) ++ pl_end g l -> carry g (map (@concat Z) parts) (without_ccs more) ->
    Forall (fun p => p <> []) parts ->
    Forall whole more -> Forall (fun r => r_type r = RApplicationData) (without_ccs more) ->
    zlen (concat (concat parts)) < 2^50 -> zlen more < 2^50 ->
    exists h0, send_client_hello cfg e (client_new e so) = (h0, Ok tt) /\ cl_state h0 = CsServerHello /\
      exists h1, client_record cfg e now h0 first = (h1, Ok tt) /\ cw true cfg e now (so_sent so ++ hello_out cfg e) g l h1 more.
Proof.
  intros Ok' Nso Wf Tf A l parts more PL EP (CL & CF) NP WM TM L50 LM.
  assert (CA : carried g 0 parts (without_ccs more)) by (apply carry_carried; auto).
  assert (L60 : zlen (without_ccs more) < 2^60).
  { unfold zlen in *. pose proof (without_length more). lia. }
  destruct (hello_built cfg e Ok') as (ch & body & H1 & H2 & H3).
  assert (HS : exists h0, send_client_hello cfg e (client_new e so) = (h0, Ok tt) /\ endless (cl_stream h0)).
  { unfold send_client_hello. cbn [client_new cl_key]. rewrite H1, sbind_Ok, H2, sbind_Ok, H3. cbn [cl_with_hello cl_stream].
    unfold tcp_write. cbn [client_new cl_stream stream_new st_sock st_protection st_buffer].
    unfold write_all. rewrite Nso. eexists. rewrite sbind_Ok. split; [reflexivity|]. reflexivity. }
  destruct HS as (h0 & S & N0). destruct (hello_sent _ _ _ _ _ Ok' S) as (Eh & _ & Bh & Sh).
  assert (Oh : out (cl_stream h0) = so_sent so ++ hello_out cfg e) by (unfold out; now rewrite Bh, app_nil_r).
  assert (St0 : cl_state h0 = CsServerHello) by (rewrite Eh; reflexivity).
  assert (HF : hello_facts cfg e h0) by (unfold hello_facts; rewrite Eh; auto 10).
  exists h0. split; [exact S|]. split; [exact St0|]. rewrite <- Oh.
  exact (hello_fwd true cfg e now first more g sh l parts h0 Ok' (whole_formed _ Wf) Tf A PL L50 L60 EP CA (fun _ => NP) N0 St0 HF).
Qed.
Lemma client_accepted cfg e now so first sh g : client_ok cfg e -> so_left so = None -> whole first -> r_type first = RHandshake ->
  agrees cfg e (r_fragment first) sh g ->
  forall parts more groups later, server_conforms cfg e now g (concat parts) -> carry g (map (@concat Z) parts) (without_ccs more) ->
    Forall whole more -> Forall (fun r => r_type r = RApplicationData) (without_ccs more) ->
    zlen (concat (concat parts)) < 2^50 -> zlen more < 2^50 ->
    Forall (fun gr => gr <> []) groups -> concat groups = first :: more ->
    exists h, connect cfg e now so (map (fun x => concat (map wire x)) groups ++ later) = (h, Some (Ok tt)).
Proof.
  intros Ok' Nso Wf Tf A parts more groups later (ee & rs & ctx & cert & x & exts & others & m2 & EP & Lc & X & V & Po & An) C WM TM L50 LM NE EG.
  destruct (client_ends cfg e now so first sh g Ok' Nso Wf Tf A (Plan ee rs ctx cert x exts others m2) parts more groups later
    (conj Lc (conj X (conj V (conj Po An)))) EP C WM TM L50 LM NE EG) as (h & E & _). eauto.
Qed.
