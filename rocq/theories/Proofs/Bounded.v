(* How many messages a handshake takes: the server *)
From Verif Require Import Proofs.Util Proofs.Bytes Model.Alert Model.Bytes Model.Suite Model.Sha2 Model.Hmac Model.KeySchedule Model.Record
  Model.Curve Model.Signature Model.Ecdsa Model.X509 Model.Extensions Model.Hello Model.Kex Model.Handshake Model.Certificate
  Model.Stream Model.Keylog Model.Server Spec.Connection Spec.Handshaking.
From Verif Require Import Proofs.Record Proofs.ServerRun Proofs.ServerSteps Proofs.ServerFlow Proofs.ServerAccept Proofs.ServerAccept2 Proofs.Reads Proofs.Cuts.

Local Opaque handshake_from_raw client_hello_from_raw server_hello_from_client suite_tshash suite_cipher server_hello_bytes
  from_handshake rpp_new certificate_verify_for_handshake finished_handshake th_update certificate_for_handshake
  append_handshake_traffic_secrets rpp_encrypt rpp_decrypt certificate_request certificates_from_hello has_signed sig_from_der is_certificate_valid
  sig_scheme_new verify_data_for_finished generate_application_keys append_from_protection list_eqb slice slice_from to_u16 record_from_raw
  server_exts_bytes client_public_key_share.

(* the state, and the records so far that were no change_cipher_spec *)
Definition progress (cfg : server_config) (st : server_state) (n : nat) : Prop :=
  match st with
  | SvClientHello => n = 0%nat
  | SvClientCertificate => n = 1%nat /\ sc_client_ca cfg <> None
  | SvClientCertificateVerify => n = 2%nat /\ sc_client_ca cfg <> None
  | SvClientFinished => n = match sc_client_ca cfg with None => 1%nat | Some _ => 3%nat end
  | SvFinishWithError _ => sc_client_ca cfg <> None
  | SvReady => True
  end.
Definition lost (st : server_state) : Prop := exists e, st = SvFinishWithError e.

Lemma finish_states h f h' : handle_client_finish h f = (h', Ok tt) ->
  sv_state h' = sv_state h /\ lost (sv_state h) \/ sv_state h' = SvReady /\ ~ lost (sv_state h).
Proof.
  unfold handle_client_finish, lost. intros H. sinv H hs E1. destruct (negb _).
  - destruct (sv_state h) eqn:St; try discriminate. sinv H t E2. injection H as <-. left. cbn. eauto.
  - sinv H p E2. sinv H t E3. sinv H v E4. destruct (negb _); [discriminate|]. destruct (generate_application_keys _ _) as [p' r]. sinv H u E5.
    right. assert (SS : sv_state (match sv_keylog (with_protection h (Some p')) with
         | Some k => append_log (with_protection h (Some p')) (append_from_protection k p') | None => with_protection h (Some p') end) = sv_state h)
      by (destruct (sv_keylog _); reflexivity).
    rewrite SS in H. destruct (sv_state h); try discriminate; injection H as <-; (split; [reflexivity|intros (x & X); discriminate]).
Qed.
Lemma verify_states h f h' : handle_client_certificate_verify h f = (h', Ok tt) -> sv_state h' = SvClientFinished \/ lost (sv_state h').
Proof.
  unfold handle_client_certificate_verify, lost. intros H. sinv H hs E1. destruct (sv_cert h); [|discriminate].
  destruct (negb _); [discriminate|]. sinv H b E2. sinv H al E3. destruct al; try discriminate. sinv H rest E4.
  destruct (sig_from_der rest) as [[sg size]|e|]; [|injection H as <-; right; cbn; eauto|discriminate].
  sinv H t E5. sinv H v E6. destruct (negb v); [injection H as <-; right; cbn; eauto|]. sinv H b2 E7.
  destruct (negb _); injection H as <-; [right; cbn; eauto|left; reflexivity].
Qed.
Lemma certificate_states cfg now h f h' : handle_client_certificate cfg now h f = (h', Ok tt) ->
  sc_client_ca cfg <> None /\ (sv_state h' = SvClientCertificateVerify \/ lost (sv_state h')).
Proof.
  unfold handle_client_certificate, lost. intros H. sinv H hs E1. destruct (sc_client_ca cfg); [|discriminate]. split; [discriminate|].
  destruct (negb _); [discriminate|]. sinv H th E2. sinv H len E3. sinv H cx E4. sinv H ex E5. destruct (negb _); [discriminate|].
  destruct (certificates_from_hello _ _) as [certs|e|]; [|injection H as <-; right; cbn; eauto|discriminate].
  sinv H c1 E6. destruct (has_signed _ _); [|injection H as <-; right; cbn; eauto|discriminate].
  destruct (sc_verify cfg); [|injection H as <-; left; reflexivity]. sinv H x E7. destruct (b x); injection H as <-; [left; reflexivity|right; cbn; eauto].
Qed.
Lemma hello_states cfg d h r h' : handle_client_hello cfg d h r = (h', Ok tt) ->
  sv_state h' = match sc_client_ca cfg with Some _ => SvClientCertificate | None => SvClientFinished end.
Proof.
  unfold handle_client_hello. intros H. sinv H hs E1. destruct (negb _); [discriminate|]. sinv H ch E2. sinv H r0 E3. destruct r0 as [sh pk]. sinv H th E4. sinv H body E5.
  apply sbind_ok in H. destruct H as (h1 & u1 & _ & H). apply sbind_ok in H. destruct H as (h2 & u2 & _ & H). destruct (client_public_key_share _); [|discriminate].
  sinv H ks E6. sinv H c E7. sinv H p E8. sinv H ee E9. apply sbind_ok in H. destruct H as (h3 & u3 & _ & H). apply sbind_ok in H. destruct H as (h4 & u4 & _ & H).
  apply sbind_ok in H. destruct H as (h5 & u5 & _ & H). sinv H cv E10. sinv H cv1 E11. apply sbind_ok in H. destruct H as (h6 & u6 & _ & H). sinv H p1 E12. sinv H raw E13.
  apply sbind_ok in H. destruct H as (h7 & u7 & _ & H). injection H as <-. reflexivity.
Qed.
Lemma record_states cfg d now h r h' : handle_handshake_record cfg d now h r = (h', Ok tt) -> forall n, progress cfg (sv_state h) n ->
  progress cfg (sv_state h') (if is_ccs r then n else S n) /\ (lost (sv_state h) -> lost (sv_state h')) /\
  (sv_state h = SvReady -> sv_state h' = SvReady).
Proof.
  intros H n P. unfold handle_handshake_record in H.
  assert (EN : forall h', sv_state h <> SvReady -> sv_state h <> SvClientHello -> handle_handshake_encrypted_record cfg now h r = (h', Ok tt) ->
    progress cfg (sv_state h') (S n) /\ (lost (sv_state h) -> lost (sv_state h'))).
  { clear H h'. intros h' NR NH. unfold handle_handshake_encrypted_record. intros H. sinv H p E1. destruct (rpp_decrypt p r) as [p' o]. sinv H tc E2. destruct tc as [t content].
    destruct t; try discriminate; [sinv H c E3; discriminate|].
    destruct (match sc_client_ca cfg, sv_context (with_protection h (Some p')) with Some _, None => true | _, _ => false end); [discriminate|].
    change (sv_state (with_protection h (Some p'))) with (sv_state h) in H. unfold lost in *.
    destruct (sv_state h) eqn:St; try contradiction; cbn [progress] in P.
    - apply certificate_states in H. destruct H as (CA & [-> | (e & ->)]); cbn [progress]; (split; [|intros (x & X); discriminate]); [split; [lia|exact CA]|exact CA].
    - apply verify_states in H. destruct P as (-> & CA). destruct H as [-> | (e & ->)]; cbn [progress]; (split; [|intros (x & X); discriminate]); [destruct (sc_client_ca cfg); congruence|exact CA].
    - apply finish_states in H. unfold lost in H. change (sv_state (with_protection h (Some p'))) with (sv_state h) in H. rewrite St in H.
      destruct H as [(_ & (e & X)) | (-> & _)]; [discriminate|]. split; [exact I|intros (x & X); discriminate].
    - apply finish_states in H. unfold lost in H. change (sv_state (with_protection h (Some p'))) with (sv_state h) in H. rewrite St in H.
      destruct H as [(-> & _) | (_ & X)]; [|exfalso; apply X; eauto]. split; [exact P|eauto]. }
  assert (RD : sv_state h = SvReady \/ sv_state h <> SvReady) by (destruct (sv_state h); (left; reflexivity) || (right; discriminate)).
  assert (RH : sv_state h = SvClientHello \/ sv_state h <> SvClientHello) by (destruct (sv_state h); (left; reflexivity) || (right; discriminate)).
  unfold is_ccs. destruct (r_type r) eqn:T.
  2:{ destruct (sv_state h) eqn:St; try discriminate; injection H as <-; rewrite St; auto. }
  2:{ sinv H c E3. discriminate. }
  all: destruct RD as [RD|RD]; [rewrite RD in H; injection H as <-; rewrite RD; repeat split; auto|].
  all: destruct RH as [RH|RH]; [rewrite RH in H; try discriminate|].
  all: try (apply hello_states in H; rewrite RH in *; cbn [progress] in P; subst n; split; [rewrite H; destruct (sc_client_ca cfg) eqn:CA; cbn [progress]; rewrite ?CA; auto; split; [reflexivity|discriminate]|]; split; [intros (x & X)|intros X]; discriminate).
  all: assert (H1 : handle_handshake_encrypted_record cfg now h r = (h', Ok tt)) by (destruct (sv_state h); try contradiction; exact H).
  all: destruct (EN h' RD RH H1) as (A & B); split; [exact A|]; split; [exact B|intros X; contradiction].
Qed.
Lemma without_app a b : without_ccs (a ++ b) = without_ccs a ++ without_ccs b.
Proof. apply filter_app. Qed.
Lemma records_states cfg d now fuel : forall h buf h' u, is_bytes buf -> server_records fuel cfg d now h buf = (h', Ok u) ->
  exists new, received buf new /\ forall n, progress cfg (sv_state h) n ->
    progress cfg (sv_state h') (n + length (without_ccs new)) /\ (lost (sv_state h) -> lost (sv_state h')).
Proof.
  induction fuel as [|fuel IH]; intros h buf h' u B E.
  - destruct buf; [|discriminate]. injection E as <- _. exists []. split; [exact received_nil|]. intros n P. cbn. rewrite Nat.add_0_r. auto.
  - destruct buf as [|b buf]; [injection E as <- _; exists []; split; [exact received_nil|]; intros n P; cbn; rewrite Nat.add_0_r; auto|].
    cbn [server_records] in E. remember (b :: buf) as bs eqn:Eb. clear Eb b buf.
    sinv E cr E1. destruct cr as [n0 rec]. cbn [fst snd] in E. destruct (parsed _ _ _ B E1) as (W & Ew & Er & Hn).
    apply sbind_ok in E. destruct E as (h1 & [] & E2 & E3).
    destruct (IH _ _ _ _ (is_bytes_skipn _ _ B) E3) as (new & R & F). exists ([rec] ++ new). split.
    + rewrite <- (firstn_skipn n0 bs). apply received_app; [|exact R]. split; [cbn; rewrite app_nil_r; exact Ew|constructor; [exact Er|constructor]].
    + intros n P. destruct (record_states _ _ _ _ _ _ E2 n P) as (P1 & L1 & _). destruct (F _ P1) as (P2 & L2). split; [|auto].
      cbn [app]. rewrite without_cons. destruct (is_ccs rec); cbn [length]; [exact P2|]. now rewrite <- plus_n_Sm.
Qed.
Lemma flush_state h h' u : sv_flush h = (h', Ok u) -> sv_state h' = sv_state h.
Proof. destruct u. intros F. apply flush_done in F. tauto. Qed.
Lemma loop_states cfg d now : forall reads h h', Forall is_bytes reads -> server_do_handshake cfg d now h reads = (h', None) ->
  exists groups, reads = map bytes_of groups /\ Forall (fun x => x <> []) groups /\ received (concat reads) (concat groups) /\ sv_state h' <> SvReady /\
    forall n, progress cfg (sv_state h) n -> progress cfg (sv_state h') (n + length (without_ccs (concat groups))).
Proof.
  induction reads as [|c reads IH]; intros h h' B E.
  - exists []. cbn [server_do_handshake] in E. assert (h' = h /\ sv_state h <> SvReady) as (-> & N) by (destruct (sv_state h); try discriminate; (split; [congruence|discriminate])).
    split; [reflexivity|]. split; [constructor|]. split; [exact received_nil|]. split; [exact N|]. intros n P. cbn. now rewrite Nat.add_0_r.
  - inversion B as [|? ? Bc Bs]; subst. destruct (ready h) eqn:R; [apply ready_true in R; rewrite loop_ready in E by exact R; discriminate|].
    assert (N : sv_state h <> SvReady) by (intros X; apply ready_true in X; congruence). rewrite loop_cons in E by exact N. unfold one_read in E.
    destruct c as [|b c]; [discriminate|]. cbn [tcp_read] in E. rewrite sbind_Ok in E.
    destruct (server_records _ cfg d now h (b :: c)) as [h1 [u1|e|]] eqn:E1; cbn [sbind] in E; try discriminate.
    destruct (sv_flush h1) as [h2 [u2|e|]] eqn:E2; try discriminate. pose proof (flush_state _ _ _ E2) as S2.
    destruct (records_states _ _ _ _ _ _ _ _ Bc E1) as (new & Rn & F). destruct (IH _ _ Bs E) as (groups & Q & NE & Rg & NR & G).
    exists (new :: groups). split; [cbn [map]; rewrite <- Q; f_equal; exact (proj1 Rn)|]. split; [constructor; [|exact NE]|].
    { intros ->. destruct Rn as (X & _). discriminate. }
    split; [cbn [concat]; now apply received_app|]. split; [exact NR|]. intros n P. destruct (F n P) as (P1 & _). rewrite <- S2 in P1. apply G in P1.
    cbn [concat]. rewrite without_app, app_length, Nat.add_assoc. exact P1.
Qed.
Lemma loop_lost cfg d now : forall reads h h', Forall is_bytes reads -> sc_client_ca cfg <> None -> lost (sv_state h) -> server_do_handshake cfg d now h reads <> (h', Some (Ok tt)).
Proof.
  induction reads as [|c reads IH]; intros h h' B CA (e & L) E.
  - cbn [server_do_handshake] in E. rewrite L in E. discriminate.
  - inversion B as [|? ? Bc Bs]; subst. rewrite loop_cons in E by (rewrite L; discriminate). unfold one_read in E.
    destruct c as [|b c]; [discriminate|]. cbn [tcp_read] in E. rewrite sbind_Ok in E.
    destruct (server_records _ cfg d now h (b :: c)) as [h1 [u1|er|]] eqn:E1; cbn [sbind] in E; try discriminate.
    destruct (sv_flush h1) as [h2 [u2|er|]] eqn:E2; try discriminate. pose proof (flush_state _ _ _ E2) as S2.
    destruct (records_states _ _ _ _ _ _ _ _ Bc E1) as (new & Rn & F). destruct (F 0%nat) as (_ & F2); [rewrite L; exact CA|].
    apply (IH h2 h' Bs CA); [rewrite S2; apply F2; exists e; exact L|exact E].
Qed.
Theorem server_bounded cfg d now so reads h : Forall is_bytes reads -> accept cfg d now so reads = (h, None) ->
  exists groups, reads = map bytes_of groups /\ Forall (fun x => x <> []) groups /\ received (concat reads) (concat groups) /\
    ((length (without_ccs (concat groups)) <= match sc_client_ca cfg with None => 1 | Some _ => 3 end)%nat \/
     sc_client_ca cfg <> None /\ forall more h', Forall is_bytes more -> accept cfg d now so (reads ++ more) <> (h', Some (Ok tt))).
Proof.
  intros B E. pose proof (accept_none _ _ _ _ _ _ E) as L. destruct (loop_states _ _ _ _ _ _ B L) as (groups & Q & NE & R & NR & P).
  exists groups. split; [exact Q|]. split; [exact NE|]. split; [exact R|]. specialize (P 0%nat eq_refl). cbn [Nat.add] in P.
  destruct (sv_state h) eqn:St; cbn [progress] in P; try contradiction.
  - left. rewrite P. destruct (sc_client_ca cfg); lia.
  - left. destruct P as (-> & CA). destruct (sc_client_ca cfg); lia.
  - left. destruct P as (-> & CA). destruct (sc_client_ca cfg); [lia|contradiction].
  - left. rewrite P. destruct (sc_client_ca cfg); lia.
  - right. split; [exact P|]. intros more h' Bm A. apply accept_ok in A. destruct (loop_app _ _ _ _ more _ _ L) as (LA & _). rewrite LA in A.
    revert A. apply loop_lost; [exact Bm|exact P|]. exists e. exact St.
Qed.

(* a client that was refused keeps the server waiting with any message but Finished *)
Lemma rejected_step cfg d now so before h1 er p p' r m hs : accept cfg d now so before = (h1, None) -> sv_state h1 = SvFinishWithError er ->
  st_buffer (sv_stream h1) = [] -> sv_th h1 <> None -> sv_context h1 <> None ->
  parses r -> r_type r = RApplicationData -> st_protection (sv_stream h1) = Some p -> rpp_decrypt p r = (p', Ok (RHandshake, m)) ->
  handshake_from_raw m = Ok hs -> hs_type hs <> HtFinished ->
  exists h2, accept cfg d now so (before ++ [wire r]) = (h2, None) /\ sv_state h2 = SvFinishWithError er /\
    st_buffer (sv_stream h2) = [] /\ sv_th h2 <> None /\ sv_context h2 <> None /\ st_protection (sv_stream h2) = Some p' /\ st_sock (sv_stream h2) = st_sock (sv_stream h1).
Proof.
  intros A St Bf Th Cx P T Pr De Hm NF. destruct (accept_app _ _ _ _ _ [wire r] _ A) as (L & R).
  assert (S1 : exists t', steps cfg d now h1 [r] = (with_th (with_protection h1 (Some p')) t', Ok tt)).
  { cbn [steps]. unfold handle_handshake_record. rewrite T, St. unfold handle_handshake_encrypted_record. rewrite Pr. cbn [unwrap]. rewrite sbind_Ok, De, sbind_Ok.
    change (sv_context (with_protection h1 (Some p'))) with (sv_context h1). change (sv_state (with_protection h1 (Some p'))) with (sv_state h1). rewrite St.
    destruct (sv_context h1); [|contradiction]. replace (match sc_client_ca cfg with Some _ => false | None => false end) with false by (destruct (sc_client_ca cfg); reflexivity).
    unfold handle_client_finish. rewrite Hm, sbind_Ok. replace (negb (ht_eqb (hs_type hs) HtFinished)) with true by (destruct (hs_type hs); try reflexivity; contradiction).
    change (sv_state (with_protection h1 (Some p'))) with (sv_state h1). rewrite St. change (sv_th (with_protection h1 (Some p'))) with (sv_th h1). destruct (sv_th h1); [|contradiction].
    cbn [unwrap]. rewrite !sbind_Ok. eexists. reflexivity. }
  destruct S1 as (t' & S1). rewrite L. rewrite loop_cons by exact R. replace (wire r) with (read_of [r]) by (unfold read_of; cbn; apply app_nil_r).
  rewrite one_read_group; [|discriminate|now constructor]. rewrite S1, sbind_Ok. rewrite flush_empty by exact Bf. cbn [server_do_handshake]. cbn [with_th with_protection with_stream sv_state]. rewrite St.
  eexists. split; [reflexivity|]. cbn. repeat split; auto. discriminate.
Qed.
