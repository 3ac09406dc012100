(* How the reads are cut, and change_cipher_spec records: the server *)
From Verif Require Import Proofs.Util Proofs.Bytes Model.Alert Model.Bytes Model.Suite Model.Sha2 Model.Hmac Model.KeySchedule Model.Record Model.Channel
  Model.Curve Model.Signature Model.Ecdsa Model.X509 Model.Extensions Model.Hello Model.Kex Model.Handshake Model.Certificate
  Model.Stream Model.Keylog Model.Server Spec.Connection.
From Verif Require Import Proofs.Record Proofs.Stream Proofs.ServerRun Proofs.ServerFlow Proofs.ServerAccept Proofs.ServerAccept2.

Definition parses (r : record) : Prop := record_from_raw (wire r) = Ok (length (wire r), r).
Definition nonempty {A} (l : list A) : bool := match l with [] => false | _ => true end.
Definition greeted_state (h : server_hs) : Prop := sv_state h <> SvClientHello.

Local Opaque handshake_from_raw client_hello_from_raw server_hello_from_client suite_tshash suite_cipher server_hello_bytes
  from_handshake rpp_new certificate_verify_for_handshake finished_handshake th_update certificate_for_handshake
  append_handshake_traffic_secrets rpp_encrypt rpp_decrypt certificate_request certificates_from_hello has_signed sig_from_der is_certificate_valid
  sig_scheme_new verify_data_for_finished generate_application_keys append_from_protection list_eqb slice slice_from to_u16 record_from_raw
  server_exts_bytes client_public_key_share.

(* after the hello, what a record does depends on the stream only through its keys, and changes only them *)
Definition on_stream (s2 : stream) (x : server_hs * outcome tls_error unit) : server_hs * outcome tls_error unit :=
  (with_stream (fst x) (set_protection s2 (st_protection (sv_stream (fst x)))), snd x).
Ltac proj := cbn [fst snd sv_stream sv_state sv_keylog sv_log sv_cert sv_context sv_th sv_th_finished with_stream with_state with_th
     with_th_finished with_context with_cert with_keylog append_log with_protection set_protection st_protection st_sock st_buffer unwrap].
Ltac both := proj; match goal with
  | |- sbind (_, ?m) _ = _ => destruct m; [rewrite !sbind_Ok|reflexivity|reflexivity]
  | |- (match ?x with _ => _ end) = _ => destruct x; try reflexivity
  | |- (let (_, _) := ?x in _) = _ => destruct x
  end.
Lemma cert_stream cfg now h f so p b : sv_stream h = Stream so p b -> forall so2 b2,
  handle_client_certificate cfg now (with_stream h (Stream so2 p b2)) f = on_stream (Stream so2 p b2) (handle_client_certificate cfg now h f).
Proof.
  destruct h as [s st kl lg ce cx th tf]. cbn [sv_stream]. intros -> so2 b2.
  unfold handle_client_certificate, on_stream. repeat both.
Qed.
Lemma cv_stream h f so p b : sv_stream h = Stream so p b -> forall so2 b2,
  handle_client_certificate_verify (with_stream h (Stream so2 p b2)) f = on_stream (Stream so2 p b2) (handle_client_certificate_verify h f).
Proof.
  destruct h as [s st kl lg ce cx th tf]. cbn [sv_stream]. intros -> so2 b2.
  unfold handle_client_certificate_verify, on_stream. repeat both.
Qed.
Lemma fin_stream h f so p b : sv_stream h = Stream so p b -> forall so2 b2,
  handle_client_finish (with_stream h (Stream so2 p b2)) f = on_stream (Stream so2 p b2) (handle_client_finish h f).
Proof.
  destruct h as [s st kl lg ce cx th tf]. cbn [sv_stream]. intros -> so2 b2.
  unfold handle_client_finish, on_stream. both. both.
  - proj. destruct st; try reflexivity. repeat both. reflexivity.
  - do 3 both. both. proj. destruct tf as [tf|]; destruct (generate_application_keys _ _) as [p' [u|e|]]; try reflexivity; rewrite !sbind_Ok;
    destruct kl, st; reflexivity.
Qed.
Lemma rec_stream cfg d now h r so p b : greeted_state h -> sv_stream h = Stream so p b -> forall so2 b2,
  handle_handshake_record cfg d now (with_stream h (Stream so2 p b2)) r = on_stream (Stream so2 p b2) (handle_handshake_record cfg d now h r).
Proof.
  intros G Hs so2 b2.
  assert (E : forall r', handle_handshake_encrypted_record cfg now (with_stream h (Stream so2 p b2)) r' =
     on_stream (Stream so2 p b2) (handle_handshake_encrypted_record cfg now h r')).
  { intros r'. unfold handle_handshake_encrypted_record. cbn [with_stream sv_stream]. rewrite Hs. cbn [st_protection].
    destruct p as [p|]; cbn [unwrap].
    2: { unfold on_stream. cbn [sbind fst snd]. rewrite Hs. reflexivity. }
    rewrite !sbind_Ok. destruct (rpp_decrypt p r') as [p' [tc|e|]]; [rewrite !sbind_Ok|..].
    2,3: unfold on_stream; cbn [sbind fst snd with_protection with_stream sv_stream set_protection st_protection st_sock st_buffer]; reflexivity.
    destruct tc as [t content].
    assert (W : with_protection (with_stream h (Stream so2 (Some p) b2)) (Some p') = with_stream (with_protection h (Some p')) (Stream so2 (Some p') b2)) by reflexivity.
    rewrite W.
    assert (Hs' : sv_stream (with_protection h (Some p')) = Stream so (Some p') b) by (unfold with_protection; rewrite Hs; reflexivity).
    assert (OS : forall o, (with_stream (with_protection h (Some p')) (Stream so2 (Some p') b2), o) = on_stream (Stream so2 (Some p) b2) (with_protection h (Some p'), o)) by reflexivity.
    assert (OC : forall x, on_stream (Stream so2 (Some p') b2) x = on_stream (Stream so2 (Some p) b2) x) by reflexivity.
    change (sv_context (with_stream (with_protection h (Some p')) (Stream so2 (Some p') b2))) with (sv_context (with_protection h (Some p'))).
    change (sv_state (with_stream (with_protection h (Some p')) (Stream so2 (Some p') b2))) with (sv_state (with_protection h (Some p'))).
    destruct t; try apply OS.
    - destruct (idx content 1); cbn [sbind]; apply OS.
    - destruct (match sc_client_ca cfg, sv_context (with_protection h (Some p')) with Some _, None => true | _, _ => false end); [apply OS|].
      destruct (sv_state (with_protection h (Some p'))); try apply OS; rewrite <- OC.
      + eapply cert_stream; exact Hs'. + eapply cv_stream; exact Hs'. + eapply fin_stream; exact Hs'. + eapply fin_stream; exact Hs'. }
  assert (OS : forall o, (with_stream h (Stream so2 p b2), o) = on_stream (Stream so2 p b2) (h, o)).
  { intros o. unfold on_stream. cbn [fst snd]. rewrite Hs. reflexivity. }
  unfold handle_handshake_record. change (sv_state (with_stream h (Stream so2 p b2))) with (sv_state h).
  unfold greeted_state in G. destruct (r_type r).
  all: destruct (sv_state h); try contradiction; try apply OS; try apply E; destruct (idx (r_fragment r) 1); cbn [sbind]; apply OS.
Qed.

(* and the hello is over *)
Lemma stays_greeted cfg d now h r h' : is_ccs r = false \/ greeted_state h -> handle_handshake_record cfg d now h r = (h', Ok tt) -> greeted_state h'.
Proof.
  intros C H. unfold greeted_state in *.
  assert (HF : forall h f h', handle_client_finish h f = (h', Ok tt) -> sv_state h <> SvClientHello -> sv_state h' <> SvClientHello).
  { clear. intros h f h'. unfold handle_client_finish. intros H G. sinv H hs E1. destruct (negb _).
    - destruct (sv_state h) eqn:St; try discriminate. sinv H t E2. injection H as <-. cbn. congruence.
    - sinv H p E2. sinv H t E3. sinv H v E4. destruct (negb _); [discriminate|]. destruct (generate_application_keys _ _) as [p' r]. sinv H u E5.
      destruct (sv_state _) in H; try discriminate; injection H as <-; cbn; discriminate. }
  assert (HV : forall h f h', handle_client_certificate_verify h f = (h', Ok tt) -> sv_state h' <> SvClientHello).
  { clear. intros h f h'. unfold handle_client_certificate_verify. intros H. sinv H hs E1. destruct (sv_cert h); [|discriminate].
    destruct (negb _); [discriminate|]. sinv H b E2. sinv H al E3. destruct al; try discriminate. sinv H rest E4.
    destruct (sig_from_der rest) as [[sg size]|e|]; [|injection H as <-; discriminate|discriminate].
    sinv H t E5. sinv H v E6. destruct (negb v); [injection H as <-; discriminate|]. sinv H b2 E7.
    destruct (negb _); injection H as <-; discriminate. }
  assert (HC : forall h f h', handle_client_certificate cfg now h f = (h', Ok tt) -> sv_state h' <> SvClientHello).
  { clear. intros h f h'. unfold handle_client_certificate. intros H. sinv H hs E1. destruct (sc_client_ca cfg); [|discriminate].
    destruct (negb _); [discriminate|]. sinv H th E2. sinv H len E3. sinv H cx E4. sinv H ex E5. destruct (negb _); [discriminate|].
    destruct (certificates_from_hello _ _) as [certs|e|]; [|injection H as <-; discriminate|discriminate].
    sinv H c1 E6. destruct (has_signed _ _); [|injection H as <-; discriminate|discriminate].
    destruct (sc_verify cfg); [|injection H as <-; discriminate]. sinv H x E7. destruct (b x); injection H as <-; discriminate. }
  assert (HE : forall h r h', handle_handshake_encrypted_record cfg now h r = (h', Ok tt) -> sv_state h <> SvClientHello -> sv_state h' <> SvClientHello).
  { clear - HF HV HC. intros h r h'. unfold handle_handshake_encrypted_record. intros H G. sinv H p E1. destruct (rpp_decrypt p r) as [p' o].
    sinv H tc E2. destruct tc as [t content]. destruct t; try discriminate.
    - sinv H c E3. discriminate.
    - destruct (match sc_client_ca cfg, _ with Some _, None => true | _, _ => false end); [discriminate|].
      change (sv_state (with_protection h (Some p'))) with (sv_state h) in H. destruct (sv_state h) eqn:St; try contradiction; eauto.
      + eapply HF; [exact H|cbn; congruence]. + eapply HF; [exact H|cbn; congruence].
      + injection H as <-. cbn. congruence. }
  unfold handle_handshake_record in H.
  destruct (r_type r) eqn:Tr; try (destruct (sv_state h) eqn:St; try discriminate; try (injection H as <-; congruence); (eapply HE; [exact H|congruence])).
  - sinv H c E. discriminate.
  - destruct (sv_state h) eqn:St; try (injection H as <-; congruence); try (eapply HE; [exact H|congruence]).
    unfold handle_client_hello in H. sinv H hs E1. destruct (negb _); [discriminate|]. sinv H ch E2. sinv H x E3. destruct x as [sh pk].
    sinv H t E4. sinv H body E5. apply sbind_ok in H. destruct H as (h1 & u1 & E6 & H). apply sbind_ok in H. destruct H as (h2 & u2 & E7 & H).
    destruct (client_public_key_share _); [|discriminate]. sinv H ks E8. sinv H c E9. sinv H p E10. sinv H ee E11.
    apply sbind_ok in H. destruct H as (h3 & u3 & E12 & H). apply sbind_ok in H. destruct H as (h4 & u4 & E13 & H).
    apply sbind_ok in H. destruct H as (h5 & u5 & E14 & H). sinv H cv E15. sinv H cv' E16. 
    apply sbind_ok in H. destruct H as (h6 & u6 & E17 & H). sinv H p6 E18. sinv H raw E19.
    apply sbind_ok in H. destruct H as (h7 & u7 & E20 & H). injection H as <-. cbn. destruct (sc_client_ca cfg); discriminate.
Qed.

Lemma rec_ccs cfg d now h r : greeted_state h -> is_ccs r = true -> handle_handshake_record cfg d now h r = (h, Ok tt).
Proof.
  unfold greeted_state, is_ccs, handle_handshake_record. intros G C. destruct (r_type r); try discriminate. destruct (sv_state h); try reflexivity. contradiction.
Qed.
Lemma steps_ccs cfg d now : forall recs h, greeted_state h -> steps cfg d now h recs = steps cfg d now h (without_ccs recs).
Proof.
  induction recs as [|r recs IH]; intros h G; [reflexivity|]. rewrite without_cons. destruct (is_ccs r) eqn:C.
  - cbn [steps]. rewrite rec_ccs by assumption. rewrite sbind_Ok. apply IH, G.
  - cbn [steps]. destruct (handle_handshake_record cfg d now h r) as [h1 [[]|e|]] eqn:E; try reflexivity. rewrite !sbind_Ok.
    apply IH. eapply stays_greeted; [right; exact G|exact E].
Qed.
Lemma steps_greeted cfg d now : forall recs h h', greeted_state h -> steps cfg d now h recs = (h', Ok tt) -> greeted_state h'.
Proof.
  induction recs as [|r recs IH]; intros h h' G H; cbn [steps] in H; [injection H as <-; exact G|].
  apply sbind_ok in H. destruct H as (h1 & [] & E & H). eapply IH; [|exact H]. eapply stays_greeted; [right; exact G|exact E].
Qed.
(* the socket and the buffer are left alone *)
Definition same_out (s s' : stream) : Prop := st_sock s' = st_sock s /\ st_buffer s' = st_buffer s.
Lemma rec_same cfg d now h r : greeted_state h -> same_out (sv_stream h) (sv_stream (fst (handle_handshake_record cfg d now h r))).
Proof.
  intros G. destruct h as [[so p b] st kl lg ce cx th tf].
  pose proof (rec_stream cfg d now _ r so p b G eq_refl so b) as R. unfold with_stream in R. cbn [sv_stream sv_state sv_keylog sv_log sv_cert sv_context sv_th sv_th_finished] in R.
  rewrite R. unfold on_stream, same_out. cbn. auto.
Qed.
Lemma steps_same cfg d now : forall recs h, greeted_state h -> same_out (sv_stream h) (sv_stream (fst (steps cfg d now h recs))).
Proof.
  induction recs as [|r recs IH]; intros h G; [cbn; unfold same_out; auto|]. cbn [steps].
  pose proof (rec_same cfg d now h r G) as R. destruct (handle_handshake_record cfg d now h r) as [h1 [[]|e|]] eqn:E; try exact R.
  rewrite sbind_Ok. assert (G1 : greeted_state h1) by (eapply stays_greeted; [right; exact G|exact E]).
  specialize (IH h1 G1). cbn [fst] in R. unfold same_out in *. intuition congruence.
Qed.
Lemma steps_stream cfg d now : forall recs h so p b, greeted_state h -> sv_stream h = Stream so p b -> forall so2 b2,
  steps cfg d now (with_stream h (Stream so2 p b2)) recs = on_stream (Stream so2 p b2) (steps cfg d now h recs).
Proof.
  induction recs as [|r recs IH]; intros h so p b G Hs so2 b2.
  - cbn [steps]. unfold on_stream. cbn [fst snd]. rewrite Hs. reflexivity.
  - cbn [steps]. rewrite (rec_stream cfg d now h r so p b G Hs). unfold on_stream.
    pose proof (rec_same cfg d now h r G) as R. rewrite Hs in R.
    destruct (handle_handshake_record cfg d now h r) as [h1 [[]|e|]] eqn:E; try reflexivity. cbn [fst snd].
    rewrite !sbind_Ok. assert (G1 : greeted_state h1) by (eapply stays_greeted; [right; exact G|exact E]).
    cbn [fst] in R. destruct (sv_stream h1) as [so1 p1 b1] eqn:S1. destruct R as (R1 & R2). cbn [st_sock st_buffer] in R1, R2. subst so1 b1.
    change (set_protection (Stream so2 p b2) (st_protection (Stream so p1 b))) with (Stream so2 p1 b2). rewrite (IH h1 so p1 b G1 S1). reflexivity.
Qed.

(* one read *)
Definition one_read (cfg : server_config) (d : draws) (now : Z) (h : server_hs) (chunk : list Z) : server_hs * outcome tls_error unit :=
  let@ (h, rx) := (h, tcp_read chunk) in let@ (h, _) := server_records (length rx) cfg d now h rx in sv_flush h.
Lemma one_read_group cfg d now h gr : gr <> [] -> Forall parses gr ->
  one_read cfg d now h (read_of gr) = let@ (h, _) := steps cfg d now h gr in sv_flush h.
Proof.
  intros NE PW. unfold one_read.
  assert (TR : tcp_read (read_of gr) = Ok (read_of gr)).
  { unfold tcp_read. destruct (read_of gr) eqn:R; [|reflexivity]. exfalso. destruct gr as [|r gr]; [contradiction|].
    pose proof (wires_length _ PW) as LL. unfold read_of in R. rewrite R in LL. cbn [length] in LL. lia. }
  rewrite TR, sbind_Ok. unfold read_of. now rewrite (records_steps cfg d now gr _ h PW (wires_length _ PW)).
Qed.
Lemma loop_cons cfg d now h chunk rest : sv_state h <> SvReady ->
  server_do_handshake cfg d now h (chunk :: rest) =
  match one_read cfg d now h chunk with (h, Ok _) => server_do_handshake cfg d now h rest | (h, o) => (h, Some o) end.
Proof. intros R. cbn [server_do_handshake]. unfold one_read. destruct (sv_state h); try reflexivity. contradiction. Qed.
Lemma loop_ready cfg d now h reads : sv_state h = SvReady -> server_do_handshake cfg d now h reads = (h, Some (Ok tt)).
Proof. intros R. destruct reads; cbn [server_do_handshake]; rewrite R; reflexivity. Qed.
Lemma flush_empty h : st_buffer (sv_stream h) = [] -> sv_flush h = (h, Ok tt).
Proof.
  destruct h as [[[se le] p b] st kl lg ce cx th tf]. cbn [sv_stream st_buffer]. intros ->. unfold sv_flush, flush, write_all.
  cbn [sv_stream st_sock so_left so_sent st_buffer length st_protection]. destruct le as [k|].
  - cbn [Nat.leb firstn]. rewrite app_nil_r, Nat.sub_0_r. reflexivity.
  - rewrite app_nil_r. reflexivity.
Qed.
Lemma flush_done h h' : sv_flush h = (h', Ok tt) -> st_buffer (sv_stream h') = [] /\ sv_state h' = sv_state h.
Proof.
  unfold sv_flush, flush. destruct (write_all _ _) as [so []]; intros H; [|discriminate]. injection H as <-. cbn. auto.
Qed.
Definition ready (h : server_hs) : bool := match sv_state h with SvReady => true | _ => false end.
Lemma ready_true h : ready h = true <-> sv_state h = SvReady.
Proof. unfold ready. destruct (sv_state h); split; congruence. Qed.

Definition no_alert (r : record) : Prop := r_type r <> RAlert.
Lemma rec_ready cfg d now h r : sv_state h = SvReady -> no_alert r -> handle_handshake_record cfg d now h r = (h, Ok tt).
Proof. unfold no_alert, handle_handshake_record. intros R N. destruct (r_type r); try contradiction; rewrite R; reflexivity. Qed.
Lemma steps_ready cfg d now : forall recs h, sv_state h = SvReady -> Forall no_alert recs -> steps cfg d now h recs = (h, Ok tt).
Proof. induction recs as [|r recs IH]; intros h R N; [reflexivity|]. inversion N; subst. cbn [steps]. rewrite rec_ready by assumption. rewrite sbind_Ok. now apply IH. Qed.
Lemma steps_app cfg d now a b : forall h, steps cfg d now h (a ++ b) = let@ (h, _) := steps cfg d now h a in steps cfg d now h b.
Proof.
  induction a as [|r a IH]; intros h; [reflexivity|]. cbn [app steps]. destruct (handle_handshake_record cfg d now h r) as [h1 [u|e|]]; cbn [sbind]; try reflexivity. apply IH.
Qed.
Lemma parses_in recs l : Forall parses recs -> incl l recs -> Forall parses l.
Proof. intros P I. rewrite Forall_forall in *. auto. Qed.
Lemma without_incl l : incl (without_ccs l) l.
Proof. intros r I. unfold without_ccs in I. apply filter_In in I. tauto. Qed.
Lemma nonempty_ne {A} (l : list A) : nonempty l = true <-> l <> [].
Proof. destruct l; cbn; split; congruence. Qed.

(* change_cipher_spec records may be left out, and reads with nothing else *)
Definition reads_without (groups : list (list record)) : list (list record) := filter nonempty (map without_ccs groups).
Lemma loop_ccs cfg d now later : forall groups h, greeted_state h -> st_buffer (sv_stream h) = [] ->
  Forall (fun x => x <> []) groups -> Forall parses (concat groups) ->
  server_do_handshake cfg d now h (map read_of groups ++ later) = server_do_handshake cfg d now h (map read_of (reads_without groups) ++ later).
Proof.
  induction groups as [|gr groups IH]; intros h G B NE P; [reflexivity|].
  destruct (ready h) eqn:R; [apply ready_true in R; now rewrite !loop_ready|].
  assert (NR : sv_state h <> SvReady) by (intros X; apply ready_true in X; congruence).
  inversion NE as [|? ? N1 N2]; subst. cbn [concat] in P. apply Forall_app in P. destruct P as (P1 & P2).
  cbn [map app]. rewrite loop_cons, one_read_group, steps_ccs by assumption.
  unfold reads_without. cbn [map filter]. destruct (nonempty (without_ccs gr)) eqn:E; fold (reads_without groups).
  - apply nonempty_ne in E. cbn [map app]. rewrite loop_cons, one_read_group by (first [assumption | eapply parses_in; [exact P1|apply without_incl]]).
    destruct (steps cfg d now h (without_ccs gr)) as [h1 [[]|e|]] eqn:S1; try reflexivity. rewrite !sbind_Ok.
    destruct (sv_flush h1) as [h2 [[]|e|]] eqn:F; try reflexivity. destruct (flush_done _ _ F) as (B2 & St2). apply IH; try assumption.
    unfold greeted_state. rewrite St2. exact (steps_greeted _ _ _ _ _ _ G S1).
  - destruct (without_ccs gr); [|discriminate]. cbn [steps]. rewrite sbind_Ok, flush_empty by assumption. now apply IH.
Qed.
Lemma loop_first cfg d now h gr rest : gr <> [] -> Forall parses gr -> sv_state h = SvClientHello ->
  server_do_handshake cfg d now h (read_of gr :: rest) =
  match (let@ (h, _) := steps cfg d now h gr in sv_flush h) with (h, Ok _) => server_do_handshake cfg d now h rest | (h, o) => (h, Some o) end.
Proof. intros N P St. rewrite loop_cons by congruence. now rewrite one_read_group. Qed.
Lemma accept_ccs cfg d now so hello gr groups later :
  is_ccs hello = false -> Forall parses (hello :: gr) -> Forall (fun x => x <> []) groups -> Forall parses (concat groups) ->
  accept cfg d now so (read_of (hello :: gr) :: map read_of groups ++ later) =
  accept cfg d now so (read_of (hello :: without_ccs gr) :: map read_of (reads_without groups) ++ later).
Proof.
  intros C P N2 P2. unfold accept.
  assert (E : server_do_handshake cfg d now (server_new so) (read_of (hello :: gr) :: map read_of groups ++ later) =
    server_do_handshake cfg d now (server_new so) (read_of (hello :: without_ccs gr) :: map read_of (reads_without groups) ++ later)); [|now rewrite E].
  inversion P as [|? ? Ph Pg]; subst.
  rewrite !loop_first; try discriminate; try reflexivity; try assumption.
  2: { constructor; [exact Ph|]. eapply parses_in; [exact Pg|apply without_incl]. }
  cbn [steps]. destruct (handle_handshake_record cfg d now (server_new so) hello) as [h1 [[]|e|]] eqn:E1; try reflexivity. rewrite !sbind_Ok.
  assert (G1 : greeted_state h1) by (eapply stays_greeted; [left; exact C|exact E1]). rewrite steps_ccs by assumption.
  destruct (steps cfg d now h1 (without_ccs gr)) as [h2 [[]|e|]] eqn:S1; try reflexivity. rewrite !sbind_Ok.
  destruct (sv_flush h2) as [h3 [[]|e|]] eqn:F; try reflexivity. destruct (flush_done _ _ F) as (B3 & St3). apply loop_ccs; try assumption.
  unfold greeted_state. rewrite St3. exact (steps_greeted _ _ _ _ _ _ G1 S1).
Qed.

(* ---- how the records are spread over reads ---- *)
Lemma loop_groups cfg d now later : forall groups h, greeted_state h -> st_buffer (sv_stream h) = [] ->
  Forall (fun x => x <> []) groups -> Forall parses (concat groups) -> Forall no_alert (concat groups) ->
  server_do_handshake cfg d now h (map read_of groups ++ later) =
  match steps cfg d now h (concat groups) with (h', Ok _) => server_do_handshake cfg d now h' later | (h', o) => (h', Some o) end.
Proof.
  induction groups as [|gr groups IH]; intros h G B NE P A; [reflexivity|].
  destruct (ready h) eqn:R. { apply ready_true in R. rewrite loop_ready, steps_ready by assumption. now rewrite loop_ready. }
  assert (NR : sv_state h <> SvReady) by (intros X; apply ready_true in X; congruence).
  inversion NE as [|? ? N1 N2]; subst. cbn [concat] in P, A |- *. apply Forall_app in P, A. destruct P as (P1 & P2), A as (A1 & A2).
  cbn [map app]. rewrite loop_cons, one_read_group, steps_app by assumption.
  pose proof (steps_same cfg d now gr h G) as SS.
  destruct (steps cfg d now h gr) as [h1 [[]|e|]] eqn:S1; try reflexivity. rewrite !sbind_Ok. cbn [fst] in SS. destruct SS as (_ & SS).
  rewrite flush_empty by congruence. apply IH; try assumption; try congruence. exact (steps_greeted _ _ _ _ _ _ G S1).
Qed.

(* the socket keeps working *)
Lemma sbind_pres {S E A B} (P : S -> Prop) (m : S * outcome E A) (k : S -> A -> S * outcome E B) :
  P (fst m) -> (forall s a, m = (s, Ok a) -> P (fst (k s a))) -> P (fst (sbind m k)).
Proof. destruct m as [s [a|e|]]; cbn [sbind fst]; auto. Qed.
Definition works (h : server_hs) : Prop := endless (sv_stream h).
Lemma write_works h t data : works h -> works (fst (sv_write h t data)).
Proof.
  unfold works, sv_write, write_record, protect. destruct (sv_stream h) as [so p b]. cbn [st_protection st_sock st_buffer]. intros N.
  assert (K : forall q w, endless (fst (if Nat.leb 2048 (length (st_buffer (Stream so q (b ++ w)))) then flush (Stream so q (b ++ w)) else (Stream so q (b ++ w), Ok (E:=tls_error) tt)))).
  { intros q w. destruct (Nat.leb _ _); [|exact N]. destruct (flush_endless (Stream so q (b ++ w)) N) as (s' & F & E & _). rewrite F. exact E. }
  destruct p as [p|].
  - destruct (rpp_encrypt p (record_new t data)) as [p' [w|e|]]; cbn [sbind st_sock st_protection st_buffer]; try exact N.
    specialize (K (Some p') w). destruct (if Nat.leb _ _ then _ else _) as [s r] in K |- *. exact K.
  - cbn [sbind st_sock st_protection st_buffer]. specialize (K None (record_as_bytes (record_new t data))).
    destruct (if Nat.leb _ _ then _ else _) as [s r] in K |- *. exact K.
Qed.
Lemma hello_works cfg d h rec : works h -> works (fst (handle_client_hello cfg d h rec)).
Proof.
  intros W. unfold handle_client_hello.
  assert (W2 : forall t data h h' r, works h -> sv_write h t data = (h', r) -> works h') by (intros t data h0 h' r W0 E; pose proof (write_works h0 t data W0) as X; now rewrite E in X).
  apply sbind_pres; [exact W|]. intros s hs E; injection E as <- _. destruct (negb _); [exact W|].
  apply sbind_pres; [exact W|]. intros s ch E; injection E as <- _. apply sbind_pres; [exact W|]. intros s [sh pk] E; injection E as <- _.
  apply sbind_pres; [exact W|]. intros s th E; injection E as <- _. apply sbind_pres; [exact W|]. intros s body E; injection E as <- _.
  apply sbind_pres; [now apply write_works|]. intros h1 u1 E1. assert (X1 : works h1) by eauto.
  apply sbind_pres; [destruct (ch_sid ch); [now apply write_works|exact X1]|]. intros h2 u2 E2.
  assert (X2 : works h2) by (destruct (ch_sid ch); [eauto|injection E2 as <- _; exact X1]).
  destruct (client_public_key_share (ch_exts ch)); [|exact X2].
  apply sbind_pres; [exact X2|]. intros s ks E; injection E as <- _. apply sbind_pres; [exact X2|]. intros s c E; injection E as <- _.
  apply sbind_pres; [exact X2|]. intros s p E; injection E as <- _.
  match goal with |- context [with_protection ?x p] => set (hk := x) end.
  assert (X3 : works (with_protection hk p)). { unfold hk. destruct (sc_keylog cfg), p; exact X2. } clearbody hk.
  apply sbind_pres; [exact X3|]. intros s ee E; injection E as <- _.
  apply sbind_pres; [now apply write_works|]. intros h3 u3 E3. assert (X4 : works h3) by eauto.
  apply sbind_pres.
  { destruct (sc_client_ca cfg); [|exact X4]. apply sbind_pres; [exact X4|]. intros s req E; injection E as <- _.
    apply sbind_pres; [now apply write_works|]. intros h4 u4 E4. cbn [fst]. eapply W2; [|exact E4]. exact X4. }
  intros h4 th4 E4.
  assert (X5 : works h4).
  { destruct (sc_client_ca cfg); [|injection E4 as <- _; exact X4]. apply sbind_ok in E4. destruct E4 as (s & req & Q & E4). injection Q as <- _.
    apply sbind_ok in E4. destruct E4 as (h5 & u5 & E5 & E4). injection E4 as <- _. eapply W2; [|exact E5]. exact X4. }
  apply sbind_pres; [now apply write_works|]. intros h5 u5 E5. assert (X6 : works h5) by eauto.
  apply sbind_pres; [exact X6|]. intros s cv E; injection E as <- _. apply sbind_pres; [exact X6|]. intros s cv' E; injection E as <- _.
  apply sbind_pres; [now apply write_works|]. intros h6 u6 E6. assert (X7 : works h6) by eauto.
  apply sbind_pres; [exact X7|]. intros s p6 E; injection E as <- _. apply sbind_pres; [exact X7|]. intros s raw E; injection E as <- _.
  apply sbind_pres; [now apply write_works|]. intros h7 u7 E7. cbn [fst]. unfold works. change (endless (sv_stream h7)). eapply W2; [|exact E7]. exact X7.
Qed.
(* the parts of a connection that do not depend on when bytes were sent *)
Definition same_result (x y : server_hs * option (outcome tls_error unit)) : Prop :=
  snd x = snd y /\ sv_log (fst x) = sv_log (fst y) /\ st_protection (sv_stream (fst x)) = st_protection (sv_stream (fst y)) /\
  (match snd x with Some (Err _) | Some Panic => True | _ => fst x = fst y end).
Lemma same_refl x : same_result x x.
Proof. unfold same_result. destruct (snd x) as [[|e|]|]; auto. Qed.
Lemma same_sym x y : same_result x y -> same_result y x.
Proof. intros (A & B & C & D). unfold same_result. rewrite <- A. destruct (snd x) as [[|e|]|]; auto. Qed.
Lemma same_trans x y z : same_result x y -> same_result y z -> same_result x z.
Proof. intros (A & B & C & D) (A' & B' & C' & D'). unfold same_result. rewrite <- A in D'. destruct (snd x) as [[|e|]|]; repeat split; congruence. Qed.
Lemma report_same h h2 e : works h -> works h2 -> sv_log h = sv_log h2 -> st_protection (sv_stream h) = st_protection (sv_stream h2) ->
  same_result (let (s, r) := report_error (sv_stream h) e in (with_stream h s, Some r)) (let (s, r) := report_error (sv_stream h2) e in (with_stream h2 s, Some r)).
Proof.
  unfold works, endless, report_error, write_alert, protect, write_all. intros N N2 L P.
  destruct (sv_stream h) as [[se le] p b], (sv_stream h2) as [[se2 le2] p2 b2]. cbn in N, N2, P. subst le le2 p2.
  destruct (is_official e); [|cbn; unfold same_result; cbn; auto].
  cbn [st_protection]. destruct p as [p|]; [destruct (rpp_encrypt p _) as [p' [w|x|]]|]; cbn; unfold same_result; cbn; auto.
Qed.

Lemma first_group cfg d now so hello gr groups later h1 : so_left so = None ->
  Forall parses (hello :: gr) -> Forall (fun x => x <> []) groups -> Forall parses (concat groups) -> Forall no_alert (gr ++ concat groups) ->
  greeted_state h1 -> works h1 -> handle_handshake_record cfg d now (server_new so) hello = (h1, Ok tt) ->
  forall h1f, sv_flush h1 = (h1f, Ok tt) ->
  match server_do_handshake cfg d now (server_new so) (read_of (hello :: gr) :: map read_of groups ++ later),
        (match steps cfg d now h1f (gr ++ concat groups) with (h', Ok _) => server_do_handshake cfg d now h' later | (h', o) => (h', Some o) end) with
  | (ha, oa), (hb, ob) => oa = ob /\ (ha = hb \/ (works ha /\ works hb /\ sv_log ha = sv_log hb /\ st_protection (sv_stream ha) = st_protection (sv_stream hb) /\
       match oa with Some (Err _) | Some Panic => True | _ => False end))
  end.
Proof.
  intros N P NE P2 A G1 W1 E1 h1f F1. apply Forall_app in A. destruct A as (A1 & A2).
  rewrite loop_first; try discriminate; try reflexivity; try assumption. cbn [steps]. rewrite E1, sbind_Ok, steps_app.
  unfold sv_flush in F1. destruct (sv_stream h1) as [so1 p1 b1] eqn:S1. unfold works in W1. rewrite S1 in W1.
  destruct (write_all so1 b1) as [so1' ok] eqn:WA.
  assert (ok = true /\ so_left so1' = None) as (-> & N1').
  { unfold write_all in WA. unfold endless in W1. cbn in W1. rewrite W1 in WA. injection WA as <- <-. auto. }
  unfold flush in F1. cbn [st_sock st_buffer st_protection] in F1. rewrite WA in F1. injection F1 as <-.
  rewrite (steps_stream cfg d now gr h1 so1 p1 b1 G1 S1). pose proof (steps_same cfg d now gr h1 G1) as SS. rewrite S1 in SS.
  destruct (steps cfg d now h1 gr) as [h2 [[]|e|]] eqn:S2; unfold on_stream; cbn [fst snd] in SS |- *.
  - rewrite !sbind_Ok. destruct SS as (SS1 & SS2). cbn [st_sock st_buffer] in SS1, SS2.
    assert (F2 : sv_flush h2 = (with_stream h2 (set_protection (Stream so1' p1 []) (st_protection (sv_stream h2))), Ok tt)).
    { unfold sv_flush, flush. rewrite SS1, SS2, WA. reflexivity. }
    rewrite F2. pose proof (steps_greeted _ _ _ _ _ _ G1 S2) as G2.
    set (h3 := with_stream h2 (set_protection (Stream so1' p1 []) (st_protection (sv_stream h2)))).
    rewrite (loop_groups cfg d now later groups h3 G2 eq_refl NE P2 A2).
    destruct (steps cfg d now h3 (concat groups)) as [h4 [[]|e|]].
    + destruct (server_do_handshake cfg d now h4 later) as [h5 o5]. auto.
    + auto.
    + auto.
  - cbn [sbind]. destruct SS as (SS1 & SS2). cbn [st_sock st_buffer] in SS1, SS2. split; [reflexivity|]. right.
    split; [unfold works, endless; rewrite SS1; exact W1|]. split; [exact N1'|]. auto.
  - cbn [sbind]. destruct SS as (SS1 & SS2). cbn [st_sock st_buffer] in SS1, SS2. split; [reflexivity|]. right.
    split; [unfold works, endless; rewrite SS1; exact W1|]. split; [exact N1'|]. auto.
Qed.
Lemma works_rec cfg d now h r h' o : works h -> sv_state h = SvClientHello -> handle_handshake_record cfg d now h r = (h', o) -> works h'.
Proof.
  intros W St E. unfold handle_handshake_record in E. rewrite St in E.
  destruct (r_type r); try (injection E as <- _; exact W).
  - destruct (idx (r_fragment r) 1); cbn [sbind] in E; injection E as <- _; exact W.
  - pose proof (hello_works cfg d h r W) as X. rewrite E in X. exact X.
Qed.
Lemma regroup cfg d now so later groups1 groups2 : so_left so = None ->
  Forall (fun x => x <> []) groups1 -> Forall (fun x => x <> []) groups2 -> concat groups1 = concat groups2 ->
  Forall parses (concat groups1) -> Forall no_alert (concat groups1) ->
  same_result (accept cfg d now so (map read_of groups1 ++ later)) (accept cfg d now so (map read_of groups2 ++ later)).
Proof.
  intros N NE1 NE2 EC P A.
  destruct groups1 as [|[|hello gr1] groups1].
  { destruct groups2 as [|[|r gr2] groups2]; [apply same_refl|inversion NE2; contradiction|discriminate]. }
  { inversion NE1; contradiction. }
  destruct groups2 as [|[|r gr2] groups2]; [discriminate|inversion NE2; contradiction|].
  cbn [concat app] in EC, P, A. injection EC as <- EC.
  inversion P as [|? ? Ph Pm]; subst. inversion A as [|? ? Ah Am]; subst. inversion NE1; subst. inversion NE2; subst.
  assert (Pm2 := Pm). assert (Am2 := Am). rewrite EC in Pm2, Am2.
  pose proof Pm as Pm'. apply Forall_app in Pm'. destruct Pm' as (P1 & P1'). pose proof Pm2 as Pm2'. apply Forall_app in Pm2'. destruct Pm2' as (P2 & P2').
  unfold accept. cbn [map app].
  destruct (handle_handshake_record cfg d now (server_new so) hello) as [h1 o1] eqn:E1.
  assert (W1 : works h1) by (eapply (works_rec cfg d now (server_new so)); [exact N|reflexivity|exact E1]).
  destruct o1 as [[]|e|].
  2,3: rewrite !loop_first by first [discriminate|reflexivity|constructor; assumption]; cbn [steps]; rewrite E1; cbn [sbind]; apply same_refl.
  destruct (is_ccs hello) eqn:C.
  { exfalso. unfold handle_handshake_record in E1. unfold is_ccs in C. destruct (r_type hello); discriminate. }
  assert (G1 : greeted_state h1) by (eapply stays_greeted; [left; exact C|exact E1]).
  assert (F1 : exists h1f, sv_flush h1 = (h1f, Ok tt)).
  { unfold sv_flush. destruct (flush_endless _ W1) as (s' & F & _). rewrite F. eauto. }
  destruct F1 as (h1f & F1).
  pose proof (first_group cfg d now so hello gr1 groups1 later h1 N ltac:(constructor; assumption) ltac:(assumption) P1' Am G1 W1 E1 h1f F1) as R1.
  pose proof (first_group cfg d now so hello gr2 groups2 later h1 N ltac:(constructor; assumption) ltac:(assumption) P2' Am2 G1 W1 E1 h1f F1) as R2.
  rewrite <- EC in R2.
  destruct (server_do_handshake cfg d now (server_new so) (read_of (hello :: gr1) :: map read_of groups1 ++ later)) as [ha oa].
  destruct (server_do_handshake cfg d now (server_new so) (read_of (hello :: gr2) :: map read_of groups2 ++ later)) as [hb ob].
  destruct (match steps cfg d now h1f (gr1 ++ concat groups1) with (h', Ok _) => server_do_handshake cfg d now h' later | (h', o) => (h', Some o) end) as [hc oc].
  destruct R1 as (-> & R1), R2 as (-> & R2).
  assert (K : forall h o, (h = hc \/ (works h /\ works hc /\ sv_log h = sv_log hc /\ st_protection (sv_stream h) = st_protection (sv_stream hc) /\
       match o with Some (Err _) | Some Panic => True | _ => False end)) ->
     same_result (match o with Some (Err e) => let (s, r) := report_error (sv_stream h) e in (with_stream h s, Some r) | _ => (h, o) end)
                 (match o with Some (Err e) => let (s, r) := report_error (sv_stream hc) e in (with_stream hc s, Some r) | _ => (hc, o) end)).
  { intros h o [->|(K1 & K2 & K3 & K4 & K5)]; [apply same_refl|]. destruct o as [[u|e|]|]; try contradiction.
    - now apply report_same.
    - unfold same_result. cbn [snd fst]. auto. }
  assert (Eq : forall h, match oc with Some (Err e) => let (s, r) := report_error (sv_stream h) e in (with_stream h s, Some r) | _ => (h, oc) end =
     (match (h, oc) with (h, Some (Err e)) => let (s, r) := report_error (sv_stream h) e in (with_stream h s, Some r) | r => r end)).
  { intros h. destruct oc as [[|e|]|]; reflexivity. }
  rewrite <- !Eq. eapply same_trans; [apply K; exact R1|]. apply same_sym, K. exact R2.
Qed.
