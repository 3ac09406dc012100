(* How the reads are cut, and change_cipher_spec records: the client *)
From Verif Require Import Proofs.Util Proofs.Bytes Model.Alert Model.Bytes Model.Suite Model.Sha2 Model.Hmac Model.KeySchedule Model.Record Model.Channel
  Model.Curve Model.Signature Model.Ecdsa Model.X509 Model.Extensions Model.Hello Model.Kex Model.Handshake Model.Certificate
  Model.Stream Model.Keylog Model.Server Model.Client Spec.Connection Spec.Handshaking.
From Verif Require Import Proofs.Record Proofs.Stream Proofs.ServerRun Proofs.ServerFlow Proofs.ServerAccept Proofs.ServerAccept2 Proofs.ClientAccept2.

Definition parses (r : record) : Prop := record_from_raw (wire r) = Ok (length (wire r), r).
Definition no_alert (r : record) : Prop := r_type r <> RAlert.

Local Opaque handshake_from_raw server_hello_from_raw suite_tshash suite_cipher
  from_handshake rpp_new certificate_verify_for_handshake finished_handshake th_update certificate_for_handshake
  append_handshake_traffic_secrets rpp_encrypt rpp_decrypt certificates_from_hello has_signed sig_from_der is_certificate_valid
  sig_scheme_new verify_data_for_finished generate_application_keys append_from_protection list_eqb slice slice_from to_u16 record_from_raw
  server_public_key_share from_request_exts idx keylog_new.

(* ---- what one record does ---- *)
Definition idle (h : client_hs) : Prop := st_buffer (cl_stream h) = [].
Definition met (h : client_hs) : Prop := cl_state h <> CsServerHello.

Lemma flush_buffer s s' : flush s = (s', Ok tt) -> st_buffer s' = [].
Proof. unfold flush. destruct (write_all _ _) as [so [|]]; intros [= <-]. reflexivity. Qed.
Lemma hello_step cfg h r h' u : handle_server_hello cfg h r = (h', Ok u) -> idle h -> idle h' /\ met h' /\ cl_state h' <> CsReady.
Proof.
  unfold handle_server_hello. intros H I. sinv H hs E1. destruct (negb _); [discriminate|]. sinv H sh E2. sinv H th E3. sinv H he E4.
  destruct (server_public_key_share _); [|discriminate]. sinv H ks E5. sinv H c E6. sinv H p E7. apply sbind_ok in H. destruct H as (h1 & u1 & E8 & H). injection H as <-.
  assert (I1 : idle h1).
  { destruct (cc_keylog cfg), p; try (injection E8 as <- _; exact I). sinv E8 ra E9. injection E8 as <- _. exact I. }
  split; [exact I1|]. split; discriminate.
Qed.
Lemma finish_step cfg e h hs h' u : handle_server_finish cfg e h hs = (h', Ok u) -> idle h -> (idle h' /\ met h') \/ h' = h.
Proof.
  unfold handle_server_finish. intros H I. destruct (negb _); [destruct (cl_state h); try discriminate; injection H as <- _; right; reflexivity|].
  sinv H p E1. sinv H th E2. sinv H v E3. left. destruct (cl_state h); try discriminate.
  all: destruct (negb _); [discriminate|]; apply sbind_ok in H; destruct H as (h1 & u1 & E4 & H); sinv H p1 E5; sinv H th1 E6; sinv H f E7;
    apply sbind_ok in H; destruct H as (h2 & u2 & E8 & H); apply sbind_ok in H; destruct H as (h3 & u3 & E9 & H); sinv H p3 E10;
    destruct (generate_application_keys _ _) as [p' r]; sinv H u4 E11; injection H as <- _; unfold cl_flush in E9; destruct (flush (cl_stream h2)) as [s' o] eqn:F;
    assert (o = Ok u3) as -> by congruence; destruct u3; apply flush_buffer in F; assert (h3 = cl_with_stream h2 s') as -> by congruence;
    (split; [destruct (cl_keylog _); exact F|discriminate]).
Qed.
Lemma message_step cfg e now h hs h' u : handle_message cfg e now h hs = (h', Ok u) -> met h -> idle h -> idle h' /\ met h'.
Proof.
  unfold handle_message. intros H M I.
  assert (C : forall h', handle_server_certificate now h hs = (h', Ok u) -> idle h' /\ met h').
  { clear H h'. intros h'. unfold handle_server_certificate. intros H. destruct (negb _); [discriminate|]. sinv H th E1. destruct (certificates_from_hello _ _) as [cs|er|]; [|injection H as <- _; split; [exact I|discriminate]|discriminate].
    sinv H c E2. injection H as <- _. split; [exact I|discriminate]. }
  destruct (cl_state h) eqn:St; try (injection H as <- _; split; [exact I|exact M]).
  - unfold handle_encrypted_extension in H. destruct (negb _); [discriminate|]. sinv H th E1. injection H as <- _. split; [exact I|discriminate].
  - destruct (ht_eqb _ _); [|exact (C _ H)]. sinv H th E1. injection H as <- _. split; [exact I|discriminate].
  - destruct (ht_eqb _ _); [|exact (C _ H)]. sinv H th E1. injection H as <- _. split; [exact I|discriminate].
  - unfold handle_server_certificate_verify in H. destruct (cl_cert h); [|discriminate]. destruct (negb _); [discriminate|]. sinv H b E1. sinv H al E2. destruct al; try discriminate.
    sinv H rest E3. destruct (sig_from_der rest) as [[sg size]|er|]; [|injection H as <- _; split; [exact I|discriminate]|discriminate]. sinv H th E4. sinv H v E5.
    destruct (negb v); [injection H as <- _; split; [exact I|discriminate]|]. sinv H b2 E6. destruct (negb _); injection H as <- _; (split; [exact I|discriminate]).
  - destruct (finish_step _ _ _ _ _ _ H I) as [F| ->]; [exact F|split; [exact I|exact M]].
  - destruct (finish_step _ _ _ _ _ _ H I) as [F| ->]; [exact F|split; [exact I|exact M]].
Qed.
Lemma messages_step cfg e now fuel : forall h buf h' u, client_messages fuel cfg e now h buf = (h', Ok u) -> met h -> idle h -> idle h' /\ met h'.
Proof.
  induction fuel as [|fuel IH]; intros h buf h' u H M I; cbn [client_messages] in H.
  - destruct buf; [|discriminate]. injection H as <- _. split; assumption.
  - destruct buf as [|b buf]; [injection H as <- _; split; assumption|]. sinv H hs E1. apply sbind_ok in H. destruct H as (h1 & u1 & E2 & H).
    destruct (message_step _ _ _ _ _ _ _ E2 M I) as (I1 & M1). exact (IH _ _ _ _ H M1 I1).
Qed.
Lemma record_step cfg e now h r h' u : client_record cfg e now h r = (h', Ok u) -> idle h -> idle h' /\ met h'.
Proof.
  intros H I. assert (X : forall h', met h -> client_encrypted_record cfg e now h r = (h', Ok u) -> idle h' /\ met h').
  { clear H h'. intros h' M. unfold client_encrypted_record. intros H. sinv H p E1. destruct (rpp_decrypt p r) as [p' o]. sinv H tc E2. destruct tc as [t content]. destruct t; try discriminate.
    - sinv H c E3. discriminate.
    - eapply messages_step; [exact H|exact M|exact I]. }
  assert (MM : cl_state h = CsServerHello \/ met h) by (unfold met; destruct (cl_state h); try (right; discriminate); left; reflexivity).
  unfold client_record in H. destruct (r_type r) eqn:T.
  - destruct MM as [St|M]; [rewrite St in H; discriminate|]. destruct (cl_state h) eqn:St; try (apply X; [exact M|exact H]); [contradiction|injection H as <- _; split; assumption].
  - destruct MM as [St|M]; [rewrite St in H; discriminate|]. assert (h' = h) as -> by (destruct (cl_state h); congruence). split; assumption.
  - sinv H c E. discriminate.
  - destruct MM as [St|M]; [rewrite St in H; destruct (hello_step _ _ _ _ _ H I) as (A & B & _); split; assumption|].
    destruct (cl_state h) eqn:St; try (apply X; [exact M|exact H]); [contradiction|injection H as <- _; split; assumption].
  - destruct MM as [St|M]; [rewrite St in H; discriminate|]. destruct (cl_state h) eqn:St; try (apply X; [exact M|exact H]); [contradiction|injection H as <- _; split; assumption].
Qed.

(* ---- several records ---- *)
Fixpoint csteps (cfg : client_config) (e : client_draws) (now : Z) (h : client_hs) (recs : list record) : client_hs * outcome tls_error unit :=
  match recs with [] => (h, Ok tt) | r :: rs => let@ (h, _) := client_record cfg e now h r in csteps cfg e now h rs end.
Lemma csteps_idle cfg e now : forall recs h h' u, csteps cfg e now h recs = (h', Ok u) -> idle h -> idle h'.
Proof.
  induction recs as [|r recs IH]; intros h h' u H I; cbn [csteps] in H; [injection H as <- _; exact I|].
  apply sbind_ok in H. destruct H as (h1 & u1 & E1 & H). destruct (record_step _ _ _ _ _ _ _ E1 I) as (I1 & M1). exact (IH _ _ _ H I1).
Qed.
Lemma csteps_met cfg e now : forall recs h h' u, csteps cfg e now h recs = (h', Ok u) -> idle h -> met h \/ recs <> [] -> met h'.
Proof.
  induction recs as [|r recs IH]; intros h h' u H I C; cbn [csteps] in H; [injection H as <- _; destruct C; [assumption|contradiction]|].
  apply sbind_ok in H. destruct H as (h1 & u1 & E1 & H). destruct (record_step _ _ _ _ _ _ _ E1 I) as (I1 & M1). apply (IH _ _ _ H I1). left. exact M1.
Qed.
Lemma csteps_app cfg e now a b : forall h, csteps cfg e now h (a ++ b) = let@ (h, _) := csteps cfg e now h a in csteps cfg e now h b.
Proof.
  induction a as [|r a IH]; intros h; [reflexivity|]. cbn [app csteps]. destruct (client_record cfg e now h r) as [h1 [u| |]]; try reflexivity. cbn [sbind]. apply IH.
Qed.
Lemma record_ready cfg e now h r : cl_state h = CsReady -> no_alert r -> client_record cfg e now h r = (h, Ok tt).
Proof. intros St N. unfold client_record, no_alert in *. rewrite St. destruct (r_type r); try reflexivity. contradiction. Qed.
Lemma csteps_ready cfg e now : forall recs h, cl_state h = CsReady -> Forall no_alert recs -> csteps cfg e now h recs = (h, Ok tt).
Proof.
  induction recs as [|r recs IH]; intros h St F; [reflexivity|]. inversion F; subst. cbn [csteps]. rewrite record_ready by assumption. cbn [sbind]. now apply IH.
Qed.
Lemma record_ccs cfg e now h r : met h -> is_ccs r = true -> client_record cfg e now h r = (h, Ok tt).
Proof. unfold met, is_ccs, client_record. intros M C. destruct (r_type r); try discriminate. destruct (cl_state h); try reflexivity. contradiction. Qed.
Lemma csteps_ccs cfg e now : forall recs h, met h -> idle h -> csteps cfg e now h recs = csteps cfg e now h (without_ccs recs).
Proof.
  induction recs as [|r recs IH]; intros h M I; [reflexivity|]. rewrite without_cons. destruct (is_ccs r) eqn:C.
  - cbn [csteps]. rewrite record_ccs by assumption. cbn [sbind]. apply IH; assumption.
  - cbn [csteps]. destruct (client_record cfg e now h r) as [h1 [u| |]] eqn:E; try reflexivity. cbn [sbind].
    destruct (record_step _ _ _ _ _ _ _ E I) as (I1 & M1). apply IH; assumption.
Qed.

(* ---- one read ---- *)
Lemma parse_at r rest : parses r -> record_from_raw (wire r ++ rest) = Ok (length (wire r), r) /\ (5 <= length (wire r))%nat.
Proof. apply parse_prefix. Qed.
Lemma read_fresh cfg e now : forall recs fuel pre h, Forall parses recs -> (length (bytes_of recs) < fuel)%nat ->
  client_records fuel cfg e now h (pre ++ bytes_of recs) [] (length pre) = let (h', o) := csteps cfg e now h recs in ((h', []), o).
Proof.
  induction recs as [|r recs IH]; intros fuel pre h P F; (destruct fuel as [|fuel]; [lia|]).
  - unfold bytes_of. cbn [map concat]. rewrite app_nil_r. cbn [client_records csteps]. rewrite Nat.ltb_irrefl. reflexivity.
  - inversion P as [|? ? Pr Pp]; subst. change (bytes_of (r :: recs)) with (wire r ++ bytes_of recs) in *. destruct (parse_at r (bytes_of recs) Pr) as (Q & L5). rewrite app_length in F.
    cbn [client_records csteps]. rewrite app_length. replace (Nat.ltb (length pre) (length pre + length (wire r ++ bytes_of recs))) with true by (symmetry; apply Nat.ltb_lt; rewrite app_length; lia).
    cbn [orb negb]. rewrite slice_from_pre, sbind_Ok, Q. cbn [fst snd]. destruct (client_record cfg e now h r) as [h1 [u|er|]]; try reflexivity. cbn [sbind].
    replace (Nat.eqb (length pre + length (wire r)) (length (@nil Z))) with false by (symmetry; apply Nat.eqb_neq; cbn [length]; lia).
    rewrite <- (IH fuel (pre ++ wire r) h1 Pp) by lia. rewrite app_length, <- app_assoc. reflexivity.
Qed.
(* whole records, and then a part of one the parser refuses *)
Definition refused (a : list Z) : Prop := a <> [] /\ exists er, record_from_raw a = Err er.
Lemma read_part cfg e now a : refused a -> forall recs fuel pre h, Forall parses recs -> (length (bytes_of recs) + 1 < fuel)%nat ->
  client_records fuel cfg e now h (pre ++ bytes_of recs ++ a) [] (length pre) =
  match csteps cfg e now h recs with (h', Ok _) => ((h', a), Ok tt) | (h', o) => ((h', []), o) end.
Proof.
  intros (Na & er & Ra). assert (La : (0 < length a)%nat) by (destruct a; [contradiction|cbn; lia]).
  induction recs as [|r recs IH]; intros fuel pre h P F; (destruct fuel as [|fuel]; [lia|]).
  - unfold bytes_of. cbn [map concat app csteps]. cbn [client_records]. rewrite app_length. replace (Nat.ltb (length pre) (length pre + length a)) with true by (symmetry; apply Nat.ltb_lt; lia).
    cbn [orb negb]. rewrite slice_from_pre, sbind_Ok, Ra. reflexivity.
  - inversion P as [|? ? Pr Pp]; subst. change (bytes_of (r :: recs)) with (wire r ++ bytes_of recs) in *. rewrite <- app_assoc. destruct (parse_at r (bytes_of recs ++ a) Pr) as (Q & L5). rewrite app_length in F.
    cbn [client_records csteps]. rewrite app_length. replace (Nat.ltb (length pre) (length pre + length (wire r ++ bytes_of recs ++ a))) with true by (symmetry; apply Nat.ltb_lt; rewrite app_length; lia).
    cbn [orb negb]. rewrite slice_from_pre, sbind_Ok, Q. cbn [fst snd]. destruct (client_record cfg e now h r) as [h1 [u|er'|]]; try reflexivity. cbn [sbind].
    replace (Nat.eqb (length pre + length (wire r)) (length (@nil Z))) with false by (symmetry; apply Nat.eqb_neq; cbn [length]; lia).
    rewrite <- (IH fuel (pre ++ wire r) h1 Pp) by lia. rewrite app_length, <- !app_assoc. reflexivity.
Qed.
(* the same from the buffer of earlier reads *)
Lemma read_kept cfg e now rx : forall recs fuel pre h, recs <> [] -> Forall parses recs -> (length (bytes_of recs) < fuel)%nat ->
  exists d, client_records fuel cfg e now h rx (pre ++ bytes_of recs) (length pre) = (fst (csteps cfg e now h recs), d, snd (csteps cfg e now h recs)) /\
    (forall u, snd (csteps cfg e now h recs) = Ok u -> d = []).
Proof.
  induction recs as [|r recs IH]; intros fuel pre h NE P F; [contradiction|]. destruct fuel as [|fuel]; [lia|]. clear NE.
  inversion P as [|? ? Pr Pp]; subst. change (bytes_of (r :: recs)) with (wire r ++ bytes_of recs) in *. destruct (parse_at r (bytes_of recs) Pr) as (Q & L5). rewrite app_length in F.
  cbn [client_records csteps]. assert (NN : pre ++ wire r ++ bytes_of recs <> []) by (intros X; apply app_eq_nil in X; destruct X as (_ & X); apply app_eq_nil in X; destruct X as (X & _); rewrite X in L5; cbn in L5; lia).
  destruct (pre ++ wire r ++ bytes_of recs) as [|b0 l0] eqn:Ed; [contradiction|]. rewrite Bool.orb_true_r. cbn [negb]. rewrite <- Ed. rewrite slice_from_pre, sbind_Ok, Q. cbn [fst snd].
  destruct (client_record cfg e now h r) as [h1 [u|er|]]; cbn [sbind fst snd]; [|eexists; split; [reflexivity|discriminate]|eexists; split; [reflexivity|discriminate]].
  destruct recs as [|r2 recs].
  - unfold bytes_of. cbn [map concat csteps fst snd]. rewrite app_nil_r, app_length, Nat.eqb_refl. exists []. split; reflexivity.
  - destruct (IH fuel (pre ++ wire r) h1 ltac:(discriminate) Pp ltac:(lia)) as (d & E & D). exists d. split; [|exact D].
    replace (Nat.eqb (length pre + length (wire r)) (length (pre ++ wire r ++ bytes_of (r2 :: recs)))) with false.
    2:{ symmetry. apply Nat.eqb_neq. rewrite !app_length. change (bytes_of (r2 :: recs)) with (wire r2 ++ bytes_of recs). inversion Pp as [|? ? P2 _]; subst. destruct (parse_at r2 [] P2) as (_ & L). rewrite app_length. lia. }
    rewrite app_length, <- app_assoc in E. exact E.
Qed.
Lemma read_more cfg e now rx a h fuel : (0 < fuel)%nat -> refused a -> client_records fuel cfg e now h rx a 0 = ((h, a), Ok tt).
Proof.
  intros F (Na & er & Ra). destruct fuel as [|fuel]; [lia|]. destruct a as [|b a]; [contradiction|]. cbn [client_records]. rewrite Bool.orb_true_r. cbn [negb].
  pose proof (@slice_from_pre tls_error [] (b :: a)) as SF. cbn [app length] in SF. rewrite SF, sbind_Ok, Ra. reflexivity.
Qed.

(* ---- reads ---- *)
Lemma flush_idle h : idle h -> cl_flush h = (h, Ok tt).
Proof.
  intros I. unfold idle in I. destruct h as [[so p b] st rq kl lg th ke ce he ra]. cbn in I. subst b. unfold cl_flush, flush. cbn [cl_stream st_sock st_buffer st_protection].
  destruct so as [sent [k|]]; unfold write_all; cbn [so_left so_sent length Nat.leb firstn]; rewrite app_nil_r; [rewrite Nat.sub_0_r|]; reflexivity.
Qed.
Lemma reads_ready cfg e now h d reads : cl_state h = CsReady -> client_reads cfg e now h d reads = (h, Some (Ok tt)).
Proof. intros St. destruct reads; cbn [client_reads]; rewrite St; reflexivity. Qed.
Lemma reads_cons cfg e now h d chunk rest : cl_state h <> CsReady -> chunk <> [] ->
  client_reads cfg e now h d (chunk :: rest) =
  let d := match d with [] => [] | _ => d ++ chunk end in
  match client_records (S (length chunk + length d)) cfg e now h chunk d 0 with
  | ((h, d), Ok _) => match cl_flush h with (h, Ok _) => client_reads cfg e now h d rest | (h, o) => (h, Some o) end
  | ((h, _), o) => (h, Some o)
  end.
Proof. intros N C. cbn [client_reads]. unfold tcp_read. destruct chunk; [contradiction|]. destruct (cl_state h); try reflexivity. contradiction. Qed.
Lemma bytes_ne recs : recs <> [] -> Forall parses recs -> bytes_of recs <> [].
Proof.
  intros N P. destruct recs as [|r recs]; [contradiction|]. inversion P as [|? ? Pr _]; subst. destruct (parse_at r [] Pr) as (_ & L). change (bytes_of (r :: recs)) with (wire r ++ bytes_of recs).
  intros X. apply app_eq_nil in X. destruct X as (X & _). rewrite X in L. cbn in L. lia.
Qed.
(* one group of whole records *)
Definition then_reads (cfg : client_config) (e : client_draws) (now : Z) (x : client_hs * outcome tls_error unit) (rest : list (list Z)) : client_hs * option (outcome tls_error unit) :=
  match x with (h, Ok _) => client_reads cfg e now h [] rest | (h, o) => (h, Some o) end.
Lemma reads_group cfg e now h gr rest : cl_state h <> CsReady -> idle h -> gr <> [] -> Forall parses gr ->
  client_reads cfg e now h [] (bytes_of gr :: rest) = then_reads cfg e now (csteps cfg e now h gr) rest.
Proof.
  intros N I NE P. rewrite reads_cons by (try assumption; now apply bytes_ne). cbv zeta.
  pose proof (read_fresh cfg e now gr (S (length (bytes_of gr) + length (@nil Z))) [] h P ltac:(lia)) as R. cbn [app length] in R |- *. rewrite R.
  unfold then_reads. destruct (csteps cfg e now h gr) as [h1 [u|er|]] eqn:E; try reflexivity.
  rewrite flush_idle; [reflexivity|]. eapply csteps_idle; [exact E|exact I].
Qed.
(* each record in its own read *)
Lemma reads_each cfg e now later : forall recs h, idle h -> Forall parses recs -> Forall no_alert recs ->
  client_reads cfg e now h [] (map wire recs ++ later) = then_reads cfg e now (csteps cfg e now h recs) later.
Proof.
  induction recs as [|r recs IH]; intros h I P A; [reflexivity|]. inversion P as [|? ? Pr Pp]; inversion A as [|? ? Ar Aa]; subst.
  change (map wire (r :: recs) ++ later) with (wire r :: (map wire recs ++ later)).
  destruct (cl_state h) eqn:St. 8:{ rewrite reads_ready by assumption. rewrite csteps_ready by assumption. cbn [then_reads]. now rewrite reads_ready. }
  all: replace (wire r) with (bytes_of [r]) by (unfold bytes_of; cbn [map concat]; apply app_nil_r);
    rewrite reads_group by (try assumption; try congruence; repeat constructor; assumption); cbn [csteps];
    destruct (client_record cfg e now h r) as [h1 [u|er|]] eqn:E; try reflexivity; cbn [sbind then_reads];
    apply IH; try assumption; exact (proj1 (record_step _ _ _ _ _ _ _ E I)).
Qed.
(* a group of records and a part of the next *)
Lemma reads_part cfg e now h gr a rest : cl_state h <> CsReady -> idle h -> Forall parses gr -> refused a ->
  client_reads cfg e now h [] ((bytes_of gr ++ a) :: rest) =
  match csteps cfg e now h gr with (h, Ok _) => client_reads cfg e now h a rest | (h, o) => (h, Some o) end.
Proof.
  intros N I P Ra. assert (NE : bytes_of gr ++ a <> []) by (intros X; apply app_eq_nil in X; destruct X as (_ & X); now apply (proj1 Ra)).
  rewrite reads_cons by assumption. cbv zeta.
  assert (La : (0 < length a)%nat) by (destruct Ra as (Na & _); destruct a; [contradiction|cbn; lia]).
  pose proof (read_part cfg e now a Ra gr (S (length (bytes_of gr ++ a) + length (@nil Z))) [] h P ltac:(rewrite app_length; lia)) as R. cbn [app length] in R |- *. rewrite R.
  destruct (csteps cfg e now h gr) as [h1 [u|er|]] eqn:E; try reflexivity.
  rewrite flush_idle; [reflexivity|]. eapply csteps_idle; [exact E|exact I].
Qed.
Lemma reads_mid cfg e now h a b rest : cl_state h <> CsReady -> idle h -> a <> [] -> b <> [] -> refused (a ++ b) ->
  client_reads cfg e now h a (b :: rest) = client_reads cfg e now h (a ++ b) rest.
Proof.
  intros N I Na Nb R. rewrite reads_cons by assumption. destruct a as [|a0 a]; [contradiction|]. cbv zeta.
  rewrite read_more by (try assumption; lia). now rewrite flush_idle.
Qed.
Lemma reads_mids cfg e now h rest : cl_state h <> CsReady -> idle h -> forall mids a, a <> [] -> Forall (fun m => m <> []) mids ->
  (forall k, refused (a ++ concat (firstn k mids))) ->
  client_reads cfg e now h a (mids ++ rest) = client_reads cfg e now h (a ++ concat mids) rest.
Proof.
  intros N I. induction mids as [|m mids IH]; intros a Na F R; [cbn [app concat]; now rewrite app_nil_r|]. inversion F as [|? ? Fm Fs]; subst.
  cbn [app concat]. rewrite reads_mid; try assumption.
  - rewrite IH; [now rewrite app_assoc| |assumption|].
    + intros X. apply app_eq_nil in X. now destruct X.
    + intros k. specialize (R (S k)). cbn [firstn concat] in R. now rewrite <- app_assoc.
  - specialize (R 1%nat). cbn [firstn concat] in R. now rewrite app_nil_r in R.
Qed.
Lemma reads_last cfg e now h a b gr rest : cl_state h <> CsReady -> idle h -> a <> [] -> b <> [] -> gr <> [] -> Forall parses gr -> a ++ b = bytes_of gr ->
  client_reads cfg e now h a (b :: rest) = then_reads cfg e now (csteps cfg e now h gr) rest.
Proof.
  intros N I Na Nb NE P Eq. rewrite reads_cons by assumption. destruct a as [|a0 a]; [contradiction|]. cbv zeta. rewrite Eq.
  destruct (read_kept cfg e now b gr (S (length b + length (bytes_of gr))) [] h NE P ltac:(lia)) as (d & E & D). cbn [app length] in E. rewrite E.
  destruct (csteps cfg e now h gr) as [h1 [u|er|]] eqn:Ec; cbn [fst snd then_reads] in *; try reflexivity.
  rewrite (D _ eq_refl). rewrite flush_idle; [reflexivity|]. eapply csteps_idle; [exact Ec|exact I].
Qed.
Lemma well_cut_refused r p rest : parses r -> wire r = p ++ rest -> p <> [] -> well_cut (wire r) p -> refused p.
Proof.
  intros P E N C. split; [exact N|]. destruct (Nat.ltb_spec (length p) 5) as [L|L].
  { Local Transparent record_from_raw. unfold record_from_raw. Local Opaque record_from_raw. destruct (Nat.ltb_spec (length p) 5); [|lia]. eexists. reflexivity. }
  destruct C as [C|C]; [lia|]. unfold parses in P. pose proof (f_equal (@length Z) E) as LE. rewrite app_length in LE. revert P. rewrite E at 1.
  destruct p as [|b0 [|b1 [|b2 [|b3 [|b4 p]]]]]; cbn [length] in L; try lia. cbn [app].
  Local Transparent record_from_raw idx slice. unfold record_from_raw.
  change (Nat.ltb (length (b0 :: b1 :: b2 :: b3 :: b4 :: p ++ rest)) 5) with false. change (Nat.ltb (length (b0 :: b1 :: b2 :: b3 :: b4 :: p)) 5) with false. cbv iota.
  cbn [idx unwrap nth_error bind]. intros P.
  apply bind_ok in P. destruct P as (t & T & P). rewrite T, bind_Ok. destruct (Nat.ltb _ _); [discriminate|]. unfold slice at 1 in P. cbn [Nat.leb andb length] in P. rewrite bind_Ok in P.
  apply bind_ok in P. destruct P as (f & F & P). assert (P1 : (5 + Z.to_nat (Z.lor (Z.shiftl b3 8) b4))%nat = length (wire r)) by congruence. clear P.
  Local Opaque record_from_raw idx slice. cbn [length] in C. match goal with |- context [if Nat.ltb ?a ?b then _ else _] => destruct (Nat.ltb_spec a b) as [Q|Q] end; [eexists; reflexivity|exfalso].
  cbn [length] in Q. lia.
Qed.
Lemma then_csteps cfg e now h a b rest : idle h -> Forall parses (a ++ b) -> Forall no_alert (a ++ b) ->
  then_reads cfg e now (csteps cfg e now h (a ++ b)) rest =
  match csteps cfg e now h a with (h, Ok _) => then_reads cfg e now (csteps cfg e now h b) rest | (h, o) => (h, Some o) end.
Proof. intros I P A. rewrite csteps_app. destruct (csteps cfg e now h a) as [h1 [u|er|]]; reflexivity. Qed.
Lemma delivers_reads cfg e now later recs reads : delivers recs reads -> forall h, idle h -> Forall parses recs -> Forall no_alert recs ->
  client_reads cfg e now h [] (reads ++ later) = then_reads cfg e now (csteps cfg e now h recs) later.
Proof.
  induction 1 as [|gr recs reads NE D IH|before r after first mids last recs reads W F C D IH]; intros h I P A.
  - reflexivity.
  - assert (Dec : cl_state h = CsReady \/ cl_state h <> CsReady) by (destruct (cl_state h); (left; reflexivity) || (right; discriminate)).
    destruct Dec as [St|St]; [rewrite reads_ready by assumption; rewrite csteps_ready by assumption; cbn [then_reads]; now rewrite reads_ready|].
    cbn [app]. assert (Pg : Forall parses gr) by (apply Forall_app in P; apply P). rewrite reads_group by assumption. rewrite then_csteps by assumption.
    destruct (csteps cfg e now h gr) as [h1 [u|er|]] eqn:E; try reflexivity. cbn [then_reads]. apply Forall_app in P. apply Forall_app in A. apply IH; [|apply P|apply A].
    eapply csteps_idle; [exact E|exact I].
  - assert (Dec : forall h, cl_state h = CsReady \/ cl_state h <> CsReady) by (intros x; destruct (cl_state x); (left; reflexivity) || (right; discriminate)).
    destruct (Dec h) as [St|St]; [rewrite reads_ready by assumption; rewrite csteps_ready by assumption; cbn [then_reads]; now rewrite reads_ready|].
    inversion F as [|? ? F1 F']; subst. inversion F' as [|? ? F2 F3]; subst. pose proof P as P0. pose proof A as A0.
    apply Forall_app in P. destruct P as (Pb & P). inversion P as [|? ? Pr P']; subst. apply Forall_app in P'. destruct P' as (Pa & Ps).
    apply Forall_app in A. destruct A as (Ab & A). inversion A as [|? ? Ar A']; subst. apply Forall_app in A'. destruct A' as (Aa & As).
    assert (R : forall k, refused (first ++ concat (firstn k mids))).
    { intros k. apply (well_cut_refused r _ (concat (skipn k mids) ++ last)); [exact Pr| |intros X; apply app_eq_nil in X; now destruct X|apply C].
      rewrite <- app_assoc. rewrite (app_assoc (concat (firstn k mids))), <- concat_app, firstn_skipn. exact W. }
    assert (R0 : refused first) by (specialize (R 0%nat); cbn [firstn concat] in R; now rewrite app_nil_r in R).
    cbn [app]. rewrite reads_part by assumption. rewrite <- app_assoc. cbn [app]. rewrite then_csteps by assumption. destruct (csteps cfg e now h before) as [h1 [u|er|]] eqn:E; try reflexivity.
    pose proof (csteps_idle _ _ _ _ _ _ _ E I) as I1.
    change (r :: after ++ recs) with ((r :: after) ++ recs). destruct (Dec h1) as [St1|St1].
    { rewrite reads_ready by assumption. rewrite csteps_ready; [cbn [then_reads]; now rewrite reads_ready|exact St1|]. constructor; [exact Ar|]. apply Forall_app. split; assumption. }
    rewrite reads_mids by assumption. rewrite (reads_last cfg e now h1 _ _ (r :: after)); try assumption.
    + rewrite then_csteps; [|exact I1|constructor; [exact Pr|apply Forall_app; split; assumption]|constructor; [exact Ar|apply Forall_app; split; assumption]].
      destruct (csteps cfg e now h1 (r :: after)) as [h2 [u2|er|]] eqn:E2; try reflexivity. cbn [then_reads]. apply IH; try assumption. eapply csteps_idle; [exact E2|exact I1].
    + intros X. apply app_eq_nil in X. now destruct X.
    + intros X. apply app_eq_nil in X. now destruct X.
    + discriminate.
    + constructor; assumption.
    + change (bytes_of (r :: after)) with (wire r ++ bytes_of after). rewrite W, <- !app_assoc. reflexivity.
Qed.

(* ---- connections ---- *)
Lemma hello_idle cfg e so h u : send_client_hello cfg e (client_new e so) = (h, Ok u) -> idle h /\ cl_state h = CsServerHello /\ st_protection (cl_stream h) = None.
Proof.
  unfold send_client_hello. intros H. sinv H b E1. sinv H body E2. unfold tcp_write in H. destruct (write_all _ _) as [so' [|]]; [|discriminate]. sinv H u1 E3. injection H as <- _. repeat split.
Qed.
Lemma connect_congr cfg e now so r1 r2 : (forall h u, send_client_hello cfg e (client_new e so) = (h, Ok u) -> client_reads cfg e now h [] r1 = client_reads cfg e now h [] r2) ->
  connect cfg e now so r1 = connect cfg e now so r2.
Proof.
  intros H. unfold connect, client_do_handshake. destruct (send_client_hello _ _ _) as [h [u|er|]]; try reflexivity. now rewrite (H h u).
Qed.
Theorem delivered cfg e now so recs reads later : delivers recs reads -> Forall parses recs -> Forall no_alert recs ->
  connect cfg e now so (reads ++ later) = connect cfg e now so (map wire recs ++ later).
Proof.
  intros D P A. apply connect_congr. intros h u H. apply hello_idle in H. destruct H as (I & _). rewrite (delivers_reads _ _ _ _ _ _ D) by assumption. symmetry. now apply reads_each.
Qed.

(* ---- change_cipher_spec ---- *)
Lemma ready_dec h : cl_state h = CsReady \/ cl_state h <> CsReady.
Proof. destruct (cl_state h); (left; reflexivity) || (right; discriminate). Qed.
Lemma forall_without (P : record -> Prop) recs : Forall P recs -> Forall P (without_ccs recs).
Proof. intros F. unfold without_ccs. induction F as [|r recs Fr F IH]; cbn [filter]; [constructor|]. destruct (negb _); [constructor; assumption|assumption]. Qed.
Lemma reads_ccs cfg e now later : forall groups h, idle h -> met h -> Forall (fun x => x <> []) groups -> Forall parses (concat groups) ->
  client_reads cfg e now h [] (map bytes_of groups ++ later) = client_reads cfg e now h [] (map bytes_of (groups_without_ccs groups) ++ later).
Proof.
  induction groups as [|gr groups IH]; intros h I M N P; [reflexivity|]. inversion N as [|? ? Ng Ns]; subst. cbn [concat] in P. apply Forall_app in P. destruct P as (Pg & Ps).
  destruct (ready_dec h) as [St|St]; [now rewrite !reads_ready by assumption|].
  change (map bytes_of (gr :: groups) ++ later) with (bytes_of gr :: (map bytes_of groups ++ later)). rewrite reads_group by assumption. rewrite csteps_ccs by assumption.
  unfold groups_without_ccs. cbn [map filter]. destruct (without_ccs gr) as [|r0 g0] eqn:W; cbn [nonempty].
  - cbn [csteps then_reads]. now apply IH.
  - change (map bytes_of ((r0 :: g0) :: filter nonempty (map without_ccs groups)) ++ later) with (bytes_of (r0 :: g0) :: (map bytes_of (groups_without_ccs groups) ++ later)).
    rewrite reads_group; try assumption; [|discriminate|rewrite <- W; now apply forall_without].
    destruct (csteps cfg e now h (r0 :: g0)) as [h1 [u|er|]] eqn:E; try reflexivity. cbn [then_reads]. apply IH; try assumption.
    + eapply csteps_idle; [exact E|exact I].
    + eapply csteps_met; [exact E|exact I|]. left. exact M.
Qed.
Theorem connect_ccs cfg e now so hello more groups later :
  is_ccs hello = false -> Forall parses (hello :: more) -> Forall (fun x => x <> []) groups -> Forall parses (concat groups) ->
  connect cfg e now so (bytes_of (hello :: more) :: map bytes_of groups ++ later) =
  connect cfg e now so (bytes_of (hello :: without_ccs more) :: map bytes_of (groups_without_ccs groups) ++ later).
Proof.
  intros C P N Ps. apply connect_congr. intros h u H. apply hello_idle in H. destruct H as (I & St & _). assert (NR : cl_state h <> CsReady) by congruence.
  inversion P as [|? ? P1 P2]; subst. rewrite !reads_group; try assumption; try discriminate; [|constructor; [assumption|now apply forall_without]].
  cbn [csteps]. destruct (client_record cfg e now h hello) as [h1 [u1|er|]] eqn:E; try reflexivity. cbn [sbind]. destruct (record_step _ _ _ _ _ _ _ E I) as (I1 & M1).
  rewrite (csteps_ccs cfg e now more) by assumption. destruct (csteps cfg e now h1 (without_ccs more)) as [h2 [u2|er|]] eqn:E2; try reflexivity. cbn [then_reads].
  apply reads_ccs; try assumption; [eapply csteps_idle; [exact E2|exact I1]|eapply csteps_met; [exact E2|exact I1|left; exact M1]].
Qed.

(* ---- a waiting client ---- *)
Lemma connect_none cfg e now so reads h1 : connect cfg e now so reads = (h1, None) ->
  exists h u, send_client_hello cfg e (client_new e so) = (h, Ok u) /\ client_reads cfg e now h [] reads = (h1, None).
Proof.
  unfold connect, client_do_handshake. destruct (send_client_hello cfg e (client_new e so)) as [h [u|er|]].
  - destruct (client_reads cfg e now h [] reads) as [h0 [[x|er|]|]] eqn:E; try discriminate; [destruct (report_error _ _); discriminate|]. intros [= ->]. exists h, u. split; [reflexivity|exact E].
  - destruct (report_error _ _). discriminate.
  - discriminate.
Qed.
Lemma waiting cfg e now so recs before h1 : delivers recs before -> Forall parses recs -> Forall no_alert recs -> connect cfg e now so before = (h1, None) ->
  idle h1 /\ cl_state h1 <> CsReady /\
  (recs <> [] -> met h1) /\
  exists h u, send_client_hello cfg e (client_new e so) = (h, Ok u) /\ csteps cfg e now h recs = (h1, Ok tt) /\
  forall rest, connect cfg e now so (before ++ rest) =
    match client_reads cfg e now h1 [] rest with
    | (h, Some (Err er)) => let (s, r) := report_error (cl_stream h) er in (cl_with_stream h s, Some r)
    | r => r
    end.
Proof.
  intros D P A E. apply connect_none in E. destruct E as (h & u & E0 & E). pose proof E0 as E0'. apply hello_idle in E0'. destruct E0' as (I & _ & _).
  pose proof (delivers_reads cfg e now [] _ _ D h I P A) as R. rewrite app_nil_r, E in R. unfold then_reads in R. destruct (csteps cfg e now h recs) as [h2 [u2|er|]] eqn:C; try discriminate.
  cbn [client_reads] in R. assert (cl_state h2 <> CsReady /\ h2 = h1) as (St & ->) by (destruct (cl_state h2); try discriminate R; split; try discriminate; congruence). destruct u2.
  split; [eapply csteps_idle; [exact C|exact I]|]. split; [exact St|]. split; [intros NE; eapply csteps_met; [exact C|exact I|right; exact NE]|].
  exists h, u. split; [exact E0|]. split; [exact C|]. intros rest. unfold connect, client_do_handshake. rewrite E0. rewrite (delivers_reads cfg e now rest _ _ D h I P A), C. reflexivity.
Qed.

(* an alert *)
Lemma wire1 r : wire r = bytes_of [r].
Proof. unfold bytes_of. cbn [map concat]. symmetry. apply app_nil_r. Qed.
Lemma cl_same h : cl_with_stream h (cl_stream h) = h.
Proof. destruct h. reflexivity. Qed.
Lemma report_got s code : report_error s (GotAlert code) = (s, Err (error_new code)).
Proof. reflexivity. Qed.
Lemma client_alert cfg e now so recs before h1 alert rest : delivers recs before -> Forall parses recs -> Forall no_alert recs -> connect cfg e now so before = (h1, None) ->
  parses alert -> r_type alert = RAlert ->
  connect cfg e now so (before ++ wire alert :: rest) =
  (h1, Some match r_fragment alert with _ :: code :: _ => Err (error_new code) | _ => Panic end).
Proof.
  intros D P A E Pa T. destruct (waiting _ _ _ _ _ _ _ D P A E) as (I & St & _ & h & u & _ & _ & X). rewrite X. rewrite wire1, reads_group; try assumption; [|discriminate|now constructor].
  cbn [csteps]. unfold client_record. rewrite T. Local Transparent idx. unfold idx. Local Opaque idx. destruct (r_fragment alert) as [|a [|b l]]; cbn [nth_error unwrap sbind then_reads]; try reflexivity.
  rewrite report_got, cl_same. reflexivity.
Qed.
Lemma client_sealed_alert cfg e now so recs before h1 r rest p p' level code more : delivers recs before -> Forall parses recs -> Forall no_alert recs -> connect cfg e now so before = (h1, None) ->
  recs <> [] -> parses r -> r_type r = RApplicationData -> st_protection (cl_stream h1) = Some p -> rpp_decrypt p r = (p', Ok (RAlert, level :: code :: more)) ->
  exists h, connect cfg e now so (before ++ wire r :: rest) = (h, Some (Err (error_new code))) /\ st_sock (cl_stream h) = st_sock (cl_stream h1).
Proof.
  intros D P A E NE Pa T Pr De. destruct (waiting _ _ _ _ _ _ _ D P A E) as (I & St & M & h & u & _ & _ & X). specialize (M NE). rewrite X. rewrite wire1, reads_group; try assumption; [|discriminate|now constructor].
  cbn [csteps]. assert (client_record cfg e now h1 r = client_encrypted_record cfg e now h1 r) as -> by (unfold client_record; rewrite T; unfold met in M; destruct (cl_state h1); try reflexivity; contradiction).
  unfold client_encrypted_record. rewrite Pr. cbn [unwrap sbind]. rewrite De. cbn [sbind]. Local Transparent idx. unfold idx. Local Opaque idx. cbn [nth_error unwrap sbind then_reads].
  rewrite report_got. eexists. split; [reflexivity|]. reflexivity.
Qed.

(* a read that ends one to three bytes before the end of a record *)
Lemma near_cut r p miss : parses r -> wire r = p ++ miss -> (5 <= length p)%nat -> (1 <= length miss <= 3)%nat -> record_from_raw p = Panic.
Proof.
  intros P E L M. unfold parses in P. pose proof (f_equal (@length Z) E) as LE. rewrite app_length in LE. revert P. rewrite E at 1.
  destruct p as [|b0 [|b1 [|b2 [|b3 [|b4 p]]]]]; cbn [length] in L; try lia. cbn [app].
  Local Transparent record_from_raw idx slice. unfold record_from_raw.
  change (Nat.ltb (length (b0 :: b1 :: b2 :: b3 :: b4 :: p ++ miss)) 5) with false. change (Nat.ltb (length (b0 :: b1 :: b2 :: b3 :: b4 :: p)) 5) with false. cbv iota.
  cbn [idx unwrap nth_error bind]. intros P.
  apply bind_ok in P. destruct P as (t & T & P). rewrite T, bind_Ok. destruct (Nat.ltb _ _) in P; [discriminate|].
  apply bind_ok in P. destruct P as (f0 & F0 & P).
  apply bind_ok in P. destruct P as (f & F & P). assert (P1 : (5 + Z.to_nat (Z.lor (Z.shiftl b3 8) b4))%nat = length (wire r)) by congruence. clear P.
  match goal with |- context [if Nat.ltb ?a ?b then _ else _] => destruct (Nat.ltb_spec a b) as [Q|Q] end; [exfalso; cbn [length] in Q, LE; lia|].
  rewrite P1. unfold slice at 1. cbn [Nat.leb length andb bind skipn firstn Nat.sub]. unfold slice.
  destruct (Nat.leb_spec (length (wire r)) (length (b0 :: b1 :: b2 :: b3 :: b4 :: p))) as [Q'|Q']; [cbn [length] in LE, Q'; lia|]. rewrite Bool.andb_false_r. reflexivity.
Qed.
Local Opaque record_from_raw idx slice.
Theorem client_near_cut cfg e now so recs before h1 r p miss rest : delivers recs before -> Forall parses recs -> Forall no_alert recs -> connect cfg e now so before = (h1, None) ->
  parses r -> wire r = p ++ miss -> (5 <= length p)%nat -> (1 <= length miss <= 3)%nat ->
  connect cfg e now so (before ++ p :: rest) = (h1, Some Panic).
Proof.
  intros D P A E Pr W L M. destruct (waiting _ _ _ _ _ _ _ D P A E) as (I & St & _ & h & u & _ & _ & X). rewrite X.
  assert (Np : p <> []) by (intros ->; cbn in L; lia). rewrite reads_cons by assumption. cbv zeta. cbn [client_records]. destruct (Nat.ltb_spec 0 (length p)); [|lia]. cbn [orb negb].
  pose proof (@slice_from_pre tls_error [] p) as SF. cbn [app length] in SF. rewrite SF, sbind_Ok, (near_cut _ _ _ Pr W L M). reflexivity.
Qed.

(* two cut records in a row: the first is handled twice *)
Theorem client_twice cfg e now so recs before h1 r1 r2 a b c d later : delivers recs before -> Forall parses recs -> Forall no_alert recs -> connect cfg e now so before = (h1, None) ->
  parses r1 -> parses r2 -> no_alert r1 -> no_alert r2 -> wire r1 = a ++ b -> wire r2 = c ++ d -> a <> [] -> b <> [] -> c <> [] -> d <> [] ->
  well_cut (wire r1) a -> well_cut (wire r2) c ->
  connect cfg e now so (before ++ [a; b ++ c; d] ++ later) = connect cfg e now so (before ++ [wire r1; wire r1; wire r2] ++ later).
Proof.
  intros D P A E P1 P2 A1 A2 W1 W2 Na Nb Nc Nd C1 C2. destruct (waiting _ _ _ _ _ _ _ D P A E) as (I & St & _ & h & u & _ & _ & X). rewrite !X.
  replace (client_reads cfg e now h1 [] ([a; b ++ c; d] ++ later)) with (client_reads cfg e now h1 [] ([wire r1; wire r1; wire r2] ++ later)); [reflexivity|].
  pose proof (reads_each cfg e now later [r1; r1; r2] h1 I ltac:(repeat constructor; assumption) ltac:(repeat constructor; assumption)) as RE.
  change (map wire [r1; r1; r2] ++ later) with ([wire r1; wire r1; wire r2] ++ later) in RE. rewrite RE. clear RE.
  pose proof (well_cut_refused r1 a b P1 W1 Na C1) as Ra. pose proof (well_cut_refused r2 c d P2 W2 Nc C2) as Rc.
  cbn [app]. pose proof (reads_part cfg e now h1 [] a ((b ++ c) :: d :: later) St I (Forall_nil _) Ra) as RP. unfold bytes_of in RP. cbn [map concat app csteps] in RP. rewrite RP. clear RP.
  assert (Nbc : b ++ c <> []) by (intros Q; apply app_eq_nil in Q; now destruct Q).
  rewrite reads_cons by assumption. destruct a as [|a0 a]; [contradiction|]. cbv zeta.
  set (buf := (a0 :: a) ++ b ++ c). assert (Hb : buf = wire r1 ++ c) by (unfold buf; rewrite W1, <- app_assoc; reflexivity).
  destruct (parse_at r1 c P1) as (Q & L5).
  assert (Step : client_records (S (length (b ++ c) + length buf)) cfg e now h1 (b ++ c) buf 0 =
    match client_record cfg e now h1 r1 with (h', Ok _) => ((h', buf), Ok tt) | (h', o) => ((h', buf), o) end).
  { assert (NB : buf <> []) by (unfold buf; discriminate). cbn [client_records]. destruct buf as [|x0 buf'] eqn:Eb; [contradiction|]. rewrite Bool.orb_true_r. cbn [negb]. rewrite <- Eb in *.
    pose proof (@slice_from_pre tls_error [] buf) as SF. cbn [app length] in SF. rewrite SF, sbind_Ok. rewrite Hb at 1. rewrite Q. cbn [fst snd].
    destruct (client_record cfg e now h1 r1) as [h' [u'|er|]]; try reflexivity.
    assert (Lc : (0 < length c)%nat) by (destruct c; [contradiction|cbn; lia]).
    replace (Nat.eqb (0 + length (wire r1)) (length buf)) with false by (symmetry; apply Nat.eqb_neq; rewrite Hb, app_length; lia).
    assert (exists f, (length (b ++ c) + length buf)%nat = S f) as (f & ->) by (exists (pred (length (b ++ c) + length buf)); rewrite Hb, !app_length; lia).
    cbn [client_records]. rewrite Eb at 1. rewrite Bool.orb_true_r. cbn [negb]. destruct buf as [|x1 b1]; [contradiction|]. rewrite Hb. cbn [Nat.add]. rewrite slice_from_pre, sbind_Ok.
    destruct Rc as (_ & er & Rc). rewrite Rc. cbn [fst snd]. rewrite <- Hb. reflexivity. }
  fold buf. rewrite Step. change (csteps cfg e now h1 [r1; r1; r2]) with (let@ (h, _) := client_record cfg e now h1 r1 in csteps cfg e now h [r1; r2]). destruct (client_record cfg e now h1 r1) as [h2 [u2|er|]] eqn:E1; try reflexivity. cbn [sbind].
  destruct (record_step _ _ _ _ _ _ _ E1 I) as (I2 & M2). rewrite flush_idle by assumption.
  destruct (ready_dec h2) as [St2|St2].
  { rewrite !reads_ready by assumption. rewrite csteps_ready by (try assumption; repeat constructor; assumption). cbn [then_reads]. now rewrite reads_ready. }
  rewrite (reads_last cfg e now h2 buf d [r1; r2]); try assumption; [reflexivity|unfold buf; discriminate|discriminate|repeat constructor; assumption|].
  rewrite Hb, <- app_assoc, <- W2. unfold bytes_of. cbn [map concat]. now rewrite app_nil_r.
Qed.

(* a byte that begins no record: the client waits for ever *)
Lemma stuck_parse t x : rt_new t = Err DecodeError -> exists er, record_from_raw (t :: x) = Err er.
Proof.
  intros T. Local Transparent record_from_raw idx. unfold record_from_raw. destruct (Nat.ltb _ _); [eexists; reflexivity|]. cbn [idx nth_error unwrap bind]. rewrite T. eexists. reflexivity.
Qed.
Local Opaque record_from_raw idx.
Lemma stuck_reads cfg e now h t : cl_state h <> CsReady -> idle h -> rt_new t = Err DecodeError -> forall more x, Forall (fun m => m <> []) more ->
  client_reads cfg e now h (t :: x) more = (h, None).
Proof.
  intros St I T. induction more as [|m more IH]; intros x F; [cbn [client_reads]; destruct (cl_state h); try reflexivity; contradiction|]. inversion F; subst.
  rewrite reads_mid; try assumption; try discriminate; [now apply IH|]. split; [discriminate|]. now apply stuck_parse.
Qed.
Theorem client_stuck cfg e now so recs before h1 t x more : delivers recs before -> Forall parses recs -> Forall no_alert recs -> connect cfg e now so before = (h1, None) ->
  rt_new t = Err DecodeError -> Forall (fun m => m <> []) more ->
  connect cfg e now so (before ++ (t :: x) :: more) = (h1, None).
Proof.
  intros D P A E T F. destruct (waiting _ _ _ _ _ _ _ D P A E) as (I & St & _ & h & u & _ & _ & X). rewrite X.
  assert (R : refused (t :: x)) by (split; [discriminate|now apply stuck_parse]).
  pose proof (reads_part cfg e now h1 [] (t :: x) more St I (Forall_nil _) R) as RP. unfold bytes_of in RP. cbn [map concat app csteps] in RP. rewrite RP.
  now rewrite stuck_reads.
Qed.
