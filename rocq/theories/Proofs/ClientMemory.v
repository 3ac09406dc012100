(* What the client keeps of the bytes it has read *)
From Verif Require Import Proofs.Util Proofs.Bytes Model.Alert Model.Bytes Model.Record Model.Stream Model.Server Model.Client Model.ClientMemory Spec.Connection Spec.Handshaking.
From Verif Require Proofs.Reads.
From Verif Require Import Proofs.Record Proofs.Stream Proofs.ServerRun Proofs.ServerFlow Proofs.ServerAccept Proofs.ServerAccept2 Proofs.ClientAccept2 Proofs.ClientReads.

Local Opaque client_record slice_from record_from_raw.

Lemma kept_erases cfg e now : forall reads h d, client_reads cfg e now h d reads = (fst (fst (client_reads_kept cfg e now h d reads)), snd (client_reads_kept cfg e now h d reads)).
Proof.
  induction reads as [|chunk rest IH]; intros h d; cbn [client_reads client_reads_kept]; [destruct (cl_state h); reflexivity|].
  assert (X : forall a b : client_hs * option (outcome tls_error unit), a = b ->
    match cl_state h with CsReady => (h, Some (Ok tt)) | _ => a end = match cl_state h with CsReady => (h, Some (Ok tt)) | _ => b end) by (intros a b ->; reflexivity).
  assert (Y : forall a : (client_hs * list Z) * option (outcome tls_error unit), let k := match cl_state h with CsReady => ((h, d), Some (Ok tt)) | _ => a end in
    (fst (fst k), snd k) = match cl_state h with CsReady => (h, Some (Ok tt)) | _ => (fst (fst a), snd a) end) by (intros a; destruct (cl_state h); reflexivity).
  cbv zeta in Y. cbv zeta. etransitivity; [|symmetry; apply Y]. apply X. clear X Y.
  destruct (tcp_read chunk) as [rx|er|]; try reflexivity.
  destruct (client_records _ _ _ _ _ _ _ _) as [[h1 d1] [u|er|]]; try reflexivity. destruct (cl_flush h1) as [h2 [u2|er|]]; try reflexivity. apply IH.
Qed.
Lemma kept_cons cfg e now h d chunk rest : cl_state h <> CsReady -> chunk <> [] ->
  client_reads_kept cfg e now h d (chunk :: rest) =
  let d := match d with [] => [] | _ => d ++ chunk end in
  match client_records (S (length chunk + length d)) cfg e now h chunk d 0 with
  | ((h, d), Ok _) => match cl_flush h with (h, Ok _) => client_reads_kept cfg e now h d rest | (h, o) => ((h, d), Some o) end
  | ((h, d), o) => ((h, d), Some o)
  end.
Proof. intros N C. cbn [client_reads_kept]. unfold tcp_read. destruct chunk; [contradiction|]. destruct (cl_state h); try reflexivity. contradiction. Qed.
Lemma kept_ready cfg e now h d reads : cl_state h = CsReady -> client_reads_kept cfg e now h d reads = ((h, d), Some (Ok tt)).
Proof. intros St. destruct reads; cbn [client_reads_kept]; rewrite St; reflexivity. Qed.
Lemma kept_nil cfg e now h d : cl_state h <> CsReady -> client_reads_kept cfg e now h d [] = ((h, d), None).
Proof. intros St. cbn [client_reads_kept]. destruct (cl_state h); try reflexivity. contradiction. Qed.
Lemma kept_app cfg e now b : forall a h d h1 d1, client_reads_kept cfg e now h d a = ((h1, d1), None) -> client_reads_kept cfg e now h d (a ++ b) = client_reads_kept cfg e now h1 d1 b.
Proof.
  induction a as [|chunk rest IH]; intros h d h1 d1; cbn [client_reads_kept app].
  - destruct (cl_state h) eqn:St; intros H; try discriminate; injection H as <- <-; reflexivity.
  - destruct (cl_state h) eqn:St; try discriminate;
    (destruct (tcp_read chunk) as [rx|er|]; try discriminate;
     destruct (client_records _ _ _ _ _ _ _ _) as [[h2 d2] [u|er|]]; try discriminate; destruct (cl_flush h2) as [h3 [u2|er|]]; try discriminate; apply IH).
Qed.
Lemma dec_ready h : cl_state h = CsReady \/ cl_state h <> CsReady.
Proof. destruct (cl_state h); (left; reflexivity) || (right; discriminate). Qed.
Lemma kept_group cfg e now h gr rest : cl_state h <> CsReady -> idle h -> gr <> [] -> Forall parses gr ->
  client_reads_kept cfg e now h [] (bytes_of gr :: rest) =
  match csteps cfg e now h gr with (h, Ok _) => client_reads_kept cfg e now h [] rest | (h, o) => ((h, []), Some o) end.
Proof.
  intros N I NE P. rewrite kept_cons by (try assumption; now apply bytes_ne). cbv zeta.
  pose proof (read_fresh cfg e now gr (S (length (bytes_of gr) + length (@nil Z))) [] h P ltac:(lia)) as R. cbn [app length] in R |- *. rewrite R.
  destruct (csteps cfg e now h gr) as [h1 [u|er|]] eqn:E; try reflexivity.
  rewrite flush_idle; [reflexivity|]. eapply csteps_idle; [exact E|exact I].
Qed.
Lemma kept_part cfg e now h gr a rest : cl_state h <> CsReady -> idle h -> Forall parses gr -> refused a ->
  client_reads_kept cfg e now h [] ((bytes_of gr ++ a) :: rest) =
  match csteps cfg e now h gr with (h, Ok _) => client_reads_kept cfg e now h a rest | (h, o) => ((h, []), Some o) end.
Proof.
  intros N I P Ra. assert (NE : bytes_of gr ++ a <> []) by (intros X; apply app_eq_nil in X; destruct X as (_ & X); now apply (proj1 Ra)).
  rewrite kept_cons by assumption. cbv zeta.
  assert (La : (0 < length a)%nat) by (destruct Ra as (Na & _); destruct a; [contradiction|cbn; lia]).
  pose proof (read_part cfg e now a Ra gr (S (length (bytes_of gr ++ a) + length (@nil Z))) [] h P ltac:(rewrite app_length; lia)) as R. cbn [app length] in R |- *. rewrite R.
  destruct (csteps cfg e now h gr) as [h1 [u|er|]] eqn:E; try reflexivity.
  rewrite flush_idle; [reflexivity|]. eapply csteps_idle; [exact E|exact I].
Qed.
Lemma kept_mid cfg e now h a b rest : cl_state h <> CsReady -> idle h -> a <> [] -> b <> [] -> refused (a ++ b) ->
  client_reads_kept cfg e now h a (b :: rest) = client_reads_kept cfg e now h (a ++ b) rest.
Proof.
  intros N I Na Nb R. rewrite kept_cons by assumption. destruct a as [|a0 a]; [contradiction|]. cbv zeta.
  rewrite read_more by (try assumption; lia). now rewrite flush_idle.
Qed.
Lemma kept_mids cfg e now h rest : cl_state h <> CsReady -> idle h -> forall mids a, a <> [] -> Forall (fun m => m <> []) mids ->
  (forall k, refused (a ++ concat (firstn k mids))) ->
  client_reads_kept cfg e now h a (mids ++ rest) = client_reads_kept cfg e now h (a ++ concat mids) rest.
Proof.
  intros N I. induction mids as [|m mids IH]; intros a Na F R; [cbn [app concat]; now rewrite app_nil_r|]. inversion F as [|? ? Fm Fs]; subst.
  cbn [app concat]. rewrite kept_mid; try assumption.
  - rewrite IH; [now rewrite app_assoc| |assumption|].
    + intros X. apply app_eq_nil in X. now destruct X.
    + intros k. specialize (R (S k)). cbn [firstn concat] in R. now rewrite <- app_assoc.
  - specialize (R 1%nat). cbn [firstn concat] in R. now rewrite app_nil_r in R.
Qed.
Lemma kept_last cfg e now h a b gr rest : cl_state h <> CsReady -> idle h -> a <> [] -> b <> [] -> gr <> [] -> Forall parses gr -> a ++ b = bytes_of gr ->
  exists d, client_reads_kept cfg e now h a (b :: rest) =
  match csteps cfg e now h gr with (h, Ok _) => client_reads_kept cfg e now h [] rest | (h, o) => ((h, d), Some o) end.
Proof.
  intros N I Na Nb NE P Eq. rewrite kept_cons by assumption. destruct a as [|a0 a]; [contradiction|]. cbv zeta. rewrite Eq.
  destruct (read_kept cfg e now b gr (S (length b + length (bytes_of gr))) [] h NE P ltac:(lia)) as (d & E & D). exists d. cbn [app length] in E. rewrite E.
  destruct (csteps cfg e now h gr) as [h1 [u|er|]] eqn:Ec; cbn [fst snd] in *; try reflexivity.
  rewrite (D _ eq_refl). rewrite flush_idle; [reflexivity|]. eapply csteps_idle; [exact Ec|exact I].
Qed.

(* ---- records delivered so that each read ends well ---- *)
(* d is what has arrived of one record *)
Definition part_of (recs : list record) (d : list Z) : Prop := exists r rest, In r recs /\ wire r = d ++ rest /\ rest <> [].
Lemma kept_delivers cfg e now recs reads : delivers recs reads -> forall k h h' d, idle h -> Forall parses recs -> Forall no_alert recs ->
  client_reads_kept cfg e now h [] (firstn k reads) = ((h', d), None) -> d = [] \/ part_of recs d.
Proof.
  induction 1 as [|gr recs reads NE D IH|before r after first mids last recs reads W F C D IH]; intros k h h' d I P A E.
  - rewrite firstn_nil in E. destruct (dec_ready h) as [St|St]; [rewrite kept_ready in E by exact St; discriminate|]. rewrite kept_nil in E by exact St. left. congruence.
  - destruct (dec_ready h) as [St|St]; [rewrite kept_ready in E by exact St; discriminate|].
    destruct k as [|k]; [cbn [firstn] in E; rewrite kept_nil in E by exact St; left; congruence|].
    apply Forall_app in P, A. destruct P as (P1 & P2), A as (A1 & A2). cbn [firstn] in E. rewrite kept_group in E by assumption.
    destruct (csteps cfg e now h gr) as [h1 [u|er|]] eqn:E1; try discriminate.
    destruct (IH k h1 h' d (csteps_idle _ _ _ _ _ _ _ E1 I) P2 A2 E) as [? | (r & rest & Hr & ?)]; [now left|]. right. exists r, rest. split; [apply in_or_app; now right|assumption].
  - destruct (dec_ready h) as [St|St]; [rewrite kept_ready in E by exact St; discriminate|].
    destruct k as [|k]; [cbn [firstn] in E; rewrite kept_nil in E by exact St; left; congruence|].
    inversion F as [|? ? F1 F']; subst. inversion F' as [|? ? F2 F3]; subst.
    apply Forall_app in P. destruct P as (Pb & P). inversion P as [|? ? Pr P']; subst. apply Forall_app in P'. destruct P' as (Pa & Ps).
    apply Forall_app in A. destruct A as (Ab & A). inversion A as [|? ? Ar A']; subst. apply Forall_app in A'. destruct A' as (Aa & As).
    assert (WW : forall k, wire r = (first ++ concat (firstn k mids)) ++ concat (skipn k mids) ++ last).
    { intros j. rewrite <- app_assoc, (app_assoc (concat (firstn j mids))), <- concat_app, firstn_skipn. exact W. }
    assert (NL : forall j, concat (skipn j mids) ++ last <> []) by (intros j X; apply app_eq_nil in X; now destruct X).
    assert (R : forall k, refused (first ++ concat (firstn k mids))).
    { intros j. apply (well_cut_refused r _ (concat (skipn j mids) ++ last)); [exact Pr|apply WW|intros X; apply app_eq_nil in X; now destruct X|apply C]. }
    assert (R0 : refused first) by (specialize (R 0%nat); cbn [firstn concat] in R; now rewrite app_nil_r in R).
    cbn [firstn] in E. rewrite kept_part in E by assumption. destruct (csteps cfg e now h before) as [h1 [u|er|]] eqn:E1; try discriminate.
    pose proof (csteps_idle _ _ _ _ _ _ _ E1 I) as I1. destruct (dec_ready h1) as [St1|St1]; [rewrite kept_ready in E by exact St1; discriminate|].
    rewrite firstn_app in E. destruct (Nat.leb_spec k (length mids)) as [Lk|Lk].
    + replace (k - length mids)%nat with 0%nat in E by lia. cbn [firstn] in E. rewrite kept_mids in E; try assumption.
      * rewrite kept_nil in E by exact St1. right. exists r, (concat (skipn k mids) ++ last). split; [apply in_or_app; right; now left|]. split; [|apply NL].
        assert (Ed : d = first ++ concat (firstn k mids)) by congruence. rewrite Ed. apply WW.
      * clear - F3. revert k. induction F3; intros [|k]; cbn [firstn]; constructor; auto.
      * intros j. rewrite firstn_firstn. apply R.
    + rewrite firstn_all2 in E by lia. rewrite kept_mids in E by assumption. destruct (k - length mids)%nat as [|j] eqn:Ej; [lia|]. cbn [firstn] in E.
      destruct (kept_last cfg e now h1 (first ++ concat mids) (last ++ bytes_of after) (r :: after) (firstn j reads) St1 I1) as (d1 & K).
      * intros X. apply app_eq_nil in X. now destruct X.
      * intros X. apply app_eq_nil in X. now destruct X.
      * discriminate.
      * now constructor.
      * change (bytes_of (r :: after)) with (wire r ++ bytes_of after). rewrite W, <- !app_assoc. reflexivity.
      * rewrite K in E. destruct (csteps cfg e now h1 (r :: after)) as [h2 [u2|er|]] eqn:E2; try discriminate.
        destruct (IH j h2 h' d (csteps_idle _ _ _ _ _ _ _ E2 I1) Ps As E) as [? | (r2 & rest & Hr & ?)]; [now left|]. right. exists r2, rest. split; [|assumption].
        apply in_or_app. right. right. apply in_or_app. now right.
Qed.
Lemma kept_delivered cfg e now recs reads : delivers recs reads -> forall h h' d, idle h -> Forall parses recs -> Forall no_alert recs ->
  client_reads_kept cfg e now h [] reads = ((h', d), None) -> d = [] /\ csteps cfg e now h recs = (h', Ok tt).
Proof.
  induction 1 as [|gr recs reads NE D IH|before r after first mids last recs reads W F C D IH]; intros h h' d I P A E.
  - destruct (dec_ready h) as [St|St]; [rewrite kept_ready in E by exact St; discriminate|]. rewrite kept_nil in E by exact St. injection E as <- <-. auto.
  - destruct (dec_ready h) as [St|St]; [rewrite kept_ready in E by exact St; discriminate|].
    apply Forall_app in P, A. destruct P as (P1 & P2), A as (A1 & A2). rewrite kept_group in E by assumption. rewrite csteps_app.
    destruct (csteps cfg e now h gr) as [h1 [u|er|]] eqn:E1; try discriminate. cbn [sbind].
    exact (IH h1 h' d (csteps_idle _ _ _ _ _ _ _ E1 I) P2 A2 E).
  - destruct (dec_ready h) as [St|St]; [rewrite kept_ready in E by exact St; discriminate|].
    inversion F as [|? ? F1 F']; subst. inversion F' as [|? ? F2 F3]; subst.
    apply Forall_app in P. destruct P as (Pb & P). inversion P as [|? ? Pr P']; subst. apply Forall_app in P'. destruct P' as (Pa & Ps).
    apply Forall_app in A. destruct A as (Ab & A). inversion A as [|? ? Ar A']; subst. apply Forall_app in A'. destruct A' as (Aa & As).
    assert (R : forall k, refused (first ++ concat (firstn k mids))).
    { intros k. apply (well_cut_refused r _ (concat (skipn k mids) ++ last)); [exact Pr| |intros X; apply app_eq_nil in X; now destruct X|apply C].
      rewrite <- app_assoc. rewrite (app_assoc (concat (firstn k mids))), <- concat_app, firstn_skipn. exact W. }
    assert (R0 : refused first) by (specialize (R 0%nat); cbn [firstn concat] in R; now rewrite app_nil_r in R).
    rewrite kept_part in E by assumption. rewrite csteps_app. destruct (csteps cfg e now h before) as [h1 [u|er|]] eqn:E1; try discriminate. cbn [sbind].
    pose proof (csteps_idle _ _ _ _ _ _ _ E1 I) as I1. destruct (dec_ready h1) as [St1|St1]; [rewrite kept_ready in E by exact St1; discriminate|].
    rewrite kept_mids in E by assumption.
    destruct (kept_last cfg e now h1 (first ++ concat mids) (last ++ bytes_of after) (r :: after) reads St1 I1) as (d1 & K).
    + intros X. apply app_eq_nil in X. now destruct X.
    + intros X. apply app_eq_nil in X. now destruct X.
    + discriminate.
    + now constructor.
    + change (bytes_of (r :: after)) with (wire r ++ bytes_of after). rewrite W, <- !app_assoc. reflexivity.
    + rewrite K in E. change (r :: after ++ recs) with ((r :: after) ++ recs). rewrite csteps_app. destruct (csteps cfg e now h1 (r :: after)) as [h2 [u2|er|]] eqn:E2; try discriminate. cbn [sbind].
      exact (IH h2 h' d (csteps_idle _ _ _ _ _ _ _ E2 I1) Ps As E).
Qed.

(* ---- connections ---- *)
Lemma connect_waits cfg e now so reads h : connect cfg e now so reads = (h, None) <->
  exists h0 u, send_client_hello cfg e (client_new e so) = (h0, Ok u) /\ client_reads_kept cfg e now h0 [] reads = ((h, connect_kept cfg e now so reads), None).
Proof.
  unfold connect, connect_kept, client_do_handshake. destruct (send_client_hello cfg e (client_new e so)) as [h0 [u|er|]].
  - rewrite kept_erases. destruct (client_reads_kept cfg e now h0 [] reads) as [[h1 d1] o] eqn:K. cbn [fst snd]. split.
    + intros H. exists h0, u. split; [reflexivity|]. destruct o as [[u1|er|]|]; try discriminate; [destruct (report_error _ _); discriminate|]. injection H as ->. exact K.
    + intros (h0' & u' & Q & H). injection Q as <- <-. rewrite K in H. apply pair_equal_spec in H. destruct H as (H & ->). apply pair_equal_spec in H. destruct H as (-> & _). reflexivity.
  - split; [destruct (report_error _ _); discriminate|]. intros (? & ? & Q & _). discriminate.
  - split; [discriminate|]. intros (? & ? & Q & _). discriminate.
Qed.
Theorem kept_bounded cfg e now so recs reads k h : delivers recs reads -> Forall parses recs -> Forall no_alert recs ->
  connect cfg e now so (firstn k reads) = (h, None) ->
  connect_kept cfg e now so (firstn k reads) = [] \/ part_of recs (connect_kept cfg e now so (firstn k reads)).
Proof.
  intros D P A E. apply connect_waits in E. destruct E as (h0 & u & S & E). destruct (hello_idle _ _ _ _ _ S) as (I & _).
  exact (kept_delivers cfg e now recs reads D k h0 h _ I P A E).
Qed.
Theorem kept_none cfg e now so recs reads h : delivers recs reads -> Forall parses recs -> Forall no_alert recs ->
  connect cfg e now so reads = (h, None) -> connect_kept cfg e now so reads = [].
Proof.
  intros D P A E. apply connect_waits in E. destruct E as (h0 & u & S & E). destruct (hello_idle _ _ _ _ _ S) as (I & _).
  exact (proj1 (kept_delivered cfg e now recs reads D h0 h _ I P A E)).
Qed.
(* from a waiting client on *)
Lemma kept_from cfg e now so recs before h : delivers recs before -> Forall parses recs -> Forall no_alert recs -> connect cfg e now so before = (h, None) ->
  idle h /\ cl_state h <> CsReady /\ (recs <> [] -> met h) /\
  forall more h' d, client_reads_kept cfg e now h [] more = ((h', d), None) -> connect cfg e now so (before ++ more) = (h', None) /\ connect_kept cfg e now so (before ++ more) = d.
Proof.
  intros D P A E. destruct (waiting _ _ _ _ _ _ _ D P A E) as (I & St & M & _). split; [exact I|]. split; [exact St|]. split; [exact M|]. intros more h' d K.
  apply connect_waits in E. destruct E as (h0 & u & S & E). destruct (hello_idle _ _ _ _ _ S) as (I0 & _).
  destruct (kept_delivered cfg e now recs before D h0 h _ I0 P A E) as (Ed & _). rewrite Ed in E.
  assert (X : connect_kept cfg e now so (before ++ more) = d) by (unfold connect_kept; rewrite S, (kept_app _ _ _ more _ _ _ _ _ E), K; reflexivity).
  split; [|exact X]. apply connect_waits. exists h0, u. split; [exact S|]. rewrite (kept_app _ _ _ more _ _ _ _ _ E), K, X. reflexivity.
Qed.
(* a record type it does not know *)
Lemma kept_stuck cfg e now h t : cl_state h <> CsReady -> idle h -> rt_new t = Err DecodeError -> forall more x, Forall (fun m => m <> []) more ->
  client_reads_kept cfg e now h (t :: x) more = ((h, (t :: x) ++ concat more), None).
Proof.
  intros St I T. induction more as [|m more IH]; intros x F; [rewrite kept_nil by exact St; cbn [concat]; now rewrite app_nil_r|]. inversion F; subst.
  rewrite kept_mid; try assumption; try discriminate; [cbn [app]; rewrite IH by assumption; cbn [concat app]; now rewrite app_assoc|]. split; [discriminate|]. now apply stuck_parse.
Qed.
Theorem kept_unknown cfg e now so recs before h t x more : delivers recs before -> Forall parses recs -> Forall no_alert recs -> connect cfg e now so before = (h, None) ->
  rt_new t = Err DecodeError -> Forall (fun m => m <> []) more ->
  connect cfg e now so (before ++ (t :: x) :: more) = (h, None) /\ connect_kept cfg e now so (before ++ (t :: x) :: more) = (t :: x) ++ concat more.
Proof.
  intros D P A E T F. destruct (kept_from _ _ _ _ _ _ _ D P A E) as (I & St & _ & K). apply K.
  assert (Rf : refused (t :: x)) by (split; [discriminate|now apply stuck_parse]).
  pose proof (kept_part cfg e now h [] (t :: x) more St I (Forall_nil _) Rf) as R. change (bytes_of [] ++ t :: x) with (t :: x) in R. cbn [csteps] in R.
  rewrite R. now apply kept_stuck.
Qed.

(* change_cipher_spec records, each cut after its first bytes *)
Lemma read_again cfg e now rx a : refused a -> forall recs fuel pre h, Forall parses recs -> (length (bytes_of recs) + 1 < fuel)%nat ->
  Forall (fun r => is_ccs r = true) recs -> met h ->
  client_records fuel cfg e now h rx (pre ++ bytes_of recs ++ a) (length pre) = ((h, pre ++ bytes_of recs ++ a), Ok tt).
Proof.
  intros (Na & er & Ra). assert (La : (0 < length a)%nat) by (destruct a; [contradiction|cbn; lia]).
  induction recs as [|r recs IH]; intros fuel pre h P F C M; (destruct fuel as [|fuel]; [lia|]).
  - unfold bytes_of. cbn [map concat app client_records]. destruct (pre ++ a) as [|b0 l0] eqn:Ed; [apply app_eq_nil in Ed; destruct Ed; contradiction|].
    rewrite Bool.orb_true_r. cbn [negb]. rewrite <- Ed. rewrite slice_from_pre, sbind_Ok, Ra. cbn [fst snd]. rewrite Ed. reflexivity.
  - inversion P as [|? ? Pr Pp]; subst. inversion C as [|? ? Cr Cs]; subst. change (bytes_of (r :: recs)) with (wire r ++ bytes_of recs) in *. rewrite <- app_assoc.
    destruct (parse_at r (bytes_of recs ++ a) Pr) as (Q & L5). rewrite app_length in F. cbn [client_records].
    destruct (pre ++ wire r ++ bytes_of recs ++ a) as [|b0 l0] eqn:Ed; [apply app_eq_nil in Ed; destruct Ed as (_ & Ed); apply app_eq_nil in Ed; destruct Ed as (Ed & _); rewrite Ed in L5; cbn in L5; lia|].
    rewrite Bool.orb_true_r. cbn [negb]. rewrite <- Ed. rewrite slice_from_pre, sbind_Ok, Q. cbn [fst snd]. rewrite record_ccs by assumption.
    replace (Nat.eqb (length pre + length (wire r)) (length (pre ++ wire r ++ bytes_of recs ++ a))) with false by (symmetry; apply Nat.eqb_neq; rewrite !app_length; lia).
    pose proof (IH fuel (pre ++ wire r) h Pp ltac:(lia) Cs M) as R. rewrite app_length, <- !app_assoc in R. exact R.
Qed.
Definition ccs : record := {| r_type := RChangeCipherSpec; r_version := 0x0303; r_len := 1; r_header := [20; 3; 3; 0; 1]; r_fragment := [1] |}.
Lemma ccs_parses : parses ccs.
Proof. Local Transparent record_from_raw slice_from. unfold parses. vm_compute. reflexivity. Qed.
Local Opaque record_from_raw slice_from.
Lemma repeat_ccs n : [20; 3; 3] ++ concat (repeat [0; 1; 1; 20; 3; 3] n) = bytes_of (repeat ccs n) ++ [20; 3; 3].
Proof.
  induction n as [|n IH]; [reflexivity|]. cbn [repeat concat]. change (bytes_of (ccs :: repeat ccs n)) with ([20; 3; 3; 0; 1; 1] ++ bytes_of (repeat ccs n)).
  rewrite <- app_assoc, <- IH. reflexivity.
Qed.
Lemma forall_repeat {A} (P : A -> Prop) x n : P x -> Forall P (repeat x n).
Proof. intros H. induction n; cbn; constructor; assumption. Qed.
Lemma part_refused : refused [20; 3; 3].
Proof. Local Transparent record_from_raw. split; [discriminate|]. vm_compute. eexists. reflexivity. Qed.
Local Opaque record_from_raw.
Lemma kept_repeat cfg e now h : cl_state h <> CsReady -> idle h -> met h -> forall n k,
  client_reads_kept cfg e now h (bytes_of (repeat ccs k) ++ [20; 3; 3]) (repeat [0; 1; 1; 20; 3; 3] n) = ((h, bytes_of (repeat ccs (k + n)) ++ [20; 3; 3]), None).
Proof.
  intros St I M. induction n as [|n IH]; intros k; cbn [repeat]; [rewrite kept_nil by exact St; now rewrite Nat.add_0_r|].
  rewrite kept_cons by (try exact St; discriminate). destruct (bytes_of (repeat ccs k) ++ [20; 3; 3]) as [|b0 l0] eqn:Ed; [apply app_eq_nil in Ed; destruct Ed; discriminate|]. rewrite <- Ed. cbv zeta. clear b0 l0 Ed.
  assert (Eb : (bytes_of (repeat ccs k) ++ [20; 3; 3]) ++ [0; 1; 1; 20; 3; 3] = bytes_of (repeat ccs (S k)) ++ [20; 3; 3]).
  { rewrite <- !repeat_ccs, <- app_assoc. f_equal. replace (S k) with (k + 1)%nat by lia. rewrite repeat_app, concat_app. reflexivity. }
  rewrite Eb. pose proof (read_again cfg e now [0; 1; 1; 20; 3; 3] [20; 3; 3] part_refused (repeat ccs (S k))
    (S (length [0; 1; 1; 20; 3; 3] + length (bytes_of (repeat ccs (S k)) ++ [20; 3; 3]))) [] h (forall_repeat _ _ _ ccs_parses)) as R.
  cbn [app] in R. change (length (@nil Z)) with 0%nat in R. rewrite R; [|rewrite app_length; cbn [length]; lia|now apply forall_repeat|exact M].
  rewrite flush_idle by exact I. rewrite IH. replace (S k + n)%nat with (k + S n)%nat by lia. reflexivity.
Qed.
Theorem kept_ccs cfg e now so recs before h n : delivers recs before -> Forall parses recs -> Forall no_alert recs -> recs <> [] -> connect cfg e now so before = (h, None) ->
  let more := [20; 3; 3] :: repeat [0; 1; 1; 20; 3; 3] n in
  connect cfg e now so (before ++ more) = (h, None) /\ connect_kept cfg e now so (before ++ more) = concat more.
Proof.
  intros D P A NE E more. destruct (kept_from _ _ _ _ _ _ _ D P A E) as (I & St & M & K). apply K. unfold more. cbn [concat]. rewrite repeat_ccs.
  pose proof (kept_part cfg e now h [] [20; 3; 3] (repeat [0; 1; 1; 20; 3; 3] n) St I (Forall_nil _) part_refused) as R. change (bytes_of [] ++ [20; 3; 3]) with [20; 3; 3] in R. cbn [csteps] in R.
  rewrite R. exact (kept_repeat cfg e now h St I (M NE) n 0).
Qed.
(* the buffer and the state are all there is *)
Theorem kept_is_all cfg e now so reads h more : connect cfg e now so reads = (h, None) ->
  connect cfg e now so (reads ++ more) =
  match client_reads cfg e now h (connect_kept cfg e now so reads) more with
  | (h, Some (Err er)) => let (s, r) := report_error (cl_stream h) er in (cl_with_stream h s, Some r)
  | r => r
  end.
Proof.
  intros E. apply connect_waits in E. destruct E as (h0 & u & S & E). unfold connect, client_do_handshake. rewrite S, !kept_erases, (kept_app _ _ _ more _ _ _ _ _ E). reflexivity.
Qed.

Theorem server_ccs : forall cfg d now so hello ccs h n,
  parses hello -> is_ccs hello = false -> parses ccs -> is_ccs ccs = true -> accept cfg d now so [wire hello] = (h, None) ->
  accept cfg d now so (wire hello :: repeat (wire ccs) n) = (h, None).
Proof.
  intros cfg d now so hello ccs h n P N Pc C E. 
  assert (R : Forall parses [hello] -> Forall (fun x : list record => x <> []) (repeat [ccs] n) -> Forall parses (concat (repeat [ccs] n)) ->
    accept cfg d now so (bytes_of [hello] :: map bytes_of (repeat [ccs] n) ++ []) = accept cfg d now so (bytes_of (hello :: without_ccs []) :: map bytes_of (groups_without_ccs (repeat [ccs] n)) ++ []))
    by exact (Proofs.Reads.accept_ccs cfg d now so hello [] (repeat [ccs] n) [] N).
  assert (F : Forall (fun x : list record => x <> []) (repeat [ccs] n)) by (apply forall_repeat; discriminate).
  assert (Cc : forall n, concat (repeat [ccs] n) = repeat ccs n) by (clear; induction n as [|k IH]; [reflexivity|cbn; now rewrite IH]).
  assert (M : forall n, map bytes_of (repeat [ccs] n) = repeat (wire ccs) n) by (clear; induction n as [|k IH]; [reflexivity|cbn [repeat map]; rewrite IH; unfold bytes_of; cbn; now rewrite app_nil_r]).
  assert (G : groups_without_ccs (repeat [ccs] n) = []) by (clear - C; unfold groups_without_ccs; induction n as [|k IH]; [reflexivity|cbn [repeat map filter]; unfold without_ccs at 1; cbn [filter]; rewrite C; exact IH]).
  assert (B : bytes_of [hello] = wire hello) by (unfold bytes_of; cbn; apply app_nil_r).
  rewrite M, G, !app_nil_r in R. cbn [without_ccs filter map] in R. rewrite B in R. rewrite <- E. apply R; [constructor; [exact P|constructor]|exact F|].
  rewrite Cc. now apply forall_repeat.
Qed.
Theorem client_ccs : forall cfg e now so hello ccs h n,
  parses hello -> is_ccs hello = false -> parses ccs -> is_ccs ccs = true -> connect cfg e now so [wire hello] = (h, None) ->
  connect cfg e now so (wire hello :: repeat (wire ccs) n) = (h, None).
Proof.
  intros cfg e now so hello ccs h n P N Pc C E. pose proof (connect_ccs cfg e now so hello [] (repeat [ccs] n) [] N) as R.
  assert (F : Forall (fun x : list record => x <> []) (repeat [ccs] n)) by (apply forall_repeat; discriminate).
  assert (Cc : forall n, concat (repeat [ccs] n) = repeat ccs n) by (clear; induction n as [|k IH]; [reflexivity|cbn; now rewrite IH]).
  assert (M : forall n, map bytes_of (repeat [ccs] n) = repeat (wire ccs) n) by (clear; induction n as [|k IH]; [reflexivity|cbn [repeat map]; rewrite IH; unfold bytes_of; cbn; now rewrite app_nil_r]).
  assert (G : groups_without_ccs (repeat [ccs] n) = []) by (clear - C; unfold groups_without_ccs; induction n as [|k IH]; [reflexivity|cbn [repeat map filter]; unfold without_ccs at 1; cbn [filter]; rewrite C; exact IH]).
  assert (B : bytes_of [hello] = wire hello) by (unfold bytes_of; cbn; apply app_nil_r).
  rewrite M, G, !app_nil_r in R. cbn [without_ccs filter map] in R. rewrite B in R. rewrite <- E. apply R; [constructor; [exact P|constructor]|exact F|].
  rewrite Cc. now apply forall_repeat.
Qed.
