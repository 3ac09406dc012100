(* The example programs: the server loop, and the example clients and servers with each other *)
From Verif Require Import Proofs.Util Model.Alert Model.Record Model.X509 Model.Extensions Model.KeySchedule Model.Channel Model.Stream Model.AppChannel Model.Server Model.Client Model.Examples
  Spec.Connection Spec.Handshaking Spec.Endpoints Spec.Loopback Spec.Ends.
From Verif Require Proofs.Ends Proofs.Loopback Proofs.Stream.

Section Server.
  Variables (cfg : server_config) (d : draws) (now : Z) (so : sock).
  Lemma accept_before used : forall taken h, accept cfg d now so (taken ++ used) = (h, None) -> exists h', accept cfg d now so taken = (h', None).
  Proof.
    intros taken h H. destruct (accept cfg d now so taken) as [h' [o|]] eqn:E; [|eauto].
    rewrite (Ends.accept_more cfg d now so taken used h' o E) in H. discriminate.
  Qed.
  Lemma accept_on_step used : forall taken rest h, accept cfg d now so (taken ++ used) = (h, None) ->
    accept_on cfg d now so taken (used ++ rest) = accept_on cfg d now so (taken ++ used) rest.
  Proof.
    induction used as [|u used IH]; intros taken rest h H; [now rewrite app_nil_r|].
    destruct (accept_before (u :: used) taken h H) as (h' & E). cbn [app accept_on]. rewrite E.
    change (taken ++ u :: used) with (taken ++ [u] ++ used). rewrite app_assoc. apply (IH _ _ h). rewrite <- app_assoc. exact H.
  Qed.
  Lemma accept_on_step1 taken r todo h : accept cfg d now so taken = (h, None) -> accept_on cfg d now so taken (r :: todo) = accept_on cfg d now so (taken ++ [r]) todo.
  Proof. intros H. change (accept_on cfg d now so taken (r :: todo)) with (match accept cfg d now so taken with (h, Some o) => Some (h, o, r :: todo) | (_, None) => accept_on cfg d now so (taken ++ [r]) todo end). now rewrite H. Qed.
  Lemma accept_on_done taken todo h o : accept cfg d now so taken = (h, Some o) -> accept_on cfg d now so taken todo = Some (h, o, todo).
  Proof. intros H. destruct todo; cbn [accept_on]; now rewrite H. Qed.
  Lemma accept_on_more todo : forall taken h o, accept cfg d now so (taken ++ todo) = (h, Some o) ->
    exists rest, accept_on cfg d now so taken todo = Some (h, o, rest).
  Proof.
    induction todo as [|u todo IH]; intros taken h o H.
    - rewrite app_nil_r in H. exists []. now apply accept_on_done.
    - destruct (accept cfg d now so taken) as [h' [o'|]] eqn:E.
      + rewrite (Ends.accept_more cfg d now so taken (u :: todo) h' o' E) in H. injection H as -> ->. exists (u :: todo). now apply accept_on_done.
      + cbn [accept_on]. rewrite E. apply IH. rewrite <- app_assoc. exact H.
  Qed.
  Lemma accept_on_none todo : forall taken h, accept cfg d now so (taken ++ todo) = (h, None) -> accept_on cfg d now so taken todo = None.
  Proof.
    intros taken h H. rewrite <- (app_nil_r todo), (accept_on_step todo taken [] h H). cbn [accept_on]. now rewrite H.
  Qed.
  Lemma accept_on_inv todo : forall taken h o rest, accept_on cfg d now so taken todo = Some (h, o, rest) ->
    exists used, todo = used ++ rest /\ accept cfg d now so (taken ++ used) = (h, Some o).
  Proof.
    induction todo as [|u todo IH]; intros taken h o rest H; cbn [accept_on] in H.
    - destruct (accept cfg d now so taken) as [h' [o'|]] eqn:E; [|discriminate]. injection H as -> -> <-. exists []. split; [reflexivity|now rewrite app_nil_r].
    - destruct (accept cfg d now so taken) as [h' [o'|]] eqn:E.
      + injection H as -> -> <-. exists []. split; [reflexivity|now rewrite app_nil_r].
      + destruct (IH _ _ _ _ H) as (used & -> & A). exists (u :: used). rewrite <- app_assoc in A. auto.
  Qed.
End Server.

Section Client.
  Variables (cfg : client_config) (e : client_draws) (now : Z) (so : sock).
  Lemma connect_on_inv todo : forall taken h o rest, connect_on cfg e now so taken todo = Some (h, o, rest) ->
    exists used, todo = used ++ rest /\ connect cfg e now so (taken ++ used) = (h, Some o).
  Proof.
    induction todo as [|u todo IH]; intros taken h o rest H; cbn [connect_on] in H.
    - destruct (connect cfg e now so taken) as [h' [o'|]] eqn:E; [|discriminate]. injection H as -> -> <-. exists []. split; [reflexivity|now rewrite app_nil_r].
    - destruct (connect cfg e now so taken) as [h' [o'|]] eqn:E.
      + injection H as -> -> <-. exists []. split; [reflexivity|now rewrite app_nil_r].
      + destruct (IH _ _ _ _ H) as (used & -> & A). exists (u :: used). rewrite <- app_assoc in A. auto.
  Qed.
  Lemma connect_before used : forall taken h, connect cfg e now so (taken ++ used) = (h, None) -> exists h', connect cfg e now so taken = (h', None).
  Proof.
    intros taken h H. destruct (connect cfg e now so taken) as [h' [o|]] eqn:E; [|eauto].
    rewrite (Ends.connect_more cfg e now so taken used h' o E) in H. discriminate.
  Qed.
  Lemma connect_on_step used : forall taken rest h, connect cfg e now so (taken ++ used) = (h, None) ->
    connect_on cfg e now so taken (used ++ rest) = connect_on cfg e now so (taken ++ used) rest.
  Proof.
    induction used as [|u used IH]; intros taken rest h H; [now rewrite app_nil_r|].
    destruct (connect_before (u :: used) taken h H) as (h' & E). cbn [app connect_on]. rewrite E.
    change (taken ++ u :: used) with (taken ++ [u] ++ used). rewrite app_assoc. apply (IH _ _ h). rewrite <- app_assoc. exact H.
  Qed.
  Lemma connect_on_step1 taken r todo h : connect cfg e now so taken = (h, None) -> connect_on cfg e now so taken (r :: todo) = connect_on cfg e now so (taken ++ [r]) todo.
  Proof. intros H. cbn [connect_on]. now rewrite H. Qed.
  Lemma connect_on_done taken todo h o : connect cfg e now so taken = (h, Some o) -> connect_on cfg e now so taken todo = Some (h, o, todo).
  Proof. intros H. destruct todo; cbn [connect_on]; now rewrite H. Qed.
End Client.

(* ---- the loop ---- *)
Definition ended (x : ending) : Prop := x <> Waits /\ x <> Crashed.
Lemma serve_all_app cfg resp l1 : forall l2, Forall (fun c => ended (serve cfg resp c)) l1 ->
  serve_all cfg resp (l1 ++ l2) = map (serve cfg resp) l1 ++ serve_all cfg resp l2.
Proof.
  induction l1 as [|c l1 IH]; intros l2 H; [reflexivity|]. inversion H as [|? ? (N1 & N2) H']; subst. cbn [app serve_all map].
  rewrite (IH l2 H'). destruct (serve cfg resp c); try reflexivity; contradiction.
Qed.
Lemma serve_all_nth cfg resp l1 c l2 : Forall (fun c => ended (serve cfg resp c)) l1 ->
  nth_error (serve_all cfg resp (l1 ++ c :: l2)) (length l1) = Some (serve cfg resp c).
Proof.
  intros H. rewrite serve_all_app by exact H. rewrite nth_error_app2 by (rewrite map_length; auto). rewrite map_length, Nat.sub_diag.
  cbn [serve_all]. destruct (serve cfg resp c); reflexivity.
Qed.
Lemma serve_all_stop cfg resp c l : ~ ended (serve cfg resp c) -> serve_all cfg resp (c :: l) = [serve cfg resp c].
Proof. intros H. cbn [serve_all]. unfold ended in H. destruct (serve cfg resp c); try reflexivity; exfalso; apply H; split; discriminate. Qed.

Lemma serve_crash cfg resp d now so reads h : accept cfg d now so reads = (h, Some Panic) ->
  serve cfg resp (Conn d now so reads) = Crashed.
Proof. intros H. unfold serve. cbn [cn_draws cn_now cn_sock cn_reads]. destruct (accept_on_more cfg d now so reads [] h Panic H) as (rest & ->). reflexivity. Qed.
Lemma serve_fail cfg resp d now so reads h e : accept cfg d now so reads = (h, Some (Err e)) ->
  serve cfg resp (Conn d now so reads) = NoHandshake e.
Proof. intros H. unfold serve. cbn [cn_draws cn_now cn_sock cn_reads]. destruct (accept_on_more cfg d now so reads [] h _ H) as (rest & ->). reflexivity. Qed.
Lemma serve_waits cfg resp d now so reads h : accept cfg d now so reads = (h, None) -> serve cfg resp (Conn d now so reads) = Waits.
Proof. intros H. unfold serve. cbn [cn_draws cn_now cn_sock cn_reads]. now rewrite (accept_on_none cfg d now so reads [] h H). Qed.
Lemma serve_answered cfg resp c t s r : serve cfg resp c = Answered t s r ->
  exists used chunk rest h s0 request, cn_reads c = used ++ chunk :: rest /\
    accept cfg (cn_draws c) (cn_now c) (cn_sock c) used = (h, Some (Ok tt)) /\
    tls_read (sv_stream h) (Z.to_nat 4096) chunk = (s0, Ok request) /\ (4 <= length request)%nat /\ t = firstn (length request - 4) request /\ utf8_valid t = true /\
    tls_write s0 resp = (s, r).
Proof.
  unfold serve. intros H. destruct (accept_on _ _ _ _ _ _) as [[[h o] rest]|] eqn:E; [|discriminate].
  destruct o as [[]|e|]; try discriminate. destruct rest as [|chunk rest]; [discriminate|].
  destruct (accept_on_inv _ _ _ _ _ _ _ _ _ E) as (used & Er & A). cbn [app] in A.
  destruct (tls_read (sv_stream h) (Z.to_nat 4096) chunk) as [s0 [request|e|]] eqn:R; try discriminate.
  unfold printable in H. destruct (Nat.ltb_spec (length request) 4) as [L|L]; cbv zeta iota in H; [discriminate H|].
  destruct (utf8_valid (firstn (length request - 4) request)) eqn:U; [|discriminate H].
  exists used, chunk, rest, h, s0, request. split; [exact Er|]. split; [exact A|]. split; [exact R|]. split; [exact L|].
  destruct (tls_write s0 resp) as [s1 [v|e|]] eqn:W; try discriminate; injection H as <- <- <-; auto.
Qed.

Lemma unkeyed_harmless cfg resp d now so before junk h p :
  accept cfg d now so before = (h, None) -> st_protection (sv_stream h) = Some p -> Forall (unkeyed p) junk ->
  exists e, serve cfg resp (Conn d now so (before ++ junk ++ [[]])) = NoHandshake e.
Proof.
  intros H P J. pose proof (Ends.accept_end cfg d now so (before ++ junk) []) as E. rewrite <- app_assoc in E.
  destruct (Ends.accept_unkeyed cfg d now so before junk h p H P J) as [X|(h' & e & X)]; rewrite X in E; eexists; exact (serve_fail _ _ _ _ _ _ _ _ E).
Qed.

Lemma no_request cfg resp d now so before last chunk later h0 h e :
  accept cfg d now so before = (h0, None) -> accept cfg d now so (before ++ [last]) = (h, Some (Ok tt)) -> snd (tls_read (sv_stream h) (Z.to_nat 4096) chunk) = Err e ->
  serve cfg resp (Conn d now so (before ++ last :: chunk :: later)) = NoRequest e.
Proof.
  intros H0 H1 R. unfold serve. cbn [cn_draws cn_now cn_sock cn_reads]. rewrite (accept_on_step cfg d now so before [] (last :: chunk :: later) h0 H0).
  cbn [app]. rewrite (accept_on_step1 cfg d now so before last (chunk :: later) h0 H0). rewrite (accept_on_done cfg d now so (before ++ [last]) (chunk :: later) h (Ok tt) H1).
  destruct (tls_read (sv_stream h) (Z.to_nat 4096) chunk) as [s o]. cbn [snd] in R. subst o. reflexivity.
Qed.

(* ---- the two ends with each other ---- *)
Lemma cap_4096 : Z.of_nat (Z.to_nat 4096) = 4096. Proof. apply Z2Nat.id. lia. Qed.
Lemma talk_keys c1 s2 pc ps : st_protection (cl_stream c1) = Some pc -> st_protection (sv_stream s2) = Some ps -> Endpoints.paired pc ps ->
  (forall b, k_seq (side_key b (cur_keys pc)) = 0) -> so_left (st_sock (cl_stream c1)) = None -> so_left (st_sock (sv_stream s2)) = None ->
  forall data resp, is_bytes data -> zlen data <= 4074 -> is_bytes resp -> zlen resp <= 4074 ->
      exists c' s' s'' c'', tls_write (cl_stream c1) data = (c', Ok tt) /\
        tls_read (sv_stream s2) (Z.to_nat 4096) (new_bytes (cl_stream c1) c') = (s', Ok data) /\
        tls_write s' resp = (s'', Ok tt) /\ tls_read c' (Z.to_nat 4096) (new_bytes s' s'') = (c'', Ok resp).
Proof.
  intros Pc Ps Pa Q Nc Ns data resp Bd Ld Br Lr.
  set (evs := [AWrite true data; ARead true (Z.to_nat 4096); AWrite false resp; ARead false (Z.to_nat 4096)]).
  assert (Ev : Forall (fun ev => match ev with AWrite _ d => is_bytes d /\ zlen d <= 4074 | ARead _ cap => 4074 <= Z.of_nat cap end) evs).
  { unfold evs. repeat constructor; try assumption; rewrite cap_4096; lia. }
  destruct (Stream.app_history (cl_stream c1) (sv_stream s2) pc ps) with (es := evs) as (a & wc & ws & R & W1 & L1 & W2 & L2); try assumption.
  { intros b. rewrite Q. vm_compute. reflexivity. }
  unfold evs in R. cbn [app_run app_step ap_client ap_server ap_c2s ap_s2c ap_at_server ap_at_client app] in R.
  destruct (tls_write (cl_stream c1) data) as [c' [[]|?|]] eqn:E1; try discriminate.
  cbn [app_run app_step ap_client ap_server ap_c2s ap_s2c ap_at_server ap_at_client app] in R.
  destruct (tls_read (sv_stream s2) (Z.to_nat 4096) (firstn rx_size (new_bytes (cl_stream c1) c'))) as [s' [d'|?|]] eqn:E2; try discriminate.
  cbn [app_run app_step ap_client ap_server ap_c2s ap_s2c ap_at_server ap_at_client app] in R.
  destruct (tls_write s' resp) as [s'' [[]|?|]] eqn:E3; try discriminate.
  cbn [app_run app_step ap_client ap_server ap_c2s ap_s2c ap_at_server ap_at_client app] in R.
  destruct (tls_read c' (Z.to_nat 4096) (firstn rx_size (new_bytes s' s''))) as [c'' [r'|?|]] eqn:E4; try discriminate.
  injection R as <-. cbn [written_by Bool.eqb evs ap_at_server ap_at_client ap_c2s ap_s2c app] in W1, W2, L1, L2.
  injection W1 as <- <-. injection W2 as <- <-. cbn [length] in L1, L2.
  assert (K : forall w, length (left_over w []) = 0%nat -> firstn rx_size w = w).
  { intros w H. unfold left_over in H. destruct (skipn rx_size w) eqn:Sk; [|discriminate H]. rewrite <- (firstn_skipn rx_size w) at 2. now rewrite Sk, app_nil_r. }
  rewrite (K _ (eq_sym L1)) in E2. rewrite (K _ (eq_sym L2)) in E4. exists c', s', s'', c''. auto.
Qed.
Lemma talk cfgs d cfgc e now : compatible cfgs d cfgc e now ->
  exists c0 s1 c1 s2,
    let hello := so_sent (st_sock (cl_stream c0)) in
    let flight := so_sent (st_sock (sv_stream s1)) in
    let reply := skipn (length hello) (so_sent (st_sock (cl_stream c1))) in
    (connect cfgc e now fresh [] = (c0, None) /\ accept cfgs d now fresh [hello] = (s1, None) /\
     connect cfgc e now fresh [flight] = (c1, Some (Ok tt)) /\ accept cfgs d now fresh [hello; reply] = (s2, Some (Ok tt))) /\
    forall data resp, is_bytes data -> zlen data <= 4074 -> is_bytes resp -> zlen resp <= 4074 ->
      exists c' s' s'' c'', tls_write (cl_stream c1) data = (c', Ok tt) /\
        tls_read (sv_stream s2) (Z.to_nat 4096) (new_bytes (cl_stream c1) c') = (s', Ok data) /\
        tls_write s' resp = (s'', Ok tt) /\ tls_read c' (Z.to_nat 4096) (new_bytes s' s'') = (c'', Ok resp).
Proof.
  intros C. destruct (Loopback.loopback cfgs d cfgc e now C) as (c0 & s1 & c1 & s2 & pc & ps & H1 & _ & _ & (Pc & Ps & _) & Pa & Q & Nc & Ns).
  exists c0, s1, c1, s2. split; [exact H1|]. apply (talk_keys c1 s2 pc ps); assumption.
Qed.
From Verif Require Import Spec.X509.
From Verif Require Proofs.Utf8.

Lemma read_both cfgs d now hello reply chunk s1 s2 : accept cfgs d now fresh [hello] = (s1, None) -> accept cfgs d now fresh [hello; reply] = (s2, Some (Ok tt)) ->
  accept_on cfgs d now fresh [] [hello; reply; chunk] = Some (s2, Ok tt, [chunk]).
Proof.
  intros H1 H2. change [hello; reply; chunk] with ([hello] ++ [reply; chunk]). rewrite (accept_on_step cfgs d now fresh [hello] [] [reply; chunk] s1 H1).
  cbn [app]. cbn [accept_on]. rewrite H1. cbn [app]. exact (accept_on_done cfgs d now fresh [hello; reply] [chunk] s2 (Ok tt) H2).
Qed.
Lemma not_printable data : is_bytes data -> (zlen data < 4 \/ forall text end_, Forall scalar_value text -> zlen end_ = 4 -> data <> utf8 text ++ end_) -> printable data = None.
Proof.
  intros B H. unfold printable. destruct (Nat.ltb_spec (length data) 4) as [L|L]; [reflexivity|]. cbv zeta.
  destruct (utf8_valid (firstn (length data - 4) data)) eqn:V; [|reflexivity]. exfalso. destruct H as [H|H]; [unfold zlen in H; lia|].
  assert (Bf : is_bytes (firstn (length data - 4) data)).
  { rewrite <- (firstn_skipn (length data - 4) data) in B. apply is_bytes_app in B. apply B. }
  apply (Utf8.ext_is_text _ Bf) in V. destruct V as (text & T & E). apply (H text (skipn (length data - 4) data) T).
  - unfold zlen. rewrite skipn_length. lia.
  - rewrite <- E. symmetry. apply firstn_skipn.
Qed.
Lemma bad_request cfgs d cfgc e now : compatible cfgs d cfgc e now ->
  exists c0 s1 c1,
    let hello := so_sent (st_sock (cl_stream c0)) in
    let flight := so_sent (st_sock (sv_stream s1)) in
    let reply := skipn (length hello) (so_sent (st_sock (cl_stream c1))) in
    connect cfgc e now fresh [] = (c0, None) /\ accept cfgs d now fresh [hello] = (s1, None) /\ connect cfgc e now fresh [flight] = (c1, Some (Ok tt)) /\
    forall data response others, is_bytes data -> zlen data <= 4074 ->
      (zlen data < 4 \/ forall text end_, Forall scalar_value text -> zlen end_ = 4 -> data <> utf8 text ++ end_) ->
      exists c2, tls_write (cl_stream c1) data = (c2, Ok tt) /\
        serve_all cfgs response (Conn d now fresh [hello; reply; new_bytes (cl_stream c1) c2] :: others) = [Crashed].
Proof.
  intros C. destruct (talk cfgs d cfgc e now C) as (c0 & s1 & c1 & s2 & (H1 & H2 & H3 & H4) & T). exists c0, s1, c1. cbv zeta.
  split; [exact H1|]. split; [exact H2|]. split; [exact H3|]. intros data response others B L N.
  destruct (T data [] B L) as (c2 & s' & s'' & c'' & W & R & _); [constructor|vm_compute; discriminate|]. exists c2. split; [exact W|].
  assert (E : serve cfgs response (Conn d now fresh [so_sent (st_sock (cl_stream c0)); skipn (length (so_sent (st_sock (cl_stream c0)))) (so_sent (st_sock (cl_stream c1))); new_bytes (cl_stream c1) c2]) = Crashed).
  { unfold serve. cbn [cn_draws cn_now cn_sock cn_reads]. rewrite (read_both cfgs d now _ _ _ s1 s2 H2 H4), R, (not_printable data B N). reflexivity. }
  rewrite serve_all_stop; rewrite E; [reflexivity|]. intros (_ & X). now apply X.
Qed.

Lemma request_ok : is_bytes (http_request localhost) /\ zlen (http_request localhost) <= 4074 /\
  printable (http_request localhost) = Some (firstn (length (http_request localhost) - 4) (http_request localhost)).
Proof. split; [apply is_bytes_check; vm_compute; reflexivity|]. split; [vm_compute; discriminate|vm_compute; reflexivity]. Qed.
Lemma exchange cfgs d cfgc e now response : compatible cfgs d cfgc e now ->
  (exists text, Forall scalar_value text /\ response = utf8 text) -> is_bytes response -> zlen response <= 4074 ->
  exists c0 s1 c1 s2 c2 s3 s4,
    let hello := so_sent (st_sock (cl_stream c0)) in
    let flight := so_sent (st_sock (sv_stream s1)) in
    let reply := skipn (length hello) (so_sent (st_sock (cl_stream c1))) in
    let request := new_bytes (cl_stream c1) c2 in
    let answer := new_bytes s3 s4 in
    (connect cfgc e now fresh [] = (c0, None) /\ accept cfgs d now fresh [hello] = (s1, None) /\
     connect cfgc e now fresh [flight] = (c1, Some (Ok tt)) /\ accept cfgs d now fresh [hello; reply] = (s2, Some (Ok tt)) /\
     tls_write (cl_stream c1) (http_request localhost) = (c2, Ok tt) /\ tls_read (sv_stream s2) (Z.to_nat 4096) request = (s3, Ok (http_request localhost)) /\
     tls_write s3 response = (s4, Ok tt)) /\
    serve cfgs response (Conn d now fresh [hello; reply; request]) = Answered (firstn (length (http_request localhost) - 4) (http_request localhost)) s4 (Ok tt) /\
    request_main cfgc e now fresh [flight; answer] = Some (Some response).
Proof.
  intros C Tx Br Lr. destruct (talk cfgs d cfgc e now C) as (c0 & s1 & c1 & s2 & (H1 & H2 & H3 & H4) & T). destruct request_ok as (Bq & Lq & Pq).
  destruct (T (http_request localhost) response Bq Lq Br Lr) as (c2 & s3 & s4 & c3 & W & R & W' & R').
  apply (Utf8.ext_is_text _ Br) in Tx.
  exists c0, s1, c1, s2, c2, s3, s4. cbv zeta. split; [exact (conj H1 (conj H2 (conj H3 (conj H4 (conj W (conj R W'))))))|]. split.
  - unfold serve. cbn [cn_draws cn_now cn_sock cn_reads]. rewrite (read_both cfgs d now _ _ _ s1 s2 H2 H4), R, Pq, W'. reflexivity.
  - unfold request_main. rewrite (connect_on_step1 cfgc e now fresh [] _ _ c0 H1). cbn [app]. rewrite (connect_on_done cfgc e now fresh [so_sent (st_sock (sv_stream s1))] [new_bytes s3 s4] c1 (Ok tt) H3).
    rewrite W, R', Tx. reflexivity.
Qed.

(* ---- however the segments are cut and joined ---- *)
Lemma talk_wide cfgs d cfgc e now : compatible_up_to 65000 65000 65000 cfgs d cfgc e now ->
  exists c0 s1 c1 s2 hello flight reply,
    (connect cfgc e now fresh [] = (c0, None) /\ so_sent (st_sock (cl_stream c0)) = wire hello) /\
    (accept cfgs d now fresh [wire hello] = (s1, None) /\ so_sent (st_sock (sv_stream s1)) = bytes_of flight) /\
    (forall reads rest, delivers flight reads -> connect_on cfgc e now fresh [] (reads ++ rest) = Some (c1, Ok tt, rest)) /\
    so_sent (st_sock (cl_stream c1)) = wire hello ++ bytes_of reply /\
    (forall groups rest, Forall (fun x => x <> []) groups -> concat groups = reply ->
       accept_on cfgs d now fresh [] (wire hello :: map bytes_of groups ++ rest) = Some (s2, Ok tt, rest)) /\
    forall data resp, is_bytes data -> zlen data <= 4074 -> is_bytes resp -> zlen resp <= 4074 ->
      exists c' s' s'' c'', tls_write (cl_stream c1) data = (c', Ok tt) /\
        tls_read (sv_stream s2) (Z.to_nat 4096) (new_bytes (cl_stream c1) c') = (s', Ok data) /\
        tls_write s' resp = (s'', Ok tt) /\ tls_read c' (Z.to_nat 4096) (new_bytes s' s'') = (c'', Ok resp).
Proof.
  intros C. destruct (Loopback.loopback_short 65000 65000 65000 cfgs d cfgc e now ltac:(lia) ltac:(lia) ltac:(lia) C)
    as (c0 & s1 & c1 & s2 & pc & ps & hello & flight & reply & K1 & K2 & (_ & _ & NF & NR) & (H2 & H3) & H4 & _ & _ & (Pc & Ps & _) & Pa & Q & Nc & Ns & SC & SS).
  exists c0, s1, c1, s2, hello, flight, reply. split; [exact K1|]. split; [exact K2|]. split; [|split; [exact H3|split]].
  - intros reads rest D. destruct (exists_last (l := reads)) as (a & b & ->).
    { intros X. subst reads. inversion D as [X|gr recs reads NE D' X Y|before r after first mids last recs reads W F Cc D' X Y]. now apply NF. }
    destruct (SC _ a [b] D eq_refl ltac:(discriminate)) as (h & E). rewrite <- app_assoc. rewrite (connect_on_step cfgc e now fresh a [] _ h E). cbn [app].
    rewrite (connect_on_step1 cfgc e now fresh a b rest h E). apply connect_on_done. now apply H2.
  - intros groups rest NG EG. destruct (exists_last (l := groups)) as (a & b & ->); [intros X; subst groups; now apply NR|].
    destruct (SS _ a [b] NG EG eq_refl ltac:(discriminate)) as (h & E). rewrite map_app, <- app_assoc. cbn [map app].
    change (wire hello :: map bytes_of a ++ bytes_of b :: rest) with ((wire hello :: map bytes_of a) ++ bytes_of b :: rest).
    rewrite (accept_on_step cfgs d now fresh (wire hello :: map bytes_of a) [] _ h E). cbn [app]. rewrite (accept_on_step1 cfgs d now fresh _ _ rest h E). apply accept_on_done.
    specialize (H4 _ NG EG). rewrite map_app in H4. exact H4.
  - apply (talk_keys c1 s2 pc ps); assumption.
Qed.
Lemma exchange_wide cfgs d cfgc e now response : compatible_up_to 65000 65000 65000 cfgs d cfgc e now ->
  (exists text, Forall scalar_value text /\ response = utf8 text) -> is_bytes response -> zlen response <= 4074 ->
  exists c0 s1 c1 s2 c2 s3 s4 hello flight reply,
    let request := new_bytes (cl_stream c1) c2 in
    let answer := new_bytes s3 s4 in
    (connect cfgc e now fresh [] = (c0, None) /\ so_sent (st_sock (cl_stream c0)) = wire hello) /\
    (accept cfgs d now fresh [wire hello] = (s1, None) /\ so_sent (st_sock (sv_stream s1)) = bytes_of flight) /\
    so_sent (st_sock (cl_stream c1)) = wire hello ++ bytes_of reply /\
    (tls_write (cl_stream c1) (http_request localhost) = (c2, Ok tt) /\ tls_read (sv_stream s2) (Z.to_nat 4096) request = (s3, Ok (http_request localhost)) /\
     tls_write s3 response = (s4, Ok tt)) /\
    (forall groups, Forall (fun x => x <> []) groups -> concat groups = reply ->
       serve cfgs response (Conn d now fresh (wire hello :: map bytes_of groups ++ [request])) = Answered (firstn (length (http_request localhost) - 4) (http_request localhost)) s4 (Ok tt)) /\
    forall reads, delivers flight reads -> request_main cfgc e now fresh (reads ++ [answer]) = Some (Some response).
Proof.
  intros C Tx Br Lr. destruct (talk_wide cfgs d cfgc e now C) as (c0 & s1 & c1 & s2 & hello & flight & reply & H0 & H1 & H2 & H3 & H4 & T). destruct request_ok as (Bq & Lq & Pq).
  destruct (T (http_request localhost) response Bq Lq Br Lr) as (c2 & s3 & s4 & c3 & W & R & W' & R').
  apply (Utf8.ext_is_text _ Br) in Tx.
  exists c0, s1, c1, s2, c2, s3, s4, hello, flight, reply. cbv zeta. split; [exact H0|]. split; [exact H1|]. split; [exact H3|]. split; [exact (conj W (conj R W'))|]. split.
  - intros groups NG EG. unfold serve. cbn [cn_draws cn_now cn_sock cn_reads]. rewrite (H4 _ _ NG EG), R, Pq, W'. reflexivity.
  - intros reads D. unfold request_main. rewrite (H2 _ _ D), W, R', Tx. reflexivity.
Qed.
