(* The request in the read of the client's Finished: both example programs wait *)
From Verif Require Import Proofs.Util Model.Alert Model.Record Model.KeySchedule Model.Channel Model.Stream Model.AppChannel Model.Server Model.Client Model.Examples
  Spec.Connection Spec.Handshaking Spec.Endpoints Spec.Loopback.
From Verif Require Import Proofs.Bytes Proofs.Examples.
From Verif Require Proofs.ServerAccept2 Proofs.Reads Proofs.Record Proofs.Stream Proofs.ServerFlow Proofs.Loopback Proofs.Cuts.

Lemma write_one s p peer data : st_protection s = Some p -> so_left (st_sock s) = None -> paired p peer ->
  (forall b, k_seq (side_key b (cur_keys p)) = 0) -> is_bytes data -> zlen data <= 4074 ->
  exists s' r, tls_write s data = (s', Ok tt) /\ new_bytes s s' = wire r /\ record_from_raw (wire r) = Ok (length (wire r), r) /\ r_type r = RApplicationData.
Proof.
  intros P L Pa Q B Ld. destruct (Stream.paired_facts p peer (or_introl Pa)) as (_ & _ & _ & F4 & F5); [intros b; rewrite Q; vm_compute; reflexivity|].
  destruct (Record.encrypt_sealed p RApplicationData data F5 F4 B ltac:(lia)) as (w & E & S).
  destruct (ServerFlow.sealed_record _ _ _ _ S) as (rec & Pr & Wr & Tr & _); [rewrite zlen_app; change (zlen [rt_code RApplicationData]) with 1; lia|].
  rewrite (Stream.write_ok _ _ _ _ _ P L E). eexists. exists rec. split; [reflexivity|]. split; [|split; [rewrite Wr; exact Pr|exact Tr]].
  unfold new_bytes. cbn [st_sock so_sent]. rewrite skipn_app_eq by reflexivity. symmetry. exact Wr.
Qed.
Lemma joined cfgs d cfgc e now response : compatible_up_to 65000 65000 65000 cfgs d cfgc e now ->
  exists c0 s1 c1 c2 hello flight reply,
    (connect cfgc e now fresh [] = (c0, None) /\ so_sent (st_sock (cl_stream c0)) = wire hello) /\
    (accept cfgs d now fresh [wire hello] = (s1, None) /\ so_sent (st_sock (sv_stream s1)) = bytes_of flight) /\
    (connect cfgc e now fresh [bytes_of flight] = (c1, Some (Ok tt)) /\ so_sent (st_sock (cl_stream c1)) = wire hello ++ bytes_of reply) /\
    (tls_write (cl_stream c1) (http_request localhost) = (c2, Ok tt) /\ so_sent (st_sock c2) = so_sent (st_sock (cl_stream c1)) ++ new_bytes (cl_stream c1) c2) /\
    (forall groups last, Forall (fun x => x <> []) (groups ++ [last]) -> concat (groups ++ [last]) = reply ->
       serve cfgs response (Conn d now fresh (wire hello :: map bytes_of groups ++ [bytes_of last ++ new_bytes (cl_stream c1) c2])) = Waits) /\
    forall reads, delivers flight reads -> request_main cfgc e now fresh reads = None.
Proof.
  intros C. destruct (Loopback.loopback_short 65000 65000 65000 cfgs d cfgc e now ltac:(lia) ltac:(lia) ltac:(lia) C)
    as (c0 & s1 & c1 & s2 & pc & ps & hello & flight & reply & K1 & K2 & (PA & _ & NF & NR) & (H2 & H3) & H4 & _ & _ & (Pc & Ps & _) & Pa & Q & Nc & Ns & SC & SS).
  destruct request_ok as (Bq & Lq & _). destruct (write_one _ pc ps _ Pc Nc Pa Q Bq Lq) as (c2 & r & W & Er & Pr & Tr).
  exists c0, s1, c1, c2, hello, flight, reply. split; [exact K1|]. split; [exact K2|].
  assert (D1 : delivers flight [bytes_of flight]). { pose proof (delivers_whole flight [] [] NF delivers_nil) as D. rewrite app_nil_r in D. exact D. }
  split; [exact (conj (H2 _ D1) H3)|]. split; [split; [exact W|]|].
  { destruct (Stream.one_record_ok _ pc ps (http_request localhost) [] Pc Nc (or_introl Pa)) as (s' & w & rec & peer' & W' & Sw & _);
      [intros b; rewrite Q; vm_compute; reflexivity|exact Bq|lia|]. rewrite W in W'. apply pair_equal_spec in W'. destruct W' as (<- & _).
    unfold new_bytes. rewrite Sw, skipn_app_eq by reflexivity. reflexivity. }
  split.
  - intros groups last NG EG. destruct (SS _ groups [last] NG EG eq_refl ltac:(discriminate)) as (h & E). pose proof (H4 _ NG EG) as F.
    rewrite map_app in F. cbn [map] in F. change (wire hello :: map bytes_of groups ++ [bytes_of last]) with ((wire hello :: map bytes_of groups) ++ [bytes_of last]) in F.
    assert (PL : Forall (fun r => record_from_raw (wire r) = Ok (length (wire r), r)) last).
    { inversion PA as [|? ? _ PA']; subst. apply Forall_app in PA'. destruct PA' as (_ & PR). rewrite concat_app in PR. apply Forall_app in PR. destruct PR as (_ & PR). cbn [concat] in PR. rewrite app_nil_r in PR. exact PR. }
    assert (NL : last <> []) by (apply Forall_app in NG; destruct NG as (_ & NG); inversion NG; assumption).
    assert (NA : Forall Reads.no_alert [r]) by (apply Forall_cons; [unfold Reads.no_alert; rewrite Tr; discriminate|apply Forall_nil]).
    pose proof (Cuts.after_finished cfgs d now fresh _ last [r] h s2 E NL PL F (Forall_cons _ Pr (Forall_nil _)) NA []) as G.
    assert (EB : bytes_of (last ++ [r]) = bytes_of last ++ new_bytes (cl_stream c1) c2).
    { rewrite Er. unfold bytes_of. rewrite map_app, concat_app. cbn [map concat]. now rewrite app_nil_r. }
    change (ServerAccept2.read_of (last ++ [r])) with (bytes_of (last ++ [r])) in G. rewrite EB in G. change (wire hello :: map bytes_of groups ++ [bytes_of last ++ new_bytes (cl_stream c1) c2]) with ((wire hello :: map bytes_of groups) ++ [bytes_of last ++ new_bytes (cl_stream c1) c2]).
    unfold serve. cbn [cn_draws cn_now cn_sock cn_reads].
    rewrite (accept_on_step cfgs d now fresh (wire hello :: map bytes_of groups) [] _ h E). cbn [app]. rewrite (accept_on_step1 cfgs d now fresh _ _ [] h E).
    rewrite (accept_on_done cfgs d now fresh _ [] s2 (Ok tt) G). reflexivity.
  - intros reads D. unfold request_main. destruct (exists_last (l := reads)) as (a & b & ->).
    { intros X. subst reads. inversion D as [X|gr recs reads NE D' X Y|before r0 after first mids last recs reads W0 F0 Cc D' X Y]. now apply NF. }
    destruct (SC _ a [b] D eq_refl ltac:(discriminate)) as (h & E). rewrite (connect_on_step cfgc e now fresh a [] _ h E). cbn [app].
    rewrite (connect_on_step1 cfgc e now fresh a b [] h E). rewrite (connect_on_done cfgc e now fresh _ [] c1 (Ok tt)) by now apply H2. rewrite W. reflexivity.
Qed.
