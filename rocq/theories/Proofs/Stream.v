From Verif Require Import Proofs.Util Proofs.Bytes Model.Alert Model.Suite Model.KeySchedule Model.Record Model.Channel
  Model.Stream Model.AppChannel
  Spec.Rfc8446Keys Spec.Tls13Record Spec.Endpoints Spec.Writes Proofs.KeySchedule Proofs.Record Proofs.Channel.

Local Opaque rpp_encrypt rpp_decrypt record_from_raw.

(* ---- the socket ---- *)
Lemma write_all_true so buf so' : write_all so buf = (so', true) -> so_sent so' = so_sent so ++ buf.
Proof.
  unfold write_all. destruct (so_left so) as [k|]; [destruct (Nat.leb _ _)|]; intros H; injection H as <-; reflexivity || discriminate.
Qed.
Lemma write_all_false so buf so' : write_all so buf = (so', false) ->
  exists rest, so_sent so' ++ rest = so_sent so ++ buf /\ so_left so' = Some 0%nat.
Proof.
  unfold write_all. destruct (so_left so) as [k|]; [destruct (Nat.leb _ _)|]; intros H; try discriminate.
  injection H as <-. exists (skipn k buf). cbn [so_sent so_left]. now rewrite <- app_assoc, firstn_skipn.
Qed.
Lemma write_all_none so buf : so_left so = None -> write_all so buf = (Sock (so_sent so ++ buf) None, true).
Proof. intros H. unfold write_all. now rewrite H. Qed.
Lemma flush_cases s : 
  (exists so, flush s = (Stream so (st_protection s) [], Ok tt) /\ so_sent so = so_sent (st_sock s) ++ st_buffer s
     /\ (so_left (st_sock s) = None -> so_left so = None)) \/
  (exists so rest, flush s = (Stream so (st_protection s) (st_buffer s), Err BrokenPipe) /\
     so_sent so ++ rest = so_sent (st_sock s) ++ st_buffer s /\ so_left (st_sock s) <> None).
Proof.
  unfold flush. destruct (write_all (st_sock s) (st_buffer s)) as [so [|]] eqn:E.
  - left. exists so. split; [reflexivity|]. split; [now apply write_all_true|].
    intros N. rewrite write_all_none in E by assumption. now injection E as <-.
  - right. destruct (write_all_false _ _ _ E) as (rest & H & _). exists so, rest. split; [reflexivity|]. split; [exact H|].
    intros N. rewrite write_all_none in E by assumption. discriminate.
Qed.

Definition out (s : stream) : list Z := so_sent (st_sock s) ++ st_buffer s.
Lemma protect_one s t data p' w : one_record (st_protection s) t data = Some (p', w) ->
  protect s t data = (Stream (st_sock s) p' (st_buffer s), Ok w).
Proof.
  unfold one_record, protect. destruct s as [so [p|] b]; cbn [st_protection st_sock st_buffer].
  - destruct (rpp_encrypt p (record_new t data)) as [q [x|e|]]; intros H; try discriminate; injection H as <- <-; reflexivity.
  - destruct (Z.ltb_spec (zlen data) (2^16)); [|discriminate]. intros H'. injection H' as <- <-. now rewrite as_bytes_spec.
Qed.
Lemma prefix_more {A} (x r a b : list A) : x ++ r = a -> exists r', x ++ r' = a ++ b.
Proof. intros <-. exists (r ++ b). now rewrite app_assoc. Qed.

Lemma history_writes os : forall s ws empty, records (st_protection s) os = Some ws -> alerts_after_flush empty os ->
  (empty = true -> st_buffer s = []) ->
  exists s' r rest, sop_run s os = (s', r) /\ so_sent (st_sock s') ++ rest = out s ++ concat ws /\
    (r = Ok tt -> rest = st_buffer s') /\ (r = Ok tt \/ r = Err BrokenPipe) /\
    (so_left (st_sock s) = None -> r = Ok tt /\ so_left (st_sock s') = None) /\
    (r = Ok tt -> forall os', os = os' ++ [OFlush] -> rest = []).
Proof.
  induction os as [|o os IH]; intros s ws empty R A Eb.
  - injection R as <-. exists s, (Ok tt), (st_buffer s). cbn [sop_run concat]. unfold out. rewrite app_nil_r.
    split; [reflexivity|]. split; [reflexivity|]. split; [reflexivity|]. split; [now left|]. split; [now split|].
    intros _ [|? ?]; discriminate.
  - assert (forall s1 ws1 e1, records (st_protection s1) os = Some ws1 -> alerts_after_flush e1 os ->
        (e1 = true -> st_buffer s1 = []) -> out s1 ++ concat ws1 = out s ++ concat ws ->
        sop_step s o = (s1, Ok tt) -> (so_left (st_sock s) = None -> so_left (st_sock s1) = None) ->
        (os = [] -> o = OFlush -> st_buffer s1 = []) ->
        exists s' r rest, sop_run s (o :: os) = (s', r) /\ so_sent (st_sock s') ++ rest = out s ++ concat ws /\
          (r = Ok tt -> rest = st_buffer s') /\ (r = Ok tt \/ r = Err BrokenPipe) /\
          (so_left (st_sock s) = None -> r = Ok tt /\ so_left (st_sock s') = None) /\
          (r = Ok tt -> forall os', o :: os = os' ++ [OFlush] -> rest = [])) as GO.
    { intros s1 ws1 e1 R1 A1 B1 Eo St L Fl. destruct (IH s1 ws1 e1 R1 A1 B1) as (s' & r & rest & E & H1 & H2 & H3 & H4 & H5).
      exists s', r, rest. cbn [sop_run]. rewrite St. cbn [sbind]. split; [exact E|]. split; [now rewrite H1|].
      split; [exact H2|]. split; [exact H3|]. split; [intros N; apply H4; auto|].
      intros Ok' [|x os'] Q; cbn [app] in Q; injection Q as Q1 Q2.
      - rewrite H2 by assumption. subst os. cbn [sop_run] in E. injection E as <- <-. now apply Fl.
      - now apply (H5 Ok' os'). }
    assert (forall s1 rest, sop_step s o = (s1, Err BrokenPipe) -> so_sent (st_sock s1) ++ rest = out s ++ concat ws ->
        so_left (st_sock s) <> None ->
        exists s' r rest, sop_run s (o :: os) = (s', r) /\ so_sent (st_sock s') ++ rest = out s ++ concat ws /\
          (r = Ok tt -> rest = st_buffer s') /\ (r = Ok tt \/ r = Err BrokenPipe) /\
          (so_left (st_sock s) = None -> r = Ok tt /\ so_left (st_sock s') = None) /\
          (r = Ok tt -> forall os', o :: os = os' ++ [OFlush] -> rest = [])) as BAD.
    { intros s1 rest St Ho Hn. exists s1, (Err BrokenPipe), rest. cbn [sop_run]. rewrite St. cbn [sbind].
      split; [reflexivity|]. split; [exact Ho|]. split; [discriminate|]. split; [now right|]. split; [now intros|discriminate]. }
    destruct o as [t data| |err]; cbn [records] in R; cbn [alerts_after_flush] in A.
    + destruct (one_record (st_protection s) t data) as [[p' w]|] eqn:O; [|discriminate].
      destruct (records p' os) as [ws'|] eqn:R'; [|discriminate]. injection R as <-.
      pose proof (protect_one _ _ _ _ _ O) as P. cbn [sop_step] in GO, BAD. unfold write_record in GO, BAD. rewrite P in GO, BAD.
      cbn [sbind st_sock st_protection st_buffer] in GO, BAD.
      set (s1 := Stream (st_sock s) p' (st_buffer s ++ w)) in *.
      assert (out s1 = out s ++ w) as Eo by (unfold out, s1; cbn [st_sock st_buffer]; now rewrite app_assoc).
      destruct (Nat.leb 2048 (length (st_buffer s ++ w))).
      * destruct (flush_cases s1) as [(so & F & So & L)|(so & rest & F & So & L)].
        -- apply (GO (Stream so (st_protection s1) []) ws' false); try assumption; try discriminate; try reflexivity.
           unfold out at 1. cbn [st_sock st_buffer]. rewrite So, app_nil_r.
           change (out s1 ++ concat ws' = out s ++ concat (w :: ws')). rewrite Eo. cbn [concat]. now rewrite app_assoc.
        -- change (so_sent so ++ rest = out s1) in So. rewrite Eo in So.
           destruct (prefix_more _ _ _ (concat ws') So) as (r' & Hr). apply (BAD _ r' F); [|exact L].
           cbn [st_sock concat]. rewrite Hr. now rewrite app_assoc.
      * apply (GO s1 ws' false); try assumption; try discriminate; try reflexivity.
        -- rewrite Eo. cbn [concat]. now rewrite app_assoc.
        -- auto.
    + cbn [sop_step] in GO, BAD. destruct (flush_cases s) as [(so & F & So & L)|(so & rest & F & So & L)].
      * apply (GO (Stream so (st_protection s) []) ws true); try assumption; try reflexivity.
        unfold out. cbn [st_sock st_buffer]. now rewrite So, app_nil_r.
      * destruct (prefix_more _ _ _ (concat ws) So) as (r' & Hr). now apply (BAD _ r' F).
    + destruct (one_record (st_protection s) RAlert [alert_level err; error_as_u8 err]) as [[p' w]|] eqn:O; [|discriminate].
      destruct (records p' os) as [ws'|] eqn:R'; [|discriminate]. injection R as <-. destruct A as [-> A].
      specialize (Eb eq_refl).
      pose proof (protect_one _ _ _ _ _ O) as P. cbn [sop_step] in GO, BAD. unfold write_alert in GO, BAD. rewrite P in GO, BAD.
      cbn [sbind st_sock st_protection st_buffer] in GO, BAD.
      destruct (write_all (st_sock s) w) as [so [|]] eqn:W.
      * apply (GO (Stream so p' (st_buffer s)) ws' true); try assumption; try reflexivity.
        -- intros _. exact Eb.
        -- unfold out. cbn [st_sock st_buffer concat]. rewrite (write_all_true _ _ _ W), Eb, !app_nil_r. now rewrite app_assoc.
        -- cbn [st_sock]. intros N. rewrite write_all_none in W by assumption. now injection W as <-.
        -- discriminate.
      * destruct (write_all_false _ _ _ W) as (rest & So & _). destruct (prefix_more _ _ _ (concat ws') So) as (r' & Hr).
        apply (BAD _ r' eq_refl).
        -- cbn [st_sock concat]. rewrite Hr. unfold out. rewrite Eb, app_nil_r. now rewrite app_assoc.
        -- intros N. rewrite write_all_none in W by assumption. discriminate.
Qed.

Lemma alert_overtakes s t data err p1 w p2 a : so_left (st_sock s) = None ->
  one_record (st_protection s) t data = Some (p1, w) ->
  one_record p1 RAlert [alert_level err; error_as_u8 err] = Some (p2, a) ->
  (length (st_buffer s) + length w < 2048)%nat ->
  exists s', sop_run s [OWrite t data; OAlert err; OFlush] = (s', Ok tt) /\
    so_sent (st_sock s') = so_sent (st_sock s) ++ a ++ st_buffer s ++ w.
Proof.
  intros N O1 O2 L. cbn [sop_run sop_step]. unfold write_record. rewrite (protect_one _ _ _ _ _ O1).
  cbn [sbind st_sock st_protection st_buffer].
  destruct (Nat.leb_spec 2048 (length (st_buffer s ++ w))) as [H|_]; [rewrite app_length in H; lia|].
  cbn [sbind]. unfold write_alert.
  rewrite (protect_one (Stream (st_sock s) p1 (st_buffer s ++ w)) _ _ _ _ O2). cbn [sbind st_sock st_protection st_buffer].
  rewrite write_all_none by assumption. cbn [sbind]. unfold flush. cbn [st_sock st_protection st_buffer].
  rewrite write_all_none by reflexivity. cbn [sbind so_sent].
  eexists. split; [reflexivity|]. cbn [st_sock so_sent]. now rewrite <- !app_assoc.
Qed.

(* ---- reading ---- *)
Lemma from_raw_prefix w k t body : w = encode_record t body -> zlen body < 2^16 -> is_byte t -> (k < length w)%nat ->
  record_from_raw (firstn k w) = Err DecodeError \/ record_from_raw (firstn k w) = Panic.
Proof.
  intros -> Hb Ht Hk. unfold encode_record in *.
  destruct (Nat.ltb_spec k 5) as [K|K].
  - left. apply from_raw_short. rewrite firstn_length. lia.
  - rewrite !app_length in Hk. cbn [length] in Hk. rewrite be_enc_length in Hk.
    replace (firstn k ([t; 3; 3] ++ be_enc 2 (Z.of_nat (length body)) ++ body))
      with (t :: 3 :: 3 :: u8 (Z.shiftr (zlen body) 8) :: u8 (zlen body) :: firstn (k - 5) body).
    2:{ replace k with (5 + (k - 5))%nat at 2 by lia.
        assert (be_enc 2 (Z.of_nat (length body)) = [u8 (Z.shiftr (zlen body) 8); u8 (zlen body)]) as ->; [|reflexivity].
        exact (eq_sym (f_equal (skipn 3) (hdr_eq (zlen body)))). }
    destruct (rt_new t) as [ty|e|] eqn:T.
    + rewrite (from_raw_eq _ _ _ _ _ _ ty T). cbv zeta. pose proof (zlen_nonneg body). rewrite len_bytes by lia.
      rewrite firstn_length. unfold zlen in *.
      destruct (Nat.ltb_spec (3 + Nat.min (k - 5) (length body)) (Z.to_nat (Z.of_nat (length body)))); [now left|].
      destruct (Nat.ltb_spec (Nat.min (k - 5) (length body)) (Z.to_nat (Z.of_nat (length body)))); [now right|]. lia.
    + left. assert (e = DecodeError) as -> by (unfold rt_new in T; repeat destruct (_ =? _); congruence).
      now apply from_raw_bad_type.
    + now apply rt_new_no_panic in T.
Qed.
Lemma read_prefix s cap w k t body : w = encode_record t body -> zlen body < 2^16 -> is_byte t -> (k < length w)%nat ->
  tls_read s cap (firstn k w) = (s, Err BrokenPipe) \/ tls_read s cap (firstn k w) = (s, Err DecodeError) \/
  tls_read s cap (firstn k w) = (s, Panic).
Proof.
  intros Ew Hb Ht Hk. unfold tls_read, tcp_read.
  destruct (from_raw_prefix w k t body Ew Hb Ht Hk) as [E|E];
  destruct (firstn k w) as [|x l] eqn:Q; cbn [sbind]; rewrite ?E; cbn [sbind]; auto.
Qed.
(* the rest of a read is dropped *)
Lemma read_drops s cap w rest n rec : record_from_raw w = Ok (n, rec) -> n = length w ->
  tls_read s cap (w ++ rest) = tls_read s cap w.
Proof.
  intros P Hn.
  assert (exists m, record_from_raw (w ++ rest) = Ok (m, rec)) as (m & P').
  { destruct w as [|t [|v1 [|v2 [|h [|l b]]]]]; try (rewrite from_raw_short in P by (cbn; lia); discriminate).
    cbn [app]. destruct (rt_new t) as [ty|e|] eqn:T.
    - rewrite (from_raw_eq _ _ _ _ _ _ ty T) in P. rewrite (from_raw_eq _ _ _ _ _ _ ty T). cbv zeta in *. set (len := Z.to_nat _) in *.
      destruct (Nat.ltb_spec (3 + length b) len); [discriminate|]. destruct (Nat.ltb_spec (length b) len); [discriminate|].
      rewrite app_length. destruct (Nat.ltb_spec (3 + (length b + length rest)) len); [lia|].
      destruct (Nat.ltb_spec (length b + length rest) len); [lia|].
      injection P as _ <-. eexists. do 3 f_equal. rewrite firstn_app. replace (len - length b)%nat with 0%nat by lia.
      now rewrite firstn_O, app_nil_r.
    - assert (e = DecodeError) as -> by (unfold rt_new in T; repeat destruct (_ =? _); congruence).
      rewrite from_raw_bad_type in P by assumption. discriminate.
    - now apply rt_new_no_panic in T. }
  unfold tls_read, tcp_read. destruct w as [|x w]; [rewrite from_raw_short in P by (cbn; lia); discriminate|].
  cbn [app sbind]. cbn [app] in P'. rewrite P, P'. reflexivity.
Qed.
Lemma from_raw_len buf n rec : record_from_raw buf = Ok (n, rec) -> r_len rec = length (r_fragment rec).
Proof.
  intros P. destruct buf as [|t [|v1 [|v2 [|h [|l b]]]]]; try (rewrite from_raw_short in P by (cbn; lia); discriminate).
  destruct (rt_new t) as [ty|e|] eqn:T.
  - rewrite (from_raw_eq _ _ _ _ _ _ ty T) in P. cbv zeta in *. set (len := Z.to_nat _) in *.
    destruct (Nat.ltb_spec (3 + length b) len); [discriminate|]. destruct (Nat.ltb_spec (length b) len); [discriminate|].
    injection P as _ <-. cbn [r_len r_fragment]. rewrite firstn_length. lia.
  - assert (e = DecodeError) as -> by (unfold rt_new in T; repeat destruct (_ =? _); congruence).
    rewrite from_raw_bad_type in P by assumption. discriminate.
  - now apply rt_new_no_panic in T.
Qed.
Lemma read_ok s p cap w p' d : st_protection s = Some p -> receive p w = Some (p', (RApplicationData, d)) ->
  (length d <= cap)%nat -> tls_read s cap w = (Stream (st_sock s) (Some p') (st_buffer s), Ok d).
Proof.
  intros Hp R L. unfold receive in R. destruct (record_from_raw w) as [[n rec]|e|] eqn:P; try discriminate.
  destruct (rpp_decrypt p rec) as [q [m|e|]] eqn:D; try discriminate. injection R as <- ->.
  unfold tls_read, tcp_read. destruct w as [|x w]; [rewrite from_raw_short in P by (cbn; lia); discriminate|].
  cbn [sbind]. rewrite P. cbn [sbind snd]. rewrite (from_raw_len _ _ _ P), Nat.eqb_refl. cbn [negb].
  rewrite Hp, D. cbn [sbind fst snd]. destruct (Nat.ltb_spec cap (length d)); [lia|reflexivity].
Qed.
Lemma write_ok s p src p' w : st_protection s = Some p -> so_left (st_sock s) = None ->
  rpp_encrypt p (record_new RApplicationData src) = (p', Ok w) ->
  tls_write s src = (Stream (Sock (so_sent (st_sock s) ++ w) None) (Some p') (st_buffer s), Ok tt).
Proof.
  intros Hp L E. unfold tls_write, protect. rewrite Hp, E. cbn [sbind st_sock st_protection st_buffer].
  now rewrite write_all_none by assumption.
Qed.

(* ---- whole histories, one segment per write ---- *)
Definition ae_ok (e : app_event) : Prop :=
  match e with AWrite _ d => is_bytes d /\ zlen d <= 4074 | ARead _ cap => 4074 <= Z.of_nat cap end.
Definition ch_of (a : pair_state) (p q : rpp) : chan :=
  {| ch_client := p; ch_server := q; ch_c2s := ap_c2s a; ch_s2c := ap_s2c a;
     ch_at_server := map (pair RApplicationData) (ap_at_server a); ch_at_client := map (pair RApplicationData) (ap_at_client a) |}.
Definition app_inv c (a : pair_state) (dc ds : list (list Z)) (p q : rpp) : Prop :=
  st_protection (ap_client a) = Some p /\ st_protection (ap_server a) = Some q /\
  so_left (st_sock (ap_client a)) = None /\ so_left (st_sock (ap_server a)) = None /\
  chan_inv c (ch_of a p q) (map (pair RApplicationData) dc) (map (pair RApplicationData) ds) /\
  Forall (fun d => zlen d <= 4074) dc /\ Forall (fun d => zlen d <= 4074) ds.

Lemma map_pair_inv (dc got : list (list Z)) m (rest : list rmsg) : map (pair RApplicationData) dc = (map (pair RApplicationData) got ++ [m]) ++ rest ->
  fst m = RApplicationData /\ In (snd m) dc.
Proof.
  intros H. assert (In m (map (pair RApplicationData) dc)) as I by (rewrite H; apply in_or_app; left; apply in_or_app; right; now left).
  apply in_map_iff in I. destruct I as (d & <- & I). now split.
Qed.
Lemma sealed_length c k inner w : sealed c k inner w -> length w = (length inner + 21)%nat.
Proof.
  intros (e & t & _ & Le & Lt & _ & _ & _ & ->). unfold encode_record. rewrite !app_length, be_enc_length, Le, Lt. cbn [length]. lia.
Qed.
Lemma half_head_short c ks kr w q dc got : half c ks kr (w :: q) (map (pair RApplicationData) dc) got ->
  Forall (fun d => zlen d <= 4074) dc -> (length w <= rx_size)%nat.
Proof.
  intros (_ & _ & _ & _ & pending & Es & Lp & F & _) Hd. inversion F as [|n w' ws m ms Hm S F' E1 E2 E3]. subst.
  rewrite (sealed_length _ _ _ _ S), app_length. cbn [length].
  assert (In m (map (pair RApplicationData) dc)) as I by (rewrite Es; apply in_or_app; right; now left).
  apply in_map_iff in I. destruct I as (d & <- & I). cbn [snd]. rewrite Forall_forall in Hd. specialize (Hd d I). unfold zlen, rx_size in *. lia.
Qed.
Lemma left_over_short w q : (length w <= rx_size)%nat -> left_over w q = q.
Proof. intros H. unfold left_over. now rewrite skipn_all2. Qed.

Lemma app_step_inv c a dc ds p q e n : app_inv c a dc ds p q -> ae_ok e -> budget (ch_of a p q) (S n) ->
  exists a' p' q', app_step a e = Some a' /\ app_inv c a' (dc ++ written_by true [e]) (ds ++ written_by false [e]) p' q' /\
    budget (ch_of a' p' q') n.
Proof.
  intros (P1 & P2 & L1 & L2 & I & F1 & F2) He B.
  destruct e as [[|] d|[|] cap]; cbn [ae_ok] in He.
  - destruct (step_inv c (ch_of a p q) _ _ (Send true RApplicationData d) n I) as (ch' & E & I' & B').
    { cbn [ev_ok]. destruct He. unfold msg_ok. cbn [fst snd]. repeat split; [discriminate|assumption|lia]. }
    { assumption. }
    cbn [chan_step ch_of ch_client] in E. destruct (rpp_encrypt p (record_new RApplicationData d)) as [p' [w|e|]] eqn:R; try discriminate.
    injection E as <-. cbn [app_step]. rewrite (write_ok _ _ _ _ _ P1 L1 R). eexists. exists p', q. split; [reflexivity|].
    unfold new_bytes. cbn [st_sock so_sent]. rewrite skipn_app_l.
    cbn [sent_by written_by Bool.eqb] in I' |- *. rewrite app_nil_r in I' |- *.
    split; [|exact B']. unfold app_inv. cbn [ap_client ap_server st_protection st_sock so_left].
    split; [reflexivity|]. split; [assumption|]. split; [reflexivity|]. split; [assumption|].
    split; [rewrite map_app; exact I'|]. split; [apply Forall_app; split; [assumption|constructor; [apply He|constructor]]|assumption].
  - destruct (step_inv c (ch_of a p q) _ _ (Send false RApplicationData d) n I) as (ch' & E & I' & B').
    { cbn [ev_ok]. destruct He. unfold msg_ok. cbn [fst snd]. repeat split; [discriminate|assumption|lia]. }
    { assumption. }
    cbn [chan_step ch_of ch_server] in E. destruct (rpp_encrypt q (record_new RApplicationData d)) as [q' [w|e|]] eqn:R; try discriminate.
    injection E as <-. cbn [app_step]. rewrite (write_ok _ _ _ _ _ P2 L2 R). eexists. exists p, q'. split; [reflexivity|].
    unfold new_bytes. cbn [st_sock so_sent]. rewrite skipn_app_l.
    cbn [sent_by written_by Bool.eqb] in I' |- *. rewrite app_nil_r in I' |- *.
    split; [|exact B']. unfold app_inv. cbn [ap_client ap_server st_protection st_sock so_left].
    split; [assumption|]. split; [reflexivity|]. split; [assumption|]. split; [reflexivity|].
    split; [rewrite map_app; exact I'|]. split; [assumption|apply Forall_app; split; [assumption|constructor; [apply He|constructor]]].
  - destruct (step_inv c (ch_of a p q) _ _ (Deliver true) n I ltac:(exact Logic.I) B) as (ch' & E & I' & B').
    cbn [chan_step ch_of ch_c2s ch_server] in E. cbn [app_step]. cbn [sent_by written_by] in I' |- *. rewrite !app_nil_r in I'. rewrite !app_nil_r.
    destruct (ap_c2s a) as [|w qu] eqn:Q.
    + injection E as <-. exists a, p, q. split; [reflexivity|]. split.
      * unfold app_inv. do 4 (split; [assumption|]). split; [exact I|]. split; assumption.
      * unfold budget in *. lia.
    + destruct (receive q w) as [[q' m]|] eqn:R; [|discriminate]. injection E as <-.
      destruct I as (_ & _ & _ & _ & _ & H1 & _). cbn [ch_of ch_c2s ch_client ch_server ch_at_server] in H1. rewrite Q in H1.
      pose proof (half_head_short _ _ _ _ _ _ _ H1 F1) as Lw.
      pose proof I' as (_ & _ & _ & _ & _ & (_ & _ & _ & _ & pe & Es & _) & _). cbn [ch_at_server] in Es.
      destruct (map_pair_inv _ _ _ _ Es) as [T In']. destruct m as [t d]. cbn [fst snd] in T, In'. subst t.
      rewrite Forall_forall in F1. pose proof (F1 _ In') as Ld. rewrite <- Forall_forall in F1.
      rewrite firstn_all2 by lia. rewrite (read_ok _ _ cap _ _ _ P2 R ltac:(unfold zlen in *; lia)).
      eexists. exists p, q'. split; [reflexivity|]. rewrite left_over_short by assumption.
      split; [|exact B']. unfold app_inv. cbn [ap_client ap_server st_protection st_sock so_left].
      split; [assumption|]. split; [reflexivity|]. split; [assumption|]. split; [assumption|].
      split; [|tauto]. unfold ch_of. cbn [ap_c2s ap_s2c ap_at_server ap_at_client]. rewrite map_app. exact I'.
  - destruct (step_inv c (ch_of a p q) _ _ (Deliver false) n I ltac:(exact Logic.I) B) as (ch' & E & I' & B').
    cbn [chan_step ch_of ch_s2c ch_client] in E. cbn [app_step]. cbn [sent_by written_by] in I' |- *. rewrite !app_nil_r in I'. rewrite !app_nil_r.
    destruct (ap_s2c a) as [|w qu] eqn:Q.
    + injection E as <-. exists a, p, q. split; [reflexivity|]. split.
      * unfold app_inv. do 4 (split; [assumption|]). split; [exact I|]. split; assumption.
      * unfold budget in *. lia.
    + destruct (receive p w) as [[p' m]|] eqn:R; [|discriminate]. injection E as <-.
      destruct I as (_ & _ & _ & _ & _ & _ & H1). cbn [ch_of ch_s2c ch_client ch_server ch_at_client] in H1. rewrite Q in H1.
      pose proof (half_head_short _ _ _ _ _ _ _ H1 F2) as Lw.
      pose proof I' as (_ & _ & _ & _ & _ & _ & (_ & _ & _ & _ & pe & Es & _)). cbn [ch_at_client] in Es.
      destruct (map_pair_inv _ _ _ _ Es) as [T In']. destruct m as [t d]. cbn [fst snd] in T, In'. subst t.
      rewrite Forall_forall in F2. pose proof (F2 _ In') as Ld. rewrite <- Forall_forall in F2.
      rewrite firstn_all2 by lia. rewrite (read_ok _ _ cap _ _ _ P1 R ltac:(unfold zlen in *; lia)).
      eexists. exists p', q. split; [reflexivity|]. rewrite left_over_short by assumption.
      split; [|exact B']. unfold app_inv. cbn [ap_client ap_server st_protection st_sock so_left].
      split; [reflexivity|]. split; [assumption|]. split; [assumption|]. split; [assumption|].
      split; [|tauto]. unfold ch_of. cbn [ap_c2s ap_s2c ap_at_server ap_at_client]. rewrite map_app. exact I'.
Qed.
Lemma written_by_cons b e es : written_by b (e :: es) = written_by b [e] ++ written_by b es.
Proof. destruct e as [c d|]; [|reflexivity]. cbn [written_by]. destruct (Bool.eqb c b); reflexivity. Qed.
Lemma app_run_inv c es : forall a dc ds p q, app_inv c a dc ds p q -> Forall ae_ok es -> budget (ch_of a p q) (length es) ->
  exists a' p' q', app_run a es = Some a' /\ app_inv c a' (dc ++ written_by true es) (ds ++ written_by false es) p' q'.
Proof.
  induction es as [|e es IH]; intros a dc ds p q I F B.
  - exists a, p, q. cbn [app_run written_by]. rewrite !app_nil_r. now split.
  - inversion F; subst. destruct (app_step_inv c a dc ds p q e (length es)) as (a' & p' & q' & E & I' & B'); try assumption.
    destruct (IH a' _ _ p' q' I' H2 B') as (a'' & p'' & q'' & E' & I''). exists a'', p'', q''. cbn [app_run]. rewrite E.
    split; [assumption|]. rewrite (written_by_cons true), (written_by_cons false), !app_assoc. exact I''.
Qed.
Lemma map_pair_app (dc got : list (list Z)) (pe : list rmsg) : map (pair RApplicationData) dc = map (pair RApplicationData) got ++ pe ->
  exists rest, dc = got ++ rest /\ length rest = length pe.
Proof.
  revert dc. induction got as [|g got IH]; intros dc H.
  - exists dc. split; [reflexivity|]. cbn [map app] in H. rewrite <- H. now rewrite map_length.
  - destruct dc as [|d dc]; [discriminate|]. cbn [map app] in H. injection H as -> H.
    destruct (IH dc H) as (rest & -> & L). now exists rest.
Qed.
Lemma app_history cs ss client server es :
  st_protection cs = Some client -> st_protection ss = Some server -> so_left (st_sock cs) = None -> so_left (st_sock ss) = None ->
  paired client server -> Forall ae_ok es ->
  (forall b, k_seq (side_key b (cur_keys client)) + zlen es < 2^64) ->
  exists a waiting_c waiting_s, app_run (App cs ss [] [] [] []) es = Some a /\
    written_by true es = ap_at_server a ++ waiting_c /\ length waiting_c = length (ap_c2s a) /\
    written_by false es = ap_at_client a ++ waiting_s /\ length waiting_s = length (ap_s2c a).
Proof.
  intros Pc Ps Lc Ls (P1 & P2 & P3 & P4 & P5 & P6) He Hb.
  destruct (app_run_inv (rp_cipher client) es (App cs ss [] [] [] []) [] [] client server) as (a & p' & q' & E & I).
  - unfold app_inv. cbn [ap_client ap_server]. do 4 (split; [assumption|]). split; [|split; constructor].
    unfold chan_inv, ch_of. cbn [ch_client ch_server ch_c2s ch_s2c ch_at_client ch_at_server ap_c2s ap_s2c ap_at_server ap_at_client map].
    split; [exact P5|]. split; [reflexivity|]. split; [now symmetry|]. split; [assumption|]. split; [assumption|].
    rewrite <- P4. destruct (P6 true) as (K1 & K2 & K3 & K4 & K5). destruct (P6 false) as (Q1 & Q2 & Q3 & Q4 & Q5).
    split; (split; [split; [assumption|split; [assumption|split; assumption]]|]);
      (split; [reflexivity|]); (split; [reflexivity|]); (split; [assumption|]);
      exists []; (split; [reflexivity|]); (split; [reflexivity|]); (split; [constructor|]); unfold zlen; cbn; lia.
  - assumption.
  - unfold budget, ch_of. cbn [ch_client ch_server]. rewrite <- P4.
    pose proof (Hb true). pose proof (Hb false). unfold zlen in *. cbn [side_key] in *. lia.
  - destruct I as (_ & _ & _ & _ & (_ & _ & _ & _ & _ & (_ & _ & _ & _ & p1 & E1 & L1 & _) & (_ & _ & _ & _ & p2 & E2 & L2 & _)) & _).
    cbn [app] in E1, E2. cbn [ch_of ch_at_server ch_at_client ch_c2s ch_s2c] in *.
    destruct (map_pair_app _ _ _ E1) as (r1 & -> & M1). destruct (map_pair_app _ _ _ E2) as (r2 & -> & M2).
    exists a, r1, r2. repeat split; try assumption; congruence.
Qed.

(* ---- one write, any size ---- *)
Local Opaque cipher_encrypt.
Lemma encrypt_any r t content : let k := side_key (rp_is_client r) (cur_keys r) in
  key_ready (rp_cipher r) k -> good_cipher (rp_cipher r) -> is_bytes content -> zlen content + 17 < 2^20 ->
  exists e tg, rpp_encrypt r (record_new t content)
    = (set_keys r (set_side (rp_is_client r) (cur_keys r) (next_key k)), Ok (rec_header (zlen content + 17) ++ e ++ tg)) /\
    length e = (length content + 1)%nat /\ length tg = 16%nat.
Proof.
  intros k Hk Hc Hb Hl.
  assert (is_bytes (content ++ [rt_code t])) as Bi by (apply is_bytes_app; split; [assumption|repeat constructor; apply rt_code_byte]).
  destruct Hk as [(B1 & L1 & B2 & L2) [H0 H1]]. destruct (record_nonce_ok (k_iv k) (k_seq k) B2) as [NB NL].
  assert (zlen (content ++ [rt_code t]) = zlen content + 1) as Lz by (rewrite zlen_app; reflexivity).
  destruct (cipher_round_trip (rp_cipher r) (k_key k) (record_nonce (k_iv k) (k_seq k)) (content ++ [rt_code t]) (rec_header (zlen content + 17))
              Hc B1 L1 NB ltac:(lia) Bi (rec_header_bytes _) ltac:(lia)) as (e & tg & E & Le & Lt & _).
  { unfold zlen. rewrite rec_header_length. lia. }
  exists e, tg. split.
  - Local Transparent rpp_encrypt. unfold rpp_encrypt. Local Opaque rpp_encrypt.
    cbv zeta. fold k. rewrite per_record_nonce_spec by assumption. f_equal.
    cbn [record_new r_fragment r_type]. rewrite hdr_eq. cbn [next_key k_key].
    replace (zlen (content ++ [rt_code t]) + 16) with (zlen content + 17) by lia. rewrite E, bind_Ok.
    reflexivity.
  - rewrite Le, app_length. cbn [length]. lia.
Qed.
Lemma wrapped n body : 2^16 <= n -> n < 2^20 -> Z.of_nat (length body) = n ->
  exists m rec, record_from_raw (rec_header n ++ body) = Ok (m, rec) /\ (m + Z.to_nat 65536 <= length (rec_header n ++ body))%nat.
Proof.
  intros H0 H1 L. rewrite <- hdr_eq. cbn [app].
  rewrite (from_raw_eq _ _ _ _ _ _ RApplicationData) by reflexivity. cbv zeta.
  rewrite two_bytes by apply u8_range. rewrite Z.shiftr_div_pow2 by lia. unfold u8. change (2^8) with 256 in *.
  set (len := n / 256 mod 256 * 256 + n mod 256).
  assert (len = n mod 2^16) as El.
  { unfold len. change (2^16) with (256 * 256). rewrite Z.rem_mul_r by lia. lia. }
  assert (0 <= len < 2^16) by (rewrite El; apply Z.mod_pos_bound; lia).
  assert (len <= n - 2^16) as Hs. { rewrite El. replace (n mod 2^16) with ((n - 2^16) mod 2^16); [apply Z.mod_le; lia|].
    rewrite <- (Z_mod_plus_full (n - 2^16) 1 (2^16)). f_equal. lia. }
  destruct (Nat.ltb_spec (3 + length body) (Z.to_nat len)); [lia|]. destruct (Nat.ltb_spec (length body) (Z.to_nat len)); [lia|].
  eexists. eexists. split; [reflexivity|]. cbn [length]. lia.
Qed.
Lemma hop p r t content rest : let k := side_key (rp_is_client p) (cur_keys p) in
  rp_cipher p = rp_cipher r -> rp_is_client r = negb (rp_is_client p) -> side_key (rp_is_client p) (cur_keys r) = k ->
  good_cipher (rp_cipher p) -> key_ready (rp_cipher p) k -> t <> RInvalid -> is_bytes content -> zlen content + 17 < 2^16 ->
  exists w rec r', rpp_encrypt p (record_new t content) = (set_keys p (set_side (rp_is_client p) (cur_keys p) (next_key k)), Ok w) /\
    sealed (rp_cipher p) k (content ++ [rt_code t]) w /\
    record_from_raw (w ++ rest) = Ok (length w, rec) /\ r_type rec = RApplicationData /\
    rpp_decrypt r rec = (r', Ok (t, content)).
Proof.
  intros k Ec Er Ek Hc Hk Ht Hb Hl. destruct (encrypt_sealed p t content Hk Hc Hb Hl) as (w & E & S). fold k in E, S.
  assert (zlen (content ++ [rt_code t]) = zlen content + 1) as Lz by (rewrite zlen_app; reflexivity).
  destruct (sealed_parse _ _ _ _ rest S ltac:(lia)) as (rec & P & T & Hh & e & tg & Hf & Lt & D). rewrite <- Hh in D.
  destruct Hk as [(B1 & L1 & B2 & L2) [H0 H1]].
  pose proof (decrypt_sealed r rec (content ++ [rt_code t]) e tg) as DS. cbv zeta in DS. rewrite Er, Bool.negb_involutive, Ek, <- Ec in DS.
  specialize (DS L2 H0 H1 Hf Lt D). exists w, rec. eexists. split; [exact E|]. split; [exact S|]. split; [exact P|]. split; [exact T|].
  rewrite DS. pose proof (strip_spec content t 0 Ht) as ST. cbn [repeat app] in ST. now rewrite ST.
Qed.
Lemma paired_facts p r : paired p r \/ paired r p -> (forall side, k_seq (side_key side (cur_keys p)) + 1 < 2^64) ->
  rp_cipher p = rp_cipher r /\ rp_is_client r = negb (rp_is_client p) /\
  side_key (rp_is_client p) (cur_keys r) = side_key (rp_is_client p) (cur_keys p) /\ good_cipher (rp_cipher p) /\
  key_ready (rp_cipher p) (side_key (rp_is_client p) (cur_keys p)).
Proof.
  intros [(P1 & P2 & P3 & P4 & P5 & P6)|(P1 & P2 & P3 & P4 & P5 & P6)] B.
  - destruct (P6 true) as (K1 & K2 & K3 & K4 & K5). specialize (B true). rewrite P1, P2, P3, <- P4. rewrite P3 in *.
    repeat split; assumption.
  - destruct (P6 false) as (K1 & K2 & K3 & K4 & K5). specialize (B false). rewrite P1, P2, <- P3, P4. rewrite P4 in *.
    repeat split; assumption.
Qed.
Lemma one_record_ok s p peer src rest :
  st_protection s = Some p -> so_left (st_sock s) = None ->
  paired p peer \/ paired peer p -> (forall side, k_seq (side_key side (cur_keys p)) + 1 < 2^64) ->
  is_bytes src -> zlen src <= 65518 ->
  exists s' w rec peer', tls_write s src = (s', Ok tt) /\ so_sent (st_sock s') = so_sent (st_sock s) ++ w /\
    record_from_raw (w ++ rest) = Ok (length w, rec) /\ r_type rec = RApplicationData /\
    rpp_decrypt peer rec = (peer', Ok (RApplicationData, src)).
Proof.
  intros Hp L Pa B Hb Hl. destruct (paired_facts _ _ Pa B) as (F1 & F2 & F3 & F4 & F5).
  destruct (hop p peer RApplicationData src rest F1 F2 F3 F4 F5 ltac:(discriminate) Hb ltac:(lia)) as (w & rec & r' & E & S & P & T & D).
  rewrite (write_ok _ _ _ _ _ Hp L E). eexists. exists w, rec, r'. split; [reflexivity|]. now repeat split.
Qed.
Lemma joined cs ss client server cap a b :
  st_protection cs = Some client -> st_protection ss = Some server ->
  so_left (st_sock cs) = None ->
  paired client server -> (forall side, k_seq (side_key side (cur_keys client)) + 2 < 2^64) ->
  is_bytes a -> zlen a + 17 < 2^16 -> (length a <= cap)%nat -> is_bytes b -> zlen b + 17 < 2^16 ->
  exists cs1 cs2 ss1 wa wb, tls_write cs a = (cs1, Ok tt) /\ tls_write cs1 b = (cs2, Ok tt) /\
    so_sent (st_sock cs2) = so_sent (st_sock cs) ++ wa ++ wb /\ wb <> [] /\
    tls_read ss cap wa = (ss1, Ok a) /\
    tls_read ss cap (wa ++ wb) = (ss1, Ok a).
Proof.
  intros Pc Ps L Pa B Ha La Lc Hb Lb.
  destruct (paired_facts client server (or_introl Pa)) as (F1 & F2 & F3 & F4 & F5); [intros side; specialize (B side); lia|].
  destruct (hop client server RApplicationData a [] F1 F2 F3 F4 F5 ltac:(discriminate) Ha La) as (w & rec & r' & E & S & P & T & D).
  rewrite app_nil_r in P. set (k := side_key (rp_is_client client) (cur_keys client)) in *.
  set (c1 := set_keys client (set_side (rp_is_client client) (cur_keys client) (next_key k))) in *.
  assert (rp_cipher c1 = rp_cipher client) as C1 by apply set_keys_cipher.
  assert (side_key (rp_is_client c1) (cur_keys c1) = next_key k) as K1.
  { unfold c1. rewrite set_keys_side, cur_set_keys. apply side_set_same. }
  destruct (encrypt_sealed c1 RApplicationData b) as (wb & Eb & Sb).
  { rewrite C1, K1. destruct F5 as (G & Hs). split; [exact G|]. specialize (B (rp_is_client client)). fold k in B.
    cbn [next_key k_seq]. lia. }
  { now rewrite C1. } { assumption. } { assumption. }
  pose proof (write_ok _ _ _ _ _ Pc L E) as W1.
  set (cs1 := Stream (Sock (so_sent (st_sock cs) ++ w) None) (Some c1) (st_buffer cs)) in W1.
  pose proof (write_ok cs1 c1 b _ _ eq_refl eq_refl Eb) as W2.
  assert (receive server w = Some (r', (RApplicationData, a))) as R by (unfold receive; now rewrite P, D).
  pose proof (read_ok ss server cap w r' a Ps R Lc) as Rd.
  exists cs1. eexists. eexists. exists w, wb. split; [exact W1|]. split; [exact W2|].
  split; [cbn [st_sock so_sent]; now rewrite app_assoc|].
  split. { apply sealed_length in Sb. intros ->. cbn [length] in Sb. lia. }
  split; [exact Rd|]. rewrite <- Rd. apply read_drops with (length w) rec; [assumption|reflexivity].
Qed.
Lemma split_record cs ss client cap a k :
  st_protection cs = Some client -> so_left (st_sock cs) = None ->
  good_cipher (rp_cipher client) -> key_ready (rp_cipher client) (side_key (rp_is_client client) (cur_keys client)) ->
  is_bytes a -> zlen a + 17 < 2^16 ->
  exists cs1 wa, tls_write cs a = (cs1, Ok tt) /\ so_sent (st_sock cs1) = so_sent (st_sock cs) ++ wa /\
    ((k < length wa)%nat -> exists r, tls_read ss cap (firstn k wa) = (ss, r) /\
      (r = Err BrokenPipe \/ r = Err DecodeError \/ r = Panic)).
Proof.
  intros Pc L Hc Hk Ha La. destruct (encrypt_sealed client RApplicationData a Hk Hc Ha La) as (w & E & S).
  exists (Stream (Sock (so_sent (st_sock cs) ++ w) None) (Some (set_keys client (set_side (rp_is_client client) (cur_keys client)
    (next_key (side_key (rp_is_client client) (cur_keys client)))))) (st_buffer cs)), w.
  split; [eapply write_ok; eassumption|]. split; [reflexivity|]. intros Lk.
  destruct S as (e & t & _ & Le & Lt & _ & _ & _ & Ew).
  assert (zlen (e ++ t) < 2^16) as Lb by (unfold zlen in *; rewrite app_length, Le, Lt, app_length; cbn [length]; lia).
  destruct (read_prefix ss cap w k 23 (e ++ t) Ew Lb ltac:(unfold is_byte; lia) Lk) as [X|[X|X]]; rewrite X; eexists; (split; [reflexivity|]); auto.
Qed.
Lemma unreadable s p src reader cap k :
  st_protection s = Some p -> so_left (st_sock s) = None ->
  good_cipher (rp_cipher p) -> key_ready (rp_cipher p) (side_key (rp_is_client p) (cur_keys p)) ->
  is_bytes src -> 4075 <= zlen src <= 65518 -> Z.of_nat k <= 4096 ->
  exists s' w r, tls_write s src = (s', Ok tt) /\ so_sent (st_sock s') = so_sent (st_sock s) ++ w /\
    tls_read reader cap (firstn k w) = (reader, r) /\ (r = Err BrokenPipe \/ r = Err DecodeError \/ r = Panic).
Proof.
  intros Pc L Hc Hk Ha La Lk. destruct (encrypt_sealed p RApplicationData src Hk Hc Ha ltac:(lia)) as (w & E & S).
  exists (Stream (Sock (so_sent (st_sock s) ++ w) None) (Some (set_keys p (set_side (rp_is_client p) (cur_keys p)
    (next_key (side_key (rp_is_client p) (cur_keys p)))))) (st_buffer s)), w.
  pose proof (sealed_length _ _ _ _ S) as Lw. rewrite app_length in Lw. cbn [length] in Lw.
  destruct S as (e & t & _ & Le & Lt & _ & _ & _ & Ew).
  assert (zlen (e ++ t) < 2^16) as Lb by (unfold zlen in *; rewrite app_length, Le, Lt, app_length; cbn [length]; lia).
  assert (k < length w)%nat as Lkw by (unfold zlen in *; lia).
  destruct (read_prefix reader cap w k 23 (e ++ t) Ew Lb ltac:(unfold is_byte; lia) Lkw) as [X|[X|X]]; rewrite X; eexists;
    (split; [eapply write_ok; eassumption|]); (split; [reflexivity|]); (split; [reflexivity|]); auto.
Qed.
Lemma wraps s p src :
  st_protection s = Some p -> so_left (st_sock s) = None ->
  good_cipher (rp_cipher p) -> key_ready (rp_cipher p) (side_key (rp_is_client p) (cur_keys p)) ->
  is_bytes src -> 65519 <= zlen src -> zlen src < 2^20 - 17 ->
  exists s' w n rec, tls_write s src = (s', Ok tt) /\ so_sent (st_sock s') = so_sent (st_sock s) ++ w /\
    record_from_raw w = Ok (n, rec) /\ Z.of_nat n + 65536 <= zlen w.
Proof.
  intros Pc L Hc Hk Ha La Lb. destruct (encrypt_any p RApplicationData src Hk Hc Ha ltac:(lia)) as (e & t & E & Le & Lt).
  destruct (wrapped (zlen src + 17) (e ++ t)) as (m & rec & P & Hm); [lia|lia|rewrite app_length, Le, Lt; unfold zlen; lia|].
  rewrite (write_ok _ _ _ _ _ Pc L E). eexists. exists (rec_header (zlen src + 17) ++ e ++ t), m, rec.
  split; [reflexivity|]. split; [reflexivity|]. split; [exact P|]. unfold zlen at 1. clear - Hm. lia.
Qed.
Lemma write_all_took so buf : exists took, 
  so_sent (fst (write_all so buf)) = so_sent so ++ firstn took buf /\ (snd (write_all so buf) = true -> firstn took buf = buf).
Proof.
  unfold write_all. destruct (so_left so) as [k|]; [destruct (Nat.leb _ _)|]; cbn [fst snd so_sent].
  - exists (length buf). rewrite firstn_all. now split.
  - exists k. split; [reflexivity|discriminate].
  - exists (length buf). rewrite firstn_all. now split.
Qed.
Lemma one_ciphertext s p src : let k := side_key (rp_is_client p) (cur_keys p) in
  st_protection s = Some p -> good_cipher (rp_cipher p) -> key_ready (rp_cipher p) k ->
  is_bytes src -> zlen src + 17 < 2^16 ->
  (rp_cipher p = CPoly -> ((length src + 1) mod 64 <> 0)%nat) ->
  let wire := TLSCiphertext (c_aead (rp_cipher p)) (k_key k) (k_iv k) (k_seq k) 23 src 0 in
  exists s' r took, tls_write s src = (s', r) /\
    so_sent (st_sock s') = so_sent (st_sock s) ++ firstn took wire /\ st_buffer s' = st_buffer s /\
    (r = Ok tt /\ firstn took wire = wire \/ r = Err BrokenPipe) /\
    exists p', st_protection s' = Some p' /\ side_key (rp_is_client p) (cur_keys p') = next_key k.
Proof.
  intros k Hp Hc Hk Hb Hl H64 wire.
  destruct (wire_is_rfc p RApplicationData src Hc Hk Hb Hl H64) as (p' & E & K). fold k in E, K. cbn [rt_code] in E. fold wire in E.
  unfold tls_write, protect. rewrite Hp, E. cbn [sbind st_sock st_protection st_buffer].
  destruct (write_all_took (st_sock s) wire) as (took & T1 & T2).
  destruct (write_all (st_sock s) wire) as [so [|]] eqn:W; cbn [fst snd] in T1, T2.
  - eexists. exists (Ok tt), took. split; [reflexivity|]. cbn [st_sock st_buffer st_protection]. split; [exact T1|].
    split; [reflexivity|]. split; [left; split; [reflexivity|now apply T2]|]. now exists p'.
  - eexists. exists (Err BrokenPipe), took. split; [reflexivity|]. cbn [st_sock st_buffer st_protection]. split; [exact T1|].
    split; [reflexivity|]. split; [now right|]. now exists p'.
Qed.
Lemma clear s p prefix block :
  st_protection s = Some p -> so_left (st_sock s) = None -> rp_cipher p = CPoly ->
  key_ready (rp_cipher p) (side_key (rp_is_client p) (cur_keys p)) ->
  is_bytes (prefix ++ block) -> (length prefix mod 64 = 0)%nat -> length block = 63%nat -> zlen (prefix ++ block) + 17 < 2^16 ->
  exists s' before after, tls_write s (prefix ++ block) = (s', Ok tt) /\
    so_sent (st_sock s') = so_sent (st_sock s) ++ before ++ block ++ after.
Proof.
  intros Hp L Hc Hk Hb H1 H2 H3.
  destruct (clear_text p prefix block RApplicationData Hc Hk Hb H1 H2 H3) as (r' & b & a & E).
  rewrite (write_ok _ _ _ _ _ Hp L E). eexists. exists b, a. split; reflexivity.
Qed.

(* ---- writing directly to TCP ---- *)
Lemma direct_write s took buf s' r : tcp_write s took buf = (s', r) ->
  st_protection s' = st_protection s /\ st_buffer s' = st_buffer s /\
  match r with
  | Ok n => (n <= length buf)%nat /\ so_sent (st_sock s') = so_sent (st_sock s) ++ firstn n buf
  | Err e => e = BrokenPipe /\ exists n, (n < length buf)%nat /\ so_sent (st_sock s') = so_sent (st_sock s) ++ firstn n buf
  | Panic => False
  end.
Proof.
  assert (M : firstn (Nat.min took (length buf)) buf = firstn took buf).
  { destruct (Nat.le_gt_cases took (length buf)); [now rewrite Nat.min_l|]. rewrite Nat.min_r, firstn_all, firstn_all2 by lia. reflexivity. }
  unfold tcp_write, write_all. destruct (so_left (st_sock s)) as [k|].
  - destruct (Nat.leb_spec (length (firstn took buf)) k) as [L|L]; intros H; injection H as <- <-; cbn [st_protection st_buffer st_sock so_sent].
    + split; [reflexivity|]. split; [reflexivity|]. split; [lia|]. now rewrite M.
    + split; [reflexivity|]. split; [reflexivity|]. split; [reflexivity|]. exists k. rewrite firstn_length in L. split; [lia|].
      rewrite firstn_firstn, Nat.min_l by lia. reflexivity.
  - intros H; injection H as <- <-; cbn [st_protection st_buffer st_sock so_sent]. split; [reflexivity|]. split; [reflexivity|]. split; [lia|]. now rewrite M.
Qed.
