(* What an endpoint sends when a handshake fails *)
From Verif Require Import Proofs.Util Proofs.Bytes Model.Alert Model.Bytes Model.Suite Model.Sha2 Model.Hmac Model.KeySchedule Model.Record Model.Channel
  Model.Curve Model.Signature Model.Ecdsa Model.X509 Model.Extensions Model.Hello Model.Kex Model.Handshake Model.Certificate
  Model.Stream Model.AppChannel Model.Keylog Model.Server
  Spec.Alerts Spec.Rfc2104 Spec.Fips180 Spec.Rfc8446Keys Spec.Tls13Record Spec.Endpoints Spec.Writes Spec.Rfc8446Auth Spec.Connection.
From Verif Require Spec.Rfc8446Hello Spec.Ecdsa.
From Verif Require Import Proofs.KeySchedule Proofs.Record Proofs.Channel Proofs.Stream Proofs.ServerRun Proofs.ServerKeys Proofs.Opened Proofs.ServerSteps
  Proofs.ServerFlow Proofs.ServerAccept Proofs.ServerAccept2 Proofs.Reads.
From Verif Require Proofs.Hmac Proofs.Auth Proofs.HelloTotal.

(* the sending key is usable and has not been used more than n times *)
Definition speaks (side : bool) (n : Z) (p : rpp) : Prop :=
  rp_is_client p = side /\ good_cipher (rp_cipher p) /\ good_key (cipher_get_suite (rp_cipher p)) (side_key side (cur_keys p)) /\
  0 <= k_seq (side_key side (cur_keys p)) <= n.
Definition talk (side : bool) (n : Z) (s : stream) : Prop := match st_protection s with None => True | Some p => speaks side n p end.
Lemma speaks_mono side n m p : speaks side n p -> n <= m -> speaks side m p.
Proof. unfold speaks. intuition lia. Qed.
Lemma talk_mono side n m s : talk side n s -> n <= m -> talk side m s.
Proof. unfold talk. destruct (st_protection s); eauto using speaks_mono. Qed.

Lemma speaks_encrypt side n p rec p' o : speaks side n p -> n + 1 < 2^64 -> rpp_encrypt p rec = (p', o) -> speaks side (n + 1) p'.
Proof.
  intros (Si & Gc & Gk & Rs) Hn E. Local Transparent rpp_encrypt. unfold rpp_encrypt in E. Local Opaque rpp_encrypt.
  destruct Gk as (Bk & Lk & Bi & Li). rewrite Si in E. rewrite per_record_nonce_spec in E by (try assumption; lia). injection E as <- _.
  unfold speaks. rewrite set_keys_side, set_keys_cipher, cur_set_keys, side_set_same. split; [exact Si|]. split; [exact Gc|].
  split; [unfold good_key; cbn [next_key k_key k_iv]; auto|]. cbn [next_key k_seq]. lia.
Qed.
Lemma decrypt_shape p rec p' o : rpp_decrypt p rec = (p', o) -> p' = p \/ exists k', p' = set_keys p (set_side (negb (rp_is_client p)) (cur_keys p) k').
Proof.
  Local Transparent rpp_decrypt. unfold rpp_decrypt. Local Opaque rpp_decrypt. destruct (Nat.ltb _ _); [intros H; injection H as <- _; auto|].
  destruct (per_record_nonce _) as [[n k']|e|]; intros H; injection H as <- _; eauto.
Qed.
Lemma speaks_decrypt side n p rec p' o : speaks side n p -> rpp_decrypt p rec = (p', o) -> speaks side n p'.
Proof.
  intros (Si & Gc & Gk & Rs) E. apply decrypt_shape in E. destruct E as [->|(k' & ->)]; [unfold speaks; auto|].
  unfold speaks. rewrite set_keys_side, set_keys_cipher, cur_set_keys, Si.
  rewrite !side_set_other'. auto.
Qed.

(* writing *)
Lemma talk_write side n s t data : talk side n s -> n + 1 < 2^64 -> talk side (n + 1) (fst (write_record s t data)).
Proof.
  unfold write_record, protect. intros T Hn. destruct s as [so p b]. cbn [st_protection st_sock st_buffer].
  assert (K : forall q w, talk side (n + 1) (Stream so q b) ->
     talk side (n + 1) (fst (if Nat.leb 2048 (length (st_buffer (Stream so q (b ++ w)))) then flush (Stream so q (b ++ w)) else (Stream so q (b ++ w), Ok (E:=tls_error) tt)))).
  { intros q w TT. destruct (Nat.leb _ _); [|exact TT]. unfold flush. destruct (write_all _ _) as [so' []]; exact TT. }
  destruct p as [p|].
  - unfold talk in T. cbn [st_protection] in T. destruct (rpp_encrypt p (record_new t data)) as [p' o] eqn:E. pose proof (speaks_encrypt _ _ _ _ _ _ T Hn E) as T'.
    destruct o as [w|e|]; cbn [sbind st_sock st_protection st_buffer]; try exact T'. apply K. exact T'.
  - cbn [sbind st_sock st_protection st_buffer]. apply K. exact I.
Qed.
Lemma write_none s t data : st_protection s = None -> st_protection (fst (write_record s t data)) = None.
Proof.
  unfold write_record, protect. destruct s as [so p b]. cbn [st_protection]. intros ->. cbn [sbind st_sock st_protection st_buffer].
  destruct (Nat.leb _ _); [|reflexivity]. unfold flush. destruct (write_all _ _) as [so' []]; reflexivity.
Qed.

(* the keys of a schedule *)
Lemma new_keys cs t0 c bytes pk e ks side p : suite_tshash cs = Ok t0 -> suite_cipher cs = Ok c -> is_bytes bytes -> zlen bytes < 2^52 ->
  from_handshake (th_update t0 bytes) pk e = Ok ks -> rpp_new (E:=tls_error) ks c side = Ok p ->
  exists a A klen s p0, suite_parameters (suite_u16 cs) = Some (a, A, klen) /\ ks_group e = X25519g /\ shared_secret (E:=tls_error) pk e = Ok s /\
    let g := Agreed c A klen s bytes in
    t0 = th_new (th_type t0) /\ suited (th_type t0) g /\ ks = schedule_of (th_type t0) g /\ p = Some p0 /\
    keyed (th_type t0) g p0 /\ rp_is_client p0 = side /\ rp_application p0 = None /\
    rp_handshake p0 = {| wk_server := Connection.traffic_key g (server_secret g); wk_client := Connection.traffic_key g (client_secret g) |}.
Proof.
  intros E4 E7 B L E6 E8. destruct (params_exist _ _ _ E4 E7) as (a & A & klen & Hpar & Et0 & EA & Eklen).
  destruct (from_handshake_ok _ _ _ _ E6) as (Eg & s & Es & Esch). destruct (secret_ok _ _ _ Es) as (Be & Le).
  rewrite Et0 in Esch. rewrite Proofs.Auth.th_type_update, Proofs.Auth.th_type_new, Proofs.Hmac.th_digest in Esch.
  set (H := th_type t0) in *. set (g := Agreed c A klen s bytes).
  assert (S : suited H g).
  { unfold suited, g. cbn [g_alg g_cipher g_klen g_hellos g_ecdhe]. split; [exact EA|]. split; [exists cs; exact E7|]. auto. }
  destruct (suited_schedule H g S) as (Sch & _). cbn [g g_hellos g_ecdhe] in Sch. rewrite Sch in Esch. injection Esch as Esch. subst ks.
  destruct (suited_keys H g side S) as (p0 & Hp0 & Hk & G2 & G1). change (g_cipher g) with c in Hp0.
  match type of Sch with _ = Some ?k => change k with (schedule_of H g) in * end.
  rewrite Hp0 in E8. apply Ok_inj in E8. subst p. destruct (rpp_new_shape _ _ _ _ Hp0) as (N1 & N2 & N3 & N4).
  exists a, A, klen, s, p0. cbv zeta. fold g.
  do 4 (split; [first [assumption|reflexivity]|]). split; [exact S|]. split; [reflexivity|]. split; [reflexivity|].
  split; [unfold keyed; auto|]. auto 10.
Qed.

(* keys of any schedule have the right size *)
Lemma expand_loop_length fuel : forall k info L okm last i, (L - length okm <= fuel)%nat -> (length okm <= L)%nat -> length (expand_loop fuel k info L okm last i) = L.
Proof.
  induction fuel as [|f IH]; intros k info L okm last i Hf Ho; cbn [expand_loop]; destruct (Nat.ltb_spec (length okm) L); try lia.
  assert (hash_len (hk_hash k) > 0)%nat by (destruct (hk_hash k); cbn; lia).
  apply IH; rewrite app_length, firstn_length, Proofs.Hmac.hmac_length; lia.
Qed.
Lemma expand_length k info L okm : hkdf_expand k info L = Some okm -> length okm = L.
Proof. Local Transparent hkdf_expand. unfold hkdf_expand. destruct (Nat.ltb _ _); [discriminate|]. intros [= <-]. apply expand_loop_length; cbn; lia. Local Opaque hkdf_expand. Qed.
Lemma hkdf_key h cs k : key_from_hkdf (E:=tls_error) h (fst (key_iv_len cs)) (snd (key_iv_len cs)) = Ok (Some k) -> good_key cs k /\ k_seq k = 0.
Proof.
  unfold key_from_hkdf, obind. destruct (hkdf_expand h _ (fst _)) as [key|] eqn:E1; [|discriminate]. destruct (hkdf_expand h _ (snd _)) as [iv|] eqn:E2; [|discriminate].
  destruct (Nat.eqb_spec (length iv) 12); [|discriminate]. intros H. apply Ok_inj in H. injection H as <-. unfold good_key. cbn [k_key k_iv k_seq].
  apply expand_bytes in E2 as B2. apply expand_bytes in E1 as B1. apply expand_length in E1. auto.
Qed.
Lemma handshake_keys_good ks cs w : handshake_keys (E:=tls_error) ks cs = Ok (Some w) -> forall b, good_key cs (side_key b w) /\ k_seq (side_key b w) = 0.
Proof.
  unfold handshake_keys, oobind. rewrite (surjective_pairing (key_iv_len cs)). destruct (key_from_hkdf (ks_server_hs ks) _ _) as [[s|]| |] eqn:E1; cbn [bind]; try discriminate.
  destruct (key_from_hkdf (ks_client_hs ks) _ _) as [[c|]| |] eqn:E2; cbn [bind]; try discriminate. intros H. apply Ok_inj in H. injection H as <-.
  intros []; cbn [side_key wk_client wk_server]; eapply hkdf_key; eassumption.
Qed.
Lemma application_keys_good master hash cs w : application_keys_from_master_secret (E:=tls_error) master hash cs = Ok (Some w) ->
  forall b, good_key cs (side_key b w) /\ k_seq (side_key b w) = 0.
Proof.
  unfold application_keys_from_master_secret, oobind, obind. rewrite (surjective_pairing (key_iv_len cs)).
  destruct (hkdf_expand master (hkdf_expand_label l_c_ap hash _) _) as [c0|]; [|discriminate].
  destruct (key_from_hkdf (from_prk _ c0) _ _) as [[c|]| |] eqn:E1; cbn [bind]; try discriminate.
  destruct (hkdf_expand master (hkdf_expand_label l_s_ap hash _) _) as [s0|]; [|discriminate].
  destruct (key_from_hkdf (from_prk _ s0) _ _) as [[s|]| |] eqn:E2; cbn [bind]; try discriminate. intros H. apply Ok_inj in H. injection H as <-.
  intros []; cbn [side_key wk_client wk_server]; eapply hkdf_key; eassumption.
Qed.
Lemma new_speaks ks c side p : good_cipher c -> rpp_new (E:=tls_error) ks c side = Ok (Some p) -> speaks side 0 p.
Proof.
  intros Gc H. unfold rpp_new, oobind in H. destruct (handshake_keys ks (cipher_get_suite c)) as [[w|]| |] eqn:E; cbn [bind] in H; try discriminate.
  apply Ok_inj in H. injection H as <-. unfold speaks, cur_keys. cbn [rp_is_client rp_cipher rp_application rp_handshake].
  destruct (handshake_keys_good _ _ _ E side) as (G & S0). rewrite S0. repeat split; try assumption; try lia; apply G.
Qed.
Lemma expand_some k info L : (L <= 255)%nat -> exists okm, hkdf_expand k info L = Some okm.
Proof.
  intros H. Local Transparent hkdf_expand. unfold hkdf_expand. Local Opaque hkdf_expand. destruct (Nat.ltb_spec (hash_len (hk_hash k) * 255) L); [|eauto].
  destruct (hk_hash k); cbn [hash_len] in *; lia.
Qed.
Lemma hkdf_key_some h cs : exists k, key_from_hkdf (E:=tls_error) h (fst (key_iv_len cs)) (snd (key_iv_len cs)) = Ok (Some k).
Proof.
  unfold key_from_hkdf, obind.
  destruct (expand_some h (hkdf_expand_label l_key [] (fst (key_iv_len cs))) (fst (key_iv_len cs))) as (key & ->); [destruct cs; cbn; lia|].
  destruct (expand_some h (hkdf_expand_label l_iv [] (snd (key_iv_len cs))) (snd (key_iv_len cs))) as (iv & E); [destruct cs; cbn; lia|]. rewrite E.
  apply expand_length in E. rewrite E. replace (snd (key_iv_len cs)) with 12%nat by (destruct cs; reflexivity). cbn. eauto.
Qed.
Lemma application_keys_some master hash cs : exists w, application_keys_from_master_secret (E:=tls_error) master hash cs = Ok (Some w).
Proof.
  unfold application_keys_from_master_secret, oobind, obind. rewrite (surjective_pairing (key_iv_len cs)).
  assert (hash_len (hk_hash master) <= 255)%nat by (destruct (hk_hash master); cbn; lia).
  destruct (expand_some master (hkdf_expand_label l_c_ap hash (hash_len (hk_hash master))) (hash_len (hk_hash master))) as (c0 & ->); [assumption|].
  destruct (hkdf_key_some (from_prk (hk_hash master) c0) cs) as (c & ->). cbn [bind].
  destruct (expand_some master (hkdf_expand_label l_s_ap hash (hash_len (hk_hash master))) (hash_len (hk_hash master))) as (s0 & ->); [assumption|].
  destruct (hkdf_key_some (from_prk (hk_hash master) s0) cs) as (s & ->). cbn [bind]. eauto.
Qed.
Lemma application_speaks side n p t p' o : speaks side n p -> generate_application_keys p t = (p', o) -> speaks side n p' /\ o = Ok tt.
Proof.
  intros (Si & Gc & Gk & Rs) H. unfold generate_application_keys in H.
  destruct (application_keys_some (ks_master (rp_schedule p)) (th_finalize t) (cipher_get_suite (rp_cipher p))) as (w & E). rewrite E in H. injection H as <- <-.
  split; [|reflexivity]. unfold speaks, cur_keys. cbn [rp_is_client rp_cipher rp_application rp_handshake].
  destruct (application_keys_good _ _ _ _ E side) as (G & S0). rewrite S0. repeat split; try assumption; try lia; apply G.
Qed.

(* the server *)
Definition ts (n : Z) (h : server_hs) : Prop := talk false n (sv_stream h).
Lemma ts_mono n m h : ts n h -> n <= m -> ts m h.
Proof. apply talk_mono. Qed.
Lemma ts_write n h t data : ts n h -> n + 1 < 2^64 -> ts (n + 1) (fst (sv_write h t data)).
Proof.
  unfold sv_write, ts. intros T H. pose proof (talk_write _ _ _ t data T H) as X. destruct (write_record _ _ _). exact X.
Qed.
Lemma none_write h t data : st_protection (sv_stream h) = None -> st_protection (sv_stream (fst (sv_write h t data))) = None.
Proof. unfold sv_write. intros P. pose proof (write_none _ t data P) as X. destruct (write_record _ _ _). exact X. Qed.
Lemma ts_none n h : st_protection (sv_stream h) = None -> ts n h.
Proof. unfold ts, talk. now intros ->. Qed.

Lemma hello_talk cfg d h rec : st_protection (sv_stream h) = None -> ts 5 (fst (handle_client_hello cfg d h rec)).
Proof.
  intros P0. Local Transparent handle_client_hello. unfold handle_client_hello. Local Opaque handle_client_hello.
  assert (N2 : forall t data h h' r, st_protection (sv_stream h) = None -> sv_write h t data = (h', r) -> st_protection (sv_stream h') = None)
    by (intros t data h0 h' r W0 E; pose proof (none_write h0 t data W0) as X; now rewrite E in X).
  assert (W1 : forall n t data h, ts n h -> n <= 4 -> ts 5 (fst (sv_write h t data)))
    by (intros n t data h0 W0 L; eapply ts_mono; [apply ts_write; [exact W0|lia]|lia]).
  assert (W2 : forall n t data h h' r, ts n h -> n <= 4 -> sv_write h t data = (h', r) -> ts (n + 1) h')
    by (intros n t data h0 h' r W0 L E; pose proof (ts_write n h0 t data W0 ltac:(lia)) as X; now rewrite E in X).
  pose proof (ts_none 5 _ P0) as W.
  apply sbind_pres; [exact W|]. intros s hs E; injection E as <- _. destruct (negb _); [exact W|].
  apply sbind_pres; [exact W|]. intros s ch E; injection E as <- _. apply sbind_pres; [exact W|]. intros s [sh pk] E; injection E as <- _.
  apply sbind_pres; [exact W|]. intros s th E; injection E as <- _. apply sbind_pres; [exact W|]. intros s body E; injection E as <- _.
  apply sbind_pres; [now apply ts_none, none_write|]. intros h1 u1 E1. assert (X1 : st_protection (sv_stream h1) = None) by eauto.
  apply sbind_pres; [destruct (ch_sid ch); [now apply ts_none, none_write|now apply ts_none]|]. intros h2 u2 E2.
  assert (X2' : st_protection (sv_stream h2) = None) by (destruct (ch_sid ch); [eauto|injection E2 as <- _; exact X1]).
  pose proof (ts_none 5 _ X2') as X2.
  destruct (client_public_key_share (ch_exts ch)); [|exact X2].
  apply sbind_pres; [exact X2|]. intros s ks E; injection E as <- _. apply sbind_pres; [exact X2|]. intros s c E; injection E as <- Ec.
  apply sbind_pres; [exact X2|]. intros s p E; injection E as <- Ep.
  match goal with |- context [with_protection ?x p] => set (hk := x) end.
  assert (X3 : ts 0 (with_protection hk p)).
  { unfold ts, talk. cbn [with_protection with_stream sv_stream set_protection st_protection]. destruct p as [p|]; [|exact I].
    eapply new_speaks; [|exact Ep]. eexists; exact Ec. } clearbody hk.
  assert (X3' := ts_mono 0 5 _ X3 ltac:(lia)).
  apply sbind_pres; [exact X3'|]. intros s ee E; injection E as <- _.
  apply sbind_pres; [eapply W1; [exact X3|lia]|]. intros h3 u3 E3. assert (X4 : ts 1 h3) by (apply W2 with (n := 0) in E3; [exact E3|exact X3|lia]).
  assert (X4' := ts_mono 1 5 _ X4 ltac:(lia)).
  apply sbind_pres.
  { destruct (sc_client_ca cfg); [|exact X4']. apply sbind_pres; [exact X4'|]. intros s req E; injection E as <- _.
    apply sbind_pres; [eapply W1; [exact X4|lia]|]. intros h4 u4 E4. cbn [fst]. eapply ts_mono; [eapply W2; [|..|exact E4]; [exact X4|lia]|lia]. }
  intros h4 th4 E4.
  assert (X5 : ts 2 h4).
  { destruct (sc_client_ca cfg); [|injection E4 as <- _; eapply ts_mono; [exact X4|lia]]. apply sbind_ok in E4. destruct E4 as (s & req & Q & E4). injection Q as <- _.
    apply sbind_ok in E4. destruct E4 as (h5 & u5 & E5 & E4). injection E4 as <- _. change 2 with (1 + 1). eapply W2; [|..|exact E5]; [exact X4|lia]. }
  assert (X5' := ts_mono 2 5 _ X5 ltac:(lia)).
  apply sbind_pres; [eapply W1; [exact X5|lia]|]. intros h5 u5 E5. assert (X6 : ts 3 h5) by (apply W2 with (n := 2) in E5; [exact E5|exact X5|lia]).
  assert (X6' := ts_mono 3 5 _ X6 ltac:(lia)).
  apply sbind_pres; [exact X6'|]. intros s cv E; injection E as <- _. apply sbind_pres; [exact X6'|]. intros s cv' E; injection E as <- _.
  apply sbind_pres; [eapply W1; [exact X6|lia]|]. intros h6 u6 E6. assert (X7 : ts 4 h6) by (apply W2 with (n := 3) in E6; [exact E6|exact X6|lia]).
  assert (X7' := ts_mono 4 5 _ X7 ltac:(lia)).
  apply sbind_pres; [exact X7'|]. intros s p6 E; injection E as <- _. apply sbind_pres; [exact X7'|]. intros s raw E; injection E as <- _.
  apply sbind_pres; [eapply W1; [exact X7|lia]|]. intros h7 u7 E7. cbn [fst]. change (ts 5 h7). change 5 with (4 + 1). eapply W2; [|..|exact E7]; [exact X7|lia].
Qed.

(* the other messages *)
Ltac pres := apply sbind_pres; [first [assumption|reflexivity]|let s := fresh "s" in let a := fresh "a" in let E := fresh "E" in intros s a E; injection E as <- _].
Lemma cert_same cfg now h m : sv_stream (fst (handle_client_certificate cfg now h m)) = sv_stream h.
Proof.
  Local Transparent handle_client_certificate. unfold handle_client_certificate. Local Opaque handle_client_certificate.
  apply (sbind_pres (fun x => sv_stream x = sv_stream h)); [reflexivity|]. intros s hs E; injection E as <- _. destruct (sc_client_ca cfg) as [ca|]; [|reflexivity].
  destruct (negb _); [reflexivity|].
  apply (sbind_pres (fun x => sv_stream x = sv_stream h)); [reflexivity|]. intros s th E; injection E as <- _.
  apply (sbind_pres (fun x => sv_stream x = sv_stream h)); [reflexivity|]. intros s ? E; injection E as <- _.
  apply (sbind_pres (fun x => sv_stream x = sv_stream h)); [reflexivity|]. intros s ? E; injection E as <- _.
  apply (sbind_pres (fun x => sv_stream x = sv_stream h)); [reflexivity|]. intros s ? E; injection E as <- _.
  destruct (negb _); [reflexivity|]. destruct (certificates_from_hello _ _); try reflexivity.
  apply (sbind_pres (fun x => sv_stream x = sv_stream h)); [reflexivity|]. intros s ? E; injection E as <- _.
  destruct (has_signed _ _); try reflexivity. destruct (sc_verify cfg); try reflexivity.
  apply (sbind_pres (fun x => sv_stream x = sv_stream h)); [reflexivity|]. intros s ? E; injection E as <- _. destruct (b _); reflexivity.
Qed.
Lemma cv_same h m : sv_stream (fst (handle_client_certificate_verify h m)) = sv_stream h.
Proof.
  Local Transparent handle_client_certificate_verify. unfold handle_client_certificate_verify. Local Opaque handle_client_certificate_verify.
  apply (sbind_pres (fun x => sv_stream x = sv_stream h)); [reflexivity|]. intros s hs E; injection E as <- _. destruct (sv_cert h) as [c|]; [|reflexivity].
  destruct (negb _); [reflexivity|].
  apply (sbind_pres (fun x => sv_stream x = sv_stream h)); [reflexivity|]. intros s ? E; injection E as <- _.
  apply (sbind_pres (fun x => sv_stream x = sv_stream h)); [reflexivity|]. intros s alg E; injection E as <- _.
  destruct alg; try reflexivity.
  apply (sbind_pres (fun x => sv_stream x = sv_stream h)); [reflexivity|]. intros s ? E; injection E as <- _.
  destruct (sig_from_der _) as [[sg size]| |]; try reflexivity.
  apply (sbind_pres (fun x => sv_stream x = sv_stream h)); [reflexivity|]. intros s ? E; injection E as <- _.
  apply (sbind_pres (fun x => sv_stream x = sv_stream h)); [reflexivity|]. intros s ? E; injection E as <- _.
  destruct (negb _); [reflexivity|].
  apply (sbind_pres (fun x => sv_stream x = sv_stream h)); [reflexivity|]. intros s ? E; injection E as <- _. destruct (negb _); reflexivity.
Qed.
Lemma fin_talk n h m : ts n h -> ts n (fst (handle_client_finish h m)).
Proof.
  intros T. Local Transparent handle_client_finish. unfold handle_client_finish. Local Opaque handle_client_finish.
  apply sbind_pres; [exact T|]. intros s hs E; injection E as <- _. destruct (negb _).
  - destruct (sv_state h); try exact T. apply sbind_pres; [exact T|]. intros s ? E; injection E as <- _. exact T.
  - apply sbind_pres; [exact T|]. intros s p E; injection E as <- Ep. destruct (st_protection (sv_stream h)) as [q|] eqn:P; [|discriminate]. apply Ok_inj in Ep. subst q.
    apply sbind_pres; [exact T|]. intros s ? E; injection E as <- _. apply sbind_pres; [exact T|]. intros s ? E; injection E as <- _.
    destruct (negb _); [exact T|]. 
    match goal with |- context [generate_application_keys p ?t] => destruct (generate_application_keys p t) as [p' r] eqn:G end.
    unfold ts, talk in T. rewrite P in T.
    destruct (application_speaks _ _ _ _ _ _ T G) as (T' & ->). apply sbind_pres; [exact T'|]. intros s ? E; injection E as <- _.
    set (hk := match sv_keylog _ with Some _ => _ | None => _ end).
    assert (X : ts n hk). { unfold hk. destruct (sv_keylog _); exact T'. }
    clearbody hk. destruct (sv_state hk); exact X.
Qed.
Lemma enc_talk cfg now n h rec : ts n h -> ts n (fst (handle_handshake_encrypted_record cfg now h rec)).
Proof.
  intros T. unfold handle_handshake_encrypted_record. apply sbind_pres; [exact T|]. intros s p E; injection E as <- Ep.
  destruct (st_protection (sv_stream h)) as [q|] eqn:P; [|discriminate]. apply Ok_inj in Ep. subst q.
  destruct (rpp_decrypt p rec) as [p' r] eqn:D. unfold ts, talk in T. rewrite P in T. pose proof (speaks_decrypt _ _ _ _ _ _ T D) as T'.
  assert (X : ts n (with_protection h (Some p'))) by exact T'.
  apply sbind_pres; [exact X|]. intros s [t content] E; injection E as <- _.
  set (h1 := with_protection h (Some p')) in *. clearbody h1.
  destruct t; try exact X; [apply sbind_pres; [exact X|]; intros s ? E; injection E as <- _; exact X|].
  destruct (match sc_client_ca cfg, sv_context h1 with Some _, None => true | _, _ => false end); [exact X|].
  destruct (sv_state h1); try exact X; [..|now apply fin_talk|now apply fin_talk]; unfold ts; [rewrite cert_same|rewrite cv_same]; exact X.
Qed.
Definition fresh_or (n : Z) (h : server_hs) : Prop := ts n h /\ (sv_state h = SvClientHello -> st_protection (sv_stream h) = None).
Lemma rec_talk cfg d now h rec : fresh_or 5 h -> ts 5 (fst (handle_handshake_record cfg d now h rec)).
Proof.
  intros (T & F). unfold handle_handshake_record.
  assert (X : ts 5 (fst (match sv_state h with SvClientHello => match r_type rec with RHandshake => handle_client_hello cfg d h rec | _ => (h, Err UnexpectedMessage) end
      | SvReady => (h, Ok tt) | _ => handle_handshake_encrypted_record cfg now h rec end))).
  { destruct (sv_state h) eqn:St; try (now apply enc_talk); [|exact T]. destruct (r_type rec); try exact T. now apply hello_talk, F. }
  destruct (r_type rec); try exact X.
  - destruct (sv_state h); exact T.
  - apply sbind_pres; [exact T|]. intros s ? E; injection E as <- _. exact T.
Qed.
Lemma rec_fresh cfg d now h rec h' u : fresh_or 5 h -> handle_handshake_record cfg d now h rec = (h', Ok u) -> fresh_or 5 h'.
Proof.
  intros F E. pose proof (rec_talk cfg d now h rec F) as T. rewrite E in T. split; [exact T|]. intros S'. exfalso. destruct u.
  revert S'. change (greeted_state h'). apply (stays_greeted cfg d now h rec); [|exact E].
  destruct (is_ccs rec) eqn:C; [right|now left]. intros St. unfold is_ccs in C. unfold handle_handshake_record in E.
  destruct (r_type rec); try discriminate. rewrite St in E. discriminate.
Qed.
Lemma records_fresh cfg d now fuel : forall h buf, fresh_or 5 h ->
  ts 5 (fst (server_records fuel cfg d now h buf)) /\ (forall h' u, server_records fuel cfg d now h buf = (h', Ok u) -> fresh_or 5 h').
Proof.
  induction fuel as [|fuel IH]; intros h buf F.
  - destruct buf; cbn [server_records]; (split; [apply F|]); intros h' u E; [injection E as <- _; exact F|discriminate].
  - destruct buf as [|b buf]; cbn [server_records]; [split; [apply F|]; intros h' u E; injection E as <- _; exact F|].
    destruct (record_from_raw (b :: buf)) as [[n rec]|e|] eqn:R; cbn [sbind fst snd]; [|split; [apply F|discriminate]..].
    pose proof (rec_talk cfg d now h rec F) as T. destruct (handle_handshake_record cfg d now h rec) as [h1 [u|e|]] eqn:E; cbn [sbind fst] in *;
      [|split; [exact T|discriminate]..].
    apply IH. eapply rec_fresh; eassumption.
Qed.
Lemma loop_talk cfg d now : forall reads h, fresh_or 5 h -> ts 5 (fst (server_do_handshake cfg d now h reads)).
Proof.
  induction reads as [|chunk reads IH]; intros h F; cbn [server_do_handshake].
  - destruct (sv_state h); apply F.
  - assert (X : ts 5 (fst (match (let@ (h, rx) := (h, tcp_read chunk) in let@ (h, _) := server_records (length rx) cfg d now h rx in sv_flush h) with
          | (h, Ok _) => server_do_handshake cfg d now h reads
          | (h, o) => (h, Some o)
          end))).
    { destruct (tcp_read chunk) as [rx|e|]; cbn [sbind fst]; [|apply F..].
      destruct (records_fresh cfg d now (length rx) h rx F) as (T & F1). destruct (server_records (length rx) cfg d now h rx) as [h1 [u|e|]]; cbn [sbind fst] in *; [|exact T..].
      specialize (F1 _ _ eq_refl). unfold sv_flush, flush. destruct (write_all _ _) as [so' []]; [|exact T].
      apply IH. exact F1. }
    destruct (sv_state h); try exact X; apply F.
Qed.
Lemma new_fresh so : fresh_or 5 (server_new so).
Proof. split; [exact I|reflexivity]. Qed.

(* the alert itself *)
Definition alert_record (p : option rpp) (level code : Z) (w : list Z) : Prop :=
  match p with
  | None => w = encode_record 21 [level; code]
  | Some p => sealed (rp_cipher p) (side_key (rp_is_client p) (cur_keys p)) [level; code; 21] w
  end.
Lemma code_byte e : (forall c, e <> GotAlert c) -> is_bytes [alert_level e; error_as_u8 e].
Proof. intros N. destruct e; try (apply is_bytes_check; reflexivity). now destruct (N code). Qed.
Lemma official_not e : is_official e = true -> forall c, e <> GotAlert c.
Proof. intros H c ->. discriminate. Qed.
Lemma protect_alert side n s e : talk side n s -> n + 1 < 2^64 -> is_official e = true ->
  exists s' w, protect s RAlert [alert_level e; error_as_u8 e] = (s', Ok w) /\ st_sock s' = st_sock s /\ st_buffer s' = st_buffer s /\
    alert_record (st_protection s) (alert_level e) (error_as_u8 e) w.
Proof.
  intros T Hn O. pose proof (code_byte e (official_not e O)) as B. unfold protect, talk in *. destruct s as [so [p|] b]; cbn [st_protection st_sock st_buffer] in *.
  - destruct T as (Si & Gc & Gk & Rs).
    destruct (encrypt_sealed p RAlert [alert_level e; error_as_u8 e]) as (w & E & S); try assumption.
    { rewrite Si. split; [exact Gk|]. lia. }
    { unfold zlen. cbn [length]. lia. }
    rewrite E. eexists _, w. split; [reflexivity|]. split; [reflexivity|]. split; [reflexivity|]. exact S.
  - eexists _, _. split; [reflexivity|]. split; [reflexivity|]. split; [reflexivity|]. cbn [alert_record]. unfold alert_record. destruct e; reflexivity.
Qed.
Lemma official_code e : is_official e = true <-> rfc8446_code e <> None.
Proof. destruct e; cbn; split; intros; congruence. Qed.

(* what follows an error *)
Definition reported (e : tls_error) : tls_error := match e with GotAlert code => error_new code | _ => e end.
Lemma report_spec side n s e s' r : talk side n s -> n + 1 < 2^64 -> report_error s e = (s', r) ->
  (rfc8446_code e = None -> s' = s /\ r = Err (reported e)) /\
  (rfc8446_code e <> None -> exists w, alert_record (st_protection s) (alert_level e) (error_as_u8 e) w /\
     ((so_sent (st_sock s') = so_sent (st_sock s) ++ w /\ r = Err e) \/
      (exists k, so_left (st_sock s) = Some k /\ (k < length w)%nat /\ so_sent (st_sock s') = so_sent (st_sock s) ++ firstn k w /\ r = Err BrokenPipe))).
Proof.
  intros T Hn R. unfold report_error in R. destruct (is_official e) eqn:O.
  - split; [intros N; apply official_code in O; congruence|]. intros _.
    destruct (protect_alert side n s e T Hn O) as (s1 & w & P & So & Bu & A). unfold write_alert in R. rewrite P in R. cbn [sbind] in R.
    exists w. split; [exact A|]. unfold write_all in R. rewrite So in R. destruct (so_left (st_sock s)) as [k|].
    + destruct (Nat.leb_spec (length w) k); injection R as <- <-; cbn [st_sock so_sent].
      * left. split; [reflexivity|]. destruct e; try reflexivity. discriminate.
      * right. exists k. auto.
    + injection R as <- <-. left. split; [reflexivity|]. destruct e; try reflexivity. discriminate.
  - cbn [sbind] in R. split; [intros _; injection R as <- <-; auto|]. intros N. apply official_code in N. congruence.
Qed.
Lemma accept_error cfg d now so reads h o : accept cfg d now so reads = (h, Some o) -> o <> Ok tt -> o <> Panic ->
  exists h0 e, server_do_handshake cfg d now (server_new so) reads = (h0, Some (Err e)) /\
    (rfc8446_code e = None -> sv_stream h = sv_stream h0 /\ o = Err (reported e)) /\
    (rfc8446_code e <> None -> exists w, alert_record (st_protection (sv_stream h0)) (alert_level e) (error_as_u8 e) w /\
      ((so_sent (st_sock (sv_stream h)) = so_sent (st_sock (sv_stream h0)) ++ w /\ o = Err e) \/
       (exists k, so_left (st_sock (sv_stream h0)) = Some k /\ (k < length w)%nat /\
          so_sent (st_sock (sv_stream h)) = so_sent (st_sock (sv_stream h0)) ++ firstn k w /\ o = Err BrokenPipe))).
Proof.
  unfold accept. pose proof (loop_talk cfg d now reads _ (new_fresh so)) as T.
  destruct (server_do_handshake cfg d now (server_new so) reads) as [h0 [[[]|e|]|]]; intros A N1 N2; try congruence.
  cbn [fst] in T. destruct (report_error (sv_stream h0) e) as [s r] eqn:R. injection A as <- <-. exists h0, e. split; [reflexivity|].
  exact (report_spec _ _ _ _ _ _ T ltac:(lia) R).
Qed.
