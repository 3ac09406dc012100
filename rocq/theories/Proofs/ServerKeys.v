From Verif Require Import Proofs.Util Proofs.Bytes Model.Alert Model.Bytes Model.Suite Model.Sha2 Model.Hmac Model.KeySchedule Model.Record Model.Channel
  Model.Curve Model.Signature Model.Ecdsa Model.X509 Model.Extensions Model.Hello Model.Kex Model.Handshake Model.Certificate
  Model.Stream Model.AppChannel Model.Keylog Model.Server
  Spec.Rfc2104 Spec.Fips180 Spec.Rfc8446Keys Spec.Tls13Record Spec.Endpoints Spec.Writes Spec.Rfc8446Auth Spec.Connection.
From Verif Require Spec.Rfc8446Hello Spec.Ecdsa.
From Verif Require Import Proofs.KeySchedule Proofs.Record Proofs.Channel Proofs.Stream Proofs.ServerRun.
From Verif Require Proofs.Hmac Proofs.Auth Proofs.HelloTotal Proofs.Kex Proofs.EcdsaP256.

From Coq Require String.
Import String.StringSyntax.
Local Open Scope string_scope.
Local Open Scope list_scope.
Local Open Scope Z_scope.

(* ---- byte strings and sizes of the hello messages ---- *)
Lemma fill32_ok b : is_bytes b -> is_bytes (fill32 b) /\ length (fill32 b) = 32%nat.
Proof.
  intros H. unfold fill32. split.
  - apply is_bytes_firstn, is_bytes_app. split; [assumption|]. apply is_bytes_repeat. unfold is_byte; lia.
  - rewrite firstn_length, app_length, repeat_length. lia.
Qed.
Lemma to_32_ok {E} n o r : ibig_to_32bytes (E:=E) n o = Ok r -> is_bytes r /\ length r = 32%nat.
Proof.
  unfold ibig_to_32bytes, ibig_to_vec. destruct (n <? 0); [discriminate|]. rewrite bind_Ok. intros H. injection H as <-.
  apply fill32_ok. destruct o; unfold ubig_to_be_bytes, ubig_to_le_bytes; [|apply Forall_rev]; apply le_digits_bytes.
Qed.
Lemma share_ok {E} pk e : key_share_of (E:=E) pk = Ok e -> exists data, e = KSE X25519g data /\ is_bytes data /\ length data = 32%nat.
Proof.
  unfold key_share_of. intros H. apply bind_ok in H. destruct H as (pub & _ & H). apply bind_ok in H. destruct H as (data & Hd & H).
  injection H as <-. exists data. split; [reflexivity|]. exact (to_32_ok _ _ _ Hd).
Qed.
Lemma secret_ok {E} pk e s : shared_secret (E:=E) pk e = Ok s -> is_bytes s /\ length s = 32%nat.
Proof. unfold shared_secret. intros H. apply bind_ok in H. destruct H as (p & _ & H). exact (to_32_ok _ _ _ H). Qed.

(* number of extensions *)
Lemma client_exts_count f : forall b l, client_exts_loop f b = Ok l -> (length l <= f)%nat.
Proof.
  induction f as [|f IH]; intros b l H; cbn [client_exts_loop] in H.
  - destruct b; [injection H as <-; apply le_n|discriminate].
  - destruct b as [|x b]; [injection H as <-; cbn; lia|].
    apply bind_ok in H. destruct H as (t & _ & H). apply bind_ok in H. destruct H as (s & _ & H). cbv zeta in H.
    destruct (ext_type_new (to_u16 t)) as [[]|].
    + apply bind_ok in H. destruct H as (y & _ & H). apply bind_ok in H. destruct H as (z & _ & H).
      apply bind_ok in H. destruct H as (r & Hr & H). injection H as <-. apply IH in Hr. cbn [length]. lia.
    + apply bind_ok in H. destruct H as (y & _ & H). apply bind_ok in H. destruct H as (r & Hr & H). injection H as <-. apply IH in Hr. cbn [length]. lia.
    + apply bind_ok in H. destruct H as (y & _ & H). apply bind_ok in H. destruct H as (z & _ & H).
      apply bind_ok in H. destruct H as (r & Hr & H). injection H as <-. apply IH in Hr. cbn [length]. lia.
    + apply IH in H. lia.
Qed.
Lemma client_hello_facts buf ch : is_bytes buf -> client_hello_from_raw buf = Ok ch ->
  (length (ch_exts ch) <= length buf)%nat /\ (is_bytes (ch_random ch) /\ length (ch_random ch) = 32%nat) /\
  match ch_sid ch with Some s => is_bytes s /\ length s = 32%nat | None => True end.
Proof.
  intros B H. unfold client_hello_from_raw in H. destruct (Nat.ltb _ _); [discriminate|].
  apply bind_ok in H. destruct H as (v & _ & H). destruct (negb _); [discriminate|].
  apply bind_ok in H. destruct H as (random & Hr & H). apply bind_ok in H. destruct H as (sl & _ & H).
  apply bind_ok in H. destruct H as ([consumed sid] & Hs & H). apply bind_ok in H. destruct H as (n & _ & H).
  destruct (_ || _)%bool; [discriminate|]. apply bind_ok in H. destruct H as (suites & _ & H).
  apply bind_ok in H. destruct H as (el & _ & H). apply bind_ok in H. destruct H as (b & Hb & H).
  apply bind_ok in H. destruct H as (exts & He & H). injection H as <-. cbn [ch_exts ch_random ch_sid].
  apply client_exts_count in He. apply slice_ok in Hb. destruct Hb as (Hb & ->).
  rewrite firstn_length, skipn_length in He. split; [lia|].
  apply slice_ok in Hr. destruct Hr as (Hr & ->). split.
  { split; [now apply is_bytes_firstn, is_bytes_skipn|]. rewrite firstn_length, skipn_length. lia. }
  destruct (negb (sl =? 0)).
  - apply bind_ok in Hs. destruct Hs as (s & Hs & Q). injection Q as <- <-. apply slice_ok in Hs. destruct Hs as (Hs & ->).
    split; [now apply is_bytes_firstn, is_bytes_skipn|]. rewrite firstn_length, skipn_length. lia.
  - injection Hs as <- <-. exact I.
Qed.

Definition good_ext (e : server_ext) : Prop := match e with SKeyShare [KSE X25519g d] => is_bytes d /\ length d = 32%nat | SSupportedVersions true => True | _ => False end.
Lemma negotiate_exts name l : forall secrets x pk r, negotiate name l secrets x pk = Ok r -> Forall good_ext x ->
  Forall good_ext (fst r) /\ (length (fst r) <= length x + length l)%nat.
Proof.
  induction l as [|e l IH]; intros secrets x pk r H Hx; cbn [negotiate length] in *.
  - injection H as <-. cbn [fst]. split; [assumption|lia].
  - destruct e as [v|g|ks|n|sa].
    + destruct v; [|discriminate]. apply IH in H; [|assumption]. split; [apply H|lia].
    + apply IH in H; [|assumption]. split; [apply H|lia].
    + apply bind_ok in H. destruct H as (o & Ho & H). destruct o as [[en k]|].
      * apply IH in H.
        -- rewrite app_length in H. cbn [length] in H. split; [apply H|lia].
        -- apply Forall_app. split; [assumption|]. constructor; [|constructor].
           clear - Ho. induction ks as [|k' ks IHk]; cbn [agree_on] in Ho; [discriminate|].
           destruct (ks_group k'); try (now apply IHk); try discriminate.
           apply bind_ok in Ho. destruct Ho as (e' & He & Ho). injection Ho as <- _. apply share_ok in He. destruct He as (dd & -> & B). exact B.
      * apply IH in H; [|assumption]. split; [apply H|lia].
    + destruct name as [ex|]; [destruct (list_eqb ex n); [|discriminate]|]; (apply IH in H; [|assumption]; split; [apply H|lia]).
    + destruct (existsb _ _); [|discriminate]. apply IH in H; [|assumption]. split; [apply H|lia].
Qed.
Lemma hi_byte n : is_byte (hi n).
Proof. unfold is_byte, hi. apply u8_range. Qed.
Lemma lo_byte n : is_byte (lo n).
Proof. unfold is_byte, lo. apply u8_range. Qed.
Lemma exts_bytes_ok {E} l : Forall good_ext l -> forall b, concatM (E:=E) server_ext_bytes l = Ok b -> is_bytes b /\ (length b <= 40 * length l)%nat.
Proof.
  induction 1 as [|e l He Hl IH]; intros b H; cbn [concatM] in H.
  - injection H as <-. split; [constructor|cbn; lia].
  - apply bind_ok in H. destruct H as (x & Hx & H). apply bind_ok in H. destruct H as (y & Hy & H). injection H as <-.
    destruct (IH _ Hy) as (By & Ly). rewrite app_length. cbn [length].
    assert (is_bytes x /\ (length x <= 40)%nat) as (Bx & Lx); [|split; [now apply is_bytes_app|lia]].
    destruct e as [v|[|[g dd] [|]]|sa]; cbn [good_ext] in He; try contradiction.
    + cbn in Hx. injection Hx as <-. split; [|cbn; lia]. apply is_bytes_check. reflexivity.
    + destruct g; try contradiction. destruct He as (Bd & Ld). unfold server_ext_bytes, key_share_server_bytes, kse_bytes in Hx.
      cbn [ks_group ks_opaque] in Hx. rewrite bind_Ok in Hx. injection Hx as <-.
      cbn [app length]. rewrite rev_length. split; [|lia].
      repeat (constructor; [solve [apply hi_byte|apply lo_byte|unfold is_byte; lia]|]). now apply Forall_rev.
    + destruct g; contradiction.
Qed.
Lemma server_hello_facts {E} ch random secrets name sh pk body : is_bytes random -> length random = 32%nat ->
  match ch_sid ch with Some s => is_bytes s /\ length s = 32%nat | None => True end ->
  server_hello_from_client ch random secrets name = Ok (sh, pk) -> server_hello_bytes (E:=E) sh = Ok body ->
  is_bytes body /\ (length body <= 200 + 40 * length (ch_exts ch))%nat.
Proof.
  intros Br Lr Bs H Hb. unfold server_hello_from_client in H. apply bind_ok in H. destruct H as ([exts k] & Hn & H).
  apply negotiate_exts in Hn; [|constructor]. cbn [fst length Nat.add] in Hn. destruct Hn as (Hg & Hl).
  destruct k as [k|]; [|discriminate]. destruct (choose_suite _ _) as [cs|]; [|discriminate]. injection H as <- <-.
  unfold server_hello_bytes in Hb. cbn [sh_random sh_sid sh_suite sh_exts] in Hb. apply bind_ok in Hb. destruct Hb as (eb & He & Hb). injection Hb as <-.
  unfold server_exts_bytes in He. apply bind_ok in He. destruct He as (b & He & Q). injection Q as <-.
  apply exts_bytes_ok in He; [|apply Forall_app; split; [assumption|repeat constructor]].
  rewrite app_length in He. cbn [length] in He. destruct He as (B1 & L1).
  assert (is_bytes (sid_bytes (ch_sid ch)) /\ (length (sid_bytes (ch_sid ch)) <= 33)%nat) as (B2 & L2).
  { unfold sid_bytes. destruct (ch_sid ch) as [s|].
    - destruct Bs as (Bs & Ls). split; [constructor; [apply u8_range|assumption]|cbn [app length]; lia].
    - split; [apply is_bytes_check; reflexivity|cbn; lia]. }
  unfold with_len16. split.
  - repeat first [assumption | apply is_bytes_app; split | constructor; [solve [apply hi_byte|apply lo_byte|unfold is_byte; lia]|] | constructor].
  - cbn [app length]. rewrite ?app_length. cbn [app length]. rewrite ?app_length. cbn [length]. lia.
Qed.

(* ---- keys of an agreement ---- *)
Definition schedule_of (H : hash_type) (g : agreed) : key_schedule :=
  {| ks_client_hs := from_prk H (client_secret g); ks_server_hs := from_prk H (server_secret g);
     ks_master := from_prk H (Master_Secret (g_alg g) (g_ecdhe g)) |}.
Definition suited (H : hash_type) (g : agreed) : Prop :=
  g_alg g = Proofs.Hmac.alg_of H /\ good_cipher (g_cipher g) /\ g_klen g = fst (key_iv_len (cipher_get_suite (g_cipher g))) /\
  is_bytes (g_hellos g) /\ zlen (g_hellos g) < 2^52 /\ is_bytes (g_ecdhe g) /\ length (g_ecdhe g) = 32%nat.
Definition keyed (H : hash_type) (g : agreed) (p : rpp) : Prop :=
  suited H g /\ rp_cipher p = g_cipher g /\ rp_schedule p = schedule_of H g.
Lemma suited_schedule H g : suited H g ->
  do_key_schedule H (sha_x H (g_hellos g)) (g_ecdhe g) = Some (schedule_of H g) /\
  (is_bytes (client_secret g) /\ length (client_secret g) = hash_len H) /\
  (is_bytes (server_secret g) /\ length (server_secret g) = hash_len H) /\
  (is_bytes (Master_Secret (g_alg g) (g_ecdhe g)) /\ length (Master_Secret (g_alg g) (g_ecdhe g)) = hash_len H).
Proof.
  intros (EA & Gc & Ek & Bh & Lh & Be & Le).
  destruct (schedule_spec H (g_hellos g) (g_ecdhe g) Bh ltac:(lia) Be ltac:(unfold zlen; lia)) as (S & X).
  unfold schedule_of, client_secret, server_secret. rewrite EA. exact (conj S X).
Qed.
Lemma suited_keys H g b : suited H g -> exists p, rpp_new (E:=tls_error) (schedule_of H g) (g_cipher g) b = Ok (Some p) /\
  rp_handshake p = {| wk_server := Connection.traffic_key g (server_secret g); wk_client := Connection.traffic_key g (client_secret g) |} /\
  good_key (cipher_get_suite (g_cipher g)) (Connection.traffic_key g (server_secret g)) /\
  good_key (cipher_get_suite (g_cipher g)) (Connection.traffic_key g (client_secret g)).
Proof.
  intros S. destruct (suited_schedule H g S) as (_ & (B1 & L1) & (B2 & L2) & _). destruct S as (EA & Gc & Ek & _).
  unfold rpp_new, schedule_of. rewrite (handshake_keys_spec H (cipher_get_suite (g_cipher g)) _ _ _ B1 L1 B2 L2).
  unfold oobind. rewrite bind_Ok. eexists. split; [reflexivity|]. cbn [rp_handshake].
  unfold Connection.traffic_key, KeySchedule.traffic_key. rewrite EA, Ek. split; [reflexivity|].
  split; [exact (proj2 (key_from_hkdf_spec (E:=tls_error) H _ (cipher_get_suite (g_cipher g)) B2 L2))|
          exact (proj2 (key_from_hkdf_spec (E:=tls_error) H _ (cipher_get_suite (g_cipher g)) B1 L1))].
Qed.
Lemma keyed_application H g p msgs : keyed H g p -> is_bytes msgs -> zlen msgs < 2^53 ->
  exists p', generate_application_keys p (th_update (th_new H) msgs) = (p', Ok tt) /\
    rp_is_client p' = rp_is_client p /\ rp_cipher p' = g_cipher g /\ rp_application p' = Some (application_keys g msgs) /\
    good_key (cipher_get_suite (g_cipher g)) (wk_server (application_keys g msgs)) /\
    good_key (cipher_get_suite (g_cipher g)) (wk_client (application_keys g msgs)).
Proof.
  intros (S & Hc & Hs) Bm Lm. destruct (suited_schedule H g S) as (_ & _ & _ & (B3 & L3)). destruct S as (EA & Gc & Ek & _).
  unfold generate_application_keys. rewrite Hs, Hc. cbn [schedule_of ks_master]. rewrite Proofs.Hmac.th_digest.
  rewrite (application_keys_spec (E:=tls_error) H (cipher_get_suite (g_cipher g)) _ msgs B3 L3 Bm Lm).
  eexists. split; [reflexivity|]. cbn [rp_is_client rp_cipher rp_application].
  split; [reflexivity|]. split; [reflexivity|].
  unfold application_keys, Connection.traffic_key, KeySchedule.traffic_key. cbn [wk_server wk_client].
  unfold server_application_traffic_secret_0, client_application_traffic_secret_0. rewrite Ek. rewrite EA in B3, L3 |- *. split; [reflexivity|].
  pose proof (derive_good H _ (Spec.Rfc4648.codes "s ap traffic") msgs (cipher_get_suite (g_cipher g)) B3 L3 (codes_bytes _) ltac:(cbn; lia) Bm Lm) as G1.
  pose proof (derive_good H _ (Spec.Rfc4648.codes "c ap traffic") msgs (cipher_get_suite (g_cipher g)) B3 L3 (codes_bytes _) ltac:(cbn; lia) Bm Lm) as G2.
  split; [exact G1|exact G2].
Qed.

Lemma Ok_inj {E A} (a b : A) : Ok (E:=E) a = Ok b -> a = b.
Proof. intros H. now injection H. Qed.
(* ---- the answer, in terms of the specification ---- *)
Lemma ht_eqb_eq a b : ht_eqb a b = true -> a = b.
Proof. unfold ht_eqb. destruct a, b; cbn; intros H; reflexivity || discriminate. Qed.
Lemma req_wire ctx : Rfc8446Hello.certificate_request_wire ctx [0x0403] = req_body ctx.
Proof. reflexivity. Qed.
Lemma req_wire_msgs cfg d : req_msgs cfg d = request cfg d.
Proof. unfold req_msgs, request. destruct (sc_client_ca cfg); [|reflexivity]. now rewrite HelloTotal.to_bytes_wire, req_wire. Qed.
Lemma from_handshake_ok t pk e ks : from_handshake t pk e = Ok ks -> ks_group e = X25519g /\
  exists s, shared_secret (E:=tls_error) pk e = Ok s /\ do_key_schedule (th_type t) (th_finalize t) s = Some ks.
Proof.
  unfold from_handshake. destruct (ks_group e); try discriminate. intros H. apply bind_ok in H. destruct H as (s & Hs & H).
  split; [reflexivity|]. exists s. split; [exact Hs|]. destruct (do_key_schedule _ _ _); [|discriminate]. now injection H as <-.
Qed.
Lemma is_bytes_handshake t b : is_byte t -> is_bytes b -> is_bytes (Rfc8446Hello.handshake t b).
Proof. intros Ht Hb. unfold Rfc8446Hello.handshake, Rfc8446Hello.vector24. constructor; [exact Ht|]. apply is_bytes_app. split; [apply be_enc_bytes|exact Hb]. Qed.
Lemma handshake_length t b : length (Rfc8446Hello.handshake t b) = (4 + length b)%nat.
Proof. unfold Rfc8446Hello.handshake, Rfc8446Hello.vector24. cbn [app length]. rewrite app_length, be_enc_length. lia. Qed.
Lemma before_verify_ok cfg d : server_ok cfg d -> is_bytes (concat (before_verify cfg d)) /\ zlen (concat (before_verify cfg d)) < 2^25.
Proof.
  intros (_ & Br & Lr & _ & _ & Bc & Lc & _). unfold before_verify, request.
  assert (is_bytes (Rfc8446Hello.certificate_wire [] (ct_raw (sc_cert cfg))) /\
          length (Rfc8446Hello.certificate_wire [] (ct_raw (sc_cert cfg))) = (9 + length (ct_raw (sc_cert cfg)))%nat) as (Bw & Lw).
  { unfold Rfc8446Hello.certificate_wire, Rfc8446Hello.vector24, Rfc8446Hello.vector16, Rfc8446Hello.vector8. split.
    - repeat first [assumption | apply be_enc_bytes | apply is_bytes_app; split | constructor].
    - rewrite !app_length, !be_enc_length. cbn [length]. lia. }
  assert (is_bytes (Rfc8446Hello.certificate_request_wire (d_context d) [1027]) /\
    length (Rfc8446Hello.certificate_request_wire (d_context d) [1027]) = (11 + length (d_context d))%nat) as (Bq & Lq).
  { rewrite req_wire. unfold req_body. split.
    - apply is_bytes_app. split; [constructor; [apply u8_range|constructor]|]. apply is_bytes_app. split; [assumption|apply is_bytes_check; reflexivity].
    - rewrite !app_length. cbn [length]. lia. }
  unfold zlen in *.
  destruct (sc_client_ca cfg); cbn [app concat]; rewrite ?app_nil_r; (split;
    [repeat first [assumption | apply is_bytes_handshake; [unfold is_byte; lia|] | solve [apply is_bytes_check; reflexivity] | apply is_bytes_app; split]
    |rewrite !app_length, !handshake_length, Lw; rewrite ?Lq; change (length (Rfc8446Hello.vector16 [])) with 2%nat; lia]).
Qed.
Lemma before_finished_ok cfg d der : server_ok cfg d -> is_bytes der -> (length der <= 72)%nat ->
  is_bytes (concat (before_finished cfg d der)) /\ zlen (concat (before_finished cfg d der)) < 2^26.
Proof.
  intros Ok' Bd Ld. destruct (before_verify_ok cfg d Ok') as (B & L). unfold before_finished. rewrite concat_app. cbn [concat]. rewrite app_nil_r.
  split.
  - apply is_bytes_app. split; [exact B|]. apply is_bytes_handshake; [unfold is_byte; lia|].
    unfold Rfc8446Hello.certificate_verify_wire, Rfc8446Hello.u16, Rfc8446Hello.vector16.
    repeat first [assumption | apply be_enc_bytes | apply is_bytes_app; split].
  - unfold zlen in *. rewrite app_length, handshake_length. unfold Rfc8446Hello.certificate_verify_wire, Rfc8446Hello.u16, Rfc8446Hello.vector16.
    rewrite !app_length, !be_enc_length. lia.
Qed.
Lemma to_finished_ok H cfg d g der : suited H g -> server_ok cfg d -> is_bytes der -> (length der <= 72)%nat ->
  is_bytes (to_server_finished cfg d g der) /\ zlen (to_server_finished cfg d g der) < 2^52 + 2^27.
Proof.
  intros S Ok' Bd Ld. pose proof S as (EA & _ & _ & Bh & Lh & _).
  destruct (before_finished_ok cfg d der Ok' Bd Ld) as (B & L).
  destruct (suited_schedule H g S) as (_ & _ & (Bs & Ls) & _).
  assert (BM : is_bytes (g_hellos g ++ concat (before_finished cfg d der))) by (apply is_bytes_app; split; assumption).
  destruct (Proofs.Auth.finished_data H (server_secret g) (g_hellos g ++ concat (before_finished cfg d der)) Bs Ls BM
              ltac:(rewrite zlen_app; lia)) as (_ & Lv & Bv).
  unfold to_server_finished, server_flight. rewrite concat_app. cbn [concat]. rewrite app_nil_r.
  unfold verify_data. rewrite EA. split.
  - apply is_bytes_app. split; [assumption|]. apply is_bytes_app. split; [assumption|]. apply is_bytes_handshake; [unfold is_byte; lia|exact Bv].
  - rewrite !zlen_app. unfold zlen at 3. rewrite handshake_length, Lv. pose proof (hash_len_le H). lia.
Qed.
Lemma params_exist cs t0 c : suite_tshash cs = Ok t0 -> suite_cipher cs = Ok c ->
  exists a A klen, suite_parameters (suite_u16 cs) = Some (a, A, klen) /\ t0 = th_new (th_type t0) /\ A = Proofs.Hmac.alg_of (th_type t0) /\
    klen = fst (key_iv_len (cipher_get_suite c)).
Proof.
  intros H1 H2. assert (exists a A klen, suite_parameters (suite_u16 cs) = Some (a, A, klen)) as (a & A & klen & H3).
  { destruct cs; try discriminate; cbn; eauto. }
  exists a, A, klen. split; [exact H3|]. destruct (suite_facts _ _ _ _ _ _ H2 H1 H3) as (X1 & X2 & X3 & _). auto.
Qed.
Lemma fold_updates H chunks : fold_left th_update chunks (th_new H) = th_update (th_new H) (concat chunks).
Proof. apply Proofs.Hmac.th_updates. Qed.

Lemma hello_spec cfg d h rec h' u : server_ok cfg d -> is_bytes (r_fragment rec) -> zlen (r_fragment rec) < 2^16 ->
  st_protection (sv_stream h) = None -> handle_client_hello cfg d h rec = (h', Ok u) ->
  exists H ch body g der p0 p1 ws,
    answers cfg d (r_fragment rec) ch body g /\ server_signed cfg d g der /\ is_bytes der /\ (length der <= 72)%nat /\ suited H g /\
    rpp_new (E:=tls_error) (schedule_of H g) (g_cipher g) false = Ok (Some p0) /\
    enc_all p0 (server_flight cfg d g der) = Some (p1, ws) /\
    out (sv_stream h') = out (sv_stream h) ++ record_as_bytes (record_new RHandshake (Rfc8446Hello.handshake 2 body)) ++
      (match ch_sid ch with Some _ => record_as_bytes (record_new RChangeCipherSpec [1]) | None => [] end) ++ concat ws /\
    st_protection (sv_stream h') = Some p1 /\
    sv_th h' = Some (th_update (th_new H) (to_server_finished cfg d g der)) /\
    sv_state h' = (match sc_client_ca cfg with Some _ => SvClientCertificate | None => SvClientFinished end) /\
    sv_context h' = (match sc_client_ca cfg with Some _ => Some (d_context d) | None => sv_context h end) /\
    sv_cert h' = sv_cert h /\ sv_th_finished h' = sv_th_finished h /\
    sv_keylog h' = (match sc_keylog cfg with Some _ => Some (keylog_new (ch_random ch)) | None => sv_keylog h end) /\
    sv_log h' = sv_log h ++ log_hs cfg ch p0.
Proof.
  intros Ok' Br Lr N H0. pose proof Ok' as (Hcurve & Bcert & Lcert & Brand & Lrand & Bctx & Lctx & Nn & _).
  destruct (hello_ok _ _ _ _ _ _ N H0) as (hs & ch & sh & pk & t0 & body & entry & ks & c & p0 & cv & fin & p1 & ws &
    E1 & Et & E2 & E3 & E4 & E5 & Ek & E6 & E7 & E8 & E9 & E10 & E11 & O & P1 & T1 & X).
  apply ht_eqb_eq in Et.
  destruct (params_exist _ _ _ E4 E7) as (a & A & klen & Hpar & Et0 & EA & Eklen).
  set (H := th_type t0) in *. rewrite Et0 in E6, E9, E10, T1. rewrite !fold_updates in E6, E9, E10, T1.
  rewrite !HelloTotal.to_bytes_wire in *. rewrite req_wire_msgs in *.
  assert (EC : certificate_for_handshake (sc_cert cfg) [0] = Rfc8446Hello.certificate_wire [] (ct_raw (sc_cert cfg)))
    by exact (Proofs.Auth.certificate_bytes (sc_cert cfg) [] Lcert).
  rewrite EC in *. clear EC.
  assert (Bhs : is_bytes (hs_fraqment hs) /\ (length (hs_fraqment hs) <= length (r_fragment rec))%nat).
  { clear - E1 Br. Local Transparent handshake_from_raw. unfold handshake_from_raw in E1. Local Opaque handshake_from_raw.
    destruct (Nat.ltb _ _); [discriminate|]. apply bind_ok in E1. destruct E1 as (b0 & _ & E1).
    destruct (handshake_type_new b0); [|discriminate]. apply bind_ok in E1. destruct E1 as (b1 & _ & E1).
    apply bind_ok in E1. destruct E1 as (b2 & _ & E1). apply bind_ok in E1. destruct E1 as (b3 & _ & E1). cbv zeta in E1.
    apply bind_ok in E1. destruct E1 as (f & Hf & E1). apply bind_ok in E1. destruct E1 as (raw & _ & E1). injection E1 as <-.
    apply slice_ok in Hf. destruct Hf as (Hf & ->). cbn [hs_fraqment]. split; [now apply is_bytes_firstn, is_bytes_skipn|].
    rewrite firstn_length, skipn_length. lia. }
  destruct Bhs as (Bhs & Lhs). destruct (client_hello_facts _ _ Bhs E2) as (Lex & _ & Bsid).
  destruct (server_hello_facts (E:=tls_error) _ _ _ _ _ _ _ Brand Lrand Bsid E3 E5) as (Bbody & Lbody).
  destruct (from_handshake_ok _ _ _ _ E6) as (Eg & ecdhe & Esec & Esch).
  destruct (secret_ok _ _ _ Esec) as (Be & Le).
  rewrite Proofs.Auth.th_type_update, Proofs.Auth.th_type_new, Proofs.Hmac.th_digest in Esch.
  cbn [handshake_type_u8] in *.
  assert (EH : concat [r_fragment rec; Rfc8446Hello.handshake 2 body] = r_fragment rec ++ Rfc8446Hello.handshake 2 body)
    by (cbn [concat]; now rewrite app_nil_r).
  rewrite EH in Esch.
  set (g := Agreed c A klen ecdhe (r_fragment rec ++ Rfc8446Hello.handshake 2 body)).
  assert (S : suited H g).
  { unfold suited, g. cbn [g_alg g_cipher g_klen g_hellos g_ecdhe]. split; [exact EA|]. split; [exists (sh_suite sh); exact E7|]. split; [exact Eklen|].
    split; [apply is_bytes_app; split; [exact Br|apply is_bytes_handshake; [unfold is_byte; lia|exact Bbody]]|].
    split; [|split; assumption]. unfold zlen in *. rewrite app_length, handshake_length. lia. }
  destruct (suited_schedule H g S) as (Sch & _ & (Bss & Lss) & _). cbn [g g_hellos g_ecdhe] in Sch.
  rewrite Sch in Esch. injection Esch as Esch. subst ks.
  destruct (Proofs.Auth.cv_sent (E:=tls_error) (sk_secret (sc_privkey cfg)) (th_update (th_new H) (g_hellos g ++ concat (before_verify cfg d))) l_server (d_nonces d) cv Nn)
    as (k & r & s & der & Ik & Hsig & Hder & Ecv & Bder & Lder).
  { rewrite <- E9. f_equal; [destruct (sc_privkey cfg) as [cu kk]; cbn in Hcurve |- *; now rewrite Hcurve|].
    f_equal. cbn [g g_hellos]. unfold before_verify. cbn [app concat]. rewrite <- !app_assoc. reflexivity. }
  subst cv.
  assert (BV := before_verify_ok cfg d Ok'). destruct BV as (BV1 & BV2).
  destruct (before_finished_ok cfg d der Ok' Bder Lder) as (BF1 & BF2).
  pose proof S as (EA' & _ & _ & Bh & Lh & _).
  assert (EM : concat ([r_fragment rec; Rfc8446Hello.handshake 2 body] ++
     (Rfc8446Hello.handshake 8 [0; 0] :: request cfg d ++ [Rfc8446Hello.handshake 11 (Rfc8446Hello.certificate_wire [] (ct_raw (sc_cert cfg)))]) ++
     [Rfc8446Hello.handshake 15 (Rfc8446Hello.certificate_verify_wire 1027 der)])
     = g_hellos g ++ concat (before_finished cfg d der)).
  { cbn [g g_hellos]. unfold before_finished, before_verify. cbn [app concat]. rewrite <- !app_assoc. reflexivity. }
  rewrite EM in E10. cbn [schedule_of ks_server_hs] in E10.
  rewrite (Proofs.Auth.finished_message H (server_secret g) (g_hellos g ++ concat (before_finished cfg d der)) Bss Lss) in E10;
    [|apply is_bytes_app; split; assumption|rewrite zlen_app; lia].
  apply Ok_inj in E10. subst fin. rewrite <- EA' in E11, T1.
  exists H, ch, body, g, der, p0, p1, ws.
  split. { exists hs, sh, pk, entry, a. cbn [g g_hellos g_ecdhe g_cipher g_alg g_klen]. auto 20. }
  split. { exists k, r, s.
    rewrite (Proofs.Auth.verify_digest H _ l_server server_context) in Hsig;
      [|apply is_bytes_app; split; assumption|rewrite zlen_app; lia|left; split; reflexivity].
    rewrite <- EA' in Hsig. split; [exact (conj Ik Hsig)|]. split; [|exact Hder].
    rewrite Forall_forall in Nn. exact (Proofs.EcdsaP256.p256_sign_valid _ _ _ _ _ (Nn k Ik) Hsig). }
  split; [exact Bder|]. split; [exact Lder|]. split; [exact S|]. split; [exact E8|].
  assert (EF : (Rfc8446Hello.handshake 8 [0; 0] :: request cfg d ++ [Rfc8446Hello.handshake 11 (Rfc8446Hello.certificate_wire [] (ct_raw (sc_cert cfg)))]) ++
     [Rfc8446Hello.handshake 15 (Rfc8446Hello.certificate_verify_wire 1027 der);
      Rfc8446Hello.handshake 20 (finished_verify_data (g_alg g) (server_secret g) (g_hellos g ++ concat (before_finished cfg d der)))]
     = server_flight cfg d g der).
  { unfold server_flight. set (vd := finished_verify_data _ _ _). unfold verify_data. fold vd. clearbody vd.
    unfold before_finished, before_verify. cbn [app]. rewrite <- !app_assoc. reflexivity. }
  rewrite EF in E11, T1. split; [exact E11|]. split; [exact O|]. split; [exact P1|]. split; [|exact X].
  rewrite T1. unfold to_server_finished. rewrite concat_app, EH. reflexivity.
Qed.
