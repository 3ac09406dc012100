(* A conforming client is accepted: the handlers, forwards *)
From Verif Require Import Proofs.Util Proofs.Bytes Model.Alert Model.Bytes Model.Suite Model.Sha2 Model.Hmac Model.KeySchedule Model.Record Model.Channel
  Model.Curve Model.Signature Model.Ecdsa Model.X509 Model.Extensions Model.Hello Model.Kex Model.Handshake Model.Certificate
  Model.Stream Model.AppChannel Model.Keylog Model.Server
  Spec.Enc Spec.Rfc2104 Spec.Fips180 Spec.Rfc8446Keys Spec.Tls13Record Spec.Endpoints Spec.Writes Spec.Rfc8446Auth Spec.Connection.
From Verif Require Spec.Rfc8446Hello Spec.Ecdsa Spec.Sp80038d.
From Verif Require Import Proofs.KeySchedule Proofs.Record Proofs.Channel Proofs.Stream Proofs.ServerRun Proofs.ServerKeys Proofs.Opened Proofs.ServerSteps
  Proofs.ServerFlow.
From Verif Require Proofs.Hmac Proofs.Sha2 Proofs.Auth Proofs.HelloTotal Proofs.Kex Proofs.EcdsaP256 Proofs.Gcm Proofs.Chacha Proofs.Signature.

Lemma sbind_Ok {S E A B} (s : S) (a : A) (k : S -> A -> S * outcome E B) : sbind (s, Ok a) k = k s a.
Proof. reflexivity. Qed.

(* ---- parsing records one after the other ---- *)
Lemma parse_prefix r rest : record_from_raw (wire r) = Ok (length (wire r), r) ->
  record_from_raw (wire r ++ rest) = Ok (length (wire r), r) /\ (5 <= length (wire r))%nat.
Proof.
  set (w := wire r). clearbody w. intros E.
  destruct w as [|t [|v1 [|v2 [|h [|l w]]]]]; try discriminate.
  destruct (rt_new t) as [ty|e|] eqn:T;
    [|unfold record_from_raw in E; cbn [length Nat.ltb Nat.leb idx nth_error unwrap] in E; rewrite bind_Ok, T in E; discriminate
     |unfold record_from_raw in E; cbn [length Nat.ltb Nat.leb idx nth_error unwrap] in E; rewrite bind_Ok, T in E; discriminate].
  rewrite (from_raw_eq _ _ _ _ _ _ ty T) in E. cbn [app]. rewrite (from_raw_eq _ _ _ _ _ _ ty T). cbv zeta in *.
  set (len := Z.to_nat (Z.lor (Z.shiftl h 8) l)) in *. cbn [length] in E |- *.
  destruct (Nat.ltb_spec (3 + length w) len); [discriminate|]. destruct (Nat.ltb_spec (length w) len); [discriminate|].
  rewrite app_length.
  destruct (Nat.ltb_spec (3 + (length w + length rest)) len); [lia|]. destruct (Nat.ltb_spec (length w + length rest) len); [lia|].
  split; [|lia]. apply Ok_inj in E. injection E as En Er. rewrite <- Er. do 2 f_equal; [lia|]. f_equal.
  rewrite firstn_app. replace (len - length w)%nat with 0%nat by lia. cbn [firstn]. apply app_nil_r.
Qed.

Fixpoint steps (cfg : server_config) (d : draws) (now : Z) (h : server_hs) (recs : list record) : server_hs * outcome tls_error unit :=
  match recs with
  | [] => (h, Ok tt)
  | r :: t => let@ (h, _) := handle_handshake_record cfg d now h r in steps cfg d now h t
  end.
Lemma records_steps cfg d now : forall recs fuel h, Forall (fun r => record_from_raw (wire r) = Ok (length (wire r), r)) recs -> (length recs <= fuel)%nat ->
  server_records fuel cfg d now h (concat (map wire recs)) = steps cfg d now h recs.
Proof.
  induction recs as [|r recs IH]; intros fuel h W L.
  - cbn [map concat steps]. destruct fuel; reflexivity.
  - inversion W as [|? ? Wr W']; subst. destruct fuel as [|fuel]; [cbn [length] in L; lia|]. cbn [length] in L.
    cbn [map concat]. destruct (parse_prefix r (concat (map wire recs)) Wr) as (P & L5).
    destruct (wire r ++ concat (map wire recs)) as [|b buf] eqn:E.
    { apply app_eq_nil in E. destruct E as (E & _). rewrite E in L5. cbn in L5. lia. }
    cbn [server_records steps]. rewrite P, sbind_Ok. cbn [fst snd].
    assert (ES : skipn (length (wire r)) (b :: buf) = concat (map wire recs)) by (rewrite <- E; apply skipn_app_l).
    rewrite ES. destruct (handle_handshake_record cfg d now h r) as [h1 [u|e|]]; cbn [sbind]; try reflexivity. apply IH; [assumption|lia].
Qed.
Lemma wires_length recs : Forall (fun r => record_from_raw (wire r) = Ok (length (wire r), r)) recs -> (length recs <= length (concat (map wire recs)))%nat.
Proof.
  induction 1 as [|r recs Wr W IH]; [cbn; lia|]. cbn [map concat length]. rewrite app_length. destruct (parse_prefix r [] Wr). lia.
Qed.
Lemma whole_formed r : whole r -> wellformed r.
Proof. intros (W & B). exact (proj1 (parsed _ _ _ B W)). Qed.

(* ---- the tag has 16 bytes ---- *)
Lemma tag_16 c key nonce aad e : good_cipher c -> is_bytes key -> length key = fst (key_iv_len (cipher_get_suite c)) ->
  length (aead_tag_of (c_aead c) key nonce aad e) = 16%nat.
Proof.
  intros Hc Hk Lk. destruct c as [s|].
  - apply good_cipher_gcm in Hc. cbn [cipher_get_suite] in Lk.
    assert (length key = 16 \/ length key = 24 \/ length key = 32)%nat as K by (destruct Hc as [-> | ->]; cbn in Lk; lia).
    destruct (Proofs.Gcm.blocksize_of key K) as (bs & _ & Hl & Nk).
    cbn [c_aead aead_tag_of]. change (length key / 4)%nat with (Proofs.Gcm.nk_of key).
    unfold Sp80038d.tag. rewrite <- Nk. rewrite Proofs.Gcm.GCTR_length by assumption. apply be_enc_length.
  - apply Proofs.Chacha.aead_tag_length.
Qed.

(* ---- opening a record ---- *)
Local Opaque cipher_encrypt cipher_decrypt per_record_nonce aead_tag_of.
Lemma opened_decrypt H g p secret n rec t content :
  keyed H g p -> rp_application p = None ->
  peer_key p = key_at (Connection.traffic_key g secret) n -> good_key (cipher_get_suite (g_cipher g)) (Connection.traffic_key g secret) ->
  t <> RInvalid -> 0 <= n -> n + 1 < 2^64 ->
  opened (g_cipher g) (g_alg g) (g_klen g) secret n t content rec ->
  exists p', rpp_decrypt p rec = (p', Ok (t, content)).
Proof.
  intros (S & Hc & Hs) N Hk Gk Ht H0 H1 (e & tag & pad & Ef & Et & D). pose proof S as (EA & Gc & Ek & _).
  destruct Gk as (Bk & Lk & Bi & Li).
  assert (L16 : length tag = 16%nat) by (rewrite Et; apply tag_16; assumption).
  unfold rpp_decrypt. rewrite Ef, app_length, L16.
  destruct (Nat.ltb_spec (length e + 16) 16); [lia|]. replace (length e + 16 - 16)%nat with (length e) by lia.
  rewrite firstn_app_l, skipn_app_l. fold (peer_key p). rewrite Hk.
  rewrite per_record_nonce_spec by (cbn [key_at k_iv k_seq]; assumption).
  cbn [next_key key_at k_key k_iv k_seq]. rewrite Hc.
  change (k_key (Connection.traffic_key g secret)) with (write_key (g_alg g) secret (g_klen g)).
  change (k_iv (Connection.traffic_key g secret)) with (write_iv (g_alg g) secret 12).
  rewrite D. eexists. f_equal. apply strip_spec. exact Ht.
Qed.

(* ---- the answer to a ClientHello ---- *)
Lemma enc_total H g secret ms : forall p n, keyed H g p -> rp_application p = None ->
  side_key (rp_is_client p) (cur_keys p) = key_at (Connection.traffic_key g secret) n ->
  good_key (cipher_get_suite (g_cipher g)) (Connection.traffic_key g secret) -> 0 <= n -> n + zlen ms < 2^64 ->
  Forall (fun m => is_bytes m /\ zlen m + 17 < 2^16) ms -> exists q ws, enc_all p ms = Some (q, ws).
Proof.
  induction ms as [|m ms IH]; intros p n K A Sk Gk H0 H1 B; [cbn; eauto|].
  inversion B as [|? ? (Bm & Lm) Bms]; subst.
  assert (zlen (m :: ms) = zlen ms + 1) as Lz by (unfold zlen; cbn [length]; lia). pose proof (zlen_nonneg ms).
  pose proof K as (S & Hc & Hs). pose proof S as (_ & Gc & _).
  assert (KR : key_ready (rp_cipher p) (side_key (rp_is_client p) (cur_keys p))).
  { rewrite Sk, Hc. split; [exact Gk|]. cbn [key_at k_seq]. lia. }
  destruct (encrypt_sealed p RHandshake m KR ltac:(rewrite Hc; exact Gc) Bm Lm) as (w & Ew & Sw).
  set (p' := set_keys p (set_side (rp_is_client p) (cur_keys p) (next_key (side_key (rp_is_client p) (cur_keys p))))) in *.
  assert (Ic : rp_is_client p' = rp_is_client p) by apply set_keys_side.
  destruct (encrypt_same _ _ _ _ Ew) as (M1 & M2 & M3 & M4 & M5). fold p' in M1, M2, M3, M4, M5.
  destruct (IH p' (n + 1)) as (q & ws & E); try assumption; try lia.
  { unfold keyed. rewrite M1, M2. exact K. } { auto. }
  { rewrite Ic. unfold p'. rewrite cur_set_keys, side_set_same, Sk. reflexivity. }
  exists q, (w :: ws). cbn [enc_all]. rewrite Ew, E. reflexivity.
Qed.

Definition endless (s : stream) : Prop := so_left (st_sock s) = None.
Lemma flush_endless s : endless s -> exists s', flush s = (s', Ok tt) /\ endless s' /\ st_protection s' = st_protection s /\ out s' = out s.
Proof.
  intros N. destruct (flush_cases s) as [(so & F & So & L)|(so & rest & F & _ & L)]; [|contradiction].
  rewrite F. eexists. split; [reflexivity|]. split; [exact (L N)|]. split; [reflexivity|]. unfold out. cbn [st_sock st_buffer]. rewrite app_nil_r. exact So.
Qed.
Lemma write_fwd s t data : endless s ->
  match st_protection s with
  | None => exists s', write_record s t data = (s', Ok tt) /\ endless s' /\ st_protection s' = None
  | Some p => forall p' w, rpp_encrypt p (record_new t data) = (p', Ok w) ->
      exists s', write_record s t data = (s', Ok tt) /\ endless s' /\ st_protection s' = Some p'
  end.
Proof.
  intros N. unfold write_record, protect. destruct s as [so pr b]. cbn [st_protection st_sock st_buffer].
  assert (K : forall q w, exists s', (if Nat.leb 2048 (length (st_buffer (Stream so q (b ++ w)))) then flush (Stream so q (b ++ w)) else (Stream so q (b ++ w), Ok (E:=tls_error) tt))
     = (s', Ok tt) /\ endless s' /\ st_protection s' = q).
  { intros q w. destruct (Nat.leb _ _).
    - destruct (flush_endless (Stream so q (b ++ w)) N) as (s' & F & E & P & _). eauto.
    - eexists. split; [reflexivity|]. split; [exact N|reflexivity]. }
  destruct pr as [p|].
  - intros p' w E. rewrite E. cbn [sbind st_sock st_protection st_buffer]. exact (K (Some p') w).
  - cbn [sbind st_sock st_protection st_buffer]. exact (K None _).
Qed.
Lemma sv_write_clear h t data : endless (sv_stream h) -> st_protection (sv_stream h) = None ->
  exists s', sv_write h t data = (with_stream h s', Ok tt) /\ endless s' /\ st_protection s' = None.
Proof.
  intros N P. pose proof (write_fwd (sv_stream h) t data N) as W. rewrite P in W. destruct W as (s' & W & X). exists s'. unfold sv_write. now rewrite W.
Qed.
Lemma sv_write_prot h t data p p' w : endless (sv_stream h) -> st_protection (sv_stream h) = Some p -> rpp_encrypt p (record_new t data) = (p', Ok w) ->
  exists s', sv_write h t data = (with_stream h s', Ok tt) /\ endless s' /\ st_protection s' = Some p'.
Proof.
  intros N P E. pose proof (write_fwd (sv_stream h) t data N) as W. rewrite P in W. destruct (W _ _ E) as (s' & W' & X). exists s'. unfold sv_write. now rewrite W'.
Qed.

Lemma tshash_of cs c : suite_cipher cs = Ok c -> exists H, suite_tshash cs = Ok (th_new H).
Proof. destruct cs; try discriminate; cbn; eauto. Qed.
Lemma answers_facts cfg d hello ch body g : server_ok cfg d -> is_bytes hello -> zlen hello < 2^16 -> answers cfg d hello ch body g ->
  exists hs sh pk share H,
    handshake_from_raw hello = Ok hs /\ hs_type hs = HtClientHello /\ client_hello_from_raw (hs_fraqment hs) = Ok ch /\
    server_hello_from_client ch (d_random d) (d_secrets d) (sc_server_name cfg) = Ok (sh, pk) /\
    server_hello_bytes (E:=tls_error) sh = Ok body /\ g_hellos g = hello ++ Rfc8446Hello.handshake 2 body /\
    client_public_key_share (ch_exts ch) = Some share /\ suite_cipher (sh_suite sh) = Ok (g_cipher g) /\
    suite_tshash (sh_suite sh) = Ok (th_new H) /\ suited H g /\
    from_handshake (th_update (th_new H) (g_hellos g)) pk share = Ok (schedule_of H g).
Proof.
  intros Ok' Br Lr (hs & sh & pk & share & a & E1 & Et & E2 & E3 & E5 & Eg & Ek & Eg2 & Es & Ec & Ep).
  destruct (tshash_of _ _ Ec) as (H & E4). exists hs, sh, pk, share, H.
  pose proof Ok' as (_ & _ & _ & Brand & Lrand & _).
  destruct (message_read _ _ Br E1) as (extra & Em & Bhs & _).
  assert (Lhs : (length (hs_fraqment hs) <= length hello)%nat).
  { rewrite Em, app_length, handshake_length. lia. }
  destruct (client_hello_facts _ _ Bhs E2) as (Lex & _ & Bsid).
  destruct (server_hello_facts (E:=tls_error) _ _ _ _ _ _ _ Brand Lrand Bsid E3 E5) as (Bbody & Lbody).
  destruct (secret_ok _ _ _ Es) as (Be & Le).
  destruct (params_exist _ _ _ E4 Ec) as (a' & A & klen & Hpar & Et0 & EA & Eklen). rewrite Hpar in Ep. injection Ep as <- EA2 Ek2.
  rewrite Auth.th_type_new in EA.
  assert (S : suited H g).
  { unfold suited. split; [congruence|]. split; [exists (sh_suite sh); exact Ec|]. split; [congruence|]. rewrite Eg.
    split; [apply is_bytes_app; split; [exact Br|apply is_bytes_handshake; [unfold is_byte; lia|exact Bbody]]|].
    split; [|split; assumption]. unfold zlen in *. rewrite app_length, handshake_length. lia. }
  do 9 (split; [assumption|]). split; [exact S|].
  unfold from_handshake. rewrite Eg2, Es, bind_Ok. rewrite Auth.th_type_update, Auth.th_type_new, Hmac.th_digest.
  destruct (suited_schedule H g S) as (Sch & _). rewrite Sch. reflexivity.
Qed.

Local Opaque Ecdsa.sign_with sha256_spec sha256 ecdsa_sign.
Lemma cv_fwd {E} d0 t label nonces : Forall (fun k => 0 <= k) nonces ->
  (exists k, In k nonces /\ Ecdsa.sign_with d0 (Ecdsa.hash_int (sha256 (verify_content label (th_finalize t)))) k <> None) ->
  exists cv, certificate_verify_for_handshake (E:=E) (PrivateKey secp256r1 d0) t label nonces = Ok (Some cv).
Proof.
  intros Nn (k & Ik & Sk). unfold certificate_verify_for_handshake. rewrite EcdsaP256.p256_sign by exact Nn. rewrite bind_Ok.
  rewrite Auth.hash_int_32 in Sk by apply Auth.sha256_len.
  set (e := be_val (sha256 (verify_content label (th_finalize t)))) in *.
  destruct (flat_map (fun k => match Ecdsa.sign_with d0 e k with Some x => [x] | None => [] end) nonces) as [|[r s] l] eqn:F.
  - exfalso. destruct (Ecdsa.sign_with d0 e k) as [x|] eqn:Q; [|contradiction].
    assert (I : In x (flat_map (fun k => match Ecdsa.sign_with d0 e k with Some x => [x] | None => [] end) nonces)).
    { apply in_flat_map. exists k. split; [exact Ik|]. rewrite Q. left. reflexivity. }
    rewrite F in I. destruct I.
  - assert (I : In (r, s) ((r, s) :: l)) by (left; reflexivity). rewrite <- F in I. apply in_flat_map in I.
    destruct I as (k' & Ik' & Hk'). destruct (Ecdsa.sign_with d0 e k') as [x|] eqn:Q; [|destruct Hk']. destruct Hk' as [->|[]].
    rewrite Forall_forall in Nn. destruct (Auth.sign_range _ _ _ _ _ (Nn k' Ik') Q) as (Rr & Rs).
    destruct (Signature.round_trip (E:=E) r s Rr Rs) as (der & D & _). rewrite D, bind_Ok. eauto.
Qed.

Lemma enc_cons p m ms q ws : enc_all p (m :: ms) = Some (q, ws) ->
  exists p' w ws', rpp_encrypt p (record_new RHandshake m) = (p', Ok w) /\ enc_all p' ms = Some (q, ws').
Proof.
  cbn [enc_all]. destruct (rpp_encrypt p (record_new RHandshake m)) as [p' [w|e|]]; try discriminate.
  destruct (enc_all p' ms) as [[q1 ws1]|] eqn:E; [|discriminate]. intros H. injection H as <- _. eauto 6.
Qed.
Local Opaque handshake_from_raw client_hello_from_raw server_hello_from_client suite_tshash suite_cipher server_hello_bytes
  from_handshake rpp_new certificate_verify_for_handshake finished_handshake th_update certificate_for_handshake
  append_handshake_traffic_secrets rpp_encrypt certificate_request.
Lemma hello_fwd cfg d h rec ch body g :
  server_ok cfg d -> zlen (ct_raw (sc_cert cfg)) < 2^16 - 64 -> is_bytes (r_fragment rec) -> zlen (r_fragment rec) < 2^16 ->
  st_protection (sv_stream h) = None -> endless (sv_stream h) -> answers cfg d (r_fragment rec) ch body g -> can_sign cfg d g ->
  exists h', handle_client_hello cfg d h rec = (h', Ok tt) /\ endless (sv_stream h').
Proof.
  intros Ok' Lcert Br Lr P0 N0 A CS.
  pose proof Ok' as (Hcurve & Bcert & Lcert24 & Brand & Lrand & Bctx & Lctx & Nn & _).
  destruct (answers_facts _ _ _ _ _ _ Ok' Br Lr A) as (hs & sh & pk & share & H & E1 & Et & E2 & E3 & E5 & Eg & Ek & Ec & E4 & S & Fh).
  pose proof S as (EA & _ & _ & Bh & Lh & _). destruct (before_verify_ok cfg d Ok') as (BV1 & BV2).
  destruct (suited_schedule H g S) as (_ & _ & (Bss & Lss) & _).
  set (tv := th_update (th_new H) (g_hellos g ++ concat (before_verify cfg d))).
  assert (BM : is_bytes (g_hellos g ++ concat (before_verify cfg d))) by (apply is_bytes_app; auto).
  destruct (cv_fwd (E:=tls_error) (sk_secret (sc_privkey cfg)) tv l_server (d_nonces d) Nn) as (cv & Ecv).
  { destruct CS as (k & Ik & Sk). exists k. split; [exact Ik|]. unfold tv.
    rewrite (Auth.verify_digest H _ l_server server_context BM); [|rewrite zlen_app; lia|left; split; reflexivity]. rewrite <- EA. exact Sk. }
  destruct (Auth.cv_sent (E:=tls_error) _ _ _ _ _ Nn Ecv) as (k & r & s & der & _ & _ & _ & Ewire & Bder & Lder).
  assert (Epk : PrivateKey secp256r1 (sk_secret (sc_privkey cfg)) = sc_privkey cfg)
    by (destruct (sc_privkey cfg) as [cu kk]; cbn in Hcurve |- *; now rewrite Hcurve).
  rewrite Epk in Ecv. subst cv.
  destruct (before_finished_ok cfg d der Ok' Bder Lder) as (BF1 & BF2).
  pose proof (flight_sizes H cfg d g der Ok' S Bder Lder Lcert) as FS.
  destruct (suited_keys H g false S) as (p0 & Hp0 & Hk & G2 & G1). destruct (rpp_new_shape _ _ _ _ Hp0) as (N1 & N2 & N3 & N4).
  assert (K0 : keyed H g p0) by (unfold keyed; auto).
  assert (Sk : side_key (rp_is_client p0) (cur_keys p0) = key_at (Connection.traffic_key g (server_secret g)) 0)
    by (rewrite N3; unfold cur_keys; rewrite N4, Hk; reflexivity).
  assert (L9 : 0 + zlen (server_flight cfg d g der) < 2^64).
  { unfold server_flight, before_finished, before_verify, request, zlen. rewrite !app_length. cbn [length].
    destruct (sc_client_ca cfg); cbn [length]; lia. }
  destruct (enc_total H g (server_secret g) (server_flight cfg d g der) p0 0 K0 N4 Sk G2 ltac:(lia) L9 FS) as (q & ws & EN).
  (* run *)
  unfold handle_client_hello. rewrite E1, sbind_Ok, Et. change (negb (ht_eqb HtClientHello HtClientHello)) with false. cbv iota.
  rewrite E2, sbind_Ok, E3, sbind_Ok. cbv iota beta. rewrite E4, sbind_Ok, E5, sbind_Ok.
  destruct (sv_write_clear h RHandshake (handshake_to_bytes HtServerHello body) N0 P0) as (s1 & W1 & N5 & P1). rewrite W1, sbind_Ok.
  assert (X2 : exists s2, (match ch_sid ch with Some _ => sv_write (with_stream h s1) RChangeCipherSpec [1] | None => (with_stream h s1, Ok tt) end)
     = (with_stream h s2, Ok tt) /\ endless s2 /\ st_protection s2 = None).
  { destruct (ch_sid ch).
    - destruct (sv_write_clear (with_stream h s1) RChangeCipherSpec [1] N5 P1) as (s2 & W2 & X). exists s2. rewrite W2. split; [reflexivity|exact X].
    - exists s1. auto. }
  destruct X2 as (s2 & W2 & N6 & P2). rewrite W2, sbind_Ok, Ek.
  rewrite <- th_update_app, HelloTotal.to_bytes_wire. cbn [handshake_type_u8]. rewrite <- Eg. rewrite Fh, sbind_Ok, Ec, sbind_Ok, Hp0, sbind_Ok.
  change (server_exts_bytes (E:=tls_error) []) with (Ok (E:=tls_error) [0; 0]). rewrite sbind_Ok.
  match goal with |- context [sv_write (with_protection ?x (Some p0)) _ _] => set (hk := x) end.
  assert (Khk : sv_stream hk = s2) by (unfold hk; destruct (sc_keylog cfg); reflexivity). clearbody hk.
  rewrite !HelloTotal.to_bytes_wire. cbn [handshake_type_u8].
  assert (EC : certificate_for_handshake (sc_cert cfg) [0] = Rfc8446Hello.certificate_wire [] (ct_raw (sc_cert cfg)))
    by exact (Auth.certificate_bytes (sc_cert cfg) [] Lcert24).
  rewrite EC.
  assert (FIN : forall t, t = th_update (th_new H) (g_hellos g ++ concat (before_finished cfg d der)) ->
     finished_handshake (from_prk H (server_secret g)) t = Ok (Rfc8446Hello.handshake 20 (verify_data g (server_secret g) (g_hellos g ++ concat (before_finished cfg d der))))).
  { intros t ->. rewrite (Auth.finished_message H (server_secret g) _ Bss Lss); [unfold verify_data; now rewrite EA| |].
    - apply is_bytes_app; auto.
    - rewrite zlen_app. lia. }
  set (vd := Rfc8446Hello.handshake 20 (verify_data g (server_secret g) (g_hellos g ++ concat (before_finished cfg d der)))) in *.
  unfold server_flight in EN. fold vd in EN. unfold before_finished, before_verify in EN. cbn [app] in EN.
  apply enc_cons in EN. destruct EN as (p1 & w1 & ws1 & Q1 & EN).
  destruct (sv_write_prot (with_protection hk (Some p0)) RHandshake _ p0 p1 w1 ltac:(unfold with_protection; cbn; rewrite Khk; exact N6) eq_refl Q1) as (s3 & W3 & N7 & P3).
  change (Rfc8446Hello.vector16 []) with [0; 0] in W3. rewrite W3, sbind_Ok.
  assert (TL : forall t m1 l, th_update (th_update t m1) l = th_update t (m1 ++ l)) by (intros; symmetry; apply th_update_app).
  rewrite !TL.
  assert (X4 : exists h4 p4 ws4 t4, 
     match sc_client_ca cfg with
     | Some _ => let h0 := with_context (with_stream (with_protection hk (Some p0)) s3) (d_context d) in
         let@ (h1, req) := (h0, certificate_request (d_context d)) in
         let@ (h2, _) := sv_write h1 RHandshake (handshake_to_bytes HtCertificateRequest req) in
         (h2, Ok (th_update (th_update (th_new H) (g_hellos g ++ Rfc8446Hello.handshake 8 [0; 0])) (handshake_to_bytes HtCertificateRequest req)))
     | None => (with_stream (with_protection hk (Some p0)) s3, Ok (th_update (th_new H) (g_hellos g ++ Rfc8446Hello.handshake 8 [0; 0])))
     end = (h4, Ok t4) /\ endless (sv_stream h4) /\ st_protection (sv_stream h4) = Some p4 /\ rp_schedule p4 = rp_schedule p1 /\
     t4 = th_update (th_new H) (g_hellos g ++ Rfc8446Hello.handshake 8 [0; 0] ++ concat (request cfg d)) /\
     enc_all p4 [Rfc8446Hello.handshake 11 (Rfc8446Hello.certificate_wire [] (ct_raw (sc_cert cfg)));
                 Rfc8446Hello.handshake 15 (Rfc8446Hello.certificate_verify_wire 1027 der); vd] = Some (q, ws4)).
  { unfold request in EN |- *. destruct (sc_client_ca cfg).
    - cbn [app] in EN. apply enc_cons in EN. destruct EN as (p4 & w4 & ws4 & Q4 & EN).
      cbv zeta. rewrite request_body, sbind_Ok. rewrite HelloTotal.to_bytes_wire. cbn [handshake_type_u8]. rewrite <- req_wire.
      destruct (sv_write_prot (with_context (with_stream (with_protection hk (Some p0)) s3) (d_context d)) RHandshake _ p1 p4 w4 N7 P3 Q4) as (s4 & W4 & N8 & P4).
      rewrite W4, sbind_Ok. eexists _, p4, ws4, _. split; [reflexivity|]. split; [exact N8|]. split; [exact P4|].
      split; [exact (proj1 (encrypt_same _ _ _ _ Q4))|]. split; [|exact EN].
      rewrite TL. cbn [concat]. rewrite app_nil_r, app_assoc. reflexivity.
    - cbn [app] in EN. eexists _, p1, ws1, _. split; [reflexivity|]. split; [exact N7|]. split; [exact P3|]. split; [reflexivity|]. split; [|exact EN].
      cbn [concat]. rewrite app_nil_r. reflexivity. }
  destruct X4 as (h4 & p4 & ws4 & t4 & W4 & N8 & P4 & Sc4 & -> & EN4). cbv zeta in W4.
  setoid_rewrite W4. rewrite sbind_Ok.
  apply enc_cons in EN4. destruct EN4 as (p5 & w5 & ws5 & Q5 & EN5). apply enc_cons in EN5. destruct EN5 as (p6 & w6 & ws6 & Q6 & EN6).
  apply enc_cons in EN6. destruct EN6 as (p7 & w7 & ws7 & Q7 & _).
  destruct (sv_write_prot h4 RHandshake _ p4 p5 w5 N8 P4 Q5) as (s5 & W5 & N9 & P5). rewrite W5, sbind_Ok. rewrite TL.
  assert (ET : (g_hellos g ++ Rfc8446Hello.handshake 8 [0; 0] ++ concat (request cfg d)) ++
      Rfc8446Hello.handshake 11 (Rfc8446Hello.certificate_wire [] (ct_raw (sc_cert cfg))) = g_hellos g ++ concat (before_verify cfg d)).
  { unfold before_verify. cbn [app concat]. rewrite concat_app. cbn [concat]. rewrite app_nil_r, <- !app_assoc. reflexivity. }
  rewrite ET. fold tv. rewrite Ecv, sbind_Ok. cbn [unwrap]. rewrite sbind_Ok.
  rewrite !HelloTotal.to_bytes_wire. cbn [handshake_type_u8].
  destruct (sv_write_prot (with_stream h4 s5) RHandshake _ p5 p6 w6 N9 P5 Q6) as (s6 & W6 & N10 & P6). rewrite W6, sbind_Ok.
  cbn [with_stream sv_stream]. rewrite P6. cbn [unwrap]. rewrite sbind_Ok.
  assert (Sch : rp_schedule p6 = schedule_of H g).
  { destruct (encrypt_same _ _ _ _ Q1) as (A1 & _). destruct (encrypt_same _ _ _ _ Q5) as (A5 & _). destruct (encrypt_same _ _ _ _ Q6) as (A6 & _).
    congruence. }
  rewrite Sch. cbn [schedule_of ks_server_hs]. unfold tv. rewrite TL, <- app_assoc.
  rewrite FIN by (unfold before_finished; rewrite concat_app; cbn [concat]; rewrite app_nil_r; reflexivity). rewrite sbind_Ok.
  destruct (sv_write_prot (with_stream (with_stream h4 s5) s6) RHandshake _ p6 p7 w7 N10 P6 Q7) as (s7 & W7 & N11 & P7). rewrite W7, sbind_Ok.
  eexists. split; [reflexivity|]. exact N11.
Qed.
