(* A server and a client with keys, and records by somebody without them, for the examples *)
From Verif Require Import Proofs.Util Model.Alert Model.Suite Model.KeySchedule Model.Record Model.Handshake Model.Stream Model.Server Model.Client
  Spec.Rfc8446Keys Spec.Tls13Record Spec.Connection Spec.ClientConnection Spec.Handshaking Spec.Endpoints Spec.Ends.
From Verif Require Import Proofs.Record Proofs.ServerKeys Proofs.ServerRun Proofs.ServerAccept Proofs.ClientSteps Proofs.ClientReads.
From Verif Require Proofs.Bytes Proofs.ClientHandshakeExample Proofs.HandshakeExample Proofs.ServerExample Proofs.LoopbackExample Proofs.Loopback.

Definition listens (p : rpp) : Prop := good_cipher (rp_cipher p) /\ key_ready (rp_cipher p) (side_key (negb (rp_is_client p)) (cur_keys p)).
Local Opaque rpp_decrypt record_from_raw handle_server_hello aead_tag_of.

(* of two records that differ in nothing but the tag one fails *)
Lemma forged p : listens p -> exists r, whole r /\ r_type r = RApplicationData /\ snd (rpp_decrypt p r) = Err DecryptError.
Proof.
  intros (Gc & K).
  assert (T : forall b, 0 <= b < 256 -> exists r, whole r /\ r_type r = RApplicationData /\ r_fragment r = repeat b 16 /\ r_header r = [23; 3; 3; 0; 16]).
  { intros b Hb. assert (Bb : is_bytes (repeat b 16)) by (apply Forall_forall; intros x I; apply repeat_spec in I; subst; exact Hb).
    destruct (Proofs.Loopback.clear_record RApplicationData (repeat b 16) Bb ltac:(unfold zlen; rewrite repeat_length; lia)) as (r & W & Ty & F & E).
    exists r. split; [exact W|]. split; [exact Ty|]. split; [exact F|]. pose proof (whole_formed _ W) as (_ & L5 & _). apply (f_equal (firstn 5)) in E.
    unfold wire in E. rewrite firstn_app_eq in E by (symmetry; exact L5). rewrite E. reflexivity. }
  destruct (T 0 ltac:(lia)) as (r0 & W0 & T0 & F0 & H0). destruct (T 1 ltac:(lia)) as (r1 & W1 & T1 & F1 & H1). clear T.
  set (right := aead_tag_of (c_aead (rp_cipher p)) (k_key (side_key (negb (rp_is_client p)) (cur_keys p)))
    (record_nonce (k_iv (side_key (negb (rp_is_client p)) (cur_keys p))) (k_seq (side_key (negb (rp_is_client p)) (cur_keys p)))) [23; 3; 3; 0; 16] []).
  assert (X : forall r b, whole r -> r_fragment r = repeat b 16 -> r_header r = [23; 3; 3; 0; 16] -> repeat b 16 <> right -> snd (rpp_decrypt p r) = Err DecryptError).
  { intros r b W F Hh N. pose proof (whole_formed _ W) as (Bh & Lh & Bf & Lf).
    destruct (decrypt_cases p r Gc K Bf Bh Lf ltac:(unfold zlen; rewrite Lh; lia)) as [(L & _)|(e & t & Ef & Lt & D)]; [rewrite F, repeat_length in L; lia|].
    assert (e = []) as ->. { apply (f_equal (@length Z)) in Ef. rewrite F, repeat_length, app_length, Lt in Ef. destruct e; [reflexivity|cbn in Ef; lia]. }
    cbn [app] in Ef. rewrite Hh in D. cbv zeta in D. fold right in D. destruct D as [(Et & _)|(_ & ->)]; [|reflexivity]. rewrite <- Ef, F in Et. contradiction. }
  destruct (list_eq_dec Z.eq_dec (repeat 0 16) right) as [E|N].
  - exists r1. split; [exact W1|]. split; [exact T1|]. apply (X r1 1 W1 F1 H1). rewrite <- E. discriminate.
  - exists r0. split; [exact W0|]. split; [exact T0|]. exact (X r0 0 W0 F0 H0 N).
Qed.
Lemma whole_read p r : whole r -> sealed_out p r -> unkeyed p (wire r).
Proof. intros (P & _) (S1 & S2). apply (unkeyed_record p _ _ _ P S1 S2). rewrite skipn_all. constructor. Qed.
Lemma forged_out p r er : r_type r = RApplicationData -> snd (rpp_decrypt p r) = Err er -> sealed_out p r.
Proof. intros T D. split; [congruence|]. eauto. Qed.
Lemma ccs_record : exists r, whole r /\ r_type r = RChangeCipherSpec /\ wire r = [20; 3; 3; 0; 1; 1].
Proof. destruct (Proofs.Loopback.clear_record RChangeCipherSpec [1]) as (r & W & T & _ & E); [apply is_bytes_check; reflexivity|reflexivity|]. exists r. auto. Qed.
Lemma ccs_out p r : r_type r = RChangeCipherSpec -> sealed_out p r.
Proof. intros T. split; [congruence|]. congruence. Qed.

(* the server: reads a change_cipher_spec and waits; then a record that fails *)
Lemma server_keyed_bytes : exists cfg d now so before h p, accept cfg d now so before = (h, None) /\ st_protection (sv_stream h) = Some p /\ listens p /\
  sv_state h <> SvClientHello /\ server_ok cfg d /\ Forall is_bytes before /\ zlen (concat before) < 2^17.
Proof.
  destruct (ServerExample.ex_answered false) as (body & g & A).
  assert (Bf : is_bytes ServerExample.ex_first) by (apply is_bytes_check; vm_compute; reflexivity).
  assert (Lf : zlen ServerExample.ex_first < 2^16) by (vm_compute; reflexivity).
  destruct (ServerExample.hello_record ServerExample.ex_first Bf Lf) as (hello & Wh & Th & Fh). rewrite <- Fh in A.
  assert (Lc : zlen (Certificate.ct_raw (sc_cert (ServerExample.ex_cfg false))) < 2^16 - 64)
    by (change (Certificate.ct_raw (sc_cert (ServerExample.ex_cfg false))) with ServerExample.own_raw; rewrite ServerExample.own_length; lia).
  destruct (HandshakeExample.hello_waits_keyed (ServerExample.ex_cfg false) ServerExample.ex_draws ServerExample.own_now ServerExample.ex_sock hello _ body g
    (ServerExample.ex_server_ok false) Lc eq_refl Wh Th A (ServerExample.ex_can_sign false g)) as (h & p & E & P & N & L).
  exists (ServerExample.ex_cfg false), ServerExample.ex_draws, ServerExample.own_now, ServerExample.ex_sock, [wire hello], h, p.
  pose proof (whole_formed _ Wh) as (Bh & Lh & Bw & Lw).
  split; [exact E|]. split; [exact P|]. split; [exact L|]. split; [exact N|]. split; [exact (ServerExample.ex_server_ok false)|]. unfold wire.
  split; [constructor; [apply Forall_app; split; assumption|constructor]|]. cbn [concat]. rewrite app_nil_r, Proofs.Bytes.zlen_app. unfold zlen in *. rewrite Lh. lia.
Qed.
Lemma server_keyed : exists cfg d now so before h p, accept cfg d now so before = (h, None) /\ st_protection (sv_stream h) = Some p /\ listens p /\
  sv_state h <> SvClientHello.
Proof. destruct server_keyed_bytes as (cfg & d & now & so & before & h & p & A & P & L & N & _). exists cfg, d, now, so, before, h, p. auto. Qed.

(* the client after the ServerHello *)
Lemma client_keyed cfg e now so first h1 : client_ok cfg e -> whole first -> r_type first = RHandshake -> connect cfg e now so [wire first] = (h1, None) ->
  exists p, st_protection (cl_stream h1) = Some p /\ listens p.
Proof.
  intros Ok' W T E. apply connect_none in E. destruct E as (h0 & u & S & E). destruct (hello_idle _ _ _ _ _ S) as (I & St & _).
  destruct (hello_sent _ _ _ _ _ Ok' S) as (Eh & _ & _ & _). pose proof (whole_formed _ W) as (_ & _ & Bf & Lf). pose proof (proj1 W) as P.
  rewrite wire1, reads_group in E; [|congruence|exact I|discriminate|constructor; [exact P|constructor]].
  cbn [csteps] in E. unfold client_record in E. rewrite T, St in E.
  destruct (handle_server_hello cfg h0 first) as [h2 [u1|er|]] eqn:H; cbn [sbind then_reads] in E; try discriminate.
  destruct (server_hello_step cfg e h0 first h2 u1 Ok' Bf Lf) as (HH & sh & g & p0 & A & Su & N & Es & _ & St' & _); try exact H; try (rewrite Eh; reflexivity).
  cbn [client_reads] in E. rewrite St' in E. injection E as <-. exists p0. rewrite Es. split; [reflexivity|].
  pose proof Su as (_ & Gc & _). destruct (suited_keys _ _ true Su) as (q & Hq & Kq & G1 & G2). rewrite Hq in N. apply Ok_inj in N. injection N as ->.
  destruct (rpp_new_shape _ _ _ _ Hq) as (_ & N2 & N3 & N4). unfold listens. rewrite N2, N3. unfold cur_keys. rewrite N4, Kq.
  cbn [negb side_key wk_client wk_server]. split; [exact Gc|]. split; [exact G1|]. cbn [Connection.traffic_key k_seq]. lia.
Qed.
Lemma client_keyed_ex : exists cfg e now so first h1 p, whole first /\ r_type first = RHandshake /\ connect cfg e now so [wire first] = (h1, None) /\
  st_protection (cl_stream h1) = Some p /\ listens p.
Proof.
  destruct ClientHandshakeExample.ex_client_ok as (cfg & e & first & more & Ok' & W & P & _ & T & _ & h & E).
  destruct (ClientHandshakeExample.ex_waits _ _ _ _ _ _ _ P T E) as (_ & h1 & E1 & _).
  destruct (client_keyed _ _ _ _ _ _ Ok' W T E1) as (p & Hp & L). exists cfg, e, ServerExample.own_now, ClientHandshakeExample.ex_out, first, h1, p. auto.
Qed.
Lemma client_keyed_ok : exists cfg e now so first h1 p, client_ok cfg e /\ whole first /\ r_type first = RHandshake /\ connect cfg e now so [wire first] = (h1, None) /\
  st_protection (cl_stream h1) = Some p.
Proof.
  destruct ClientHandshakeExample.ex_client_ok as (cfg & e & first & more & Ok' & W & P & _ & T & _ & h & E).
  destruct (ClientHandshakeExample.ex_waits _ _ _ _ _ _ _ P T E) as (_ & h1 & E1 & _).
  destruct (client_keyed _ _ _ _ _ _ Ok' W T E1) as (p & Hp & L). exists cfg, e, ServerExample.own_now, ClientHandshakeExample.ex_out, first, h1, p. auto.
Qed.
