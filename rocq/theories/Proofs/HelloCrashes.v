(* What brings a server down before any keys are agreed *)
From Verif Require Import Proofs.Util Proofs.Bytes Model.Alert Model.Bytes Model.Suite Model.Sha2 Model.Hmac Model.KeySchedule Model.Record Model.Channel
  Model.Curve Model.Ecdsa Model.Extensions Model.Hello Model.Kex Model.Handshake Model.Certificate
  Model.Stream Model.Keylog Model.Server Spec.Alerts Spec.Rfc8446Keys Spec.Tls13Record Spec.Endpoints Spec.Connection Spec.ClientConnection Spec.Crashes Spec.HelloPanics Spec.HelloCrashes.
From Verif Require Import Proofs.Record Proofs.Channel Proofs.Stream Proofs.ServerRun Proofs.ServerKeys Proofs.Opened Proofs.ServerFlow Proofs.ServerAccept Proofs.Reads Proofs.Alerting Proofs.Cuts Proofs.Crashes.
From Verif Require Proofs.Hmac Proofs.Auth Proofs.Hello Proofs.HelloTotal Proofs.HelloPanics Proofs.Kex Proofs.Negotiate Spec.Rfc8446Hello Spec.HelloView Spec.Negotiation Spec.KeyShare Spec.Rfc7748.

(* ---- the negotiation ---- *)
Definition in_range (s : Z) : Prop := 0 <= s < 2^256.
Definition secp_first (l : list kse) : Prop := exists a k b, l = a ++ KSE Secp256r1 k :: b /\ Forall (fun s => ks_group s <> X25519g) a.
Lemma agree_cases s l : in_range s -> secp_first l \/ agree_on l s = Ok None \/
  exists e, agree_on l s = Ok (Some (e, PrivateKey curve25519 s)) /\ exists w, kse_bytes (E:=tls_error) e = Ok w.
Proof.
  intros Hs. destruct (Kex.sent (E:=tls_error) s Hs) as (e & He & _ & Hw).
  induction l as [|[g k] l IH]; [right; left; reflexivity|]. cbn [agree_on ks_group].
  destruct g; try (left; exists [], k, l; split; [reflexivity|constructor]); try (right; right; exists e; rewrite He, bind_Ok; split; [reflexivity|eauto]);
    (destruct IH as [(a & k' & b & -> & F)|IH]; [left; eexists (_ :: a), k', b; split; [reflexivity|]; constructor; [discriminate|exact F]|right; exact IH]).
Qed.
Definition own_key (pk : option private_key) : Prop := match pk with Some p => exists s, in_range s /\ p = PrivateKey curve25519 s | None => True end.
Definition written (e : server_ext) : Prop := exists w, server_ext_bytes (E:=tls_error) e = Ok w.
Lemma negotiate_cases name l : forall secrets x pk, Forall in_range secrets -> own_key pk -> Forall written x ->
  (exists pre ks post, l = pre ++ CKeyShare ks :: post /\ secp_first ks) \/
  (exists e, negotiate name l secrets x pk = Err e) \/
  exists x' pk', negotiate name l secrets x pk = Ok (x', pk') /\ own_key pk' /\ Forall written x'.
Proof.
  assert (MORE : forall y t, (exists pre ks post, t = pre ++ CKeyShare ks :: post /\ secp_first ks) -> exists pre ks post, y :: t = pre ++ CKeyShare ks :: post /\ secp_first ks).
  { intros y t (pre & ks & post & -> & H). exists (y :: pre), ks, post. split; [reflexivity|exact H]. }
  induction l as [|y l IH]; intros secrets x pk F O W; [right; right; exists x, pk; auto|].
  assert (GO : forall secrets x pk, Forall in_range secrets -> own_key pk -> Forall written x -> (exists pre ks post, y :: l = pre ++ CKeyShare ks :: post /\ secp_first ks) \/
     (exists e, negotiate name l secrets x pk = Err e) \/ exists x' pk', negotiate name l secrets x pk = Ok (x', pk') /\ own_key pk' /\ Forall written x').
  { intros secrets' x' pk' F' O' W'. destruct (IH secrets' x' pk' F' O' W') as [H|H]; [left; now apply MORE|right; exact H]. }
  destruct y; cbn [negotiate]; try (apply GO; assumption);
    try (repeat match goal with |- context [match ?c with _ => _ end] => destruct c end; first [now apply GO | right; left; eexists; reflexivity]).
  set (s := hd 0 secrets). assert (Hs : in_range s) by (unfold s, in_range; destruct F; cbn [hd]; [split; [lia|reflexivity]|assumption]).
  match goal with |- context [agree_on ?ks s] => destruct (agree_cases s ks Hs) as [A|[A|(e & A & w & Hw)]] end.
  - left. eexists [], _, l. split; [reflexivity|exact A].
  - rewrite A, bind_Ok. now apply GO.
  - rewrite A, bind_Ok. apply GO; [destruct F; [constructor|assumption]|exists s; auto|]. apply Forall_app. split; [exact W|]. constructor; [|constructor].
    unfold written. cbn [server_ext_bytes]. unfold key_share_server_bytes. rewrite Hw, bind_Ok. eauto.
Qed.
Lemma written_all l : Forall written l -> exists w, concatM (server_ext_bytes (E:=tls_error)) l = Ok w.
Proof.
  induction 1 as [|x l (w & H) _ (v & IH)]; [eexists; reflexivity|]. cbn [concatM]. rewrite H, bind_Ok, IH, bind_Ok. eauto.
Qed.
Lemma public_in l share : client_public_key_share l = Some share -> exists pre ks post, l = pre ++ CKeyShare (share :: ks) :: post.
Proof.
  induction l as [|y l IH]; [discriminate|]. intros H.
  assert (GO : client_public_key_share l = Some share -> exists pre ks post, y :: l = pre ++ CKeyShare (share :: ks) :: post)
    by (intros H'; destruct (IH H') as (pre & ks & post & ->); exists (y :: pre), ks, post; reflexivity).
  destruct y as [| |[|k ks]| |]; cbn [client_public_key_share] in H; try (apply GO; exact H). injection H as ->. exists [], ks, l. reflexivity.
Qed.

Lemma hello_choice ch name random secrets : Forall in_range secrets ->
  share_trouble ch \/ (exists e, server_hello_from_client ch random secrets name = Err e) \/
  exists sh s, in_range s /\ server_hello_from_client ch random secrets name = Ok (sh, PrivateKey curve25519 s) /\ sh_suite sh <> SCSV /\
    (exists w, server_hello_bytes (E:=tls_error) sh = Ok w) /\
    (forall share, client_public_key_share (ch_exts ch) = Some share -> ks_group share = X25519g -> (length (ks_opaque share) <= 32)%nat).
Proof.
  intros F. unfold server_hello_from_client.
  destruct (negotiate_cases name (ch_exts ch) secrets [] None F I (Forall_nil _)) as [(pre & ks & post & E & a & k & b & -> & Fa)|[(e & E)|(x & pk & E & O & W)]].
  - left. left. exists pre, a, k, b, post. auto.
  - right. left. rewrite E. cbn [bind]. eauto.
  - rewrite E, bind_Ok. destruct pk as [pk|]; [|right; left; eauto]. destruct O as (s & Hs & ->).
    destruct (choose_suite (ch_suites ch) None) as [cs|] eqn:C; [|right; left; eauto].
    assert (NS : cs <> SCSV) by (apply Negotiate.choose_some in C; destruct C as ([(_ & C)|C] & _); [exact C|discriminate]).
    assert (SB : exists w, server_hello_bytes (E:=tls_error) (ServerHello random (ch_sid ch) cs (x ++ [SSupportedVersions true])) = Ok w).
    { unfold server_hello_bytes, server_exts_bytes. cbn [sh_exts sh_random sh_sid sh_suite].
      destruct (written_all (x ++ [SSupportedVersions true])) as (w & ->); [apply Forall_app; split; [exact W|]; constructor; [eexists; reflexivity|constructor]|]. rewrite !bind_Ok. eauto. }
    destruct (client_public_key_share (ch_exts ch)) as [[g k]|] eqn:P.
    2:{ right. right. eexists _, s. split; [exact Hs|]. split; [reflexivity|]. split; [exact NS|]. split; [exact SB|]. discriminate. }
    destruct (public_in _ _ P) as (pre & ks & post & Ex).
    assert (D : g = X25519g /\ (32 < length k)%nat \/ (g = X25519g -> (length k <= 32)%nat)).
    { destruct (Nat.leb_spec (length k) 32); [right; auto|]. destruct g; try (right; discriminate). left; auto. }
    destruct D as [(-> & L)|L]; [left; right; exists pre, k, ks, post; auto|].
    right. right. eexists _, s. split; [exact Hs|]. split; [reflexivity|]. split; [exact NS|]. split; [exact SB|].
    intros share H. injection H as <-. exact L.
Qed.

(* ---- writing ---- *)
Lemma sv_clear_total h t data h' o : st_protection (sv_stream h) = None -> sv_write h t data = (h', o) ->
  o <> Panic /\ (forall u, o = Ok u -> exists s, h' = with_stream h s /\ st_protection s = None).
Proof.
  intros P W. split.
  - intros ->. unfold sv_write in W. destruct (write_record (sv_stream h) t data) as [s r] eqn:W1. apply pair_equal_spec in W. destruct W as (_ & ->).
    unfold write_record, protect in W1. rewrite P in W1. cbn [sbind] in W1. destruct (Nat.leb _ _); [|discriminate].
    unfold flush in W1. destruct (write_all _ _) as [so' []]; discriminate.
  - intros u ->. apply sv_write_ok in W. destruct W as (s & w & -> & _ & Q). rewrite P in Q. destruct Q as (_ & Q). eauto.
Qed.
Lemma sv_write_total h t data p n h' o : st_protection (sv_stream h) = Some p -> speaks false n p -> n + 1 < 2^64 -> is_bytes data -> zlen data + 17 < 2^20 ->
  sv_write h t data = (h', o) -> o <> Panic /\ (forall u, o = Ok u -> exists s p', h' = with_stream h s /\ st_protection s = Some p' /\ speaks false (n + 1) p').
Proof.
  intros P Sp Hn B L W. split.
  - intros ->. unfold sv_write in W. destruct (write_record (sv_stream h) t data) as [s r] eqn:E. apply pair_equal_spec in W. destruct W as (_ & ->).
    destruct Sp as (Si & Gc & Gk & Rs). unfold write_record, protect in E. rewrite P in E.
    destruct (encrypt_any p t data) as (e & tg & En & _); [rewrite Si; split; [exact Gk|lia]|exact Gc|exact B|exact L|].
    rewrite En in E. cbn [sbind] in E. destruct (Nat.leb _ _); [|discriminate]. unfold flush in E. destruct (write_all _ _) as [so' []]; discriminate.
  - intros u ->. apply sv_write_ok in W. destruct W as (s & w & -> & _ & Q). rewrite P in Q. destruct Q as (p' & E & P'). exists s, p'. split; [reflexivity|]. split; [exact P'|].
    exact (speaks_encrypt _ _ _ _ _ _ Sp Hn E).
Qed.

(* ---- the key schedule ---- *)
Lemma from_handshake_total th s share : 0 <= s < 2^256 -> is_bytes (ks_opaque share) \/ ks_group share <> X25519g -> (ks_group share = X25519g -> (length (ks_opaque share) <= 32)%nat) ->
  from_handshake th (PrivateKey curve25519 s) share <> Panic.
Proof.
  intros Hs B L. destruct (ks_group share) eqn:G; try (rewrite Kex.other_groups by congruence; discriminate). destruct B as [B|B]; [|congruence].
  unfold from_handshake. rewrite G, Kex.shared_exact by (auto; apply L; reflexivity). rewrite bind_Ok. destruct (do_key_schedule _ _ _); discriminate.
Qed.
Lemma rpp_new_total ks c side : exists p, rpp_new (E:=tls_error) ks c side = Ok (Some p).
Proof.
  unfold rpp_new, handshake_keys, oobind. rewrite (surjective_pairing (key_iv_len (cipher_get_suite c))).
  destruct (hkdf_key_some (ks_server_hs ks) (cipher_get_suite c)) as (k1 & ->). cbn [bind]. destruct (hkdf_key_some (ks_client_hs ks) (cipher_get_suite c)) as (k2 & ->). cbn [bind]. eauto.
Qed.

(* the key shares of a hello made of bytes are made of bytes *)
Lemma slice_bytes {E} l i j r : is_bytes l -> slice (E:=E) l i j = Ok r -> is_bytes r.
Proof. unfold slice. intros B H. destruct (_ && _)%bool; [|discriminate]. injection H as <-. now apply is_bytes_firstn, is_bytes_skipn. Qed.
Lemma slice_from_bytes {E} l i r : is_bytes l -> slice_from (E:=E) l i = Ok r -> is_bytes r.
Proof. unfold slice_from. intros B H. destruct (Nat.leb _ _); [|discriminate]. injection H as <-. now apply is_bytes_skipn. Qed.
Definition byte_share (k : kse) : Prop := is_bytes (ks_opaque k).
Lemma kse_bytes_in buf n k : is_bytes buf -> kse_parse buf = Ok (n, k) -> byte_share k.
Proof.
  unfold kse_parse. intros B H. destruct (named_group_new _); [|discriminate]. apply bind_ok in H. destruct H as (b & _ & H). destruct (_ <? _); [|discriminate].
  apply bind_ok in H. destruct H as (o & Ho & H). injection H as _ <-. exact (slice_bytes _ _ _ _ B Ho).
Qed.
Lemma loop_shares fuel : forall buf i n l, is_bytes buf -> ks_loop fuel buf i n = Ok l -> Forall byte_share l.
Proof.
  induction fuel as [|f IH]; intros buf i n l B H; [discriminate|]. cbn [ks_loop] in H. apply bind_ok in H. destruct H as (b & Hb & H). apply bind_ok in H. destruct H as ((u & e) & He & H).
  pose proof (kse_bytes_in _ _ _ (slice_from_bytes _ _ _ B Hb) He) as Bs. destruct (Nat.leb u 7); [injection H as <-; constructor|].
  destruct (Nat.leb n (i + u)); [injection H as <-; constructor; [exact Bs|constructor]|]. apply bind_ok in H. destruct H as (r & Hr & H). injection H as <-. constructor; [exact Bs|exact (IH _ _ _ _ B Hr)].
Qed.
Lemma shares_in buf c l : is_bytes buf -> key_share_parse buf c = Ok l -> Forall byte_share l.
Proof. unfold key_share_parse. intros B H. destruct c; exact (loop_shares _ _ _ _ _ B H). Qed.
Definition byte_shares (e : client_ext) : Prop := match e with CKeyShare l => Forall byte_share l | _ => True end.
Definition byte_server_shares (e : server_ext) : Prop := match e with SKeyShare l => Forall byte_share l | _ => True end.
Lemma exts_shares fuel : forall rest l, is_bytes rest -> client_exts_loop fuel rest = Ok l -> Forall byte_shares l.
Proof.
  induction fuel as [|f IH]; intros rest l B H; destruct rest as [|x rest]; try (injection H as <-; constructor); try discriminate. cbn [client_exts_loop] in H.
  apply bind_ok in H. destruct H as (t & _ & H). apply bind_ok in H. destruct H as (sz & _ & H). cbv zeta in H.
  assert (B4 : is_bytes (skipn 4 (x :: rest))) by now apply is_bytes_skipn. pose proof (is_bytes_skipn (Z.to_nat (to_u16 sz)) _ B4) as Bn.
  destruct (ext_type_new _) as [[]|]; [| | |exact (IH _ _ Bn H)].
  all: apply bind_ok in H; destruct H as (b & Hb & H).
  all: repeat (apply bind_ok in H; let v := fresh "v" in let Hv := fresh "Hv" in destruct H as (v & Hv & H)); injection H as <-; constructor;
    try exact I; try (eapply IH; [exact Bn|eassumption]).
  cbn [byte_shares]. eapply shares_in; [|eassumption]. exact (slice_bytes _ _ _ _ B4 Hb).
Qed.
Lemma server_exts_shares fuel : forall rest l, is_bytes rest -> server_exts_loop fuel rest = Ok l -> Forall byte_server_shares l.
Proof.
  induction fuel as [|f IH]; intros rest l B H; destruct rest as [|x rest]; try (injection H as <-; constructor); try discriminate. cbn [server_exts_loop] in H.
  apply bind_ok in H. destruct H as (t & _ & H). apply bind_ok in H. destruct H as (sz & _ & H). cbv zeta in H.
  assert (B4 : is_bytes (skipn 4 (x :: rest))) by now apply is_bytes_skipn. pose proof (is_bytes_skipn (Z.to_nat (to_u16 sz)) _ B4) as Bn.
  destruct (ext_type_new _) as [[]|]; try exact (IH _ _ Bn H); try exact (IH _ _ B4 H).
  all: apply bind_ok in H; destruct H as (b & Hb & H).
  all: repeat (apply bind_ok in H; let v := fresh "v" in let Hv := fresh "Hv" in destruct H as (v & Hv & H)); injection H as <-; constructor;
    try exact I; try (eapply IH; [exact Bn|eassumption]).
  cbn [byte_server_shares]. eapply shares_in; [|eassumption]. exact (slice_bytes _ _ _ _ B4 Hb).
Qed.
Lemma hello_shares body ch : is_bytes body -> client_hello_from_raw body = Ok ch -> Forall byte_shares (ch_exts ch).
Proof.
  intros B H. unfold client_hello_from_raw in H. destruct (Nat.ltb _ _); [discriminate|]. apply bind_ok in H. destruct H as (v & _ & H). destruct (negb _); [discriminate|].
  apply bind_ok in H. destruct H as (r & _ & H). apply bind_ok in H. destruct H as (n & _ & H). apply bind_ok in H. destruct H as ((k & sid) & _ & H).
  apply bind_ok in H. destruct H as (sl & _ & H). destruct (_ || _)%bool; [discriminate|]. apply bind_ok in H. destruct H as (su & _ & H). apply bind_ok in H. destruct H as (el & _ & H).
  apply bind_ok in H. destruct H as (b & Hb & H). apply bind_ok in H. destruct H as (x & Hx & H). injection H as <-. cbn [ch_exts]. exact (exts_shares _ _ _ (slice_bytes _ _ _ _ B Hb) Hx).
Qed.
Lemma server_hello_shares body sh : is_bytes body -> server_hello_from_raw body = Ok sh -> Forall byte_server_shares (sh_exts sh).
Proof.
  intros B H. unfold server_hello_from_raw in H. destruct (Nat.ltb _ _); [discriminate|]. apply bind_ok in H. destruct H as (v & _ & H). destruct (negb _); [discriminate|].
  apply bind_ok in H. destruct H as (r & _ & H). apply bind_ok in H. destruct H as (n & _ & H). apply bind_ok in H. destruct H as ((k & sid) & _ & H).
  apply bind_ok in H. destruct H as (sl & _ & H). apply bind_ok in H. destruct H as (su & _ & H). apply bind_ok in H. destruct H as (el & _ & H).
  apply bind_ok in H. destruct H as (b & Hb & H). apply bind_ok in H. destruct H as (x & Hx & H). destruct (server_tls13 x); [|discriminate]. injection H as <-. cbn [sh_exts]. exact (server_exts_shares _ _ _ (slice_bytes _ _ _ _ B Hb) Hx).
Qed.
Lemma public_bytes ch share : Forall byte_shares (ch_exts ch) -> client_public_key_share (ch_exts ch) = Some share -> is_bytes (ks_opaque share).
Proof.
  intros F P. destruct (public_in _ _ P) as (pre & ks & post & E). rewrite E in F. apply Forall_app in F. destruct F as (_ & F). inversion F as [|? ? F1 _]; subst. now inversion F1.
Qed.

Lemma suite_total cs : cs <> SCSV -> exists H c, suite_tshash cs = Ok (th_new H) /\ suite_cipher cs = Ok c.
Proof. destruct cs; try congruence; cbn; eauto. Qed.

(* ---- the answer to a ClientHello ---- *)
Local Opaque handshake_from_raw client_hello_from_raw server_hello_from_client suite_tshash suite_cipher server_hello_bytes
  from_handshake rpp_new certificate_verify_for_handshake verify_data_for_finished th_update certificate_for_handshake
  append_handshake_traffic_secrets rpp_encrypt certificate_request handshake_to_bytes sv_write.
Ltac stop E := cbn [sbind] in E; apply pair_equal_spec in E; destruct E as (_ & E); discriminate E.
Lemma hello_total cfg d h rec hs h' : server_ok cfg d -> is_bytes (r_fragment rec) -> st_protection (sv_stream h) = None ->
  handshake_from_raw (r_fragment rec) = Ok hs -> hs_type hs = HtClientHello -> can_serve cfg d ->
  handle_client_hello cfg d h rec = (h', Panic) -> client_hello_panic (hs_fraqment hs) \/ exists ch, client_hello_from_raw (hs_fraqment hs) = Ok ch /\ share_trouble ch.
Proof.
  intros Ok' Br P0 E1 Et (Lcert & Fs & Sg) E. pose proof Ok' as (Hcurve & Bcert & Lcert24 & Brand & Lrand & Bctx & Lctx & Nn & _).
  assert (Bb : is_bytes (hs_fraqment hs)) by (destruct (message_read _ _ Br E1) as (extra & Ex & _); rewrite Ex in Br; apply is_bytes_app in Br; destruct Br as (Br & _); unfold Rfc8446Hello.handshake in Br;
    inversion Br as [|? ? _ Br']; subst; unfold Rfc8446Hello.vector24 in Br'; apply is_bytes_app in Br'; apply Br').
  unfold handle_client_hello in E. rewrite E1, sbind_Ok, Et in E. change (negb (ht_eqb HtClientHello HtClientHello)) with false in E. cbv iota in E.
  destruct (client_hello_from_raw (hs_fraqment hs)) as [ch|er|] eqn:Ech; [|stop E|left; now apply HelloPanics.client_hello_sort]. right. exists ch. split; [reflexivity|]. rewrite sbind_Ok in E.
  destruct (hello_choice ch (sc_server_name cfg) (d_random d) (d_secrets d) Fs) as [U|[(er & Ec)|(sh & s & Hs & Ec & Ncs & (w & Ew) & Kx)]]; [exact U|rewrite Ec in E; stop E|rewrite Ec in E]. exfalso.
  rewrite sbind_Ok in E. cbv iota beta in E.
  assert (Sc : exists H c, suite_tshash (sh_suite sh) = Ok (th_new H) /\ suite_cipher (sh_suite sh) = Ok c) by now apply suite_total.
  destruct Sc as (H & c & Eh & Ecs). rewrite Eh, sbind_Ok in E.
  rewrite Ew, sbind_Ok in E.
  destruct (sv_write h RHandshake _) as [h1 o1] eqn:W1 in E. destruct (sv_clear_total _ _ _ _ _ P0 W1) as (N1 & K1).
  destruct o1 as [u1|er|]; [|stop E|congruence]. rewrite sbind_Ok in E. destruct (K1 u1 eq_refl) as (s1 & -> & P1). clear K1 W1.
  assert (X2 : exists h2 o2, (match ch_sid ch with Some _ => sv_write (with_stream h s1) RChangeCipherSpec [1] | None => (with_stream h s1, Ok tt) end) = (h2, o2) /\
     o2 <> Panic /\ (forall u, o2 = Ok u -> exists s2, h2 = with_stream (with_stream h s1) s2 /\ st_protection s2 = None)).
  { destruct (ch_sid _).
    - destruct (sv_write (with_stream h s1) RChangeCipherSpec [1]) as [h2 o2] eqn:W2. exists h2, o2. split; [reflexivity|]. exact (sv_clear_total (with_stream h s1) _ _ _ _ P1 W2).
    - eexists _, _. split; [reflexivity|]. split; [discriminate|]. intros _ _. exists s1. split; [reflexivity|exact P1]. }
  destruct X2 as (h2 & o2 & W2 & N2 & K2). rewrite W2 in E. destruct o2 as [u2|er|]; [|stop E|congruence]. rewrite sbind_Ok in E. destruct (K2 u2 eq_refl) as (s2 & -> & P2). clear K2 W2.
  destruct (client_public_key_share (ch_exts ch)) as [share|] eqn:Ek in E; [|stop E]. set (t2 := th_update _ (handshake_to_bytes HtServerHello _)) in E.
  assert (FT : from_handshake t2 (PrivateKey curve25519 s) share <> Panic).
  { apply from_handshake_total; [exact Hs|left; exact (public_bytes ch share (hello_shares _ _ Bb Ech) Ek)|exact (Kx share Ek)]. }
  destruct (from_handshake t2 _ share) as [ks|er|]; [|stop E|congruence]. rewrite sbind_Ok, Ecs, sbind_Ok in E.
  destruct (rpp_new_total ks c false) as (p & Ep). rewrite Ep, sbind_Ok in E. pose proof (new_speaks ks c false p ltac:(exists (sh_suite sh); exact Ecs) Ep) as Sp.
  change (server_exts_bytes (E:=tls_error) []) with (Ok (E:=tls_error) [0; 0]) in E. rewrite sbind_Ok in E.
  match type of E with context [with_protection ?x (Some p)] => set (hk := x) in E end. clearbody hk.
  rewrite !HelloTotal.to_bytes_wire in E. cbn [handshake_type_u8] in E.
  destruct (sv_write _ RHandshake (Rfc8446Hello.handshake 8 [0; 0])) as [h3 o3] eqn:W3 in E.
  assert (B3 : is_bytes (Rfc8446Hello.handshake 8 [0; 0])) by (apply is_bytes_check; reflexivity).
  assert (L3 : zlen (Rfc8446Hello.handshake 8 [0; 0]) + 17 < 2^20) by reflexivity.
  destruct (sv_write_total (with_protection hk (Some p)) _ _ p 0 _ _ eq_refl Sp ltac:(lia) B3 L3 W3) as (N3 & K3).
  destruct o3 as [u3|er|]; [|stop E|congruence]. rewrite sbind_Ok in E. destruct (K3 u3 eq_refl) as (s3 & p3 & Eh3 & P3 & Sp3). clear K3 W3.
  assert (P3' : st_protection (sv_stream h3) = Some p3) by (rewrite Eh3; exact P3). clear Eh3 P3.
  match type of E with sbind ?x _ = _ => assert (X4 : exists h4 o4, x = (h4, o4) /\ o4 <> Panic /\ (forall t, o4 = Ok t -> exists p4, st_protection (sv_stream h4) = Some p4 /\ speaks false 2 p4)) end.
  { destruct (sc_client_ca cfg).
    - rewrite request_body, sbind_Ok. rewrite HelloTotal.to_bytes_wire. cbn [handshake_type_u8].
      assert (Br' : is_bytes (Rfc8446Hello.handshake 13 (req_body (d_context d))) /\ zlen (Rfc8446Hello.handshake 13 (req_body (d_context d))) + 17 < 2^20).
      { unfold zlen. rewrite handshake_length. unfold req_body. rewrite !app_length, Lctx. split; [|reflexivity]. apply is_bytes_handshake; [unfold is_byte; lia|].
        apply is_bytes_app. split; [constructor; [apply u8_range|constructor]|]. apply is_bytes_app. split; [exact Bctx|apply is_bytes_check; reflexivity]. }
      destruct (sv_write (with_context h3 (d_context d)) RHandshake _) as [h4 o4] eqn:W4.
      destruct (sv_write_total (with_context h3 (d_context d)) _ _ p3 (0 + 1) _ _ P3' Sp3 ltac:(lia) (proj1 Br') (proj2 Br') W4) as (N4 & K4).
      destruct o4 as [u4|er|]; [|eexists _, _; split; [reflexivity|]; split; discriminate|congruence]. rewrite sbind_Ok. eexists _, _. split; [reflexivity|]. split; [discriminate|].
      intros _ _. destruct (K4 u4 eq_refl) as (s4 & p4 & -> & P4 & Sp4). exists p4. split; [exact P4|exact Sp4].
    - eexists _, _. split; [reflexivity|]. split; [discriminate|]. intros _ _. exists p3. split; [exact P3'|]. eapply speaks_mono; [exact Sp3|lia]. }
  destruct X4 as (h4 & o4 & W4 & N4 & K4). rewrite W4 in E. clear W4. destruct o4 as [t4|er|]; [|stop E|congruence]. rewrite sbind_Ok in E. destruct (K4 t4 eq_refl) as (p4 & P4 & Sp4). clear K4.
  assert (EC : certificate_for_handshake (sc_cert cfg) [0] = Rfc8446Hello.certificate_wire [] (ct_raw (sc_cert cfg)))
    by exact (Auth.certificate_bytes (sc_cert cfg) [] Lcert24).
  rewrite EC in E. set (m5 := Rfc8446Hello.handshake 11 (Rfc8446Hello.certificate_wire [] (ct_raw (sc_cert cfg)))) in E.
  assert (B5 : is_bytes m5 /\ zlen m5 + 17 < 2^20).
  { unfold m5, zlen. rewrite handshake_length. unfold Rfc8446Hello.certificate_wire, Rfc8446Hello.vector8, Rfc8446Hello.vector24, Rfc8446Hello.vector16. rewrite !app_length, !be_enc_length. unfold zlen in Lcert. cbn [length]. split; [|lia].
    apply is_bytes_handshake; [unfold is_byte; lia|]. repeat first [assumption | apply be_enc_bytes | apply is_bytes_app; split]; constructor. }
  clearbody m5. destruct (sv_write h4 RHandshake m5) as [h5 o5] eqn:W5 in E. destruct (sv_write_total h4 _ _ p4 2 _ _ P4 Sp4 ltac:(lia) (proj1 B5) (proj2 B5) W5) as (N5 & K5).
  destruct o5 as [u5|er|]; [|stop E|congruence]. rewrite sbind_Ok in E. destruct (K5 u5 eq_refl) as (s5 & p5 & -> & P5 & Sp5). clear K5 W5.
  destruct (cv_fwd (E:=tls_error) (sk_secret (sc_privkey cfg)) (th_update t4 m5) l_server (d_nonces d) Nn) as (cv & Ecv); [apply Sg, Auth.sha256_len|].
  destruct (Auth.cv_sent (E:=tls_error) _ _ _ _ _ Nn Ecv) as (k & r & si & der & _ & _ & _ & Ewire & Bder & Lder).
  assert (Epk : PrivateKey secp256r1 (sk_secret (sc_privkey cfg)) = sc_privkey cfg)
    by (destruct (sc_privkey cfg) as [cu kk]; cbn in Hcurve |- *; now rewrite Hcurve).
  rewrite Epk in Ecv. rewrite Ecv, sbind_Ok in E. cbn [unwrap] in E. rewrite sbind_Ok in E. rewrite HelloTotal.to_bytes_wire in E. cbn [handshake_type_u8] in E.
  set (m6 := Rfc8446Hello.handshake 15 cv) in E.
  assert (B6 : is_bytes m6 /\ zlen m6 + 17 < 2^20).
  { unfold m6, zlen. rewrite handshake_length, Ewire. unfold Rfc8446Hello.certificate_verify_wire, Rfc8446Hello.u16, Rfc8446Hello.vector16. rewrite !app_length, !be_enc_length.
    split; [|lia]. apply is_bytes_handshake; [unfold is_byte; lia|]. repeat first [assumption | apply be_enc_bytes | apply is_bytes_app; split]. }
  clearbody m6. destruct (sv_write (with_stream h4 s5) RHandshake m6) as [h6 o6] eqn:W6 in E. destruct (sv_write_total (with_stream h4 s5) _ _ p5 (2 + 1) _ _ P5 Sp5 ltac:(lia) (proj1 B6) (proj2 B6) W6) as (N6 & K6).
  destruct o6 as [u6|er|]; [|stop E|congruence]. rewrite sbind_Ok in E. destruct (K6 u6 eq_refl) as (s6 & p6 & -> & P6 & Sp6). clear K6 W6.
  cbn [with_stream sv_stream] in E. rewrite P6 in E. cbn [unwrap] in E. rewrite sbind_Ok in E. unfold finished_handshake in E.
  match type of E with context [verify_data_for_finished ?a ?b] => pose proof (Crashes.verify_total a b) as V; destruct (verify_data_for_finished a b) as [v|er|] eqn:Ev end; [|cbn [Base.bind] in E; stop E|congruence].
  assert (BV : is_bytes v /\ (length v <= 48)%nat).
  { Local Transparent verify_data_for_finished. unfold verify_data_for_finished in Ev. Local Opaque verify_data_for_finished. destruct (hkdf_expand _ _ _); [|discriminate]. injection Ev as <-. split; [apply Hmac.hmac_bytes|].
    rewrite Hmac.hmac_length. destruct (th_type _); cbn; lia. }
  rewrite bind_Ok, sbind_Ok, HelloTotal.to_bytes_wire in E. cbn [handshake_type_u8] in E. set (m7 := Rfc8446Hello.handshake 20 v) in E.
  assert (B7 : is_bytes m7 /\ zlen m7 + 17 < 2^20) by (unfold m7, zlen; rewrite handshake_length; split; [apply is_bytes_handshake; [unfold is_byte; lia|apply BV]|lia]).
  clearbody m7. destruct (sv_write _ RHandshake m7) as [h7 o7] eqn:W7 in E. destruct (sv_write_total (with_stream (with_stream h4 s5) s6) _ _ p6 (2 + 1 + 1) _ _ P6 Sp6 ltac:(lia) (proj1 B7) (proj2 B7) W7) as (N7 & K7).
  destruct o7 as [u7|er|]; [|stop E|congruence]. rewrite sbind_Ok in E. discriminate.
Qed.

(* ---- the first record ---- *)
Local Opaque handle_client_hello.
Lemma hello_cut cfg d x : is_bytes x -> record_from_raw x = Panic -> hello_crash cfg d x.
Proof.
  intros B E. destruct x as [|t [|v1 [|v2 [|a [|b rest]]]]]; try (unfold record_from_raw in E; discriminate E).
  apply panics_exactly in E; [|exact B]. destruct E as (I & L). exact (hcrash_cut _ _ _ t v1 v2 a b rest eq_refl I L).
Qed.
Lemma idx_short (l : list Z) n : idx (E:=tls_error) l n = Panic -> (length l <= n)%nat.
Proof. unfold idx. destruct (nth_error l n) eqn:E; [discriminate|]. intros _. now apply nth_error_None. Qed.
Lemma first_panics cfg d now h rec h' x n : server_ok cfg d -> wellformed rec -> record_from_raw x = Ok (n, rec) -> sv_state h = SvClientHello -> st_protection (sv_stream h) = None ->
  handle_handshake_record cfg d now h rec = (h', Panic) -> hello_crash cfg d x.
Proof.
  intros Ok' (_ & _ & Bf & _) Px St P0 E. Local Transparent handle_handshake_record. unfold handle_handshake_record in E. Local Opaque handle_handshake_record. rewrite St in E.
  destruct (r_type rec) eqn:T; try discriminate E.
  - destruct (idx (r_fragment rec) 1) as [c|e|] eqn:I; [discriminate|discriminate|]. apply idx_short in I. eapply hcrash_alert; [exact Px|exact T|lia].
  - destruct (handshake_from_raw (r_fragment rec)) as [hs|e|] eqn:F.
    + destruct (ht_eqb (hs_type hs) HtClientHello) eqn:Th.
      * apply ht_eqb_eq in Th. destruct (frame_body (r_fragment rec) hs 1 Bf F ltac:(rewrite Th; reflexivity)) as (rest & Em).
        eapply hcrash_hello; [exact Px|exact T|exact Em|]. intros C. exact (hello_total cfg d h rec hs h' Ok' Bf P0 F Th C E).
      * Local Transparent handle_client_hello. unfold handle_client_hello in E. Local Opaque handle_client_hello. rewrite F, sbind_Ok, Th in E. discriminate E.
    + Local Transparent handle_client_hello. unfold handle_client_hello in E. Local Opaque handle_client_hello. rewrite F in E. discriminate E.
    + destruct (frame_panics _ Bf F) as (ty & b1 & b2 & b3 & rest & Em & L). eapply hcrash_frame; eassumption.
Qed.

Definition crashed (cfg : server_config) (d : draws) (bytes : list Z) (reads : list (list Z)) : Prop :=
  exists read done y x rest, In read reads /\ read = done ++ y /\ whole_records done /\ begun cfg d x /\ bytes = wire (gr_hello x) ++ rest /\ crash cfg bytes (gr_g x) y.
Lemma from_start cfg d now so reads h' : server_ok cfg d -> Forall is_bytes reads -> zlen (concat reads) < 2^60 ->
  server_do_handshake cfg d now (server_new so) reads = (h', Some Panic) ->
  (exists read rest, reads = read :: rest /\ hello_crash cfg d read) \/ crashed cfg d (concat reads) reads.
Proof.
  intros Ok' F Ls E. set (h := server_new so) in *. assert (Hh : held cfg d h []) by (split; [reflexivity|split; reflexivity]).
  assert (St : sv_state h = SvClientHello) by reflexivity. assert (P0 : st_protection (sv_stream h) = None) by reflexivity. clearbody h.
  destruct reads as [|c reads]; [cbn [server_do_handshake] in E; rewrite St in E; discriminate|].
  rewrite loop_cons in E by congruence. unfold one_read in E. inversion F as [|? ? Fc Fr]; subst. cbn [concat] in Ls |- *.
  destruct c as [|b c]; [discriminate E|]. cbn [tcp_read] in E. rewrite sbind_Ok in E.
  remember (b :: c) as rx eqn:Erx. assert (Sr : server_records (length rx) cfg d now h rx = (let@ (h, cr) := (h, record_from_raw rx) in let@ (h, _) := handle_handshake_record cfg d now h (snd cr) in server_records (length c) cfg d now h (skipn (fst cr) rx)))
    by (subst rx; reflexivity).
  assert (Lc : length rx = S (length c)) by (subst; reflexivity). clear Erx.
  rewrite Sr in E. clear Sr. destruct (record_from_raw rx) as [[n rec]|e|] eqn:R.
  2:{ cbn [sbind] in E. discriminate E. }
  2:{ left. exists rx, reads. split; [reflexivity|]. now apply hello_cut. }
  rewrite sbind_Ok in E. cbn [fst snd] in E. destruct (parsed _ _ _ Fc R) as (W & Ew & Er & Hn).
  destruct (handle_handshake_record cfg d now h rec) as [h1 [u|e|]] eqn:E2.
  2:{ cbn [sbind] in E. discriminate E. }
  2:{ left. exists rx, reads. split; [reflexivity|]. exact (first_panics _ _ _ _ _ _ _ _ Ok' W R St P0 E2). }
  rewrite sbind_Ok in E. right. assert (L0 : zlen (@nil Z) < 2^60) by reflexivity. pose proof (record_held _ _ _ _ _ _ _ _ Ok' W Er L0 Hh E2) as H1. cbn [app] in H1.
  assert (N1 : sv_state h1 <> SvClientHello) by (apply (held_later _ _ _ _ H1); exact (seen_none rec [] (proj1 (proj2 W)))).
  assert (Es : rx = wire rec ++ skipn n rx) by (rewrite <- Ew, firstn_skipn; reflexivity).
  assert (L1 : zlen (wire rec ++ skipn n rx) < 2^60) by (rewrite <- Es; rewrite zlen_app in Ls; pose proof (zlen_nonneg (concat reads)); lia).
  assert (Lk : (length (skipn n rx) <= length c)%nat) by (rewrite skipn_length; lia).
  destruct (server_records (length c) cfg d now h1 (skipn n rx)) as [h2 [u2|e|]] eqn:S2.
  - pose proof (records_held _ _ _ _ _ _ _ _ _ Ok' (is_bytes_skipn _ _ Fc) Lk L1 H1 S2) as H2. cbv iota beta in H2. rewrite <- Es in H2. rewrite sbind_Ok in E.
    destruct (sv_flush h2) as [h3 [u3|e|]] eqn:Fl; [|discriminate E|destruct (flush_total _ _ Fl)]. pose proof (flush_held _ _ _ _ _ _ Fl H2) as H3.
    assert (N3 : sv_state h3 <> SvClientHello) by (apply (held_later _ _ _ _ H3); intros X; rewrite X in Lc; discriminate).
    pose proof (loop_held _ _ _ _ _ _ _ _ Ok' Fr Ls H3 E N3) as (read & done & y & x & rest & I & X). exists read, done, y, x, rest. split; [right; exact I|exact X].
  - cbn [sbind] in E. discriminate E.
  - pose proof (records_held _ _ _ _ _ _ _ _ _ Ok' (is_bytes_skipn _ _ Fc) Lk L1 H1 S2 N1) as (done & y & x & rest & E4 & Wd & G & E5 & C).
    exists rx, (wire rec ++ done), y, x, (rest ++ y ++ concat reads). split; [left; reflexivity|].
    assert (Ex : rx = (wire rec ++ done) ++ y) by (rewrite <- app_assoc, <- E4; exact Es).
    split; [exact Ex|]. split; [now apply records_cons|]. split; [exact G|]. split.
    + rewrite app_assoc, <- E5. rewrite Ex at 1. rewrite <- !app_assoc. reflexivity.
    + rewrite Ex at 1. rewrite <- (app_assoc _ y). now apply crash_more.
Qed.

Lemma all_crashes cfg d now so reads : server_ok cfg d -> Forall is_bytes reads -> zlen (concat reads) < 2^60 -> snd (accept cfg d now so reads) = Some Panic ->
  (exists read rest, reads = read :: rest /\ hello_crash cfg d read) \/
  exists hello rest ch body g read done x, concat reads = wire hello ++ rest /\ record_from_raw (wire hello) = Ok (length (wire hello), hello) /\
    r_type hello = RHandshake /\ answers cfg d (r_fragment hello) ch body g /\ In read reads /\ read = done ++ x /\ whole_records done /\ crash cfg (concat reads) g x.
Proof.
  intros Ok' F L Pa. unfold accept in Pa. pose proof (loop_talk cfg d now reads _ (new_fresh so)) as T.
  destruct (server_do_handshake cfg d now (server_new so) reads) as [h' o] eqn:E. cbn [fst] in T.
  destruct o as [[u|e|]|]; try discriminate Pa.
  - exfalso. destruct (report_error (sv_stream h') e) as [s o] eqn:Re. cbn [snd] in Pa.
    destruct (report_spec _ _ _ _ _ _ T ltac:(lia) Re) as (R1 & R2). destruct (is_official e) eqn:Oe.
    + apply official_code in Oe. destruct (R2 Oe) as (w & _ & [(_ & X)|(k & _ & _ & _ & X)]); rewrite X in Pa; discriminate Pa.
    + assert (C : rfc8446_code e = None) by (destruct (rfc8446_code e) eqn:C; [|reflexivity]; assert (X : is_official e = true) by (apply official_code; congruence); congruence).
      destruct (R1 C) as (_ & X). rewrite X in Pa. discriminate Pa.
  - destruct (from_start _ _ _ _ _ _ Ok' F L E) as [H|(read & done & y & x & rest & I & E4 & Wd & ((Tg & An & _) & Pr) & E5 & C)]; [left; exact H|].
    right. exists (gr_hello x), rest, (gr_ch x), (gr_body x), (gr_g x), read, done, y. auto 10.
Qed.
