(* A server with a client CA lets in whom the CA did not name *)
From Verif Require Import Proofs.Util Proofs.Bytes Model.Alert Model.Record Model.Signature Model.X509 Model.Certificate Model.Stream Model.Server
  Spec.Enc Spec.Fips180 Spec.Rfc8446Auth Spec.Tls13Record Spec.Calendar Spec.X509 Spec.X509View Spec.Connection Spec.Impersonation.
From Verif Require Spec.Rfc8446Hello Proofs.X509Cert Proofs.Time Proofs.ServerAccept2 Proofs.ServerProps.

Lemma valid_now {E} nb na now : time_ok nb -> time_ok na -> 1970 <= year nb -> 1970 <= year na ->
  unix_time nb <= now <= unix_time na - 86400 ->
  is_valid (E:=E) {| v_not_before := Some (as_utc nb); v_not_after := Some (as_utc na) |} now = Ok true.
Proof.
  intros (Vb & _) (Va & _) Yb Ya H.
  destruct (Time.is_valid_both (as_utc nb) (as_utc na) _ _ now (Time.unix_of (E:=E) nb Vb Yb) (Time.unix_of (E:=E) na Va Ya)) as (r & R & Hr).
  rewrite R. f_equal. apply Hr.
  assert (D : forall i, 0 <= Time.lost_day i <= 86400) by (intros i; unfold Time.lost_day; destruct (_ && _); lia).
  pose proof (D nb). pose proof (D na). lia.
Qed.

Lemma key_any {E F} (x : x509) k : X509.get_public_key (E:=E) x = Ok (Some k) -> X509.get_public_key (E:=F) x = Ok (Some k).
Proof.
  unfold X509.get_public_key. destruct (ai_algorithm (x_spki_alg x)); try discriminate.
  destruct (ai_parameters (x_spki_alg x)) as [[]|]; try discriminate.
  assert (I : forall i v, idx (E:=E) (x_spki_key x) i = Ok v -> idx (E:=F) (x_spki_key x) i = Ok v).
  { intros i v. unfold idx. destruct (nth_error (x_spki_key x) i); cbn [unwrap]; congruence. }
  assert (L : forall a b v, slice (E:=E) (x_spki_key x) a b = Ok v -> slice (E:=F) (x_spki_key x) a b = Ok v).
  { intros a b v. unfold slice. destruct (Nat.leb a b && Nat.leb b (length (x_spki_key x)))%bool; congruence. }
  cbv zeta. destruct (idx (E:=E) (x_spki_key x) 0) as [z| |] eqn:E0; cbn [bind]; try discriminate. rewrite (I _ _ E0). cbn [bind].
  destruct (negb (z =? 4)); [discriminate|].
  destruct (slice (E:=E) (x_spki_key x) 1 33) as [a| |] eqn:E1; cbn [bind]; try discriminate. rewrite (L _ _ _ E1). cbn [bind].
  destruct (slice (E:=E) (x_spki_key x) 33 65) as [b| |] eqn:E2; cbn [bind]; try discriminate. rewrite (L _ _ _ E2). cbn [bind]. congruence.
Qed.

Lemma logged_in cfg d now ca cax ca_key c cert late subject before g used messages x :
  sc_client_ca cfg = Some ca -> ct_x509 ca = Some cax -> X509.get_public_key (E:=tls_error) cax = Ok (Some ca_key) ->
  issued ca_key c -> x509_from_raw cert = Ok x -> shows x c late subject -> signed_part (E:=tls_error) cert x = Ok (TBSCertificate (c_tbs c)) ->
  (forall check, sc_verify cfg = Some check -> check x = true) ->
  time_ok late -> 1970 <= year late -> 1970 <= year (tbs_not_before (c_tbs c)) ->
  unix_time (tbs_not_before (c_tbs c)) <= now <= unix_time late - 86400 ->
  logs_in d g c cert before used messages -> client_conforms cfg d now g before used messages.
Proof.
  intros Hca Hx Hk (Ht & Hl & Hs) Px Sx Sp Ck Tl Yl Yb Hn (exts & others & sg & der & size & extra & r1 & r2 & m1 & m2 & -> & -> & W1 & W2 & T1 & T2 & F1 & F2 & E1 & E2 & Sd & Sg).
  unfold client_conforms. rewrite Hca. exists cax, ca_key, cert, x, exts, others, r1, r2, m1, m2.
  destruct Sx as (_ & _ & _ & _ & V & _ & K & _ & R).
  do 11 (split; [first [reflexivity|assumption]|]). split; [exact Px|]. split.
  { rewrite V. apply valid_now; try assumption. apply Ht. }
  split; [exists (be_val (c_r c)), (be_val (c_s c)), (TBSCertificate (c_tbs c)); auto|]. split; [exact Ck|].
  exists (holder_key c), sg, der, size, extra. split; [exact (key_any (E:=Empty_set) x _ K)|]. auto.
Qed.

Lemma last_added k l a : a_type a = k -> last_value k (l ++ [a]) = Some (a_value a).
Proof. intros <-. unfold last_value. rewrite rev_app_distr. cbn [rev app find]. now destruct (a_type a). Qed.
Lemma named x c late l who : shows x c late (l ++ [common who]) -> common_name_is (utf8 who) x = true.
Proof.
  intros (_ & _ & _ & _ & _ & N & _). specialize (N Common). unfold common_name_is. change CommonName with (key_of Common). rewrite N.
  rewrite last_added by reflexivity. apply list_eqb_refl.
Qed.
Lemma named_by c x late : shows x c late (tbs_subject (c_tbs c)) -> forall who, common_name c = Some who -> common_name_is who x = true.
Proof.
  intros (_ & _ & _ & _ & _ & N & _) who H. specialize (N Common). unfold common_name_is. change CommonName with (key_of Common). rewrite N.
  unfold common_name in H. rewrite H. apply list_eqb_refl.
Qed.

Section Server.
  Variables (cfg : server_config) (d : draws) (now : Z) (so : sock) (hello : record) (ch : Hello.client_hello) (body : list Z) (g : agreed).
  Variables (ca : Certificate.cert) (cax : x509) (ca_key : Z * Z) (c : certificate).
  Hypothesis Ok' : server_ok cfg d.
  Hypothesis Lc : zlen (ct_raw (sc_cert cfg)) < 2^16 - 64.
  Hypothesis Nso : so_left so = None.
  Hypothesis Wh : whole hello.
  Hypothesis Th : r_type hello = RHandshake.
  Hypothesis A : answers cfg d (r_fragment hello) ch body g.
  Hypothesis CS : can_sign cfg d g.
  Hypothesis Hca : sc_client_ca cfg = Some ca.
  Hypothesis Hx : ct_x509 ca = Some cax.
  Hypothesis Hk : X509.get_public_key (E:=tls_error) cax = Ok (Some ca_key).
  Hypothesis Is : issued ca_key c.

  Lemma let_in_ok cert late subject x :
    x509_from_raw cert = Ok x -> shows x c late subject -> signed_part (E:=tls_error) cert x = Ok (TBSCertificate (c_tbs c)) ->
    (forall check, sc_verify cfg = Some check -> check x = true) ->
    time_ok late -> 1970 <= year late -> 1970 <= year (tbs_not_before (c_tbs c)) ->
    unix_time (tbs_not_before (c_tbs c)) <= now <= unix_time late - 86400 -> let_in cfg d now so hello g c cert.
  Proof.
    intros Px Sx Sp Ck Tl Yl Yb Hn. destruct (ServerAccept2.accepted cfg d now so hello ch body g Ok' Lc Nso Wh Th A CS) as (der & Sd & C).
    exists der. split; [exact Sd|]. intros groups later more used fin msgs H1 H2 H3 H4 H5 H6 H7. apply (C groups later more used fin msgs); try assumption.
    exact (logged_in cfg d now ca cax ca_key c cert late subject _ g used msgs x Hca Hx Hk Is Px Sx Sp Ck Tl Yl Yb Hn H5).
  Qed.

  Lemma any_name who : sc_verify cfg = Some (common_name_is (utf8 who)) -> Forall scalar_value who ->
    Z.of_nat (length (stuffed_certificate c [rdn (common who)])) < 65536 ->
    1970 <= year (tbs_not_before (c_tbs c)) -> 1970 <= year (tbs_not_after (c_tbs c)) ->
    unix_time (tbs_not_before (c_tbs c)) <= now <= unix_time (tbs_not_after (c_tbs c)) - 86400 ->
    let_in cfg d now so hello g c (stuffed_certificate c [rdn (common who)]).
  Proof.
    intros Hv Hw L Yb Ya Hn. destruct Is as (Ht & Hl & _).
    destruct (X509Cert.forge_subject (E:=tls_error) c (common who) Ht Hl Hw L) as (x & Px & Sx & Sp).
    apply (let_in_ok _ (tbs_not_after (c_tbs c)) _ x Px Sx Sp); try assumption; [|apply Ht].
    intros check E. rewrite Hv in E. injection E as <-. exact (named x c _ _ who Sx).
  Qed.
  Lemma any_time late who : sc_verify cfg = Some (common_name_is who) -> common_name c = Some who -> time_ok late ->
    Z.of_nat (length (stuffed_certificate c [UTCTime late])) < 65536 ->
    1970 <= year (tbs_not_before (c_tbs c)) -> 1970 <= year late ->
    unix_time (tbs_not_before (c_tbs c)) <= now <= unix_time late - 86400 ->
    let_in cfg d now so hello g c (stuffed_certificate c [UTCTime late]).
  Proof.
    intros Hv Hw Tl L Yb Ya Hn. destruct Is as (Ht & Hl & _).
    destruct (X509Cert.forge_time (E:=tls_error) c late Ht Hl Tl L) as (x & Px & Sx & Sp).
    apply (let_in_ok _ late _ x Px Sx Sp); try assumption.
    intros check E. rewrite Hv in E. injection E as <-. exact (named_by c x _ Sx who Hw).
  Qed.
End Server.

(* what holds: the key is one the CA signed *)
Lemma tbs_length t : 256 <= Z.of_nat (length (concat (tbs_elements t))) -> Z.of_nat (length (concat (tbs_elements t))) < 65536 ->
  length (TBSCertificate t) = (length (concat (tbs_elements t)) + 4)%nat.
Proof.
  intros H1 H2. unfold TBSCertificate, SEQUENCE, der. cbn [length]. rewrite app_length.
  pose proof (X509Cert.hlen_4 (concat (tbs_elements t))) as H. unfold X509Cert.hlen in H. specialize (H ltac:(lia)). cbn in H. lia.
Qed.

Lemma certified cfg d now so reads h ca :
  server_ok cfg d -> sc_client_ca cfg = Some ca -> Forall is_bytes reads -> accept cfg d now so reads = (h, Some (Ok tt)) ->
  exists taken rest hello more ch body g der r1 r2 m1 m2 later cax ca_key cert,
    reads = taken ++ rest /\ received (concat taken) (hello :: more) /\
    answers cfg d (r_fragment hello) ch body g /\ without_ccs more = r1 :: r2 :: later /\
    from_client g 0 m1 r1 /\ from_client g 1 m2 r2 /\ presented (d_context d) m1 cert /\
    ct_x509 ca = Some cax /\ X509.get_public_key (E:=tls_error) cax = Ok (Some ca_key) /\
    forall t hi lo more', cert = [0x30; 0x82; hi; lo] ++ TBSCertificate t ++ more' -> tbs_ok t ->
      256 <= Z.of_nat (length (concat (tbs_elements t))) < 65536 ->
      (exists r s, signed_under ca_key (sha256_spec (TBSCertificate t)) r s) /\
      exists sg dv size extra, sig_from_der dv = Ok (sg, size) /\
        m2 = Rfc8446Hello.handshake 15 (Rfc8446Hello.u16 0x0403 ++ Rfc8446Hello.u16 (Z.of_nat size) ++ dv) ++ extra /\
        signed_under (tbs_x t, tbs_y t) (sha256_spec (verify_message (g_alg g) client_context (to_server_finished cfg d g der ++ m1))) (sg_r sg) (sg_s sg).
Proof.
  intros Ok' Hca B Ac. destruct (ServerProps.authenticated cfg d now so reads h ca Ok' Hca B Ac) as
    (taken & rest & hello & more & ch & body & g & der & r1 & r2 & m1 & m2 & fin & ign & ext & cax & ca_key & E1 & E2 & E3 & E4 & E5 & E6 & E7 & E8 & Au & _).
  destruct Au as (cert & x & Pr & Px & _ & (r & s & part & Sx & Sp & Su) & _ & (key & sg & dv & size & extra & K & Sd & Em & Sg)).
  exists taken, rest, hello, more, ch, body, g, der, r1, r2, m1, m2, (fin :: ign), cax, ca_key, cert.
  do 9 (split; [assumption|]). intros t hi lo more' Ec Ht Hl. subst cert.
  pose proof (tbs_length t ltac:(lia) ltac:(lia)) as Lt.
  destruct (X509Cert.trailing_fields (E:=tls_error) t hi lo more' x Ht ltac:(lia) Px) as (Kt & _ & _ & _ & _ & Sz).
  assert (key = (tbs_x t, tbs_y t)) as -> by congruence. split.
  - exists r, s. enough (part = TBSCertificate t) as -> by exact Su. unfold signed_part, slice in Sp. rewrite Sz, <- Lt in Sp.
    destruct (_ && _) in Sp; [|discriminate]. injection Sp as <-. replace (4 + length (TBSCertificate t) - 4)%nat with (length (TBSCertificate t)) by lia.
    change (skipn 4 ([48; 130; hi; lo] ++ TBSCertificate t ++ more')) with (TBSCertificate t ++ more').
    rewrite firstn_app, Nat.sub_diag, firstn_all, firstn_O. now rewrite app_nil_r.
  - exists sg, dv, size, extra. auto.
Qed.
