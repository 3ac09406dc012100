(* The configurations of the example programs, from the files shipped with them *)
From Verif Require Import Proofs.Util Model.Alert Model.Record Model.Curve Model.Ecdsa Model.X509 Model.Certificate Model.Stream Model.Server Model.Client Model.Config Model.ExampleFiles Model.Examples
  Spec.Enc Spec.Tls13Record Spec.Calendar Spec.X509 Spec.X509View Spec.Connection Spec.Impersonation Spec.Rfc8446Auth.
From Coq Require String.
Import String.StringSyntax.
Local Open Scope string_scope.
Local Open Scope list_scope.
From Verif Require Spec.Rfc8446Hello Proofs.Examples Proofs.Time Proofs.Impersonation Proofs.ServerProps Proofs.ServerExample.

Definition otsmr : list Z := [111; 116; 115; 109; 114].
Definition ca_key : Z * Z :=
  (0x3307982182af80043e8a149a542c576d1364a92eb323099193d04afe2d76437b, 0xef73a21255f507d10d0edf50225e0abfb151127d7b77205031b2e32feeee9ae7).
Definition force {E A} (dflt : A) (o : outcome E A) : A := match o with Ok c => c | _ => dflt end.
Definition the_ca : cert := Eval vm_compute in force (Cert [] None) (certificate_from_pem_x509 file_ca_cert).
Definition the_cert : cert := Eval vm_compute in force (Cert [] None) (certificate_from_pem file_server_cert).
Definition the_key := Eval vm_compute in force (PrivateKey secp256r1 0) (private_key_from_pem file_server_key).
Definition the_cfg : server_config :=
  {| sc_privkey := the_key; sc_cert := the_cert; sc_client_ca := Some the_ca; sc_verify := Some is_otsmr;
     sc_keylog := Some (Keylog.str "./examples/src/bin/config/keylog.txt"); sc_server_name := None |}.
Definition plain_cfg : server_config :=
  {| sc_privkey := the_key; sc_cert := the_cert; sc_client_ca := None; sc_verify := None; sc_keylog := Some s_keylog_txt; sc_server_name := None |}.
Lemma ca_loaded : certificate_from_pem_x509 file_ca_cert = Ok the_ca. Proof. vm_compute. reflexivity. Qed.
Lemma cert_loaded : certificate_from_pem file_server_cert = Ok the_cert. Proof. vm_compute. reflexivity. Qed.
Lemma key_loaded : private_key_from_pem file_server_key = Ok the_key. Proof. vm_compute. reflexivity. Qed.
Lemma configured : client_auth_config = Ok (the_cfg, PrngURandom).
Proof.
  unfold client_auth_config, server_configure, client_auth_calls. cbn [server_calls server_call_step of_file]. unfold of_file. rewrite ca_loaded, cert_loaded, key_loaded. reflexivity.
Qed.
Lemma plain_configured : https_config = Ok (plain_cfg, PrngURandom).
Proof.
  unfold https_config, server_configure, https_calls. cbn [server_calls server_call_step of_file]. unfold of_file. rewrite cert_loaded, key_loaded. reflexivity.
Qed.

Definition x_of (c : cert) : match ct_x509 c with Some _ => x509 | None => unit end :=
  match ct_x509 c as o return match o with Some _ => x509 | None => unit end with Some x => x | None => tt end.
Definition ca_x : x509 := Eval vm_compute in x_of the_ca.
Lemma ca_x_is : ct_x509 the_ca = Some ca_x. Proof. vm_compute. reflexivity. Qed.
Lemma ca_key_is : X509.get_public_key (E:=tls_error) ca_x = Ok (Some ca_key). Proof. vm_compute. reflexivity. Qed.
Lemma verify_is : sc_verify the_cfg = Some (common_name_is (utf8 otsmr)). Proof. reflexivity. Qed.
Lemma cert_size : zlen (ct_raw (sc_cert the_cfg)) = 537. Proof. vm_compute. reflexivity. Qed.
Lemma configuration : exists cfg ca cax, client_auth_config = Ok (cfg, PrngURandom) /\ sc_client_ca cfg = Some ca /\ ct_x509 ca = Some cax /\
  X509.get_public_key (E:=tls_error) cax = Ok (Some ca_key) /\
  sc_verify cfg = Some (common_name_is (utf8 otsmr)) /\ zlen (ct_raw (sc_cert cfg)) = 537 /\ sc_server_name cfg = None.
Proof.
  exists the_cfg, the_ca, ca_x. split; [exact configured|]. split; [reflexivity|]. split; [exact ca_x_is|]. split; [exact ca_key_is|].
  split; [exact verify_is|]. split; [exact cert_size|reflexivity].
Qed.
Lemma the_only cfg p : client_auth_config = Ok (cfg, p) -> cfg = the_cfg.
Proof. rewrite configured. intros H. injection H as <- <-. reflexivity. Qed.
Lemma admin cfg p c t s r : client_auth_config = Ok (cfg, p) -> server_ok cfg (cn_draws c) -> Forall is_bytes (cn_reads c) ->
  serve cfg admin_response c = Answered t s r ->
  exists taken later hello more ch body g der r1 r2 m1 m2 others cert x,
    cn_reads c = taken ++ later /\ received (concat taken) (hello :: more) /\
    without_ccs more = r1 :: r2 :: others /\ answers cfg (cn_draws c) (r_fragment hello) ch body g /\
    from_client g 0 m1 r1 /\ from_client g 1 m2 r2 /\ presented (d_context (cn_draws c)) m1 cert /\ x509_from_raw cert = Ok x /\
    is_valid (E:=tls_error) (x_validity x) (cn_now c) = Ok true /\ signed_by ca_key cert x /\
    name_get (x_subject x) CommonName = Ok [111; 116; 115; 109; 114] /\
    proves_possession (g_alg g) x (to_server_finished cfg (cn_draws c) g der ++ m1) m2.
Proof.
  intros H. apply the_only in H. subst cfg. intros Ok' B H.
  destruct (Examples.serve_answered _ _ _ _ _ _ H) as (used & chunk & rest & h & s0 & request & Er & A & _).
  assert (Bu : Forall is_bytes used) by (rewrite Er in B; apply Forall_app in B; apply B).
  destruct (ServerProps.authenticated the_cfg _ _ _ used h the_ca Ok' eq_refl Bu A)
    as (taken & rest' & hello & more & ch & body & g & der & r1 & r2 & m1 & m2 & fin & ign & extra & cax & key & Eu & R & An & W & F1 & F2 & Cx & K & Au & _).
  rewrite ca_x_is in Cx. injection Cx as <-. rewrite ca_key_is in K. injection K as <-.
  destruct Au as (ct & x & P & X & V & Sg & Ck & Pp).
  exists taken, (rest' ++ chunk :: rest), hello, more, ch, body, g, der, r1, r2, m1, m2, (fin :: ign), ct, x.
  split; [rewrite Er, Eu, <- app_assoc; reflexivity|]. split; [exact R|]. split; [exact W|]. split; [exact An|]. split; [exact F1|]. split; [exact F2|].
  split; [exact P|]. split; [exact X|]. split; [exact V|]. split; [exact Sg|]. split; [|exact Pp].
  specialize (Ck is_otsmr eq_refl). unfold is_otsmr in Ck. destruct (name_get (x_subject x) CommonName) as [n|e|]; try discriminate Ck.
  apply list_eqb_spec in Ck. rewrite Ck. reflexivity.
Qed.
Lemma any_holder cfg p d now so hello ch body g c :
  client_auth_config = Ok (cfg, p) -> server_ok cfg d -> so_left so = None ->
  whole hello -> r_type hello = RHandshake -> answers cfg d (r_fragment hello) ch body g -> can_sign cfg d g ->
  issued ca_key c -> Z.of_nat (length (stuffed_certificate c [rdn (common otsmr)])) < 65536 ->
  1970 <= year (tbs_not_before (c_tbs c)) -> 1970 <= year (tbs_not_after (c_tbs c)) ->
  unix_time (tbs_not_before (c_tbs c)) <= now <= unix_time (tbs_not_after (c_tbs c)) - 86400 ->
  let_in cfg d now so hello g c (stuffed_certificate c [rdn (common otsmr)]).
Proof.
  intros H. apply the_only in H. subst cfg. intros H1 H2 H3 H4 H5 H6 H7.
  refine (Impersonation.any_name the_cfg d now so hello ch body g the_ca ca_x ca_key c H1 _ H2 H3 H4 H5 H6 eq_refl ca_x_is ca_key_is H7 otsmr verify_is _).
  - rewrite cert_size. reflexivity.
  - unfold otsmr. repeat constructor; cbv; try lia; intuition discriminate.
Qed.
Definition the_client : cert := Eval vm_compute in force (Cert [] None) (certificate_from_pem_x509 file_client_signed_cert).
Definition client_x : x509 := Eval vm_compute in x_of the_client.
Definition server_x : x509 := Eval vm_compute in x_of (force (Cert [] None) (certificate_from_pem_x509 file_server_cert)).
Lemma window (x : x509) nb na : x_validity x = {| v_not_before := Some (as_utc nb); v_not_after := Some (as_utc na) |} ->
  valid_instant nb -> valid_instant na -> 1970 <= year nb -> 1970 <= year na -> Time.lost_day nb = 0 -> Time.lost_day na = 86400 ->
  forall now, exists b, is_valid (E:=tls_error) (x_validity x) now = Ok b /\ (b = true <-> unix_time nb <= now <= unix_time na - 86400).
Proof.
  intros E V1 V2 Y1 Y2 L1 L2 now. rewrite E. apply Time.is_valid_both.
  - rewrite (Time.unix_of nb V1 Y1), L1, Z.sub_0_r. reflexivity.
  - rewrite (Time.unix_of na V2 Y2), L2. reflexivity.
Qed.
Lemma client_certificate : exists raw x nb na, certificate_from_pem_x509 file_client_signed_cert = Ok (Cert raw (Some x)) /\
  name_get (x_subject x) CommonName = Ok [111; 116; 115; 109; 114] /\
  x_validity x = {| v_not_before := Some (as_utc nb); v_not_after := Some (as_utc na) |} /\
  nb = {| year := 2023; month := 3; day := 16; hour := 18; minute := 3; second := 52 |} /\
  na = {| year := 2024; month := 3; day := 15; hour := 18; minute := 3; second := 52 |} /\
  forall now, exists b, is_valid (E:=tls_error) (x_validity x) now = Ok b /\ (b = true <-> unix_time nb <= now <= unix_time na - 86400).
Proof.
  exists (ct_raw the_client), client_x. eexists. eexists. split; [vm_compute; reflexivity|]. split; [vm_compute; reflexivity|].
  split; [|split; [reflexivity|split; [reflexivity|]]]. { vm_compute. reflexivity. }
  apply window; try (vm_compute; reflexivity); try (cbn; lia); repeat split; cbn; lia.
Qed.
Lemma server_certificate : exists cfg raw x nb na, https_config = Ok (cfg, PrngURandom) /\ ct_raw (sc_cert cfg) = raw /\ x509_from_raw raw = Ok x /\
  x_validity x = {| v_not_before := Some (as_utc nb); v_not_after := Some (as_utc na) |} /\
  nb = {| year := 2023; month := 3; day := 9; hour := 10; minute := 18; second := 12 |} /\
  na = {| year := 2024; month := 3; day := 8; hour := 10; minute := 18; second := 12 |} /\
  forall now, exists b, is_valid (E:=tls_error) (x_validity x) now = Ok b /\ (b = true <-> unix_time nb <= now <= unix_time na - 86400).
Proof.
  exists plain_cfg, (ct_raw the_cert), server_x. eexists. eexists. split; [exact plain_configured|]. split; [reflexivity|]. split; [vm_compute; reflexivity|].
  split; [|split; [reflexivity|split; [reflexivity|]]]. { vm_compute. reflexivity. }
  apply window; try (vm_compute; reflexivity); try (cbn; lia); repeat split; cbn; lia.
Qed.
(* with any random numbers of the right size the configuration is fit for use *)
Lemma configured_ok d : is_bytes (d_random d) -> length (d_random d) = 32%nat -> is_bytes (d_context d) -> length (d_context d) = 32%nat ->
  Forall (fun k => 0 <= k) (d_nonces d) -> server_ok the_cfg d.
Proof.
  intros H1 H2 H3 H4 H5. split; [vm_compute; reflexivity|]. split; [apply is_bytes_check; vm_compute; reflexivity|]. split; [vm_compute; reflexivity|].
  split; [exact H1|]. split; [exact H2|]. split; [exact H3|]. split; [exact H4|]. split; [exact H5|].
  intros ca [= <-]. split; [apply is_bytes_check; vm_compute; reflexivity|]. exists ca_x. split; [exact ca_x_is|vm_compute; reflexivity].
Qed.
(* the clients *)
Lemma client_loaded : certificate_from_pem_x509 file_client_signed_cert = Ok the_client. Proof. vm_compute. reflexivity. Qed.
Definition client_key := Eval vm_compute in force (PrivateKey secp256r1 0) (private_key_from_pem file_client_key).
Lemma client_key_loaded : private_key_from_pem file_client_key = Ok client_key. Proof. vm_compute. reflexivity. Qed.
Lemma plain_client : client_https_config = Ok {| cc_server_name := Some (Keylog.str "localhost"); cc_cert := None; cc_key := None; cc_keylog := Some (Keylog.str "keylog.txt") |}.
Proof. reflexivity. Qed.
Lemma auth_client : exists cert key, certificate_from_pem_x509 file_client_signed_cert = Ok cert /\ private_key_from_pem file_client_key = Ok key /\ client_client_auth_config = Ok {| cc_server_name := Some (Keylog.str "localhost"); cc_cert := Some cert; cc_key := Some key; cc_keylog := Some (Keylog.str "keylog.txt") |}.
Proof.
  exists the_client, client_key. split; [exact client_loaded|]. split; [exact client_key_loaded|].
  unfold client_client_auth_config, client_configure, client_auth_client_calls. cbn [client_calls client_call_step]. unfold of_file. rewrite client_loaded, client_key_loaded. reflexivity.
Qed.
