(* C53, C72: configurations are what the builder calls asked for; certificate files.  last_set and what each call sets are in
   Spec.Config, PEM files in Spec.PemFile. *)
From Verif Require Import Model.Base Model.Curve Model.Ecdsa Model.X509 Model.Certificate Model.Server Model.Client Model.Config
  Spec.Config Spec.Rfc4648 Spec.PemFile Spec.Sec1 Spec.Enc.
From Verif Require Proofs.Config Proofs.PrivateKey Proofs.ServerExample Proofs.Util.
From Coq Require Import Lia.
From Coq Require String. Import String.StringSyntax.
Local Open Scope string_scope. Local Open Scope list_scope. Local Open Scope Z_scope.

(* ---- C53 ---- *)
(* Server: when every file loads, build gives a configuration exactly when certificate and key were set and a custom check
   comes with a client CA; every field is the last value set. *)
Theorem C53_server : forall calls, Forall loads calls ->
  server_configure calls =
  match last_set sets_cert calls, last_set sets_key calls with
  | None, _ => Err NoCert
  | Some _, None => Err NoPrivkey
  | Some c, Some k =>
      match last_set sets_check calls, last_set sets_ca calls with
      | Some _, None => Err NoClientCa
      | check, ca => Ok ({| sc_privkey := k; sc_cert := c; sc_client_ca := ca; sc_verify := check;
                            sc_keylog := last_set sets_keylog calls; sc_server_name := last_set sets_name calls |},
                         match last_set sets_prng calls with Some p => p | None => PrngURandom end)
      end
  end.
Proof. exact Proofs.Config.configured. Qed.
Print Assumptions C53_server.
Theorem C53_complete_or_refused : forall calls, Forall loads calls ->
  (exists cfg, server_configure calls = Ok cfg) <->
  last_set sets_cert calls <> None /\ last_set sets_key calls <> None /\ (last_set sets_check calls <> None -> last_set sets_ca calls <> None).
Proof.
  intros calls F. rewrite (C53_server calls F). destruct (last_set sets_cert calls) as [c|]; [|split; [intros (x & H); discriminate|intros (H & _); contradiction]].
  destruct (last_set sets_key calls) as [k|]; [|split; [intros (x & H); discriminate|intros (_ & H & _); contradiction]].
  destruct (last_set sets_check calls) as [f|], (last_set sets_ca calls) as [a|]; split; try (intros _; repeat split; discriminate); try (intros _; eexists; reflexivity).
  - intros (x & H). discriminate.
  - intros (_ & _ & H). exfalso. apply (H ltac:(discriminate)). reflexivity.
  - intros _. split; [discriminate|]. split; [discriminate|]. intros H. contradiction.
Qed.
Print Assumptions C53_complete_or_refused.
(* a call whose file does not load panics, whatever comes before and after it *)
Theorem C53_unloadable : forall before c later, Forall loads before -> ~ loads c -> server_configure (before ++ c :: later) = Panic.
Proof. exact Proofs.Config.configure_panics. Qed.
Print Assumptions C53_unloadable.

(* Client: the same, and a certificate without a key panics. *)
Theorem C53_client : forall calls, Forall client_loads calls ->
  client_configure calls =
  match last_set client_sets_cert calls, last_set client_sets_key calls with
  | Some _, None => Panic
  | c, k => Ok {| cc_server_name := last_set client_sets_name calls; cc_cert := c; cc_key := k; cc_keylog := last_set client_sets_keylog calls |}
  end.
Proof. exact Proofs.Config.client_configured. Qed.
Print Assumptions C53_client.
Theorem C53_client_unloadable : forall before c later, Forall client_loads before -> ~ client_loads c -> client_configure (before ++ c :: later) = Panic.
Proof. exact Proofs.Config.client_configure_panics. Qed.
Print Assumptions C53_client_unloadable.

(* ---- C72 ---- *)
(* A file with a certificate: the bytes served are those of its last CERTIFICATE block. *)
Definition CERTIFICATE : list Z := codes "CERTIFICATE".
Theorem C72_certificate_file : forall is der, Forall item_ok is -> last_block CERTIFICATE is = Some der ->
  certificate_from_pem (text_of_lines (file_lines is)) = Ok (Cert der None).
Proof. exact Proofs.Config.cert_file. Qed.
Print Assumptions C72_certificate_file.
Theorem C72_parsed_certificate_file : forall is der x, Forall item_ok is -> last_block CERTIFICATE is = Some der -> x509_from_raw der = Ok x ->
  certificate_from_pem_x509 (text_of_lines (file_lines is)) = Ok (Cert der (Some x)).
Proof. exact Proofs.Config.cert_file_x509. Qed.
Print Assumptions C72_parsed_certificate_file.
(* A file whose certificate the parser refuses, whatever for: the caller gets a panic and not an error. *)
Theorem C72_unparsed_certificate_file_refuted : forall is der, Forall item_ok is -> last_block CERTIFICATE is = Some der ->
  (forall x, x509_from_raw der <> Ok x) -> certificate_from_pem_x509 (text_of_lines (file_lines is)) = Panic.
Proof. exact Proofs.Config.cert_file_unparsed. Qed.
Print Assumptions C72_unparsed_certificate_file_refuted.
Example C72_unparsed_ex : let der := [0x30; 3; 2; 1; 1] in let file := [Block CERTIFICATE [Rfc4648.b64 der] der] in
  Forall item_ok file /\ last_block CERTIFICATE file = Some der /\ forall x, x509_from_raw der <> Ok x.
Proof.
  intros der file. split; [|split; [reflexivity|]].
  - repeat (apply Forall_cons || apply Forall_nil); cbn [item_ok]. split; [split; [vm_compute; intuition discriminate|left; reflexivity]|]. split; [cbn [concat]; apply app_nil_r|].
    apply Util.is_bytes_check. vm_compute. reflexivity.
  - intros x H. vm_compute in H. discriminate.
Qed.
(* A chain file, the server's certificate first and its issuers after it: not the server's certificate but the last issuer is served. *)
Theorem C72_chain_file_refuted : forall lines lines' leaf ca middle, Forall item_ok (Block CERTIFICATE lines leaf :: middle ++ [Block CERTIFICATE lines' ca]) ->
  certificate_from_pem (text_of_lines (file_lines (Block CERTIFICATE lines leaf :: middle ++ [Block CERTIFICATE lines' ca]))) = Ok (Cert ca None).
Proof.
  intros lines lines' leaf ca middle F. apply C72_certificate_file; [exact F|]. cbn [last_block].
  assert (last_block CERTIFICATE (middle ++ [Block CERTIFICATE lines' ca]) = Some ca) as ->; [|reflexivity].
  clear F. induction middle as [|i middle IH]; [reflexivity|]. cbn [app last_block]. rewrite IH. reflexivity.
Qed.
Print Assumptions C72_chain_file_refuted.
(* A server configured from a certificate file and a key file, in either order, holds that certificate and that key. *)
Theorem C72_server_from_files : forall is js der secret extra, Forall item_ok is -> last_block CERTIFICATE is = Some der ->
  Forall item_ok js -> last_block EC_PRIVATE_KEY js = Some (ECPrivateKey secret extra) -> length secret = 32%nat -> (length extra <= 90)%nat ->
  let cert_call := AddCertPem (Some (text_of_lines (file_lines is))) in
  let key_call := AddPrivkeyPem (Some (text_of_lines (file_lines js))) in
  let cfg := {| sc_privkey := PrivateKey secp256r1 (be_val secret); sc_cert := Cert der None; sc_client_ca := None; sc_verify := None; sc_keylog := None; sc_server_name := None |} in
  server_configure [cert_call; key_call] = Ok (cfg, PrngURandom) /\ server_configure [key_call; cert_call] = Ok (cfg, PrngURandom).
Proof.
  intros is js der secret extra F H F' H' L L' cert_call key_call cfg.
  assert (A : certificate_from_pem (text_of_lines (file_lines is)) = Ok (Cert der None)) by (apply C72_certificate_file; assumption).
  assert (B : private_key_from_pem (text_of_lines (file_lines js)) = Ok (PrivateKey secp256r1 (be_val secret))) by (apply (Proofs.PrivateKey.key_short js secret extra); assumption).
  assert (A' : sets_cert cert_call = Some (Cert der None)) by (unfold cert_call, sets_cert, loaded; rewrite A; reflexivity).
  assert (B' : sets_key key_call = Some (PrivateKey secp256r1 (be_val secret))) by (unfold key_call, sets_key, loaded; rewrite B; reflexivity).
  assert (P : loads cert_call) by (change (sets_cert cert_call <> None); rewrite A'; discriminate).
  assert (Q : loads key_call) by (change (sets_key key_call <> None); rewrite B'; discriminate).
  split; (rewrite C53_server; [|repeat (apply Forall_cons; [assumption|]); apply Forall_nil]); cbn [last_set]; rewrite A', B'; reflexivity.
Qed.
Print Assumptions C72_server_from_files.

(* files that meet the hypotheses, and calls that load them *)
Definition own_file : list item := [Text (codes "the server"); Block CERTIFICATE [Rfc4648.b64 ServerExample.own_raw] ServerExample.own_raw].
Definition own_key : list Z := ECPrivateKey (repeat 0 31 ++ [1]) [].
Definition own_key_file : list item := [Block EC_PRIVATE_KEY [Rfc4648.b64 own_key] own_key].
Example C72_ex : Forall item_ok own_file /\ last_block CERTIFICATE own_file = Some ServerExample.own_raw /\ x509_from_raw ServerExample.own_raw = Ok ServerExample.own_x /\
  Forall item_ok own_key_file /\ last_block EC_PRIVATE_KEY own_key_file = Some own_key.
Proof.
  split.
  { repeat (apply Forall_cons || apply Forall_nil); cbn [item_ok].
    - split; [vm_compute; intuition discriminate|vm_compute; discriminate].
    - split; [split; [vm_compute; intuition discriminate|left; reflexivity]|]. split; [cbn [concat]; apply app_nil_r|exact ServerExample.own_bytes]. }
  split; [reflexivity|]. split; [exact ServerExample.own_parse|]. split; [|reflexivity].
  repeat (apply Forall_cons || apply Forall_nil); cbn [item_ok]. split; [split; [vm_compute; intuition discriminate|left; reflexivity]|]. split; [cbn [concat]; apply app_nil_r|].
  apply Util.is_bytes_check. vm_compute. reflexivity.
Qed.
Example C53_ex : let cert_file := text_of_lines (file_lines own_file) in let key_file := text_of_lines (file_lines own_key_file) in
  Forall loads [SetServerName [97]; AddCertPem (Some cert_file); SetServerName [98]; AddPrivkeyPem (Some key_file); AddClientCertCa (Some cert_file); EnableKeylog] /\
  Forall client_loads [CSetServerName [97]; AddClientCertPem (Some cert_file); AddClientKeyPem (Some key_file)] /\ ~ loads (AddCertPem None).
Proof.
  destruct C72_ex as (F & H & X & F' & H'). intros cert_file key_file.
  assert (A : certificate_from_pem cert_file = Ok (Cert ServerExample.own_raw None)) by (apply C72_certificate_file; assumption).
  assert (A2 : certificate_from_pem_x509 cert_file = Ok (Cert ServerExample.own_raw (Some ServerExample.own_x))) by (apply C72_parsed_certificate_file; assumption).
  assert (B : private_key_from_pem key_file = Ok (PrivateKey secp256r1 (be_val (repeat 0 31 ++ [1])))) by (apply (Proofs.PrivateKey.key_short own_key_file _ []); [exact F'|reflexivity|cbn; lia|exact H']).
  split; [|split; [|intros N; apply N; reflexivity]].
  - repeat (apply Forall_cons || apply Forall_nil); cbn [loads sets_cert sets_key sets_ca loaded]; try exact I; rewrite ?A, ?B, ?A2; discriminate.
  - repeat (apply Forall_cons || apply Forall_nil); cbn [client_loads client_sets_cert client_sets_key loaded]; try exact I; rewrite ?B, ?A2; discriminate.
Qed.
