(* The authentication messages of Spec/Proper.v do not panic *)
From Verif Require Import Proofs.Util Proofs.Bytes Model.Alert Model.Bytes Model.Sha2 Model.Der Model.Curve Model.Signature Model.Ecdsa Model.X509
  Model.Extensions Model.Certificate Spec.Enc Spec.Calendar Spec.X509 Spec.X509View Spec.Proper.
From Verif Require Spec.Rfc8446Hello Proofs.X509Cert Proofs.Time Proofs.Auth Proofs.Signature.

Local Opaque x509_from_raw ecdsa_verify Sha2.sha256 Spec.X509.Certificate sig_from_der.

(* a certificate that can be checked without a panic *)
Definition sound (c : cert) : Prop :=
  exists x k, ct_x509 c = Some x /\ 0 <= fst k /\ 0 <= snd k /\ (forall E, X509.get_public_key (E:=E) x = Ok (Some k)) /\
    forall E, exists part, signed_part (E:=E) (ct_raw c) x = Ok part.

Lemma is_valid_total {E} v now : (exists a b, v = {| v_not_before := Some (as_utc a); v_not_after := Some (as_utc b) |} /\
  valid_instant a /\ valid_instant b /\ 1970 <= year a /\ 1970 <= year b) -> exists r, is_valid (E:=E) v now = Ok r.
Proof.
  intros (a & b & -> & Va & Vb & Ya & Yb). unfold is_valid. cbn [v_not_before v_not_after]. rewrite (Time.unix_of a Va Ya). rewrite !bind_Ok. destruct (_ <? _); [eauto|].
  rewrite (Time.unix_of b Vb Yb), !bind_Ok. eauto.
Qed.
Local Transparent Spec.X509.Certificate.
Lemma part_total {E} c : Z.of_nat (length (Spec.X509.Certificate c)) < 2^24 ->
  exists part, slice (E:=E) (Spec.X509.Certificate c) 4 (4 + (length (concat (tbs_elements (c_tbs c))) + 4)) = Ok part.
Proof.
  intros L. eexists. apply slice_in.
  set (l := [TBSCertificate (c_tbs c)] ++ [] ++ [AlgorithmIdentifier (c_algorithm c); BIT_STRING (EcdsaSigValue (c_r c) (c_s c))]).
  pose proof (X509Cert.len_concat_seq l) as HL. change (SEQUENCE l) with (Spec.X509.Certificate c) in HL.
  pose proof (X509Cert.len_concat_seq (tbs_elements (c_tbs c))) as HT. fold (TBSCertificate (c_tbs c)) in HT.
  cbn [l app concat] in HL. rewrite !app_length in HL.
  assert (A : (2 <= length (AlgorithmIdentifier (c_algorithm c)))%nat) by (unfold AlgorithmIdentifier; match goal with |- context [SEQUENCE ?q] => pose proof (X509Cert.len_concat_seq q); lia end).
  assert (B : (4 <= length (BIT_STRING (EcdsaSigValue (c_r c) (c_s c))))%nat).
  { unfold BIT_STRING. pose proof (X509Cert.len_der 3 (0 :: EcdsaSigValue (c_r c) (c_s c))) as D. unfold EcdsaSigValue in *. match type of D with context [SEQUENCE ?q] => pose proof (X509Cert.len_concat_seq q) end. cbn [length] in *. lia. }
  lia.
Qed.
Local Opaque Spec.X509.Certificate.

Lemma from_hello_empty context now : zlen context < 256 -> exists e, certificates_from_hello (Rfc8446Hello.vector8 context ++ Rfc8446Hello.vector24 []) now = Err e.
Proof.
  intros Hc. unfold zlen in Hc. unfold certificates_from_hello, Rfc8446Hello.vector8. change (be_enc 1 (Z.of_nat (length context))) with [Z.of_nat (length context) mod 256].
  rewrite Z.mod_small by lia. cbn [app]. unfold idx at 1. cbn [nth_error unwrap]. rewrite bind_Ok. rewrite Nat2Z.id. change (Rfc8446Hello.vector24 []) with [0; 0; 0].
  replace (Z.of_nat (length context) :: context ++ [0; 0; 0]) with ((Z.of_nat (length context) :: context) ++ [0; 0; 0] ++ []) by reflexivity.
  rewrite slice_mid by (cbn [length]; lia). rewrite bind_Ok. change (Nat.eqb (Z.to_nat (to_u128_be_fill [0; 0; 0])) 0) with true. cbv iota. eauto.
Qed.
Lemma sound_proper c : tbs_ok (c_tbs c) -> Z.of_nat (length (Spec.X509.Certificate c)) < 2^24 ->
  exists x, x509_from_raw (Spec.X509.Certificate c) = Ok x /\ sound (Cert (Spec.X509.Certificate c) (Some x)) /\
    x_validity x = {| v_not_before := Some (as_utc (tbs_not_before (c_tbs c))); v_not_after := Some (as_utc (tbs_not_after (c_tbs c))) |}.
Proof.
  intros T L. eexists. split; [apply X509Cert.cert_parse; assumption|]. split; [|reflexivity].
  eexists. exists (tbs_x (c_tbs c), tbs_y (c_tbs c)). split; [reflexivity|]. pose proof T as (_ & _ & _ & _ & _ & _ & X & Y). cbn [fst snd].
  split; [lia|]. split; [lia|]. split; [intros E; apply X509Cert.x_of_key; exact T|].
  intros E. unfold signed_part. cbn [ct_raw X509Cert.x_of x_tbs_size]. exact (part_total c L).
Qed.
Lemma from_hello_proper body now : proper_certificate body ->
  (exists e, certificates_from_hello body now = Err e) \/ exists c, certificates_from_hello body now = Ok [c] /\ sound c.
Proof.
  intros (context & entries & -> & Lc & Le & [-> | (c & exts & others & -> & T & Yb & Ya)]).
  - left. now apply from_hello_empty.
  - assert (L : Z.of_nat (length (Spec.X509.Certificate c)) < 2^24).
    { unfold Rfc8446Hello.vector24 in Le. rewrite !app_length in Le. lia. }
    pose proof (Auth.certificates_read context (Spec.X509.Certificate c) exts others [] now Lc L) as R. unfold Auth.entry in R. rewrite <- app_assoc in R. specialize (R Le).
    rewrite app_nil_r in R. rewrite R. clear R. destruct (sound_proper c T L) as (x & X & So & V). unfold certificate_from_raw. rewrite X, bind_Ok. cbn [ct_x509 unwrap]. rewrite bind_Ok.
    pose proof T as (_ & _ & _ & _ & (Tb & _) & (Ta & _) & _).
    destruct (is_valid_total (E:=tls_error) (x_validity x) now) as (r & Hr); [rewrite V; eauto 10|]. rewrite Hr, bind_Ok. destruct r; cbn [negb]; [right; eauto|left; eauto].
Qed.

Lemma signed_total ca c : (exists x k, ct_x509 ca = Some x /\ 0 <= fst k /\ 0 <= snd k /\ X509.get_public_key (E:=tls_error) x = Ok (Some k)) -> sound c -> has_signed ca c <> Panic.
Proof.
  intros (x & (a & b) & X & A & B & K) (y & k & Y & _ & _ & _ & S) H. cbn [fst snd] in A, B. unfold has_signed in H. rewrite X, Y in H. unfold certificate_key in H. rewrite K, !bind_Ok in H. cbn [unwrap] in H. rewrite bind_Ok in H.
  destruct (x_signature y) as [[r s]|]; [|discriminate]. destruct (S tls_error) as (part & P). rewrite P, bind_Ok in H.
  destruct (Auth.verify_key (F:=tls_error) a b {| sg_r := r; sg_s := s |} part A B) as (v & Hv & _). rewrite Hv, bind_Ok in H. destruct v; discriminate.
Qed.
Lemma valid_total {E} c sg th label : sound c -> exists v, is_certificate_valid (E:=E) c sg th label = Ok v.
Proof.
  intros (x & (a & b) & X & A & B & K & _). cbn [fst snd] in A, B. unfold is_certificate_valid. rewrite X. cbn [unwrap]. rewrite bind_Ok. unfold certificate_key. rewrite K, !bind_Ok.
  destruct (Auth.verify_key (F:=E) a b sg (verify_content label (th_finalize th)) A B) as (v & Hv & _). eauto.
Qed.

(* a CertificateVerify message *)
Lemma verify_proper body : proper_verify body -> exists b1 b2 rest sg size, slice (E:=tls_error) body 0 2 = Ok b1 /\ sig_scheme_new (to_u16 b1) = Ok ecdsa_secp256r1_sha256 /\
  slice_from (E:=tls_error) body 4 = Ok rest /\ sig_from_der rest = Ok (sg, size) /\ slice (E:=tls_error) body 2 4 = Ok b2.
Proof.
  intros (r & s & -> & L). unfold Rfc8446Hello.vector16. set (d := EcdsaSigValue r s) in *. set (n := be_enc 2 (Z.of_nat (length d))).
  assert (Ln : length n = 2%nat) by (unfold n; apply be_enc_length). exists [4; 3], n, d. eexists. eexists.
  split; [reflexivity|]. split; [reflexivity|].
  change (Rfc8446Hello.u16 1027) with [4; 3]. split; [rewrite app_assoc; apply slice_from_app; rewrite app_length, Ln; reflexivity|].
  split; [|apply slice_mid; cbn [length]; lia]. pose proof (Signature.sig_from_der_spec r s []) as D. rewrite app_nil_r in D. apply D. fold d. lia.
Qed.
