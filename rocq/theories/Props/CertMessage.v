(* C79: the Certificate messages that bring a side down. Property theorems only. *)
From Verif Require Import Model.Base Model.Alert Model.Record Model.X509 Model.Certificate Model.Stream Model.Server Model.Client Spec.Enc Spec.Calendar Spec.X509 Spec.X509Any
  Spec.Connection Spec.ClientConnection Spec.Rfc8446Hello Spec.Proper Spec.VerifyPanics Spec.CertPanics Spec.CertMessagePanics.
From Verif Require Model.Signature Model.Handshake Proofs.CertMessagePanics Proofs.CertPanics Proofs.ServerExample Proofs.Util Proofs.CertCrash Proofs.CertExample Proofs.ClientHandshakeExample.
From Coq Require Import Lia.

(* ---- C79: accept and connect do not panic ---- *)
(* Reading a Certificate message panics, at some time of day, exactly for the messages of Spec/CertMessagePanics.v *)
Theorem C79_certificate_exact : forall body, is_bytes body -> ((exists now, certificates_from_hello body now = Panic) <-> certificate_message_panics body).
Proof. exact Proofs.CertMessagePanics.certificate_exact. Qed.
Print Assumptions C79_certificate_exact.
(* so not for those of Spec/Proper.v *)
Theorem C79_proper_certificate : forall body, is_bytes body -> proper_certificate body -> ~ certificate_message_panics body.
Proof. exact Proofs.CertMessagePanics.proper_fine. Qed.
Print Assumptions C79_proper_certificate.

(* Each of them, presented at such a time by any server the client agrees on keys with, brings the client down, however the messages are
   divided among records and the records among reads *)
Theorem C79_client_certificate_refuted : forall body, is_bytes body -> certificate_message_panics body ->
  exists now, forall cfg e so first sh g,
    client_ok cfg e -> so_left so = None -> whole first -> r_type first = RHandshake -> agrees cfg e (r_fragment first) sh g ->
  forall extensions requests rest parts more groups later,
    concat parts = handshake 8 extensions :: map (handshake 13) requests ++ handshake 11 body :: rest ->
    carry g (map (@concat Z) parts) (without_ccs more) ->
    Forall whole more -> Forall (fun r => r_type r = RApplicationData) (without_ccs more) -> zlen more < 2^50 ->
    Forall (fun gr => gr <> []) groups -> concat groups = first :: more ->
    snd (connect cfg e now so (map (fun x => concat (map wire x)) groups ++ later)) = Some Panic.
Proof.
  intros body B P. apply (C79_certificate_exact body B) in P as (now & P). exists now. intros cfg e so first sh g Ok' N W T A extensions requests rest parts more groups later.
  exact (Proofs.CertCrash.client_crashed_by cfg e now so first sh g Ok' N W T A extensions requests body rest parts more groups later (fun _ => or_introl P)).
Qed.
Print Assumptions C79_client_certificate_refuted.

(* A CertificateVerify message brings a side down only if it is one of Spec/VerifyPanics.v, or if the certificate it has kept has a
   P-256 key that is not an uncompressed point; *)
Theorem C79_client_verify : forall h c t body1 now raw body,
  cl_cert h = Some c -> cl_th h = Some t -> is_bytes body1 -> certificates_from_hello body1 now = Ok [c] -> is_bytes body ->
  snd (handle_server_certificate_verify h (Handshake.Handshake Handshake.HtCertificateVerify body raw)) = Panic -> verify_panics body \/ bad_key body1.
Proof. exact Proofs.CertMessagePanics.client_verify. Qed.
Print Assumptions C79_client_verify.
(* with such a key, every signature that can be read does *)
Theorem C79_bad_key_refuted : forall h c t body1 now raw body l1 l2 der sg,
  cl_cert h = Some c -> cl_th h = Some t -> is_bytes body1 -> certificates_from_hello body1 now = Ok [c] -> bad_key body1 ->
  body = 4 :: 3 :: l1 :: l2 :: der -> Signature.sig_from_der der = Ok sg ->
  snd (handle_server_certificate_verify h (Handshake.Handshake Handshake.HtCertificateVerify body raw)) = Panic.
Proof. exact Proofs.CertMessagePanics.client_bad_key. Qed.
Print Assumptions C79_bad_key_refuted.
(* Both bring down every client that has read the server's certificate, whoever has signed it: the CertificateVerify messages of
   Spec/VerifyPanics.v, and, after a certificate with such a key, all with a signature that can be read *)
Theorem C79_client_verify_refuted : forall now body1 body2 c, is_bytes body1 -> is_bytes body2 -> certificates_from_hello body1 now = Ok [c] ->
  verify_panics body2 \/ bad_key body1 /\ (exists l1 l2 der sg, body2 = 4 :: 3 :: l1 :: l2 :: der /\ Signature.sig_from_der der = Ok sg) ->
  forall cfg e so first sh g,
    client_ok cfg e -> so_left so = None -> whole first -> r_type first = RHandshake -> agrees cfg e (r_fragment first) sh g ->
  forall extensions requests rest parts more groups later,
    concat parts = handshake 8 extensions :: map (handshake 13) requests ++ handshake 11 body1 :: handshake 15 body2 :: rest ->
    carry g (map (@concat Z) parts) (without_ccs more) ->
    Forall whole more -> Forall (fun r => r_type r = RApplicationData) (without_ccs more) -> zlen more < 2^50 ->
    Forall (fun gr => gr <> []) groups -> concat groups = first :: more ->
    snd (connect cfg e now so (map (fun x => concat (map wire x)) groups ++ later)) = Some Panic.
Proof.
  intros now body1 body2 c B1 B2 R V cfg e so first sh g Ok' N W T A extensions requests rest parts more groups later.
  refine (Proofs.CertCrash.client_crashed_by cfg e now so first sh g Ok' N W T A extensions requests body1 _ parts more groups later (fun _ => or_intror (ex_intro _ c (conj R _)))).
  exists body2, rest. split; [reflexivity|]. intros h t raw Hc Th. destruct V as [V | (K & l1 & l2 & der & sg & E & S)].
  - exact (Proofs.CertMessagePanics.client_falls h c raw body2 Hc B2 V).
  - exact (Proofs.CertMessagePanics.client_bad_key h c t body1 now raw body2 l1 l2 der sg Hc Th B1 R K E S).
Qed.
Print Assumptions C79_client_verify_refuted.
(* Asking whether a CA with a P-256 key has signed a certificate panics exactly if the certificate carries a signature and is shorter than
   the part of it that is signed is said to be *)
Theorem C79_has_signed_exact : forall ca raw x,
  (exists y k, ct_x509 ca = Some y /\ 0 <= fst k /\ 0 <= snd k /\ X509.get_public_key (E:=tls_error) y = Ok (Some k)) ->
  (has_signed ca (Cert raw (Some x)) = Panic <-> x_signature x <> None /\ zlen raw < 4 + Z.of_nat (x_tbs_size x)).
Proof. exact Proofs.CertMessagePanics.signed_exact. Qed.
Print Assumptions C79_has_signed_exact.

(* concrete ones *)
Definition ex_day (y m : Z) : instant := {| year := y; month := m; day := 2; hour := 3; minute := 4; second := 5 |}.
Definition ex_country : list attribute := [{| a_type := Country; a_string := PrintableString; a_text := [68; 69] |}].
Definition ex_made (key : list Z) (m : Z) : any_certificate :=
  {| k_version := Some 2; k_serial := [5]; k_signed_with := ecdsa ecdsa_sha256; k_issuer := ex_country; k_from := utc (ex_day 2022 m); k_until := utc (ex_day 2049 1);
     k_subject := ex_country; k_key_kind := p256_key; k_key := key; k_rest := [];
     k_outer_algorithm := ecdsa ecdsa_sha256; k_signature := EcdsaSigValue [17] [18] |}.
(* a compressed point; the 13th month *)
Definition ex_compressed : list Z := any_wire (ex_made (2 :: repeat 7 32) 1).
Definition ex_month13 : list Z := any_wire (ex_made (4 :: repeat 7 64) 13).
(* signature algorithm and signature inside the signed part *)
Definition ex_swallowed : list Z :=
  let k := ex_made (2 :: repeat 7 32) 1 in
  SEQUENCE [SEQUENCE (any_elements k ++ [algorithm_identifier (k_outer_algorithm k); BIT_STRING (k_signature k)])].
Definition ex_message (cert : list Z) : list Z := vector8 [] ++ vector24 (vector24 cert ++ vector16 []).
Ltac carried := eexists 0, [], _, _, _, _, _, _; split; [vm_compute; reflexivity|]; split; [reflexivity|]; split; [vm_compute; discriminate|vm_compute; reflexivity].
Example C79_certificate_ex :
  certificate_message_panics [] /\ certificate_message_panics [0; 0; 1] /\ certificate_message_panics [0; 0; 0; 5; 0; 0] /\ certificate_message_panics [0; 0; 0; 6; 0; 0; 3; 1; 1] /\ certificate_message_panics (ex_message [0x30; 2; 5; 0]) /\ certificate_message_panics (vector8 [] ++ vector24 (vector24 ex_compressed)) /\ certificate_message_panics (ex_message ex_month13) /\ ~ certificate_message_panics [0; 0; 0; 0] /\ ~ certificate_message_panics (ex_message Proofs.ServerExample.own_raw).
Proof.
  split; [now apply cm_empty|]. split; [eapply cm_context; [reflexivity|reflexivity]|].
  split; [eapply (cm_entry _ 0 []); [reflexivity|reflexivity|discriminate|cbn; lia]|]. split; [eapply (cm_cut _ 0 []); [reflexivity|reflexivity|discriminate|reflexivity]|].
  split; [eapply (cm_reader _ [0x30; 2; 5; 0] [0; 0]); [carried|reflexivity]|].
  split; [eapply (cm_extensions _ ex_compressed []); [carried|vm_compute; reflexivity|cbn; lia]|].
  split; [eapply (cm_dates _ ex_month13 [0; 0]); [carried|vm_compute; reflexivity|left; reflexivity|intros (_ & M & _); cbn in M; lia]|].
  split; apply Proofs.CertMessagePanics.proper_fine; try (apply Proofs.Util.is_bytes_check; vm_compute; reflexivity).
  - exists [], []. split; [reflexivity|]. split; [reflexivity|]. split; [reflexivity|]. now left.
  - exists []. eexists. split; [reflexivity|]. split; [reflexivity|]. split; [vm_compute; reflexivity|]. right. exists Proofs.ServerExample.own_cert, [], [].
    split; [rewrite app_nil_r; reflexivity|]. split; [exact Proofs.ServerExample.own_tbs_ok|]. split; vm_compute; discriminate.
Qed.
(* a client that has kept a certificate with a compressed point, and a signature *)
Example C79_bad_key_ex : bad_key (ex_message ex_compressed) /\ is_bytes (ex_message ex_compressed) /\ (exists c, certificates_from_hello (ex_message ex_compressed) 1700000000 = Ok [c] /\ forall h, cl_cert (cl_with_cert h c) = Some c) /\ exists sg, Signature.sig_from_der (EcdsaSigValue [17] [18]) = Ok sg.
Proof.
  split; [|split; [apply Proofs.Util.is_bytes_check; vm_compute; reflexivity|split; [eexists; split; [vm_compute; reflexivity|reflexivity]|eexists; vm_compute; reflexivity]]].
  exists ex_compressed, [0; 0]. eexists. split; [carried|]. split; [vm_compute; reflexivity|]. split; [reflexivity|]. split; [reflexivity|]. intros (r & E & _). discriminate E.
Qed.
(* a certificate that cannot be checked against any CA *)
Example C79_has_signed_ex : signed_part_cut (ex_message ex_swallowed) /\ exists x, x509_from_raw ex_swallowed = Ok x /\ x_signature x <> None /\ zlen ex_swallowed < 4 + Z.of_nat (x_tbs_size x).
Proof.
  assert (X : exists x, x509_from_raw ex_swallowed = Ok x /\ x_signature x <> None /\ zlen ex_swallowed < 4 + Z.of_nat (x_tbs_size x))
    by (eexists; split; [vm_compute; reflexivity|]; split; [discriminate|reflexivity]).
  split; [|exact X]. destruct X as (x & X & _ & L). exists ex_swallowed, [0; 0], x. split; [carried|]. split; [exact X|exact L].
Qed.
(* a server that presents the certificate with a month 13 *)
Example C79_client_certificate_ex : exists cfg e so first sh g extensions requests rest parts more,
  is_bytes (ex_message ex_month13) /\ certificate_message_panics (ex_message ex_month13) /\
  client_ok cfg e /\ so_left so = None /\ whole first /\ r_type first = RHandshake /\ agrees cfg e (r_fragment first) sh g /\
  concat parts = handshake 8 extensions :: map (handshake 13) requests ++ handshake 11 (ex_message ex_month13) :: rest /\
  carry g (map (@concat Z) parts) (without_ccs more) /\
  Forall whole more /\ Forall (fun r => r_type r = RApplicationData) (without_ccs more) /\ zlen more < 2^50.
Proof.
  set (parts := [[handshake 8 [0; 0]; handshake 11 (ex_message ex_month13)]]).
  destruct (Proofs.CertExample.presents (concat (concat parts))) as (cfg & e & first & sh & g & r & Ok' & W & T & A & Wr & Tr & Fr).
  { apply Proofs.Util.is_bytes_check. vm_compute. reflexivity. }
  { vm_compute. reflexivity. }
  exists cfg, e, Proofs.ClientHandshakeExample.ex_out, first, sh, g, [0; 0], [], [], parts, [r].
  split; [apply Proofs.Util.is_bytes_check; vm_compute; reflexivity|]. split; [apply C79_certificate_ex|].
  split; [exact Ok'|]. split; [reflexivity|]. split; [exact W|]. split; [exact T|]. split; [exact A|].
  split; [reflexivity|].
  assert (NC : without_ccs [r] = [r]) by (unfold without_ccs; cbn [filter]; unfold is_ccs; rewrite Tr; reflexivity).
  rewrite NC. split.
  - split; [reflexivity|]. intros i m r' Hm Hr. destruct i as [|i]; [|destruct i; discriminate Hr]. injection Hr as <-.
    cbn [map nth_error] in Hm. injection Hm as <-. exact Fr.
  - split; [constructor; [exact Wr|constructor]|]. split; [constructor; [exact Tr|constructor]|vm_compute; reflexivity].
Qed.
(* a server that presents the certificate with a compressed key, and a message of either kind *)
Example C79_client_verify_ex : exists c, certificates_from_hello (ex_message ex_compressed) 1700000000 = Ok [c] /\ is_bytes (ex_message ex_compressed) /\
  forall body2, In body2 [[5; 3; 0; 0]; [4; 3; 0; 8; 0x30; 6; 2; 1; 5; 2; 1; 9]] -> is_bytes body2 /\
  (verify_panics body2 \/ bad_key (ex_message ex_compressed) /\ (exists l1 l2 der sg, body2 = 4 :: 3 :: l1 :: l2 :: der /\ Signature.sig_from_der der = Ok sg)) /\
  exists cfg e so first sh g extensions requests rest parts more,
  client_ok cfg e /\ so_left so = None /\ whole first /\ r_type first = RHandshake /\ agrees cfg e (r_fragment first) sh g /\
  concat parts = handshake 8 extensions :: map (handshake 13) requests ++ handshake 11 (ex_message ex_compressed) :: handshake 15 body2 :: rest /\
  carry g (map (@concat Z) parts) (without_ccs more) /\
  Forall whole more /\ Forall (fun r => r_type r = RApplicationData) (without_ccs more) /\ zlen more < 2^50.
Proof.
  destruct C79_bad_key_ex as (K & BK & (c & C & _) & _). exists c. split; [exact C|]. split; [exact BK|]. intros body2 I.
  assert (B2 : is_bytes body2) by (cbn [In] in I; destruct I as [<- | [<- | []]]; apply Proofs.Util.is_bytes_check; vm_compute; reflexivity).
  split; [exact B2|]. split.
  { cbn [In] in I. destruct I as [<- | [<- | []]]; [left; eapply vp_other; [reflexivity|cbn [In]; left; reflexivity]|].
    right. split; [exact K|]. eexists _, _, _, _. split; [reflexivity|]. vm_compute. reflexivity. }
  set (parts := [[handshake 8 [0; 0]; handshake 11 (ex_message ex_compressed)]; [handshake 15 body2]]).
  destruct (Proofs.CertExample.presents2 (concat (nth 0 parts [])) (concat (nth 1 parts []))) as (cfg & e & first & sh & g & r & r2 & Ok' & W & T & A & (Wr & Tr & Fr) & Wr2 & Tr2 & Fr2).
  { apply Proofs.Util.is_bytes_check. vm_compute. reflexivity. }
  { vm_compute. reflexivity. }
  { cbn [In] in I; destruct I as [<- | [<- | []]]; apply Proofs.Util.is_bytes_check; vm_compute; reflexivity. }
  { cbn [In] in I; destruct I as [<- | [<- | []]]; vm_compute; reflexivity. }
  exists cfg, e, Proofs.ClientHandshakeExample.ex_out, first, sh, g, [0; 0], [], [], parts, [r; r2].
  split; [exact Ok'|]. split; [reflexivity|]. split; [exact W|]. split; [exact T|]. split; [exact A|].
  split; [reflexivity|].
  assert (NC : without_ccs [r; r2] = [r; r2]) by (unfold without_ccs; cbn [filter]; unfold is_ccs; rewrite Tr, Tr2; reflexivity).
  rewrite NC. split.
  - split; [reflexivity|]. intros i m r' Hm Hr. destruct i as [|[|i]]; [injection Hr as <- |injection Hr as <- |destruct i; discriminate Hr];
    cbn [map nth_error] in Hm; injection Hm as <-; [exact Fr|exact Fr2].
  - split; [constructor; [exact Wr|constructor; [exact Wr2|constructor]]|]. split; [constructor; [exact Tr|constructor; [exact Tr2|constructor]]|vm_compute; reflexivity].
Qed.
