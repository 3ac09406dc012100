(* C81: whom a server with a client CA lets in.  Property theorems only; the vocabulary is in Spec.Impersonation. *)
From Verif Require Import Model.Base Model.Alert Model.Record Model.Signature Model.X509 Model.Certificate Model.Stream Model.Server
  Spec.Enc Spec.Fips180 Spec.Rfc8446Auth Spec.Tls13Record Spec.Calendar Spec.X509 Spec.Connection Spec.Impersonation.
From Verif Require Spec.Rfc8446Hello Proofs.Impersonation Proofs.ImpersonationExample Proofs.ServerExample.
From Coq Require Import Lia.

(* ---- C81: a server that checks the client's name admits only holders of a certificate the CA issued for that name ---- *)
(* False: the holder of any certificate of the CA, whatever name the CA put into it, is let in under any name.  They add
   one attribute after the signed part. *)
Theorem C81_any_name_refuted : forall cfg d now so hello ch body g ca cax ca_key c who,
  server_ok cfg d -> zlen (ct_raw (sc_cert cfg)) < 2^16 - 64 -> so_left so = None ->
  whole hello -> r_type hello = RHandshake -> answers cfg d (r_fragment hello) ch body g -> can_sign cfg d g ->
  sc_client_ca cfg = Some ca -> ct_x509 ca = Some cax -> X509.get_public_key (E:=tls_error) cax = Ok (Some ca_key) ->
  sc_verify cfg = Some (common_name_is (utf8 who)) -> Forall scalar_value who ->
  issued ca_key c -> Z.of_nat (length (stuffed_certificate c [rdn (common who)])) < 65536 ->
  1970 <= year (tbs_not_before (c_tbs c)) -> 1970 <= year (tbs_not_after (c_tbs c)) ->
  unix_time (tbs_not_before (c_tbs c)) <= now <= unix_time (tbs_not_after (c_tbs c)) - 86400 ->
  let_in cfg d now so hello g c (stuffed_certificate c [rdn (common who)]).
Proof.
  intros cfg d now so hello ch body g ca cax ca_key c who H1 H2 H3 H4 H5 H6 H7 H8 H9 H10 H11 H12 H13.
  exact (Proofs.Impersonation.any_name cfg d now so hello ch body g ca cax ca_key c H1 H2 H3 H4 H5 H6 H7 H8 H9 H10 H13 who H11 H12).
Qed.
Print Assumptions C81_any_name_refuted.
(* and the holder of a certificate of the CA that has expired is let in, with the name in it *)
Theorem C81_expired_refuted : forall cfg d now so hello ch body g ca cax ca_key c late who,
  server_ok cfg d -> zlen (ct_raw (sc_cert cfg)) < 2^16 - 64 -> so_left so = None ->
  whole hello -> r_type hello = RHandshake -> answers cfg d (r_fragment hello) ch body g -> can_sign cfg d g ->
  sc_client_ca cfg = Some ca -> ct_x509 ca = Some cax -> X509.get_public_key (E:=tls_error) cax = Ok (Some ca_key) ->
  sc_verify cfg = Some (common_name_is who) -> common_name c = Some who ->
  issued ca_key c -> time_ok late -> Z.of_nat (length (stuffed_certificate c [UTCTime late])) < 65536 ->
  1970 <= year (tbs_not_before (c_tbs c)) -> 1970 <= year late ->
  unix_time (tbs_not_before (c_tbs c)) <= now <= unix_time late - 86400 ->
  let_in cfg d now so hello g c (stuffed_certificate c [UTCTime late]).
Proof.
  intros cfg d now so hello ch body g ca cax ca_key c late who H1 H2 H3 H4 H5 H6 H7 H8 H9 H10 H11 H12 H13.
  exact (Proofs.Impersonation.any_time cfg d now so hello ch body g ca cax ca_key c H1 H2 H3 H4 H5 H6 H7 H8 H9 H10 H13 late who H11 H12).
Qed.
Print Assumptions C81_expired_refuted.
(* What holds: who is let in has signed this handshake with a key the CA signed.  If the certificate they show begins as
   certificates do, with some TBSCertificate t of 256 bytes and more, there is a signature of the CA for t, and the
   CertificateVerify is good for the key in t. *)
Theorem C81_certified_key_partial : forall cfg d now so reads h ca,
  server_ok cfg d -> sc_client_ca cfg = Some ca -> Forall is_bytes reads -> accept cfg d now so reads = (h, Some (Ok tt)) ->
  exists taken rest hello more ch body g der r1 r2 m1 m2 later cax ca_key cert,
    reads = taken ++ rest /\ received (concat taken) (hello :: more) /\
    answers cfg d (r_fragment hello) ch body g /\ without_ccs more = r1 :: r2 :: later /\
    from_client g 0 m1 r1 /\ from_client g 1 m2 r2 /\ presented (d_context d) m1 cert /\
    ct_x509 ca = Some cax /\ X509.get_public_key (E:=tls_error) cax = Ok (Some ca_key) /\
    forall t hi lo more', cert = [0x30; 0x82; hi; lo] ++ TBSCertificate t ++ more' -> tbs_ok t ->
      256 <= Z.of_nat (length (concat (tbs_elements t))) < 65536 ->
      (exists r s, signed_under ca_key (sha256_spec (TBSCertificate t)) r s) /\
      exists sg dv size extra, sig_from_der dv = Ok (sg, size) /\
        m2 = Rfc8446Hello.handshake 15 (Rfc8446Hello.u16 0x0403 ++ Rfc8446Hello.u16 (Z.of_nat size) ++ dv) ++ extra /\
        signed_under (tbs_x t, tbs_y t) (sha256_spec (verify_message (g_alg g) client_context (to_server_finished cfg d g der ++ m1))) (sg_r sg) (sg_s sg).
Proof. exact Proofs.Impersonation.certified. Qed.
Print Assumptions C81_certified_key_partial.
(* A certificate the CA (with key G) issued for "ca", valid until 2032: a server that admits only "otsmr" accepts its holder,
   and a server that admits "ca" does in 2036. *)
Example C81_ex : issued (ServerExample.Gx, ServerExample.Gy) ServerExample.own_cert /\ common_name ServerExample.own_cert = Some [99; 97] /\
  (exists reads h, Forall is_bytes reads /\
     accept (ImpersonationExample.im_cfg (utf8 [111; 116; 115; 109; 114])) ServerExample.ex_draws ServerExample.own_now ServerExample.ex_sock reads = (h, Some (Ok tt))) /\
  unix_time (tbs_not_after (c_tbs ServerExample.own_cert)) < ImpersonationExample.im_late /\
  (exists reads h, Forall is_bytes reads /\
     accept (ImpersonationExample.im_cfg [99; 97]) ServerExample.ex_draws ImpersonationExample.im_late ServerExample.ex_sock reads = (h, Some (Ok tt))).
Proof.
  split; [exact ImpersonationExample.im_issued|]. split; [reflexivity|]. split; [exact ImpersonationExample.im_name|].
  split; [vm_compute; reflexivity|exact ImpersonationExample.im_time].
Qed.
