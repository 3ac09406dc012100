(* C56, C66: Certificate, CertificateVerify and Finished messages. Property theorems only. *)
From Coq Require Import Lia.
From Verif Require Import Model.Base Model.Bytes Model.Alert Model.Sha2 Model.Hmac Model.KeySchedule Model.Curve Model.Signature Model.Ecdsa Model.X509
  Model.Extensions Model.Handshake Model.Certificate Spec.Enc Spec.Fips180 Spec.Rfc2104 Spec.Rfc8446Keys Spec.Rfc8446Auth Spec.X509.
From Verif Require Spec.Rfc8446Hello Spec.Ec Spec.Ecdsa.
From Verif Require Props.X509.
From Verif Require Proofs.Auth Proofs.HelloTotal Proofs.Signature Proofs.EcdsaP256 Proofs.X509Cert.

(* ---- C56: messages of one side are read by the other side as what they were ---- *)
(* framing: type, contents and length, whatever follows *)
Theorem C56_frame : forall t data rest, zlen data < 2^24 ->
  handshake_from_raw (handshake_to_bytes t data ++ rest) = Ok (Handshake t data (handshake_to_bytes t data)).
Proof. exact Proofs.HelloTotal.frame_round. Qed.
Print Assumptions C56_frame.
Example C56_frame_ex : handshake_from_raw (handshake_to_bytes HtFinished [1; 2; 3] ++ [9]) = Ok (Handshake HtFinished [1; 2; 3] [20; 0; 0; 3; 1; 2; 3]).
Proof. reflexivity. Qed.

(* Certificate: the receiver gets the certificate that was sent if it is valid now, and an error otherwise *)
Theorem C56_certificate : forall c context x now v,
  zlen context < 256 -> zlen (ct_raw c) + 5 < 2^24 -> x509_from_raw (ct_raw c) = Ok x ->
  is_valid (E:=tls_error) (x_validity x) now = Ok v ->
  certificates_from_hello (certificate_for_handshake c (Rfc8446Hello.vector8 context)) now =
    if v then Ok [Cert (ct_raw c) (Some x)] else Err CertificateExpired.
Proof.
  intros c context x now v Hc Hr Hx Hv. rewrite Proofs.Auth.certificate_bytes by assumption.
  unfold Rfc8446Hello.certificate_wire.
  pose proof (Proofs.Auth.certificates_read context (ct_raw c) [] [] [] now) as P. unfold Proofs.Auth.entry in P. rewrite !app_nil_r in P.
  rewrite P; [|exact Hc|lia|unfold zlen in *; rewrite app_length; unfold Rfc8446Hello.vector24, Rfc8446Hello.vector16; rewrite !app_length; cbn [length];
    rewrite !Proofs.Bytes.be_enc_length; lia].
  unfold certificate_from_raw. rewrite Hx. cbn [bind unwrap ct_x509]. rewrite Hv. destruct v; reflexivity.
Qed.
Print Assumptions C56_certificate.
(* a certificate list of a conforming peer: the first entry is read, whatever the others and the extensions are *)
Theorem C56_certificate_list : forall context cert exts more tail x now v,
  zlen context < 256 -> zlen cert < 2^24 ->
  zlen (Rfc8446Hello.vector24 cert ++ Rfc8446Hello.vector16 exts ++ more) < 2^24 ->
  x509_from_raw cert = Ok x -> is_valid (E:=tls_error) (x_validity x) now = Ok v ->
  certificates_from_hello (Rfc8446Hello.vector8 context ++
      Rfc8446Hello.vector24 (Rfc8446Hello.vector24 cert ++ Rfc8446Hello.vector16 exts ++ more) ++ tail) now =
    if v then Ok [Cert cert (Some x)] else Err CertificateExpired.
Proof.
  intros context cert exts more tail x now v Hc Hr Hl Hx Hv. rewrite (app_assoc (Rfc8446Hello.vector24 cert)) in Hl |- *.
  pose proof (Proofs.Auth.certificates_read context cert exts more tail now Hc Hr Hl) as P. unfold Proofs.Auth.entry in P. rewrite P.
  unfold certificate_from_raw. rewrite Hx. cbn [bind unwrap ct_x509]. rewrite Hv. destruct v; reflexivity.
Qed.
Print Assumptions C56_certificate_list.
Example C56_certificate_ex :
  match x509_from_raw (Certificate Props.X509.ex_cert) with
  | Ok x => is_valid (E:=tls_error) (x_validity x) 1650000000 = Ok true /\ is_valid (E:=tls_error) (x_validity x) 1750000000 = Ok false
  | _ => False
  end /\ zlen (Certificate Props.X509.ex_cert) + 5 < 2^24.
Proof. vm_compute. repeat split. Qed.

(* CertificateVerify: scheme, signature and length are read back when both numbers of the signature need all
   32 bytes (see C06_round_trip_refuted for the others) *)
Theorem C56_certificate_verify_partial : forall d t label nonces body,
  Forall (fun k => 0 <= k) nonces ->
  certificate_verify_for_handshake (E:=Empty_set) (PrivateKey secp256r1 d) t label nonces = Ok (Some body) ->
  exists k r s der len, In k nonces /\
    Ecdsa.sign_with d (Ecdsa.hash_int (sha256 (verify_content label (th_finalize t)))) k = Some (r, s) /\
    slice (E:=Empty_set) body 0 2 = Ok [4; 3] /\ sig_scheme_new (to_u16 [4; 3]) = Ok ecdsa_secp256r1_sha256 /\
    slice_from (E:=Empty_set) body 4 = Ok der /\ slice (E:=Empty_set) body 2 4 = Ok len /\ to_u16 len = zlen der /\
    (2^248 <= r -> 2^248 <= s -> sig_from_der der = Ok ({| sg_r := r; sg_s := s |}, length der)).
Proof.
  intros d t label nonces body Hn H. pose proof (Proofs.Auth.cv_sent d t label nonces body Hn H) as (k & r & s & der & Ik & Hs & Hd & -> & Bd & Ld).
  destruct (Proofs.Auth.cv_slices (E:=Empty_set) der ltac:(unfold zlen; lia)) as (S1 & S2 & b & S3 & S4).
  exists k, r, s, der, b. repeat (split; [assumption || reflexivity|]).
  intros Rr Rs. rewrite Forall_forall in Hn. destruct (Proofs.Auth.sign_range _ _ _ _ _ (Hn k Ik) Hs) as (Ur & Us).
  destruct (Proofs.Signature.round_trip (E:=Empty_set) r s Ur Us) as (der' & H1 & H2).
  rewrite Hd in H1. injection H1 as <-. rewrite (Proofs.Signature.shifted_top r), (Proofs.Signature.shifted_top s) in H2 by lia. exact H2.
Qed.
Print Assumptions C56_certificate_verify_partial.

(* ---- C66: Finished and CertificateVerify are those of RFC 8446 section 4.4 ---- *)
Definition alg_for (h : hash_type) : alg := match h with SHA256 => alg_sha256 | SHA384 => alg_sha384 end.
(* Finished, for the messages fed to the transcript in any pieces *)
Theorem C66_finished : forall h secret chunks,
  is_bytes secret -> length secret = hash_len h -> is_bytes (concat chunks) -> zlen (concat chunks) < 2^53 ->
  finished_handshake (from_prk h secret) (fold_left th_update chunks (th_new h)) =
    Ok (Rfc8446Hello.handshake 20 (finished_verify_data (alg_for h) secret (concat chunks))).
Proof. intros h secret chunks. rewrite Proofs.Hmac.th_updates. exact (Proofs.Auth.finished_message h secret (concat chunks)). Qed.
Print Assumptions C66_finished.
Example C66_finished_ex : is_bytes (repeat 7 48) /\ length (repeat 7 48) = hash_len SHA384.
Proof. split; [apply Proofs.Util.is_bytes_check|]; reflexivity. Qed.

(* the signature in a CertificateVerify: what a side sends is an ECDSA signature, by its own key, of SHA-256 of the
   content RFC 8446 prescribes for its role *)
Definition role_label (server : bool) : list Z := if server then l_server else l_client.
Definition role_context (server : bool) : list Z := if server then server_context else client_context.
Theorem C66_certificate_verify_sent : forall server h chunks d nonces body,
  Forall (fun k => 0 <= k) nonces -> is_bytes (concat chunks) -> zlen (concat chunks) < 2^53 ->
  certificate_verify_for_handshake (E:=Empty_set) (PrivateKey secp256r1 d) (fold_left th_update chunks (th_new h))
    (role_label server) nonces = Ok (Some body) ->
  exists r s der,
    Ecdsa.valid_signature (Ecdsa.public_of d)
      (Ecdsa.hash_int (sha256_spec (verify_message (alg_for h) (role_context server) (concat chunks)))) r s /\
    sig_to_der (E:=Empty_set) {| sg_r := r; sg_s := s |} = Ok der /\
    body = Rfc8446Hello.certificate_verify_wire 0x0403 der.
Proof.
  intros server h chunks d nonces body Hn Bc Lc H. rewrite Proofs.Hmac.th_updates in H.
  destruct (Proofs.Auth.cv_sent _ _ _ _ _ Hn H) as (k & r & s & der & Ik & Hs & Hd & Hb & _).
  exists r, s, der. split; [|auto]. rewrite Forall_forall in Hn.
  rewrite (Proofs.Auth.verify_digest h (concat chunks) (role_label server) (role_context server) Bc Lc) in Hs
    by (destruct server; [left|right]; split; reflexivity).
  exact (Proofs.EcdsaP256.p256_sign_valid _ _ _ _ _ (Hn k Ik) Hs).
Qed.
Print Assumptions C66_certificate_verify_sent.
(* and what a side accepts is one by the key in the peer's certificate, for the peer's role *)
Theorem C66_certificate_verify_accepted : forall server h chunks raw x sg,
  is_bytes raw -> x509_from_raw raw = Ok x -> is_bytes (concat chunks) -> zlen (concat chunks) < 2^53 ->
  is_certificate_valid (E:=Empty_set) (Cert raw (Some x)) sg (fold_left th_update chunks (th_new h)) (role_label server) = Ok true ->
  exists key, X509.get_public_key (E:=Empty_set) x = Ok (Some key) /\
    signed_under key (sha256_spec (verify_message (alg_for h) (role_context server) (concat chunks))) (sg_r sg) (sg_s sg).
Proof.
  intros server h chunks raw x sg Br Hx Bc Lc H. rewrite Proofs.Hmac.th_updates in H.
  destruct (Proofs.Auth.valid_true (Cert raw (Some x)) x sg _ _ eq_refl Br Hx H) as (key & H1 & H2).
  exists key. split; [exact H1|].
  rewrite (Proofs.Auth.verify_digest h (concat chunks) (role_label server) (role_context server) Bc Lc) in H2
    by (destruct server; [left|right]; split; reflexivity).
  exact H2.
Qed.
Print Assumptions C66_certificate_verify_accepted.
(* conversely every such signature is accepted *)
Theorem C66_certificate_verify_complete : forall server h chunks raw x sg key,
  is_bytes raw -> x509_from_raw raw = Ok x -> is_bytes (concat chunks) -> zlen (concat chunks) < 2^53 ->
  (forall E, X509.get_public_key (E:=E) x = Ok (Some key)) -> 0 <= fst key -> 0 <= snd key ->
  signed_under key (sha256_spec (verify_message (alg_for h) (role_context server) (concat chunks))) (sg_r sg) (sg_s sg) ->
  is_certificate_valid (E:=Empty_set) (Cert raw (Some x)) sg (fold_left th_update chunks (th_new h)) (role_label server) = Ok true.
Proof.
  intros server h chunks raw x sg [a b] Br Hx Bc Lc Hk Ha Hb S. rewrite Proofs.Hmac.th_updates.
  apply (Proofs.Auth.valid_made (Cert raw (Some x)) x sg _ _ a b eq_refl Hk Ha Hb).
  rewrite (Proofs.Auth.verify_digest h (concat chunks) (role_label server) (role_context server) Bc Lc)
    by (destruct server; [left|right]; split; reflexivity).
  exact S.
Qed.
Print Assumptions C66_certificate_verify_complete.
