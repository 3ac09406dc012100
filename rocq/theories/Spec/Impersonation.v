(* Vocabulary for statements about who a server with a client CA lets in. *)
From Verif Require Import Model.Base Model.Alert Model.Record Model.Signature Model.X509 Model.Stream Model.Server
  Spec.Enc Spec.Fips180 Spec.Rfc8446Auth Spec.Calendar Spec.X509 Spec.Connection.
From Verif Require Spec.Rfc8446Hello.

(* the CA with this key issued the certificate c: the signature in c is over its TBSCertificate.  (256 bytes and more, as
   every certificate with a P-256 key, names and extensions has; see C57 for shorter ones) *)
Definition issued (ca_key : Z * Z) (c : certificate) : Prop :=
  tbs_ok (c_tbs c) /\ 256 <= Z.of_nat (length (concat (tbs_elements (c_tbs c)))) /\
  signed_under ca_key (sha256_spec (TBSCertificate (c_tbs c))) (be_val (c_r c)) (be_val (c_s c)).
Definition holder_key (c : certificate) : Z * Z := (tbs_x (c_tbs c), tbs_y (c_tbs c)).

(* The first two messages of a client that sends `cert` as its certificate and signs, as RFC 8446 has it, with the key
   of c.  `used` are the two records, `messages` the transcript after them. *)
Definition logs_in (d : draws) (g : agreed) (c : certificate) (cert before : list Z) (used : list record) (messages : list Z) : Prop :=
  exists exts others sg der size extra r1 r2 m1 m2,
    used = [r1; r2] /\ messages = before ++ m1 ++ m2 /\
    whole r1 /\ whole r2 /\ r_type r1 = RApplicationData /\ r_type r2 = RApplicationData /\ from_client g 0 m1 r1 /\ from_client g 1 m2 r2 /\
    m1 = Rfc8446Hello.handshake 11 (Rfc8446Hello.vector8 (d_context d) ++
           Rfc8446Hello.vector24 (Rfc8446Hello.vector24 cert ++ Rfc8446Hello.vector16 exts ++ others)) /\
    m2 = Rfc8446Hello.handshake 15 (Rfc8446Hello.u16 0x0403 ++ Rfc8446Hello.u16 (Z.of_nat size) ++ der) ++ extra /\
    sig_from_der der = Ok (sg, size) /\
    signed_under (holder_key c) (sha256_spec (verify_message (g_alg g) client_context (before ++ m1))) (sg_r sg) (sg_s sg).

(* a check of the common name, as in examples/src/bin/server_client_auth.rs:19-25 for "otsmr" *)
Definition common_name_is (who : list Z) (x : x509) : bool :=
  match name_get (x_subject x) CommonName with Ok n => list_eqb n who | _ => false end.
(* the name a CA put into a certificate *)
Definition common_name (c : certificate) : option (list Z) := last_value Common (tbs_subject (c_tbs c)).
Definition common (who : list Z) : attribute := {| a_type := Common; a_string := UTF8String; a_text := who |}.

(* The server lets in a client that after the ClientHello in `hello` shows `cert` and signs with the key of c: it
   can sign its own messages, and however the client's records - with change_cipher_spec records between them - are grouped
   into reads, accept returns a connection.  (The Finished is the one of RFC 8446.) *)
Definition let_in (cfg : server_config) (d : draws) (now : Z) (so : sock) (hello : record) (g : agreed) (c : certificate) (cert : list Z) : Prop :=
  exists der, server_signed cfg d g der /\
  forall groups later more used finished messages,
    Forall (fun x => x <> []) groups -> concat groups = hello :: more -> Forall whole more ->
    without_ccs more = used ++ [finished] ->
    logs_in d g c cert (to_server_finished cfg d g der) used messages ->
    r_type finished = RApplicationData ->
    from_client g (zlen used) (Rfc8446Hello.handshake 20 (verify_data g (client_secret g) messages)) finished ->
    exists h, accept cfg d now so (map (fun x => concat (map wire x)) groups ++ later) = (h, Some (Ok tt)).
