(* C89: certificates the library has no code for. Property theorems only. *)
From Coq Require Import Lia.
From Verif Require Import Model.Base Model.Alert Model.Record Model.Der Model.X509 Model.Certificate Model.Stream Model.Client
  Spec.Calendar Spec.X509 Spec.X509Any Spec.Connection Spec.ClientConnection Spec.Rfc8446Hello.
From Verif Require Proofs.X509Any Proofs.CertCrash Proofs.CertExample Proofs.Util.

(* ---- C89: a certificate with other algorithms, keys or dates is refused with an error ---- *)
(* False for RSA.  A certificate signed with sha256WithRSAEncryption, as most are, panics the parser, *)
Theorem C89_rsa_signed_refuted : forall k,
  version_ok k -> Z.of_nat (length (any_wire k)) < 2^24 -> k_signed_with k = rsa_sha256 -> x509_from_raw (any_wire k) = Panic.
Proof. intros k V L R. apply Proofs.X509Any.rsa_signed; auto. Qed.
Print Assumptions C89_rsa_signed_refuted.
(* and so does one with an RSA key, signed with ECDSA *)
Theorem C89_rsa_key_refuted : forall k a i j,
  version_ok k -> names_ok (k_issuer k) -> names_ok (k_subject k) -> Z.of_nat (length (any_wire k)) < 2^24 ->
  k_signed_with k = ecdsa a -> k_from k = utc i -> k_until k = utc j -> time_ok i -> time_ok j ->
  k_key_kind k = rsa_key -> x509_from_raw (any_wire k) = Panic.
Proof. exact Proofs.X509Any.rsa_keyed. Qed.
Print Assumptions C89_rsa_key_refuted.
(* A server that has agreed on keys with a client brings it down by presenting a certificate signed with RSA, whatever else is in
   it, whatever the client is configured with, however the messages are put into records and the records into reads *)
Theorem C89_client_rsa_refuted : forall cfg e now so first sh g,
  client_ok cfg e -> so_left so = None -> whole first -> r_type first = RHandshake -> agrees cfg e (r_fragment first) sh g ->
  forall extensions requests context k exts others rest parts more groups later,
    version_ok k -> Z.of_nat (length (any_wire k)) < 2^24 -> k_signed_with k = rsa_sha256 -> zlen context < 256 ->
    concat parts = handshake 8 extensions :: map (handshake 13) requests ++
      handshake 11 (vector8 context ++ vector24 (vector24 (any_wire k) ++ vector16 exts ++ others)) :: rest ->
    carry g (map (@concat Z) parts) (without_ccs more) ->
    Forall whole more -> Forall (fun r => r_type r = RApplicationData) (without_ccs more) -> zlen more < 2^50 ->
    Forall (fun gr => gr <> []) groups -> concat groups = first :: more ->
    snd (connect cfg e now so (map (fun x => concat (map wire x)) groups ++ later)) = Some Panic.
Proof.
  intros cfg e now so first sh g Ok' N W T A extensions requests context k exts others rest parts more groups later V L R.
  exact (Proofs.CertCrash.client_crashed cfg e now so first sh g Ok' N W T A extensions requests context (any_wire k) exts others rest parts more groups later
    (or_introl (C89_rsa_signed_refuted k V L R))).
Qed.
Print Assumptions C89_client_rsa_refuted.

(* What is refused with an error: any signature algorithm that has no name here, *)
Theorem C89_other_signature_partial : forall k,
  version_ok k -> Z.of_nat (length (any_wire k)) < 2^24 -> plain_oid (al_oid (k_signed_with k)) ->
  ~ In (al_oid (k_signed_with k)) named_algorithms -> x509_from_raw (any_wire k) = Err (Some PAlgorithms).
Proof. exact Proofs.X509Any.other_signed. Qed.
Print Assumptions C89_other_signature_partial.
(* any such kind of key, *)
Theorem C89_other_key_partial : forall k a i j,
  version_ok k -> names_ok (k_issuer k) -> names_ok (k_subject k) -> Z.of_nat (length (any_wire k)) < 2^24 ->
  k_signed_with k = ecdsa a -> k_from k = utc i -> k_until k = utc j -> time_ok i -> time_ok j ->
  plain_oid (al_oid (k_key_kind k)) -> ~ In (al_oid (k_key_kind k)) named_algorithms ->
  x509_from_raw (any_wire k) = Err (Some PAlgorithms).
Proof. exact Proofs.X509Any.other_keyed. Qed.
Print Assumptions C89_other_key_partial.
(* a date from 2050 on, which RFC 5280 has as GeneralizedTime, *)
Theorem C89_generalized_time_partial : forall k a,
  version_ok k -> names_ok (k_issuer k) -> Z.of_nat (length (any_wire k)) < 2^24 -> k_signed_with k = ecdsa a ->
  is_generalized (k_from k) \/ (exists i, k_from k = utc i /\ time_ok i) /\ is_generalized (k_until k) ->
  x509_from_raw (any_wire k) = Err (Some PNotYetImplemented).
Proof. exact Proofs.X509Any.generalized_refused. Qed.
Print Assumptions C89_generalized_time_partial.
(* a string where none belongs *)
Theorem C89_stray_string_partial : forall c s text more, tbs_ok (c_tbs c) -> Forall scalar_value text ->
  Z.of_nat (length (stuffed_certificate c (der (string_tag s) (utf8 text) :: more))) < 2^24 ->
  x509_from_raw (stuffed_certificate c (der (string_tag s) (utf8 text) :: more)) = Err (Some PNameAddValue).
Proof. exact Proofs.X509Any.stray_string. Qed.
Print Assumptions C89_stray_string_partial.
(* A UTCTime that is shorter than YYMMDDHHMMSS is refused, *)
Theorem C89_time_short_partial : forall k a,
  version_ok k -> names_ok (k_issuer k) -> Z.of_nat (length (any_wire k)) < 2^24 -> k_signed_with k = ecdsa a ->
  is_short (k_from k) \/ (exists i, k_from k = utc i /\ time_ok i) /\ is_short (k_until k) ->
  x509_from_raw (any_wire k) = Err (Some PTimeStamp).
Proof. exact Proofs.X509Any.short_time. Qed.
Print Assumptions C89_time_short_partial.
(* but one with a character in it that is not ASCII panics the parser, *)
Theorem C89_time_text_refuted : forall k a,
  version_ok k -> names_ok (k_issuer k) -> Z.of_nat (length (any_wire k)) < 2^24 -> k_signed_with k = ecdsa a ->
  is_foreign (k_from k) \/ (exists i, k_from k = utc i /\ time_ok i) /\ is_foreign (k_until k) ->
  x509_from_raw (any_wire k) = Panic.
Proof. exact Proofs.X509Any.foreign_time. Qed.
Print Assumptions C89_time_text_refuted.
(* and with it the client it is presented to *)
Theorem C89_client_time_refuted : forall cfg e now so first sh g,
  client_ok cfg e -> so_left so = None -> whole first -> r_type first = RHandshake -> agrees cfg e (r_fragment first) sh g ->
  forall extensions requests context k a exts others rest parts more groups later,
    version_ok k -> names_ok (k_issuer k) -> Z.of_nat (length (any_wire k)) < 2^24 -> k_signed_with k = ecdsa a ->
    is_foreign (k_from k) \/ (exists i, k_from k = utc i /\ time_ok i) /\ is_foreign (k_until k) -> zlen context < 256 ->
    concat parts = handshake 8 extensions :: map (handshake 13) requests ++
      handshake 11 (vector8 context ++ vector24 (vector24 (any_wire k) ++ vector16 exts ++ others)) :: rest ->
    carry g (map (@concat Z) parts) (without_ccs more) ->
    Forall whole more -> Forall (fun r => r_type r = RApplicationData) (without_ccs more) -> zlen more < 2^50 ->
    Forall (fun gr => gr <> []) groups -> concat groups = first :: more ->
    snd (connect cfg e now so (map (fun x => concat (map wire x)) groups ++ later)) = Some Panic.
Proof.
  intros cfg e now so first sh g Ok' N W T A extensions requests context k a exts others rest parts more groups later V I L R D.
  exact (Proofs.CertCrash.client_crashed cfg e now so first sh g Ok' N W T A extensions requests context (any_wire k) exts others rest parts more groups later
    (or_introl (C89_time_text_refuted k a V I L R D))).
Qed.
Print Assumptions C89_client_time_refuted.

(* An EC key on another curve is accepted but not there when it is asked for, and a P-256 key in compressed form panics then *)
Theorem C89_ec_key_refuted : forall k a i j curve b0 bs ext o r s,
  version_ok k -> names_ok (k_issuer k) -> names_ok (k_subject k) -> Z.of_nat (length (any_wire k)) < 2^24 ->
  k_signed_with k = ecdsa a -> k_from k = utc i -> k_until k = utc j -> time_ok i -> time_ok j ->
  k_key_kind k = ec_key curve -> k_key k = b0 :: bs -> b0 <> 0x30 -> k_rest k = opt (EXPLICIT 3) ext ->
  k_outer_algorithm k = ecdsa o -> k_signature k = EcdsaSigValue r s -> plain_oid curve ->
  exists x, x509_from_raw (any_wire k) = Ok x /\
    (curve <> id_prime256v1 -> get_public_key (E:=Empty_set) x = Ok None) /\
    (curve = id_prime256v1 -> b0 <> 4 -> get_public_key (E:=Empty_set) x = Panic).
Proof. exact Proofs.X509Any.ec_no_key. Qed.
Print Assumptions C89_ec_key_refuted.
(* a CA with such a key brings down whoever asks whether it signed a certificate *)
Theorem C89_ca_key_refuted : forall k a i j curve b0 bs ext o r s raw raw' other,
  version_ok k -> names_ok (k_issuer k) -> names_ok (k_subject k) -> Z.of_nat (length (any_wire k)) < 2^24 ->
  k_signed_with k = ecdsa a -> k_from k = utc i -> k_until k = utc j -> time_ok i -> time_ok j ->
  k_key_kind k = ec_key curve -> k_key k = b0 :: bs -> b0 <> 0x30 -> k_rest k = opt (EXPLICIT 3) ext ->
  k_outer_algorithm k = ecdsa o -> k_signature k = EcdsaSigValue r s -> plain_oid curve -> curve <> id_prime256v1 \/ b0 <> 4 ->
  exists x, x509_from_raw (any_wire k) = Ok x /\
    has_signed {| ct_raw := raw; ct_x509 := Some x |} {| ct_raw := raw'; ct_x509 := Some other |} = Panic.
Proof. exact Proofs.X509Any.ca_no_key. Qed.
Print Assumptions C89_ca_key_refuted.

(* concrete ones *)
Definition ex_instant (y : Z) : instant := {| year := y; month := 1; day := 2; hour := 3; minute := 4; second := 5 |}.
Definition ex_issuer : list attribute := [{| a_type := Country; a_string := PrintableString; a_text := [68; 69] |}].
Definition ex_any (signed kind : algo) (from until : date) (key : list Z) : any_certificate :=
  {| k_version := Some 2; k_serial := [0; 200; 1]; k_signed_with := signed; k_issuer := ex_issuer; k_from := from; k_until := until;
     k_subject := ex_issuer; k_key_kind := kind; k_key := key; k_rest := [EXPLICIT 3 [0x30; 0]];
     k_outer_algorithm := ecdsa ecdsa_sha256; k_signature := EcdsaSigValue [17] [18] |}.
Definition ex_from := utc (ex_instant 2022).
Definition ex_until := utc (ex_instant 2049).
(* 20500102030405Z *)
Definition ex_2050 := generalized [50; 48; 53; 48; 48; 49; 48; 50; 48; 51; 48; 52; 48; 53; 90].
Example C89_ex : forall signed kind from until key, length key = 40%nat ->
  In signed [rsa_sha256; ecdsa ecdsa_sha256; {| al_oid := id_Ed25519; al_parameters := [] |}] ->
  In kind [rsa_key; p256_key; ec_key id_secp384r1; {| al_oid := id_Ed25519; al_parameters := [] |}] ->
  In from [ex_from; ex_2050] -> In until [ex_until; ex_2050] ->
  let k := ex_any signed kind from until key in
  version_ok k /\ names_ok (k_issuer k) /\ names_ok (k_subject k) /\ Z.of_nat (length (any_wire k)) < 2^24.
Proof.
  intros signed kind from until key L S K F U k. split; [intros v H; injection H as <-; lia|].
  assert (N : names_ok ex_issuer) by (constructor; [constructor; [left; lia|constructor; [left; lia|constructor]]|constructor]).
  split; [exact N|]. split; [exact N|].
  do 41 (destruct key as [|? key]; [first [discriminate L | idtac]|]); try discriminate L.
  cbn [In] in *.
  repeat match goal with H : _ \/ _ |- _ => destruct H as [<- | H] | H : False |- _ => destruct H end; vm_compute; reflexivity.
Qed.
Example C89_names_ex : Forall (fun o => plain_oid o /\ ~ In o named_algorithms) [id_Ed25519; id_sha384WithRSAEncryption; id_sha1WithRSAEncryption] /\
  plain_oid id_secp384r1 /\ id_secp384r1 <> id_prime256v1 /\ plain_oid id_prime256v1 /\ time_ok (ex_instant 2022) /\ time_ok (ex_instant 2049).
Proof.
  assert (P : forall o, octets o -> (length o <= 16)%nat -> hd 0 o <> 0 -> plain_oid o) by (intros; repeat split; assumption).
  split; [repeat (apply Forall_cons || apply Forall_nil); (split; [apply P; [apply Proofs.Util.is_bytes_check; reflexivity|cbn; lia|discriminate]|cbn; intuition discriminate])|].
  split; [apply P; [apply Proofs.Util.is_bytes_check; reflexivity|cbn; lia|discriminate]|]. split; [discriminate|].
  split; [apply P; [apply Proofs.Util.is_bytes_check; reflexivity|cbn; lia|discriminate]|]. split; repeat split; cbn; lia.
Qed.
(* "2301020304é5Z" and "23010203" *)
Definition ex_foreign := written [50; 51; 48; 49; 48; 50; 48; 51; 48; 52; 233; 53; 90].
Definition ex_short := written [50; 51; 48; 49; 48; 50; 48; 51].
Example C89_time_ex : is_foreign ex_foreign /\ is_short ex_short /\
  forall d, In d [ex_foreign; ex_short] ->
  let k := ex_any (ecdsa ecdsa_sha256) p256_key ex_from d (repeat 7 40) in
  version_ok k /\ names_ok (k_issuer k) /\ Z.of_nat (length (any_wire k)) < 2^24 /\ k_signed_with k = ecdsa ecdsa_sha256 /\
  (exists i, k_from k = utc i /\ time_ok i).
Proof.
  assert (S : forall l, Forall (fun c => 0 <= c < 256) l -> Forall scalar_value l) by (intros l H; eapply Forall_impl; [|exact H]; cbn; intros; left; lia).
  split; [eexists; split; [reflexivity|]; split; [apply S; repeat (apply Forall_cons; [lia|]); apply Forall_nil|]; split; [vm_compute; lia|]|].
  { intros F. assert (H : In 195 (firstn 12 (utf8 [50; 51; 48; 49; 48; 50; 48; 51; 48; 52; 233; 53; 90]))) by (vm_compute; tauto).
    pose proof (proj1 (Forall_forall _ _) F _ H). cbn in *. lia. }
  split; [eexists; split; [reflexivity|]; split; [apply S; repeat (apply Forall_cons; [lia|]); apply Forall_nil|vm_compute; lia]|].
  intros d I k. split; [intros v H; injection H as <-; lia|].
  split; [constructor; [constructor; [left; lia|constructor; [left; lia|constructor]]|constructor]|].
  split; [cbn [In] in I; destruct I as [<- | [<- | []]]; vm_compute; reflexivity|]. split; [reflexivity|].
  eexists. split; [reflexivity|]. repeat split; cbn; lia.
Qed.
(* and a server that presents one to a client *)
Example C89_client_rsa_ex : exists cfg e so first sh g extensions requests context k exts others rest parts more,
  client_ok cfg e /\ so_left so = None /\ whole first /\ r_type first = RHandshake /\ agrees cfg e (r_fragment first) sh g /\
  version_ok k /\ Z.of_nat (length (any_wire k)) < 2^24 /\ k_signed_with k = rsa_sha256 /\ zlen context < 256 /\
  concat parts = handshake 8 extensions :: map (handshake 13) requests ++
    handshake 11 (vector8 context ++ vector24 (vector24 (any_wire k) ++ vector16 exts ++ others)) :: rest /\
  carry g (map (@concat Z) parts) (without_ccs more) /\
  Forall whole more /\ Forall (fun r => r_type r = RApplicationData) (without_ccs more) /\ zlen more < 2^50.
Proof.
  set (k := ex_any rsa_sha256 rsa_key ex_from ex_until (repeat 7 40)).
  set (parts := [[handshake 8 [0; 0]; handshake 11 (vector8 [] ++ vector24 (vector24 (any_wire k) ++ vector16 [] ++ []))]]).
  destruct (Proofs.CertExample.presents (concat (concat parts))) as (cfg & e & first & sh & g & r & Ok' & W & T & A & Wr & Tr & Fr).
  { apply Proofs.Util.is_bytes_check. vm_compute. reflexivity. }
  { vm_compute. reflexivity. }
  exists cfg, e, Proofs.ClientHandshakeExample.ex_out, first, sh, g, [0; 0], [], [], k, [], [], [], parts, [r].
  split; [exact Ok'|]. split; [reflexivity|]. split; [exact W|]. split; [exact T|]. split; [exact A|].
  split; [intros v H; injection H as <-; lia|]. split; [vm_compute; reflexivity|]. split; [reflexivity|]. split; [vm_compute; reflexivity|].
  split; [reflexivity|].
  assert (NC : without_ccs [r] = [r]) by (unfold without_ccs; cbn [filter]; unfold is_ccs; rewrite Tr; reflexivity).
  rewrite NC. split.
  - split; [reflexivity|]. intros i m r' Hm Hr. destruct i as [|i]; [|destruct i; discriminate Hr]. injection Hr as <-.
    cbn [map nth_error] in Hm. injection Hm as <-. exact Fr.
  - split; [constructor; [exact Wr|constructor]|]. split; [constructor; [exact Tr|constructor]|vm_compute; reflexivity].
Qed.
