(* C05, C57, C60, C61: certificates. Property theorems only. *)
From Coq Require Import Lia.
From Verif Require Import Model.Base Model.Der Model.X509 Model.Certificate Spec.Enc Spec.Calendar Spec.X509 Spec.X509View Spec.VerifyPanics Spec.CertPanics Spec.CertFalls.
From Verif Require Proofs.X509 Proofs.X509Cert Proofs.CertPanics Proofs.CertFalls.

(* ---- C05: parsing any bytes ends (the model's fuel |data|+1 never runs out, and more changes nothing) ---- *)
Theorem C05_terminates_partial : forall data,
  x509_from_raw data <> Err None /\
  forall fuel, (length data < fuel)%nat ->
    parse fuel builder_new Init data 0 = parse (S (length data)) builder_new Init data 0.
Proof. intros data. split; [apply Proofs.X509.from_raw_total|]. intros fuel. apply Proofs.X509.parse_fuel. Qed.
Print Assumptions C05_terminates_partial.
(* but hostile bytes panic it: nothing at all; an OCTET STRING; a truncated SEQUENCE; a NULL in a SEQUENCE *)
Theorem C05_panic_refuted :
  x509_from_raw [] = Panic /\ x509_from_raw [4; 0] = Panic /\ x509_from_raw [0x30; 2; 2] = Panic /\
  x509_from_raw [0x30; 2; 5; 0] = Panic.
Proof. repeat split. Qed.
Print Assumptions C05_panic_refuted.
Example C05_ex : x509_from_raw [0x30; 3; 2; 1; 7] = Err (Some PTbsBuilder) /\ x509_from_raw [0xFF] = Err (Some PDerParseType).
Proof. split; reflexivity. Qed.

(* which bytes can: only those in which the reader stumbles over an element, or meets no public key or fewer than four names of
   algorithms and curves (Spec/CertPanics.v) *)
Theorem C05_panics_partial : forall data, is_bytes data -> x509_from_raw data = Panic -> certificate_trouble data.
Proof. exact Proofs.CertPanics.trouble. Qed.
Print Assumptions C05_panics_partial.
(* missing: of the bytes with such trouble some are refused with an error instead, for an earlier fault.  None is accepted. *)
Theorem C05_trouble_refused : forall data x, is_bytes data -> certificate_trouble data -> x509_from_raw data <> Ok x.
Proof. exact Proofs.CertPanics.refused. Qed.
Print Assumptions C05_trouble_refused.
(* and where the trouble comes before anything that could be refused with an error, a panic it is (Spec/CertFalls.v) *)
Theorem C05_falls_refuted : forall data, is_bytes data -> falls (zlen data) false data -> x509_from_raw data = Panic.
Proof. exact Proofs.CertFalls.down. Qed.
Print Assumptions C05_falls_refuted.
(* a serial number and then a NULL, with anything after it *)
Example C05_falls_ex : forall rest, falls (zlen (0x30 :: 5 :: 2 :: 1 :: 7 :: 5 :: 0 :: rest)) false (0x30 :: 5 :: 2 :: 1 :: 7 :: 5 :: 0 :: rest).
Proof.
  intros rest. apply (falls_in _ _ 0x30 _ [2; 1; 7; 5; 0] rest).
  - eexists. split; [reflexivity|]. split; [reflexivity|]. now apply (len_short 5).
  - unfold sequence_tag. cbn. tauto.
  - apply (fu_integer _ _ _ 2 _ [7] (5 :: 0 :: rest)); [cbn; lia| |unfold primitive; cbn; tauto|].
    + eexists. split; [reflexivity|]. split; [reflexivity|]. now apply (len_short 1).
    + apply fu_here; [cbn; lia|]. apply (falls_octets _ _ 5 _ [] rest); [|right; unfold primitive; cbn; tauto].
      eexists. split; [reflexivity|]. split; [reflexivity|]. now apply (len_short 0).
Qed.
(* a NULL in a SEQUENCE is such trouble *)
Example C05_trouble_ex : certificate_trouble [0x30; 2; 5; 0].
Proof.
  left. apply (st_in_sequence _ _ _ 0x30 _ [5; 0] []).
  - exists [2; 5; 0]. split; [reflexivity|]. split; [reflexivity|]. apply (len_short 2 [5; 0]). split; reflexivity || discriminate.
  - unfold sequence_tag. cbn. tauto.
  - cbn [app length]. apply stu_here; [apply PeanoNat.Nat.lt_0_succ|]. apply (st_octets _ _ _ 5 _ [] []).
    + exists [0]. split; [reflexivity|]. split; [reflexivity|]. apply (len_short 0 []). split; reflexivity || discriminate.
    + right. unfold primitive. cbn. tauto.
Qed.

(* a concrete certificate, used as witness below *)
Definition ex_time (y : Z) : instant := {| year := y; month := 1; day := 2; hour := 3; minute := 4; second := 5 |}.
Definition ex_name (n : Z) : list attribute :=
  [{| a_type := Country; a_string := PrintableString; a_text := [68; 69] |};
   {| a_type := Organization; a_string := UTF8String; a_text := [0xE4; 0x20AC; 0x1F600] |};
   {| a_type := Common; a_string := UTF8String; a_text := [110 + n] |}].
Definition ex_tbs (ext : option (list Z)) : tbs :=
  {| tbs_version := Some 2; tbs_serial := [0; 200; 1]; tbs_signature := ecdsa_sha256; tbs_issuer := ex_name 0;
     tbs_not_before := ex_time 2022; tbs_not_after := ex_time 2023; tbs_subject := ex_name 1; tbs_x := 2^255 + 1; tbs_y := 77;
     tbs_extensions := ext |}.
Definition ex_cert : certificate :=
  {| c_tbs := ex_tbs (Some (repeat 9 100)); c_algorithm := ecdsa_sha256; c_r := [17; 18]; c_s := [0; 255] |}.
Definition ex_short : certificate :=
  {| c_tbs := ex_tbs None; c_algorithm := ecdsa_sha256; c_r := repeat 17 32; c_s := repeat 18 32 |}.
Lemma ex_tbs_ok ext : tbs_ok (ex_tbs ext).
Proof.
  unfold tbs_ok, time_ok, octets. cbn [ex_tbs tbs_version tbs_serial tbs_issuer tbs_subject tbs_not_before tbs_not_after tbs_x tbs_y].
  split; [intros v H; injection H as <-; lia|]. split; [repeat constructor; lia|].
  split; [repeat constructor; unfold scalar_value; lia|]. split; [repeat constructor; unfold scalar_value; lia|].
  split; [split; [vm_compute; intuition discriminate|cbn; lia]|].
  split; [split; [vm_compute; intuition discriminate|cbn; lia]|]. lia.
Qed.

(* ---- C60: every well-formed ECDSA P-256 certificate parses, to exactly its fields ---- *)
Theorem C60_parses_to_its_fields : forall c,
  tbs_ok (c_tbs c) -> Z.of_nat (length (Certificate c)) < 2^24 ->
  exists x, x509_from_raw (Certificate c) = Ok x /\ shows x c (tbs_not_after (c_tbs c)) (tbs_subject (c_tbs c)).
Proof.
  intros c H1 H2. eexists. split; [apply Proofs.X509Cert.cert_parse; assumption|]. apply Proofs.X509Cert.x_of_shows, H1.
Qed.
Print Assumptions C60_parses_to_its_fields.
Example C60_ex : tbs_ok (c_tbs ex_cert) /\ Z.of_nat (length (Certificate ex_cert)) < 2^24 /\
  last_value Organization (tbs_issuer (c_tbs ex_cert)) = Some [0xC3; 0xA4; 0xE2; 0x82; 0xAC; 0xF0; 0x9F; 0x98; 0x80].
Proof. split; [apply ex_tbs_ok|]. split; [vm_compute|]; reflexivity. Qed.
(* an RSA-style algorithm identifier carries a NULL parameter, on which the parser panics *)
Theorem C60_null_parameters_refuted : forall pre post f b,
  parse (S f) b Init (pre ++ [5; 0] ++ post) (length pre) = Panic.
Proof. exact Proofs.X509Cert.null_panics. Qed.
Print Assumptions C60_null_parameters_refuted.

(* and this certificate has none *)
Example C05_no_trouble_ex : ~ certificate_trouble (Certificate ex_cert).
Proof.
  intros T. assert (B : is_bytes (Certificate ex_cert)) by (apply Forall_forall; intros b Hb; apply (proj1 (forallb_forall (fun b => (0 <=? b) && (b <? 256)) _)) in Hb;
    [unfold is_byte; apply andb_prop in Hb; lia|vm_compute; reflexivity]).
  assert (R : forall x, x509_from_raw (Certificate ex_cert) <> Ok x) by (intros x; exact (Proofs.CertPanics.refused _ x B T)).
  destruct (x509_from_raw (Certificate ex_cert)) as [x| |] eqn:X; [exact (R x eq_refl)|vm_compute in X; discriminate..].
Qed.

(* ---- C57: the bytes hashed for the CA signature ---- *)
Theorem C57_signed_part_partial : forall c x,
  tbs_ok (c_tbs c) -> 256 <= Z.of_nat (length (concat (tbs_elements (c_tbs c)))) ->
  Z.of_nat (length (Certificate c)) < 65536 -> x509_from_raw (Certificate c) = Ok x ->
  signed_part (E:=Empty_set) (Certificate c) x = Ok (TBSCertificate (c_tbs c)).
Proof. exact Proofs.X509Cert.signed_part_ok. Qed.
Print Assumptions C57_signed_part_partial.
(* for every other certificate the hashed bytes are not the signed ones, so no honest CA signature can verify *)
Theorem C57_signed_part_refuted : forall c x b,
  tbs_ok (c_tbs c) -> Z.of_nat (length (Certificate c)) < 2^24 ->
  Z.of_nat (length (concat (tbs_elements (c_tbs c)))) < 256 \/ 65536 <= Z.of_nat (length (concat (tbs_elements (c_tbs c)))) ->
  x509_from_raw (Certificate c) = Ok x -> signed_part (E:=Empty_set) (Certificate c) x = Ok b ->
  b <> TBSCertificate (c_tbs c).
Proof. exact Proofs.X509Cert.signed_part_wrong. Qed.
Print Assumptions C57_signed_part_refuted.
Example C57_ex : 256 <= Z.of_nat (length (concat (tbs_elements (c_tbs ex_cert)))) /\ Z.of_nat (length (Certificate ex_cert)) < 65536.
Proof. vm_compute. split; [discriminate|reflexivity]. Qed.
Example C57_ex_short : Z.of_nat (length (concat (tbs_elements (c_tbs ex_short)))) < 256 /\
  match x509_from_raw (Certificate ex_short) with
  | Ok x => match signed_part (E:=Empty_set) (Certificate ex_short) x with
            | Ok b => list_eqb b (TBSCertificate (c_tbs ex_short)) = false
            | _ => False
            end
  | _ => False
  end.
Proof. vm_compute. split; reflexivity. Qed.

(* ---- C61: what later checks use lies inside the signed bytes ---- *)
(* the key, serial number, algorithm, issuer and notBefore do, whatever follows the signed part *)
Theorem C61_key_is_signed_partial : forall t hi lo rest x,
  tbs_ok t -> Z.of_nat (length (TBSCertificate t)) < 2^24 ->
  x509_from_raw ([0x30; 0x82; hi; lo] ++ TBSCertificate t ++ rest) = Ok x ->
  get_public_key (E:=Empty_set) x = Ok (Some (tbs_x t, tbs_y t)) /\ x_serial x = be_val (tbs_serial t) /\
  x_tbs_alg x = ai (alg_of (tbs_signature t)) None /\ shows_name (x_issuer x) (tbs_issuer t) /\
  v_not_before (x_validity x) = Some (as_utc (tbs_not_before t)) /\
  x_tbs_size x = (length (concat (tbs_elements t)) + 4)%nat.
Proof. exact Proofs.X509Cert.trailing_fields. Qed.
Print Assumptions C61_key_is_signed_partial.
(* notAfter and the subject do not: anyone can insert, after the signed part, a new end of validity or a new
   subject attribute into any certificate; signed bytes and signature stay the same *)
Theorem C61_not_after_refuted : forall c late,
  tbs_ok (c_tbs c) -> 256 <= Z.of_nat (length (concat (tbs_elements (c_tbs c)))) -> time_ok late ->
  Z.of_nat (length (stuffed_certificate c [UTCTime late])) < 65536 ->
  exists x, x509_from_raw (stuffed_certificate c [UTCTime late]) = Ok x /\
    shows x c late (tbs_subject (c_tbs c)) /\
    signed_part (E:=Empty_set) (stuffed_certificate c [UTCTime late]) x = Ok (TBSCertificate (c_tbs c)).
Proof. exact Proofs.X509Cert.forge_time. Qed.
Print Assumptions C61_not_after_refuted.
Theorem C61_subject_refuted : forall c a,
  tbs_ok (c_tbs c) -> 256 <= Z.of_nat (length (concat (tbs_elements (c_tbs c)))) -> Forall scalar_value (a_text a) ->
  Z.of_nat (length (stuffed_certificate c [rdn a])) < 65536 ->
  exists x, x509_from_raw (stuffed_certificate c [rdn a]) = Ok x /\
    shows x c (tbs_not_after (c_tbs c)) (tbs_subject (c_tbs c) ++ [a]) /\
    signed_part (E:=Empty_set) (stuffed_certificate c [rdn a]) x = Ok (TBSCertificate (c_tbs c)).
Proof. exact Proofs.X509Cert.forge_subject. Qed.
Print Assumptions C61_subject_refuted.
Example C61_ex : time_ok (ex_time 2049) /\ Z.of_nat (length (stuffed_certificate ex_cert [UTCTime (ex_time 2049)])) < 65536.
Proof. split; [split; [vm_compute; intuition discriminate|cbn; lia]|vm_compute; reflexivity]. Qed.
