(* C91: dates in certificates. Property theorems only. *)
From Coq Require Import Lia.
From Verif Require Import Model.Base Model.Alert Model.Record Model.X509 Model.Certificate Model.Stream Model.Client
  Spec.Calendar Spec.X509 Spec.X509View Spec.Dates Spec.Connection Spec.ClientConnection Spec.Rfc8446Hello.
From Verif Require Proofs.Dates Proofs.TimeText Proofs.CertCrash Proofs.CertExample Proofs.X509Cert Proofs.Util.

(* ---- C91: a certificate with something else than a date for a bound is refused with an error ---- *)
(* False.  Any six numbers are taken, month 13 or 61 seconds among them, and any text in place of the Z, an offset +0530 among them: *)
Theorem C91_any_numbers_refuted : forall n zone, two_digit n -> Forall scalar_value zone ->
  from_utc_timestamp (E:=Empty_set) (time_text n zone) = Ok (Some (as_utc (named n))).
Proof. intros n zone. exact (Proofs.Dates.read_numbers n zone). Qed.
Print Assumptions C91_any_numbers_refuted.
(* a byte that is not a digit is taken for a 0, *)
Theorem C91_not_digits_refuted : forall t, Forall (fun c => 0 <= c < 128) t ->
  from_utc_timestamp (E:=Empty_set) t = from_utc_timestamp (E:=Empty_set) (as_digits t).
Proof. intros t A. symmetry. exact (Proofs.Dates.not_digits t A). Qed.
Print Assumptions C91_not_digits_refuted.
(* and a day past the end of its month for the one as many days later *)
Theorem C91_past_month_refuted : forall i k, valid_instant i -> 1970 <= year i -> 0 <= k ->
  get_unix_timestamp (E:=Empty_set) {| t_year := year i; t_month := month i; t_day := day i + k; t_hour := hour i; t_minute := minute i; t_second := second i |} =
    Ok (unix_time i - (if leap_year (year i) && (2 <? month i) then 86400 else 0) + 86400 * k).
Proof. intros i k. exact (Proofs.Dates.past_month i k). Qed.
Print Assumptions C91_past_month_refuted.
(* The look at the validity of a certificate answers when a year from 1970 on, a month and a day that is not 0 stand in both bounds;
   otherwise it panics, because of the end of the validity only after its beginning *)
Theorem C91_check_refuted : forall b a zb za now, two_digit b -> two_digit a -> Forall scalar_value zb -> Forall scalar_value za ->
  exists nb na, from_utc_timestamp (E:=Empty_set) (time_text b zb) = Ok (Some nb) /\ from_utc_timestamp (E:=Empty_set) (time_text a za) = Ok (Some na) /\
    let v := {| v_not_before := Some nb; v_not_after := Some na |} in
    (countable b -> countable a -> exists r, is_valid (E:=Empty_set) v now = Ok r) /\
    (~ countable b -> is_valid (E:=Empty_set) v now = Panic) /\
    (countable b -> ~ countable a -> (exists n, get_unix_timestamp (E:=Empty_set) nb = Ok n /\ n <= now) -> is_valid (E:=Empty_set) v now = Panic).
Proof. exact Proofs.Dates.number_valid. Qed.
Print Assumptions C91_check_refuted.
(* So a certificate that is valid from a day before 1970, which RFC 5280 allows, brings down the client it is presented to *)
Theorem C91_client_refuted : forall cfg e now so first sh g,
  client_ok cfg e -> so_left so = None -> whole first -> r_type first = RHandshake -> agrees cfg e (r_fragment first) sh g ->
  forall extensions requests context c exts others rest parts more groups later,
    tbs_ok (c_tbs c) -> Z.of_nat (length (Certificate c)) < 2^24 -> year (tbs_not_before (c_tbs c)) < 1970 -> zlen context < 256 ->
    concat parts = handshake 8 extensions :: map (handshake 13) requests ++
      handshake 11 (vector8 context ++ vector24 (vector24 (Certificate c) ++ vector16 exts ++ others)) :: rest ->
    carry g (map (@concat Z) parts) (without_ccs more) ->
    Forall whole more -> Forall (fun r => r_type r = RApplicationData) (without_ccs more) -> zlen more < 2^50 ->
    Forall (fun gr => gr <> []) groups -> concat groups = first :: more ->
    snd (connect cfg e now so (map (fun x => concat (map wire x)) groups ++ later)) = Some Panic.
Proof.
  intros cfg e now so first sh g Ok' N W T A extensions requests context c exts others rest parts more groups later V L Y.
  refine (Proofs.CertCrash.client_crashed cfg e now so first sh g Ok' N W T A extensions requests context (Certificate c) exts others rest parts more groups later
    (or_intror _)).
  eexists. split; [apply Proofs.X509Cert.cert_parse; assumption|]. exact (Proofs.Dates.early_fatal _ c now (Proofs.X509Cert.x_of_shows _ _ _ _ V) V Y).
Qed.
Print Assumptions C91_client_refuted.
(* What is right: fewer than twelve bytes are refused, *)
Theorem C91_short_partial : forall t, (length t < 12)%nat -> from_utc_timestamp (E:=Empty_set) t = Ok None.
Proof. exact Proofs.TimeText.utc_short. Qed.
Print Assumptions C91_short_partial.
(* and the numbers of a day there is are read for that day *)
Theorem C91_date_partial : forall n zone, two_digit n -> Forall scalar_value zone -> valid_instant (named n) -> 1970 <= full_year n ->
  exists t, from_utc_timestamp (E:=Empty_set) (time_text n zone) = Ok (Some t) /\
    get_unix_timestamp (E:=Empty_set) t = Ok (unix_time (named n) - (if leap_year (full_year n) && (2 <? n_month n) then 86400 else 0)).
Proof.
  intros n zone T S V Y. eexists. split; [exact (Proofs.Dates.read_numbers n zone T S)|]. exact (Proofs.Time.unix_of (named n) V Y).
Qed.
Print Assumptions C91_date_partial.

(* 991399256199 and an offset; 31 February 2023 is 3 March; 2O2302... with the letter O *)
Definition ex_numbers : numbers := {| n_year := 99; n_month := 13; n_day := 99; n_hour := 25; n_minute := 61; n_second := 99 |}.
Definition ex_february : instant := {| year := 2023; month := 2; day := 28; hour := 12; minute := 0; second := 0 |}.
Example C91_ex : two_digit ex_numbers /\ Forall scalar_value [43; 48; 53; 51; 48] /\ ~ countable ex_numbers /\
  time_text ex_numbers [43; 48; 53; 51; 48] = [57; 57; 49; 51; 57; 57; 50; 53; 54; 49; 57; 57; 43; 48; 53; 51; 48] /\
  valid_instant ex_february /\
  unix_time ex_february + 86400 * 3 = unix_time {| year := 2023; month := 3; day := 3; hour := 12; minute := 0; second := 0 |} /\
  as_digits [50; 79; 48; 50; 48; 51; 49; 50; 48; 48; 48; 48] = [50; 48; 48; 50; 48; 51; 49; 50; 48; 48; 48; 48].
Proof.
  split; [unfold two_digit; cbn; repeat (apply Forall_cons; [lia|]); apply Forall_nil|].
  split; [repeat (apply Forall_cons; [left; lia|]); apply Forall_nil|].
  split; [unfold countable; cbn; lia|]. split; [reflexivity|]. split; [vm_compute; intuition discriminate|]. split; reflexivity.
Qed.
(* a certificate valid from 1950 on, and a server that presents it *)
Definition ex_time (y : Z) : instant := {| year := y; month := 1; day := 1; hour := 0; minute := 0; second := 0 |}.
Definition ex_early : certificate :=
  {| c_tbs := {| tbs_version := Some 2; tbs_serial := [17]; tbs_signature := ecdsa_sha256;
       tbs_issuer := [{| a_type := Common; a_string := UTF8String; a_text := [97] |}];
       tbs_not_before := ex_time 1950; tbs_not_after := ex_time 2049; tbs_subject := [{| a_type := Common; a_string := UTF8String; a_text := [98] |}];
       tbs_x := 5; tbs_y := 6; tbs_extensions := None |};
     c_algorithm := ecdsa_sha256; c_r := [17]; c_s := [18] |}.
Example C91_client_ex : exists cfg e so first sh g extensions requests context c exts others rest parts more,
  client_ok cfg e /\ so_left so = None /\ whole first /\ r_type first = RHandshake /\ agrees cfg e (r_fragment first) sh g /\
  tbs_ok (c_tbs c) /\ Z.of_nat (length (Certificate c)) < 2^24 /\ year (tbs_not_before (c_tbs c)) < 1970 /\ zlen context < 256 /\
  concat parts = handshake 8 extensions :: map (handshake 13) requests ++
    handshake 11 (vector8 context ++ vector24 (vector24 (Certificate c) ++ vector16 exts ++ others)) :: rest /\
  carry g (map (@concat Z) parts) (without_ccs more) /\
  Forall whole more /\ Forall (fun r => r_type r = RApplicationData) (without_ccs more) /\ zlen more < 2^50.
Proof.
  set (c := ex_early).
  set (parts := [[handshake 8 [0; 0]; handshake 11 (vector8 [] ++ vector24 (vector24 (Certificate c) ++ vector16 [] ++ []))]]).
  destruct (Proofs.CertExample.presents (concat (concat parts))) as (cfg & e & first & sh & g & r & Ok' & W & T & A & Wr & Tr & Fr).
  { apply Proofs.Util.is_bytes_check. vm_compute. reflexivity. }
  { vm_compute. reflexivity. }
  exists cfg, e, Proofs.ClientHandshakeExample.ex_out, first, sh, g, [0; 0], [], [], c, [], [], [], parts, [r].
  split; [exact Ok'|]. split; [reflexivity|]. split; [exact W|]. split; [exact T|]. split; [exact A|].
  split.
  { unfold tbs_ok, time_ok, octets, valid_instant. cbn.
    repeat first [apply conj | apply Forall_cons | apply Forall_nil | (left; lia) | lia | (intros v H; injection H as <-; lia)]. }
  split; [vm_compute; reflexivity|]. split; [cbn; lia|]. split; [vm_compute; reflexivity|].
  split; [reflexivity|].
  assert (NC : without_ccs [r] = [r]) by (unfold without_ccs; cbn [filter]; unfold is_ccs; rewrite Tr; reflexivity).
  rewrite NC. split.
  - split; [reflexivity|]. intros i m r' Hm Hr. destruct i as [|i]; [|destruct i; discriminate Hr]. injection Hr as <-.
    cbn [map nth_error] in Hm. injection Hm as <-. exact Fr.
  - split; [constructor; [exact Wr|constructor]|]. split; [constructor; [exact Tr|constructor]|vm_compute; reflexivity].
Qed.
