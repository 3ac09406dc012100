(* C03, C04: certificate times. Property theorems only. *)
From Coq Require Import Lia.
From Verif Require Import Model.Base Model.X509 Spec.Calendar Spec.X509View.
From Verif Require Proofs.Time.

(* ---- C03: right except from 1 March of a leap year on, where it is one day early ---- *)
Theorem C03_unix_time_partial : forall i, valid_instant i -> 1970 <= year i <= 2049 ->
  exists t, from_utc_timestamp (E:=Empty_set) (utc_time_text i) = Ok (Some t) /\
    get_unix_timestamp (E:=Empty_set) t =
      Ok (unix_time i - (if leap_year (year i) && (2 <? month i) then 86400 else 0)).
Proof.
  intros i V H. exists (as_utc i). split.
  - apply Proofs.Time.from_text; [exact V|lia].
  - apply Proofs.Time.unix_of; [exact V|lia].
Qed.
Print Assumptions C03_unix_time_partial.
(* 2024-03-01T00:00:00Z is taken for 2024-02-29T00:00:00Z *)
Theorem C03_unix_time_refuted : exists i t n, valid_instant i /\ 1970 <= year i <= 2049 /\
  from_utc_timestamp (E:=Empty_set) (utc_time_text i) = Ok (Some t) /\
  get_unix_timestamp (E:=Empty_set) t = Ok n /\ n <> unix_time i.
Proof.
  exists {| year := 2024; month := 3; day := 1; hour := 0; minute := 0; second := 0 |},
    {| t_year := 2024; t_month := 3; t_day := 1; t_hour := 0; t_minute := 0; t_second := 0 |}, 1709164800.
  split; [vm_compute; intuition discriminate|]. split; [cbn; lia|]. split; [reflexivity|]. split; [reflexivity|].
  vm_compute. discriminate.
Qed.
Print Assumptions C03_unix_time_refuted.
Example C03_spec_ex : (* date -u -d '2023-12-31 23:59:59' +%s *)
  unix_time {| year := 2023; month := 12; day := 31; hour := 23; minute := 59; second := 59 |} = 1704067199 /\
  unix_time {| year := 2024; month := 3; day := 1; hour := 0; minute := 0; second := 0 |} = 1709251200.
Proof. split; reflexivity. Qed.
Example C03_ex : valid_instant {| year := 2023; month := 12; day := 31; hour := 23; minute := 59; second := 59 |} /\
  utc_time_text {| year := 2023; month := 12; day := 31; hour := 23; minute := 59; second := 59 |} =
    [50; 51; 49; 50; 51; 49; 50; 51; 53; 57; 53; 57; 90].
Proof. split; [vm_compute; intuition discriminate|reflexivity]. Qed.

(* ---- C04 ---- *)
Theorem C04_window : forall b a tb ta now,
  get_unix_timestamp (E:=Empty_set) b = Ok tb -> get_unix_timestamp (E:=Empty_set) a = Ok ta ->
  exists r, is_valid (E:=Empty_set) {| v_not_before := Some b; v_not_after := Some a |} now = Ok r /\
    (r = true <-> tb <= now <= ta).
Proof. exact Proofs.Time.is_valid_both. Qed.
Print Assumptions C04_window.
Theorem C04_missing_bound : forall b a tb ta now,
  get_unix_timestamp (E:=Empty_set) b = Ok tb -> get_unix_timestamp (E:=Empty_set) a = Ok ta ->
  (exists r, is_valid (E:=Empty_set) {| v_not_before := Some b; v_not_after := None |} now = Ok r /\
    (r = true <-> tb <= now)) /\
  (exists r, is_valid (E:=Empty_set) {| v_not_before := None; v_not_after := Some a |} now = Ok r /\
    (r = true <-> now <= ta)) /\
  is_valid (E:=Empty_set) {| v_not_before := None; v_not_after := None |} now = Ok true.
Proof. exact Proofs.Time.is_valid_missing. Qed.
Print Assumptions C04_missing_bound.
(* in calendar terms, for the UTCTime texts of a certificate: exact when neither bound lies after February of a
   leap year *)
Theorem C04_calendar_partial : forall nb na now,
  valid_instant nb -> valid_instant na -> 1970 <= year nb <= 2049 -> 1970 <= year na <= 2049 ->
  (leap_year (year nb) = true -> month nb <= 2) -> (leap_year (year na) = true -> month na <= 2) ->
  exists b a r, from_utc_timestamp (E:=Empty_set) (utc_time_text nb) = Ok (Some b) /\
    from_utc_timestamp (E:=Empty_set) (utc_time_text na) = Ok (Some a) /\
    is_valid (E:=Empty_set) {| v_not_before := Some b; v_not_after := Some a |} now = Ok r /\
    (r = true <-> unix_time nb <= now <= unix_time na).
Proof. exact Proofs.Time.is_valid_calendar. Qed.
Print Assumptions C04_calendar_partial.
(* a certificate valid until 2024-12-31T23:59:59Z is refused during the whole last day *)
Theorem C04_calendar_refuted : exists nb na b a now,
  valid_instant nb /\ valid_instant na /\ 1970 <= year nb <= 2049 /\ 1970 <= year na <= 2049 /\
  from_utc_timestamp (E:=Empty_set) (utc_time_text nb) = Ok (Some b) /\
  from_utc_timestamp (E:=Empty_set) (utc_time_text na) = Ok (Some a) /\
  unix_time nb <= now <= unix_time na /\
  is_valid (E:=Empty_set) {| v_not_before := Some b; v_not_after := Some a |} now = Ok false.
Proof.
  exists {| year := 2023; month := 1; day := 1; hour := 0; minute := 0; second := 0 |},
    {| year := 2024; month := 12; day := 31; hour := 23; minute := 59; second := 59 |},
    {| t_year := 2023; t_month := 1; t_day := 1; t_hour := 0; t_minute := 0; t_second := 0 |},
    {| t_year := 2024; t_month := 12; t_day := 31; t_hour := 23; t_minute := 59; t_second := 59 |}, 1735603200.
  split; [vm_compute; intuition discriminate|]. split; [vm_compute; intuition discriminate|].
  split; [cbn; lia|]. split; [cbn; lia|]. split; [reflexivity|]. split; [reflexivity|].
  split; [vm_compute; split; discriminate|reflexivity].
Qed.
Print Assumptions C04_calendar_refuted.
(* a certificate valid from 1950 (a legal UTCTime) panics the check at every time *)
Theorem C04_before_1970_refuted : exists nb b, valid_instant nb /\ 1950 <= year nb <= 2049 /\
  from_utc_timestamp (E:=Empty_set) (utc_time_text nb) = Ok (Some b) /\
  forall na now, is_valid (E:=Empty_set) {| v_not_before := Some b; v_not_after := na |} now = Panic.
Proof.
  exists {| year := 1950; month := 1; day := 1; hour := 0; minute := 0; second := 0 |},
    {| t_year := 1950; t_month := 1; t_day := 1; t_hour := 0; t_minute := 0; t_second := 0 |}.
  split; [vm_compute; intuition discriminate|]. split; [cbn; lia|]. split; [reflexivity|]. reflexivity.
Qed.
Print Assumptions C04_before_1970_refuted.
Example C04_ex :
  let b := {| t_year := 2023; t_month := 1; t_day := 1; t_hour := 0; t_minute := 0; t_second := 0 |} in
  let a := {| t_year := 2023; t_month := 12; t_day := 31; t_hour := 23; t_minute := 59; t_second := 59 |} in
  let v := {| v_not_before := Some b; v_not_after := Some a |} in
  (is_valid (E:=Empty_set) v 1672531199, is_valid (E:=Empty_set) v 1672531200,
   is_valid (E:=Empty_set) v 1704067199, is_valid (E:=Empty_set) v 1704067200) =
  (Ok false, Ok true, Ok true, Ok false).
Proof. reflexivity. Qed.
