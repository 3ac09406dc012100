(* Dates that are none *)
From Verif Require Import Model.Base Model.Bytes Model.Der Model.X509 Spec.Calendar Spec.X509 Spec.X509View Proofs.Util Proofs.Time Proofs.TimeText.
From Coq Require Import Lia.

(* only the first twelve bytes, and whether a character starts after them, count *)
Lemma utf8_start text : Forall scalar_value text -> cont_at (utf8 text) 0 = false.
Proof.
  intros F. destruct F as [|c text S F]; [reflexivity|]. change (utf8 (c :: text)) with (utf8_char c ++ utf8 text).
  destruct (char_shape c S) as [(R & ->) | (l & b & r & -> & Ll & _)]; unfold cont_at, cont_byte; cbn [app nth_error].
  - destruct (Z.leb_spec 128 c); [lia|reflexivity].
  - destruct (Z.ltb_spec l 192); [lia|apply Bool.andb_false_r].
Qed.
Lemma any_end {E} t u u' : length t = 12%nat -> cont_at u 0 = false -> cont_at u' 0 = false ->
  from_utc_timestamp (E:=E) (t ++ u) = from_utc_timestamp (E:=E) (t ++ u').
Proof.
  intros L C C'. rewrite !from_utc_text, !app_length, L. cbn [Nat.add Nat.ltb Nat.leb].
  do 12 (destruct t as [|? t]; [discriminate L|]). destruct t; [|discriminate L].
  assert (X : forall w, cont_at w 0 = false -> existsb (cont_at (z :: z0 :: z1 :: z2 :: z3 :: z4 :: z5 :: z6 :: z7 :: z8 :: z9 :: z10 :: w)) (seq 0 13) =
    existsb cont_byte [z; z0; z1; z2; z3; z4; z5; z6; z7; z8; z9; z10]).
  { intros w Cw. assert (Y : cont_at (z :: z0 :: z1 :: z2 :: z3 :: z4 :: z5 :: z6 :: z7 :: z8 :: z9 :: z10 :: w) 12 = false) by exact Cw.
    cbn [seq existsb]. rewrite Y. reflexivity. }
  cbn [app]. rewrite (X u C), (X u' C'). reflexivity.
Qed.
Lemma any_zone {E} i zone : valid_instant i -> 1950 <= year i <= 2049 -> Forall scalar_value zone ->
  from_utc_timestamp (E:=E) (firstn 12 (utc_time_text i) ++ utf8 zone) = Ok (Some (as_utc i)).
Proof.
  intros V Y S. rewrite <- (from_text i V Y). change (utc_time_text i) with (firstn 12 (utc_time_text i) ++ [90]) at 2.
  apply any_end; [reflexivity|apply utf8_start, S|reflexivity].
Qed.

(* what is not a digit is read as 0 *)
Definition zeroed (c : Z) : Z := if (48 <=? c) && (c <=? 57) then c else 48.
Lemma dig_zeroed c : dig (zeroed c) = dig c.
Proof.
  unfold zeroed. destruct ((48 <=? c) && (c <=? 57)) eqn:Q; [reflexivity|]. unfold dig. change ((49 <=? 48) && (48 <=? 57)) with false. cbv iota.
  destruct ((49 <=? c) && (c <=? 57)) eqn:R; [|reflexivity]. apply andb_prop in R. destruct R as (R1 & R2). apply Z.leb_le in R1. rewrite R2, Bool.andb_true_r in Q. apply Z.leb_gt in Q. lia.
Qed.
Lemma not_digits {E} t : Forall (fun c => 0 <= c < 128) t -> from_utc_timestamp (E:=E) (map zeroed t) = from_utc_timestamp (E:=E) t.
Proof.
  intros A. rewrite !from_utc_text, map_length.
  assert (N : forall t', Forall (fun c => 0 <= c < 128) t' -> existsb (cont_at t') (seq 0 13) = false).
  { intros t' A'. apply Bool.not_true_is_false. intros Q. apply existsb_exists in Q. destruct Q as (k & _ & C). unfold cont_at in C.
    destruct (nth_error t' k) as [b|] eqn:Nb; [|discriminate]. apply nth_error_In in Nb. pose proof (proj1 (Forall_forall _ _) A' _ Nb) as R. cbn beta in R.
    unfold cont_byte in C. destruct (Z.leb_spec 128 b); [lia|discriminate]. }
  rewrite !N; [|assumption|].
  2:{ apply Forall_forall. intros c I. apply in_map_iff in I. destruct I as (b & <- & I). pose proof (proj1 (Forall_forall _ _) A _ I) as R. cbn beta in R.
      unfold zeroed. destruct (Z.leb_spec 48 b), (Z.leb_spec b 57); cbn [andb]; lia. }
  assert (M : forall k, dig (nth k (map zeroed t) 0) = dig (nth k t 0)).
  { intros k. destruct (Nat.ltb_spec k (length t)) as [K|K].
    - rewrite (nth_indep _ 0 (zeroed 0)) by (rewrite map_length; lia). rewrite map_nth. apply dig_zeroed.
    - rewrite !nth_overflow by (rewrite ?map_length; lia). reflexivity. }
  rewrite !M. reflexivity.
Qed.

(* the dates that have a timestamp *)
Definition fields_ok (t : utc_time) : Prop := 0 <= t_year t /\ 0 <= t_month t /\ 0 <= t_day t.
Lemma idx_days {E} m : 0 <= m -> (exists x, idx (E:=E) days_since_year_start (Z.to_nat m) = Ok x) /\ m < 12 \/ idx (E:=E) days_since_year_start (Z.to_nat m) = Panic /\ 12 <= m.
Proof.
  intros H. unfold idx. destruct (nth_error days_since_year_start (Z.to_nat m)) as [x|] eqn:N.
  - left. split; [exists x; reflexivity|]. assert (nth_error days_since_year_start (Z.to_nat m) <> None) by congruence. apply nth_error_Some in H0. change (length days_since_year_start) with 12%nat in H0. lia.
  - right. split; [reflexivity|]. apply nth_error_None in N. change (length days_since_year_start) with 12%nat in N. lia.
Qed.
Lemma stamp_exact {E} t : 0 <= t_month t -> 0 <= t_day t ->
  (1970 <= t_year t /\ 1 <= t_month t <= 12 /\ 1 <= t_day t /\ exists n, get_unix_timestamp (E:=E) t = Ok n) \/
  (~ (1970 <= t_year t /\ 1 <= t_month t <= 12 /\ 1 <= t_day t) /\ get_unix_timestamp (E:=E) t = Panic).
Proof.
  intros Hm Hd. unfold get_unix_timestamp, usub.
  destruct (Z.ltb_spec (t_year t) 1); [right; split; [lia|reflexivity]|]. cbn [bind].
  destruct (Z.ltb_spec (t_year t - 1) 1968); [right; split; [lia|reflexivity]|]. cbn [bind].
  destruct (Z.ltb_spec (t_year t - 1) 1900); [lia|]. cbn [bind].
  destruct (Z.ltb_spec ((t_year t - 1 - 1968) / 4) ((t_year t - 1 - 1900) / 100)) as [Q|Q].
  { right. split; [|reflexivity]. intros (Y & _). revert Q. clear -Y. intros Q.
    pose proof (Z.div_mod (t_year t - 1 - 1968) 4 ltac:(lia)). pose proof (Z.mod_pos_bound (t_year t - 1 - 1968) 4 ltac:(lia)).
    pose proof (Z.div_mod (t_year t - 1 - 1900) 100 ltac:(lia)). pose proof (Z.mod_pos_bound (t_year t - 1 - 1900) 100 ltac:(lia)). lia. }
  cbn [bind]. destruct (Z.ltb_spec (t_year t - 1) 1600); [lia|]. cbn [bind].
  destruct (Z.ltb_spec (t_year t) 1970); [right; split; [lia|reflexivity]|]. cbn [bind].
  destruct (Z.ltb_spec (t_month t) 1); [right; split; [lia|reflexivity]|]. cbn [bind].
  destruct (idx_days (E:=E) (t_month t - 1) ltac:(lia)) as [((x & ->) & M) | (-> & M)]; [|right; split; [lia|reflexivity]]. cbn [bind].
  destruct (Z.ltb_spec (t_day t) 1); [right; split; [lia|reflexivity]|]. cbn [bind]. left. repeat split; try lia. eauto.
Qed.
(* days past the end of a month, hours past the end of a day *)
Lemma stamp_over {E} t n : get_unix_timestamp (E:=E) t = Ok n ->
  get_unix_timestamp (E:=E) {| t_year := t_year t; t_month := t_month t; t_day := 1; t_hour := 0; t_minute := 0; t_second := 0 |} =
    Ok (n - 86400 * (t_day t - 1) - 3600 * t_hour t - 60 * t_minute t - t_second t).
Proof.
  unfold get_unix_timestamp. cbn [t_year t_month t_day t_hour t_minute t_second].
  destruct (usub (t_year t) 1) as [y1| |]; cbn [bind]; try discriminate. destruct (usub y1 1968) as [a| |]; cbn [bind]; try discriminate.
  destruct (usub y1 1900) as [b| |]; cbn [bind]; try discriminate. destruct (usub (a / 4) (b / 100)) as [ab| |]; cbn [bind]; try discriminate.
  destruct (usub y1 1600) as [c| |]; cbn [bind]; try discriminate. destruct (usub (t_year t) 1970) as [y0| |]; cbn [bind]; try discriminate.
  destruct (usub (t_month t) 1) as [m| |]; cbn [bind]; try discriminate. destruct (idx days_since_year_start (Z.to_nat m)) as [md| |]; cbn [bind]; try discriminate.
  unfold usub. destruct (Z.ltb_spec (t_day t) 1); cbn [bind]; [discriminate|]. change (1 <? 1) with false. cbv iota. cbn [bind]. intros H0. injection H0 as <-. f_equal. lia.
Qed.

(* six numbers of two digits *)
Definition stamp_ok (t : utc_time) : Prop := 1970 <= t_year t /\ 1 <= t_month t <= 12 /\ 1 <= t_day t.
Lemma read_fields {E} t x : from_utc_timestamp (E:=E) t = Ok (Some x) -> 0 <= t_month x /\ 0 <= t_day x.
Proof.
  assert (D : forall c, 0 <= dig c) by (intros c; unfold dig; destruct (Z.leb_spec 49 c), (Z.leb_spec c 57); cbn [andb]; lia).
  rewrite from_utc_text. destruct (Nat.ltb _ _); [discriminate|]. destruct (existsb _ _); [discriminate|]. intros H. injection H as <-. cbn [t_month t_day].
  pose proof (D (nth 2 t 0)). pose proof (D (nth 3 t 0)). pose proof (D (nth 4 t 0)). pose proof (D (nth 5 t 0)). lia.
Qed.
Lemma before_checked {E} nb na now : 0 <= t_month nb -> 0 <= t_day nb -> ~ stamp_ok nb ->
  is_valid (E:=E) {| v_not_before := Some nb; v_not_after := na |} now = Panic.
Proof.
  intros M D N. unfold is_valid. cbn [v_not_before]. destruct (stamp_exact (E:=E) nb M D) as [(Y & Mo & Da & _) | (_ & ->)]; [exfalso; apply N; red; auto|reflexivity].
Qed.
Lemma after_checked {E} nb na n now : get_unix_timestamp (E:=E) nb = Ok n -> 0 <= t_month na -> 0 <= t_day na -> ~ stamp_ok na -> n <= now ->
  is_valid (E:=E) {| v_not_before := Some nb; v_not_after := Some na |} now = Panic.
Proof.
  intros B M D N L. unfold is_valid. cbn [v_not_before v_not_after]. rewrite B. cbn [bind]. destruct (Z.ltb_spec now n); [lia|].
  destruct (stamp_exact (E:=E) na M D) as [(Y & Mo & Da & _) | (_ & ->)]; [exfalso; apply N; red; auto|reflexivity].
Qed.
Lemma checked {E} nb na now : stamp_ok nb -> stamp_ok na -> exists r, is_valid (E:=E) {| v_not_before := Some nb; v_not_after := Some na |} now = Ok r.
Proof.
  intros B A. unfold is_valid. cbn [v_not_before v_not_after]. destruct B as (B1 & B2 & B3), A as (A1 & A2 & A3).
  destruct (stamp_exact (E:=E) nb ltac:(lia) ltac:(lia)) as [(_ & _ & _ & n & ->) | (N & _)]; [|exfalso; apply N; auto]. cbn [bind]. destruct (now <? n); [eauto|].
  destruct (stamp_exact (E:=E) na ltac:(lia) ltac:(lia)) as [(_ & _ & _ & m & ->) | (N & _)]; [|exfalso; apply N; auto]. cbn [bind]. eauto.
Qed.
(* the time of a day past the end of its month is that of the day as many days later *)
Lemma stamp_shift {E} y m d h mi s k n : get_unix_timestamp (E:=E) {| t_year := y; t_month := m; t_day := d; t_hour := h; t_minute := mi; t_second := s |} = Ok n -> 0 <= k ->
  get_unix_timestamp (E:=E) {| t_year := y; t_month := m; t_day := d + k; t_hour := h; t_minute := mi; t_second := s |} = Ok (n + 86400 * k).
Proof.
  unfold get_unix_timestamp. cbn [t_year t_month t_day t_hour t_minute t_second].
  destruct (usub y 1) as [y1| |]; cbn [bind]; try discriminate. destruct (usub y1 1968) as [a| |]; cbn [bind]; try discriminate.
  destruct (usub y1 1900) as [b| |]; cbn [bind]; try discriminate. destruct (usub (a / 4) (b / 100)) as [ab| |]; cbn [bind]; try discriminate.
  destruct (usub y1 1600) as [c| |]; cbn [bind]; try discriminate. destruct (usub y 1970) as [y0| |]; cbn [bind]; try discriminate.
  destruct (usub m 1) as [mm| |]; cbn [bind]; try discriminate. destruct (idx days_since_year_start (Z.to_nat mm)) as [md| |]; cbn [bind]; try discriminate.
  unfold usub. destruct (Z.ltb_spec d 1); cbn [bind]; [discriminate|]. intros H0 K. injection H0 as <-. destruct (Z.ltb_spec (d + k) 1); [lia|]. cbn [bind]. f_equal. lia.
Qed.

From Verif Require Import Spec.Dates.
Lemma dig_digits n : 0 <= n <= 99 -> dig (48 + n / 10) * 10 + dig (48 + n mod 10) = n /\ cont_byte (48 + n / 10) = false /\ cont_byte (48 + n mod 10) = false.
Proof.
  intros H. pose proof (Z.div_mod n 10 ltac:(lia)). pose proof (Z.mod_pos_bound n 10 ltac:(lia)). assert (0 <= n / 10 <= 9) by lia.
  assert (D : forall d, 0 <= d <= 9 -> dig (48 + d) = d /\ cont_byte (48 + d) = false).
  { intros d Hd. unfold dig, cont_byte. destruct (Z.leb_spec 49 (48 + d)), (Z.leb_spec (48 + d) 57), (Z.leb_spec 128 (48 + d)); cbn [andb]; lia. }
  destruct (D _ H2) as (-> & ->). destruct (D (n mod 10) ltac:(lia)) as (-> & ->). lia.
Qed.
Lemma read_numbers {E} n zone : two_digit n -> Forall scalar_value zone -> from_utc_timestamp (E:=E) (time_text n zone) = Ok (Some (as_utc (named n))).
Proof.
  intros T S. unfold two_digit in T. repeat match goal with H : Forall _ (_ :: _) |- _ => apply Forall_cons_iff in H; destruct H as (? & H) end. clear T.
  unfold time_text, digits2. cbn [app]. rewrite from_utc_text.
  match goal with |- context [Nat.ltb ?a ?b] => change (Nat.ltb a b) with false end. cbv iota. cbn [nth].
  assert (C : existsb (cont_at (48 + n_year n / 10 :: 48 + n_year n mod 10 :: 48 + n_month n / 10 :: 48 + n_month n mod 10 :: 48 + n_day n / 10 :: 48 + n_day n mod 10 ::
    48 + n_hour n / 10 :: 48 + n_hour n mod 10 :: 48 + n_minute n / 10 :: 48 + n_minute n mod 10 :: 48 + n_second n / 10 :: 48 + n_second n mod 10 :: utf8 zone)) (seq 0 13) = false).
  { pose proof (utf8_start zone S) as U. cbn [seq existsb].
    match goal with |- context [cont_at ?l 12] => change (cont_at l 12) with (cont_at (utf8 zone) 0) end. rewrite U. unfold cont_at. cbn [nth_error].
    repeat match goal with |- context [48 + ?x / 10] => destruct (dig_digits x ltac:(assumption)) as (_ & -> & ->) end. reflexivity. }
  rewrite C. 
  repeat match goal with |- context [dig (48 + ?x / 10) * 10 + dig (48 + ?x mod 10)] => rewrite (proj1 (dig_digits x ltac:(assumption))) end.
  unfold as_utc, named, full_year. cbn [year month day hour minute second]. do 3 f_equal. destruct (n_year n <? 50); lia.
Qed.
Lemma number_valid {E} b a zb za now : two_digit b -> two_digit a -> Forall scalar_value zb -> Forall scalar_value za ->
  exists nb na, from_utc_timestamp (E:=E) (time_text b zb) = Ok (Some nb) /\ from_utc_timestamp (E:=E) (time_text a za) = Ok (Some na) /\
  (countable b -> countable a -> exists r, is_valid (E:=E) {| v_not_before := Some nb; v_not_after := Some na |} now = Ok r) /\
  (~ countable b -> is_valid (E:=E) {| v_not_before := Some nb; v_not_after := Some na |} now = Panic) /\
  (countable b -> ~ countable a -> (exists n, get_unix_timestamp (E:=E) nb = Ok n /\ n <= now) -> is_valid (E:=E) {| v_not_before := Some nb; v_not_after := Some na |} now = Panic).
Proof.
  intros Tb Ta Sb Sa. exists (as_utc (named b)), (as_utc (named a)). split; [now apply read_numbers|]. split; [now apply read_numbers|].
  unfold two_digit in *. rewrite Forall_forall in Tb, Ta. pose proof (Tb (n_month b) ltac:(cbn; tauto)). pose proof (Tb (n_day b) ltac:(cbn; tauto)).
  pose proof (Ta (n_month a) ltac:(cbn; tauto)). pose proof (Ta (n_day a) ltac:(cbn; tauto)).
  split; [intros; now apply checked|]. split; [intros; apply before_checked; cbn; try lia; assumption|]. intros _ N (n & B & L). apply (after_checked _ _ n); cbn; try lia; assumption.
Qed.
(* past the end of a month *)
Lemma past_month {E} i k : valid_instant i -> 1970 <= year i -> 0 <= k ->
  get_unix_timestamp (E:=E) {| t_year := year i; t_month := month i; t_day := day i + k; t_hour := hour i; t_minute := minute i; t_second := second i |} =
    Ok (unix_time i - (if leap_year (year i) && (2 <? month i) then 86400 else 0) + 86400 * k).
Proof. intros V Y K. apply stamp_shift; [|exact K]. exact (unix_of i V Y). Qed.
Lemma early_fatal {E} x c now : shows x c (tbs_not_after (c_tbs c)) (tbs_subject (c_tbs c)) -> tbs_ok (c_tbs c) -> year (tbs_not_before (c_tbs c)) < 1970 ->
  is_valid (E:=E) (x_validity x) now = Panic.
Proof.
  intros (_ & _ & _ & _ & -> & _) (_ & _ & _ & _ & ((Hm & Hd & _) & _) & _) Y. apply before_checked; cbn; [lia|lia|]. intros (N & _). cbn in N. lia.
Qed.
