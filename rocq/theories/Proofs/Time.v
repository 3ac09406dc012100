From Verif Require Import Model.Base Model.Bytes Model.X509 Spec.Calendar Spec.X509View Proofs.Util.
From Coq Require Import Lia.

(* the wrong day of get_unix_timestamp *)
Definition lost_day (i : instant) : Z := if leap_year (year i) && (2 <? month i) then 86400 else 0.


Lemma str_to_u8_digit {E} n : 0 <= n < 10 -> str_to_u8 (E:=E) [48 + n] = Ok n.
Proof.
  intros H. unfold str_to_u8, str_slice, str_boundary. cbn [nth_error length Nat.eqb].
  replace (128 <=? 48 + n) with false by (symmetry; apply Z.leb_gt; lia).
  cbn [negb andb].
  change (slice [48 + n] 0 1) with (@Ok E _ [48 + n]). cbn [bind idx unwrap nth_error].
  destruct (Z.leb_spec 49 (48 + n)), (Z.leb_spec (48 + n) 57); cbn [andb]; f_equal; lia.
Qed.


Lemma digit_bounds n : 0 <= n < 100 -> 0 <= n / 10 < 10 /\ 0 <= n mod 10 < 10.
Proof. intros. split; [split; [apply Z.div_pos; lia|apply Z.div_lt_upper_bound; lia]|apply Z.mod_pos_bound; lia]. Qed.

Lemma two_digits_at {E} pre n (r : list Z) c : 0 <= n < 100 -> c < 128 ->
  two_digits (E:=E) (pre ++ digits2 n ++ c :: r) (length pre) = Ok n.
Proof.
  intros Hn Hc. destruct (digit_bounds n Hn) as [H1 H2]. unfold two_digits, str_slice.
  assert (B1 : str_boundary (pre ++ digits2 n ++ c :: r) (length pre) = true).
  { unfold str_boundary. rewrite nth_error_app2 by lia. rewrite Nat.sub_diag. cbn [digits2 app nth_error].
    replace (128 <=? _) with false by (symmetry; apply Z.leb_gt; lia). reflexivity. }
  assert (B2 : str_boundary (pre ++ digits2 n ++ c :: r) (length (pre ++ digits2 n ++ c :: r)) = true).
  { unfold str_boundary. rewrite (proj2 (nth_error_None _ _)) by lia. apply Nat.eqb_refl. }
  rewrite B1, B2. cbn [andb].
  assert (S0 : slice (E:=E) (pre ++ digits2 n ++ c :: r) (length pre) (length (pre ++ digits2 n ++ c :: r)) = Ok (digits2 n ++ c :: r)).
  { rewrite slice_in by (rewrite !app_length; lia). rewrite skipn_app_l. f_equal.
    apply firstn_all2. rewrite !app_length. lia. }
  rewrite S0. cbn [bind digits2 app]. unfold str_to_u16, str_slice, str_boundary. cbn [nth_error length].
  replace (128 <=? 48 + n / 10) with false by (symmetry; apply Z.leb_gt; lia).
  replace (128 <=? 48 + n mod 10) with false by (symmetry; apply Z.leb_gt; lia).
  replace (128 <=? c) with false by (symmetry; apply Z.leb_gt; lia). cbn [negb andb].
  assert (S1 : slice (E:=E) (48 + n / 10 :: 48 + n mod 10 :: c :: r) 0 1 = Ok [48 + n / 10]).
  { rewrite slice_in by (cbn [length]; lia). reflexivity. }
  assert (S2 : slice (E:=E) (48 + n / 10 :: 48 + n mod 10 :: c :: r) 1 2 = Ok [48 + n mod 10]).
  { rewrite slice_in by (cbn [length]; lia). reflexivity. }
  rewrite S1, S2. cbn [bind]. rewrite !str_to_u8_digit by assumption. cbn [bind]. f_equal.
  pose proof (Z.div_mod n 10). lia.
Qed.

Lemma month_length_le y m : month_length y m <= 31.
Proof.
  unfold month_length. destruct (m =? 2), (leap_year y), ((m =? 4) || (m =? 6) || (m =? 9) || (m =? 11)); lia.
Qed.

Lemma from_text {E} i : valid_instant i -> 1950 <= year i <= 2049 ->
  from_utc_timestamp (E:=E) (utc_time_text i) = Ok (Some (as_utc i)).
Proof.
  intros (Hm & Hd & Hh & Hmi & Hs) Hy. pose proof (month_length_le (year i) (month i)).
  assert (Hyy : 0 <= year i mod 100 < 100) by (apply Z.mod_pos_bound; lia).
  unfold from_utc_timestamp.
  change (Nat.ltb (length (utc_time_text i)) 12) with false.
  assert (HY := digit_bounds _ Hyy).
  assert (HM := digit_bounds (month i) ltac:(lia)).
  assert (HD := digit_bounds (day i) ltac:(lia)).
  assert (HH := digit_bounds (hour i) ltac:(lia)).
  assert (HMI := digit_bounds (minute i) ltac:(lia)).
  assert (HS := digit_bounds (second i) ltac:(lia)).
  set (t := utc_time_text i).
  assert (E0 : two_digits (E:=E) t 0 = Ok (year i mod 100)).
  { change t with ([] ++ digits2 (year i mod 100) ++ (48 + month i / 10) :: (48 + month i mod 10) :: digits2 (day i) ++
      digits2 (hour i) ++ digits2 (minute i) ++ digits2 (second i) ++ [90]). apply (two_digits_at []); lia. }
  assert (E2 : two_digits (E:=E) t 2 = Ok (month i)).
  { change t with (digits2 (year i mod 100) ++ digits2 (month i) ++ (48 + day i / 10) :: (48 + day i mod 10) ::
      digits2 (hour i) ++ digits2 (minute i) ++ digits2 (second i) ++ [90]).
    apply (two_digits_at (digits2 (year i mod 100))); lia. }
  assert (E4 : two_digits (E:=E) t 4 = Ok (day i)).
  { change t with ((digits2 (year i mod 100) ++ digits2 (month i)) ++ digits2 (day i) ++ (48 + hour i / 10) ::
      (48 + hour i mod 10) :: digits2 (minute i) ++ digits2 (second i) ++ [90]).
    apply (two_digits_at (digits2 (year i mod 100) ++ digits2 (month i))); lia. }
  assert (E6 : two_digits (E:=E) t 6 = Ok (hour i)).
  { change t with ((digits2 (year i mod 100) ++ digits2 (month i) ++ digits2 (day i)) ++ digits2 (hour i) ++
      (48 + minute i / 10) :: (48 + minute i mod 10) :: digits2 (second i) ++ [90]).
    apply (two_digits_at (digits2 (year i mod 100) ++ digits2 (month i) ++ digits2 (day i))); lia. }
  assert (E8 : two_digits (E:=E) t 8 = Ok (minute i)).
  { change t with ((digits2 (year i mod 100) ++ digits2 (month i) ++ digits2 (day i) ++ digits2 (hour i)) ++
      digits2 (minute i) ++ (48 + second i / 10) :: (48 + second i mod 10) :: [90]).
    apply (two_digits_at (digits2 (year i mod 100) ++ digits2 (month i) ++ digits2 (day i) ++ digits2 (hour i))); lia. }
  assert (E10 : two_digits (E:=E) t 10 = Ok (second i)).
  { change t with ((digits2 (year i mod 100) ++ digits2 (month i) ++ digits2 (day i) ++ digits2 (hour i) ++
      digits2 (minute i)) ++ digits2 (second i) ++ 90 :: []).
    apply (two_digits_at (digits2 (year i mod 100) ++ digits2 (month i) ++ digits2 (day i) ++ digits2 (hour i) ++
      digits2 (minute i))); lia. }
  rewrite E0. cbn [bind]. rewrite E2. cbn [bind]. rewrite E4. cbn [bind]. rewrite E6. cbn [bind]. rewrite E8.
  cbn [bind]. rewrite E10. cbn [bind]. do 2 f_equal. unfold as_utc. f_equal.
  destruct (Z.ltb_spec (year i mod 100) 50).
  - destruct (Z_lt_dec (year i) 2000).
    + pose proof (Z.mod_unique (year i) 100 19 (year i - 1900)). lia.
    + pose proof (Z.mod_unique (year i) 100 20 (year i - 2000)). lia.
  - destruct (Z_lt_dec (year i) 2000).
    + pose proof (Z.mod_unique (year i) 100 19 (year i - 1900)). lia.
    + pose proof (Z.mod_unique (year i) 100 20 (year i - 2000)). lia.
Qed.

(* the year part, for any year from 1970 (no upper bound needed) *)
Definition leap_count (y : Z) : Z := (y - 1969) / 4 - (y - 1901) / 100 + (y - 1601) / 400.
Lemma sum_range_succ f lo hi : lo <= hi -> sum_range f lo (hi + 1) = sum_range f lo hi + f hi.
Proof.
  intros H. unfold sum_range. replace (Z.to_nat (hi + 1 - lo)) with (S (Z.to_nat (hi - lo))) by lia.
  rewrite seq_S, map_app, fold_right_app. cbn [map fold_right].
  replace (lo + Z.of_nat (0 + Z.to_nat (hi - lo))) with hi by lia.
  generalize (map (fun i : nat => f (lo + Z.of_nat i)) (seq 0 (Z.to_nat (hi - lo)))). intros l.
  induction l as [|x l IH]; cbn; lia.
Qed.
Lemma leap_count_step y : leap_count (y + 1) = leap_count y + (if leap_year y then 1 else 0).
Proof.
  unfold leap_count, leap_year.
  assert (D : forall k c, 0 < k -> 0 <= c < k -> forall q, (y + 1 - (q * k + c + 1)) / k = (y - (q*k + c + 1)) / k + (if (y - c) mod k =? 0 then 1 else 0)).
  { intros k c Hk Hc q. pose proof (Z.div_mod (y - c) k ltac:(lia)). pose proof (Z.mod_pos_bound (y - c) k Hk).
    destruct (Z.eqb_spec ((y - c) mod k) 0) as [E|E].
    - replace (y + 1 - (q * k + c + 1)) with ((((y - c) / k) - q) * k) by nia.
      replace (y - (q * k + c + 1)) with ((((y - c) / k) - q - 1) * k + (k - 1)) by nia.
      rewrite Z.div_mul, Z.div_add_l, (Z.div_small (k-1)) by lia. lia.
    - replace (y + 1 - (q * k + c + 1)) with ((((y - c) / k) - q) * k + (y - c) mod k) by nia.
      replace (y - (q * k + c + 1)) with ((((y - c) / k) - q) * k + ((y - c) mod k - 1)) by nia.
      rewrite !Z.div_add_l by lia. rewrite (Z.div_small ((y - c) mod k)), (Z.div_small ((y - c) mod k - 1)) by lia. lia. }
  pose proof (D 4 0 ltac:(lia) ltac:(lia) 492) as D4. pose proof (D 100 0 ltac:(lia) ltac:(lia) 19) as D100.
  pose proof (D 400 0 ltac:(lia) ltac:(lia) 4) as D400.
  rewrite Z.sub_0_r in *.
  change (492 * 4 + 0 + 1) with 1969 in *. change (19 * 100 + 0 + 1) with 1901 in *. change (4 * 400 + 0 + 1) with 1601 in *.
  rewrite D4, D100, D400; clear D D4 D100 D400.
  assert (M4 : y mod 4 = (y mod 400) mod 4) by (apply Znumtheory.Zmod_div_mod; try lia; exists 100; reflexivity).
  assert (M100 : y mod 100 = (y mod 400) mod 100) by (apply Znumtheory.Zmod_div_mod; try lia; exists 4; reflexivity).
  rewrite M4, M100. pose proof (Z.mod_pos_bound y 400 ltac:(lia)) as R. set (r := y mod 400) in *.
  destruct (Z.eqb_spec (r mod 4) 0), (Z.eqb_spec (r mod 100) 0), (Z.eqb_spec r 0); cbn [negb andb orb]; try lia;
    exfalso; pose proof (Z.div_mod r 100 ltac:(lia)); pose proof (Z.div_mod r 4 ltac:(lia)); lia.
Qed.
Lemma years_days y : 1970 <= y -> sum_range year_length 1970 y = (y - 1970) * 365 + leap_count y.
Proof.
  intros H. replace y with (1970 + Z.of_nat (Z.to_nat (y - 1970))) by lia. generalize (Z.to_nat (y - 1970)). intros n.
  induction n as [|n IH].
  - reflexivity.
  - rewrite Nat2Z.inj_succ. replace (1970 + Z.succ (Z.of_nat n)) with ((1970 + Z.of_nat n) + 1) by lia.
    rewrite sum_range_succ, IH, leap_count_step by lia. unfold year_length.
    destruct (leap_year (1970 + Z.of_nat n)); lia.
Qed.

Lemma months_days {E} y m : 1 <= m <= 12 ->
  idx (E:=E) days_since_year_start (Z.to_nat (m - 1)) =
  Ok (sum_range (month_length y) 1 m - (if leap_year y && (2 <? m) then 1 else 0)).
Proof.
  intros H. unfold month_length.
  assert (C : m = 1 \/ m = 2 \/ m = 3 \/ m = 4 \/ m = 5 \/ m = 6 \/ m = 7 \/ m = 8 \/ m = 9 \/ m = 10 \/ m = 11 \/ m = 12) by lia.
  destruct (leap_year y); decompose [or] C; subst m; reflexivity.
Qed.

Lemma unix_of {E} i : valid_instant i -> 1970 <= year i ->
  get_unix_timestamp (E:=E) (as_utc i) = Ok (unix_time i - lost_day i).
Proof.
  intros (Hm & Hd & Hh & Hmi & Hs) Hy. unfold get_unix_timestamp, usub, as_utc.
  cbn [t_year t_month t_day t_hour t_minute t_second].
  destruct (Z.ltb_spec (year i) 1); [lia|]. cbn [bind].
  destruct (Z.ltb_spec (year i - 1) 1968); [lia|]. cbn [bind].
  destruct (Z.ltb_spec (year i - 1) 1900); [lia|]. cbn [bind].
  assert (0 <= leap_count (year i) - (year i - 1601) / 400).
  { unfold leap_count. set (y := year i) in *.
    assert ((y - 1901) / 100 <= (y - 1969) / 4); [|lia].
    apply Z.div_le_lower_bound; [lia|].
    pose proof (Z.mul_div_le (y - 1901) 100 ltac:(lia)).
    destruct (Z_le_dec 2000 y).
    - assert (4 * ((y - 1901) / 100) <= y - 1969); [|lia].
      pose proof (Z.div_lt_upper_bound (y - 1901) 100 ((y-1901)/100 + 1) ltac:(lia)). lia.
    - assert ((y - 1901)/100 = 0) by (apply Z.div_small; lia). lia. }
  unfold leap_count in *.
  replace (year i - 1 - 1968) with (year i - 1969) in * by lia.
  replace (year i - 1 - 1900) with (year i - 1901) in * by lia.
  destruct (Z.ltb_spec ((year i - 1969) / 4) ((year i - 1901) / 100)); [lia|]. cbn [bind].
  destruct (Z.ltb_spec (year i - 1) 1600); [lia|]. cbn [bind].
  destruct (Z.ltb_spec (year i) 1970); [lia|]. cbn [bind].
  destruct (Z.ltb_spec (month i) 1); [lia|]. cbn [bind].
  rewrite (months_days (year i)) by lia. cbn [bind].
  destruct (Z.ltb_spec (day i) 1); [lia|]. cbn [bind].
  f_equal. unfold unix_time, days_since_epoch, lost_day.
  rewrite years_days by lia. unfold leap_count. replace (year i - 1 - 1600) with (year i - 1601) by lia.
  destruct (leap_year (year i) && (2 <? month i)); lia.
Qed.

Lemma is_valid_both {E} b a tb ta now :
  get_unix_timestamp (E:=E) b = Ok tb -> get_unix_timestamp (E:=E) a = Ok ta ->
  exists r, is_valid (E:=E) {| v_not_before := Some b; v_not_after := Some a |} now = Ok r /\
    (r = true <-> tb <= now <= ta).
Proof.
  intros Hb Ha. unfold is_valid. cbn [v_not_before v_not_after]. rewrite Hb, Ha. cbn [bind].
  destruct (Z.ltb_spec now tb).
  - exists false. split; [reflexivity|]. split; [discriminate|lia].
  - exists (negb (ta <? now)). split; [reflexivity|]. destruct (Z.ltb_spec ta now); cbn; split; try discriminate; lia.
Qed.
Lemma is_valid_missing {E} b a tb ta now :
  get_unix_timestamp (E:=E) b = Ok tb -> get_unix_timestamp (E:=E) a = Ok ta ->
  (exists r, is_valid (E:=E) {| v_not_before := Some b; v_not_after := None |} now = Ok r /\ (r = true <-> tb <= now)) /\
  (exists r, is_valid (E:=E) {| v_not_before := None; v_not_after := Some a |} now = Ok r /\ (r = true <-> now <= ta)) /\
  is_valid (E:=E) {| v_not_before := None; v_not_after := None |} now = Ok true.
Proof.
  intros Hb Ha. unfold is_valid. cbn [v_not_before v_not_after]. rewrite Hb, Ha. cbn [bind]. split; [|split].
  - destruct (Z.ltb_spec now tb); eexists; (split; [reflexivity|]); cbn; split; try discriminate; try reflexivity; lia.
  - eexists; (split; [reflexivity|]). destruct (Z.ltb_spec ta now); cbn; split; try discriminate; try reflexivity; lia.
  - reflexivity.
Qed.
Lemma is_valid_calendar {E} nb na now :
  valid_instant nb -> valid_instant na -> 1970 <= year nb <= 2049 -> 1970 <= year na <= 2049 ->
  (leap_year (year nb) = true -> month nb <= 2) -> (leap_year (year na) = true -> month na <= 2) ->
  exists b a r, from_utc_timestamp (E:=E) (utc_time_text nb) = Ok (Some b) /\
    from_utc_timestamp (E:=E) (utc_time_text na) = Ok (Some a) /\
    is_valid (E:=E) {| v_not_before := Some b; v_not_after := Some a |} now = Ok r /\
    (r = true <-> unix_time nb <= now <= unix_time na).
Proof.
  intros Vb Va Yb Ya Lb La.
  assert (Hb := unix_of (E:=E) nb Vb ltac:(lia)). assert (Ha := unix_of (E:=E) na Va ltac:(lia)).
  assert (Zb : lost_day nb = 0).
  { unfold lost_day. destruct (leap_year (year nb)); [|reflexivity]. destruct (Z.ltb_spec 2 (month nb)); [|reflexivity].
    specialize (Lb eq_refl). lia. }
  assert (Za : lost_day na = 0).
  { unfold lost_day. destruct (leap_year (year na)); [|reflexivity]. destruct (Z.ltb_spec 2 (month na)); [|reflexivity].
    specialize (La eq_refl). lia. }
  rewrite Zb, Z.sub_0_r in Hb. rewrite Za, Z.sub_0_r in Ha.
  destruct (is_valid_both _ _ _ _ now Hb Ha) as (r & H1 & H2).
  exists (as_utc nb), (as_utc na), r. split; [apply from_text; [exact Vb|lia]|]. split; [apply from_text; [exact Va|lia]|]. auto.
Qed.
