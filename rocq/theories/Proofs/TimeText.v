(* UTCTime with any text in it *)
From Verif Require Import Model.Base Model.Bytes Model.Der Model.X509 Spec.Calendar Spec.X509 Proofs.Util.
From Coq Require Import Lia.

Definition cont_byte (b : Z) : bool := (128 <=? b) && (b <? 192).
Definition cont_at (t : list Z) (k : nat) : bool := match nth_error t k with Some b => cont_byte b | None => false end.
Definition dig (c : Z) : Z := if (49 <=? c) && (c <=? 57) then c - 48 else 0.
Lemma boundary_at t k : (k <= length t)%nat -> str_boundary t k = negb (cont_at t k).
Proof.
  intros L. unfold str_boundary, cont_at. destruct (nth_error t k) as [b|] eqn:E; [reflexivity|]. apply nth_error_None in E. cbn [negb]. apply Nat.eqb_eq. lia.
Qed.
Lemma u8_text {E} a : str_to_u8 (E:=E) [a] = if cont_byte a then Panic else Ok (dig a).
Proof. unfold str_to_u8, str_slice. rewrite !boundary_at by (cbn; lia). unfold cont_at. cbn [nth_error]. destruct (cont_byte a); reflexivity. Qed.
Lemma u16_text {E} a b s : str_to_u16 (E:=E) (a :: b :: s) = if cont_at (a :: b :: s) 0 || cont_at (a :: b :: s) 1 || cont_at (a :: b :: s) 2 then Panic else Ok (dig a * 10 + dig b).
Proof.
  unfold str_to_u16, str_slice. rewrite !boundary_at by (cbn; lia). change (cont_at (a :: b :: s) 0) with (cont_byte a). change (cont_at (a :: b :: s) 1) with (cont_byte b).
  destruct (cont_byte a) eqn:Ca; [reflexivity|]. destruct (cont_byte b) eqn:Cb; [reflexivity|]. cbn [negb andb orb].
  change (slice (a :: b :: s) 0 1) with (@Ok E _ [a]). rewrite bind_Ok, u8_text, Ca, bind_Ok. destruct (cont_at (a :: b :: s) 2); [reflexivity|]. cbn [negb].
  change (slice (a :: b :: s) 1 2) with (@Ok E _ [b]). rewrite bind_Ok, u8_text, Cb. reflexivity.
Qed.
Lemma two_digits_text {E} p a b s : two_digits (E:=E) (p ++ a :: b :: s) (length p) =
  if cont_at (a :: b :: s) 0 || cont_at (a :: b :: s) 1 || cont_at (a :: b :: s) 2 then Panic else Ok (dig a * 10 + dig b).
Proof.
  unfold two_digits, str_slice. rewrite !boundary_at by (rewrite ?app_length; lia).
  replace (cont_at (p ++ a :: b :: s) (length (p ++ a :: b :: s))) with false by (unfold cont_at; now rewrite (proj2 (nth_error_None _ _)) by lia).
  replace (cont_at (p ++ a :: b :: s) (length p)) with (cont_at (a :: b :: s) 0) by (unfold cont_at; rewrite nth_error_app2, Nat.sub_diag by lia; reflexivity).
  destruct (cont_at (a :: b :: s) 0) eqn:C; [reflexivity|]. cbn [negb andb].
  rewrite slice_in by (rewrite ?app_length; lia). rewrite skipn_app_l, firstn_all2 by (rewrite app_length; lia). rewrite bind_Ok, u16_text, C. reflexivity.
Qed.
Lemma from_utc_text {E} t : from_utc_timestamp (E:=E) t =
  if Nat.ltb (length t) 12 then Ok None else
  if existsb (cont_at t) (seq 0 13) then Panic else
  Ok (Some {| t_year := (if dig (nth 0 t 0) * 10 + dig (nth 1 t 0) <? 50 then dig (nth 0 t 0) * 10 + dig (nth 1 t 0) + 2000 else dig (nth 0 t 0) * 10 + dig (nth 1 t 0) + 1900);
    t_month := dig (nth 2 t 0) * 10 + dig (nth 3 t 0); t_day := dig (nth 4 t 0) * 10 + dig (nth 5 t 0); t_hour := dig (nth 6 t 0) * 10 + dig (nth 7 t 0);
    t_minute := dig (nth 8 t 0) * 10 + dig (nth 9 t 0); t_second := dig (nth 10 t 0) * 10 + dig (nth 11 t 0) |}).
Proof.
  unfold from_utc_timestamp. destruct (Nat.ltb_spec (length t) 12) as [L|L]; [reflexivity|].
  do 12 (destruct t as [|? t]; [cbn [length] in L; lia|]). cbn [nth].
  match goal with |- context [two_digits ?l 0] => remember l as w end.
  pose proof (@two_digits_text E [] z z0 (z1 :: z2 :: z3 :: z4 :: z5 :: z6 :: z7 :: z8 :: z9 :: z10 :: t)) as D0.
  pose proof (@two_digits_text E [z; z0] z1 z2 (z3 :: z4 :: z5 :: z6 :: z7 :: z8 :: z9 :: z10 :: t)) as D1.
  pose proof (@two_digits_text E [z; z0; z1; z2] z3 z4 (z5 :: z6 :: z7 :: z8 :: z9 :: z10 :: t)) as D2.
  pose proof (@two_digits_text E [z; z0; z1; z2; z3; z4] z5 z6 (z7 :: z8 :: z9 :: z10 :: t)) as D3.
  pose proof (@two_digits_text E [z; z0; z1; z2; z3; z4; z5; z6] z7 z8 (z9 :: z10 :: t)) as D4.
  pose proof (@two_digits_text E [z; z0; z1; z2; z3; z4; z5; z6; z7; z8] z9 z10 t) as D5.
  cbn [app length] in D0, D1, D2, D3, D4, D5. rewrite <- Heqw in D0, D1, D2, D3, D4, D5. rewrite D0, D1, D2, D3, D4, D5. subst w.
  unfold cont_at. cbn [nth_error seq existsb]. clear.
  repeat match goal with |- context [cont_byte ?x] => destruct (cont_byte x); cbn [orb bind]; try reflexivity end.
  destruct t as [|c t]; cbn [orb bind]; [reflexivity|]. destruct (cont_byte c); reflexivity.
Qed.

(* in UTF-8 *)
Lemma char_shape c : scalar_value c -> (0 <= c < 128 /\ utf8_char c = [c]) \/
  (exists l b r, utf8_char c = l :: b :: r /\ 192 <= l /\ cont_byte b = true).
Proof.
  intros S. assert (0 <= c) by (destruct S; lia). unfold utf8_char. 
  assert (M : forall x, cont_byte (128 + x mod 64) = true).
  { intros x. pose proof (Z.mod_pos_bound x 64 ltac:(lia)). unfold cont_byte. apply andb_true_intro. split; [apply Z.leb_le; lia|apply Z.ltb_lt; lia]. }
  destruct (Z.ltb_spec c 128); [left; split; [lia|reflexivity]|]. right.
  destruct (Z.ltb_spec c 2048); [|destruct (Z.ltb_spec c 65536)]; (eexists _, _, _; split; [reflexivity|]; split; [|apply M]).
  - pose proof (Z.div_pos c 64 ltac:(lia) ltac:(lia)). lia.
  - pose proof (Z.div_pos c 4096 ltac:(lia) ltac:(lia)). lia.
  - pose proof (Z.div_pos c 262144 ltac:(lia) ltac:(lia)). lia.
Qed.
Lemma ascii_cont text : Forall scalar_value text -> forall n, existsb (cont_at (utf8 text)) (seq 0 (S n)) = false <-> Forall (fun b => b < 128) (firstn n (utf8 text)).
Proof.
  assert (X : forall t n, existsb (cont_at t) (seq 0 (S n)) = false <-> forall k, (k <= n)%nat -> cont_at t k = false).
  { intros t n. split.
    - intros H k L. destruct (cont_at t k) eqn:C; [|reflexivity]. assert (existsb (cont_at t) (seq 0 (S n)) = true); [|congruence]. apply existsb_exists. exists k. split; [apply in_seq; lia|exact C].
    - intros H. apply Bool.not_true_is_false. intros Q. apply existsb_exists in Q. destruct Q as (k & I & C). apply in_seq in I. rewrite H in C by lia. discriminate. }
  induction 1 as [|c text S F IH]; intros n.
  - rewrite X. rewrite firstn_nil. split; [constructor|]. intros _ k _. unfold cont_at, utf8. cbn. now destruct k.
  - change (utf8 (c :: text)) with (utf8_char c ++ utf8 text). destruct (char_shape c S) as [(R & ->) | (l & b & r & -> & Ll & Cb)].
    + rewrite X. cbn [app]. destruct n as [|n].
      * cbn [firstn]. split; [constructor|]. intros _ k Lk. replace k with 0%nat by lia. unfold cont_at, cont_byte. cbn [nth_error]. destruct (Z.leb_spec 128 c); [lia|reflexivity].
      * cbn [firstn]. specialize (IH n). rewrite X in IH. split.
        -- intros H. constructor; [lia|]. apply IH. intros k Lk. exact (H (Datatypes.S k) ltac:(lia)).
        -- intros H [|k] Lk; [unfold cont_at, cont_byte; cbn [nth_error]; destruct (Z.leb_spec 128 c); [lia|reflexivity]|]. change (cont_at (c :: utf8 text) (Datatypes.S k)) with (cont_at (utf8 text) k). apply IH; [now inversion H|lia].
    + rewrite X. cbn [app]. destruct n as [|n].
      * cbn [firstn]. split; [constructor|]. intros _ k Lk. replace k with 0%nat by lia. unfold cont_at, cont_byte. cbn [nth_error]. destruct (Z.ltb_spec l 192); [lia|apply Bool.andb_false_r].
      * cbn [firstn]. split; [intros H; specialize (H 1%nat ltac:(lia)); unfold cont_at in H; cbn [nth_error] in H; congruence|]. intros H. inversion H; subst. lia.
Qed.
Lemma utc_short {E} t : (length t < 12)%nat -> from_utc_timestamp (E:=E) t = Ok None.
Proof. intros L. rewrite from_utc_text. now rewrite (proj2 (Nat.ltb_lt _ _) L). Qed.
Lemma utc_ascii {E} text : Forall scalar_value text -> (12 <= length (utf8 text))%nat -> Forall (fun b => b < 128) (firstn 12 (utf8 text)) ->
  exists x, from_utc_timestamp (E:=E) (utf8 text) = Ok (Some x).
Proof.
  intros F L A. rewrite from_utc_text. destruct (Nat.ltb_spec (length (utf8 text)) 12); [lia|]. rewrite (proj2 (ascii_cont text F 12) A). eexists. reflexivity.
Qed.
Lemma utc_other {E} text : Forall scalar_value text -> (12 <= length (utf8 text))%nat -> ~ Forall (fun b => b < 128) (firstn 12 (utf8 text)) ->
  from_utc_timestamp (E:=E) (utf8 text) = Panic.
Proof.
  intros F L A. rewrite from_utc_text. destruct (Nat.ltb_spec (length (utf8 text)) 12); [lia|]. destruct (existsb _ _) eqn:X; [reflexivity|]. exfalso. apply A. now apply ascii_cont.
Qed.
