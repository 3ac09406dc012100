(* The texts shown for times and names *)
From Coq Require Import Lia.
From Verif Require Import Model.Base Model.Der Model.X509 Model.Keylog Model.Display Spec.Rfc4648 Spec.Calendar Spec.X509 Spec.X509View Spec.Dates Spec.Shown.
From Verif Require Import Proofs.Util.
From Coq Require String.
Import String.StringSyntax.
Local Open Scope string_scope. Local Open Scope list_scope. Local Open Scope Z_scope.

Definition is_digit (c : Z) : Prop := 48 <= c <= 57.
Definition word (n : Z) : Prop := 0 <= n < 2^16.
Fixpoint value (acc : Z) (l : list Z) : Z := match l with [] => acc | c :: l => value (10 * acc + (c - 48)) l end.

Lemma dec_go_value f : forall n acc, 0 <= n < 10 ^ Z.of_nat f -> (0 < f)%nat -> exists d, dec_go f n acc = d ++ acc /\ value 0 d = n /\ Forall is_digit d.
Proof.
  induction f as [|f IH]; intros n acc B F; [lia|]. cbn [dec_go]. cbv zeta. pose proof (Z.mod_pos_bound n 10 ltac:(lia)) as M.
  destruct (Z.ltb_spec n 10) as [L|L].
  - exists [48 + n mod 10]. split; [reflexivity|]. rewrite Z.mod_small by lia. split; [cbn [value]; lia|]. repeat constructor; unfold is_digit; lia.
  - rewrite Nat2Z.inj_succ, Z.pow_succ_r in B by lia.
    assert (0 < f)%nat. { destruct f; [cbn in B; lia|lia]. }
    destruct (IH (n / 10) (48 + n mod 10 :: acc)) as (d & D & V & G); [|assumption|].
    { split; [apply Z.div_pos; lia|]. apply Z.div_lt_upper_bound; lia. }
    exists (d ++ [48 + n mod 10]). split; [rewrite D, <- app_assoc; reflexivity|]. split.
    + assert (forall a l, value a (l ++ [48 + n mod 10]) = 10 * value a l + n mod 10) as E.
      { intros a l. revert a. induction l as [|c l I]; intros a; cbn [value app]; [lia|apply I]. }
      rewrite E, V. pose proof (Z.div_mod n 10). lia.
    + apply Forall_app. split; [exact G|]. repeat constructor; unfold is_digit; lia.
Qed.
Lemma dec_value n : word n -> value 0 (dec n) = n /\ Forall is_digit (dec n).
Proof.
  intros B. unfold word in B. destruct (dec_go_value 5 n []) as (d & D & V & G); [cbn; lia|lia|].
  unfold dec. rewrite D, app_nil_r. auto.
Qed.
Lemma value_zeros k l : value 0 (repeat 48 k ++ l) = value 0 l.
Proof. induction k as [|k IH]; [reflexivity|]. exact IH. Qed.
Lemma pad_value n : word n -> value 0 (pad2 n) = n /\ Forall is_digit (pad2 n).
Proof.
  intros B. destruct (dec_value n B) as (V & G). unfold pad2. rewrite value_zeros. split; [exact V|]. apply Forall_app. split; [|exact G].
  apply Forall_forall. intros x I. apply repeat_spec in I. subst. unfold is_digit. lia.
Qed.
Lemma split_at (P : Z -> Prop) s a b x y : ~ P s -> Forall P a -> Forall P b -> a ++ s :: x = b ++ s :: y -> a = b /\ x = y.
Proof.
  intros N A. revert b. induction A as [|c a Pc A IH]; intros b B E; destruct B as [|d b Pd B]; cbn in E.
  - injection E as E. auto.
  - injection E as E1 E2. subst. tauto.
  - injection E as E1 E2. subst. tauto.
  - injection E as E1 E2. subst. destruct (IH b B E2). subst. auto.
Qed.
Lemma field_at s a b x y : ~ is_digit s -> word a -> word b -> pad2 a ++ s :: x = pad2 b ++ s :: y -> a = b /\ x = y.
Proof.
  intros N A B E. destruct (pad_value a A) as (Va & Ga), (pad_value b B) as (Vb & Gb).
  destruct (split_at is_digit s _ _ _ _ N Ga Gb E) as (E1 & E2). split; [congruence|exact E2].
Qed.
Definition words (t : utc_time) : Prop :=
  word (t_hour t) /\ word (t_minute t) /\ word (t_second t) /\ word (t_month t) /\ word (t_day t) /\ word (t_year t).
Lemma time_injective t u : words t -> words u -> utc_display t = utc_display u -> t = u.
Proof.
  destruct t as [y m d h mi s], u as [y' m' d' h' mi' s']. unfold words, utc_display. cbn [t_year t_month t_day t_hour t_minute t_second].
  intros (A1 & A2 & A3 & A4 & A5 & A6) (B1 & B2 & B3 & B4 & B5 & B6) E.
  change (str ":") with [58] in E. change (str " ") with [32] in E. change (str "/") with [47] in E. cbn [app] in E.
  apply field_at in E; [|unfold is_digit; lia|assumption..]. destruct E as (-> & E).
  apply field_at in E; [|unfold is_digit; lia|assumption..]. destruct E as (-> & E).
  apply field_at in E; [|unfold is_digit; lia|assumption..]. destruct E as (-> & E).
  apply field_at in E; [|unfold is_digit; lia|assumption..]. destruct E as (-> & E).
  apply field_at in E; [|unfold is_digit; lia|assumption..]. destruct E as (-> & E).
  f_equal. destruct (dec_value y A6) as (V & _), (dec_value y' B6) as (V' & _). congruence.
Qed.

Lemma pad_digits n : 0 <= n <= 99 -> pad2 n = digits2 n.
Proof.
  intros B. assert (forallb (fun n => if list_eq_dec Z.eq_dec (pad2 n) (digits2 n) then true else false) (map Z.of_nat (seq 0 100)) = true) as S by (vm_compute; reflexivity).
  rewrite forallb_forall in S. specialize (S n). destruct (list_eq_dec Z.eq_dec (pad2 n) (digits2 n)); [assumption|].
  discriminate S. apply in_map_iff. exists (Z.to_nat n). split; [lia|]. apply in_seq. lia.
Qed.
Lemma year_digits n : 1950 <= n <= 2049 -> dec n = digits2 (n / 100) ++ digits2 (n mod 100).
Proof.
  intros B. assert (forallb (fun n => if list_eq_dec Z.eq_dec (dec n) (digits2 (n / 100) ++ digits2 (n mod 100)) then true else false) (map (fun k => 1950 + Z.of_nat k) (seq 0 100)) = true) as S by (vm_compute; reflexivity).
  rewrite forallb_forall in S. specialize (S n). destruct (list_eq_dec Z.eq_dec (dec n) (digits2 (n / 100) ++ digits2 (n mod 100))); [assumption|].
  discriminate S. apply in_map_iff. exists (Z.to_nat (n - 1950)). split; [lia|]. apply in_seq. lia.
Qed.
Lemma time_text_shown n : two_digit n -> utc_display (as_utc (named n)) = time_shown (named n).
Proof.
  intros T. unfold two_digit in T. rewrite !Forall_cons_iff in T. destruct T as (Y & M & D & H & Mi & S & _).
  unfold utc_display, time_shown, as_utc, named. cbn [t_year t_month t_day t_hour t_minute t_second year month day hour minute second].
  rewrite !pad_digits by assumption. rewrite year_digits; [reflexivity|]. unfold full_year. destruct (Z.ltb_spec (n_year n) 50); lia.
Qed.

(* ---- names ---- *)
Lemma got n l k : shows_name n l -> get_or_empty n (key_of k) = shown_value k l.
Proof. intros S. unfold get_or_empty, shown_value. rewrite S. now destruct (last_value k l). Qed.
Lemma name_text n l : shows_name n l -> name_display n = name_shown l.
Proof.
  intros S. unfold name_display, name_shown.
  change CountryName with (key_of Country). change StateOrProvinceName with (key_of State). change OrganizationName with (key_of Organization). change CommonName with (key_of Common).
  rewrite !(got n l _ S). reflexivity.
Qed.
Lemma shown_ext l l' : (forall k, In k [Country; State; Organization; Common] -> shown_value k l = shown_value k l') -> name_shown l = name_shown l'.
Proof. intros E. unfold name_shown. rewrite !E by (cbn; tauto). reflexivity. Qed.
Lemma shown_snoc l a k : shown_value k (l ++ [a]) = if attribute_eqb (a_type a) k then a_value a else shown_value k l.
Proof. unfold shown_value, last_value. rewrite rev_app_distr. cbn [rev app find]. now destruct (attribute_eqb (a_type a) k). Qed.
Lemma told_apart l l' : (forall k, In k [Country; State; Organization] -> ~ In 59 (shown_value k l) /\ ~ In 59 (shown_value k l')) ->
  name_shown l = name_shown l' -> forall k, In k [Country; State; Organization; Common] -> shown_value k l = shown_value k l'.
Proof.
  intros N E. unfold name_shown in E.
  change (codes "C=") with [67; 61] in E. change (codes "; ST=") with (59 :: [32; 83; 84; 61]) in E. change (codes "; O=") with (59 :: [32; 79; 61]) in E.
  change (codes "; CN=") with (59 :: [32; 67; 78; 61]) in E. cbn [app] in E. injection E as E.
  assert (forall v, ~ In 59 v -> Forall (fun c => c <> 59) v) as F. { intros v I. apply Forall_forall. intros x J ->. tauto. }
  destruct (N Country) as (C1 & C2); [cbn; tauto|]. destruct (N State) as (S1 & S2); [cbn; tauto|]. destruct (N Organization) as (O1 & O2); [cbn; tauto|].
  apply (split_at (fun c => c <> 59)) in E; [|tauto|auto..]. destruct E as (Ec & E). injection E as E.
  apply (split_at (fun c => c <> 59)) in E; [|tauto|auto..]. destruct E as (Es & E). injection E as E.
  apply (split_at (fun c => c <> 59)) in E; [|tauto|auto..]. destruct E as (Eo & E). injection E as E.
  intros k [<-|[<-|[<-|[<-|[]]]]]; assumption.
Qed.
Lemma utf8_app a b : utf8 (a ++ b) = utf8 a ++ utf8 b.
Proof. unfold utf8. now rewrite map_app, concat_app. Qed.
