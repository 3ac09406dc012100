(* C93: the texts shown for the names and times of a certificate. Property theorems only. *)
From Coq Require Import Lia.
From Verif Require Import Model.Base Model.Der Model.X509 Model.Display Spec.Rfc4648 Spec.Calendar Spec.X509 Spec.X509View Spec.Dates Spec.Shown.
From Verif Require Proofs.Shown Proofs.Dates Proofs.X509Cert.
From Coq Require String.
Import String.StringSyntax.
Local Open Scope string_scope. Local Open Scope list_scope. Local Open Scope Z_scope.

(* ---- C93: what is shown of a certificate says which subject, issuer and dates it has ---- *)
(* For the times it holds: what stands in the certificate is shown as hh:mm:ss MM/DD/YYYY, *)
Theorem C93_time_partial : forall n zone, two_digit n -> Forall scalar_value zone ->
  exists t, from_utc_timestamp (E:=Empty_set) (time_text n zone) = Ok (Some t) /\ utc_display t = time_shown (named n).
Proof. intros n zone T Z. eexists. split; [apply Proofs.Dates.read_numbers; assumption|apply Proofs.Shown.time_text_shown, T]. Qed.
Print Assumptions C93_time_partial.
(* and no two times look the same, whatever six 16-bit numbers they are made of *)
Theorem C93_time_told_apart_partial : forall t u,
  Forall (fun n => 0 <= n < 2^16) [t_hour t; t_minute t; t_second t; t_month t; t_day t; t_year t] ->
  Forall (fun n => 0 <= n < 2^16) [t_hour u; t_minute u; t_second u; t_month u; t_day u; t_year u] ->
  utc_display t = utc_display u -> t = u.
Proof.
  intros t u T U. rewrite !Forall_cons_iff in T, U. apply Proofs.Shown.time_injective; unfold Proofs.Shown.words, Proofs.Shown.word; tauto.
Qed.
Print Assumptions C93_time_told_apart_partial.

(* Of a name four attributes are shown, with their last values *)
Theorem C93_name_partial : forall c, tbs_ok (c_tbs c) -> Z.of_nat (length (Certificate c)) < 2^24 ->
  exists x, x509_from_raw (Certificate c) = Ok x /\
    name_display (x_subject x) = name_shown (tbs_subject (c_tbs c)) /\ name_display (x_issuer x) = name_shown (tbs_issuer (c_tbs c)).
Proof.
  intros c T L. eexists. split; [apply Proofs.X509Cert.cert_parse; assumption|].
  destruct (Proofs.X509Cert.x_of_shows c (tbs_not_after (c_tbs c)) (tbs_subject (c_tbs c)) (length (concat (tbs_elements (c_tbs c)))) T) as (_ & _ & _ & I & _ & S & _).
  split; apply Proofs.Shown.name_text; assumption.
Qed.
Print Assumptions C93_name_partial.
(* so two subjects look the same that differ in a locality, a unit or an address, *)
Theorem C93_hidden_refuted : forall c c' a, tbs_ok (c_tbs c) -> tbs_ok (c_tbs c') ->
  Z.of_nat (length (Certificate c)) < 2^24 -> Z.of_nat (length (Certificate c')) < 2^24 ->
  In (a_type a) [Locality; OrganizationalUnit; Email] -> tbs_subject (c_tbs c') = tbs_subject (c_tbs c) ++ [a] ->
  exists x x', x509_from_raw (Certificate c) = Ok x /\ x509_from_raw (Certificate c') = Ok x' /\
    name_get (x_subject x') (key_of (a_type a)) = Ok (utf8 (a_text a)) /\ name_display (x_subject x) = name_display (x_subject x').
Proof.
  intros c c' a T T' L L' A E.
  destruct (C93_name_partial c T L) as (x & X & S & _), (C93_name_partial c' T' L') as (x' & X' & S' & _). exists x, x'. split; [exact X|]. split; [exact X'|]. split.
  - pose proof (Proofs.X509Cert.cert_parse c' T' L') as P. rewrite X' in P. injection P as ->.
    destruct (Proofs.X509Cert.x_of_shows c' (tbs_not_after (c_tbs c')) (tbs_subject (c_tbs c')) (length (concat (tbs_elements (c_tbs c')))) T') as (_ & _ & _ & _ & _ & N & _).
    rewrite N, E. unfold last_value. rewrite rev_app_distr. cbn [rev app find]. now destruct (a_type a).
  - rewrite S, S', E. symmetry. apply Proofs.Shown.shown_ext. intros k K. rewrite Proofs.Shown.shown_snoc.
    cbn in A, K. destruct A as [<-|[<-|[<-|[]]]], K as [<-|[<-|[<-|[<-|[]]]]]; reflexivity.
Qed.
Print Assumptions C93_hidden_refuted.
(* and one can be made to look like any other common name, from within its organization *)
Theorem C93_name_refuted : forall c c' l s s' org a b, tbs_ok (c_tbs c) -> tbs_ok (c_tbs c') ->
  Z.of_nat (length (Certificate c)) < 2^24 -> Z.of_nat (length (Certificate c')) < 2^24 ->
  tbs_subject (c_tbs c) = l ++ [{| a_type := Organization; a_string := s; a_text := org |};
                                {| a_type := Common; a_string := s'; a_text := a ++ codes "; CN=" ++ b |}] ->
  tbs_subject (c_tbs c') = l ++ [{| a_type := Organization; a_string := s; a_text := org ++ codes "; CN=" ++ a |};
                                 {| a_type := Common; a_string := s'; a_text := b |}] ->
  exists x x', x509_from_raw (Certificate c) = Ok x /\ x509_from_raw (Certificate c') = Ok x' /\
    name_get (x_subject x) CommonName = Ok (utf8 (a ++ codes "; CN=" ++ b)) /\ name_get (x_subject x') CommonName = Ok (utf8 b) /\
    name_display (x_subject x) = name_display (x_subject x').
Proof.
  intros c c' l s s' org a b T T' L L' E E'.
  destruct (C93_name_partial c T L) as (x & X & S & _), (C93_name_partial c' T' L') as (x' & X' & S' & _). exists x, x'. split; [exact X|]. split; [exact X'|].
  split; [|split].
  - pose proof (Proofs.X509Cert.cert_parse c T L) as P. rewrite X in P. injection P as ->.
    destruct (Proofs.X509Cert.x_of_shows c (tbs_not_after (c_tbs c)) (tbs_subject (c_tbs c)) (length (concat (tbs_elements (c_tbs c)))) T) as (_ & _ & _ & _ & _ & N & _).
    change CommonName with (key_of Common). rewrite N, E. unfold last_value. rewrite rev_app_distr. reflexivity.
  - pose proof (Proofs.X509Cert.cert_parse c' T' L') as P. rewrite X' in P. injection P as ->.
    destruct (Proofs.X509Cert.x_of_shows c' (tbs_not_after (c_tbs c')) (tbs_subject (c_tbs c')) (length (concat (tbs_elements (c_tbs c')))) T') as (_ & _ & _ & _ & _ & N & _).
    change CommonName with (key_of Common). rewrite N, E'. unfold last_value. rewrite rev_app_distr. reflexivity.
  - rewrite S, S', E, E'. unfold name_shown, shown_value, last_value. rewrite !rev_app_distr. cbn [rev app find a_type attribute_eqb]. unfold a_value. cbn [a_text].
    rewrite !Proofs.Shown.utf8_app. change (utf8 (codes "; CN=")) with (codes "; CN="). rewrite <- !app_assoc. reflexivity.
Qed.
Print Assumptions C93_name_refuted.
(* but not without a semicolon in its country, state or organization *)
Theorem C93_no_semicolon_partial : forall l l',
  (forall k, In k [Country; State; Organization] -> ~ In 59 (shown_value k l) /\ ~ In 59 (shown_value k l')) ->
  name_shown l = name_shown l' -> forall k, In k [Country; State; Organization; Common] -> shown_value k l = shown_value k l'.
Proof. exact Proofs.Shown.told_apart. Qed.
Print Assumptions C93_no_semicolon_partial.

(* a guest of the organization "x; CN=admin" looks like an admin "admin; CN=guest" of x *)
Example C93_ex :
  name_shown [{| a_type := Organization; a_string := UTF8String; a_text := codes "x; CN=admin" |}; {| a_type := Common; a_string := UTF8String; a_text := codes "guest" |}] =
    codes "C=; ST=; O=x; CN=admin; CN=guest" /\
  time_shown {| year := 2024; month := 3; day := 15; hour := 8; minute := 3; second := 52 |} = codes "08:03:52 03/15/2024" /\
  two_digit {| n_year := 24; n_month := 3; n_day := 15; n_hour := 8; n_minute := 3; n_second := 52 |}.
Proof. split; [reflexivity|]. split; [reflexivity|]. repeat constructor; cbn; lia. Qed.
