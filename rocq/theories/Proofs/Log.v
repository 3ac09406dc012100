(* Logging *)
From Coq Require String.
From Verif Require Import Proofs.Util Model.Keylog Model.Log Spec.Logging.
Import String.StringSyntax.
Local Open Scope string_scope.
Local Open Scope list_scope.

Lemma lower_spelt v word : list_eqb (to_lower v) word = true <-> spelt v word.
Proof.
  rewrite list_eqb_spec. unfold to_lower, spelt. revert word. induction v as [|a v IH]; intros word; split; intros H.
  - cbn in H. subst. constructor.
  - inversion H. reflexivity.
  - cbn [map] in H. destruct word as [|b w]; [discriminate H|]. injection H as E H. constructor; [|now apply IH].
    destruct (Z.leb_spec 65 a), (Z.leb_spec a 90); cbn [andb] in E; lia.
  - inversion H as [|? b ? w Hd Tl]; subst. cbn [map]. f_equal; [|now apply IH].
    destruct (Z.leb_spec 65 a), (Z.leb_spec a 90); cbn [andb]; lia.
Qed.
Lemma skip_others cur env : others env -> forall rest, log_init cur (env ++ rest) = log_init cur rest.
Proof.
  intros H rest. induction H as [|v env (k & x & -> & N) H IH]; [reflexivity|]. cbn [app log_init].
  destruct (list_eqb k (str "RUST_LOG")) eqn:E; [|exact IH]. apply list_eqb_spec in E. contradiction.
Qed.
Lemma unset cur env : others env -> log_init cur env = Ok cur.
Proof. intros H. rewrite <- (app_nil_r env), (skip_others cur env H). reflexivity. Qed.
Lemma set_to cur env value rest : others env ->
  exists l, log_init cur (env ++ Some (rust_log, value) :: rest) = Ok l /\
    (spelt value w_error -> l = LError) /\ (spelt value w_debug -> l = LDebug) /\ (spelt value w_fixme -> l = LFixme) /\
    (~ spelt value w_error -> ~ spelt value w_debug -> ~ spelt value w_fixme -> l = cur).
Proof.
  intros H. rewrite (skip_others cur env H). cbn [log_init]. change (list_eqb rust_log (str "RUST_LOG")) with true. cbv iota zeta. eexists. split; [reflexivity|].
  change w_error with (str "error"). change w_debug with (str "debug"). change w_fixme with (str "fixme").
  rewrite <- !lower_spelt, !list_eqb_spec.
  destruct (list_eqb (to_lower value) (str "debug")) eqn:D; [apply list_eqb_spec in D; rewrite D; repeat split; intros; try reflexivity; try discriminate; contradiction|].
  destruct (list_eqb (to_lower value) (str "error")) eqn:R; [apply list_eqb_spec in R; rewrite R; repeat split; intros; try reflexivity; try discriminate; contradiction|].
  destruct (list_eqb (to_lower value) (str "fixme")) eqn:F; [apply list_eqb_spec in F; rewrite F; repeat split; intros; try reflexivity; try discriminate; contradiction|].
  apply list_eqb_false in D, R, F. repeat split; intros; try reflexivity; contradiction.
Qed.
Lemma not_unicode cur env rest : others env -> log_init cur (env ++ None :: rest) = Panic.
Proof. intros H. rewrite (skip_others cur env H). reflexivity. Qed.
