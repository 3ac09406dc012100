(* C85: log output.  Property theorems only; how a user asks for it is in Spec.Logging. *)
From Verif Require Import Model.Base Model.Log Spec.Logging.
From Verif Require Proofs.Log.
From Coq Require Import Lia.

(* ---- C85: nothing is printed unless RUST_LOG asks for it, and then what it asks for and what is graver ---- *)
Theorem C85_silent_partial : forall env value rest message, others env ->
  ~ spelt value w_error -> ~ spelt value w_debug -> ~ spelt value w_fixme ->
  forall e, e = env \/ e = env ++ Some (rust_log, value) :: rest ->
  exists l, log_init LNone e = Ok l /\ log_error l message = [] /\ log_debug l message = [] /\ log_fixme l message = [].
Proof.
  intros env value rest message H N1 N2 N3 e [E|E]; subst e; exists LNone.
  - rewrite (Proofs.Log.unset LNone env H). repeat split; reflexivity.
  - destruct (Proofs.Log.set_to LNone env value rest H) as (l & E & _ & _ & _ & K). rewrite (K N1 N2 N3) in E. rewrite E. repeat split; reflexivity.
Qed.
Print Assumptions C85_silent_partial.
(* the message appears in the output of `print`, or there is none *)
Definition shown (print : list Z -> list Z) : Prop := forall message, exists before after, print message = before ++ message ++ after /\ before <> [] /\ after <> [].
Definition hidden (print : list Z -> list Z) : Prop := forall message, print message = [].
Theorem C85_levels_partial : forall env value rest, others env ->
  exists l, log_init LNone (env ++ Some (rust_log, value) :: rest) = Ok l /\
    (spelt value w_error -> shown (log_error l) /\ hidden (log_debug l) /\ hidden (log_fixme l)) /\
    (spelt value w_debug -> shown (log_error l) /\ shown (log_debug l) /\ hidden (log_fixme l)) /\
    (spelt value w_fixme -> shown (log_error l) /\ shown (log_debug l) /\ shown (log_fixme l)).
Proof.
  intros env value rest H. destruct (Proofs.Log.set_to LNone env value rest H) as (l & E & K1 & K2 & K3 & _). exists l. split; [exact E|].
  assert (S : forall c lv, check_log_level l lv = true -> shown (print_at c lv l)).
  { intros c lv C m. unfold print_at. rewrite C. exists (esc :: c). eexists. split; [reflexivity|split; discriminate]. }
  assert (Hd : forall c lv, check_log_level l lv = false -> hidden (print_at c lv l)) by (intros c lv C m; unfold print_at; rewrite C; reflexivity).
  split; [|split]; intros P; [rewrite (K1 P) in *|rewrite (K2 P) in *|rewrite (K3 P) in *];
    (split; [|split]); first [apply S; reflexivity|apply Hd; reflexivity].
Qed.
Print Assumptions C85_levels_partial.
(* False where the environment has a variable that is not Unicode in front: the program panics. *)
Theorem C85_environment_refuted : forall current env rest, others env -> log_init current (env ++ None :: rest) = Panic.
Proof. exact Proofs.Log.not_unicode. Qed.
Print Assumptions C85_environment_refuted.
(* HOME=/root, RUST_LOG=DeBug *)
Example C85_ex : others [Some ([72; 79; 77; 69], [47; 114; 111; 111; 116])] /\ spelt [68; 101; 66; 117; 103] w_debug /\ ~ spelt [105; 110; 102; 111] w_debug.
Proof.
  split; [constructor; [|constructor]; do 2 eexists; split; [reflexivity|discriminate]|]. split; [unfold w_debug; repeat (apply Forall2_cons; [lia|]); apply Forall2_nil|].
  intros H. inversion H as [|? ? ? ? D]. lia.
Qed.
