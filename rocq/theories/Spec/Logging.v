(* How a user asks for log output, with the environment variable RUST_LOG. *)
From Verif Require Import Model.Base.

(* "RUST_LOG", "error", "debug", "fixme" *)
Definition rust_log : list Z := [82; 85; 83; 84; 95; 76; 79; 71].
Definition w_error : list Z := [101; 114; 114; 111; 114].
Definition w_debug : list Z := [100; 101; 98; 117; 103].
Definition w_fixme : list Z := [102; 105; 120; 109; 101].
(* v is the word; each letter of v may be a capital *)
Definition spelt (v word : list Z) : Prop := Forall2 (fun a b => a = b /\ ~ 65 <= a <= 90 \/ 65 <= a <= 90 /\ b = a + 32) v word.
(* variables that are Unicode and not RUST_LOG *)
Definition others (env : list (option (list Z * list Z))) : Prop := Forall (fun v => exists key value, v = Some (key, value) /\ key <> rust_log) env.
