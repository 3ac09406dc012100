(* Model of anothertls/src/utils/log.rs *)
From Coq Require String.
From Verif Require Import Model.Base Model.Keylog.
Import String.StringSyntax.
Local Open Scope string_scope.
Local Open Scope list_scope.

(* utils/log.rs:8-15 *)
Inductive log_level := LNone | LError | LDebug | LFixme.
Definition level_rank (l : log_level) : Z := match l with LNone => 0 | LError => 1 | LDebug => 2 | LFixme => 3 end.
(* utils/log.rs:19-21: `current` is LOG_LEVEL *)
Definition check_log_level (current level : log_level) : bool := level_rank level <=? level_rank current.
(* str::to_lowercase; beyond ASCII no character becomes a letter of the three words (U+212A becomes k), so the others are
   left as they are *)
Definition to_lower (s : list Z) : list Z := map (fun c => if (65 <=? c) && (c <=? 90) then c + 32 else c) s.
(* utils/log.rs:23-36: env is env::vars(); a name or value that is not Unicode (None) panics when the iterator gets there *)
Fixpoint log_init (current : log_level) (env : list (option (list Z * list Z))) : outcome Empty_set log_level :=
  match env with
  | [] => Ok current
  | None :: _ => Panic
  | Some (key, value) :: env =>
      if list_eqb key (str "RUST_LOG") then
        let v := to_lower value in
        Ok (if list_eqb v (str "debug") then LDebug
            else if list_eqb v (str "error") then LError
            else if list_eqb v (str "fixme") then LFixme
            else current)
      else log_init current env
  end.
(* utils/log.rs:38-83: the three macros, for one message; nothing or the message between the colour codes *)
Definition esc : Z := 27.
Definition print_at (colour : list Z) (level current : log_level) (message : list Z) : list Z :=
  if check_log_level current level then esc :: colour ++ message ++ [10] ++ esc :: str "[0m" else [].
Definition log_fixme := print_at (str "[36;2m! ") LFixme.
Definition log_debug := print_at (str "[33;2m* ") LDebug.
Definition log_error := print_at (str "[31;1m* ") LError.
