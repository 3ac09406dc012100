(* Model of anothertls/src/utils/keylog.rs.  The file is the bytes appended to it; that it can be opened is assumed
   (the code panics otherwise). *)
From Coq Require String Ascii.
From Verif Require Import Model.Base Model.Bytes Model.KeySchedule Model.Record.
Import String.StringSyntax.
Local Open Scope string_scope.
Local Open Scope list_scope.

(* string literals *)
Fixpoint str (s : String.string) : list Z :=
  match s with
  | String.EmptyString => []
  | String.String a r => Z.of_nat (Ascii.nat_of_ascii a) :: str r
  end.

(* utils/keylog.rs:18-24: the client random, in hex *)
Definition keylog_new (client_random : list Z) : list Z := to_hex client_random.

(* utils/keylog.rs:40-54 and :55-69 with writeln! (:80) *)
Definition keylog_lines (server_label client_label random_hex server client : list Z) : list Z :=
  server_label ++ random_hex ++ str " " ++ to_hex server ++ [10] ++
  client_label ++ random_hex ++ str " " ++ to_hex client ++ [10].
Definition append_application_traffic_secrets (k server client : list Z) : list Z :=
  keylog_lines (str "SERVER_TRAFFIC_SECRET_0 ") (str "CLIENT_TRAFFIC_SECRET_0 ") k server client.
Definition append_handshake_traffic_secrets (k server client : list Z) : list Z :=
  keylog_lines (str "SERVER_HANDSHAKE_TRAFFIC_SECRET ") (str "CLIENT_HANDSHAKE_TRAFFIC_SECRET ") k server client.
(* utils/keylog.rs:26-38 *)
Definition append_from_protection (k : list Z) (p : rpp) : list Z :=
  match rp_application p with
  | Some a => append_application_traffic_secrets k (k_secret (wk_server a)) (k_secret (wk_client a))
  | None => append_handshake_traffic_secrets k (k_secret (wk_server (rp_handshake p))) (k_secret (wk_client (rp_handshake p)))
  end.
