(* The NSS key log format: one line per secret, "<label> <client random> <secret>", both in lower case hexadecimal *)
From Coq Require String Ascii.
From Verif Require Import Model.Base.
Import String.StringSyntax.
Local Open Scope string_scope.
Local Open Scope list_scope.

Definition text (s : String.string) : list Z := map (fun a => Z.of_nat (Ascii.nat_of_ascii a)) (String.list_ascii_of_string s).
Definition hexadecimal (l : list Z) : list Z :=
  concat (map (fun b => [nth (Z.to_nat (b / 16)) (text "0123456789abcdef") 0; nth (Z.to_nat (b mod 16)) (text "0123456789abcdef") 0]) l).
Definition line (label : String.string) (random secret : list Z) : list Z :=
  text label ++ text " " ++ hexadecimal random ++ text " " ++ hexadecimal secret ++ [10].
Definition handshake_lines (random server client : list Z) : list Z :=
  line "SERVER_HANDSHAKE_TRAFFIC_SECRET" random server ++ line "CLIENT_HANDSHAKE_TRAFFIC_SECRET" random client.
Definition traffic_lines (random server client : list Z) : list Z :=
  line "SERVER_TRAFFIC_SECRET_0" random server ++ line "CLIENT_TRAFFIC_SECRET_0" random client.
(* the random field of a ClientHello message: behind the message header and the version *)
Definition random_of (client_hello_message : list Z) : list Z := firstn 32 (skipn 6 client_hello_message).
