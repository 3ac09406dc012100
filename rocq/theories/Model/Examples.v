(* Model of the programs in examples/src/bin of /repo.  What arrives over a TCP connection is the list of what the reads
   return ([] when the peer has hung up); a read with nothing left to return waits.  What is printed is not modelled except
   for requests and responses. *)
From Coq Require String.
From Verif Require Import Model.Base Model.Alert Model.Keylog Model.X509 Model.Extensions Model.Stream Model.Server Model.Client Model.Config Model.ExampleFiles.
Import String.StringSyntax.
Local Open Scope string_scope.
Local Open Scope list_scope.

Definition crlf : list Z := [13; 10].

(* ---- the servers ---- *)
(* server_https.rs:48-54 *)
Definition https_response : list Z :=
  str "HTTP/1.1 200" ++ crlf ++ str "Server: AnotherTls/1.0" ++ crlf ++ str "Content-Type: text/html; charset=utf-8" ++ crlf ++
  str "Content-Length: 12" ++ crlf ++ crlf ++ str "Hello world!".
(* server_client_auth.rs:57-68: the body is "Hello admin!" and a newline, its length is written in decimal *)
Definition admin_response : list Z :=
  str "HTTP/1.1 200" ++ crlf ++ str "Server: AnotherTls/1.0" ++ crlf ++ str "Content-Type: text/html; charset=utf-8" ++ crlf ++
  str "Content-Length: 13" ++ crlf ++ crlf ++ str "Hello admin!" ++ [10].

(* a TCP connection: the random numbers and the clock during its handshake, the socket, what its reads return *)
Record connection := Conn { cn_draws : draws; cn_now : Z; cn_sock : sock; cn_reads : list (list Z) }.

(* how the loop body ends *)
Inductive ending :=
| Waits                                   (* in a read *)
| Crashed                                 (* a panic: the process is gone *)
| NoHandshake (e : tls_error)             (* accept returned an error *)
| NoRequest (e : tls_error)               (* the read did *)
| Answered (printed : list Z) (s : stream) (r : outcome tls_error unit).

(* ServerConnection::accept reading one chunk after the other, as long as it wants to *)
Fixpoint accept_on (cfg : server_config) (d : draws) (now : Z) (so : sock) (taken todo : list (list Z))
    : option (server_hs * outcome tls_error unit * list (list Z)) :=
  match accept cfg d now so taken with
  | (h, Some o) => Some (h, o, todo)
  | (_, None) => match todo with [] => None | r :: todo => accept_on cfg d now so (taken ++ [r]) todo end
  end.

(* server_https.rs:43-46, server_client_auth.rs:52-55: String::from_utf8(buf[..n - 4].to_vec()).unwrap(); None is a panic *)
Definition printable (request : list Z) : option (list Z) :=
  if Nat.ltb (length request) 4 then None
  else let t := firstn (length request - 4) request in if utf8_valid t then Some t else None.

(* server_https.rs:25-58, server_client_auth.rs:34-73: the loop body *)
Definition serve (cfg : server_config) (response : list Z) (c : connection) : ending :=
  match accept_on cfg (cn_draws c) (cn_now c) (cn_sock c) [] (cn_reads c) with
  | None => Waits
  | Some (_, Panic, _) => Crashed
  | Some (_, Err e, _) => NoHandshake e
  | Some (_, Ok _, []) => Waits
  | Some (h, Ok _, chunk :: _) =>
      match tls_read (sv_stream h) (Z.to_nat 4096) chunk with
      | (_, Panic) => Crashed
      | (_, Err e) => NoRequest e
      | (s, Ok request) =>
          match printable request with
          | None => Crashed
          | Some t => match tls_write s response with (_, Panic) => Crashed | (s, r) => Answered t s r end
          end
      end
  end.
(* the loop, for the connections in the order in which TCP hands them out; what it comes to *)
Fixpoint serve_all (cfg : server_config) (response : list Z) (l : list connection) : list ending :=
  match l with
  | [] => []
  | c :: l => match serve cfg response c with
              | Waits => [Waits]
              | Crashed => [Crashed]
              | e => e :: serve_all cfg response l
              end
  end.

(* server_https.rs:16-21; keylog path, files as read *)
Definition https_calls (cert key : option (list Z)) : list server_call := [EnableKeylog; AddCertPem cert; AddPrivkeyPem key].
(* server_client_auth.rs:16-30 *)
Definition is_otsmr (x : x509) : bool :=
  match name_get (x_subject x) CommonName with Ok name => list_eqb name (str "otsmr") | _ => false end.
Definition client_auth_calls (ca cert key : option (list Z)) : list server_call :=
  [SetKeylogPath (str "./examples/src/bin/config/keylog.txt"); SetCustomVerify is_otsmr; AddClientCertCa ca; AddCertPem cert; AddPrivkeyPem key].
(* run from the root of /repo *)
Definition https_config := server_configure (https_calls (Some file_server_cert) (Some file_server_key)).
Definition client_auth_config := server_configure (client_auth_calls (Some file_ca_cert) (Some file_server_cert) (Some file_server_key)).

(* ---- the clients ---- *)
(* client_https.rs:33-40, client_client_auth.rs:31-38; the line with the host ends in a bare newline *)
Definition http_request (host : list Z) : list Z :=
  str "GET / HTTP/1.1" ++ crlf ++ str "Host: " ++ host ++ [10] ++ str "User-Agent: AnotherTls/0.1" ++ crlf ++ crlf.
Definition localhost : list Z := str "localhost".
(* client_https.rs:20-24 *)
Definition client_https_calls : list client_call := [CSetServerName localhost; CEnableKeylog].
(* client_client_auth.rs:15-21 *)
Definition client_auth_client_calls (cert key : option (list Z)) : list client_call :=
  [AddClientCertPem cert; AddClientKeyPem key; CSetServerName localhost; CEnableKeylog].
Definition client_https_config := client_configure client_https_calls.
Definition client_client_auth_config := client_configure (client_auth_client_calls (Some file_client_signed_cert) (Some file_client_key)).

(* ClientConnection::connect, one read after the other *)
Fixpoint connect_on (cfg : client_config) (e : client_draws) (now : Z) (so : sock) (taken todo : list (list Z))
    : option (client_hs * outcome tls_error unit * list (list Z)) :=
  match connect cfg e now so taken with
  | (h, Some o) => Some (h, o, todo)
  | (_, None) => match todo with [] => None | r :: todo => connect_on cfg e now so (taken ++ [r]) todo end
  end.
(* how main ends: None in a read, Some None with a panic (every error is one), Some (Some text) having printed the text *)
Definition request_main (cfg : client_config) (e : client_draws) (now : Z) (so : sock) (reads : list (list Z)) : option (option (list Z)) :=
  match connect_on cfg e now so [] reads with
  | None => None
  | Some (h, Ok _, todo) =>
      match tls_write (cl_stream h) (http_request localhost) with
      | (s, Ok _) =>
          match todo with
          | [] => None
          | chunk :: _ =>
              match tls_read s (Z.to_nat 4096) chunk with
              | (_, Ok response) => if utf8_valid response then Some (Some response) else Some None
              | _ => Some None
              end
          end
      | _ => Some None
      end
  | Some _ => Some None
  end.
