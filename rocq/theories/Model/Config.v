(* Model of anothertls/src/net/server/config.rs and net/client/config.rs.  A call that takes a path carries what reading the
   file at that path gives: its text, or None when it cannot be read (utils/pem.rs:18-21). *)
From Verif Require Import Model.Base Model.Alert Model.Curve Model.Ecdsa Model.X509 Model.Certificate Model.Server Model.Client.

(* rand/mod.rs:14-17 *)
Inductive prng := PrngSimple | PrngURandom.

(* utils/pem.rs:18-21 and the `?` after it *)
Definition of_file {A} (load : list Z -> outcome unit A) (file : option (list Z)) : outcome unit A :=
  match file with None => Err tt | Some text => load text end.
(* the is_none test after each load: server/config.rs:67-69, 74-76, 82-84; client/config.rs:45-47, 53-55 *)
Definition or_panic {E A} (r : outcome unit A) : outcome E A := match r with Ok a => Ok a | _ => Panic end.

(* ---- server ---- *)
(* server/config.rs:38-46 *)
Record server_builder := {
  sb_cert : option cert; sb_privkey : option private_key; sb_keylog : option (list Z); sb_server_name : option (list Z);
  sb_client_ca : option cert; sb_prng : prng; sb_verify : option (x509 -> bool) }.
(* server/config.rs:54-64 *)
Definition server_builder_new : server_builder :=
  {| sb_cert := None; sb_privkey := None; sb_keylog := None; sb_server_name := None; sb_client_ca := None; sb_prng := PrngURandom; sb_verify := None |}.

(* the public methods before build *)
Inductive server_call :=
| AddCertPem (file : option (list Z)) | AddClientCertCa (file : option (list Z)) | AddPrivkeyPem (file : option (list Z))
| SetKeylogPath (path : list Z) | EnableKeylog | SetCustomVerify (f : x509 -> bool) | SetServerName (name : list Z) | SetPrng (p : prng).

(* "keylog.txt" *)
Definition s_keylog_txt : list Z := [107; 101; 121; 108; 111; 103; 46; 116; 120; 116].

(* server/config.rs:65-106 *)
Definition server_call_step (b : server_builder) (c : server_call) : outcome Empty_set server_builder :=
  match c with
  | AddCertPem f =>
      let! x := or_panic (of_file certificate_from_pem f) in
      Ok {| sb_cert := Some x; sb_privkey := sb_privkey b; sb_keylog := sb_keylog b; sb_server_name := sb_server_name b;
            sb_client_ca := sb_client_ca b; sb_prng := sb_prng b; sb_verify := sb_verify b |}
  | AddClientCertCa f =>
      let! x := or_panic (of_file certificate_from_pem_x509 f) in
      Ok {| sb_cert := sb_cert b; sb_privkey := sb_privkey b; sb_keylog := sb_keylog b; sb_server_name := sb_server_name b;
            sb_client_ca := Some x; sb_prng := sb_prng b; sb_verify := sb_verify b |}
  | AddPrivkeyPem f =>
      let! x := or_panic (of_file private_key_from_pem f) in
      Ok {| sb_cert := sb_cert b; sb_privkey := Some x; sb_keylog := sb_keylog b; sb_server_name := sb_server_name b;
            sb_client_ca := sb_client_ca b; sb_prng := sb_prng b; sb_verify := sb_verify b |}
  | SetKeylogPath p =>
      Ok {| sb_cert := sb_cert b; sb_privkey := sb_privkey b; sb_keylog := Some p; sb_server_name := sb_server_name b;
            sb_client_ca := sb_client_ca b; sb_prng := sb_prng b; sb_verify := sb_verify b |}
  | EnableKeylog =>
      Ok {| sb_cert := sb_cert b; sb_privkey := sb_privkey b; sb_keylog := Some s_keylog_txt; sb_server_name := sb_server_name b;
            sb_client_ca := sb_client_ca b; sb_prng := sb_prng b; sb_verify := sb_verify b |}
  | SetCustomVerify f =>
      Ok {| sb_cert := sb_cert b; sb_privkey := sb_privkey b; sb_keylog := sb_keylog b; sb_server_name := sb_server_name b;
            sb_client_ca := sb_client_ca b; sb_prng := sb_prng b; sb_verify := Some f |}
  | SetServerName n =>
      Ok {| sb_cert := sb_cert b; sb_privkey := sb_privkey b; sb_keylog := sb_keylog b; sb_server_name := Some n;
            sb_client_ca := sb_client_ca b; sb_prng := sb_prng b; sb_verify := sb_verify b |}
  | SetPrng p =>
      Ok {| sb_cert := sb_cert b; sb_privkey := sb_privkey b; sb_keylog := sb_keylog b; sb_server_name := sb_server_name b;
            sb_client_ca := sb_client_ca b; sb_prng := p; sb_verify := sb_verify b |}
  end.
Fixpoint server_calls (b : server_builder) (cs : list server_call) : outcome Empty_set server_builder :=
  match cs with [] => Ok b | c :: r => let! b := server_call_step b c in server_calls b r end.

(* the three messages of server/config.rs:109, 112, 115 *)
Inductive build_error := NoCert | NoPrivkey | NoClientCa.
(* server/config.rs:107-129; prng_type is the second component (not a field of Model.Server's configuration) *)
Definition server_build (b : server_builder) : outcome build_error (server_config * prng) :=
  match sb_cert b with
  | None => Err NoCert
  | Some c =>
      match sb_privkey b with
      | None => Err NoPrivkey
      | Some k =>
          match sb_verify b, sb_client_ca b with
          | Some _, None => Err NoClientCa
          | _, _ => Ok ({| sc_privkey := k; sc_cert := c; sc_client_ca := sb_client_ca b; sc_verify := sb_verify b;
                           sc_keylog := sb_keylog b; sc_server_name := sb_server_name b |}, sb_prng b)
          end
      end
  end.
(* ServerConfigBuilder::new(), the calls, build() *)
Definition server_configure (cs : list server_call) : outcome build_error (server_config * prng) :=
  match server_calls server_builder_new cs with
  | Ok b => server_build b
  | Err e => match e with end
  | Panic => Panic
  end.

(* ---- client ---- *)
(* client/config.rs:43-69 *)
Inductive client_call :=
| AddClientCertPem (file : option (list Z)) | AddClientKeyPem (file : option (list Z))
| CSetServerName (name : list Z) | CSetKeylogPath (path : list Z) | CEnableKeylog.
(* client/config.rs:35-42; the builder has the fields of the configuration *)
Definition client_builder_new : client_config :=
  {| cc_server_name := None; cc_cert := None; cc_key := None; cc_keylog := None |}.
Definition client_call_step (b : client_config) (c : client_call) : outcome Empty_set client_config :=
  match c with
  | AddClientCertPem f =>
      let! x := or_panic (of_file certificate_from_pem_x509 f) in
      Ok {| cc_server_name := cc_server_name b; cc_cert := Some x; cc_key := cc_key b; cc_keylog := cc_keylog b |}
  | AddClientKeyPem f =>
      let! x := or_panic (of_file private_key_from_pem f) in
      Ok {| cc_server_name := cc_server_name b; cc_cert := cc_cert b; cc_key := Some x; cc_keylog := cc_keylog b |}
  | CSetServerName n => Ok {| cc_server_name := Some n; cc_cert := cc_cert b; cc_key := cc_key b; cc_keylog := cc_keylog b |}
  | CSetKeylogPath p => Ok {| cc_server_name := cc_server_name b; cc_cert := cc_cert b; cc_key := cc_key b; cc_keylog := Some p |}
  | CEnableKeylog => Ok {| cc_server_name := cc_server_name b; cc_cert := cc_cert b; cc_key := cc_key b; cc_keylog := Some s_keylog_txt |}
  end.
Fixpoint client_calls (b : client_config) (cs : list client_call) : outcome Empty_set client_config :=
  match cs with [] => Ok b | c :: r => let! b := client_call_step b c in client_calls b r end.
(* client/config.rs:70-80 *)
Definition client_build (b : client_config) : outcome Empty_set client_config :=
  match cc_cert b, cc_key b with Some _, None => Panic | _, _ => Ok b end.
Definition client_configure (cs : list client_call) : outcome Empty_set client_config :=
  let! b := client_calls client_builder_new cs in client_build b.
