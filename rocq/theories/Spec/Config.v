(* The value a builder call sets, and the last one set by a sequence of calls *)
From Verif Require Import Model.Base Model.Curve Model.Ecdsa Model.X509 Model.Certificate Model.Config.

Definition loaded {A} (load : list Z -> outcome unit A) (file : option (list Z)) : option A :=
  match file with Some text => match load text with Ok a => Some a | _ => None end | None => None end.
Fixpoint last_set {C A} (sets : C -> option A) (calls : list C) : option A :=
  match calls with
  | [] => None
  | c :: r => match last_set sets r with Some a => Some a | None => sets c end
  end.

Definition sets_cert c := match c with AddCertPem f => loaded certificate_from_pem f | _ => None end.
Definition sets_ca c := match c with AddClientCertCa f => loaded certificate_from_pem_x509 f | _ => None end.
Definition sets_key c := match c with AddPrivkeyPem f => loaded private_key_from_pem f | _ => None end.
(* keylog.txt *)
Definition keylog_name : list Z := [107; 101; 121; 108; 111; 103; 46; 116; 120; 116].
Definition sets_keylog c := match c with SetKeylogPath p => Some p | EnableKeylog => Some keylog_name | _ => None end.
Definition sets_check c := match c with SetCustomVerify f => Some f | _ => None end.
Definition sets_name c := match c with SetServerName n => Some n | _ => None end.
Definition sets_prng c := match c with SetPrng p => Some p | _ => None end.
(* the call's file, if any, can be read and holds what the call is for *)
Definition loads (c : server_call) : Prop :=
  match c with
  | AddCertPem _ => sets_cert c <> None
  | AddClientCertCa _ => sets_ca c <> None
  | AddPrivkeyPem _ => sets_key c <> None
  | _ => True
  end.

Definition client_sets_cert c := match c with AddClientCertPem f => loaded certificate_from_pem_x509 f | _ => None end.
Definition client_sets_key c := match c with AddClientKeyPem f => loaded private_key_from_pem f | _ => None end.
Definition client_sets_name c := match c with CSetServerName n => Some n | _ => None end.
Definition client_sets_keylog c := match c with CSetKeylogPath p => Some p | CEnableKeylog => Some keylog_name | _ => None end.
Definition client_loads (c : client_call) : Prop :=
  match c with AddClientCertPem _ => client_sets_cert c <> None | AddClientKeyPem _ => client_sets_key c <> None | _ => True end.
