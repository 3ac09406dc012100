(* What the server's answer to a ClientHello may depend on (RFC 8446 4.1.1, RFC 6066 3). *)
From Coq Require Import List ZArith.
From Verif.Model Require Import Base Alert Ecdsa Extensions Hello.
From Verif.Spec Require Import Rfc8446Hello HelloView.
Import ListNotations.
Open Scope Z_scope.

(* the server's reaction to the body of a ClientHello *)
Definition answer (body random : list Z) (secrets : list Z) (configured : option (list Z))
    : outcome tls_error (server_hello * private_key) :=
  let! c := client_hello_from_raw body in server_hello_from_client c random secrets configured.

(* TLS_AES_128_GCM_SHA256, TLS_AES_256_GCM_SHA384, TLS_CHACHA20_POLY1305_SHA256 *)
Definition implemented (code : Z) : Prop := code = 0x1301 \/ code = 0x1302 \/ code = 0x1303.

Definition names_host (e : client_extension) : Prop := match e with Host _ => True | _ => False end.
Definition lists_versions (e : client_extension) : Prop := match e with Versions _ => True | _ => False end.
Definition has_shares (e : client_extension) : Prop := match e with Shares _ => True | _ => False end.

Definition x25519_code : Z := 29.
Definition secp256r1_code : Z := 23.
Definition offers (code : Z) (l : list (Z * list Z)) : Prop := In code (map fst l).
(* every secp256r1 share comes after an X25519 share *)
Definition x25519_first (l : list (Z * list Z)) : Prop :=
  forall a k b, l = a ++ (secp256r1_code, k) :: b -> offers x25519_code a.

(* nothing in the extension is a reason to refuse the client *)
Definition acceptable (configured : option (list Z)) (e : client_extension) : Prop :=
  match e with
  | Versions codes => In 0x0304 codes
  | Host n => match configured with Some h => n = h | None => True end
  | _ => True
  end.
