(* What a server may answer to a ClientHello: RFC 8446, 4.1.3 and 4.1.4 *)
From Verif Require Import Model.Base.
From Verif Require Import Spec.Rfc8446Hello.

(* 4.1.3, with any byte as legacy_compression_method *)
Definition hello_wire (compression : Z) (m : server_hello_msg) : list Z :=
  u16 0x0303 ++ s_random m ++ vector8 (s_session_id m) ++ u16 (s_suite m) ++ [compression] ++
  vector16 (flat_map server_extension_wire (s_extensions m)).

Fixpoint first_version (l : list server_extension) : option Z :=
  match l with [] => None | SelectedVersion c :: _ => Some c | _ :: t => first_version t end.
Fixpoint first_share (l : list server_extension) : option (Z * list Z) :=
  match l with [] => None | SelectedShare e :: _ => Some e | _ :: t => first_share t end.
(* the answer selects what this library's ClientHello offers: one of its three suites, TLS 1.3, a share of the group x25519 *)
Definition selects_offered (m : server_hello_msg) : Prop :=
  In (s_suite m) [0x1301; 0x1302; 0x1303] /\ first_version (s_extensions m) = Some 0x0304 /\
  exists key, first_share (s_extensions m) = Some (29, key).

(* 4.1.4: a HelloRetryRequest is a ServerHello with this random (4.1.3), and a key_share extension (4.2.8) with
   only the group the client shall use *)
Definition retry_random : list Z :=
  [0xCF; 0x21; 0xAD; 0x74; 0xE5; 0x9A; 0x61; 0x11; 0xBE; 0x1D; 0x8C; 0x02; 0x1E; 0x65; 0xB8; 0x91;
   0xC2; 0xA2; 0x11; 0x16; 0x7A; 0xBB; 0x8C; 0x5E; 0x07; 0x9E; 0x09; 0xE2; 0xC8; 0xA8; 0x33; 0x9C].
Definition retry_group (group : Z) : server_extension := OtherServerExt 51 (u16 group).
