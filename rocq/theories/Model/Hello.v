(* Model of anothertls/src/net/client/client_hello.rs, net/server/server_hello.rs and
   net/handshake/mod.rs *)
From Verif Require Import Model.Base Model.Alert Model.Bytes Model.Suite Model.Curve Model.Ecdsa Model.Extensions.

(* client_hello.rs:17-22; is_client (shared.rs:33) only matters when encoding *)
Record client_hello := ClientHello {
  ch_random : list Z; ch_suites : list cipher_suite; ch_sid : option (list Z); ch_exts : list client_ext }.
(* server_hello.rs:21-26 *)
Record server_hello := ServerHello {
  sh_random : list Z; sh_sid : option (list Z); sh_suite : cipher_suite; sh_exts : list server_ext }.

(* client_hello.rs:25-41 *)
Definition client_hello_new (random : list Z) (sid : option (list Z)) : client_hello :=
  ClientHello random [AES_256_GCM_SHA384; AES_128_GCM_SHA256; CHACHA20_POLY1305_SHA256] sid [].

Definition sid_bytes (sid : option (list Z)) : list Z :=
  match sid with Some s => [u8 (zlen s)] ++ s | None => [0] end.

(* client_hello.rs:42-72 *)
Definition client_hello_bytes {E} (c : client_hello) : outcome E (list Z) :=
  let len := 2 * zlen (ch_suites c) in
  let! exts := client_exts_bytes (ch_exts c) in
  Ok ([0x3; 0x3] ++ ch_random c ++ sid_bytes (ch_sid c) ++ [hi len; lo len] ++
      flat_map (fun s => [hi (suite_u16 s); lo (suite_u16 s)]) (ch_suites c) ++ [0x01; 0x00] ++ exts).

(* client_hello.rs:103-109: one turn per pair *)
Fixpoint suites_loop {E} (n : nat) (buf : list Z) (i : nat) : outcome E (list cipher_suite) :=
  match n with
  | O => Ok []
  | S n' =>
      let! a := idx buf i in
      let! b := idx buf (i + 1) in
      let! r := suites_loop n' buf (i + 2) in
      match suite_new (Z.lor (u16 (Z.shiftl a 8)) b) with
      | Ok cs => Ok (cs :: r)
      | _ => Ok r
      end
  end.

(* (buf[i] << 8) | buf[i + 1] *)
Definition u16_at {E} (buf : list Z) (i : nat) : outcome E Z :=
  let! a := idx buf i in let! b := idx buf (i + 1) in Ok (Z.lor (u16 (Z.shiftl a 8)) b).

(* client_hello.rs:73-129 *)
Definition client_hello_from_raw (buf : list Z) : outcome tls_error client_hello :=
  if Nat.ltb (length buf) 45 then Err IllegalParameter else
  let! version := u16_at buf 0 in
  if negb (version =? 0x0303) then Err ProtocolVersion else
  let! random := slice buf 2 34 in
  let! sid_len := idx buf 34 in
  let! (consumed, sid) :=
    if negb (sid_len =? 0) then let! s := slice buf 35 67 in Ok (67%nat, Some s) else Ok (35%nat, None) in
  let! suites_len := u16_at buf consumed in
  if negb (Z.even suites_len) || Nat.ltb (length buf) (consumed + Z.to_nat suites_len) then Err IllegalParameter else
  let consumed := (consumed + 2)%nat in
  let! suites := suites_loop (Nat.div2 (Z.to_nat suites_len)) buf consumed in
  let consumed := (consumed + Z.to_nat suites_len)%nat in
  let consumed := (consumed + 2)%nat in
  let! ext_len := u16_at buf consumed in
  let consumed := (consumed + 2)%nat in
  let! b := slice buf consumed (consumed + Z.to_nat ext_len) in
  let! exts := from_client_hello_exts b in
  Ok (ClientHello random suites sid exts).

(* client_hello.rs:131-140 *)
Fixpoint client_public_key_share (l : list client_ext) : option kse :=
  match l with
  | [] => None
  | CKeyShare (k :: _) :: _ => Some k
  | _ :: t => client_public_key_share t
  end.

(* server_hello.rs:60-68: the first supported_versions decides *)
Fixpoint server_tls13 (l : list server_ext) : bool :=
  match l with
  | [] => false
  | SSupportedVersions v :: _ => v
  | _ :: t => server_tls13 t
  end.

(* server_hello.rs:29-80 *)
Definition server_hello_from_raw (buf : list Z) : outcome tls_error server_hello :=
  if Nat.ltb (length buf) 36 then Err IllegalParameter else
  let! version := u16_at buf 0 in
  if negb (version =? 0x0303) then Err ProtocolVersion else
  let! random := slice buf 2 34 in
  let! sid_len := idx buf 34 in
  let! (consumed, sid) :=
    if negb (sid_len =? 0) then let! s := slice buf 35 67 in Ok (67%nat, Some s) else Ok (35%nat, None) in
  let! code := u16_at buf consumed in
  let! suite := suite_new code in
  let consumed := (consumed + 3)%nat in
  let! ext_len := u16_at buf consumed in
  let consumed := (consumed + 2)%nat in
  let! b := slice buf consumed (consumed + Z.to_nat ext_len) in
  let! exts := from_server_hello_exts b in
  if server_tls13 exts then Ok (ServerHello random sid suite exts) else Err ProtocolVersion.

(* server_hello.rs:204-223 *)
Definition server_hello_bytes {E} (s : server_hello) : outcome E (list Z) :=
  let! exts := server_exts_bytes (sh_exts s) in
  Ok ([0x3; 0x3] ++ sh_random s ++ sid_bytes (sh_sid s) ++
      [hi (suite_u16 (sh_suite s)); lo (suite_u16 (sh_suite s))] ++ [0x00] ++ exts).

(* server_hello.rs:224-233 *)
Fixpoint server_public_key_share (l : list server_ext) : option kse :=
  match l with
  | [] => None
  | SKeyShare (k :: _) :: _ => Some k
  | _ :: t => server_public_key_share t
  end.

(* the key share entry of a private key: server_hello.rs:113-122, client/connection.rs:159-166 *)
Definition key_share_of {E} (pk : private_key) : outcome E kse :=
  let! pub := get_public_key pk in
  let! data := ibig_to_32bytes (px (pk_point pub)) Little in
  Ok (KSE X25519g data).

(* server_hello.rs:107-132: the entries of one key_share extension, in order.  Secp256r1 is todo!().
   The result is the entry to send and the private key. *)
Fixpoint agree_on (l : list kse) (secret : Z) : outcome tls_error (option (kse * private_key)) :=
  match l with
  | [] => Ok None
  | k :: t =>
      match ks_group k with
      | X25519g =>
          let pk := PrivateKey curve25519 secret in
          let! e := key_share_of pk in
          Ok (Some (e, pk))
      | Secp256r1 => Panic
      | _ => agree_on t secret
      end
  end.

(* server_hello.rs:100-154.  `secrets` are the values `rng.between(1, 32)` will return, in order;
   the state is the extensions pushed so far and the private key of the last agreement. *)
Fixpoint negotiate (server_name : option (list Z)) (l : list client_ext) (secrets : list Z)
    (exts : list server_ext) (pk : option private_key) : outcome tls_error (list server_ext * option private_key) :=
  match l with
  | [] => Ok (exts, pk)
  | CSupportedVersion v :: t =>
      if v then negotiate server_name t secrets exts pk else Err InsufficientSecurity
  | CKeyShare ks :: t =>
      let! r := agree_on ks (hd 0 secrets) in
      match r with
      | Some (e, k) => negotiate server_name t (tl secrets) (exts ++ [SKeyShare [e]]) (Some k)
      | None => negotiate server_name t secrets exts pk
      end
  | CServerName n :: t =>
      match server_name with
      | Some expected => if list_eqb expected n then negotiate server_name t secrets exts pk else Err UnrecognizedName
      | None => negotiate server_name t secrets exts pk
      end
  | CSignatureAlgorithms sa :: t =>
      if existsb (fun s => match s with ecdsa_secp256r1_sha256 => true | _ => false end) sa
      then negotiate server_name t secrets exts pk else Err InsufficientSecurity
  | CSupportedGroups _ :: t => negotiate server_name t secrets exts pk
  end.

(* server_hello.rs:165-179 *)
Fixpoint choose_suite (l : list cipher_suite) (chosen : option cipher_suite) : option cipher_suite :=
  match l with
  | [] => chosen
  | SCSV :: t => choose_suite t chosen
  | CHACHA20_POLY1305_SHA256 :: _ => Some CHACHA20_POLY1305_SHA256
  | cs :: t => choose_suite t (Some cs)
  end.

(* server_hello.rs:81-202.  `random` is rng.bytes(32). *)
Definition server_hello_from_client (c : client_hello) (random : list Z) (secrets : list Z) (server_name : option (list Z))
    : outcome tls_error (server_hello * private_key) :=
  let! (exts, pk) := negotiate server_name (ch_exts c) secrets [] None in
  match pk with
  | None => Err InsufficientSecurity
  | Some pk =>
      match choose_suite (ch_suites c) None with
      | None => Err HandshakeFailure
      | Some cs => Ok (ServerHello random (ch_sid c) cs (exts ++ [SSupportedVersions true]), pk)
      end
  end.

(* client/connection.rs:150-191: the hello a client with this private key sends *)
Definition client_hello_of {E} (random sid : list Z) (pk : private_key) (server_name : option (list Z)) : outcome E client_hello :=
  let! e := key_share_of pk in
  let c := client_hello_new random (Some sid) in
  Ok (ClientHello (ch_random c) (ch_suites c) (ch_sid c)
        ([CKeyShare [e]; CSupportedVersion true; CSignatureAlgorithms [ecdsa_secp256r1_sha256];
          CSupportedGroups [Secp256r1; X25519g]] ++
         match server_name with Some n => [CServerName n] | None => [] end)).
