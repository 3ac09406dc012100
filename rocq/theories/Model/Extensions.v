(* Model of anothertls/src/net/extensions/ *)
From Verif Require Import Model.Base Model.Alert Model.Bytes.

(* named_groups.rs:6-22 *)
Inductive named_group :=
| Secp256r1 | Secp384r1 | Secp521r1 | X25519g | X448
| Ffdhe2048 | Ffdhe3072 | Ffdhe4096 | Ffdhe6144 | Ffdhe8192.

(* named_groups.rs:25-40 *)
Definition named_group_new (num : Z) : option named_group :=
  if num =? 0x0017 then Some Secp256r1
  else if num =? 0x0018 then Some Secp384r1
  else if num =? 0x0019 then Some Secp521r1
  else if num =? 0x001D then Some X25519g
  else if num =? 0x001E then Some X448
  else if num =? 0x0100 then Some Ffdhe2048
  else if num =? 0x0101 then Some Ffdhe3072
  else if num =? 0x0102 then Some Ffdhe4096
  else if num =? 0x0103 then Some Ffdhe6144
  else if num =? 0x0104 then Some Ffdhe8192
  else None.
(* named_groups.rs:8-20: `as u16` *)
Definition named_group_u16 (g : named_group) : Z :=
  match g with
  | Secp256r1 => 0x0017 | Secp384r1 => 0x0018 | Secp521r1 => 0x0019 | X25519g => 0x001D | X448 => 0x001E
  | Ffdhe2048 => 0x0100 | Ffdhe3072 => 0x0101 | Ffdhe4096 => 0x0102 | Ffdhe6144 => 0x0103 | Ffdhe8192 => 0x0104
  end.

(* signature_algorithm.rs:13-40, 43-51 *)
Inductive sig_scheme := ecdsa_secp256r1_sha256 | ecdsa_secp384r1_sha384 | ecdsa_secp521r1_sha512.
Definition sig_scheme_new (buf : Z) : outcome tls_error sig_scheme :=
  if buf =? 0x0403 then Ok ecdsa_secp256r1_sha256
  else if buf =? 0x0503 then Ok ecdsa_secp384r1_sha384
  else if buf =? 0x0603 then Ok ecdsa_secp521r1_sha512
  else Err DecodeError.
Definition sig_scheme_u16 (s : sig_scheme) : Z :=
  match s with ecdsa_secp256r1_sha256 => 0x0403 | ecdsa_secp384r1_sha384 => 0x0503 | ecdsa_secp521r1_sha512 => 0x0603 end.

(* (x >> 8) as u8, x as u8 *)
Definition hi (x : Z) : Z := u8 (Z.shiftr x 8).
Definition lo (x : Z) : Z := u8 x.

(* ---------- key_share.rs ---------- *)

(* key_share.rs:14-17 *)
Record kse := KSE { ks_group : named_group; ks_opaque : list Z }.

(* key_share.rs:22-36; `public_key_len + 4` is a u16 addition *)
Definition kse_parse (buf : list Z) : outcome tls_error (nat * kse) :=
  match named_group_new (to_u16 buf) with
  | None => Err IllegalParameter
  | Some group =>
      let! b := slice_from buf 2 in
      let len := to_u16 b in
      if len + 4 <? 2 ^ 16 then
        let! opaque := slice buf 4 (Z.to_nat (len + 4)) in
        Ok ((4 + Z.to_nat len)%nat, KSE group opaque)
      else Panic
  end.

(* key_share.rs:37-49; the other groups are todo!() *)
Definition kse_bytes {E} (k : kse) : outcome E (list Z) :=
  match ks_group k with
  | X25519g => Ok ([0x00; 0x1d; 0x00; 0x20] ++ rev (ks_opaque k))
  | _ => Panic
  end.

(* key_share.rs:66-77; each turn uses at least 8 bytes, fuel is the length of buf *)
Fixpoint ks_loop (fuel : nat) (buf : list Z) (consumed len : nat) : outcome tls_error (list kse) :=
  match fuel with
  | O => Panic
  | S f =>
      let! b := slice_from buf consumed in
      let! (used, entry) := kse_parse b in
      if Nat.leb used 7 then Ok []
      else if Nat.leb len (consumed + used) then Ok [entry]
      else let! r := ks_loop f buf (consumed + used) len in Ok (entry :: r)
  end.
(* key_share.rs:58-79 *)
Definition key_share_parse (buf : list Z) (is_client : bool) : outcome tls_error (list kse) :=
  if is_client then ks_loop (S (length buf)) buf 0 0
  else ks_loop (S (length buf)) buf 2 (Z.to_nat (to_u16 buf)).

(* key_share.rs:94-103 *)
Definition key_share_server_bytes {E} (l : list kse) : outcome E (list Z) :=
  let! b := match l with [k] => kse_bytes k | _ => Ok [] end in
  Ok ([0x00; 0x33; hi (zlen b); lo (zlen b)] ++ b).
(* key_share.rs:106-111 *)
Fixpoint ks_entries {E} (l : list kse) : outcome E (list Z) :=
  match l with
  | [] => Ok []
  | k :: t =>
      let! raw := kse_bytes k in
      let! r := ks_entries t in
      Ok ([hi (zlen raw); lo (zlen raw)] ++ raw ++ r)
  end.
(* key_share.rs:104-116 *)
Definition key_share_client_bytes {E} (l : list kse) : outcome E (list Z) :=
  let! b := ks_entries l in
  Ok ([0x00; 0x33; hi (zlen b); lo (zlen b)] ++ b).

(* ---------- server_name.rs ---------- *)

(* String::from_utf8: well-formed UTF-8 (Unicode table 3-7) *)
Definition cont (b : Z) : bool := (0x80 <=? b) && (b <=? 0xbf).
Definition within (lo hi b : Z) : bool := (lo <=? b) && (b <=? hi).
Fixpoint utf8_valid (l : list Z) : bool :=
  match l with
  | [] => true
  | a :: l1 =>
      if a <? 0x80 then utf8_valid l1 else
      match l1 with
      | b :: l2 =>
          if within 0xc2 0xdf a then cont b && utf8_valid l2 else
          match l2 with
          | c :: l3 =>
              if a =? 0xe0 then within 0xa0 0xbf b && cont c && utf8_valid l3
              else if a =? 0xed then within 0x80 0x9f b && cont c && utf8_valid l3
              else if within 0xe1 0xef a then cont b && cont c && utf8_valid l3
              else match l3 with
                   | d :: l4 =>
                       (if a =? 0xf0 then within 0x90 0xbf b
                        else if a =? 0xf4 then within 0x80 0x8f b
                        else within 0xf1 0xf3 a && cont b) && cont c && cont d && utf8_valid l4
                   | _ => false
                   end
          | _ => false
          end
      | _ => false
      end
  end.

(* server_name.rs:21-38 *)
Definition server_name_bytes (name : list Z) : list Z :=
  let hostname_len := zlen name in
  let list_entry_len := hostname_len + 3 in
  let list_len := list_entry_len + 2 in
  [0x00; 0x00; hi list_len; lo list_len; hi list_entry_len; lo list_entry_len; 0x00; hi hostname_len; lo hostname_len] ++ name.
(* server_name.rs:40-62 *)
Definition server_name_parse (buf : list Z) : outcome tls_error (list Z) :=
  if 0 <? to_u16 buf then
    let! name_type := idx buf 2 in
    if negb (name_type =? 0) then Err DecodeError
    else
      let! b := slice_from buf 3 in
      let! name := slice buf 5 (Z.to_nat (to_u16 b) + 5) in
      if utf8_valid name then Ok name else Err DecodeError
  else Ok [].

(* ---------- supported_versions.rs ---------- *)

(* supported_versions.rs:39-43; n steps left, the next pair starts at i *)
Fixpoint versions_scan {E} (n : nat) (buf : list Z) (i : nat) : outcome E bool :=
  match n with
  | O => Ok false
  | S n' =>
      let! b := slice buf i (i + 2) in
      if to_u16 b =? 0x0304 then Ok true else versions_scan n' buf (i + 2)
  end.
(* supported_versions.rs:33-46 *)
Definition versions_server_parse {E} (buf : list Z) : outcome E bool :=
  let! len := idx buf 0 in
  if Nat.even (Z.to_nat len) then versions_scan (Nat.div2 (Z.to_nat len)) buf 1 else Ok false.
(* supported_versions.rs:47-55 *)
Definition versions_client_parse {E} (buf : list Z) : outcome E bool :=
  let! b := slice buf 0 2 in Ok (to_u16 b =? 0x0304).
(* supported_versions.rs:26-31: the flag itself is not written *)
Definition versions_server_bytes : list Z := [0x00; 0x2b; 0x00; 0x02; 0x03; 0x04].
Definition versions_client_bytes : list Z := [0x00; 0x2b; 0x00; 0x03; 0x02; 0x03; 0x04].

(* ---------- signature_algorithm.rs, supported_groups.rs ---------- *)

(* `len as u8 + 2` is a u8 addition *)
Definition u16_list_bytes {E} (ext_type : Z) (l : list Z) : outcome E (list Z) :=
  let len := 2 * zlen l in
  if lo len + 2 <? 256
  then Ok ([0x00; ext_type; hi len; lo len + 2; hi len; lo len] ++ flat_map (fun v => [hi v; lo v]) l)
  else Panic.
(* signature_algorithm.rs:77-93 *)
Definition sig_algs_bytes {E} (l : list sig_scheme) : outcome E (list Z) := u16_list_bytes 0x0d (map sig_scheme_u16 l).
(* supported_groups.rs:23-39 (client_as_bytes; server_as_bytes is todo!()) *)
Definition groups_bytes {E} (l : list named_group) : outcome E (list Z) := u16_list_bytes 0x0a (map named_group_u16 l).

(* ---------- shared.rs ---------- *)

(* shared.rs:77-88, 91-105: only three types are recognised *)
Inductive ext_type := TServerName | TSupportedVersions | TKeyShare.
Definition ext_type_new (val : Z) : option ext_type :=
  if val =? 0x00 then Some TServerName
  else if val =? 0x2b then Some TSupportedVersions
  else if val =? 0x33 then Some TKeyShare
  else None.

(* client.rs:16-22 *)
Inductive client_ext :=
| CSupportedVersion (tls13 : bool)
| CSupportedGroups (l : list named_group)
| CKeyShare (l : list kse)
| CServerName (name : list Z)
| CSignatureAlgorithms (l : list sig_scheme).
(* server.rs:14-18 *)
Inductive server_ext :=
| SSupportedVersions (tls13 : bool)
| SKeyShare (l : list kse)
| SSignatureAlgorithms (l : list sig_scheme).

(* shared.rs:51-67: the 2-byte length and the extensions *)
Definition with_len16 (body : list Z) : list Z := [hi (zlen body); lo (zlen body)] ++ body.
Fixpoint concatM {E A} (f : A -> outcome E (list Z)) (l : list A) : outcome E (list Z) :=
  match l with [] => Ok [] | x :: t => let! a := f x in let! b := concatM f t in Ok (a ++ b) end.

(* client_as_bytes of each extension (client.rs:24-34) *)
Definition client_ext_bytes {E} (e : client_ext) : outcome E (list Z) :=
  match e with
  | CSupportedVersion _ => Ok versions_client_bytes
  | CSupportedGroups l => groups_bytes l
  | CKeyShare l => key_share_client_bytes l
  | CServerName n => Ok (server_name_bytes n)
  | CSignatureAlgorithms l => sig_algs_bytes l
  end.
(* shared.rs:51-67 with is_client *)
Definition client_exts_bytes {E} (l : list client_ext) : outcome E (list Z) :=
  let! b := concatM client_ext_bytes l in Ok (with_len16 b).

(* server_as_bytes of each extension (server.rs:20-28) *)
Definition server_ext_bytes {E} (e : server_ext) : outcome E (list Z) :=
  match e with
  | SSupportedVersions _ => Ok versions_server_bytes
  | SKeyShare l => key_share_server_bytes l
  | SSignatureAlgorithms l => sig_algs_bytes l
  end.
(* shared.rs:51-67 without is_client *)
Definition server_exts_bytes {E} (l : list server_ext) : outcome E (list Z) :=
  let! b := concatM server_ext_bytes l in Ok (with_len16 b).

(* client.rs:36-70.  `rest` is &buf[consumed..] (empty when consumed >= buf.len(), which ends the
   loop); each turn uses at least 4 bytes, fuel is the length. *)
Fixpoint client_exts_loop (fuel : nat) (rest : list Z) : outcome tls_error (list client_ext) :=
  match fuel, rest with
  | _, [] => Ok []
  | O, _ => Panic
  | S f, _ =>
      let! t := slice rest 0 2 in
      let! s := slice rest 2 4 in
      let size := Z.to_nat (to_u16 s) in
      let body := skipn 4 rest in
      let next := skipn size body in
      match ext_type_new (to_u16 t) with
      | None => client_exts_loop f next
      | Some TServerName =>
          let! b := slice body 0 size in
          let! name := server_name_parse b in
          let! r := client_exts_loop f next in Ok (CServerName name :: r)
      | Some TKeyShare =>
          let! b := slice body 0 size in
          let! l := key_share_parse b false in
          let! r := client_exts_loop f next in Ok (CKeyShare l :: r)
      | Some TSupportedVersions =>
          let! v := versions_server_parse body in
          let! r := client_exts_loop f next in Ok (CSupportedVersion v :: r)
      end
  end.
Definition from_client_hello_exts (buf : list Z) : outcome tls_error (list client_ext) :=
  client_exts_loop (length buf) buf.

(* server.rs:33-65.  A server_name extension is `continue`: its body is then read as extensions. *)
Fixpoint server_exts_loop (fuel : nat) (rest : list Z) : outcome tls_error (list server_ext) :=
  match fuel, rest with
  | _, [] => Ok []
  | O, _ => Panic
  | S f, _ =>
      let! t := slice rest 0 2 in
      let! s := slice rest 2 4 in
      let size := Z.to_nat (to_u16 s) in
      let body := skipn 4 rest in
      let next := skipn size body in
      match ext_type_new (to_u16 t) with
      | None => server_exts_loop f next
      | Some TServerName => server_exts_loop f body
      | Some TKeyShare =>
          let! b := slice body 0 size in
          let! l := key_share_parse b true in
          let! r := server_exts_loop f next in Ok (SKeyShare l :: r)
      | Some TSupportedVersions =>
          let! v := versions_client_parse body in
          let! r := server_exts_loop f next in Ok (SSupportedVersions v :: r)
      end
  end.
Definition from_server_hello_exts (buf : list Z) : outcome tls_error (list server_ext) :=
  server_exts_loop (length buf) buf.

(* certificate_request.rs:26-54: signature_algorithms (13) is not a type ExtensionType::new knows, so the
   result is always empty; the three known types are `continue` *)
Fixpoint request_exts_loop (fuel : nat) (rest : list Z) : outcome tls_error unit :=
  match fuel, rest with
  | _, [] => Ok tt
  | O, _ => Panic
  | S f, _ =>
      let! t := slice rest 0 2 in
      let! s := slice rest 2 4 in
      let size := Z.to_nat (to_u16 s) in
      let body := skipn 4 rest in
      match ext_type_new (to_u16 t) with
      | None => request_exts_loop f (skipn size body)
      | Some _ => request_exts_loop f body
      end
  end.
Definition from_request_exts (buf : list Z) : outcome tls_error unit := request_exts_loop (length buf) buf.
