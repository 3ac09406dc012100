(* Model of anothertls/src/net/handshake/mod.rs and finished.rs *)
From Verif Require Import Model.Base Model.Alert Model.Sha2 Model.Hmac Model.KeySchedule.

(* handshake/mod.rs:16-28 *)
Inductive handshake_type :=
| HtClientHello | HtServerHello | HtNewSessionTicket | HtEndOfEarlyData | HtEncryptedExtensions
| HtCertificate | HtCertificateRequest | HtCertificateVerify | HtFinished | HtKeyUpdate | HtMessageHash.

(* handshake/mod.rs:31-46 *)
Definition handshake_type_new (byte : Z) : option handshake_type :=
  if byte =? 1 then Some HtClientHello
  else if byte =? 2 then Some HtServerHello
  else if byte =? 4 then Some HtNewSessionTicket
  else if byte =? 5 then Some HtEndOfEarlyData
  else if byte =? 8 then Some HtEncryptedExtensions
  else if byte =? 11 then Some HtCertificate
  else if byte =? 13 then Some HtCertificateRequest
  else if byte =? 15 then Some HtCertificateVerify
  else if byte =? 20 then Some HtFinished
  else if byte =? 24 then Some HtKeyUpdate
  else if byte =? 254 then Some HtMessageHash
  else None.
(* handshake/mod.rs:17-27 (`as u8`) *)
Definition handshake_type_u8 (t : handshake_type) : Z :=
  match t with
  | HtClientHello => 1 | HtServerHello => 2 | HtNewSessionTicket => 4 | HtEndOfEarlyData => 5
  | HtEncryptedExtensions => 8 | HtCertificate => 11 | HtCertificateRequest => 13 | HtCertificateVerify => 15
  | HtFinished => 20 | HtKeyUpdate => 24 | HtMessageHash => 254
  end.
Definition ht_eqb (a b : handshake_type) : bool := handshake_type_u8 a =? handshake_type_u8 b.

(* handshake/mod.rs:49-53 *)
Record handshake := Handshake { hs_type : handshake_type; hs_fraqment : list Z; hs_raw : list Z }.

(* handshake/mod.rs:56-71 *)
Definition handshake_from_raw (buf : list Z) : outcome tls_error handshake :=
  if Nat.ltb (length buf) 4 then Err DecodeError else
  let! b0 := idx buf 0 in
  match handshake_type_new b0 with
  | None => Err DecodeError
  | Some t =>
      let! b1 := idx buf 1 in
      let! b2 := idx buf 2 in
      let! b3 := idx buf 3 in
      let len := Z.to_nat (Z.lor (Z.lor (u32 (Z.shiftl b1 16)) (u32 (Z.shiftl b2 8))) b3) in
      let! f := slice buf 4 (len + 4) in
      let! raw := slice buf 0 (len + 4) in
      Ok (Handshake t f raw)
  end.

(* handshake/mod.rs:75-80 *)
Definition handshake_to_bytes (t : handshake_type) (data : list Z) : list Z :=
  [handshake_type_u8 t; u8 (Z.shiftr (zlen data) 16); u8 (Z.shiftr (zlen data) 8); u8 (zlen data)] ++ data.

(* b"finished" *)
Definition l_finished : list Z := [102; 105; 110; 105; 115; 104; 101; 100].

(* handshake/finished.rs:23-42 *)
Definition verify_data_for_finished (secret : hkdf) (th : transcript) : outcome tls_error (list Z) :=
  let n := hash_len (th_type th) in
  match hkdf_expand secret (hkdf_expand_label l_finished [] n) n with
  | Some finished_key => Ok (hmac (th_type th) finished_key (th_finalize th))
  | None => Err InternalError
  end.
(* handshake/finished.rs:11-21 *)
Definition finished_handshake (secret : hkdf) (th : transcript) : outcome tls_error (list Z) :=
  let! v := verify_data_for_finished secret th in
  Ok (handshake_to_bytes HtFinished v).
