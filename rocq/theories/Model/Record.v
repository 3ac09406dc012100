(* Model of anothertls/src/net/record.rs *)
From Verif Require Import Model.Base Model.Sha2 Model.Hmac Model.Alert Model.Suite Model.KeySchedule.

(* net/record.rs:13-20 *)
Inductive record_type := RInvalid | RChangeCipherSpec | RAlert | RHandshake | RApplicationData.
Definition rt_code (t : record_type) : Z :=
  match t with
  | RInvalid => 0 | RChangeCipherSpec => 20 | RAlert => 21 | RHandshake => 22 | RApplicationData => 23
  end.
(* net/record.rs:23-32 *)
Definition rt_new (b : Z) : outcome tls_error record_type :=
  if b =? 0 then Ok RInvalid
  else if b =? 20 then Ok RChangeCipherSpec
  else if b =? 21 then Ok RAlert
  else if b =? 22 then Ok RHandshake
  else if b =? 23 then Ok RApplicationData
  else Err DecodeError.

(* net/record.rs:62-68. Value is the bytes. *)
Record record := {
  r_type : record_type; r_version : Z; r_len : nat; r_header : list Z; r_fragment : list Z }.

(* net/record.rs:71-79 *)
Definition record_new (t : record_type) (fragment : list Z) : record :=
  {| r_type := t; r_version := 0x0303; r_len := length fragment;
     r_header := [rt_code t; 3; 3; 0; 0]; r_fragment := fragment |}.

(* net/record.rs:81-102 *)
Definition record_from_raw (buf : list Z) : outcome tls_error (nat * record) :=
  if Nat.ltb (length buf) 5 then Err DecodeError
  else
    let! b0 := idx buf 0 in
    let! t := rt_new b0 in
    let! b1 := idx buf 1 in let! b2 := idx buf 2 in
    let version := Z.lor (Z.shiftl b1 8) b2 in
    let! b3 := idx buf 3 in let! b4 := idx buf 4 in
    let len := Z.to_nat (Z.lor (Z.shiftl b3 8) b4) in
    if Nat.ltb (length buf) (2 + len) then Err DecodeError
    else
      let consumed := (5 + len)%nat in
      let! header := slice buf 0 5 in
      let! fragment := slice buf 5 consumed in
      Ok (consumed, {| r_type := t; r_version := version; r_len := len; r_header := header; r_fragment := fragment |}).

(* net/record.rs:103-114 *)
Definition record_as_bytes (r : record) : list Z :=
  let len := zlen (r_fragment r) in
  [rt_code (r_type r); 3; 3; u8 (Z.shiftr len 8); u8 len] ++ r_fragment r.

(* net/record.rs:117-123 *)
Record rpp := {
  rp_schedule : key_schedule; rp_cipher : cipher; rp_handshake : write_keys;
  rp_is_client : bool; rp_application : option write_keys }.

(* net/record.rs:126-139 *)
Definition rpp_new {E} (ks : key_schedule) (c : cipher) (is_client : bool) : outcome E (option rpp) :=
  oobind (handshake_keys ks (cipher_get_suite c)) (fun hk =>
  Ok (Some {| rp_schedule := ks; rp_cipher := c; rp_handshake := hk; rp_is_client := is_client;
              rp_application := None |})).

(* net/record.rs:141-154: application_keys is assigned before the check *)
Definition generate_application_keys (r : rpp) (t : transcript) : rpp * outcome tls_error unit :=
  match application_keys_from_master_secret (E:=tls_error) (ks_master (rp_schedule r)) (th_finalize t)
          (cipher_get_suite (rp_cipher r)) with
  | Ok k =>
      ({| rp_schedule := rp_schedule r; rp_cipher := rp_cipher r; rp_handshake := rp_handshake r;
          rp_is_client := rp_is_client r; rp_application := k |},
       match k with Some _ => Ok tt | None => Err InternalError end)
  | Err e => (r, Err e)
  | Panic => (r, Panic)
  end.

(* the keys in use: net/record.rs:163-170, 202-206 *)
Definition cur_keys (r : rpp) : write_keys :=
  match rp_application r with Some k => k | None => rp_handshake r end.
Definition set_keys (r : rpp) (k : write_keys) : rpp :=
  match rp_application r with
  | Some _ => {| rp_schedule := rp_schedule r; rp_cipher := rp_cipher r; rp_handshake := rp_handshake r;
                 rp_is_client := rp_is_client r; rp_application := Some k |}
  | None => {| rp_schedule := rp_schedule r; rp_cipher := rp_cipher r; rp_handshake := k;
               rp_is_client := rp_is_client r; rp_application := None |}
  end.
(* the side's key: `from_client` selects keys.client *)
Definition side_key (from_client : bool) (k : write_keys) : tkey :=
  if from_client then wk_client k else wk_server k.
Definition set_side (from_client : bool) (k : write_keys) (t : tkey) : write_keys :=
  if from_client then {| wk_server := wk_server k; wk_client := t |}
  else {| wk_server := t; wk_client := wk_client k |}.

(* net/record.rs:161-198 *)
Definition rpp_encrypt (r : rpp) (rec : record) : rpp * outcome tls_error (list Z) :=
  let keys := cur_keys r in
  let inner := r_fragment rec ++ [rt_code (r_type rec)] in
  let len := zlen inner + 16 in
  let hdr := [23; 3; 3; u8 (Z.shiftr len 8); u8 len] in
  match per_record_nonce (E:=tls_error) (side_key (rp_is_client r) keys) with
  | Ok (nonce, k') =>
      (set_keys r (set_side (rp_is_client r) keys k'),
       let! (enc, ahead) := cipher_encrypt (rp_cipher r) (k_key k') nonce inner hdr in
       Ok (hdr ++ enc ++ ahead))
  | Err e => (r, Err e)
  | Panic => (r, Panic)
  end.

(* net/record.rs:156-159 *)
Definition encrypt_handshake (r : rpp) (buf : list Z) : rpp * outcome tls_error (list Z) :=
  rpp_encrypt r (record_new RHandshake buf).

(* net/record.rs:226-240: scan from the end for a non-zero byte *)
Definition last_nonzero (p : list Z) : option (nat * Z) :=
  find (fun iv => negb (snd iv =? 0)) (rev (combine (List.seq 0 (length p)) p)).
Definition strip_padding (p : list Z) : outcome tls_error (record_type * list Z) :=
  match last_nonzero p with
  | Some (i, b) => let! t := rt_new b in Ok (t, firstn i p)
  | None => Ok (RInvalid, [])
  end.

(* net/record.rs:201-240; `len() - 16` panics for fragments under 16 bytes *)
Definition rpp_decrypt (r : rpp) (rec : record) : rpp * outcome tls_error (record_type * list Z) :=
  let keys := cur_keys r in
  let n := length (r_fragment rec) in
  if Nat.ltb n 16 then (r, Panic)
  else
    let ciphertext := firstn (n - 16) (r_fragment rec) in
    let ahead := skipn (n - 16) (r_fragment rec) in
    match per_record_nonce (E:=tls_error) (side_key (negb (rp_is_client r)) keys) with
    | Ok (nonce, k') =>
        (set_keys r (set_side (negb (rp_is_client r)) keys k'),
         match cipher_decrypt (rp_cipher r) (k_key k') nonce ciphertext (r_header rec) ahead with
         | Ok p => strip_padding p
         | Err _ => Err DecryptError
         | Panic => Panic
         end)
    | Err e => (r, Err e)
    | Panic => (r, Panic)
    end.
