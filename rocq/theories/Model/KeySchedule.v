(* Model of anothertls/src/net/key_schedule.rs (from_handshake is in Model/Kex.v) *)
From Verif Require Import Model.Base Model.Sha2 Model.Hmac Model.Alert Model.Suite.

(* b"tls13 " etc. *)
Definition l_tls13 : list Z := [116; 108; 115; 49; 51; 32].
Definition l_key : list Z := [107; 101; 121].
Definition l_iv : list Z := [105; 118].
Definition l_derived : list Z := [100; 101; 114; 105; 118; 101; 100].
Definition l_c_hs : list Z := [99; 32; 104; 115; 32; 116; 114; 97; 102; 102; 105; 99].
Definition l_s_hs : list Z := [115; 32; 104; 115; 32; 116; 114; 97; 102; 102; 105; 99].
Definition l_c_ap : list Z := [99; 32; 97; 112; 32; 116; 114; 97; 102; 102; 105; 99].
Definition l_s_ap : list Z := [115; 32; 97; 112; 32; 116; 114; 97; 102; 102; 105; 99].

(* net/key_schedule.rs:20-29 *)
Definition hkdf_expand_label (label context : list Z) (out_len : nat) : list Z :=
  [u8 (Z.shiftr (Z.of_nat out_len) 8); u8 (Z.of_nat out_len)] ++
  [u8 (6 + zlen label)] ++ l_tls13 ++ label ++ [u8 (zlen context)] ++ context.

(* net/key_schedule.rs:31-37 *)
Record tkey := { k_secret : list Z; k_key : list Z; k_iv : list Z; k_seq : Z }.

(* `?` on an Option inside a function that can also panic *)
Definition obind {E A B} (m : option A) (k : A -> outcome E (option B)) : outcome E (option B) :=
  match m with Some a => k a | None => Ok None end.

(* net/key_schedule.rs:40-50; try_into::<[u8; 12]>().unwrap() panics on another length *)
Definition key_from_hkdf {E} (h : hkdf) (key_len iv_len : nat) : outcome E (option tkey) :=
  obind (hkdf_expand h (hkdf_expand_label l_key [] key_len) key_len) (fun key =>
  obind (hkdf_expand h (hkdf_expand_label l_iv [] iv_len) iv_len) (fun iv =>
  if Nat.eqb (length iv) 12
  then Ok (Some {| k_secret := hk_prk h; k_key := key; k_iv := iv; k_seq := 0 |})
  else Panic)).

(* net/key_schedule.rs:51-64: nonce and the updated key. `sequence_number += 1` panics on overflow
   (dev profile). Byte j = 11 - i, i = 0..7, is XORed with byte i of the sequence number. *)
Definition nonce_of (iv : list Z) (seq : Z) : list Z :=
  map (fun p => let '(j, b) := p in
                if Nat.leb 4 j then Z.lxor b (u8 (Z.shiftr seq (Z.of_nat (11 - j) * 8))) else b)
      (combine (List.seq 0 (length iv)) iv).
Definition per_record_nonce {E} (k : tkey) : outcome E (list Z * tkey) :=
  if k_seq k + 1 <? 2 ^ 64
  then Ok (nonce_of (k_iv k) (k_seq k),
           {| k_secret := k_secret k; k_key := k_key k; k_iv := k_iv k; k_seq := k_seq k + 1 |})
  else Panic.

(* net/key_schedule.rs:67-70 *)
Record write_keys := { wk_server : tkey; wk_client : tkey }.

(* net/key_schedule.rs:117-125 *)
Record key_schedule := { ks_client_hs : hkdf; ks_server_hs : hkdf; ks_master : hkdf }.

(* `?` on the Option inside an outcome *)
Definition oobind {E A B} (m : outcome E (option A)) (k : A -> outcome E (option B)) : outcome E (option B) :=
  let! o := m in match o with Some a => k a | None => Ok None end.

(* net/key_schedule.rs:73-86 *)
Definition handshake_keys {E} (ks : key_schedule) (cs : cipher_suite) : outcome E (option write_keys) :=
  let (key_len, iv_len) := key_iv_len cs in
  oobind (key_from_hkdf (ks_server_hs ks) key_len iv_len) (fun server =>
  oobind (key_from_hkdf (ks_client_hs ks) key_len iv_len) (fun client =>
  Ok (Some {| wk_server := server; wk_client := client |}))).

(* Hkdf::from_prk (hash/hkdf.rs:15-22) *)
Definition from_prk (h : hash_type) (prk : list Z) : hkdf := {| hk_hash := h; hk_prk := prk |}.

(* net/key_schedule.rs:87-113 *)
Definition application_keys_from_master_secret {E} (master : hkdf) (handshake_hash : list Z) (cs : cipher_suite)
    : outcome E (option write_keys) :=
  let h := hk_hash master in
  let n := hash_len h in
  let (key_len, iv_len) := key_iv_len cs in
  obind (hkdf_expand master (hkdf_expand_label l_c_ap handshake_hash n) n) (fun c =>
  oobind (key_from_hkdf (from_prk h c) key_len iv_len) (fun client =>
  obind (hkdf_expand master (hkdf_expand_label l_s_ap handshake_hash n) n) (fun s =>
  oobind (key_from_hkdf (from_prk h s) key_len iv_len) (fun server =>
  Ok (Some {| wk_server := server; wk_client := client |}))))).

Definition opt_bind {A B} (m : option A) (k : A -> option B) : option B :=
  match m with Some a => k a | None => None end.

(* net/key_schedule.rs:170-222 *)
Definition do_key_schedule (h : hash_type) (hello_hash shared_secret : list Z) : option key_schedule :=
  let n := hash_len h in
  let empty_slice := repeat 0 n in
  let empty_hash := sha_x h [] in
  let early := hkdf_extract h empty_slice empty_slice in
  opt_bind (hkdf_expand early (hkdf_expand_label l_derived empty_hash n) n) (fun derived =>
  let hs := hkdf_extract h derived shared_secret in
  opt_bind (hkdf_expand hs (hkdf_expand_label l_c_hs hello_hash n) n) (fun c =>
  opt_bind (hkdf_expand hs (hkdf_expand_label l_s_hs hello_hash n) n) (fun s =>
  opt_bind (hkdf_expand hs (hkdf_expand_label l_derived empty_hash n) n) (fun derived2 =>
  let master := hkdf_extract h derived2 (repeat 0 n) in
  Some {| ks_client_hs := from_prk h c; ks_server_hs := from_prk h s; ks_master := master |})))).
