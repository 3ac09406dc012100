(* Model of anothertls/src/crypto/chacha20/cipher.rs and poly1305.rs *)
From Verif Require Import Model.Base Model.Bytes Model.F32 Model.Alert.

(* crypto/chacha20/cipher.rs:8-10 *)
Definition u8_to_u32_le (b : list Z) : Z :=
  Z.lor (Z.lor (Z.lor (nth 0 b 0) (Z.shiftl (nth 1 b 0) 8)) (Z.shiftl (nth 2 b 0) 16))
        (Z.shiftl (nth 3 b 0) 24).

(* crypto/chacha20/cipher.rs:18-38; the state is a list of 16 words *)
Definition chacha_init (key iv : list Z) (counter : Z) : option (list Z) :=
  if negb (Nat.eqb (length key) 32 && Nat.eqb (length iv) 12) then None
  else Some ([0x61707865; 0x3320646e; 0x79622d32; 0x6b206574]
             ++ map (fun i => u8_to_u32_le (skipn (i * 4) key)) (seq 0 8)
             ++ [counter]
             ++ map (fun i => u8_to_u32_le (skipn (i * 4) iv)) (seq 0 3)).

Definition upd32 (x : list Z) (i : nat) (v : Z) : list Z := firstn i x ++ v :: skipn (S i) x.
Definition rotl32 (x n : Z) : Z := Z.lor (u32 (Z.shiftl x n)) (Z.shiftr x (32 - n)).

(* crypto/chacha20/cipher.rs:40-42 *)
Definition set_counter (x : list Z) (counter : Z) : list Z := upd32 x 12 counter.

(* crypto/chacha20/cipher.rs:44-55 *)
Definition qround (x : list Z) (a b c d : nat) : list Z :=
  let g := fun (x : list Z) i => nth i x 0 in
  let x := upd32 x a (u32 (g x a + g x b)) in
  let x := upd32 x d (rotl32 (Z.lxor (g x d) (g x a)) 16) in
  let x := upd32 x c (u32 (g x c + g x d)) in
  let x := upd32 x b (rotl32 (Z.lxor (g x b) (g x c)) 12) in
  let x := upd32 x a (u32 (g x a + g x b)) in
  let x := upd32 x d (rotl32 (Z.lxor (g x d) (g x a)) 8) in
  let x := upd32 x c (u32 (g x c + g x d)) in
  upd32 x b (rotl32 (Z.lxor (g x b) (g x c)) 7).

(* crypto/chacha20/cipher.rs:60-69 *)
Definition ten_step (x : list Z) : list Z :=
  let x := qround x 0 4 8 12 in
  let x := qround x 1 5 9 13 in
  let x := qround x 2 6 10 14 in
  let x := qround x 3 7 11 15 in
  let x := qround x 0 5 10 15 in
  let x := qround x 1 6 11 12 in
  let x := qround x 2 7 8 13 in
  qround x 3 4 9 14.

(* crypto/chacha20/cipher.rs:57-86 *)
Definition get_block (x : list Z) : list Z :=
  let y := Nat.iter 10 ten_step x in
  let z := map (fun p => u32 (fst p + snd p)) (combine y x) in
  flat_map (fun s => [u8 s; u8 (Z.shiftr s 8); u8 (Z.shiftr s 16); u8 (Z.shiftr s 24)]) z.

Definition xor_into (data ks : list Z) : list Z := map (fun p => Z.lxor (fst p) (snd p)) (combine data ks).

(* crypto/chacha20/cipher.rs:95-106: the loop over blocks. `rest` is output[j*64..]; output[j*64+i]
   panics past the end (only possible when the f32 block count is too large). *)
Fixpoint enc_loop {E} (n : nat) (st : list Z) (len j counter : Z) (rest : list Z) : outcome E (list Z) :=
  match n with
  | O => Ok rest
  | S n' =>
      let ks := get_block (set_counter st (u32 (counter + j))) in
      let count := Z.to_nat (if j * 64 + 64 >=? len then len mod 64 else 64) in
      if Nat.ltb (length rest) count then Panic
      else
        let! r := enc_loop n' st len (j + 1) counter (skipn 64 rest) in
        Ok (xor_into (firstn count rest) ks ++ skipn count (firstn 64 rest) ++ r)
  end.

(* crypto/chacha20/cipher.rs:91-108; `Ok None` is the None of `chacha20.clone()?` *)
Definition chacha_encrypt {E} (input key iv : list Z) (counter : Z) : outcome E (option (list Z)) :=
  let blocks := Z.to_nat (f32_ceil_div (zlen input) 64) in
  match chacha_init key iv 0 with
  | None => if Nat.eqb blocks 0 then Ok (Some input) else Ok None
  | Some st => let! r := enc_loop blocks st (zlen input) 0 counter input in Ok (Some r)
  end.
(* crypto/chacha20/cipher.rs:109-111 *)
Definition chacha_decrypt {E} (input key iv : list Z) (counter : Z) : outcome E (option (list Z)) :=
  chacha_encrypt (E:=E) input key iv counter.

(* crypto/chacha20/poly1305.rs:19-22 *)
Definition poly_key_gen {E} (key iv : list Z) : outcome E (list Z) :=
  let! st := unwrap (chacha_init key iv 0) in Ok (firstn 32 (get_block st)).

Definition poly_p : Z := 0x3fffffffffffffffffffffffffffffffb.
Definition poly_mask : Z := 0x0ffffffc0ffffffc0ffffffc0fffffff.

(* crypto/chacha20/poly1305.rs:32-46: `rest` is msg[(i-1)*16..]; that slice panics past the end *)
Fixpoint poly_loop {E} (n : nat) (r a : Z) (past_end : bool) (rest : list Z) : outcome E Z :=
  match n with
  | O => Ok a
  | S n' =>
      if past_end then Panic
      else
        let m := if Nat.ltb (length rest) 16 then to_ibig_le (rest ++ [1])
                 else to_ibig_le (firstn 16 rest) + 0x100000000000000000000000000000000 in
        poly_loop n' r (Z.rem (r * (a + m)) poly_p) (Nat.ltb (length rest) 16) (skipn 16 rest)
  end.

(* crypto/chacha20/poly1305.rs:24-51; key[..16], key[16..32] panic on a short key *)
Definition poly_mac {E} (key msg : list Z) : outcome E (list Z) :=
  let! k0 := slice key 0 16 in
  let r := Z.land (to_ibig_le k0) poly_mask in
  let! k1 := slice key 16 32 in
  let s := to_ibig_le k1 in
  let! a := poly_loop (Z.to_nat (f32_ceil_div (zlen msg) 16)) r 0 false msg in
  let! ret := ibig_to_vec (a + s) Little in
  Ok (firstn 16 (ret ++ repeat 0 16)).

(* crypto/chacha20/poly1305.rs:52-56 *)
Definition pad16 (input : list Z) (x : nat) : list Z :=
  if negb (Nat.eqb (Nat.modulo x 16) 0) then input ++ repeat 0 (16 - Nat.modulo x 16) else input.

(* crypto/chacha20/poly1305.rs:57-67 *)
Definition get_mac_data (ciphertext aad : list Z) : list Z :=
  pad16 (pad16 aad (length aad) ++ ciphertext) (length ciphertext)
  ++ u64_to_bytes_le (u64 (zlen aad)) ++ u64_to_bytes_le (u64 (zlen ciphertext)).

(* crypto/chacha20/poly1305.rs:70-82 *)
Definition poly_encrypt (key iv plaintext aad : list Z) : outcome tls_error (list Z * list Z) :=
  let! c := chacha_encrypt plaintext key iv 1 in
  let! ciphertext := unwrap c in
  let! otk := poly_key_gen key iv in
  let! tag := poly_mac otk (get_mac_data ciphertext aad) in
  Ok (ciphertext, tag).

(* crypto/chacha20/poly1305.rs:83-99 *)
Definition poly_decrypt (key iv ciphertext aad auth_tag : list Z) : outcome tls_error (list Z) :=
  let! otk := poly_key_gen key iv in
  let! tag := poly_mac otk (get_mac_data ciphertext aad) in
  if list_eqb tag auth_tag then
    let! p := chacha_decrypt ciphertext key iv 1 in
    match p with Some plaintext => Ok plaintext | None => Err BadRecordMac end
  else Err BadRecordMac.
