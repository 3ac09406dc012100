(* Model of anothertls/src/crypto/aes/cipher.rs *)
From Verif Require Import Model.Base.

(* crypto/aes/cipher.rs:7-72 *)
Definition SBOX : list (list Z) := [
    [0x63; 0x7c; 0x77; 0x7b; 0xf2; 0x6b; 0x6f; 0xc5; 0x30; 0x01; 0x67; 0x2b; 0xfe; 0xd7; 0xab; 0x76];
    [0xca; 0x82; 0xc9; 0x7d; 0xfa; 0x59; 0x47; 0xf0; 0xad; 0xd4; 0xa2; 0xaf; 0x9c; 0xa4; 0x72; 0xc0];
    [0xb7; 0xfd; 0x93; 0x26; 0x36; 0x3f; 0xf7; 0xcc; 0x34; 0xa5; 0xe5; 0xf1; 0x71; 0xd8; 0x31; 0x15];
    [0x04; 0xc7; 0x23; 0xc3; 0x18; 0x96; 0x05; 0x9a; 0x07; 0x12; 0x80; 0xe2; 0xeb; 0x27; 0xb2; 0x75];
    [0x09; 0x83; 0x2c; 0x1a; 0x1b; 0x6e; 0x5a; 0xa0; 0x52; 0x3b; 0xd6; 0xb3; 0x29; 0xe3; 0x2f; 0x84];
    [0x53; 0xd1; 0x00; 0xed; 0x20; 0xfc; 0xb1; 0x5b; 0x6a; 0xcb; 0xbe; 0x39; 0x4a; 0x4c; 0x58; 0xcf];
    [0xd0; 0xef; 0xaa; 0xfb; 0x43; 0x4d; 0x33; 0x85; 0x45; 0xf9; 0x02; 0x7f; 0x50; 0x3c; 0x9f; 0xa8];
    [0x51; 0xa3; 0x40; 0x8f; 0x92; 0x9d; 0x38; 0xf5; 0xbc; 0xb6; 0xda; 0x21; 0x10; 0xff; 0xf3; 0xd2];
    [0xcd; 0x0c; 0x13; 0xec; 0x5f; 0x97; 0x44; 0x17; 0xc4; 0xa7; 0x7e; 0x3d; 0x64; 0x5d; 0x19; 0x73];
    [0x60; 0x81; 0x4f; 0xdc; 0x22; 0x2a; 0x90; 0x88; 0x46; 0xee; 0xb8; 0x14; 0xde; 0x5e; 0x0b; 0xdb];
    [0xe0; 0x32; 0x3a; 0x0a; 0x49; 0x06; 0x24; 0x5c; 0xc2; 0xd3; 0xac; 0x62; 0x91; 0x95; 0xe4; 0x79];
    [0xe7; 0xc8; 0x37; 0x6d; 0x8d; 0xd5; 0x4e; 0xa9; 0x6c; 0x56; 0xf4; 0xea; 0x65; 0x7a; 0xae; 0x08];
    [0xba; 0x78; 0x25; 0x2e; 0x1c; 0xa6; 0xb4; 0xc6; 0xe8; 0xdd; 0x74; 0x1f; 0x4b; 0xbd; 0x8b; 0x8a];
    [0x70; 0x3e; 0xb5; 0x66; 0x48; 0x03; 0xf6; 0x0e; 0x61; 0x35; 0x57; 0xb9; 0x86; 0xc1; 0x1d; 0x9e];
    [0xe1; 0xf8; 0x98; 0x11; 0x69; 0xd9; 0x8e; 0x94; 0x9b; 0x1e; 0x87; 0xe9; 0xce; 0x55; 0x28; 0xdf];
    [0x8c; 0xa1; 0x89; 0x0d; 0xbf; 0xe6; 0x42; 0x68; 0x41; 0x99; 0x2d; 0x0f; 0xb0; 0x54; 0xbb; 0x16] ].

(* crypto/aes/cipher.rs:73-138 *)
Definition INV_SBOX : list (list Z) := [
    [0x52; 0x09; 0x6a; 0xd5; 0x30; 0x36; 0xa5; 0x38; 0xbf; 0x40; 0xa3; 0x9e; 0x81; 0xf3; 0xd7; 0xfb];
    [0x7c; 0xe3; 0x39; 0x82; 0x9b; 0x2f; 0xff; 0x87; 0x34; 0x8e; 0x43; 0x44; 0xc4; 0xde; 0xe9; 0xcb];
    [0x54; 0x7b; 0x94; 0x32; 0xa6; 0xc2; 0x23; 0x3d; 0xee; 0x4c; 0x95; 0x0b; 0x42; 0xfa; 0xc3; 0x4e];
    [0x08; 0x2e; 0xa1; 0x66; 0x28; 0xd9; 0x24; 0xb2; 0x76; 0x5b; 0xa2; 0x49; 0x6d; 0x8b; 0xd1; 0x25];
    [0x72; 0xf8; 0xf6; 0x64; 0x86; 0x68; 0x98; 0x16; 0xd4; 0xa4; 0x5c; 0xcc; 0x5d; 0x65; 0xb6; 0x92];
    [0x6c; 0x70; 0x48; 0x50; 0xfd; 0xed; 0xb9; 0xda; 0x5e; 0x15; 0x46; 0x57; 0xa7; 0x8d; 0x9d; 0x84];
    [0x90; 0xd8; 0xab; 0x00; 0x8c; 0xbc; 0xd3; 0x0a; 0xf7; 0xe4; 0x58; 0x05; 0xb8; 0xb3; 0x45; 0x06];
    [0xd0; 0x2c; 0x1e; 0x8f; 0xca; 0x3f; 0x0f; 0x02; 0xc1; 0xaf; 0xbd; 0x03; 0x01; 0x13; 0x8a; 0x6b];
    [0x3a; 0x91; 0x11; 0x41; 0x4f; 0x67; 0xdc; 0xea; 0x97; 0xf2; 0xcf; 0xce; 0xf0; 0xb4; 0xe6; 0x73];
    [0x96; 0xac; 0x74; 0x22; 0xe7; 0xad; 0x35; 0x85; 0xe2; 0xf9; 0x37; 0xe8; 0x1c; 0x75; 0xdf; 0x6e];
    [0x47; 0xf1; 0x1a; 0x71; 0x1d; 0x29; 0xc5; 0x89; 0x6f; 0xb7; 0x62; 0x0e; 0xaa; 0x18; 0xbe; 0x1b];
    [0xfc; 0x56; 0x3e; 0x4b; 0xc6; 0xd2; 0x79; 0x20; 0x9a; 0xdb; 0xc0; 0xfe; 0x78; 0xcd; 0x5a; 0xf4];
    [0x1f; 0xdd; 0xa8; 0x33; 0x88; 0x07; 0xc7; 0x31; 0xb1; 0x12; 0x10; 0x59; 0x27; 0x80; 0xec; 0x5f];
    [0x60; 0x51; 0x7f; 0xa9; 0x19; 0xb5; 0x4a; 0x0d; 0x2d; 0xe5; 0x7a; 0x9f; 0x93; 0xc9; 0x9c; 0xef];
    [0xa0; 0xe0; 0x3b; 0x4d; 0xae; 0x2a; 0xf5; 0xb0; 0xc8; 0xeb; 0xbb; 0x3c; 0x83; 0x53; 0x99; 0x61];
    [0x17; 0x2b; 0x04; 0x7e; 0xba; 0x77; 0xd6; 0x26; 0xe1; 0x69; 0x14; 0x63; 0x55; 0x21; 0x0c; 0x7d] ].

(* TABLE[((b >> 4) & 0xf)][(b & 0xf)], as used in sub_word :269-273, sub_bytes :283-288 and
   inv_sub_bytes :290-295 *)
Definition lookup (table : list (list Z)) (b : Z) : Z :=
  nth (Z.to_nat (Z.land b 15)) (nth (Z.to_nat (Z.land (Z.shiftr b 4) 15)) table []) 0.

(* crypto/aes/cipher.rs:140-158: key size in bits / 32 *)
Inductive blocksize := B128 | B192 | B256.
Definition bs_nk (b : blocksize) : nat := match b with B128 => 4 | B192 => 6 | B256 => 8 end.
Definition bs_rounds (b : blocksize) : nat := bs_nk b + 6.
Definition blocksize_new (u : Z) : option blocksize :=
  if u =? 128 then Some B128 else if u =? 192 then Some B192 else if u =? 256 then Some B256 else None.

(* crypto/aes/cipher.rs:251-267: one loop iteration and the loop; a <<= 1 drops bit 7 *)
Definition gmult8_step (s : Z * Z * Z) : Z * Z * Z :=
  let '(a, b, p) := s in
  let p' := if negb (Z.land b 1 =? 0) then Z.lxor p a else p in
  let hbs := Z.land a 128 in
  let a1 := u8 (Z.shiftl a 1) in
  let a' := if negb (hbs =? 0) then Z.lxor a1 0x1b else a1 in
  (a', Z.shiftr b 1, p').
Definition gmult8 (a b : Z) : Z :=
  let '(_, _, p) := Nat.iter 8 gmult8_step (a, b, 0) in p.

(* crypto/aes/cipher.rs:269-273 *)
Definition sub_word (w : list Z) : list Z := map (lookup SBOX) w.
(* crypto/aes/cipher.rs:275-281 *)
Definition rot_word (w : list Z) : list Z := skipn 1 w ++ firstn 1 w.

(* crypto/aes/cipher.rs:222 *)
Definition rcon : list Z := [0x01; 0x02; 0x04; 0x08; 0x10; 0x20; 0x40; 0x80; 0x1B; 0x36].

Definition xor_bytes (a b : list Z) : list Z := map (fun p => Z.lxor (fst p) (snd p)) (combine a b).

(* crypto/aes/cipher.rs:232-246: the word with index i = length ws *)
Definition next_word (nk : nat) (ws : list (list Z)) : list Z :=
  let i := length ws in
  let temp := nth (i - 1) ws [] in
  let temp' :=
    if Nat.eqb (Nat.modulo i nk) 0 then
      let t := sub_word (rot_word temp) in
      match t with
      | t0 :: r => Z.lxor t0 (nth (i / nk - 1) rcon 0) :: r
      | [] => []
      end
    else if (Nat.ltb 6 nk && Nat.eqb (Nat.modulo i nk) 4)%bool then sub_word temp
    else temp in
  xor_bytes (nth (i - nk) ws []) temp'.

(* crypto/aes/cipher.rs:216-249. The 60-entry array is a list of the words filled in (44, 52 or 60);
   rcon[i / nk - 1] stays within its 10 entries. key[(i*4)+j] panics on a short key; callers pass
   key.len()*8 = blocksize. *)
Definition expand_step (nk : nat) (ws : list (list Z)) : list (list Z) := ws ++ [next_word nk ws].
Definition key_words (nk : nat) (key : list Z) : list (list Z) :=
  map (fun i => firstn 4 (skipn (i * 4) key)) (seq 0 nk).
Definition expanded_key (key : list Z) (b : blocksize) : list (list Z) :=
  let nk := bs_nk b in
  Nat.iter (4 * (bs_rounds b + 1) - nk) (expand_step nk) (key_words nk key).

(* crypto/aes/cipher.rs:283-288, 290-295 *)
Definition sub_bytes (s : list Z) : list Z := map (lookup SBOX) s.
Definition inv_sub_bytes (s : list Z) : list Z := map (lookup INV_SBOX) s.

Definition upd (l : list Z) (i : nat) (v : Z) : list Z := firstn i l ++ v :: skipn (S i) l.
Definition get (l : list Z) (i : nat) : Z := nth i l 0.
(* state[i] = state[j] *)
Definition mv (s : list Z) (i j : nat) : list Z := upd s i (get s j).

(* crypto/aes/cipher.rs:297-322 *)
Definition shift_rows (s : list Z) : list Z :=
  let tmp := get s 1 in
  let s := mv s 1 5 in let s := mv s 5 9 in let s := mv s 9 13 in let s := upd s 13 tmp in
  let tmp := get s 2 in
  let s := mv s 2 10 in let s := upd s 10 tmp in
  let tmp := get s 6 in
  let s := mv s 6 14 in let s := upd s 14 tmp in
  let tmp := get s 11 in
  let s := mv s 11 7 in let s := mv s 7 3 in let s := mv s 3 15 in upd s 15 tmp.

(* crypto/aes/cipher.rs:324-349 *)
Definition inv_shift_rows (s : list Z) : list Z :=
  let tmp := get s 9 in
  let s := mv s 9 5 in let s := mv s 5 1 in let s := mv s 1 13 in let s := upd s 13 tmp in
  let tmp := get s 2 in
  let s := mv s 2 10 in let s := upd s 10 tmp in
  let tmp := get s 6 in
  let s := mv s 6 14 in let s := upd s 14 tmp in
  let tmp := get s 3 in
  let s := mv s 3 7 in let s := mv s 7 11 in let s := mv s 11 15 in upd s 15 tmp.

(* crypto/aes/cipher.rs:351-378 *)
Definition mix_matrix (inverse : bool) : list Z :=
  if inverse then [0xE; 0xB; 0xD; 0x9; 0x9; 0xE; 0xB; 0xD; 0xD; 0x9; 0xE; 0xB; 0xB; 0xD; 0x9; 0xE]
  else [0x2; 0x3; 0x1; 0x1; 0x1; 0x2; 0x3; 0x1; 0x1; 0x1; 0x2; 0x3; 0x3; 0x1; 0x1; 0x2].
Definition mix_columns (inverse : bool) (s : list Z) : list Z :=
  flat_map (fun column =>
    map (fun row =>
      fold_left (fun acc mc => Z.lxor acc (gmult8 (get (mix_matrix inverse) (row * 4 + mc))
                                                  (get s (mc + 4 * column))))
        (seq 0 4) 0) (seq 0 4)) (seq 0 4).

(* crypto/aes/cipher.rs:380-386 *)
Definition add_round_key (ek : list (list Z)) (round : nat) (s : list Z) : list Z :=
  flat_map (fun x => map (fun y => Z.lxor (get s (x * 4 + y)) (get (nth (round * 4 + x) ek []) y)) (seq 0 4))
    (seq 0 4).

(* crypto/aes/cipher.rs:175-194 *)
Definition enc_round (ek : list (list Z)) (rounds : nat) (s : list Z) (round : nat) : list Z :=
  let s := shift_rows (sub_bytes s) in
  let s := if Nat.ltb round rounds then mix_columns false s else s in
  add_round_key ek round s.
Definition aes_encrypt (ek : list (list Z)) (b : blocksize) (input : list Z) : list Z :=
  fold_left (enc_round ek (bs_rounds b)) (seq 1 (bs_rounds b)) (add_round_key ek 0 input).

(* crypto/aes/cipher.rs:196-215 *)
Definition dec_round (ek : list (list Z)) (s : list Z) (round : nat) : list Z :=
  let s := inv_sub_bytes (inv_shift_rows s) in
  let s := add_round_key ek round s in
  if Nat.leb 1 round then mix_columns true s else s.
Definition aes_decrypt (ek : list (list Z)) (b : blocksize) (input : list Z) : list Z :=
  fold_left (dec_round ek) (rev (seq 0 (bs_rounds b))) (add_round_key ek (bs_rounds b) input).
