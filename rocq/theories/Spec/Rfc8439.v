(* RFC 8439: ChaCha20, Poly1305 and their AEAD. *)
From Coq Require Import List ZArith.
From Verif Require Import Spec.Enc.
Import ListNotations.
Open Scope Z_scope.

(* ---- ChaCha20 ---- *)
Definition plus32 (x y : Z) : Z := (x + y) mod 2 ^ 32.
Definition ROTL (x n : Z) : Z := (x * 2 ^ n) mod 2 ^ 32 + x / 2 ^ (32 - n).

(* 2.1 quarter round on four words *)
Definition QR (q : Z * Z * Z * Z) : Z * Z * Z * Z :=
  let '(a, b, c, d) := q in
  let a := plus32 a b in let d := ROTL (Z.lxor d a) 16 in
  let c := plus32 c d in let b := ROTL (Z.lxor b c) 12 in
  let a := plus32 a b in let d := ROTL (Z.lxor d a) 8 in
  let c := plus32 c d in let b := ROTL (Z.lxor b c) 7 in
  (a, b, c, d).

(* the state as four rows of four words *)
Definition row : Type := Z * Z * Z * Z.
Definition matrix : Type := row * row * row * row.
(* quarter rounds down the four columns *)
Definition columns (m : matrix) : matrix :=
  let '((a0, a1, a2, a3), (b0, b1, b2, b3), (c0, c1, c2, c3), (d0, d1, d2, d3)) := m in
  let '(a0, b0, c0, d0) := QR (a0, b0, c0, d0) in
  let '(a1, b1, c1, d1) := QR (a1, b1, c1, d1) in
  let '(a2, b2, c2, d2) := QR (a2, b2, c2, d2) in
  let '(a3, b3, c3, d3) := QR (a3, b3, c3, d3) in
  ((a0, a1, a2, a3), (b0, b1, b2, b3), (c0, c1, c2, c3), (d0, d1, d2, d3)).
Definition rot_row (r : row) : row := let '(a, b, c, d) := r in (b, c, d, a).
Definition rot_row_by (n : nat) (r : row) : row := Nat.iter n rot_row r.
(* bring the diagonals into columns, and back *)
Definition skew (m : matrix) : matrix :=
  let '(a, b, c, d) := m in (a, rot_row_by 1 b, rot_row_by 2 c, rot_row_by 3 d).
Definition unskew (m : matrix) : matrix :=
  let '(a, b, c, d) := m in (a, rot_row_by 3 b, rot_row_by 2 c, rot_row_by 1 d).
Definition double_round (m : matrix) : matrix := unskew (columns (skew (columns m))).

Definition add_row (x y : row) : row :=
  let '(a, b, c, d) := x in let '(e, f, g, h) := y in (plus32 a e, plus32 b f, plus32 c g, plus32 d h).
Definition add_matrix (x y : matrix) : matrix :=
  let '(a, b, c, d) := x in let '(e, f, g, h) := y in (add_row a e, add_row b f, add_row c g, add_row d h).
Definition row_list (r : row) : list Z := let '(a, b, c, d) := r in [a; b; c; d].
Definition matrix_list (m : matrix) : list Z :=
  let '(a, b, c, d) := m in row_list a ++ row_list b ++ row_list c ++ row_list d.

(* 2.3: constants, key, counter, nonce, all little-endian words *)
Definition word_at (l : list Z) (i : nat) : Z := le_val (firstn 4 (skipn (4 * i) l)).
Definition initial (key nonce : list Z) (counter : Z) : matrix :=
  (((0x61707865, 0x3320646e, 0x79622d32, 0x6b206574) : row),
   (word_at key 0, word_at key 1, word_at key 2, word_at key 3),
   (word_at key 4, word_at key 5, word_at key 6, word_at key 7),
   (counter mod 2 ^ 32, word_at nonce 0, word_at nonce 1, word_at nonce 2)).
Definition chacha20_block (key nonce : list Z) (counter : Z) : list Z :=
  let s := initial key nonce counter in
  flat_map (le_enc 4) (matrix_list (add_matrix (Nat.iter 10 double_round s) s)).

(* 2.4: byte i of the key stream, and encryption of every byte *)
Definition key_stream (key nonce : list Z) (counter : Z) (i : nat) : Z :=
  nth (Nat.modulo i 64) (chacha20_block key nonce (counter + Z.of_nat (Nat.div i 64))) 0.
Definition chacha20_encrypt (key nonce : list Z) (counter : Z) (plain : list Z) : list Z :=
  map (fun p => Z.lxor (snd p) (key_stream key nonce counter (fst p)))
      (combine (seq 0 (length plain)) plain).

(* ---- Poly1305 (2.5) ---- *)
Definition P1305 : Z := 2 ^ 130 - 5.
(* r[3], r[7], r[11], r[15] have their top four bits cleared; r[4], r[8], r[12] their bottom two *)
Definition clamp_byte (i : nat) (b : Z) : Z :=
  match i with
  | 3%nat | 7%nat | 11%nat | 15%nat => b mod 16
  | 4%nat | 8%nat | 12%nat => b / 4 * 4
  | _ => b
  end.
Definition clamp (r : list Z) : list Z := map (fun p => clamp_byte (fst p) (snd p)) (combine (seq 0 16) r).
Definition poly1305_mac (key msg : list Z) : list Z :=
  let r := le_val (clamp (firstn 16 key)) in
  let s := le_val (firstn 16 (skipn 16 key)) in
  let a := fold_left (fun a block => ((a + le_val (block ++ [1])) * r) mod P1305)
             (pieces (length msg) 16 msg) 0 in
  le_enc 16 (a + s).

(* ---- AEAD (2.8) ---- *)
Definition zeros16 (l : list Z) : list Z := repeat 0 ((16 - length l mod 16) mod 16)%nat.
Definition mac_input (aad ciphertext : list Z) : list Z :=
  aad ++ zeros16 aad ++ ciphertext ++ zeros16 ciphertext
  ++ le_enc 8 (Z.of_nat (length aad)) ++ le_enc 8 (Z.of_nat (length ciphertext)).
Definition poly1305_key (key nonce : list Z) : list Z := firstn 32 (chacha20_block key nonce 0).
Definition aead_tag (key nonce aad ciphertext : list Z) : list Z :=
  poly1305_mac (poly1305_key key nonce) (mac_input aad ciphertext).
