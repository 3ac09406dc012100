(* Model of anothertls/src/hash/sha256.rs, sha384.rs and hash/mod.rs.
   The two files are textually the same program up to constants; the model is one program over a
   record of those constants, instantiated twice below. *)
From Verif Require Import Model.Base.

Record sha_params := {
  sp_w : Z;                 (* word size: 32 (sha256.rs) / 64 (sha384.rs) *)
  sp_block : nat;           (* input: [u8; 64] (sha256.rs:40) / [u8; 128] (sha384.rs:40) *)
  sp_rounds : nat;          (* 0..=63 (sha256.rs:93) / 0..=79 (sha384.rs:103) *)
  sp_k : list Z;            (* sha256.rs:68-79 / sha384.rs:68-89 *)
  sp_iv : list Z;           (* sha256.rs:136-139 / sha384.rs:147-156 *)
  sp_b0 : Z * Z * Z;        (* rotations of bsig0, sha256.rs:21-23 / sha384.rs:21-23 *)
  sp_b1 : Z * Z * Z;        (* bsig1, :24-26 *)
  sp_s0 : Z * Z * Z;        (* ssig0: two rotations and a shift, :27-29 *)
  sp_s1 : Z * Z * Z;        (* ssig1, :30-32 *)
  sp_padmin : nat;          (* padding_length < 9 (sha256.rs:54) / < 17 (sha384.rs:54) *)
  sp_lenhi : nat;           (* for i in 1..8 (sha256.rs:60) / 1..16 (sha384.rs:60) *)
  sp_out : nat              (* out: [u8; 32] (sha256.rs:165) / [u8; 48] (sha384.rs:181) *)
}.

Definition sha256_params : sha_params := {|
  sp_w := 32; sp_block := 64; sp_rounds := 64;
  sp_k := [
    0x428a2f98; 0x71374491; 0xb5c0fbcf; 0xe9b5dba5; 0x3956c25b; 0x59f111f1; 0x923f82a4;
    0xab1c5ed5; 0xd807aa98; 0x12835b01; 0x243185be; 0x550c7dc3; 0x72be5d74; 0x80deb1fe;
    0x9bdc06a7; 0xc19bf174; 0xe49b69c1; 0xefbe4786; 0x0fc19dc6; 0x240ca1cc; 0x2de92c6f;
    0x4a7484aa; 0x5cb0a9dc; 0x76f988da; 0x983e5152; 0xa831c66d; 0xb00327c8; 0xbf597fc7;
    0xc6e00bf3; 0xd5a79147; 0x06ca6351; 0x14292967; 0x27b70a85; 0x2e1b2138; 0x4d2c6dfc;
    0x53380d13; 0x650a7354; 0x766a0abb; 0x81c2c92e; 0x92722c85; 0xa2bfe8a1; 0xa81a664b;
    0xc24b8b70; 0xc76c51a3; 0xd192e819; 0xd6990624; 0xf40e3585; 0x106aa070; 0x19a4c116;
    0x1e376c08; 0x2748774c; 0x34b0bcb5; 0x391c0cb3; 0x4ed8aa4a; 0x5b9cca4f; 0x682e6ff3;
    0x748f82ee; 0x78a5636f; 0x84c87814; 0x8cc70208; 0x90befffa; 0xa4506ceb; 0xbef9a3f7;
    0xc67178f2 ];
  sp_iv := [ 0x6a09e667; 0xbb67ae85; 0x3c6ef372; 0xa54ff53a; 0x510e527f; 0x9b05688c; 0x1f83d9ab;
             0x5be0cd19 ];
  sp_b0 := (2, 13, 22); sp_b1 := (6, 11, 25); sp_s0 := (7, 18, 3); sp_s1 := (17, 19, 10);
  sp_padmin := 9; sp_lenhi := 8; sp_out := 32 |}.

Definition sha384_params : sha_params := {|
  sp_w := 64; sp_block := 128; sp_rounds := 80;
  sp_k := [
    0x428a2f98d728ae22; 0x7137449123ef65cd; 0xb5c0fbcfec4d3b2f; 0xe9b5dba58189dbbc;
    0x3956c25bf348b538; 0x59f111f1b605d019; 0x923f82a4af194f9b; 0xab1c5ed5da6d8118;
    0xd807aa98a3030242; 0x12835b0145706fbe; 0x243185be4ee4b28c; 0x550c7dc3d5ffb4e2;
    0x72be5d74f27b896f; 0x80deb1fe3b1696b1; 0x9bdc06a725c71235; 0xc19bf174cf692694;
    0xe49b69c19ef14ad2; 0xefbe4786384f25e3; 0x0fc19dc68b8cd5b5; 0x240ca1cc77ac9c65;
    0x2de92c6f592b0275; 0x4a7484aa6ea6e483; 0x5cb0a9dcbd41fbd4; 0x76f988da831153b5;
    0x983e5152ee66dfab; 0xa831c66d2db43210; 0xb00327c898fb213f; 0xbf597fc7beef0ee4;
    0xc6e00bf33da88fc2; 0xd5a79147930aa725; 0x06ca6351e003826f; 0x142929670a0e6e70;
    0x27b70a8546d22ffc; 0x2e1b21385c26c926; 0x4d2c6dfc5ac42aed; 0x53380d139d95b3df;
    0x650a73548baf63de; 0x766a0abb3c77b2a8; 0x81c2c92e47edaee6; 0x92722c851482353b;
    0xa2bfe8a14cf10364; 0xa81a664bbc423001; 0xc24b8b70d0f89791; 0xc76c51a30654be30;
    0xd192e819d6ef5218; 0xd69906245565a910; 0xf40e35855771202a; 0x106aa07032bbd1b8;
    0x19a4c116b8d2d0c8; 0x1e376c085141ab53; 0x2748774cdf8eeb99; 0x34b0bcb5e19b48a8;
    0x391c0cb3c5c95a63; 0x4ed8aa4ae3418acb; 0x5b9cca4f7763e373; 0x682e6ff3d6b2b8a3;
    0x748f82ee5defb2fc; 0x78a5636f43172f60; 0x84c87814a1f0ab72; 0x8cc702081a6439ec;
    0x90befffa23631e28; 0xa4506cebde82bde9; 0xbef9a3f7b2c67915; 0xc67178f2e372532b;
    0xca273eceea26619c; 0xd186b8c721c0c207; 0xeada7dd6cde0eb1e; 0xf57d4f7fee6ed178;
    0x06f067aa72176fba; 0x0a637dc5a2c898a6; 0x113f9804bef90dae; 0x1b710b35131c471b;
    0x28db77f523047d84; 0x32caab7b40c72493; 0x3c9ebe0a15c9bebc; 0x431d67c49c100d4c;
    0x4cc5d4becb3e42b6; 0x597f299cfc657e2a; 0x5fcb6fab3ad6faec; 0x6c44198c4a475817 ];
  sp_iv := [ 0xcbbb9d5dc1059ed8; 0x629a292a367cd507; 0x9159015a3070dd17; 0x152fecd8f70e5939;
             0x67332667ffc00b31; 0x8eb44a8768581511; 0xdb0c2e0d64f98fa7; 0x47b5481dbefa4fa4 ];
  sp_b0 := (28, 34, 39); sp_b1 := (14, 18, 41); sp_s0 := (1, 8, 7); sp_s1 := (19, 61, 6);
  sp_padmin := 17; sp_lenhi := 16; sp_out := 48 |}.

Section Sha.
  Context (P : sha_params).
  Let w := sp_w P.
  Definition wtrunc (x : Z) : Z := x mod 2 ^ sp_w P.

  (* sha256.rs:10-12 / sha384.rs:10-12: (w >> n) | (w << ((W - n) & (W-1))) *)
  Definition rotr (n x : Z) : Z :=
    Z.lor (Z.shiftr x n) (wtrunc (Z.shiftl x (Z.land (sp_w P - n) (sp_w P - 1)))).
  (* :14-16. !x is XOR with all ones *)
  Definition ch (x y z : Z) : Z :=
    Z.lxor (Z.land x y) (Z.land (Z.lxor x (2 ^ sp_w P - 1)) z).
  (* :17-19 *)
  Definition maj (x y z : Z) : Z := Z.lxor (Z.lxor (Z.land x y) (Z.land x z)) (Z.land y z).
  (* :21-32 *)
  Definition bsig (r : Z * Z * Z) (x : Z) : Z :=
    let '(a, b, c) := r in Z.lxor (Z.lxor (rotr a x) (rotr b x)) (rotr c x).
  Definition ssig (r : Z * Z * Z) (x : Z) : Z :=
    let '(a, b, c) := r in Z.lxor (Z.lxor (rotr a x) (rotr b x)) (Z.shiftr x c).
  (* :34-37 overflowing_add *)
  Definition add (x y : Z) : Z := wtrunc (x + y).

  (* The struct. `input`/`input_len` are modelled by the list of the first input_len bytes: later
     bytes of the array are stale and overwritten before calc_round reads them. `length` (u128) is
     unbounded: 2^128 bytes cannot be hashed. *)
  Record sha := { s_pend : list Z; s_state : list Z; s_len : Z }.

  (* sha256.rs:95-100 / sha384.rs:105-110: one word from W/8 input bytes, most significant first *)
  Fixpoint load_word (bs : list Z) (sh : Z) : Z :=
    match bs with
    | [] => 0
    | b :: t => wtrunc (Z.shiftl b sh) + load_word t (sh - 8)
    end.
  Definition word_bytes : nat := Z.to_nat (sp_w P / 8).
  Definition input_word (block : list Z) (t : nat) : Z :=
    load_word (firstn word_bytes (skipn (t * word_bytes) block)) (sp_w P - 8).

  (* sha256.rs:93-118 / sha384.rs:103-128: body of the loop over t; wl holds w[0..t] *)
  Definition round_step (block : list Z)
      (s : list Z * (Z * Z * Z * Z * Z * Z * Z * Z)) (t : nat) :=
    let '(wl, (a, b, c, d, e, f, g, h)) := s in
    let wt := if Nat.leb t 15 then input_word block t
              else add (ssig (sp_s1 P) (nth (t - 2) wl 0))
                       (add (nth (t - 7) wl 0)
                            (add (ssig (sp_s0 P) (nth (t - 15) wl 0)) (nth (t - 16) wl 0))) in
    let t1 := add h (add (bsig (sp_b1 P) e) (add (ch e f g) (add (nth t (sp_k P) 0) wt))) in
    let t2 := add (bsig (sp_b0 P) a) (maj a b c) in
    (wl ++ [wt], (add t1 t2, a, b, c, add d t1, e, f, g)).

  (* sha256.rs:67-129 / sha384.rs:66-139 *)
  Definition calc_round (state block : list Z) : list Z :=
    let r i := nth i state 0 in
    let '(_, (a, b, c, d, e, f, g, h)) :=
      fold_left (round_step block) (seq 0 (sp_rounds P))
        ([], (r 0%nat, r 1%nat, r 2%nat, r 3%nat, r 4%nat, r 5%nat, r 6%nat, r 7%nat)) in
    [add (r 0%nat) a; add (r 1%nat) b; add (r 2%nat) c; add (r 3%nat) d;
     add (r 4%nat) e; add (r 5%nat) f; add (r 6%nat) g; add (r 7%nat) h].

  (* sha256.rs:132-142 / sha384.rs:143-159 *)
  Definition sha_new : sha := {| s_pend := []; s_state := sp_iv P; s_len := 0 |}.

  (* sha256.rs:146-153 / sha384.rs:163-170: one byte *)
  Definition feed (s : list Z * list Z) (b : Z) : list Z * list Z :=
    let '(st, pend) := s in
    let pend' := pend ++ [b] in
    if Nat.eqb (length pend') (sp_block P) then (calc_round st pend', []) else (st, pend').

  (* sha256.rs:143-154 / sha384.rs:160-171 *)
  Definition sha_update (s : sha) (buf : list Z) : sha :=
    let '(st, pend) := fold_left feed buf (s_state s, s_pend s) in
    {| s_pend := pend; s_state := st; s_len := s_len s + zlen buf |}.

  (* padding[n - i] = ((input_len * 8) >> ((i-1)*8)) as u8 for i in 1..lenhi; the u128 product
     overflows only for 2^125 bytes and more *)
  Definition set_nth (n : nat) (v : Z) (l : list Z) : list Z := firstn n l ++ [v] ++ skipn (S n) l.
  Definition put_len (len : Z) (n : nat) (padding : list Z) : list Z :=
    fold_left (fun p i => set_nth (n - i) (u8 (Z.shiftr (len * 8) ((Z.of_nat i - 1) * 8))) p)
      (seq 1 (sp_lenhi P - 1)) padding.

  (* sha256.rs:47-66 / sha384.rs:47-65 *)
  Definition padd_input (s : sha) : sha :=
    let len := s_len s in
    let n := (sp_block P - Z.to_nat (len mod Z.of_nat (sp_block P)))%nat in
    let padding := set_nth 0 128 (repeat 0 (sp_block P)) in
    if Nat.ltb 0 n then
      if Nat.ltb n (sp_padmin P) then
        let s' := sha_update s (firstn n padding) in
        let n' := sp_block P in
        sha_update s' (firstn n' (put_len len n' (set_nth 0 0 padding)))
      else sha_update s (firstn n (put_len len n padding))
    else s.

  (* sha256.rs:156-173 / sha384.rs:173-186. out[i] = state[i >> 2] >> 8*(3-(i&3)) (resp. 3, 7) *)
  Definition finalize (s : sha) : list Z :=
    let c := padd_input s in
    map (fun i => u8 (Z.shiftr (nth (i / word_bytes) (s_state c) 0)
                       (8 * (Z.of_nat word_bytes - 1 - Z.of_nat (i mod word_bytes)))))
        (seq 0 (sp_out P)).

  (* sha256.rs:188-192 / sha384.rs:202-206 *)
  Definition sha_digest (m : list Z) : list Z := finalize (sha_update sha_new m).
End Sha.

(* hash/mod.rs:18-22 *)
Inductive hash_type := SHA256 | SHA384.
Definition hash_len (h : hash_type) : nat := match h with SHA256 => 32 | SHA384 => 48 end.
Definition hash_params (h : hash_type) : sha_params :=
  match h with SHA256 => sha256_params | SHA384 => sha384_params end.

Definition sha256 (m : list Z) : list Z := sha_digest sha256_params m.
Definition sha384 (m : list Z) : list Z := sha_digest sha384_params m.

(* hash/mod.rs:37-42 *)
Definition sha_x (h : hash_type) (m : list Z) : list Z := sha_digest (hash_params h) m.

(* hash/mod.rs:24-35 Box<dyn TranscriptHash>: which algorithm, and its state. `clone` is the identity
   on values. *)
Record transcript := { th_type : hash_type; th_sha : sha }.
Definition th_new (h : hash_type) : transcript :=
  {| th_type := h; th_sha := sha_new (hash_params h) |}.
Definition th_update (t : transcript) (buf : list Z) : transcript :=
  {| th_type := th_type t; th_sha := sha_update (hash_params (th_type t)) (th_sha t) buf |}.
Definition th_finalize (t : transcript) : list Z :=
  finalize (hash_params (th_type t)) (th_sha t).
