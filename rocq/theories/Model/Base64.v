(* Model of anothertls/src/utils/base64.rs. Text is a list of bytes (UTF-8). For the decoder every
   non-ASCII character has code > 'z' and so does every byte of its encoding, so indexing the
   reverse table panics in both readings. *)
From Verif Require Import Model.Base.

(* utils/base64.rs:6: "A..Za..z0..9+/" as ASCII codes *)
Definition CHARS : list Z :=
  map (fun i => 65 + Z.of_nat i) (seq 0 26) ++ map (fun i => 97 + Z.of_nat i) (seq 0 26)
  ++ map (fun i => 48 + Z.of_nat i) (seq 0 10) ++ [43; 47].

(* CHARS.chars().nth(a).unwrap(); `a` is masked to 6 bits by the callers, so never out of range *)
Definition char_at (a : Z) : Z := nth (Z.to_nat a) CHARS 0.

(* utils/base64.rs:27-34 *)
Definition encode_group (t0 t1 t2 : Z) : list Z :=
  [ char_at (Z.land (Z.shiftr t0 2) 63);
    char_at (Z.land (Z.lor (u8 (Z.shiftl (Z.land t0 3) 4)) (Z.shiftr t1 4)) 63);
    char_at (Z.land (Z.lor (u8 (Z.shiftl (Z.land t1 15) 2)) (Z.shiftr t2 6)) 63);
    char_at (Z.land t2 63) ].

(* utils/base64.rs:15-35: the loop over 3-byte groups; returns the text and the count `add` *)
Fixpoint encode_loop (l : list Z) : list Z * nat :=
  match l with
  | [] => ([], 0%nat)
  | [a] => (encode_group a 0 0, 2%nat)
  | [a; b] => (encode_group a b 0, 1%nat)
  | a :: b :: c :: t => let (o, n) := encode_loop t in (encode_group a b c ++ o, n)
  end.

(* utils/base64.rs:37-42: the last `add` characters become '=' *)
Definition encode (l : list Z) : list Z :=
  let (o, add) := encode_loop l in
  firstn (length o - add) o ++ repeat 61 add.

(* utils/base64.rs:56-60: the reverse table, 123 entries, 0 where no character maps *)
Fixpoint pos_of (c : Z) (i : Z) (l : list Z) : Z :=
  match l with [] => 0 | x :: t => if x =? c then i else pos_of c (i + 1) t end.
Definition reverse_char (c : Z) : Z := pos_of c 0 CHARS.

(* utils/base64.rs:69-80: one character to (value, padding count); index > 'z' panics *)
Definition dec_char {E} (c : Z) : outcome E (Z * nat) :=
  if c =? 61 then Ok (0, 1%nat)
  else if c <=? 122 then Ok (reverse_char c, 0%nat) else Panic.

(* utils/base64.rs:67-85. The length is a multiple of 4 here; the final branch is unreachable. *)
Fixpoint decode_loop {E} (l : list Z) : outcome E (list Z * nat) :=
  match l with
  | [] => Ok ([], 0%nat)
  | c0 :: c1 :: c2 :: c3 :: t =>
      let! (t0, p0) := dec_char c0 in
      let! (t1, p1) := dec_char c1 in
      let! (t2, p2) := dec_char c2 in
      let! (t3, p3) := dec_char c3 in
      let! (o, n) := decode_loop t in
      Ok ([ Z.lor (u8 (Z.shiftl t0 2)) (Z.shiftr t1 4);
            Z.lor (u8 (Z.shiftl t1 4)) (Z.shiftr t2 2);
            Z.lor (u8 (Z.shiftl t2 6)) t3 ] ++ o, (p0 + p1 + p2 + p3 + n)%nat)
  | _ => Panic
  end.

(* utils/base64.rs:47-92; None is `Err tt`. The final loop pops padding_len bytes (pop on an empty
   vector is harmless). *)
Definition decode (l : list Z) : outcome unit (list Z) :=
  if negb (Nat.eqb (Nat.modulo (length l) 4) 0) then Err tt
  else let! (o, p) := decode_loop l in Ok (firstn (length o - p) o).
