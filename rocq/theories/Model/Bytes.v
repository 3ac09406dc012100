(* Model of anothertls/src/utils/bytes.rs *)
From Verif Require Import Model.Base.

(* utils/bytes.rs:8-14. The loop adds byte << (i*8) for i = 0,1,... *)
Fixpoint to_ibig_le_from (i : Z) (l : list Z) : Z :=
  match l with
  | [] => 0
  | b :: t => Z.shiftl b (i * 8) + to_ibig_le_from (i + 1) t
  end.
Definition to_ibig_le (l : list Z) : Z := to_ibig_le_from 0 l.

(* utils/bytes.rs:15-21. byte i is shifted by (len-1)*8 - i*8, which is never negative. *)
Fixpoint to_ibig_be_from (n i : Z) (l : list Z) : Z :=
  match l with
  | [] => 0
  | b :: t => Z.shiftl b ((n - 1) * 8 - i * 8) + to_ibig_be_from n (i + 1) t
  end.
Definition to_ibig_be (l : list Z) : Z := to_ibig_be_from (zlen l) 0 l.

(* utils/bytes.rs:22-26 *)
Inductive byte_order := Little | Big.

(* UBig::to_le_bytes of the ibig crate: the minimal little-endian bytes, empty for 0.
   External crate; this is its documented behaviour. Fuel = bit length, always sufficient. *)
Fixpoint le_digits (fuel : nat) (n : Z) : list Z :=
  match fuel with
  | O => []
  | S f => if n =? 0 then [] else (n mod 256) :: le_digits f (n / 256)
  end.
Definition ubig_to_le_bytes (n : Z) : list Z := le_digits (Z.to_nat (Z.log2 n + 1)) n.
Definition ubig_to_be_bytes (n : Z) : list Z := rev (ubig_to_le_bytes n).

(* utils/bytes.rs:27-34. UBig::try_from(negative).unwrap() panics. *)
Definition ibig_to_vec {E} (n : Z) (o : byte_order) : outcome E (list Z) :=
  if n <? 0 then Panic
  else Ok (match o with Big => ubig_to_be_bytes n | Little => ubig_to_le_bytes n end).

(* utils/bytes.rs:35-45. The produced bytes are copied to the front of a zeroed [0; 32] array. *)
Definition fill32 (b : list Z) : list Z := firstn 32 (b ++ repeat 0 32).
Definition ibig_to_32bytes {E} (n : Z) (o : byte_order) : outcome E (list Z) :=
  let! b := ibig_to_vec n o in Ok (fill32 b).

(* utils/bytes.rs:46-52 *)
Definition u128_to_bytes_be (n : Z) : list Z :=
  map (fun i => u8 (Z.shiftr n (15 * 8 - Z.of_nat i * 8))) (seq 0 16).

(* A Rust &str as its UTF-8 bytes. Slicing panics unless both ends are char boundaries, i.e. do not point at
   a continuation byte. *)
Definition str_boundary (s : list Z) (k : nat) : bool :=
  match nth_error s k with Some b => negb ((128 <=? b) && (b <? 192)) | None => Nat.eqb k (length s) end.
Definition str_slice {E} (s : list Z) (from to : nat) : outcome E (list Z) :=
  if str_boundary s from && str_boundary s to then slice s from to else Panic.

(* utils/bytes.rs:54-67. &s[..1] panics on the empty string. *)
Definition str_to_u8 {E} (s : list Z) : outcome E Z :=
  let! a := str_slice s 0 1 in
  let! c := idx a 0 in
  Ok (if (49 <=? c) && (c <=? 57) then c - 48 else 0).

(* utils/bytes.rs:68-70 *)
Definition str_to_u16 {E} (s : list Z) : outcome E Z :=
  let! a := str_slice s 0 1 in
  let! d1 := str_to_u8 a in
  let! b := str_slice s 1 2 in
  let! d2 := str_to_u8 b in
  Ok (d1 * 10 + d2).

(* utils/bytes.rs:87-95 *)
Definition to_u16 (buf : list Z) : Z :=
  match buf with
  | [] => 0
  | [a] => a
  | a :: b :: _ => Z.lor (u16 (Z.shiftl a 8)) b
  end.

(* utils/bytes.rs:110-121. Missing bytes are zeros at the END; more than 16 bytes are cut. *)
Fixpoint to_u128_be_from (i : Z) (l : list Z) : Z :=
  match l with
  | [] => 0
  | b :: t => u128 (Z.shiftl b (15 * 8 - i * 8)) + to_u128_be_from (i + 1) t
  end.
Definition to_u128_be (l : list Z) : Z := to_u128_be_from 0 (firstn 16 l).

(* utils/bytes.rs:96-109 *)
Definition to_u128_be_fill (l : list Z) : Z :=
  to_u128_be (if Nat.ltb (length l) 16 then repeat 0 (16 - length l) ++ l
              else firstn 16 l).

(* utils/bytes.rs:122-133 *)
Fixpoint to_u128_le_from (i : Z) (l : list Z) : Z :=
  match l with
  | [] => 0
  | b :: t => u128 (Z.shiftl b (i * 8)) + to_u128_le_from (i + 1) t
  end.
Definition to_u128_le (l : list Z) : Z := to_u128_le_from 0 (firstn 16 l).

(* utils/bytes.rs:134-140. Despite its name it reads big-endian; bytes[..8] panics when shorter. *)
Fixpoint to_u64_be_from (i : Z) (l : list Z) : Z :=
  match l with
  | [] => 0
  | b :: t => u64 (Z.shiftl b (7 * 8 - i * 8)) + to_u64_be_from (i + 1) t
  end.
Definition to_u64_le {E} (l : list Z) : outcome E Z :=
  let! s := slice l 0 8 in Ok (to_u64_be_from 0 s).

(* utils/bytes.rs:141-147 *)
Definition u64_to_bytes_le (n : Z) : list Z :=
  map (fun i => u8 (Z.shiftr n (Z.of_nat i * 8))) (seq 0 8).

(* utils/bytes.rs:149-155: format "{b:02x}" of each byte, as ASCII codes. *)
Definition hex_digit (d : Z) : Z := if d <? 10 then 48 + d else 87 + d.
Definition to_hex (l : list Z) : list Z :=
  flat_map (fun b => [hex_digit (b / 16); hex_digit (b mod 16)]) l.

(* utils/bytes.rs:157-172. u8::from_str_radix(sub, 16) on two characters: hex digits of either
   case, and "+d" (an optional sign) as Rust's integer parser allows. *)
Definition hex_val (c : Z) : option Z :=
  if (48 <=? c) && (c <=? 57) then Some (c - 48)
  else if (97 <=? c) && (c <=? 102) then Some (c - 87)
  else if (65 <=? c) && (c <=? 70) then Some (c - 55)
  else None.
Definition radix16 (c1 c2 : Z) : option Z :=
  if c1 =? 43 then hex_val c2
  else match hex_val c1, hex_val c2 with
       | Some a, Some b => Some (a * 16 + b)
       | _, _ => None
       end.
Fixpoint from_hex {E} (s : list Z) : outcome E (list Z) :=
  match s with
  | [] => Ok []
  | [_] => Panic
  | c1 :: c2 :: t =>
      let! v := unwrap (radix16 c1 c2) in
      let! r := from_hex t in
      Ok (v :: r)
  end.
