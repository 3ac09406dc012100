(* Positional notation: the reference meaning of byte strings as numbers. *)
From Coq Require Import List ZArith.
Import ListNotations.
Open Scope Z_scope.

(* most significant byte first *)
Definition be_val (l : list Z) : Z := fold_left (fun acc b => acc * 256 + b) l 0.
(* least significant byte first *)
Definition le_val (l : list Z) : Z := fold_right (fun b acc => b + 256 * acc) 0 l.

(* the k-byte encodings *)
Fixpoint le_enc (k : nat) (n : Z) : list Z :=
  match k with O => [] | S k' => n mod 256 :: le_enc k' (n / 256) end.
Definition be_enc (k : nat) (n : Z) : list Z := rev (le_enc k n).

(* cutting a byte string into pieces of k bytes, the last one possibly shorter
   (k > 0 and fuel >= length l) *)
Fixpoint pieces (fuel k : nat) (l : list Z) : list (list Z) :=
  match fuel, l with
  | _, [] => []
  | O, _ => []
  | S f, _ => firstn k l :: pieces f k (skipn k l)
  end.
