(* RFC 4648 section 4, base64: each 3-byte group is a 24-bit big-endian number written as four
   base-64 digits; a final group of 1 or 2 bytes is zero-extended and the digits that carry no data
   are replaced by '='. *)
From Coq Require Import List ZArith String Ascii.
Import ListNotations.
Open Scope Z_scope.

Definition codes (s : string) : list Z :=
  map (fun a => Z.of_nat (nat_of_ascii a)) (list_ascii_of_string s).

Definition alphabet : list Z :=
  codes "ABCDEFGHIJKLMNOPQRSTUVWXYZabcdefghijklmnopqrstuvwxyz0123456789+/".

Definition digit (v : Z) : Z := nth (Z.to_nat (v mod 64)) alphabet 0.
Definition pad : Z := 61.

Fixpoint b64 (l : list Z) : list Z :=
  match l with
  | [] => []
  | [a] => let v := a * 65536 in [digit (v / 262144); digit (v / 4096); pad; pad]
  | [a; b] => let v := a * 65536 + b * 256 in
              [digit (v / 262144); digit (v / 4096); digit (v / 64); pad]
  | a :: b :: c :: t => let v := a * 65536 + b * 256 + c in
              [digit (v / 262144); digit (v / 4096); digit (v / 64); digit v] ++ b64 t
  end.
