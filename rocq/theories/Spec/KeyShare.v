(* Byte strings read as big-endian numbers and written back without their leading zeros *)
From Coq Require Import ZArith List.
From Verif.Spec Require Import Enc.
Import ListNotations.
Open Scope Z_scope.

Fixpoint drop_zeros (l : list Z) : list Z :=
  match l with 0 :: t => drop_zeros t | _ => l end.
(* the leading zero bytes of a 32-byte string moved to its end *)
Definition zeros_to_end (l : list Z) : list Z :=
  drop_zeros l ++ repeat 0 (32 - length (drop_zeros l)).

(* the 32-byte X25519 private key that belongs to the secret number drawn for a handshake *)
Definition x25519_private (secret : Z) : list Z := zeros_to_end (be_enc 32 secret).
(* the u-coordinate of the base point *)
Definition base_point : list Z := 9 :: repeat 0 31.
