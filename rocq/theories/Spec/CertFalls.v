(* Bytes on which the certificate reader does panic: what it stumbles over comes before anything it could refuse with an error,
   that is, only SEQUENCEs, SETs and BIT STRINGs it enters, INTEGERs and context-specific elements other than the version come before it. *)
From Verif Require Import Model.Base Spec.Enc Spec.VerifyPanics Spec.CertPanics.

(* `total` is the size of the certificate, `bits` whether the reader is in a BIT STRING it entered *)
Inductive falls (total : Z) : bool -> list Z -> Prop :=
| falls_none bits : falls total bits []                                                                          (* nothing *)
| falls_cut bits t l : known_tag t = true -> length_cut l -> falls total bits (t :: l)                           (* an incomplete length *)
| falls_short bits t l n rest : known_tag t = true -> length_of l n rest -> zlen rest < n <= total -> falls total bits (t :: l)   (* a content cut short *)
| falls_octets bits t x content rest : element t x content rest -> primitive 4 t \/ primitive 5 t -> falls total bits x           (* OCTET STRING, NULL *)
| falls_constructed bits t m x content rest : element t x content rest -> constructed m t -> In m [3; 4; 12; 19; 22; 23; 24] -> falls total bits x  (* a string or time in parts *)
| falls_version bits t x content rest : element t x content rest -> t = 0xA0 \/ t = 0xB0 -> (length content < 2)%nat -> falls total bits x   (* [0] with less than an empty element in it *)
| falls_bits bits t x content rest : element t x content rest -> primitive 3 t -> (length (content ++ rest) < 2)%nat -> falls total bits x  (* a BIT STRING at the end *)
| falls_unused bits t x content rest u b more : element t x content rest -> primitive 3 t -> content ++ rest = u :: b :: more -> b <> 0x30 -> u <> 0 -> falls total bits x
| falls_oid t x content rest : element t x content rest -> primitive 6 t -> falls total true x                                  (* an OBJECT IDENTIFIER in a BIT STRING *)
| falls_in_bits bits t x content rest u more : element t x content rest -> primitive 3 t -> content ++ rest = u :: 0x30 :: more ->
    falls_until total (length rest) true (0x30 :: more) -> falls total bits x
| falls_in_set bits t x content rest : element t x content rest -> constructed 17 t -> falls total false (content ++ rest) -> falls total bits x
| falls_in bits t x content rest : element t x content rest -> sequence_tag t -> falls_until total (length rest) bits (content ++ rest) -> falls total bits x
(* over an element that begins with more than n bytes left *)
with falls_until (total : Z) : nat -> bool -> list Z -> Prop :=
| fu_here bits n x : (n < length x)%nat -> falls total bits x -> falls_until total n bits x
| fu_integer bits n t x content rest : (n < length x)%nat -> element t x content rest -> primitive 2 t -> falls_until total n bits rest -> falls_until total n bits x
| fu_context bits n t x content rest : (n < length x)%nat -> element t x content rest -> 160 <= t < 192 -> t <> 0xA0 -> t <> 0xB0 -> falls_until total n bits rest -> falls_until total n bits x.
