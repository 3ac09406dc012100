(* The CertificateVerify messages on which the library panics *)
From Verif Require Import Model.Base Spec.Enc.
From Verif Require Spec.HelloPanics.

(* the first byte of an element: the tags the library knows, as X.690 8.1.2 has them - class (2 is context-specific), constructed or not, number *)
Definition known_tag (t : Z) : bool :=
  (t / 64 =? 2) ||
  (existsb (Z.eqb (t mod 32)) [2; 3; 4; 5; 6; 12; 16; 17; 19; 22; 23; 24] &&
   negb (existsb (Z.eqb (t mod 32)) (if (t / 32) mod 2 =? 1 then [2; 5; 6] else [16; 17]))).
(* a SEQUENCE; the class is not looked at unless it is context-specific *)
Definition sequence_tag (t : Z) : Prop := In t [0x30; 0x70; 0xF0].

(* the length of an element, with what follows: of more than 8 bytes the library uses the last 8 of the first 16 *)
Inductive length_of : list Z -> Z -> list Z -> Prop :=
| len_short n rest : n < 128 -> length_of (n :: rest) n rest
| len_long b octets rest : b = 128 + zlen octets -> length_of (b :: octets ++ rest) (be_val (firstn 16 octets) mod 2^64) rest.
Inductive length_cut : list Z -> Prop :=
| cut_none : length_cut []
| cut_long b octets : 128 + zlen octets < b -> length_cut (b :: octets).

(* an INTEGER of a signature of `total` bytes, with what follows.  Any known tag is taken for an INTEGER, and only a length of more
   than `total` is refused. *)
Inductive integer_panics (total : Z) : list Z -> Prop :=
| int_none : integer_panics total []
| int_cut t l : known_tag t = true -> length_cut l -> integer_panics total (t :: l)
| int_short t l n rest : known_tag t = true -> length_of l n rest -> zlen rest < n <= total -> integer_panics total (t :: l).
Inductive integer_read (total : Z) : list Z -> list Z -> Prop :=
| int_read t l n body rest : known_tag t = true -> length_of l n (body ++ rest) -> zlen body = n -> n <= total -> integer_read total (t :: l) rest.

Inductive signature_panics (der : list Z) : Prop :=
| sig_none : der = [] -> signature_panics der
| sig_cut t l : der = t :: l -> known_tag t = true -> length_cut l -> signature_panics der
| sig_r t l n rest : der = t :: l -> sequence_tag t -> length_of l n rest -> n <= zlen der -> integer_panics (zlen der) rest -> signature_panics der
| sig_s t l n rest rest' : der = t :: l -> sequence_tag t -> length_of l n rest -> n <= zlen der -> integer_read (zlen der) rest rest' ->
    integer_panics (zlen der) rest' -> signature_panics der.

(* the message: an algorithm, a length that is not used, the signature *)
Inductive verify_panics (body : list Z) : Prop :=
| vp_short : (length body < 2)%nat -> verify_panics body
| vp_other a b rest : body = a :: b :: rest -> In (HelloPanics.n16 a b) [0x0503; 0x0603] -> verify_panics body
| vp_cut rest : body = 4 :: 3 :: rest -> (length rest < 2)%nat -> verify_panics body
| vp_signature l1 l2 der : body = 4 :: 3 :: l1 :: l2 :: der -> signature_panics der -> verify_panics body.
