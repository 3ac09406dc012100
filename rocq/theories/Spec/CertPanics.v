(* What can make the certificate reader panic.  It goes through a certificate element by element, entering SEQUENCEs, SETs and those
   BIT STRINGs that hold a SEQUENCE; where an element ends is not checked against the element it stands in. *)
From Verif Require Import Model.Base Spec.Enc Spec.VerifyPanics.

(* the tags with number k, primitive and constructed, of the classes universal, application and private *)
Definition primitive (k t : Z) : Prop := In t [k; 64 + k; 192 + k].
Definition constructed (k t : Z) : Prop := In t [32 + k; 96 + k; 224 + k].
(* an element with tag t, its content and what follows it *)
Definition element (t : Z) (x content rest : list Z) : Prop :=
  exists l, x = t :: l /\ known_tag t = true /\ length_of l (zlen content) (content ++ rest).

Inductive place := Plain | InASet | InBits.
(* what is counted: OBJECT IDENTIFIERs outside SETs, and BIT STRINGs that are not entered, as public keys are *)
Inductive event := Algorithm | Key.

Definition has_key (ev : list event) : bool := existsb (fun e => match e with Key => true | Algorithm => false end) ev.
Definition algorithms (ev : list event) : nat := length (filter (fun e => match e with Algorithm => true | Key => false end) ev).

(* the reader, having met a key before or not (k), gets past the element in front *)
Inductive passes : bool -> place -> list Z -> list event -> list Z -> Prop :=
| pass_sequence k p t x content rest ev y : element t x content rest -> sequence_tag t -> passes_until (length rest) k p (content ++ rest) ev y -> passes k p x ev y
| pass_set k p t x content rest ev y : element t x content rest -> constructed 17 t -> passes k InASet (content ++ rest) ev y -> passes k p x ev y
| pass_context k p t x content rest : element t x content rest -> 160 <= t < 192 -> (t = 0xA0 \/ t = 0xB0 -> (2 <= length content)%nat) -> passes k p x [] rest
| pass_other k p t m x content rest : element t x content rest -> primitive m t -> In m [2; 12; 19; 22] -> passes k p x [] rest
| pass_time k p t x content rest : element t x content rest -> primitive 23 t -> Forall (fun b => ~ 128 <= b < 192) (firstn 13 content) -> passes k p x [] rest
| pass_name k t x content rest : element t x content rest -> primitive 6 t -> passes k InASet x [] rest
| pass_algorithm k t x content rest : element t x content rest -> primitive 6 t -> passes k Plain x [Algorithm] rest
| pass_bits k p t x content rest u more ev y : element t x content rest -> primitive 3 t -> content ++ rest = u :: 0x30 :: more ->
    passes_until (length rest) k InBits (0x30 :: more) ev y -> passes k p x ev y
| pass_key k p t x content rest b more : element t x content rest -> primitive 3 t -> content ++ rest = 0 :: b :: more -> b <> 0x30 ->
    content <> [] \/ k = true -> passes k p x [Key] rest
(* and past elements until no more than n bytes are left *)
with passes_until : nat -> bool -> place -> list Z -> list event -> list Z -> Prop :=
| until_done n k p x : (length x <= n)%nat -> passes_until n k p x [] x
| until_more n k p x ev1 x1 ev2 y : (n < length x)%nat -> passes k p x ev1 x1 -> passes_until n (k || has_key ev1) p x1 ev2 y -> passes_until n k p x (ev1 ++ ev2) y.

(* the reader stumbles over the element in front or over one in it; `total` is the size of the certificate *)
Inductive stumbles (total : Z) : bool -> place -> list Z -> Prop :=
| st_none k p : stumbles total k p []                                            (* nothing *)
| st_cut k p t l : known_tag t = true -> length_cut l -> stumbles total k p (t :: l)       (* an incomplete length *)
| st_short k p t l n rest : known_tag t = true -> length_of l n rest -> zlen rest < n <= total -> stumbles total k p (t :: l)   (* a content cut short *)
| st_octets k p t x content rest : element t x content rest -> primitive 4 t \/ primitive 5 t -> stumbles total k p x          (* OCTET STRING, NULL *)
| st_constructed k p t m x content rest : element t x content rest -> constructed m t -> In m [3; 4; 12; 19; 22; 23; 24] -> stumbles total k p x  (* a string or time in parts *)
| st_version k p t x content rest : element t x content rest -> t = 0xA0 \/ t = 0xB0 -> (length content < 2)%nat -> stumbles total k p x      (* [0] with less than an empty element in it *)
| st_time k p t x content rest b : element t x content rest -> primitive 23 t -> (12 <= length content)%nat ->       (* a time that is not ASCII *)
    In b (firstn 13 content) -> 128 <= b < 192 -> stumbles total k p x
| st_oid k t x content rest : element t x content rest -> primitive 6 t -> stumbles total k InBits x            (* an OBJECT IDENTIFIER in a BIT STRING *)
| st_bits k p t x content rest : element t x content rest -> primitive 3 t -> (length (content ++ rest) < 2)%nat -> stumbles total k p x     (* a BIT STRING at the end *)
| st_unused k p t x content rest u b more : element t x content rest -> primitive 3 t -> content ++ rest = u :: b :: more -> b <> 0x30 -> u <> 0 -> stumbles total k p x
| st_empty p t x rest b more : element t x [] rest -> primitive 3 t -> rest = 0 :: b :: more -> b <> 0x30 -> stumbles total false p x    (* an empty BIT STRING for a key *)
| st_in_sequence k p t x content rest : element t x content rest -> sequence_tag t -> stumbles_until total (length rest) k p (content ++ rest) -> stumbles total k p x
| st_in_set k p t x content rest : element t x content rest -> constructed 17 t -> stumbles total k InASet (content ++ rest) -> stumbles total k p x
| st_in_bits k p t x content rest u more : element t x content rest -> primitive 3 t -> content ++ rest = u :: 0x30 :: more ->
    stumbles_until total (length rest) k InBits (0x30 :: more) -> stumbles total k p x
with stumbles_until (total : Z) : nat -> bool -> place -> list Z -> Prop :=
| stu_here n k p x : (n < length x)%nat -> stumbles total k p x -> stumbles_until total n k p x
| stu_later n k p x ev x1 : (n < length x)%nat -> passes k p x ev x1 -> stumbles_until total n (k || has_key ev) p x1 -> stumbles_until total n k p x.

(* it stumbles, or gets through without having met a public key or four names of algorithms and curves *)
Definition certificate_trouble (data : list Z) : Prop :=
  stumbles (zlen data) false Plain data \/
  exists ev y, passes false Plain data ev y /\ (has_key ev = false \/ (algorithms ev < 4)%nat).
