(* Shared vocabulary of the model: bytes, machine words, Rust results and panics. *)
From Coq Require Export List ZArith Bool.
Export ListNotations.
Open Scope Z_scope.

(* A Rust `u8` is a Z in [0,256); `&[u8]`, `Vec<u8>` and `[u8; n]` are lists of them. *)
Notation byte := Z (only parsing).
Notation bytes := (list Z) (only parsing).
Definition is_byte (b : Z) : Prop := 0 <= b < 256.
Definition is_bytes (l : list Z) : Prop := Forall is_byte l.

(* `as u8`, `as u16`, ... : truncating casts. *)
Definition u8 (x : Z) : Z := x mod 2 ^ 8.
Definition u16 (x : Z) : Z := x mod 2 ^ 16.
Definition u32 (x : Z) : Z := x mod 2 ^ 32.
Definition u64 (x : Z) : Z := x mod 2 ^ 64.
Definition u128 (x : Z) : Z := x mod 2 ^ 128.

(* `Result<A,E>` with panics made explicit: index out of bounds, `unwrap()` of `None`/`Err`,
   `expect`, `todo!()`, arithmetic overflow in the dev profile. *)
Inductive outcome (E A : Type) : Type :=
| Ok (a : A)
| Err (e : E)
| Panic.
Arguments Ok {E A} a.
Arguments Err {E A} e.
Arguments Panic {E A}.

Definition bind {E A B : Type} (m : outcome E A) (k : A -> outcome E B) : outcome E B :=
  match m with
  | Ok a => k a
  | Err e => Err e
  | Panic => Panic
  end.

Notation "'let!' x ':=' m 'in' k" := (bind m (fun x => k))
  (at level 200, x pattern, m at level 100, k at level 200, right associativity).

Definition is_ok {E A} (m : outcome E A) : bool := match m with Ok _ => true | _ => false end.

(* `opt.unwrap()` *)
Definition unwrap {E A} (o : option A) : outcome E A :=
  match o with Some a => Ok a | None => Panic end.

(* `buf[i]` *)
Definition idx {E A} (l : list A) (i : nat) : outcome E A := unwrap (nth_error l i).

(* `&buf[from..to]`: panics unless from <= to <= buf.len() *)
Definition slice {E A} (l : list A) (from to : nat) : outcome E (list A) :=
  if (Nat.leb from to && Nat.leb to (length l))%bool
  then Ok (firstn (to - from) (skipn from l))
  else Panic.

(* `&buf[from..]` *)
Definition slice_from {E A} (l : list A) (from : nat) : outcome E (list A) :=
  if Nat.leb from (length l) then Ok (skipn from l) else Panic.

(* length as a Z *)
Definition zlen {A} (l : list A) : Z := Z.of_nat (length l).

Definition list_eqb (a b : list Z) : bool :=
  (Nat.eqb (length a) (length b) && forallb (fun p => Z.eqb (fst p) (snd p)) (combine a b))%bool.

(* vec![v; n] *)
Definition rep (v : Z) (n : nat) : list Z := repeat v n.
