(* Model of anothertls/src/rand/.  What /dev/urandom gives for one read is the argument `buf`, 100 bytes. *)
From Verif Require Import Model.Base Model.Bytes Model.Server Model.Client Model.Config.

(* rand/urandom.rs:31-36 *)
Definition urandom_next {E} (buf : list Z) : outcome E Z :=
  let! b := slice buf 0 8 in
  let! size := to_u64_le b in
  let size := size mod 50 + 50 in
  let! b := slice buf 8 (Z.to_nat size) in
  Ok (to_ibig_be b).
(* `%` of IBig: truncated, panics on a zero divisor *)
Definition ibig_rem {E} (a b : Z) : outcome E Z := if b =? 0 then Panic else Ok (Z.rem a b).
(* rand/urandom.rs:46-50 *)
Definition urandom_between {E} (buf : list Z) (min max : nat) : outcome E Z :=
  let min := 2 ^ (Z.of_nat min * 8) in
  let max := 2 ^ (Z.of_nat max * 8) in
  let! n := urandom_next buf in
  let! r := ibig_rem n (max - min) in
  Ok (r + min).
(* rand/urandom.rs:51-54 *)
Definition urandom_bytes {E} (buf : list Z) (size : nat) : outcome E (list Z) := slice buf 0 size.

(* rand/simplerng.rs:21-27: the new state and the value *)
Definition simple32_next (s : Z) : Z * Z :=
  let s := u32 (s + 1) in
  let a := u32 (s * 15485863) in
  (s, u32 (a ^ 3) mod (2 ^ 32 - 1)).
(* rand/simplerng.rs:29-33; max - min underflows when max < min, and the divisor must not be zero *)
Definition simple32_between {E} (s : Z) (min max : Z) : Z * outcome E Z :=
  let min := u32 min in
  let max := u32 max in
  let (s, n) := simple32_next s in
  (s, if max <=? min then Panic else let r := n mod (max - min) + min in if r <? 2 ^ 32 then Ok r else Panic).
(* rand/simplerng.rs:34-40: `while res.len() >= size`, with fuel; None: still looping *)
Fixpoint simple32_bytes (fuel : nat) (s : Z) (res : list Z) (size : nat) : option (list Z) :=
  if Nat.leb size (length res) then
    match fuel with
    | O => None
    | S f => let (s, n) := simple32_next s in simple32_bytes f s (res ++ [u8 n]) size
    end
  else Some res.

(* rand/simplerng.rs:50-54 *)
Fixpoint product_of (n : nat) (s : Z) (b : Z) : Z :=
  match n with
  | O => b
  | S n => let (s, v) := simple32_next s in product_of n s (b * v)
  end.
(* rand/simplerng.rs:43-55 *)
Definition simple_next {E} (s : Z) : Z * outcome E Z :=
  (s + 10, let! b := ibig_to_32bytes s Little in Ok (product_of 10 (u32 (to_u128_be b)) 1)).
(* rand/simplerng.rs:58-62 *)
Definition simple_between {E} (s : Z) (min max : nat) : Z * outcome E Z :=
  let min := 2 ^ (Z.of_nat min * 8) in
  let max := 2 ^ (Z.of_nat max * 8) in
  let (s, n) := simple_next s in
  (s, let! n := n in let! r := ibig_rem n (max - min) in Ok (r + min)).
(* rand/simplerng.rs:63-72 *)
Fixpoint simple_bytes {E} (fuel : nat) (s : Z) (res : list Z) (size : nat) : option (outcome E (list Z)) :=
  if Nat.leb size (length res) then
    match fuel with
    | O => None
    | S f => let (s, n) := simple_next s in
             match (let! n := n in ibig_to_32bytes (E:=E) n Little) with
             | Ok b => simple_bytes f s (res ++ b) size
             | Err e => Some (Err e)
             | Panic => Some Panic
             end
    end
  else Some (Ok res).

(* `.try_into().unwrap()` of a Vec<u8> into [u8; 32]: server_hello.rs:90 *)
Definition to_array32 {E} (l : list Z) : outcome E (list Z) := if Nat.eqb (length l) 32 then Ok l else Panic.

(* What a server handshake draws, in the order of the calls: server_hello.rs:90, 112, connection.rs:233 with the generator of
   connection.rs:85-88; ecdsa.rs:45 with URandomRng whatever the configuration (connection.rs:258, certificate.rs).  One
   buffer per read of /dev/urandom; `shares` has one for each X25519 share looked at, `loop` one for each turn of the loop. *)
Fixpoint map_outcome {E A B} (f : A -> outcome E B) (l : list A) : outcome E (list B) :=
  match l with [] => Ok [] | a :: r => let! b := f a in let! bs := map_outcome f r in Ok (b :: bs) end.
Definition server_draws {E} (p : prng) (random : list Z) (shares : list (list Z)) (context : list Z) (loop : list (list Z)) : outcome E draws :=
  match p with
  | PrngURandom =>
      let! r := urandom_bytes random 32 in
      let! r := to_array32 r in
      let! s := map_outcome (fun b => urandom_between b 1 32) shares in
      let! c := urandom_bytes context 32 in
      let! n := map_outcome (fun b => urandom_between b 1 32) loop in
      Ok {| d_random := r; d_secrets := s; d_context := c; d_nonces := n |}
  | PrngSimple =>
      match simple_bytes 1 0 [] 32 with
      | Some r => let! r := r in let! r := to_array32 r in Ok {| d_random := r; d_secrets := []; d_context := []; d_nonces := [] |}
      | None => Panic
      end
  end.
(* client/connection.rs:69-70, 152-153; took: how much of the ClientHello the first write takes *)
Definition client_draws_of {E} (secret random session : list Z) (loop : list (list Z)) (took : nat) : outcome E client_draws :=
  let! k := urandom_between secret 1 32 in
  let! r := urandom_bytes random 32 in
  let! s := urandom_bytes session 32 in
  let! n := map_outcome (fun b => urandom_between b 1 32) loop in
  Ok {| e_secret := k; e_random := r; e_session := s; e_nonces := n; e_took := took |}.
