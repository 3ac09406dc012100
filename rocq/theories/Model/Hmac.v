(* Model of anothertls/src/hash/hmac.rs and hkdf.rs *)
From Verif Require Import Model.Base Model.Sha2.

(* hash/hmac.rs:29-77 (new/update only collect key and input). [0;128] arrays are lists; only the
   first `size` entries are used. *)
Definition hmac (h : hash_type) (key input : list Z) : list Z :=
  let size := match h with SHA256 => 64%nat | SHA384 => 128%nat end in
  let key' := if Nat.ltb 64 (length key) then sha_x h key else key in
  let padded := firstn 128 (key' ++ repeat 0 128) in
  let k_opad := map (fun b => Z.lxor b 0x5C) (firstn size padded) in
  let k_ipad := map (fun b => Z.lxor b 0x36) (firstn size padded) in
  sha_x h (k_opad ++ sha_x h (k_ipad ++ input)).

(* hash/hkdf.rs:10-13 *)
Record hkdf := { hk_hash : hash_type; hk_prk : list Z }.

(* hash/hkdf.rs:24-32 *)
Definition hkdf_extract (h : hash_type) (salt ikm : list Z) : hkdf :=
  {| hk_hash := h; hk_prk := hmac h salt ikm |}.

(* hash/hkdf.rs:46-61: the while loop; fuel = out_len is enough because each round adds at least one
   byte. `i` is a u8: i += 1 cannot overflow because at most 255 rounds run. *)
Fixpoint expand_loop (fuel : nat) (k : hkdf) (info : list Z) (out_len : nat)
    (okm last : list Z) (i : Z) : list Z :=
  if Nat.ltb (length okm) out_len then
    match fuel with
    | O => okm
    | S f =>
        let i' := i + 1 in
        let last' := hmac (hk_hash k) (hk_prk k) (last ++ info ++ [i']) in
        let needed := (Nat.min out_len (length okm + hash_len (hk_hash k)) - length okm)%nat in
        expand_loop f k info out_len (okm ++ firstn needed last') last' i'
    end
  else okm.

(* hash/hkdf.rs:35-64 *)
Definition hkdf_expand (k : hkdf) (info : list Z) (out_len : nat) : option (list Z) :=
  if Nat.ltb (hash_len (hk_hash k) * 255) out_len then None
  else Some (expand_loop out_len k info out_len [] [] 0).
