(* C30, C31, C63: Curve25519 *)
From Coq Require Import Lia.
From Verif.Model Require Import Base X25519.
From Verif.Spec Require Import Enc Limbs Rfc7748.
From Verif.Proofs Require X25519 Dh25519 X25519Props.

(* C30.  Every operation succeeds (no 64-bit overflow) and its result stands for the right
   residue; what one operation returns is what the next one accepts. *)
Theorem C30_add : forall a b, limbs_reduced a -> limbs_reduced b ->
  exists r, fadd (E:=Empty_set) a b = Ok r /\ limbs_within (2 ^ 18) r /\ limbs_value r = limbs_value a + limbs_value b.
Proof. exact X25519Props.add_ok. Qed.
Print Assumptions C30_add.

Theorem C30_sub : forall a b, limbs_reduced a -> limbs_reduced b ->
  exists r, fsub (E:=Empty_set) a b = Ok r /\ limbs_within (2 ^ 18) r /\ limbs_value r = limbs_value a - limbs_value b.
Proof. exact X25519Props.sub_ok. Qed.
Print Assumptions C30_sub.

Theorem C30_mul : forall a b, limbs_within (2 ^ 18) a -> limbs_within (2 ^ 18) b ->
  exists r, fmul (E:=Empty_set) a b = Ok r /\ limbs_reduced r /\
    limbs_value r mod p25519 = (limbs_value a * limbs_value b) mod p25519.
Proof. exact X25519Props.mul_ok. Qed.
Print Assumptions C30_mul.

Theorem C30_inverse : forall a, limbs_reduced a -> limbs_value a mod p25519 <> 0 ->
  exists r, finverse (E:=Empty_set) a = Ok r /\ limbs_reduced r /\
    (limbs_value a * limbs_value r) mod p25519 = 1.
Proof. exact X25519Props.inverse_ok. Qed.
Print Assumptions C30_inverse.

(* the inverse of 0 is 0, as RFC 7748 needs *)
Theorem C30_inverse_zero : forall a, limbs_reduced a -> limbs_value a mod p25519 = 0 ->
  exists r, finverse (E:=Empty_set) a = Ok r /\ limbs_reduced r /\ limbs_value r mod p25519 = 0.
Proof. exact X25519Props.inverse_zero. Qed.
Print Assumptions C30_inverse_zero.

(* the bytes packed are the little-endian digits of the representative in [0, p) *)
Theorem C30_pack : forall a, limbs_reduced a ->
  exists bytes, pack25519 (E:=Empty_set) a = Ok bytes /\ length bytes = 32%nat /\ is_bytes bytes /\
    le_val bytes = limbs_value a mod p25519.
Proof. exact X25519Props.pack_ok. Qed.
Print Assumptions C30_pack.

Theorem C30_unpack : forall u, is_bytes u -> length u = 32%nat ->
  limbs_reduced (unpack25519 u) /\ limbs_value (unpack25519 u) = le_val u mod 2 ^ 255.
Proof. exact X25519Props.unpack_ok. Qed.
Print Assumptions C30_unpack.

Theorem C30_reduced_within : forall a, limbs_reduced a -> limbs_within (2 ^ 18) a.
Proof. exact X25519Props.reduced_within. Qed.
Print Assumptions C30_reduced_within.

(* p - 1 in limbs; its square is 1, and p itself packs to 0 *)
Example C30_p_minus_1 : limbs_reduced (0xffec :: repeat 0xffff 14 ++ [0x7fff]) /\
  limbs_value (0xffec :: repeat 0xffff 14 ++ [0x7fff]) = p25519 - 1.
Proof. split; [|vm_compute; reflexivity]. eexists _, _. split; [reflexivity|]. cbn [repeat app length]. split; [reflexivity|]. split; [lia|]. repeat constructor; lia. Qed.
Example C30_square : (let! s := fmul (E:=Empty_set) (0xffec :: repeat 0xffff 14 ++ [0x7fff]) (0xffec :: repeat 0xffff 14 ++ [0x7fff]) in pack25519 s)
  = Ok (1 :: repeat 0 31).
Proof. vm_compute. reflexivity. Qed.
Example C30_p_packs_to_0 : pack25519 (E:=Empty_set) (0xffed :: repeat 0xffff 14 ++ [0x7fff]) = Ok (repeat 0 32).
Proof. vm_compute. reflexivity. Qed.

(* C31 *)
Theorem C31_x25519 : forall point scalar, is_bytes point -> is_bytes scalar ->
  length point = 32%nat -> length scalar = 32%nat ->
  scalarmult (E:=Empty_set) point scalar = Ok (X25519 scalar point).
Proof. exact X25519.scalarmult_ok. Qed.
Print Assumptions C31_x25519.

(* the all-zero scalar and the all-ones u-coordinate meet the hypotheses *)
Example C31_inputs : is_bytes (repeat 255 32) /\ is_bytes (repeat 0 32) /\ length (repeat 255 32) = 32%nat.
Proof. repeat split; try (apply Forall_forall; intros x I; apply repeat_spec in I; subst; unfold is_byte; lia). Qed.
(* the specification itself: clamping and decoding of RFC 7748 section 5.2, first vector *)
Example C31_scalar : decodeScalar [0xa5;0x46;0xe3;0x6b;0xf0;0x52;0x7c;0x9d;0x3b;0x16;0x15;0x4b;0x82;0x46;0x5e;0xdd;0x62;0x14;0x4c;0x0a;0xc1;0xfc;0x5a;0x18;0x50;0x6a;0x22;0x44;0xba;0x44;0x9a;0xc4]
  = 31029842492115040904895560451863089656472772604678260265531221036453811406496.
Proof. vm_compute. reflexivity. Qed.
Example C31_u : decodeUCoordinate [0xe6;0xdb;0x68;0x67;0x58;0x30;0x30;0xdb;0x35;0x94;0xc1;0xa4;0x24;0xb1;0x5f;0x7c;0x72;0x66;0x24;0xec;0x26;0xb3;0x35;0x3b;0x10;0xa9;0x03;0xa6;0xd0;0xab;0x1c;0x4c]
  = 34426434033919594451155107781188821651316167215306631574996226621102155684838.
Proof. vm_compute. reflexivity. Qed.

(* C63: whatever the two private keys, each side multiplying the other's public key (X25519 of
   its private key and the base point 9) obtains the same 32 bytes *)
Definition nine : list Z := 9 :: repeat 0 31.
Theorem C63_agreement : forall a b pa pb sa sb,
  is_bytes a -> is_bytes b -> length a = 32%nat -> length b = 32%nat ->
  scalarmult (E:=Empty_set) nine a = Ok pa -> scalarmult (E:=Empty_set) nine b = Ok pb ->
  scalarmult (E:=Empty_set) pb a = Ok sa -> scalarmult (E:=Empty_set) pa b = Ok sb ->
  sa = sb.
Proof. exact X25519Props.agreement. Qed.
Print Assumptions C63_agreement.

Theorem C63_total : forall a, is_bytes a -> length a = 32%nat ->
  exists pa, scalarmult (E:=Empty_set) nine a = Ok pa /\ is_bytes pa /\ length pa = 32%nat /\ le_val pa < p25519.
Proof. exact X25519Props.total. Qed.
Print Assumptions C63_total.
