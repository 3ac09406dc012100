(* C06: ECDSA signatures in DER. Property theorems only. *)
From Coq Require Import Lia.
From Verif Require Import Model.Base Model.Bytes Model.Alert Model.Signature Spec.Enc Spec.X509.
From Verif Require Proofs.Signature.

(* holds when both numbers need all 32 bytes *)
Theorem C06_round_trip_partial : forall r s, 2^248 <= r < 2^256 -> 2^248 <= s < 2^256 ->
  exists der, sig_to_der (E:=Empty_set) {| sg_r := r; sg_s := s |} = Ok der /\
    sig_from_der der = Ok ({| sg_r := r; sg_s := s |}, length der).
Proof.
  intros r s Hr Hs. destruct (Proofs.Signature.round_trip (E:=Empty_set) r s ltac:(lia) ltac:(lia)) as (der & H1 & H2).
  exists der. rewrite (Proofs.Signature.shifted_top r Hr), (Proofs.Signature.shifted_top s Hs) in H2. auto.
Qed.
Print Assumptions C06_round_trip_partial.
(* and never otherwise: a shorter number comes back multiplied by a power of 256 *)
Theorem C06_round_trip_refuted : forall r s, 0 < r < 2^256 -> 0 < s < 2^256 -> r < 2^248 \/ s < 2^248 ->
  exists der sig', sig_to_der (E:=Empty_set) {| sg_r := r; sg_s := s |} = Ok der /\
    sig_from_der der = Ok (sig', length der) /\ sig' <> {| sg_r := r; sg_s := s |} /\
    sg_r sig' = r * 256 ^ (31 - Z.log2 r / 8) /\ sg_s sig' = s * 256 ^ (31 - Z.log2 s / 8).
Proof.
  intros r s Hr Hs H. destruct (Proofs.Signature.round_trip (E:=Empty_set) r s Hr Hs) as (der & H1 & H2).
  exists der, {| sg_r := Proofs.Signature.shifted r; sg_s := Proofs.Signature.shifted s |}.
  split; [exact H1|]. split; [exact H2|]. split; [|split; reflexivity]. intros Q. injection Q as Q1 Q2.
  destruct H; [apply (Proofs.Signature.shifted_short r) in Q1|apply (Proofs.Signature.shifted_short s) in Q2]; auto; lia.
Qed.
Print Assumptions C06_round_trip_refuted.
(* reading: every DER Ecdsa-Sig-Value is read as its two numbers, whatever follows it *)
Theorem C06_from_der : forall r s rest, Z.of_nat (length (EcdsaSigValue r s)) < 2^24 ->
  sig_from_der (EcdsaSigValue r s ++ rest) =
    Ok ({| sg_r := be_val r; sg_s := be_val s |}, length (EcdsaSigValue r s)).
Proof. exact Proofs.Signature.sig_from_der_spec. Qed.
Print Assumptions C06_from_der.
Example C06_ex : EcdsaSigValue [0; 200] [7] = [0x30; 7; 2; 2; 0; 200; 2; 1; 7] /\
  sig_from_der [0x30; 7; 2; 2; 0; 200; 2; 1; 7; 99] = Ok ({| sg_r := 200; sg_s := 7 |}, 9%nat) /\
  2^248 <= 2^255 + 12345 < 2^256 /\
  match sig_to_der (E:=Empty_set) {| sg_r := 2^255 + 1; sg_s := 2^240 |} with
  | Ok d => sig_from_der d = Ok ({| sg_r := 2^255 + 1; sg_s := 2^248 |}, 71%nat)
  | _ => False
  end.
Proof. vm_compute. intuition discriminate. Qed.
