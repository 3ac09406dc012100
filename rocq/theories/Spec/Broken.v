(* Records that bring a side down as the first protected one it gets *)
From Verif Require Import Model.Base Model.Record Spec.Enc Spec.CertMessagePanics.

(* the handshake types of RFC 8446, 4 *)
Definition handshake_types : list Z := [1; 2; 4; 5; 8; 11; 13; 15; 20; 24; 254].
(* `open` says with which content, of which type, a record opens *)
Inductive broken (open : record_type -> list Z -> record -> Prop) (r : record) : Prop :=
| broken_alert :                           (* an alert of fewer than two bytes *)
    r_type r = RAlert -> (length (r_fragment r) < 2)%nat -> broken open r
| broken_short :                           (* a protected record without room for its tag *)
    r_type r <> RAlert -> r_type r <> RChangeCipherSpec -> (length (r_fragment r) < 16)%nat -> broken open r
| broken_sealed_alert content :            (* an alert of fewer than two bytes inside a record that opens *)
    r_type r = RApplicationData -> open RAlert content r -> (length content < 2)%nat -> broken open r
| broken_frame ty b1 b2 b3 rest :          (* a handshake message that is said to be longer than it is *)
    r_type r = RApplicationData -> open RHandshake (ty :: b1 :: b2 :: b3 :: rest) r -> In ty handshake_types -> zlen rest < n24 b1 b2 b3 -> broken open r.
