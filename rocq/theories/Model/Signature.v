(* Model of anothertls/src/crypto/ellipticcurve/signature.rs *)
From Verif Require Import Model.Base Model.Bytes Model.Alert Model.Der.

(* signature.rs:14-18 *)
Record signature := { sg_r : Z; sg_s : Z }.

(* signature.rs:45-52: one INTEGER of the signature (any DER type is taken for one) *)
Definition sig_int (buf : list Z) (c : nat) : outcome tls_error (Z * nat) :=
  match der_parse c buf with
  | Ok (size, _, c) => let! b := slice buf c (c + size) in Ok (to_ibig_be b, (c + size)%nat)
  | Err _ => Err BadCertificate
  | Panic => Panic
  end.
(* signature.rs:25-59. Panics on a header or body outside the buffer. *)
Definition sig_from_der (buf : list Z) : outcome tls_error (signature * nat) :=
  match der_parse 0 buf with
  | Ok (_, Constructed DSequence, c) =>
      let! (r, c) := sig_int buf c in
      let! (s, c) := sig_int buf c in
      Ok ({| sg_r := r; sg_s := s |}, c)
  | Ok _ => Err BadCertificate
  | Err _ => Err BadCertificate
  | Panic => Panic
  end.

(* signature.rs:71-85: one INTEGER *)
Definition sig_int_der (b : list Z) : list Z :=
  if Z.shiftr (hd 0 b) 7 =? 1 then [2; u8 (zlen b) + 1; 0] ++ b else [2; u8 (zlen b)] ++ b.
(* signature.rs:61-89 *)
Definition sig_to_der {E} (sg : signature) : outcome E (list Z) :=
  let! s := ibig_to_32bytes (sg_s sg) Big in
  let! r := ibig_to_32bytes (sg_r sg) Big in
  let body := sig_int_der r ++ sig_int_der s in
  Ok ([0x30; u8 (zlen body)] ++ body).
