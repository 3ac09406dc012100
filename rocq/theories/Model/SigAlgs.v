(* Model of SignatureAlgorithms::server_parse, anothertls/src/net/extensions/signature_algorithm.rs.  No code of the library
   calls it: the extension's type is none ExtensionType::new (shared.rs:91-105) knows.  The module is public. *)
From Verif Require Import Model.Base Model.Alert Model.Bytes Model.Extensions.

(* signature_algorithm.rs:102-105; n steps left, the next pair starts at i *)
Fixpoint schemes_scan (n : nat) (buf : list Z) (i : nat) : outcome tls_error (list sig_scheme) :=
  match n with
  | O => Ok []
  | S n' =>
      let! b := slice buf i (i + 2) in
      let! s := sig_scheme_new (to_u16 b) in
      let! r := schemes_scan n' buf (i + 2) in
      Ok (s :: r)
  end.
(* signature_algorithm.rs:95-109: (2..len).step_by(2) has len / 2 - 1 steps for an even len *)
Definition sig_algs_parse (buf : list Z) : outcome tls_error (list sig_scheme) :=
  let len := Z.to_nat (to_u16 buf) in
  if Nat.even len then schemes_scan (Nat.div2 len - 1) buf 2 else Ok [].
