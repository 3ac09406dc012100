(* C01, C02, C07: base64, PEM, integers as bytes. Property theorems only. *)
From Coq Require String.
From Verif Require Import Model.Base Model.Base64 Model.Pem Model.Bytes Spec.Rfc4648 Spec.PemFile Spec.Enc Spec.Hex.
From Verif Require Proofs.Base64 Proofs.Pem Proofs.Bytes Proofs.Hex.
Import String.StringSyntax.
Local Open Scope string_scope. Local Open Scope list_scope. Local Open Scope Z_scope.

Theorem C01_base64_encode_is_rfc4648 : forall l, is_bytes l -> encode l = b64 l.
Proof. exact Proofs.Base64.encode_spec. Qed.
Print Assumptions C01_base64_encode_is_rfc4648.

Theorem C01_base64_round_trip : forall l, is_bytes l -> decode (encode l) = Ok l.
Proof. exact Proofs.Base64.decode_encode. Qed.
Print Assumptions C01_base64_round_trip.

Example C01_ex : is_bytes [0; 255; 17; 3] /\ encode [0; 255; 17; 3] = codes "AP8RAw==".
Proof. split; [repeat constructor|vm_compute; reflexivity]. all: unfold is_byte; cbv; auto; discriminate. Qed.

Theorem C02_pem_blocks_are_read_back : forall is, Forall item_ok is -> has_block is ->
  exists m, pem_parse (text_of_lines (file_lines is)) = Ok m /\
            forall title, pem_get m title = last_block title is.
Proof. intros is H. exact (proj1 (Proofs.Pem.pem_parse_items is H)). Qed.
Print Assumptions C02_pem_blocks_are_read_back.

Theorem C02_pem_without_block_is_rejected : forall is, Forall item_ok is -> ~ has_block is ->
  pem_parse (text_of_lines (file_lines is)) = Err tt.
Proof. intros is H. exact (proj2 (Proofs.Pem.pem_parse_items is H)). Qed.
Print Assumptions C02_pem_without_block_is_rejected.

Theorem C02_pem_truncated_is_rejected : forall is title body rest data,
  Forall item_ok is -> title_ok title -> is_bytes data -> concat (body ++ rest) = b64 data ->
  pem_parse (text_of_lines (file_lines is ++ begin_line title :: body)) = Err tt.
Proof. exact Proofs.Pem.pem_parse_truncated. Qed.
Print Assumptions C02_pem_truncated_is_rejected.

(* two blocks with the same title, wrapped differently, a comment line between them *)
Definition C02_items : list item :=
  [ Block (codes "CERTIFICATE") [codes "AP8R"; codes "Aw=="] [0; 255; 17; 3];
    Text (codes "some comment");
    Block (codes "CERTIFICATE") [codes "AP8="] [0; 255] ].
Example C02_ex : Forall item_ok C02_items /\ has_block C02_items /\
  last_block (codes "CERTIFICATE") C02_items = Some [0; 255].
Proof.
  split; [|split].
  - repeat constructor; cbn; try (intros H; intuition discriminate); try discriminate;
      repeat constructor; unfold nl; cbv; auto; discriminate.
  - do 3 eexists. left. reflexivity.
  - reflexivity.
Qed.

Theorem C07_reads_are_positional : forall l, is_bytes l ->
  to_ibig_be l = be_val l /\ to_ibig_le l = le_val l /\
  (length l = 16%nat -> to_u128_be l = be_val l) /\
  ((length l <= 16)%nat -> to_u128_be_fill l = be_val l) /\
  to_u128_le l = le_val (firstn 16 l).
Proof.
  exact (fun l H => conj (Proofs.Bytes.to_ibig_be_val l) (conj (Proofs.Bytes.to_ibig_le_val l)
    (conj (Proofs.Bytes.to_u128_be_16 l H) (conj (Proofs.Bytes.to_u128_be_fill_val l H)
      (Proofs.Bytes.to_u128_le_val l H))))).
Qed.
Print Assumptions C07_reads_are_positional.

Theorem C07_writes_invert_reads : forall n, 0 <= n ->
  (exists v, ibig_to_vec (E:=unit) n Big = Ok v /\ be_val v = n /\ is_bytes v) /\
  (exists v, ibig_to_vec (E:=unit) n Little = Ok v /\ le_val v = n /\ is_bytes v) /\
  (n < 2^256 -> ibig_to_32bytes (E:=unit) n Little = Ok (le_enc 32 n)) /\
  u64_to_bytes_le n = le_enc 8 n /\ u128_to_bytes_be n = be_enc 16 n.
Proof.
  exact (fun n H => conj (Proofs.Bytes.ibig_vec_be' n H) (conj (Proofs.Bytes.ibig_vec_le n H)
    (conj (fun H1 => Proofs.Bytes.ibig_to_32_little n (conj H H1))
      (conj (Proofs.Bytes.u64_to_bytes_le_enc n) (Proofs.Bytes.u128_to_bytes_be_enc n))))).
Qed.
Print Assumptions C07_writes_invert_reads.

Theorem C07_hex_round_trip : forall l, is_bytes l -> from_hex (E:=unit) (to_hex l) = Ok l.
Proof. exact Proofs.Bytes.from_to_hex. Qed.
Print Assumptions C07_hex_round_trip.
(* every text that can be read and what it is read as; any other panics *)
Theorem C07_hex_read : forall s, (forall l, from_hex (E:=unit) s = Ok l <-> spells s l) /\ ((forall l, ~ spells s l) -> from_hex (E:=unit) s = Panic).
Proof. intros s. split; [apply Proofs.Hex.from_hex_spells|apply Proofs.Hex.from_hex_else]. Qed.
Print Assumptions C07_hex_read.
Example C07_hex_ex : spells (codes "fF+a") [255; 10] /\ forall l, ~ spells (codes "0g") l.
Proof. split; [apply (proj1 (C07_hex_read _)); reflexivity|]. intros l H. apply (proj1 (C07_hex_read _)) in H. discriminate. Qed.

(* the function called to_u64_le reads big-endian *)
Theorem C07_u64_le_refuted : exists l, is_bytes l /\ length l = 8%nat /\
  to_u64_le (E:=unit) l <> Ok (le_val l).
Proof. exact Proofs.Bytes.to_u64_le_not_little_endian. Qed.
Print Assumptions C07_u64_le_refuted.
Theorem C07_u64_reads_big_endian : forall l, is_bytes l -> (8 <= length l)%nat ->
  to_u64_le (E:=unit) l = Ok (be_val (firstn 8 l)).
Proof. exact Proofs.Bytes.to_u64_le_val. Qed.
Print Assumptions C07_u64_reads_big_endian.

Example C07_ex : is_bytes [1; 2; 3] /\ to_ibig_be [1; 2; 3] = 66051 /\ to_ibig_le [1; 2; 3] = 197121.
Proof. repeat split; repeat constructor; unfold is_byte; cbv; auto; discriminate. Qed.
