(* C94: texts that are not base64. Property theorems only. *)
From Coq Require Import Lia.
From Coq Require String.
From Verif Require Import Model.Base Model.Base64 Model.Pem Spec.Rfc4648 Spec.PemFile Spec.Base64Any.
From Verif Require Proofs.Base64Any Proofs.Pem.
Import String.StringSyntax.
Local Open Scope string_scope. Local Open Scope list_scope. Local Open Scope Z_scope.

(* ---- C94: text that is not base64 is refused ---- *)
(* It is if it is not made of groups of four. *)
Theorem C94_length_partial : forall l, Nat.modulo (length l) 4 <> 0%nat -> decode l = Err tt.
Proof. exact Proofs.Base64Any.length_refused. Qed.
Print Assumptions C94_length_partial.
(* Otherwise every character up to z is taken for a digit, = and all that are none for an A,
   and of the bytes as many are cut off at the end as there are =, wherever these are *)
Theorem C94_read_refuted : forall l, Nat.modulo (length l) 4 = 0%nat -> Forall below l ->
  exists x, is_bytes x /\ b64 x = map as_digit l /\ decode l = Ok (firstn (length x - pads l) x).
Proof. exact Proofs.Base64Any.read. Qed.
Print Assumptions C94_read_refuted.
(* so texts that are no base64 stand for the bytes of those that are, *)
Theorem C94_stray_refuted : forall x l, is_bytes x -> strewn (b64 x) l -> decode l = Ok x.
Proof.
  intros x l X S. rewrite (Proofs.Base64Any.strewn_decode _ _ S). rewrite <- Proofs.Base64.encode_spec by exact X. apply Proofs.Base64.decode_encode, X.
Qed.
Print Assumptions C94_stray_refuted.
(* and characters past z are a panic *)
Theorem C94_panic_refuted : forall l, Forall (fun c => 0 <= c) l ->
  (decode l = Panic <-> Nat.modulo (length l) 4 = 0%nat /\ Exists (fun c => 122 < c) l).
Proof. exact Proofs.Base64Any.panics. Qed.
Print Assumptions C94_panic_refuted.
(* In a PEM file what becomes of the text between the two lines becomes of the file: read, refused or a panic *)
Theorem C94_block_refuted : forall is title body, Forall item_ok is -> title_ok title ->
  (forall l, In l body -> ~ In nl l /\ firstn 8 l <> codes "-----END") ->
  let file := text_of_lines (file_lines is ++ begin_line title :: body ++ [end_line title]) in
  match decode (concat body) with
  | Ok data => exists m, pem_parse file = Ok m /\ pem_get m title = Some data
  | Err _ => pem_parse file = Err tt
  | Panic => pem_parse file = Panic
  end.
Proof.
  intros is title body I T B file. pose proof (Proofs.Base64Any.block_any is title body I T) as H. cbn [item_lines] in H.
  assert (forall l, In l body -> ~ In nl l /\ starts_with s_END l = false) as B'.
  { intros l L. destruct (B l L) as (N & S). split; [exact N|]. apply Proofs.Util.list_eqb_false. exact S. }
  specialize (H B'). fold file in H. destruct (decode (concat body)) as [d|[]|]; cbn [bind] in H; [|exact H..].
  eexists. split; [exact H|]. unfold pem_get. cbn [find fst]. now rewrite Proofs.Util.list_eqb_refl.
Qed.
Print Assumptions C94_block_refuted.
Example C94_ex : strewn (b64 [0; 0; 0]) (codes "A A!") /\ decode (codes "A A!") = Ok [0; 0; 0] /\ decode (codes "=AP8") = Ok [0; 3] /\ decode (codes "A{A!") = Panic /\
  decode (codes "AP8") = Err tt.
Proof.
  split; [|repeat split; reflexivity].
  unfold strewn. repeat (apply Forall2_cons || apply Forall2_nil); cbn; first [left; reflexivity | right; split; [reflexivity|]; unfold stray, below, pad; split; [lia|]; split; [|lia]; vm_compute; intuition discriminate].
Qed.

(* Carriage returns, which RFC 7468 allows before the line feeds, count as As, too; if a file that has them
   is not refused, no block is found under its title *)
Theorem C94_crlf_refuted : forall is, Forall item_ok is ->
  pem_parse (text_of_crlf (file_lines is)) = Err tt \/
  exists m, pem_parse (text_of_crlf (file_lines is)) = Ok m /\
    forall title, pem_get m title <> None -> exists t body d, In (Block t body d) is /\ title = t ++ codes "-".
Proof. exact Proofs.Base64Any.crlf_file. Qed.
Print Assumptions C94_crlf_refuted.
Example C94_crlf_ex : let is := [Block (codes "X") [codes "AP8R"; codes "AP8R"; codes "AP8R"; codes "AP8R"] [0; 255; 17; 0; 255; 17; 0; 255; 17; 0; 255; 17]] in
  Forall item_ok is /\ exists m, pem_parse (text_of_crlf (file_lines is)) = Ok m /\ pem_get m (codes "X") = None /\
  pem_get m (codes "X-") = Some [0; 255; 17; 0; 3; 252; 68; 0; 15; 241; 16; 0; 63; 196; 64].
Proof.
  split.
  - apply Forall_cons; [|constructor]. split; [|split; [reflexivity|repeat constructor; lia]]. split; [vm_compute; intuition discriminate|cbn; lia].
  - eexists. split; [vm_compute; reflexivity|]. split; vm_compute; reflexivity.
Qed.
