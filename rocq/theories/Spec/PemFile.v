(* A PEM text: explanatory lines and BEGIN/END blocks with base64 bodies wrapped arbitrarily. *)
From Coq Require Import String List ZArith.
From Verif Require Import Spec.Rfc4648.
Import ListNotations.
Open Scope Z_scope.
Open Scope list_scope.

Inductive item :=
| Text (line : list Z)                                       (* a line outside blocks *)
| Block (title : list Z) (body : list (list Z)) (data : list Z). (* body: the wrapped base64 lines *)

Definition nl : Z := 10.
Definition BEGIN_ : list Z := codes "-----BEGIN".
Definition begin_line (title : list Z) : list Z := codes "-----BEGIN " ++ title ++ codes "-----".
Definition end_line (title : list Z) : list Z := codes "-----END " ++ title ++ codes "-----".

Definition item_lines (i : item) : list (list Z) :=
  match i with
  | Text l => [l]
  | Block t body _ => begin_line t :: body ++ [end_line t]
  end.
Definition file_lines (is : list item) : list (list Z) := flat_map item_lines is.
(* every line is terminated by a line feed *)
Definition text_of_lines (ls : list (list Z)) : list Z := concat (map (fun l => l ++ [nl]) ls).

(* a title: no line feed in it, and its first byte is not one that continues a UTF-8 character *)
Definition title_ok (t : list Z) : Prop := ~ In nl t /\ match t with b :: _ => b < 128 \/ 192 <= b | [] => True end.
Definition item_ok (i : item) : Prop :=
  match i with
  | Text l => ~ In nl l /\ firstn 10 l <> BEGIN_
  | Block t body data =>
      title_ok t /\ concat body = b64 data /\ Forall (fun b => 0 <= b < 256) data
  end.

(* the data of the last block with that title *)
Fixpoint last_block (title : list Z) (is : list item) : option (list Z) :=
  match is with
  | [] => None
  | i :: r =>
      match last_block title r with
      | Some d => Some d
      | None => match i with
                | Block t _ d => if list_eq_dec Z.eq_dec t title then Some d else None
                | Text _ => None
                end
      end
  end.
Definition has_block (is : list item) : Prop := exists t b d, In (Block t b d) is.
