(* Histories of calls on a transcript hash object. *)
From Verif Require Import Model.Base Model.Sha2.

(* a client of the transcript object that calls update, finalize and clone in any order: every digest
   it sees is the hash of what was absorbed before *)
Inductive th_op := Update (buf : list Z) | Finalize.
Fixpoint th_run (t : transcript) (ops : list th_op) : list (list Z) :=
  match ops with
  | [] => []
  | Update b :: r => th_run (th_update t b) r
  | Finalize :: r => th_finalize t :: th_run t r
  end.
Fixpoint th_expected (h : hash_type) (absorbed : list Z) (ops : list th_op) : list (list Z) :=
  match ops with
  | [] => []
  | Update b :: r => th_expected h (absorbed ++ b) r
  | Finalize :: r => sha_x h absorbed :: th_expected h absorbed r
  end.
