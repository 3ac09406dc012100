(* Not part of /repo: two connected streams (Model/Stream.v, net/stream.rs) with a TCP connection between them that
   delivers every write of one side as one segment, and the histories of stream operations.  A read takes at most
   4096 bytes of the oldest segment (net/stream.rs:98); what it leaves is the next segment. *)
From Verif Require Import Model.Base Model.Alert Model.Suite Model.KeySchedule Model.Record Model.Stream.

(* net/stream.rs:98 *)
Definition rx_size : nat := Z.to_nat 4096.
Record pair_state := App {
  ap_client : stream; ap_server : stream;
  ap_c2s : list (list Z); ap_s2c : list (list Z);           (* segments under way *)
  ap_at_server : list (list Z); ap_at_client : list (list Z) (* what the reads returned, oldest first *) }.
Inductive app_event :=
| AWrite (by_client : bool) (data : list Z)
| ARead (by_server : bool) (cap : nat).

Definition new_bytes (s s' : stream) : list Z := skipn (length (so_sent (st_sock s))) (so_sent (st_sock s')).
Definition left_over (w : list Z) (q : list (list Z)) : list (list Z) :=
  match skipn rx_size w with [] => q | r => r :: q end.
(* None: the library returned an error or panicked; a read with nothing under way waits *)
Definition app_step (a : pair_state) (e : app_event) : option pair_state :=
  match e with
  | AWrite true data =>
      match tls_write (ap_client a) data with
      | (s, Ok _) => Some (App s (ap_server a) (ap_c2s a ++ [new_bytes (ap_client a) s]) (ap_s2c a) (ap_at_server a) (ap_at_client a))
      | _ => None
      end
  | AWrite false data =>
      match tls_write (ap_server a) data with
      | (s, Ok _) => Some (App (ap_client a) s (ap_c2s a) (ap_s2c a ++ [new_bytes (ap_server a) s]) (ap_at_server a) (ap_at_client a))
      | _ => None
      end
  | ARead true cap =>
      match ap_c2s a with
      | [] => Some a
      | w :: q =>
          match tls_read (ap_server a) cap (firstn rx_size w) with
          | (s, Ok d) => Some (App (ap_client a) s (left_over w q) (ap_s2c a) (ap_at_server a ++ [d]) (ap_at_client a))
          | _ => None
          end
      end
  | ARead false cap =>
      match ap_s2c a with
      | [] => Some a
      | w :: q =>
          match tls_read (ap_client a) cap (firstn rx_size w) with
          | (s, Ok d) => Some (App s (ap_server a) (ap_c2s a) (left_over w q) (ap_at_server a) (ap_at_client a ++ [d]))
          | _ => None
          end
      end
  end.
Fixpoint app_run (a : pair_state) (es : list app_event) : option pair_state :=
  match es with
  | [] => Some a
  | e :: r => match app_step a e with Some a' => app_run a' r | None => None end
  end.
Fixpoint written_by (client : bool) (es : list app_event) : list (list Z) :=
  match es with
  | [] => []
  | AWrite c d :: r => if Bool.eqb c client then d :: written_by client r else written_by client r
  | ARead _ _ :: r => written_by client r
  end.

(* operations of the sending side; a history stops at the first error *)
Inductive sop := OWrite (t : record_type) (data : list Z) | OFlush | OAlert (err : tls_error).
Definition sop_step (s : stream) (o : sop) : stream * outcome tls_error unit :=
  match o with
  | OWrite t data => write_record s t data
  | OFlush => flush s
  | OAlert err => write_alert s err
  end.
Fixpoint sop_run (s : stream) (os : list sop) : stream * outcome tls_error unit :=
  match os with
  | [] => (s, Ok tt)
  | o :: r => let@ (s, _) := sop_step s o in sop_run s r
  end.
