(* Not part of /repo: two endpoints (Model/Record.v, net/record.rs) joined by two FIFO byte queues,
   used to state what record protection guarantees over whole histories. *)
From Verif Require Import Model.Base Model.Alert Model.Suite Model.KeySchedule Model.Record.

Definition rmsg : Type := (record_type * list Z)%type.
Record chan := {
  ch_client : rpp; ch_server : rpp;
  ch_c2s : list (list Z); ch_s2c : list (list Z);     (* protected records in flight *)
  ch_at_server : list rmsg; ch_at_client : list rmsg  (* delivered contents, oldest first *) }.

Inductive chan_event :=
| Send (from_client : bool) (t : record_type) (content : list Z)
| Deliver (to_server : bool).

(* None: the library returned an error or panicked. Delivering from an empty queue does nothing. *)
Definition receive (r : rpp) (wire : list Z) : option (rpp * rmsg) :=
  match record_from_raw wire with
  | Ok (_, rec) => match rpp_decrypt r rec with (r', Ok m) => Some (r', m) | _ => None end
  | _ => None
  end.
Definition chan_step (ch : chan) (e : chan_event) : option chan :=
  match e with
  | Send true t content =>
      match rpp_encrypt (ch_client ch) (record_new t content) with
      | (r', Ok w) => Some {| ch_client := r'; ch_server := ch_server ch; ch_c2s := ch_c2s ch ++ [w];
          ch_s2c := ch_s2c ch; ch_at_server := ch_at_server ch; ch_at_client := ch_at_client ch |}
      | _ => None
      end
  | Send false t content =>
      match rpp_encrypt (ch_server ch) (record_new t content) with
      | (r', Ok w) => Some {| ch_client := ch_client ch; ch_server := r'; ch_c2s := ch_c2s ch;
          ch_s2c := ch_s2c ch ++ [w]; ch_at_server := ch_at_server ch; ch_at_client := ch_at_client ch |}
      | _ => None
      end
  | Deliver true =>
      match ch_c2s ch with
      | [] => Some ch
      | w :: ws =>
          match receive (ch_server ch) w with
          | Some (r', m) => Some {| ch_client := ch_client ch; ch_server := r'; ch_c2s := ws; ch_s2c := ch_s2c ch;
              ch_at_server := ch_at_server ch ++ [m]; ch_at_client := ch_at_client ch |}
          | None => None
          end
      end
  | Deliver false =>
      match ch_s2c ch with
      | [] => Some ch
      | w :: ws =>
          match receive (ch_client ch) w with
          | Some (r', m) => Some {| ch_client := r'; ch_server := ch_server ch; ch_c2s := ch_c2s ch; ch_s2c := ws;
              ch_at_server := ch_at_server ch; ch_at_client := ch_at_client ch ++ [m] |}
          | None => None
          end
      end
  end.
Fixpoint chan_run (ch : chan) (es : list chan_event) : option chan :=
  match es with
  | [] => Some ch
  | e :: r => match chan_step ch e with Some ch' => chan_run ch' r | None => None end
  end.

(* what one side handed to the library during a history *)
Fixpoint sent_by (client : bool) (es : list chan_event) : list rmsg :=
  match es with
  | [] => []
  | Send c t content :: r => if Bool.eqb c client then (t, content) :: sent_by client r else sent_by client r
  | Deliver _ :: r => sent_by client r
  end.
