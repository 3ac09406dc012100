(* What a list of stream operations asks to be sent: one record per write and per alert, in order, each protected with
   the next sequence number (or in the clear before keys are installed). *)
From Verif Require Import Model.Base Model.Alert Model.Suite Model.KeySchedule Model.Record Model.Stream Model.AppChannel
  Spec.Tls13Record.

Definition one_record (p : option rpp) (t : record_type) (data : list Z) : option (option rpp * list Z) :=
  match p with
  | None => if zlen data <? 2^16 then Some (None, encode_record (rt_code t) data) else None
  | Some p => match rpp_encrypt p (record_new t data) with (p', Ok w) => Some (Some p', w) | _ => None end
  end.
Fixpoint records (p : option rpp) (os : list sop) : option (list (list Z)) :=
  let next t data r :=
    match one_record p t data with
    | Some (p', w) => match records p' r with Some ws => Some (w :: ws) | None => None end
    | None => None
    end in
  match os with
  | [] => Some []
  | OWrite t data :: r => next t data r
  | OAlert err :: r => next RAlert [alert_level err; error_as_u8 err] r
  | OFlush :: r => records p r
  end.

(* alerts come right after a flush or another alert; `empty`: nothing is buffered at the beginning *)
Fixpoint alerts_after_flush (empty : bool) (os : list sop) : Prop :=
  match os with
  | [] => True
  | OWrite _ _ :: r => alerts_after_flush false r
  | OFlush :: r => alerts_after_flush true r
  | OAlert _ :: r => empty = true /\ alerts_after_flush true r
  end.
