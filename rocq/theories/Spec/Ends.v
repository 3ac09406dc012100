(* What somebody without the keys can send *)
From Verif Require Import Model.Base Model.Alert Model.Record.

(* A record by somebody without the keys, for a receiver with keys p: a protected one fails to decrypt - the receiver's own
   rejection, which a fragment too short for a tag does not get - and an alert has its two bytes. *)
Definition sealed_out (p : rpp) (r : record) : Prop :=
  (r_type r = RAlert -> (2 <= length (r_fragment r))%nat) /\
  (r_type r <> RAlert -> r_type r <> RChangeCipherSpec -> exists e, snd (rpp_decrypt p r) = Err e).
(* The bytes x, one read, are a sequence of records for a receiver with keys p: no alert under two bytes, no protected
   record that opens (nor one whose payload is too short for a tag); after them there may be bytes that are no record. *)
Inductive unkeyed (p : rpp) : list Z -> Prop :=
| unkeyed_end : unkeyed p []
| unkeyed_junk x : (exists e, record_from_raw x = Err e) -> unkeyed p x
| unkeyed_record x n r : record_from_raw x = Ok (n, r) ->
    (r_type r = RAlert -> (2 <= length (r_fragment r))%nat) ->
    (r_type r <> RAlert -> r_type r <> RChangeCipherSpec -> exists e, snd (rpp_decrypt p r) = Err e) ->
    unkeyed p (skipn n x) -> unkeyed p x.
