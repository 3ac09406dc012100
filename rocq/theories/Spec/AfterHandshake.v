(* Vocabulary of the statements about what the peer may send once the handshake is over *)
From Verif Require Import Model.Base Model.Alert Model.Record Model.Channel Model.Stream Spec.Endpoints.

(* the records of the messages ms, in order, sealed with the keys of p *)
Fixpoint seal_all (p : rpp) (ms : list rmsg) : option (rpp * list (list Z)) :=
  match ms with
  | [] => Some (p, [])
  | (t, d) :: ms =>
      match rpp_encrypt p (record_new t d) with
      | (p1, Ok w) => match seal_all p1 ms with Some (p2, ws) => Some (p2, w :: ws) | None => None end
      | _ => None
      end
  end.

(* one call of read for every segment that arrives, whatever the calls return *)
Fixpoint read_each (s : stream) (cap : nat) (segments : list (list Z)) : stream * list (outcome tls_error (list Z)) :=
  match segments with
  | [] => (s, [])
  | w :: ws => let (s1, r) := tls_read s cap w in let (s2, rs) := read_each s1 cap ws in (s2, r :: rs)
  end.

(* what the library makes of a message: data, or an error *)
Definition told (m : rmsg) : outcome tls_error (list Z) :=
  match fst m with RApplicationData => Ok (snd m) | _ => Err UnexpectedMessage end.
(* what RFC 8446, 4.6 asks for: post-handshake handshake messages are handled without the application noticing *)
Definition data_only (ms : list rmsg) : list (list Z) :=
  map snd (filter (fun m => match fst m with RApplicationData => true | _ => false end) ms).
Definition oks (rs : list (outcome tls_error (list Z))) : list (list Z) :=
  flat_map (fun r => match r with Ok d => [d] | _ => [] end) rs.
(* a message whose record fits into one TCP read of 4096 bytes (net/stream.rs:98) *)
Definition fits (m : rmsg) : Prop := fst m <> RInvalid /\ is_bytes (snd m) /\ zlen (snd m) <= 4074.
