(* HTTP/1.1 messages: RFC 9112, sections 2.1, 3, 4, 5 and 6.2 *)
From Verif Require Import Model.Base.

Definition CRLF : list Z := [13; 10].
(* without CR and LF *)
Definition one_line (l : list Z) : Prop := Forall (fun b => 0 <= b < 256 /\ b <> 13 /\ b <> 10) l.
(* start-line CRLF *( field-name ":" SP field-value CRLF ) CRLF [ message-body ] *)
Definition field_line (f : list Z * list Z) : list Z := fst f ++ [58; 32] ++ snd f ++ CRLF.
Definition http_message (start : list Z) (fields : list (list Z * list Z)) (body m : list Z) : Prop :=
  one_line start /\ Forall (fun f => fst f <> [] /\ one_line (fst f) /\ one_line (snd f)) fields /\
  m = start ++ CRLF ++ concat (map field_line fields) ++ CRLF ++ body.
(* status-line = "HTTP/1.1" SP status-code SP [ reason-phrase ] *)
Definition status_line (start code reason : list Z) : Prop :=
  start = [72; 84; 84; 80; 47; 49; 46; 49; 32] ++ code ++ [32] ++ reason /\ length code = 3%nat /\ Forall (fun c => 48 <= c <= 57) code.
(* a number in decimal digits *)
Definition decimal (digits : list Z) (n : Z) : Prop :=
  digits <> [] /\ Forall (fun c => 48 <= c <= 57) digits /\ fold_left (fun a c => 10 * a + (c - 48)) digits 0 = n.
(* "Content-Length" *)
Definition content_length : list Z := [67; 111; 110; 116; 101; 110; 116; 45; 76; 101; 110; 103; 116; 104].
