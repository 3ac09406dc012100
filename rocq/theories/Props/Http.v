(* C86: the example programs speak HTTP/1.1.  Property theorems only. *)
From Verif Require Import Model.Base Model.Examples Spec.Http.
From Verif Require Proofs.Http.
From Coq Require Import Lia.

(* False of the request, whatever the host: it is not a message of RFC 9112 (the line with the host ends in LF alone), ... *)
Theorem C86_request_refuted : forall host start fields body, one_line host -> ~ http_message start fields body (http_request host).
Proof. exact Proofs.Http.request_not. Qed.
Print Assumptions C86_request_refuted.
(* ... and of both responses: they are messages, but do not begin with a status line. *)
Theorem C86_response_refuted : forall r start fields body code reason, In r [https_response; admin_response] ->
  http_message start fields body r -> ~ status_line start code reason.
Proof. exact Proofs.Http.response_status. Qed.
Print Assumptions C86_response_refuted.
(* What holds: the responses are framed as HTTP wants it - there is one way to tell where the body begins, and a Content-Length
   field with its length in front of it. *)
Theorem C86_framing_partial : forall r, In r [https_response; admin_response] ->
  exists start fields body len, http_message start fields body r /\ In (content_length, len) fields /\ decimal len (zlen body) /\
    forall start' fields' body', http_message start' fields' body' r -> body' = body.
Proof.
  intros r I. destruct (Proofs.Http.response_framed r I) as (start & fields & body & len & M & F & D). exists start, fields, body, len.
  split; [exact M|]. split; [exact F|]. split; [exact D|]. intros s f b M'. exact (Proofs.Http.message_unique _ _ _ _ _ _ _ M' M).
Qed.
Print Assumptions C86_framing_partial.
(* with the line ends right the request would be a message, and there are status lines *)
Example C86_ex : one_line localhost /\ (exists start fields, http_message start fields []
    ([71; 69; 84; 32; 47; 32; 72; 84; 84; 80; 47; 49; 46; 49] ++ CRLF ++ [72; 111; 115; 116; 58; 32] ++ localhost ++ CRLF ++ CRLF)) /\
  status_line [72; 84; 84; 80; 47; 49; 46; 49; 32; 50; 48; 48; 32; 79; 75] [50; 48; 48] [79; 75].
Proof.
  assert (L : one_line localhost) by (apply Proofs.Http.one_line_check; reflexivity). split; [exact L|]. split.
  - exists [71; 69; 84; 32; 47; 32; 72; 84; 84; 80; 47; 49; 46; 49], [([72; 111; 115; 116], localhost)].
    split; [apply Proofs.Http.one_line_check; reflexivity|]. split; [|reflexivity].
    constructor; [|constructor]. split; [discriminate|]. split; [apply Proofs.Http.one_line_check; reflexivity|exact L].
  - split; [reflexivity|]. split; [reflexivity|]. repeat constructor; lia.
Qed.
