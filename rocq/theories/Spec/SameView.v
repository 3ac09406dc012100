(* What a client and a server with the same transcript have in common *)
From Verif Require Import Model.Base Model.Record Model.X509 Model.Certificate Model.Server Model.Client
  Spec.Connection Spec.ClientConnection.
From Verif Require Spec.Rfc8446Hello.

(* The message of the record `hello` the server answered is the client's ClientHello.  If there is nothing behind it in that record, the
   message of the record `first` the client took as the answer is the server's ServerHello, and the two use the same cipher.  If
   there is nothing behind that either, they agree on everything, and the certificate the client looked at is the server's. *)
Definition same_view (cfgc : client_config) (e : client_draws) (cfgs : server_config) (hello first : record) (body : list Z)
    (gc gs : agreed) (m1 : list Z) : Prop :=
  exists extra, r_fragment hello = client_greeting cfgc e ++ extra /\
    (extra = [] -> exists extra', r_fragment first = Rfc8446Hello.handshake 2 body ++ extra' /\ g_cipher gc = g_cipher gs /\
      (extra' = [] -> gc = gs /\ forall cert, shows m1 cert -> cert = ct_raw (sc_cert cfgs))).
