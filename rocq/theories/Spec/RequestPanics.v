(* The CertificateRequest messages that bring a client down when it answers them *)
From Verif Require Import Model.Base Model.Alert Model.X509 Model.Certificate Spec.Enc Spec.Rfc8446Auth Spec.Connection Spec.ClientConnection.
From Verif Require Spec.Rfc8446Hello.

(* One to three bytes are left when the extensions are read.  server_name, supported_versions and key_share extensions are entered
   instead of skipped, and a length past the end skips all there is. *)
Inductive stub : list Z -> Prop :=
| stub_here l : (0 < length l < 4)%nat -> stub l
| stub_skip t1 t2 s1 s2 l : ~ In (256 * t1 + t2) [0; 43; 51] -> stub (skipn (Z.to_nat (256 * s1 + s2)) l) -> stub (t1 :: t2 :: s1 :: s2 :: l)
| stub_enter t1 t2 s1 s2 l : In (256 * t1 + t2) [0; 43; 51] -> stub l -> stub (t1 :: t2 :: s1 :: s2 :: l).

(* struct { opaque certificate_request_context<0..2^8-1>; Extension extensions<2..2^16-1>; } CertificateRequest (RFC 8446, 4.3.2) *)
Inductive request_panics (body : list Z) : Prop :=
| rq_empty : body = [] -> request_panics body
| rq_context n rest :                      (* the context is cut short *)
    body = n :: rest -> zlen rest < n -> request_panics body
| rq_short context rest :                  (* no length of the extensions *)
    body = zlen context :: context ++ rest -> zlen rest < 2 -> request_panics body
| rq_cut context a b exts :                (* the extensions are cut short *)
    body = zlen context :: context ++ a :: b :: exts -> zlen exts < 256 * a + b -> request_panics body
| rq_stub context a b exts more :
    body = zlen context :: context ++ a :: b :: exts ++ more -> zlen exts = 256 * a + b -> stub exts -> request_panics body.

(* A server that conforms to RFC 8446 (compare server_conforms in Spec/ClientAccept.v) but for its last CertificateRequest *)
Definition conforms_but_request (now : Z) (g : agreed) (messages : list (list Z)) : Prop :=
  exists extensions requests request context cert x exts others m2,
    let m1 := Rfc8446Hello.handshake 11 (Rfc8446Hello.vector8 context ++
                Rfc8446Hello.vector24 (Rfc8446Hello.vector24 cert ++ Rfc8446Hello.vector16 exts ++ others)) in
    let before := g_hellos g ++ opening extensions (requests ++ [request]) ++ m1 ++ m2 in
    messages = Rfc8446Hello.handshake 8 extensions :: map (Rfc8446Hello.handshake 13) (requests ++ [request]) ++ [m1; m2; server_finished g before] /\
    zlen context < 256 /\ x509_from_raw cert = Ok x /\ is_valid (E:=tls_error) (x_validity x) now = Ok true /\
    server_possesses (g_alg g) x (g_hellos g ++ opening extensions (requests ++ [request]) ++ m1) m2 /\
    request_panics request.
