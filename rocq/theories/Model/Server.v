(* Model of anothertls/src/net/server/connection.rs *)
From Verif Require Import Model.Base Model.Bytes Model.Alert Model.Sha2 Model.Hmac Model.Suite Model.KeySchedule Model.Record Model.Curve Model.Signature
  Model.Ecdsa Model.X509 Model.Extensions Model.Hello Model.Kex Model.Handshake Model.Certificate Model.Stream Model.Keylog.

(* net/server/config.rs:12-37.  The custom check is a function without effects that returns.  prng_type only says where the
   values of `draws` come from. *)
Record server_config := {
  sc_privkey : private_key; sc_cert : cert; sc_client_ca : option cert; sc_verify : option (x509 -> bool);
  sc_keylog : option (list Z); sc_server_name : option (list Z) }.

(* What one handshake draws: rng.bytes(32) and rng.between(1, 32) of the ServerHello, rng.bytes(32) of the
   CertificateRequest, and the numbers of the signature loop. *)
Record draws := { d_random : list Z; d_secrets : list Z; d_context : list Z; d_nonces : list Z }.

(* server/connection.rs:54-63 *)
Inductive server_state :=
| SvClientHello | SvClientCertificate | SvClientCertificateVerify | SvClientFinished | SvFinishWithError (e : tls_error) | SvReady.

(* server/connection.rs:65-75.  sv_keylog is the client random of an open KeyLog, sv_log what was appended to the file. *)
Record server_hs := {
  sv_stream : stream; sv_state : server_state; sv_keylog : option (list Z); sv_log : list Z; sv_cert : option cert;
  sv_context : option (list Z); sv_th : option transcript; sv_th_finished : option transcript }.
Definition with_stream (h : server_hs) (s : stream) : server_hs :=
  {| sv_stream := s; sv_state := sv_state h; sv_keylog := sv_keylog h; sv_log := sv_log h; sv_cert := sv_cert h;
     sv_context := sv_context h; sv_th := sv_th h; sv_th_finished := sv_th_finished h |}.
Definition with_state (h : server_hs) (x : server_state) : server_hs :=
  {| sv_stream := sv_stream h; sv_state := x; sv_keylog := sv_keylog h; sv_log := sv_log h; sv_cert := sv_cert h;
     sv_context := sv_context h; sv_th := sv_th h; sv_th_finished := sv_th_finished h |}.
Definition with_th (h : server_hs) (t : transcript) : server_hs :=
  {| sv_stream := sv_stream h; sv_state := sv_state h; sv_keylog := sv_keylog h; sv_log := sv_log h; sv_cert := sv_cert h;
     sv_context := sv_context h; sv_th := Some t; sv_th_finished := sv_th_finished h |}.
Definition with_th_finished (h : server_hs) (t : transcript) : server_hs :=
  {| sv_stream := sv_stream h; sv_state := sv_state h; sv_keylog := sv_keylog h; sv_log := sv_log h; sv_cert := sv_cert h;
     sv_context := sv_context h; sv_th := sv_th h; sv_th_finished := Some t |}.
Definition with_context (h : server_hs) (c : list Z) : server_hs :=
  {| sv_stream := sv_stream h; sv_state := sv_state h; sv_keylog := sv_keylog h; sv_log := sv_log h; sv_cert := sv_cert h;
     sv_context := Some c; sv_th := sv_th h; sv_th_finished := sv_th_finished h |}.
Definition with_cert (h : server_hs) (c : cert) : server_hs :=
  {| sv_stream := sv_stream h; sv_state := sv_state h; sv_keylog := sv_keylog h; sv_log := sv_log h; sv_cert := Some c;
     sv_context := sv_context h; sv_th := sv_th h; sv_th_finished := sv_th_finished h |}.
Definition with_keylog (h : server_hs) (k : list Z) : server_hs :=
  {| sv_stream := sv_stream h; sv_state := sv_state h; sv_keylog := Some k; sv_log := sv_log h; sv_cert := sv_cert h;
     sv_context := sv_context h; sv_th := sv_th h; sv_th_finished := sv_th_finished h |}.
Definition append_log (h : server_hs) (l : list Z) : server_hs :=
  {| sv_stream := sv_stream h; sv_state := sv_state h; sv_keylog := sv_keylog h; sv_log := sv_log h ++ l; sv_cert := sv_cert h;
     sv_context := sv_context h; sv_th := sv_th h; sv_th_finished := sv_th_finished h |}.
Definition with_protection (h : server_hs) (p : option rpp) : server_hs :=
  with_stream h (set_protection (sv_stream h) p).

(* server/connection.rs:78-93 *)
Definition server_new (so : sock) : server_hs :=
  {| sv_stream := stream_new so; sv_state := SvClientHello; sv_keylog := None; sv_log := []; sv_cert := None;
     sv_context := None; sv_th := None; sv_th_finished := None |}.

(* self.stream.write_record(..)? *)
Definition sv_write (h : server_hs) (t : record_type) (data : list Z) : server_hs * outcome tls_error unit :=
  let (s, r) := write_record (sv_stream h) t data in (with_stream h s, r).

(* server/connection.rs:161-297.  A signature loop that has not found a usable number in d_nonces has not returned;
   nothing more happens then, which the model writes as Panic. *)
Definition handle_client_hello (cfg : server_config) (d : draws) (h : server_hs) (rec : record)
    : server_hs * outcome tls_error unit :=
  let@ (h, hs) := (h, handshake_from_raw (r_fragment rec)) in
  if negb (ht_eqb (hs_type hs) HtClientHello) then (h, Err UnexpectedMessage) else
  let@ (h, ch) := (h, client_hello_from_raw (hs_fraqment hs)) in
  let@ (h, r) := (h, server_hello_from_client ch (d_random d) (d_secrets d) (sc_server_name cfg)) in
  let (sh, pk) := r in
  let@ (h, th) := (h, suite_tshash (sh_suite sh)) in
  let th := th_update th (r_fragment rec) in
  let@ (h, body) := (h, server_hello_bytes sh) in
  let raw := handshake_to_bytes HtServerHello body in
  let th := th_update th raw in
  let@ (h, _) := sv_write h RHandshake raw in
  let@ (h, _) := match ch_sid ch with Some _ => sv_write h RChangeCipherSpec [0x01] | None => (h, Ok tt) end in
  match client_public_key_share (ch_exts ch) with
  | None => (h, Err HandshakeFailure)
  | Some entry =>
      let@ (h, ks) := (h, from_handshake th pk entry) in
      let@ (h, c) := (h, suite_cipher (sh_suite sh)) in
      let@ (h, p) := (h, rpp_new ks c false) in
      let h := match sc_keylog cfg, p with
               | Some _, Some p =>
                   let k := keylog_new (ch_random ch) in
                   with_keylog (append_log h (append_handshake_traffic_secrets k
                     (k_secret (wk_server (rp_handshake p))) (k_secret (wk_client (rp_handshake p))))) k
               | _, _ => h
               end in
      let h := with_protection h p in
      let@ (h, ee) := (h, server_exts_bytes []) in
      let raw := handshake_to_bytes HtEncryptedExtensions ee in
      let@ (h, _) := sv_write h RHandshake raw in
      let th := th_update th raw in
      let@ (h, th) :=
        match sc_client_ca cfg with
        | None => (h, Ok th)
        | Some _ =>
            let h := with_context h (d_context d) in
            let@ (h, req) := (h, certificate_request (d_context d)) in
            let raw := handshake_to_bytes HtCertificateRequest req in
            let@ (h, _) := sv_write h RHandshake raw in
            (h, Ok (th_update th raw))
        end in
      let raw := handshake_to_bytes HtCertificate (certificate_for_handshake (sc_cert cfg) [0x00]) in
      let@ (h, _) := sv_write h RHandshake raw in
      let th := th_update th raw in
      let@ (h, cv) := (h, certificate_verify_for_handshake (sc_privkey cfg) th l_server (d_nonces d)) in
      let@ (h, cv) := (h, unwrap cv) in
      let raw := handshake_to_bytes HtCertificateVerify cv in
      let th := th_update th raw in
      let@ (h, _) := sv_write h RHandshake raw in
      let@ (h, p) := (h, unwrap (st_protection (sv_stream h))) in
      let@ (h, raw) := (h, finished_handshake (ks_server_hs (rp_schedule p)) th) in
      let th := th_update th raw in
      let@ (h, _) := sv_write h RHandshake raw in
      let h := with_state h (match sc_client_ca cfg with Some _ => SvClientCertificate | None => SvClientFinished end) in
      (with_th h th, Ok tt)
  end.

(* server/connection.rs:326-384.  `now` is the clock read by Certificate::from_hello. *)
Definition handle_client_certificate (cfg : server_config) (now : Z) (h : server_hs) (frag : list Z)
    : server_hs * outcome tls_error unit :=
  let@ (h, hs) := (h, handshake_from_raw frag) in
  match sc_client_ca cfg with
  | None => (h, Err UnexpectedMessage)
  | Some ca =>
      if negb (ht_eqb (hs_type hs) HtCertificate) then (h, Err UnexpectedMessage) else
      let@ (h, th) := (h, unwrap (sv_th h)) in
      let h := with_th_finished h th in
      let h := with_th h (th_update th frag) in
      let@ (h, len) := (h, idx (hs_fraqment hs) 0) in
      let@ (h, context) := (h, slice (hs_fraqment hs) 1 (Z.to_nat len + 1)) in
      let@ (h, expected) := (h, unwrap (sv_context h)) in
      if negb (list_eqb context expected) then (h, Err HandshakeFailure) else
      match certificates_from_hello (hs_fraqment hs) now with
      | Panic => (h, Panic)
      | Err e => (with_state h (SvFinishWithError e), Ok tt)
      | Ok certs =>
          let@ (h, c) := (h, unwrap (List.last (map Some certs) None)) in
          match has_signed ca c with
          | Panic => (h, Panic)
          | Err _ => (with_state h (SvFinishWithError UnknownCa), Ok tt)
          | Ok _ =>
              match sc_verify cfg with
              | Some f =>
                  let@ (h, x) := (h, unwrap (ct_x509 c)) in
                  if f x then (with_state (with_cert h c) SvClientCertificateVerify, Ok tt)
                  else (with_state h (SvFinishWithError AccessDenied), Ok tt)
              | None => (with_state (with_cert h c) SvClientCertificateVerify, Ok tt)
              end
          end
      end
  end.

(* server/connection.rs:386-438; schemes other than the first are todo!() *)
Definition handle_client_certificate_verify (h : server_hs) (frag : list Z) : server_hs * outcome tls_error unit :=
  let@ (h, hs) := (h, handshake_from_raw frag) in
  match sv_cert h with
  | None => (h, Err UnexpectedMessage)
  | Some c =>
      if negb (ht_eqb (hs_type hs) HtCertificateVerify) then (h, Err UnexpectedMessage) else
      let@ (h, b) := (h, slice (hs_fraqment hs) 0 2) in
      let@ (h, algo) := (h, sig_scheme_new (to_u16 b)) in
      match algo with
      | ecdsa_secp256r1_sha256 =>
          let@ (h, rest) := (h, slice_from (hs_fraqment hs) 4) in
          match sig_from_der rest with
          | Panic => (h, Panic)
          | Err e => (with_state h (SvFinishWithError e), Ok tt)
          | Ok (sg, size) =>
              let@ (h, th) := (h, unwrap (sv_th h)) in
              let@ (h, valid) := (h, is_certificate_valid c sg th l_client) in
              if negb valid then (with_state h (SvFinishWithError BadCertificate), Ok tt) else
              let@ (h, b) := (h, slice (hs_fraqment hs) 2 4) in
              if negb (Nat.eqb (Z.to_nat (to_u16 b)) size) then (with_state h (SvFinishWithError BadCertificate), Ok tt) else
              (with_state (with_th h (th_update th frag)) SvClientFinished, Ok tt)
          end
      | _ => (h, Panic)
      end
  end.

(* server/connection.rs:439-484 *)
Definition handle_client_finish (h : server_hs) (frag : list Z) : server_hs * outcome tls_error unit :=
  let@ (h, hs) := (h, handshake_from_raw frag) in
  if negb (ht_eqb (hs_type hs) HtFinished) then
    match sv_state h with
    | SvFinishWithError _ =>
        let@ (h, th) := (h, unwrap (sv_th h)) in
        (with_th h (th_update th (hs_raw hs)), Ok tt)
    | _ => (h, Err UnexpectedMessage)
    end
  else
    let@ (h, p) := (h, unwrap (st_protection (sv_stream h))) in
    let@ (h, th) := (h, unwrap (sv_th h)) in
    let@ (h, verify_data) := (h, verify_data_for_finished (ks_client_hs (rp_schedule p)) th) in
    if negb (list_eqb (hs_fraqment hs) verify_data) then (h, Err DecryptError) else
    let th := match sv_th_finished h with Some t => t | None => th end in
    let (p', r) := generate_application_keys p th in
    let@ (h, _) := (with_protection h (Some p'), r) in
    let h := match sv_keylog h with Some k => append_log h (append_from_protection k p') | None => h end in
    match sv_state h with
    | SvFinishWithError err => (h, Err err)
    | _ => (with_state h SvReady, Ok tt)
    end.

(* server/connection.rs:299-324 *)
Definition handle_handshake_encrypted_record (cfg : server_config) (now : Z) (h : server_hs) (rec : record)
    : server_hs * outcome tls_error unit :=
  let@ (h, p) := (h, unwrap (st_protection (sv_stream h))) in
  let (p', r) := rpp_decrypt p rec in
  let@ (h, tc) := (with_protection h (Some p'), r) in
  let (t, content) := (tc : record_type * list Z) in
  let no_context := match sc_client_ca cfg, sv_context h with Some _, None => true | _, _ => false end in
  match t with
  | RHandshake =>
      if no_context then (h, Err UnexpectedMessage) else
      match sv_state h with
      | SvClientCertificate => handle_client_certificate cfg now h content
      | SvClientCertificateVerify => handle_client_certificate_verify h content
      | SvClientFinished | SvFinishWithError _ => handle_client_finish h content
      | _ => (h, Ok tt)
      end
  | RAlert => let@ (h, code) := (h, idx content 1) in (h, Err (GotAlert code))
  | _ => (h, Err UnexpectedMessage)
  end.

(* server/connection.rs:125-160 *)
Definition handle_handshake_record (cfg : server_config) (d : draws) (now : Z) (h : server_hs) (rec : record)
    : server_hs * outcome tls_error unit :=
  match r_type rec with
  | RChangeCipherSpec =>
      match sv_state h with SvClientHello => (h, Err UnexpectedMessage) | _ => (h, Ok tt) end
  | RAlert => let@ (h, code) := (h, idx (r_fragment rec) 1) in (h, Err (GotAlert code))
  | t =>
      match sv_state h with
      | SvClientHello =>
          match t with RHandshake => handle_client_hello cfg d h rec | _ => (h, Err UnexpectedMessage) end
      | SvReady => (h, Ok tt)
      | _ => handle_handshake_encrypted_record cfg now h rec
      end
  end.

(* server/connection.rs:114-118: the records of one read; each uses at least one byte, fuel is the length *)
Fixpoint server_records (fuel : nat) (cfg : server_config) (d : draws) (now : Z) (h : server_hs) (buf : list Z)
    : server_hs * outcome tls_error unit :=
  match buf with
  | [] => (h, Ok tt)
  | _ =>
      match fuel with
      | O => (h, Panic)
      | S f =>
          let@ (h, cr) := (h, record_from_raw buf) in
          let@ (h, _) := handle_handshake_record cfg d now h (snd cr) in
          server_records f cfg d now h (skipn (fst cr) buf)
      end
  end.

Definition sv_flush (h : server_hs) : server_hs * outcome tls_error unit :=
  let (s, r) := flush (sv_stream h) in (with_stream h s, r).

(* server/connection.rs:108-123.  `reads` are the results of the TCP reads, in order; None: still waiting for the next. *)
Fixpoint server_do_handshake (cfg : server_config) (d : draws) (now : Z) (h : server_hs) (reads : list (list Z))
    : server_hs * option (outcome tls_error unit) :=
  match sv_state h with
  | SvReady => (h, Some (Ok tt))
  | _ =>
      match reads with
      | [] => (h, None)
      | chunk :: rest =>
          match (let@ (h, rx) := (h, tcp_read chunk) in
                 let@ (h, _) := server_records (length rx) cfg d now h rx in
                 sv_flush h) with
          | (h, Ok _) => server_do_handshake cfg d now h rest
          | (h, o) => (h, Some o)
          end
      end
  end.

(* `err < TlsError::NotOfficial`: the discriminants of net/alert.rs:20-45 *)
Definition is_official (e : tls_error) : bool :=
  match e with NotOfficial | GotAlert _ | BrokenPipe => false | _ => true end.

(* server/connection.rs:94-106 and net/client/connection.rs:87-98: what happens to the error of a handshake *)
Definition report_error (s : stream) (e : tls_error) : stream * outcome tls_error unit :=
  let@ (s, _) := if is_official e then write_alert s e else (s, Ok tt) in
  (s, Err (match e with GotAlert code => error_new code | _ => e end)).

(* server/connection.rs:36-51 after the TCP accept; with the key log *)
Definition accept (cfg : server_config) (d : draws) (now : Z) (so : sock) (reads : list (list Z))
    : server_hs * option (outcome tls_error unit) :=
  match server_do_handshake cfg d now (server_new so) reads with
  | (h, Some (Err e)) => let (s, r) := report_error (sv_stream h) e in (with_stream h s, Some r)
  | r => r
  end.
