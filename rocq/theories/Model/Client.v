(* Model of anothertls/src/net/client/connection.rs *)
From Verif Require Import Model.Base Model.Bytes Model.Alert Model.Sha2 Model.Hmac Model.Suite Model.KeySchedule Model.Record Model.Curve Model.Signature
  Model.Ecdsa Model.X509 Model.Extensions Model.Hello Model.Kex Model.Handshake Model.Certificate Model.Stream Model.Keylog Model.Server.

(* net/client/config.rs:13-19 *)
Record client_config := {
  cc_server_name : option (list Z); cc_cert : option cert; cc_key : option private_key; cc_keylog : option (list Z) }.

(* What one handshake draws: rng.between(1, 32) of the key, rng.bytes(32) for random and session id, the numbers of the
   signature loop; and how many bytes of the ClientHello the first write takes. *)
Record client_draws := { e_secret : Z; e_random : list Z; e_session : list Z; e_nonces : list Z; e_took : nat }.

(* client/connection.rs:40-51 *)
Inductive client_state :=
| CsServerHello | CsEncryptedExtensions | CsClientCertificateRequest | CsServerCertificate | CsServerCertificateVerify
| CsFinishWithError (e : tls_error) | CsFinished | CsReady.

(* client/connection.rs:53-65 *)
Record client_hs := {
  cl_stream : stream; cl_state : client_state; cl_request : option (list Z); cl_keylog : option (list Z); cl_log : list Z;
  cl_th : option transcript; cl_key : private_key; cl_cert : option cert; cl_hello : option (list Z); cl_random : option (list Z) }.
Definition cl_with_stream (h : client_hs) (s : stream) : client_hs :=
  {| cl_stream := s; cl_state := cl_state h; cl_request := cl_request h; cl_keylog := cl_keylog h; cl_log := cl_log h;
     cl_th := cl_th h; cl_key := cl_key h; cl_cert := cl_cert h; cl_hello := cl_hello h; cl_random := cl_random h |}.
Definition cl_with_state (h : client_hs) (x : client_state) : client_hs :=
  {| cl_stream := cl_stream h; cl_state := x; cl_request := cl_request h; cl_keylog := cl_keylog h; cl_log := cl_log h;
     cl_th := cl_th h; cl_key := cl_key h; cl_cert := cl_cert h; cl_hello := cl_hello h; cl_random := cl_random h |}.
Definition cl_with_request (h : client_hs) (r : list Z) : client_hs :=
  {| cl_stream := cl_stream h; cl_state := cl_state h; cl_request := Some r; cl_keylog := cl_keylog h; cl_log := cl_log h;
     cl_th := cl_th h; cl_key := cl_key h; cl_cert := cl_cert h; cl_hello := cl_hello h; cl_random := cl_random h |}.
Definition cl_with_th (h : client_hs) (t : transcript) : client_hs :=
  {| cl_stream := cl_stream h; cl_state := cl_state h; cl_request := cl_request h; cl_keylog := cl_keylog h; cl_log := cl_log h;
     cl_th := Some t; cl_key := cl_key h; cl_cert := cl_cert h; cl_hello := cl_hello h; cl_random := cl_random h |}.
Definition cl_with_cert (h : client_hs) (c : cert) : client_hs :=
  {| cl_stream := cl_stream h; cl_state := cl_state h; cl_request := cl_request h; cl_keylog := cl_keylog h; cl_log := cl_log h;
     cl_th := cl_th h; cl_key := cl_key h; cl_cert := Some c; cl_hello := cl_hello h; cl_random := cl_random h |}.
Definition cl_with_keylog (h : client_hs) (k : list Z) : client_hs :=
  {| cl_stream := cl_stream h; cl_state := cl_state h; cl_request := cl_request h; cl_keylog := Some k; cl_log := cl_log h;
     cl_th := cl_th h; cl_key := cl_key h; cl_cert := cl_cert h; cl_hello := cl_hello h; cl_random := cl_random h |}.
Definition cl_append_log (h : client_hs) (l : list Z) : client_hs :=
  {| cl_stream := cl_stream h; cl_state := cl_state h; cl_request := cl_request h; cl_keylog := cl_keylog h; cl_log := cl_log h ++ l;
     cl_th := cl_th h; cl_key := cl_key h; cl_cert := cl_cert h; cl_hello := cl_hello h; cl_random := cl_random h |}.
Definition cl_with_hello (h : client_hs) (random hello : list Z) : client_hs :=
  {| cl_stream := cl_stream h; cl_state := cl_state h; cl_request := cl_request h; cl_keylog := cl_keylog h; cl_log := cl_log h;
     cl_th := cl_th h; cl_key := cl_key h; cl_cert := cl_cert h; cl_hello := Some hello; cl_random := Some random |}.
Definition cl_with_protection (h : client_hs) (p : option rpp) : client_hs :=
  cl_with_stream h (set_protection (cl_stream h) p).

(* client/connection.rs:68-85 *)
Definition client_new (e : client_draws) (so : sock) : client_hs :=
  {| cl_stream := stream_new so; cl_state := CsServerHello; cl_request := None; cl_keylog := None; cl_log := [];
     cl_th := None; cl_key := PrivateKey curve25519 (e_secret e); cl_cert := None; cl_hello := None; cl_random := None |}.

(* client/connection.rs:150-206 *)
Definition send_client_hello (cfg : client_config) (e : client_draws) (h : client_hs) : client_hs * outcome tls_error unit :=
  let@ (h, ch) := (h, client_hello_of (e_random e) (e_session e) (cl_key h) (cc_server_name cfg)) in
  let@ (h, body) := (h, client_hello_bytes ch) in
  let raw := handshake_to_bytes HtClientHello body in
  let h := cl_with_hello h (e_random e) raw in
  let (s, r) := tcp_write (cl_stream h) (e_took e) (record_as_bytes (record_new RHandshake raw)) in
  let@ (h, _) := (cl_with_stream h s, r) in
  (h, Ok tt).

Definition cl_write (h : client_hs) (t : record_type) (data : list Z) : client_hs * outcome tls_error unit :=
  let (s, r) := write_record (cl_stream h) t data in (cl_with_stream h s, r).
Definition cl_flush (h : client_hs) : client_hs * outcome tls_error unit :=
  let (s, r) := flush (cl_stream h) in (cl_with_stream h s, r).

(* client/connection.rs:246-293 *)
Definition handle_server_hello (cfg : client_config) (h : client_hs) (rec : record) : client_hs * outcome tls_error unit :=
  let@ (h, hs) := (h, handshake_from_raw (r_fragment rec)) in
  if negb (ht_eqb (hs_type hs) HtServerHello) then (h, Err UnexpectedMessage) else
  let@ (h, sh) := (h, server_hello_from_raw (hs_fraqment hs)) in
  let@ (h, th) := (h, suite_tshash (sh_suite sh)) in
  let@ (h, hello) := (h, unwrap (cl_hello h)) in
  let th := th_update th hello in
  let th := th_update th (r_fragment rec) in
  match server_public_key_share (sh_exts sh) with
  | None => (h, Err HandshakeFailure)
  | Some entry =>
      let@ (h, ks) := (h, from_handshake th (cl_key h) entry) in
      let@ (h, c) := (h, suite_cipher (sh_suite sh)) in
      let@ (h, p) := (h, rpp_new ks c true) in
      let@ (h, _) :=
        match cc_keylog cfg, p with
        | Some _, Some p =>
            let@ (h, random) := (h, unwrap (cl_random h)) in
            let k := keylog_new random in
            (cl_with_keylog (cl_append_log h (append_handshake_traffic_secrets k
               (k_secret (wk_server (rp_handshake p))) (k_secret (wk_client (rp_handshake p))))) k, Ok tt)
        | _, _ => (h, Ok tt)
        end in
      let h := cl_with_protection h p in
      (cl_with_state (cl_with_th h th) CsEncryptedExtensions, Ok tt)
  end.

(* client/connection.rs:338-349 *)
Definition handle_encrypted_extension (h : client_hs) (hs : handshake) : client_hs * outcome tls_error unit :=
  if negb (ht_eqb (hs_type hs) HtEncryptedExtensions) then (h, Err UnexpectedMessage) else
  let@ (h, th) := (h, unwrap (cl_th h)) in
  (cl_with_state (cl_with_th h (th_update th (hs_raw hs))) CsClientCertificateRequest, Ok tt).

(* client/connection.rs:351-391: of the certificates in the list the first is kept *)
Definition handle_server_certificate (now : Z) (h : client_hs) (hs : handshake) : client_hs * outcome tls_error unit :=
  if negb (ht_eqb (hs_type hs) HtCertificate) then (h, Err UnexpectedMessage) else
  let@ (h, th) := (h, unwrap (cl_th h)) in
  let h := cl_with_th h (th_update th (hs_raw hs)) in
  match certificates_from_hello (hs_fraqment hs) now with
  | Panic => (h, Panic)
  | Err e => (cl_with_state h (CsFinishWithError e), Ok tt)
  | Ok certs =>
      let@ (h, c) := (h, unwrap (hd_error certs)) in
      (cl_with_state (cl_with_cert h c) CsServerCertificateVerify, Ok tt)
  end.

(* client/connection.rs:392-441; schemes other than the first are todo!() *)
Definition handle_server_certificate_verify (h : client_hs) (hs : handshake) : client_hs * outcome tls_error unit :=
  match cl_cert h with
  | None => (h, Err UnexpectedMessage)
  | Some c =>
      if negb (ht_eqb (hs_type hs) HtCertificateVerify) then (h, Err UnexpectedMessage) else
      let@ (h, b) := (h, slice (hs_fraqment hs) 0 2) in
      let@ (h, algo) := (h, sig_scheme_new (to_u16 b)) in
      match algo with
      | ecdsa_secp256r1_sha256 =>
          let@ (h, rest) := (h, slice_from (hs_fraqment hs) 4) in
          match sig_from_der rest with
          | Panic => (h, Panic)
          | Err e => (cl_with_state h (CsFinishWithError e), Ok tt)
          | Ok (sg, size) =>
              let@ (h, th) := (h, unwrap (cl_th h)) in
              let@ (h, valid) := (h, is_certificate_valid c sg th l_server) in
              if negb valid then (cl_with_state h (CsFinishWithError BadCertificate), Ok tt) else
              let h := cl_with_th h (th_update th (hs_raw hs)) in
              let@ (h, b) := (h, slice (hs_fraqment hs) 2 4) in
              if negb (Nat.eqb (Z.to_nat (to_u16 b)) size) then (cl_with_state h (CsFinishWithError BadCertificate), Ok tt) else
              (cl_with_state h CsFinished, Ok tt)
          end
      | _ => (h, Panic)
      end
  end.

(* client/connection.rs:500-554.  The result of from_request is not looked at, its panics count.  For the signature loop see
   handle_client_hello in Model/Server.v. *)
Definition handle_certificate_request (cfg : client_config) (e : client_draws) (h : client_hs) : client_hs * outcome tls_error unit :=
  let@ (h, request) := (h, unwrap (cl_request h)) in
  let@ (h, b0) := (h, idx request 0) in
  let context_len := Z.to_nat b0 in
  let@ (h, context) := (h, if Nat.ltb 0 context_len then slice request 1 (context_len + 1) else Ok []) in
  let consumed := (1 + context_len)%nat in
  let@ (h, b) := (h, slice_from request consumed) in
  let ext_len := Z.to_nat (to_u16 b) in
  let consumed := (consumed + 2)%nat in
  let@ (h, b) := (h, slice request consumed (consumed + ext_len)) in
  let@ (h, _) := match from_request_exts b with Panic => (h, Panic) | _ => (h, Ok tt) end in
  let response := b0 :: context ++
    match cc_cert cfg with
    | Some c => certificate_for_handshake c []
    | None => [0x00; 0x00; 0x00; 0x02; 0x00; 0x00]
    end in
  let raw := handshake_to_bytes HtCertificate response in
  let@ (h, _) := cl_write h RHandshake raw in
  let@ (h, th) := (h, unwrap (cl_th h)) in
  let th := th_update th raw in
  let h := cl_with_th h th in
  let@ (h, _) :=
    match cc_cert cfg with
    | None => (h, Ok tt)
    | Some _ =>
        match cc_key cfg with
        | None => (h, Err HandshakeFailure)
        | Some key =>
            let@ (h, cv) := (h, certificate_verify_for_handshake key th l_client (e_nonces e)) in
            let@ (h, cv) := (h, unwrap cv) in
            let raw := handshake_to_bytes HtCertificateVerify cv in
            let h := cl_with_th h (th_update th raw) in
            cl_write h RHandshake raw
        end
    end in
  (cl_with_state h CsServerCertificate, Ok tt).

(* client/connection.rs:442-498 *)
Definition handle_server_finish (cfg : client_config) (e : client_draws) (h : client_hs) (hs : handshake)
    : client_hs * outcome tls_error unit :=
  if negb (ht_eqb (hs_type hs) HtFinished) then
    match cl_state h with
    | CsFinishWithError _ => (h, Ok tt)
    | _ => (h, Err UnexpectedMessage)
    end
  else
    let@ (h, p) := (h, unwrap (st_protection (cl_stream h))) in
    let@ (h, th) := (h, unwrap (cl_th h)) in
    let@ (h, verify_data) := (h, verify_data_for_finished (ks_server_hs (rp_schedule p)) th) in
    match cl_state h with
    | CsFinishWithError err => (h, Err err)
    | _ =>
        if negb (list_eqb (hs_fraqment hs) verify_data) then (h, Err DecryptError) else
        let application_th := th_update th (hs_raw hs) in
        let h := cl_with_th h application_th in
        let@ (h, _) := match cl_request h with Some _ => handle_certificate_request cfg e h | None => (h, Ok tt) end in
        let@ (h, p) := (h, unwrap (st_protection (cl_stream h))) in
        let@ (h, th) := (h, unwrap (cl_th h)) in
        let@ (h, finished) := (h, finished_handshake (ks_client_hs (rp_schedule p)) th) in
        let@ (h, _) := cl_write h RHandshake finished in
        let@ (h, _) := cl_flush h in
        let@ (h, p) := (h, unwrap (st_protection (cl_stream h))) in
        let (p', r) := generate_application_keys p application_th in
        let@ (h, _) := (cl_with_protection h (Some p'), r) in
        let h := match cl_keylog h with Some k => cl_append_log h (append_from_protection k p') | None => h end in
        (cl_with_state h CsReady, Ok tt)
    end.

(* client/connection.rs:312-334: one message *)
Definition handle_message (cfg : client_config) (e : client_draws) (now : Z) (h : client_hs) (hs : handshake)
    : client_hs * outcome tls_error unit :=
  match cl_state h with
  | CsEncryptedExtensions => handle_encrypted_extension h hs
  | CsServerCertificate | CsClientCertificateRequest =>
      if ht_eqb (hs_type hs) HtCertificateRequest then
        let h := cl_with_request h (hs_fraqment hs) in
        let@ (h, th) := (h, unwrap (cl_th h)) in
        (cl_with_state (cl_with_th h (th_update th (hs_raw hs))) CsServerCertificate, Ok tt)
      else handle_server_certificate now h hs
  | CsServerCertificateVerify => handle_server_certificate_verify h hs
  | CsFinished | CsFinishWithError _ => handle_server_finish cfg e h hs
  | _ => (h, Ok tt)
  end.

(* client/connection.rs:308-335; each message has at least four bytes, fuel is the length *)
Fixpoint client_messages (fuel : nat) (cfg : client_config) (e : client_draws) (now : Z) (h : client_hs) (buf : list Z)
    : client_hs * outcome tls_error unit :=
  match buf with
  | [] => (h, Ok tt)
  | _ =>
      match fuel with
      | O => (h, Panic)
      | S f =>
          let@ (h, hs) := (h, handshake_from_raw buf) in
          let@ (h, _) := handle_message cfg e now h hs in
          client_messages f cfg e now h (skipn (length (hs_raw hs)) buf)
      end
  end.

(* client/connection.rs:295-336 *)
Definition client_encrypted_record (cfg : client_config) (e : client_draws) (now : Z) (h : client_hs) (rec : record)
    : client_hs * outcome tls_error unit :=
  let@ (h, p) := (h, unwrap (st_protection (cl_stream h))) in
  let (p', r) := rpp_decrypt p rec in
  let@ (h, tc) := (cl_with_protection h (Some p'), r) in
  let (t, content) := (tc : record_type * list Z) in
  match t with
  | RHandshake => client_messages (length content) cfg e now h content
  | RAlert => let@ (h, code) := (h, idx content 1) in (h, Err (GotAlert code))
  | _ => (h, Err UnexpectedMessage)
  end.

(* client/connection.rs:208-244 *)
Definition client_record (cfg : client_config) (e : client_draws) (now : Z) (h : client_hs) (rec : record)
    : client_hs * outcome tls_error unit :=
  match r_type rec with
  | RChangeCipherSpec =>
      match cl_state h with CsServerHello => (h, Err UnexpectedMessage) | _ => (h, Ok tt) end
  | RAlert => let@ (h, code) := (h, idx (r_fragment rec) 1) in (h, Err (GotAlert code))
  | t =>
      match cl_state h with
      | CsServerHello =>
          match t with RHandshake => handle_server_hello cfg h rec | _ => (h, Err UnexpectedMessage) end
      | CsReady => (h, Ok tt)
      | _ => client_encrypted_record cfg e now h rec
      end
  end.

(* client/connection.rs:121-142: the records of one read.  `rx` is rxbuf[..n], `defrag` the buffer `defragmented`, both with
   `offset` as in the code; the result is the buffer afterwards.  Reading rx when it is at offset 0, and defragmented only when
   it is not empty, both panic when the offset lies behind the end.  Each turn but the last adds to the offset; with an empty
   `defrag` the turns end at n, otherwise when a record does not parse. *)
Fixpoint client_records (fuel : nat) (cfg : client_config) (e : client_draws) (now : Z) (h : client_hs) (rx defrag : list Z)
    (offset : nat) : (client_hs * list Z) * outcome tls_error unit :=
  if negb (Nat.ltb offset (length rx) || negb (match defrag with [] => true | _ => false end)) then ((h, defrag), Ok tt)
  else
    match fuel with
    | O => ((h, defrag), Panic)
    | S f =>
        let@ (hd, buf) := ((h, defrag), match defrag with [] => slice_from rx offset | _ => slice_from defrag offset end) in
        match record_from_raw buf with
        | Panic => (hd, Panic)
        | Err _ => ((fst hd, match snd hd with [] => buf | d => d end), Ok tt)
        | Ok (consumed, rec) =>
            match client_record cfg e now (fst hd) rec with
            | (h, Ok _) =>
                let offset := (offset + consumed)%nat in
                if Nat.eqb offset (length (snd hd)) then ((h, []), Ok tt)
                else client_records f cfg e now h rx (snd hd) offset
            | (h, Err er) => ((h, snd hd), Err er)
            | (h, Panic) => ((h, snd hd), Panic)
            end
        end
    end.

(* client/connection.rs:105-146: the reads.  None: still waiting for the next. *)
Fixpoint client_reads (cfg : client_config) (e : client_draws) (now : Z) (h : client_hs) (defrag : list Z) (reads : list (list Z))
    : client_hs * option (outcome tls_error unit) :=
  match cl_state h with
  | CsReady => (h, Some (Ok tt))
  | _ =>
      match reads with
      | [] => (h, None)
      | chunk :: rest =>
          match tcp_read chunk with
          | Ok rx =>
              let defrag := match defrag with [] => [] | _ => defrag ++ rx end in
              match client_records (S (length rx + length defrag)) cfg e now h rx defrag 0 with
              | ((h, defrag), Ok _) =>
                  match cl_flush h with
                  | (h, Ok _) => client_reads cfg e now h defrag rest
                  | (h, o) => (h, Some o)
                  end
              | ((h, _), o) => (h, Some o)
              end
          | Err er => (h, Some (Err er))
          | Panic => (h, Some Panic)
          end
      end
  end.

(* client/connection.rs:101-148 *)
Definition client_do_handshake (cfg : client_config) (e : client_draws) (now : Z) (h : client_hs) (reads : list (list Z))
    : client_hs * option (outcome tls_error unit) :=
  match send_client_hello cfg e h with
  | (h, Ok _) => client_reads cfg e now h [] reads
  | (h, o) => (h, Some o)
  end.

(* client/connection.rs:30-37, 87-98 *)
Definition connect (cfg : client_config) (e : client_draws) (now : Z) (so : sock) (reads : list (list Z))
    : client_hs * option (outcome tls_error unit) :=
  match client_do_handshake cfg e now (client_new e so) reads with
  | (h, Some (Err er)) => let (s, r) := report_error (cl_stream h) er in (cl_with_stream h s, Some r)
  | r => r
  end.
