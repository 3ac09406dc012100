(* Model of KeySchedule::from_handshake (net/key_schedule.rs:128-151) *)
From Verif Require Import Model.Base Model.Alert Model.Bytes Model.Sha2 Model.Hmac Model.Suite Model.Curve Model.Ecdsa Model.KeySchedule Model.Extensions.

(* net/key_schedule.rs:138-145: the shared secret *)
Definition shared_secret {E} (pk : private_key) (entry : kse) : outcome E (list Z) :=
  let peer := Point (to_ibig_be (ks_opaque entry)) 0 in
  let! s := ec_multiply peer (sk_secret pk) (sk_curve pk) in
  ibig_to_32bytes (px s) Big.

(* net/key_schedule.rs:128-151 *)
Definition from_handshake (th : transcript) (pk : private_key) (entry : kse) : outcome tls_error key_schedule :=
  match ks_group entry with
  | X25519g =>
      let! shared := shared_secret pk entry in
      match do_key_schedule (th_type th) (th_finalize th) shared with
      | Some ks => Ok ks
      | None => Err HandshakeFailure
      end
  | _ => Err HandshakeFailure
  end.
