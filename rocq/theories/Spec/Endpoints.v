(* Vocabulary of the statements about record protection: which endpoints, keys and messages are meant. *)
From Verif Require Import Model.Base Model.Alert Model.Suite Model.KeySchedule Model.Record Model.Channel Spec.Tls13Record.

(* the AEAD of a cipher object *)
Definition c_aead (c : cipher) : aead := match c with CGcm _ => AES_GCM | CPoly => CHACHA20_POLY1305 end.

(* the cipher objects a negotiation can produce *)
Definition good_cipher (c : cipher) : Prop := exists cs, suite_cipher cs = Ok c.

(* key and IV of the sizes the suite prescribes *)
Definition good_key (cs : cipher_suite) (k : tkey) : Prop :=
  is_bytes (k_key k) /\ length (k_key k) = fst (key_iv_len cs) /\ is_bytes (k_iv k) /\ length (k_iv k) = 12%nat.

(* ... with sequence numbers left *)
Definition key_ready (c : cipher) (k : tkey) : Prop :=
  good_key (cipher_get_suite c) k /\ 0 <= k_seq k /\ k_seq k + 1 < 2^64.

(* the same key after one record *)
Definition next_key (k : tkey) : tkey :=
  {| k_secret := k_secret k; k_key := k_key k; k_iv := k_iv k; k_seq := k_seq k + 1 |}.

(* contents that fit into one record *)
Definition msg : Type := rmsg.
Definition msg_ok (m : msg) : Prop := fst m <> RInvalid /\ is_bytes (snd m) /\ zlen (snd m) + 17 < 2^16.

Definition ev_ok (e : chan_event) : Prop :=
  match e with Send _ t content => msg_ok (t, content) | Deliver _ => True end.

(* two endpoints that agree on cipher and keys *)
Definition paired (client server : rpp) : Prop :=
  rp_is_client client = true /\ rp_is_client server = false /\ rp_cipher client = rp_cipher server /\
  cur_keys client = cur_keys server /\
  (exists cs, suite_cipher cs = Ok (rp_cipher client)) /\
  forall b, let k := side_key b (cur_keys client) in
    is_bytes (k_key k) /\ length (k_key k) = fst (key_iv_len (cipher_get_suite (rp_cipher client))) /\
    is_bytes (k_iv k) /\ length (k_iv k) = 12%nat /\ 0 <= k_seq k.

Definition fresh_chan (client server : rpp) : chan :=
  {| ch_client := client; ch_server := server; ch_c2s := []; ch_s2c := []; ch_at_server := []; ch_at_client := [] |}.

(* n nonces in a row from one key *)
Fixpoint draw (n : nat) (k : tkey) : outcome tls_error (list (list Z) * tkey) :=
  match n with
  | O => Ok ([], k)
  | S m => let! (x, k1) := per_record_nonce k in let! (xs, k2) := draw m k1 in Ok (x :: xs, k2)
  end.
