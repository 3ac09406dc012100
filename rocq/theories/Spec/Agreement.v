(* What the traffic secrets of RFC 8446 section 7.1 commit to: the strings that are hashed on the way to them *)
From Verif Require Import Model.Base Spec.Rfc4648 Spec.Rfc2104 Spec.Rfc8446Keys Spec.Rfc8446Auth.
Import String.StringSyntax.
Local Open Scope string_scope.
Local Open Scope list_scope.

(* the two strings HMAC hashes (RFC 2104) *)
Definition hmac_hashes (A : alg) (key text : list Z) : list (list Z) :=
  let inner := xor_all 0x36 (key_block A key) ++ text in [inner; xor_all 0x5C (key_block A key) ++ alg_hash A inner].
(* the strings Derive-Secret hashes (7.1): the messages, and those of HMAC for the one block of output it takes *)
Definition derive_hashes (A : alg) (secret label messages : list Z) : list (list Z) :=
  messages :: hmac_hashes A secret (HkdfLabel label (alg_hash A messages) (alg_len A) ++ [1]).

(* everything the schedule hashes for a shared secret, the two hellos and the messages up to the server's Finished, after the
   Early Secret, which is a constant *)
Definition schedule_hashes (A : alg) (ecdhe hellos messages : list Z) : list (list Z) :=
  let hs := Handshake_Secret A ecdhe in let ms := Master_Secret A ecdhe in
  hmac_hashes A (Derive_Secret A (Early_Secret A) (codes "derived") []) ecdhe ++
  derive_hashes A hs (codes "c hs traffic") hellos ++ derive_hashes A hs (codes "s hs traffic") hellos ++
  derive_hashes A hs (codes "derived") [] ++ hmac_hashes A (Derive_Secret A hs (codes "derived") []) (zeros A) ++
  derive_hashes A ms (codes "c ap traffic") messages ++ derive_hashes A ms (codes "s ap traffic") messages.
(* and for a Finished message (4.4.4) *)
Definition finished_hashes (A : alg) (secret messages : list Z) : list (list Z) :=
  hmac_hashes A secret (HkdfLabel (codes "finished") [] (alg_len A) ++ [1]) ++
  messages :: hmac_hashes A (finished_key A secret) (alg_hash A messages).

(* two different strings, one from each list, with the same hash *)
Definition collide (A : alg) (l1 l2 : list (list Z)) : Prop := exists x y, In x l1 /\ In y l2 /\ x <> y /\ alg_hash A x = alg_hash A y.

(* the traffic secrets of a connection, each with a name *)
Inductive secret_name := ClientHandshake | ServerHandshake | ClientApplication | ServerApplication.
Definition traffic_secret (A : alg) (ecdhe hellos messages : list Z) (n : secret_name) : list Z :=
  match n with
  | ClientHandshake => client_handshake_traffic_secret A ecdhe hellos
  | ServerHandshake => server_handshake_traffic_secret A ecdhe hellos
  | ClientApplication => client_application_traffic_secret_0 A ecdhe messages
  | ServerApplication => server_application_traffic_secret_0 A ecdhe messages
  end.
(* the messages the secret is derived from *)
Definition covered (hellos messages : list Z) (n : secret_name) : list Z :=
  match n with ClientHandshake | ServerHandshake => hellos | _ => messages end.
