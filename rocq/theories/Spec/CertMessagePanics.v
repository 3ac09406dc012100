(* Which Certificate messages can make the library panic, given what its certificate reader does with the first certificate in them
   (Spec/CertPanics.v) *)
From Verif Require Import Model.Base Model.X509 Spec.Enc.

Definition n24 (a b c : Z) : Z := a * 65536 + b * 256 + c.
(* RFC 8446, 4.4.2: after the context, the length of the list of certificates, which is not 0 but not looked at any further, and the
   length of the first certificate *)
Definition carries (body cert more : list Z) : Prop :=
  exists c context a b d e f g, body = c :: context ++ a :: b :: d :: e :: f :: g :: cert ++ more /\
    zlen context = c /\ n24 a b d <> 0 /\ zlen cert = n24 e f g.
(* a date that is counted in seconds from 1970 on *)
Definition countable (t : utc_time) : Prop := 1970 <= t_year t /\ 1 <= t_month t <= 12 /\ 1 <= t_day t.

Inductive certificate_message_panics (body : list Z) : Prop :=
| cm_empty : body = [] -> certificate_message_panics body
| cm_context c rest :                     (* the context or the length of the list is cut short *)
    body = c :: rest -> zlen rest < c + 3 -> certificate_message_panics body
| cm_entry c context a b d rest :         (* a list that is not said to be empty, without the length of the first certificate *)
    body = c :: context ++ a :: b :: d :: rest -> zlen context = c -> n24 a b d <> 0 -> (length rest < 3)%nat -> certificate_message_panics body
| cm_cut c context a b d e f g rest :     (* the first certificate is cut short *)
    body = c :: context ++ a :: b :: d :: e :: f :: g :: rest -> zlen context = c -> n24 a b d <> 0 -> zlen rest < n24 e f g -> certificate_message_panics body
| cm_reader cert more :                   (* a certificate that makes the reader panic *)
    carries body cert more -> x509_from_raw cert = Panic -> certificate_message_panics body
| cm_extensions cert more x :             (* a certificate, but no length of its extensions *)
    carries body cert more -> x509_from_raw cert = Ok x -> (length more < 2)%nat -> certificate_message_panics body
| cm_dates cert more x t :                (* a period of validity whose beginning or end is not countable *)
    carries body cert more -> x509_from_raw cert = Ok x -> v_not_before (x_validity x) = Some t \/ v_not_after (x_validity x) = Some t -> ~ countable t ->
    certificate_message_panics body.

(* a certificate that is shorter than the part of it that is signed is said to be *)
Definition signed_part_cut (body : list Z) : Prop :=
  exists cert more x, carries body cert more /\ x509_from_raw cert = Ok x /\ zlen cert < 4 + Z.of_nat (x_tbs_size x).
(* a certificate for a P-256 key that is not an uncompressed point *)
Definition bad_key (body : list Z) : Prop :=
  exists cert more x, carries body cert more /\ x509_from_raw cert = Ok x /\
    ai_algorithm (x_spki_alg x) = EcPublicKey /\ ai_parameters (x_spki_alg x) = Some Prime256v1 /\
    ~ exists coordinates, x_spki_key x = 4 :: coordinates /\ (64 <= length coordinates)%nat.
(* the context in the message, if all of it is there, is the one that was requested *)
Definition with_context (context body : list Z) : Prop := forall c ctx more, body = c :: ctx ++ more -> zlen ctx = c -> ctx = context.
