(* the public key found in a byte string consists of bytes *)
From Verif Require Import Model.Base Model.Bytes Model.Alert Model.Der Model.X509 Model.Curve Model.Signature Model.Ecdsa
  Model.Certificate Spec.Enc Proofs.Util Proofs.Bytes Proofs.X509 Proofs.X509Cert.
From Coq Require Import Lia.

Definition key_inv (b : builder) : Prop := forall k, b_spki_key b = Some k -> is_bytes k.
Lemma key_inv_while step : (forall b c b' c', key_inv b -> step b c = Ok (b', c') -> key_inv b') ->
  forall k limit b c b' c', key_inv b -> parse_while step k limit b c = Ok (b', c') -> key_inv b'.
Proof.
  intros Hs. induction k as [|k IH]; intros limit b c b' c' I H; [discriminate|]. cbn [parse_while] in H.
  destruct (Nat.ltb c limit).
  - apply bind_ok in H. destruct H as ((b1 & c1) & H1 & H2). eapply IH, H2. eapply Hs, H1. exact I.
  - injection H as <- <-. exact I.
Qed.
Lemma slice_bytes {E} l a b r : is_bytes l -> slice (E:=E) l a b = Ok r -> is_bytes r.
Proof. intros B H. apply slice_ok in H. destruct H as (_ & ->). now apply is_bytes_firstn, is_bytes_skipn. Qed.
Lemma slice_from_bytes {E} l a r : is_bytes l -> slice_from (E:=E) l a = Ok r -> is_bytes r.
Proof. intros B H. apply slice_from_ok in H. destruct H as (_ & ->). now apply is_bytes_skipn. Qed.
Ltac inv_same I := intros ?k ?Hk; apply I; cbn in *; assumption.
Lemma parse_key_inv data : is_bytes data -> forall fuel b st c b' c', key_inv b -> parse fuel b st data c = Ok (b', c') -> key_inv b'.
Proof.
  intros BD. induction fuel as [|f IH]; intros b st c b' c' I H; [discriminate|]. rewrite parse_S in H.
  apply bind_ok in H. destruct H as (((size & form) & c1) & _ & H).
  apply bind_ok in H. destruct H as (body & Hb & H).
  destruct form as [d|d]; destruct d; try discriminate.
  - eapply key_inv_while; [| |exact H].
    + cbn beta. intros b0 c0 b1 c2 I0 Hp. eapply IH; [|exact Hp]. exact I0.
    + unfold on_sequence. destruct (Nat.eqb (b_tbs_size b) 0); [inv_same I|]. destruct (Nat.eqb (b_tbs_size b) 1); inv_same I.
  - eapply IH, H. exact I.
  - apply bind_ok in H. destruct H as (b1 & H1 & H2). injection H2 as <- <-.
    destruct (tag =? 0); [|injection H1 as <-; exact I].
    apply bind_ok in H1. destruct H1 as (v & _ & H1). apply bind_ok in H1. destruct H1 as (v' & _ & H1).
    injection H1 as <-. inv_same I.
  - injection H as <- <-. unfold on_integer. destruct (b_serial b); [|inv_same I]. destruct (b_sig0 b); inv_same I.
  - apply bind_ok in H. destruct H as (x & _ & H). destruct (x =? 0x30).
    + eapply key_inv_while; [|exact I|exact H]. cbn beta. intros b0 c0 b1 c2 I0 Hp. eapply IH; [|exact Hp]. exact I0.
    + apply bind_ok in H. destruct H as (u & _ & H). destruct (negb (u =? 0)); [discriminate|].
      apply bind_ok in H. destruct H as (b1 & H1 & H2). injection H2 as <- <-.
      destruct (b_spki_key b) eqn:Ek; [injection H1 as <-; exact I|].
      apply bind_ok in H1. destruct H1 as (k & Hk & H1). injection H1 as <-.
      intros k' Hk'. cbn in Hk'. injection Hk' as <-. eapply slice_from_bytes, Hk. eapply slice_bytes, Hb. exact BD.
  - destruct st; [|discriminate|].
    + apply bind_ok in H. destruct H as (b1 & H1 & H2). injection H2 as <- <-.
      destruct (on_init_oid b body) eqn:Eo; try discriminate. injection H1 as <-. unfold on_init_oid in Eo.
      destruct (b_signature_alg b).
      * destruct (b_spki_alg b) as [ai0|].
        -- destruct (ai_parameters ai0).
           ++ destruct (b_cert_alg b); [injection Eo as <-; exact I|].
              apply bind_ok in Eo. destruct Eo as (a1 & _ & Eo). injection Eo as <-. inv_same I.
           ++ injection Eo as <-. inv_same I.
        -- apply bind_ok in Eo. destruct Eo as (a1 & _ & Eo). injection Eo as <-. inv_same I.
      * apply bind_ok in Eo. destruct Eo as (a1 & _ & Eo). injection Eo as <-. inv_same I.
    + injection H as <- <-. unfold on_set_oid. destruct (b_not_after b); inv_same I.
  - apply bind_ok in H. destruct H as (b1 & H1 & H2). injection H2 as <- <-.
    destruct (on_string b body) eqn:Eo; try discriminate. injection H1 as <-. unfold on_string in Eo.
    destruct (negb _); [discriminate|]. destruct (b_not_after b);
      apply bind_ok in Eo; destruct Eo as (n1 & _ & Eo); injection Eo as <-; inv_same I.
  - apply bind_ok in H. destruct H as (b1 & H1 & H2). injection H2 as <- <-.
    destruct (on_string b body) eqn:Eo; try discriminate. injection H1 as <-. unfold on_string in Eo.
    destruct (negb _); [discriminate|]. destruct (b_not_after b);
      apply bind_ok in Eo; destruct Eo as (n1 & _ & Eo); injection Eo as <-; inv_same I.
  - apply bind_ok in H. destruct H as (b1 & H1 & H2). injection H2 as <- <-.
    destruct (on_time b body) eqn:Eo; try discriminate. injection H1 as <-. unfold on_time in Eo.
    destruct (negb _); [discriminate|]. apply bind_ok in Eo. destruct Eo as (tt & _ & Eo).
    destruct tt; [|discriminate]. destruct (b_not_before b); injection Eo as <-; inv_same I.
Qed.
Lemma x509_key_bytes raw x : is_bytes raw -> x509_from_raw raw = Ok x -> is_bytes (x_spki_key x).
Proof.
  intros B H. unfold x509_from_raw in H. apply bind_ok in H. destruct H as ((b & c) & H1 & H2).
  apply parse_key_inv in H1; [|exact B|intros k Hk; discriminate].
  unfold lift in H2. destruct (build b) as [x'|e|] eqn:Eb; try discriminate. injection H2 as ->.
  unfold build in Eb. destruct (b_serial b); [|discriminate]. destruct (b_signature_alg b); [|discriminate].
  destruct (b_spki_alg b); [|discriminate]. apply bind_ok in Eb. destruct Eb as (k & Hk & Eb).
  apply bind_ok in Eb. destruct Eb as (a1 & _ & Eb). injection Eb as <-. cbn. apply H1.
  destruct (b_spki_key b); [|discriminate]. cbn in Hk. congruence.
Qed.
(* the key of a certificate is a pair of numbers below 2^256 *)
Lemma certificate_key_ok {E} raw x k : is_bytes raw -> x509_from_raw raw = Ok x -> certificate_key (E:=E) x = Ok (Some k) ->
  exists a b, k = PublicKey (Point a b) secp256r1 /\ X509.get_public_key (E:=E) x = Ok (Some (a, b)) /\ 0 <= a < 2^256 /\ 0 <= b < 2^256.
Proof.
  intros B H K. apply x509_key_bytes in H; [|exact B]. unfold certificate_key in K.
  apply bind_ok in K. destruct K as (o & Ko & K). destruct o as [[a b]|]; [|discriminate]. injection K as <-.
  exists a, b. split; [reflexivity|]. split; [exact Ko|]. unfold X509.get_public_key in Ko.
  destruct (ai_algorithm (x_spki_alg x)); try discriminate. destruct (ai_parameters (x_spki_alg x)) as [[]|]; try discriminate.
  apply bind_ok in Ko. destruct Ko as (b0 & _ & Ko). destruct (negb _); [discriminate|].
  apply bind_ok in Ko. destruct Ko as (xs & Hx & Ko). apply bind_ok in Ko. destruct Ko as (ys & Hy & Ko).
  assert (V : a = be_val xs /\ b = be_val ys) by (rewrite !to_ibig_be_val in Ko; split; congruence). destruct V as [-> ->].
  assert (L : zlen xs = 32 /\ zlen ys = 32).
  { apply slice_ok in Hx. apply slice_ok in Hy. destruct Hx as (Q & ->), Hy as (Q' & ->). unfold zlen.
    rewrite !firstn_length, !skipn_length. lia. }
  destruct L as [L1 L2].
  pose proof (be_val_range xs (slice_bytes _ _ _ _ H Hx)) as R1. pose proof (be_val_range ys (slice_bytes _ _ _ _ H Hy)) as R2.
  rewrite L1 in R1. rewrite L2 in R2. change (256 ^ 32) with (2^256) in *. auto.
Qed.
