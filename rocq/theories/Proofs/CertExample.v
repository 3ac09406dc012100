(* A server that presents any certificate, for the examples *)
From Verif Require Import Proofs.Util Proofs.Bytes Model.Alert Model.KeySchedule Model.Record Model.Channel Model.Stream Model.Client Spec.Enc Spec.Rfc8446Keys Spec.Tls13Record Spec.Endpoints Spec.Connection Spec.ClientConnection Spec.Rfc8446Hello.
From Verif Require Import Proofs.Record Proofs.Channel Proofs.ServerRun Proofs.ServerKeys Proofs.Opened Proofs.ServerFlow Proofs.ServerAccept Proofs.ServerAccept2 Proofs.ClientAccept.
From Verif Require Proofs.ServerExample Proofs.Loopback Proofs.LoopbackExample Proofs.ClientHandshakeExample.

Lemma server_record H g n m : suited H g -> is_bytes m -> zlen m + 17 < 2^16 -> 0 <= n <= 2 ->
  exists r, whole r /\ r_type r = RApplicationData /\ from_server g n m r.
Proof.
  intros S Bm Lm Hn. pose proof S as (_ & Gc & _). destruct (suited_keys H g true S) as (_ & _ & _ & G1 & _).
  set (k := key_at (Connection.traffic_key g (server_secret g)) n).
  assert (Bi : is_bytes (m ++ [22])) by (apply is_bytes_app; split; [exact Bm|apply is_bytes_check; reflexivity]).
  assert (Li : zlen (m ++ [22]) + 16 < 2^16) by (rewrite zlen_app; change (zlen [22]) with 1; lia).
  destruct (seal_exists (g_cipher g) k (m ++ [22]) Gc) as (w & Sw).
  { split; [exact G1|]. cbn [k key_at k_seq]. lia. }
  { exact Bi. } { exact Li. }
  destruct (sealed_record _ _ _ _ Sw Li) as (rec & P & Wr & T & Hh & e & t & F & Lt & Et & D).
  exists rec. split; [|split; [exact T|]].
  - split; [rewrite Wr; exact P|]. rewrite Wr. destruct Sw as (e' & t' & _ & _ & _ & Be & Et' & _ & ->).
    assert (Bt : is_bytes t') by (rewrite Et'; apply tag_bytes; [exact Gc|apply G1|apply G1]).
    unfold encode_record. repeat first [assumption | apply be_enc_bytes | solve [apply is_bytes_check; reflexivity] | apply is_bytes_app; split].
  - exists e, t, 0%nat. split; [exact F|]. cbv zeta. rewrite Hh. cbn [repeat]. rewrite app_nil_r. split; [exact Et|exact D].
Qed.
(* a client, a ServerHello for it, and a record with the first messages *)
Lemma presents flight : is_bytes flight -> zlen flight + 17 < 2^16 -> exists cfg e first sh g r,
  client_ok cfg e /\ whole first /\ r_type first = RHandshake /\ agrees cfg e (r_fragment first) sh g /\
  whole r /\ r_type r = RApplicationData /\ from_server g 0 flight r.
Proof.
  intros B L. destruct (Proofs.LoopbackExample.lb_compatible true) as (k & k' & _ & _ & C).
  destruct (Proofs.Loopback.conforming _ _ _ _ _ C) as (first & sh & g & parts & more & H1 & H2 & H3 & _).
  assert (Ok' : client_ok (LoopbackExample.lb_client true) (LoopbackExample.lb_client_draws k')) by apply C.
  destruct (whole_formed _ H1) as (_ & _ & Bf & Lf).
  destruct (agrees_facts _ _ _ _ _ Ok' Bf Lf H3) as (_ & _ & H & _ & _ & _ & _ & _ & _ & _ & S & _).
  destruct (server_record H g 0 flight S B L ltac:(lia)) as (r & W & T & F).
  exists (LoopbackExample.lb_client true), (LoopbackExample.lb_client_draws k'), first, sh, g, r. auto 10.
Qed.
(* and two records *)
Lemma presents2 m1 m2 : is_bytes m1 -> zlen m1 + 17 < 2^16 -> is_bytes m2 -> zlen m2 + 17 < 2^16 -> exists cfg e first sh g r1 r2,
  client_ok cfg e /\ whole first /\ r_type first = RHandshake /\ agrees cfg e (r_fragment first) sh g /\
  (whole r1 /\ r_type r1 = RApplicationData /\ from_server g 0 m1 r1) /\ whole r2 /\ r_type r2 = RApplicationData /\ from_server g 1 m2 r2.
Proof.
  intros B1 L1 B2 L2. destruct (Proofs.LoopbackExample.lb_compatible true) as (k & k' & _ & _ & C).
  destruct (Proofs.Loopback.conforming _ _ _ _ _ C) as (first & sh & g & parts & more & H1 & H2 & H3 & _).
  assert (Ok' : client_ok (LoopbackExample.lb_client true) (LoopbackExample.lb_client_draws k')) by apply C.
  destruct (whole_formed _ H1) as (_ & _ & Bf & Lf).
  destruct (agrees_facts _ _ _ _ _ Ok' Bf Lf H3) as (_ & _ & H & _ & _ & _ & _ & _ & _ & _ & S & _).
  destruct (server_record H g 0 m1 S B1 L1 ltac:(lia)) as (r1 & W1 & T1 & F1). destruct (server_record H g 1 m2 S B2 L2 ltac:(lia)) as (r2 & W2 & T2 & F2).
  exists (LoopbackExample.lb_client true), (LoopbackExample.lb_client_draws k'), first, sh, g, r1, r2. auto 15.
Qed.
