(* C87: the traffic secrets fix the handshake.  The vocabulary is in Spec.Agreement, Spec.SameView, Spec.Connection and
   Spec.ClientConnection.  Hash functions have collisions, so the theorems name the few strings one would have to occur in: those the
   two ends themselves hash. *)
From Verif Require Import Model.Base Model.Alert Model.KeySchedule Model.Record Model.X509 Model.Certificate Model.Stream Model.Server Model.Client
  Spec.Rfc2104 Spec.Rfc8446Auth Spec.Endpoints Spec.Connection Spec.ClientConnection Spec.Agreement Spec.SameView.
From Verif Require Proofs.Agreement Proofs.AgreementRuns Proofs.Loopback Proofs.LoopbackExample.
From Coq Require Import Lia.

(* Two equal traffic secrets are the same one of the four, of one shared secret and one transcript. *)
Theorem C87_secrets : forall A e1 h1 m1 n1 e2 h2 m2 n2, A = alg_sha256 \/ A = alg_sha384 ->
  traffic_secret A e1 h1 m1 n1 = traffic_secret A e2 h2 m2 n2 ->
  (n1 = n2 /\ e1 = e2 /\ covered h1 m1 n1 = covered h2 m2 n2) \/ collide A (schedule_hashes A e1 h1 m1) (schedule_hashes A e2 h2 m2).
Proof. exact Proofs.Agreement.secrets_commit. Qed.
Print Assumptions C87_secrets.
(* Two equal Finished messages are for one secret and one transcript. *)
Theorem C87_finished : forall A s1 m1 s2 m2, A = alg_sha256 \/ A = alg_sha384 -> length s1 = alg_len A -> length s2 = alg_len A ->
  finished_verify_data A s1 m1 = finished_verify_data A s2 m2 ->
  (s1 = s2 /\ m1 = m2) \/ collide A (finished_hashes A s1 m1) (finished_hashes A s2 m2).
Proof. exact Proofs.Agreement.finished_commits. Qed.
Print Assumptions C87_finished.

(* connect returned a connection, accept returned a connection, whoever was in between, and one of the two application traffic secrets is
   the same at both ends.  Then the two saw the same handshake messages up to the server's Finished, in particular the ClientHello
   the server answered is the client's... *)
Theorem C87_agreement : forall cfgc e now so reads c pc cfgs d now' so' reads' s ps kc ks side,
  client_ok cfgc e -> is_bytes (concat reads) -> zlen (concat reads) < 2^25 -> connect cfgc e now so reads = (c, Some (Ok tt)) ->
  server_ok cfgs d -> zlen (ct_raw (sc_cert cfgs)) < 2^16 - 64 -> Forall is_bytes reads' -> accept cfgs d now' so' reads' = (s, Some (Ok tt)) ->
  st_protection (cl_stream c) = Some pc -> rp_application pc = Some kc -> st_protection (sv_stream s) = Some ps -> rp_application ps = Some ks ->
  k_secret (side_key side kc) = k_secret (side_key side ks) ->
  exists first sh gc extensions requests m1 m2 hello ch body gs der,
    let before := g_hellos gc ++ opening extensions requests ++ m1 ++ m2 in
    let client_saw := before ++ server_finished gc before in let server_saw := to_server_finished cfgs d gs der in
    (within (concat reads) first /\ agrees cfgc e (r_fragment first) sh gc /\ server_authentic now gc (g_hellos gc ++ opening extensions requests) m1 m2 /\
     kc = application_keys gc client_saw) /\
    (within (concat reads') hello /\ answers cfgs d (r_fragment hello) ch body gs /\ server_signed cfgs d gs der /\ ks = application_keys gs server_saw) /\
    g_alg gc = g_alg gs /\
    ((client_saw = server_saw /\ g_ecdhe gc = g_ecdhe gs /\ same_view cfgc e cfgs hello first body gc gs m1) \/
     collide (g_alg gc) (schedule_hashes (g_alg gc) (g_ecdhe gc) (g_hellos gc) client_saw) (schedule_hashes (g_alg gs) (g_ecdhe gs) (g_hellos gs) server_saw)).
Proof. exact Proofs.AgreementRuns.agreement. Qed.
Print Assumptions C87_agreement.

(* ... and no two connections of clients that drew different randoms, and no two directions of one connection, have a secret
   in common. *)
Theorem C87_fresh : forall cfg1 e1 now1 so1 reads1 c1 p1 k1 cfg2 e2 now2 so2 reads2 c2 p2 k2 side1 side2,
  client_ok cfg1 e1 -> is_bytes (concat reads1) -> zlen (concat reads1) < 2^25 -> connect cfg1 e1 now1 so1 reads1 = (c1, Some (Ok tt)) ->
  client_ok cfg2 e2 -> is_bytes (concat reads2) -> zlen (concat reads2) < 2^25 -> connect cfg2 e2 now2 so2 reads2 = (c2, Some (Ok tt)) ->
  st_protection (cl_stream c1) = Some p1 -> rp_application p1 = Some k1 -> st_protection (cl_stream c2) = Some p2 -> rp_application p2 = Some k2 ->
  e_random e1 <> e_random e2 \/ side1 <> side2 -> k_secret (side_key side1 k1) = k_secret (side_key side2 k2) ->
  exists first1 sh1 g1 saw1 first2 sh2 g2 saw2,
    (within (concat reads1) first1 /\ agrees cfg1 e1 (r_fragment first1) sh1 g1 /\ k1 = application_keys g1 saw1) /\
    (within (concat reads2) first2 /\ agrees cfg2 e2 (r_fragment first2) sh2 g2 /\ k2 = application_keys g2 saw2) /\
    g_alg g1 = g_alg g2 /\
    collide (g_alg g1) (schedule_hashes (g_alg g1) (g_ecdhe g1) (g_hellos g1) saw1) (schedule_hashes (g_alg g2) (g_ecdhe g2) (g_hellos g2) saw2).
Proof. exact Proofs.AgreementRuns.client_fresh. Qed.
Print Assumptions C87_fresh.
(* A client and a server of this library that have completed a handshake with each other (C76) do have the same secrets; asking
   for a client certificate or not. *)
Example C87_ex : forall mutual, exists cfgc e now so reads c pc cfgs d now' so' reads' s ps kc ks,
  client_ok cfgc e /\ is_bytes (concat reads) /\ zlen (concat reads) < 2^25 /\ connect cfgc e now so reads = (c, Some (Ok tt)) /\
  server_ok cfgs d /\ zlen (ct_raw (sc_cert cfgs)) < 2^16 - 64 /\ Forall is_bytes reads' /\ accept cfgs d now' so' reads' = (s, Some (Ok tt)) /\
  st_protection (cl_stream c) = Some pc /\ rp_application pc = Some kc /\ st_protection (sv_stream s) = Some ps /\ rp_application ps = Some ks /\
  (forall side, k_secret (side_key side kc) = k_secret (side_key side ks)) /\ (mutual = true -> sc_client_ca cfgs <> None).
Proof.
  intros mutual. destruct (Proofs.LoopbackExample.lb_compatible mutual) as (k & k' & _ & _ & C).
  destruct (Proofs.Loopback.loopback _ _ _ _ _ C) as (c0 & s1 & c1 & s2 & pc & ps & (_ & _ & H & H') & (_ & L & _) & (B0 & B & B1) & (P1 & P2 & _ & _ & _ & E & N) & _).
  destruct (rp_application pc) as [kc|] eqn:Ek; [|now destruct N].
  do 16 eexists. split; [apply C|]. split; [|split; [|split; [exact H|split; [apply C|split; [|split; [|split; [exact H'|]]]]]]].
  - cbn [concat]. rewrite app_nil_r. exact B.
  - cbn [concat]. rewrite app_nil_r. lia.
  - pose proof C as (_ & _ & _ & _ & _ & _ & _ & _ & Lc & _). lia.
  - repeat constructor; assumption.
  - split; [exact P1|]. split; [exact Ek|]. split; [exact P2|]. split; [symmetry; exact E|]. split; [reflexivity|].
    intros ->. discriminate.
Qed.
