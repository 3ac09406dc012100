(* Which CertificateRequest messages bring a client down *)
From Verif Require Import Proofs.Util Proofs.Bytes Model.Alert Model.Bytes Model.Suite Model.Sha2 Model.Hmac Model.KeySchedule Model.Record Model.Channel
  Model.Curve Model.Signature Model.Ecdsa Model.X509 Model.Extensions Model.Hello Model.Kex Model.Handshake Model.Certificate
  Model.Stream Model.AppChannel Model.Keylog Model.Server Model.Client Spec.Enc Spec.ClientAccept Spec.RequestPanics.
From Verif Require Import Proofs.ServerRun Proofs.ServerAccept.
From Verif Require Spec.Rfc8446Hello Proofs.Auth Proofs.ClientAccept.

(* ---- the extensions ---- *)
Lemma known_type t1 t2 : is_byte t1 -> is_byte t2 -> (exists t, ext_type_new (to_u16 [t1; t2]) = Some t) <-> In (256 * t1 + t2) [0; 43; 51].
Proof.
  intros B1 B2. rewrite to_u16_val by assumption. replace (t1 * 256 + t2) with (256 * t1 + t2) by lia. generalize (256 * t1 + t2). intros n. unfold ext_type_new. cbn [In]. 
  destruct (Z.eq_dec n 0) as [->|N0]; [split; [auto|eexists; reflexivity]|]. destruct (Z.eq_dec n 43) as [->|N1]; [split; [auto|eexists; reflexivity]|].
  destruct (Z.eq_dec n 51) as [->|N2]; [split; [auto|eexists; reflexivity]|].
  split; [|intros [X|[X|[X|[]]]]; congruence]. intros (t & E). exfalso. revert E. repeat (match goal with |- context[if ?b then _ else _] => destruct b eqn:?; [lia|] end). discriminate.
Qed.
Lemma loop_sort : forall fuel l, (length l <= fuel)%nat -> is_bytes l -> (stub l /\ request_exts_loop fuel l = Panic) \/ (~ stub l /\ request_exts_loop fuel l = Ok tt).
Proof.
  induction fuel as [|fuel IH]; intros l L B.
  - destruct l; [|cbn in L; lia]. right. split; [intros X; inversion X; cbn in *; lia|reflexivity].
  - destruct l as [|t1 l]; [right; split; [intros X; inversion X; cbn in *; lia|reflexivity]|].
    destruct l as [|t2 l]; [left; split; [apply stub_here; cbn; lia|reflexivity]|].
    destruct l as [|s1 l]; [left; split; [apply stub_here; cbn; lia|reflexivity]|].
    destruct l as [|s2 l]; [left; split; [apply stub_here; cbn; lia|reflexivity]|].
    inversion B as [|? ? B1 Bt]; subst. inversion Bt as [|? ? B2 Bt1]; subst. inversion Bt1 as [|? ? B3 Bt2]; subst. inversion Bt2 as [|? ? B4 Br]; subst. cbn [length] in L.
    assert (R : request_exts_loop (Datatypes.S fuel) (t1 :: t2 :: s1 :: s2 :: l) =
      match ext_type_new (to_u16 [t1; t2]) with None => request_exts_loop fuel (skipn (Z.to_nat (to_u16 [s1; s2])) l) | Some _ => request_exts_loop fuel l end) by reflexivity.
    rewrite R. clear R. pose proof (known_type t1 t2 B1 B2) as K. destruct (ext_type_new (to_u16 [t1; t2])) as [t|].
    + assert (I : In (256 * t1 + t2) [0; 43; 51]) by (apply K; eauto). destruct (IH l ltac:(lia) Br) as [(S & E) | (S & E)]; rewrite E; [left|right].
      * split; [apply stub_enter; assumption|reflexivity].
      * split; [|reflexivity]. intros X. inversion X; subst; [cbn in *; lia|contradiction|contradiction].
    + assert (I : ~ In (256 * t1 + t2) [0; 43; 51]) by (intros X; apply K in X; destruct X; discriminate).
      rewrite to_u16_val by assumption. replace (s1 * 256 + s2) with (256 * s1 + s2) by lia.
      destruct (IH (skipn (Z.to_nat (256 * s1 + s2)) l)) as [(S & E) | (S & E)]; [rewrite skipn_length; lia|apply is_bytes_skipn; exact Br| |]; rewrite E; [left|right].
      * split; [apply stub_skip; assumption|reflexivity].
      * split; [|reflexivity]. intros X. inversion X; subst; [cbn in *; lia|contradiction|contradiction].
Qed.

(* ---- the message ---- *)
(* what the client does once the request is read (the rest of handle_certificate_request) *)
Definition answer (cfg : client_config) (e : client_draws) (b0 : Z) (context : list Z) (h : client_hs) : client_hs * outcome tls_error unit :=
  let response := b0 :: context ++
    match cc_cert cfg with
    | Some c => certificate_for_handshake c []
    | None => [0x00; 0x00; 0x00; 0x02; 0x00; 0x00]
    end in
  let raw := handshake_to_bytes HtCertificate response in
  let@ (h, _) := cl_write h RHandshake raw in
  let@ (h, th) := (h, unwrap (cl_th h)) in
  let th := th_update th raw in
  let h := cl_with_th h th in
  let@ (h, _) :=
    match cc_cert cfg with
    | None => (h, Ok tt)
    | Some _ =>
        match cc_key cfg with
        | None => (h, Err HandshakeFailure)
        | Some key =>
            let@ (h, cv) := (h, certificate_verify_for_handshake key th l_client (e_nonces e)) in
            let@ (h, cv) := (h, unwrap cv) in
            let raw := handshake_to_bytes HtCertificateVerify cv in
            let h := cl_with_th h (th_update th raw) in
            cl_write h RHandshake raw
        end
    end in
  (cl_with_state h CsServerCertificate, Ok tt).
Definition reads (request : list Z) : outcome tls_error (Z * list Z) :=
  let! b0 := idx request 0 in
  let context_len := Z.to_nat b0 in
  let! context := if Nat.ltb 0 context_len then slice request 1 (context_len + 1) else Ok [] in
  let! b := slice_from request (1 + context_len) in
  let! b := slice request (1 + context_len + 2) (1 + context_len + 2 + Z.to_nat (to_u16 b)) in
  match from_request_exts b with Panic => Panic | _ => Ok (b0, context) end.
Lemma request_reads cfg e h body : cl_request h = Some body ->
  handle_certificate_request cfg e h = match reads body with Ok (b0, context) => answer cfg e b0 context h | Err er => (h, Err er) | Panic => (h, Panic) end.
Proof.
  intros Rq. unfold handle_certificate_request, reads. rewrite Rq. cbn [unwrap]. rewrite sbind_Ok.
  destruct (idx (E:=tls_error) body 0) as [b0|er|]; [|reflexivity|reflexivity]. rewrite sbind_Ok, bind_Ok.
  destruct (if Nat.ltb 0 (Z.to_nat b0) then _ else _) as [context|er|]; [|reflexivity|reflexivity]. rewrite sbind_Ok, bind_Ok.
  destruct (slice_from (E:=tls_error) body _) as [b|er|]; [|reflexivity|reflexivity]. rewrite sbind_Ok, bind_Ok.
  destruct (slice (E:=tls_error) body _ _) as [b'|er|]; [|reflexivity|reflexivity]. rewrite sbind_Ok, bind_Ok.
  destruct (from_request_exts b') as [u|er|]; reflexivity.
Qed.

Lemma past {A} (l : list A) i j : (length l < j)%nat -> slice (E:=tls_error) l i j = Panic.
Proof. intros H. unfold slice. destruct (Nat.leb_spec j (length l)); [lia|]. now rewrite Bool.andb_false_r. Qed.
(* a request whose context is complete *)
Lemma reads_context context rest : is_bytes (zlen context :: context) ->
  reads (zlen context :: context ++ rest) =
    let! b := slice (zlen context :: context ++ rest) (1 + length context + 2) (1 + length context + 2 + Z.to_nat (to_u16 rest)) in
    match from_request_exts b with Panic => Panic | _ => Ok (zlen context, context) end.
Proof.
  intros B. unfold reads. change (idx (E:=tls_error) (zlen context :: context ++ rest) 0) with (@Ok tls_error Z (zlen context)). rewrite bind_Ok.
  assert (N : Z.to_nat (zlen context) = length context) by (unfold zlen; lia). rewrite N.
  assert (C : (if Nat.ltb 0 (length context) then slice (E:=tls_error) (zlen context :: context ++ rest) 1 (length context + 1) else Ok []) = Ok context).
  { destruct (Nat.ltb_spec 0 (length context)); [|destruct context; [reflexivity|cbn in *; lia]].
    change (zlen context :: context ++ rest) with ([zlen context] ++ context ++ rest). apply slice_mid; cbn; lia. }
  rewrite C, bind_Ok. change (zlen context :: context ++ rest) with ((zlen context :: context) ++ rest) at 1. rewrite (slice_from_app (zlen context :: context) rest) by reflexivity.
  reflexivity.
Qed.
Lemma reads_exts context a b exts : is_bytes (zlen context :: context) -> is_byte a -> is_byte b ->
  (zlen exts < 256 * a + b -> reads (zlen context :: context ++ a :: b :: exts) = Panic) /\
  (forall x more, exts = x ++ more -> zlen x = 256 * a + b ->
    reads (zlen context :: context ++ a :: b :: exts) = match from_request_exts x with Panic => Panic | _ => Ok (zlen context, context) end).
Proof.
  intros B Ba Bb. rewrite reads_context, to_u16_val by assumption. replace (a * 256 + b) with (256 * a + b) by lia. split.
  - intros L. rewrite past; [reflexivity|]. cbn [length]. rewrite app_length. cbn [length]. unfold zlen in L. lia.
  - intros x more -> L. replace (zlen context :: context ++ a :: b :: x ++ more) with ((zlen context :: context ++ [a; b]) ++ x ++ more) by (cbn [app]; rewrite <- app_assoc; reflexivity).
    rewrite slice_mid; [reflexivity| |]; cbn [length]; rewrite !app_length; cbn [length]; unfold zlen in L; lia.
Qed.

(* exactly these *)
Lemma request_sort body : is_bytes body -> (request_panics body /\ reads body = Panic) \/
  (exists context, zlen context < 256 /\ is_bytes context /\ reads body = Ok (zlen context, context)).
Proof.
  intros B. destruct body as [|n rest]; [left; split; [apply rq_empty; reflexivity|reflexivity]|].
  pose proof B as B'. inversion B' as [|? ? Bn Br]; subst. clear B'. unfold is_byte in Bn.
  destruct (Z_lt_ge_dec (zlen rest) n) as [L|L].
  { left. split; [eapply rq_context; [reflexivity|exact L]|]. unfold reads. change (idx (E:=tls_error) (n :: rest) 0) with (@Ok tls_error Z n). rewrite bind_Ok. unfold zlen in L.
    destruct (Nat.ltb_spec 0 (Z.to_nat n)); [|lia]. rewrite past; [reflexivity|cbn [length]; lia]. }
  assert (X : exists context tl, rest = context ++ tl /\ zlen context = n).
  { exists (firstn (Z.to_nat n) rest), (skipn (Z.to_nat n) rest). split; [now rewrite firstn_skipn|]. unfold zlen in *. rewrite firstn_length_le; lia. }
  destruct X as (context & tl & -> & <-). apply is_bytes_app in Br. destruct Br as (Bc & Bt).
  assert (B1 : is_bytes (zlen context :: context)) by (constructor; [exact Bn|exact Bc]).
  destruct tl as [|a tl].
  { left. split; [eapply rq_short; [reflexivity|cbn; lia]|]. rewrite reads_context by exact B1. cbn [to_u16]. rewrite past; [reflexivity|]. rewrite app_nil_r. cbn [length]. lia. }
  destruct tl as [|b exts].
  { left. split; [eapply rq_short; [reflexivity|cbn; lia]|]. rewrite reads_context by exact B1. rewrite past; [reflexivity|]. cbn [length]. rewrite app_length. cbn [length]. lia. }
  inversion Bt as [|? ? Ba Bt1]; subst. inversion Bt1 as [|? ? Bb Bx]; subst. destruct (reads_exts context a b exts B1 Ba Bb) as (R1 & R2). unfold is_byte in Ba, Bb.
  destruct (Z_lt_ge_dec (zlen exts) (256 * a + b)) as [L'|L']; [left; split; [eapply rq_cut; [reflexivity|exact L']|exact (R1 L')]|].
  assert (X : exists x more, exts = x ++ more /\ zlen x = 256 * a + b).
  { exists (firstn (Z.to_nat (256 * a + b)) exts), (skipn (Z.to_nat (256 * a + b)) exts). split; [now rewrite firstn_skipn|]. unfold zlen in *. rewrite firstn_length_le; lia. }
  destruct X as (x & more & -> & Lx). specialize (R2 x more eq_refl Lx). apply is_bytes_app in Bx. destruct Bx as (Bx & _).
  destruct (loop_sort (length x) x (le_n _) Bx) as [(S & E) | (S & E)]; unfold from_request_exts in R2; rewrite E in R2.
  - left. split; [eapply rq_stub; [reflexivity|exact Lx|exact S]|exact R2].
  - right. exists context. split; [lia|]. split; [exact Bc|exact R2].
Qed.
Lemma request_panics_reads body : is_bytes body -> request_panics body -> reads body = Panic.
Proof.
  intros B [->|n rest E L|context rest E L|context a b exts E L|context a b exts more E L S].
  - reflexivity.
  - subst body. inversion B as [|? ? Bn _]; subst. unfold is_byte in Bn. unfold reads. change (idx (E:=tls_error) (n :: rest) 0) with (@Ok tls_error Z n). rewrite bind_Ok. unfold zlen in L.
    destruct (Nat.ltb_spec 0 (Z.to_nat n)); [|lia]. rewrite past; [reflexivity|cbn [length]; lia].
  - subst body. change (zlen context :: context ++ rest) with ((zlen context :: context) ++ rest) in B. apply is_bytes_app in B. destruct B as (B & _).
    rewrite reads_context by exact B. rewrite past; [reflexivity|]. cbn [length]. rewrite app_length. unfold zlen in L. lia.
  - subst body. change (zlen context :: context ++ a :: b :: exts) with ((zlen context :: context) ++ [a; b] ++ exts) in B. apply is_bytes_app in B. destruct B as (B & Bt).
    inversion Bt as [|? ? Ba Bt1]; subst. inversion Bt1 as [|? ? Bb Bx]; subst. destruct (reads_exts context a b exts B Ba Bb) as (R1 & _). exact (R1 L).
  - subst body. change (zlen context :: context ++ a :: b :: exts ++ more) with ((zlen context :: context) ++ [a; b] ++ exts ++ more) in B. apply is_bytes_app in B. destruct B as (B & Bt).
    inversion Bt as [|? ? Ba Bt1]; subst. inversion Bt1 as [|? ? Bb Bx]; subst. destruct (reads_exts context a b (exts ++ more) B Ba Bb) as (_ & R2). specialize (R2 _ _ eq_refl L).
    apply is_bytes_app in Bx. destruct Bx as (Bx & _). destruct (loop_sort (length exts) exts (le_n _) Bx) as [(_ & E) | (N & _)]; [|contradiction].
    unfold from_request_exts in R2. rewrite E in R2. exact R2.
Qed.
Lemma request_cases cfg e h body : cl_request h = Some body -> is_bytes body ->
  (request_panics body /\ handle_certificate_request cfg e h = (h, Panic)) \/
  (~ request_panics body /\ exists context, zlen context < 256 /\ is_bytes context /\ handle_certificate_request cfg e h = answer cfg e (zlen context) context h).
Proof.
  intros Rq B. rewrite (request_reads _ _ _ _ Rq). destruct (request_sort body B) as [(P & R) | (context & L & Bc & R)]; rewrite R; [auto|].
  right. split; [|eauto]. intros P. rewrite (request_panics_reads _ B P) in R. discriminate.
Qed.
Lemma request_falls cfg e h body : cl_request h = Some body -> is_bytes body -> request_panics body -> handle_certificate_request cfg e h = (h, Panic).
Proof. intros Rq B P. destruct (request_cases cfg e h body Rq B) as [(_ & E) | (N & _)]; [exact E|contradiction]. Qed.
Local Opaque handshake_to_bytes cl_write.
Lemma request_exact cfg e h body t : cc_cert cfg = None -> cl_request h = Some body -> is_bytes body -> cl_th h = Some t ->
  (forall m, snd (cl_write h RHandshake m) <> Panic /\ cl_th (fst (cl_write h RHandshake m)) = Some t) ->
  (snd (handle_certificate_request cfg e h) = Panic <-> request_panics body).
Proof.
  intros Nc Rq B Th W. destruct (request_cases cfg e h body Rq B) as [(P & E) | (N & context & _ & _ & E)]; rewrite E; [tauto|]. split; [|contradiction]. intros X. exfalso. revert X.
  unfold answer. rewrite Nc. cbv zeta. match goal with |- context[cl_write h RHandshake ?m] => destruct (W m) as (W1 & W2); destruct (cl_write h RHandshake m) as [h1 o] end. cbn [fst snd] in W1, W2.
  destruct o as [u|er|]; [|discriminate|contradiction]. rewrite sbind_Ok, W2. cbn [unwrap]. rewrite !sbind_Ok. discriminate.
Qed.
Lemma proper_fine context body : is_bytes body -> requests_with context body -> ~ request_panics body.
Proof.
  intros B (exts & Eb & Lctx & Lx & Fx) P. apply (request_panics_reads _ B) in P. revert P.
  set (xs := concat (map (fun x => Rfc8446Hello.extension (fst x) (snd x)) exts)) in *.
  assert (EB : Rfc8446Hello.vector8 context = zlen context :: context).
  { unfold Rfc8446Hello.vector8. change (be_enc 1 (Z.of_nat (length context))) with [zlen context mod 256]. rewrite Z.mod_small by (pose proof (zlen_nonneg context); unfold zlen in *; lia). reflexivity. }
  rewrite EB in Eb. cbn [app] in Eb. unfold Rfc8446Hello.vector16 in Eb. rewrite Auth.be_enc_2 in Eb. cbn [app] in Eb.
  assert (Bc : is_bytes (zlen context :: context)).
  { subst body. change (zlen context :: context ++ ?l) with ((zlen context :: context) ++ l) in B. apply is_bytes_app in B. apply B. }
  rewrite Eb. destruct (reads_exts context _ _ xs Bc (u8_range (Z.shiftr (Z.of_nat (length xs)) 8)) (u8_range (Z.of_nat (length xs)))) as (_ & R).
  rewrite (R xs []); [|now rewrite app_nil_r|].
  - unfold xs at 1. rewrite (ClientAccept.request_exts_ok exts Fx Lx). discriminate.
  - pose proof (zlen_nonneg xs). fold (zlen xs). set (n := zlen xs) in *. unfold u8. rewrite Z.shiftr_div_pow2 by lia. change (2^8) with 256.
    rewrite (Z.mod_small (_ / _)); [|split; [apply Z.div_pos; lia|apply Z.div_lt_upper_bound; lia]]. pose proof (Z.div_mod n 256). lia.
Qed.
