(* Builders of configurations *)
From Verif Require Import Model.Base Proofs.Util Model.Alert Model.Curve Model.Ecdsa Model.X509 Model.Certificate Model.Server Model.Client Model.Config Spec.Config.

Definition or_else {A} (a b : option A) : option A := match a with Some x => Some x | None => b end.
Lemma last_set_cons {C A} (f : C -> option A) c cs (old : option A) :
  or_else (last_set f (c :: cs)) old = or_else (last_set f cs) (or_else (f c) old).
Proof. cbn [last_set]. destruct (last_set f cs); reflexivity. Qed.
Lemma loaded_ok {A E} (load : list Z -> outcome unit A) f :
  or_panic (E:=E) (of_file load f) = match loaded load f with Some a => Ok a | None => Panic end.
Proof. unfold or_panic, of_file, loaded. destruct f as [t|]; [|reflexivity]. destruct (load t); reflexivity. Qed.

Definition after (b : server_builder) (cs : list server_call) : server_builder :=
  {| sb_cert := or_else (last_set sets_cert cs) (sb_cert b); sb_privkey := or_else (last_set sets_key cs) (sb_privkey b);
     sb_keylog := or_else (last_set sets_keylog cs) (sb_keylog b); sb_server_name := or_else (last_set sets_name cs) (sb_server_name b);
     sb_client_ca := or_else (last_set sets_ca cs) (sb_client_ca b);
     sb_prng := match last_set sets_prng cs with Some p => p | None => sb_prng b end; sb_verify := or_else (last_set sets_check cs) (sb_verify b) |}.
Lemma calls_after cs : forall b, Forall loads cs -> server_calls b cs = Ok (after b cs).
Proof.
  induction cs as [|c cs IH]; intros b F.
  - destruct b. reflexivity.
  - inversion F as [|? ? L F']; subst. cbn [server_calls].
    assert (P : forall p, (match last_set sets_prng (c :: cs) with Some q => q | None => p end) =
                          (match last_set sets_prng cs with Some q => q | None => match sets_prng c with Some q => q | None => p end end)).
    { intros p. cbn [last_set]. destruct (last_set sets_prng cs); reflexivity. }
    unfold after. rewrite P, !last_set_cons. clear P.
    destruct c; cbn [server_call_step]; rewrite ?loaded_ok; cbn [loads sets_cert sets_ca sets_key sets_keylog sets_check sets_name sets_prng] in *;
      try (destruct (loaded _ file) as [a|]; [|contradiction]); rewrite !bind_Ok, IH by assumption; reflexivity.
Qed.
Lemma or_none {A} (a : option A) : or_else a None = a. Proof. destruct a; reflexivity. Qed.
Lemma configured cs : Forall loads cs ->
  server_configure cs =
  match last_set sets_cert cs, last_set sets_key cs with
  | None, _ => Err NoCert
  | Some _, None => Err NoPrivkey
  | Some c, Some k =>
      match last_set sets_check cs, last_set sets_ca cs with
      | Some _, None => Err NoClientCa
      | check, ca => Ok ({| sc_privkey := k; sc_cert := c; sc_client_ca := ca; sc_verify := check;
                            sc_keylog := last_set sets_keylog cs; sc_server_name := last_set sets_name cs |},
                         match last_set sets_prng cs with Some p => p | None => PrngURandom end)
      end
  end.
Proof.
  intros F. unfold server_configure. rewrite calls_after by exact F. unfold server_build, after. cbn [server_builder_new sb_cert sb_privkey sb_keylog sb_server_name sb_client_ca sb_prng sb_verify].
  rewrite !or_none. destruct (last_set sets_cert cs) as [c|]; [|reflexivity]. destruct (last_set sets_key cs) as [k|]; [|reflexivity].
  destruct (last_set sets_check cs), (last_set sets_ca cs); reflexivity.
Qed.
Lemma call_panics b c : ~ loads c -> server_call_step b c = Panic.
Proof.
  intros N. destruct c; cbn [loads] in N; try (exfalso; apply N; exact I); cbn [server_call_step]; rewrite loaded_ok;
    cbn [sets_cert sets_ca sets_key] in N; (destruct (loaded _ file) as [a|]; [exfalso; apply N; discriminate|reflexivity]).
Qed.
Lemma configure_panics pre c post : Forall loads pre -> ~ loads c -> server_configure (pre ++ c :: post) = Panic.
Proof.
  intros F N. unfold server_configure. assert (forall b, server_calls b (pre ++ c :: post) = Panic) as ->; [|reflexivity].
  induction F as [|x pre Lx F IH]; intros b.
  - cbn [app server_calls]. rewrite call_panics by exact N. reflexivity.
  - cbn [app server_calls]. destruct (server_call_step b x) as [b'|e|]; [apply IH|destruct e|reflexivity].
Qed.

Definition client_after (b : client_config) (cs : list client_call) : client_config :=
  {| cc_server_name := or_else (last_set client_sets_name cs) (cc_server_name b); cc_cert := or_else (last_set client_sets_cert cs) (cc_cert b);
     cc_key := or_else (last_set client_sets_key cs) (cc_key b); cc_keylog := or_else (last_set client_sets_keylog cs) (cc_keylog b) |}.
Lemma client_calls_after cs : forall b, Forall client_loads cs -> client_calls b cs = Ok (client_after b cs).
Proof.
  induction cs as [|c cs IH]; intros b F.
  - destruct b. reflexivity.
  - inversion F as [|? ? L F']; subst. cbn [client_calls]. unfold client_after. rewrite !last_set_cons.
    destruct c; cbn [client_call_step]; rewrite ?loaded_ok; cbn [client_loads client_sets_cert client_sets_key client_sets_name client_sets_keylog] in *;
      try (destruct (loaded _ file) as [a|]; [|contradiction]); rewrite !bind_Ok, IH by assumption; reflexivity.
Qed.
Lemma client_configured cs : Forall client_loads cs ->
  client_configure cs =
  match last_set client_sets_cert cs, last_set client_sets_key cs with
  | Some _, None => Panic
  | c, k => Ok {| cc_server_name := last_set client_sets_name cs; cc_cert := c; cc_key := k; cc_keylog := last_set client_sets_keylog cs |}
  end.
Proof.
  intros F. unfold client_configure. rewrite client_calls_after by exact F. rewrite bind_Ok. unfold client_build, client_after.
  cbn [client_builder_new cc_server_name cc_cert cc_key cc_keylog]. rewrite !or_none.
  destruct (last_set client_sets_cert cs), (last_set client_sets_key cs); reflexivity.
Qed.
Lemma client_configure_panics pre c post : Forall client_loads pre -> ~ client_loads c -> client_configure (pre ++ c :: post) = Panic.
Proof.
  intros F N. unfold client_configure. assert (forall b, client_calls b (pre ++ c :: post) = Panic) as ->; [|reflexivity].
  induction F as [|x pre Lx F IH]; intros b.
  - cbn [app client_calls]. assert (client_call_step b c = Panic) as ->; [|reflexivity].
    destruct c; cbn [client_loads] in N; try (exfalso; apply N; exact I); cbn [client_call_step]; rewrite loaded_ok;
      cbn [client_sets_cert client_sets_key] in N; (destruct (loaded _ file) as [a|]; [exfalso; apply N; discriminate|reflexivity]).
  - cbn [app client_calls]. destruct (client_call_step b x) as [b'|e|]; [apply IH|destruct e|reflexivity].
Qed.

(* ---- the files ---- *)
From Verif Require Import Model.Pem Spec.Rfc4648 Spec.PemFile.
From Verif Require Proofs.Pem Proofs.X509Cert.
Lemma block_there title is d : last_block title is = Some d -> has_block is.
Proof.
  intros Hl. induction is as [|i is IH]; [discriminate|]. cbn [last_block] in Hl. destruct (last_block title is) eqn:E.
  - destruct (IH Hl) as (t & b & d' & I). exists t, b, d'. right. exact I.
  - destruct i as [|t b d']; [discriminate|]. exists t, b, d'. left. reflexivity.
Qed.
Lemma file_map is title d : Forall item_ok is -> last_block title is = Some d ->
  exists m, pem_parse (text_of_lines (file_lines is)) = Ok m /\ forall t, pem_get m t = last_block t is.
Proof.
  intros F H. destruct (proj1 (Proofs.Pem.pem_parse_items is F) (block_there _ _ _ H)) as (m & Hm & Hg). exists m. split; [exact Hm|exact Hg].
Qed.
Lemma cert_file is d : Forall item_ok is -> last_block s_CERTIFICATE is = Some d ->
  certificate_from_pem (text_of_lines (file_lines is)) = Ok (Cert d None).
Proof.
  intros F H. destruct (file_map is _ d F H) as (m & Hm & Hg). unfold certificate_from_pem. rewrite Hm, bind_Ok, Hg, H. reflexivity.
Qed.
Lemma cert_file_x509 is d x : Forall item_ok is -> last_block s_CERTIFICATE is = Some d -> x509_from_raw d = Ok x ->
  certificate_from_pem_x509 (text_of_lines (file_lines is)) = Ok (Cert d (Some x)).
Proof.
  intros F H X. destruct (file_map is _ d F H) as (m & Hm & Hg). unfold certificate_from_pem_x509, certificate_from_raw. rewrite Hm, bind_Ok, Hg, H, X. reflexivity.
Qed.
Lemma cert_file_unparsed is d : Forall item_ok is -> last_block s_CERTIFICATE is = Some d -> (forall x, x509_from_raw d <> Ok x) ->
  certificate_from_pem_x509 (text_of_lines (file_lines is)) = Panic.
Proof.
  intros F H X. destruct (file_map is _ d F H) as (m & Hm & Hg). unfold certificate_from_pem_x509, certificate_from_raw. rewrite Hm, bind_Ok, Hg, H.
  destruct (x509_from_raw d) as [x|e|] eqn:E; [exfalso; exact (X x eq_refl)|reflexivity|reflexivity].
Qed.
