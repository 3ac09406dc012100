(* C92: lists of signature algorithms, read and written. Property theorems only. *)
From Coq Require Import Lia.
From Verif.Model Require Import Base Alert Bytes Suite Curve Ecdsa Extensions Hello SigAlgs.
From Verif.Spec Require Import Enc Rfc8446Hello.
From Verif.Proofs Require SigAlgs HelloLists Util.

Local Lemma Ok_inj {E A} (a b : A) : Ok (E:=E) a = Ok b -> a = b.
Proof. congruence. Qed.
(* the schemes the library has names for, and their codes in RFC 8446 4.2.3 *)
Definition schemes : list (sig_scheme * Z) :=
  [(ecdsa_secp256r1_sha256, 0x0403); (ecdsa_secp384r1_sha384, 0x0503); (ecdsa_secp521r1_sha512, 0x0603)].
Lemma known_codes l : Forall (fun x => In x schemes) l -> Forall (fun c => 0 <= c < 2^16) (map snd l) /\ SigAlgs.named (map snd l) = Ok (map fst l).
Proof.
  induction 1 as [|x l I _ (IH1 & IH2)]; [split; [constructor|reflexivity]|]. cbn [map SigAlgs.named]. rewrite IH2.
  cbn in I. destruct I as [<-|[<-|[<-|[]]]]; (split; [constructor; [cbn; lia|exact IH1]|reflexivity]).
Qed.

(* ---- C92: a list of signature algorithms is read as it was written ---- *)
(* False.  From the list of a peer the last scheme is lost, *)
Theorem C92_last_lost_refuted : forall l tail, Forall (fun x => In x schemes) l -> 2 * zlen l < 2^16 ->
  sig_algs_parse (client_extension_data (SigAlgs (map snd l)) ++ tail) = Ok (map fst (removelast l)).
Proof.
  intros l tail F B. destruct (known_codes l F) as (R & _). cbn [client_extension_data].
  rewrite SigAlgs.parse_codes by (first [exact R | unfold zlen in *; rewrite map_length; exact B]).
  assert (Forall (fun x => In x schemes) (removelast l)) as F'.
  { clear - F. induction F as [|x l I F IH]; [constructor|]. destruct l; [constructor|]. cbn [removelast]. constructor; assumption. }
  replace (removelast (map snd l)) with (map snd (removelast l)). { apply known_codes, F'. }
  clear. induction l as [|x l IH]; [reflexivity|]. destruct l; [reflexivity|]. cbn [removelast map] in *. now rewrite IH.
Qed.
Print Assumptions C92_last_lost_refuted.
(* so what the library writes is not what it reads, unless it is nothing; *)
Theorem C92_round_trip_refuted : forall l tail w, 2 * zlen l < 2^16 -> sig_algs_bytes (E:=Empty_set) l = Ok w ->
  (sig_algs_parse (skipn 4 w ++ tail) = Ok l <-> l = []).
Proof.
  intros l tail w B W.
  assert (exists p, l = map fst p /\ Forall (fun x => In x schemes) p) as (p & -> & F).
  { exists (map (fun s => (s, sig_scheme_u16 s)) l). split; [rewrite map_map; cbn [fst]; symmetry; apply map_id|].
    apply Forall_forall. intros x I. apply in_map_iff in I. destruct I as (s & <- & _). destruct s; cbn; tauto. }
  assert (sig_algs_bytes (E:=Empty_set) (map fst p) = u16_list_bytes 0x0d (map snd p)) as E.
  { unfold sig_algs_bytes. f_equal. clear - F. induction F as [|x p I _ IH]; [reflexivity|]. cbn [map]. rewrite IH. f_equal.
    cbn in I. destruct I as [<-|[<-|[<-|[]]]]; reflexivity. }
  rewrite E in W. clear E. destruct (Z.eq_dec (zlen (map snd p) mod 128) 127) as [M|M].
  { rewrite HelloLists.list_panics in W by exact M. discriminate W. }
  rewrite HelloLists.list_wire in W by (first [exact M | lia]). apply Ok_inj in W. subst w.
  replace (skipn 4 (extension 13 (vector16 (u16s (map snd p))))) with (client_extension_data (SigAlgs (map snd p))) by reflexivity.
  assert (2 * zlen p < 2^16) as B' by (unfold zlen in *; rewrite map_length in B; exact B).
  rewrite (C92_last_lost_refuted p tail F B'). split.
  - intros H. apply Ok_inj in H. destruct p as [|x p]; [reflexivity|]. exfalso. apply (f_equal (@length _)) in H. rewrite !map_length in H.
    assert (x :: p <> []) as N by discriminate. destruct (exists_last N) as (q & y & Q). rewrite Q, removelast_last, app_length in H. cbn in H. lia.
  - intros H. destruct p; [reflexivity|discriminate H].
Qed.
Print Assumptions C92_round_trip_refuted.
(* one scheme that is not known, of which RFC 8446 has eleven, makes the list an error, if it is not the last one; *)
Theorem C92_unknown_refuted : forall l c rest tail, Forall (fun x => In x schemes) l -> ~ In c (map snd schemes) -> rest <> [] ->
  Forall (fun c => 0 <= c < 2^16) (c :: rest) -> 2 * zlen (map snd l ++ c :: rest) < 2^16 ->
  sig_algs_parse (client_extension_data (SigAlgs (map snd l ++ c :: rest)) ++ tail) = Err DecodeError.
Proof.
  intros l c rest tail F U N R B. destruct (known_codes l F) as (Rl & K). cbn [client_extension_data].
  rewrite SigAlgs.parse_codes by (first [apply Forall_app; split; assumption | exact B]).
  rewrite removelast_app by discriminate. destruct rest as [|r rest]; [congruence|].
  change (removelast (c :: r :: rest)) with (c :: removelast (r :: rest)). rewrite (SigAlgs.named_app _ _ _ _ K).
  rewrite SigAlgs.scheme_unknown; [reflexivity|intros ->; apply U; cbn; tauto..].
Qed.
Print Assumptions C92_unknown_refuted.
(* a length that promises more than there is is a panic, *)
Theorem C92_short_refuted : forall l n, Forall (fun x => In x schemes) l -> (length l < n - 1)%nat -> 2 * Z.of_nat n < 2^16 ->
  sig_algs_parse (Rfc8446Hello.u16 (2 * Z.of_nat n) ++ u16s (map snd l)) = Panic.
Proof. intros l n F L B. destruct (known_codes l F) as (R & K). eapply SigAlgs.parse_short; eauto. now rewrite map_length. Qed.
Print Assumptions C92_short_refuted.
(* and an odd one an empty list *)
Theorem C92_odd_refuted : forall n rest, 0 <= 2 * n + 1 < 2^16 -> sig_algs_parse (Rfc8446Hello.u16 (2 * n + 1) ++ rest) = Ok [].
Proof. exact SigAlgs.parse_odd. Qed.
Print Assumptions C92_odd_refuted.
(* A server that were given the list would refuse each client that offers one scheme, this library's among them *)
Theorem C92_offer_refuted : forall c random secrets name tail l rest,
  sig_algs_parse (client_extension_data (SigAlgs [0x0403]) ++ tail) = Ok l -> ch_exts c = CSignatureAlgorithms l :: rest ->
  server_hello_from_client c random secrets name = Err InsufficientSecurity.
Proof.
  intros c random secrets name tail l rest P X. pose proof (C92_last_lost_refuted [(ecdsa_secp256r1_sha256, 0x0403)] tail) as Q. cbn [map snd fst removelast] in Q.
  rewrite P in Q. assert (l = []) as -> by (apply (Ok_inj (E:=tls_error)), Q; [repeat constructor|reflexivity]).
  unfold server_hello_from_client. rewrite X. reflexivity.
Qed.
Print Assumptions C92_offer_refuted.
Example C92_ex : sig_algs_parse [0; 6; 4; 3; 5; 3; 6; 3] = Ok [ecdsa_secp256r1_sha256; ecdsa_secp384r1_sha384] /\
  sig_algs_parse [0; 6; 4; 3; 8; 4; 6; 3] = Err DecodeError /\ sig_algs_parse [0; 6; 4; 3] = Panic /\ sig_algs_parse [0; 2; 4; 3] = Ok [].
Proof. repeat split; reflexivity. Qed.
