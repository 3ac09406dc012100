(* Before its last record the flight of a server leaves the client waiting, however it is delivered *)
From Verif Require Import Proofs.Util Model.Alert Model.Record Model.Stream Model.Server Model.Client Spec.Connection Spec.ClientConnection Spec.Handshaking.
From Verif Require Import Proofs.Record Proofs.Stream Proofs.ServerFlow Proofs.ServerAccept Proofs.ServerAccept2 Proofs.ClientAccept2 Proofs.ClientReads.

Local Opaque record_from_raw client_record.

Lemma csteps_cw cfg e now base g l : client_ok cfg e -> forall a b h, Forall whole a -> Forall data_or_ccs a -> cw true cfg e now base g l h (a ++ b) ->
  exists h', csteps cfg e now h a = (h', Ok tt) /\ cw true cfg e now base g l h' b.
Proof.
  intros Ok'. induction a as [|r a IH]; intros b h W D C; [exists h; auto|]. inversion W as [|? ? W1 W2]; inversion D as [|? ? D1 D2]; subst. cbn [app] in C.
  destruct (record_fwd true cfg e now base g l h r (a ++ b) Ok' (whole_formed _ W1) D1 C) as (h1 & E1 & C1).
  destruct (IH b h1 W2 D2 C1) as (h' & E' & C'). exists h'. cbn [csteps]. rewrite E1. auto.
Qed.
Lemma delivers_ne recs reads : delivers recs reads -> reads <> [] -> recs <> [].
Proof. intros [|gr recs' reads' NE D|before r after first mids last recs' reads' W F C D] N X; [contradiction| |]; apply app_eq_nil in X; destruct X as (X & Y); [contradiction|discriminate]. Qed.
Lemma reads_none cfg e now h d : cl_state h <> CsReady -> client_reads cfg e now h d [] = (h, None).
Proof. intros N. cbn [client_reads]. destruct (cl_state h); try reflexivity. contradiction. Qed.

Definition short_of (cfg : client_config) (e : client_draws) (now : Z) (h : client_hs) (recs : list record) : Prop :=
  forall a b, recs = a ++ b -> b <> [] -> exists h', csteps cfg e now h a = (h', Ok tt) /\ cl_state h' <> CsReady.
Lemma short_start cfg e now h recs : short_of cfg e now h recs -> recs <> [] -> cl_state h <> CsReady.
Proof. intros S N. destruct (S [] recs eq_refl N) as (h' & E & St). cbn [csteps] in E. injection E as <-. exact St. Qed.
Lemma short_after cfg e now h a recs h' : short_of cfg e now h (a ++ recs) -> csteps cfg e now h a = (h', Ok tt) -> short_of cfg e now h' recs.
Proof.
  intros S E b c -> N. destruct (S (a ++ b) c ltac:(now rewrite app_assoc) N) as (h2 & E2 & St). rewrite csteps_app, E in E2. exists h2. auto.
Qed.
Lemma delivers_short cfg e now recs reads : delivers recs reads -> forall h, idle h -> Forall parses recs -> Forall no_alert recs -> short_of cfg e now h recs ->
  forall a b, reads = a ++ b -> b <> [] -> exists h', client_reads cfg e now h [] a = (h', None).
Proof.
  induction 1 as [|gr recs reads NE D IH|before r after first mids last recs reads W F C D IH]; intros h I P A Sh a b E N.
  - symmetry in E. apply app_eq_nil in E. destruct E. contradiction.
  - assert (St : cl_state h <> CsReady). { apply (short_start _ _ _ _ _ Sh). intros X. apply app_eq_nil in X. destruct X. contradiction. }
    destruct a as [|x a]; [exists h; now apply reads_none|]. cbn [app] in E. injection E as <- E.
    assert (Nr : recs <> []). { apply (delivers_ne _ _ D). rewrite E. intros X. apply app_eq_nil in X. destruct X. contradiction. }
    apply Forall_app in P, A. destruct P as (Pg & Pr), A as (Ag & Ar). rewrite reads_group by assumption.
    destruct (Sh gr recs eq_refl Nr) as (h1 & E1 & St1). rewrite E1. cbn [then_reads].
    apply (IH h1 (csteps_idle _ _ _ _ _ _ _ E1 I) Pr Ar (short_after _ _ _ _ _ _ _ Sh E1) a b E N).
  - assert (St : cl_state h <> CsReady). { apply (short_start _ _ _ _ _ Sh). intros X. apply app_eq_nil in X. destruct X. discriminate. }
    destruct a as [|x a]; [exists h; now apply reads_none|]. cbn [app] in E. injection E as <- E.
    inversion F as [|? ? F1 F']; subst. inversion F' as [|? ? F2 F3]; subst. pose proof P as P0. pose proof A as A0.
    apply Forall_app in P. destruct P as (Pb & P). inversion P as [|? ? Pr P']; subst. apply Forall_app in P'. destruct P' as (Pa & Ps).
    apply Forall_app in A. destruct A as (Ab & A). inversion A as [|? ? Ar A']; subst. apply Forall_app in A'. destruct A' as (Aa & As).
    assert (R : forall k, refused (first ++ concat (firstn k mids))).
    { intros k. apply (well_cut_refused r _ (concat (skipn k mids) ++ last)); [exact Pr| |intros X; apply app_eq_nil in X; now destruct X|apply C].
      rewrite <- app_assoc. rewrite (app_assoc (concat (firstn k mids))), <- concat_app, firstn_skipn. exact W. }
    assert (R0 : refused first) by (specialize (R 0%nat); cbn [firstn concat] in R; now rewrite app_nil_r in R).
    rewrite reads_part by assumption.
    destruct (Sh before (r :: after ++ recs) eq_refl ltac:(discriminate)) as (h1 & E1 & St1). rewrite E1. pose proof (csteps_idle _ _ _ _ _ _ _ E1 I) as I1.
    destruct (app_eq_app _ _ _ _ E) as (m & [(Em & Eb)|(Ea & Eb)]).
    + (* in the middle of the record *)
      exists h1. rewrite <- (app_nil_r a). rewrite reads_mids; try assumption.
      * apply reads_none. exact St1.
      * rewrite Em in F3. apply Forall_app in F3. apply F3.
      * intros k. destruct (Nat.leb_spec k (length a)) as [L|L].
        -- specialize (R k). rewrite Em, firstn_app in R. replace (k - length a)%nat with 0%nat in R by lia. cbn [firstn] in R. now rewrite app_nil_r in R.
        -- specialize (R (length a)). rewrite Em, firstn_app, Nat.sub_diag, firstn_all in R. cbn [firstn] in R. rewrite app_nil_r in R. rewrite firstn_all2 by lia. exact R.
    + destruct m as [|y m].
      * (* before its last part *)
        rewrite app_nil_r in Ea. subst a. exists h1. rewrite <- (app_nil_r mids). rewrite reads_mids by assumption. apply reads_none. exact St1.
      * cbn [app] in Eb. injection Eb as <- Eb. subst a.
        assert (Nr : recs <> []). { apply (delivers_ne _ _ D). rewrite Eb. intros X. apply app_eq_nil in X. destruct X. contradiction. }
        rewrite reads_mids by assumption.
        assert (Sh1 : short_of cfg e now h1 ((r :: after) ++ recs)) by (apply (short_after _ _ _ _ _ _ _ Sh E1)).
        destruct (Sh1 (r :: after) recs eq_refl Nr) as (h2 & E2 & St2).
        rewrite (reads_last cfg e now h1 _ _ (r :: after)); try assumption.
        -- rewrite E2. cbn [then_reads]. apply (IH h2 (csteps_idle _ _ _ _ _ _ _ E2 I1) Ps As (short_after _ _ _ _ _ _ _ Sh1 E2) m b Eb N).
        -- intros X. apply app_eq_nil in X. now destruct X.
        -- intros X. apply app_eq_nil in X. now destruct X.
        -- discriminate.
        -- constructor; assumption.
        -- change (bytes_of (r :: after)) with (wire r ++ bytes_of after). rewrite W, <- !app_assoc. reflexivity.
Qed.
