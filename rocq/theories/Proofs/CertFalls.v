(* Bytes on which the certificate reader panics *)
From Verif Require Import Proofs.Util Proofs.Bytes Model.Bytes Model.Der Model.X509 Spec.Enc Spec.VerifyPanics Spec.CertPanics Spec.CertFalls Proofs.VerifyPanics Proofs.CertPanics.

Lemma tag_bytes (P : Z -> bool) : forallb P (map Z.of_nat (seq 0 256)) = true -> forall t, is_byte t -> P t = true.
Proof.
  intros H t B. rewrite forallb_forall in H. apply H. rewrite in_map_iff. unfold is_byte in B. exists (Z.to_nat t). split; [lia|apply in_seq; lia].
Qed.
Lemma octets_form t : primitive 4 t \/ primitive 5 t -> der_from_u8 t = Some (Primitive DOctetString) \/ der_from_u8 t = Some (Primitive DNull).
Proof. unfold primitive. cbn [In]. intros H. repeat match goal with H : _ \/ _ |- _ => destruct H as [H|H] | H : False |- _ => destruct H end; subst; vm_compute; auto. Qed.
Definition in_parts (f : encoded_form) : bool :=
  match f with Constructed DSequence | Constructed DSet | Constructed (DContextSpecific _) | Primitive _ => false | Constructed _ => true end.
Lemma constructed_form m t : constructed m t -> In m [3; 4; 12; 19; 22; 23; 24] -> exists f, der_from_u8 t = Some f /\ in_parts f = true.
Proof. unfold constructed. cbn [In]. intros H I. repeat match goal with H : _ \/ _ |- _ => destruct H as [H|H] | H : False |- _ => destruct H end; subst; eexists; split; vm_compute; reflexivity. Qed.
Lemma sequence_form t : sequence_tag t -> der_from_u8 t = Some (Constructed DSequence).
Proof. unfold sequence_tag. cbn [In]. intros H. repeat match goal with H : _ \/ _ |- _ => destruct H as [H|H] | H : False |- _ => destruct H end; subst; reflexivity. Qed.
Lemma integer_form t : primitive 2 t -> der_from_u8 t = Some (Primitive DInteger).
Proof. unfold primitive. cbn [In]. intros H. repeat match goal with H : _ \/ _ |- _ => destruct H as [H|H] | H : False |- _ => destruct H end; subst; reflexivity. Qed.
Lemma set_form t : constructed 17 t -> der_from_u8 t = Some (Constructed DSet).
Proof. unfold constructed. cbn [In]. intros H. repeat match goal with H : _ \/ _ |- _ => destruct H as [H|H] | H : False |- _ => destruct H end; subst; reflexivity. Qed.
Lemma bits_form t : primitive 3 t -> der_from_u8 t = Some (Primitive DBitString).
Proof. unfold primitive. cbn [In]. intros H. repeat match goal with H : _ \/ _ |- _ => destruct H as [H|H] | H : False |- _ => destruct H end; subst; reflexivity. Qed.
Lemma version_form t : t = 0xA0 \/ t = 0xB0 -> der_from_u8 t = Some (Constructed (DContextSpecific 0)).
Proof. intros [-> | ->]; reflexivity. Qed.
Lemma oid_form t : primitive 6 t -> der_from_u8 t = Some (Primitive DObjectIdentifier).
Proof. unfold primitive. cbn [In]. intros H. repeat match goal with H : _ \/ _ |- _ => destruct H as [H|H] | H : False |- _ => destruct H end; subst; reflexivity. Qed.
Definition other_context (t : Z) : bool :=
  negb ((160 <=? t) && (t <? 192) && negb (t =? 160) && negb (t =? 176)) ||
  match der_from_u8 t with Some (Constructed (DContextSpecific k)) => negb (k =? 0) | _ => false end.
Lemma context_form t : 160 <= t < 192 -> t <> 0xA0 -> t <> 0xB0 -> exists k, der_from_u8 t = Some (Constructed (DContextSpecific k)) /\ (k =? 0) = false.
Proof.
  intros B N1 N2. assert (H : other_context t = true) by (apply tag_bytes; [vm_compute; reflexivity|unfold is_byte; lia]). unfold other_context in H.
  replace (160 <=? t) with true in H by (symmetry; apply Z.leb_le; lia). replace (t <? 192) with true in H by (symmetry; apply Z.ltb_lt; lia).
  replace (t =? 160) with false in H by (symmetry; apply Z.eqb_neq; lia). replace (t =? 176) with false in H by (symmetry; apply Z.eqb_neq; lia). cbn [andb negb orb] in H.
  destruct (der_from_u8 t) as [[[| | | | | | | | | | |k]|d]|]; try discriminate. exists k. split; [reflexivity|]. now apply negb_true_iff.
Qed.

(* reading an element that is all there *)
Lemma element_read pre t x content rest : is_bytes x -> element t x content rest -> exists head f,
  x = head ++ content ++ rest /\ head <> [] /\ der_from_u8 t = Some f /\ der_parse (length pre) (pre ++ x) = Ok (length content, f, length (pre ++ head)) /\
  slice (E:=option parse_error) (pre ++ x) (length (pre ++ head)) (length (pre ++ head) + length content) = Ok content.
Proof.
  intros B (l & E & K & L). pose proof (elem_cases pre x B) as H. destruct H as [E0|t' l' e E0 K'|t' l' E0 K' C|t' l' n rest' e E0 K' L' N|t' l' n rest' head f E0 K' F8 _ L' N Ex].
  - congruence.
  - rewrite E in E0. injection E0 as <- <-. congruence.
  - rewrite E in E0. injection E0 as <- <-. exfalso. eapply cut_not; eassumption.
  - rewrite E in E0. injection E0 as <- <-. destruct (length_fun _ _ _ _ _ L L') as (<- & <-). exfalso.
    assert (length (content ++ rest) <= length l)%nat by (inversion L; subst; cbn [length]; rewrite ?app_length; lia). rewrite E in N. unfold zlen in N. rewrite !app_length in *. cbn [length] in *. lia.
  - rewrite E in E0. injection E0 as <- <-. destruct (length_fun _ _ _ _ _ L L') as (<- & <-). exists head, f. split; [exact Ex|]. split; [|split; [exact F8|]].
    + intros ->. cbn [app] in Ex. rewrite E in Ex. assert (length (content ++ rest) <= length l)%nat by (inversion L; subst; cbn [length]; rewrite ?app_length; lia). rewrite <- Ex in *. cbn [length] in *. lia.
    + assert (Zn : Z.to_nat (zlen content) = length content) by (unfold zlen; lia). rewrite Zn in *. split; [reflexivity|]. rewrite Ex. unfold slice. rewrite !app_length.
      destruct (Nat.leb_spec (length pre + length head) (length pre + length head + length content)); [|lia].
      destruct (Nat.leb_spec (length pre + length head + length content) (length pre + (length head + (length content + length rest)))); [|lia]. cbn [andb]. f_equal.
      replace (length pre + length head + length content - (length pre + length head))%nat with (length content) by lia.
      rewrite (app_assoc pre), skipn_app, skipn_all2 by (rewrite app_length; lia). rewrite app_length, Nat.sub_diag. cbn [app skipn]. rewrite firstn_app, Nat.sub_diag, firstn_all. cbn [firstn]. apply app_nil_r.
Qed.

Scheme falls_mind := Minimality for falls Sort Prop with falls_until_mind := Minimality for falls_until Sort Prop.
Combined Scheme falls_both from falls_mind, falls_until_mind.

Lemma falling data : is_bytes data ->
  (forall bits x, falls (zlen data) bits x -> forall fuel b st pre, (bits = true -> st = InBitString) -> data = pre ++ x -> (length x < fuel)%nat -> parse fuel b st data (length pre) = Panic) /\
  (forall n bits x, falls_until (zlen data) n bits x -> forall f k b st pre limit, (bits = true -> st = InBitString) -> data = pre ++ x -> (length x < f)%nat -> (length x < k)%nat -> limit = (length data - n)%nat ->
     parse_while (fun b c => parse f b st data c) k limit b (length pre) = Panic).
Proof.
  intros B. assert (BX : forall pre x, data = pre ++ x -> is_bytes x) by (intros pre x E; rewrite E in B; apply is_bytes_app in B; apply B).
  apply falls_both.
  - intros bits fuel b st pre Q E F. destruct fuel as [|f]; [lia|]. cbn [parse]. pose proof (elem_cases pre [] (BX _ _ E)) as H. rewrite <- E in H. inversion H; try congruence; reflexivity.
  - intros bits t l K C fuel b st pre Q E F. destruct fuel as [|f]; [lia|]. cbn [parse]. pose proof (elem_cases pre _ (BX _ _ E)) as H. rewrite <- E in H.
    destruct H as [E0|t' l' e E0 K'|t' l' E0 K' C'|t' l' n rest' e E0 K' L' N|t' l' n rest' head f' E0 K' F8 _ L' N Ex]; try reflexivity; try congruence; injection E0 as <- <-; try congruence; exfalso; eapply cut_not; eassumption.
  - intros bits t l n rest K L N fuel b st pre Q E F. destruct fuel as [|f]; [lia|]. cbn [parse]. pose proof (elem_cases pre _ (BX _ _ E)) as H. rewrite <- E in H.
    destruct H as [E0|t' l' e E0 K'|t' l' E0 K' C'|t' l' n' rest' e E0 K' L' N'|t' l' n' rest' head f' E0 K' F8 _ L' N' Ex]; try reflexivity; try congruence; injection E0 as <- <-; try congruence.
    + destruct (length_fun _ _ _ _ _ L L') as (<- & <-). lia.
    + destruct (length_fun _ _ _ _ _ L L') as (<- & <-). cbn [lift bind]. unfold slice. rewrite E, Ex at 1. 
      replace (Nat.leb (length (pre ++ head) + Z.to_nat n) (length (pre ++ head ++ rest))) with false by (symmetry; apply Nat.leb_gt; rewrite !app_length; unfold zlen in N; lia).
      rewrite andb_false_r. reflexivity.
  - intros bits t x content rest El T fuel b st pre Q E F. destruct fuel as [|f]; [lia|]. cbn [parse].
    destruct (element_read pre t x content rest (BX _ _ E) El) as (head & f0 & Ex & _ & F8 & P & Sl). rewrite <- E in P, Sl. rewrite P. cbn [lift bind]. rewrite Sl. cbn [bind].
    destruct (octets_form t T) as [X|X]; rewrite X in F8; injection F8 as <-; reflexivity.
  - intros bits t m x content rest El T I fuel b st pre Q E F. destruct fuel as [|f]; [lia|]. cbn [parse].
    destruct (element_read pre t x content rest (BX _ _ E) El) as (head & f0 & Ex & _ & F8 & P & Sl). rewrite <- E in P, Sl. rewrite P. cbn [lift bind]. rewrite Sl. cbn [bind].
    destruct (constructed_form m t T I) as (f1 & X & Y); rewrite X in F8; injection F8 as <-. destruct f1 as [d|d]; destruct d; try discriminate; reflexivity.
  - intros bits t x content rest El T L fuel b st pre Q E F. destruct fuel as [|f]; [lia|]. cbn [parse].
    destruct (element_read pre t x content rest (BX _ _ E) El) as (head & f0 & Ex & Hd & F8 & P & Sl). rewrite <- E in P, Sl. rewrite P. cbn [lift bind]. rewrite Sl. cbn [bind].
    rewrite (version_form t T) in F8. injection F8 as <-. rewrite Z.eqb_refl. unfold slice_from. replace (Nat.leb 2 (length content)) with false by (symmetry; apply Nat.leb_gt; lia). reflexivity.
  - intros bits t x content rest El T L fuel b st pre Q E F. destruct fuel as [|f]; [lia|]. cbn [parse].
    destruct (element_read pre t x content rest (BX _ _ E) El) as (head & f0 & Ex & Hd & F8 & P & Sl). rewrite <- E in P, Sl. rewrite P. cbn [lift bind]. rewrite Sl. cbn [bind].
    rewrite (bits_form t T) in F8. injection F8 as <-.
    assert (IX : forall i, idx (E:=option parse_error) data (length (pre ++ head) + i) = unwrap (nth_error (content ++ rest) i)).
    { intros i. unfold idx. rewrite E, Ex, app_assoc, nth_error_app2 by lia. do 2 f_equal. lia. }
    rewrite IX. replace (nth_error (content ++ rest) 1) with (@None Z) by (symmetry; apply nth_error_None; lia). reflexivity.
  - intros bits t x content rest u v more El T Ec V U fuel b st pre Q E F. destruct fuel as [|f]; [lia|]. cbn [parse].
    destruct (element_read pre t x content rest (BX _ _ E) El) as (head & f0 & Ex & Hd & F8 & P & Sl). rewrite <- E in P, Sl. rewrite P. cbn [lift bind]. rewrite Sl. cbn [bind].
    rewrite (bits_form t T) in F8. injection F8 as <-.
    assert (IX : forall i, idx (E:=option parse_error) data (length (pre ++ head) + i) = unwrap (nth_error (content ++ rest) i)).
    { intros i. unfold idx. rewrite E, Ex, app_assoc, nth_error_app2 by lia. do 2 f_equal. lia. }
    rewrite IX, Ec. cbn [nth_error unwrap bind]. rewrite (proj2 (Z.eqb_neq v 48) V). replace (length (pre ++ head)) with (length (pre ++ head) + 0)%nat by lia. rewrite IX, Ec. cbn [nth_error unwrap bind].
    rewrite (proj2 (Z.eqb_neq u 0) U). reflexivity.
  - intros t x content rest El T fuel b st pre Q E F. destruct fuel as [|f]; [lia|]. cbn [parse].
    destruct (element_read pre t x content rest (BX _ _ E) El) as (head & f0 & Ex & Hd & F8 & P & Sl). rewrite <- E in P, Sl. rewrite P. cbn [lift bind]. rewrite Sl. cbn [bind].
    rewrite (oid_form t T) in F8. injection F8 as <-. rewrite (Q eq_refl). reflexivity.
  - intros bits t x content rest u more El T Ec U IH fuel b st pre Q E F. destruct fuel as [|f]; [lia|]. cbn [parse].
    destruct (element_read pre t x content rest (BX _ _ E) El) as (head & f0 & Ex & Hd & F8 & P & Sl). rewrite <- E in P, Sl. rewrite P. cbn [lift bind]. rewrite Sl. cbn [bind].
    rewrite (bits_form t T) in F8. injection F8 as <-. assert (Lh : (0 < length head)%nat) by (destruct head; [congruence|cbn; lia]).
    assert (IX : forall i, idx (E:=option parse_error) data (length (pre ++ head) + i) = unwrap (nth_error (content ++ rest) i)).
    { intros i. unfold idx. rewrite E, Ex, app_assoc, nth_error_app2 by lia. do 2 f_equal. lia. }
    rewrite IX, Ec. cbn [nth_error unwrap bind]. rewrite Z.eqb_refl.
    assert (Lx : length x = (length head + length (content ++ rest))%nat) by (rewrite Ex, app_length; reflexivity). pose proof (f_equal (@length Z) Ec) as Lc. cbn [length] in Lc.
    replace (length (pre ++ head) + 1)%nat with (length (pre ++ head ++ [u])) by (rewrite !app_length; cbn [length]; lia).
    apply IH; [reflexivity|rewrite E, Ex, Ec, <- !app_assoc; reflexivity|cbn [length]; lia|cbn [length]; lia|]. rewrite E, Ex, !app_length. cbn [length]. lia.
  - intros bits t x content rest El T _ IH fuel b st pre Q E F. destruct fuel as [|f]; [lia|]. cbn [parse].
    destruct (element_read pre t x content rest (BX _ _ E) El) as (head & f0 & Ex & Hd & F8 & P & Sl). rewrite <- E in P, Sl. rewrite P. cbn [lift bind]. rewrite Sl. cbn [bind].
    rewrite (set_form t T) in F8. injection F8 as <-. assert (Lh : (0 < length head)%nat) by (destruct head; [congruence|cbn; lia]).
    apply IH; [discriminate|rewrite E, Ex, <- app_assoc; reflexivity|]. rewrite Ex, app_length in F. lia.
  - intros bits t x content rest El T U IH fuel b st pre Q E F. destruct fuel as [|f]; [lia|]. cbn [parse].
    destruct (element_read pre t x content rest (BX _ _ E) El) as (head & f0 & Ex & Hd & F8 & P & Sl). rewrite <- E in P, Sl. rewrite P. cbn [lift bind]. rewrite Sl. cbn [bind].
    rewrite (sequence_form t T) in F8. injection F8 as <-. assert (Lh : (0 < length head)%nat) by (destruct head; [congruence|cbn; lia]).
    assert (Lx : length x = (length head + length (content ++ rest))%nat) by (rewrite Ex, app_length; reflexivity).
    apply IH; [exact Q|rewrite E, Ex, <- app_assoc; reflexivity|lia|lia|]. rewrite E, Ex, !app_length. lia.
  - intros bits n x L _ IH f k b st pre limit Q E F K ->. destruct k as [|k]; [lia|]. cbn [parse_while]. replace (Nat.ltb (length pre) (length data - n)) with true by (symmetry; apply Nat.ltb_lt; rewrite E, app_length; lia).
    rewrite (IH f b st pre Q E F). reflexivity.
  - intros bits n t x content rest L El T _ IH f k b st pre limit Q E F K ->. destruct k as [|k]; [lia|]. cbn [parse_while]. replace (Nat.ltb (length pre) (length data - n)) with true by (symmetry; apply Nat.ltb_lt; rewrite E, app_length; lia).
    destruct (element_read pre t x content rest (BX _ _ E) El) as (head & f0 & Ex & Hd & F8 & P & Sl). rewrite <- E in P, Sl. rewrite (integer_form t T) in F8. injection F8 as <-.
    assert (Lh : (0 < length head)%nat) by (destruct head; [congruence|cbn; lia]).
    assert (Lx : length x = (length head + (length content + length rest))%nat) by (rewrite Ex, !app_length; reflexivity).
    destruct f as [|f]; [lia|]. cbn [parse]. rewrite P. cbn [lift bind]. rewrite Sl. cbn [bind].
    replace (length (pre ++ head) + length content)%nat with (length (pre ++ head ++ content)) by (rewrite !app_length; lia).
    apply (IH (S f)); [exact Q|rewrite E, Ex, <- !app_assoc; reflexivity|lia|lia|reflexivity].
  - intros bits n t x content rest L El T1 T2 T3 _ IH f k b st pre limit Q E F K ->. destruct k as [|k]; [lia|]. cbn [parse_while]. replace (Nat.ltb (length pre) (length data - n)) with true by (symmetry; apply Nat.ltb_lt; rewrite E, app_length; lia).
    destruct (element_read pre t x content rest (BX _ _ E) El) as (head & f0 & Ex & Hd & F8 & P & Sl). rewrite <- E in P, Sl. destruct (context_form t T1 T2 T3) as (tag & X & Y). rewrite X in F8. injection F8 as <-.
    assert (Lh : (0 < length head)%nat) by (destruct head; [congruence|cbn; lia]).
    assert (Lx : length x = (length head + (length content + length rest))%nat) by (rewrite Ex, !app_length; reflexivity).
    destruct f as [|f]; [lia|]. cbn [parse]. rewrite P. cbn [lift bind]. rewrite Sl. cbn [bind]. rewrite Y. cbn [bind].
    replace (length (pre ++ head) + length content)%nat with (length (pre ++ head ++ content)) by (rewrite !app_length; lia).
    apply (IH (S f)); [exact Q|rewrite E, Ex, <- !app_assoc; reflexivity|lia|lia|reflexivity].
Qed.

Lemma down data : is_bytes data -> falls (zlen data) false data -> x509_from_raw data = Panic.
Proof.
  intros B H. unfold x509_from_raw. change 0%nat with (length (@nil Z)). rewrite (proj1 (falling data B) false data H (S (length data)) builder_new Init [] ltac:(discriminate) eq_refl) by lia. reflexivity.
Qed.
