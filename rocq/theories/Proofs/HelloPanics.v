(* The hellos on which the parsers panic, exactly *)
From Verif.Model Require Import Base Alert Bytes Suite Extensions Hello.
From Verif.Spec Require Import X509.
From Verif Require Import Spec.HelloPanics.
From Verif.Proofs Require Import Util Bytes Hello HelloTotal.
From Verif.Proofs Require Utf8.

Definition sorts {A} (o : outcome tls_error A) (P F : Prop) : Prop := (o = Panic <-> P) /\ ((exists a, o = Ok a) <-> F).
Lemma sorts_panic {A} (P F : Prop) : P -> ~ F -> sorts (A:=A) Panic P F.
Proof. intros p f. split; split; try tauto. intros (a & E). discriminate. Qed.
Lemma sorts_err {A} e (P F : Prop) : ~ P -> ~ F -> sorts (A:=A) (Err e) P F.
Proof. intros p f. split; split; try tauto; try discriminate. intros (a & E). discriminate. Qed.
Lemma sorts_ok {A} (a : A) (P F : Prop) : ~ P -> F -> sorts (Ok a) P F.
Proof. intros p f. split; split; try tauto; try discriminate. eauto. Qed.

Lemma n16_u16 a b t : is_byte a -> is_byte b -> to_u16 (a :: b :: t) = n16 a b.
Proof. intros. unfold n16. rewrite to_u16_val by assumption. lia. Qed.
Lemma n16_range a b : is_byte a -> is_byte b -> 0 <= n16 a b < 2^16.
Proof. unfold is_byte, n16. lia. Qed.
Lemma group_named x : named_group_new x <> None <-> known_group x.
Proof.
  unfold named_group_new, known_group. cbn [In].
  repeat match goal with |- context [?x =? ?y] => destruct (Z.eqb_spec x y) end; split; intros H; try discriminate; try tauto; try lia;
    try (repeat destruct H as [H | H]; congruence).
Qed.

(* ---- shares ---- *)
Lemma kse_nil : kse_parse [] = Err IllegalParameter. Proof. reflexivity. Qed.
Lemma kse_one x : kse_parse [x] = match named_group_new x with None => Err IllegalParameter | Some _ => Panic end.
Proof. unfold kse_parse. cbn [to_u16]. now destruct (named_group_new x). Qed.
Lemma kse_more g1 g2 rest : is_byte g1 -> is_byte g2 -> is_bytes rest ->
  kse_parse (g1 :: g2 :: rest) = match named_group_new (n16 g1 g2) with None => Err IllegalParameter | Some g =>
    match rest with
    | l1 :: l2 :: body => if 65532 <=? n16 l1 l2 then Panic else if zlen body <? n16 l1 l2 then Panic
                          else Ok ((4 + Z.to_nat (n16 l1 l2))%nat, KSE g (firstn (Z.to_nat (n16 l1 l2)) body))
    | _ => Panic end end.
Proof.
  intros B1 B2 B. unfold kse_parse. rewrite n16_u16 by assumption. destruct (named_group_new _) as [g|]; [|reflexivity].
  unfold slice_from. cbn [length Nat.leb skipn]. rewrite bind_Ok.
  assert (S0 : forall len, 0 <= len -> (length rest < 2)%nat -> slice (E:=tls_error) (g1 :: g2 :: rest) 4 (Z.to_nat (len + 4)) = Panic).
  { intros len L H. unfold slice. destruct (Nat.leb_spec (Z.to_nat (len + 4)) (length (g1 :: g2 :: rest))) as [X|X]; [cbn [length] in X; lia|]. now rewrite Bool.andb_false_r. }
  destruct rest as [|l1 [|l2 body]].
  - cbn [to_u16]. change (0 + 4 <? 2 ^ 16) with true. cbv iota. rewrite S0 by (cbn; lia). reflexivity.
  - cbn [to_u16]. inversion B as [|? ? B3 _]; subst. unfold is_byte in B3. destruct (_ <? _); [|reflexivity]. rewrite S0 by (cbn; lia). reflexivity.
  - inversion B as [|? ? B3 B']; subst. inversion B' as [|? ? B4 _]; subst. rewrite n16_u16 by assumption. pose proof (n16_range l1 l2 B3 B4) as R.
    destruct (Z.leb_spec 65532 (n16 l1 l2)); destruct (Z.ltb_spec (n16 l1 l2 + 4) (2^16)); try lia; [reflexivity|].
    unfold slice. destruct (Z.ltb_spec (zlen body) (n16 l1 l2)) as [L|L]; unfold zlen in L.
    + destruct (Nat.leb_spec (Z.to_nat (n16 l1 l2 + 4)) (length (g1 :: g2 :: l1 :: l2 :: body))) as [X|X]; [cbn [length] in X; lia|]. now rewrite Bool.andb_false_r.
    + destruct (Nat.leb_spec (Z.to_nat (n16 l1 l2 + 4)) (length (g1 :: g2 :: l1 :: l2 :: body))) as [X|X]; [|cbn [length] in X; lia].
      destruct (Nat.leb_spec 4 (Z.to_nat (n16 l1 l2 + 4))); [|lia]. cbn [andb skipn]. rewrite bind_Ok. do 4 f_equal. lia.
Qed.

Lemma group_some x g : named_group_new x = Some g -> known_group x.
Proof. intros E. apply group_named. congruence. Qed.
Lemma group_none x : named_group_new x = None -> ~ known_group x.
Proof. intros E H. apply group_named in H. congruence. Qed.

Lemma app_split {A} (l1 : list A) : forall l2 r1 r2, l1 ++ r1 = l2 ++ r2 -> length l1 = length l2 -> l1 = l2 /\ r1 = r2.
Proof.
  induction l1 as [|x l1 IH]; intros [|y l2] r1 r2 E L; try discriminate L; [now split|]. injection E as -> E. injection L as L.
  destruct (IH _ _ _ E L) as (-> & ->). now split.
Qed.

Lemma panic_inv said done g1 g2 l1 l2 body : shares_panic said done (g1 :: g2 :: l1 :: l2 :: body) ->
  known_group (n16 g1 g2) /\ (zlen body < n16 l1 l2 \/ 65532 <= n16 l1 l2 \/ exists key rest, body = key ++ rest /\ zlen key = n16 l1 l2 /\
    4 <= zlen key < 65532 /\ done + 4 + zlen key < said /\ shares_panic said (done + 4 + zlen key) rest).
Proof. intros X; inversion X as [| ? ? ? ? ? L | | | ? ? ? ? ? key rest]; subst; [cbn in L; lia|tauto..|]. split; [assumption|]. right; right. exists key, rest. tauto. Qed.
Lemma fine_inv said done g1 g2 l1 l2 body : shares_fine said done (g1 :: g2 :: l1 :: l2 :: body) ->
  known_group (n16 g1 g2) /\ (n16 l1 l2 < 4 /\ n16 l1 l2 <= zlen body \/ exists key rest, body = key ++ rest /\ zlen key = n16 l1 l2 /\
    4 <= zlen key < 65532 /\ (said <= done + 4 + zlen key \/ done + 4 + zlen key < said /\ shares_fine said (done + 4 + zlen key) rest)).
Proof.
  intros X; inversion X as [| ? ? ? ? ? key rest | ? ? ? ? ? key rest]; subst; [tauto|split; [assumption|]; right; exists key, rest; tauto..].
Qed.

Lemma shares_sort f : forall buf done len, (done <= length buf)%nat -> (length buf - done < f)%nat -> is_bytes buf ->
  sorts (ks_loop f buf done len) (shares_panic (Z.of_nat len) (Z.of_nat done) (skipn done buf)) (shares_fine (Z.of_nat len) (Z.of_nat done) (skipn done buf)).
Proof.
  induction f as [|f IH]; intros buf done len D F B; [lia|].
  cbn [ks_loop]. unfold slice_from. rewrite (proj2 (Nat.leb_le _ _) D), bind_Ok.
  assert (Bk : is_bytes (skipn done buf)) by now apply is_bytes_skipn.
  remember (skipn done buf) as b eqn:Eb. assert (Lb : length b = (length buf - done)%nat) by (subst b; apply skipn_length).
  destruct b as [|g1 [|g2 rest]].
  - rewrite kse_nil. apply sorts_err; intros X; inversion X.
  - rewrite kse_one. destruct (named_group_new g1) eqn:G.
    + apply sorts_panic; [constructor; now apply group_some in G|intros X; inversion X].
    + apply sorts_err; intros X; inversion X; subst. now apply group_none in G.
  - assert (B1 : is_byte g1) by now inversion Bk. assert (B2 : is_byte g2) by (inversion Bk as [|? ? _ X]; now inversion X).
    assert (Br : is_bytes rest) by (inversion Bk as [|? ? _ X]; now inversion X).
    rewrite kse_more by assumption. destruct (named_group_new (n16 g1 g2)) as [g|] eqn:G.
    2:{ apply group_none in G. apply sorts_err; intros X; inversion X; now subst. }
    apply group_some in G. destruct rest as [|l1 [|l2 body]].
    1,2: apply sorts_panic; [now apply shp_cut; [|cbn; lia]|intros X; inversion X].
    assert (B3 : is_byte l1) by now inversion Br. assert (B4 : is_byte l2) by (inversion Br as [|? ? _ X]; now inversion X).
    pose proof (n16_range _ _ B3 B4) as R. cbn [length] in Lb.
    destruct (Z.leb_spec 65532 (n16 l1 l2)) as [H|H].
    { apply sorts_panic; [now apply shp_huge|]. intros X. apply fine_inv in X. destruct X as (_ & [X | (key & rest & X)]); lia. }
    destruct (Z.ltb_spec (zlen body) (n16 l1 l2)) as [L|L].
    { apply sorts_panic; [now apply shp_short|]. intros X. apply fine_inv in X. destruct X as (_ & [X | (key & rest & -> & X)]); [lia|]. rewrite zlen_app in L. unfold zlen in *. lia. }
    rewrite bind_Ok. set (key := firstn (Z.to_nat (n16 l1 l2)) body) in *. set (more := skipn (Z.to_nat (n16 l1 l2)) body).
    assert (Es : body = key ++ more) by (symmetry; apply firstn_skipn).
    assert (Lk : zlen key = n16 l1 l2) by (unfold zlen, key in *; rewrite firstn_length; lia).
    assert (U : forall key' rest', body = key' ++ rest' -> zlen key' = n16 l1 l2 -> key' = key /\ rest' = more).
    { intros key' rest' X Y. rewrite Es in X. destruct (app_split _ _ _ _ X) as (X1 & X2); [unfold zlen in *; lia|]. now split. }
    assert (P' : shares_panic (Z.of_nat len) (Z.of_nat done) (g1 :: g2 :: l1 :: l2 :: body) -> 4 <= n16 l1 l2 /\ Z.of_nat done + 4 + zlen key < Z.of_nat len /\ shares_panic (Z.of_nat len) (Z.of_nat done + 4 + zlen key) more).
    { intros X. apply panic_inv in X. destruct X as (_ & [X | [X | (k & r & X & Y & X1 & X2 & X3)]]); [lia..|]. destruct (U _ _ X Y) as (-> & ->). split; [lia|]. tauto. }
    assert (F' : shares_fine (Z.of_nat len) (Z.of_nat done) (g1 :: g2 :: l1 :: l2 :: body) -> n16 l1 l2 < 4 \/ Z.of_nat len <= Z.of_nat done + 4 + zlen key \/ shares_fine (Z.of_nat len) (Z.of_nat done + 4 + zlen key) more).
    { intros X. apply fine_inv in X. destruct X as (_ & [X | (k & r & X & Y & X1 & X2)]); [tauto|]. destruct (U _ _ X Y) as (-> & ->). tauto. }
    destruct (Nat.leb_spec (4 + Z.to_nat (n16 l1 l2)) 7) as [H7|H7].
    { apply sorts_ok; [|apply shf_stop; [exact G|lia|exact L]]. intros X. apply P' in X. lia. }
    assert (Ed : Z.of_nat (done + (4 + Z.to_nat (n16 l1 l2))) = Z.of_nat done + 4 + zlen key) by lia.
    destruct (Nat.leb_spec len (done + (4 + Z.to_nat (n16 l1 l2)))) as [H8|H8].
    { apply sorts_ok; [|rewrite Es; apply shf_last; [exact G|exact Lk|lia|lia]]. intros X. apply P' in X. lia. }
    assert (En : more = skipn (done + (4 + Z.to_nat (n16 l1 l2))) buf).
    { replace (done + (4 + Z.to_nat (n16 l1 l2)))%nat with ((4 + Z.to_nat (n16 l1 l2)) + done)%nat by lia. rewrite <- skipn_skipn, <- Eb. reflexivity. }
    assert (Lz : (Z.to_nat (n16 l1 l2) <= length body)%nat) by (unfold zlen in L; lia).
    specialize (IH buf (done + (4 + Z.to_nat (n16 l1 l2)))%nat len ltac:(lia) ltac:(lia) B). rewrite <- En, Ed in IH. destruct IH as (IP & IF).
    destruct (ks_loop f buf _ len) as [r|e|] eqn:K; cbn [bind].
    + apply sorts_ok; [|rewrite Es; apply shf_next; [exact G|exact Lk|lia|lia|apply IF; eauto]]. intros X. apply P' in X. destruct X as (_ & _ & X). apply IP in X. discriminate.
    + apply sorts_err; intros X; [apply P' in X; destruct X as (_ & _ & X); apply IP in X; discriminate|]. apply F' in X. destruct X as [X | [X | X]]; [lia..|]. apply IF in X. destruct X. discriminate.
    + apply sorts_panic; [rewrite Es; apply shp_next; [exact G|exact Lk|lia|lia|now apply IP]|]. intros X. apply F' in X. destruct X as [X | [X | X]]; [lia..|]. apply IF in X. destruct X. discriminate.
Qed.
Lemma key_share_sort x : is_bytes x -> sorts (key_share_parse x false) (key_share_panics x) (key_share_fine x).
Proof.
  intros B. unfold key_share_parse, key_share_panics, key_share_fine. destruct x as [|s1 [|s2 rest]].
  1,2: apply sorts_panic; [left; cbn; lia|]; intros (? & ? & ? & X & _); discriminate X.
  assert (B1 : is_byte s1) by now inversion B. assert (B2 : is_byte s2) by (inversion B as [|? ? _ X]; now inversion X).
  pose proof (n16_range _ _ B1 B2) as R. rewrite n16_u16 by assumption.
  destruct (shares_sort (S (length (s1 :: s2 :: rest))) (s1 :: s2 :: rest) 2 (Z.to_nat (n16 s1 s2)) ltac:(cbn; lia) ltac:(cbn; lia) B) as (P & F).
  cbn [skipn] in P, F. rewrite Z2Nat.id in P, F by lia. change (Z.of_nat 2) with 2 in P, F. split.
  - rewrite P. split; [intros X; right; eauto|]. intros [X | (a & b & r & X & Y)]; [cbn in X; lia|]. now injection X as <- <- <-.
  - rewrite F. split; [eauto|]. intros (a & b & r & X & Y). now injection X as <- <- <-.
Qed.

(* ---- names ---- *)
Lemma name_sort x : is_bytes x -> sorts (server_name_parse x) (name_panics x) (name_fine x).
Proof.
  intros B. unfold server_name_parse. destruct x as [|a [|b rest]].
  - apply sorts_ok; [intros X; inversion X|constructor].
  - cbn [to_u16]. assert (is_byte a) by now inversion B. unfold is_byte in *. destruct (Z.ltb_spec 0 a).
    + apply sorts_panic; [constructor; lia|]. intros X; inversion X; lia.
    + assert (a = 0) by lia. subst a. apply sorts_ok; [intros X; now inversion X|constructor].
  - assert (B1 : is_byte a) by now inversion B. assert (B2 : is_byte b) by (inversion B as [|? ? _ X]; now inversion X).
    assert (Br : is_bytes rest) by (inversion B as [|? ? _ X]; now inversion X). rewrite n16_u16 by assumption. pose proof (n16_range _ _ B1 B2) as R.
    destruct (Z.ltb_spec 0 (n16 a b)) as [N|N].
    2:{ assert (a = 0 /\ b = 0) as (-> & ->) by (unfold n16, is_byte in *; lia). apply sorts_ok; [|constructor]. intros X; inversion X; subst; now apply H0 || (change (n16 0 0) with 0 in *; congruence). }
    destruct rest as [|t rest].
    { apply sorts_panic; [constructor; lia|]. intros X; inversion X; subst. change (n16 0 0) with 0 in N. lia. }
    cbn [idx nth_error unwrap]. rewrite bind_Ok. destruct (Z.eqb_spec t 0) as [->|T].
    2:{ apply sorts_err; intros X; inversion X; subst; try congruence. change (n16 0 0) with 0 in N. lia. }
    cbn [negb]. unfold slice_from. cbn [length Nat.leb skipn]. rewrite bind_Ok.
    assert (S0 : forall len, (length rest < 2)%nat -> slice (E:=tls_error) (a :: b :: 0 :: rest) 5 (Z.to_nat len + 5) = Panic).
    { intros len H. unfold slice. destruct (Nat.leb_spec (Z.to_nat len + 5) (length (a :: b :: 0 :: rest))) as [X|X]; [cbn [length] in X; lia|]. now rewrite Bool.andb_false_r. }
    destruct rest as [|l1 [|l2 body]].
    1,2: rewrite S0 by (cbn; lia); apply sorts_panic; [apply np_cut; [lia|cbn; lia]|]; intros X; inversion X; subst; change (n16 0 0) with 0 in N; lia.
    assert (B3 : is_byte l1) by (inversion Br as [|? ? _ X]; now inversion X).
    assert (B4 : is_byte l2) by (inversion Br as [|? ? _ X]; inversion X as [|? ? _ Y]; now inversion Y).
    assert (B5 : is_bytes body) by (inversion Br as [|? ? _ X]; inversion X as [|? ? _ Y]; now inversion Y).
    rewrite n16_u16 by assumption. pose proof (n16_range _ _ B3 B4) as R'. unfold slice.
    destruct (Nat.leb_spec 5 (Z.to_nat (n16 l1 l2) + 5)); [|lia]. cbn [andb skipn].
    destruct (Nat.leb_spec (Z.to_nat (n16 l1 l2) + 5) (length (a :: b :: 0 :: l1 :: l2 :: body))) as [L|L]; cbn [length] in L.
    2:{ apply sorts_panic; [apply np_short; [lia|unfold zlen; lia]|]. intros X; inversion X; subst; [change (n16 0 0) with 0 in N; lia|]. rewrite app_length in L. unfold zlen in *. lia. }
    rewrite bind_Ok. replace (Z.to_nat (n16 l1 l2) + 5 - 5)%nat with (Z.to_nat (n16 l1 l2)) by lia.
    set (name := firstn (Z.to_nat (n16 l1 l2)) body). assert (Ln : zlen name = n16 l1 l2) by (unfold zlen, name; rewrite firstn_length; lia).
    assert (NP : ~ name_panics (a :: b :: 0 :: l1 :: l2 :: body)) by (intros X; inversion X; subst; [cbn in *; lia|unfold zlen in *; lia]).
    assert (Bn : is_bytes name) by now apply is_bytes_firstn. pose proof (Utf8.ext_is_text name Bn) as TX.
    destruct (utf8_valid name) eqn:V.
    + apply sorts_ok; [exact NP|]. destruct (proj1 TX eq_refl) as (text & St & Et). rewrite <- (firstn_skipn (Z.to_nat (n16 l1 l2)) body). fold name.
      rewrite Et in *. apply nf_name; [lia|exact Ln|exact St].
    + apply sorts_err; [exact NP|]. intros X; inversion X as [| | | ? ? ? ? text rest' ? Lt St]; subst; [change (n16 0 0) with 0 in N; lia|].
      assert (name = utf8 text). { unfold name. rewrite firstn_app_eq; [reflexivity|unfold zlen in *; lia]. }
      assert (X9 : false = true) by (apply TX; eauto). discriminate X9.
Qed.

(* ---- versions ---- *)
Definition runs_out (n : nat) (x : list Z) : Prop := exists vs r, x = concat vs ++ r /\ Forall other_version vs /\ (length r < 2)%nat /\ (length vs < n)%nat.
Lemma scan_sort n : forall buf i, is_bytes buf -> (i <= length buf)%nat ->
  (versions_scan (E:=tls_error) n buf i = Panic <-> runs_out n (skipn i buf)) /\ (versions_scan (E:=tls_error) n buf i = Panic \/ exists v, versions_scan (E:=tls_error) n buf i = Ok v).
Proof.
  induction n as [|n IH]; intros buf i B L; cbn [versions_scan].
  - split; [|eauto]. split; [discriminate|]. intros (vs & r & _ & _ & _ & X). lia.
  - assert (Bk : is_bytes (skipn i buf)) by now apply is_bytes_skipn. assert (Lk : length (skipn i buf) = (length buf - i)%nat) by apply skipn_length.
    unfold slice. destruct (Nat.leb_spec i (i + 2)); [|lia]. cbn [andb]. destruct (Nat.leb_spec (i + 2) (length buf)) as [H2|H2].
    + rewrite bind_Ok. replace (i + 2 - i)%nat with 2%nat by lia. destruct (skipn i buf) as [|a [|b rest]] eqn:E; [cbn in Lk; lia..|]. cbn [firstn].
      assert (B1 : is_byte a) by now inversion Bk. assert (B2 : is_byte b) by (inversion Bk as [|? ? _ X]; now inversion X).
      assert (En : skipn (i + 2) buf = rest) by (rewrite Nat.add_comm, <- skipn_skipn, E; reflexivity).
      rewrite n16_u16 by assumption. destruct (Z.eqb_spec (n16 a b) 0x0304) as [V|V].
      * split; [|eauto]. split; [discriminate|]. intros ([|v vs] & r & X & F & R & _); [cbn in X; subst r; cbn in R; lia|].
        inversion F as [|? ? (a' & b' & -> & N) _]; subst. cbn in X. injection X as <- <- _. contradiction.
      * destruct (IH buf (i + 2)%nat B ltac:(lia)) as (P & O). rewrite En in P. split; [|exact O]. rewrite P. split.
        -- intros (vs & r & X & F & R & N). exists ([a; b] :: vs), r. split; [cbn; now rewrite X|]. split; [constructor; [now exists a, b|exact F]|]. split; [exact R|cbn; lia].
        -- intros ([|v vs] & r & X & F & R & N); [cbn in X; subst r; cbn in R; lia|]. inversion F as [|? ? (a' & b' & -> & N') F']; subst. cbn in X. injection X as <- <- X.
           exists vs, r. split; [exact X|]. split; [exact F'|]. split; [exact R|]. cbn in N. lia.
    + split; [|now left]. split; [|reflexivity]. intros _. exists [], (skipn i buf). split; [reflexivity|]. split; [constructor|]. split; [lia|cbn; lia].
Qed.
Lemma versions_sort x : is_bytes x -> (versions_server_parse (E:=tls_error) x = Panic <-> versions_panic x) /\ (versions_server_parse (E:=tls_error) x = Panic \/ exists v, versions_server_parse (E:=tls_error) x = Ok v).
Proof.
  intros B. unfold versions_server_parse, versions_panic. destruct x as [|n t]; cbn [idx nth_error unwrap].
  - split; [|now left]. split; [now left|reflexivity].
  - rewrite bind_Ok. assert (Bn : is_byte n) by now inversion B. unfold is_byte in Bn.
    assert (Ev : Nat.even (Z.to_nat n) = Z.even n).
    { rewrite <- (Z2Nat.id n) at 2 by lia. generalize (Z.to_nat n). clear. intros m. destruct (Nat.Even_or_Odd m) as [(k & ->) | (k & ->)].
      - rewrite Nat.even_mul. symmetry. apply Z.even_spec. exists (Z.of_nat k). lia.
      - rewrite Nat.add_1_r, Nat.even_succ, Nat.odd_mul. symmetry. rewrite <- Z.negb_odd. apply Bool.negb_false_iff, Z.odd_spec. exists (Z.of_nat k). lia. }
    rewrite Ev. destruct (Z.even n) eqn:E.
    + destruct (scan_sort (Nat.div2 (Z.to_nat n)) (n :: t) 1 B ltac:(cbn; lia)) as (P & O). split; [|exact O]. rewrite P. cbn [skipn].
      assert (D : n = 2 * Z.of_nat (Nat.div2 (Z.to_nat n))).
      { apply Nat.even_spec in Ev as (k & K). rewrite K, Nat.div2_double. lia. }
      split.
      * intros (vs & r & X & F & R & N). right. exists n, vs, r. split; [now rewrite X|]. split; [exact E|]. split; [exact F|]. split; [exact R|]. unfold zlen. lia.
      * intros [X | (n' & vs & r & X & E' & F & R & N)]; [discriminate X|]. injection X as <- ->. exists vs, r. split; [reflexivity|]. split; [exact F|]. split; [exact R|]. unfold zlen in N. lia.
    + split; [|eauto]. split; [discriminate|]. intros [X | (n' & vs & r & X & E' & _)]; [discriminate X|]. injection X as <- ->. congruence.
Qed.

(* ---- extensions ---- *)
Lemma exts_sort f : forall x, (length x <= f)%nat -> is_bytes x -> (client_exts_loop f x = Panic <-> exts_panic x).
Proof.
  induction f as [|f IH]; intros x L B.
  - destruct x; [|cbn in L; lia]. cbn. split; [discriminate|]. intros X; inversion X; cbn in *; lia.
  - destruct x as [|t1 x]; [cbn; split; [discriminate|]; intros X; inversion X; cbn in *; lia|].
    destruct x as [|t2 [|l1 [|l2 body]]].
    1,2,3: cbn; split; [intros _; apply ep_cut; cbn; lia|reflexivity].
    assert (B1 : is_byte t1) by now inversion B. assert (Ba : is_bytes (t2 :: l1 :: l2 :: body)) by now inversion B.
    assert (B2 : is_byte t2) by now inversion Ba. assert (Bb : is_bytes (l1 :: l2 :: body)) by now inversion Ba.
    assert (B3 : is_byte l1) by now inversion Bb. assert (Bc : is_bytes (l2 :: body)) by now inversion Bb.
    assert (B4 : is_byte l2) by now inversion Bc. assert (Bd : is_bytes body) by now inversion Bc. clear Ba Bb Bc.
    cbn [client_exts_loop]. rewrite slice_in by (cbn; lia). cbn [Nat.sub skipn firstn]. rewrite bind_Ok. rewrite slice_in by (cbn; lia). cbn [Nat.sub skipn firstn]. rewrite bind_Ok.
    rewrite !n16_u16 by assumption. pose proof (n16_range _ _ B3 B4) as R. pose proof (n16_range _ _ B1 B2) as R0. set (size := Z.to_nat (n16 l1 l2)) in *.
    set (y := firstn size body). set (next := skipn size body). assert (Es : body = y ++ next) by (symmetry; apply firstn_skipn).
    assert (By : is_bytes y) by now apply is_bytes_firstn. assert (Bx : is_bytes next) by now apply is_bytes_skipn.
    assert (Lx : (length next <= f)%nat) by (unfold next; rewrite skipn_length; cbn in L; lia).
    pose proof (IH next Lx Bx) as In'.
    assert (U : forall y' next', body = y' ++ next' -> zlen y' = n16 l1 l2 -> y' = y /\ next' = next /\ zlen y = n16 l1 l2).
    { intros y' next' X Y. assert (Ly : length y = length y') by (unfold y, zlen in *; rewrite firstn_length, X, app_length; lia).
      rewrite Es in X. symmetry in X. destruct (app_split _ _ _ _ X) as (X1 & X2); [lia|]. split; [exact X1|]. split; [exact X2|]. now rewrite <- X1. }
    assert (Full : zlen body < n16 l1 l2 \/ zlen y = n16 l1 l2) by (unfold y, zlen; rewrite firstn_length; lia).
    assert (Nil : zlen body < n16 l1 l2 -> next = []) by (intros X; unfold next; apply skipn_all2; unfold zlen in X; lia).
    assert (SB : slice (E:=tls_error) body 0 size = if zlen body <? n16 l1 l2 then Panic else Ok y).
    { unfold slice. cbn [Nat.leb andb]. destruct (Z.ltb_spec (zlen body) (n16 l1 l2)) as [X|X]; destruct (Nat.leb_spec size (length body)) as [Y|Y]; try (unfold zlen in X; lia); [reflexivity|].
      now rewrite Nat.sub_0_r. }
    clearbody y next.
    (* what an extension list with this head can be *)
    assert (Inv : exts_panic (t1 :: t2 :: l1 :: l2 :: body) ->
      (t1 = 0 /\ In t2 [0; 51] /\ zlen body < n16 l1 l2) \/ (t1 = 0 /\ t2 = 0 /\ zlen y = n16 l1 l2 /\ name_panics y) \/
      (t1 = 0 /\ t2 = 51 /\ zlen y = n16 l1 l2 /\ key_share_panics y) \/ (t1 = 0 /\ t2 = 43 /\ versions_panic body) \/
      (zlen y = n16 l1 l2 /\ exts_panic next /\ (~ In (n16 t1 t2) [0; 43; 51] \/ (t1 = 0 /\ t2 = 43 /\ ~ versions_panic body) \/ (t1 = 0 /\ t2 = 0 /\ name_fine y) \/ (t1 = 0 /\ t2 = 51 /\ key_share_fine y)))).
    { intros X. inversion X as [l X1 X2|t a b r X1 X2 X3|a b y' n' X1 X2 X3|a b y' n' X1 X2 X3|a b r X1 X2|a b c d y' n' X1 X2 X3 X4|a b y' n' X1 X2 X3 X4|a b y' n' X1 X2 X3 X4|a b y' n' X1 X2 X3 X4].
      - cbn in X1. lia.
      - left. subst. auto.
      - match goal with Q : y' ++ n' = body |- _ => symmetry in Q; destruct (U _ _ Q ltac:(congruence)) as (U1 & U2 & U3) end. subst y' n'. intuition congruence.
      - match goal with Q : y' ++ n' = body |- _ => symmetry in Q; destruct (U _ _ Q ltac:(congruence)) as (U1 & U2 & U3) end. subst y' n'. intuition congruence.
      - subst. intuition congruence.
      - match goal with Q : y' ++ n' = body |- _ => symmetry in Q; destruct (U _ _ Q ltac:(congruence)) as (U1 & U2 & U3) end. subst y' n'. intuition congruence.
      - match goal with Q : y' ++ n' = body |- _ => symmetry in Q; destruct (U _ _ Q ltac:(congruence)) as (U1 & U2 & U3) end. subst y' n'. rewrite <- Es in X2. do 4 right. intuition congruence.
      - match goal with Q : y' ++ n' = body |- _ => symmetry in Q; destruct (U _ _ Q ltac:(congruence)) as (U1 & U2 & U3) end. subst y' n'. intuition congruence.
      - match goal with Q : y' ++ n' = body |- _ => symmetry in Q; destruct (U _ _ Q ltac:(congruence)) as (U1 & U2 & U3) end. subst y' n'. intuition congruence. }
    destruct (name_sort y By) as (NP & NF). destruct (key_share_sort y By) as (KP & KF). destruct (versions_sort body Bd) as (VP & VO).
    clear L Lx IH B Bx By.
    assert (T0 : t1 = 0 -> n16 t1 t2 = t2) by (intros ->; unfold n16; lia).
    assert (T1 : forall v, 0 <= v < 256 -> n16 t1 t2 = v -> t1 = 0 /\ t2 = v) by (intros v V; unfold n16, is_byte in *; lia).
    unfold ext_type_new. destruct (Z.eqb_spec (n16 t1 t2) 0x00) as [E0|E0]; [|destruct (Z.eqb_spec (n16 t1 t2) 0x2b) as [E1|E1]; [|destruct (Z.eqb_spec (n16 t1 t2) 0x33) as [E2|E2]]].
    + (* server_name *) destruct (T1 0 ltac:(lia) E0) as (-> & ->). rewrite SB. destruct (Z.ltb_spec (zlen body) (n16 l1 l2)) as [S|S]; cbn [bind].
      { split; [|reflexivity]. intros _. apply ep_short; [now left|exact S]. }
      assert (Ly : zlen y = n16 l1 l2) by lia. destruct (server_name_parse y) as [nm|e|] eqn:NE; cbn [bind].
      * assert (Nf : name_fine y) by (apply NF; eauto). destruct (client_exts_loop f next) as [r|e|] eqn:CE; cbn [bind].
        -- split; [discriminate|]. intros X. apply Inv in X. destruct X as [X | [X | [X | [X | (_ & X & _)]]]]; [lia| |lia..|].
           ++ destruct X as (_ & _ & _ & X). apply NP in X. discriminate.
           ++ apply In' in X. discriminate.
        -- split; [discriminate|]. intros X. apply Inv in X. destruct X as [X | [X | [X | [X | (_ & X & _)]]]]; [lia| |lia..|].
           ++ destruct X as (_ & _ & _ & X). apply NP in X. discriminate.
           ++ apply In' in X. discriminate.
        -- split; [|reflexivity]. intros _. rewrite Es. apply ep_after_name; [exact Ly|exact Nf|now apply In'].
      * split; [discriminate|]. intros X. apply Inv in X. destruct X as [X | [X | [X | [X | (_ & _ & [X | [X | [X | X]]])]]]]; try lia.
        -- destruct X as (_ & _ & _ & X). apply NP in X. discriminate.
        -- exfalso. apply X. rewrite E0. now left.
        -- destruct X as (_ & _ & X). apply NF in X. destruct X. discriminate.
      * split; [|reflexivity]. intros _. rewrite Es. apply ep_name; [exact Ly|now apply NP].
    + (* supported_versions *) destruct (T1 43 ltac:(lia) E1) as (-> & ->). destruct VO as [VE | (v & VE)]; rewrite VE; cbn [bind].
      { split; [|reflexivity]. intros _. apply ep_versions. now apply VP. }
      assert (Nv : ~ versions_panic body) by (intros X; apply VP in X; congruence).
      assert (Back : exts_panic (0 :: 43 :: l1 :: l2 :: body) -> exts_panic next).
      { intros X. apply Inv in X. destruct X as [(_ & X & _) | [X | [X | [(_ & _ & X) | (_ & X & _)]]]]; [cbn in X; lia|lia|lia|contradiction|exact X]. }
      destruct (client_exts_loop f next) as [r|e|] eqn:CE; cbn [bind].
      * split; [discriminate|]. intros X. apply Back, In' in X. discriminate.
      * split; [discriminate|]. intros X. apply Back, In' in X. discriminate.
      * split; [|reflexivity]. intros _. destruct Full as [S|Ly]; [rewrite (Nil S) in CE; destruct f; discriminate CE|].
        rewrite Es. apply ep_after_versions; [exact Ly|now rewrite <- Es|now apply In'].
    + (* key_share *) destruct (T1 51 ltac:(lia) E2) as (-> & ->). rewrite SB. destruct (Z.ltb_spec (zlen body) (n16 l1 l2)) as [S|S]; cbn [bind].
      { split; [|reflexivity]. intros _. apply ep_short; [right; now left|exact S]. }
      assert (Ly : zlen y = n16 l1 l2) by lia. destruct (key_share_parse y false) as [ks|e|] eqn:KE; cbn [bind].
      * assert (Kf : key_share_fine y) by (apply KF; eauto).
        assert (Back : exts_panic (0 :: 51 :: l1 :: l2 :: body) -> exts_panic next).
        { intros X. apply Inv in X. destruct X as [X | [X | [(_ & _ & _ & X) | [X | (_ & X & _)]]]]; [lia|lia| |lia|exact X]. apply KP in X. discriminate. }
        destruct (client_exts_loop f next) as [r|e|] eqn:CE; cbn [bind].
        -- split; [discriminate|]. intros X. apply Back, In' in X. discriminate.
        -- split; [discriminate|]. intros X. apply Back, In' in X. discriminate.
        -- split; [|reflexivity]. intros _. rewrite Es. apply ep_after_shares; [exact Ly|exact Kf|now apply In'].
      * split; [discriminate|]. intros X. apply Inv in X. destruct X as [X | [X | [(_ & _ & _ & X) | [X | (_ & _ & [X | [X | [X | (_ & _ & X)]]])]]]]; try lia.
        -- apply KP in X. discriminate.
        -- exfalso. apply X. rewrite E2. right; right; now left.
        -- apply KF in X. destruct X. discriminate.
      * split; [|reflexivity]. intros _. rewrite Es. apply ep_shares; [exact Ly|now apply KP].
    + (* others *) assert (No : ~ In (n16 t1 t2) [0; 43; 51]) by (cbn; lia). rewrite In'. split.
      * intros X. destruct Full as [S|Ly]; [rewrite (Nil S) in X; inversion X; cbn in *; lia|]. rewrite Es. now apply ep_after_other.
      * intros X. apply Inv in X. destruct X as [(E & X & _) | [X | [X | [X | (_ & X & _)]]]]; [|exfalso; lia..|exact X]. exfalso. rewrite (T0 E) in *. cbn in X. lia.
Qed.

(* ---- the body ---- *)
Definition tail (buf random : list Z) (consumed : nat) (sid : option (list Z)) : outcome tls_error client_hello :=
  let! suites_len := u16_at buf consumed in
  if negb (Z.even suites_len) || Nat.ltb (length buf) (consumed + Z.to_nat suites_len) then Err IllegalParameter else
  let consumed := (consumed + 2)%nat in
  let! suites := suites_loop (Nat.div2 (Z.to_nat suites_len)) buf consumed in
  let consumed := (consumed + Z.to_nat suites_len)%nat in
  let consumed := (consumed + 2)%nat in
  let! ext_len := u16_at buf consumed in
  let consumed := (consumed + 2)%nat in
  let! b := slice buf consumed (consumed + Z.to_nat ext_len) in
  let! exts := from_client_hello_exts b in
  Ok (ClientHello random suites sid exts).
Definition tail_panic (a b : Z) (rest : list Z) : Prop :=
  Z.even (n16 a b) = true /\ (n16 a b - 2 <= zlen rest < n16 a b + 4 \/
    exists suites c1 c2 e1 e2 r, rest = suites ++ [c1; c2; e1; e2] ++ r /\ zlen suites = n16 a b /\
      (zlen r < n16 e1 e2 \/ exists exts r', r = exts ++ r' /\ zlen exts = n16 e1 e2 /\ exts_panic exts)).

Lemma u16_in {E} pre a b t : is_byte a -> is_byte b -> u16_at (E:=E) (pre ++ a :: b :: t) (length pre) = Ok (n16 a b).
Proof.
  intros Ba Bb. unfold u16_at, idx. rewrite nth_error_app2, Nat.sub_diag by lia. cbn [nth_error unwrap]. rewrite bind_Ok.
  rewrite nth_error_app2 by lia. replace (length pre + 1 - length pre)%nat with 1%nat by lia. cbn [nth_error unwrap]. rewrite bind_Ok. f_equal.
  change (Z.lor (u16 (Z.shiftl a 8)) b) with (to_u16 [a; b]). now apply n16_u16.
Qed.
Lemma u16_out {E} buf i : (length buf < i + 2)%nat -> u16_at (E:=E) buf i = Panic.
Proof.
  intros L. unfold u16_at, idx. destruct (nth_error buf i) eqn:X; [|reflexivity]. cbn [unwrap]. rewrite bind_Ok.
  destruct (nth_error buf (i + 1)) eqn:Y; [|reflexivity]. assert (i + 1 < length buf)%nat by (apply nth_error_Some; congruence). lia.
Qed.
Lemma suites_in {E} n : forall buf i, (i + 2 * n <= length buf)%nat -> exists l, suites_loop (E:=E) n buf i = Ok l.
Proof.
  induction n as [|n IH]; intros buf i L; cbn [suites_loop]; [eauto|]. unfold idx.
  destruct (nth_error buf i) as [a|] eqn:X; [|apply nth_error_None in X; lia]. destruct (nth_error buf (i + 1)) as [b|] eqn:Y; [|apply nth_error_None in Y; lia].
  cbn [unwrap]. rewrite !bind_Ok. destruct (IH buf (i + 2)%nat ltac:(lia)) as (l & ->). rewrite bind_Ok. destruct (suite_new _); eauto.
Qed.
Lemma suites_out {E} n : forall buf i, (i <= length buf)%nat -> (length buf < i + 2 * n)%nat -> suites_loop (E:=E) n buf i = Panic.
Proof.
  induction n as [|n IH]; intros buf i L0 L; [lia|]. cbn [suites_loop]. unfold idx.
  destruct (nth_error buf i) as [a|] eqn:X; [|reflexivity]. destruct (nth_error buf (i + 1)) as [b|] eqn:Y; [|reflexivity].
  assert (i + 1 < length buf)%nat by (apply nth_error_Some; congruence). cbn [unwrap]. rewrite !bind_Ok, IH by lia. reflexivity.
Qed.
Lemma even_div2 n : 0 <= n -> Z.even n = true -> (2 * Nat.div2 (Z.to_nat n) = Z.to_nat n)%nat.
Proof. intros L E. apply Z.even_spec in E as (k & ->). replace (Z.to_nat (2 * k)) with (2 * Z.to_nat k)%nat by lia. now rewrite Nat.div2_double. Qed.

Lemma tail_sort pre a b rest random sid : is_byte a -> is_byte b -> is_bytes rest ->
  (tail (pre ++ a :: b :: rest) random (length pre) sid = Panic <-> tail_panic a b rest).
Proof.
  intros Ba Bb Br. unfold tail, tail_panic. rewrite u16_in by assumption. rewrite bind_Ok. pose proof (n16_range _ _ Ba Bb) as R.
  set (n := n16 a b) in *. set (buf := pre ++ a :: b :: rest). assert (Lb : length buf = (length pre + 2 + length rest)%nat) by (unfold buf; rewrite app_length; cbn; lia).
  destruct (Z.even n) eqn:E; cbn [negb orb]; [|split; [discriminate|intros (X & _); discriminate]].
  pose proof (even_div2 n ltac:(lia) E) as D. rewrite Lb.
  destruct (Nat.ltb_spec (length pre + 2 + length rest) (length pre + Z.to_nat n)) as [H|H].
  { split; [discriminate|]. intros (_ & [X | (s & c1 & c2 & e1 & e2 & r & -> & X & _)]); [unfold zlen in X; lia|]. rewrite !app_length in H. unfold zlen in X. lia. }
  destruct (Z.ltb_spec (zlen rest) (n + 4)) as [S|S]; unfold zlen in S.
  - assert (X : n - 2 <= zlen rest < n + 4) by (unfold zlen; lia). split; [intros _; split; [reflexivity|now left]|]. intros _. clear X.
    destruct (Nat.ltb_spec (length rest) (Z.to_nat n)) as [S'|S']; [rewrite suites_out by lia; reflexivity|].
    destruct (suites_in (E:=tls_error) (Nat.div2 (Z.to_nat n)) buf (length pre + 2) ltac:(lia)) as (l & ->). rewrite bind_Ok, u16_out by lia. reflexivity.
  - destruct (suites_in (E:=tls_error) (Nat.div2 (Z.to_nat n)) buf (length pre + 2) ltac:(lia)) as (l & ->). rewrite bind_Ok.
    set (suites := firstn (Z.to_nat n) rest). assert (Ls : length suites = Z.to_nat n) by (unfold suites; rewrite firstn_length; lia).
    destruct (skipn (Z.to_nat n) rest) as [|c1 [|c2 [|e1 [|e2 r]]]] eqn:Er; [apply (f_equal (@length Z)) in Er; rewrite skipn_length in Er; cbn in Er; lia..|].
    assert (Es : rest = suites ++ [c1; c2; e1; e2] ++ r) by (rewrite <- (firstn_skipn (Z.to_nat n) rest), Er; reflexivity).
    assert (Bx : is_bytes (c1 :: c2 :: e1 :: e2 :: r)) by (rewrite <- Er; now apply is_bytes_skipn).
    assert (By : is_bytes (e1 :: e2 :: r)) by (inversion Bx as [|? ? _ X]; now inversion X). assert (Be1 : is_byte e1) by now inversion By.
    assert (Bz : is_bytes (e2 :: r)) by now inversion By. assert (Be2 : is_byte e2) by now inversion Bz. assert (Brr : is_bytes r) by now inversion Bz.
    assert (Eb : buf = (pre ++ a :: b :: suites ++ [c1; c2]) ++ e1 :: e2 :: r) by (unfold buf; rewrite Es, <- app_assoc; cbn [app]; do 3 f_equal; now rewrite <- app_assoc).
    assert (Lp : length (pre ++ a :: b :: suites ++ [c1; c2]) = (length pre + 2 + Z.to_nat n + 2)%nat) by (rewrite app_length; cbn [length]; rewrite app_length; cbn; lia).
    rewrite <- Lp, Eb, u16_in by assumption. rewrite bind_Ok. pose proof (n16_range _ _ Be1 Be2) as R2. set (m := n16 e1 e2) in *.
    set (pre2 := pre ++ a :: b :: suites ++ [c1; c2]) in *.
    assert (SE : slice (E:=tls_error) (pre2 ++ e1 :: e2 :: r) (length pre2 + 2) (length pre2 + 2 + Z.to_nat m) = if zlen r <? m then Panic else Ok (firstn (Z.to_nat m) r)).
    { unfold slice. destruct (Nat.leb_spec (length pre2 + 2) (length pre2 + 2 + Z.to_nat m)); [|lia]. cbn [andb]. rewrite app_length. cbn [length].
      destruct (Z.ltb_spec (zlen r) m) as [X|X]; unfold zlen in X; destruct (Nat.leb_spec (length pre2 + 2 + Z.to_nat m) (length pre2 + Datatypes.S (Datatypes.S (length r)))); try lia; [reflexivity|].
      f_equal. f_equal; [lia|]. rewrite Nat.add_comm, <- skipn_skipn, skipn_app_eq by reflexivity. reflexivity. }
    rewrite SE. clear SE.
    assert (U : forall s c1' c2' e1' e2' r', rest = s ++ [c1'; c2'; e1'; e2'] ++ r' -> zlen s = n -> n16 e1' e2' = m /\ r' = r).
    { intros s c1' c2' e1' e2' r' X Y. rewrite Es in X. destruct (app_split _ _ _ _ X) as (_ & Z0); [unfold zlen in Y; lia|]. injection Z0 as <- <- <- <- <-. now split. }
    destruct (Z.ltb_spec (zlen r) m) as [X|X]; cbn [bind].
    + split; [|reflexivity]. intros _. split; [reflexivity|]. right. exists suites, c1, c2, e1, e2, r. split; [exact Es|]. split; [unfold zlen; lia|]. now left.
    + assert (LF : length (firstn (Z.to_nat m) r) = Z.to_nat m) by (rewrite firstn_length; unfold zlen in X; lia).
      unfold from_client_hello_exts. pose proof (exts_sort (length (firstn (Z.to_nat m) r)) (firstn (Z.to_nat m) r) (le_n _) ltac:(now apply is_bytes_firstn)) as XS.
      assert (G : (true = true /\ (n - 2 <= zlen rest < n + 4 \/ (exists (suites0 : list Z) (c0 c3 e0 e3 : Z) (r0 : list Z), rest = suites0 ++ [c0; c3; e0; e3] ++ r0 /\ zlen suites0 = n /\
         (zlen r0 < n16 e0 e3 \/ exists exts r' : list Z, r0 = exts ++ r' /\ zlen exts = n16 e0 e3 /\ exts_panic exts)))) <-> exts_panic (firstn (Z.to_nat m) r)).
      { split.
        - intros (_ & [Y | (s & c1' & c2' & e1' & e2' & r' & Y1 & Y2 & Y3)]); [unfold zlen in Y; lia|]. destruct (U _ _ _ _ _ _ Y1 Y2) as (U1 & ->). rewrite U1 in Y3.
          destruct Y3 as [Y3 | (ex & q & -> & Y4 & Y5)]; [lia|]. rewrite firstn_app_eq; [exact Y5|unfold zlen in Y4; lia].
        - intros Y. split; [reflexivity|]. right. exists suites, c1, c2, e1, e2, r. split; [exact Es|]. split; [unfold zlen; lia|]. right. exists (firstn (Z.to_nat m) r), (skipn (Z.to_nat m) r).
          split; [symmetry; apply firstn_skipn|]. split; [unfold zlen; rewrite LF; fold m; lia|exact Y]. }
      rewrite G, <- XS. destruct (client_exts_loop _ _); cbn [bind]; split; congruence.
Qed.

Lemma head_eq random id a b rest : length random = 32%nat -> session_read id -> (9 <= length (id ++ rest))%nat ->
  exists sid, client_hello_from_raw ([3; 3] ++ random ++ id ++ a :: b :: rest) = tail (([3; 3] ++ random ++ id) ++ a :: b :: rest) random (length ([3; 3] ++ random ++ id)) sid.
Proof.
  intros Lr S L. rewrite app_length in L. set (buf := [3; 3] ++ random ++ id ++ a :: b :: rest).
  assert (Lb : length buf = (36 + length id + length rest)%nat) by (unfold buf; rewrite !app_length; cbn [length]; lia).
  replace (([3; 3] ++ random ++ id) ++ a :: b :: rest) with buf by (unfold buf; now rewrite <- !app_assoc).
  assert (Li : (1 <= length id)%nat) by (destruct S as [-> | (n & i & -> & _ & _)]; cbn; lia).
  unfold client_hello_from_raw. destruct (Nat.ltb_spec (length buf) 45); [lia|].
  change (u16_at buf 0) with (u16_at (E:=tls_error) (3 :: 3 :: random ++ id ++ a :: b :: rest) 0). rewrite u16_at_head by (unfold is_byte; lia). rewrite bind_Ok.
  change (negb (3 * 256 + 3 =? 771)) with false. cbv iota.
  assert (E1 : slice (E:=tls_error) buf 2 34 = Ok random).
  { rewrite slice_in by lia. f_equal. unfold buf. change (skipn 2 ([3; 3] ++ random ++ id ++ a :: b :: rest)) with (random ++ id ++ a :: b :: rest). apply firstn_app_eq. now rewrite Lr. }
  rewrite E1, bind_Ok.
  assert (E2 : forall n t, id = n :: t -> idx (E:=tls_error) buf 34 = Ok n).
  { intros n t ->. unfold idx, buf. rewrite app_assoc, nth_error_app2 by (rewrite app_length, Lr; cbn; lia). rewrite app_length, Lr. reflexivity. }
  assert (Lp : length ([3; 3] ++ random ++ id) = (34 + length id)%nat) by (rewrite !app_length, Lr; reflexivity). rewrite Lp.
  destruct S as [Ei | (n & i & Ei & Nn & Lid)]; rewrite (E2 _ _ Ei), bind_Ok.
  - change (negb (0 =? 0)) with false. cbv iota. rewrite bind_Ok. exists None. subst id. reflexivity.
  - destruct (Z.eqb_spec n 0); [contradiction|]. cbn [negb]. rewrite slice_in by (rewrite Lb, Ei; cbn [length]; lia). rewrite !bind_Ok. eexists. subst id. cbn [length]. rewrite Lid. reflexivity.
Qed.

Theorem client_hello_sort body : is_bytes body -> (client_hello_from_raw body = Panic <-> client_hello_panic body).
Proof.
  intros B. split.
  - intros P. destruct (Nat.ltb_spec (length body) 45) as [L|L].
    { unfold client_hello_from_raw in P. destruct (Nat.ltb_spec (length body) 45); [discriminate P|lia]. }
    destruct body as [|v1 [|v2 t]]; [cbn in L; lia..|]. cbn [length] in L.
    assert (B1 : is_byte v1) by now inversion B. assert (Ba : is_bytes (v2 :: t)) by now inversion B. assert (B2 : is_byte v2) by now inversion Ba. assert (Bt : is_bytes t) by now inversion Ba.
    assert (V : v1 = 3 /\ v2 = 3).
    { unfold client_hello_from_raw in P. destruct (Nat.ltb_spec (length (v1 :: v2 :: t)) 45) as [X|X]; [discriminate P|]. rewrite u16_at_head, bind_Ok in P by assumption.
      destruct (Z.eqb_spec (v1 * 256 + v2) 771); [unfold is_byte in *; lia|discriminate P]. }
    destruct V as (-> & ->). set (random := firstn 32 t). assert (Lr : length random = 32%nat) by (unfold random; rewrite firstn_length; lia).
    destruct (skipn 32 t) as [|n rest] eqn:Es; [apply (f_equal (@length Z)) in Es; rewrite skipn_length in Es; cbn in Es; lia|].
    assert (Et : t = random ++ n :: rest) by (rewrite <- (firstn_skipn 32 t), Es; reflexivity).
    assert (Lt : length rest = (length t - 33)%nat) by (apply (f_equal (@length Z)) in Es; rewrite skipn_length in Es; cbn in Es; lia).
    assert (Bn : is_bytes (n :: rest)) by (rewrite <- Es; now apply is_bytes_skipn). assert (Br : is_bytes rest) by now inversion Bn.
    clear Es. clearbody random.
    destruct (Z.eq_dec n 0) as [->|Nn].
    + destruct rest as [|a [|b rest]]; [cbn in Lt; lia..|]. cbn [length] in Lt. assert (Ca : is_byte a) by now inversion Br. assert (Bb : is_bytes (b :: rest)) by now inversion Br.
      assert (Cb : is_byte b) by now inversion Bb. assert (Bc : is_bytes rest) by now inversion Bb.
      destruct (head_eq random [0] a b rest Lr (or_introl eq_refl) ltac:(cbn; lia)) as (sid & E). subst t. change (client_hello_from_raw ([3; 3] ++ random ++ [0] ++ a :: b :: rest) = Panic) in P.
      rewrite E in P. apply tail_sort in P; [|assumption..]. destruct P as (Ev & [X | (s & c1 & c2 & e1 & e2 & r & -> & Y & [Z0 | (ex & r' & -> & Z1 & Z2)])]).
      * apply (chp_suites random [0]); [exact Lr|now left|exact Ev|exact X|cbn; lia].
      * apply (chp_short random [0] a b s c1 c2 e1 e2 r); [exact Lr|now left|exact Ev|exact Y|exact Z0|]. rewrite !app_length in *. cbn [length] in *. lia.
      * apply (chp_extensions random [0] a b s c1 c2 e1 e2 ex r'); [exact Lr|now left|exact Ev|exact Y|exact Z1|exact Z2|]. rewrite !app_length in *. cbn [length] in *. lia.
    + destruct (Nat.ltb_spec (length rest) 34) as [S|S]; [subst t; apply chp_session; [exact Lr|exact Nn|lia]|].
      set (id := n :: firstn 32 rest). assert (Si : session_read id) by (right; exists n, (firstn 32 rest); split; [reflexivity|]; split; [exact Nn|rewrite firstn_length; lia]).
      destruct (skipn 32 rest) as [|a [|b rest2]] eqn:E2; [apply (f_equal (@length Z)) in E2; rewrite skipn_length in E2; cbn in E2; lia..|].
      assert (Er : n :: rest = id ++ a :: b :: rest2) by (unfold id; cbn [app]; f_equal; rewrite <- E2; symmetry; apply firstn_skipn).
      assert (Bq : is_bytes (a :: b :: rest2)) by (rewrite <- E2; now apply is_bytes_skipn). assert (Ca : is_byte a) by now inversion Bq.
      assert (Bb : is_bytes (b :: rest2)) by now inversion Bq. assert (Cb : is_byte b) by now inversion Bb. assert (Bc : is_bytes rest2) by now inversion Bb.
      assert (Li : length id = 33%nat) by (unfold id; cbn [length]; rewrite firstn_length; lia).
      rewrite Er in Et. clearbody id. subst t. destruct (head_eq random id a b rest2 Lr Si ltac:(rewrite app_length; lia)) as (sid & E). change (client_hello_from_raw ([3; 3] ++ random ++ id ++ a :: b :: rest2) = Panic) in P.
      rewrite E in P. apply tail_sort in P; [|assumption..]. destruct P as (Ev & [X | (s & c1 & c2 & e1 & e2 & r & -> & Y & [Z0 | (ex & r' & -> & Z1 & Z2)])]).
      * apply (chp_suites random id); [exact Lr|exact Si|exact Ev|exact X|rewrite app_length; lia].
      * apply (chp_short random id a b s c1 c2 e1 e2 r); [exact Lr|exact Si|exact Ev|exact Y|exact Z0|rewrite app_length; lia].
      * apply (chp_extensions random id a b s c1 c2 e1 e2 ex r'); [exact Lr|exact Si|exact Ev|exact Y|exact Z1|exact Z2|rewrite app_length; lia].
  - intros P. assert (Sp : forall random id a b rest, body = [3; 3] ++ random ++ id ++ a :: b :: rest -> is_byte a /\ is_byte b /\ is_bytes rest).
    { intros random id a b rest ->. apply is_bytes_app in B. destruct B as (_ & B). apply is_bytes_app in B. destruct B as (_ & B). apply is_bytes_app in B. destruct B as (_ & B).
      assert (Ca : is_byte a) by now inversion B. assert (Bb : is_bytes (b :: rest)) by now inversion B. split; [exact Ca|]. inversion Bb; now split. }
    destruct P as [random n rest Lr Nn L|random id a b rest Lr Si Ev X L|random id a b s c1 c2 e1 e2 r Lr Si Ev X Y L|random id a b s c1 c2 e1 e2 ex r' Lr Si Ev X Y Z0 L].
    + destruct (Nat.ltb_spec (length rest) 32) as [S|S].
      * apply (HelloTotal.client_hello_panics (random ++ n :: rest)); [rewrite app_length; cbn [length]; lia|]. rewrite app_nth2 by lia. rewrite Lr. exact Nn.
      * unfold client_hello_from_raw. destruct (Nat.ltb_spec (length ([3; 3] ++ random ++ n :: rest)) 45) as [Q|Q]; [rewrite !app_length in Q; cbn in Q; lia|].
        change (u16_at ([3; 3] ++ random ++ n :: rest) 0) with (u16_at (E:=tls_error) (3 :: 3 :: random ++ n :: rest) 0). rewrite u16_at_head by (unfold is_byte; lia). rewrite bind_Ok.
        change (negb (3 * 256 + 3 =? 771)) with false. cbv iota. rewrite slice_in by (rewrite !app_length; cbn [length]; lia). rewrite bind_Ok.
        assert (E2 : idx (E:=tls_error) ([3; 3] ++ random ++ n :: rest) 34 = Ok n).
        { unfold idx. rewrite app_assoc, nth_error_app2 by (rewrite app_length, Lr; cbn; lia). rewrite app_length, Lr. reflexivity. }
        rewrite E2, bind_Ok. destruct (Z.eqb_spec n 0); [contradiction|]. cbn [negb]. rewrite slice_in by (rewrite !app_length; cbn [length]; lia). rewrite !bind_Ok.
        rewrite u16_out by (rewrite !app_length; cbn [length]; lia). reflexivity.
    + destruct (Sp _ _ _ _ _ eq_refl) as (Ca & Cb & Cr). destruct (head_eq random id a b rest Lr Si L) as (sid & E). rewrite E. apply tail_sort; [assumption..|]. split; [exact Ev|now left].
    + destruct (Sp random id a b (s ++ [c1; c2; e1; e2] ++ r) eq_refl) as (Ca & Cb & Cr).
      destruct (head_eq random id a b (s ++ [c1; c2; e1; e2] ++ r) Lr Si) as (sid & E); [rewrite !app_length in *; cbn [length]; lia|].
      change ([3; 3] ++ random ++ id ++ [a; b] ++ s ++ [c1; c2; e1; e2] ++ r) with ([3; 3] ++ random ++ id ++ a :: b :: s ++ [c1; c2; e1; e2] ++ r). rewrite E. apply tail_sort; [assumption..|].
      split; [exact Ev|]. right. exists s, c1, c2, e1, e2, r. split; [reflexivity|]. split; [exact X|now left].
    + destruct (Sp random id a b (s ++ [c1; c2; e1; e2] ++ ex ++ r') eq_refl) as (Ca & Cb & Cr).
      destruct (head_eq random id a b (s ++ [c1; c2; e1; e2] ++ ex ++ r') Lr Si) as (sid & E); [rewrite !app_length in *; cbn [length]; lia|].
      change ([3; 3] ++ random ++ id ++ [a; b] ++ s ++ [c1; c2; e1; e2] ++ ex ++ r') with ([3; 3] ++ random ++ id ++ a :: b :: s ++ [c1; c2; e1; e2] ++ ex ++ r'). rewrite E. apply tail_sort; [assumption..|].
      split; [exact Ev|]. right. exists s, c1, c2, e1, e2, (ex ++ r'). split; [reflexivity|]. split; [exact X|]. right. exists ex, r'. now split.
Qed.
