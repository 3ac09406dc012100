(* The same for the ServerHello *)
From Verif.Model Require Import Base Alert Bytes Suite Extensions Hello.
From Verif Require Import Spec.HelloPanics Proofs.HelloPanics.
From Verif.Proofs Require Import Util Bytes Hello HelloTotal.

Lemma server_share_sort x : is_bytes x -> sorts (key_share_parse x true) (shares_panic 0 0 x) (shares_fine 0 0 x).
Proof. intros B. exact (shares_sort (S (length x)) x 0 0 ltac:(lia) ltac:(lia) B). Qed.

Lemma server_exts_sort f : forall x, (length x <= f)%nat -> is_bytes x -> (server_exts_loop f x = Panic <-> server_exts_panic x).
Proof.
  induction f as [|f IH]; intros x L B.
  - destruct x; [|cbn in L; lia]. cbn. split; [discriminate|]. intros X; inversion X; cbn in *; lia.
  - destruct x as [|t1 x]; [cbn; split; [discriminate|]; intros X; inversion X; cbn in *; lia|].
    destruct x as [|t2 [|l1 [|l2 body]]].
    1,2,3: cbn; split; [intros _; apply sep_cut; cbn; lia|reflexivity].
    assert (B1 : is_byte t1) by now inversion B. assert (Ba : is_bytes (t2 :: l1 :: l2 :: body)) by now inversion B.
    assert (B2 : is_byte t2) by now inversion Ba. assert (Bb : is_bytes (l1 :: l2 :: body)) by now inversion Ba.
    assert (B3 : is_byte l1) by now inversion Bb. assert (Bc : is_bytes (l2 :: body)) by now inversion Bb.
    assert (B4 : is_byte l2) by now inversion Bc. assert (Bd : is_bytes body) by now inversion Bc. clear Ba Bb Bc.
    cbn [server_exts_loop]. rewrite slice_in by (cbn; lia). cbn [Nat.sub skipn firstn]. rewrite bind_Ok. rewrite slice_in by (cbn; lia). cbn [Nat.sub skipn firstn]. rewrite bind_Ok.
    rewrite !n16_u16 by assumption. pose proof (n16_range _ _ B3 B4) as R. pose proof (n16_range _ _ B1 B2) as R0. set (size := Z.to_nat (n16 l1 l2)) in *.
    set (y := firstn size body). set (next := skipn size body). assert (Es : body = y ++ next) by (symmetry; apply firstn_skipn).
    assert (By : is_bytes y) by now apply is_bytes_firstn. assert (Bx : is_bytes next) by now apply is_bytes_skipn.
    assert (Lx : (length next <= f)%nat) by (unfold next; rewrite skipn_length; cbn in L; lia).
    pose proof (IH next Lx Bx) as In'. pose proof (IH body ltac:(cbn in L; lia) Bd) as Ib.
    assert (U : forall y' next', body = y' ++ next' -> zlen y' = n16 l1 l2 -> y' = y /\ next' = next /\ zlen y = n16 l1 l2).
    { intros y' next' X Y. assert (Ly : length y = length y') by (unfold y, zlen in *; rewrite firstn_length, X, app_length; lia).
      rewrite Es in X. symmetry in X. destruct (app_split _ _ _ _ X) as (X1 & X2); [lia|]. split; [exact X1|]. split; [exact X2|]. now rewrite <- X1. }
    assert (Full : zlen body < n16 l1 l2 \/ zlen y = n16 l1 l2) by (unfold y, zlen; rewrite firstn_length; lia).
    assert (Nil : zlen body < n16 l1 l2 -> next = []) by (intros X; unfold next; apply skipn_all2; unfold zlen in X; lia).
    assert (SB : slice (E:=tls_error) body 0 size = if zlen body <? n16 l1 l2 then Panic else Ok y).
    { unfold slice. cbn [Nat.leb andb]. destruct (Z.ltb_spec (zlen body) (n16 l1 l2)) as [X|X]; destruct (Nat.leb_spec size (length body)) as [Y|Y]; try (unfold zlen in X; lia); [reflexivity|].
      now rewrite Nat.sub_0_r. }
    clearbody y next.
    assert (Inv : server_exts_panic (t1 :: t2 :: l1 :: l2 :: body) ->
      (t1 = 0 /\ t2 = 51 /\ zlen body < n16 l1 l2) \/ (t1 = 0 /\ t2 = 51 /\ zlen y = n16 l1 l2 /\ shares_panic 0 0 y) \/ (t1 = 0 /\ t2 = 43 /\ (length body < 2)%nat) \/
      (t1 = 0 /\ t2 = 0 /\ server_exts_panic body) \/
      (zlen y = n16 l1 l2 /\ server_exts_panic next /\ (~ In (n16 t1 t2) [0; 43; 51] \/ (t1 = 0 /\ t2 = 43) \/ (t1 = 0 /\ t2 = 51 /\ shares_fine 0 0 y)))).
    { intros X. inversion X as [l X1 X2|a b r X1 X2|a b y' n' X1 X2 X3|a b r X1 X2|a b r X1 X2|a b c d y' n' X1 X2 X3 X4|a b y' n' X1 X2 X3 X4|a b y' n' X1 X2 X3 X4].
      - cbn in X1. lia.
      - subst. intuition congruence.
      - match goal with Q : y' ++ n' = body |- _ => symmetry in Q; destruct (U _ _ Q ltac:(congruence)) as (U1 & U2 & U3) end. subst y' n'. intuition congruence.
      - subst. intuition congruence.
      - subst. intuition congruence.
      - match goal with Q : y' ++ n' = body |- _ => symmetry in Q; destruct (U _ _ Q ltac:(congruence)) as (U1 & U2 & U3) end. subst y' n'. intuition congruence.
      - match goal with Q : y' ++ n' = body |- _ => symmetry in Q; destruct (U _ _ Q ltac:(congruence)) as (U1 & U2 & U3) end. subst y' n'. do 4 right. intuition congruence.
      - match goal with Q : y' ++ n' = body |- _ => symmetry in Q; destruct (U _ _ Q ltac:(congruence)) as (U1 & U2 & U3) end. subst y' n'. intuition congruence. }
    destruct (server_share_sort y By) as (KP & KF).
    clear L Lx IH B Bx By.
    assert (T0 : t1 = 0 -> n16 t1 t2 = t2) by (intros ->; unfold n16; lia).
    assert (T1 : forall v, 0 <= v < 256 -> n16 t1 t2 = v -> t1 = 0 /\ t2 = v) by (intros v V; unfold n16, is_byte in *; lia).
    unfold ext_type_new. destruct (Z.eqb_spec (n16 t1 t2) 0x00) as [E0|E0]; [|destruct (Z.eqb_spec (n16 t1 t2) 0x2b) as [E1|E1]; [|destruct (Z.eqb_spec (n16 t1 t2) 0x33) as [E2|E2]]].
    + destruct (T1 0 ltac:(lia) E0) as (-> & ->). rewrite Ib. split; [apply sep_in_name|]. intros X. apply Inv in X.
      destruct X as [X | [X | [X | [(_ & _ & X) | (_ & _ & [X | X])]]]]; try lia; [exact X|]. exfalso. apply X. rewrite E0. now left.
    + destruct (T1 43 ltac:(lia) E1) as (-> & ->). unfold versions_client_parse. destruct (Nat.ltb_spec (length body) 2) as [S|S].
      { rewrite slice_out by lia. split; [intros _; now apply sep_version|reflexivity]. }
      rewrite slice_in by lia. cbn [bind].
      assert (Back : server_exts_panic (0 :: 43 :: l1 :: l2 :: body) -> server_exts_panic next).
      { intros X. apply Inv in X. destruct X as [X | [X | [X | [X | (_ & X & _)]]]]; try lia. exact X. }
      destruct (server_exts_loop f next) as [r|e|] eqn:CE; cbn [bind].
      * split; [discriminate|]. intros X. apply Back, In' in X. discriminate.
      * split; [discriminate|]. intros X. apply Back, In' in X. discriminate.
      * split; [|reflexivity]. intros _. destruct Full as [S'|Ly]; [rewrite (Nil S') in CE; destruct f; discriminate CE|].
        rewrite Es. apply sep_after_version; [exact Ly|now rewrite <- Es|now apply In'].
    + destruct (T1 51 ltac:(lia) E2) as (-> & ->). rewrite SB. destruct (Z.ltb_spec (zlen body) (n16 l1 l2)) as [S|S]; cbn [bind].
      { split; [|reflexivity]. intros _. now apply sep_short. }
      assert (Ly : zlen y = n16 l1 l2) by lia. destruct (key_share_parse y true) as [ks|e|] eqn:KE; cbn [bind].
      * assert (Kf : shares_fine 0 0 y) by (apply KF; eauto).
        assert (Back : server_exts_panic (0 :: 51 :: l1 :: l2 :: body) -> server_exts_panic next).
        { intros X. apply Inv in X. destruct X as [X | [(_ & _ & _ & X) | [X | [X | (_ & X & _)]]]]; [lia| |lia|lia|exact X]. apply KP in X. discriminate. }
        destruct (server_exts_loop f next) as [r|e|] eqn:CE; cbn [bind].
        -- split; [discriminate|]. intros X. apply Back, In' in X. discriminate.
        -- split; [discriminate|]. intros X. apply Back, In' in X. discriminate.
        -- split; [|reflexivity]. intros _. rewrite Es. apply sep_after_share; [exact Ly|exact Kf|now apply In'].
      * split; [discriminate|]. intros X. apply Inv in X. destruct X as [X | [(_ & _ & _ & X) | [X | [X | (_ & _ & [X | [X | (_ & _ & X)]])]]]]; try lia.
        -- apply KP in X. discriminate.
        -- exfalso. apply X. rewrite E2. right; right; now left.
        -- apply KF in X. destruct X. discriminate.
      * split; [|reflexivity]. intros _. rewrite Es. apply sep_share; [exact Ly|now apply KP].
    + assert (No : ~ In (n16 t1 t2) [0; 43; 51]) by (cbn; lia). rewrite In'. split.
      * intros X. destruct Full as [S|Ly]; [rewrite (Nil S) in X; inversion X; cbn in *; lia|]. rewrite Es. now apply sep_after_other.
      * intros X. apply Inv in X. destruct X as [X | [X | [X | [X | (_ & X & _)]]]]; [exfalso; lia..|exact X].
Qed.

(* ---- the body ---- *)
Definition stail (buf random : list Z) (consumed : nat) (sid : option (list Z)) : outcome tls_error server_hello :=
  let! code := u16_at buf consumed in
  let! suite := suite_new code in
  let consumed := (consumed + 3)%nat in
  let! ext_len := u16_at buf consumed in
  let consumed := (consumed + 2)%nat in
  let! b := slice buf consumed (consumed + Z.to_nat ext_len) in
  let! exts := from_server_hello_exts b in
  if server_tls13 exts then Ok (ServerHello random sid suite exts) else Err ProtocolVersion.
Definition stail_panic (a b : Z) (rest : list Z) : Prop :=
  In (n16 a b) [0x1301; 0x1302; 0x1303; 0xff] /\ ((length rest < 3)%nat \/
    exists c e1 e2 r, rest = c :: e1 :: e2 :: r /\ (zlen r < n16 e1 e2 \/ exists exts r', r = exts ++ r' /\ zlen exts = n16 e1 e2 /\ server_exts_panic exts)).
Lemma suite_known x : In x [0x1301; 0x1302; 0x1303; 0xff] <-> exists s, suite_new x = Ok s.
Proof.
  unfold suite_new. cbn [In]. repeat match goal with |- context [?x =? ?y] => destruct (Z.eqb_spec x y) end; split; intros H; try (destruct H; discriminate); try lia; eauto.
Qed.
Lemma suite_err x : ~ In x [0x1301; 0x1302; 0x1303; 0xff] -> exists e, suite_new x = Err e.
Proof. unfold suite_new. cbn [In]. intros N. repeat match goal with |- context [?x =? ?y] => destruct (Z.eqb_spec x y) end; try (exfalso; apply N; lia); eauto. Qed.

Lemma stail_sort pre a b rest random sid : is_byte a -> is_byte b -> is_bytes rest ->
  (stail (pre ++ a :: b :: rest) random (length pre) sid = Panic <-> stail_panic a b rest).
Proof.
  intros Ba Bb Br. unfold stail, stail_panic. rewrite u16_in by assumption. rewrite bind_Ok.
  destruct (in_dec Z.eq_dec (n16 a b) [0x1301; 0x1302; 0x1303; 0xff]) as [K|K].
  2:{ destruct (suite_err _ K) as (e & ->). split; [discriminate|]. intros (X & _). contradiction. }
  destruct (proj1 (suite_known _) K) as (su & ->). rewrite bind_Ok.
  assert (Lb : length (pre ++ a :: b :: rest) = (length pre + 2 + length rest)%nat) by (rewrite app_length; cbn; lia).
  destruct rest as [|c [|e1 [|e2 r]]].
  1,2,3: rewrite u16_out by (rewrite Lb; cbn; lia); split; [intros _; split; [exact K|left; cbn; lia]|reflexivity].
  assert (By : is_bytes (e1 :: e2 :: r)) by now inversion Br. assert (Be1 : is_byte e1) by now inversion By.
  assert (Bz : is_bytes (e2 :: r)) by now inversion By. assert (Be2 : is_byte e2) by now inversion Bz. assert (Brr : is_bytes r) by now inversion Bz.
  assert (Eb : pre ++ a :: b :: c :: e1 :: e2 :: r = (pre ++ [a; b; c]) ++ e1 :: e2 :: r) by now rewrite <- app_assoc.
  assert (Lp : length (pre ++ [a; b; c]) = (length pre + 3)%nat) by (rewrite app_length; reflexivity).
  rewrite <- Lp, Eb, u16_in by assumption. rewrite bind_Ok. pose proof (n16_range _ _ Be1 Be2) as R2. set (m := n16 e1 e2) in *. set (pre2 := pre ++ [a; b; c]) in *.
  assert (SE : slice (E:=tls_error) (pre2 ++ e1 :: e2 :: r) (length pre2 + 2) (length pre2 + 2 + Z.to_nat m) = if zlen r <? m then Panic else Ok (firstn (Z.to_nat m) r)).
  { unfold slice. destruct (Nat.leb_spec (length pre2 + 2) (length pre2 + 2 + Z.to_nat m)); [|lia]. cbn [andb]. rewrite app_length. cbn [length].
    destruct (Z.ltb_spec (zlen r) m) as [X|X]; unfold zlen in X; destruct (Nat.leb_spec (length pre2 + 2 + Z.to_nat m) (length pre2 + S (S (length r)))); try lia; [reflexivity|].
    f_equal. f_equal; [lia|]. rewrite Nat.add_comm, <- skipn_skipn, skipn_app_eq by reflexivity. reflexivity. }
  rewrite SE. clear SE. destruct (Z.ltb_spec (zlen r) m) as [X|X]; cbn [bind].
  - split; [|reflexivity]. intros _. split; [exact K|]. right. exists c, e1, e2, r. split; [reflexivity|now left].
  - assert (LF : length (firstn (Z.to_nat m) r) = Z.to_nat m) by (rewrite firstn_length; unfold zlen in X; lia).
    unfold from_server_hello_exts. pose proof (server_exts_sort (length (firstn (Z.to_nat m) r)) (firstn (Z.to_nat m) r) (le_n _) ltac:(now apply is_bytes_firstn)) as XS.
    transitivity (server_exts_panic (firstn (Z.to_nat m) r)).
    + rewrite <- XS. destruct (server_exts_loop _ _); cbn [bind]; [destruct (server_tls13 _)|..]; split; congruence.
    + split.
      * intros Y. split; [exact K|]. right. exists c, e1, e2, r. split; [reflexivity|]. right. exists (firstn (Z.to_nat m) r), (skipn (Z.to_nat m) r).
        split; [symmetry; apply firstn_skipn|]. split; [unfold zlen; rewrite LF; fold m; lia|exact Y].
      * intros (_ & [Y | (c' & e1' & e2' & r' & Y1 & Y2)]); [cbn in Y; lia|]. injection Y1 as <- <- <- <-. fold m in Y2. destruct Y2 as [Y2 | (ex & q & Y3 & Y4 & Y5)]; [lia|].
        rewrite Y3, firstn_app_eq; [exact Y5|unfold zlen in Y4; lia].
Qed.

Lemma shead_eq random id a b rest : length random = 32%nat -> session_read id ->
  exists sid, server_hello_from_raw ([3; 3] ++ random ++ id ++ a :: b :: rest) = stail (([3; 3] ++ random ++ id) ++ a :: b :: rest) random (length ([3; 3] ++ random ++ id)) sid.
Proof.
  intros Lr S. set (buf := [3; 3] ++ random ++ id ++ a :: b :: rest).
  assert (Lb : length buf = (36 + length id + length rest)%nat) by (unfold buf; rewrite !app_length; cbn [length]; lia).
  replace (([3; 3] ++ random ++ id) ++ a :: b :: rest) with buf by (unfold buf; now rewrite <- !app_assoc).
  assert (Li : (1 <= length id)%nat) by (destruct S as [-> | (n & i & -> & _ & _)]; cbn; lia).
  unfold server_hello_from_raw. destruct (Nat.ltb_spec (length buf) 36); [lia|].
  change (u16_at buf 0) with (u16_at (E:=tls_error) (3 :: 3 :: random ++ id ++ a :: b :: rest) 0). rewrite u16_at_head by (unfold is_byte; lia). rewrite bind_Ok.
  change (negb (3 * 256 + 3 =? 771)) with false. cbv iota.
  assert (E1 : slice (E:=tls_error) buf 2 34 = Ok random).
  { rewrite slice_in by lia. f_equal. unfold buf. change (skipn 2 ([3; 3] ++ random ++ id ++ a :: b :: rest)) with (random ++ id ++ a :: b :: rest). apply firstn_app_eq. now rewrite Lr. }
  rewrite E1, bind_Ok.
  assert (E2 : forall n t, id = n :: t -> idx (E:=tls_error) buf 34 = Ok n).
  { intros n t ->. unfold idx, buf. rewrite app_assoc, nth_error_app2 by (rewrite app_length, Lr; cbn; lia). rewrite app_length, Lr. reflexivity. }
  assert (Lp : length ([3; 3] ++ random ++ id) = (34 + length id)%nat) by (rewrite !app_length, Lr; reflexivity). rewrite Lp.
  destruct S as [Ei | (n & i & Ei & Nn & Lid)]; rewrite (E2 _ _ Ei), bind_Ok.
  - change (negb (0 =? 0)) with false. cbv iota. rewrite bind_Ok. exists None. subst id. reflexivity.
  - destruct (Z.eqb_spec n 0); [contradiction|]. cbn [negb]. rewrite slice_in by (rewrite Lb, Ei; cbn [length]; lia). rewrite !bind_Ok. eexists. subst id. cbn [length]. rewrite Lid. reflexivity.
Qed.
(* the part before the suite *)
Lemma before_suite random n rest : length random = 32%nat -> (1 <= length rest)%nat -> (n <> 0 -> (length rest < 34)%nat) -> (n = 0 -> (length rest < 2)%nat) ->
  server_hello_from_raw ([3; 3] ++ random ++ n :: rest) = Panic.
Proof.
  intros Lr L L1 L0. unfold server_hello_from_raw. destruct (Nat.ltb_spec (length ([3; 3] ++ random ++ n :: rest)) 36) as [Q|Q]; [rewrite !app_length in Q; cbn in Q; lia|].
  change (u16_at ([3; 3] ++ random ++ n :: rest) 0) with (u16_at (E:=tls_error) (3 :: 3 :: random ++ n :: rest) 0). rewrite u16_at_head by (unfold is_byte; lia). rewrite bind_Ok.
  change (negb (3 * 256 + 3 =? 771)) with false. cbv iota. rewrite slice_in by (rewrite !app_length; cbn [length]; lia). rewrite bind_Ok.
  assert (E2 : idx (E:=tls_error) ([3; 3] ++ random ++ n :: rest) 34 = Ok n).
  { unfold idx. rewrite app_assoc, nth_error_app2 by (rewrite app_length, Lr; cbn; lia). rewrite app_length, Lr. reflexivity. }
  rewrite E2, bind_Ok. destruct (Z.eqb_spec n 0) as [N|N]; cbn [negb].
  - rewrite bind_Ok, u16_out by (specialize (L0 N); rewrite !app_length; cbn [length]; lia). reflexivity.
  - specialize (L1 N). destruct (Nat.ltb_spec (length rest) 32) as [S|S]; [rewrite slice_out by (rewrite !app_length; cbn [length]; lia); reflexivity|].
    rewrite slice_in by (rewrite !app_length; cbn [length]; lia). rewrite !bind_Ok, u16_out by (rewrite !app_length; cbn [length]; lia). reflexivity.
Qed.

Theorem server_hello_sort body : is_bytes body -> (server_hello_from_raw body = Panic <-> server_hello_panic body).
Proof.
  intros B. split.
  - intros P. destruct (Nat.ltb_spec (length body) 36) as [L|L].
    { unfold server_hello_from_raw in P. destruct (Nat.ltb_spec (length body) 36); [discriminate P|lia]. }
    destruct body as [|v1 [|v2 t]]; [cbn in L; lia..|]. cbn [length] in L.
    assert (B1 : is_byte v1) by now inversion B. assert (Ba : is_bytes (v2 :: t)) by now inversion B. assert (B2 : is_byte v2) by now inversion Ba. assert (Bt : is_bytes t) by now inversion Ba.
    assert (V : v1 = 3 /\ v2 = 3).
    { unfold server_hello_from_raw in P. destruct (Nat.ltb_spec (length (v1 :: v2 :: t)) 36) as [X|X]; [discriminate P|]. rewrite u16_at_head, bind_Ok in P by assumption.
      destruct (Z.eqb_spec (v1 * 256 + v2) 771); [unfold is_byte in *; lia|discriminate P]. }
    destruct V as (-> & ->). set (random := firstn 32 t). assert (Lr : length random = 32%nat) by (unfold random; rewrite firstn_length; lia).
    destruct (skipn 32 t) as [|n rest] eqn:Es; [apply (f_equal (@length Z)) in Es; rewrite skipn_length in Es; cbn in Es; lia|].
    assert (Et : t = random ++ n :: rest) by (rewrite <- (firstn_skipn 32 t), Es; reflexivity).
    assert (Lt : length rest = (length t - 33)%nat) by (apply (f_equal (@length Z)) in Es; rewrite skipn_length in Es; cbn in Es; lia).
    assert (Bn : is_bytes (n :: rest)) by (rewrite <- Es; now apply is_bytes_skipn). assert (Br : is_bytes rest) by now inversion Bn.
    clear Es. clearbody random.
    assert (G : forall id a b r, n :: rest = id ++ a :: b :: r -> session_read id -> server_hello_panic (3 :: 3 :: t)).
    { intros id a b r E Si. rewrite E in Et, Bn. apply is_bytes_app in Bn. destruct Bn as (_ & Bn). assert (Ca : is_byte a) by now inversion Bn. assert (Bb : is_bytes (b :: r)) by now inversion Bn.
      assert (Cb : is_byte b) by now inversion Bb. assert (Bc : is_bytes r) by now inversion Bb. destruct (shead_eq random id a b r Lr Si) as (sid & E'). subst t.
      change (server_hello_from_raw ([3; 3] ++ random ++ id ++ a :: b :: r) = Panic) in P. rewrite E' in P. apply stail_sort in P; [|assumption..].
      destruct P as (Ks & [X | (c & e1 & e2 & r2 & -> & [X | (ex & r' & -> & Z1 & Z2)])]).
      - now apply (svp_suite random id).
      - now apply (svp_short random id a b c e1 e2 r2).
      - now apply (svp_extensions random id a b c e1 e2 ex r'). }
    destruct (Z.eq_dec n 0) as [->|Nn].
    + destruct rest as [|a [|b rest]]; [cbn in Lt; lia|subst t; now apply svp_end|]. apply (G [0] a b rest eq_refl). now left.
    + destruct (Nat.ltb_spec (length rest) 34) as [S|S]; [subst t; apply svp_session; [exact Lr|exact Nn|lia]|].
      destruct (skipn 32 rest) as [|a [|b rest2]] eqn:E2; [apply (f_equal (@length Z)) in E2; rewrite skipn_length in E2; cbn in E2; lia..|].
      apply (G (n :: firstn 32 rest) a b rest2); [cbn [app]; f_equal; rewrite <- E2; symmetry; apply firstn_skipn|].
      right. exists n, (firstn 32 rest). split; [reflexivity|]. split; [exact Nn|rewrite firstn_length; lia].
  - intros P. assert (Sp : forall random id a b rest, body = [3; 3] ++ random ++ id ++ a :: b :: rest -> is_byte a /\ is_byte b /\ is_bytes rest).
    { intros random id a b rest ->. apply is_bytes_app in B. destruct B as (_ & B). apply is_bytes_app in B. destruct B as (_ & B). apply is_bytes_app in B. destruct B as (_ & B).
      assert (Ca : is_byte a) by now inversion B. assert (Bb : is_bytes (b :: rest)) by now inversion B. split; [exact Ca|]. inversion Bb; now split. }
    destruct P as [random n rest Lr Nn L|random x Lr|random id a b rest Lr Si K L|random id a b c e1 e2 r Lr Si K X|random id a b c e1 e2 ex r' Lr Si K X Y].
    + apply before_suite; [exact Lr|lia|lia|contradiction].
    + apply (before_suite random 0 [x]); [exact Lr|cbn; lia|congruence|cbn; lia].
    + destruct (Sp _ _ _ _ _ eq_refl) as (Ca & Cb & Cr). destruct (shead_eq random id a b rest Lr Si) as (sid & E). rewrite E. apply stail_sort; [assumption..|]. split; [exact K|now left].
    + destruct (Sp random id a b ([c; e1; e2] ++ r) eq_refl) as (Ca & Cb & Cr). destruct (shead_eq random id a b ([c; e1; e2] ++ r) Lr Si) as (sid & E).
      change ([3; 3] ++ random ++ id ++ [a; b; c; e1; e2] ++ r) with ([3; 3] ++ random ++ id ++ a :: b :: [c; e1; e2] ++ r). rewrite E. apply stail_sort; [assumption..|].
      split; [exact K|]. right. exists c, e1, e2, r. split; [reflexivity|now left].
    + destruct (Sp random id a b ([c; e1; e2] ++ ex ++ r') eq_refl) as (Ca & Cb & Cr). destruct (shead_eq random id a b ([c; e1; e2] ++ ex ++ r') Lr Si) as (sid & E).
      change ([3; 3] ++ random ++ id ++ [a; b; c; e1; e2] ++ ex ++ r') with ([3; 3] ++ random ++ id ++ a :: b :: [c; e1; e2] ++ ex ++ r'). rewrite E. apply stail_sort; [assumption..|].
      split; [exact K|]. right. exists c, e1, e2, (ex ++ r'). split; [reflexivity|]. right. exists ex, r'. now split.
Qed.
