(* The chord-and-tangent law on y^2 = x^3 + a2 x^2 + a4 x + a6 over any field
   of characteristic other than 2 is a commutative group law.  Nothing here
   refers to the code. *)
From Coq Require Import Ring Field Setoid.

Section Group.

Variable F : Type.
Variables (f0 f1 : F) (fadd fmul fsub : F -> F -> F) (fopp : F -> F) (fdiv : F -> F -> F) (finv : F -> F).
Hypothesis Fth : field_theory f0 f1 fadd fmul fsub fopp fdiv finv (@eq F).
Hypothesis Fdec : forall x y : F, {x = y} + {x <> y}.

Notation "0" := f0. Notation "1" := f1.
Infix "+" := fadd. Infix "*" := fmul. Infix "-" := fsub. Notation "- x" := (fopp x). Infix "/" := fdiv.

Hypothesis two : 1 + 1 <> 0.

Add Field FF : Fth.

Variables (a2 a4 a6 : F).

Definition cubic x := x * x * x + a2 * x * x + a4 * x + a6.
Definition cubic' x := (1 + 1 + 1) * x * x + (1 + 1) * a2 * x + a4.

Hypothesis nonsing : forall x, cubic x = 0 -> cubic' x <> 0.

Inductive pt := O | A (x y : F).

Definition on (P : pt) : Prop := match P with O => True | A x y => y * y = cubic x end.
Definition opp (P : pt) : pt := match P with O => O | A x y => A x (- y) end.

Definition via (x1 y1 x2 l : F) : pt :=
  let x3 := l * l - a2 - x1 - x2 in A x3 (l * (x1 - x3) - y1).

Definition add (P Q : pt) : pt :=
  match P, Q with
  | O, _ => Q
  | _, O => P
  | A x1 y1, A x2 y2 =>
    if Fdec x1 x2 then
      if Fdec y1 (- y2) then O else via x1 y1 x2 (cubic' x1 / ((1 + 1) * y1))
    else via x1 y1 x2 ((y2 - y1) / (x2 - x1))
  end.

(* ---------- field facts ---------- *)

Lemma sub0 x y : x - y = 0 -> x = y.
Proof. intros H. replace x with ((x - y) + y) by ring. rewrite H. ring. Qed.

Lemma nsub x y : x <> y -> x - y <> 0.
Proof. intros H E. apply H, sub0, E. Qed.

Lemma integral x y : x * y = 0 -> x = 0 \/ y = 0.
Proof.
  intros H. destruct (Fdec x 0) as [|n]; [left; assumption|right].
  replace y with ((x * y) / x) by (field; assumption). rewrite H. field. assumption.
Qed.

Lemma mul_nz x y : x <> 0 -> y <> 0 -> x * y <> 0.
Proof. intros Hx Hy H. destruct (integral _ _ H); contradiction. Qed.

Lemma double0 x : (1 + 1) * x = 0 -> x = 0.
Proof. intros H. destruct (integral _ _ H); [contradiction|assumption]. Qed.

Lemma self_opp x : x = - x -> x = 0.
Proof. intros H. apply double0. replace ((1 + 1) * x) with (x - - x) by ring. rewrite <- H. ring. Qed.

Lemma sq_eq x y : x * x = y * y -> x = y \/ x = - y.
Proof.
  intros H. destruct (integral (x - y) (x + y)) as [E|E].
  - replace ((x - y) * (x + y)) with (x * x - y * y) by ring. rewrite H. ring.
  - left. apply sub0, E.
  - right. apply sub0. rewrite <- E. ring.
Qed.

Lemma opp_opp x : - - x = x. Proof. ring. Qed.

Ltac nz := repeat split; first [assumption|apply nsub; congruence].

(* ---------- lines ---------- *)

(* y = l x + nu meets the curve in x1, x2, x4, with multiplicity *)
Definition line (l nu x1 x2 x4 : F) : Prop :=
  a2 = l * l - (x1 + x2 + x4) /\
  a4 = (1 + 1) * l * nu + x1 * x2 + x1 * x4 + x2 * x4 /\
  a6 = nu * nu - x1 * x2 * x4.

Lemma line_swap l nu x1 x2 x4 : line l nu x1 x2 x4 -> line l nu x2 x1 x4.
Proof. intros (E2 & E4 & E6). repeat split; [rewrite E2|rewrite E4|rewrite E6]; ring. Qed.

Lemma line_rot l nu x1 x2 x4 : line l nu x1 x2 x4 -> line l nu x2 x4 x1.
Proof. intros (E2 & E4 & E6). repeat split; [rewrite E2|rewrite E4|rewrite E6]; ring. Qed.

Lemma line_opp l nu x1 x2 x4 : line l nu x1 x2 x4 -> line (- l) (- nu) x1 x2 x4.
Proof. intros (E2 & E4 & E6). repeat split; [rewrite E2|rewrite E4|rewrite E6]; ring. Qed.

Lemma line_cubic l nu x1 x2 x4 x : line l nu x1 x2 x4 ->
  cubic x = (x - x1) * (x - x2) * (x - x4) + (l * x + nu) * (l * x + nu).
Proof. intros (E2 & E4 & E6). unfold cubic. rewrite E2, E4, E6. ring. Qed.

Lemma line_cubic' l nu x1 x2 x4 x : line l nu x1 x2 x4 ->
  cubic' x = (x - x1) * (x - x2) + (x - x2) * (x - x4) + (x - x1) * (x - x4) + (1 + 1) * l * (l * x + nu).
Proof. intros (E2 & E4 & E6). unfold cubic'. rewrite E2, E4. ring. Qed.

(* two affine points that are not opposite lie on a line, and the line gives
   their sum *)
Lemma add_line x1 y1 x2 y2 : on (A x1 y1) -> on (A x2 y2) -> ~ (x1 = x2 /\ y1 = - y2) ->
  exists l nu x4, line l nu x1 x2 x4 /\ y1 = l * x1 + nu /\ y2 = l * x2 + nu /\
    add (A x1 y1) (A x2 y2) = A x4 (- (l * x4 + nu)).
Proof.
  intros H1 H2 Hn. cbn in H1, H2. cbn [add].
  destruct (Fdec x1 x2) as [Ex|Nx].
  - destruct (Fdec y1 (- y2)) as [Ey|Ny]; [tauto|]. subst x2.
    assert (E : y1 = y2) by (destruct (sq_eq y1 y2); [congruence|assumption|contradiction]). subst y2.
    assert (Hy : y1 <> 0) by (intros ->; apply Ny; ring).
    set (l := cubic' x1 / ((1 + 1) * y1)).
    assert (Hl : (1 + 1) * l * y1 = cubic' x1) by (unfold l; field; split; assumption).
    exists l, (y1 - l * x1), (l * l - a2 - x1 - x1).
    split; [|split; [ring|split; [ring|]]].
    + repeat split.
      * ring.
      * transitivity (cubic' x1 - (1 + 1 + 1) * x1 * x1 - (1 + 1) * a2 * x1); [unfold cubic'; ring|].
        rewrite <- Hl. ring.
      * transitivity (y1 * y1 - x1 * x1 * x1 - a2 * x1 * x1 - (cubic' x1 - (1 + 1 + 1) * x1 * x1 - (1 + 1) * a2 * x1) * x1);
          [rewrite H1; unfold cubic, cubic'; ring|].
        rewrite <- Hl. ring.
    + unfold via. f_equal. ring.
  - assert (Hx : x2 - x1 <> 0) by (apply nsub; congruence).
    set (l := (y2 - y1) / (x2 - x1)).
    assert (Hl : l * (x2 - x1) = y2 - y1) by (unfold l; field; assumption).
    assert (Hy2 : y2 = l * (x2 - x1) + y1) by (rewrite Hl; ring).
    (* a4 and a6 from the two curve equations *)
    assert (H4 : a4 = (1 + 1) * l * (y1 - l * x1) + x1 * x2 + x1 * (l * l - a2 - x1 - x2) + x2 * (l * l - a2 - x1 - x2)).
    { assert (Hd : (x2 - x1) * (a4 - ((1 + 1) * l * (y1 - l * x1) + x1 * x2 + x1 * (l * l - a2 - x1 - x2) + x2 * (l * l - a2 - x1 - x2))) = 0).
      { transitivity ((cubic x2 - cubic x1) - (x2 * x2 * x2 + a2 * x2 * x2 - x1 * x1 * x1 - a2 * x1 * x1)
           - (x2 - x1) * ((1 + 1) * l * (y1 - l * x1) + x1 * x2 + x1 * (l * l - a2 - x1 - x2) + x2 * (l * l - a2 - x1 - x2)));
          [unfold cubic; ring|].
        rewrite <- H1, <- H2, Hy2. ring. }
      destruct (integral _ _ Hd) as [E|E]; [contradiction|apply sub0, E]. }
    exists l, (y1 - l * x1), (l * l - a2 - x1 - x2).
    split; [|split; [ring|split; [rewrite Hy2; ring|]]].
    + repeat split; [ring|exact H4|].
      transitivity (y1 * y1 - x1 * x1 * x1 - a2 * x1 * x1 - a4 * x1); [rewrite H1; unfold cubic; ring|].
      rewrite H4. ring.
    + unfold via. f_equal. ring.
Qed.

(* conversely the line determines the sum *)
Lemma line_add l nu x1 x2 x4 : line l nu x1 x2 x4 ->
  ~ (x1 = x2 /\ l * x1 + nu = - (l * x2 + nu)) ->
  add (A x1 (l * x1 + nu)) (A x2 (l * x2 + nu)) = A x4 (- (l * x4 + nu)).
Proof.
  intros HL Hn. cbn [add].
  assert (HV : via x1 (l * x1 + nu) x2 l = A x4 (- (l * x4 + nu))).
  { unfold via. destruct HL as (E2 & _ & _).
    assert (E : l * l - a2 - x1 - x2 = x4) by (rewrite E2; ring).
    rewrite E. f_equal. ring. }
  destruct (Fdec x1 x2) as [Ex|Nx].
  - destruct (Fdec _ _) as [Ey|Ny]; [tauto|]. subst x2.
    assert (Hy : l * x1 + nu <> 0) by (intros E; apply Ny; rewrite E; ring).
    rewrite <- HV. f_equal. rewrite (line_cubic' _ _ _ _ _ x1 HL).
    field. split; assumption.
  - rewrite <- HV. f_equal. field. apply nsub. congruence.
Qed.

Lemma line_on l nu x1 x2 x4 : line l nu x1 x2 x4 -> on (A x4 (l * x4 + nu)).
Proof. intros HL. cbn. rewrite (line_cubic _ _ _ _ _ x4 HL). ring. Qed.

Lemma on_opp P : on P -> on (opp P).
Proof. destruct P as [|x y]; cbn; [auto|]. intros <-. ring. Qed.

Lemma opp_inv P : opp (opp P) = P.
Proof. destruct P; cbn; [reflexivity|]. f_equal. ring. Qed.

Lemma add_O_r P : add P O = P. Proof. destruct P; reflexivity. Qed.
Lemma add_O_l P : add O P = P. Proof. reflexivity. Qed.

Lemma add_opp_r P : add P (opp P) = O.
Proof.
  destruct P as [|x y]; cbn; [reflexivity|]. destruct (Fdec x x); [|contradiction].
  destruct (Fdec y (- - y)) as [|n]; [reflexivity|]. exfalso. apply n. ring.
Qed.

Lemma add_comm P Q : on P -> on Q -> add P Q = add Q P.
Proof.
  destruct P as [|x1 y1], Q as [|x2 y2]; try reflexivity. intros H1 H2.
  destruct (Fdec x1 x2) as [Ex|Nx].
  - destruct (Fdec y1 (- y2)) as [Ey|Ny].
    + subst. cbn [add]. destruct (Fdec x2 x2); [|contradiction].
      destruct (Fdec (- y2) (- y2)); [|contradiction]. destruct (Fdec y2 (- - y2)) as [|n]; [reflexivity|].
      exfalso; apply n; ring.
    + subst. cbn in H1, H2. assert (E : y1 = y2) by (destruct (sq_eq y1 y2); [congruence|assumption|contradiction]).
      subst. reflexivity.
  - destruct (add_line x1 y1 x2 y2 H1 H2) as (l & nu & x4 & HL & -> & -> & ->); [tauto|].
    symmetry. apply (line_add l nu x2 x1 x4); [apply line_swap, HL|].
    intros [E _]. congruence.
Qed.

Lemma add_on P Q : on P -> on Q -> on (add P Q).
Proof.
  destruct P as [|x1 y1], Q as [|x2 y2]; auto. intros H1 H2.
  destruct (Fdec x1 x2) as [Ex|Nx]; [destruct (Fdec y1 (- y2)) as [Ey|Ny]|].
  - subst. cbn [add]. destruct (Fdec x2 x2); [|contradiction].
    destruct (Fdec (- y2) (- y2)); [exact I|contradiction].
  - destruct (add_line x1 y1 x2 y2 H1 H2) as (l & nu & x4 & HL & _ & _ & ->); [tauto|].
    apply (on_opp (A x4 (l * x4 + nu))). eapply line_on; eassumption.
  - destruct (add_line x1 y1 x2 y2 H1 H2) as (l & nu & x4 & HL & _ & _ & ->); [tauto|].
    apply (on_opp (A x4 (l * x4 + nu))). eapply line_on; eassumption.
Qed.

Lemma opp_add P Q : on P -> on Q -> opp (add P Q) = add (opp P) (opp Q).
Proof.
  destruct P as [|x1 y1], Q as [|x2 y2]; try reflexivity. intros H1 H2.
  destruct (Fdec x1 x2) as [Ex|Nx]; [destruct (Fdec y1 (- y2)) as [Ey|Ny]|].
  - subst. cbn [add opp]. destruct (Fdec x2 x2); [|contradiction].
    destruct (Fdec (- y2) (- y2)); [|contradiction].
    destruct (Fdec (- - y2) (- - y2)); [reflexivity|contradiction].
  - destruct (add_line x1 y1 x2 y2 H1 H2) as (l & nu & x4 & HL & E1 & E2 & ->); [tauto|].
    cbn [opp]. rewrite opp_opp.
    replace (- y1) with (- l * x1 + - nu) by (rewrite E1; ring).
    replace (- y2) with (- l * x2 + - nu) by (rewrite E2; ring).
    rewrite (line_add (- l) (- nu) x1 x2 x4).
    + f_equal. ring.
    + apply line_opp, HL.
    + intros [_ E]. apply Ny. rewrite E1, E2. replace (l * x1 + nu) with (- (- l * x1 + - nu)) by ring.
      rewrite E. ring.
  - destruct (add_line x1 y1 x2 y2 H1 H2) as (l & nu & x4 & HL & E1 & E2 & ->); [tauto|].
    cbn [opp]. rewrite opp_opp.
    replace (- y1) with (- l * x1 + - nu) by (rewrite E1; ring).
    replace (- y2) with (- l * x2 + - nu) by (rewrite E2; ring).
    rewrite (line_add (- l) (- nu) x1 x2 x4).
    + f_equal. ring.
    + apply line_opp, HL.
    + tauto.
Qed.

(* ---------- cancellation ---------- *)

Lemma pt_dec (P Q : pt) : {P = Q} + {P <> Q}.
Proof.
  destruct P as [|x1 y1], Q as [|x2 y2]; try (right; discriminate); [left; reflexivity|].
  destruct (Fdec x1 x2) as [->|]; [|right; congruence].
  destruct (Fdec y1 y2) as [->|]; [left; reflexivity|right; congruence].
Qed.

Lemma cancel P Q : on P -> on Q -> add (add P Q) (opp Q) = P.
Proof.
  intros H1 H2. destruct P as [|x1 y1]; [apply add_opp_r|].
  destruct Q as [|x2 y2]; [reflexivity|].
  destruct (pt_dec (A x1 y1) (opp (A x2 y2))) as [E|N].
  - rewrite E at 1. rewrite <- (opp_inv (A x2 y2)) at 2. rewrite add_opp_r. cbn [add]. congruence.
  - assert (N' : ~ (x1 = x2 /\ y1 = - y2)) by (intros [-> ->]; apply N; reflexivity).
    destruct (add_line x1 y1 x2 y2 H1 H2 N') as (l & nu & x4 & HL & E1 & E2 & ->).
    cbn [opp].
    replace (- (l * x4 + nu)) with (- l * x4 + - nu) by ring.
    replace (- y2) with (- l * x2 + - nu) by (rewrite E2; ring).
    rewrite (line_add (- l) (- nu) x4 x2 x1).
    + f_equal. rewrite E1. ring.
    + apply line_opp. apply line_swap, line_rot, HL.
    + intros [Ex Ey]. subst x4.
      assert (Hy : l * x2 + nu = 0).
      { apply self_opp. replace (- (l * x2 + nu)) with (- l * x2 + - nu) by ring. rewrite Ey. ring. }
      apply (nonsing x2).
      * rewrite <- H2, E2, Hy. ring.
      * rewrite (line_cubic' _ _ _ _ _ x2 HL), Hy. ring.
Qed.

Lemma cancel_l P Q : on P -> on Q -> add (opp P) (add P Q) = Q.
Proof.
  intros H1 H2. rewrite add_comm; [|apply on_opp, H1|apply add_on; assumption].
  rewrite (add_comm P Q) by assumption. apply cancel; assumption.
Qed.

Lemma add_cancel P Q R : on P -> on Q -> on R -> add P R = add Q R -> P = Q.
Proof. intros HP HQ HR E. rewrite <- (cancel P R), E by assumption. apply cancel; assumption. Qed.

Lemma add_O P Q : on P -> on Q -> add P Q = O -> P = opp Q.
Proof.
  intros HP HQ E. rewrite <- (cancel P Q) by assumption. rewrite E. reflexivity.
Qed.

Lemma same_x x y y' : on (A x y) -> on (A x y') -> A x y = A x y' \/ A x y = opp (A x y').
Proof. cbn. intros H1 H2. destruct (sq_eq y y') as [->| ->]; [congruence|left|right]; reflexivity. Qed.

(* ---------- associativity: the generic case ---------- *)

Lemma add_chord x1 y1 x2 y2 : x1 <> x2 -> add (A x1 y1) (A x2 y2) = via x1 y1 x2 ((y2 - y1) / (x2 - x1)).
Proof. intros H. cbn [add]. destruct (Fdec x1 x2); [contradiction|reflexivity]. Qed.

Lemma add_tangent x y : y <> 0 -> add (A x y) (A x y) = via x y x (cubic' x / ((1 + 1) * y)).
Proof.
  intros H. cbn [add]. destruct (Fdec x x); [|contradiction].
  destruct (Fdec y (- y)) as [E|]; [|reflexivity]. exfalso. apply H, self_opp, E.
Qed.

(* A and B on a line (chord or tangent), C anywhere, the other three sums by chords *)
Lemma assoc_generic l nu x1 x2 x4 x3 w xF yF :
  line l nu x1 x2 x4 -> on (A x3 (w + (l * x3 + nu))) ->
  x3 <> x2 -> x3 <> x4 ->
  add (A x2 (l * x2 + nu)) (A x3 (w + (l * x3 + nu))) = A xF yF -> xF <> x1 -> w <> 0 ->
  add (A x4 (- (l * x4 + nu))) (A x3 (w + (l * x3 + nu))) = add (A x1 (l * x1 + nu)) (A xF yF).
Proof.
  intros HL HC N32 N34 HF NF Wn. cbn in HC. rewrite (line_cubic _ _ _ _ _ x3 HL) in HC.
  assert (Hw : w * w = (x3 - x1) * (x3 - x2) * (x3 - x4) - (1 + 1) * w * (l * x3 + nu)).
  { transitivity ((w + (l * x3 + nu)) * (w + (l * x3 + nu)) - (1 + 1) * w * (l * x3 + nu) - (l * x3 + nu) * (l * x3 + nu)); [ring|].
    rewrite HC. ring. }
  clear HC.
  assert (D32 : x3 - x2 <> 0) by (apply nsub, N32).
  assert (D34 : x3 - x4 <> 0) by (apply nsub, N34).
  destruct HL as (E2 & _ & _).
  rewrite add_chord in HF by congruence. rewrite add_chord by congruence. rewrite add_chord by congruence.
  unfold via in *. injection HF as HxF HyF.
  set (s := w / (x3 - x2)).
  assert (Es : w = s * (x3 - x2)) by (unfold s; field; assumption).
  clearbody s. subst w.
  assert (EF : xF = s * s + (1 + 1) * l * s + x1 + x4 - x3).
  { rewrite <- HxF, E2. field. nz. }
  assert (Hs : s * s * (x3 - x2) = (x3 - x1) * (x3 - x4) - (1 + 1) * s * (l * x3 + nu)).
  { apply sub0. destruct (integral (x3 - x2) (s * s * (x3 - x2) - ((x3 - x1) * (x3 - x4) - (1 + 1) * s * (l * x3 + nu)))) as [E|E]; [|contradiction|exact E].
    match goal with |- ?g = 0 => transitivity (s * (x3 - x2) * (s * (x3 - x2)) - ((x3 - x1) * (x3 - x2) * (x3 - x4) - (1 + 1) * (s * (x3 - x2)) * (l * x3 + nu))); [ring|] end.
    rewrite Hw. ring. }
  assert (DF : xF - x1 <> 0) by (apply nsub, NF).
  assert (Sn : s <> 0) by (intros E; apply Wn; rewrite E; ring).
  assert (En : nu = ((x3 - x1) * (x3 - x4) - s * s * (x3 - x2)) / ((1 + 1) * s) - l * x3).
  { apply sub0. transitivity ((s * s * (x3 - x2) - ((x3 - x1) * (x3 - x4) - (1 + 1) * s * (l * x3 + nu))) / ((1 + 1) * s)); [field; split; assumption|].
    rewrite Hs. field. split; assumption. }
  assert (EyF : yF = (l + s) * (x2 - xF) - (l * x2 + nu)).
  { rewrite <- HyF, HxF. f_equal. f_equal. field. apply nsub; congruence. }
  rewrite EyF. rewrite EF in *. clear HxF HyF EyF EF Hs Hw. rewrite En. clear En. rewrite E2. clear E2.
  f_equal; field; nz.
Qed.

(* doubling twice *)
Lemma assoc_double l nu x1 x4 xF yF :
  line l nu x1 x1 x4 -> x1 <> x4 -> l * x4 + nu <> 0 ->
  add (A x1 (l * x1 + nu)) (A x4 (- (l * x4 + nu))) = A xF yF -> xF <> x1 ->
  add (A x4 (- (l * x4 + nu))) (A x4 (- (l * x4 + nu))) = add (A x1 (l * x1 + nu)) (A xF yF).
Proof.
  intros HL N14 Y4 HF NF.
  assert (Y4' : - (l * x4 + nu) <> 0) by (intros E; apply Y4; rewrite <- (opp_opp (l * x4 + nu)), E; ring).
  rewrite add_tangent by assumption. rewrite (line_cubic' _ _ _ _ _ x4 HL).
  destruct HL as (E2 & _ & _).
  rewrite add_chord in HF by congruence. rewrite add_chord by congruence.
  unfold via in *. injection HF as HxF HyF.
  set (s := (- (l * x4 + nu) - (l * x1 + nu)) / (x4 - x1)) in *.
  assert (D : x4 - x1 <> 0) by (apply nsub; congruence).
  assert (Es : nu = (- (s * (x4 - x1)) - l * x4 - l * x1) / (1 + 1)) by (unfold s; field; split; assumption).
  clearbody s.
  assert (EF : xF = s * s - l * l + x1) by (rewrite <- HxF, E2; ring).
  assert (EyF : yF = s * (x1 - xF) - (l * x1 + nu)) by (rewrite <- HyF, HxF; reflexivity).
  clear HxF HyF.
  assert (DF : xF - x1 <> 0) by (apply nsub, NF).
  rewrite EyF. rewrite EF in *. rewrite Es in *. rewrite E2. clear EyF EF E2 Es NF.
  assert (Y5 : - (l * x4 * (1 + 1) + (- (s * (x4 - x1)) - l * x4 - l * x1)) <> 0).
  { intros E. apply Y4. transitivity (- - (l * x4 * (1 + 1) + (- (s * (x4 - x1)) - l * x4 - l * x1)) / (1 + 1)); [field; assumption|].
    rewrite E. field. assumption. }
  f_equal; field; nz.
Qed.

(* ---------- associativity ---------- *)

Definition assoc3 (P Q R : pt) : Prop := add (add P Q) R = add P (add Q R).

Lemma assoc3_sym P Q R : on P -> on Q -> on R -> assoc3 R Q P -> assoc3 P Q R.
Proof.
  unfold assoc3. intros HP HQ HR E.
  rewrite (add_comm (add P Q) R) by (try apply add_on; assumption).
  rewrite (add_comm P Q) by assumption. rewrite <- E.
  rewrite (add_comm _ P) by (try apply add_on; assumption).
  rewrite (add_comm R Q) by assumption. reflexivity.
Qed.

Lemma assoc3_PQP P Q : on P -> on Q -> assoc3 P Q P.
Proof.
  intros HP HQ. unfold assoc3. rewrite (add_comm Q P) by assumption.
  apply add_comm; [apply add_on|]; assumption.
Qed.

(* the sum of the first two, or of all three, is O *)
Lemma assoc3_opp P R : on P -> on R -> assoc3 P (opp P) R.
Proof.
  intros HP HR. unfold assoc3. rewrite add_opp_r. cbn [add].
  pose proof (cancel_l (opp P) R (on_opp _ HP) HR) as E. rewrite opp_inv in E. symmetry; exact E.
Qed.

Lemma assoc3_zero P Q R : on P -> on Q -> on R -> add P Q = opp R -> assoc3 P Q R.
Proof.
  intros HP HQ HR E. unfold assoc3. rewrite E.
  assert (ER : R = opp (add P Q)) by (rewrite E, opp_inv; reflexivity).
  rewrite (add_comm (opp R) R), add_opp_r by (try apply on_opp; assumption).
  rewrite ER, opp_add by assumption.
  rewrite (add_comm (opp P) (opp Q)) by (apply on_opp; assumption).
  pose proof (cancel_l (opp Q) (opp P) (on_opp _ HQ) (on_opp _ HP)) as C. rewrite opp_inv in C.
  rewrite C, add_opp_r. reflexivity.
Qed.

Lemma assoc3_chords P Q R : on P -> on Q -> on R ->
  P <> O -> Q <> O -> R <> O -> P <> R ->
  P <> opp Q -> Q <> R -> Q <> opp R ->
  add P Q <> R -> add P Q <> opp R -> P <> add Q R -> P <> opp (add Q R) -> assoc3 P Q R.
Proof.
  intros HP HQ HR NP NQ NR NPR NPQ NQR NQR' ND ND' NF NF'.
  destruct P as [|x1 y1]; [contradiction|]. destruct Q as [|x2 y2]; [contradiction|].
  destruct R as [|x3 y3]; [contradiction|].
  assert (N12 : ~ (x1 = x2 /\ y1 = - y2)) by (intros [-> ->]; apply NPQ; reflexivity).
  assert (NX32 : x3 <> x2).
  { intros ->. destruct (same_x x2 y2 y3 HQ HR); contradiction. }
  unfold assoc3. pose proof (add_on _ _ HQ HR) as HF.
  destruct (add (A x2 y2) (A x3 y3)) as [|xF yF] eqn:EF.
  { apply add_O in EF; [contradiction|assumption|assumption]. }
  assert (NXF : xF <> x1).
  { intros ->. destruct (same_x x1 y1 yF HP HF); [apply NF; assumption|apply NF'; assumption]. }
  pose proof (add_on _ _ HP HQ) as HD.
  destruct (add_line x1 y1 x2 y2 HP HQ N12) as (l & nu & x4 & HL & E1 & E2 & ED).
  rewrite ED in *.
  assert (NX34 : x3 <> x4).
  { intros ->. destruct (same_x _ _ _ HD HR); contradiction. }
  set (w := y3 - (l * x3 + nu)).
  assert (Ey3 : y3 = w + (l * x3 + nu)) by (unfold w; ring).
  clearbody w. rewrite E1. rewrite E2, Ey3 in EF. rewrite Ey3 in HR |- *.
  apply (assoc_generic l nu x1 x2 x4 x3 w xF yF); try assumption.
  intros Ew. cbn in HR. rewrite (line_cubic _ _ _ _ _ x3 HL), Ew in HR.
  assert (Hz : (x3 - x1) * (x3 - x2) * (x3 - x4) = 0).
  { apply sub0. transitivity ((x3 - x1) * (x3 - x2) * (x3 - x4) + (l * x3 + nu) * (l * x3 + nu) - (0 + (l * x3 + nu)) * (0 + (l * x3 + nu))); [ring|].
    rewrite <- HR. ring. }
  apply integral in Hz. destruct Hz as [Hz|Hz]; [|apply NX34, sub0, Hz].
  apply integral in Hz. destruct Hz as [Hz|Hz]; [|apply NX32, sub0, Hz].
  apply sub0 in Hz. apply NPR. rewrite Ey3, E1, Ew, Hz. f_equal. ring.
Qed.

Lemma not_self P Q : on P -> on Q -> P <> O -> add P Q <> Q.
Proof.
  intros HP HQ NP E. apply NP. rewrite <- (cancel P Q), E by assumption. apply add_opp_r.
Qed.

Lemma flip P R : on P -> on R -> P = opp (add P R) -> add P P = opp R.
Proof.
  intros HP HR E. assert (E' : add R P = opp P).
  { rewrite (add_comm R P) by assumption. rewrite E at 2. rewrite opp_inv. reflexivity. }
  rewrite <- (cancel R P), E' by assumption. rewrite <- opp_add, opp_inv by assumption. reflexivity.
Qed.

(* P, P, R *)
Lemma assoc3_PPR P R : on P -> on R -> assoc3 P P R.
Proof.
  intros HP HR.
  destruct P as [|x y]; [reflexivity|].
  destruct R as [|x3 y3]; [unfold assoc3; rewrite !add_O_r; reflexivity|].
  set (P := A x y) in *. set (R := A x3 y3) in *.
  assert (NP : P <> O) by discriminate. assert (NR : R <> O) by discriminate.
  destruct (pt_dec P R) as [->|NPR]; [apply assoc3_PQP; assumption|].
  destruct (pt_dec P (opp P)) as [E|NPP].
  { rewrite E at 2. apply assoc3_opp; assumption. }
  destruct (pt_dec P (opp R)) as [E|NPR'].
  { assert (E' : R = opp P) by (rewrite E, opp_inv; reflexivity). rewrite E'.
    unfold assoc3. rewrite add_opp_r, add_O_r. apply cancel; assumption. }
  destruct (pt_dec (add P P) (opp R)) as [E|ND']; [apply assoc3_zero; assumption|].
  destruct (pt_dec (add P P) R) as [E|ND].
  - (* R = P + P *)
    assert (Y : ~ (x = x /\ y = - y)) by (intros [_ Y]; apply NPP; unfold P; cbn; congruence).
    unfold assoc3. pose proof (add_on P R HP HR) as HF.
    pose proof (not_self P R HP HR NP) as NSR. 
    destruct (add P R) as [|xF yF] eqn:EF.
    { apply add_O in EF; [contradiction|assumption|assumption]. }
    destruct (add_line x y x y HP HP Y) as (l & nu & x4 & HL & E1 & _ & ED).
    fold P in ED. rewrite ED in *. subst R. injection E as <- <-.
    assert (EP : P = A x (l * x + nu)) by (unfold P; congruence).
    rewrite EP in EF |- *.
    apply assoc_double; try assumption.
    + intros ->. destruct (same_x _ _ _ HP HR); contradiction.
    + intros E. apply ND'. cbn. rewrite E. f_equal. ring.
    + intros ->. destruct (same_x _ _ _ HP HF) as [E|E].
      * assert (EF' : add (A x4 (- (l * x4 + nu))) P = P).
        { rewrite add_comm by assumption. rewrite EP at 1. rewrite EF. symmetry. exact E. }
        apply not_self in EF'; [assumption|assumption|assumption|discriminate].
      * apply ND'. rewrite <- ED at 1. apply flip; [assumption|assumption|].
        rewrite EP at 2. rewrite EF. exact E.
  - apply assoc3_chords; try assumption.
    + intros E. symmetry in E. rewrite add_comm in E by assumption. apply not_self in E; assumption.
    + intros E. apply ND'. apply flip; assumption.
Qed.

(* (R + R) - P = R + (R - P) gives the case P + Q = R *)
Lemma assoc3_last P Q R : on P -> on Q -> on R -> add P Q = R -> assoc3 P Q R.
Proof.
  intros HP HQ HR E. unfold assoc3. rewrite E.
    pose proof (assoc3_PPR R (opp P) HR (on_opp _ HP)) as T. unfold assoc3 in T.
    assert (EQ : add R (opp P) = Q).
    { rewrite <- E, (add_comm P Q) by assumption. apply cancel; assumption. }
    rewrite EQ in T. rewrite (add_comm Q R), <- T by assumption.
    rewrite (add_comm P); [|assumption|apply add_on; [apply add_on; assumption|apply on_opp; assumption]].
    pose proof (cancel (add R R) (opp P) (add_on _ _ HR HR) (on_opp _ HP)) as C.
    rewrite opp_inv in C. symmetry. exact C.
Qed.

Theorem add_assoc P Q R : on P -> on Q -> on R -> add (add P Q) R = add P (add Q R).
Proof.
  intros HP HQ HR. change (assoc3 P Q R).
  destruct (pt_dec P O) as [->|NP]; [reflexivity|].
  destruct (pt_dec Q O) as [->|NQ]; [unfold assoc3; rewrite add_O_r; reflexivity|].
  destruct (pt_dec R O) as [->|NR]; [unfold assoc3; rewrite !add_O_r; reflexivity|].
  destruct (pt_dec P R) as [->|NPR]; [apply assoc3_PQP; assumption|].
  destruct (pt_dec P Q) as [->|NPQ]; [apply assoc3_PPR; assumption|].
  destruct (pt_dec Q R) as [->|NQR]; [apply assoc3_sym; try assumption; apply assoc3_PPR; assumption|].
  destruct (pt_dec P (opp Q)) as [E|NPQ'].
  { assert (E' : Q = opp P) by (rewrite E, opp_inv; reflexivity). rewrite E'. apply assoc3_opp; assumption. }
  destruct (pt_dec Q (opp R)) as [E|NQR'].
  { assert (E' : R = opp Q) by (rewrite E, opp_inv; reflexivity).
    apply assoc3_sym; try assumption. rewrite E. apply assoc3_opp; assumption. }
  destruct (pt_dec (add P Q) (opp R)) as [E|ND']; [apply assoc3_zero; assumption|].
  destruct (pt_dec P (opp (add Q R))) as [E|NF'].
  { apply assoc3_sym; try assumption. apply assoc3_zero; try assumption.
    rewrite E, opp_inv. apply add_comm; assumption. }
  destruct (pt_dec (add P Q) R) as [E|ND]; [apply assoc3_last; assumption|].
  destruct (pt_dec P (add Q R)) as [E|NF].
  { apply assoc3_sym; try assumption. apply assoc3_last; try assumption. rewrite add_comm by assumption. congruence. }
  apply assoc3_chords; assumption.
Qed.

(* ---------- multiples ---------- *)

Fixpoint mul (n : nat) (P : pt) : pt :=
  match n with 0%nat => O | S k => add P (mul k P) end.

Lemma mul_on n P : on P -> on (mul n P).
Proof. intros HP. induction n; cbn [mul]; [exact I|apply add_on; assumption]. Qed.

Lemma mul_plus m n P : on P -> mul (m + n)%nat P = add (mul m P) (mul n P).
Proof.
  intros HP. induction m as [|m IH]; cbn [mul Nat.add]; [reflexivity|].
  rewrite IH, add_assoc by (try apply mul_on; assumption). reflexivity.
Qed.

Lemma mul_mult m n P : on P -> mul (m * n)%nat P = mul m (mul n P).
Proof.
  intros HP. induction m as [|m IH]; cbn [mul Nat.mul]; [reflexivity|].
  rewrite mul_plus, IH by assumption. reflexivity.
Qed.

Lemma mul_O n : mul n O = O.
Proof. induction n as [|n IH]; cbn [mul]; [reflexivity|rewrite IH; reflexivity]. Qed.

Lemma mul_add n P Q : on P -> on Q -> mul n (add P Q) = add (mul n P) (mul n Q).
Proof.
  intros HP HQ. induction n as [|n IH]; cbn [mul]; [reflexivity|].
  rewrite IH. pose proof (mul_on n P HP). pose proof (mul_on n Q HQ).
  rewrite !add_assoc by (repeat apply add_on; assumption). f_equal.
  rewrite <- !add_assoc by assumption. f_equal. apply add_comm; assumption.
Qed.

Lemma mul_opp n P : on P -> mul n (opp P) = opp (mul n P).
Proof.
  intros HP. induction n as [|n IH]; cbn [mul]; [reflexivity|].
  rewrite IH, opp_add; [reflexivity|assumption|apply mul_on; assumption].
Qed.

End Group.
