(* from_hex *)
From Verif Require Import Model.Base Model.Bytes Spec.Rfc4648 Spec.Hex Proofs.Util.
From Coq Require Import Lia.

Lemma hex_val_digit_for c d : hex_val c = Some d <-> hex_digit_for c d.
Proof.
  split.
  - unfold hex_val. intros H.
    assert (R : 48 <= c <= 57 /\ d = c - 48 \/ 97 <= c <= 102 /\ d = c - 87 \/ 65 <= c <= 70 /\ d = c - 55).
    { destruct (Z.leb_spec 48 c), (Z.leb_spec c 57); cbn [andb] in H; try (injection H as <-; left; split; lia);
      (destruct (Z.leb_spec 97 c), (Z.leb_spec c 102); cbn [andb] in H; try (injection H as <-; right; left; split; lia);
       (destruct (Z.leb_spec 65 c), (Z.leb_spec c 70); cbn [andb] in H; try discriminate; try (injection H as <-; right; right; split; lia))). }
    exists (Z.to_nat d). split; [lia|].
    destruct R as [(R & ->) | [(R & ->) | (R & ->)]]; [left|left|right].
    + assert (c = 48 \/ c = 49 \/ c = 50 \/ c = 51 \/ c = 52 \/ c = 53 \/ c = 54 \/ c = 55 \/ c = 56 \/ c = 57) as C by lia.
      repeat (destruct C as [-> | C]; [reflexivity|]). rewrite C. reflexivity.
    + assert (c = 97 \/ c = 98 \/ c = 99 \/ c = 100 \/ c = 101 \/ c = 102) as C by lia. repeat (destruct C as [-> | C]; [reflexivity|]). rewrite C. reflexivity.
    + assert (c = 65 \/ c = 66 \/ c = 67 \/ c = 68 \/ c = 69 \/ c = 70) as C by lia. repeat (destruct C as [-> | C]; [reflexivity|]). rewrite C. reflexivity.
  - intros (n & -> & H). do 16 (destruct n as [|n]; [destruct H as [H | H]; vm_compute in H; injection H as <-; reflexivity|]).
    exfalso. destruct H as [H | H]; vm_compute in H; destruct n; discriminate.
Qed.
Lemma from_hex_spells {E} : forall s l, from_hex (E:=E) s = Ok l <-> spells s l.
Proof.
  assert (X : forall n s l, (length s <= n)%nat -> (from_hex (E:=E) s = Ok l <-> spells s l)).
  { induction n as [|n IH]; intros s l L.
    - destruct s; [|cbn [length] in L; lia]. cbn. split; [intros H; injection H as <-; constructor|intros H; inversion H; reflexivity].
    - destruct s as [|c1 [|c2 s]].
      + cbn. split; [intros H; injection H as <-; constructor|intros H; inversion H; reflexivity].
      + cbn. split; [discriminate|intros H; inversion H].
      + cbn [length] in L. cbn [from_hex]. unfold radix16. split.
        * destruct (Z.eqb_spec c1 43) as [-> | N].
          -- destruct (hex_val c2) as [d|] eqn:D; cbn [unwrap bind]; [|discriminate]. destruct (from_hex s) as [r| |] eqn:R; cbn [bind]; try discriminate. intros H. injection H as <-.
             apply spells_plus; [now apply hex_val_digit_for|apply IH; [lia|exact R]].
          -- destruct (hex_val c1) as [a|] eqn:A; [|discriminate]. destruct (hex_val c2) as [b|] eqn:B; cbn [unwrap bind]; [|discriminate].
             destruct (from_hex s) as [r| |] eqn:R; cbn [bind]; try discriminate. intros H. injection H as <-. rewrite (Z.mul_comm a 16).
             apply spells_byte; [now apply hex_val_digit_for|now apply hex_val_digit_for|apply IH; [lia|exact R]].
        * intros H. inversion H as [|? ? a b ? r Da Db Hs|? d ? r Dd Hs]; subst.
          -- apply hex_val_digit_for in Da, Db. destruct (Z.eqb_spec c1 43) as [-> | N]; [discriminate Da|]. rewrite Da, Db. cbn [unwrap bind]. rewrite (proj2 (IH s r ltac:(lia)) Hs). cbn [bind]. do 2 f_equal. lia.
          -- apply hex_val_digit_for in Dd. rewrite Z.eqb_refl, Dd. cbn [unwrap bind]. rewrite (proj2 (IH s r ltac:(lia)) Hs). reflexivity. }
  intros s l. exact (X _ s l (le_n _)).
Qed.
Lemma from_hex_else {E} s : (forall l, ~ spells s l) -> from_hex (E:=E) s = Panic.
Proof.
  assert (X : forall n s, (length s <= n)%nat -> (exists l, from_hex (E:=E) s = Ok l) \/ from_hex (E:=E) s = Panic).
  { clear. induction n as [|n IH]; intros [|c1 [|c2 s]] L; cbn [length] in L; try lia; [left; eexists; reflexivity|left; eexists; reflexivity|right; reflexivity|].
    cbn [from_hex]. destruct (radix16 c1 c2); cbn [unwrap bind]; [|right; reflexivity]. destruct (IH s ltac:(lia)) as [(l & ->) | ->]; cbn [bind]; [left; eexists; reflexivity|right; reflexivity]. }
  intros N. destruct (X _ s (le_n _)) as [(l & H) | H]; [|exact H]. exfalso. exact (N l (proj1 (from_hex_spells s l) H)).
Qed.
