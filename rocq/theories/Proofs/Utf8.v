(* String::from_utf8 as modelled accepts exactly the UTF-8 encodings of RFC 3629 *)
From Verif Require Import Proofs.Util Model.X509 Spec.X509.
From Verif Require Model.Extensions Proofs.X509Cert.

Ltac btests := repeat match goal with
  | |- context [?x <? ?y] => destruct (Z.ltb_spec x y)
  | |- context [?x <=? ?y] => destruct (Z.leb_spec x y)
  | |- context [?x =? ?y] => destruct (Z.eqb_spec x y)
  end; cbn [andb orb]; try reflexivity; try lia.

Lemma utf8_same_n n : forall l, (length l <= n)%nat -> Extensions.utf8_valid l = utf8_valid l.
Proof.
  induction n as [|n IH]; intros l Hl; [destruct l; [reflexivity|cbn in Hl; lia]|].
  assert (C : forall z, Extensions.cont z = cont z) by (intros z; unfold Extensions.cont, cont; btests).
  destruct l as [|a l]; [reflexivity|]. cbn [length] in Hl. cbn [Extensions.utf8_valid utf8_valid].
  rewrite (IH l) by lia. destruct (a <? 128) eqn:Ea; [reflexivity|]. destruct l as [|b l]; [reflexivity|]. cbn [length] in Hl. rewrite (IH l) by lia.
  unfold Extensions.within. rewrite !C. destruct ((194 <=? a) && (a <=? 223)); [reflexivity|].
  destruct l as [|c l]; [reflexivity|]. cbn [length] in Hl. rewrite (IH l) by lia. rewrite !C.
  destruct (Z.eqb_spec a 224) as [->|N1]; [reflexivity|]. destruct (Z.eqb_spec a 237) as [->|N2]; [reflexivity|].
  replace ((225 <=? a) && (a <=? 236) || (238 <=? a) && (a <=? 239)) with ((225 <=? a) && (a <=? 239)) by btests.
  destruct ((225 <=? a) && (a <=? 239)); [reflexivity|].
  destruct l as [|d l]; [reflexivity|]. cbn [length] in Hl. rewrite (IH l) by lia. rewrite !C.
  destruct (Z.eqb_spec a 240) as [->|N3]; [reflexivity|]. destruct (Z.eqb_spec a 244) as [->|N4]; [reflexivity|].
  destruct ((241 <=? a) && (a <=? 243)); reflexivity.
Qed.
Lemma utf8_same l : Extensions.utf8_valid l = utf8_valid l. Proof. exact (utf8_same_n (length l) l (le_n _)). Qed.

Lemma char2 a b : 0xC2 <= a <= 0xDF -> 128 <= b < 192 -> exists c, scalar_value c /\ utf8_char c = [a; b].
Proof.
  intros Ha Hb. exists ((a - 0xC0) * 64 + (b - 0x80)). split; [left; lia|]. unfold utf8_char.
  destruct (Z.ltb_spec ((a - 192) * 64 + (b - 128)) 128); [lia|]. destruct (Z.ltb_spec ((a - 192) * 64 + (b - 128)) 2048); [|lia].
  replace (((a - 192) * 64 + (b - 128)) / 64) with (a - 192) by (apply (Z.div_unique _ 64 _ (b - 128)); lia).
  replace (((a - 192) * 64 + (b - 128)) mod 64) with (b - 128) by (apply (Z.mod_unique _ 64 (a - 192)); lia). repeat f_equal; lia.
Qed.
Lemma char3 a b c : 0xE0 <= a <= 0xEF -> 128 <= b < 192 -> 128 <= c < 192 -> (a = 0xE0 -> 0xA0 <= b) -> (a = 0xED -> b <= 0x9F) ->
  exists x, scalar_value x /\ utf8_char x = [a; b; c].
Proof.
  intros Ha Hb Hc H1 H2. set (x := (a - 0xE0) * 4096 + (b - 0x80) * 64 + (c - 0x80)). exists x.
  assert (B : 2048 <= x < 65536) by (unfold x; destruct (Z.eq_dec a 0xE0); lia). split.
  { unfold scalar_value. unfold x in *. destruct (Z.eq_dec a 0xED) as [->|]; [specialize (H2 eq_refl); lia|]. lia. }
  unfold utf8_char. destruct (Z.ltb_spec x 128); [lia|]. destruct (Z.ltb_spec x 2048); [lia|]. destruct (Z.ltb_spec x 65536); [|lia].
  replace (x / 4096) with (a - 0xE0) by (apply (Z.div_unique _ 4096 _ ((b - 0x80) * 64 + (c - 0x80))); unfold x; lia).
  replace (x / 64) with ((a - 0xE0) * 64 + (b - 0x80)) by (apply (Z.div_unique _ 64 _ (c - 0x80)); unfold x; lia).
  replace (((a - 0xE0) * 64 + (b - 0x80)) mod 64) with (b - 0x80) by (apply (Z.mod_unique _ 64 (a - 0xE0)); lia).
  replace (x mod 64) with (c - 0x80) by (apply (Z.mod_unique _ 64 ((a - 0xE0) * 64 + (b - 0x80))); unfold x; lia). repeat f_equal; lia.
Qed.
Lemma char4 a b c d : 0xF0 <= a <= 0xF4 -> 128 <= b < 192 -> 128 <= c < 192 -> 128 <= d < 192 -> (a = 0xF0 -> 0x90 <= b) -> (a = 0xF4 -> b <= 0x8F) ->
  exists x, scalar_value x /\ utf8_char x = [a; b; c; d].
Proof.
  intros Ha Hb Hc Hd H1 H2. set (x := (a - 0xF0) * 262144 + (b - 0x80) * 4096 + (c - 0x80) * 64 + (d - 0x80)). exists x.
  assert (B : 65536 <= x < 0x110000).
  { unfold x. destruct (Z.eq_dec a 0xF0); [specialize (H1 ltac:(assumption)); lia|]. destruct (Z.eq_dec a 0xF4); [specialize (H2 ltac:(assumption)); lia|lia]. }
  split; [right; lia|].
  unfold utf8_char. destruct (Z.ltb_spec x 128); [lia|]. destruct (Z.ltb_spec x 2048); [lia|]. destruct (Z.ltb_spec x 65536); [lia|].
  replace (x / 262144) with (a - 0xF0) by (apply (Z.div_unique _ 262144 _ ((b - 0x80) * 4096 + (c - 0x80) * 64 + (d - 0x80))); unfold x; lia).
  replace (x / 4096) with ((a - 0xF0) * 64 + (b - 0x80)) by (apply (Z.div_unique _ 4096 _ ((c - 0x80) * 64 + (d - 0x80))); unfold x; lia).
  replace (((a - 0xF0) * 64 + (b - 0x80)) mod 64) with (b - 0x80) by (apply (Z.mod_unique _ 64 (a - 0xF0)); lia).
  replace (x / 64) with (((a - 0xF0) * 64 + (b - 0x80)) * 64 + (c - 0x80)) by (apply (Z.div_unique _ 64 _ (d - 0x80)); unfold x; lia).
  replace ((((a - 0xF0) * 64 + (b - 0x80)) * 64 + (c - 0x80)) mod 64) with (c - 0x80) by (apply (Z.mod_unique _ 64 ((a - 0xF0) * 64 + (b - 0x80))); lia).
  replace (x mod 64) with (d - 0x80) by (apply (Z.mod_unique _ 64 (((a - 0xF0) * 64 + (b - 0x80)) * 64 + (c - 0x80))); unfold x; lia). repeat f_equal; lia.
Qed.

Lemma is_text_n n : forall l, (length l <= n)%nat -> is_bytes l -> utf8_valid l = true -> exists text, Forall scalar_value text /\ l = utf8 text.
Proof.
  assert (Cons : forall x pre l, scalar_value x -> utf8_char x = pre -> (exists text, Forall scalar_value text /\ l = utf8 text) ->
    exists text, Forall scalar_value text /\ pre ++ l = utf8 text).
  { intros x pre l Hx <- (text & Ht & ->). exists (x :: text). split; [now constructor|reflexivity]. }
  induction n as [|n IH]; intros l Hl B V; [destruct l; [exists []; split; [constructor|reflexivity]|cbn in Hl; lia]|].
  destruct l as [|a l]; [exists []; split; [constructor|reflexivity]|]. cbn [length] in Hl. inversion B as [|? ? Ba Bl]; subst. unfold is_byte in Ba.
  cbn [utf8_valid] in V. destruct (Z.ltb_spec a 128).
  { apply (Cons a [a] l); [left; lia|unfold utf8_char; destruct (Z.ltb_spec a 128); [reflexivity|lia]|]. apply IH; [lia|assumption|assumption]. }
  destruct l as [|b l]; [discriminate|]. cbn [length] in Hl. inversion Bl as [|? ? Bb Bl']; subst.
  destruct ((194 <=? a) && (a <=? 223)) eqn:E2.
  { apply andb_prop in E2, V. destruct E2 as (H1 & H2), V as (Vb & V). apply Z.leb_le in H1, H2. unfold cont in Vb. apply andb_prop in Vb. destruct Vb as (K1 & K2). apply Z.leb_le in K1. apply Z.ltb_lt in K2.
    destruct (char2 a b) as (x & Sx & Ex); [lia|lia|]. apply (Cons x [a; b] l Sx Ex). apply IH; [lia|assumption|assumption]. }
  destruct l as [|c l]; [discriminate|]. cbn [length] in Hl. inversion Bl' as [|? ? Bc Bl'']; subst.
  assert (K : forall z, cont z = true -> 128 <= z < 192) by (intros z H'; unfold cont in H'; apply andb_prop in H'; destruct H' as (Q1 & Q2); apply Z.leb_le in Q1; apply Z.ltb_lt in Q2; lia).
  assert (T3 : forall (p q : bool), (p && q) && cont c && utf8_valid l = true -> p = true /\ q = true /\ 128 <= c < 192 /\ utf8_valid l = true).
  { intros p q H'. apply andb_prop in H'. destruct H' as (H' & ?). apply andb_prop in H'. destruct H' as (H' & ?). apply andb_prop in H'. destruct H' as (? & ?). auto. }
  destruct (Z.eqb_spec a 224) as [->|N1].
  { apply T3 in V. destruct V as (V1 & V2 & Vc & V). apply Z.leb_le in V1, V2. destruct (char3 224 b c) as (x & Sx & Ex); try lia. apply (Cons x [224; b; c] l Sx Ex). apply IH; [lia|assumption|assumption]. }
  destruct ((225 <=? a) && (a <=? 236) || (238 <=? a) && (a <=? 239)) eqn:E3.
  { apply andb_prop in V. destruct V as (Vb & V). apply andb_prop in Vb. destruct Vb as (Vb & Vc). apply K in Vb, Vc.
    assert (225 <= a <= 239 /\ a <> 237). { apply Bool.orb_prop in E3. destruct E3 as [E3|E3]; apply andb_prop in E3; destruct E3 as (Q1 & Q2); apply Z.leb_le in Q1, Q2; lia. }
    destruct (char3 a b c) as (x & Sx & Ex); try lia. apply (Cons x [a; b; c] l Sx Ex). apply IH; [lia|assumption|assumption]. }
  destruct (Z.eqb_spec a 237) as [->|N2].
  { apply T3 in V. destruct V as (V1 & V2 & Vc & V). apply Z.leb_le in V1, V2. destruct (char3 237 b c) as (x & Sx & Ex); try lia. apply (Cons x [237; b; c] l Sx Ex). apply IH; [lia|assumption|assumption]. }
  destruct l as [|d l]; [discriminate|]. cbn [length] in Hl. inversion Bl'' as [|? ? Bd Bl3]; subst.
  assert (T4 : forall p, p && cont c && cont d && utf8_valid l = true -> p = true /\ 128 <= c < 192 /\ 128 <= d < 192 /\ utf8_valid l = true).
  { intros p H'. apply andb_prop in H'. destruct H' as (H' & ?). apply andb_prop in H'. destruct H' as (H' & ?). apply andb_prop in H'. destruct H' as (? & ?). auto. }
  destruct (Z.eqb_spec a 240) as [->|N3].
  { apply T4 in V. destruct V as (V1 & Vc & Vd & V). apply andb_prop in V1. destruct V1 as (V1 & V2). apply Z.leb_le in V1, V2.
    destruct (char4 240 b c d) as (x & Sx & Ex); try lia. apply (Cons x [240; b; c; d] l Sx Ex). apply IH; [lia|assumption|assumption]. }
  destruct ((241 <=? a) && (a <=? 243)) eqn:E4.
  { apply T4 in V. destruct V as (Vb & Vc & Vd & V). apply K in Vb. apply andb_prop in E4. destruct E4 as (Q1 & Q2). apply Z.leb_le in Q1, Q2.
    destruct (char4 a b c d) as (x & Sx & Ex); try lia. apply (Cons x [a; b; c; d] l Sx Ex). apply IH; [lia|assumption|assumption]. }
  destruct (Z.eqb_spec a 244) as [->|N4]; [|discriminate].
  apply T4 in V. destruct V as (V1 & Vc & Vd & V). apply andb_prop in V1. destruct V1 as (V1 & V2). apply Z.leb_le in V1, V2.
  destruct (char4 244 b c d) as (x & Sx & Ex); try lia. apply (Cons x [244; b; c; d] l Sx Ex). apply IH; [lia|assumption|assumption].
Qed.
Lemma is_text l : is_bytes l -> (utf8_valid l = true <-> exists text, Forall scalar_value text /\ l = utf8 text).
Proof.
  intros B. split; [exact (is_text_n (length l) l (le_n _) B)|]. intros (text & T & ->). now apply X509Cert.utf8_text_valid.
Qed.
Lemma ext_is_text l : is_bytes l -> (Extensions.utf8_valid l = true <-> exists text, Forall scalar_value text /\ l = utf8 text).
Proof. rewrite utf8_same. apply is_text. Qed.
