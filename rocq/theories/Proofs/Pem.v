From Coq Require String.
From Verif Require Import Proofs.Util Proofs.Base64 Model.Base64 Model.Bytes Model.Pem Spec.Rfc4648 Spec.PemFile.
Import String.StringSyntax.
Local Open Scope string_scope. Local Open Scope list_scope. Local Open Scope Z_scope.

Lemma split_lines_app l t : ~ In nl l -> split_lines (l ++ nl :: t) = l :: split_lines t.
Proof.
  induction l as [|c l IH]; intros H.
  - reflexivity.
  - cbn [app split_lines]. destruct (Z.eqb_spec c 10).
    + exfalso. apply H. left. subst. reflexivity.
    + rewrite IH by (intros X; apply H; now right). reflexivity.
Qed.
Lemma split_text ls : (forall l, In l ls -> ~ In nl l) -> split_lines (text_of_lines ls) = ls ++ [[]].
Proof.
  unfold text_of_lines. induction ls as [|l ls IH]; intros H; cbn [map concat app].
  - reflexivity.
  - rewrite <- app_assoc. cbn [app]. rewrite split_lines_app by (apply H; now left).
    rewrite IH by (intros; apply H; now right). reflexivity.
Qed.

Lemma alphabet_b64 l c : is_bytes l -> In c (b64 l) -> c <> 10 /\ c <> 45.
Proof.
  assert (D : forall v, digit v <> 10 /\ digit v <> 45).
  { intros v. unfold digit. 
    assert (P : forallb (fun i => negb (nth (Z.to_nat i) alphabet 0 =? 10) && negb (nth (Z.to_nat i) alphabet 0 =? 45))%bool (zrange 64) = true)
      by (vm_compute; reflexivity).
    pose proof (forallb_zrange _ _ P (v mod 64) ltac:(lia)) as P0. cbv beta in P0. clear P. rename P0 into P.
    apply andb_true_iff in P. rewrite !negb_true_iff in P. destruct P as [P Q].
    apply Z.eqb_neq in P. apply Z.eqb_neq in Q. split; assumption. }
  assert (pad <> 10 /\ pad <> 45) as DP by (unfold pad; lia).
  revert c. induction l as [l IH] using list_len_ind. intros c Hb Hc.
  destruct l as [|x0 [|x1 [|x2 t]]]; cbn [b64 app In] in Hc.
  - contradiction.
  - repeat (destruct Hc as [<-|Hc]; [first [apply D | apply DP]|]). contradiction.
  - repeat (destruct Hc as [<-|Hc]; [first [apply D | apply DP]|]). contradiction.
  - destruct Hc as [H|[H|[H|[H|H]]]]; try (subst; apply D).
    apply (IH t); [cbn; lia| |assumption].
    apply (is_bytes_skipn 3) in Hb. exact Hb.
Qed.

Lemma body_line body data l : is_bytes data -> concat body = b64 data -> In l body ->
  ~ In nl l /\ starts_with s_END l = false.
Proof.
  intros Hd Hc Hl.
  assert (S : forall c, In c l -> c <> 10 /\ c <> 45).
  { intros c Hin. apply (alphabet_b64 data); [assumption|]. rewrite <- Hc.
    apply in_concat. eauto. }
  split.
  - intros H. apply S in H. unfold nl in H. lia.
  - unfold starts_with. apply list_eqb_false. intros E.
    destruct l as [|c l]; [discriminate E|]. cbn in E. injection E as E _.
    specialize (S c (or_introl eq_refl)). lia.
Qed.

Definition st0 : pem_st := {| p_state := PStart; p_title := []; p_content := []; p_map := [] |}.

Lemma pem_lines_app s a b : pem_lines s (a ++ b) = let! s' := pem_lines s a in pem_lines s' b.
Proof.
  revert s. induction a as [|l a IH]; intros s; cbn [app pem_lines bind]; [reflexivity|].
  destruct (pem_line s l); cbn [bind]; auto.
Qed.

Lemma pem_body s body : p_state s = PInContent -> (forall l, In l body -> starts_with s_END l = false) ->
  pem_lines s body = Ok {| p_state := PInContent; p_title := p_title s;
                           p_content := p_content s ++ concat body; p_map := p_map s |}.
Proof.
  revert s. induction body as [|l body IH]; intros s Hs H; cbn [pem_lines concat].
  - rewrite app_nil_r. destruct s; cbn in *; now subst.
  - unfold pem_line. rewrite Hs, H by now left. cbn [bind].
    rewrite IH; [|reflexivity|intros; apply H; now right]. cbn. now rewrite app_assoc.
Qed.

Lemma pem_begin s t : title_ok t -> p_state s <> PInContent ->
  pem_line s (begin_line t) = Ok {| p_state := PInContent; p_title := t; p_content := p_content s; p_map := p_map s |}.
Proof.
  intros (_ & Ht) Hs. unfold pem_line.
  assert (E : starts_with s_BEGIN (begin_line t) = true) by reflexivity.
  assert (L : length (begin_line t) = (11 + length t + 5)%nat).
  { unfold begin_line. rewrite !app_length. change (length (codes "-----BEGIN ")) with 11%nat.
    change (length (codes "-----")) with 5%nat. lia. }
  assert (str_slice (E:=unit) (begin_line t) 11 (length (begin_line t) - 5) = Ok t) as S.
  { assert (str_boundary (begin_line t) 11 = true) as B1.
    { unfold str_boundary, begin_line. rewrite nth_error_app2 by reflexivity.
      change (11 - length (codes "-----BEGIN "))%nat with 0%nat. destruct t as [|b t]; [reflexivity|]. cbn [app nth_error]. lia. }
    assert (str_boundary (begin_line t) (length (begin_line t) - 5) = true) as B2.
    { unfold str_boundary. rewrite L. unfold begin_line. rewrite app_assoc, nth_error_app2 by (rewrite app_length; change (length (codes "-----BEGIN ")) with 11%nat; lia).
      rewrite app_length. change (length (codes "-----BEGIN ")) with 11%nat. replace (11 + length t + 5 - 5 - (11 + length t))%nat with 0%nat by lia. reflexivity. }
    unfold str_slice. rewrite B1, B2. cbn [andb]. unfold begin_line at 1. apply slice_mid; [reflexivity|]. rewrite L. change (length (codes "-----BEGIN ")) with 11%nat. lia. }
  destruct (p_state s); try congruence; rewrite E, S, L;
    (destruct (Nat.ltb_spec (11 + length t + 5) 5); [lia|]); reflexivity.
Qed.
Lemma pem_end s t d : p_state s = PInContent -> p_content s = b64 d -> is_bytes d ->
  pem_line s (end_line t) = Ok {| p_state := PEnd; p_title := p_title s; p_content := [];
                                  p_map := (p_title s, d) :: p_map s |}.
Proof.
  intros Hs Hc Hd. unfold pem_line. rewrite Hs.
  assert (E : starts_with s_END (end_line t) = true) by reflexivity. rewrite E, Hc.
  rewrite <- encode_spec, decode_encode by assumption. reflexivity.
Qed.

Definition idle (s : pem_st) : Prop := p_state s <> PInContent /\ p_content s = [].

Fixpoint add_items (m : pem_map) (is : list item) : pem_map :=
  match is with
  | [] => m
  | Text _ :: r => add_items m r
  | Block t _ d :: r => add_items ((t, d) :: m) r
  end.

Lemma pem_items is s : Forall item_ok is -> idle s ->
  exists s', pem_lines s (file_lines is) = Ok s' /\ idle s' /\ p_map s' = add_items (p_map s) is /\
    (p_state s' = PEnd <-> p_state s = PEnd \/ has_block is).
Proof.
  revert s. induction is as [|i is IH]; intros s Hok [Hs Hc].
  - exists s. cbn. repeat split; auto. intros [H|(t & b & d & [])]; assumption.
  - inversion Hok as [|? ? Hi Hr]; subst.
    change (file_lines (i :: is)) with (item_lines i ++ file_lines is). rewrite pem_lines_app.
    destruct i as [l|t body d]; cbn [item_lines].
    + destruct Hi as [Hn Hb].
      assert (pem_lines s [l] = Ok s) as E.
      { cbn [pem_lines]. unfold pem_line.
        assert (starts_with s_BEGIN l = false) as E1 by (apply list_eqb_false; exact Hb).
        destruct (p_state s); try congruence; rewrite E1; reflexivity. }
      rewrite E. cbn [bind]. destruct (IH s Hr (conj Hs Hc)) as (s' & A & B & C & D).
      exists s'. split; [exact A|]. split; [exact B|]. split; [exact C|]. rewrite D.
      split; intros [H|H]; auto; right; destruct H as (t & b & d & H).
      * exists t, b, d. now right.
      * destruct H as [H|H]; [discriminate|]. now exists t, b, d.
    + destruct Hi as (Hn & Hcat & Hd).
      cbn [pem_lines]. rewrite (pem_begin s t Hn Hs). cbn [bind]. rewrite pem_lines_app.
      rewrite pem_body; [|reflexivity|intros l Hl; now apply (body_line body d l)].
      cbn [p_title p_content p_map bind]. rewrite Hc, Hcat. cbn [app pem_lines].
      rewrite (pem_end _ t d) by (reflexivity || assumption). cbn [bind p_title p_map].
      destruct (IH {| p_state := PEnd; p_title := t; p_content := []; p_map := (t, d) :: p_map s |} Hr)
        as (s' & A & B & C & D); [split; [discriminate|reflexivity]|].
      exists s'. split; [exact A|]. split; [exact B|]. split; [exact C|]. rewrite D. cbn.
      split; intros _; [right; exists t, body, d; now left|now left].
Qed.

Lemma add_items_get is m t : pem_get (add_items m is) t =
  match last_block t is with Some d => Some d | None => pem_get m t end.
Proof.
  revert m. induction is as [|i is IH]; intros m; cbn [add_items last_block]; [reflexivity|].
  destruct i as [l|t' b d].
  - rewrite IH. now destruct (last_block t is).
  - rewrite IH. destruct (last_block t is); [reflexivity|].
    unfold pem_get at 1. cbn [find fst].
    destruct (list_eq_dec Z.eq_dec t' t) as [->|Hne].
    + rewrite list_eqb_refl. reflexivity.
    + replace (list_eqb t' t) with false by (symmetry; now apply list_eqb_false). reflexivity.
Qed.

Lemma codes_nonl : forall s, s = codes "-----BEGIN " \/ s = codes "-----END " \/ s = codes "-----" -> ~ In nl s.
Proof. intros s [->|[->| ->]] H; cbn in H; unfold nl in H; intuition lia. Qed.

Lemma begin_nonl t : ~ In nl t -> ~ In nl (begin_line t).
Proof.
  intros H. unfold begin_line. rewrite !in_app_iff. intros [X|[X|X]]; auto;
    revert X; apply codes_nonl; auto.
Qed.
Lemma end_nonl t : ~ In nl t -> ~ In nl (end_line t).
Proof.
  intros H. unfold end_line. rewrite !in_app_iff. intros [X|[X|X]]; auto;
    revert X; apply codes_nonl; auto.
Qed.

Lemma lines_nonl is l : Forall item_ok is -> In l (file_lines is) -> ~ In nl l.
Proof.
  intros Hok Hl. unfold file_lines in Hl. apply in_flat_map in Hl. destruct Hl as (i & Hi & Hl).
  rewrite Forall_forall in Hok. specialize (Hok i Hi).
  destruct i as [x|t b d]; cbn [item_lines] in Hl.
  - destruct Hl as [<-|[]]. apply Hok.
  - destruct Hok as (Hn & Hc & Hd). destruct Hl as [<-|Hl]; [apply begin_nonl, Hn|].
    apply in_app_iff in Hl. destruct Hl as [Hl|[<-|[]]]; [|apply end_nonl, Hn].
    now apply (body_line b d l).
Qed.

Lemma pem_parse_items is : Forall item_ok is ->
  (has_block is -> exists m, pem_parse (text_of_lines (file_lines is)) = Ok m /\
                             forall t, pem_get m t = last_block t is) /\
  (~ has_block is -> pem_parse (text_of_lines (file_lines is)) = Err tt).
Proof.
  intros Hok. unfold pem_parse. fold st0.
  rewrite split_text by (intros l; now apply lines_nonl). rewrite pem_lines_app.
  destruct (pem_items is st0 Hok) as (s & E & (Hi & Hc) & M & D); [split; [discriminate|reflexivity]|].
  rewrite E. cbn [bind pem_lines].
  assert (pem_line s [] = Ok s) as E1 by (unfold pem_line; destruct (p_state s); try congruence; reflexivity).
  rewrite E1. cbn [bind].
  split.
  - intros H. assert (p_state s = PEnd) as -> by (apply D; now right).
    eexists; split; [reflexivity|]. intros t. rewrite M, add_items_get. cbn. now destruct (last_block t is).
  - intros H. destruct (p_state s) eqn:P; try reflexivity. exfalso.
    destruct (proj1 D eq_refl) as [X|X]; [discriminate X|contradiction].
Qed.

Lemma pem_parse_truncated is t body rest data : Forall item_ok is -> title_ok t ->
  is_bytes data -> concat (body ++ rest) = b64 data ->
  pem_parse (text_of_lines (file_lines is ++ begin_line t :: body)) = Err tt.
Proof.
  intros Hok Ht Hd Hc.
  assert (B : forall l, In l body -> ~ In nl l /\ starts_with s_END l = false).
  { intros l Hl. apply (body_line (body ++ rest) data); auto. apply in_app_iff. now left. }
  unfold pem_parse. fold st0.
  rewrite split_text.
  2:{ intros l Hl. apply in_app_iff in Hl. destruct Hl as [Hl|[<-|Hl]];
        [now apply (lines_nonl is)|apply begin_nonl, Ht|now apply B]. }
  rewrite <- app_assoc, pem_lines_app.
  destruct (pem_items is st0 Hok) as (s & E & (Hi & Hcn) & M & D); [split; [discriminate|reflexivity]|].
  rewrite E. cbn [bind app pem_lines]. rewrite (pem_begin s t Ht Hi). cbn [bind].
  rewrite pem_body; [reflexivity|reflexivity|].
  intros l Hl. apply in_app_iff in Hl. destruct Hl as [Hl|[<-|[]]]; [now apply B|reflexivity].
Qed.
