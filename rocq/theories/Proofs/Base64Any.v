(* Decoding of any text; PEM blocks with any body. *)
From Coq Require String.
From Verif Require Import Proofs.Util Proofs.Base64 Proofs.Pem Model.Base64 Model.Bytes Model.Pem Spec.Rfc4648 Spec.PemFile Spec.Base64Any.
Import String.StringSyntax.
Local Open Scope string_scope. Local Open Scope list_scope. Local Open Scope Z_scope.

Lemma char_read {E} c : below c -> exists v, 0 <= v < 64 /\ digit v = as_digit c /\ dec_char (E:=E) c = Ok (v, pads [c]).
Proof.
  intros B. exists (if c =? 61 then 0 else reverse_char c).
  assert (forallb (fun c => let v := if c =? 61 then 0 else reverse_char c in (0 <=? v) && (v <? 64) && (digit v =? as_digit c)) (zrange 123) = true) as F by (vm_compute; reflexivity).
  unfold below in B. pose proof (forallb_zrange _ _ F c ltac:(lia)) as G. cbv beta zeta in G. rewrite !andb_true_iff in G. destruct G as ((G1 & G2) & G3).
  split; [lia|]. split; [lia|]. unfold dec_char, pads, pad. cbn [count_occ]. destruct (Z.eqb_spec c 61) as [->|N]; [reflexivity|].
  destruct (Z.leb_spec c 122); [|lia]. destruct (Z.eq_dec c 61); [contradiction|reflexivity].
Qed.
Lemma char_panic {E} c : 122 < c -> dec_char (E:=E) c = Panic.
Proof. intros H. unfold dec_char. destruct (Z.eqb_spec c 61); [lia|]. destruct (Z.leb_spec c 122); [lia|reflexivity]. Qed.

Lemma four s0 s1 s2 s3 : 0 <= s0 < 64 -> 0 <= s1 < 64 -> 0 <= s2 < 64 -> 0 <= s3 < 64 ->
  let v := s0 * 262144 + s1 * 4096 + s2 * 64 + s3 in
  let a := v / 65536 in let b := (v / 256) mod 256 in let c := v mod 256 in
  is_byte a /\ is_byte b /\ is_byte c /\ Z.lor (u8 (Z.shiftl s0 2)) (Z.shiftr s1 4) = a /\ Z.lor (u8 (Z.shiftl s1 4)) (Z.shiftr s2 2) = b /\ Z.lor (u8 (Z.shiftl s2 6)) s3 = c /\
  a * 65536 + b * 256 + c = v.
Proof.
  intros H0 H1 H2 H3. cbv zeta. unfold is_byte. rewrite !Z.shiftr_div_pow2 by lia. change (2^4) with 16 in *; change (2^2) with 4 in *.
  rewrite !glue by (try lia; change (2^4) with 16; change (2^2) with 4; change (2^6) with 64; lia).
  change (2^4) with 16; change (2^2) with 4; change (2^6) with 64. lia.
Qed.
Lemma pads_cons c l : pads (c :: l) = (pads [c] + pads l)%nat.
Proof. unfold pads. cbn [count_occ]. destruct (Z.eq_dec c pad); reflexivity. Qed.

Lemma list_4_ind (P : list Z -> Prop) : P [] -> (forall a b c d t, P t -> P (a :: b :: c :: d :: t)) ->
  forall l, Nat.modulo (length l) 4 = 0%nat -> P l.
Proof.
  intros H0 H4 l. induction l as [l IH] using list_len_ind. intros L. destruct l as [|a [|b [|c [|d t]]]]; try discriminate L; [exact H0|].
  apply H4, IH; [cbn; lia|]. cbn [length] in L. replace (S (S (S (S (length t))))) with (length t + 1 * 4)%nat in L by lia. now rewrite Nat.mod_add in L by lia.
Qed.

Lemma loop_read {E} l : Nat.modulo (length l) 4 = 0%nat -> Forall below l ->
  exists x, is_bytes x /\ b64 x = map as_digit l /\ decode_loop (E:=E) l = Ok (x, pads l).
Proof.
  revert l. apply (list_4_ind (fun l => Forall below l -> exists x, is_bytes x /\ b64 x = map as_digit l /\ decode_loop (E:=E) l = Ok (x, pads l))).
  { intros _. exists []. repeat split; constructor. }
  intros c0 c1 c2 c3 t IH F. rewrite !Forall_cons_iff in F. destruct F as (B0 & B1 & B2 & B3 & F). destruct (IH F) as (x & X & D & R).
  destruct (char_read (E:=E) c0 B0) as (s0 & S0 & D0 & R0), (char_read (E:=E) c1 B1) as (s1 & S1 & D1 & R1),
    (char_read (E:=E) c2 B2) as (s2 & S2 & D2 & R2), (char_read (E:=E) c3 B3) as (s3 & S3 & D3 & R3).
  pose proof (four s0 s1 s2 s3 S0 S1 S2 S3) as Q. cbv zeta in Q. set (v := s0 * 262144 + s1 * 4096 + s2 * 64 + s3) in *.
  destruct Q as (Ya & Yb & Yc & Ea & Eb & Ec & Ev). exists (v / 65536 :: (v / 256) mod 256 :: v mod 256 :: x).
  split; [repeat (apply Forall_cons; [assumption|]); exact X|]. split.
  - cbn [b64 map app]. rewrite Ev, D. rewrite <- D0, <- D1, <- D2, <- D3.
    repeat (apply (f_equal2 cons); [apply digit_mod; subst v; lia|]). reflexivity.
  - cbn [decode_loop]. rewrite R0, R1, R2, R3, R. cbn [bind]. rewrite Ea, Eb, Ec. rewrite (pads_cons c0 (c1 :: c2 :: c3 :: t)), (pads_cons c1 (c2 :: c3 :: t)), (pads_cons c2 (c3 :: t)), (pads_cons c3 t). cbn [app]. f_equal. apply f_equal. lia.
Qed.
Lemma loop_panic {E} l : Nat.modulo (length l) 4 = 0%nat -> Forall (fun c => 0 <= c) l -> ~ Forall below l -> decode_loop (E:=E) l = Panic.
Proof.
  revert l. apply (list_4_ind (fun l => Forall (fun c => 0 <= c) l -> ~ Forall below l -> decode_loop (E:=E) l = Panic)).
  { intros _ H. destruct H. constructor. }
  intros c0 c1 c2 c3 t IH F N. rewrite !Forall_cons_iff in F. destruct F as (B0 & B1 & B2 & B3 & F). rewrite !Forall_cons_iff in N. cbn [decode_loop].
  destruct (Z_le_dec c0 122) as [L0|L0]; [|now rewrite char_panic by lia]. destruct (char_read (E:=E) c0) as (s0 & _ & _ & ->); [unfold below; lia|]. cbn [bind].
  destruct (Z_le_dec c1 122) as [L1|L1]; [|now rewrite char_panic by lia]. destruct (char_read (E:=E) c1) as (s1 & _ & _ & ->); [unfold below; lia|]. cbn [bind].
  destruct (Z_le_dec c2 122) as [L2|L2]; [|now rewrite char_panic by lia]. destruct (char_read (E:=E) c2) as (s2 & _ & _ & ->); [unfold below; lia|]. cbn [bind].
  destruct (Z_le_dec c3 122) as [L3|L3]; [|now rewrite char_panic by lia]. destruct (char_read (E:=E) c3) as (s3 & _ & _ & ->); [unfold below; lia|]. cbn [bind].
  rewrite IH; [reflexivity|exact F|]. intros X. apply N. unfold below. tauto.
Qed.

Lemma read l : Nat.modulo (length l) 4 = 0%nat -> Forall below l ->
  exists x, is_bytes x /\ b64 x = map as_digit l /\ decode l = Ok (firstn (length x - pads l) x).
Proof. intros L F. destruct (loop_read (E:=unit) l L F) as (x & X & B & D). exists x. split; [exact X|]. split; [exact B|]. unfold decode. rewrite L. cbn [Nat.eqb negb]. now rewrite D. Qed.
Lemma length_refused l : Nat.modulo (length l) 4 <> 0%nat -> decode l = Err tt.
Proof. intros L. unfold decode. destruct (Nat.eqb_spec (Nat.modulo (length l) 4) 0); [contradiction|reflexivity]. Qed.
Lemma panics l : Forall (fun c => 0 <= c) l -> (decode l = Panic <-> Nat.modulo (length l) 4 = 0%nat /\ Exists (fun c => 122 < c) l).
Proof.
  intros F. destruct (Nat.eq_dec (Nat.modulo (length l) 4) 0) as [L|L].
  - destruct (Forall_dec below (fun c => ltac:(unfold below; destruct (Z_le_dec 0 c), (Z_le_dec c 122); [left; lia|right; lia..])) l) as [B|B].
    + destruct (read l L B) as (x & _ & _ & ->). split; [discriminate|]. intros (_ & X). exfalso. apply Exists_exists in X. destruct X as (c & I & X).
      rewrite Forall_forall in B. specialize (B c I). unfold below in B. lia.
    + split; intros _.
      * split; [exact L|]. destruct (Exists_dec (fun c => 122 < c) l (fun c => Z_lt_dec 122 c)) as [X|X]; [exact X|]. exfalso. apply B.
        apply Forall_forall. intros c I. rewrite Forall_forall in F. specialize (F c I). unfold below. split; [exact F|].
        destruct (Z_le_dec c 122); [assumption|]. exfalso. apply X. apply Exists_exists. exists c. split; [exact I|lia].
      * unfold decode. rewrite L. cbn [Nat.eqb negb]. now rewrite loop_panic.
  - rewrite length_refused by exact L. split; [discriminate|]. now intros (H & _).
Qed.

Lemma strewn_char {E} c d : c = d \/ c = 65 /\ stray d -> dec_char (E:=E) d = dec_char c.
Proof.
  intros [->|(-> & B & N & P)]; [reflexivity|].
  assert (forallb (fun d => in_alphabet d || (d =? 61) || (reverse_char d =? 0)) (zrange 123) = true) as F by (vm_compute; reflexivity).
  unfold below in B. pose proof (forallb_zrange _ _ F d ltac:(lia)) as G. cbv beta in G. rewrite !orb_true_iff in G. unfold pad in P.
  destruct G as [[G|G]|G]; [|lia|].
  - exfalso. apply N. unfold in_alphabet in G. apply existsb_exists in G. destruct G as (y & I & G). apply Z.eqb_eq in G. now subst y.
  - apply Z.eqb_eq in G. unfold dec_char. destruct (Z.eqb_spec d 61); [contradiction|]. destruct (Z.leb_spec d 122); [|lia]. rewrite G. reflexivity.
Qed.
Lemma strewn_loop {E} l : forall l', strewn l l' -> decode_loop (E:=E) l' = decode_loop l.
Proof.
  induction l as [l IH] using list_len_ind. intros l' S.
  destruct S as [|c0 d0 l l' H0 S]; [reflexivity|]. destruct S as [|c1 d1 l l' H1 S]; [reflexivity|]. destruct S as [|c2 d2 l l' H2 S]; [reflexivity|].
  destruct S as [|c3 d3 l l' H3 S]; [reflexivity|]. cbn [decode_loop].
  rewrite (strewn_char _ _ H0), (strewn_char _ _ H1), (strewn_char _ _ H2), (strewn_char _ _ H3). rewrite (IH l); [reflexivity|cbn; lia|exact S].
Qed.
Lemma strewn_decode l l' : strewn l l' -> decode l' = decode l.
Proof. intros S. unfold decode. rewrite (strewn_loop l l' S). assert (length l = length l') as -> by (clear - S; induction S; cbn; congruence). reflexivity. Qed.

(* ---- blocks with any body ---- *)
Lemma block_any is t body : Forall item_ok is -> title_ok t -> (forall l, In l body -> ~ In nl l /\ starts_with s_END l = false) ->
  pem_parse (text_of_lines (file_lines is ++ item_lines (Block t body []))) =
  let! d := decode (concat body) in Ok ((t, d) :: add_items [] is).
Proof.
  intros Hok Ht B. unfold pem_parse. fold st0. cbn [item_lines].
  rewrite split_text.
  2:{ intros l Hl. apply in_app_iff in Hl. destruct Hl as [Hl|[<-|Hl]]; [now apply (lines_nonl is)|apply begin_nonl, Ht|].
      apply in_app_iff in Hl. destruct Hl as [Hl|[<-|[]]]; [now apply B|apply end_nonl, Ht]. }
  rewrite <- app_assoc, pem_lines_app. destruct (pem_items is st0 Hok) as (s & E & (Hi & Hcn) & M & D); [split; [discriminate|reflexivity]|].
  rewrite E. cbn [bind app pem_lines]. rewrite (pem_begin s t Ht Hi). cbn [bind]. rewrite <- app_assoc, pem_lines_app.
  rewrite pem_body; [|reflexivity|intros l Hl; now apply B]. cbn [bind p_title p_content p_map app pem_lines]. unfold pem_line at 1. cbn [p_state p_content p_title p_map].
  assert (starts_with s_END (end_line t) = true) as -> by reflexivity. rewrite Hcn. cbn [app]. destruct (decode (concat body)); cbn [bind]; [|reflexivity..].
  rewrite M. reflexivity.
Qed.

(* ---- files with carriage returns ---- *)
Lemma firstn_snoc_10 l : firstn 10 l <> BEGIN_ -> firstn 10 (l ++ [13]) <> BEGIN_.
Proof.
  intros H X. destruct (Nat.le_gt_cases 10 (length l)) as [L|L].
  - apply H. rewrite <- X, firstn_app. replace (10 - length l)%nat with 0%nat by lia. now rewrite app_nil_r.
  - rewrite firstn_all2 in X by (rewrite app_length; cbn; lia). apply (f_equal (fun l => last l 0)) in X. rewrite last_last in X. discriminate X.
Qed.
Lemma crlf_begin s t : title_ok t -> p_state s <> PInContent ->
  pem_line s (begin_line t ++ [13]) = Ok {| p_state := PInContent; p_title := t ++ [45]; p_content := p_content s; p_map := p_map s |}.
Proof.
  intros Ht Hs. assert (begin_line t ++ [13] = codes "-----BEGIN " ++ (t ++ [45]) ++ [45; 45; 45; 45; 13]) as R.
  { unfold begin_line. rewrite <- !app_assoc. reflexivity. }
  assert (L : length (begin_line t ++ [13]) = (11 + length (t ++ [45%Z]) + 5)%nat) by (rewrite R, !app_length; cbn; lia).
  assert (str_slice (E:=unit) (begin_line t ++ [13]) 11 (length (begin_line t ++ [13]) - 5) = Ok (t ++ [45])) as S.
  { assert (str_boundary (begin_line t ++ [13]) 11 = true) as B1.
    { rewrite R. unfold str_boundary. rewrite nth_error_app2 by reflexivity. change (11 - length (codes "-----BEGIN "))%nat with 0%nat.
      destruct Ht as (_ & Ht). destruct t as [|b t]; [reflexivity|]. cbn [app nth_error]. lia. }
    assert (str_boundary (begin_line t ++ [13]) (length (begin_line t ++ [13]) - 5) = true) as B2.
    { unfold str_boundary. rewrite L, R. generalize (t ++ [45]). intros u. rewrite app_assoc, nth_error_app2 by (rewrite app_length; change (length (codes "-----BEGIN ")) with 11%nat; lia).
      rewrite app_length. change (length (codes "-----BEGIN ")) with 11%nat. replace (11 + length u + 5 - 5 - (11 + length u))%nat with 0%nat by lia. reflexivity. }
    unfold str_slice. rewrite B1, B2. cbn [andb]. rewrite L, R. apply slice_mid; [reflexivity|]. change (length (codes "-----BEGIN ")) with 11%nat. lia. }
  unfold pem_line. rewrite S, L. assert (starts_with s_BEGIN (begin_line t ++ [13]) = true) as -> by reflexivity.
  destruct (p_state s); try congruence; (destruct (Nat.ltb_spec (11 + length (t ++ [45%Z]) + 5) 5); [lia|]); reflexivity.
Qed.
Lemma digits_below l : is_bytes l -> Forall below (b64 l).
Proof.
  assert (D : forall v, below (digit v)).
  { intros v. assert (forallb (fun v => (0 <=? digit v) && (digit v <=? 122)) (zrange 64) = true) as F by (vm_compute; reflexivity).
    rewrite (digit_mod v (v mod 64)) by lia. pose proof (forallb_zrange _ _ F (v mod 64) ltac:(lia)) as G. cbv beta in G. unfold below. lia. }
  assert (below pad) as P by (unfold below, pad; lia).
  induction l as [l IH] using list_len_ind. intros B. destruct l as [|x0 [|x1 [|x2 t]]]; cbn [b64 app]; repeat (apply Forall_cons; [first [apply D | exact P]|]); try constructor.
  apply IH; [cbn; lia|]. now apply (is_bytes_skipn 3) in B.
Qed.
Definition odd_title (is : list item) (t : list Z) : Prop := exists t' body d, In (Block t' body d) is /\ t = t' ++ [45].
Lemma crlf_lines is : forall s, Forall item_ok is -> idle s ->
  pem_lines s (map (fun l => l ++ [13]) (file_lines is)) = Err tt \/
  exists s', pem_lines s (map (fun l => l ++ [13]) (file_lines is)) = Ok s' /\ idle s' /\
    forall t, pem_get (p_map s') t <> None -> odd_title is t \/ pem_get (p_map s) t <> None.
Proof.
  induction is as [|i is IH]; intros s Hok (Hs & Hc).
  { right. exists s. cbn. repeat split; auto. }
  inversion Hok as [|? ? Hi Hr]; subst. change (file_lines (i :: is)) with (item_lines i ++ file_lines is). rewrite map_app, pem_lines_app.
  destruct i as [l|t body d]; cbn [item_lines].
  - destruct Hi as [Hn Hb]. assert (pem_lines s (map (fun l => l ++ [13]) [l]) = Ok s) as E.
    { cbn [map pem_lines]. unfold pem_line. assert (starts_with s_BEGIN (l ++ [13]) = false) as E1 by (apply list_eqb_false, firstn_snoc_10; exact Hb).
      destruct (p_state s); try congruence; rewrite E1; reflexivity. }
    rewrite E. cbn [bind]. destruct (IH s Hr (conj Hs Hc)) as [A|(s' & A & B & C)]; [now left|right]. exists s'. split; [exact A|]. split; [exact B|].
    intros t T. destruct (C t T) as [(t' & b' & d' & I & Q)|Q]; [left|now right]. exists t', b', d'. split; [now right|exact Q].
  - destruct Hi as (Hn & Hcat & Hd). cbn [map pem_lines]. rewrite (crlf_begin s t Hn Hs). cbn [bind]. rewrite map_app, pem_lines_app.
    assert (forall l, In l (map (fun l => l ++ [13]) body) -> starts_with s_END l = false) as NE.
    { intros l Hl. apply in_map_iff in Hl. destruct Hl as (l0 & <- & Hl). unfold starts_with. apply list_eqb_false. intros X.
      assert (forall c, In c l0 -> c <> 45) as Nd. { intros c I. apply (alphabet_b64 d); [exact Hd|]. rewrite <- Hcat. apply in_concat. eauto. }
      destruct l0 as [|c l0]; cbn in X; [discriminate X|]. injection X as X _. apply (Nd c); [now left|exact X]. }
    rewrite pem_body; [|reflexivity|exact NE]. cbn [p_title p_content p_map bind map app pem_lines]. rewrite Hc. cbn [app]. unfold pem_line. cbn [p_state p_content p_title p_map].
    assert (starts_with s_END (end_line t ++ [13]) = true) as -> by reflexivity.
    set (content := concat (map (fun l => l ++ [13]) body)).
    assert (Forall below content) as Bc.
    { assert (Forall below (concat body)) as Bb by (rewrite Hcat; apply digits_below, Hd). subst content. clear - Bb. induction body as [|l body IHb]; [constructor|].
      cbn [map concat] in *. apply Forall_app in Bb. rewrite <- app_assoc. apply Forall_app. split; [tauto|]. cbn [app]. constructor; [unfold below; lia|tauto]. }
    destruct (Nat.eq_dec (Nat.modulo (length content) 4) 0) as [L|L]; [|rewrite length_refused by exact L; now left].
    destruct (read content L Bc) as (x & _ & _ & ->). cbn [bind].
    match goal with |- context [pem_lines ?s0 (map _ (file_lines is))] => destruct (IH s0 Hr) as [A|(s' & A & B & C)] end; [split; [discriminate|reflexivity]|now left|].
    right. exists s'. split; [exact A|]. split; [exact B|]. intros u U. cbn [p_map] in C. destruct (C u U) as [(t' & b' & d' & I & Q)|Q].
    + left. exists t', b', d'. split; [now right|exact Q].
    + unfold pem_get in Q. cbn [find fst] in Q. destruct (list_eqb (t ++ [45]) u) eqn:Eu; [|now right].
      left. exists t, body, d. split; [now left|]. destruct (list_eq_dec Z.eq_dec u (t ++ [45])); [assumption|]. rewrite (proj2 (list_eqb_false (t ++ [45]) u)) in Eu by congruence. discriminate Eu.
Qed.
Lemma crlf_file is : Forall item_ok is -> pem_parse (text_of_crlf (file_lines is)) = Err tt \/
  exists m, pem_parse (text_of_crlf (file_lines is)) = Ok m /\ forall t, pem_get m t <> None -> odd_title is t.
Proof.
  intros Hok. unfold pem_parse, text_of_crlf. fold st0. rewrite split_text.
  2:{ intros l Hl. apply in_map_iff in Hl. destruct Hl as (l0 & <- & Hl). rewrite in_app_iff. intros [X|[X|[]]]; [|unfold nl in X; lia]. revert X. now apply (lines_nonl is). }
  rewrite pem_lines_app. destruct (crlf_lines is st0 Hok) as [->|(s & -> & (Hi & Hc) & M)]; [split; [discriminate|reflexivity]|now left|]. cbn [bind pem_lines].
  assert (pem_line s [] = Ok s) as -> by (unfold pem_line; destruct (p_state s); try congruence; reflexivity). cbn [bind].
  destruct (p_state s); [now left|now left|right]. eexists. split; [reflexivity|]. intros t T. destruct (M t T) as [X|X]; [exact X|]. now destruct X.
Qed.
