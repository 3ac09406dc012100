From Verif Require Import Model.Base Model.Bytes Model.Der Model.X509 Model.Certificate Spec.Enc Spec.Calendar Spec.X509 Spec.X509View
  Proofs.Util Proofs.Bytes Proofs.Time Proofs.X509.
From Coq Require Import Lia.

(* ---- UTF-8 ---- *)
Lemma utf8_valid_app_char c l : scalar_value c -> utf8_valid (utf8_char c ++ l) = utf8_valid l.
Proof.
  unfold scalar_value, utf8_char. intros H.
  destruct (Z.ltb_spec c 0x80).
  - cbn [app utf8_valid]. destruct (Z.ltb_spec c 128); [reflexivity|lia].
  - destruct (Z.ltb_spec c 0x800).
    + cbn [app utf8_valid]. unfold cont.
      assert (D : 2 <= c / 64 < 32) by (split; [apply Z.div_le_lower_bound; lia|apply Z.div_lt_upper_bound; lia]).
      assert (M : 0 <= c mod 64 < 64) by (apply Z.mod_pos_bound; lia).
      replace (0xC0 + c / 64 <? 0x80) with false by lia.
      replace ((0xC2 <=? 0xC0 + c / 64) && (0xC0 + c / 64 <=? 0xDF)) with true by lia.
      replace ((128 <=? 0x80 + c mod 64) && (0x80 + c mod 64 <? 192)) with true by lia. reflexivity.
    + assert (M : 0 <= c mod 64 < 64) by (apply Z.mod_pos_bound; lia).
      assert (M1 : 0 <= c / 64 mod 64 < 64) by (apply Z.mod_pos_bound; lia).
      assert (M2 : 0 <= c / 4096 mod 64 < 64) by (apply Z.mod_pos_bound; lia).
      destruct (Z.ltb_spec c 0x10000).
      * cbn [app utf8_valid]. unfold cont.
        assert (E : c / 4096 = c / 64 / 64) by (rewrite Z.div_div by lia; reflexivity).
        assert (DM : c / 64 = 64 * (c / 4096) + c / 64 mod 64) by (rewrite E; apply Z.div_mod; lia).
        assert (D0 : 32 <= c / 64 < 1024) by (split; [apply Z.div_le_lower_bound; lia|apply Z.div_lt_upper_bound; lia]).
        assert (S1 : c / 64 < 864 \/ 896 <= c / 64).
        { destruct H; [left; apply Z.div_lt_upper_bound; lia|right; apply Z.div_le_lower_bound; lia]. }
        replace ((128 <=? 0x80 + c mod 64) && (0x80 + c mod 64 <? 192)) with true by lia.
        set (q := c / 4096) in *. set (w := c / 64 mod 64) in *. clearbody q w. clear M.
        replace (0xE0 + q <? 0x80) with false by lia.
        replace ((0xC2 <=? 0xE0 + q) && (0xE0 + q <=? 0xDF)) with false by lia.
        replace ((128 <=? 128 + w) && (128 + w <? 192)) with true by lia.
        destruct (Z.eqb_spec (0xE0 + q) 0xE0).
        -- replace ((0xA0 <=? 128 + w) && (128 + w <=? 0xBF)) with true by lia. reflexivity.
        -- destruct (Z.eqb_spec q 13).
           ++ replace ((0xE1 <=? 0xE0 + q) && (0xE0 + q <=? 0xEC) || (0xEE <=? 0xE0 + q) && (0xE0 + q <=? 0xEF)) with false by lia.
              replace (0xE0 + q =? 0xED) with true by lia.
              replace ((0x80 <=? 128 + w) && (128 + w <=? 0x9F)) with true by lia. reflexivity.
           ++ replace ((0xE1 <=? 0xE0 + q) && (0xE0 + q <=? 0xEC) || (0xEE <=? 0xE0 + q) && (0xE0 + q <=? 0xEF)) with true by lia.
              reflexivity.
      * cbn [app utf8_valid]. unfold cont.
        assert (E : c / 262144 = c / 4096 / 64) by (rewrite Z.div_div by lia; reflexivity).
        assert (DM : c / 4096 = 64 * (c / 262144) + c / 4096 mod 64) by (rewrite E; apply Z.div_mod; lia).
        assert (D0 : 16 <= c / 4096 < 272) by (split; [apply Z.div_le_lower_bound; lia|apply Z.div_lt_upper_bound; lia]).
        replace ((128 <=? 0x80 + c mod 64) && (0x80 + c mod 64 <? 192)) with true by lia.
        replace ((128 <=? 128 + c / 64 mod 64) && (128 + c / 64 mod 64 <? 192)) with true by lia.
        set (q := c / 262144) in *. set (w := c / 4096 mod 64) in *. clearbody q w. clear M M1.
        replace (0xF0 + q <? 0x80) with false by lia.
        replace ((0xC2 <=? 0xF0 + q) && (0xF0 + q <=? 0xDF)) with false by lia.
        replace (0xF0 + q =? 0xE0) with false by lia.
        replace ((0xE1 <=? 0xF0 + q) && (0xF0 + q <=? 0xEC) || (0xEE <=? 0xF0 + q) && (0xF0 + q <=? 0xEF)) with false by lia.
        replace (0xF0 + q =? 0xED) with false by lia.
        replace ((128 <=? 128 + w) && (128 + w <? 192)) with true by lia.
        destruct (Z.eqb_spec (0xF0 + q) 0xF0).
        -- replace ((0x90 <=? 128 + w) && (128 + w <=? 0xBF)) with true by lia. reflexivity.
        -- destruct (Z.eqb_spec q 4).
           ++ replace ((0xF1 <=? 0xF0 + q) && (0xF0 + q <=? 0xF3)) with false by lia.
              replace (0xF0 + q =? 0xF4) with true by lia.
              replace ((0x80 <=? 128 + w) && (128 + w <=? 0x8F)) with true by lia. reflexivity.
           ++ replace ((0xF1 <=? 0xF0 + q) && (0xF0 + q <=? 0xF3)) with true by lia. reflexivity.
Qed.
Lemma utf8_text_valid text : Forall scalar_value text -> utf8_valid (utf8 text) = true.
Proof.
  unfold utf8. induction 1 as [|c l Hc _ IH]; [reflexivity|]. cbn [map concat]. now rewrite utf8_valid_app_char.
Qed.
Lemma utf8_digits l : Forall (fun b => 0 <= b < 128) l -> utf8_valid l = true.
Proof.
  induction 1 as [|c l Hc _ IH]; [reflexivity|]. cbn [utf8_valid]. destruct (Z.ltb_spec c 128); [exact IH|lia].
Qed.
Lemma utc_text_ascii i : time_ok i -> Forall (fun b => 0 <= b < 128) (utc_time_text i).
Proof.
  intros ((Hm & Hd & Hh & Hmi & Hs) & Hy). pose proof (month_length_le (year i) (month i)).
  assert (Hyy : 0 <= year i mod 100 < 100) by (apply Z.mod_pos_bound; lia).
  assert (D : forall n, 0 <= n < 100 -> Forall (fun b => 0 <= b < 128) (digits2 n)).
  { intros n Hn. apply digit_bounds in Hn. repeat constructor; lia. }
  unfold utc_time_text. repeat (apply Forall_app; split); try (apply D; lia). repeat constructor; lia.
Qed.

(* ---- one element ---- *)
Definition hlen (content : list Z) : nat := S (length (der_length (Z.of_nat (length content)))).
Lemma der_len_eq tag content : length (der tag content) = (hlen content + length content)%nat.
Proof. unfold der, hlen. cbn [length]. rewrite app_length. lia. Qed.
Lemma hlen_min content : (2 <= hlen content)%nat.
Proof.
  unfold hlen, der_length. repeat (destruct (_ <? _)); cbn [length]; rewrite ?be_enc_length; lia.
Qed.

Lemma idx_app {E A} (pre : list A) x post k : k = length pre -> idx (E:=E) (pre ++ x :: post) k = Ok x.
Proof. intros ->. unfold idx. rewrite nth_error_app2 by lia. now rewrite Nat.sub_diag. Qed.

Lemma der_parse_at pre tag content post form :
  der_from_u8 tag = Some form -> Z.of_nat (length content) < 2^24 ->
  der_parse (length pre) (pre ++ der tag content ++ post) = Ok (length content, form, (length pre + hlen content)%nat).
Proof.
  intros Hf Hn. unfold der_parse, der. cbn [app]. rewrite idx_app by reflexivity. cbn [bind]. rewrite Hf.
  set (n := Z.of_nat (length content)) in *. assert (Hn0 : 0 <= n) by lia.
  assert (G : forall E, get_len (E:=E) (pre ++ tag :: (der_length n ++ content) ++ post) (length pre + 1) =
                 Ok (n, (length pre + S (length (der_length n)))%nat)).
  { intros E. unfold get_len, der_length.
    assert (L : forall k h, (k <= 16)%nat -> 0 <= n < 256 ^ Z.of_nat k -> Z.land (Z.shiftr h 7) 1 =? 1 = true ->
       Z.to_nat (Z.land h 0x7F) = k ->
       get_len (E:=E) (pre ++ tag :: ((h :: be_enc k n) ++ content) ++ post) (length pre + 1) =
         Ok (n, (length pre + S (length (h :: be_enc k n)))%nat)).
    { intros k h Hk Hkn Hh Hh2. unfold get_len.
      replace (pre ++ tag :: ((h :: be_enc k n) ++ content) ++ post) with ((pre ++ [tag]) ++ h :: (be_enc k n ++ content ++ post))
        by (rewrite <- !app_assoc; reflexivity).
      rewrite idx_app by (rewrite app_length; cbn; lia). cbn [bind]. rewrite Hh, Hh2.
      replace ((pre ++ [tag]) ++ h :: be_enc k n ++ content ++ post) with ((pre ++ [tag; h]) ++ be_enc k n ++ content ++ post)
        by (rewrite <- !app_assoc; reflexivity).
      rewrite slice_mid by (rewrite ?app_length, ?be_enc_length; cbn; lia). cbn [bind].
      rewrite to_u128_be_fill_val by (auto using be_enc_bytes; rewrite be_enc_length; lia).
      rewrite be_val_enc, Z.mod_small by lia.
      rewrite u64_id by lia. cbn [length]. rewrite be_enc_length. do 2 f_equal. lia. }
    destruct (Z.ltb_spec n 128).
    - replace (pre ++ tag :: ([n] ++ content) ++ post) with ((pre ++ [tag]) ++ n :: (content ++ post))
        by (rewrite <- !app_assoc; reflexivity).
      rewrite idx_app by (rewrite app_length; cbn; lia). cbn [bind].
      rewrite Z.shiftr_div_pow2 by lia. change (2^7) with 128. rewrite Z.div_small by lia. cbn [length]. cbn.
      do 2 f_equal. lia.
    - destruct (Z.ltb_spec n 256); [apply (L 1%nat); [lia|cbn; lia|reflexivity|reflexivity]|].
      destruct (Z.ltb_spec n 65536); [apply (L 2%nat); [lia|cbn; lia|reflexivity|reflexivity]|].
      apply (L 3%nat); [lia|cbn; lia|reflexivity|reflexivity]. }
  rewrite G. cbn [bind]. replace (zlen _ <? n) with false.
  - unfold hlen. subst n. rewrite Nat2Z.id. reflexivity.
  - symmetry. apply Z.ltb_ge. unfold zlen. rewrite app_length. cbn [length]. rewrite !app_length. lia.
Qed.

Lemma data_split pre tag content post :
  pre ++ der tag content ++ post = (pre ++ tag :: der_length (Z.of_nat (length content))) ++ content ++ post.
Proof. unfold der. rewrite <- !app_assoc. cbn [app]. rewrite <- !app_assoc. reflexivity. Qed.
Lemma pre_length pre tag content :
  length (pre ++ tag :: der_length (Z.of_nat (length content))) = (length pre + hlen content)%nat.
Proof. rewrite app_length. reflexivity. Qed.

Definition parses (st : parsing_state) (e : list Z) (b b' : builder) : Prop :=
  forall pre post fuel, (length e < fuel)%nat ->
  parse fuel b st (pre ++ e ++ post) (length pre) = Ok (b', (length pre + length e)%nat).

Ltac start :=
  let pre := fresh "pre" in let post := fresh "post" in let fuel := fresh "fuel" in let H := fresh "Hfuel" in
  intros pre post fuel H; destruct fuel as [|fuel]; [lia|]; rewrite parse_S;
  erewrite der_parse_at by (first [reflexivity|eassumption|lia]); cbn [lift bind];
  rewrite data_split, slice_mid by (rewrite pre_length; lia); cbn [bind]; try rewrite <- data_split;
  rewrite der_len_eq in *.

Lemma parses_int st content b : Z.of_nat (length content) < 2^24 ->
  parses st (INTEGER content) b (on_integer b (be_val content)).
Proof. intros Hn. unfold INTEGER. start. rewrite to_ibig_be_val. do 2 f_equal. lia. Qed.

Lemma parses_skip st n content b : 1 <= n <= 3 -> Z.of_nat (length content) < 2^24 ->
  parses st (EXPLICIT n content) b b.
Proof.
  intros Hn Hl. unfold EXPLICIT.
  assert (T : der_from_u8 (0xA0 + n) = Some (Constructed (DContextSpecific n))).
  { assert (n = 1 \/ n = 2 \/ n = 3) as [-> | [-> | ->]] by lia; reflexivity. }
  start. replace (n =? 0) with false by lia. cbn [bind]. do 2 f_equal. lia.
Qed.
Lemma parses_version st v b : 0 <= v <= 2 -> parses st (EXPLICIT 0 (INTEGER [v])) b (set_version v b).
Proof.
  intros Hv. unfold EXPLICIT. assert (Hn : Z.of_nat (length (INTEGER [v])) < 2^24) by (cbn; lia).
  start. change (slice_from (INTEGER [v]) 2) with (@Ok (option parse_error) _ [v]). cbn [bind].
  unfold version_parse.
  replace ((v =? 0) || (v =? 1) || (v =? 2)) with true by lia. cbn [lift bind]. change (Z.land (160 + 0) 15 =? 0) with true. cbn [bind]. do 2 f_equal. lia.
Qed.
Lemma parses_oid_init content b b' : Z.of_nat (length content) < 2^24 -> on_init_oid b content = Ok b' ->
  parses Init (OBJECT_IDENTIFIER content) b b'.
Proof. intros Hn Hb. unfold OBJECT_IDENTIFIER. start. rewrite Hb. cbn [lift bind]. do 2 f_equal. lia. Qed.
Lemma parses_oid_set content b : Z.of_nat (length content) < 2^24 ->
  parses InSet (OBJECT_IDENTIFIER content) b (on_set_oid b content).
Proof. intros Hn. unfold OBJECT_IDENTIFIER. start. do 2 f_equal. lia. Qed.
Lemma parses_string st s content b b' : Z.of_nat (length content) < 2^24 -> on_string b content = Ok b' ->
  parses st (der (string_tag s) content) b b'.
Proof.
  intros Hn Hb. destruct s; cbn [string_tag]; start; rewrite Hb; cbn [lift bind]; do 2 f_equal; lia.
Qed.
Lemma parses_time st i b b' : on_time b (utc_time_text i) = Ok b' -> parses st (UTCTime i) b b'.
Proof.
  intros Hb. unfold UTCTime. assert (Hn : Z.of_nat (length (utc_time_text i)) < 2^24) by (cbn; lia).
  start. rewrite Hb. cbn [lift bind]. do 2 f_equal. lia.
Qed.
Lemma parses_set st e b b' : Z.of_nat (length e) < 2^24 -> parses InSet e b b' -> parses st (SET1 e) b b'.
Proof.
  intros Hn He. unfold SET1. start. rewrite data_split, <- pre_length with (tag := 0x31). pose proof (hlen_min e).
  rewrite He by lia. rewrite pre_length. do 2 f_equal. lia.
Qed.
Lemma parses_key st k ks b : Z.of_nat (length (0 :: k :: ks)) < 2^24 -> k <> 0x30 -> b_spki_key b = None ->
  parses st (BIT_STRING (k :: ks)) b (set_spki_key (k :: ks) b).
Proof.
  intros Hn Hk Hb. unfold BIT_STRING.
  start. rewrite data_split. cbn [app].
  match goal with |- context [?P ++ 0 :: k :: ?Q] => 
    assert (I1 : idx (E:=option parse_error) (P ++ 0 :: k :: Q) (length pre + hlen (0 :: k :: ks) + 1) = Ok k);
    [replace (P ++ 0 :: k :: Q) with ((P ++ [0]) ++ k :: Q) by (rewrite <- app_assoc; reflexivity);
     apply idx_app; rewrite app_length, pre_length; cbn [length]; lia|];
    assert (I0 : idx (E:=option parse_error) (P ++ 0 :: k :: Q) (length pre + hlen (0 :: k :: ks)) = Ok 0);
    [apply idx_app; rewrite pre_length; reflexivity|]
  end.
  rewrite I1. cbn [bind]. replace (k =? 0x30) with false by lia. rewrite I0. cbn [bind]. change (negb (0 =? 0)) with false.
  cbn iota. rewrite Hb. change (slice_from (0 :: k :: ks) 1) with (@Ok (option parse_error) _ (k :: ks)). cbn [bind].
  do 2 f_equal. lia.
Qed.

(* ---- sequences of elements ---- *)
Inductive items (st : parsing_state) : list (list Z) -> builder -> builder -> Prop :=
| items_nil b : items st [] b b
| items_cons e l b b1 b2 : (0 < length e)%nat -> parses st e b b1 -> items st l b1 b2 -> items st (e :: l) b b2.
Lemma items_app st l1 l2 b b1 b2 : items st l1 b b1 -> items st l2 b1 b2 -> items st (l1 ++ l2) b b2.
Proof. induction 1; intros; [assumption|]. cbn. econstructor; eauto. Qed.
Lemma items_one st e b b' : (0 < length e)%nat -> parses st e b b' -> items st [e] b b'.
Proof. intros. econstructor; eauto. constructor. Qed.

Lemma while_items st l b b' : items st l b b' -> forall pre post fuel k,
  (length (concat l) < fuel)%nat -> (length (concat l) < k)%nat ->
  parse_while (fun b c => parse fuel b st (pre ++ concat l ++ post) c) k (length pre + length (concat l)) b (length pre)
  = Ok (b', (length pre + length (concat l))%nat).
Proof.
  induction 1 as [b|e l b b1 b2 He Hp _ IH]; intros pre post fuel k Hf Hk; destruct k as [|k]; try lia; cbn [parse_while].
  - cbn [concat length]. rewrite Nat.add_0_r, Nat.ltb_irrefl. reflexivity.
  - cbn [concat] in *. rewrite app_length in *.
    replace (Nat.ltb _ _) with true by (symmetry; apply Nat.ltb_lt; lia).
    rewrite <- app_assoc. rewrite Hp by lia. cbn [bind].
    specialize (IH (pre ++ e) post fuel k ltac:(lia) ltac:(lia)).
    rewrite app_length, <- app_assoc in IH. rewrite <- Nat.add_assoc in IH. rewrite IH. first [reflexivity | do 2 f_equal; lia].
Qed.

Lemma parses_seq st l b b' : Z.of_nat (length (concat l)) < 2^24 -> items st l (on_sequence b (length (concat l))) b' ->
  parses st (SEQUENCE l) b b'.
Proof.
  intros Hn Hi. unfold SEQUENCE. start. rewrite data_split, <- pre_length with (tag := 0x30). pose proof (hlen_min (concat l)).
  rewrite (Nat.add_comm (length (concat l))).
  rewrite (while_items _ _ _ _ Hi) by lia. rewrite pre_length. do 2 f_equal. lia.
Qed.
Lemma parses_sig st l b b' : Z.of_nat (length (0 :: SEQUENCE l)) < 2^24 -> b_tbs_size b <> 0%nat -> b_tbs_size b <> 1%nat ->
  items InBitString l b b' ->
  parses st (BIT_STRING (SEQUENCE l)) b b'.
Proof.
  intros Hn T0 T1 Hi. unfold BIT_STRING.
  assert (Hs : (length (concat l) <= length (SEQUENCE l))%nat) by (unfold SEQUENCE; rewrite der_len_eq; lia).
  assert (Hn' : Z.of_nat (length (concat l)) < 2^24) by (cbn [length] in *; lia).
  assert (Ip : items InBitString [SEQUENCE l] b b').
  { apply items_one; [unfold SEQUENCE; rewrite der_len_eq; pose proof (hlen_min (concat l)); lia|].
    apply parses_seq; [lia|]. unfold on_sequence.
    destruct (Nat.eqb_spec (b_tbs_size b) 0); [contradiction|]. destruct (Nat.eqb_spec (b_tbs_size b) 1); [contradiction|]. exact Hi. }
  pose proof (hlen_min (0 :: SEQUENCE l)).
  start. rewrite data_split.
  set (P := pre ++ 0x03 :: der_length (Z.of_nat (length (0 :: SEQUENCE l)))).
  assert (LP : length P = (length pre + hlen (0%Z :: SEQUENCE l))%nat) by apply pre_length.
  assert (ED : P ++ (0 :: SEQUENCE l) ++ post = (P ++ [0]) ++ concat [SEQUENCE l] ++ post).
  { cbn [concat]. rewrite app_nil_r, <- !app_assoc. reflexivity. }
  rewrite ED. set (hl := hlen (0 :: SEQUENCE l)) in *.
  assert (I1 : idx (E:=option parse_error) ((P ++ [0]) ++ concat [SEQUENCE l] ++ post) (length pre + hl + 1) = Ok 0x30).
  { cbn [concat]. rewrite app_nil_r. unfold SEQUENCE, der. cbn [app]. apply idx_app. rewrite app_length, LP. cbn. lia. }
  rewrite I1. cbn [bind]. change (0x30 =? 0x30) with true. cbn iota.
  replace (length pre + hl + 1)%nat with (length (P ++ [0])) by (rewrite app_length, LP; cbn; lia).
  assert (LC : length (concat [SEQUENCE l]) = length (SEQUENCE l)) by (cbn [concat]; now rewrite app_nil_r).
  replace (length (0%Z :: SEQUENCE l) + length (P ++ [0%Z]) - 1)%nat with (length (P ++ [0%Z]) + length (concat [SEQUENCE l]))%nat
    by (rewrite LC; cbn [length]; lia).
  cbn [length] in Hfuel.
  rewrite (while_items _ _ _ _ Ip) by lia. rewrite LC, app_length, LP. cbn [length]. do 2 f_equal. lia.
Qed.

(* ---- lengths ---- *)
Lemma len_in (e : list Z) l : In e l -> (length e <= length (concat l))%nat.
Proof.
  induction l as [|x l IH]; intros H; [destruct H|]. cbn [concat]. rewrite app_length. destruct H as [<-|H]; [lia|].
  specialize (IH H). lia.
Qed.
Lemma len_der tag content : (length content + 2 <= length (der tag content))%nat.
Proof. rewrite der_len_eq. pose proof (hlen_min content). lia. Qed.
Lemma len_seq e l : In e l -> (length e + 2 <= length (SEQUENCE l))%nat.
Proof. intros H. apply len_in in H. unfold SEQUENCE. pose proof (len_der 0x30 (concat l)). lia. Qed.

Lemma len_concat_seq l : (length (concat l) + 2 <= length (SEQUENCE l))%nat.
Proof. apply len_der. Qed.

(* ---- names ---- *)
Lemma key_of_oid a : parse_object_identifier (attribute_oid a) = key_of a.
Proof. destruct a; reflexivity. Qed.
Definition add_attr (n : name) (a : attribute) : name :=
  {| n_map := map_insert (key_of (a_type a)) (a_value a) (n_map n); n_key := None |}.
Definition name_of (l : list attribute) : name := fold_left add_attr l name_new.

Definition mk v s sa i nb na sub spa spk size : builder :=
  {| b_version := v; b_serial := s; b_signature_alg := sa; b_issuer := i; b_not_before := nb; b_not_after := na;
     b_subject := sub; b_spki_alg := spa; b_spki_key := spk; b_tbs_size := size; b_cert_alg := None; b_sig0 := None;
     b_sig1 := None |}.

Lemma rdn_issuer v s sa i nb sub spa spk size a :
  Forall scalar_value (a_text a) -> (1 < size)%nat -> Z.of_nat (length (rdn a)) < 2^24 ->
  parses Init (rdn a) (mk v s sa i nb None sub spa spk size) (mk v s sa (add_attr i a) nb None sub spa spk size).
Proof.
  intros Hu Hs Hn. unfold rdn in *.
  set (sq := SEQUENCE [OBJECT_IDENTIFIER (attribute_oid (a_type a)); der (string_tag (a_string a)) (a_value a)]) in *.
  pose proof (len_der 0x31 sq).
  change (der 0x31 sq) with (SET1 sq) in *.
  assert (L1 : (length (OBJECT_IDENTIFIER (attribute_oid (a_type a))) + 2 <= length sq)%nat) by (apply len_seq; cbn; auto).
  assert (L2 : (length (der (string_tag (a_string a)) (a_value a)) + 2 <= length sq)%nat) by (apply len_seq; cbn; auto).
  pose proof (len_der 0x06 (attribute_oid (a_type a))).
  change (der 0x06 (attribute_oid (a_type a))) with (OBJECT_IDENTIFIER (attribute_oid (a_type a))) in *.
  pose proof (len_der (string_tag (a_string a)) (a_value a)).
  apply parses_set; [lia|]. unfold sq. apply parses_seq.
  { pose proof (len_concat_seq [OBJECT_IDENTIFIER (attribute_oid (a_type a)); der (string_tag (a_string a)) (a_value a)]) as LQ.
    fold sq in LQ. lia. }
  replace (on_sequence (mk v s sa i nb None sub spa spk size) _) with (mk v s sa i nb None sub spa spk size).
  2:{ unfold on_sequence, mk. cbn [b_tbs_size]. destruct size as [|[|size]]; [lia|lia|reflexivity]. }
  econstructor; [lia|apply parses_oid_set; lia|]. apply items_one; [lia|].
  apply parses_string; [lia|]. unfold on_string, a_value. rewrite utf8_text_valid by exact Hu.
  unfold on_set_oid, mk. cbn [b_not_after negb]. unfold set_issuer, add_object_identifier, add_value.
  cbn [b_issuer n_key b_not_after n_map bind]. rewrite key_of_oid. reflexivity.
Qed.
Lemma rdn_subject v s sa i nb na sub spa spk size a :
  Forall scalar_value (a_text a) -> (1 < size)%nat -> Z.of_nat (length (rdn a)) < 2^24 ->
  parses Init (rdn a) (mk v s sa i nb (Some na) sub spa spk size) (mk v s sa i nb (Some na) (add_attr sub a) spa spk size).
Proof.
  intros Hu Hs Hn. unfold rdn in *.
  set (sq := SEQUENCE [OBJECT_IDENTIFIER (attribute_oid (a_type a)); der (string_tag (a_string a)) (a_value a)]) in *.
  pose proof (len_der 0x31 sq).
  change (der 0x31 sq) with (SET1 sq) in *.
  assert (L1 : (length (OBJECT_IDENTIFIER (attribute_oid (a_type a))) + 2 <= length sq)%nat) by (apply len_seq; cbn; auto).
  assert (L2 : (length (der (string_tag (a_string a)) (a_value a)) + 2 <= length sq)%nat) by (apply len_seq; cbn; auto).
  pose proof (len_der 0x06 (attribute_oid (a_type a))).
  change (der 0x06 (attribute_oid (a_type a))) with (OBJECT_IDENTIFIER (attribute_oid (a_type a))) in *.
  pose proof (len_der (string_tag (a_string a)) (a_value a)).
  apply parses_set; [lia|]. unfold sq. apply parses_seq.
  { pose proof (len_concat_seq [OBJECT_IDENTIFIER (attribute_oid (a_type a)); der (string_tag (a_string a)) (a_value a)]) as LQ.
    fold sq in LQ. lia. }
  replace (on_sequence (mk v s sa i nb (Some na) sub spa spk size) _) with (mk v s sa i nb (Some na) sub spa spk size).
  2:{ unfold on_sequence, mk. cbn [b_tbs_size]. destruct size as [|[|size]]; [lia|lia|reflexivity]. }
  econstructor; [lia|apply parses_oid_set; lia|]. apply items_one; [lia|].
  apply parses_string; [lia|]. unfold on_string, a_value. rewrite utf8_text_valid by exact Hu.
  unfold on_set_oid, mk. cbn [b_not_after negb]. unfold set_subject, add_object_identifier, add_value.
  cbn [b_subject n_key b_not_after n_map bind]. rewrite key_of_oid. reflexivity.
Qed.
Lemma seq_noop b n : (1 < b_tbs_size b)%nat -> on_sequence b n = b.
Proof. unfold on_sequence. destruct (b_tbs_size b) as [|[|x]]; [lia|lia|reflexivity]. Qed.

Lemma name_issuer v s sa i nb sub spa spk size l :
  Forall (fun a => Forall scalar_value (a_text a)) l -> (1 < size)%nat -> Z.of_nat (length (Name l)) < 2^24 ->
  parses Init (Name l) (mk v s sa i nb None sub spa spk size) (mk v s sa (fold_left add_attr l i) nb None sub spa spk size).
Proof.
  intros Hu Hs Hn. unfold Name in *. pose proof (len_concat_seq (map rdn l)).
  apply parses_seq; [lia|]. rewrite seq_noop by exact Hs.
  assert (Hn' : Z.of_nat (length (concat (map rdn l))) < 2^24) by lia. clear Hn H. revert i Hn'.
  induction Hu as [|a l Ha _ IH]; intros i Hn; [constructor|]. cbn [map concat fold_left] in *. rewrite app_length in Hn.
  econstructor; [|apply rdn_issuer; auto; lia|apply IH; lia].
  unfold rdn, SET1. pose proof (len_der 0x31 (SEQUENCE [OBJECT_IDENTIFIER (attribute_oid (a_type a)); der (string_tag (a_string a)) (a_value a)])). lia.
Qed.
Lemma name_subject v s sa i nb na sub spa spk size l :
  Forall (fun a => Forall scalar_value (a_text a)) l -> (1 < size)%nat -> Z.of_nat (length (Name l)) < 2^24 ->
  parses Init (Name l) (mk v s sa i nb (Some na) sub spa spk size) (mk v s sa i nb (Some na) (fold_left add_attr l sub) spa spk size).
Proof.
  intros Hu Hs Hn. unfold Name in *. pose proof (len_concat_seq (map rdn l)).
  apply parses_seq; [lia|]. rewrite seq_noop by exact Hs.
  assert (Hn' : Z.of_nat (length (concat (map rdn l))) < 2^24) by lia. clear Hn H. revert sub Hn'.
  induction Hu as [|a l Ha _ IH]; intros sub Hn; [constructor|]. cbn [map concat fold_left] in *. rewrite app_length in Hn.
  econstructor; [|apply rdn_subject; auto; lia|apply IH; lia].
  unfold rdn, SET1. pose proof (len_der 0x31 (SEQUENCE [OBJECT_IDENTIFIER (attribute_oid (a_type a)); der (string_tag (a_string a)) (a_value a)])). lia.
Qed.
Lemma oid_eqb_refl a : oid_eqb a a = true.
Proof. destruct a; reflexivity. Qed.
Lemma key_of_eqb a b : oid_eqb (key_of a) (key_of b) = attribute_eqb a b.
Proof. destruct a, b; reflexivity. Qed.
Lemma oid_eqb_eq a b : oid_eqb a b = true -> a = b.
Proof. destruct a, b; cbn; intros; congruence. Qed.

Lemma find_insert k k' v m :
  find (fun p => oid_eqb (fst p) k) (map_insert k' v m) =
  if oid_eqb k' k then Some (k', v) else find (fun p => oid_eqb (fst p) k) m.
Proof.
  unfold map_insert. cbn [find fst]. destruct (oid_eqb k' k) eqn:H; [reflexivity|].
  induction m as [|[k2 v2] m IH]; [reflexivity|]. cbn [filter find fst].
  destruct (oid_eqb k2 k') eqn:H2; cbn [negb].
  - apply oid_eqb_eq in H2. subst k2. rewrite H. exact IH.
  - cbn [find fst]. destruct (oid_eqb k2 k); [reflexivity|exact IH].
Qed.
Lemma name_of_get l k : name_get (name_of l) (key_of k) =
  match last_value k l with Some v => Ok v | None => Err PNameGet end.
Proof.
  unfold name_of, name_get, last_value. rewrite <- fold_left_rev_right.
  induction (rev l) as [|a r IH]; [reflexivity|]. cbn [fold_right n_map]. cbn [add_attr n_map].
  rewrite find_insert, key_of_eqb. cbn [find]. destruct (attribute_eqb (a_type a) k); [reflexivity|exact IH].
Qed.

(* ---- the signed part ---- *)
Definition key_bytes (x y : Z) : list Z := 4 :: be_enc 32 x ++ be_enc 32 y.
Definition tbs_builder (t : tbs) (size : nat) : builder :=
  mk (tbs_version t) (Some (be_val (tbs_serial t))) (Some (ai (alg_of (tbs_signature t)) None)) (name_of (tbs_issuer t))
     (Some (as_utc (tbs_not_before t))) (Some (as_utc (tbs_not_after t))) (name_of (tbs_subject t))
     (Some (ai EcPublicKey (Some Prime256v1))) (Some (key_bytes (tbs_x t) (tbs_y t))) (size + 4).

Lemma on_time_ok b i : time_ok i -> on_time b (utc_time_text i) =
  Ok (match b_not_before b with None => set_not_before (as_utc i) b | Some _ => set_not_after (as_utc i) b end).
Proof.
  intros H. unfold on_time. rewrite utf8_digits by (apply utc_text_ascii, H). cbn [negb].
  rewrite from_text by apply H. cbn [bind]. destruct (b_not_before b); reflexivity.
Qed.

Lemma tbs_items t size : tbs_ok t -> Z.of_nat (length (concat (tbs_elements t))) < 2^24 ->
  items Init (tbs_elements t) (mk None None None name_new None None name_new None None (size + 4)) (tbs_builder t size).
Proof.
  intros (Hv & Ho & Hi & Hsub & Hnb & Hna & Hx & Hy) Hn.
  assert (L : forall e, In e (tbs_elements t) -> Z.of_nat (length e) < 2^24) by (intros e He; apply len_in in He; lia).
  clear Hn. unfold tbs_elements in *. rewrite !in_app_iff in L || idtac.
  set (S4 := (size + 4)%nat) in *. assert (HS : (1 < S4)%nat) by (subst S4; lia).
  apply items_app with (mk (tbs_version t) None None name_new None None name_new None None S4).
  { destruct (tbs_version t) as [v|] eqn:Ev; cbn [opt]; [|constructor]. apply items_one; [cbn; lia|].
    apply (parses_version Init v (mk None None None name_new None None name_new None None S4)). apply Hv. reflexivity. }
  set (V := tbs_version t) in *.
  assert (LS : forall e, In e [INTEGER (tbs_serial t); AlgorithmIdentifier (tbs_signature t); Name (tbs_issuer t);
      SEQUENCE [UTCTime (tbs_not_before t); UTCTime (tbs_not_after t)]; Name (tbs_subject t);
      SubjectPublicKeyInfo (tbs_x t) (tbs_y t)] -> Z.of_nat (length e) < 2^24).
  { intros e He. apply L. apply in_or_app. right. apply in_or_app. left. exact He. }
  cbn [app].
  assert (NZ : forall tag c, (0 < length (der tag c))%nat) by (intros tag c; pose proof (len_der tag c); lia).
  econstructor; [apply NZ|apply parses_int|].
  { pose proof (len_der 2 (tbs_serial t)). specialize (LS (INTEGER (tbs_serial t)) ltac:(cbn; auto)). unfold INTEGER in LS. lia. }
  change (on_integer (mk V None None name_new None None name_new None None S4) (be_val (tbs_serial t)))
    with (mk V (Some (be_val (tbs_serial t))) None name_new None None name_new None None S4).
  set (SN := be_val (tbs_serial t)).
  econstructor; [apply NZ| |].
  { unfold AlgorithmIdentifier. apply parses_seq; [destruct (tbs_signature t); cbn; lia|]. rewrite seq_noop by exact HS.
    apply items_one; [apply NZ|]. apply parses_oid_init with
      (b' := mk V (Some SN) (Some (ai (alg_of (tbs_signature t)) None)) name_new None None name_new None None S4).
    - destruct (tbs_signature t); cbn; lia.
    - destruct (tbs_signature t); reflexivity. }
  set (SA := Some (ai (alg_of (tbs_signature t)) None)).
  econstructor; [apply NZ|apply name_issuer; [exact Hi|exact HS|apply LS; cbn; auto]|].
  fold (name_of (tbs_issuer t)).
  econstructor; [apply NZ| |].
  { apply parses_seq; [cbn; lia|]. rewrite seq_noop by exact HS.
    econstructor; [apply NZ|apply parses_time, on_time_ok, Hnb|]. cbn [b_not_before mk].
    apply items_one; [apply NZ|]. apply parses_time. rewrite on_time_ok by exact Hna. reflexivity. }
  change (set_not_after (as_utc (tbs_not_after t)) _) with
    (mk V (Some SN) SA (name_of (tbs_issuer t)) (Some (as_utc (tbs_not_before t))) (Some (as_utc (tbs_not_after t))) name_new None None S4).
  econstructor; [apply NZ|apply name_subject; [exact Hsub|exact HS|apply LS; cbn; auto 10]|].
  fold (name_of (tbs_subject t)).
  econstructor; [apply NZ| |].
  { unfold SubjectPublicKeyInfo. apply parses_seq.
    { unfold BIT_STRING. cbn [concat]. rewrite app_nil_r, app_length, der_len_eq. cbn [length].
      rewrite app_length, !be_enc_length. unfold hlen. cbn [length]. rewrite app_length, !be_enc_length. cbn. lia. }
    rewrite seq_noop by exact HS.
    econstructor; [apply NZ| |].
    { apply parses_seq; [cbn; lia|]. rewrite seq_noop by exact HS.
      econstructor; [apply NZ|apply parses_oid_init; [cbn; lia|reflexivity]|].
      apply items_one; [apply NZ|]. apply parses_oid_init; [cbn; lia|]. reflexivity. }
    apply items_one; [apply NZ|]. apply parses_key.
    - cbn [length]. rewrite app_length, !be_enc_length. lia.
    - discriminate.
    - reflexivity. }
  destruct (tbs_extensions t) as [ext|] eqn:Ex; cbn [opt].
  - apply items_one; [apply NZ|]. apply parses_skip; [lia|].
    specialize (L (EXPLICIT 3 ext)). rewrite !in_app_iff in L. cbn [opt In] in L. specialize (L ltac:(auto)).
    pose proof (len_der (0xA0 + 3) ext). unfold EXPLICIT in L. lia.
  - constructor.
Qed.

(* ---- whole certificates ---- *)
Definition x_of (t : tbs) (na : instant) (sub : list attribute) (c : certificate) (size : nat) : x509 :=
  {| x_version := tbs_version t; x_serial := be_val (tbs_serial t); x_tbs_alg := ai (alg_of (tbs_signature t)) None;
     x_issuer := name_of (tbs_issuer t);
     x_validity := {| v_not_before := Some (as_utc (tbs_not_before t)); v_not_after := Some (as_utc na) |};
     x_subject := name_of sub; x_spki_alg := ai EcPublicKey (Some Prime256v1); x_spki_key := key_bytes (tbs_x t) (tbs_y t);
     x_tbs_size := size + 4; x_sig_alg := alg_of (c_algorithm c);
     x_signature := Some (be_val (c_r c), be_val (c_s c)) |}.
Definition b_of (t : tbs) (na : instant) (sub : list attribute) (size : nat) : builder :=
  mk (tbs_version t) (Some (be_val (tbs_serial t))) (Some (ai (alg_of (tbs_signature t)) None)) (name_of (tbs_issuer t))
     (Some (as_utc (tbs_not_before t))) (Some (as_utc na)) (name_of sub)
     (Some (ai EcPublicKey (Some Prime256v1))) (Some (key_bytes (tbs_x t) (tbs_y t))) (size + 4).

Lemma stuffed_parse c extra na sub :
  let t := c_tbs c in let n := length (concat (tbs_elements t)) in
  tbs_ok t -> Z.of_nat (length (stuffed_certificate c extra)) < 2^24 ->
  items Init extra (tbs_builder t n) (b_of t na sub n) ->
  x509_from_raw (stuffed_certificate c extra) = Ok (x_of t na sub c n).
Proof.
  intros t n Ht Hn He.
  assert (NZ : forall tag c, (0 < length (der tag c))%nat) by (intros tag c0; pose proof (len_der tag c0); lia).
  assert (LI : forall e, In e ([TBSCertificate t] ++ extra ++
            [AlgorithmIdentifier (c_algorithm c); BIT_STRING (EcdsaSigValue (c_r c) (c_s c))]) ->
            (length e + 2 <= length (stuffed_certificate c extra))%nat) by (intros e H; now apply len_seq).
  pose proof (LI (TBSCertificate t) ltac:(cbn; auto)) as LT.
  pose proof (LI (BIT_STRING (EcdsaSigValue (c_r c) (c_s c))) ltac:(apply in_or_app; right; apply in_or_app; right; cbn; auto)) as LB.
  pose proof (len_der 3 (0 :: EcdsaSigValue (c_r c) (c_s c))) as LB2.
  fold (BIT_STRING (EcdsaSigValue (c_r c) (c_s c))) in LB2.
  pose proof (len_concat_seq (tbs_elements t)) as LT2. fold (TBSCertificate t) in LT2. fold n in LT2.
  pose proof (len_seq (INTEGER (c_r c)) [INTEGER (c_r c); INTEGER (c_s c)] ltac:(cbn; auto)) as LR.
  pose proof (len_seq (INTEGER (c_s c)) [INTEGER (c_r c); INTEGER (c_s c)] ltac:(cbn; auto)) as LS.
  fold (EcdsaSigValue (c_r c) (c_s c)) in LR, LS. cbn [length] in LB2.
  pose proof (len_der 2 (c_r c)) as LR2. pose proof (len_der 2 (c_s c)) as LS2.
  fold (INTEGER (c_r c)) in LR2. fold (INTEGER (c_s c)) in LS2.
  set (BT := set_sig1 (be_val (c_s c)) (set_sig0 (be_val (c_r c)) (set_cert_alg (alg_of (c_algorithm c)) (b_of t na sub n)))).
  assert (P : parses Init (stuffed_certificate c extra) builder_new BT).
  { unfold stuffed_certificate. apply parses_seq.
    { pose proof (len_concat_seq ([TBSCertificate t] ++ extra ++
            [AlgorithmIdentifier (c_algorithm c); BIT_STRING (EcdsaSigValue (c_r c) (c_s c))])) as LC.
      fold t. fold t in LC. unfold stuffed_certificate in Hn. fold t in Hn. lia. }
    change (on_sequence builder_new _) with (mk None None None name_new None None name_new None None 1).
    apply items_app with (tbs_builder t n).
    { apply items_one; [apply NZ|]. unfold TBSCertificate. apply parses_seq; [unfold n in LT2; fold t; fold t in LT2; fold n; lia|].
      change (on_sequence _ _) with (mk None None None name_new None None name_new None None (n + 4)).
      apply tbs_items; [exact Ht|fold n; lia]. }
    apply items_app with (b_of t na sub n); [exact He|].
    econstructor; [apply NZ| |].
    { unfold AlgorithmIdentifier. apply parses_seq; [destruct (c_algorithm c); cbn; lia|].
      rewrite seq_noop by (cbn; lia). apply items_one; [apply NZ|].
      apply parses_oid_init with (b' := set_cert_alg (alg_of (c_algorithm c)) (b_of t na sub n));
        destruct (c_algorithm c); try reflexivity; cbn; lia. }
    apply items_one; [apply NZ|]. unfold EcdsaSigValue. apply parses_sig.
    - change (Z.of_nat (length (0 :: EcdsaSigValue (c_r c) (c_s c))) < 2^24). cbn [length]. lia.
    - cbn; lia.
    - cbn; lia.
    - econstructor; [apply NZ|apply parses_int; lia|]. apply items_one; [apply NZ|]. apply parses_int. lia. }
  unfold x509_from_raw. specialize (P [] [] (S (length (stuffed_certificate c extra))) ltac:(lia)).
  cbn [app length] in P. rewrite app_nil_r in P. rewrite P. reflexivity.
Qed.

Lemma cert_parse c : tbs_ok (c_tbs c) -> Z.of_nat (length (Certificate c)) < 2^24 ->
  x509_from_raw (Certificate c) =
    Ok (x_of (c_tbs c) (tbs_not_after (c_tbs c)) (tbs_subject (c_tbs c)) c (length (concat (tbs_elements (c_tbs c))))).
Proof. intros Ht Hn. apply stuffed_parse; [exact Ht|exact Hn|constructor]. Qed.

Lemma stuffed_time c i : tbs_ok (c_tbs c) -> time_ok i -> Z.of_nat (length (stuffed_certificate c [UTCTime i])) < 2^24 ->
  x509_from_raw (stuffed_certificate c [UTCTime i]) =
    Ok (x_of (c_tbs c) i (tbs_subject (c_tbs c)) c (length (concat (tbs_elements (c_tbs c))))).
Proof.
  intros Ht Hi Hn. apply stuffed_parse; [exact Ht|exact Hn|].
  apply items_one; [cbn; lia|]. apply parses_time. rewrite on_time_ok by exact Hi. reflexivity.
Qed.
Lemma stuffed_subject c a : tbs_ok (c_tbs c) -> Forall scalar_value (a_text a) ->
  Z.of_nat (length (stuffed_certificate c [rdn a])) < 2^24 ->
  x509_from_raw (stuffed_certificate c [rdn a]) =
    Ok (x_of (c_tbs c) (tbs_not_after (c_tbs c)) (tbs_subject (c_tbs c) ++ [a]) c (length (concat (tbs_elements (c_tbs c))))).
Proof.
  intros Ht Ha Hn. apply stuffed_parse; [exact Ht|exact Hn|].
  assert (L : (length (rdn a) + 2 <= length (stuffed_certificate c [rdn a]))%nat).
  { apply len_seq. apply in_or_app. right. cbn. auto. }
  apply items_one.
  { unfold rdn, SET1. match goal with |- context [der ?t ?x] => pose proof (len_der t x) end. lia. }
  unfold b_of, name_of. rewrite fold_left_app. cbn [fold_left]. fold (name_of (tbs_subject (c_tbs c))).
  apply rdn_subject; [exact Ha|lia|lia].
Qed.

Lemma x_of_key {E} t na sub c n : tbs_ok t -> get_public_key (E:=E) (x_of t na sub c n) = Ok (Some (tbs_x t, tbs_y t)).
Proof.
  intros (_ & _ & _ & _ & _ & _ & Hx & Hy). unfold get_public_key, x_of, key_bytes, ai.
  cbn [x_spki_alg ai_algorithm ai_parameters x_spki_key].
  change (idx (4 :: be_enc 32 (tbs_x t) ++ be_enc 32 (tbs_y t)) 0) with (@Ok E _ 4). cbn [bind]. change (negb (4 =? 4)) with false.
  cbn iota.
  assert (S1 : slice (E:=E) (4 :: be_enc 32 (tbs_x t) ++ be_enc 32 (tbs_y t)) 1 33 = Ok (be_enc 32 (tbs_x t))).
  { change (4 :: be_enc 32 (tbs_x t) ++ be_enc 32 (tbs_y t)) with ([4] ++ be_enc 32 (tbs_x t) ++ be_enc 32 (tbs_y t)).
    apply slice_mid; rewrite ?be_enc_length; reflexivity. }
  assert (S2 : slice (E:=E) (4 :: be_enc 32 (tbs_x t) ++ be_enc 32 (tbs_y t)) 33 65 = Ok (be_enc 32 (tbs_y t))).
  { replace (4 :: be_enc 32 (tbs_x t) ++ be_enc 32 (tbs_y t)) with ((4 :: be_enc 32 (tbs_x t)) ++ be_enc 32 (tbs_y t) ++ [])
      by (rewrite app_nil_r; reflexivity).
    apply slice_mid; cbn [length]; rewrite ?be_enc_length; reflexivity. }
  rewrite S1, S2. cbn [bind]. rewrite !to_ibig_be_val, !be_val_enc.
  change (256 ^ Z.of_nat 32) with (2^256). rewrite !Z.mod_small by assumption. reflexivity.
Qed.

(* the bytes hashed for the CA signature *)
Lemma hlen_4 content : 256 <= Z.of_nat (length content) < 65536 -> hlen content = 4%nat.
Proof.
  intros H. unfold hlen, der_length. destruct (Z.ltb_spec (Z.of_nat (length content)) 128); [lia|].
  destruct (Z.ltb_spec (Z.of_nat (length content)) 256); [lia|].
  destruct (Z.ltb_spec (Z.of_nat (length content)) 65536); [|lia]. cbn [length]. now rewrite be_enc_length.
Qed.
Lemma hlen_not_4 content : Z.of_nat (length content) < 256 \/ 65536 <= Z.of_nat (length content) -> hlen content <> 4%nat.
Proof.
  intros H. unfold hlen, der_length. destruct (Z.ltb_spec (Z.of_nat (length content)) 128); [cbn; lia|].
  destruct (Z.ltb_spec (Z.of_nat (length content)) 256); [cbn [length]; rewrite be_enc_length; lia|].
  destruct (Z.ltb_spec (Z.of_nat (length content)) 65536); [lia|]. cbn [length]. rewrite be_enc_length. lia.
Qed.
Lemma stuffed_signed {E} c extra :
  256 <= Z.of_nat (length (concat (tbs_elements (c_tbs c)))) ->
  Z.of_nat (length (stuffed_certificate c extra)) < 65536 ->
  slice (E:=E) (stuffed_certificate c extra) 4 (4 + (length (concat (tbs_elements (c_tbs c))) + 4)) = Ok (TBSCertificate (c_tbs c)).
Proof.
  intros H1 H2. set (L := [TBSCertificate (c_tbs c)] ++ extra ++
            [AlgorithmIdentifier (c_algorithm c); BIT_STRING (EcdsaSigValue (c_r c) (c_s c))]).
  pose proof (len_concat_seq L) as HL. change (stuffed_certificate c extra) with (SEQUENCE L) in *.
  pose proof (len_in (TBSCertificate (c_tbs c)) L ltac:(cbn; auto)) as HT.
  pose proof (len_concat_seq (tbs_elements (c_tbs c))) as HT2. fold (TBSCertificate (c_tbs c)) in HT2.
  assert (HO : hlen (concat L) = 4%nat) by (apply hlen_4; lia).
  assert (HI : hlen (concat (tbs_elements (c_tbs c))) = 4%nat) by (apply hlen_4; lia).
  unfold SEQUENCE at 1. unfold der.
  replace (0x30 :: der_length (Z.of_nat (length (concat L))) ++ concat L)
    with ((0x30 :: der_length (Z.of_nat (length (concat L)))) ++ TBSCertificate (c_tbs c) ++ concat (extra ++
            [AlgorithmIdentifier (c_algorithm c); BIT_STRING (EcdsaSigValue (c_r c) (c_s c))])) by reflexivity.
  apply slice_mid.
  - symmetry. exact HO.
  - change (length (0x30 :: der_length (Z.of_nat (length (concat L))))) with (hlen (concat L)). rewrite HO.
    unfold TBSCertificate, SEQUENCE. rewrite der_len_eq, HI. lia.
Qed.
Lemma short_signed_wrong {E} c b :
  Z.of_nat (length (concat (tbs_elements (c_tbs c)))) < 256 \/ 65536 <= Z.of_nat (length (concat (tbs_elements (c_tbs c)))) ->
  slice (E:=E) (Certificate c) 4 (4 + (length (concat (tbs_elements (c_tbs c))) + 4)) = Ok b -> b <> TBSCertificate (c_tbs c).
Proof.
  intros H1 H2 ->. apply slice_ok in H2. destruct H2 as [H2 H3].
  apply (f_equal (@length Z)) in H3. rewrite firstn_length, skipn_length in H3.
  unfold TBSCertificate, SEQUENCE in H3. rewrite der_len_eq in H3. apply hlen_not_4 in H1. lia.
Qed.

(* ---- fields that later input cannot change ---- *)
Definition keeps (b b' : builder) : Prop :=
  (forall x, b_serial b = Some x -> b_serial b' = Some x) /\
  (forall x, b_signature_alg b = Some x -> b_signature_alg b' = Some x) /\
  (forall x, b_not_before b = Some x -> b_not_before b' = Some x) /\
  (forall a p, b_spki_alg b = Some (ai a (Some p)) -> b_spki_alg b' = Some (ai a (Some p))) /\
  (forall x, b_spki_key b = Some x -> b_spki_key b' = Some x) /\
  ((1 < b_tbs_size b)%nat -> b_tbs_size b' = b_tbs_size b) /\
  ((exists x, b_not_after b = Some x) -> (exists x, b_not_after b' = Some x) /\ b_issuer b' = b_issuer b).
Lemma keeps_refl b : keeps b b.
Proof. unfold keeps. intuition. Qed.
Lemma keeps_trans a b c : keeps a b -> keeps b c -> keeps a c.
Proof.
  intros (A1 & A2 & A3 & A4 & A5 & A6 & A7) (B1 & B2 & B3 & B4 & B5 & B6 & B7). unfold keeps.
  split; [auto|]. split; [auto|]. split; [auto|]. split; [auto|]. split; [auto|]. split.
  - intros H. specialize (A6 H). rewrite <- A6. apply B6. lia.
  - intros H. destruct (A7 H) as [H1 H2]. destruct (B7 H1) as [H3 H4]. split; [exact H3|congruence].
Qed.
Lemma keeps_while step : (forall b c b' c', step b c = Ok (b', c') -> keeps b b') ->
  forall k limit b c b' c', parse_while step k limit b c = Ok (b', c') -> keeps b b'.
Proof.
  intros Hs. induction k as [|k IH]; intros limit b c b' c' H; [discriminate|]. cbn [parse_while] in H.
  destruct (Nat.ltb c limit).
  - apply bind_ok in H. destruct H as ((b1 & c1) & H1 & H2). eapply keeps_trans; [eapply Hs, H1|eapply IH, H2].
  - injection H as <- <-. apply keeps_refl.
Qed.
Ltac kfin := unfold keeps; cbn; repeat split; intros; try congruence; try lia;
  try (match goal with H : exists _, _ |- _ => destruct H; try congruence end; eauto; fail); eauto.
Lemma parse_keeps data : forall fuel b st c b' c', parse fuel b st data c = Ok (b', c') -> keeps b b'.
Proof.
  induction fuel as [|f IH]; intros b st c b' c' H; [discriminate|]. rewrite parse_S in H.
  apply bind_ok in H. destruct H as (((size & form) & c1) & _ & H).
  apply bind_ok in H. destruct H as (body & _ & H).
  destruct form as [d|d]; destruct d; try discriminate.
  - apply keeps_trans with (on_sequence b size).
    + unfold on_sequence. destruct (Nat.eqb_spec (b_tbs_size b) 0); [kfin|].
      destruct (Nat.eqb_spec (b_tbs_size b) 1); kfin.
    + eapply keeps_while; [|exact H]. cbn beta. intros b0 c0 b1 c2 Hp. eapply IH. exact Hp.
  - eapply IH, H.
  - apply bind_ok in H. destruct H as (b1 & H1 & H2). injection H2 as <- <-.
    destruct (tag =? 0); [|injection H1 as <-; apply keeps_refl].
    apply bind_ok in H1. destruct H1 as (v & _ & H1). apply bind_ok in H1. destruct H1 as (v' & _ & H1).
    injection H1 as <-. kfin.
  - injection H as <- <-. unfold on_integer. destruct (b_serial b) eqn:E1; [|kfin]. destruct (b_sig0 b) eqn:E2; kfin.
  - apply bind_ok in H. destruct H as (x & _ & H). destruct (x =? 0x30).
    + eapply keeps_while; [|exact H]. cbn beta. intros b0 c0 b1 c2 Hp. eapply IH. exact Hp.
    + apply bind_ok in H. destruct H as (u & _ & H). destruct (negb (u =? 0)); [discriminate|].
      apply bind_ok in H. destruct H as (b1 & H1 & H2). injection H2 as <- <-.
      destruct (b_spki_key b) eqn:Ek; [injection H1 as <-; apply keeps_refl|].
      apply bind_ok in H1. destruct H1 as (k & _ & H1). injection H1 as <-. kfin.
  - destruct st; [|discriminate|].
    + apply bind_ok in H. destruct H as (b1 & H1 & H2). injection H2 as <- <-.
      destruct (on_init_oid b body) eqn:Eo; try discriminate. injection H1 as <-. unfold on_init_oid in Eo.
      destruct (b_signature_alg b) eqn:Es.
      * destruct (b_spki_alg b) as [ai0|] eqn:Ep.
        -- destruct (ai_parameters ai0) eqn:Ea.
           ++ destruct (b_cert_alg b); [injection Eo as <-; apply keeps_refl|].
              apply bind_ok in Eo. destruct Eo as (a1 & _ & Eo). injection Eo as <-. kfin.
           ++ injection Eo as <-. kfin. rewrite Ep in *. destruct ai0; cbn in *. unfold ai in *. congruence.
        -- apply bind_ok in Eo. destruct Eo as (a1 & _ & Eo). injection Eo as <-. kfin.
      * apply bind_ok in Eo. destruct Eo as (a1 & _ & Eo). injection Eo as <-. kfin.
    + injection H as <- <-. unfold on_set_oid. destruct (b_not_after b) eqn:En; kfin.
  - apply bind_ok in H. destruct H as (b1 & H1 & H2). injection H2 as <- <-.
    destruct (on_string b body) eqn:Eo; try discriminate. injection H1 as <-. unfold on_string in Eo.
    destruct (negb _); [discriminate|]. destruct (b_not_after b) eqn:En;
      apply bind_ok in Eo; destruct Eo as (n1 & _ & Eo); injection Eo as <-; kfin.
  - apply bind_ok in H. destruct H as (b1 & H1 & H2). injection H2 as <- <-.
    destruct (on_string b body) eqn:Eo; try discriminate. injection H1 as <-. unfold on_string in Eo.
    destruct (negb _); [discriminate|]. destruct (b_not_after b) eqn:En;
      apply bind_ok in Eo; destruct Eo as (n1 & _ & Eo); injection Eo as <-; kfin.
  - apply bind_ok in H. destruct H as (b1 & H1 & H2). injection H2 as <- <-.
    destruct (on_time b body) eqn:Eo; try discriminate. injection H1 as <-. unfold on_time in Eo.
    destruct (negb _); [discriminate|]. apply bind_ok in Eo. destruct Eo as (tt & _ & Eo).
    destruct tt; [|discriminate]. destruct (b_not_before b) eqn:En; injection Eo as <-; kfin.
Qed.

Lemma trailing_keeps t hi lo rest x : tbs_ok t -> Z.of_nat (length (TBSCertificate t)) < 2^24 ->
  x509_from_raw ([0x30; 0x82; hi; lo] ++ TBSCertificate t ++ rest) = Ok x ->
  x_serial x = be_val (tbs_serial t) /\ x_tbs_alg x = ai (alg_of (tbs_signature t)) None /\
  x_issuer x = name_of (tbs_issuer t) /\ v_not_before (x_validity x) = Some (as_utc (tbs_not_before t)) /\
  x_spki_alg x = ai EcPublicKey (Some Prime256v1) /\ x_spki_key x = key_bytes (tbs_x t) (tbs_y t) /\
  x_tbs_size x = (length (concat (tbs_elements t)) + 4)%nat.
Proof.
  intros Ht Hn H. set (data := [0x30; 0x82; hi; lo] ++ TBSCertificate t ++ rest) in *.
  pose proof (len_concat_seq (tbs_elements t)) as L. fold (TBSCertificate t) in L.
  set (n := length (concat (tbs_elements t))) in *.
  unfold x509_from_raw in H. apply bind_ok in H. destruct H as ((b & c) & H1 & H2).
  assert (Ld : (length data = 4 + length (TBSCertificate t) + length rest)%nat).
  { unfold data. cbn [app length]. rewrite app_length. lia. }
  rewrite Ld in H1. rewrite parse_S in H1.
  assert (G : forall E, exists sz, get_len (E:=E) data (0 + 1) = Ok (sz, 4%nat)).
  { intros E. unfold get_len. change (idx data (0 + 1)) with (@Ok E _ 0x82). cbn [bind].
    change (Z.land (Z.shiftr 0x82 7) 1 =? 1) with true. cbn iota. change (Z.to_nat (Z.land 0x82 0x7F)) with 2%nat.
    rewrite slice_in by lia. cbn [bind]. eexists. reflexivity. }
  destruct (G parse_error) as (sz & G1). unfold der_parse in H1.
  change (idx data 0) with (@Ok parse_error _ 0x30) in H1. cbn [bind] in H1.
  change (der_from_u8 0x30) with (Some (Constructed DSequence)) in H1. cbn iota in H1.
  rewrite G1 in H1. cbn [bind] in H1. destruct (zlen data <? sz); [discriminate|]. cbn [lift bind] in H1.
  apply bind_ok in H1. destruct H1 as (body & _ & H1).
  assert (K : b = mk None None None name_new None None name_new None None 1 \/ keeps (tbs_builder t n) b).
  { destruct (Z.to_nat sz) as [|m].
    - cbn [Nat.add parse_while] in H1. change (Nat.ltb 4 4) with false in H1. cbn iota in H1. injection H1 as <- <-.
      left. reflexivity.
    - right. cbn [Nat.add] in H1. rewrite Nat.add_succ_r in H1 || idtac. 
      assert (P : parses Init (TBSCertificate t) (mk None None None name_new None None name_new None None 1) (tbs_builder t n)).
      { unfold TBSCertificate. apply parses_seq; [fold n; lia|].
        change (on_sequence _ _) with (mk None None None name_new None None name_new None None (n + 4)).
        apply tbs_items; [exact Ht|fold n; lia]. }
      specialize (P [0x30; 0x82; hi; lo] rest). fold data in P. cbn [length] in P.
      change (on_sequence builder_new (S m)) with (mk None None None name_new None None name_new None None 1) in H1.
      set (F := S (S (S (S (length (TBSCertificate t) + length rest))))) in *.
      assert (HF : (length (TBSCertificate t) < F)%nat) by (unfold F; lia).
      specialize (P F HF).
      remember F as k eqn:Ek in H1 at 2. destruct k as [|k]; [unfold F in Ek; lia|]. cbn [parse_while] in H1.
      match type of H1 with context [Nat.ltb 4 ?q] => destruct (Nat.ltb_spec 4 q); [|lia] end.
      rewrite P in H1. cbn [bind] in H1. eapply keeps_while; [|exact H1]. cbn beta. intros b0 c0 b1 c2 Hp. eapply parse_keeps. exact Hp. }
  unfold lift in H2. destruct (build b) as [x'|e|] eqn:Eb; try discriminate. injection H2 as ->.
  destruct K as [-> | K]; [discriminate|].
  destruct K as (K1 & K2 & K3 & K4 & K5 & K6 & K7).
  specialize (K1 _ eq_refl). specialize (K2 _ eq_refl). specialize (K3 _ eq_refl). specialize (K4 _ _ eq_refl).
  specialize (K5 _ eq_refl). specialize (K6 ltac:(cbn; lia)). destruct (K7 ltac:(eexists; reflexivity)) as [_ K8].
  unfold build in Eb. rewrite K1, K2, K4, K5 in Eb. cbn [unwrap bind] in Eb.
  apply bind_ok in Eb. destruct Eb as (alg & _ & Eb). injection Eb as <-. cbn.
  rewrite K3, K6, K8. repeat split.
Qed.

Lemma x_of_shows c na sub n : tbs_ok (c_tbs c) -> shows (x_of (c_tbs c) na sub c n) c na sub.
Proof.
  intros Ht. unfold shows. cbn zeta. repeat (split; [first [reflexivity | intros k; apply name_of_get | apply x_of_key, Ht]|]).
  reflexivity.
Qed.

Lemma null_panics pre post f b : parse (S f) b Init (pre ++ [5; 0] ++ post) (length pre) = Panic.
Proof.
  rewrite parse_S. change ([5; 0] ++ post) with (der 5 [] ++ post).
  rewrite (der_parse_at pre 5 [] post (Primitive DNull)) by (first [reflexivity | cbn; lia]). cbn [lift bind].
  rewrite data_split, slice_mid by (rewrite pre_length; cbn; lia). reflexivity.
Qed.
Lemma signed_part_ok {E} c x :
  tbs_ok (c_tbs c) -> 256 <= Z.of_nat (length (concat (tbs_elements (c_tbs c)))) ->
  Z.of_nat (length (Certificate c)) < 65536 -> x509_from_raw (Certificate c) = Ok x ->
  signed_part (E:=E) (Certificate c) x = Ok (TBSCertificate (c_tbs c)).
Proof.
  intros Ht H1 H2 H3. rewrite cert_parse in H3 by (auto; lia). injection H3 as <-.
  unfold signed_part. cbn [x_tbs_size x_of]. now apply stuffed_signed.
Qed.
Lemma signed_part_wrong {E} c x b :
  tbs_ok (c_tbs c) -> Z.of_nat (length (Certificate c)) < 2^24 ->
  Z.of_nat (length (concat (tbs_elements (c_tbs c)))) < 256 \/ 65536 <= Z.of_nat (length (concat (tbs_elements (c_tbs c)))) ->
  x509_from_raw (Certificate c) = Ok x -> signed_part (E:=E) (Certificate c) x = Ok b ->
  b <> TBSCertificate (c_tbs c).
Proof.
  intros Ht H1 H2 H3 H4. rewrite cert_parse in H3 by auto. injection H3 as <-.
  unfold signed_part in H4. cbn [x_tbs_size x_of] in H4. eapply short_signed_wrong; eassumption.
Qed.
Lemma forge_time {E} c late :
  tbs_ok (c_tbs c) -> 256 <= Z.of_nat (length (concat (tbs_elements (c_tbs c)))) -> time_ok late ->
  Z.of_nat (length (stuffed_certificate c [UTCTime late])) < 65536 ->
  exists x, x509_from_raw (stuffed_certificate c [UTCTime late]) = Ok x /\
    shows x c late (tbs_subject (c_tbs c)) /\
    signed_part (E:=E) (stuffed_certificate c [UTCTime late]) x = Ok (TBSCertificate (c_tbs c)).
Proof.
  intros Ht H1 Hl H2. eexists. split; [apply stuffed_time; auto; lia|]. split; [apply x_of_shows, Ht|].
  unfold signed_part. cbn [x_tbs_size x_of]. now apply stuffed_signed.
Qed.
Lemma forge_subject {E} c a :
  tbs_ok (c_tbs c) -> 256 <= Z.of_nat (length (concat (tbs_elements (c_tbs c)))) -> Forall scalar_value (a_text a) ->
  Z.of_nat (length (stuffed_certificate c [rdn a])) < 65536 ->
  exists x, x509_from_raw (stuffed_certificate c [rdn a]) = Ok x /\
    shows x c (tbs_not_after (c_tbs c)) (tbs_subject (c_tbs c) ++ [a]) /\
    signed_part (E:=E) (stuffed_certificate c [rdn a]) x = Ok (TBSCertificate (c_tbs c)).
Proof.
  intros Ht H1 Hl H2. eexists. split; [apply stuffed_subject; auto; lia|]. split; [apply x_of_shows, Ht|].
  unfold signed_part. cbn [x_tbs_size x_of]. now apply stuffed_signed.
Qed.
Lemma trailing_fields {E} t hi lo rest x :
  tbs_ok t -> Z.of_nat (length (TBSCertificate t)) < 2^24 ->
  x509_from_raw ([0x30; 0x82; hi; lo] ++ TBSCertificate t ++ rest) = Ok x ->
  get_public_key (E:=E) x = Ok (Some (tbs_x t, tbs_y t)) /\ x_serial x = be_val (tbs_serial t) /\
  x_tbs_alg x = ai (alg_of (tbs_signature t)) None /\ shows_name (x_issuer x) (tbs_issuer t) /\
  v_not_before (x_validity x) = Some (as_utc (tbs_not_before t)) /\
  x_tbs_size x = (length (concat (tbs_elements t)) + 4)%nat.
Proof.
  intros Ht Hn H. destruct (trailing_keeps t hi lo rest x Ht Hn H) as (A & B & C & D & F & G & I).
  split. { pose proof (x_of_key (E:=E) t (tbs_not_after t) (tbs_subject t) {| c_tbs := t; c_algorithm := ecdsa_sha256; c_r := []; c_s := [] |} 0 Ht) as K.
    unfold get_public_key in *. cbn [x_of x_spki_alg x_spki_key] in K. rewrite F, G. exact K. }
  split; [exact A|]. split; [exact B|]. split; [intros k; rewrite C; apply name_of_get|]. split; [exact D|exact I].
Qed.
