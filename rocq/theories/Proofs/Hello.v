From Verif.Model Require Import Base Alert Bytes Suite Curve Ecdsa Extensions Hello.
From Verif.Spec Require Import Enc Rfc8446Hello HelloView.
From Verif.Proofs Require Import Util Bytes.

Lemma enc1 n : 0 <= n < 256 -> be_enc 1 n = [n].
Proof. intros H. unfold be_enc. cbn [le_enc rev app]. now rewrite Z.mod_small. Qed.
Lemma enc2 n : be_enc 2 n = [hi n; lo n].
Proof.
  unfold be_enc, hi, lo, u8. cbn [le_enc rev app]. rewrite Z.shiftr_div_pow2 by lia. reflexivity.
Qed.
Lemma hi_byte n : is_byte (hi n).
Proof. unfold hi. apply u8_range. Qed.
Lemma lo_byte n : is_byte (lo n).
Proof. unfold lo. apply u8_range. Qed.
Lemma hi_lo n : 0 <= n < 2^16 -> hi n * 256 + lo n = n.
Proof.
  intros H. unfold hi, lo, u8. rewrite Z.shiftr_div_pow2 by lia. change (2^8) with 256. change (2^16) with 65536 in H. lia.
Qed.
Lemma to_u16_hl n t : 0 <= n < 2^16 -> to_u16 (hi n :: lo n :: t) = n.
Proof. intros. rewrite to_u16_val by auto using hi_byte, lo_byte. now apply hi_lo. Qed.
Lemma to_u16_enc n t : 0 <= n < 2^16 -> to_u16 (be_enc 2 n ++ t) = n.
Proof. intros. rewrite enc2. now apply to_u16_hl. Qed.
Lemma idx_app {E A} (p : list A) x s i : i = length p -> idx (E:=E) (p ++ x :: s) i = Ok x.
Proof. intros ->. unfold idx. rewrite nth_error_app2 by lia. now rewrite Nat.sub_diag. Qed.
Lemma idx_app2 {E A} (p : list A) y x s i : i = S (length p) -> idx (E:=E) (p ++ y :: x :: s) i = Ok x.
Proof. intros ->. unfold idx. rewrite nth_error_app2 by lia. now replace (S (length p) - length p)%nat with 1%nat by lia. Qed.
Lemma lor_hl n : 0 <= n < 2^16 -> Z.lor (Base.u16 (Z.shiftl (hi n) 8)) (lo n) = n.
Proof. intros. apply (to_u16_hl n [] H). Qed.
Lemma u16_at_enc {E} p n s i : i = length p -> 0 <= n < 2^16 -> u16_at (E:=E) (p ++ be_enc 2 n ++ s) i = Ok n.
Proof.
  intros Hi Hn. rewrite enc2. unfold u16_at. cbn [app].
  rewrite (idx_app p (hi n)) by assumption. rewrite bind_Ok.
  rewrite (idx_app2 p (hi n) (lo n)) by lia. rewrite bind_Ok. now rewrite lor_hl.
Qed.

(* ---- key shares ---- *)
Lemma group_of_new c : group_of c = named_group_new c.
Proof.
  unfold group_of, groups_known, named_group_new. cbn [find named_group_u16].
  rewrite !(Z.eqb_sym _ c). repeat (match goal with |- context [if ?b then _ else _] => destruct b; [reflexivity|] end). reflexivity.
Qed.
Lemma group_code c g : group_of c = Some g -> 0 <= c < 2^16.
Proof. intros H. apply find_some in H. destruct H as [_ H]. apply Z.eqb_eq in H. subst. destruct g; cbn; lia. Qed.

Lemma kse_parse_ok e g rest : group_of (fst e) = Some g -> Z.of_nat (length (snd e)) + 4 < 2^16 ->
  kse_parse (key_share_entry e ++ rest) = Ok ((4 + length (snd e))%nat, KSE g (snd e)).
Proof.
  intros Hg Hl. pose proof (group_code _ _ Hg) as Hc. rewrite group_of_new in Hg.
  unfold kse_parse, key_share_entry, Rfc8446Hello.u16, vector16. rewrite <- !app_assoc.
  rewrite to_u16_enc by assumption. rewrite Hg.
  rewrite slice_from_app by (now rewrite be_enc_length). rewrite bind_Ok.
  rewrite to_u16_enc by lia. destruct (Z.ltb_spec (Z.of_nat (length (snd e)) + 4) (2^16)); [|lia].
  rewrite (app_assoc (be_enc 2 (fst e))).
  rewrite slice_mid by (rewrite ?app_length, ?be_enc_length; lia).
  rewrite bind_Ok. repeat f_equal. lia.
Qed.
Lemma entry_length e : length (key_share_entry e) = (4 + length (snd e))%nat.
Proof. unfold key_share_entry, Rfc8446Hello.u16, vector16. rewrite !app_length, !be_enc_length. lia. Qed.

Lemma shares_of_cons e l g : group_of (fst e) = Some g -> shares_of (e :: l) = KSE g (snd e) :: shares_of l.
Proof. intros H. unfold shares_of. cbn [flat_map]. now rewrite H. Qed.

Lemma ks_loop_ok l : l <> [] -> Forall share_ok l -> forall fuel p len,
  (length l <= fuel)%nat -> (2 <= length p)%nat ->
  len = (length p + length (flat_map key_share_entry l) - 2)%nat ->
  ks_loop fuel (p ++ flat_map key_share_entry l) (length p) len = Ok (shares_of l).
Proof.
  induction l as [|e l IH]; [congruence|]. intros _ Hf fuel p len Hfu Hp Hlen.
  inversion Hf as [|e' l' He Hl]; subst e' l'. destruct He as (Hg & H4 & H16).
  destruct (group_of (fst e)) as [g|] eqn:Eg; [|congruence].
  destruct fuel as [|fuel]; [cbn in Hfu; lia|]. cbn [ks_loop].
  rewrite slice_from_app by reflexivity. rewrite bind_Ok.
  cbn [flat_map]. rewrite (kse_parse_ok e g) by assumption. rewrite bind_Ok.
  cbn [flat_map] in Hlen. rewrite app_length, entry_length in Hlen.
  destruct (Nat.leb_spec (4 + length (snd e)) 7); [lia|].
  rewrite (shares_of_cons e l g) by assumption.
  destruct l as [|e2 l].
  - cbn [flat_map length] in Hlen. destruct (Nat.leb_spec len (length p + (4 + length (snd e)))); [|lia]. reflexivity.
  - assert (8 <= length (flat_map key_share_entry (e2 :: l)))%nat as H8.
    { cbn [flat_map]. rewrite app_length, entry_length. inversion Hl as [|? ? (_ & ? & _)]; subst. lia. }
    destruct (Nat.leb_spec len (length p + (4 + length (snd e)))); [lia|].
    rewrite app_assoc. replace (length p + (4 + length (snd e)))%nat with (length (p ++ key_share_entry e))
      by (rewrite app_length, entry_length; lia).
    rewrite IH; [reflexivity|congruence|assumption|cbn in *; lia|rewrite app_length; lia|].
    rewrite app_length, entry_length. lia.
Qed.

Lemma entries_ge l : Forall share_ok l -> (length l <= length (flat_map key_share_entry l))%nat.
Proof.
  induction 1 as [|e l _ _ IH]; [cbn; lia|]. cbn [flat_map length]. rewrite app_length, entry_length. lia.
Qed.
Lemma key_share_server_ok l : l <> [] -> Forall share_ok l -> fits16 (flat_map key_share_entry l) ->
  key_share_parse (vector16 (flat_map key_share_entry l)) false = Ok (shares_of l).
Proof.
  intros Hn Hf H16. unfold key_share_parse, vector16, fits16 in *.
  rewrite to_u16_enc by lia. rewrite Nat2Z.id.
  rewrite app_length, be_enc_length.
  pose proof (entries_ge l Hf) as Hge.
  set (p := be_enc 2 _). assert (length p = 2%nat) as Lp by apply be_enc_length.
  pose proof (ks_loop_ok l Hn Hf (S (2 + length (flat_map key_share_entry l))) p (length (flat_map key_share_entry l))) as H.
  rewrite Lp in H. apply H; lia.
Qed.
Lemma key_share_client_ok e : share_ok e -> key_share_parse (key_share_entry e) true = Ok (shares_of [e]).
Proof.
  intros (Hg & H4 & H16). destruct (group_of (fst e)) as [g|] eqn:Eg; [|congruence].
  unfold key_share_parse. cbn [ks_loop]. rewrite slice_from_in by lia. rewrite bind_Ok. cbn [skipn].
  rewrite <- (app_nil_r (key_share_entry e)) at 1. rewrite (kse_parse_ok e g) by assumption. rewrite bind_Ok.
  destruct (Nat.leb_spec (4 + length (snd e)) 7); [lia|]. cbn [Nat.leb].
  now rewrite (shares_of_cons e [] g).
Qed.
(* the first entry of an unknown group ends the parse *)
Lemma ks_loop_unknown l : forall e t fuel p len,
  Forall share_ok l -> group_of (fst e) = None -> 0 <= fst e < 2^16 ->
  (length l < fuel)%nat -> (length p + length (flat_map key_share_entry l) < len)%nat ->
  ks_loop fuel (p ++ flat_map key_share_entry l ++ key_share_entry e ++ t) (length p) len = Err IllegalParameter.
Proof.
  induction l as [|x l IH]; intros e t fuel p len Hf He Hc Hfu Hlen.
  - destruct fuel as [|fuel]; [cbn in Hfu; lia|]. cbn [ks_loop flat_map app].
    rewrite slice_from_app by reflexivity. rewrite bind_Ok.
    unfold kse_parse. unfold key_share_entry at 1, Rfc8446Hello.u16. rewrite <- !app_assoc.
    rewrite to_u16_enc by assumption. rewrite group_of_new in He. now rewrite He.
  - inversion Hf as [|? ? Hx Hl]; subst. destruct Hx as (Hg & H4 & H16).
    destruct (group_of (fst x)) as [g|] eqn:Eg; [|congruence].
    destruct fuel as [|fuel]; [cbn in Hfu; lia|]. cbn [ks_loop flat_map].
    cbn [flat_map] in Hlen. rewrite app_length, entry_length in Hlen.
    rewrite slice_from_app by reflexivity. rewrite bind_Ok. rewrite <- app_assoc.
    rewrite (kse_parse_ok x g) by assumption. rewrite bind_Ok.
    destruct (Nat.leb_spec (4 + length (snd x)) 7); [lia|].
    destruct (Nat.leb_spec len (length p + (4 + length (snd x)))); [lia|].
    rewrite app_assoc. replace (length p + (4 + length (snd x)))%nat with (length (p ++ key_share_entry x))
      by (rewrite app_length, entry_length; lia).
    rewrite IH; auto; [cbn in *; lia|rewrite app_length, entry_length; lia].
Qed.

(* ---- supported versions ---- *)
Lemma u16s_length l : length (u16s l) = (2 * length l)%nat.
Proof. induction l as [|c l IH]; [reflexivity|]. unfold u16s in *. cbn [flat_map]. rewrite app_length, IH. unfold Rfc8446Hello.u16. rewrite be_enc_length. cbn [length]. lia. Qed.
Lemma versions_scan_ok {E} codes : Forall code16 codes -> forall p s,
  versions_scan (E:=E) (length codes) (p ++ u16s codes ++ s) (length p) = Ok (existsb (Z.eqb 0x0304) codes).
Proof.
  induction 1 as [|c codes Hc _ IH]; intros p s; [reflexivity|].
  cbn [length versions_scan existsb]. unfold u16s, Rfc8446Hello.u16. cbn [flat_map]. fold u16s. rewrite <- app_assoc.
  rewrite slice_mid by (rewrite ?be_enc_length; reflexivity). rewrite bind_Ok.
  rewrite <- (app_nil_r (be_enc 2 c)) at 1. rewrite to_u16_enc by assumption.
  rewrite (Z.eqb_sym 772 c). destruct (c =? 772); [reflexivity|].
  rewrite app_assoc. replace (length p + 2)%nat with (length (p ++ be_enc 2 c)) by (rewrite app_length, be_enc_length; reflexivity).
  apply IH.
Qed.
Lemma versions_server_ok {E} codes s : (length codes < 128)%nat -> Forall code16 codes ->
  versions_server_parse (E:=E) (vector8 (u16s codes) ++ s) = Ok (existsb (Z.eqb 0x0304) codes).
Proof.
  intros Hl Hc. unfold versions_server_parse, vector8. rewrite u16s_length. rewrite enc1 by lia.
  cbn [app idx nth_error unwrap]. unfold idx. cbn [nth_error unwrap]. rewrite bind_Ok.
  rewrite Nat2Z.id. rewrite Nat.even_mul. cbn [Nat.even orb].
  rewrite Nat.div2_double. now apply (versions_scan_ok codes Hc [_]).
Qed.

(* ---- server name ---- *)
Lemma server_name_ok name : fits16 (vector16 ([0] ++ vector16 name)) -> utf8_valid name = true ->
  server_name_parse (vector16 ([0] ++ vector16 name)) = Ok name.
Proof.
  intros H16 Hu. unfold fits16 in H16.
  assert (length (vector16 ([0] ++ vector16 name)) = (5 + length name)%nat) as L2
    by (unfold vector16; rewrite !app_length, !be_enc_length; cbn [length]; lia).
  rewrite L2 in H16.
  assert (vector16 ([0] ++ vector16 name) = be_enc 2 (3 + Z.of_nat (length name)) ++ [0] ++ be_enc 2 (Z.of_nat (length name)) ++ name) as E.
  { unfold vector16. rewrite !app_length, !be_enc_length. do 2 f_equal. cbn [length]. lia. }
  rewrite E. unfold server_name_parse. rewrite to_u16_enc by lia.
  destruct (Z.ltb_spec 0 (3 + Z.of_nat (length name))); [|lia].
  set (n1 := be_enc 2 _). assert (length n1 = 2%nat) as L1 by apply be_enc_length.
  cbn [app]. rewrite idx_app by (now rewrite L1). rewrite bind_Ok. cbn [Z.eqb negb].
  change (n1 ++ 0 :: be_enc 2 (Z.of_nat (length name)) ++ name) with (n1 ++ [0] ++ be_enc 2 (Z.of_nat (length name)) ++ name).
  rewrite app_assoc. assert (length (n1 ++ [0]) = 3%nat) as L3 by (rewrite app_length, L1; reflexivity).
  rewrite slice_from_app by (now rewrite L3). rewrite bind_Ok. rewrite to_u16_enc by lia.
  rewrite app_assoc, <- (app_nil_r (_ ++ name)), <- app_assoc.
  rewrite slice_mid by (rewrite ?(app_length (n1 ++ [0])), ?L3, ?be_enc_length; lia).
  rewrite bind_Ok. now rewrite Hu.
Qed.

(* ---- the extension loops ---- *)
Lemma ext_length t d : length (extension t d) = (4 + length d)%nat.
Proof. unfold extension, Rfc8446Hello.u16, vector16. rewrite !app_length, !be_enc_length. lia. Qed.

Section Loop.
  Context {R : Type}.
  Variables (t : Z) (d rest : list Z).
  Hypothesis (Ht : 0 <= t < 2^16) (Hd : Z.of_nat (length d) < 2^16).
  Let w := extension t d ++ rest.
  Lemma w_eq : w = be_enc 2 t ++ be_enc 2 (Z.of_nat (length d)) ++ d ++ rest.
  Proof. unfold w, extension, Rfc8446Hello.u16, vector16. now rewrite <- !app_assoc. Qed.
  Lemma w_type {E} : slice (E:=E) w 0 2 = Ok (be_enc 2 t).
  Proof. rewrite w_eq. apply (slice_mid [] (be_enc 2 t)); [reflexivity|now rewrite be_enc_length]. Qed.
  Lemma w_size {E} : slice (E:=E) w 2 4 = Ok (be_enc 2 (Z.of_nat (length d))).
  Proof. rewrite w_eq. apply slice_mid; rewrite ?be_enc_length; reflexivity. Qed.
  Lemma w_body : skipn 4 w = d ++ rest.
  Proof. rewrite w_eq, app_assoc. apply skipn_app_eq. now rewrite app_length, !be_enc_length. Qed.
  Lemma w_next : skipn (Z.to_nat (to_u16 (be_enc 2 (Z.of_nat (length d))))) (skipn 4 w) = rest.
  Proof. rewrite w_body. rewrite <- (app_nil_r (be_enc 2 _)), to_u16_enc, Nat2Z.id by lia. now apply skipn_app_eq. Qed.
  Lemma w_slice {E} : slice (E:=E) (skipn 4 w) 0 (Z.to_nat (to_u16 (be_enc 2 (Z.of_nat (length d))))) = Ok d.
  Proof. rewrite w_body. rewrite <- (app_nil_r (be_enc 2 _)), to_u16_enc, Nat2Z.id by lia. now apply (slice_mid [] d). Qed.
  Lemma w_t : to_u16 (be_enc 2 t) = t.
  Proof. rewrite <- (app_nil_r (be_enc 2 t)). now apply to_u16_enc. Qed.
  Lemma w_cons : exists x y, w = x :: y.
  Proof. destruct w as [|x y] eqn:E; [|eauto]. pose proof (f_equal (@length Z) E) as H. unfold w in H. rewrite app_length, ext_length in H. discriminate. Qed.

  Lemma client_step f : client_exts_loop (S f) w =
    match ext_type_new t with
    | None => client_exts_loop f rest
    | Some TServerName => let! name := server_name_parse d in let! r := client_exts_loop f rest in Ok (CServerName name :: r)
    | Some TKeyShare => let! l := key_share_parse d false in let! r := client_exts_loop f rest in Ok (CKeyShare l :: r)
    | Some TSupportedVersions =>
        let! v := versions_server_parse (d ++ rest) in let! r := client_exts_loop f rest in Ok (CSupportedVersion v :: r)
    end.
  Proof.
    pose proof w_next as Hn. pose proof (@w_slice tls_error) as Hs. pose proof (@w_type tls_error) as Ht0.
    pose proof (@w_size tls_error) as Hz. pose proof w_body as Hb.
    destruct w_cons as (x & y & Hw). rewrite Hw in *.
    cbn [client_exts_loop]. rewrite Ht0, bind_Ok, Hz, bind_Ok, w_t, Hn, Hs, Hb.
    destruct (ext_type_new t) as [[]|]; rewrite ?bind_Ok; reflexivity.
  Qed.
  Lemma server_step f : server_exts_loop (S f) w =
    match ext_type_new t with
    | None => server_exts_loop f rest
    | Some TServerName => server_exts_loop f (d ++ rest)
    | Some TKeyShare => let! l := key_share_parse d true in let! r := server_exts_loop f rest in Ok (SKeyShare l :: r)
    | Some TSupportedVersions =>
        let! v := versions_client_parse (d ++ rest) in let! r := server_exts_loop f rest in Ok (SSupportedVersions v :: r)
    end.
  Proof.
    pose proof w_next as Hn. pose proof (@w_slice tls_error) as Hs. pose proof (@w_type tls_error) as Ht0.
    pose proof (@w_size tls_error) as Hz. pose proof w_body as Hb.
    destruct w_cons as (x & y & Hw). rewrite Hw in *.
    cbn [server_exts_loop]. rewrite Ht0, bind_Ok, Hz, bind_Ok, w_t, Hn, Hs, Hb.
    destruct (ext_type_new t) as [[]|]; rewrite ?bind_Ok; reflexivity.
  Qed.
End Loop.

Lemma ext_type_other t : t <> 0 -> t <> 43 -> t <> 51 -> ext_type_new t = None.
Proof.
  intros. unfold ext_type_new. destruct (Z.eqb_spec t 0); [lia|]. destruct (Z.eqb_spec t 43); [lia|]. destruct (Z.eqb_spec t 51); [lia|]. reflexivity.
Qed.

Lemma client_exts_ok_app l : Forall client_ext_ok l -> forall rest f,
  (length (flat_map client_extension_wire l) + length rest <= f)%nat ->
  client_exts_loop f (flat_map client_extension_wire l ++ rest)
  = let! r := client_exts_loop (f - length l) rest in Ok (flat_map client_view l ++ r).
Proof.
  induction 1 as [|e l He _ IH]; intros rest f Hf.
  - cbn [flat_map app length]. rewrite Nat.sub_0_r. now destruct (client_exts_loop f rest).
  - cbn [flat_map] in Hf |- *. rewrite app_length in Hf. unfold client_extension_wire in Hf at 1. rewrite ext_length in Hf.
    destruct f as [|f]; [lia|]. cbn [length]. replace (S f - S (length l))%nat with (f - length l)%nat by lia.
    destruct He as (Hc & H16 & He).
    rewrite <- app_assoc. unfold client_extension_wire at 1. rewrite client_step by assumption.
    assert (forall g : list client_ext -> outcome tls_error (list client_ext),
      (let! r := client_exts_loop f (flat_map client_extension_wire l ++ rest) in g r)
      = (let! r := client_exts_loop (f - length l) rest in g (flat_map client_view l ++ r))) as IH'.
    { intros g. rewrite IH by lia. now destruct (client_exts_loop (f - length l) rest). }
    destruct e as [n|c|s|c|c|t d]; cbn [client_extension_type client_extension_data client_view app] in *.
    + change (ext_type_new 0) with (Some TServerName). cbv iota. pose proof (server_name_ok n) as Hs; cbn [app] in Hs. rewrite Hs by assumption. rewrite bind_Ok. now rewrite IH'.
    + change (ext_type_new 43) with (Some TSupportedVersions). cbv iota. destruct He as [H1 H2].
      rewrite versions_server_ok by assumption. rewrite bind_Ok. now rewrite IH'.
    + change (ext_type_new 51) with (Some TKeyShare). cbv iota. destruct He as [H1 H2].
      rewrite key_share_server_ok; auto.
      * rewrite bind_Ok. now rewrite IH'.
      * unfold fits16, vector16 in *. rewrite app_length in H16. lia.
    + change (ext_type_new 13) with (@None ext_type). cbv iota. now rewrite IH by lia.
    + change (ext_type_new 10) with (@None ext_type). cbv iota. now rewrite IH by lia.
    + destruct He as (H1 & H2 & H3). rewrite ext_type_other by assumption. now rewrite IH by lia.
Qed.
Lemma client_exts_ok l : Forall client_ext_ok l ->
  from_client_hello_exts (flat_map client_extension_wire l) = Ok (flat_map client_view l).
Proof.
  intros H. unfold from_client_hello_exts. pose proof (client_exts_ok_app l H [] (length (flat_map client_extension_wire l))) as E.
  rewrite app_nil_r in E. rewrite E by (cbn; lia). destruct (_ - _)%nat; cbn; now rewrite app_nil_r.
Qed.

Lemma server_exts_ok l : Forall server_ext_ok l -> forall f,
  (length (flat_map server_extension_wire l) <= f)%nat ->
  server_exts_loop f (flat_map server_extension_wire l) = Ok (flat_map server_view l).
Proof.
  induction 1 as [|e l He _ IH]; intros f Hf; [destruct f; reflexivity|].
  cbn [flat_map] in Hf |- *. rewrite app_length in Hf.
  destruct e as [c|s|t d]; cbn [server_extension_wire server_view server_ext_ok app] in *; rewrite ext_length in Hf;
    (destruct f as [|f]; [lia|]).
  - rewrite server_step by (unfold Rfc8446Hello.u16; rewrite ?be_enc_length; lia).
    change (ext_type_new 43) with (Some TSupportedVersions). cbv iota. unfold versions_client_parse, Rfc8446Hello.u16.
    rewrite (slice_mid [] (be_enc 2 c) _ 0 2 eq_refl (eq_sym (be_enc_length 2 c)) : slice (be_enc 2 c ++ _) 0 2 = _). rewrite !bind_Ok.
    rewrite w_t by assumption. rewrite IH by lia. reflexivity.
  - destruct He as (Hg & H4 & H16). rewrite server_step by (rewrite ?entry_length; lia).
    change (ext_type_new 51) with (Some TKeyShare). cbv iota.
    rewrite key_share_client_ok by (repeat split; assumption). rewrite bind_Ok. rewrite IH by lia. reflexivity.
  - destruct He as (Hc & H16 & H1 & H2 & H3). rewrite server_step by assumption.
    rewrite ext_type_other by assumption. now rewrite IH by lia.
Qed.

(* ---- suites ---- *)
Lemma suite_new_known c : match suite_new c with Ok cs => [cs] | _ => [] end = filter (fun s => suite_u16 s =? c) suites_known.
Proof.
  unfold suite_new, suites_known. cbn [filter suite_u16]. rewrite !(Z.eqb_sym _ c).
  destruct (Z.eqb_spec c 0x1301), (Z.eqb_spec c 0x1302), (Z.eqb_spec c 0x1303), (Z.eqb_spec c 0x00ff); try (exfalso; lia); reflexivity.
Qed.
Lemma suites_loop_ok {E} codes : Forall code16 codes -> forall p s,
  suites_loop (E:=E) (length codes) (p ++ u16s codes ++ s) (length p) = Ok (suites_of codes).
Proof.
  induction 1 as [|c codes Hc _ IH]; intros p s; [reflexivity|].
  cbn [length suites_loop]. unfold u16s, Rfc8446Hello.u16. cbn [flat_map]. fold u16s. rewrite enc2. cbn [app].
  rewrite idx_app, bind_Ok by reflexivity. rewrite (idx_app2 p) by lia. rewrite bind_Ok.
  change (p ++ hi c :: lo c :: flat_map (fun n => be_enc 2 n) codes ++ s) with (p ++ [hi c; lo c] ++ u16s codes ++ s).
  rewrite app_assoc. replace (length p + 2)%nat with (length (p ++ [hi c; lo c])) by (rewrite app_length; reflexivity).
  rewrite IH, bind_Ok. rewrite lor_hl by assumption. unfold suites_of. cbn [flat_map].
  rewrite <- suite_new_known. now destruct (suite_new c).
Qed.

(* ---- the hellos ---- *)
Lemma hello_head {E} v random sid s : 0 <= v < 2^16 -> length random = 32%nat -> (sid = [] \/ length sid = 32%nat) ->
  let p := be_enc 2 v ++ random ++ vector8 sid in
  u16_at (E:=E) (p ++ s) 0 = Ok v /\ slice (E:=E) (p ++ s) 2 34 = Ok random /\
  (let! sid_len := idx (E:=E) (p ++ s) 34 in
   if negb (sid_len =? 0) then let! s := slice (p ++ s) 35 67 in Ok (67%nat, Some s) else Ok (35%nat, None))
  = Ok (length p, session_of sid).
Proof.
  intros Hv Hr Hs p. unfold p. rewrite <- !app_assoc. split; [|split].
  - now apply (u16_at_enc []).
  - apply slice_mid; rewrite be_enc_length; lia.
  - unfold vector8. destruct Hs as [->|Hs].
    + cbn [length session_of]. rewrite enc1 by lia. cbn [app]. rewrite app_assoc.
      rewrite idx_app by (rewrite app_length, be_enc_length; lia). rewrite bind_Ok. cbn [Z.eqb negb].
      rewrite !app_length, be_enc_length, Hr. reflexivity.
    + rewrite Hs, enc1 by (cbn; lia). cbn [Z.of_nat]. rewrite <- app_assoc. cbn [app]. rewrite app_assoc.
      rewrite idx_app by (rewrite app_length, be_enc_length; lia). rewrite bind_Ok. cbn [Z.eqb negb].
      change (?a ++ ?x :: sid ++ s) with (a ++ [x] ++ sid ++ s).
      rewrite app_assoc. rewrite slice_mid by (rewrite !app_length, be_enc_length; cbn [length]; lia). rewrite bind_Ok.
      rewrite !app_length, be_enc_length, Hr. cbn [app length]. rewrite Hs. destruct sid; [discriminate|reflexivity].
Qed.

Lemma client_parse_raw m : hello_header_ok m -> fits16 (flat_map client_extension_wire (m_extensions m)) ->
  client_hello_from_raw (client_hello_wire m)
  = let! exts := from_client_hello_exts (flat_map client_extension_wire (m_extensions m)) in
    Ok (ClientHello (m_random m) (suites_of (m_suites m)) (session_of (m_session_id m)) exts).
Proof.
  intros (Hr & Hs & Hn & Hn2 & Hc) He.
  unfold client_hello_wire. set (p := be_enc 2 0x0303 ++ m_random m ++ vector8 (m_session_id m)).
  set (n := Z.of_nat (length (u16s (m_suites m)))). set (x := flat_map client_extension_wire (m_extensions m)) in *.
  set (c := u16s (m_suites m)) in *.
  assert (length c = (2 * length (m_suites m))%nat) as Lc by apply u16s_length.
  pose proof He as He'. unfold fits16 in He'.
  assert (Rfc8446Hello.u16 0x0303 ++ m_random m ++ vector8 (m_session_id m) ++ vector16 c ++ vector8 [0] ++ vector16 x
          = p ++ be_enc 2 n ++ c ++ [1; 0] ++ be_enc 2 (Z.of_nat (length x)) ++ x) as E.
  { unfold p, Rfc8446Hello.u16, vector16, n. now rewrite <- !app_assoc. }
  rewrite E. clear E.
  assert (length p = 35%nat \/ length p = 67%nat) as Lp.
  { unfold p, vector8. rewrite !app_length, !be_enc_length, Hr. destruct Hs as [->| ->]; [left|right]; reflexivity. }
  unfold client_hello_from_raw.
  assert (length (p ++ be_enc 2 n ++ c ++ [1; 0] ++ be_enc 2 (Z.of_nat (length x)) ++ x) = (length p + (6 + length c + length x))%nat) as Lw
    by (rewrite !app_length, !be_enc_length; cbn [length]; lia).
  assert (4 <= length c + length x)%nat as L4.
  { destruct Hn as [Hn|Hn]; [lia|]. unfold x. destruct (m_extensions m) as [|e l]; [congruence|].
    cbn [flat_map]. rewrite app_length. unfold client_extension_wire at 1. rewrite ext_length. lia. }
  rewrite Lw. destruct (Nat.ltb_spec (length p + (6 + length c + length x)) 45); [lia|].
  destruct (hello_head (E:=tls_error) 0x0303 (m_random m) (m_session_id m)
              (be_enc 2 n ++ c ++ [1; 0] ++ be_enc 2 (Z.of_nat (length x)) ++ x) ltac:(lia) Hr Hs) as (H1 & H2 & H3).
  fold p in H1, H2, H3. rewrite H1, bind_Ok. cbn [Z.eqb negb Pos.eqb]. rewrite H2, bind_Ok.
  assert (forall {A B C} (a : outcome tls_error A) (f : A -> outcome tls_error B) (k : B -> outcome tls_error C),
    bind a (fun v => bind (f v) k) = bind (bind a f) k) as Assoc by (intros A B C [] f k; reflexivity).
  rewrite Assoc. rewrite H3, bind_Ok. clear Assoc H1 H2 H3. cbv beta iota.
  rewrite u16_at_enc by (unfold n; (reflexivity || lia)). rewrite bind_Ok.
  assert (Z.even n = true) as Ev by (unfold n; rewrite Lc, Nat2Z.inj_mul; apply Z.even_mul).
  assert (Z.to_nat n = length c) as Nn by apply Nat2Z.id.
  rewrite Ev, Nn.
  destruct (Nat.ltb_spec (length p + (6 + length c + length x)) (length p + length c)); [lia|]. cbn [negb orb].
  rewrite Lc at 1. rewrite Nat.div2_double.
  rewrite (app_assoc p). replace (length p + 2)%nat with (length (p ++ be_enc 2 n)) by (rewrite app_length, be_enc_length; reflexivity).
  unfold c at 1. rewrite suites_loop_ok by assumption. rewrite bind_Ok.
  fold c. rewrite (app_assoc (p ++ be_enc 2 n)), (app_assoc _ [1; 0]).
  set (q := ((p ++ be_enc 2 n) ++ c) ++ [1; 0]).
  assert (length (p ++ be_enc 2 n) + length c + 2 = length q)%nat as Lq by (unfold q; rewrite !app_length; cbn [length]; lia).
  rewrite Lq. rewrite u16_at_enc by (reflexivity || lia). rewrite bind_Ok. rewrite Nat2Z.id.
  rewrite (app_assoc q). rewrite <- (app_nil_r (_ ++ x)), <- app_assoc.
  rewrite slice_mid by (rewrite app_length, be_enc_length; reflexivity). rewrite bind_Ok.
  reflexivity.
Qed.
Lemma client_parse m : client_hello_ok m -> client_hello_from_raw (client_hello_wire m) = Ok (hello_view m).
Proof.
  intros (Hh & He & Hx). rewrite client_parse_raw by assumption. now rewrite client_exts_ok.
Qed.

Lemma suite_of_new c : suite_new c = match suite_of c with Some s => Ok s | None => Err InsufficientSecurity end.
Proof.
  unfold suite_of, suites_known, suite_new. cbn [find suite_u16]. rewrite !(Z.eqb_sym _ c).
  destruct (Z.eqb_spec c 0x1301), (Z.eqb_spec c 0x1302), (Z.eqb_spec c 0x1303), (Z.eqb_spec c 0x00ff); try (exfalso; lia); reflexivity.
Qed.

Lemma server_parse m : server_hello_ok m ->
  server_hello_from_raw (server_hello_wire m) =
  match suite_of (s_suite m) with
  | None => Err InsufficientSecurity
  | Some cs => if server_tls13 (flat_map server_view (s_extensions m))
               then Ok (ServerHello (s_random m) (session_of (s_session_id m)) cs (flat_map server_view (s_extensions m)))
               else Err ProtocolVersion
  end.
Proof.
  intros (Hr & Hs & Hc & He & Hx).
  unfold server_hello_wire. set (p := be_enc 2 0x0303 ++ s_random m ++ vector8 (s_session_id m)).
  set (x := flat_map server_extension_wire (s_extensions m)) in *. set (n := s_suite m) in *.
  pose proof He as He'. unfold fits16 in He'.
  assert (Rfc8446Hello.u16 0x0303 ++ s_random m ++ vector8 (s_session_id m) ++ Rfc8446Hello.u16 n ++ [0] ++ vector16 x
          = p ++ be_enc 2 n ++ [0] ++ be_enc 2 (Z.of_nat (length x)) ++ x) as E.
  { unfold p, Rfc8446Hello.u16, vector16. now rewrite <- !app_assoc. }
  rewrite E. clear E.
  assert (length p = 35%nat \/ length p = 67%nat) as Lp.
  { unfold p, vector8. rewrite !app_length, !be_enc_length, Hr. destruct Hs as [->| ->]; [left|right]; reflexivity. }
  unfold server_hello_from_raw.
  assert (length (p ++ be_enc 2 n ++ [0] ++ be_enc 2 (Z.of_nat (length x)) ++ x) = (length p + (5 + length x))%nat) as Lw
    by (rewrite !app_length, !be_enc_length; cbn [length]; lia).
  rewrite Lw. destruct (Nat.ltb_spec (length p + (5 + length x)) 36); [lia|].
  destruct (hello_head (E:=tls_error) 0x0303 (s_random m) (s_session_id m)
              (be_enc 2 n ++ [0] ++ be_enc 2 (Z.of_nat (length x)) ++ x) ltac:(lia) Hr Hs) as (H1 & H2 & H3).
  fold p in H1, H2, H3. rewrite H1, bind_Ok. cbn [Z.eqb negb Pos.eqb]. rewrite H2, bind_Ok.
  assert (forall {A B C} (a : outcome tls_error A) (f : A -> outcome tls_error B) (k : B -> outcome tls_error C),
    bind a (fun v => bind (f v) k) = bind (bind a f) k) as Assoc by (intros A B C [] f k; reflexivity).
  rewrite Assoc. rewrite H3, bind_Ok. clear Assoc H1 H2 H3. cbv beta iota.
  rewrite u16_at_enc by (reflexivity || assumption). rewrite bind_Ok.
  rewrite suite_of_new. destruct (suite_of n) as [cs|]; [|reflexivity]. rewrite bind_Ok.
  rewrite (app_assoc p), (app_assoc _ [0]). set (q := (p ++ be_enc 2 n) ++ [0]).
  assert (length p + 3 = length q)%nat as Lq by (unfold q; rewrite !app_length, be_enc_length; cbn [length]; lia).
  rewrite Lq. rewrite u16_at_enc by (reflexivity || lia). rewrite bind_Ok. rewrite Nat2Z.id.
  rewrite (app_assoc q). rewrite <- (app_nil_r (_ ++ x)), <- app_assoc.
  rewrite slice_mid by (rewrite app_length, be_enc_length; reflexivity). rewrite bind_Ok.
  unfold from_server_hello_exts. unfold x at 2. rewrite server_exts_ok by (assumption || (unfold x; lia)). rewrite bind_Ok. reflexivity.
Qed.

(* ---- encoding ---- *)
From Verif.Spec Require Import Rfc7748 KeyShare.
From Verif.Proofs Require Kex X25519Props.

Lemma vec16_enc l : zlen l < 2^16 -> with_len16 l = vector16 l.
Proof. intros. unfold with_len16, vector16. now rewrite enc2. Qed.

Definition x25519_wire (secret : Z) : Z * list Z := (29, X25519 (x25519_private secret) base_point).
Definition sid_list (sid : option (list Z)) : list Z := match sid with Some s => s | None => [] end.
Definition hello_msg (random : list Z) (sid : option (list Z)) (suites : list cipher_suite) (secret : Z) (name : option (list Z)) : client_hello_msg :=
  {| m_random := random; m_session_id := sid_list sid; m_suites := map suite_u16 suites;
     m_extensions := [Shares [x25519_wire secret]; Versions [0x0304]; SigAlgs [0x0403]; Groups [23; 29]] ++
                     match name with Some n => [Host n] | None => [] end |}.
Definition hello_exts (e : kse) (name : option (list Z)) : list client_ext :=
  [CKeyShare [e]; CSupportedVersion true; CSignatureAlgorithms [ecdsa_secp256r1_sha256]; CSupportedGroups [Secp256r1; X25519g]] ++
  match name with Some n => [CServerName n] | None => [] end.
Lemma sid_vec sid : zlen (sid_list sid) < 256 -> sid_bytes sid = vector8 (sid_list sid).
Proof.
  destruct sid as [l|]; cbn [sid_bytes sid_list]; unfold vector8; intros H; [|reflexivity].
  rewrite enc1 by (unfold zlen in *; lia). now rewrite u8_id by (unfold zlen in *; lia).
Qed.
Lemma suites_enc l : flat_map (fun s => [hi (suite_u16 s); lo (suite_u16 s)]) l = u16s (map suite_u16 l).
Proof. induction l as [|x l IH]; [reflexivity|]. unfold u16s, Rfc8446Hello.u16 in *. cbn [flat_map map]. now rewrite IH, enc2. Qed.

Lemma wire_share {E} secret e : kse_bytes (E:=E) e = Ok ([0x00; 0x1d; 0x00; 0x20] ++ X25519 (x25519_private secret) base_point) ->
  kse_bytes (E:=E) e = Ok (key_share_entry (x25519_wire secret)) /\ length (key_share_entry (x25519_wire secret)) = 36%nat.
Proof.
  intros H. set (k := X25519 (x25519_private secret) base_point) in *.
  assert (length k = 32%nat) as Lk.
  { destruct (X25519Props.X25519_bytes (x25519_private secret) base_point) as (_ & L & _). exact L. }
  assert (key_share_entry (x25519_wire secret) = [0x00; 0x1d; 0x00; 0x20] ++ k) as W.
  { unfold key_share_entry, x25519_wire, vector16, Rfc8446Hello.u16. cbn [fst snd]. fold k. rewrite Lk, !enc2. reflexivity. }
  rewrite W. split; [assumption|rewrite app_length, Lk; reflexivity].
Qed.

Lemma ext_bytes t d : 0 <= t < 256 -> [0x00; t; hi (zlen d); lo (zlen d)] ++ d = extension t d.
Proof.
  intros Ht. unfold extension, vector16, Rfc8446Hello.u16, zlen. rewrite !enc2.
  assert (hi t = 0 /\ lo t = t) as [-> ->]; [|reflexivity].
  unfold hi, lo, u8. rewrite Z.shiftr_div_pow2 by lia. change (2^8) with 256. lia.
Qed.
Lemma name_bytes n : server_name_bytes n = client_extension_wire (Host n).
Proof.
  unfold server_name_bytes, client_extension_wire, extension, vector16, Rfc8446Hello.u16, zlen.
  cbn [client_extension_type client_extension_data]. unfold vector16.
  rewrite !enc2. rewrite !app_length. cbn [length app].
  replace (Z.of_nat (2 + (1 + (2 + length n)))) with (Z.of_nat (length n) + 3 + 2) by lia.
  replace (Z.of_nat (1 + (2 + length n))) with (Z.of_nat (length n) + 3) by lia. reflexivity.
Qed.
Lemma share_bytes {E} secret e : kse_bytes (E:=E) e = Ok (key_share_entry (x25519_wire secret)) ->
  key_share_client_bytes (E:=E) [e] = Ok (client_extension_wire (Shares [x25519_wire secret])).
Proof.
  intros H. unfold key_share_client_bytes. cbn [ks_entries]. rewrite H, !bind_Ok, app_nil_r.
  rewrite ext_bytes by lia. unfold client_extension_wire. cbn [client_extension_type client_extension_data flat_map]. rewrite app_nil_r.
  assert (forall w, [hi (zlen w); lo (zlen w)] ++ w = vector16 w) as V by (intros w; unfold vector16, zlen; now rewrite enc2).
  now rewrite V.
Qed.

Lemma exts_short random sid suites secret name : match name with Some n => zlen n <= 65459 | None => True end ->
  zlen (flat_map client_extension_wire (m_extensions (hello_msg random sid suites secret name))) < 2^16.
Proof.
  intros Hn. assert (length (key_share_entry (x25519_wire secret)) = 36%nat) as Lw.
  { rewrite entry_length. unfold x25519_wire. cbn [snd].
    destruct (X25519Props.X25519_bytes (x25519_private secret) base_point) as (_ & L & _). now rewrite L. }
  cbn [m_extensions hello_msg app flat_map]. unfold client_extension_wire, zlen. rewrite !app_length, !ext_length.
  cbn [client_extension_data flat_map]. unfold vector16 at 1. rewrite app_nil_r, app_length, be_enc_length, Lw.
  destruct name as [n|]; cbn [flat_map app]; rewrite ?app_nil_r, ?ext_length; cbn [client_extension_data length];
    unfold vector16, vector8, u16s; cbn [flat_map]; unfold Rfc8446Hello.u16; rewrite ?app_length, ?be_enc_length; cbn [length];
    rewrite ?app_length, ?be_enc_length; unfold zlen in *; cbn [length]; lia.
Qed.
Lemma client_encode {E} random sid suites secret e name : 0 <= secret < 2^256 -> zlen (sid_list sid) < 256 ->
  match name with Some n => zlen n <= 65459 | None => True end ->
  key_share_of (E:=E) (PrivateKey curve25519 secret) = Ok e ->
  client_hello_bytes (E:=E) (ClientHello random suites sid (hello_exts e name))
  = Ok (client_hello_wire (hello_msg random sid suites secret name)).
Proof.
  intros Hs Hsid Hn He. destruct (Kex.sent (E:=E) secret Hs) as (e' & He' & Hg & Hb).
  rewrite He in He'. injection He' as <-.
  destruct (wire_share secret e Hb) as (Hw & Lw).
  unfold client_hello_bytes. cbn [ch_random ch_suites ch_sid ch_exts].
  pose proof (exts_short random sid suites secret name Hn) as Lx.
  set (x := flat_map client_extension_wire (m_extensions (hello_msg random sid suites secret name))) in *.
  assert (client_exts_bytes (E:=E) (hello_exts e name) = Ok (vector16 x)) as Hx.
  { unfold client_exts_bytes.
    assert (concatM (E:=E) client_ext_bytes (hello_exts e name) = Ok x) as Hc.
    { unfold x, hello_exts. cbn [m_extensions hello_msg app flat_map concatM client_ext_bytes].
      rewrite (share_bytes secret e Hw), !bind_Ok.
      change (sig_algs_bytes (E:=E) [ecdsa_secp256r1_sha256]) with (Ok (E:=E) (client_extension_wire (SigAlgs [0x0403]))).
      change (groups_bytes (E:=E) [Secp256r1; X25519g]) with (Ok (E:=E) (client_extension_wire (Groups [23; 29]))).
      change versions_client_bytes with (client_extension_wire (Versions [0x0304])).
      rewrite !bind_Ok. destruct name as [n|]; cbn [concatM client_ext_bytes flat_map]; rewrite !bind_Ok, ?name_bytes, ?app_nil_r; reflexivity. }
    rewrite Hc, bind_Ok. now rewrite vec16_enc. }
  rewrite Hx, bind_Ok. unfold client_hello_wire. fold x. cbn [m_random m_session_id m_suites hello_msg].
  rewrite sid_vec by assumption. rewrite suites_enc. unfold vector16 at 2. rewrite u16s_length, map_length, Nat2Z.inj_mul.
  change (Z.of_nat 2) with 2. rewrite (enc2 (2 * Z.of_nat (length suites))). unfold zlen. rewrite <- app_assoc. reflexivity.
Qed.

Definition answer_msg (random sid : list Z) (cs : cipher_suite) (secret : Z) : server_hello_msg :=
  {| s_random := random; s_session_id := sid; s_suite := suite_u16 cs;
     s_extensions := [SelectedShare (x25519_wire secret); SelectedVersion 0x0304] |}.
Lemma server_encode {E} random sid cs secret e : 0 <= secret < 2^256 ->
  (zlen (sid_list sid) < 256) ->
  key_share_of (E:=E) (PrivateKey curve25519 secret) = Ok e ->
  server_hello_bytes (E:=E) (ServerHello random sid cs [SKeyShare [e]; SSupportedVersions true])
  = Ok (server_hello_wire (answer_msg random (sid_list sid) cs secret)).
Proof.
  intros Hs Hsid He. destruct (Kex.sent (E:=E) secret Hs) as (e' & He' & Hg & Hb).
  rewrite He in He'. injection He' as <-.
  destruct (wire_share secret e Hb) as (Hw & Lw).
  unfold server_hello_bytes. cbn [sh_random sh_sid sh_suite sh_exts]. unfold server_exts_bytes. cbn [concatM server_ext_bytes].
  unfold key_share_server_bytes. rewrite Hw, !bind_Ok. rewrite ext_bytes by lia. rewrite app_nil_r.
  change versions_server_bytes with (server_extension_wire (SelectedVersion 0x0304)).
  rewrite vec16_enc by (unfold zlen; rewrite app_length; cbn [server_extension_wire]; rewrite !ext_length, Lw; cbn; lia).
  unfold server_hello_wire. cbn [s_random s_session_id s_suite s_extensions answer_msg flat_map server_extension_wire].
  rewrite app_nil_r. f_equal. f_equal. f_equal.
  rewrite sid_vec by assumption.
  unfold Rfc8446Hello.u16. rewrite (enc2 (suite_u16 cs)). reflexivity.
Qed.

Lemma x25519_share_ok secret : share_ok (x25519_wire secret).
Proof.
  unfold share_ok, x25519_wire. cbn [fst snd].
  destruct (X25519Props.X25519_bytes (x25519_private secret) base_point) as (_ & L & _). rewrite L.
  split; [discriminate|split; cbn; lia].
Qed.
Lemma hello_msg_ok random sid suites secret name : length random = 32%nat ->
  (sid = None \/ exists s, sid = Some s /\ length s = 32%nat) -> zlen suites < 2^15 ->
  match name with Some n => zlen n <= 65459 /\ utf8_valid n = true | None => True end ->
  client_hello_ok (hello_msg random sid suites secret name).
Proof.
  intros Hr Hs Hsu Hn. pose proof (x25519_share_ok secret) as Ho.
  assert (length (key_share_entry (x25519_wire secret)) = 36%nat) as Lw.
  { rewrite entry_length. unfold x25519_wire. cbn [snd].
    destruct (X25519Props.X25519_bytes (x25519_private secret) base_point) as (_ & L & _). now rewrite L. }
  split; [|split].
  - unfold hello_header_ok. cbn [m_random m_session_id m_suites m_extensions hello_msg]. rewrite map_length.
    repeat split; auto.
    + destruct Hs as [->|(s & -> & Hs)]; [now left|now right].
    + right. discriminate.
    + apply Forall_forall. intros c Hc. apply in_map_iff in Hc. destruct Hc as (s & <- & _). unfold code16. destruct s; cbn [suite_u16]; lia.
  - apply (exts_short random sid suites secret name). destruct name; [apply Hn|exact I].
  - cbn [m_extensions hello_msg].
    apply Forall_app. split; [|destruct name as [n|]; constructor; [|constructor]].
    1: repeat (apply Forall_cons || apply Forall_nil).
    all: unfold client_ext_ok, code16, fits16; cbn [client_extension_type client_extension_data flat_map]; unfold vector16, vector8, u16s;
      cbn [flat_map]; unfold Rfc8446Hello.u16; rewrite ?app_length, ?be_enc_length; cbn [length]; rewrite ?app_length, ?be_enc_length, ?Lw; cbn [length];
      (split; [lia|split; [unfold zlen in *; cbn; lia|]]); auto.
    + split; [discriminate|constructor; [assumption|constructor]].
    + split; [lia|constructor; [cbn; lia|constructor]].
    + apply Hn.
Qed.
Lemma suites_of_map l : suites_of (map suite_u16 l) = l.
Proof. induction l as [|s l IH]; [reflexivity|]. unfold suites_of in *. cbn [map flat_map]. rewrite IH. destruct s; reflexivity. Qed.

Lemma client_round random sid suites secret e name : 0 <= secret < 2^256 -> length random = 32%nat ->
  (sid = None \/ exists s, sid = Some s /\ length s = 32%nat) -> zlen suites < 2^15 ->
  match name with Some n => zlen n <= 65459 /\ utf8_valid n = true | None => True end ->
  key_share_of (E:=tls_error) (PrivateKey curve25519 secret) = Ok e ->
  exists w, client_hello_bytes (E:=tls_error) (ClientHello random suites sid (hello_exts e name)) = Ok w /\
    client_hello_from_raw w = Ok (ClientHello random suites sid
      ([CKeyShare [KSE X25519g (X25519 (x25519_private secret) base_point)]; CSupportedVersion true] ++
       match name with Some n => [CServerName n] | None => [] end)).
Proof.
  intros Hs Hr Hsid Hsu Hn He. eexists. split.
  - apply (client_encode random sid suites secret e name); [assumption| | |assumption].
    + destruct Hsid as [->|(s & -> & Hl)]; [reflexivity|]. unfold zlen. cbn [sid_list]. rewrite Hl. reflexivity.
    + destruct name; [apply Hn|exact I].
  - rewrite client_parse by (now apply hello_msg_ok). unfold hello_view. cbn [m_random m_session_id m_suites m_extensions hello_msg].
    rewrite suites_of_map. f_equal. f_equal.
    + destruct Hsid as [->|(s & -> & Hl)]; [reflexivity|]. destruct s; [discriminate|reflexivity].
    + destruct name; reflexivity.
Qed.

Lemma answer_msg_ok random sid cs secret : length random = 32%nat ->
  (sid = None \/ exists s, sid = Some s /\ length s = 32%nat) ->
  server_hello_ok (answer_msg random (sid_list sid) cs secret).
Proof.
  intros Hr Hs. pose proof (x25519_share_ok secret) as Ho.
  assert (length (key_share_entry (x25519_wire secret)) = 36%nat) as Lw.
  { rewrite entry_length. unfold x25519_wire. cbn [snd].
    destruct (X25519Props.X25519_bytes (x25519_private secret) base_point) as (_ & L & _). now rewrite L. }
  unfold server_hello_ok, answer_msg. cbn [s_random s_session_id s_suite s_extensions].
  split; [assumption|]. split; [|split; [|split]].
  - destruct Hs as [->|(s & -> & Hs)]; [now left|now right].
  - unfold code16. destruct cs; cbn [suite_u16]; lia.
  - unfold fits16. cbn [flat_map server_extension_wire]. rewrite !app_length, !ext_length, Lw. cbn. lia.
  - repeat (apply Forall_cons || apply Forall_nil); cbn [server_ext_ok]; [assumption|unfold code16; lia].
Qed.
Lemma server_round random sid cs secret e : 0 <= secret < 2^256 -> length random = 32%nat ->
  (sid = None \/ exists s, sid = Some s /\ length s = 32%nat) ->
  key_share_of (E:=tls_error) (PrivateKey curve25519 secret) = Ok e ->
  exists w, server_hello_bytes (E:=tls_error) (ServerHello random sid cs [SKeyShare [e]; SSupportedVersions true]) = Ok w /\
    server_hello_from_raw w = Ok (ServerHello random sid cs
      [SKeyShare [KSE X25519g (X25519 (x25519_private secret) base_point)]; SSupportedVersions true]).
Proof.
  intros Hs Hr Hsid He. eexists. split.
  - apply (server_encode random sid cs secret e); [assumption| |assumption]. destruct Hsid as [->|(s & -> & Hl)]; [reflexivity|]. unfold zlen. cbn [sid_list]. rewrite Hl. reflexivity.
  - rewrite server_parse by (now apply answer_msg_ok). unfold answer_msg. cbn [s_random s_session_id s_suite s_extensions].
    assert (suite_of (suite_u16 cs) = Some cs) as -> by (destruct cs; reflexivity).
    cbn [flat_map server_view app]. cbn [server_tls13]. change (772 =? 772) with true. cbv iota.
    f_equal. f_equal. destruct Hsid as [->|(s & -> & Hl)]; [reflexivity|]. destruct s; [discriminate|reflexivity].
Qed.
