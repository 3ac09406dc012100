From Verif.Model Require Import Base Alert Bytes Suite Curve Ecdsa Extensions Hello.
From Verif.Spec Require Import Enc Rfc7748 KeyShare Rfc8446Hello HelloView Negotiation.
From Verif.Proofs Require Import Util Bytes Hello.
From Verif.Proofs Require Kex.

(* ---- suites ---- *)
Lemma suite_dec (a b : cipher_suite) : {a = b} + {a <> b}.
Proof. decide equality. Qed.
Lemma choose_some l : forall chosen r, choose_suite l chosen = Some r ->
  (In r l /\ r <> SCSV \/ chosen = Some r) /\ (In CHACHA20_POLY1305_SHA256 l -> r = CHACHA20_POLY1305_SHA256).
Proof.
  induction l as [|s l IH]; intros chosen r H; cbn [choose_suite] in H.
  - split; [now right|intros []].
  - destruct s.
    + apply IH in H. destruct H as ([[H1 H2]|H1] & H3).
      * split; [left; split; [now right|assumption]|]. intros [E|E]; [discriminate|auto].
      * injection H1 as <-. split; [left; split; [now left|discriminate]|]. intros [E|E]; [discriminate|auto].
    + injection H as <-. split; [left; split; [now left|discriminate]|]. reflexivity.
    + apply IH in H. destruct H as ([[H1 H2]|H1] & H3).
      * split; [left; split; [now right|assumption]|]. intros [E|E]; [discriminate|auto].
      * injection H1 as <-. split; [left; split; [now left|discriminate]|]. intros [E|E]; [discriminate|auto].
    + apply IH in H. destruct H as ([[H1 H2]|H1] & H3).
      * split; [left; split; [now right|assumption]|]. intros [E|E]; [discriminate|auto].
      * split; [now right|]. intros [E|E]; [discriminate|auto].
Qed.
Lemma choose_keeps l : forall c, choose_suite l (Some c) <> None.
Proof. induction l as [|s l IH]; intros c; cbn [choose_suite]; [discriminate|]. destruct s; auto; discriminate. Qed.
Lemma choose_none l : choose_suite l None = None <-> (forall s, In s l -> s = SCSV).
Proof.
  induction l as [|s l IH]; cbn [choose_suite]; [split; [intros _ s []|reflexivity]|].
  destruct s; (split; intros H; [try (now apply choose_keeps in H); try discriminate
    |try (assert (X : _ = SCSV) by (apply H; now left); discriminate)]).
  - intros s [<-|Hs]; [reflexivity|]. now apply IH.
  - apply IH. intros s Hs. apply H. now right.
Qed.

Lemma suites_of_in codes s : In s (suites_of codes) <-> In (suite_u16 s) codes.
Proof.
  unfold suites_of. rewrite in_flat_map. split.
  - intros (c & Hc & Hs). apply filter_In in Hs. destruct Hs as [_ Hs]. apply Z.eqb_eq in Hs. now subst.
  - intros H. exists (suite_u16 s). split; [assumption|]. apply filter_In. split; [destruct s; cbn; auto|apply Z.eqb_refl].
Qed.

(* ---- extensions ---- *)
Lemma agree_ok l s : 0 <= s < 2^256 -> Forall share_ok l -> x25519_first l -> offers x25519_code l ->
  exists e, key_share_of (E:=tls_error) (PrivateKey curve25519 s) = Ok e /\
    agree_on (shares_of l) s = Ok (Some (e, PrivateKey curve25519 s)).
Proof.
  intros Hs. destruct (Kex.sent (E:=tls_error) s Hs) as (e & He & _). intros Hf Hx Ho. exists e. split; [assumption|].
  induction Hf as [|x l (Hg & _) Hl IH]; [destruct Ho|].
  destruct (group_of (fst x)) as [g|] eqn:Eg; [|congruence].
  rewrite (shares_of_cons x l g Eg). cbn [agree_on ks_group].
  assert (named_group_u16 g = fst x) as Hu.
  { unfold group_of in Eg. apply find_some in Eg. destruct Eg as [_ Eg]. now apply Z.eqb_eq in Eg. }
  assert (g <> X25519g -> g <> Secp256r1 -> agree_on (shares_of l) s = Ok (Some (e, PrivateKey curve25519 s))) as Hrest.
  { intros Hg1 Hg2. apply IH.
    - intros a k b ->. specialize (Hx (x :: a) k b eq_refl). unfold offers in *. cbn [map] in Hx.
      destruct Hx as [Hx|Hx]; [|assumption]. exfalso. apply Hg1. rewrite <- Hu in Hx. destruct g; try reflexivity; discriminate.
    - unfold offers in *. cbn [map] in Ho. destruct Ho as [Ho|Ho]; [|assumption].
      exfalso. apply Hg1. rewrite <- Hu in Ho. destruct g; try reflexivity; discriminate. }
  destruct g; try (apply Hrest; discriminate).
  - exfalso. destruct x as [c k]. cbn [fst named_group_u16] in Hu. subst c. specialize (Hx [] k l eq_refl). destruct Hx.
  - now rewrite He, bind_Ok.
Qed.
Lemma agree_panic a k b s : Forall share_ok (a ++ (secp256r1_code, k) :: b) -> ~ offers x25519_code a ->
  agree_on (shares_of (a ++ (secp256r1_code, k) :: b)) s = Panic.
Proof.
  induction a as [|x a IH]; intros Hf Ho; cbn [app] in *; inversion Hf as [|? ? (Hg & _) Hl]; subst.
  - reflexivity.
  - destruct (group_of (fst x)) as [g|] eqn:Eg; [|congruence].
    rewrite (shares_of_cons x _ g Eg). cbn [agree_on ks_group].
    unfold offers in Ho. cbn [map] in Ho.
    assert (g <> X25519g) as Hn.
    { intros ->. apply Ho. left. unfold group_of in Eg. apply find_some in Eg. destruct Eg as [_ Eg]. apply Z.eqb_eq in Eg. now rewrite <- Eg. }
    destruct g; try (apply IH; [assumption|intros H; apply Ho; now right]); [reflexivity|congruence].
Qed.
Lemma agree_needs l s r : agree_on l s = Ok (Some r) -> Exists (fun k => ks_group k = X25519g) l.
Proof.
  induction l as [|k l IH]; cbn [agree_on]; [discriminate|]. destruct (ks_group k) eqn:E; try (intros H; right; now apply IH).
  intros _. now left.
Qed.

Definition no_shares (l : list client_extension) : Prop := Forall (fun e => ~ has_shares e) l.
Lemma negotiate_skip name l : Forall (acceptable name) l -> no_shares l -> forall rest secrets x pk,
  negotiate name (flat_map client_view l ++ rest) secrets x pk = negotiate name rest secrets x pk.
Proof.
  induction 1 as [|e l He _ IH]; intros Hn rest secrets x pk; [reflexivity|].
  inversion Hn as [|? ? Hn1 Hn2]; subst. cbn [flat_map].
  destruct e as [n|c|s|c|c|t d]; cbn [client_view app acceptable has_shares] in *; try (now apply IH).
  - cbn [negotiate]. destruct name as [h|]; [|now apply IH]. subst n. rewrite list_eqb_refl. now apply IH.
  - cbn [negotiate]. assert (existsb (Z.eqb 772) c = true) as ->.
    { apply existsb_exists. exists 772. split; [assumption|reflexivity]. }
    now apply IH.
  - exfalso. now apply Hn1.
Qed.

Lemma answer_ok m pre l post name random secrets :
  client_hello_ok m -> m_extensions m = pre ++ Shares l :: post -> no_shares (pre ++ post) ->
  Forall (acceptable name) (pre ++ post) -> x25519_first l -> offers x25519_code l ->
  (exists code, In code (m_suites m) /\ implemented code) -> 0 <= hd 0 secrets < 2^256 ->
  exists e cs, key_share_of (E:=tls_error) (PrivateKey curve25519 (hd 0 secrets)) = Ok e /\
    answer (client_hello_wire m) random secrets name
    = Ok (ServerHello random (session_of (m_session_id m)) cs [SKeyShare [e]; SSupportedVersions true],
          PrivateKey curve25519 (hd 0 secrets)) /\ choose_suite (suites_of (m_suites m)) None = Some cs.
Proof.
  intros Hm Hx Hns Hacc Hfirst Hoff (code & Hcode & Himp) Hsec.
  unfold answer. rewrite client_parse by assumption. rewrite bind_Ok.
  destruct Hm as (_ & _ & Hok). rewrite Hx in Hok. apply Forall_app in Hok. destruct Hok as [_ Hok].
  inversion Hok as [|? ? Hsh _]; subst. destruct Hsh as (_ & _ & Hsh). cbn in Hsh. destruct Hsh as [Hl1 Hl2].
  apply Forall_app in Hns, Hacc. destruct Hns as [Hn1 Hn2], Hacc as [Ha1 Ha2].
  destruct (agree_ok l (hd 0 secrets) Hsec Hl2 Hfirst Hoff) as (e & He & Hag).
  assert (choose_suite (suites_of (m_suites m)) None <> None) as Hcs.
  { intros Hnone. rewrite choose_none in Hnone.
    assert (exists s, suite_u16 s = code /\ s <> SCSV) as (s & Hs & Hsc).
    { destruct Himp as [->|[->| ->]]; [exists AES_128_GCM_SHA256|exists AES_256_GCM_SHA384|exists CHACHA20_POLY1305_SHA256]; split; (reflexivity || discriminate). }
    apply Hsc, Hnone, suites_of_in. now rewrite Hs. }
  destruct (choose_suite (suites_of (m_suites m)) None) as [cs|] eqn:Ecs; [|congruence].
  exists e, cs. split; [assumption|]. split; [|reflexivity].
  unfold server_hello_from_client, hello_view. cbn [ch_exts ch_suites ch_sid]. rewrite Hx, flat_map_app. cbn [flat_map client_view app].
  rewrite negotiate_skip by assumption. cbn [negotiate]. rewrite Hag, bind_Ok. cbn [app].
  rewrite <- (app_nil_r (flat_map client_view post)). rewrite negotiate_skip by assumption. cbn [negotiate]. rewrite bind_Ok.
  now rewrite Ecs.
Qed.

Lemma answer_panic m pre a k b post name random secrets :
  client_hello_ok m -> m_extensions m = pre ++ Shares (a ++ (secp256r1_code, k) :: b) :: post -> no_shares pre ->
  Forall (acceptable name) pre -> ~ offers x25519_code a ->
  answer (client_hello_wire m) random secrets name = Panic.
Proof.
  intros Hm Hx Hns Hacc Hoff. unfold answer. rewrite client_parse by assumption. rewrite bind_Ok.
  destruct Hm as (_ & _ & Hok). rewrite Hx in Hok. apply Forall_app in Hok. destruct Hok as [_ Hok].
  inversion Hok as [|? ? Hsh _]; subst. destruct Hsh as (_ & _ & Hsh). cbn in Hsh. destruct Hsh as [Hl1 Hl2].
  unfold server_hello_from_client, hello_view. cbn [ch_exts ch_suites ch_sid]. rewrite Hx, flat_map_app. cbn [flat_map client_view app].
  rewrite negotiate_skip by assumption. cbn [negotiate]. now rewrite agree_panic.
Qed.

(* ---- what a successful answer implies ---- *)
Definition fine (name : option (list Z)) (e : client_ext) : Prop :=
  match e with
  | CSupportedVersion v => v = true
  | CServerName n => match name with Some h => h = n | None => True end
  | _ => True
  end.
Lemma negotiate_fine name l : forall secrets x pk r, negotiate name l secrets x pk = Ok r ->
  Forall (fine name) l /\
  (snd r = pk \/ exists ks, In (CKeyShare ks) l /\ Exists (fun k => ks_group k = X25519g) ks).
Proof.
  induction l as [|e l IH]; intros secrets x pk r H; cbn [negotiate] in H.
  - split; [constructor|]. left. injection H as <-. reflexivity.
  - destruct e as [v|g|ks|n|sa]; cbn [fine].
    + destruct v; [|discriminate]. apply IH in H. destruct H as (H1 & H2). split; [constructor; [reflexivity|assumption]|].
      destruct H2 as [H2|(ks & Hi & Hk)]; [now left|right; exists ks; split; [now right|assumption]].
    + apply IH in H. destruct H as (H1 & H2). split; [constructor; [exact I|assumption]|].
      destruct H2 as [H2|(ks & Hi & Hk)]; [now left|right; exists ks; split; [now right|assumption]].
    + apply bind_ok in H. destruct H as (o & Ho & H). destruct o as [[e k]|]; apply IH in H; destruct H as (H1 & H2).
      * split; [constructor; [exact I|assumption]|]. right. exists ks. split; [now left|]. now apply (agree_needs ks _ _ Ho).
      * split; [constructor; [exact I|assumption]|].
        destruct H2 as [H2|(ks' & Hi & Hk)]; [now left|right; exists ks'; split; [now right|assumption]].
    + destruct name as [h|].
      * destruct (list_eqb h n) eqn:E; [|discriminate]. apply list_eqb_spec in E. apply IH in H. destruct H as (H1 & H2).
        split; [constructor; [exact E|assumption]|].
        destruct H2 as [H2|(ks & Hi & Hk)]; [now left|right; exists ks; split; [now right|assumption]].
      * apply IH in H. destruct H as (H1 & H2). split; [constructor; [exact I|assumption]|].
        destruct H2 as [H2|(ks & Hi & Hk)]; [now left|right; exists ks; split; [now right|assumption]].
    + destruct (existsb _ sa); [|discriminate]. apply IH in H. destruct H as (H1 & H2). split; [constructor; [exact I|assumption]|].
      destruct H2 as [H2|(ks & Hi & Hk)]; [now left|right; exists ks; split; [now right|assumption]].
Qed.
Lemma hello_implies c random secrets name sh pk : server_hello_from_client c random secrets name = Ok (sh, pk) ->
  Forall (fine name) (ch_exts c) /\ (exists ks, In (CKeyShare ks) (ch_exts c) /\ Exists (fun k => ks_group k = X25519g) ks) /\
  choose_suite (ch_suites c) None = Some (sh_suite sh) /\ sh_random sh = random /\ sh_sid sh = ch_sid c.
Proof.
  unfold server_hello_from_client. intros H. apply bind_ok in H. destruct H as ([exts pk'] & Hn & H).
  apply negotiate_fine in Hn. destruct Hn as (Hf & Hk). cbn [snd] in Hk.
  destruct pk' as [pk'|]; [|discriminate]. destruct (choose_suite (ch_suites c) None) as [cs|] eqn:E; [|discriminate].
  injection H as <- <-. cbn. repeat split; auto. destruct Hk as [Hk|Hk]; [discriminate|assumption].
Qed.
Lemma suite_chosen c random secrets name sh pk : server_hello_from_client c random secrets name = Ok (sh, pk) ->
  In (sh_suite sh) (ch_suites c) /\ sh_suite sh <> SCSV /\
  (In CHACHA20_POLY1305_SHA256 (ch_suites c) -> sh_suite sh = CHACHA20_POLY1305_SHA256).
Proof.
  intros H. apply hello_implies in H. destruct H as (_ & _ & H & _). apply choose_some in H.
  destruct H as ([[H1 H2]|H1] & H3); [|discriminate]. auto.
Qed.
Lemma answer_implies m random secrets name sh pk : client_hello_ok m ->
  answer (client_hello_wire m) random secrets name = Ok (sh, pk) ->
  server_hello_from_client (hello_view m) random secrets name = Ok (sh, pk).
Proof. intros Hm. unfold answer. rewrite client_parse by assumption. now rewrite bind_Ok. Qed.

Lemma wire_suite m random secrets name sh pk : client_hello_ok m ->
  answer (client_hello_wire m) random secrets name = Ok (sh, pk) ->
  In (suite_u16 (sh_suite sh)) (m_suites m) /\ implemented (suite_u16 (sh_suite sh)) /\
  (In 0x1303 (m_suites m) -> suite_u16 (sh_suite sh) = 0x1303).
Proof.
  intros Hm H. apply answer_implies in H; [|assumption]. apply suite_chosen in H. cbn [hello_view ch_suites] in H.
  destruct H as (H1 & H2 & H3). apply suites_of_in in H1. split; [assumption|]. split.
  - unfold implemented. destruct (sh_suite sh); cbn; auto; congruence.
  - intros Hi. change 0x1303 with (suite_u16 CHACHA20_POLY1305_SHA256) in Hi. apply suites_of_in in Hi. now rewrite (H3 Hi).
Qed.
Lemma no_suite_refused m random secrets name r : client_hello_ok m ->
  (forall code, In code (m_suites m) -> ~ implemented code) ->
  answer (client_hello_wire m) random secrets name <> Ok r.
Proof.
  intros Hm Hn H. destruct r as [sh pk]. apply wire_suite in H; [|assumption]. destruct H as (H1 & H2 & _). now apply (Hn _ H1).
Qed.
Lemma wrong_version_refused m codes random secrets name r : client_hello_ok m ->
  In (Versions codes) (m_extensions m) -> ~ In 0x0304 codes ->
  answer (client_hello_wire m) random secrets name <> Ok r.
Proof.
  intros Hm Hi Hn H. destruct r as [sh pk]. apply answer_implies in H; [|assumption]. apply hello_implies in H.
  destruct H as (H & _). rewrite Forall_forall in H. cbn [hello_view ch_exts] in H.
  specialize (H (CSupportedVersion (existsb (Z.eqb 772) codes))). cbn [fine] in H.
  assert (existsb (Z.eqb 772) codes = true) as E.
  { apply H. apply in_flat_map. exists (Versions codes). split; [assumption|now left]. }
  apply existsb_exists in E. destruct E as (v & Hv & E). apply Z.eqb_eq in E. now subst.
Qed.
Lemma wrong_name_refused m host h random secrets r : client_hello_ok m ->
  In (Host host) (m_extensions m) -> host <> h ->
  answer (client_hello_wire m) random secrets (Some h) <> Ok r.
Proof.
  intros Hm Hi Hn H. destruct r as [sh pk]. apply answer_implies in H; [|assumption]. apply hello_implies in H.
  destruct H as (H & _). rewrite Forall_forall in H. cbn [hello_view ch_exts] in H.
  specialize (H (CServerName host)). cbn [fine] in H. apply Hn. symmetry. apply H.
  apply in_flat_map. exists (Host host). split; [assumption|now left].
Qed.
Lemma shares_of_group l : Exists (fun k => ks_group k = X25519g) (shares_of l) -> offers x25519_code l.
Proof.
  intros H. apply Exists_exists in H. destruct H as (k & Hk & Hg). unfold shares_of in Hk. apply in_flat_map in Hk.
  destruct Hk as (e & He & Hk). destruct (group_of (fst e)) as [g|] eqn:Eg; [|destruct Hk].
  destruct Hk as [<-|[]]. cbn [ks_group] in Hg. subst g.
  unfold offers. apply in_map_iff. exists e. split; [|assumption].
  unfold group_of in Eg. apply find_some in Eg. destruct Eg as [_ Eg]. apply Z.eqb_eq in Eg. now rewrite <- Eg.
Qed.
Lemma no_x25519_refused m random secrets name r : client_hello_ok m ->
  (forall l, In (Shares l) (m_extensions m) -> ~ offers x25519_code l) ->
  answer (client_hello_wire m) random secrets name <> Ok r.
Proof.
  intros Hm Hn H. destruct r as [sh pk]. apply answer_implies in H; [|assumption]. apply hello_implies in H.
  destruct H as (_ & (ks & Hi & Hk) & _). cbn [hello_view ch_exts] in Hi. apply in_flat_map in Hi.
  destruct Hi as (e & He & Hi). destruct e as [n|c|s|c|c|t d]; cbn [client_view In] in Hi;
    try (destruct Hi as [Hi|[]]; discriminate); try (now destruct Hi).
  destruct Hi as [Hi|[]]. injection Hi as <-. apply (Hn s He). now apply shares_of_group.
Qed.

(* an unknown group among the shares *)
Lemma unknown_group_refused m pre a e b post :
  hello_header_ok m -> fits16 (flat_map client_extension_wire (m_extensions m)) ->
  m_extensions m = pre ++ Shares (a ++ e :: b) :: post -> Forall client_ext_ok pre -> Forall share_ok a ->
  group_of (fst e) = None -> code16 (fst e) -> fits16 (client_extension_data (Shares (a ++ e :: b))) ->
  client_hello_from_raw (client_hello_wire m) = Err IllegalParameter.
Proof.
  intros Hh Hx He Hpre Ha Hg Hc H16. rewrite client_parse_raw by assumption.
  unfold from_client_hello_exts. rewrite He, flat_map_app. cbn [flat_map].
  rewrite client_exts_ok_app; [|assumption|rewrite !app_length; lia].
  unfold client_extension_wire at 2. rewrite !app_length, ext_length.
  destruct (_ + _ - _)%nat as [|f] eqn:Ef.
  { exfalso. assert (length pre <= length (flat_map client_extension_wire pre))%nat; [|lia].
    clear. induction pre as [|x l IH]; [cbn; lia|]. cbn [flat_map length]. rewrite app_length. unfold client_extension_wire at 1. rewrite ext_length. lia. }
  unfold client_extension_wire at 1. rewrite client_step by (assumption || (cbn; lia)).
  cbn [client_extension_type client_extension_data]. change (ext_type_new 51) with (Some TKeyShare). cbv iota.
  unfold fits16 in H16. cbn [client_extension_data] in H16. unfold vector16 in H16 at 1. rewrite app_length, be_enc_length in H16.
  assert (key_share_parse (vector16 (flat_map key_share_entry (a ++ e :: b))) false = Err IllegalParameter) as Hp; [|now rewrite Hp].
  unfold key_share_parse, vector16. rewrite to_u16_enc by lia. rewrite Nat2Z.id.
  set (p := be_enc 2 _). assert (length p = 2%nat) as Lp by apply be_enc_length.
  rewrite flat_map_app. cbn [flat_map].
  pose proof (ks_loop_unknown a e (flat_map key_share_entry b) (S (length (p ++ flat_map key_share_entry a ++ key_share_entry e ++ flat_map key_share_entry b))) p
    (length (flat_map key_share_entry a ++ key_share_entry e ++ flat_map key_share_entry b)) Ha Hg Hc) as H.
  rewrite Lp in H. apply H.
  - pose proof (entries_ge a Ha). rewrite !app_length. lia.
  - rewrite !app_length, entry_length. lia.
Qed.

(* a server_name list whose first entry is of another type than host_name *)
Lemma other_name_type_refused m pre t name post :
  hello_header_ok m -> fits16 (flat_map client_extension_wire (m_extensions m)) ->
  m_extensions m = pre ++ OtherExt 0 (vector16 (t :: name)) :: post -> Forall client_ext_ok pre ->
  t <> 0 -> fits16 (vector16 (t :: name)) ->
  client_hello_from_raw (client_hello_wire m) = Err DecodeError.
Proof.
  intros Hh Hx He Hpre Ht H16. rewrite client_parse_raw by assumption.
  unfold from_client_hello_exts. rewrite He, flat_map_app. cbn [flat_map].
  rewrite client_exts_ok_app; [|assumption|rewrite !app_length; lia].
  unfold client_extension_wire at 2. rewrite !app_length, ext_length.
  destruct (_ + _ - _)%nat as [|f] eqn:Ef.
  { exfalso. assert (length pre <= length (flat_map client_extension_wire pre))%nat; [|lia].
    clear. induction pre as [|x l IH]; [cbn; lia|]. cbn [flat_map length]. rewrite app_length. unfold client_extension_wire at 1. rewrite ext_length. lia. }
  unfold client_extension_wire at 1. rewrite client_step by (assumption || (cbn; lia)).
  cbn [client_extension_type client_extension_data]. change (ext_type_new 0) with (Some TServerName). cbv iota.
  assert (server_name_parse (vector16 (t :: name)) = Err DecodeError) as Hp; [|now rewrite Hp].
  unfold fits16, vector16 in H16. rewrite app_length, be_enc_length in H16. cbn [length] in H16.
  unfold server_name_parse, vector16. rewrite to_u16_enc by (cbn [length]; lia).
  destruct (Z.ltb_spec 0 (Z.of_nat (length (t :: name)))); [|cbn [length] in *; lia].
  set (n1 := be_enc 2 _). assert (length n1 = 2%nat) as L1 by apply be_enc_length.
  rewrite idx_app by (now rewrite L1). rewrite bind_Ok. destruct (Z.eqb_spec t 0); [contradiction|]. reflexivity.
Qed.
