(* The CertificateVerify messages on which the library panics, exactly *)
From Verif Require Import Proofs.Util Proofs.Bytes Model.Alert Model.Bytes Model.Der Model.Signature Model.Extensions Spec.Enc Spec.VerifyPanics.
From Verif Require Spec.HelloPanics Proofs.HelloPanics.
From Verif Require Import Model.Hello Model.Handshake Model.KeySchedule Model.X509 Model.Certificate Model.Stream Model.Server Model.Client.
From Verif Require Proofs.Proper Proofs.ServerAccept Proofs.ServerAccept2 Spec.Proper Spec.Rfc8446Hello.

(* ---- tags and lengths ---- *)
Lemma tags t : is_byte t -> (known_tag t = true <-> der_from_u8 t <> None).
Proof.
  intros B. assert (H : forallb (fun t => Bool.eqb (known_tag t) (match der_from_u8 t with Some _ => true | None => false end)) (map Z.of_nat (seq 0 256)) = true) by (vm_compute; reflexivity).
  rewrite forallb_forall in H. unfold is_byte in B. specialize (H t). rewrite in_map_iff in H.
  assert (I : exists x, Z.of_nat x = t /\ In x (seq 0 256)) by (exists (Z.to_nat t); split; [lia|apply in_seq; lia]). apply H in I. apply Bool.eqb_prop in I. rewrite I.
  destruct (der_from_u8 t); split; intros X; try discriminate; try reflexivity; congruence.
Qed.
Lemma sequences t f : is_byte t -> der_from_u8 t = Some f -> (sequence_tag t <-> f = Constructed DSequence).
Proof.
  intros B E. assert (H : forallb (fun t => Bool.eqb (existsb (Z.eqb t) [0x30; 0x70; 0xF0]) (match der_from_u8 t with Some (Constructed DSequence) => true | _ => false end)) (map Z.of_nat (seq 0 256)) = true) by (vm_compute; reflexivity).
  rewrite forallb_forall in H. unfold is_byte in B. specialize (H t). rewrite in_map_iff in H.
  assert (I : exists x, Z.of_nat x = t /\ In x (seq 0 256)) by (exists (Z.to_nat t); split; [lia|apply in_seq; lia]). apply H in I. apply Bool.eqb_prop in I. rewrite E in I. clear H E.
  unfold sequence_tag. split; intros X.
  - assert (Y : existsb (Z.eqb t) [0x30; 0x70; 0xF0] = true) by (apply existsb_exists; exists t; split; [exact X|apply Z.eqb_refl]). rewrite Y in I. destruct f as [[]|]; discriminate || reflexivity.
  - subst f. apply existsb_exists in I. destruct I as (y & Y & Z). apply Z.eqb_eq in Z. now subst y.
Qed.
Lemma fill_val l : is_bytes l -> to_u128_be_fill l = be_val (firstn 16 l).
Proof.
  intros B. destruct (Nat.leb_spec (length l) 16) as [L|L]; [rewrite firstn_all2 by exact L; now apply to_u128_be_fill_val|].
  rewrite <- (to_u128_be_fill_val (firstn 16 l)) by (try (now apply is_bytes_firstn); rewrite firstn_length; lia). unfold to_u128_be_fill. rewrite firstn_length.
  destruct (Nat.ltb_spec (length l) 16); [lia|]. destruct (Nat.ltb_spec (Nat.min 16 (length l)) 16); [lia|]. now rewrite firstn_firstn.
Qed.
Lemma long_byte b : is_byte b -> (Z.land (Z.shiftr b 7) 1 =? 1) = (128 <=? b) /\ (128 <= b -> b = 128 + Z.of_nat (Z.to_nat (Z.land b 0x7F))).
Proof.
  intros B. assert (H : forallb (fun b => Bool.eqb (Z.land (Z.shiftr b 7) 1 =? 1) (128 <=? b) && ((b <? 128) || (b =? 128 + Z.land b 0x7F)))%bool (map Z.of_nat (seq 0 256)) = true) by (vm_compute; reflexivity).
  rewrite forallb_forall in H. unfold is_byte in B. specialize (H b). rewrite in_map_iff in H.
  assert (I : exists x, Z.of_nat x = b /\ In x (seq 0 256)) by (exists (Z.to_nat b); split; [lia|apply in_seq; lia]). apply H in I. apply andb_prop in I. destruct I as (I1 & I2).
  split; [now apply Bool.eqb_prop|]. intros L. destruct (Z.ltb_spec b 128); [lia|]. cbn [orb] in I2. apply Z.eqb_eq in I2.
  assert (0 <= Z.land b 127) by (apply Z.land_nonneg; lia). lia.
Qed.

Lemma cut_not l n rest : length_cut l -> length_of l n rest -> False.
Proof.
  intros C L. destruct C as [|k o K]; inversion L; subst; [unfold zlen in *; lia|]. unfold zlen in *. rewrite app_length in K. lia.
Qed.
Lemma length_fun l n rest n' rest' : length_of l n rest -> length_of l n' rest' -> n = n' /\ rest = rest'.
Proof.
  intros A B. destruct A as [m r M|k o r K]; inversion B as [m' r' M' E1|k' o' r' K' E1]; clear B; unfold zlen in *; try lia; subst; [now split|].
  match goal with X : _ ++ _ = _ ++ _ |- _ => apply HelloPanics.app_split in X; [|lia]; destruct X as (-> & ->) end. now split.
Qed.
Lemma len_cases {E} pre l : is_bytes l ->
  (length_cut l /\ get_len (E:=E) (pre ++ l) (length pre) = Panic) \/
  exists n rest head, length_of l n rest /\ 0 <= n /\ l = head ++ rest /\ get_len (E:=E) (pre ++ l) (length pre) = Ok (n, length (pre ++ head)).
Proof.
  intros B. unfold get_len. destruct l as [|b l].
  - left. split; [constructor|]. unfold idx. rewrite app_nil_r. replace (nth_error pre (length pre)) with (@None Z) by (symmetry; apply nth_error_None; lia). reflexivity.
  - inversion B as [|? ? B1 B2]; subst. unfold idx. rewrite nth_error_app2, Nat.sub_diag by lia. cbn [nth_error unwrap]. rewrite bind_Ok.
    destruct (long_byte b B1) as (E1 & E2). rewrite E1. destruct (Z.leb_spec 128 b) as [L|L].
    2:{ right. exists b, l, [b]. split; [now constructor|]. split; [unfold is_byte in B1; lia|]. split; [reflexivity|]. rewrite app_length. reflexivity. }
    specialize (E2 L). set (k := Z.to_nat (Z.land b 127)) in *. unfold slice. rewrite app_length. cbn [length].
    destruct (Nat.leb_spec (length pre + 1) (length pre + 1 + k)); [|lia]. cbn [andb]. destruct (Nat.leb_spec (length pre + 1 + k) (length pre + S (length l))) as [L2|L2].
    + right. rewrite bind_Ok. replace (length pre + 1 + k - (length pre + 1))%nat with k by lia.
      assert (Sk : skipn (length pre + 1) (pre ++ b :: l) = l) by (rewrite skipn_app, skipn_all2 by lia; replace (length pre + 1 - length pre)%nat with 1%nat by lia; reflexivity). rewrite Sk.
      exists (be_val (firstn 16 (firstn k l)) mod 2^64), (skipn k l), (b :: firstn k l). split.
      { rewrite <- (firstn_skipn k l) at 1. apply len_long. unfold zlen. rewrite firstn_length. lia. }
      split; [apply Z.mod_pos_bound; lia|]. split; [cbn [app]; now rewrite firstn_skipn|]. rewrite fill_val by now apply is_bytes_firstn. unfold u64. f_equal. f_equal. rewrite app_length. cbn [length]. rewrite firstn_length. lia.
    + left. split; [apply cut_long; unfold zlen; lia|]. reflexivity.
Qed.

(* ---- an element ---- *)
Inductive elem (total : Z) (pre x : list Z) : outcome parse_error (nat * encoded_form * nat) -> Prop :=
| el_none : x = [] -> elem total pre x Panic
| el_tag t l e : x = t :: l -> known_tag t = false -> elem total pre x (Err e)
| el_cut t l : x = t :: l -> known_tag t = true -> length_cut l -> elem total pre x Panic
| el_big t l n rest e : x = t :: l -> known_tag t = true -> length_of l n rest -> total < n -> elem total pre x (Err e)
| el_ok t l n rest head f : x = t :: l -> known_tag t = true -> der_from_u8 t = Some f -> (sequence_tag t <-> f = Constructed DSequence) -> length_of l n rest -> 0 <= n <= total -> x = head ++ rest -> elem total pre x (Ok (Z.to_nat n, f, length (pre ++ head))).
Lemma elem_cases pre x : is_bytes x -> elem (zlen (pre ++ x)) pre x (der_parse (length pre) (pre ++ x)).
Proof.
  intros B. unfold der_parse. destruct x as [|t l].
  - unfold idx. rewrite app_nil_r. replace (nth_error pre (length pre)) with (@None Z) by (symmetry; apply nth_error_None; lia). now apply el_none.
  - inversion B as [|? ? B1 B2]; subst. unfold idx. rewrite nth_error_app2, Nat.sub_diag by lia. cbn [nth_error unwrap]. rewrite bind_Ok.
    pose proof (tags t B1) as T. destruct (der_from_u8 t) as [f|] eqn:F.
    2:{ apply (el_tag _ _ _ t l); [reflexivity|]. destruct (known_tag t); [|reflexivity]. exfalso. now apply T. }
    assert (K : known_tag t = true) by (apply T; discriminate).
    destruct (len_cases (E:=parse_error) (pre ++ [t]) l B2) as [(C & G)|(n & rest & head & L & N & El & G)]; rewrite <- app_assoc, app_length in G; cbn [length app] in G; rewrite G; cbn [bind].
    + now apply (el_cut _ _ _ t l).
    + destruct (Z.ltb_spec (zlen (pre ++ t :: l)) n) as [X|X]; [now apply (el_big _ _ _ t l n rest)|].
      replace (length ((pre ++ [t]) ++ head)) with (length (pre ++ t :: head)) by (rewrite !app_length; cbn [length]; lia).
      apply (el_ok _ _ _ t l n rest (t :: head)); auto; [now apply sequences|rewrite El; reflexivity].
Qed.

(* ---- an INTEGER ---- *)
Inductive int_out (total : Z) (pre x : list Z) : outcome tls_error (Z * nat) -> Prop :=
| io_panic : integer_panics total x -> (forall r, ~ integer_read total x r) -> int_out total pre x Panic
| io_err e : ~ integer_panics total x -> (forall r, ~ integer_read total x r) -> int_out total pre x (Err e)
| io_ok v rest head : integer_read total x rest -> ~ integer_panics total x -> (forall r, integer_read total x r -> r = rest) -> x = head ++ rest -> int_out total pre x (Ok (v, length (pre ++ head))).
Lemma int_cases pre x : is_bytes x -> int_out (zlen (pre ++ x)) pre x (sig_int (pre ++ x) (length pre)).
Proof.
  intros B. unfold sig_int. destruct (elem_cases pre x B) as [E|t l e E K|t l E K C|t l n rest e E K L N|t l n rest head f E K F8 S L N Ex]; subst x.
  - apply io_panic; [constructor|]. intros r R. inversion R.
  - apply io_err; [intros P; inversion P; subst; congruence|]. intros r R. inversion R; subst; congruence.
  - apply io_panic; [now constructor|]. intros r R. inversion R; subst. eapply cut_not; eassumption.
  - apply io_err.
    + intros P. inversion P; subst; [eapply cut_not; eassumption|]. match goal with X : length_of l _ _ |- _ => destruct (length_fun _ _ _ _ _ L X); subst end. lia.
    + intros r R. inversion R; subst. match goal with X : length_of l _ _ |- _ => destruct (length_fun _ _ _ _ _ L X); subst end. lia.
  - unfold slice. set (T := zlen (pre ++ t :: l)) in *. rewrite Ex, !app_length.
    destruct (Nat.leb_spec (length pre + length head) (length pre + length head + Z.to_nat n)); [|lia]. cbn [andb].
    destruct (Nat.leb_spec (length pre + length head + Z.to_nat n) (length pre + (length head + length rest))) as [X|X]; rewrite <- Ex.
    + rewrite bind_Ok. replace (length pre + length head + Z.to_nat n)%nat with (length (pre ++ head ++ firstn (Z.to_nat n) rest)) by (rewrite !app_length, firstn_length; lia).
      assert (Ln : zlen (firstn (Z.to_nat n) rest) = n) by (unfold zlen; rewrite firstn_length; lia).
      apply (io_ok _ _ _ _ (skipn (Z.to_nat n) rest)).
      * apply (int_read _ t l n (firstn (Z.to_nat n) rest)); [exact K|now rewrite firstn_skipn|exact Ln|lia].
      * intros P. inversion P; subst; [eapply cut_not; eassumption|]. match goal with X : length_of l _ _ |- _ => destruct (length_fun _ _ _ _ _ L X); subst end. unfold zlen in *. lia.
      * intros r R. inversion R as [t' l' n' body' rest' K' L' N' T' E1 E2]. clear R. destruct (length_fun _ _ _ _ _ L L') as (Q1 & Q2). clear L L'. unfold zlen in N'.
        rewrite Q2, skipn_app, skipn_all2 by lia. replace (Z.to_nat n - length body')%nat with 0%nat by lia. reflexivity.
      * rewrite Ex, <- app_assoc. now rewrite firstn_skipn.
    + apply io_panic.
      * apply (int_short _ t l n rest K L). unfold zlen. lia.
      * intros r R. inversion R as [t' l' n' body' rest' K' L' N' T' E1 E2]. clear R. destruct (length_fun _ _ _ _ _ L L') as (Q1 & Q2). clear L L'. unfold zlen in N'. rewrite Q2, app_length in X. lia.
Qed.

(* ---- the signature ---- *)
Lemma signature_sort der : is_bytes der -> (sig_from_der der = Panic <-> signature_panics der).
Proof.
  intros B. unfold sig_from_der. pose proof (elem_cases [] der B) as H. cbn [app length] in H.
  destruct H as [E|t l e E K|t l E K C|t l n rest e E K L N|t l n rest head f E K F8 S L N Ex].
  - split; [intros _; now apply sig_none|reflexivity].
  - split; [discriminate|]. intros P. exfalso. destruct P as [X|t' l' X Y|t' l' n rest X Y|t' l' n rest rest' X Y]; rewrite E in X; try discriminate; injection X as <- <-; try congruence;
      (unfold sequence_tag in Y; cbn [In] in Y; repeat destruct Y as [<- | Y]; try contradiction; vm_compute in K; discriminate).
  - split; [intros _; now apply (sig_cut _ t l)|reflexivity].
  - split; [discriminate|]. intros P. exfalso. destruct P as [X|t' l' X Y Z|t' l' n' r X Y Z W|t' l' n' r r' X Y Z W]; rewrite E in X; try discriminate; injection X as <- <-;
      [eapply cut_not; eassumption|destruct (length_fun _ _ _ _ _ L Z); subst; lia..].
  - assert (Br : is_bytes rest) by (rewrite Ex in B; apply is_bytes_app in B; apply B).
    assert (NC : forall t' l', der = t' :: l' -> length_cut l' -> False) by (intros t' l' X Y; rewrite E in X; injection X as <- <-; eapply cut_not; eassumption).
    assert (SAME : forall t' l' n' r, der = t' :: l' -> length_of l' n' r -> t' = t /\ r = rest) by (intros t' l' n' r X Y; rewrite E in X; injection X as <- <-; destruct (length_fun _ _ _ _ _ L Y) as (_ & ->); auto).
    assert (ND : der <> []) by (rewrite E; discriminate).
    assert (F : f = Constructed DSequence \/ f <> Constructed DSequence) by (destruct f as [[]|]; auto; right; discriminate).
    destruct F as [->|F].
    2:{ assert (O : (match f with Constructed DSequence => let! (r, c) := sig_int der (length head) in let! (s, c) := sig_int der c in Ok ({| sg_r := r; sg_s := s |}, c) | _ => Err BadCertificate end) = (Err BadCertificate : outcome tls_error (signature * nat))) by (destruct f as [[]|]; reflexivity || congruence).
        cbn [app] in *. split; [intros X|].
        - exfalso. destruct f as [[]|]; discriminate || congruence.
        - intros P. exfalso. destruct P as [X|t' l' X Y Z|t' l' n' r X Y Z W|t' l' n' r r' X Y Z W]; [contradiction|eapply NC; eassumption| |];
            destruct (SAME _ _ _ _ X Z) as (-> & _); apply S in Y; contradiction. }
    cbn [app]. pose proof (int_cases head rest Br) as I1. rewrite <- Ex in I1.
    assert (Sq : sequence_tag t) by now apply S.
    destruct I1 as [P R|e P R|v rest1 head1 R P U E1]; cbn [bind].
    + split; [intros _; apply (sig_r _ t l n rest); auto; lia|reflexivity].
    + split; [discriminate|]. intros X. exfalso. destruct X as [X|t' l' X Y Z|t' l' n' r X Y Z W V|t' l' n' r r' X Y Z W V]; [contradiction|eapply NC; eassumption| |];
        destruct (SAME _ _ _ _ X Z) as (_ & ->); [contradiction|eapply R; eassumption].
    + assert (B1 : is_bytes rest1) by (rewrite E1 in Br; apply is_bytes_app in Br; apply Br).
      pose proof (int_cases (head ++ head1) rest1 B1) as I2. rewrite <- app_assoc, <- E1, <- Ex in I2.
      assert (OTHER : ~ integer_panics (zlen der) rest1 -> ~ signature_panics der).
      { intros Q X. destruct X as [X|t' l' X Y Z|t' l' n' r X Y Z W V|t' l' n' r r' X Y Z W V V2]; [contradiction|eapply NC; eassumption| |];
          destruct (SAME _ _ _ _ X Z) as (_ & ->); [contradiction|]. apply U in V. subst r'. contradiction. }
      destruct I2 as [P2 R2|e P2 R2|v2 rest2 head2 R2 P2 U2 E2]; cbn [bind].
      * split; [intros _; apply (sig_s _ t l n rest rest1); auto; lia|reflexivity].
      * split; [discriminate|]. intros X. now apply OTHER in X.
      * split; [discriminate|]. intros X. now apply OTHER in X.
Qed.

(* ---- the message ---- *)
Lemma verify_cases body : is_bytes body -> verify_panics body \/
  (exists e, slice (E:=tls_error) body 0 2 = Err e) \/
  exists b1, slice (E:=tls_error) body 0 2 = Ok b1 /\
    ((exists e, sig_scheme_new (to_u16 b1) = Err e) \/
     sig_scheme_new (to_u16 b1) = Ok ecdsa_secp256r1_sha256 /\ exists rest b2, slice_from (E:=tls_error) body 4 = Ok rest /\ slice (E:=tls_error) body 2 4 = Ok b2 /\ sig_from_der rest <> Panic).
Proof.
  intros B. destruct body as [|a [|b rest]]; [left; apply vp_short; cbn; lia|left; apply vp_short; cbn; lia|].
  inversion B as [|? ? B1 B']; subst. inversion B' as [|? ? B2 Br]; subst.
  assert (U : to_u16 [a; b] = HelloPanics.n16 a b) by now apply HelloPanics.n16_u16.
  change (slice (a :: b :: rest) 0 2) with (Ok (E:=tls_error) [a; b]).
  unfold sig_scheme_new. destruct (Z.eqb_spec (to_u16 [a; b]) 0x0403) as [X|X].
  - rewrite U in X. assert (a = 4 /\ b = 3) as (-> & ->) by (unfold HelloPanics.n16, is_byte in *; lia).
    destruct rest as [|l1 [|l2 der]]; [left; apply (vp_cut _ []); [reflexivity|cbn; lia]|left; eapply vp_cut; [reflexivity|cbn; lia]|].
    assert (Bd : is_bytes der) by (inversion Br as [|? ? _ Br']; subst; now inversion Br').
    destruct (sig_from_der der) as [sg|e|] eqn:Sg.
    3:{ left. apply (vp_signature _ l1 l2 der); [reflexivity|]. now apply signature_sort. }
    all: right; right; exists [4; 3]; split; [reflexivity|]; right; split; [reflexivity|]; exists der, [l1; l2]; split; [reflexivity|]; split; [reflexivity|]; rewrite Sg; discriminate.
  - destruct (Z.eqb_spec (to_u16 [a; b]) 0x0503) as [Y|Y]; [left; eapply vp_other; [reflexivity|rewrite <- U, Y; now left]|].
    destruct (Z.eqb_spec (to_u16 [a; b]) 0x0603) as [Z|Z]; [left; eapply vp_other; [reflexivity|rewrite <- U, Z; right; now left]|].
    right. right. exists [a; b]. split; [reflexivity|]. left. destruct (Z.eqb_spec (to_u16 [a; b]) 0x0403); [congruence|].
    destruct (Z.eqb_spec (to_u16 [a; b]) 0x0503); [congruence|]. destruct (Z.eqb_spec (to_u16 [a; b]) 0x0603); [congruence|]. eauto.
Qed.

Lemma verify_falls body : is_bytes body -> verify_panics body -> slice (E:=tls_error) body 0 2 = Panic \/
  exists b1, slice (E:=tls_error) body 0 2 = Ok b1 /\
    (sig_scheme_new (to_u16 b1) = Ok ecdsa_secp384r1_sha384 \/ sig_scheme_new (to_u16 b1) = Ok ecdsa_secp521r1_sha512 \/
     sig_scheme_new (to_u16 b1) = Ok ecdsa_secp256r1_sha256 /\
       (slice_from (E:=tls_error) body 4 = Panic \/ exists rest, slice_from (E:=tls_error) body 4 = Ok rest /\ sig_from_der rest = Panic)).
Proof.
  intros B [L|a b rest -> I|rest -> L|l1 l2 der -> S].
  - left. destruct body as [|a [|b r]]; cbn [length] in L; [reflexivity|reflexivity|lia].
  - right. exists [a; b]. split; [reflexivity|]. inversion B as [|? ? B1 B']; subst. inversion B' as [|? ? B2 Br]; subst.
    rewrite (HelloPanics.n16_u16 a b [] B1 B2). destruct I as [<- |[<- |[]]]; [left|right; left]; reflexivity.
  - right. exists [4; 3]. split; [reflexivity|]. right. right. split; [reflexivity|]. left. destruct rest as [|x [|y r]]; cbn [length] in L; [reflexivity|reflexivity|lia].
  - right. exists [4; 3]. split; [reflexivity|]. right. right. split; [reflexivity|]. right. exists der. split; [reflexivity|].
    apply signature_sort; [|exact S]. inversion B as [|? ? _ B1]; subst. inversion B1 as [|? ? _ B2]; subst. inversion B2 as [|? ? _ B3]; subst. now inversion B3.
Qed.

(* ---- the handlers, with a certificate of the kind the library checks ---- *)
Lemma client_verify_exact h hs c t : cl_cert h = Some c -> cl_th h = Some t -> Proper.sound c -> hs_type hs = HtCertificateVerify -> is_bytes (hs_fraqment hs) ->
  (snd (handle_server_certificate_verify h hs) = Panic <-> verify_panics (hs_fraqment hs)).
Proof.
  intros Hc Th So T B. unfold handle_server_certificate_verify. rewrite Hc, T. change (negb (ht_eqb HtCertificateVerify HtCertificateVerify)) with false. cbv iota. set (body := hs_fraqment hs) in *. clearbody body. split.
  - intros H. destruct (verify_cases body B) as [V|[(e & V)|(b1 & V1 & [(e & V2)|(V2 & rest & b2 & V3 & V4 & V5)])]]; [exact V|rewrite V in H; discriminate|rewrite V1, ServerAccept.sbind_Ok, V2 in H; discriminate|].
    exfalso. rewrite V1, ServerAccept.sbind_Ok, V2, ServerAccept.sbind_Ok, V3, ServerAccept.sbind_Ok in H. destruct (sig_from_der rest) as [[sg size]|e|]; [|discriminate|congruence].
    rewrite Th in H. cbn [unwrap] in H. rewrite ServerAccept.sbind_Ok in H. destruct (Proper.valid_total (E:=tls_error) c sg t l_server So) as (v & Hv). rewrite Hv, ServerAccept.sbind_Ok in H.
    destruct (negb v); [discriminate|]. cbv zeta in H. rewrite V4, ServerAccept.sbind_Ok in H. match type of H with context [if ?x then _ else _] => destruct x end; cbn [snd] in H; discriminate.
  - intros V. destruct (verify_falls body B V) as [-> |(b1 & -> & F)]; [reflexivity|]. rewrite ServerAccept.sbind_Ok. destruct F as [-> |[-> |(-> & F)]]; rewrite ServerAccept.sbind_Ok; [reflexivity|reflexivity|].
    destruct F as [-> |(rest & -> & F)]; [reflexivity|]. rewrite ServerAccept.sbind_Ok, F. reflexivity.
Qed.
Lemma server_verify_exact h m hs c t : handshake_from_raw m = Ok hs -> sv_cert h = Some c -> sv_th h = Some t -> Proper.sound c -> hs_type hs = HtCertificateVerify -> is_bytes (hs_fraqment hs) ->
  (snd (handle_client_certificate_verify h m) = Panic <-> verify_panics (hs_fraqment hs)).
Proof.
  intros F0 Hc Th So T B. unfold handle_client_certificate_verify. rewrite F0, ServerAccept.sbind_Ok, Hc, T. change (negb (ht_eqb HtCertificateVerify HtCertificateVerify)) with false. cbv iota. set (body := hs_fraqment hs) in *. clearbody body. split.
  - intros H. destruct (verify_cases body B) as [V|[(e & V)|(b1 & V1 & [(e & V2)|(V2 & rest & b2 & V3 & V4 & V5)])]]; [exact V|rewrite V in H; discriminate|rewrite V1, ServerAccept.sbind_Ok, V2 in H; discriminate|].
    exfalso. rewrite V1, ServerAccept.sbind_Ok, V2, ServerAccept.sbind_Ok, V3, ServerAccept.sbind_Ok in H. destruct (sig_from_der rest) as [[sg size]|e|]; [|discriminate|congruence].
    rewrite Th in H. cbn [unwrap] in H. rewrite ServerAccept.sbind_Ok in H. destruct (Proper.valid_total (E:=tls_error) c sg t l_client So) as (v & Hv). rewrite Hv, ServerAccept.sbind_Ok in H.
    destruct (negb v); [discriminate|]. rewrite V4, ServerAccept.sbind_Ok in H. match type of H with context [if ?x then _ else _] => destruct x end; cbn [snd] in H; discriminate.
  - intros V. destruct (verify_falls body B V) as [-> |(b1 & -> & F)]; [reflexivity|]. rewrite ServerAccept.sbind_Ok. destruct F as [-> |[-> |(-> & F)]]; rewrite ServerAccept.sbind_Ok; [reflexivity|reflexivity|].
    destruct F as [-> |(rest & -> & F)]; [reflexivity|]. rewrite ServerAccept.sbind_Ok, F. reflexivity.
Qed.

(* from the Certificate message *)
Lemma client_verify h c t body1 now raw body : cl_cert h = Some c -> cl_th h = Some t -> Spec.Proper.proper_certificate body1 -> certificates_from_hello body1 now = Ok [c] -> is_bytes body ->
  (snd (handle_server_certificate_verify h (Handshake HtCertificateVerify body raw)) = Panic <-> verify_panics body).
Proof.
  intros Hc Th Pc F B. apply (client_verify_exact h (Handshake HtCertificateVerify body raw) c t); auto.
  destruct (Proper.from_hello_proper body1 now Pc) as [(er & F2)|(c' & F2 & So)]; rewrite F in F2; [discriminate|]. injection F2 as ->. exact So.
Qed.
Lemma server_verify h c t body1 now body rest : sv_cert h = Some c -> sv_th h = Some t -> Spec.Proper.proper_certificate body1 -> certificates_from_hello body1 now = Ok [c] -> is_bytes body -> zlen body < 2^24 ->
  (snd (handle_client_certificate_verify h (Rfc8446Hello.handshake 15 body ++ rest)) = Panic <-> verify_panics body).
Proof.
  intros Hc Th Pc F B L. pose proof (ServerAccept2.frame_read HtCertificateVerify body rest L) as P. change (handshake_type_u8 HtCertificateVerify) with 15 in P.
  apply (server_verify_exact h _ _ c t P Hc Th); auto.
  destruct (Proper.from_hello_proper body1 now Pc) as [(er & F2)|(c' & F2 & So)]; rewrite F in F2; [discriminate|]. injection F2 as ->. exact So.
Qed.
Lemma proper_fine body : is_bytes body -> Spec.Proper.proper_verify body -> ~ verify_panics body.
Proof.
  intros B P V. destruct (Proper.verify_proper _ P) as (b1 & b2 & r & sg & size & V1 & V2 & V3 & V4 & V5).
  destruct (verify_falls body B V) as [X|(b & X & F)]; rewrite V1 in X; [discriminate|]. injection X as <-.
  destruct F as [F|[F|(_ & F)]]; [congruence|congruence|]. rewrite V3 in F. destruct F as [F|(r' & F1 & F2)]; [discriminate|]. injection F1 as <-. congruence.
Qed.
