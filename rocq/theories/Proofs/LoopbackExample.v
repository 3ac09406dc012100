(* A concrete server and client for the statements of Props.Loopback and Props.Client *)
From Verif Require Import Proofs.Util Proofs.Bytes Model.Alert Model.Bytes Model.Suite Model.Record Model.Curve Model.Signature Model.Ecdsa
  Model.X509 Model.Extensions Model.Hello Model.Kex Model.Handshake Model.Certificate Model.Stream Model.Server Model.Client
  Spec.Rfc2104 Spec.Fips180 Spec.Rfc7748 Spec.KeyShare Spec.Rfc8446Keys Spec.Tls13Record Spec.Endpoints Spec.Rfc8446Auth Spec.Connection
  Spec.ClientConnection Spec.HelloView Spec.Loopback.
From Verif Require Spec.Rfc8446Hello Spec.Ecdsa Spec.Ec Proofs.Kex Proofs.EcdsaP256 Proofs.Number.
From Verif Require Import Proofs.ServerKeys Proofs.ServerAccept2 Proofs.ServerExample Proofs.Loopback.
From Coq Require Import Znumtheory.

Local Opaque X25519.

(* signatures with the key 1 and the nonce 1 or 2: one of them has no short number *)
Lemma sign_two_long e r s : Ecdsa.sign_with 1 e 2 = Some (r, s) -> (e + Gx) mod Spec.Ec.P256_n < 2^248 -> 2^248 <= r /\ 2^248 <= s.
Proof.
  intros E Hu. assert (NZ : Spec.Ec.P256_n <> 0) by discriminate.
  assert (F : (2 * 2 ^ (Spec.Ec.P256_n - 2)) mod Spec.Ec.P256_n = 1).
  { pose proof (Number.fermat Spec.Ec.P256_n 2 EcdsaP256.prime_n) as F. rewrite <- Z.pow_succ_r by (vm_compute; discriminate).
    assert (Q : Z.succ (Spec.Ec.P256_n - 2) = Spec.Ec.P256_n - 1) by reflexivity. rewrite Q. apply F. intros D. apply Z.divide_pos_le in D; [|reflexivity]. vm_compute in D. apply D. reflexivity. }
  assert (E' : r = G2x /\ s = Spec.Ec.fdiv Spec.Ec.P256_n (e + G2x) 2).
  { revert E. unfold Ecdsa.sign_with. change (Z.to_nat (2 mod Spec.Ec.P256_n)) with 2%nat. rewrite G_twice.
    assert (Eq : G2x mod Spec.Ec.P256_n = G2x) by reflexivity. rewrite Eq. clear Eq. change (G2x =? 0) with false. cbv iota zeta.
    rewrite (Z.mul_1_r G2x). set (w := Spec.Ec.fdiv _ _ _). clearbody w. destruct (w =? 0); [discriminate|]. intros Q. injection Q as <- <-. auto. }
  clear E. destruct E' as (-> & Es). split; [vm_compute; discriminate|].
  unfold Spec.Ec.fdiv in Es. set (w := 2 ^ (Spec.Ec.P256_n - 2)) in *. clearbody w.
  assert (E2 : (2 * s) mod Spec.Ec.P256_n = (e + G2x) mod Spec.Ec.P256_n).
  { rewrite Es, Zmult_mod_idemp_r. replace (2 * ((e + G2x) * w)) with ((e + G2x) * (2 * w)) by lia. rewrite <- Zmult_mod_idemp_r, F, Z.mul_1_r. reflexivity. }
  assert (Rs : 0 <= s < Spec.Ec.P256_n) by (rewrite Es; apply Z.mod_pos_bound; reflexivity).
  set (u := (e + Gx) mod Spec.Ec.P256_n) in *.
  assert (E3 : (e + G2x) mod Spec.Ec.P256_n = u + (G2x - Gx)).
  { replace (e + G2x) with (e + Gx + (G2x - Gx)) by lia. rewrite <- Zplus_mod_idemp_l. fold u. apply Z.mod_small.
    assert (0 <= u) by (apply Z.mod_pos_bound; reflexivity). assert (2^248 + (G2x - Gx) < Spec.Ec.P256_n) by reflexivity. assert (0 <= G2x - Gx) by (vm_compute; discriminate). lia. }
  assert (Hu0 : 0 <= u) by (apply Z.mod_pos_bound; reflexivity).
  assert (HD : 2 * 2^248 <= G2x - Gx) by (vm_compute; discriminate).
  rewrite E3 in E2. pose proof (Z.div_mod (2 * s) Spec.Ec.P256_n NZ) as DM. rewrite E2 in DM.
  assert (0 <= 2 * s / Spec.Ec.P256_n) by (apply Z.div_pos; [lia|reflexivity]). assert (0 < Spec.Ec.P256_n) by reflexivity. nia.
Qed.
Lemma sign_long e : exists k, In k [1; 2] /\ signs_well (PrivateKey secp256r1 1) e [k].
Proof.
  destruct (Z_lt_le_dec ((e + Gx) mod Spec.Ec.P256_n) (2^248)) as [L|L].
  - exists 2. split; [right; left; reflexivity|]. split.
    + exists 2. split; [left; reflexivity|]. apply sign_two. intros E2.
      assert (E3 : (e + G2x) mod Spec.Ec.P256_n = (e + Gx) mod Spec.Ec.P256_n + (G2x - Gx)).
      { replace (e + G2x) with (e + Gx + (G2x - Gx)) by lia. rewrite <- Zplus_mod_idemp_l. apply Z.mod_small.
        assert (0 <= (e + Gx) mod Spec.Ec.P256_n) by (apply Z.mod_pos_bound; reflexivity). assert (2^248 + (G2x - Gx) < Spec.Ec.P256_n) by reflexivity. assert (0 <= G2x - Gx) by (vm_compute; discriminate). lia. }
      assert (0 <= (e + Gx) mod Spec.Ec.P256_n) by (apply Z.mod_pos_bound; reflexivity). assert (0 < G2x - Gx) by reflexivity. lia.
    + intros k r s [<-|[]] S. exact (sign_two_long e r s S L).
  - exists 1. split; [left; reflexivity|]. split.
    + exists 1. split; [left; reflexivity|]. cbn [sk_secret]. rewrite sign_one. cbv zeta. destruct (Z.eqb_spec ((e + Gx) mod Spec.Ec.P256_n) 0) as [Q|]; [|discriminate]. rewrite Q in L. exfalso. revert L. apply Z.lt_nge. reflexivity.
    + intros k r s [<-|[]] S. cbn [sk_secret] in S. rewrite sign_one in S. cbv zeta in S. destruct (_ =? 0); [discriminate|]. injection S as <- <-. split; [vm_compute; discriminate|exact L].
Qed.

(* the two ends: the server has a certificate it issued itself; the client asks for "bank.test" *)
Definition lb_server (mutual : bool) : server_config :=
  {| sc_privkey := PrivateKey secp256r1 1; sc_cert := Cert own_raw (Some own_x);
     sc_client_ca := if mutual then Some (Cert own_raw (Some own_x)) else None; sc_verify := None; sc_keylog := None; sc_server_name := None |}.
Definition lb_draws (k : Z) : draws := {| d_random := repeat 3 32; d_secrets := [256]; d_context := repeat 4 32; d_nonces := [k] |}.
Definition lb_name : list Z := [98; 97; 110; 107; 46; 116; 101; 115; 116].
Definition lb_client (mutual : bool) : client_config :=
  {| cc_server_name := Some lb_name; cc_cert := if mutual then Some (Cert own_raw (Some own_x)) else None;
     cc_key := if mutual then Some (PrivateKey secp256r1 1) else None; cc_keylog := Some [47] |}.
Definition lb_client_draws (k : Z) : client_draws := {| e_secret := 256; e_random := repeat 5 32; e_session := repeat 6 32; e_nonces := [k]; e_took := 4096 |}.

Lemma lb_server_ok b k : 0 <= k -> server_ok (lb_server b) (lb_draws k).
Proof.
  intros Hk. unfold server_ok. cbn [lb_server lb_draws sc_privkey sk_curve sc_cert ct_raw d_random d_context d_nonces sc_client_ca].
  rewrite own_length. split; [reflexivity|]. split; [exact own_bytes|]. split; [lia|]. split; [apply is_bytes_check; reflexivity|].
  split; [reflexivity|]. split; [apply is_bytes_check; reflexivity|]. split; [reflexivity|]. split; [repeat constructor; exact Hk|].
  intros ca H. destruct b; [|discriminate]. injection H as <-. split; [exact own_bytes|]. exists own_x. split; [reflexivity|exact own_parse].
Qed.
Lemma lb_client_ok b k : 0 <= k -> client_ok (lb_client b) (lb_client_draws k).
Proof.
  intros Hk. unfold client_ok. cbn [lb_client lb_client_draws cc_server_name cc_cert cc_key e_secret e_random e_session e_nonces].
  split; [lia|]. split; [apply is_bytes_check; reflexivity|]. split; [reflexivity|]. split; [apply is_bytes_check; reflexivity|]. split; [reflexivity|].
  split; [repeat constructor; exact Hk|]. split; [intros n E; injection E as <-; split; [apply is_bytes_check; reflexivity|vm_compute; discriminate]|].
  split.
  - intros c E. destruct b; [|discriminate]. injection E as <-. cbn [ct_raw]. rewrite own_length. split; [exact own_bytes|lia].
  - intros key E. destruct b; [|discriminate]. injection E as <-. reflexivity.
Qed.
Lemma own_certifies : certifies own_now (Cert own_raw (Some own_x)) own_x (PrivateKey secp256r1 1).
Proof. split; [exact own_parse|]. split; [exact own_valid|]. exists Gx, Gy. split; [exact own_public|exact own_key]. Qed.
Lemma share_256 : hd 0 (X25519 (x25519_private 256) base_point) <> 0.
Proof. rewrite Kex.public_256. discriminate. Qed.
Lemma lb_names b n : cc_server_name (lb_client b) = Some n -> utf8_valid n = true /\ zlen n <= 3500 /\ (forall h, sc_server_name (lb_server b) = Some h -> n = h).
Proof. intros E. injection E as <-. split; [vm_compute; reflexivity|]. split; [vm_compute; discriminate|discriminate]. Qed.
Lemma answers_nonces cfg k k' m ch body g : answers cfg (lb_draws k) m ch body g -> answers cfg (lb_draws k') m ch body g.
Proof. exact (fun H => H). Qed.

Lemma lb_compatible b : exists k k', In k [1; 2] /\ In k' [1; 2] /\ compatible (lb_server b) (lb_draws k) (lb_client b) (lb_client_draws k') own_now.
Proof.
  assert (P1 : 0 <= 1) by lia.
  destruct (hellos_agree (lb_server b) (lb_draws 1) (lb_client b) (lb_client_draws 1) (lb_server_ok b 1 P1) (lb_client_ok b 1 P1)) as (ch & body & g & sh & A & _);
    [cbn [lb_draws d_secrets hd]; lia|exact share_256|exact share_256|intros n En; destruct (lb_names b n En) as (Q1 & Q2 & Q3); split; [exact Q1|]; split; [lia|exact Q3]|].
  destruct (sign_long (server_digest (lb_server b) (lb_draws 1) g)) as (k & Ik & Sk).
  assert (Hk : 0 <= k) by (destruct Ik as [<-|[<-|[]]]; lia).
  assert (SW : forall k' ch' body' g', answers (lb_server b) (lb_draws k) (client_greeting (lb_client b) (lb_client_draws k')) ch' body' g' ->
    signs_well (sc_privkey (lb_server b)) (server_digest (lb_server b) (lb_draws k) g') (d_nonces (lb_draws k))).
  { intros k' ch' body' g' A'. destruct (answers_fun _ _ _ _ _ _ _ _ _ A A') as (_ & _ & ->). exact Sk. }
  assert (K' : exists k', In k' [1; 2] /\ forall ch' body' g' der, answers (lb_server b) (lb_draws k) (client_greeting (lb_client b) (lb_client_draws k')) ch' body' g' ->
    server_signed (lb_server b) (lb_draws k) g' der -> signs_well (PrivateKey secp256r1 1) (client_digest (lb_server b) (lb_draws k) g' der (Cert own_raw (Some own_x))) [k']).
  { destruct Sk as ((k1 & [<-|[]] & S1) & _). cbn [sk_secret] in S1.
    destruct (Ecdsa.sign_with 1 (server_digest (lb_server b) (lb_draws 1) g) k) as [[r s]|] eqn:E; [|contradiction].
    destruct (sig_to_der (E:=tls_error) {| sg_r := r; sg_s := s |}) as [der| |] eqn:D.
    - destruct (sign_long (client_digest (lb_server b) (lb_draws k) g der (Cert own_raw (Some own_x)))) as (k' & Ik' & Sk').
      exists k'. split; [exact Ik'|]. intros ch' body' g' der' A' (k2 & r2 & s2 & ([<-|[]] & S2) & _ & D2).
      destruct (answers_fun _ _ _ _ _ _ _ _ _ A A') as (_ & _ & ->). cbn [lb_server sc_privkey sk_secret] in S2.
      change (server_digest (lb_server b) (lb_draws k) g) with (server_digest (lb_server b) (lb_draws 1) g) in S2. rewrite E in S2. injection S2 as <- <-.
      rewrite D in D2. injection D2 as <-. exact Sk'.
    - exists 1. split; [left; reflexivity|]. intros ch' body' g' der' A' (k2 & r2 & s2 & ([<-|[]] & S2) & _ & D2).
      destruct (answers_fun _ _ _ _ _ _ _ _ _ A A') as (_ & _ & ->). cbn [lb_server sc_privkey sk_secret] in S2.
      change (server_digest (lb_server b) (lb_draws k) g) with (server_digest (lb_server b) (lb_draws 1) g) in S2. rewrite E in S2. injection S2 as <- <-. congruence.
    - exists 1. split; [left; reflexivity|]. intros ch' body' g' der' A' (k2 & r2 & s2 & ([<-|[]] & S2) & _ & D2).
      destruct (answers_fun _ _ _ _ _ _ _ _ _ A A') as (_ & _ & ->). cbn [lb_server sc_privkey sk_secret] in S2.
      change (server_digest (lb_server b) (lb_draws k) g) with (server_digest (lb_server b) (lb_draws 1) g) in S2. rewrite E in S2. injection S2 as <- <-. congruence. }
  destruct K' as (k' & Ik' & Sk'). assert (Hk' : 0 <= k') by (destruct Ik' as [<-|[<-|[]]]; lia).
  exists k, k'. split; [exact Ik|]. split; [exact Ik'|].
  split; [exact (lb_server_ok b k Hk)|]. split; [exact (lb_client_ok b k' Hk')|]. split; [cbn [lb_draws d_secrets hd]; lia|].
  split; [exact share_256|]. split; [exact share_256|]. split.
  { assert (zlen (encode_record 22 (client_greeting (lb_client b) (lb_client_draws k'))) <= 4096) as L; [|unfold zlen in L; cbn [lb_client_draws e_took]; lia].
    rewrite zlen_record. pose proof (greeting_zlen 3500 (lb_client b) (lb_client_draws k') (lb_client_ok b k' Hk')) as L.
    assert (zlen (client_greeting (lb_client b) (lb_client_draws k')) <= 3800) as L'; [|lia]. apply L; [lia|]. intros n E. apply (lb_names b n E). }
  split; [exact (lb_names b)|]. split; [exists own_x; exact own_certifies|]. split; [cbn [lb_server sc_cert ct_raw]; rewrite own_length; lia|].
  split; [exact (SW k')|].
  intros ca Eca. destruct b; [|discriminate]. cbn [lb_server sc_client_ca] in Eca. injection Eca as <-.
  exists (Cert own_raw (Some own_x)), (PrivateKey secp256r1 1), own_x, own_x, (Gx, Gy). split; [reflexivity|]. split; [reflexivity|]. split; [exact own_certifies|].
  split; [cbn [ct_raw]; rewrite own_length; lia|]. split; [reflexivity|]. split; [exact own_public|]. split; [exact own_signed|]. split; [discriminate|exact Sk'].
Qed.
