(* ClientHellos that are answered, and concrete handshakes for the statements of Props.Server *)
From Verif Require Import Proofs.Util Proofs.Bytes Model.Alert Model.Bytes Model.Suite Model.Sha2 Model.Hmac Model.KeySchedule Model.Record Model.Channel
  Model.Curve Model.Signature Model.Ecdsa Model.X509 Model.Extensions Model.Hello Model.Kex Model.Handshake Model.Certificate
  Model.Stream Model.AppChannel Model.Keylog Model.Server
  Spec.Enc Spec.Rfc2104 Spec.Fips180 Spec.Rfc7748 Spec.KeyShare Spec.Rfc8446Keys Spec.Tls13Record Spec.Endpoints Spec.Writes Spec.Rfc8446Auth Spec.Connection.
From Verif Require Import Spec.HelloView Spec.Negotiation.
From Verif Require Spec.Rfc8446Hello Spec.Ecdsa Proofs.Kex Proofs.Hello Proofs.Negotiate Proofs.X509Cert Proofs.EcdsaP256 Proofs.Signature.
From Verif Require Import Proofs.KeySchedule Proofs.Record Proofs.Channel Proofs.Stream Proofs.ServerRun Proofs.ServerKeys Proofs.Opened Proofs.ServerSteps
  Proofs.ServerFlow Proofs.ServerAccept Proofs.ServerAccept2.
From Coq Require Import Znumtheory.

Local Opaque X25519 shared_secret key_share_of.

Lemma hello_bounds m : client_hello_ok m -> zlen (Rfc8446Hello.client_hello_wire m) < 2^24.
Proof.
  intros ((Lr & Ls & Hn & Hs & Hf) & Hx & _). unfold Rfc8446Hello.client_hello_wire, Rfc8446Hello.vector8, Rfc8446Hello.vector16, zlen.
  rewrite !app_length, !be_enc_length. unfold fits16 in *.
  assert (length (Rfc8446Hello.u16s (Rfc8446Hello.m_suites m)) = 2 * length (Rfc8446Hello.m_suites m))%nat as L.
  { generalize (Rfc8446Hello.m_suites m). unfold Rfc8446Hello.u16s. induction l as [|a l IH]; [reflexivity|]. cbn [flat_map]. rewrite app_length. unfold Rfc8446Hello.u16 at 1.
    rewrite be_enc_length, IH. cbn [length]. lia. }
  assert (length (Rfc8446Hello.m_session_id m) <= 32)%nat by (destruct Ls as [-> | ->]; cbn [length]; lia).
  rewrite L, Lr. unfold Rfc8446Hello.u16. rewrite !be_enc_length. cbn [length]. lia.
Qed.

Lemma answered cfg d m pre key l post :
  client_hello_ok m -> Rfc8446Hello.m_extensions m = pre ++ Rfc8446Hello.Shares ((x25519_code, key) :: l) :: post ->
  Forall (fun e => ~ has_shares e) (pre ++ post) -> Forall (acceptable (sc_server_name cfg)) (pre ++ post) ->
  (exists code, In code (Rfc8446Hello.m_suites m) /\ implemented code) ->
  is_bytes key -> length key = 32%nat -> 0 <= hd 0 (d_secrets d) < 2^256 ->
  exists g cs, In cs [AES_128_GCM_SHA256; AES_256_GCM_SHA384; CHACHA20_POLY1305_SHA256] /\
    answers cfg d (Rfc8446Hello.handshake 1 (Rfc8446Hello.client_hello_wire m)) (hello_view m)
      (Rfc8446Hello.server_hello_wire
        {| Rfc8446Hello.s_random := d_random d; Rfc8446Hello.s_session_id := Rfc8446Hello.m_session_id m; Rfc8446Hello.s_suite := suite_u16 cs;
           Rfc8446Hello.s_extensions := [Rfc8446Hello.SelectedShare (29, X25519 (x25519_private (hd 0 (d_secrets d))) base_point);
                                         Rfc8446Hello.SelectedVersion 0x0304] |}) g /\
    In (suite_u16 cs) (Rfc8446Hello.m_suites m) /\ suite_cipher cs = Ok (g_cipher g) /\
    g_ecdhe g = zeros_to_end (X25519 (x25519_private (hd 0 (d_secrets d))) (zeros_to_end key)).
Proof.
  intros Hm Hx Hns Hacc Himp Bk Lk Hsec.
  assert (Lsid : zlen (Rfc8446Hello.m_session_id m) < 256).
  { pose proof Hm as ((_ & [E|E] & _) & _); unfold zlen; rewrite E; [cbn|]; lia. }
  assert (X1 : x25519_first ((x25519_code, key) :: l)).
  { intros a k b E. destruct a as [|y a]; [discriminate|]. injection E as <- _. left. reflexivity. }
  destruct (Negotiate.answer_ok m pre _ post (sc_server_name cfg) (d_random d) (d_secrets d) Hm Hx Hns Hacc X1 ltac:(left; reflexivity) Himp Hsec)
    as (e & cs & He & Ha & Hcs).
  set (secret := hd 0 (d_secrets d)) in *.
  unfold answer in Ha. rewrite Hello.client_parse in Ha by assumption. rewrite bind_Ok in Ha.
  assert (Hin : In cs (suites_of (Rfc8446Hello.m_suites m)) /\ cs <> SCSV).
  { destruct (Negotiate.suite_chosen _ _ _ _ _ _ Ha) as (I1 & I2 & _). exact (conj I1 I2). }
  destruct Hin as (Hin & Hns').
  assert (exists c a A k, suite_cipher cs = Ok c /\ suite_parameters (suite_u16 cs) = Some (a, A, k)) as (c & a & A & k & Ec & Ep)
    by (destruct cs; try contradiction; repeat eexists; reflexivity).
  set (body := Rfc8446Hello.server_hello_wire (Hello.answer_msg (d_random d) (Rfc8446Hello.m_session_id m) cs secret)).
  exists (Agreed c A k (zeros_to_end (X25519 (x25519_private secret) (zeros_to_end key)))
            (Rfc8446Hello.handshake 1 (Rfc8446Hello.client_hello_wire m) ++ Rfc8446Hello.handshake 2 body)), cs.
  split; [destruct cs; try contradiction; cbn; auto|].
  split.
  - eexists _, _, _, (KSE X25519g key), a.
    split. { pose proof (frame_read HtClientHello (Rfc8446Hello.client_hello_wire m) [] (hello_bounds m Hm)) as FR. rewrite app_nil_r in FR. exact FR. }
    split; [reflexivity|]. cbn [hs_fraqment]. split; [apply Hello.client_parse, Hm|].
    split; [exact Ha|]. split.
    { rewrite (Hello.server_encode (E:=tls_error) (d_random d) (session_of (Rfc8446Hello.m_session_id m)) cs secret e Hsec); [|destruct (Rfc8446Hello.m_session_id m) eqn:E; exact Lsid|exact He].
      f_equal. unfold body, Hello.answer_msg, Hello.sid_list, session_of. destruct (Rfc8446Hello.m_session_id m); reflexivity. }
    split; [reflexivity|]. split.
    { unfold hello_view. cbn [ch_exts]. rewrite Hx, flat_map_app. clear - Hns. apply Forall_app in Hns. destruct Hns as (Hn & _).
      induction pre as [|y pre IH]; [reflexivity|]. inversion Hn; subst. cbn [flat_map]. rewrite <- app_assoc.
      destruct y; cbn [client_view app client_public_key_share]; try (now apply IH). exfalso. apply H1. exact I. }
    split; [reflexivity|]. split; [|split; [exact Ec|exact Ep]].
    apply Kex.shared_exact; cbn [ks_opaque]; [exact Hsec|exact Bk|lia].
  - split; [apply Negotiate.suites_of_in, Hin|]. split; [exact Ec|reflexivity].
Qed.

(* ---- signatures with the key 1 ---- *)
Definition Gx : Z := 0x6b17d1f2e12c4247f8bce6e563a440f277037d812deb33a0f4a13945d898c296.
Definition Gy : Z := 0x4fe342e2fe1a7f9b8ee7eb4a7c0f9e162bce33576b315ececbb6406837bf51f5.
Definition G2x : Z := 0x7cf27b188d034f7e8a52380304b51ac3c08969e277f21b35a60b48fc47669978.
Definition G2y : Z := 0x07775510db8ed040293d9ac69f7430dbba7dade63ce982299e04b79d227873d1.
Lemma G_once : Spec.Ec.ec_mul Spec.Ec.P256 1 Spec.Ec.P256_G = Spec.Ec.Affine Gx Gy. Proof. reflexivity. Qed.
Lemma G_twice : Spec.Ec.ec_mul Spec.Ec.P256 2 Spec.Ec.P256_G = Spec.Ec.Affine G2x G2y.
Proof.
  change (Spec.Ec.ec_mul Spec.Ec.P256 2 Spec.Ec.P256_G) with (Spec.Ec.ec_add Spec.Ec.P256 Spec.Ec.P256_G Spec.Ec.P256_G).
  pose proof (EcdsaP256.p256_add_ok Spec.Ec.P256_G Spec.Ec.P256_G P256.G_on P256.G_on) as E.
  assert (C : to_point (jacobian_add (from_point (Spec.EcView.coords Spec.Ec.P256_G)) (from_point (Spec.EcView.coords Spec.Ec.P256_G)) secp256r1) (cp secp256r1)
              = Point G2x G2y) by (vm_compute; reflexivity).
  rewrite C in E. revert E. clear C. generalize (Spec.Ec.ec_add Spec.Ec.P256 Spec.Ec.P256_G Spec.Ec.P256_G). intros Q E.
  destruct Q as [|x y]; cbn [Spec.EcView.coords] in E; injection E as E1 E2; [vm_compute in E1; discriminate|]. rewrite E1, E2. reflexivity.
Qed.
Lemma sign_one e : Ecdsa.sign_with 1 e 1 = let s := (e + Gx) mod Spec.Ec.P256_n in if s =? 0 then None else Some (Gx, s).
Proof.
  unfold Ecdsa.sign_with. change (Z.to_nat (1 mod Spec.Ec.P256_n)) with 1%nat. rewrite G_once.
  assert (Eq : Gx mod Spec.Ec.P256_n = Gx) by reflexivity. rewrite Eq. clear Eq.
  change (Gx =? 0) with false. cbv iota zeta. unfold Spec.Ec.fdiv. rewrite Z.pow_1_l by (vm_compute; discriminate).
  rewrite !Z.mul_1_r. reflexivity.
Qed.
Lemma sign_two e : (e + G2x) mod Spec.Ec.P256_n <> 0 -> Ecdsa.sign_with 1 e 2 <> None.
Proof.
  unfold Ecdsa.sign_with. change (Z.to_nat (2 mod Spec.Ec.P256_n)) with 2%nat. rewrite G_twice.
  assert (Eq : G2x mod Spec.Ec.P256_n = G2x) by reflexivity. rewrite Eq. clear Eq.
  change (G2x =? 0) with false. cbv iota zeta. intros N.
  destruct (Z.eqb_spec (Spec.Ec.fdiv Spec.Ec.P256_n (e + G2x * 1) 2) 0) as [Z0|]; [|discriminate]. exfalso. apply N.
  rewrite Z.mul_1_r in Z0. unfold Spec.Ec.fdiv in Z0. assert (NZ : Spec.Ec.P256_n <> 0) by discriminate.
  set (w := 2 ^ (Spec.Ec.P256_n - 2)) in Z0. assert (Ew : w = 2 ^ (Spec.Ec.P256_n - 2)) by reflexivity. clearbody w.
  apply Z.mod_divide in Z0; [|exact NZ]. apply prime_mult in Z0; [|exact EcdsaP256.prime_n]. destruct Z0 as [D|D]; [apply Z.mod_divide; [exact NZ|exact D]|].
  exfalso. assert (forall k, ~ (Spec.Ec.P256_n | 2 ^ Z.of_nat k)) as X.
  { induction k as [|k IH].
    - intros D1. apply Z.divide_pos_le in D1; [|reflexivity]. vm_compute in D1. apply D1. reflexivity.
    - rewrite Nat2Z.inj_succ, Z.pow_succ_r by apply Nat2Z.is_nonneg. intros D1. apply prime_mult in D1; [|exact EcdsaP256.prime_n]. destruct D1 as [D1|D1]; [|exact (IH D1)].
      apply Z.divide_pos_le in D1; [|reflexivity]. vm_compute in D1. apply D1. reflexivity. }
  apply (X (Z.to_nat (Spec.Ec.P256_n - 2))). rewrite Z2Nat.id by (vm_compute; discriminate). rewrite <- Ew. exact D.
Qed.
Lemma sign_some e : exists k, In k [1; 2] /\ Ecdsa.sign_with 1 e k <> None.
Proof.
  destruct (Z.eq_dec ((e + Gx) mod Spec.Ec.P256_n) 0) as [E|E].
  - exists 2. split; [right; left; reflexivity|]. apply sign_two. intros E2.
    assert (((e + G2x) - (e + Gx)) mod Spec.Ec.P256_n = 0) as D by (rewrite Zminus_mod, E, E2; reflexivity).
    replace (e + G2x - (e + Gx)) with (G2x - Gx) in D by lia. vm_compute in D. discriminate.
  - exists 1. split; [left; reflexivity|]. rewrite sign_one. cbv zeta. destruct (Z.eqb_spec ((e + Gx) mod Spec.Ec.P256_n) 0); [contradiction|discriminate].
Qed.
Lemma own_key : Ecdsa.public_of 1 = Spec.Ec.Affine Gx Gy. Proof. exact G_once. Qed.

(* ---- records of the client ---- *)
Local Transparent aead_tag_of.
Local Opaque aead_tag_of.
Lemma client_record H g n m : suited H g -> is_bytes m -> zlen m + 17 < 2^16 -> 0 <= n <= 2 ->
  exists r, whole r /\ r_type r = RApplicationData /\ from_client g n m r.
Proof.
  intros S Bm Lm Hn. pose proof S as (_ & Gc & _). destruct (suited_keys H g true S) as (_ & _ & _ & _ & G1).
  set (k := key_at (Connection.traffic_key g (client_secret g)) n).
  assert (Bi : is_bytes (m ++ [22])) by (apply is_bytes_app; split; [exact Bm|apply is_bytes_check; reflexivity]).
  assert (Li : zlen (m ++ [22]) + 16 < 2^16) by (rewrite zlen_app; change (zlen [22]) with 1; lia).
  destruct (seal_exists (g_cipher g) k (m ++ [22]) Gc) as (w & Sw).
  { split; [exact G1|]. cbn [k key_at k_seq]. lia. }
  { exact Bi. } { exact Li. }
  destruct (sealed_record _ _ _ _ Sw Li) as (rec & P & Wr & T & Hh & e & t & F & Lt & Et & D).
  exists rec. split; [|split; [exact T|]].
  - split; [rewrite Wr; exact P|]. rewrite Wr. destruct Sw as (e' & t' & _ & _ & _ & Be & Et' & _ & ->).
    assert (Bt : is_bytes t') by (rewrite Et'; apply tag_bytes; [exact Gc|apply G1|apply G1]).
    unfold encode_record. repeat first [assumption | apply be_enc_bytes | solve [apply is_bytes_check; reflexivity] | apply is_bytes_app; split].
  - exists e, t, 0%nat. split; [exact F|]. cbv zeta. rewrite Hh. cbn [repeat]. rewrite app_nil_r. split; [exact Et|exact D].
Qed.
Lemma hello_record m : is_bytes m -> zlen m < 2^16 -> exists r, whole r /\ r_type r = RHandshake /\ r_fragment r = m.
Proof.
  intros Bm Lm. destruct (record_round_trip RHandshake m [] Lm) as (r & P & T & F & _ & _ & Hh). rewrite app_nil_r in P.
  rewrite as_bytes_spec in P, Hh by exact Lm. cbn [record_new r_fragment r_type rt_code] in P, Hh.
  assert (Hr : r_header r = [22; 3; 3] ++ be_enc 2 (zlen m)).
  { rewrite Hh. unfold encode_record. rewrite app_assoc. now rewrite firstn_app_eq. }
  assert (Wr : wire r = encode_record 22 m) by (unfold wire; rewrite Hr, F; unfold encode_record; now rewrite <- app_assoc).
  exists r. split; [|auto]. split; rewrite Wr.
  - exact P.
  - unfold encode_record. repeat first [assumption | apply be_enc_bytes | solve [apply is_bytes_check; reflexivity] | apply is_bytes_app; split].
Qed.

(* ---- a certificate with the key 1, signed by itself ---- *)
Definition own_time (y : Z) : Spec.Calendar.instant :=
  {| Spec.Calendar.year := y; Spec.Calendar.month := 1; Spec.Calendar.day := 2; Spec.Calendar.hour := 3; Spec.Calendar.minute := 4; Spec.Calendar.second := 5 |}.
Definition own_name : list Spec.X509.attribute :=
  [{| Spec.X509.a_type := Spec.X509.Country; Spec.X509.a_string := Spec.X509.PrintableString; Spec.X509.a_text := [68; 69] |};
   {| Spec.X509.a_type := Spec.X509.Common; Spec.X509.a_string := Spec.X509.UTF8String; Spec.X509.a_text := [99; 97] |}].
Definition own_tbs : Spec.X509.tbs :=
  {| Spec.X509.tbs_version := Some 2; Spec.X509.tbs_serial := [7]; Spec.X509.tbs_signature := Spec.X509.ecdsa_sha256; Spec.X509.tbs_issuer := own_name;
     Spec.X509.tbs_not_before := own_time 2022; Spec.X509.tbs_not_after := own_time 2032; Spec.X509.tbs_subject := own_name;
     Spec.X509.tbs_x := Gx; Spec.X509.tbs_y := Gy; Spec.X509.tbs_extensions := Some (repeat 9 100) |}.
Definition own_s : list Z := [178; 102; 206; 67; 89; 30; 33; 181; 84; 10; 85; 225; 173; 55; 82; 189; 162; 85; 58; 111; 248; 97; 141; 190; 201; 101; 1; 206; 30; 154; 202; 136].
Definition own_cert : Spec.X509.certificate :=
  {| Spec.X509.c_tbs := own_tbs; Spec.X509.c_algorithm := Spec.X509.ecdsa_sha256; Spec.X509.c_r := be_enc 32 Gx; Spec.X509.c_s := 0 :: own_s |}.
Definition own_raw : list Z := Spec.X509.Certificate own_cert.
Definition own_x : x509 := X509Cert.x_of own_tbs (own_time 2032) own_name own_cert (length (concat (Spec.X509.tbs_elements own_tbs))).
Lemma own_tbs_ok : Spec.X509.tbs_ok own_tbs.
Proof.
  unfold Spec.X509.tbs_ok, Spec.X509.time_ok, Spec.X509.octets.
  cbn [own_tbs Spec.X509.tbs_version Spec.X509.tbs_serial Spec.X509.tbs_issuer Spec.X509.tbs_subject Spec.X509.tbs_not_before Spec.X509.tbs_not_after Spec.X509.tbs_x Spec.X509.tbs_y].
  split; [intros v H; injection H as <-; lia|]. split; [repeat constructor; lia|].
  split; [repeat constructor; unfold Spec.X509.scalar_value; lia|]. split; [repeat constructor; unfold Spec.X509.scalar_value; lia|].
  split; [split; [vm_compute; intuition discriminate|cbn; lia]|].
  split; [split; [vm_compute; intuition discriminate|cbn; lia]|]. unfold Gx, Gy. lia.
Qed.
Lemma own_parse : x509_from_raw own_raw = Ok own_x.
Proof. apply (X509Cert.cert_parse own_cert own_tbs_ok). vm_compute. reflexivity. Qed.
Lemma own_bytes : is_bytes own_raw. Proof. apply is_bytes_check. vm_compute. reflexivity. Qed.
Lemma own_length : zlen own_raw = 395. Proof. vm_compute. reflexivity. Qed.
Lemma own_public : X509.get_public_key (E:=tls_error) own_x = Ok (Some (Gx, Gy)).
Proof. vm_compute. reflexivity. Qed.
Definition own_now : Z := 1700000000.
Lemma own_valid : is_valid (E:=tls_error) (x_validity own_x) own_now = Ok true.
Proof. vm_compute. reflexivity. Qed.
Lemma own_signed : signed_by (Gx, Gy) own_raw own_x.
Proof.
  exists Gx, (be_val own_s), (Spec.X509.TBSCertificate own_tbs). split; [vm_compute; reflexivity|]. split.
  { apply (X509Cert.signed_part_ok (E:=tls_error) own_cert own_x own_tbs_ok); [vm_compute; discriminate|vm_compute; reflexivity|exact own_parse]. }
  split; [exact P256.G_on|]. cbn [fst snd]. rewrite <- own_key. apply (EcdsaP256.p256_sign_valid 1 _ 1); [lia|].
  rewrite sign_one. cbv zeta.
  assert (E : (Ecdsa.hash_int (sha256_spec (Spec.X509.TBSCertificate own_tbs)) + Gx) mod Spec.Ec.P256_n = be_val own_s) by (vm_compute; reflexivity).
  rewrite E. reflexivity.
Qed.

(* ---- handshakes, with and without client authentication ---- *)
Definition ex_cfg (mutual : bool) : server_config :=
  {| sc_privkey := PrivateKey secp256r1 1; sc_cert := Cert own_raw (Some own_x);
     sc_client_ca := if mutual then Some (Cert own_raw (Some own_x)) else None; sc_verify := None; sc_keylog := Some [47]; sc_server_name := Some [97; 46; 98] |}.
Definition ex_draws : draws := {| d_random := repeat 3 32; d_secrets := [2^250 + 5]; d_context := repeat 4 32; d_nonces := [1; 2] |}.
Definition ex_hello : Rfc8446Hello.client_hello_msg :=
  {| Rfc8446Hello.m_random := repeat 7 32; Rfc8446Hello.m_session_id := repeat 9 32; Rfc8446Hello.m_suites := [0x0a0a; 0x1301; 0x1302];
     Rfc8446Hello.m_extensions := [Rfc8446Hello.OtherExt 0x2a2a []; Rfc8446Hello.Shares [(29, repeat 6 32); (30, repeat 5 56)];
       Rfc8446Hello.Host [97; 46; 98]; Rfc8446Hello.Versions [0x0303; 0x0304]] |}.
Definition ex_first : list Z := Rfc8446Hello.handshake 1 (Rfc8446Hello.client_hello_wire ex_hello).
Definition ex_sock : sock := {| so_sent := []; so_left := None |}.
Lemma ex_hello_ok : client_hello_ok ex_hello.
Proof.
  unfold client_hello_ok, hello_header_ok, fits16. split; [|split; [cbn; lia|]].
  - repeat split; try reflexivity; [now right|right; discriminate|repeat constructor; cbn; lia].
  - cbn [Rfc8446Hello.m_extensions ex_hello].
    repeat (apply Forall_cons || apply Forall_nil); unfold client_ext_ok, code16, fits16; cbn [Rfc8446Hello.client_extension_type];
      (split; [lia|split; [cbn; lia|]]); try reflexivity; try lia.
    + split; [discriminate|]. repeat (apply Forall_cons || apply Forall_nil); (split; [discriminate|split; cbn; lia]).
    + split; [cbn; lia|]. repeat constructor; cbn; lia.
Qed.
Lemma ex_server_ok b : server_ok (ex_cfg b) ex_draws.
Proof.
  unfold server_ok. cbn [ex_cfg ex_draws sc_privkey sk_curve sc_cert ct_raw d_random d_context d_nonces sc_client_ca].
  rewrite own_length. split; [reflexivity|]. split; [exact own_bytes|]. split; [lia|]. split; [apply is_bytes_check; reflexivity|].
  split; [reflexivity|]. split; [apply is_bytes_check; reflexivity|]. split; [reflexivity|]. split; [repeat constructor; lia|].
  intros ca H. destruct b; [|discriminate]. injection H as <-. split; [exact own_bytes|]. exists own_x. split; [reflexivity|exact own_parse].
Qed.
Lemma ex_answered b : exists body g, answers (ex_cfg b) ex_draws ex_first (hello_view ex_hello) body g.
Proof.
  destruct (answered (ex_cfg b) ex_draws ex_hello [Rfc8446Hello.OtherExt 0x2a2a []] (repeat 6 32) [(30, repeat 5 56)]
    [Rfc8446Hello.Host [97; 46; 98]; Rfc8446Hello.Versions [0x0303; 0x0304]]) as (g & cs & _ & A & _).
  - exact ex_hello_ok.
  - reflexivity.
  - cbn [app]. repeat (apply Forall_cons || apply Forall_nil); cbn; tauto.
  - cbn [app]. repeat (apply Forall_cons || apply Forall_nil); cbn; tauto.
  - exists 0x1301. split; [right; now left|now left].
  - apply is_bytes_check; reflexivity.
  - reflexivity.
  - cbn [ex_draws d_secrets hd]. lia.
  - eexists _, g. exact A.
Qed.
Lemma ex_can_sign b g : can_sign (ex_cfg b) ex_draws g.
Proof. exact (sign_some _). Qed.
Lemma ex_possession A messages : exists m2, is_bytes m2 /\ zlen m2 < 2^10 /\ proves_possession A own_x messages m2.
Proof.
  set (e := Ecdsa.hash_int (sha256_spec (verify_message A client_context messages))).
  destruct (sign_some e) as (k & Ik & Sk). destruct (Ecdsa.sign_with 1 e k) as [[r s]|] eqn:E; [|contradiction]. clear Sk.
  assert (V : Ecdsa.valid_signature (Ecdsa.public_of 1) e r s).
  { apply (EcdsaP256.p256_sign_valid 1 e k); [destruct Ik as [<-|[<-|[]]]; lia|exact E]. }
  pose proof V as (Hr & Hs & _). assert (Nn : Spec.Ec.P256_n < 2^256) by (vm_compute; reflexivity).
  set (der := Spec.X509.EcdsaSigValue (be_enc 33 r) (be_enc 33 s)).
  assert (Ed : der = [48; 70; 2; 33] ++ be_enc 33 r ++ [2; 33] ++ be_enc 33 s).
  { unfold der, Spec.X509.EcdsaSigValue, Spec.X509.SEQUENCE, Spec.X509.INTEGER, Spec.X509.der. cbn [concat]. rewrite app_nil_r.
    rewrite !be_enc_length. change (Spec.X509.der_length (Z.of_nat 33)) with [33].
    match goal with |- context [Spec.X509.der_length (Z.of_nat ?n)] => replace n with 70%nat by (rewrite app_length; cbn [app length]; rewrite !be_enc_length; reflexivity) end.
    change (Spec.X509.der_length (Z.of_nat 70)) with [70]. reflexivity. }
  assert (Ld : length der = 72%nat) by (rewrite Ed, !app_length, !be_enc_length; reflexivity).
  assert (Bd : is_bytes der).
  { rewrite Ed. repeat first [assumption | apply be_enc_bytes | solve [apply is_bytes_check; reflexivity] | apply is_bytes_app; split]. }
  exists (Rfc8446Hello.handshake 15 (Rfc8446Hello.u16 0x0403 ++ Rfc8446Hello.u16 (Z.of_nat 72) ++ der)).
  split; [|split].
  - apply is_bytes_handshake; [unfold is_byte; lia|]. unfold Rfc8446Hello.u16.
    repeat first [assumption | apply be_enc_bytes | apply is_bytes_app; split].
  - unfold zlen. rewrite handshake_length, !app_length, Ld. unfold Rfc8446Hello.u16. rewrite !be_enc_length. lia.
  - exists (Gx, Gy), {| sg_r := r; sg_s := s |}, der, 72%nat, []. split; [exact own_public|]. split.
    + pose proof (Signature.sig_from_der_spec (be_enc 33 r) (be_enc 33 s) []) as F. fold der in F. rewrite app_nil_r, Ld in F.
      rewrite F by lia. rewrite !be_val_enc, !Z.mod_small by (change (256 ^ Z.of_nat 33) with (256 * 2^256); lia). reflexivity.
    + split; [now rewrite app_nil_r|]. split; [exact P256.G_on|]. cbn [fst snd sg_r sg_s]. rewrite <- own_key. exact V.
Qed.

Lemma ex_accepted b : exists reads h, Forall is_bytes reads /\ length reads = 2%nat /\
  accept (ex_cfg b) ex_draws own_now ex_sock reads = (h, Some (Ok tt)).
Proof.
  destruct (ex_answered b) as (body & g & A).
  assert (Bf : is_bytes ex_first) by (apply is_bytes_check; vm_compute; reflexivity).
  assert (Lf : zlen ex_first < 2^16) by (vm_compute; reflexivity).
  destruct (hello_record ex_first Bf Lf) as (hello & Wh & Th & Fh). rewrite <- Fh in A.
  assert (Lc : zlen (ct_raw (sc_cert (ex_cfg b))) < 2^16 - 64) by (change (ct_raw (sc_cert (ex_cfg b))) with own_raw; rewrite own_length; lia).
  destruct (accepted (ex_cfg b) ex_draws own_now ex_sock hello _ body g (ex_server_ok b) Lc eq_refl Wh Th A (ex_can_sign b g)) as (der & Sg & C).
  pose proof Bf as Bf'. pose proof Lf as Lf'. rewrite <- Fh in Bf', Lf'. destruct (answers_facts _ _ _ _ _ _ (ex_server_ok b) Bf' Lf' A) as (_ & _ & _ & _ & H & _ & _ & _ & _ & _ & _ & _ & _ & _ & S & _).
  assert (Bv : forall msgs, is_bytes msgs -> zlen msgs < 2^53 -> is_bytes (Rfc8446Hello.handshake 20 (verify_data g (client_secret g) msgs)) /\
    zlen (Rfc8446Hello.handshake 20 (verify_data g (client_secret g) msgs)) + 17 < 2^16).
  { intros msgs Bm Lm. destruct (suited_schedule H g S) as (_ & (Bs & Ls) & _). pose proof S as (EA & _).
    destruct (Auth.finished_data H (client_secret g) msgs Bs Ls Bm Lm) as (_ & Lv & Bv). unfold verify_data. rewrite EA.
    split; [apply is_bytes_handshake; [unfold is_byte; lia|exact Bv]|]. unfold zlen. rewrite handshake_length, Lv. destruct H; cbn; lia. }
  assert (Dv : is_bytes der /\ (length der <= 72)%nat).
  { destruct Sg as (k & r & s & _ & (Hr & Hs & _) & Ed). assert (Spec.Ec.P256_n < 2^256) by (vm_compute; reflexivity).
    apply (Auth.der_bounds r s der ltac:(lia) ltac:(lia) Ed). }
  destruct (to_finished_ok H (ex_cfg b) ex_draws g der S (ex_server_ok b) (proj1 Dv) (proj2 Dv)) as (Bb & Lb).
  set (before := to_server_finished (ex_cfg b) ex_draws g der) in *.
  destruct b.
  - set (m1 := Rfc8446Hello.handshake 11 (Rfc8446Hello.vector8 (d_context ex_draws) ++
             Rfc8446Hello.vector24 (Rfc8446Hello.vector24 own_raw ++ Rfc8446Hello.vector16 [] ++ []))).
    assert (B1 : is_bytes m1) by (apply is_bytes_check; vm_compute; reflexivity).
    assert (L1 : zlen m1 + 17 < 2^16) by (vm_compute; reflexivity).
    destruct (ex_possession (g_alg g) (before ++ m1)) as (m2 & B2 & L2 & PP).
    destruct (client_record H g 0 m1 S B1 L1 ltac:(lia)) as (r1 & W1 & T1 & F1).
    destruct (client_record H g 1 m2 S B2 ltac:(lia) ltac:(lia)) as (r2 & W2 & T2 & F2).
    assert (BM : is_bytes (before ++ m1 ++ m2)) by (apply is_bytes_app; split; [exact Bb|]; apply is_bytes_app; split; [exact B1|exact B2]).
    assert (LM : zlen (before ++ m1 ++ m2) < 2^53) by (rewrite !zlen_app; lia).
    destruct (Bv _ BM LM) as (B3 & L3).
    destruct (client_record H g 2 _ S B3 L3 ltac:(lia)) as (r3 & W3 & T3 & F3).
    destruct (C [[hello; r1]; [r2; r3]] [] [r1; r2; r3] [r1; r2] r3 (before ++ m1 ++ m2)) as (h & E).
    + repeat constructor; discriminate.
    + reflexivity.
    + repeat (constructor; [assumption|]). constructor.
    + unfold without_ccs. cbn [filter]. unfold is_ccs. rewrite T1, T2, T3. reflexivity.
    + exists own_x, (Gx, Gy), own_raw, own_x, [], [], r1, r2, m1, m2. do 8 (split; [first [reflexivity|assumption]|]).
      split; [reflexivity|]. split; [reflexivity|]. split; [exact own_public|]. split; [exact own_parse|]. split; [exact own_valid|].
      split; [exact own_signed|]. split; [discriminate|]. exact PP.
    + exact T3.
    + exact F3.
    + rewrite app_nil_r in E. eexists _, h. split; [|split; [|exact E]]; [|reflexivity].
      cbn [map concat]. rewrite !app_nil_r. repeat constructor; apply is_bytes_app; split; [apply Wh|apply W1|apply W2|apply W3].
  - destruct (Bv before Bb ltac:(lia)) as (B3 & L3). destruct (client_record H g 0 _ S B3 L3 ltac:(lia)) as (r3 & W3 & T3 & F3).
    destruct (C [[hello]; [r3]] [] [r3] [] r3 before) as (h & E).
    + repeat constructor; discriminate.
    + reflexivity.
    + repeat (constructor; [assumption|]). constructor.
    + unfold without_ccs. cbn [filter]. unfold is_ccs. rewrite T3. reflexivity.
    + split; reflexivity.
    + exact T3.
    + exact F3.
    + rewrite app_nil_r in E. eexists _, h. split; [|split; [|exact E]]; [|reflexivity].
      cbn [map concat]. rewrite !app_nil_r. constructor; [apply Wh|constructor; [apply W3|constructor]].
Qed.
