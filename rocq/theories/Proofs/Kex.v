From Coq Require Import ZArith Lia List Bool.
From Verif.Model Require Import Base Bytes Curve X25519 Ecdsa Extensions Hello Kex.
From Verif.Spec Require Import Enc Rfc7748 KeyShare.
From Verif.Proofs Require Import Util Bytes X25519 X25519Props Dh25519 FastLadder.
Import ListNotations.
Open Scope Z_scope.

Lemma drop_zeros_bytes l : is_bytes l -> is_bytes (drop_zeros l).
Proof.
  intros H. induction H as [|x l Hx Hl IH]; [constructor|]. cbn [drop_zeros]. destruct x; [exact IH| |]; constructor; assumption.
Qed.
Lemma drop_zeros_le l : (length (drop_zeros l) <= length l)%nat.
Proof. induction l as [|x l IH]; [apply le_n|]. cbn [drop_zeros length]. destruct x; cbn [length]; lia. Qed.
Lemma drop_zeros_val l : be_val (drop_zeros l) = be_val l.
Proof.
  induction l as [|x l IH]; [reflexivity|]. cbn [drop_zeros]. destruct x; try reflexivity.
  rewrite IH. change (0 :: l) with ([0] ++ l). rewrite be_val_app. cbn. lia.
Qed.
Lemma drop_zeros_hd l : match drop_zeros l with [] => True | x :: _ => x <> 0 end.
Proof. induction l as [|x l IH]; [exact I|]. cbn [drop_zeros]. destruct x; [exact IH| |]; discriminate. Qed.

Lemma be_digits l : is_bytes l -> match l with [] => True | x :: _ => x <> 0 end -> ubig_to_be_bytes (be_val l) = l.
Proof.
  intros H Hx. destruct l as [|x l]; [reflexivity|]. inversion H as [|? ? Bx Bl]; subst.
  unfold ubig_to_be_bytes.
  assert (R : 256 ^ Z.of_nat (length l) <= be_val (x :: l) < 256 ^ Z.of_nat (S (length l))).
  { change (x :: l) with ([x] ++ l). rewrite be_val_app.
    pose proof (be_val_range l Bl) as RL. unfold is_byte in Bx.
    unfold zlen in *. replace (be_val [x]) with x by (cbn; lia). rewrite Nat2Z.inj_succ, Z.pow_succ_r by lia. nia. }
  rewrite (ubig_le_exact _ _ R).
  change (rev (le_enc (S (length l)) (be_val (x :: l)))) with (be_enc (length (x :: l)) (be_val (x :: l))).
  apply be_enc_val. exact H.
Qed.

Lemma justify {E} l : is_bytes l -> (length l <= 32)%nat ->
  ibig_to_32bytes (E:=E) (to_ibig_be l) Big = Ok (zeros_to_end l).
Proof.
  intros H L. rewrite to_ibig_be_val. unfold ibig_to_32bytes, ibig_to_vec.
  pose proof (be_val_range l H). destruct (Z.ltb_spec (be_val l) 0); [lia|]. cbn [bind]. f_equal.
  rewrite <- drop_zeros_val, be_digits; [|apply drop_zeros_bytes, H|apply drop_zeros_hd].
  pose proof (drop_zeros_le l). apply fill32_short. lia.
Qed.

Lemma zeros_to_end_ok l : is_bytes l -> (length l <= 32)%nat -> is_bytes (zeros_to_end l) /\ length (zeros_to_end l) = 32%nat.
Proof.
  intros H L. pose proof (drop_zeros_le l). unfold zeros_to_end. split.
  - apply is_bytes_app. split; [apply drop_zeros_bytes, H|]. apply is_bytes_repeat. unfold is_byte; lia.
  - rewrite app_length, repeat_length. lia.
Qed.
Lemma zeros_to_end_id l : length l = 32%nat -> hd 0 l <> 0 -> zeros_to_end l = l.
Proof.
  intros L H. destruct l as [|x l]; [discriminate|]. cbn [hd] in H. unfold zeros_to_end.
  replace (drop_zeros (x :: l)) with (x :: l) by (destruct x; [congruence| |]; reflexivity).
  rewrite L. apply app_nil_r.
Qed.

Lemma private_ok s : is_bytes (x25519_private s) /\ length (x25519_private s) = 32%nat.
Proof. apply zeros_to_end_ok; [apply be_enc_bytes|rewrite be_enc_length; lia]. Qed.
Lemma secret_bytes {E} s : 0 <= s < 2 ^ 256 -> ibig_to_32bytes (E:=E) s Big = Ok (x25519_private s).
Proof.
  intros H. unfold x25519_private. rewrite <- justify; [|apply be_enc_bytes|rewrite be_enc_length; lia].
  rewrite to_ibig_be_val, be_val_enc. rewrite Z.mod_small by exact H. reflexivity.
Qed.

Lemma base_bytes : base_point = le_enc 32 9 /\ is_bytes base_point /\ length base_point = 32%nat.
Proof. destruct nine_ok as (A & B & C). split; [exact C|split; assumption]. Qed.

Lemma multiply_ok {E} u s y : 0 <= s < 2 ^ 256 -> is_bytes u -> (length u <= 32)%nat ->
  ec_multiply (E:=E) (Point (to_ibig_be u) y) s curve25519 = Ok (Point (to_ibig_be (X25519 (x25519_private s) (zeros_to_end u))) 0).
Proof.
  intros Hs Hu Lu. unfold ec_multiply. change (equ curve25519) with Montgomery. cbv match. cbn [px].
  rewrite secret_bytes, justify by assumption. cbn [bind].
  destruct (private_ok s), (zeros_to_end_ok u Hu Lu). rewrite scalarmult_ok by assumption. reflexivity.
Qed.

Lemma sent {E} s : 0 <= s < 2 ^ 256 -> exists e,
  key_share_of (E:=E) (PrivateKey curve25519 s) = Ok e /\ ks_group e = X25519g /\
  kse_bytes (E:=E) e = Ok ([0x00; 0x1d; 0x00; 0x20] ++ X25519 (x25519_private s) base_point).
Proof.
  intros Hs. destruct base_bytes as (Bp & Bb & Bl).
  unfold key_share_of, get_public_key. cbn [sk_curve sk_secret].
  assert (M : ec_multiply (E:=E) (cg curve25519) s curve25519 = Ok (Point (to_ibig_be (X25519 (x25519_private s) base_point)) 0)).
  { replace (cg curve25519) with (Point (to_ibig_be [9]) (py (cg curve25519))) by reflexivity.
    rewrite multiply_ok; [reflexivity|exact Hs| |cbn; lia]. constructor; [unfold is_byte; lia|constructor]. }
  rewrite M. cbn [bind pk_point px].
  destruct (X25519_bytes (x25519_private s) base_point) as (XB & XL & _). set (X := X25519 _ _) in *. clearbody X.
  rewrite to_ibig_be_val. pose proof (be_val_range X XB) as R. unfold zlen in R. rewrite XL in R.
  rewrite ibig_to_32_little by exact R. cbn [bind]. eexists. split; [reflexivity|]. split; [reflexivity|].
  unfold kse_bytes. cbn [ks_group ks_opaque]. do 2 f_equal.
  rewrite <- XL. apply (be_enc_val X XB).
Qed.

Lemma shared_exact {E} s e : 0 <= s < 2 ^ 256 -> is_bytes (ks_opaque e) -> (length (ks_opaque e) <= 32)%nat ->
  shared_secret (E:=E) (PrivateKey curve25519 s) e = Ok (zeros_to_end (X25519 (x25519_private s) (zeros_to_end (ks_opaque e)))).
Proof.
  intros Hs Hb Hl. unfold shared_secret. cbn [sk_curve sk_secret]. rewrite multiply_ok by assumption. cbn [bind px].
  destruct (X25519_bytes (x25519_private s) (zeros_to_end (ks_opaque e))) as (XB & XL & _).
  apply justify; [exact XB|lia].
Qed.

Lemma shared_partial {E} s e : 0 <= s < 2 ^ 256 -> is_bytes (ks_opaque e) -> length (ks_opaque e) = 32%nat ->
  hd 0 (ks_opaque e) <> 0 -> hd 0 (X25519 (x25519_private s) (ks_opaque e)) <> 0 ->
  shared_secret (E:=E) (PrivateKey curve25519 s) e = Ok (X25519 (x25519_private s) (ks_opaque e)).
Proof.
  intros Hs Hb Hl H1 H2. rewrite shared_exact by (try assumption; lia). f_equal.
  rewrite (zeros_to_end_id (ks_opaque e)) by assumption. apply zeros_to_end_id; [|exact H2]. apply X25519_bytes.
Qed.

Lemma zeros_to_end_differs l : is_bytes l -> length l = 32%nat -> hd 0 l = 0 -> l <> repeat 0 32 -> zeros_to_end l <> l.
Proof.
  intros Hb L H N E.
  pose proof (drop_zeros_hd l) as D. unfold zeros_to_end in E. destruct (drop_zeros l) as [|x t] eqn:Ed.
  - apply N. symmetry. exact E.
  - rewrite <- E in H. cbn in H. congruence.
Qed.

Lemma shared_refuted {E} s e : 0 <= s < 2 ^ 256 -> is_bytes (ks_opaque e) -> length (ks_opaque e) = 32%nat -> hd 0 (ks_opaque e) <> 0 ->
  hd 0 (X25519 (x25519_private s) (ks_opaque e)) = 0 -> X25519 (x25519_private s) (ks_opaque e) <> repeat 0 32 ->
  exists r, shared_secret (E:=E) (PrivateKey curve25519 s) e = Ok r /\ r <> X25519 (x25519_private s) (ks_opaque e).
Proof.
  intros Hs Hb Hl H1 H2 H3. eexists. rewrite shared_exact by (try assumption; lia). split; [reflexivity|].
  rewrite (zeros_to_end_id (ks_opaque e)) by assumption.
  destruct (X25519_bytes (x25519_private s) (ks_opaque e)) as (XB & XL & _). apply zeros_to_end_differs; assumption.
Qed.

Lemma zero_secret {E} s : 0 <= s < 2 ^ 256 ->
  shared_secret (E:=E) (PrivateKey curve25519 s) (KSE X25519g (0 :: 1 :: repeat 0 30)) = Ok (repeat 0 32).
Proof.
  intros Hs. rewrite shared_exact; [|exact Hs| |cbn; lia].
  - cbn [ks_opaque]. change (zeros_to_end (0 :: 1 :: repeat 0 30)) with (le_enc 32 1).
    rewrite X25519_one by apply private_ok. reflexivity.
  - cbn [ks_opaque repeat]. unfold is_bytes. repeat constructor; lia.
Qed.

(* the wire bytes of one end as the other end receives them *)
Lemma both_agree {E} a b : 0 <= a < 2 ^ 256 -> 0 <= b < 2 ^ 256 ->
  let A := X25519 (x25519_private a) base_point in
  let B := X25519 (x25519_private b) base_point in
  hd 0 A <> 0 -> hd 0 B <> 0 ->
  exists k, shared_secret (E:=E) (PrivateKey curve25519 a) (KSE X25519g B) = Ok k /\
            shared_secret (E:=E) (PrivateKey curve25519 b) (KSE X25519g A) = Ok k.
Proof.
  intros Ha Hb A B HA HB.
  destruct (X25519_bytes (x25519_private a) base_point) as (A1 & A2 & _), (X25519_bytes (x25519_private b) base_point) as (B1 & B2 & _).
  exists (zeros_to_end (X25519 (x25519_private a) B)). fold A in A1, A2. fold B in B1, B2.
  rewrite !shared_exact; cbn [ks_opaque]; try assumption; try lia.
  rewrite !zeros_to_end_id with (l := B), !zeros_to_end_id with (l := A) by assumption.
  split; [reflexivity|]. do 2 f_equal. subst A B. destruct base_bytes as (Bp & _). rewrite Bp.
  destruct (private_ok a), (private_ok b). apply agree; assumption.
Qed.

(* computations *)
Lemma public_274 : X25519 (x25519_private 274) base_point = [0;238;196;206;212;159;202;227;234;138;157;174;70;237;6;195;44;22;245;106;187;102;216;169;79;63;230;120;178;127;87;63].
Proof. rewrite <- fast_ok. vm_compute. reflexivity. Qed.
Lemma public_256 : X25519 (x25519_private 256) base_point = [47;229;125;163;71;205;98;67;21;40;218;172;95;187;41;7;48;255;246;132;175;196;207;194;237;144;153;95;88;203;59;116].
Proof. rewrite <- fast_ok. vm_compute. reflexivity. Qed.
Lemma true_secret_256 : X25519 (x25519_private 256) (0 :: 1 :: repeat 0 30) = [25;121;239;161;126;17;231;118;16;60;135;65;194;80;219;162;69;43;101;36;162;244;2;58;97;39;213;2;207;200;174;34].
Proof. rewrite <- fast_ok. vm_compute. reflexivity. Qed.

From Verif.Model Require Import Alert Sha2 Hmac Suite KeySchedule.
From Verif.Spec Require Import Rfc2104 Rfc8446Keys Tls13Record.
From Verif.Proofs Require Hmac KeySchedule Record.

Lemma th_finalize_update t0 cs m : suite_tshash cs = Ok t0 -> th_finalize (th_update t0 m) = sha_x (th_type t0) m.
Proof. destruct cs; intros [= <-]; reflexivity. Qed.

Lemma secrets_general cs t0 a A klen s e hellos r :
  suite_tshash cs = Ok t0 -> suite_parameters (suite_u16 cs) = Some (a, A, klen) ->
  is_bytes hellos -> zlen hellos < 2^53 -> ks_group e = X25519g -> is_bytes r -> length r = 32%nat ->
  shared_secret (E:=tls_error) (PrivateKey curve25519 s) e = Ok r ->
  exists ks, from_handshake (th_update t0 hellos) (PrivateKey curve25519 s) e = Ok ks /\
    hk_prk (ks_client_hs ks) = client_handshake_traffic_secret A r hellos /\
    hk_prk (ks_server_hs ks) = server_handshake_traffic_secret A r hellos /\
    hk_prk (ks_master ks) = Master_Secret A r.
Proof.
  intros Ht Hp Hm Lm Hg Br Lr Hs. unfold from_handshake. rewrite Hg, Hs. cbn [bind].
  rewrite (th_finalize_update t0 cs hellos Ht). change (th_type (th_update t0 hellos)) with (th_type t0).
  destruct (Proofs.KeySchedule.schedule_spec (th_type t0) hellos r Hm Lm Br) as (-> & _); [unfold zlen; rewrite Lr; reflexivity|].
  eexists. split; [reflexivity|]. cbn [ks_client_hs ks_server_hs ks_master from_prk hk_prk].
  assert (EA : Proofs.Hmac.alg_of (th_type t0) = A).
  { destruct cs; try discriminate; injection Ht as <-; cbn in Hp; injection Hp as _ <- _; reflexivity. }
  rewrite EA. auto.
Qed.

Lemma secrets_partial cs t0 a A klen s e hellos :
  suite_tshash cs = Ok t0 -> suite_parameters (suite_u16 cs) = Some (a, A, klen) ->
  is_bytes hellos -> zlen hellos < 2^53 ->
  0 <= s < 2 ^ 256 -> ks_group e = X25519g -> is_bytes (ks_opaque e) -> length (ks_opaque e) = 32%nat ->
  hd 0 (ks_opaque e) <> 0 -> hd 0 (X25519 (x25519_private s) (ks_opaque e)) <> 0 ->
  let ecdhe := X25519 (x25519_private s) (ks_opaque e) in
  exists ks, from_handshake (th_update t0 hellos) (PrivateKey curve25519 s) e = Ok ks /\
    hk_prk (ks_client_hs ks) = client_handshake_traffic_secret A ecdhe hellos /\
    hk_prk (ks_server_hs ks) = server_handshake_traffic_secret A ecdhe hellos /\
    hk_prk (ks_master ks) = Master_Secret A ecdhe.
Proof.
  intros Ht Hp Hm Lm Hs Hg Bo Lo H1 H2 ecdhe. apply (secrets_general cs t0 a A klen s e hellos); try assumption.
  - apply X25519_bytes.
  - apply X25519_bytes.
  - apply shared_partial; assumption.
Qed.

Lemma other_groups th pk e : ks_group e <> X25519g -> from_handshake th pk e = Err HandshakeFailure.
Proof. intros H. unfold from_handshake. destruct (ks_group e); try reflexivity. congruence. Qed.
