(* C54, C73, C74, C88: random numbers, and configurations together with what a handshake draws.  A read of /dev/urandom is a list of
   100 bytes; the theorems hold for every one. *)
From Verif Require Import Model.Base Model.Alert Model.Curve Model.Ecdsa Model.X509 Model.Certificate Model.Server Model.Client Model.Config Model.Rand
  Spec.Connection Spec.ClientConnection.
From Verif Require Proofs.Rand Proofs.Util Proofs.Chance.
From Verif Require Import Spec.Chance.
From Verif Require Spec.Ec Spec.Ecdsa.
From Verif Require Import Props.Config.
From Coq Require Import Lia.

(* one read of /dev/urandom *)
Definition read_ok (b : list Z) : Prop := is_bytes b /\ length b = 100%nat.

(* ---- C54 ---- *)
Theorem C54_urandom_between : forall buf min max, read_ok buf -> (min < max)%nat ->
  exists v, urandom_between (E:=Empty_set) buf min max = Ok v /\ 2 ^ (8 * Z.of_nat min) <= v < 2 ^ (8 * Z.of_nat max).
Proof. intros buf min max (B & L). exact (Proofs.Rand.between_ok Empty_set buf min max B L). Qed.
Print Assumptions C54_urandom_between.
(* Missing: sizes above 100, which panic (next theorem). *)
Theorem C54_urandom_bytes_partial : forall buf size, read_ok buf -> (size <= 100)%nat ->
  exists b, urandom_bytes (E:=Empty_set) buf size = Ok b /\ is_bytes b /\ length b = size /\ b = firstn size buf.
Proof.
  intros buf size (B & L) H. exists (firstn size buf). split; [exact (Proofs.Rand.bytes_ok Empty_set buf size L H)|]. split; [apply Util.is_bytes_firstn; exact B|].
  split; [rewrite firstn_length; lia|reflexivity].
Qed.
Print Assumptions C54_urandom_bytes_partial.
Theorem C54_urandom_bytes_refuted : forall buf size, read_ok buf -> (100 < size)%nat -> urandom_bytes (E:=Empty_set) buf size = Panic.
Proof. intros buf size (B & L). exact (Proofs.Rand.bytes_panic Empty_set buf size L). Qed.
Print Assumptions C54_urandom_bytes_refuted.

(* SimpleRng: numbers are in range; bytes(n) is empty for every n > 0, and bytes(0) never returns *)
Theorem C54_simple_between : forall state min max, 0 <= state -> (min < max)%nat ->
  exists v, snd (simple_between (E:=Empty_set) state min max) = Ok v /\ 2 ^ (8 * Z.of_nat min) <= v < 2 ^ (8 * Z.of_nat max).
Proof. intros s min max S M. destruct (Proofs.Rand.simple_between_ok Empty_set s min max S M) as (v & -> & R). exists v. split; [reflexivity|exact R]. Qed.
Print Assumptions C54_simple_between.
Theorem C54_simple32_between : forall state min max, 0 <= min < max -> max < 2^32 ->
  exists v, snd (simple32_between (E:=Empty_set) state min max) = Ok v /\ min <= v < max.
Proof. exact (Proofs.Rand.simple32_between_ok Empty_set). Qed.
Print Assumptions C54_simple32_between.
Theorem C54_simple_bytes_refuted : forall fuel state size, (0 < size)%nat ->
  simple_bytes (E:=Empty_set) fuel state [] size = Some (Ok []) /\ simple32_bytes fuel state [] size = Some [].
Proof. exact (Proofs.Rand.simple_bytes_empty Empty_set). Qed.
Print Assumptions C54_simple_bytes_refuted.
Theorem C54_simple_no_bytes_refuted : forall turns state, 0 <= state ->
  simple_bytes (E:=Empty_set) turns state [] 0 = None /\ simple32_bytes turns state [] 0 = None.
Proof. intros n s S. split; [exact (Proofs.Rand.simple_bytes_loops Empty_set n s [] S)|exact (Proofs.Rand.simple32_bytes_loops n s [])]. Qed.
Print Assumptions C54_simple_no_bytes_refuted.
(* so a server configured with the simple generator panics when it gets a ClientHello *)
Theorem C54_simple_server_refuted : forall random shares context loop, server_draws (E:=Empty_set) PrngSimple random shares context loop = Panic.
Proof. exact (Proofs.Rand.simple_draws Empty_set). Qed.
Print Assumptions C54_simple_server_refuted.
(* a read, and the two values of the repository's own test *)
Definition some_read : list Z := map (fun i => Z.of_nat i) (seq 0 100).
Example C54_ex : read_ok some_read /\ urandom_bytes (E:=Empty_set) some_read 4 = Ok [0; 1; 2; 3] /\
  snd (simple32_next 10) = 3782026229 /\ snd (simple32_next (fst (simple32_next 10))) = 1899426624.
Proof. split; [split; [apply Util.is_bytes_check; vm_compute; reflexivity|reflexivity]|]. vm_compute. repeat split. Qed.

(* ---- C73 ---- *)
(* Every number of the range can be drawn, up to 91 bytes (keys and nonces are drawn with 32). *)
Theorem C73_every_value_partial : forall min max v, (min < max <= 91)%nat -> 2 ^ (8 * Z.of_nat min) <= v < 2 ^ (8 * Z.of_nat max) ->
  exists buf, read_ok buf /\ urandom_between (E:=Empty_set) buf min max = Ok v.
Proof. intros min max v M R. destruct (Proofs.Rand.every_value min max v M R) as (buf & B & L & H). exists buf. split; [split; assumption|exact H]. Qed.
Print Assumptions C73_every_value_partial.
(* Above, the largest one cannot. *)
Theorem C73_every_value_refuted : forall min max buf, (min < max)%nat -> (92 <= max)%nat -> read_ok buf ->
  urandom_between (E:=Empty_set) buf min max <> Ok (2 ^ (8 * Z.of_nat max) - 1).
Proof. intros min max buf M M' (B & L). exact (Proofs.Rand.not_every_value min max buf M M' B L). Qed.
Print Assumptions C73_every_value_refuted.
(* SimpleRng gives the same number at every call, for every seed below 2^96. *)
Theorem C73_simple_refuted : forall state, 0 <= state < 2^96 ->
  simple_next (E:=Empty_set) state = (state + 10, snd (simple_next 0)).
Proof. intros s S. rewrite !Proofs.Rand.simple_constant by lia. reflexivity. Qed.
Print Assumptions C73_simple_refuted.
Example C73_ex : 2 ^ (8 * Z.of_nat 1) <= 300 < 2 ^ (8 * Z.of_nat 32) /\ (1 < 32 <= 91)%nat.
Proof. split; [vm_compute; split; [discriminate|reflexivity]|lia]. Qed.

(* ---- C74 ---- *)
(* Every server configuration the builder returns, with what is drawn from /dev/urandom, meets server_ok, the condition of the
   theorems about the server's handshake (C40, C41, C67, C68); only the size of the certificate is left to the user. *)
Theorem C74_server : forall calls cfg p random shares context loop, server_configure calls = Ok (cfg, p) -> zlen (ct_raw (sc_cert cfg)) + 5 < 2^24 ->
  read_ok random -> Forall read_ok shares -> read_ok context -> Forall read_ok loop ->
  exists d, server_draws (E:=tls_error) PrngURandom random shares context loop = Ok d /\ server_ok cfg d.
Proof. exact Proofs.Rand.server_meets. Qed.
Print Assumptions C74_server.
(* The same for the client (C42, C70, C71), whose host name must be a byte string of at most 65000 bytes. *)
Theorem C74_client : forall calls cfg secret random session loop took, client_configure calls = Ok cfg ->
  (forall n, cc_server_name cfg = Some n -> is_bytes n /\ zlen n <= 65000) -> (forall c, cc_cert cfg = Some c -> zlen (ct_raw c) + 5 < 2^24) ->
  read_ok secret -> read_ok random -> read_ok session -> Forall read_ok loop ->
  exists e, client_draws_of (E:=tls_error) secret random session loop took = Ok e /\ client_ok cfg e.
Proof. exact Proofs.Rand.client_meets. Qed.
Print Assumptions C74_client.
(* Private keys and nonces are never zero and have at most 256 bits. *)
Theorem C74_drawn_numbers : forall random shares context loop, read_ok random -> Forall read_ok shares -> read_ok context -> Forall read_ok loop ->
  exists d, server_draws (E:=tls_error) PrngURandom random shares context loop = Ok d /\
    Forall (fun k => 2^8 <= k < 2^256) (d_secrets d) /\ Forall (fun k => 2^8 <= k < 2^256) (d_nonces d) /\
    length (d_secrets d) = length shares /\ length (d_nonces d) = length loop /\ length (d_random d) = 32%nat /\ length (d_context d) = 32%nat.
Proof.
  intros random shares context loop R S C L. destruct (Proofs.Rand.urandom_draws tls_error random shares context loop R S C L) as (d & D & _ & L1 & _ & L2 & F1 & F2 & L3 & L4).
  exists d. repeat (split; [assumption|]). assumption.
Qed.
Print Assumptions C74_drawn_numbers.
(* a configuration that is returned *)
Example C74_ex : exists cfg, server_configure [AddCertPem (Some (Spec.PemFile.text_of_lines (Spec.PemFile.file_lines own_file)));
    AddPrivkeyPem (Some (Spec.PemFile.text_of_lines (Spec.PemFile.file_lines own_key_file)))] = Ok (cfg, PrngURandom) /\
  zlen (ct_raw (sc_cert cfg)) + 5 < 2^24 /\ client_configure [] = Ok client_builder_new /\ read_ok some_read.
Proof.
  destruct C72_ex as (F & H & _ & F' & H').
  destruct (C72_server_from_files own_file own_key_file _ _ [] F H F' H' eq_refl ltac:(cbn; lia)) as (A & _). eexists. split; [exact A|].
  split; [vm_compute; reflexivity|]. split; [reflexivity|exact (proj1 C54_ex)].
Qed.

(* ---- C88 ---- *)
(* Spec.Chance.strings n lists the reads of n bytes, each once; count is the number of reads with a property. *)
Theorem C88_reads : forall n, (forall s, In s (strings n) <-> is_bytes s /\ length s = n) /\ NoDup (strings n) /\ Z.of_nat (length (strings n)) = 256 ^ Z.of_nat n.
Proof. intros n. split; [exact (Proofs.Chance.strings_spec n)|]. split; [exact (Proofs.Chance.strings_nodup n)|exact (Proofs.Chance.strings_size n)]. Qed.
Print Assumptions C88_reads.
(* the read gives this number, these bytes *)
Definition gives (min max : nat) (v : Z) (buf : list Z) : bool :=
  match urandom_between (E:=Empty_set) buf min max with Ok w => w =? v | _ => false end.
Definition gives_bytes (size : nat) (s : list Z) (buf : list Z) : bool :=
  match urandom_bytes (E:=Empty_set) buf size with Ok b => list_eqb b s | _ => false end.
(* Private keys and ECDSA nonces, drawn as numbers of 2 to 32 bytes: of the 256^100 reads, count / 256^100 give the number v, and that is
   1 / (2^256 - 2^8) up to one part in 2^80, for every v. *)
Theorem C88_keys_and_nonces : forall v, 2 ^ 8 <= v < 2 ^ 256 ->
  2 ^ 80 * ((2 ^ 256 - 2 ^ 8) * count 100 (gives 1 32 v)) <= (2 ^ 80 + 1) * 256 ^ 100 /\
  2 ^ 80 * 256 ^ 100 <= (2 ^ 80 + 1) * ((2 ^ 256 - 2 ^ 8) * count 100 (gives 1 32 v)).
Proof. intros v V. exact (Proofs.Chance.uniform 1 32 v ltac:(lia) V). Qed.
Print Assumptions C88_keys_and_nonces.
(* and for other sizes: up to one part in 256^(42 - max) *)
Theorem C88_numbers : forall min max v, (min < max <= 42)%nat -> 2 ^ (8 * Z.of_nat min) <= v < 2 ^ (8 * Z.of_nat max) ->
  let range := 2 ^ (8 * Z.of_nat max) - 2 ^ (8 * Z.of_nat min) in let c := 256 ^ (42 - Z.of_nat max) in
  c * (range * count 100 (gives min max v)) <= (c + 1) * 256 ^ 100 /\ c * 256 ^ 100 <= (c + 1) * (range * count 100 (gives min max v)).
Proof. exact Proofs.Chance.uniform. Qed.
Print Assumptions C88_numbers.
(* Hello randoms, session ids and contexts: every string of the size is as likely as every other. *)
Theorem C88_bytes : forall size s, (size <= 100)%nat -> is_bytes s -> length s = size -> count 100 (gives_bytes size s) = 256 ^ (100 - Z.of_nat size).
Proof. exact Proofs.Chance.bytes_uniform. Qed.
Print Assumptions C88_bytes.
(* False of the signatures: the numbers k and k + n, n the order of the curve, give the same signature, so that nonces below 2^256 - n are
   used with twice the probability of the others. *)
Definition nonce_used (k : Z) (buf : list Z) : bool := match urandom_between (E:=Empty_set) buf 1 32 with Ok w => w mod Spec.Ec.P256_n =? k | _ => false end.
Theorem C88_same_signature : forall d h k, 0 <= k ->
  ecdsa_sign (E:=Empty_set) (PrivateKey secp256r1 d) h [k + Spec.Ec.P256_n] = ecdsa_sign (E:=Empty_set) (PrivateKey secp256r1 d) h [k].
Proof. exact Proofs.Chance.same_signature. Qed.
Print Assumptions C88_same_signature.
Theorem C88_nonces_refuted : forall k l, 2 ^ 8 <= k < 2 ^ 256 - Spec.Ec.P256_n -> 2 ^ 256 - Spec.Ec.P256_n <= l < Spec.Ec.P256_n ->
  2 * 2 ^ 160 * count 100 (nonce_used l) <= (2 ^ 80 + 1) ^ 2 * count 100 (nonce_used k).
Proof.
  intros k l K L.
  assert (Hl : count 100 (nonce_used l) = count 100 (gives 1 32 l)).
  { pose proof (Proofs.Chance.residue_count l ltac:(lia)) as E. destruct (Z.ltb_spec (l + Spec.Ec.P256_n) (2 ^ 256)) as [?|_] in E; [exfalso; lia|]. rewrite Z.add_0_r in E. exact E. }
  assert (Hk : count 100 (nonce_used k) = count 100 (gives 1 32 k) + count 100 (gives 1 32 (k + Spec.Ec.P256_n))).
  { pose proof (Proofs.Chance.residue_count k ltac:(lia)) as E. destruct (Z.ltb_spec (k + Spec.Ec.P256_n) (2 ^ 256)) as [_|?] in E; [|exfalso; lia]. exact E. }
  pose proof (proj1 (C88_keys_and_nonces l ltac:(lia))) as A. pose proof (proj2 (C88_keys_and_nonces k ltac:(lia))) as B.
  pose proof (proj2 (C88_keys_and_nonces (k + Spec.Ec.P256_n) ltac:(lia))) as C. rewrite Hl, Hk.
  set (nl := count 100 (gives 1 32 l)) in *. set (nk := count 100 (gives 1 32 k)) in *. set (nk' := count 100 (gives 1 32 (k + Spec.Ec.P256_n))) in *.
  clearbody nl nk nk'. lia.
Qed.
Print Assumptions C88_nonces_refuted.
Example C88_ex : 2 ^ 8 <= 2 ^ 200 < 2 ^ 256 - Spec.Ec.P256_n /\ 2 ^ 256 - Spec.Ec.P256_n <= 2 ^ 255 < Spec.Ec.P256_n /\ gives 1 32 (2 ^ 200 + 2 ^ 8) (repeat 0 7 ++ [49] ++ repeat 0 65 ++ [1] ++ repeat 0 26) = true.
Proof. split; [vm_compute; split; [discriminate|reflexivity]|]. split; [vm_compute; split; [discriminate|reflexivity]|]. vm_compute. reflexivity. Qed.
