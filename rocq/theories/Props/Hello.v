(* C33-C39, C58, C65: the hello messages and the negotiation *)
From Coq Require Import Lia.
From Verif.Model Require Import Base Alert Bytes Suite Curve Ecdsa Extensions Hello Handshake.
From Verif.Spec Require Import Enc Rfc7748 KeyShare Rfc8446Hello HelloView Negotiation HelloPanics.
From Verif.Proofs Require Util Hello Negotiate HelloTotal HelloLists HelloPanics ServerHelloPanics.

(* ---- C65: what is put on the wire is the RFC 8446 encoding ---- *)

(* the hello of a client with this secret, whatever suites and session id *)
Theorem C65_client_hello : forall random sid suites secret e name,
  0 <= secret < 2 ^ 256 -> zlen (match sid with Some s => s | None => [] end) < 256 ->
  match name with Some n => zlen n <= 65459 | None => True end ->
  key_share_of (E:=Empty_set) (PrivateKey curve25519 secret) = Ok e ->
  client_hello_bytes (E:=Empty_set)
    (ClientHello random suites sid
      ([CKeyShare [e]; CSupportedVersion true; CSignatureAlgorithms [ecdsa_secp256r1_sha256]; CSupportedGroups [Secp256r1; X25519g]] ++
       match name with Some n => [CServerName n] | None => [] end))
  = Ok (client_hello_wire
      {| m_random := random; m_session_id := match sid with Some s => s | None => [] end; m_suites := map suite_u16 suites;
         m_extensions := [Shares [(29, X25519 (x25519_private secret) base_point)]; Versions [0x0304]; SigAlgs [0x0403]; Groups [23; 29]] ++
                         match name with Some n => [Host n] | None => [] end |}).
Proof. exact Hello.client_encode. Qed.
Print Assumptions C65_client_hello.
(* and that is the hello the client builds *)
Theorem C65_client_hello_built : forall random sid secret name, 0 <= secret < 2 ^ 256 ->
  exists e, key_share_of (E:=Empty_set) (PrivateKey curve25519 secret) = Ok e /\
    client_hello_of (E:=Empty_set) random sid (PrivateKey curve25519 secret) name
    = Ok (ClientHello random [AES_256_GCM_SHA384; AES_128_GCM_SHA256; CHACHA20_POLY1305_SHA256] (Some sid)
      ([CKeyShare [e]; CSupportedVersion true; CSignatureAlgorithms [ecdsa_secp256r1_sha256]; CSupportedGroups [Secp256r1; X25519g]] ++
       match name with Some n => [CServerName n] | None => [] end)).
Proof.
  intros random sid secret name Hs. destruct (Proofs.Kex.sent (E:=Empty_set) secret Hs) as (e & He & _).
  exists e. split; [exact He|]. unfold client_hello_of. rewrite He. reflexivity.
Qed.
Print Assumptions C65_client_hello_built.

Theorem C65_server_hello : forall random sid cs secret e,
  0 <= secret < 2 ^ 256 -> zlen (match sid with Some s => s | None => [] end) < 256 ->
  key_share_of (E:=Empty_set) (PrivateKey curve25519 secret) = Ok e ->
  server_hello_bytes (E:=Empty_set) (ServerHello random sid cs [SKeyShare [e]; SSupportedVersions true])
  = Ok (server_hello_wire
      {| s_random := random; s_session_id := match sid with Some s => s | None => [] end; s_suite := suite_u16 cs;
         s_extensions := [SelectedShare (29, X25519 (x25519_private secret) base_point); SelectedVersion 0x0304] |}).
Proof. exact Hello.server_encode. Qed.
Print Assumptions C65_server_hello.
Theorem C65_handshake_frame : forall t data,
  handshake_to_bytes t data = Rfc8446Hello.handshake (handshake_type_u8 t) data.
Proof. exact HelloTotal.to_bytes_wire. Qed.
Print Assumptions C65_handshake_frame.

(* Lists of signature schemes and of groups, of any length: right, and refused (a u8 overflows) exactly for 127, 255, 383, ... entries.
   The library itself only sends lists of one and of two. *)
Definition scheme_codes : list (sig_scheme * Z) :=
  [(ecdsa_secp256r1_sha256, 0x0403); (ecdsa_secp384r1_sha384, 0x0503); (ecdsa_secp521r1_sha512, 0x0603)].
Definition group_codes : list (named_group * Z) :=
  [(Secp256r1, 0x0017); (Secp384r1, 0x0018); (Secp521r1, 0x0019); (X25519g, 0x001D); (X448, 0x001E);
   (Ffdhe2048, 0x0100); (Ffdhe3072, 0x0101); (Ffdhe4096, 0x0102); (Ffdhe6144, 0x0103); (Ffdhe8192, 0x0104)].
Theorem C65_scheme_list : forall l, Forall (fun x => In x scheme_codes) l ->
  (zlen l mod 128 <> 127 -> sig_algs_bytes (E:=Empty_set) (map fst l) = Ok (client_extension_wire (SigAlgs (map snd l)))) /\
  (zlen l mod 128 = 127 -> sig_algs_bytes (E:=Empty_set) (map fst l) = Panic).
Proof.
  intros l F. assert (map sig_scheme_u16 (map fst l) = map snd l) as E.
  { induction F as [|x l Hx _ IH]; [reflexivity|]. cbn [map]. rewrite IH. f_equal. cbn in Hx. destruct Hx as [<-|[<-|[<-|[]]]]; reflexivity. }
  unfold sig_algs_bytes. rewrite E. replace (zlen l) with (zlen (map snd l)) by (unfold zlen; now rewrite map_length).
  split; [intros N; apply HelloLists.list_wire; [lia|exact N]|apply HelloLists.list_panics].
Qed.
Print Assumptions C65_scheme_list.
Theorem C65_group_list : forall l, Forall (fun x => In x group_codes) l ->
  (zlen l mod 128 <> 127 -> groups_bytes (E:=Empty_set) (map fst l) = Ok (client_extension_wire (Groups (map snd l)))) /\
  (zlen l mod 128 = 127 -> groups_bytes (E:=Empty_set) (map fst l) = Panic).
Proof.
  intros l F. assert (map named_group_u16 (map fst l) = map snd l) as E.
  { induction F as [|x l Hx _ IH]; [reflexivity|]. cbn [map]. rewrite IH. f_equal. cbn in Hx. repeat (destruct Hx as [<-|Hx]; [reflexivity|]). destruct Hx. }
  unfold groups_bytes. rewrite E. replace (zlen l) with (zlen (map snd l)) by (unfold zlen; now rewrite map_length).
  split; [intros N; apply HelloLists.list_wire; [lia|exact N]|apply HelloLists.list_panics].
Qed.
Print Assumptions C65_group_list.
Example C65_lists_ex : sig_algs_bytes (E:=Empty_set) (map fst (repeat (ecdsa_secp384r1_sha384, 0x0503) 127)) = Panic /\
  exists w, groups_bytes (E:=Empty_set) (map fst (repeat (X448, 0x001E) 128)) = Ok w /\ firstn 8 w = [0; 10; 1; 2; 1; 0; 0; 0x1E].
Proof. split; [vm_compute; reflexivity|]. eexists. split; vm_compute; reflexivity. Qed.

(* ---- C33, C34: round trips ---- *)

Theorem C33_round_trip : forall random sid suites secret e name,
  0 <= secret < 2 ^ 256 -> length random = 32%nat ->
  (sid = None \/ exists s, sid = Some s /\ length s = 32%nat) -> zlen suites < 2 ^ 15 ->
  match name with Some n => zlen n <= 65459 /\ utf8_valid n = true | None => True end ->
  key_share_of (E:=tls_error) (PrivateKey curve25519 secret) = Ok e ->
  exists w,
    client_hello_bytes (E:=tls_error) (ClientHello random suites sid
      ([CKeyShare [e]; CSupportedVersion true; CSignatureAlgorithms [ecdsa_secp256r1_sha256]; CSupportedGroups [Secp256r1; X25519g]] ++
       match name with Some n => [CServerName n] | None => [] end)) = Ok w /\
    client_hello_from_raw w = Ok (ClientHello random suites sid
      ([CKeyShare [KSE X25519g (X25519 (x25519_private secret) base_point)]; CSupportedVersion true] ++
       match name with Some n => [CServerName n] | None => [] end)).
Proof. exact Hello.client_round. Qed.
Print Assumptions C33_round_trip.
(* every well-formed ClientHello, whoever wrote it *)
Theorem C33_parse : forall m, client_hello_ok m -> client_hello_from_raw (client_hello_wire m) = Ok (hello_view m).
Proof. exact Hello.client_parse. Qed.
Print Assumptions C33_parse.

Theorem C34_round_trip : forall random sid cs secret e,
  0 <= secret < 2 ^ 256 -> length random = 32%nat ->
  (sid = None \/ exists s, sid = Some s /\ length s = 32%nat) ->
  key_share_of (E:=tls_error) (PrivateKey curve25519 secret) = Ok e ->
  exists w,
    server_hello_bytes (E:=tls_error) (ServerHello random sid cs [SKeyShare [e]; SSupportedVersions true]) = Ok w /\
    server_hello_from_raw w = Ok (ServerHello random sid cs
      [SKeyShare [KSE X25519g (X25519 (x25519_private secret) base_point)]; SSupportedVersions true]).
Proof. exact Hello.server_round. Qed.
Print Assumptions C34_round_trip.
Theorem C34_parse : forall m, server_hello_ok m ->
  server_hello_from_raw (server_hello_wire m) =
  match suite_of (s_suite m) with
  | None => Err InsufficientSecurity
  | Some cs => if server_tls13 (flat_map server_view (s_extensions m))
               then Ok (ServerHello (s_random m) (session_of (s_session_id m)) cs (flat_map server_view (s_extensions m)))
               else Err ProtocolVersion
  end.
Proof. exact Hello.server_parse. Qed.
Print Assumptions C34_parse.

(* a hello with a foreign extension first, an unknown suite, two shares and a name *)
Definition example_hello : client_hello_msg :=
  {| m_random := repeat 7 32; m_session_id := repeat 9 32; m_suites := [0x0a0a; 0x1301; 0x1303];
     m_extensions := [OtherExt 0x2a2a []; Shares [(30, repeat 5 56); (29, repeat 6 32)]; Host [97; 46; 98]; Versions [0x0303; 0x0304];
                      OtherExt 45 [1; 1]] |}.
Example example_hello_ok : client_hello_ok example_hello.
Proof.
  unfold client_hello_ok, hello_header_ok, fits16. split; [|split; [cbn; lia|]].
  - repeat split; try reflexivity; [now right|right; discriminate|repeat constructor; cbn; lia].
  - cbn [m_extensions example_hello].
    repeat (apply Forall_cons || apply Forall_nil); unfold client_ext_ok, code16, fits16; cbn [client_extension_type];
      (split; [lia|split; [cbn; lia|]]); try reflexivity; try lia.
    + split; [discriminate|]. repeat (apply Forall_cons || apply Forall_nil); (split; [discriminate|split; cbn; lia]).
    + split; [cbn; lia|]. repeat constructor; cbn; lia.
Qed.
Example C33_ex : client_hello_from_raw (client_hello_wire example_hello) =
  Ok (ClientHello (repeat 7 32) [AES_128_GCM_SHA256; CHACHA20_POLY1305_SHA256] (Some (repeat 9 32))
        [CKeyShare [KSE X448 (repeat 5 56); KSE X25519g (repeat 6 32)]; CServerName [97; 46; 98]; CSupportedVersion true]).
Proof. rewrite (C33_parse _ example_hello_ok). reflexivity. Qed.
Example C34_ex : server_hello_ok
  {| s_random := repeat 1 32; s_session_id := []; s_suite := 0x1302;
     s_extensions := [OtherServerExt 41 [0; 0]; SelectedShare (29, repeat 3 32); SelectedVersion 0x0304] |}.
Proof.
  unfold server_hello_ok, fits16, code16. cbn [s_random s_session_id s_suite s_extensions].
  split; [reflexivity|]. split; [now left|]. split; [lia|]. split; [cbn; lia|].
  repeat (apply Forall_cons || apply Forall_nil); cbn [server_ext_ok].
  - unfold code16, fits16. cbn. lia.
  - split; [discriminate|split; cbn; lia].
  - unfold code16. lia.
Qed.

(* ---- C35: cipher suites ---- *)

Theorem C35_chosen : forall m random secrets name sh pk, client_hello_ok m ->
  answer (client_hello_wire m) random secrets name = Ok (sh, pk) ->
  In (suite_u16 (sh_suite sh)) (m_suites m) /\ implemented (suite_u16 (sh_suite sh)) /\
  (In 0x1303 (m_suites m) -> suite_u16 (sh_suite sh) = 0x1303).
Proof. exact Negotiate.wire_suite. Qed.
Print Assumptions C35_chosen.
(* for every hello that was parsed at all *)
Theorem C35_chosen_parsed : forall c random secrets name sh pk,
  server_hello_from_client c random secrets name = Ok (sh, pk) ->
  In (sh_suite sh) (ch_suites c) /\ sh_suite sh <> SCSV /\
  (In CHACHA20_POLY1305_SHA256 (ch_suites c) -> sh_suite sh = CHACHA20_POLY1305_SHA256).
Proof. exact Negotiate.suite_chosen. Qed.
Print Assumptions C35_chosen_parsed.
Theorem C35_none_fails : forall m random secrets name r, client_hello_ok m ->
  (forall code, In code (m_suites m) -> ~ implemented code) ->
  answer (client_hello_wire m) random secrets name <> Ok r.
Proof. exact Negotiate.no_suite_refused. Qed.
Print Assumptions C35_none_fails.

(* ---- C38: who is served ---- *)

(* full statement: without `x25519_first`, and for shares of any group; both are refuted below *)
Theorem C38_served_partial : forall m pre l post name random secrets,
  client_hello_ok m -> m_extensions m = pre ++ Shares l :: post -> Forall (fun e => ~ has_shares e) (pre ++ post) ->
  Forall (acceptable name) (pre ++ post) -> x25519_first l -> offers x25519_code l ->
  (exists code, In code (m_suites m) /\ implemented code) -> 0 <= hd 0 secrets < 2 ^ 256 ->
  exists e cs, key_share_of (E:=tls_error) (PrivateKey curve25519 (hd 0 secrets)) = Ok e /\
    answer (client_hello_wire m) random secrets name
    = Ok (ServerHello random (session_of (m_session_id m)) cs [SKeyShare [e]; SSupportedVersions true],
          PrivateKey curve25519 (hd 0 secrets)) /\ choose_suite (suites_of (m_suites m)) None = Some cs.
Proof. exact Negotiate.answer_ok. Qed.
Print Assumptions C38_served_partial.
(* a secp256r1 share in front of the X25519 share stops the server *)
Theorem C38_secp256r1_first_refuted : forall m pre a k b post name random secrets,
  client_hello_ok m -> m_extensions m = pre ++ Shares (a ++ (secp256r1_code, k) :: b) :: post ->
  Forall (fun e => ~ has_shares e) pre -> Forall (acceptable name) pre -> ~ offers x25519_code a ->
  answer (client_hello_wire m) random secrets name = Panic.
Proof. exact Negotiate.answer_panic. Qed.
Print Assumptions C38_secp256r1_first_refuted.
(* so does, with an error, a share of a group the library has no name for *)
Theorem C38_unknown_group_refuted : forall m pre a e b post name random secrets,
  hello_header_ok m -> fits16 (flat_map client_extension_wire (m_extensions m)) ->
  m_extensions m = pre ++ Shares (a ++ e :: b) :: post -> Forall client_ext_ok pre -> Forall share_ok a ->
  group_of (fst e) = None -> code16 (fst e) -> fits16 (client_extension_data (Shares (a ++ e :: b))) ->
  answer (client_hello_wire m) random secrets name = Err IllegalParameter.
Proof.
  intros m pre a e b post name random secrets H1 H2 H3 H4 H5 H6 H7 H8. unfold answer.
  now rewrite (Negotiate.unknown_group_refused m pre a e b post).
Qed.
Print Assumptions C38_unknown_group_refuted.
Theorem C38_x25519_needed : forall m random secrets name r, client_hello_ok m ->
  (forall l, In (Shares l) (m_extensions m) -> ~ offers x25519_code l) ->
  answer (client_hello_wire m) random secrets name <> Ok r.
Proof. exact Negotiate.no_x25519_refused. Qed.
Print Assumptions C38_x25519_needed.

(* the example hello is served, also for its own name *)
Example C38_ex : exists r, answer (client_hello_wire example_hello) (repeat 0 32) [2 ^ 250] (Some [97; 46; 98]) = Ok r.
Proof.
  destruct (C38_served_partial example_hello [OtherExt 0x2a2a []] [(30, repeat 5 56); (29, repeat 6 32)]
    [Host [97; 46; 98]; Versions [0x0303; 0x0304]; OtherExt 45 [1; 1]] (Some [97; 46; 98]) (repeat 0 32) [2 ^ 250]) as (e & cs & _ & H & _).
  - exact example_hello_ok.
  - reflexivity.
  - cbn [app]. repeat (apply Forall_cons || apply Forall_nil); cbn; tauto.
  - cbn [app]. repeat (apply Forall_cons || apply Forall_nil); cbn; tauto.
  - intros a k b H. destruct a as [|x [|y a]]; [discriminate..|]. cbn in H. injection H as H1 H2 H3. destruct a; discriminate.
  - right. now left.
  - exists 0x1301. split; [right; now left|now left].
  - cbn [hd]. lia.
  - exists (ServerHello (repeat 0 32) (session_of (m_session_id example_hello)) cs [SKeyShare [e]; SSupportedVersions true],
            PrivateKey curve25519 (hd 0 [2 ^ 250])). exact H.
Qed.
(* Firefox sends X25519 first, but a client with both the other way round crashes the server *)
Example C38_ex_panic : exists m, client_hello_ok m /\
  In (Shares [(secp256r1_code, repeat 4 65); (x25519_code, repeat 6 32)]) (m_extensions m) /\
  forall random secrets, answer (client_hello_wire m) random secrets None = Panic.
Proof.
  exists {| m_random := repeat 7 32; m_session_id := []; m_suites := [0x1301];
    m_extensions := [Versions [0x0304]; Shares [(secp256r1_code, repeat 4 65); (x25519_code, repeat 6 32)]] |}.
  split.
  - unfold client_hello_ok, hello_header_ok, fits16. split; [|split; [cbn; lia|]].
    + repeat split; try reflexivity; [now left|right; discriminate|repeat constructor; cbn; lia].
    + cbn [m_extensions].
      repeat (apply Forall_cons || apply Forall_nil); unfold client_ext_ok, code16, fits16; cbn [client_extension_type];
        (split; [lia|split; [cbn; lia|]]).
      * split; [cbn; lia|]. repeat constructor; cbn; lia.
      * split; [discriminate|]. repeat (apply Forall_cons || apply Forall_nil); (split; [discriminate|split; cbn; lia]).
  - split; [right; now left|]. intros random secrets. vm_compute. reflexivity.
Qed.

(* ---- C36: versions ---- *)

(* full statement: also when the client sends no supported_versions at all; refuted below *)
Theorem C36_listed_partial : forall m codes random secrets name r, client_hello_ok m ->
  In (Versions codes) (m_extensions m) -> ~ In 0x0304 codes ->
  answer (client_hello_wire m) random secrets name <> Ok r.
Proof. exact Negotiate.wrong_version_refused. Qed.
Print Assumptions C36_listed_partial.
Theorem C36_no_versions_refuted : forall m pre l post name random secrets,
  client_hello_ok m -> m_extensions m = pre ++ Shares l :: post -> Forall (fun e => ~ has_shares e) (pre ++ post) ->
  Forall (fun e => ~ lists_versions e) (pre ++ post) ->
  Forall (acceptable name) (pre ++ post) -> x25519_first l -> offers x25519_code l ->
  (exists code, In code (m_suites m) /\ implemented code) -> 0 <= hd 0 secrets < 2 ^ 256 ->
  exists r, answer (client_hello_wire m) random secrets name = Ok r.
Proof.
  intros m pre l post name random secrets H1 H2 H3 _ H4 H5 H6 H7 H8.
  destruct (Negotiate.answer_ok m pre l post name random secrets H1 H2 H3 H4 H5 H6 H7 H8) as (e & cs & _ & H & _). eauto.
Qed.
Print Assumptions C36_no_versions_refuted.

(* ---- C37: server names ---- *)

(* full statement: also when the client names no host; refuted below *)
Theorem C37_other_name_partial : forall m host configured random secrets r, client_hello_ok m ->
  In (Host host) (m_extensions m) -> host <> configured ->
  answer (client_hello_wire m) random secrets (Some configured) <> Ok r.
Proof. exact Negotiate.wrong_name_refused. Qed.
Print Assumptions C37_other_name_partial.
Theorem C37_no_name_refuted : forall m pre l post configured random secrets,
  client_hello_ok m -> m_extensions m = pre ++ Shares l :: post -> Forall (fun e => ~ has_shares e) (pre ++ post) ->
  Forall (fun e => ~ names_host e) (pre ++ post) ->
  Forall (acceptable (Some configured)) (pre ++ post) -> x25519_first l -> offers x25519_code l ->
  (exists code, In code (m_suites m) /\ implemented code) -> 0 <= hd 0 secrets < 2 ^ 256 ->
  exists r, answer (client_hello_wire m) random secrets (Some configured) = Ok r.
Proof.
  intros m pre l post configured random secrets H1 H2 H3 _ H4 H5 H6 H7 H8.
  destruct (Negotiate.answer_ok m pre l post (Some configured) random secrets H1 H2 H3 H4 H5 H6 H7 H8) as (e & cs & _ & H & _). eauto.
Qed.
Print Assumptions C37_no_name_refuted.
(* a server_name list that starts with something else than a host_name is refused, wherever the extension is, whatever is
   configured and whatever comes after it *)
Theorem C37_other_name_type : forall m pre t name post random secrets configured r,
  hello_header_ok m -> fits16 (flat_map client_extension_wire (m_extensions m)) ->
  m_extensions m = pre ++ OtherExt 0 (vector16 (t :: name)) :: post -> Forall client_ext_ok pre ->
  t <> 0 -> fits16 (vector16 (t :: name)) ->
  client_hello_from_raw (client_hello_wire m) = Err DecodeError /\
  answer (client_hello_wire m) random secrets configured <> Ok r.
Proof.
  intros m pre t name post random secrets configured r H1 H2 H3 H4 H5 H6.
  pose proof (Negotiate.other_name_type_refused m pre t name post H1 H2 H3 H4 H5 H6) as E. split; [exact E|].
  unfold answer. rewrite E. discriminate.
Qed.
Print Assumptions C37_other_name_type.
(* such a hello, with the right host as an entry of type 1 *)
Example C37_other_name_type_ex : exists m pre post, hello_header_ok m /\ fits16 (flat_map client_extension_wire (m_extensions m)) /\
  m_extensions m = pre ++ OtherExt 0 (vector16 (1 :: vector16 [97; 46; 98])) :: post /\ pre <> [] /\ post <> [] /\ Forall client_ext_ok pre.
Proof.
  exists {| m_random := repeat 1 32; m_session_id := []; m_suites := [0x1301; 0x1303]; m_extensions := [Versions [0x0304]; OtherExt 0 (vector16 (1 :: vector16 [97; 46; 98])); Shares [(29, repeat 6 32)]] |},
    [Versions [0x0304]], [Shares [(29, repeat 6 32)]].
  split; [|split; [|split; [|split; [|split]]]]; try reflexivity; try discriminate.
  - split; [reflexivity|]. split; [now left|]. split; [left; cbn; lia|]. split; [reflexivity|]. repeat constructor; cbn; lia.
  - constructor; [|constructor]. split; [cbn; unfold code16; lia|]. split; [reflexivity|]. split; [cbn; lia|]. repeat constructor; cbn; lia.
Qed.

(* a hello with neither versions nor name meets the hypotheses of both *)
Example C36_C37_ex : exists m, client_hello_ok m /\ m_extensions m = [] ++ Shares [(29, repeat 6 32)] :: [] /\
  x25519_first [(29, repeat 6 32)] /\ offers x25519_code [(29, repeat 6 32)] /\
  (exists code, In code (m_suites m) /\ implemented code).
Proof.
  exists {| m_random := repeat 7 32; m_session_id := []; m_suites := [0x1302]; m_extensions := [Shares [(29, repeat 6 32)]] |}.
  split.
  - unfold client_hello_ok, hello_header_ok, fits16. split; [|split; [cbn; lia|]].
    + repeat split; try reflexivity; [now left|right; discriminate|repeat constructor; cbn; lia].
    + cbn [m_extensions]. apply Forall_cons; [|apply Forall_nil]. unfold client_ext_ok, code16, fits16. cbn [client_extension_type].
      split; [lia|split; [cbn; lia|]]. split; [discriminate|]. apply Forall_cons; [|apply Forall_nil]. split; [discriminate|split; cbn; lia].
  - split; [reflexivity|]. split.
    + intros a k b H. destruct a as [|x a]; [discriminate|]. destruct a; discriminate.
    + split; [now left|]. exists 0x1302. split; [now left|right; now left].
Qed.

(* ---- C58: unknown extensions and suites ---- *)

Theorem C58_extension_ignored : forall m pre t data post,
  let with_it := {| m_random := m_random m; m_session_id := m_session_id m; m_suites := m_suites m;
                    m_extensions := pre ++ OtherExt t data :: post |} in
  let without := {| m_random := m_random m; m_session_id := m_session_id m; m_suites := m_suites m; m_extensions := pre ++ post |} in
  client_hello_ok with_it -> client_hello_ok without ->
  client_hello_from_raw (client_hello_wire with_it) = client_hello_from_raw (client_hello_wire without).
Proof.
  intros m pre t data post w wo H1 H2. rewrite (Hello.client_parse w H1), (Hello.client_parse wo H2).
  unfold hello_view, w, wo. cbn [m_random m_session_id m_suites m_extensions]. now rewrite !flat_map_app.
Qed.
Print Assumptions C58_extension_ignored.
Theorem C58_suite_ignored : forall m pre code post, suite_of code = None ->
  let with_it := {| m_random := m_random m; m_session_id := m_session_id m; m_suites := pre ++ code :: post; m_extensions := m_extensions m |} in
  let without := {| m_random := m_random m; m_session_id := m_session_id m; m_suites := pre ++ post; m_extensions := m_extensions m |} in
  client_hello_ok with_it -> client_hello_ok without ->
  client_hello_from_raw (client_hello_wire with_it) = client_hello_from_raw (client_hello_wire without).
Proof.
  intros m pre code post Hc w wo H1 H2. rewrite (Hello.client_parse w H1), (Hello.client_parse wo H2).
  unfold hello_view, w, wo. cbn [m_random m_session_id m_suites m_extensions]. f_equal. f_equal.
  unfold suites_of. rewrite !flat_map_app. f_equal. cbn [flat_map].
  assert (filter (fun s => suite_u16 s =? code) suites_known = []) as E; [|now rewrite E].
  unfold suite_of in Hc. induction suites_known as [|s l IH]; [reflexivity|]. cbn [find filter] in *.
  destruct (suite_u16 s =? code); [discriminate|auto].
Qed.
Print Assumptions C58_suite_ignored.
Theorem C58_server_extension_ignored : forall m pre t data post,
  let with_it := {| s_random := s_random m; s_session_id := s_session_id m; s_suite := s_suite m;
                    s_extensions := pre ++ OtherServerExt t data :: post |} in
  let without := {| s_random := s_random m; s_session_id := s_session_id m; s_suite := s_suite m; s_extensions := pre ++ post |} in
  server_hello_ok with_it -> server_hello_ok without ->
  server_hello_from_raw (server_hello_wire with_it) = server_hello_from_raw (server_hello_wire without).
Proof.
  intros m pre t data post w wo H1 H2. rewrite (Hello.server_parse w H1), (Hello.server_parse wo H2).
  unfold w, wo. cbn [s_random s_session_id s_suite s_extensions]. now rewrite !flat_map_app.
Qed.
Print Assumptions C58_server_extension_ignored.
(* groups are not ignored *)
Theorem C58_group_refuted : forall m pre a e b post,
  hello_header_ok m -> fits16 (flat_map client_extension_wire (m_extensions m)) ->
  m_extensions m = pre ++ Shares (a ++ e :: b) :: post -> Forall client_ext_ok pre -> Forall share_ok a ->
  group_of (fst e) = None -> code16 (fst e) -> fits16 (client_extension_data (Shares (a ++ e :: b))) ->
  client_hello_from_raw (client_hello_wire m) = Err IllegalParameter.
Proof. exact Negotiate.unknown_group_refused. Qed.
Print Assumptions C58_group_refuted.
(* Chrome's first key share is a GREASE group with one byte *)
Example C58_grease : client_hello_from_raw (client_hello_wire
  {| m_random := repeat 7 32; m_session_id := repeat 9 32; m_suites := [0x1301; 0x1302];
     m_extensions := [Versions [0x0304]; Shares [(0x2a2a, [0]); (29, repeat 6 32)]] |}) = Err IllegalParameter /\ group_of 0x2a2a = None.
Proof. split; vm_compute; reflexivity. Qed.
(* a server_name acknowledged in the ServerHello with a body is read as further extensions *)
Example C58_server_name_body :
  let hello exts := {| s_random := repeat 1 32; s_session_id := []; s_suite := 0x1301; s_extensions := exts |} in
  exists r, server_hello_from_raw (server_hello_wire (hello [SelectedShare (29, repeat 3 32); SelectedVersion 0x0303;
      OtherServerExt 0 []])) = Err ProtocolVersion /\
    server_hello_from_raw (server_hello_wire (hello [OtherServerExt 0 (server_extension_wire (SelectedVersion 0x0304));
      SelectedShare (29, repeat 3 32); SelectedVersion 0x0303])) = Ok r.
Proof. eexists. split; vm_compute; reflexivity. Qed.

(* ---- C39: totality ---- *)

Theorem C39_handshake : forall b0 b1 b2 b3 t, is_byte b1 -> is_byte b2 -> is_byte b3 ->
  handshake_from_raw (b0 :: b1 :: b2 :: b3 :: t) =
  match handshake_type_new b0 with
  | None => Err DecodeError
  | Some ty => let n := Z.to_nat (b1 * 65536 + b2 * 256 + b3) in
      if Nat.leb n (length t) then Ok (Handshake ty (firstn n t) (b0 :: b1 :: b2 :: b3 :: firstn n t)) else Panic
  end.
Proof. exact HelloTotal.from_raw_exact. Qed.
Print Assumptions C39_handshake.
Theorem C39_handshake_short : forall buf, (length buf < 4)%nat -> handshake_from_raw buf = Err DecodeError.
Proof. intros buf H. unfold handshake_from_raw. apply Nat.ltb_lt in H. now rewrite H. Qed.
Print Assumptions C39_handshake_short.
Theorem C39_handshake_refuted : forall t b1 b2 b3 rest, is_byte b1 -> is_byte b2 -> is_byte b3 ->
  zlen rest < b1 * 65536 + b2 * 256 + b3 ->
  handshake_from_raw (handshake_type_u8 t :: b1 :: b2 :: b3 :: rest) = Panic.
Proof.
  intros t b1 b2 b3 rest H1 H2 H3 H. rewrite C39_handshake by assumption. rewrite HelloTotal.ht_round. cbv zeta.
  destruct (Nat.leb_spec (Z.to_nat (b1 * 65536 + b2 * 256 + b3)) (length rest)); [|reflexivity].
  unfold zlen, is_byte in *. lia.
Qed.
Print Assumptions C39_handshake_refuted.
Theorem C39_client_hello_refuted : forall t, (43 <= length t < 65)%nat -> nth 32 t 0 <> 0 ->
  client_hello_from_raw (3 :: 3 :: t) = Panic.
Proof. exact HelloTotal.client_hello_panics. Qed.
Print Assumptions C39_client_hello_refuted.
Theorem C39_server_hello_refuted : forall t, (34 <= length t < 65)%nat -> nth 32 t 0 <> 0 ->
  server_hello_from_raw (3 :: 3 :: t) = Panic.
Proof. exact HelloTotal.server_hello_panics. Qed.
Print Assumptions C39_server_hello_refuted.
(* and exactly which bodies panic: those of Spec/HelloPanics.v *)
Theorem C39_client_hello_exact : forall body, is_bytes body -> (client_hello_from_raw body = Panic <-> client_hello_panic body).
Proof. exact HelloPanics.client_hello_sort. Qed.
Print Assumptions C39_client_hello_exact.
Theorem C39_server_hello_exact : forall body, is_bytes body -> (server_hello_from_raw body = Panic <-> server_hello_panic body).
Proof. exact ServerHelloPanics.server_hello_sort. Qed.
Print Assumptions C39_server_hello_exact.
(* a hello with a key_share extension that is said to be longer than it is, one whose second share is cut, and one like the first that is all there *)
Definition C39_body (exts : list Z) : list Z := [3; 3] ++ repeat 7 32 ++ [0] ++ [0; 2] ++ [0x13; 1] ++ [1; 0; 0; zlen exts] ++ exts.
Example C39_client_exact_ex :
  client_hello_panic (C39_body [0; 51; 0; 9; 1; 2]) /\
  client_hello_panic (C39_body ([0; 51; 0; 13; 0; 20] ++ [0; 29; 0; 4; 1; 2; 3; 4] ++ [0; 29; 0])) /\
  ~ client_hello_panic (C39_body [0; 51; 0; 10; 0; 8; 0; 29; 0; 4; 1; 2; 3; 4]).
Proof.
  split; [|split].
  - apply (chp_extensions (repeat 7 32) [0] 0 2 [0x13; 1] 1 0 0 6 [0; 51; 0; 9; 1; 2] []); try reflexivity; [now left| |cbn; lia].
    apply (ep_short 51 0 9 [1; 2]); [cbn; tauto|reflexivity].
  - apply (chp_extensions (repeat 7 32) [0] 0 2 [0x13; 1] 1 0 0 17 ([0; 51; 0; 13; 0; 20] ++ [0; 29; 0; 4; 1; 2; 3; 4] ++ [0; 29; 0]) []); try reflexivity; [now left| |cbn; lia].
    apply (ep_shares 0 13 ([0; 20] ++ [0; 29; 0; 4; 1; 2; 3; 4] ++ [0; 29; 0]) []); [reflexivity|]. right. exists 0, 20, ([0; 29; 0; 4; 1; 2; 3; 4] ++ [0; 29; 0]). split; [reflexivity|].
    apply (shp_next 20 2 0 29 0 4 [1; 2; 3; 4] [0; 29; 0]); [cbn; tauto|reflexivity|cbn; lia|reflexivity|]. apply (shp_cut 20 _ 0 29 [0]); [cbn; tauto|cbn; lia].
  - intros H. apply C39_client_hello_exact in H; [|apply Util.is_bytes_check; reflexivity]. vm_compute in H. discriminate.
Qed.
Example C39_server_exact_ex :
  server_hello_panic ([3; 3] ++ repeat 7 32 ++ [0] ++ [0x13; 1; 0; 0; 8] ++ [0; 43; 0; 2; 3; 4; 0; 51]) /\
  ~ server_hello_panic ([3; 3] ++ repeat 7 32 ++ [0] ++ [0x13; 1; 0; 0; 6] ++ [0; 43; 0; 2; 3; 4]).
Proof.
  split.
  - apply (svp_extensions (repeat 7 32) [0] 0x13 1 0 0 8 [0; 43; 0; 2; 3; 4; 0; 51] []); try reflexivity; [now left|cbn; tauto|].
    apply (sep_after_version 0 2 [3; 4] [0; 51]); [reflexivity|cbn; lia|]. apply sep_cut. cbn. lia.
  - intros H. apply C39_server_hello_exact in H; [|apply Util.is_bytes_check; reflexivity]. vm_compute in H. discriminate.
Qed.
Theorem C39_session_id_refuted : forall m c, (1 <= length (m_session_id m) < 32)%nat ->
  client_hello_from_raw (client_hello_wire m) = Ok c -> ch_sid c <> Some (m_session_id m).
Proof. exact HelloTotal.short_session_lost. Qed.
Print Assumptions C39_session_id_refuted.
(* a hello with an 8-byte session id is accepted with 32 other bytes as the session id *)
Example C39_session_id_ex : exists c,
  client_hello_from_raw (client_hello_wire
    {| m_random := repeat 7 32; m_session_id := repeat 9 8; m_suites := [0x1301];
       m_extensions := [OtherExt 0 (repeat 0 12 ++ [0; 2; 0x13; 0x01; 1; 0; 0; 0])] |}) = Ok c.
Proof. eexists. vm_compute. reflexivity. Qed.
(* the loops of the parsers always come to their end within the fuel of the model *)
Theorem C39_fuel : forall f rest buf consumed len, (length rest <= f)%nat -> (length buf - consumed < S f)%nat ->
  client_exts_loop f rest = client_exts_loop (length rest) rest /\
  server_exts_loop f rest = server_exts_loop (length rest) rest /\
  request_exts_loop f rest = request_exts_loop (length rest) rest /\
  ks_loop (S f) buf consumed len = ks_loop (S (length buf)) buf consumed len.
Proof.
  intros f rest buf consumed len Hf Hb.
  split; [|split; [|split]]; [apply (HelloTotal.client_fuel (length rest))|apply (HelloTotal.server_fuel (length rest))
    |apply (HelloTotal.request_fuel (length rest))|apply (HelloTotal.ks_fuel (length buf - consumed))]; lia.
Qed.
Print Assumptions C39_fuel.
