(* The hellos on which the parsers of the library panic *)
From Verif Require Import Model.Base.
From Verif Require Import Spec.X509.

Definition n16 (a b : Z) : Z := 256 * a + b.
(* the groups of RFC 8446 4.2.7 *)
Definition known_group (x : Z) : Prop := In x [0x17; 0x18; 0x19; 0x1D; 0x1E; 0x100; 0x101; 0x102; 0x103; 0x104].

(* ---- key_share of a ClientHello ---- *)
(* a list of shares said to be `said` bytes long, `done` of which are read; the two bytes of its length count as read *)
Inductive shares_panic (said : Z) : Z -> list Z -> Prop :=
| shp_one done x : known_group x -> shares_panic said done [x]
| shp_cut done g1 g2 rest : known_group (n16 g1 g2) -> (length rest < 2)%nat -> shares_panic said done (g1 :: g2 :: rest)
| shp_short done g1 g2 l1 l2 rest : known_group (n16 g1 g2) -> zlen rest < n16 l1 l2 -> shares_panic said done (g1 :: g2 :: l1 :: l2 :: rest)
| shp_huge done g1 g2 l1 l2 rest : known_group (n16 g1 g2) -> 65532 <= n16 l1 l2 -> shares_panic said done (g1 :: g2 :: l1 :: l2 :: rest)
| shp_next done g1 g2 l1 l2 key rest : known_group (n16 g1 g2) -> zlen key = n16 l1 l2 -> 4 <= zlen key < 65532 -> done + 4 + zlen key < said ->
    shares_panic said (done + 4 + zlen key) rest -> shares_panic said done (g1 :: g2 :: l1 :: l2 :: key ++ rest).
(* one that is read without error *)
Inductive shares_fine (said : Z) : Z -> list Z -> Prop :=
| shf_stop done g1 g2 l1 l2 rest : known_group (n16 g1 g2) -> n16 l1 l2 < 4 -> n16 l1 l2 <= zlen rest -> shares_fine said done (g1 :: g2 :: l1 :: l2 :: rest)
| shf_last done g1 g2 l1 l2 key rest : known_group (n16 g1 g2) -> zlen key = n16 l1 l2 -> 4 <= zlen key < 65532 -> said <= done + 4 + zlen key ->
    shares_fine said done (g1 :: g2 :: l1 :: l2 :: key ++ rest)
| shf_next done g1 g2 l1 l2 key rest : known_group (n16 g1 g2) -> zlen key = n16 l1 l2 -> 4 <= zlen key < 65532 -> done + 4 + zlen key < said ->
    shares_fine said (done + 4 + zlen key) rest -> shares_fine said done (g1 :: g2 :: l1 :: l2 :: key ++ rest).
Definition key_share_panics (x : list Z) : Prop :=
  (length x < 2)%nat \/ exists s1 s2 rest, x = s1 :: s2 :: rest /\ shares_panic (n16 s1 s2) 2 rest.
Definition key_share_fine (x : list Z) : Prop := exists s1 s2 rest, x = s1 :: s2 :: rest /\ shares_fine (n16 s1 s2) 2 rest.

(* ---- server_name ---- *)
Inductive name_panics : list Z -> Prop :=
| np_one x : x <> 0 -> name_panics [x]
| np_two a b : n16 a b <> 0 -> name_panics [a; b]
| np_cut a b rest : n16 a b <> 0 -> (length rest < 2)%nat -> name_panics (a :: b :: 0 :: rest)
| np_short a b l1 l2 rest : n16 a b <> 0 -> zlen rest < n16 l1 l2 -> name_panics (a :: b :: 0 :: l1 :: l2 :: rest).
Inductive name_fine : list Z -> Prop :=
| nf_none : name_fine []
| nf_zero : name_fine [0]
| nf_empty rest : name_fine (0 :: 0 :: rest)
| nf_name a b l1 l2 text rest : n16 a b <> 0 -> zlen (utf8 text) = n16 l1 l2 -> Forall scalar_value text -> name_fine (a :: b :: 0 :: l1 :: l2 :: utf8 text ++ rest).

(* ---- supported_versions of a ClientHello: what follows the header of the extension, up to the end of the message ---- *)
Definition other_version (v : list Z) : Prop := exists a b, v = [a; b] /\ n16 a b <> 0x0304.
Definition versions_panic (x : list Z) : Prop :=
  x = [] \/ exists n vs rest, x = n :: concat vs ++ rest /\ Z.even n = true /\ Forall other_version vs /\ (length rest < 2)%nat /\ 2 * zlen vs < n.

(* ---- the extensions of a ClientHello ---- *)
Inductive exts_panic : list Z -> Prop :=
| ep_cut l : (0 < length l < 4)%nat -> exts_panic l
| ep_short t l1 l2 rest : In t [0; 51] -> zlen rest < n16 l1 l2 -> exts_panic (0 :: t :: l1 :: l2 :: rest)
| ep_name l1 l2 x rest : zlen x = n16 l1 l2 -> name_panics x -> exts_panic (0 :: 0 :: l1 :: l2 :: x ++ rest)
| ep_shares l1 l2 x rest : zlen x = n16 l1 l2 -> key_share_panics x -> exts_panic (0 :: 51 :: l1 :: l2 :: x ++ rest)
| ep_versions l1 l2 rest : versions_panic rest -> exts_panic (0 :: 43 :: l1 :: l2 :: rest)
| ep_after_other t1 t2 l1 l2 x rest : ~ In (n16 t1 t2) [0; 43; 51] -> zlen x = n16 l1 l2 -> exts_panic rest -> exts_panic (t1 :: t2 :: l1 :: l2 :: x ++ rest)
| ep_after_versions l1 l2 x rest : zlen x = n16 l1 l2 -> ~ versions_panic (x ++ rest) -> exts_panic rest -> exts_panic (0 :: 43 :: l1 :: l2 :: x ++ rest)
| ep_after_name l1 l2 x rest : zlen x = n16 l1 l2 -> name_fine x -> exts_panic rest -> exts_panic (0 :: 0 :: l1 :: l2 :: x ++ rest)
| ep_after_shares l1 l2 x rest : zlen x = n16 l1 l2 -> key_share_fine x -> exts_panic rest -> exts_panic (0 :: 51 :: l1 :: l2 :: x ++ rest).

(* ---- the body of a ClientHello ---- *)
(* a session id as it is read: none, or 32 bytes whatever its length byte says *)
Definition session_read (x : list Z) : Prop := x = [0] \/ exists n id, x = n :: id /\ n <> 0 /\ length id = 32%nat.
Inductive client_hello_panic : list Z -> Prop :=
| chp_session random n rest : length random = 32%nat -> n <> 0 -> (10 <= length rest < 34)%nat -> client_hello_panic ([3; 3] ++ random ++ n :: rest)
| chp_suites random id a b rest : length random = 32%nat -> session_read id -> Z.even (n16 a b) = true -> n16 a b - 2 <= zlen rest < n16 a b + 4 ->
    (9 <= length (id ++ rest))%nat -> client_hello_panic ([3; 3] ++ random ++ id ++ a :: b :: rest)
| chp_short random id a b suites c1 c2 e1 e2 rest : length random = 32%nat -> session_read id -> Z.even (n16 a b) = true -> zlen suites = n16 a b ->
    zlen rest < n16 e1 e2 -> (5 <= length (id ++ suites ++ rest))%nat ->
    client_hello_panic ([3; 3] ++ random ++ id ++ [a; b] ++ suites ++ [c1; c2; e1; e2] ++ rest)
| chp_extensions random id a b suites c1 c2 e1 e2 exts rest : length random = 32%nat -> session_read id -> Z.even (n16 a b) = true -> zlen suites = n16 a b ->
    zlen exts = n16 e1 e2 -> exts_panic exts -> (5 <= length (id ++ suites ++ exts ++ rest))%nat ->
    client_hello_panic ([3; 3] ++ random ++ id ++ [a; b] ++ suites ++ [c1; c2; e1; e2] ++ exts ++ rest).

(* ---- the extensions of a ServerHello ---- *)
Inductive server_exts_panic : list Z -> Prop :=
| sep_cut l : (0 < length l < 4)%nat -> server_exts_panic l
| sep_short l1 l2 rest : zlen rest < n16 l1 l2 -> server_exts_panic (0 :: 51 :: l1 :: l2 :: rest)
| sep_share l1 l2 x rest : zlen x = n16 l1 l2 -> shares_panic 0 0 x -> server_exts_panic (0 :: 51 :: l1 :: l2 :: x ++ rest)
| sep_version l1 l2 rest : (length rest < 2)%nat -> server_exts_panic (0 :: 43 :: l1 :: l2 :: rest)
| sep_in_name l1 l2 rest : server_exts_panic rest -> server_exts_panic (0 :: 0 :: l1 :: l2 :: rest)      (* its contents are read as extensions *)
| sep_after_other t1 t2 l1 l2 x rest : ~ In (n16 t1 t2) [0; 43; 51] -> zlen x = n16 l1 l2 -> server_exts_panic rest -> server_exts_panic (t1 :: t2 :: l1 :: l2 :: x ++ rest)
| sep_after_version l1 l2 x rest : zlen x = n16 l1 l2 -> (2 <= length (x ++ rest))%nat -> server_exts_panic rest -> server_exts_panic (0 :: 43 :: l1 :: l2 :: x ++ rest)
| sep_after_share l1 l2 x rest : zlen x = n16 l1 l2 -> shares_fine 0 0 x -> server_exts_panic rest -> server_exts_panic (0 :: 51 :: l1 :: l2 :: x ++ rest).

(* ---- the body of a ServerHello ---- *)
Inductive server_hello_panic : list Z -> Prop :=
| svp_session random n rest : length random = 32%nat -> n <> 0 -> (1 <= length rest < 34)%nat -> server_hello_panic ([3; 3] ++ random ++ n :: rest)
| svp_end random x : length random = 32%nat -> server_hello_panic ([3; 3] ++ random ++ [0; x])
| svp_suite random id s1 s2 rest : length random = 32%nat -> session_read id -> In (n16 s1 s2) [0x1301; 0x1302; 0x1303; 0xff] -> (length rest < 3)%nat ->
    server_hello_panic ([3; 3] ++ random ++ id ++ s1 :: s2 :: rest)
| svp_short random id s1 s2 c e1 e2 rest : length random = 32%nat -> session_read id -> In (n16 s1 s2) [0x1301; 0x1302; 0x1303; 0xff] -> zlen rest < n16 e1 e2 ->
    server_hello_panic ([3; 3] ++ random ++ id ++ [s1; s2; c; e1; e2] ++ rest)
| svp_extensions random id s1 s2 c e1 e2 exts rest : length random = 32%nat -> session_read id -> In (n16 s1 s2) [0x1301; 0x1302; 0x1303; 0xff] -> zlen exts = n16 e1 e2 ->
    server_exts_panic exts -> server_hello_panic ([3; 3] ++ random ++ id ++ [s1; s2; c; e1; e2] ++ exts ++ rest).
