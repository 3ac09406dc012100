(* C43, C47, C50, C71 for the client: failing handshakes, change_cipher_spec records, and where TCP reads end.  The vocabulary
   is in Spec.Connection and Spec.Handshaking. *)
From Verif Require Import Model.Base Model.Alert Model.Suite Model.KeySchedule Model.Record Model.Hello Model.Certificate Model.Stream Model.Client
  Spec.Alerts Spec.Tls13Record Spec.Endpoints Spec.Connection Spec.ClientConnection Spec.ClientAccept Spec.Handshaking.
From Verif Require Proofs.Util Proofs.Cuts Proofs.ClientReads Proofs.ClientAlerts Proofs.ClientAccept2 Proofs.ServerExample Proofs.ClientHandshakeExample.
From Coq Require Import Lia.

Definition parses (r : record) : Prop := record_from_raw (wire r) = Ok (length (wire r), r).
Definition no_alert (r : record) : Prop := r_type r <> RAlert.
(* the client has read `before`, whole records without alerts, and waits for more *)
Definition waits (cfg : client_config) (e : client_draws) (now : Z) (so : sock) (recs : list record) (before : list (list Z)) (h : client_hs) : Prop :=
  delivers recs before /\ Forall parses recs /\ Forall no_alert recs /\ connect cfg e now so before = (h, None).

(* ---- C47 ---- *)
(* change_cipher_spec records anywhere after the ServerHello, in its read or in others: the client ends in the very same
   state, with the same answer, as without them, whatever comes later. *)
Theorem C47_client_ignores_ccs : forall cfg e now so hello more groups later,
  is_ccs hello = false -> Forall parses (hello :: more) -> Forall (fun x => x <> []) groups -> Forall parses (concat groups) ->
  connect cfg e now so (bytes_of (hello :: more) :: map bytes_of groups ++ later) =
  connect cfg e now so (bytes_of (hello :: without_ccs more) :: map bytes_of (groups_without_ccs groups) ++ later).
Proof. exact Proofs.ClientReads.connect_ccs. Qed.
Print Assumptions C47_client_ignores_ccs.
(* Before the ServerHello it is refused, though RFC 8446, section 5, says to drop it at any time after the ClientHello. *)
Theorem C47_client_early_ccs_refuted : forall cfg e now so h0 ccs more rest,
  waits cfg e now so [] [] h0 -> so_left (st_sock (cl_stream h0)) = None -> parses ccs -> is_ccs ccs = true ->
  exists h, connect cfg e now so ((wire ccs ++ more) :: rest) = (h, Some (Err UnexpectedMessage)) /\
    so_sent (st_sock (cl_stream h)) = so_sent (st_sock (cl_stream h0)) ++ [21; 3; 3; 0; 2; 2; 10].
Proof. intros cfg e now so h0 ccs more rest (_ & _ & _ & W). exact (Proofs.ClientAlerts.early_ccs cfg e now so h0 ccs more rest W). Qed.
Print Assumptions C47_client_early_ccs_refuted.

(* ---- C50 ---- *)
(* However the records are delivered, several in a read or one in several reads, if at the end of no read one to three bytes
   of a record are missing and no read both ends one cut record and begins another: the client ends in the same state with
   the same answer as if each record came in its own read. *)
Theorem C50_client_delivery_partial : forall cfg e now so recs reads later,
  delivers recs reads -> Forall parses recs -> Forall no_alert recs ->
  connect cfg e now so (reads ++ later) = connect cfg e now so (map wire recs ++ later).
Proof. exact Proofs.ClientReads.delivered. Qed.
Print Assumptions C50_client_delivery_partial.
(* What is missing is false.  One to three bytes missing at the end of a read: panic. *)
Theorem C50_client_cut_refuted : forall cfg e now so recs before h1 r p missing rest,
  waits cfg e now so recs before h1 -> parses r -> wire r = p ++ missing -> (5 <= length p)%nat -> (1 <= length missing <= 3)%nat ->
  connect cfg e now so (before ++ p :: rest) = (h1, Some Panic).
Proof. intros cfg e now so recs before h1 r p missing rest (D & P & A & W). exact (Proofs.ClientReads.client_near_cut cfg e now so recs before h1 r p missing rest D P A W). Qed.
Print Assumptions C50_client_cut_refuted.
(* A read with the end of one cut record and the beginning of another: the first of the two is handled twice. *)
Theorem C50_client_handled_twice_refuted : forall cfg e now so recs before h1 r1 r2 a b c d later,
  waits cfg e now so recs before h1 -> Forall parses [r1; r2] -> Forall no_alert [r1; r2] ->
  wire r1 = a ++ b -> wire r2 = c ++ d -> Forall (fun x => x <> []) [a; b; c; d] -> well_cut (wire r1) a -> well_cut (wire r2) c ->
  connect cfg e now so (before ++ [a; b ++ c; d] ++ later) = connect cfg e now so (before ++ [wire r1; wire r1; wire r2] ++ later).
Proof.
  intros cfg e now so recs before h1 r1 r2 a b c d later (D & P & A & W) Ps As W1 W2 N C1 C2.
  inversion Ps as [|? ? P1 Ps']; inversion Ps' as [|? ? P2 _]; inversion As as [|? ? A1 As']; inversion As' as [|? ? A2 _]; subst.
  inversion N as [|? ? Na N1]; inversion N1 as [|? ? Nb N2]; inversion N2 as [|? ? Nc N3]; inversion N3 as [|? ? Nd _]; subst.
  now apply (Proofs.ClientReads.client_twice cfg e now so recs before h1 r1 r2).
Qed.
Print Assumptions C50_client_handled_twice_refuted.
(* and so with the ServerHello: after it the client has keys, and takes the second copy, which is not encrypted, for a
   protected record.  The handshake goes on only if the bytes of the ServerHello happen to carry a right tag. *)
Theorem C50_client_hello_cut_refuted : forall cfg e now so h0 h1 hello next a b c d later h,
  waits cfg e now so [] [] h0 -> connect cfg e now so [wire hello] = (h1, None) ->
  r_type hello = RHandshake -> no_alert next -> Forall parses [hello; next] ->
  wire hello = a ++ b -> wire next = c ++ d -> Forall (fun x => x <> []) [a; b; c; d] -> well_cut (wire hello) a -> well_cut (wire next) c ->
  connect cfg e now so ([a; b ++ c; d] ++ later) = (h, Some (Ok tt)) ->
  exists p p' content, st_protection (cl_stream h1) = Some p /\ rpp_decrypt p hello = (p', Ok (RHandshake, content)).
Proof.
  intros cfg e now so h0 h1 hello next a b c d later h W H T A Ps W1 W2 N C1 C2 E.
  pose proof (C50_client_handled_twice_refuted cfg e now so [] [] h0 hello next a b c d later W Ps) as X. change ([] ++ [a; b ++ c; d] ++ later) with ([a; b ++ c; d] ++ later) in X.
  rewrite X in E; try assumption; [|repeat constructor; [unfold no_alert; congruence|exact A]].
  inversion Ps as [|? ? P1 _]; subst. exact (Proofs.ClientAlerts.second_hello cfg e now so h1 hello (wire next :: later) h H P1 T E).
Qed.
Print Assumptions C50_client_hello_cut_refuted.

(* ---- C71 ---- *)
(* C71_conforming_server_accepted also for records cut by TCP, with the exceptions of C50. *)
Theorem C71_conforming_server_accepted_cut : forall cfg e now so first sh g,
  client_ok cfg e -> so_left so = None -> parses first /\ is_bytes (wire first) -> r_type first = RHandshake ->
  agrees cfg e (r_fragment first) sh g ->
  forall parts more reads later, server_conforms cfg e now g (concat parts) -> carry g (map (@concat Z) parts) (without_ccs more) ->
    Forall (fun r => parses r /\ is_bytes (wire r)) more -> Forall (fun r => r_type r = RApplicationData) (without_ccs more) ->
    zlen (concat (concat parts)) < 2^50 -> zlen more < 2^50 -> delivers (first :: more) reads ->
    exists h, connect cfg e now so (reads ++ later) = (h, Some (Ok tt)).
Proof. exact Proofs.ClientAlerts.accepted_cut. Qed.
Print Assumptions C71_conforming_server_accepted_cut.

(* ---- C43 ---- *)
(* connect failed without a panic: the handshake stopped with some error er in some state h0.  If er is a TLS alert
   condition, an alert with the library's code for er was sent, under the keys of that moment, right after what had been
   sent, and the caller gets er (BrokenPipe if the socket broke while sending); otherwise nothing was sent and the caller
   gets er, or the alert received. *)
Theorem C43_client_reports_partial : forall cfg e now so reads h o,
  connect cfg e now so reads = (h, Some o) -> o <> Ok tt -> o <> Panic ->
  exists h0 er, client_do_handshake cfg e now (client_new e so) reads = (h0, Some (Err er)) /\
    (rfc8446_code er = None -> cl_stream h = cl_stream h0 /\ o = Err (reported er)) /\
    (rfc8446_code er <> None -> exists w, alert_bytes (st_protection (cl_stream h0)) (alert_level er) (error_as_u8 er) w /\
      ((so_sent (st_sock (cl_stream h)) = so_sent (st_sock (cl_stream h0)) ++ w /\ o = Err er) \/
       (exists k, so_left (st_sock (cl_stream h0)) = Some k /\ (k < length w)%nat /\
          so_sent (st_sock (cl_stream h)) = so_sent (st_sock (cl_stream h0)) ++ firstn k w /\ o = Err BrokenPipe))).
Proof.
  intros cfg e now so reads h o A N1 N2. destruct (Proofs.ClientAlerts.connect_error cfg e now so reads h o A N1 N2) as (h0 & er & E & R1 & R2).
  exists h0, er. split; [exact E|]. split; [exact R1|]. intros C. destruct (R2 C) as (w & Aw & R). exists w. split; [now apply Proofs.Cuts.alert_record_bytes|exact R].
Qed.
Print Assumptions C43_client_reports_partial.
(* An alert received while the client waits, in the clear or under the server's key, is what the caller gets; nothing is
   sent. *)
Theorem C43_client_alert_received : forall cfg e now so recs before h1 alert rest level code more,
  waits cfg e now so recs before h1 -> parses alert -> r_type alert = RAlert -> r_fragment alert = level :: code :: more ->
  connect cfg e now so (before ++ wire alert :: rest) = (h1, Some (Err (error_new code))).
Proof.
  intros cfg e now so recs before h1 alert rest level code more (D & P & A & W) Pa T F. pose proof (Proofs.ClientReads.client_alert cfg e now so recs before h1 alert rest D P A W Pa T) as X.
  rewrite F in X. exact X.
Qed.
Print Assumptions C43_client_alert_received.
Theorem C43_client_sealed_alert_received : forall cfg e now so recs before h1 r rest p p' level code more,
  waits cfg e now so recs before h1 -> recs <> [] -> parses r -> r_type r = RApplicationData ->
  st_protection (cl_stream h1) = Some p -> rpp_decrypt p r = (p', Ok (RAlert, level :: code :: more)) ->
  exists h, connect cfg e now so (before ++ wire r :: rest) = (h, Some (Err (error_new code))) /\ st_sock (cl_stream h) = st_sock (cl_stream h1).
Proof.
  intros cfg e now so recs before h1 r rest p p' level code more (D & P & A & W) NE Pr T Pp De.
  exact (Proofs.ClientReads.client_sealed_alert cfg e now so recs before h1 r rest p p' level code more D P A W NE Pr T Pp De).
Qed.
Print Assumptions C43_client_sealed_alert_received.
(* False: an alert of fewer than two bytes is a panic, at any point of the handshake. *)
Theorem C43_client_short_alert_refuted : forall cfg e now so recs before h1 alert rest,
  waits cfg e now so recs before h1 -> parses alert -> r_type alert = RAlert -> (length (r_fragment alert) < 2)%nat ->
  connect cfg e now so (before ++ wire alert :: rest) = (h1, Some Panic).
Proof.
  intros cfg e now so recs before h1 alert rest (D & P & A & W) Pa T L. pose proof (Proofs.ClientReads.client_alert cfg e now so recs before h1 alert rest D P A W Pa T) as X.
  destruct (r_fragment alert) as [|a [|b l]]; [exact X|exact X|cbn [length] in L; lia].
Qed.
Print Assumptions C43_client_short_alert_refuted.
(* False: a read that begins with a byte that is no record type is never refused.  The client waits for ever, whatever
   follows, even an alert or a right record, without an alert of its own. *)
Theorem C43_client_unknown_type_refuted : forall cfg e now so recs before h1 t x more,
  waits cfg e now so recs before h1 -> ~ In t [0; 20; 21; 22; 23] -> Forall (fun m => m <> []) more ->
  connect cfg e now so (before ++ (t :: x) :: more) = (h1, None).
Proof.
  intros cfg e now so recs before h1 t x more (D & P & A & W) N F. apply (Proofs.ClientReads.client_stuck cfg e now so recs before h1 t x more D P A W); [|exact F].
  unfold rt_new. cbn [In] in N. repeat match goal with |- context [?a =? ?b] => destruct (Z.eqb_spec a b); [exfalso; apply N; subst; tauto|] end. reflexivity.
Qed.
Print Assumptions C43_client_unknown_type_refuted.

(* ---- non-vacuity ---- *)
Definition ex_ccs : record := {| r_type := RChangeCipherSpec; r_version := 0x0303; r_len := 1; r_header := [20; 3; 3; 0; 1]; r_fragment := [1] |}.
Definition ex_alert : record := {| r_type := RAlert; r_version := 0x0303; r_len := 2; r_header := [21; 3; 3; 0; 2]; r_fragment := [2; 40] |}.
Definition short_alert : record := {| r_type := RAlert; r_version := 0x0303; r_len := 1; r_header := [21; 3; 3; 0; 1]; r_fragment := [2] |}.
Example C50_client_ex : exists cfg e first more h0 h1 h, let con := connect cfg e ServerExample.own_now ClientHandshakeExample.ex_out in
  waits cfg e ServerExample.own_now ClientHandshakeExample.ex_out [] [] h0 /\ so_left (st_sock (cl_stream h0)) = None /\
  waits cfg e ServerExample.own_now ClientHandshakeExample.ex_out [first] [wire first] h1 /\
  is_ccs first = false /\ Forall parses (first :: more) /\ Forall no_alert (first :: more) /\ r_type first = RHandshake /\
  parses ex_ccs /\ is_ccs ex_ccs = true /\ parses ex_alert /\ parses short_alert /\
  con (map wire (first :: more)) = (h, Some (Ok tt)) /\
  con (bytes_of [first; ex_ccs] :: map bytes_of (map (fun r => [ex_ccs; r]) more)) = (h, Some (Ok tt)) /\
  snd (con [wire ex_ccs]) = Some (Err UnexpectedMessage) /\
  con ([firstn 3 (wire first); skipn 3 (wire first)] ++ map wire more) = (h, Some (Ok tt)) /\
  con [firstn (length (wire first) - 2) (wire first)] = (h0, Some Panic) /\
  con [wire first; wire ex_alert] = (h1, Some (Err HandshakeFailure)) /\ con [wire first; wire short_alert] = (h1, Some Panic) /\
  con [wire first; [24]; wire ex_alert] = (h1, None) /\
  (forall next later, In next more -> con ([firstn 3 (wire first); skipn 3 (wire first) ++ firstn 3 (wire next); skipn 3 (wire next)] ++ later) =
    con ([wire first; wire first; wire next] ++ later)).
Proof.
  destruct ClientHandshakeExample.ex_client as (cfg & e & first & more & P & Ty & T & NE & h & E).
  destruct (ClientHandshakeExample.ex_waits _ _ _ _ _ _ _ P T E) as ((h0 & E0) & (h1 & E1 & St1)).
  assert (A : Forall no_alert (first :: more)) by (eapply Forall_impl; [|exact Ty]; intros r [X|X]; unfold no_alert; congruence).
  assert (NC : Forall (fun r => is_ccs r = false) (first :: more)) by (eapply Forall_impl; [|exact Ty]; intros r [X|X]; unfold is_ccs; now rewrite X).
  inversion P as [|? ? P1 P2]; inversion A as [|? ? A1 A2]; inversion NC as [|? ? N1 N2]; subst.
  assert (L : forall r, parses r -> (5 <= length (wire r))%nat) by (intros r Pr; exact (proj2 (Proofs.ClientReads.parse_at r [] Pr))).
  assert (LF : (8 <= length (wire first))%nat).
  { exact (Proofs.ClientHandshakeExample.long_hello _ _ _ _ _ _ P1 T E1 St1). }
  exists cfg, e, first, more, h0, h1, h. cbv zeta.
  assert (W0 : waits cfg e ServerExample.own_now ClientHandshakeExample.ex_out [] [] h0) by (split; [constructor|]; split; [constructor|]; split; [constructor|exact E0]).
  assert (W1 : waits cfg e ServerExample.own_now ClientHandshakeExample.ex_out [first] [wire first] h1).
  { split; [apply Proofs.ClientAlerts.delivers_one|]. split; [now repeat constructor|]. split; [now repeat constructor|exact E1]. }
  assert (PC : parses ex_ccs) by reflexivity. assert (PA : parses ex_alert) by reflexivity. assert (PS : parses short_alert) by reflexivity.
  split; [exact W0|]. split; [exact (Proofs.ClientHandshakeExample.left_none _ _ _ _ E0)|]. split; [exact W1|]. do 9 (split; [first [assumption|reflexivity]|]).
  split.
  { pose proof (C47_client_ignores_ccs cfg e ServerExample.own_now ClientHandshakeExample.ex_out first [ex_ccs] (map (fun r => [ex_ccs; r]) more) [] N1 ltac:(now repeat constructor)) as X.
    rewrite !app_nil_r in X. rewrite X.
    - rewrite <- E. f_equal. cbn [map]. f_equal; [unfold bytes_of; cbn; apply app_nil_r|]. clear - N2. unfold groups_without_ccs. induction more as [|r m IH]; [reflexivity|]. inversion N2; subst.
      cbn [map]. unfold without_ccs at 1. cbn [filter is_ccs ex_ccs r_type negb]. match goal with H : is_ccs r = false |- _ => rewrite H end. cbn [negb filter nonempty map]. f_equal; [unfold bytes_of; cbn; apply app_nil_r|now apply IH].
    - apply Forall_forall. intros x I. apply in_map_iff in I. destruct I as (r & <- & _). discriminate.
    - clear - P2 PC. induction P2; cbn [map concat app]; constructor; [exact PC|]. now constructor. }
  split.
  { destruct (C47_client_early_ccs_refuted cfg e _ _ h0 ex_ccs [] [] W0 (Proofs.ClientHandshakeExample.left_none _ _ _ _ E0) PC eq_refl) as (h' & X & _). rewrite app_nil_r in X. rewrite X. reflexivity. }
  assert (SP : forall r, parses r -> wire r = firstn 3 (wire r) ++ skipn 3 (wire r) /\ firstn 3 (wire r) <> [] /\ skipn 3 (wire r) <> [] /\ well_cut (wire r) (firstn 3 (wire r))).
  { intros r Pr. specialize (L r Pr). split; [symmetry; apply firstn_skipn|]. split; [|split].
    - intros X. apply (f_equal (@length Z)) in X. rewrite firstn_length in X. cbn [length] in X. lia.
    - intros X. apply (f_equal (@length Z)) in X. rewrite skipn_length in X. cbn [length] in X. lia.
    - left. rewrite firstn_length. lia. }
  split.
  { assert (DM : forall m, delivers m (map wire m)).
    { induction m as [|r m IH]; [constructor|]. cbn [map]. rewrite (Proofs.ClientReads.wire1 r). apply (delivers_whole [r] m); [discriminate|exact IH]. }
    destruct (SP first P1) as (S1 & S2 & S3 & S4).
    assert (D : delivers (first :: more) ([firstn 3 (wire first); skipn 3 (wire first)] ++ map wire more)).
    { pose proof (delivers_cut [] first [] (firstn 3 (wire first)) [] (skipn 3 (wire first)) more (map wire more)) as D. unfold bytes_of in D. cbn [map concat app] in D. rewrite app_nil_r in D. apply D; [exact S1|now repeat constructor| |apply DM].
      intros k. rewrite firstn_nil. cbn [concat]. rewrite app_nil_r. exact S4. }
    pose proof (C50_client_delivery_partial cfg e ServerExample.own_now ClientHandshakeExample.ex_out _ _ [] D P A) as X. rewrite !app_nil_r in X. rewrite X. exact E. }
  split.
  { apply (C50_client_cut_refuted cfg e _ _ [] [] h0 first (firstn (length (wire first) - 2) (wire first)) (skipn (length (wire first) - 2) (wire first)) [] W0 P1);
      [symmetry; apply firstn_skipn|rewrite firstn_length; lia|rewrite skipn_length; lia]. }
  split; [exact (C43_client_alert_received cfg e _ _ [first] [wire first] h1 ex_alert [] 2 40 [] W1 PA eq_refl eq_refl)|].
  split; [exact (C43_client_short_alert_refuted cfg e _ _ [first] [wire first] h1 short_alert [] W1 PS eq_refl ltac:(cbn; lia))|].
  split; [apply (C43_client_unknown_type_refuted cfg e _ _ [first] [wire first] h1 24 [] [wire ex_alert] W1); [cbn; lia|repeat constructor; discriminate]|].
  intros next later IN. assert (Pn : parses next) by (rewrite Forall_forall in P2; now apply P2). assert (An : no_alert next) by (rewrite Forall_forall in A2; now apply A2).
  destruct (SP first P1) as (S1 & S2 & S3 & S4). destruct (SP next Pn) as (T1 & T2 & T3 & T4).
  apply (C50_client_handled_twice_refuted cfg e _ _ [] [] h0 first next (firstn 3 (wire first)) (skipn 3 (wire first)) (firstn 3 (wire next)) (skipn 3 (wire next)) later W0); try assumption; now repeat constructor.
Qed.
(* and a handshake that fails with an alert *)
Example C43_client_ex : exists cfg e h0 h, waits cfg e ServerExample.own_now ClientHandshakeExample.ex_out [] [] h0 /\
  connect cfg e ServerExample.own_now ClientHandshakeExample.ex_out [wire ex_ccs] = (h, Some (Err UnexpectedMessage)) /\ rfc8446_code UnexpectedMessage <> None.
Proof.
  destruct C50_client_ex as (cfg & e & first & more & h0 & h1 & h & H). cbv zeta in H. destruct H as (W0 & L & _ & _ & _ & _ & _ & PC & _).
  destruct (C47_client_early_ccs_refuted cfg e _ _ h0 ex_ccs [] [] W0 L PC eq_refl) as (h' & X & _). rewrite app_nil_r in X. exists cfg, e, h0, h'. split; [exact W0|]. split; [exact X|discriminate].
Qed.
