(* A handshake the client goes through, for the examples *)
From Verif Require Import Proofs.Util Model.Alert Model.Suite Model.KeySchedule Model.Record Model.Handshake Model.Extensions Model.Hello Model.Certificate
  Model.Stream Model.Server Model.Client Spec.Connection Spec.ClientConnection Spec.ClientAccept Spec.Handshaking.
From Verif Require Import Proofs.ServerRun Proofs.ClientReads.
From Verif Require Proofs.ClientAccept2 Proofs.Loopback Proofs.LoopbackExample Proofs.ServerExample.

Definition ex_out : sock := {| so_sent := []; so_left := None |}.
Lemma ex_client_ok : exists cfg e first more, client_ok cfg e /\ whole first /\ Forall parses (first :: more) /\ Forall (fun r => r_type r = RHandshake \/ r_type r = RApplicationData) (first :: more) /\
  r_type first = RHandshake /\ more <> [] /\
  exists h, connect cfg e ServerExample.own_now ex_out (map wire (first :: more)) = (h, Some (Ok tt)).
Proof.
  destruct (Proofs.LoopbackExample.lb_compatible true) as (k & k' & _ & _ & C).
  destruct (Proofs.Loopback.conforming _ _ _ _ _ C) as (first & sh & g & parts & more & H1 & H2 & H3 & H4 & H5 & H6 & H7 & H8 & H9).
  exists (LoopbackExample.lb_client true), (LoopbackExample.lb_client_draws k'), first, (without_ccs more).
  assert (F : Forall (fun r => parses r /\ is_bytes (wire r)) (without_ccs more)) by (apply forall_without; exact H6).
  assert (W : without_ccs (without_ccs more) = without_ccs more).
  { unfold without_ccs. clear. induction more as [|r m IH]; [reflexivity|]. cbn [filter]. destruct (negb (is_ccs r)) eqn:N; [cbn [filter]; rewrite N; now f_equal|exact IH]. }
  split; [apply C|]. split; [exact H1|].
  split; [constructor; [apply H1|]; eapply Forall_impl; [|exact F]; intros r X; apply X|].
  split; [constructor; [now left|]; eapply Forall_impl; [|exact H7]; intros r X; now right|]. split; [exact H2|].
  assert (NE : without_ccs more <> []).
  { intros N. rewrite N in H5. destruct H5 as (L & _). rewrite map_length in L. destruct parts as [|p parts]; [|discriminate L].
    destruct H4 as (? & ? & ? & ? & ? & ? & ? & ? & H4 & _). discriminate H4. }
  split; [exact NE|].
  destruct (Proofs.ClientAccept2.client_accepted (LoopbackExample.lb_client true) (LoopbackExample.lb_client_draws k') ServerExample.own_now ex_out first sh g) with
    (parts := parts) (more := without_ccs more) (groups := map (fun r => [r]) (first :: without_ccs more)) (later := @nil (list Z)) as (h & E); try assumption; try reflexivity.
  - apply C.
  - rewrite W. exact H5.
  - rewrite W. exact H7.
  - assert (Hl : (length (without_ccs more) <= length more)%nat) by (unfold without_ccs; clear; induction more as [|r m IH]; cbn [filter length]; [lia|]; destruct (negb _); cbn [length]; lia). unfold zlen in *. lia.
  - apply Forall_forall. intros gr I. apply in_map_iff in I. destruct I as (r & <- & _). discriminate.
  - generalize (first :: without_ccs more) as l. induction l as [|r l IH]; [reflexivity|]. cbn [map concat app]. now f_equal.
  - exists h. rewrite <- E. rewrite app_nil_r, map_map. f_equal. apply map_ext. intros r. cbn [map concat]. symmetry. apply app_nil_r.
Qed.
Lemma ex_client : exists cfg e first more, Forall parses (first :: more) /\ Forall (fun r => r_type r = RHandshake \/ r_type r = RApplicationData) (first :: more) /\
  r_type first = RHandshake /\ more <> [] /\
  exists h, connect cfg e ServerExample.own_now ex_out (map wire (first :: more)) = (h, Some (Ok tt)).
Proof. destruct ex_client_ok as (cfg & e & first & more & _ & _ & X). now exists cfg, e, first, more. Qed.
(* and the client waits before it, and after the ServerHello *)
Lemma ex_waits cfg e now so first more h : Forall parses (first :: more) -> r_type first = RHandshake -> connect cfg e now so (map wire (first :: more)) = (h, Some (Ok tt)) ->
  (exists h0, connect cfg e now so [] = (h0, None)) /\ exists h1, connect cfg e now so [wire first] = (h1, None) /\ cl_state h1 = CsEncryptedExtensions.
Proof.
  intros P T E. unfold connect, client_do_handshake in *. destruct (send_client_hello cfg e (client_new e so)) as [h0 [u|er|]] eqn:S; [|destruct (report_error (cl_stream h0) er) as [s r] eqn:R; injection E as _ ->;
    unfold report_error in R; destruct (is_official er); cbn [sbind] in R; [destruct (write_alert _ _) as [? [| |]]|]; discriminate|discriminate].
  destruct (hello_idle _ _ _ _ _ S) as (I & St & _). split; [exists h0; cbn [client_reads]; now rewrite St|].
  inversion P as [|? ? P1 P2]; subst. change (map wire (first :: more)) with (wire first :: map wire more) in E.
  rewrite wire1 in E |- *. rewrite reads_group in E |- *; try (constructor; [exact P1|constructor]); try exact I; try discriminate; try congruence.
  cbn [csteps] in E |- *. unfold client_record in E |- *. rewrite T, St in E |- *.
  destruct (handle_server_hello cfg h0 first) as [h1 [u1|er|]] eqn:H; cbn [sbind then_reads] in E |- *; [|destruct (report_error (cl_stream h1) er) as [s r] eqn:R; injection E as _ ->;
    unfold report_error in R; destruct (is_official er); cbn [sbind] in R; [destruct (write_alert _ _) as [? [| |]]|]; discriminate|discriminate].
  assert (St1 : cl_state h1 = CsEncryptedExtensions).
  { clear E. revert H. unfold handle_server_hello. intros H. sinv H hs E1. destruct (negb _); [discriminate|]. sinv H sh E2. sinv H th E3. sinv H he E4.
    destruct (server_public_key_share _); [|discriminate]. sinv H ks E5. sinv H c E6. sinv H p E7. apply sbind_ok in H. destruct H as (h2 & u2 & _ & H). injection H as <-. reflexivity. }
  exists h1. cbn [client_reads]. rewrite St1. split; reflexivity.
Qed.
Lemma left_none cfg e now h0 : connect cfg e now ex_out [] = (h0, None) -> so_left (st_sock (cl_stream h0)) = None.
Proof.
  intros H. apply connect_none in H. destruct H as (h & u & S & H). destruct (hello_idle _ _ _ _ _ S) as (_ & St & _). cbn [client_reads] in H. rewrite St in H. injection H as <-.
  revert S. unfold send_client_hello. intros H. sinv H b E1. sinv H body E2. unfold tcp_write in H. cbn [cl_with_hello cl_stream client_new stream_new st_sock ex_out] in H. unfold write_all in H. cbn [so_left] in H.
  sinv H u1 E3. injection H as <- _. reflexivity.
Qed.
Lemma header_five r : parses r -> length (r_header r) = 5%nat.
Proof.
  unfold parses, record_from_raw. destruct (Nat.ltb (length (wire r)) 5); [discriminate|]. intros P.
  apply bind_ok in P. destruct P as (b0 & _ & P). apply bind_ok in P. destruct P as (t & _ & P). apply bind_ok in P. destruct P as (b1 & _ & P). apply bind_ok in P. destruct P as (b2 & _ & P).
  apply bind_ok in P. destruct P as (b3 & _ & P). apply bind_ok in P. destruct P as (b4 & _ & P). destruct (Nat.ltb _ _); [discriminate|].
  apply bind_ok in P. destruct P as (hd & Hh & P). apply bind_ok in P. destruct P as (f & _ & P). assert (r_header r = hd) as -> by (apply (f_equal (fun x => match x with Ok y => r_header (snd y) | _ => [] end)) in P; cbn [snd r_header] in P; congruence).
  unfold slice in Hh. destruct (_ && _)%bool eqn:B; [|discriminate]. apply (f_equal (fun x => match x with Ok y => length y | _ => 0%nat end)) in Hh. rewrite firstn_length, skipn_length in Hh.
  apply Bool.andb_true_iff in B. destruct B as (_ & B). apply Nat.leb_le in B. lia.
Qed.
Lemma long_hello cfg e now so first h1 : parses first -> r_type first = RHandshake -> connect cfg e now so [wire first] = (h1, None) -> cl_state h1 = CsEncryptedExtensions -> (8 <= length (wire first))%nat.
Proof.
  intros P T E St1. apply connect_none in E. destruct E as (h0 & u & S & E). destruct (hello_idle _ _ _ _ _ S) as (I & St & _).
  rewrite wire1, reads_group in E; [|congruence|exact I|discriminate|constructor; [exact P|constructor]].
  cbn [csteps] in E. unfold client_record in E. rewrite T, St in E.
  destruct (handle_server_hello cfg h0 first) as [h2 [u1|er|]] eqn:H; cbn [sbind then_reads] in E; try discriminate. clear E.
  unfold handle_server_hello in H. sinv H hs E1. assert (L : (4 <= length (r_fragment first))%nat).
  { unfold handshake_from_raw in E1. destruct (Nat.ltb_spec (length (r_fragment first)) 4) as [X|X]; [discriminate|exact X]. }
  unfold wire. rewrite app_length, header_five by exact P. lia.
Qed.
