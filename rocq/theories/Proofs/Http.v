(* The messages of the example programs as HTTP *)
From Coq Require String.
From Verif Require Import Proofs.Util Model.Keylog Model.Examples Spec.Http.
Import String.StringSyntax.
Local Open Scope string_scope.
Local Open Scope list_scope.

Definition one_lineb (l : list Z) : bool := forallb (fun b => (0 <=? b) && (b <? 256) && negb (b =? 13) && negb (b =? 10)) l.
Lemma one_line_check l : one_lineb l = true -> one_line l.
Proof.
  intros H. apply Forall_forall. intros b I. apply (proj1 (forallb_forall _ _) H) in I. cbv beta in I.
  rewrite !andb_true_iff, !negb_true_iff in I. destruct I as (((A & B) & C) & D).
  apply Z.leb_le in A. apply Z.ltb_lt in B. apply Z.eqb_neq in C. apply Z.eqb_neq in D. lia.
Qed.
Lemma first_end a b x y r s : one_line a -> one_line b -> (x = 13 \/ x = 10) -> (y = 13 \/ y = 10) -> a ++ x :: r = b ++ y :: s -> a = b /\ x = y /\ r = s.
Proof.
  revert b. induction a as [|c a IH]; intros [|e b] A B X Y E; cbn [app] in E.
  - injection E as -> ->. auto.
  - injection E as -> _. inversion B as [|? ? H _]; subst. lia.
  - injection E as -> _. inversion A as [|? ? H _]; subst. lia.
  - injection E as -> E. inversion A; subst. inversion B; subst. destruct (IH b ltac:(assumption) ltac:(assumption) X Y E) as (-> & -> & ->). auto.
Qed.
Lemma one_line_app a b : one_line a -> one_line b -> one_line (a ++ b).
Proof. intros A B. apply Forall_app. auto. Qed.

(* the lines of a message, one by one *)
Lemma message_start start fields body m line rest : http_message start fields body m -> one_line line -> m = line ++ CRLF ++ rest ->
  start = line /\ rest = concat (map field_line fields) ++ CRLF ++ body.
Proof.
  intros (S & _ & E) L M. rewrite E in M. unfold CRLF in M. cbn [app] in M. apply first_end in M; auto. destruct M as (-> & _ & M). injection M as M. auto.
Qed.
Lemma request_not host start fields body : one_line host -> ~ http_message start fields body (http_request host).
Proof.
  intros Hh H. pose proof H as (_ & F & _). destruct (message_start _ _ _ _ (str "GET / HTTP/1.1") (str "Host: " ++ host ++ [10] ++ str "User-Agent: AnotherTls/0.1" ++ CRLF ++ CRLF) H) as (_ & E).
  - apply one_line_check. reflexivity.
  - unfold http_request, crlf, CRLF. reflexivity.
  - destruct fields as [|[n v] fields].
    + cbn [map concat app] in E. discriminate E.
    + inversion F as [|? ? (_ & N & V) _]; subst. cbn [fst snd] in *. cbn [map concat] in E. unfold field_line in E at 1. cbn [fst snd] in E.
      assert (E' : (str "Host: " ++ host) ++ 10 :: (str "User-Agent: AnotherTls/0.1" ++ CRLF ++ CRLF) = (n ++ [58; 32] ++ v) ++ 13 :: ([10] ++ concat (map field_line fields) ++ CRLF ++ body)).
      { repeat rewrite <- app_assoc. repeat rewrite <- app_assoc in E. exact E. }
      apply first_end in E'; [destruct E' as (_ & E' & _); discriminate E'| | |auto|auto].
      * apply one_line_app; [apply one_line_check; reflexivity|exact Hh].
      * apply one_line_app; [exact N|]. apply one_line_app; [apply one_line_check; reflexivity|exact V].
Qed.
Lemma response_status r start fields body code reason : In r [https_response; admin_response] -> http_message start fields body r -> ~ status_line start code reason.
Proof.
  intros I H (S & L & _). assert (X : exists rest, r = str "HTTP/1.1 200" ++ CRLF ++ rest) by (destruct I as [<-|[<-|[]]]; eexists; reflexivity).
  destruct X as (rest & X). destruct (message_start _ _ _ _ _ rest H (one_line_check (str "HTTP/1.1 200") eq_refl) X) as (E & _).
  rewrite E in S. apply (f_equal (@length Z)) in S. rewrite !app_length, L in S. cbn in S. lia.
Qed.
Lemma response_framed r : In r [https_response; admin_response] -> exists start fields body len,
  http_message start fields body r /\ In (content_length, len) fields /\ decimal len (zlen body).
Proof.
  set (fs := fun len => [(str "Server", str "AnotherTls/1.0"); (str "Content-Type", str "text/html; charset=utf-8"); (str "Content-Length", len)]).
  assert (X : forall len body, one_lineb len = true -> http_message (str "HTTP/1.1 200") (fs len) body
    (str "HTTP/1.1 200" ++ CRLF ++ concat (map field_line (fs len)) ++ CRLF ++ body)).
  { intros len body Hl. split; [apply one_line_check; reflexivity|]. split; [|reflexivity].
    repeat constructor; try discriminate; cbn [fst snd]; apply one_line_check; first [exact Hl|reflexivity]. }
  assert (D : forall c c', 48 <= c <= 57 -> 48 <= c' <= 57 -> decimal [c; c'] (10 * (c - 48) + (c' - 48))).
  { intros c c' H H'. split; [discriminate|]. split; [auto|]. cbn [fold_left]. lia. }
  intros [<-|[<-|[]]].
  - exists (str "HTTP/1.1 200"), (fs (str "12")), (str "Hello world!"), (str "12"). split; [exact (X (str "12") (str "Hello world!") eq_refl)|]. split; [right; right; left; reflexivity|].
    apply (D 49 50); lia.
  - exists (str "HTTP/1.1 200"), (fs (str "13")), (str "Hello admin!" ++ [10]), (str "13"). split; [exact (X (str "13") (str "Hello admin!" ++ [10]) eq_refl)|]. split; [right; right; left; reflexivity|].
    apply (D 49 51); lia.
Qed.
(* however the message is taken apart, this is its body *)
Lemma message_unique s1 f1 b1 s2 f2 b2 m : http_message s1 f1 b1 m -> http_message s2 f2 b2 m -> b1 = b2.
Proof.
  intros (S1 & F1 & E1) (S2 & F2 & E2). rewrite E2 in E1. clear E2 m. unfold CRLF in E1 at 1 4. cbn [app] in E1. apply first_end in E1; auto. destruct E1 as (_ & _ & E). injection E as E.
  clear s1 s2 S1 S2. revert f2 F2 E. induction F1 as [|[n1 v1] f1 (N0 & N1 & V1) F1 IH]; intros f2 F2 E; destruct F2 as [|[n2 v2] f2 (M0 & N2 & V2) F2]; cbn [map concat fst snd] in *.
  - unfold CRLF in E. cbn [app] in E. now injection E.
  - exfalso. unfold field_line in E at 1. cbn [fst snd] in E. destruct n2 as [|c n2]; [contradiction|]. cbn [app] in E. injection E as E _. inversion N2; subst. lia.
  - exfalso. unfold field_line in E at 1. cbn [fst snd] in E. destruct n1 as [|c n1]; [contradiction|]. cbn [app] in E. injection E as E _. inversion N1; subst. lia.
  - assert (E' : (n2 ++ [58; 32] ++ v2) ++ 13 :: 10 :: (concat (map field_line f2) ++ CRLF ++ b2) = (n1 ++ [58; 32] ++ v1) ++ 13 :: 10 :: (concat (map field_line f1) ++ CRLF ++ b1)).
    { unfold field_line in E at 1 3. cbn [fst snd] in E. repeat rewrite <- app_assoc in E. repeat rewrite <- app_assoc. exact E. }
    apply first_end in E'; [|apply one_line_app; [assumption|]; apply one_line_app; [apply one_line_check; reflexivity|assumption]..|auto|auto].
    destruct E' as (_ & _ & E'). injection E' as E'. exact (IH _ F2 E').
Qed.
