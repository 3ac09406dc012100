(* C79: servers that bring a client down with the first record after the ServerHello. Property theorems only. *)
From Verif Require Import Model.Base Model.Alert Model.Record Model.Stream Model.Server Model.Client Spec.Enc Spec.Connection Spec.ClientConnection Spec.Handshaking Spec.Crashes Spec.ClientCrashes Spec.Broken.
From Verif Require Proofs.ClientBroken Proofs.Anytime Proofs.AnyStageClient Proofs.ServerAccept Proofs.EndsExample Proofs.ClientAlerts Proofs.CertExample Proofs.Util.
From Coq Require Import Lia.

(* ---- C79: accept and connect do not panic ---- *)
(* False of every client that has agreed on keys: if the first record after the ServerHello, but for change_cipher_spec records, is one
   of Spec/Broken.v, it brings the client down, in any reads.  The first two kinds take no keys, so anybody on the way can send them. *)
Theorem C79_client_first_record_refuted : forall cfg e now so first sh g,
    client_ok cfg e -> so_left so = None -> whole first -> r_type first = RHandshake -> agrees cfg e (r_fragment first) sh g ->
  forall r rest more groups later, broken (opens_server g 0) r -> without_ccs more = r :: rest -> Forall whole more ->
    Forall (fun gr => gr <> []) groups -> concat groups = first :: more ->
    snd (connect cfg e now so (map (fun x => concat (map wire x)) groups ++ later)) = Some Panic.
Proof. exact Proofs.ClientBroken.client_crashed_first. Qed.
Print Assumptions C79_client_first_record_refuted.

(* an alert of one byte, a protected record of three, and EncryptedExtensions of one byte that are said to have five *)
Example C79_client_first_record_ex : exists cfg e first sh g r1 r2 r3, client_ok cfg e /\ whole first /\ r_type first = RHandshake /\
  agrees cfg e (r_fragment first) sh g /\ forall r, In r [r1; r2; r3] -> whole r /\ broken (opens_server g 0) r /\ without_ccs [r] = [r].
Proof.
  destruct (Proofs.CertExample.presents [8; 0; 0; 5; 1]) as (cfg & e & first & sh & g & r1 & H1 & H2 & H3 & H4 & H5 & H6 & H7);
    [apply Proofs.Util.is_bytes_check; reflexivity|reflexivity|].
  assert (R : exists ra rs, (whole ra /\ r_type ra = RAlert /\ r_fragment ra = [2]) /\ whole rs /\ r_type rs = RApplicationData /\ r_fragment rs = [1; 2; 3]).
  { eexists (Build_record RAlert 771 1 [21; 3; 3; 0; 1] [2]), (Build_record RApplicationData 771 3 [23; 3; 3; 0; 3] [1; 2; 3]).
    split; (split; [split; [vm_compute; reflexivity|apply Proofs.Util.is_bytes_check; reflexivity]|split; reflexivity]). }
  destruct R as (ra & rs & (A1 & A2 & A3) & S1 & S2 & S3). exists cfg, e, first, sh, g, ra, rs, r1.
  do 4 (split; [assumption|]). intros r [<- | [<- | [<- | []]]].
  - split; [exact A1|]. split; [apply broken_alert; [exact A2|rewrite A3; cbn; lia]|]. unfold without_ccs, is_ccs. cbn [filter]. now rewrite A2.
  - split; [exact S1|]. split; [apply broken_short; [congruence|congruence|rewrite S3; cbn; lia]|]. unfold without_ccs, is_ccs. cbn [filter]. now rewrite S2.
  - split; [exact H5|]. split; [eapply broken_frame; [exact H6|exact H7|cbn; auto 10|reflexivity]|]. unfold without_ccs, is_ccs. cbn [filter]. now rewrite H6.
Qed.

(* However far the handshake has come, at the beginning of a read: an alert of fewer than two bytes brings every client down that waits,
   and once it has read a record, so does a protected record without room for its tag *)
Theorem C79_client_short_record_refuted : forall cfg e now so recs before r more later h,
  delivers recs before -> Forall (fun r => record_from_raw (wire r) = Ok (length (wire r), r)) recs -> Forall (fun r => r_type r <> RAlert) recs ->
  connect cfg e now so before = (h, None) -> record_from_raw (wire r) = Ok (length (wire r), r) ->
  (r_type r = RAlert /\ (length (r_fragment r) < 2)%nat) \/
  (recs <> [] /\ r_type r <> RAlert /\ r_type r <> RChangeCipherSpec /\ (length (r_fragment r) < 16)%nat) ->
  snd (connect cfg e now so (before ++ (wire r ++ more) :: later)) = Some Panic.
Proof. exact Proofs.Anytime.connect_short. Qed.
Print Assumptions C79_client_short_record_refuted.
(* a client that has read a ServerHello, and one of each *)
Example C79_client_short_record_ex : exists cfg e now so recs before h, connect cfg e now so before = (h, None) /\ recs <> [] /\
  delivers recs before /\ Forall (fun r => record_from_raw (wire r) = Ok (length (wire r), r)) recs /\ Forall (fun r => r_type r <> RAlert) recs /\
  exists r1 r2, record_from_raw (wire r1) = Ok (length (wire r1), r1) /\ record_from_raw (wire r2) = Ok (length (wire r2), r2) /\
    r_type r1 = RAlert /\ r_fragment r1 = [2] /\ r_type r2 = RApplicationData /\ r_fragment r2 = [1; 2; 3].
Proof.
  destruct Proofs.EndsExample.client_keyed_ex as (cfg & e & now & so & first & h & p & W & T & C & _). exists cfg, e, now, so, [first], [wire first], h. split; [exact C|].
  split; [discriminate|]. split; [apply Proofs.ClientAlerts.delivers_one|]. split; [constructor; [exact (proj1 W)|constructor]|]. split; [constructor; [congruence|constructor]|].
  exists (Build_record RAlert 771 1 [21; 3; 3; 0; 1] [2]), (Build_record RApplicationData 771 3 [23; 3; 3; 0; 3] [1; 2; 3]).
  split; [vm_compute; reflexivity|]. split; [vm_compute; reflexivity|]. auto.
Qed.

(* Once it has read a record, the records of Spec/Broken.v at the beginning of a read bring every client down that waits, whatever has come
   before; those that take keys are to be under the next number n *)
Theorem C79_client_any_stage_refuted : forall cfg e now so recs before h, client_ok cfg e -> delivers recs before ->
  Forall (fun r => record_from_raw (wire r) = Ok (length (wire r), r)) recs -> Forall (fun r => r_type r <> RAlert) recs -> recs <> [] ->
  is_bytes (concat before) -> zlen (concat before) < 2^25 -> connect cfg e now so before = (h, None) ->
  exists first sh g n, within (concat before) first /\ r_type first = RHandshake /\ agrees cfg e (r_fragment first) sh g /\ 0 <= n /\
    forall r more later, whole r -> broken (opens_server g n) r -> snd (connect cfg e now so (before ++ (wire r ++ more) :: later)) = Some Panic.
Proof. exact Proofs.AnyStageClient.connect_broken. Qed.
Print Assumptions C79_client_any_stage_refuted.
Example C79_client_any_stage_ex : exists cfg e now so recs before h, client_ok cfg e /\ delivers recs before /\
  Forall (fun r => record_from_raw (wire r) = Ok (length (wire r), r)) recs /\ Forall (fun r => r_type r <> RAlert) recs /\ recs <> [] /\
  is_bytes (concat before) /\ zlen (concat before) < 2^25 /\ connect cfg e now so before = (h, None).
Proof.
  destruct Proofs.EndsExample.client_keyed_ok as (cfg & e & now & so & first & h & p & O & W & T & C & _). exists cfg, e, now, so, [first], [wire first], h.
  split; [exact O|]. split; [apply Proofs.ClientAlerts.delivers_one|]. split; [constructor; [exact (proj1 W)|constructor]|]. split; [constructor; [congruence|constructor]|].
  split; [discriminate|]. cbn [concat]. rewrite app_nil_r. split; [exact (proj2 W)|]. split; [|exact C].
  destruct (Proofs.ServerAccept.whole_formed _ W) as (_ & L5 & _ & Lf). unfold wire, zlen in *. rewrite app_length. lia.
Qed.
