From Verif Require Import Proofs.Util Model.Alert Spec.Alerts.

Lemma codes e c : e <> BadRecordMac -> e <> DecryptError -> e <> DecodeError ->
  rfc8446_code e = Some c -> error_as_u8 e = c /\ error_new c = e.
Proof. destruct e; cbn [rfc8446_code]; intros ? ? ? H; inversion H; subst; try congruence; split; reflexivity. Qed.
Lemma bad_record_mac : rfc8446_code BadRecordMac = Some 20 /\ error_as_u8 BadRecordMac = 0 /\ error_new 20 <> BadRecordMac.
Proof. repeat split. discriminate. Qed.
Lemma swapped :
  rfc8446_code DecodeError = Some 50 /\ error_as_u8 DecodeError = 51 /\ error_new 50 = DecryptError /\
  rfc8446_code DecryptError = Some 51 /\ error_as_u8 DecryptError = 50 /\ error_new 51 = DecodeError.
Proof. repeat split. Qed.
Lemma round_trip e c : e <> BadRecordMac -> rfc8446_code e = Some c -> error_new (error_as_u8 e) = e.
Proof. destruct e; cbn [rfc8446_code]; intros ? H; inversion H; subst; try congruence; reflexivity. Qed.
Lemma distinct e f c d : e <> BadRecordMac -> f <> BadRecordMac ->
  rfc8446_code e = Some c -> rfc8446_code f = Some d -> error_as_u8 e = error_as_u8 f -> e = f.
Proof.
  intros He Hf Hc Hd H. rewrite <- (round_trip e c He Hc), <- (round_trip f d Hf Hd), H. reflexivity.
Qed.
Lemma level e : alert_level e = (if match e with CloseNotify => true | _ => false end then 1 else 2).
Proof. destruct e; reflexivity. Qed.
