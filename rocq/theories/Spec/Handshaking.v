(* Vocabulary of the statements about how handshakes are read and how they fail. *)
From Verif Require Import Model.Base Model.Alert Model.Suite Model.KeySchedule Model.Record Model.Stream
  Spec.Rfc8446Keys Spec.Tls13Record Spec.Endpoints Spec.Connection.

(* one TCP read that returned these records *)
Definition bytes_of (recs : list record) : list Z := concat (map wire recs).
(* reads without change_cipher_spec records; a read of nothing else disappears *)
Definition nonempty {A} (l : list A) : bool := match l with [] => false | _ => true end.
Definition groups_without_ccs (groups : list (list record)) : list (list record) := filter nonempty (map without_ccs groups).

(* w is an alert record: in the clear without keys; else under the sender's own key and record number *)
Definition alert_bytes (p : option rpp) (level code : Z) (w : list Z) : Prop :=
  match p with
  | None => w = [21; 3; 3; 0; 2; level; code]
  | Some p =>
      let k := side_key (rp_is_client p) (cur_keys p) in
      let nonce := record_nonce (k_iv k) (k_seq k) in
      let header := [23; 3; 3; 0; 19] in
      exists e tag, w = header ++ e ++ tag /\ length e = 3%nat /\
        tag = aead_tag_of (c_aead (rp_cipher p)) (k_key k) nonce header e /\
        cipher_decrypt (rp_cipher p) (k_key k) nonce e header tag = Ok [level; code; 21]
  end.
(* what the caller sees: the error, or the alert that was received *)
Definition reported (e : tls_error) : tls_error := match e with GotAlert code => error_new code | _ => e end.

(* How the client may be handed a sequence of records: several in one read; or one record in two or more reads, whole
   records before its beginning and after its end, if at the end of each read fewer than five bytes of the record are
   there or at least four are missing. *)
Definition well_cut (w p : list Z) : Prop := (length p < 5)%nat \/ (length p + 4 <= length w)%nat.
Inductive delivers : list record -> list (list Z) -> Prop :=
| delivers_nil : delivers [] []
| delivers_whole gr recs reads : gr <> [] -> delivers recs reads -> delivers (gr ++ recs) (bytes_of gr :: reads)
| delivers_cut before r after first mids last recs reads :
    wire r = first ++ concat mids ++ last -> Forall (fun m => m <> []) (first :: last :: mids) ->
    (forall k, well_cut (wire r) (first ++ concat (firstn k mids))) -> delivers recs reads ->
    delivers (before ++ r :: after ++ recs) ((bytes_of before ++ first) :: mids ++ (last ++ bytes_of after) :: reads).
