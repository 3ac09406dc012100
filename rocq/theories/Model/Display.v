(* Model of the two Display implementations of anothertls/src/utils/x509.rs *)
From Coq Require String.
From Verif Require Import Model.Base Model.Der Model.X509 Model.Keylog.
Import String.StringSyntax.
Local Open Scope string_scope.
Local Open Scope list_scope.

(* `{}` of a u16 (core::fmt): decimal, no leading zeros, at most five digits *)
Fixpoint dec_go (fuel : nat) (n : Z) (acc : list Z) : list Z :=
  match fuel with
  | O => acc
  | S f => let acc := 48 + n mod 10 :: acc in if n <? 10 then acc else dec_go f (n / 10) acc
  end.
Definition dec (n : Z) : list Z := dec_go 5 n [].
(* `{:0>2}`: zeros on the left up to two characters *)
Definition pad2 (n : Z) : list Z := repeat 48 (2 - length (dec n)) ++ dec n.
(* utils/x509.rs:92-101 *)
Definition utc_display (t : utc_time) : list Z :=
  pad2 (t_hour t) ++ str ":" ++ pad2 (t_minute t) ++ str ":" ++ pad2 (t_second t) ++ str " " ++
  pad2 (t_month t) ++ str "/" ++ pad2 (t_day t) ++ str "/" ++ dec (t_year t).

(* utils/x509.rs:274-282; self.0.get(key).unwrap_or(&empty) *)
Definition get_or_empty (n : name) (k : oid_name) : list Z := match name_get n k with Ok v => v | _ => [] end.
Definition name_display (n : name) : list Z :=
  str "C=" ++ get_or_empty n CountryName ++ str "; ST=" ++ get_or_empty n StateOrProvinceName ++
  str "; O=" ++ get_or_empty n OrganizationName ++ str "; CN=" ++ get_or_empty n CommonName.
