(* What a parsed certificate must show of the encoded one. *)
From Verif Require Import Model.Base Model.Der Model.X509 Spec.Enc Spec.Calendar Spec.X509.

(* the program's time, attribute and algorithm names for the specification's *)
Definition as_utc (i : instant) : utc_time :=
  {| t_year := year i; t_month := month i; t_day := day i; t_hour := hour i; t_minute := minute i; t_second := second i |}.
Definition key_of (a : attribute_type) : oid_name :=
  match a with
  | Country => CountryName | State => StateOrProvinceName | Locality => LocalityName
  | Organization => OrganizationName | OrganizationalUnit => OrganizationalUnitName | Common => CommonName
  | Email => EmailAddress
  end.
Definition alg_of (a : ecdsa_alg) : algorithm := match a with ecdsa_sha256 => EcdsaWithSha256 | ecdsa_sha384 => EcdsaWithSha384 end.
Definition ai (a : algorithm) (p : option oid_name) : alg_id := {| ai_algorithm := a; ai_parameters := p |}.

(* the attributes of a parsed name, looked up one by one *)
Definition shows_name (n : name) (l : list attribute) : Prop :=
  forall k, name_get n (key_of k) = match last_value k l with Some v => Ok v | None => Err PNameGet end.

(* x shows the fields of c, with the given notAfter and subject *)
Definition shows (x : x509) (c : certificate) (not_after : instant) (subject : list attribute) : Prop :=
  let t := c_tbs c in
  x_version x = tbs_version t /\
  x_serial x = be_val (tbs_serial t) /\
  x_tbs_alg x = ai (alg_of (tbs_signature t)) None /\
  shows_name (x_issuer x) (tbs_issuer t) /\
  x_validity x = {| v_not_before := Some (as_utc (tbs_not_before t)); v_not_after := Some (as_utc not_after) |} /\
  shows_name (x_subject x) subject /\
  get_public_key (E:=Empty_set) x = Ok (Some (tbs_x t, tbs_y t)) /\
  x_sig_alg x = alg_of (c_algorithm c) /\
  x_signature x = Some (be_val (c_r c), be_val (c_s c)).
