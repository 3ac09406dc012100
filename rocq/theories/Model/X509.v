(* Model of anothertls/src/utils/x509.rs *)
From Verif Require Import Model.Base Model.Bytes Model.Der.

(* String::from_utf8 of the standard library: well-formed UTF-8 (Unicode 15, table 3-7) *)
Definition cont (b : Z) : bool := (128 <=? b) && (b <? 192).
Fixpoint utf8_valid (l : list Z) : bool :=
  match l with
  | [] => true
  | a :: t =>
      if a <? 0x80 then utf8_valid t
      else match t with
      | [] => false
      | b :: t =>
          if (0xC2 <=? a) && (a <=? 0xDF) then cont b && utf8_valid t
          else match t with
          | [] => false
          | c :: t =>
              if a =? 0xE0 then (0xA0 <=? b) && (b <=? 0xBF) && cont c && utf8_valid t
              else if ((0xE1 <=? a) && (a <=? 0xEC)) || ((0xEE <=? a) && (a <=? 0xEF)) then cont b && cont c && utf8_valid t
              else if a =? 0xED then (0x80 <=? b) && (b <=? 0x9F) && cont c && utf8_valid t
              else match t with
              | [] => false
              | d :: t =>
                  if a =? 0xF0 then (0x90 <=? b) && (b <=? 0xBF) && cont c && cont d && utf8_valid t
                  else if (0xF1 <=? a) && (a <=? 0xF3) then cont b && cont c && cont d && utf8_valid t
                  else if a =? 0xF4 then (0x80 <=? b) && (b <=? 0x8F) && cont c && cont d && utf8_valid t
                  else false
              end
          end
      end
  end.

(* utils/x509.rs:38-45 *)
Record utc_time := { t_year : Z; t_month : Z; t_day : Z; t_hour : Z; t_minute : Z; t_second : Z }.

(* utils/x509.rs:48-73. &t[k..] panics off a char boundary. *)
Definition two_digits {E} (t : list Z) (k : nat) : outcome E Z :=
  let! s := str_slice t k (length t) in str_to_u16 s.
Definition from_utc_timestamp {E} (t : list Z) : outcome E (option utc_time) :=
  if Nat.ltb (length t) 12 then Ok None
  else
    let! year := two_digits t 0 in
    let! month := two_digits t 2 in
    let! day := two_digits t 4 in
    let! hour := two_digits t 6 in
    let! minute := two_digits t 8 in
    let! second := two_digits t 10 in
    Ok (Some {| t_year := if year <? 50 then year + 2000 else year + 1900;
                t_month := month; t_day := day; t_hour := hour; t_minute := minute; t_second := second |}).

(* unsigned subtraction panics below zero *)
Definition usub {E} (a b : Z) : outcome E Z := if a <? b then Panic else Ok (a - b).

(* utils/x509.rs:74-90. All sums stay far below 2^64. *)
Definition days_since_year_start : list Z := [0; 31; 59; 90; 120; 151; 181; 212; 243; 273; 304; 334].
Definition get_unix_timestamp {E} (t : utc_time) : outcome E Z :=
  let! y1 := usub (t_year t) 1 in
  let! a := usub y1 1968 in
  let! b := usub y1 1900 in
  let! ab := usub (a / 4) (b / 100) in
  let! c := usub y1 1600 in
  let leap_years := ab + c / 400 in
  let! y0 := usub (t_year t) 1970 in
  let! m := usub (t_month t) 1 in
  let! md := idx days_since_year_start (Z.to_nat m) in
  let! d := usub (t_day t) 1 in
  let days := y0 * 365 + leap_years + md + d in
  Ok (days * 86400 + t_hour t * 3600 + t_minute t * 60 + t_second t).

(* utils/x509.rs:103-106 *)
Record validity := { v_not_before : option utc_time; v_not_after : option utc_time }.
(* utils/x509.rs:114-136; `now` is the system clock in seconds since 1970 *)
Definition is_valid {E} (v : validity) (now : Z) : outcome E bool :=
  let! early := match v_not_before v with
                | Some t => let! s := get_unix_timestamp t in Ok (now <? s)
                | None => Ok false
                end in
  if early then Ok false
  else
    let! late := match v_not_after v with
                 | Some t => let! s := get_unix_timestamp t in Ok (s <? now)
                 | None => Ok false
                 end in
    Ok (negb late).

(* utils/x509.rs:147-152 *)
Inductive algorithm := EcdsaWithSha256 | EcdsaWithSha384 | EcPublicKey | Sha256WithRSAEncryption.
(* utils/x509.rs:206-228: the strings are constructors here; the two RSA identifiers give one string *)
Inductive oid_name :=
| CountryName | StateOrProvinceName | OrganizationName | CommonName | O_ecdsaWithSHA256 | O_ecdsaWithSHA384
| Prime256v1 | O_ecPublicKey | EmailAddress | O_sha256WithRSAEncryption | LocalityName | OrganizationalUnitName | Unknown.
Definition parse_object_identifier (id : list Z) : oid_name :=
  let x := to_u128_be_fill id in
  if x =? 0x550406 then CountryName
  else if x =? 0x550408 then StateOrProvinceName
  else if x =? 0x55040a then OrganizationName
  else if x =? 0x550403 then CommonName
  else if x =? 0x2a8648ce3d040302 then O_ecdsaWithSHA256
  else if x =? 0x2a8648ce3d040303 then O_ecdsaWithSHA384
  else if x =? 0x2a8648ce3d030107 then Prime256v1
  else if x =? 0x2a8648ce3d0201 then O_ecPublicKey
  else if x =? 0x2a864886f70d010901 then EmailAddress
  else if x =? 0x2a864886f70d01010b then O_sha256WithRSAEncryption
  else if x =? 0x2a864886f70d010101 then O_sha256WithRSAEncryption
  else if x =? 0x550407 then LocalityName
  else if x =? 0x55040B then OrganizationalUnitName
  else Unknown.
(* utils/x509.rs:154-165 *)
Definition algorithm_new (s : oid_name) : outcome parse_error algorithm :=
  match s with
  | O_ecdsaWithSHA256 => Ok EcdsaWithSha256
  | O_ecdsaWithSHA384 => Ok EcdsaWithSha384
  | O_ecPublicKey => Ok EcPublicKey
  | O_sha256WithRSAEncryption => Ok Sha256WithRSAEncryption
  | _ => Err PAlgorithms
  end.

Definition oid_eqb (a b : oid_name) : bool :=
  match a, b with
  | CountryName, CountryName | StateOrProvinceName, StateOrProvinceName | OrganizationName, OrganizationName
  | CommonName, CommonName | O_ecdsaWithSHA256, O_ecdsaWithSHA256 | O_ecdsaWithSHA384, O_ecdsaWithSHA384
  | Prime256v1, Prime256v1 | O_ecPublicKey, O_ecPublicKey | EmailAddress, EmailAddress
  | O_sha256WithRSAEncryption, O_sha256WithRSAEncryption | LocalityName, LocalityName
  | OrganizationalUnitName, OrganizationalUnitName | Unknown, Unknown => true
  | _, _ => false
  end.

(* utils/x509.rs:240-266: HashMap<String, String> as an association list, and the pending key *)
Record name := { n_map : list (oid_name * list Z); n_key : option oid_name }.
Definition name_new : name := {| n_map := []; n_key := None |}.
Definition map_insert (k : oid_name) (v : list Z) (m : list (oid_name * list Z)) : list (oid_name * list Z) :=
  (k, v) :: filter (fun p => negb (oid_eqb (fst p) k)) m.
Definition name_get (n : name) (k : oid_name) : outcome parse_error (list Z) :=
  match find (fun p => oid_eqb (fst p) k) (n_map n) with Some p => Ok (snd p) | None => Err PNameGet end.
Definition add_object_identifier (n : name) (id : list Z) : name :=
  {| n_map := n_map n; n_key := Some (parse_object_identifier id) |}.
Definition add_value (n : name) (v : list Z) : outcome parse_error name :=
  match n_key n with
  | Some k => Ok {| n_map := map_insert k v (n_map n); n_key := None |}
  | None => Err PNameAddValue
  end.

(* utils/x509.rs:168-180 *)
Record alg_id := { ai_algorithm : algorithm; ai_parameters : option oid_name }.

(* utils/x509.rs:300-345, 402-416 (the two builders as one record; extension and raw_data stay None) *)
Record builder := {
  b_version : option Z; b_serial : option Z; b_signature_alg : option alg_id;
  b_issuer : name; b_not_before : option utc_time; b_not_after : option utc_time; b_subject : name;
  b_spki_alg : option alg_id; b_spki_key : option (list Z);
  b_tbs_size : nat; b_cert_alg : option algorithm; b_sig0 : option Z; b_sig1 : option Z }.
Definition builder_new : builder :=
  {| b_version := None; b_serial := None; b_signature_alg := None; b_issuer := name_new; b_not_before := None;
     b_not_after := None; b_subject := name_new; b_spki_alg := None; b_spki_key := None; b_tbs_size := 0;
     b_cert_alg := None; b_sig0 := None; b_sig1 := None |}.
(* field assignments *)
Definition set_version v b := {| b_version := Some v; b_serial := b_serial b; b_signature_alg := b_signature_alg b; b_issuer := b_issuer b; b_not_before := b_not_before b; b_not_after := b_not_after b; b_subject := b_subject b; b_spki_alg := b_spki_alg b; b_spki_key := b_spki_key b; b_tbs_size := b_tbs_size b; b_cert_alg := b_cert_alg b; b_sig0 := b_sig0 b; b_sig1 := b_sig1 b |}.
Definition set_serial v b := {| b_version := b_version b; b_serial := Some v; b_signature_alg := b_signature_alg b; b_issuer := b_issuer b; b_not_before := b_not_before b; b_not_after := b_not_after b; b_subject := b_subject b; b_spki_alg := b_spki_alg b; b_spki_key := b_spki_key b; b_tbs_size := b_tbs_size b; b_cert_alg := b_cert_alg b; b_sig0 := b_sig0 b; b_sig1 := b_sig1 b |}.
Definition set_signature_alg v b := {| b_version := b_version b; b_serial := b_serial b; b_signature_alg := Some v; b_issuer := b_issuer b; b_not_before := b_not_before b; b_not_after := b_not_after b; b_subject := b_subject b; b_spki_alg := b_spki_alg b; b_spki_key := b_spki_key b; b_tbs_size := b_tbs_size b; b_cert_alg := b_cert_alg b; b_sig0 := b_sig0 b; b_sig1 := b_sig1 b |}.
Definition set_issuer v b := {| b_version := b_version b; b_serial := b_serial b; b_signature_alg := b_signature_alg b; b_issuer := v; b_not_before := b_not_before b; b_not_after := b_not_after b; b_subject := b_subject b; b_spki_alg := b_spki_alg b; b_spki_key := b_spki_key b; b_tbs_size := b_tbs_size b; b_cert_alg := b_cert_alg b; b_sig0 := b_sig0 b; b_sig1 := b_sig1 b |}.
Definition set_not_before v b := {| b_version := b_version b; b_serial := b_serial b; b_signature_alg := b_signature_alg b; b_issuer := b_issuer b; b_not_before := Some v; b_not_after := b_not_after b; b_subject := b_subject b; b_spki_alg := b_spki_alg b; b_spki_key := b_spki_key b; b_tbs_size := b_tbs_size b; b_cert_alg := b_cert_alg b; b_sig0 := b_sig0 b; b_sig1 := b_sig1 b |}.
Definition set_not_after v b := {| b_version := b_version b; b_serial := b_serial b; b_signature_alg := b_signature_alg b; b_issuer := b_issuer b; b_not_before := b_not_before b; b_not_after := Some v; b_subject := b_subject b; b_spki_alg := b_spki_alg b; b_spki_key := b_spki_key b; b_tbs_size := b_tbs_size b; b_cert_alg := b_cert_alg b; b_sig0 := b_sig0 b; b_sig1 := b_sig1 b |}.
Definition set_subject v b := {| b_version := b_version b; b_serial := b_serial b; b_signature_alg := b_signature_alg b; b_issuer := b_issuer b; b_not_before := b_not_before b; b_not_after := b_not_after b; b_subject := v; b_spki_alg := b_spki_alg b; b_spki_key := b_spki_key b; b_tbs_size := b_tbs_size b; b_cert_alg := b_cert_alg b; b_sig0 := b_sig0 b; b_sig1 := b_sig1 b |}.
Definition set_spki_alg v b := {| b_version := b_version b; b_serial := b_serial b; b_signature_alg := b_signature_alg b; b_issuer := b_issuer b; b_not_before := b_not_before b; b_not_after := b_not_after b; b_subject := b_subject b; b_spki_alg := Some v; b_spki_key := b_spki_key b; b_tbs_size := b_tbs_size b; b_cert_alg := b_cert_alg b; b_sig0 := b_sig0 b; b_sig1 := b_sig1 b |}.
Definition set_spki_key v b := {| b_version := b_version b; b_serial := b_serial b; b_signature_alg := b_signature_alg b; b_issuer := b_issuer b; b_not_before := b_not_before b; b_not_after := b_not_after b; b_subject := b_subject b; b_spki_alg := b_spki_alg b; b_spki_key := Some v; b_tbs_size := b_tbs_size b; b_cert_alg := b_cert_alg b; b_sig0 := b_sig0 b; b_sig1 := b_sig1 b |}.
Definition set_tbs_size v b := {| b_version := b_version b; b_serial := b_serial b; b_signature_alg := b_signature_alg b; b_issuer := b_issuer b; b_not_before := b_not_before b; b_not_after := b_not_after b; b_subject := b_subject b; b_spki_alg := b_spki_alg b; b_spki_key := b_spki_key b; b_tbs_size := v; b_cert_alg := b_cert_alg b; b_sig0 := b_sig0 b; b_sig1 := b_sig1 b |}.
Definition set_cert_alg v b := {| b_version := b_version b; b_serial := b_serial b; b_signature_alg := b_signature_alg b; b_issuer := b_issuer b; b_not_before := b_not_before b; b_not_after := b_not_after b; b_subject := b_subject b; b_spki_alg := b_spki_alg b; b_spki_key := b_spki_key b; b_tbs_size := b_tbs_size b; b_cert_alg := Some v; b_sig0 := b_sig0 b; b_sig1 := b_sig1 b |}.
Definition set_sig0 v b := {| b_version := b_version b; b_serial := b_serial b; b_signature_alg := b_signature_alg b; b_issuer := b_issuer b; b_not_before := b_not_before b; b_not_after := b_not_after b; b_subject := b_subject b; b_spki_alg := b_spki_alg b; b_spki_key := b_spki_key b; b_tbs_size := b_tbs_size b; b_cert_alg := b_cert_alg b; b_sig0 := Some v; b_sig1 := b_sig1 b |}.
Definition set_sig1 v b := {| b_version := b_version b; b_serial := b_serial b; b_signature_alg := b_signature_alg b; b_issuer := b_issuer b; b_not_before := b_not_before b; b_not_after := b_not_after b; b_subject := b_subject b; b_spki_alg := b_spki_alg b; b_spki_key := b_spki_key b; b_tbs_size := b_tbs_size b; b_cert_alg := b_cert_alg b; b_sig0 := b_sig0 b; b_sig1 := Some v |}.

(* utils/x509.rs:435-440 *)
Inductive parsing_state := Init | InBitString | InSet.

(* utils/x509.rs:449-460 *)
Definition version_parse (data : list Z) : outcome parse_error Z :=
  match data with
  | [v] => if (v =? 0) || (v =? 1) || (v =? 2) then Ok v else Err PVersion
  | _ => Err PVersion
  end.

(* utils/x509.rs:503-513 *)
Definition on_integer (b : builder) (int : Z) : builder :=
  match b_serial b with
  | None => set_serial int b
  | Some _ => match b_sig0 b with None => set_sig0 int b | Some _ => set_sig1 int b end
  end.
(* utils/x509.rs:515-522 *)
Definition on_set_oid (b : builder) (body : list Z) : builder :=
  match b_not_after b with
  | None => set_issuer (add_object_identifier (b_issuer b) body) b
  | Some _ => set_subject (add_object_identifier (b_subject b) body) b
  end.
(* utils/x509.rs:523-555 *)
Definition on_init_oid (b : builder) (body : list Z) : outcome parse_error builder :=
  let oji := parse_object_identifier body in
  match b_signature_alg b with
  | None => let! a := algorithm_new oji in Ok (set_signature_alg {| ai_algorithm := a; ai_parameters := None |} b)
  | Some _ =>
      match b_spki_alg b with
      | None => let! a := algorithm_new oji in Ok (set_spki_alg {| ai_algorithm := a; ai_parameters := None |} b)
      | Some ai =>
          match ai_parameters ai with
          | None => Ok (set_spki_alg {| ai_algorithm := ai_algorithm ai; ai_parameters := Some oji |} b)
          | Some _ =>
              match b_cert_alg b with
              | None => let! a := algorithm_new oji in Ok (set_cert_alg a b)
              | Some _ => Ok b
              end
          end
      end
  end.
(* utils/x509.rs:558-569 *)
Definition on_string (b : builder) (body : list Z) : outcome parse_error builder :=
  if negb (utf8_valid body) then Err PUtf8String
  else match b_not_after b with
       | None => let! n := add_value (b_issuer b) body in Ok (set_issuer n b)
       | Some _ => let! n := add_value (b_subject b) body in Ok (set_subject n b)
       end.
(* utils/x509.rs:574-589 *)
Definition on_time (b : builder) (body : list Z) : outcome parse_error builder :=
  if negb (utf8_valid body) then Err PUtf8StringTimestamp
  else
    let! t := from_utc_timestamp body in
    match t with
    | None => Err PTimeStamp
    | Some t => match b_not_before b with None => Ok (set_not_before t b) | Some _ => Ok (set_not_after t b) end
    end.
(* utils/x509.rs:473-478 *)
Definition on_sequence (b : builder) (size : nat) : builder :=
  if Nat.eqb (b_tbs_size b) 0 then set_tbs_size 1%nat b
  else if Nat.eqb (b_tbs_size b) 1 then set_tbs_size (size + 4)%nat b
  else b.

(* errors of the recursive parser: None is lack of fuel, which Proofs/X509.v excludes *)
Definition perr (A : Type) := outcome (option parse_error) A.
Definition lift {A} (m : outcome parse_error A) : perr A :=
  match m with Ok a => Ok a | Err e => Err (Some e) | Panic => Panic end.

(* the two `while size_should > *consumed` loops of parse *)
Fixpoint parse_while (step : builder -> nat -> perr (builder * nat)) (k : nat) (limit : nat) (b : builder) (c : nat)
    : perr (builder * nat) :=
  match k with
  | O => Err None
  | S k' =>
      if Nat.ltb c limit then let! (b', c') := step b c in parse_while step k' limit b' c'
      else Ok (b, c)
  end.

(* utils/x509.rs:462-626. A SET is entered without a loop; ContextSpecific skips its body. *)
Fixpoint parse (fuel : nat) (b : builder) (st : parsing_state) (data : list Z) (c : nat) : perr (builder * nat) :=
  match fuel with
  | O => Err None
  | S f =>
      let! (size, form, c) := lift (der_parse c data) in
      let! body := slice data c (c + size) in
      match form with
      | Constructed DSequence =>
          parse_while (fun b c => parse f b st data c) f (size + c) (on_sequence b size) c
      | Constructed (DContextSpecific tag) =>
          let! b' := (if tag =? 0 then let! v := slice_from body 2 in
                                       let! x := lift (version_parse v) in Ok (set_version x b)
                      else Ok b) in
          Ok (b', (c + size)%nat)
      | Constructed DSet => parse f b InSet data c
      | Constructed _ => Panic
      | Primitive DInteger => Ok (on_integer b (to_ibig_be body), (c + size)%nat)
      | Primitive DObjectIdentifier =>
          match st with
          | InSet => Ok (on_set_oid b body, (c + size)%nat)
          | Init => let! b' := lift (on_init_oid b body) in Ok (b', (c + size)%nat)
          | InBitString => Panic
          end
      | Primitive DPrintableString | Primitive DUtf8String =>
          let! b' := lift (on_string b body) in Ok (b', (c + size)%nat)
      | Primitive DOctetString => Panic
      | Primitive DUtcTime => let! b' := lift (on_time b body) in Ok (b', (c + size)%nat)
      | Primitive DBitString =>
          let! x := idx data (c + 1) in
          if x =? 0x30 then
            parse_while (fun b c => parse f b InBitString data c) f (size + (c + 1) - 1) b (c + 1)
          else
            let! unused := idx data c in
            if negb (unused =? 0) then Panic
            else
              let! b' := match b_spki_key b with
                         | None => let! k := slice_from body 1 in Ok (set_spki_key k b)
                         | Some _ => Ok b
                         end in
              Ok (b', (c + size)%nat)
      | Primitive DNull => Panic
      | Primitive _ => Err (Some PNotYetImplemented)
      end
  end.

(* utils/x509.rs:348-353, 286-297, 189-204 (the parts read anywhere) *)
Record x509 := {
  x_version : option Z; x_serial : Z; x_tbs_alg : alg_id; x_issuer : name; x_validity : validity; x_subject : name;
  x_spki_alg : alg_id; x_spki_key : list Z;
  x_tbs_size : nat; x_sig_alg : algorithm; x_signature : option (Z * Z)  (* (r, s) *) }.

(* utils/x509.rs:417-433, 325-341, 196-204 *)
Definition build (b : builder) : outcome parse_error x509 :=
  match b_serial b, b_signature_alg b with
  | Some serial, Some tbs_alg =>
      match b_spki_alg b with
      | None => Err PSubjectPublicKeyInfo
      | Some spki =>
          let! key := unwrap (b_spki_key b) in
          let! alg := unwrap (b_cert_alg b) in
          Ok {| x_version := b_version b; x_serial := serial; x_tbs_alg := tbs_alg; x_issuer := b_issuer b;
                x_validity := {| v_not_before := b_not_before b; v_not_after := b_not_after b |};
                x_subject := b_subject b; x_spki_alg := spki; x_spki_key := key; x_tbs_size := b_tbs_size b;
                x_sig_alg := alg;
                x_signature := match b_sig0 b, b_sig1 b with Some r, Some s => Some (r, s) | _, _ => None end |}
      end
  | _, _ => Err PTbsBuilder
  end.

(* utils/x509.rs:356-362, with fuel that Proofs/X509.v shows sufficient *)
Definition x509_from_raw (data : list Z) : perr x509 :=
  let! (b, _) := parse (S (length data)) builder_new Init data 0 in lift (build b).

(* utils/x509.rs:363-400: the point of a P-256 key. Compressed points are todo!(). *)
Definition get_public_key {E} (x : x509) : outcome E (option (Z * Z)) :=
  match ai_algorithm (x_spki_alg x), ai_parameters (x_spki_alg x) with
  | EcPublicKey, Some Prime256v1 =>
      let k := x_spki_key x in
      let! b0 := idx k 0 in
      if negb (b0 =? 4) then Panic
      else
        let! xs := slice k 1 33 in
        let! ys := slice k 33 65 in
        Ok (Some (to_ibig_be xs, to_ibig_be ys))
  | _, _ => Ok None
  end.
