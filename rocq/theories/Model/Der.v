(* Model of anothertls/src/utils/der.rs *)
From Verif Require Import Model.Base Model.Bytes.

(* utils/x509.rs:21-36 *)
Inductive parse_error :=
| PAlgorithms | PSubjectPublicKeyInfo | PUtf8StringTimestamp | PNameGet | PNameAddValue | PTbsBuilder | PDerParseType
| PDerParseLen | PVersion | PUtf8String | PTimeStamp | PMissingObjectIdentifier | PNotYetImplemented.

(* utils/der.rs:10-25 *)
Inductive der_type :=
| DInteger | DBitString | DOctetString | DNull | DObjectIdentifier | DUtf8String | DPrintableString | DUtcTime
| DGeneralizedTime | DSequence | DSet | DContextSpecific (tag : Z).
(* utils/der.rs:28-32 *)
Inductive encoded_form := Constructed (d : der_type) | Primitive (d : der_type).

(* utils/der.rs:35-73 *)
Definition der_from_u8 (tag : Z) : option encoded_form :=
  let content := Z.land tag 0x1F in
  let der :=
    if Z.land (Z.shiftr tag 6) 3 =? 2 then Some (DContextSpecific (Z.land tag 0xf))
    else if content =? 0x02 then Some DInteger
    else if content =? 0x03 then Some DBitString
    else if content =? 0x04 then Some DOctetString
    else if content =? 0x05 then Some DNull
    else if content =? 0x06 then Some DObjectIdentifier
    else if content =? 0x0C then Some DUtf8String
    else if content =? 0x13 then Some DPrintableString
    else if content =? 0x17 then Some DUtcTime
    else if content =? 0x18 then Some DGeneralizedTime
    else if content =? 0x10 then Some DSequence
    else if content =? 0x11 then Some DSet
    else if content =? 0x16 then Some DUtf8String
    else None in
  match der with
  | None => None
  | Some d =>
      if Z.land (Z.shiftr tag 5) 1 =? 1 then
        match d with DInteger | DObjectIdentifier | DNull => None | _ => Some (Constructed d) end
      else
        match d with DSequence | DSet => None | _ => Some (Primitive d) end
  end.

(* utils/der.rs:89-101; returns the size and the new position *)
Definition get_len {E} (data : list Z) (consumed : nat) : outcome E (Z * nat) :=
  let! b := idx data consumed in
  if Z.land (Z.shiftr b 7) 1 =? 1 then
    let n := Z.to_nat (Z.land b 0x7F) in
    let! s := slice data (consumed + 1) (consumed + 1 + n) in
    Ok (u64 (to_u128_be_fill s), (consumed + 1 + n)%nat)
  else Ok (b, (consumed + 1)%nat).

(* utils/der.rs:76-87 *)
Definition der_parse (consumed : nat) (data : list Z) : outcome parse_error (nat * encoded_form * nat) :=
  let! tag := idx data consumed in
  match der_from_u8 tag with
  | None => Err PDerParseType
  | Some f =>
      let! (size, c) := get_len data (consumed + 1) in
      if zlen data <? size then Err PDerParseLen else Ok (Z.to_nat size, f, c)
  end.
