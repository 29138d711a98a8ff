(** crypto/x509/pkix (Go 1.12) as far as sm2/cert/gmx509.go uses it: names, attributes, extensions
    and algorithm identifiers, with what encoding/asn1 does to them. Outside /repo. Empty and nil
    slices are not told apart here except where a marshalled field is optional. *)
From Coq Require Import ZArith List Lia Bool String.
From Verif Require Import GoBase BeMin CbString GoAsn1 Sm2Der GoText.
Import ListNotations.
Open Scope Z_scope.

(** A parsed slice of something other than bytes (cf. [uSlice]). *)
Definition uList {A} (u : uty A) (zero : A) (isSET : bool) : uty (list A) :=
  mkU false (fun _ => if isSET then TagSet else TagSequence) true (fun _ _ _ i => parseSequenceOf u zero i).
(** A slice written as SEQUENCE OF or, when its type's name ends in SET, SET OF (makeBody, case
    reflect.Slice). Go 1.12 writes the elements of a SET in the order of the slice. *)
Definition fieldSlice (isSET : bool) (elems : list (res (list Z))) : res (list Z) :=
  makeField false (if isSET then TagSet else TagSequence) true (makeFields elems) noParams.
(** The field tag "set". *)
Definition setParams : fieldParameters := mkFP false None false true.
Definition optParams : fieldParameters := mkFP true None false false.

(** asn1.ObjectIdentifier.Equal and String (which is injective, so that OIDs stand for themselves as
    map keys). *)
Definition oidEqual (a b : list Z) : bool := if list_eq_dec Z.eq_dec a b then true else false.

Definition fieldOID (oid : list Z) : res (list Z) := makeField false TagOID false (makeObjectIdentifier oid) noParams.
Definition fieldBits (b : BitString) : res (list Z) := makeField false TagBitString false (OK (makeBitString b)) noParams.
Definition fieldBool (b : bool) : res (list Z) := makeField (negb b) TagBoolean false (OK [if b then 255 else 0]) optParams.

(** * interface{} values *)

(** The values encoding/asn1 stores in an interface{} when parsing; the same types are taken when
    marshalling (other Go types are not modelled). *)
Inductive goAny : Set :=
| AnyNil
| AnyString (s : list Z)
| AnyInt (i : Z)
| AnyBits (b : BitString)
| AnyOID (o : list Z)
| AnyTime (t : Time)
| AnyBytes (b : list Z).

(** isPrintable with the asterisk and the ampersand allowed (parsing) or not (marshalling). *)
Definition isPrintable (lenient : bool) (b : Z) : bool :=
  ((97 <=? b) && (b <=? 122)) || ((65 <=? b) && (b <=? 90)) || ((48 <=? b) && (b <=? 57))
  || ((39 <=? b) && (b <=? 41)) || ((43 <=? b) && (b <=? 47)) || (b =? 32) || (b =? 58) || (b =? 61) || (b =? 63)
  || (lenient && ((b =? 42) || (b =? 38))).
Definition isNumeric (b : Z) : bool := ((48 <=? b) && (b <=? 57)) || (b =? 32).

(** parsePrintableString, parseNumericString, parseIA5String, parseT61String, parseUTF8String, and
    the other cases of the switch in parseField for interface{}. *)
Definition parseAnyBody (tag : Z) (i : list Z) : res goAny :=
  if tag =? TagPrintableString then
    if forallb (isPrintable true) i then OK (AnyString i) else ERR "PrintableString contains invalid character"
  else if tag =? TagNumericString then
    if forallb isNumeric i then OK (AnyString i) else ERR "NumericString contains invalid character"
  else if tag =? TagIA5String then
    if forallb (fun b => b <? 0x80) i then OK (AnyString i) else ERR "IA5String contains invalid character"
  else if tag =? TagT61String then OK (AnyString i)
  else if tag =? TagUTF8String then
    if ValidString i then OK (AnyString i) else ERR "asn1: invalid UTF-8 string"
  else if tag =? TagInteger then try v <- parseInt64 i; OK (AnyInt v)
  else if tag =? TagBitString then try v <- parseBitString i; OK (AnyBits v)
  else if tag =? TagOID then try v <- parseObjectIdentifier i; OK (AnyOID v)
  else if tag =? TagUTCTime then try v <- parseUTCTime i; OK (AnyTime v)
  else if tag =? TagGeneralizedTime then try v <- parseGeneralizedTime i; OK (AnyTime v)
  else if tag =? TagOctetString then OK (AnyBytes i)
  else OK AnyNil.
(** parseField for a field of type interface{}. *)
Definition parseAny (l : list Z) : res (goAny * list Z) :=
  match l with
  | [] => ERR "sequence truncated"
  | _ :: _ =>
      try (t, r) <- parseTagAndLength l;
      if zlen r <? tl_length t then ERR "data truncated"
      else
        try v <- (if negb (tl_comp t) && (tl_class t =? 0) then parseAnyBody (tl_tag t) (sub r 0 (tl_length t))
                  else OK AnyNil);
        OK (v, sub r (tl_length t) (zlen r))
  end.

(** makeField for an interface{}. A string is a PrintableString if all its runes are printable, else
    a UTF8String, which it has to be. *)
Definition stringTag (s : list Z) : res Z :=
  if existsb (fun r => (0x80 <=? r) || negb (isPrintable false r)) (runes s)
  then if ValidString s then OK TagUTF8String else ERR "asn1: string not valid UTF-8"
  else OK TagPrintableString.
Definition fieldAny (v : goAny) : res (list Z) :=
  match v with
  | AnyNil => ERR "asn1: cannot marshal nil value"
  | AnyString s => try tag <- stringTag s; makeField false tag false (OK s) noParams
  | AnyInt i => makeField false TagInteger false (OK (int64Bytes i)) noParams
  | AnyBits b => fieldBits b
  | AnyOID o => fieldOID o
  | AnyTime t => makeField false (timeTag t) false (makeTime t) noParams
  | AnyBytes b => fieldOctets b
  end.

(** * Attributes and names *)

(** pkix.AttributeTypeAndValue. *)
Record ATV : Set := mkATV { atv_type : list Z; atv_value : goAny }.
Definition uATV : uty ATV := uStruct (fun _ l =>
  try (t, l) <- parseField uOID [] noParams l;
  try (v, l) <- parseAny l;
  OK (mkATV t v)).
Definition zeroATV : ATV := mkATV [] AnyNil.
Definition fieldATV (a : ATV) : res (list Z) := marshalStruct [fieldOID (atv_type a); fieldAny (atv_value a)].

(** pkix.RelativeDistinguishedNameSET and pkix.RDNSequence. *)
Definition uRDN : uty (list ATV) := uList uATV zeroATV true.
Definition uRDNSequence : uty (list (list ATV)) := uList uRDN [] false.
Definition fieldRDN (r : list ATV) : res (list Z) := fieldSlice true (map fieldATV r).
Definition marshalRDNSequence (s : list (list ATV)) : res (list Z) := fieldSlice false (map fieldRDN s).

(** pkix.AttributeTypeAndValueSET: Value is [][]AttributeTypeAndValue with the field tag "set". *)
Record ATVSet : Set := mkATVS { as_type : list Z; as_value : list (list ATV) }.
Definition uATVSet : uty ATVSet := uStruct (fun _ l =>
  try (t, l) <- parseField uOID [] noParams l;
  try (v, l) <- parseField (uList (uList uATV zeroATV false) [] false) [] setParams l;
  OK (mkATVS t v)).
Definition fieldATVSet (a : ATVSet) : res (list Z) :=
  marshalStruct [fieldOID (as_type a);
                 makeField false TagSequence true (makeFields (map (fun s => fieldSlice false (map fieldATV s)) (as_value a))) setParams].

(** pkix.Name. *)
Record Name : Set := mkName {
  n_Country : list (list Z); n_Organization : list (list Z); n_OrganizationalUnit : list (list Z);
  n_Locality : list (list Z); n_Province : list (list Z); n_StreetAddress : list (list Z); n_PostalCode : list (list Z);
  n_SerialNumber : list Z; n_CommonName : list Z;
  n_Names : list ATV; n_ExtraNames : list ATV }.
Definition zeroName : Name := mkName [] [] [] [] [] [] [] [] [] [] [].

(** oidInAttributeTypeAndValue and Name.appendRDNs. *)
Definition oidInATVs (oid : list Z) (l : list ATV) : bool := existsb (fun a => oidEqual (atv_type a) oid) l.
Definition appendRDNs (n : Name) (inp : list (list ATV)) (values : list (list Z)) (oid : list Z) : list (list ATV) :=
  if (zlen values =? 0) || oidInATVs oid (n_ExtraNames n) then inp
  else inp ++ [map (fun v => mkATV oid (AnyString v)) values].
Definition oidCountry : list Z := [2; 5; 4; 6].
Definition oidOrganization : list Z := [2; 5; 4; 10].
Definition oidOrganizationalUnit : list Z := [2; 5; 4; 11].
Definition oidCommonName : list Z := [2; 5; 4; 3].
Definition oidSerialNumber : list Z := [2; 5; 4; 5].
Definition oidLocality : list Z := [2; 5; 4; 7].
Definition oidProvince : list Z := [2; 5; 4; 8].
Definition oidStreetAddress : list Z := [2; 5; 4; 9].
Definition oidPostalCode : list Z := [2; 5; 4; 17].
(** Name.ToRDNSequence. *)
Definition ToRDNSequence (n : Name) : list (list ATV) :=
  let ret := appendRDNs n [] (n_Country n) oidCountry in
  let ret := appendRDNs n ret (n_Organization n) oidOrganization in
  let ret := appendRDNs n ret (n_OrganizationalUnit n) oidOrganizationalUnit in
  let ret := appendRDNs n ret (n_Locality n) oidLocality in
  let ret := appendRDNs n ret (n_Province n) oidProvince in
  let ret := appendRDNs n ret (n_StreetAddress n) oidStreetAddress in
  let ret := appendRDNs n ret (n_PostalCode n) oidPostalCode in
  let ret := if 0 <? zlen (n_CommonName n) then appendRDNs n ret [n_CommonName n] oidCommonName else ret in
  let ret := if 0 <? zlen (n_SerialNumber n) then appendRDNs n ret [n_SerialNumber n] oidSerialNumber else ret in
  ret ++ map (fun a => [a]) (n_ExtraNames n).

(** Name.FillFromRDNSequence. *)
Definition fillATV (n : Name) (a : ATV) : Name :=
  let n := mkName (n_Country n) (n_Organization n) (n_OrganizationalUnit n) (n_Locality n) (n_Province n)
                  (n_StreetAddress n) (n_PostalCode n) (n_SerialNumber n) (n_CommonName n)
                  (n_Names n ++ [a]) (n_ExtraNames n) in
  match atv_value a, atv_type a with
  | AnyString v, [a0; a1; a2; a3] =>
      if (a0 =? 2) && (a1 =? 5) && (a2 =? 4) then
        let '(mkName c o ou l p st pc sn cn ns en) := n in
        if a3 =? 3 then mkName c o ou l p st pc sn v ns en
        else if a3 =? 5 then mkName c o ou l p st pc v cn ns en
        else if a3 =? 6 then mkName (c ++ [v]) o ou l p st pc sn cn ns en
        else if a3 =? 7 then mkName c o ou (l ++ [v]) p st pc sn cn ns en
        else if a3 =? 8 then mkName c o ou l (p ++ [v]) st pc sn cn ns en
        else if a3 =? 9 then mkName c o ou l p (st ++ [v]) pc sn cn ns en
        else if a3 =? 10 then mkName c (o ++ [v]) ou l p st pc sn cn ns en
        else if a3 =? 11 then mkName c o (ou ++ [v]) l p st pc sn cn ns en
        else if a3 =? 17 then mkName c o ou l p st (pc ++ [v]) sn cn ns en
        else n
      else n
  | _, _ => n
  end.
Definition FillFromRDNSequence (n : Name) (rdns : list (list ATV)) : Name :=
  fold_left (fun n rdn => fold_left fillATV rdn n) rdns n.

(** * Extensions and algorithm identifiers *)

(** pkix.Extension: Critical has the field tag "optional". *)
Record Extension : Set := mkExt { e_id : list Z; e_critical : bool; e_value : list Z }.
Definition zeroExt : Extension := mkExt [] false [].
Definition uExtension : uty Extension := uStruct (fun _ l =>
  try (i, l) <- parseField uOID [] noParams l;
  try (c, l) <- parseField uBool false optParams l;
  try (v, l) <- parseField uOctets None noParams l;
  OK (mkExt i c (contents v))).
Definition fieldExtension (e : Extension) : res (list Z) :=
  marshalStruct [fieldOID (e_id e); fieldBool (e_critical e); fieldOctets (e_value e)].

(** pkix.AlgorithmIdentifier: Parameters has the field tag "optional". *)
Record AlgorithmIdentifier : Set := mkAlg { alg_oid : list Z; alg_params : RawValue }.
Definition zeroAlg : AlgorithmIdentifier := mkAlg [] zeroRaw.
Definition uAlg : uty AlgorithmIdentifier := uStruct (fun _ l =>
  try (o, l) <- parseField uOID [] noParams l;
  try (p, l) <- parseField uRaw zeroRaw optParams l;
  OK (mkAlg o p)).
Definition isZeroRaw (v : RawValue) : bool :=
  (rv_class v =? 0) && (rv_tag v =? 0) && negb (rv_comp v) && (zlen (rv_bytes v) =? 0) && (zlen (rv_full v) =? 0).
Definition fieldAlg (a : AlgorithmIdentifier) : res (list Z) :=
  marshalStruct [fieldOID (alg_oid a); OK (if isZeroRaw (alg_params a) then [] else makeRaw (alg_params a))].

(** * Bit strings *)

(** BitString.At: [b.Bytes[x]] panics when BitLength exceeds the bytes. *)
Definition bitsAt (b : BitString) (i : Z) : go Z :=
  if (i <? 0) || (bs_len b <=? i) then Ret 0
  else do x <- go_index (bs_bytes b) (i / 8); Ret (Z.land (Z.shiftr x (7 - i mod 8)) 1).
(** BitString.RightAlign. *)
Fixpoint alignLoop (shift prev : Z) (l : list Z) : list Z :=
  match l with
  | [] => []
  | b :: r => Z.lor (u8 (Z.shiftl prev (8 - shift))) (Z.shiftr b shift) :: alignLoop shift b r
  end.
Definition rightAlign (b : BitString) : list Z :=
  let shift := 8 - Z.rem (bs_len b) 8 in
  if (shift =? 8) || (zlen (bs_bytes b) =? 0) then bs_bytes b else alignLoop shift 0 (bs_bytes b).

(** * IP addresses (package net) *)

(** IP.To4: the 4-byte form of an IPv4 address. *)
Definition v4InV6Prefix : list Z := [0; 0; 0; 0; 0; 0; 0; 0; 0; 0; 0xff; 0xff].
Definition To4 (ip : list Z) : option (list Z) :=
  if zlen ip =? 4 then Some ip
  else if (zlen ip =? 16) && oidEqual (firstn 12 ip) v4InV6Prefix then Some (skipn 12 ip)
  else None.
(** IPNet and IP.Mask; a nil result is empty. *)
Record IPNet : Set := mkIPNet { in_ip : list Z; in_mask : list Z }.
Definition maskIP (ip mask : list Z) : list Z :=
  let mask := if (zlen mask =? 16) && (zlen ip =? 4) && forallb (fun b => b =? 0xff) (firstn 12 mask) then skipn 12 mask else mask in
  let ip := if (zlen mask =? 4) && (zlen ip =? 16) && oidEqual (firstn 12 ip) v4InV6Prefix then skipn 12 ip else ip in
  if negb (zlen ip =? zlen mask) then []
  else map (fun p => Z.land (fst p) (snd p)) (combine ip mask).
