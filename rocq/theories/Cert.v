(** Model of sm2/cert/gmx509.go, part 2: certificate requests and certificates.

    What the code takes from packages net/url and net beyond byte shuffling is a parameter of the
    model, the record [netEnv]: the theorems hold whatever url.Parse, URL.String and net.ParseIP do.
    x509.Certificate and x509.CertificateRequest are records with the fields that the code reads or
    writes. Empty and nil slices are told apart only where a marshalled field is optional. Error
    texts are shortened. Randomness for signing is a tape, as in Sm2.v. *)
From Coq Require Import ZArith List Lia Bool String.
From Verif Require Import GoBase BeMin CbString CbBuilder GoAsn1 GoElliptic Sm3 Sm2 Sm2Der GoText GoPkix CertText.
Import ListNotations.
Open Scope Z_scope.

(** Calls that may panic or return an error. *)
Definition gbind {A B} (x : go (res A)) (f : A -> go (res B)) : go (res B) :=
  match x with Ret (OK a) => f a | Ret (ERR e) => Ret (ERR e) | Panic k => Panic k end.
Notation "'run' x <- e ; f" := (gbind e (fun x => f))
  (at level 200, x pattern, e at level 100, f at level 200, right associativity).

(** net/url and net.ParseIP: the type of *url.URL, url.Parse ([None] is an error), URL.Host,
    URL.String, and whether ParseIP returns an address. *)
Record netEnv : Type := mkEnv {
  URL : Type;
  urlParse : list Z -> option URL;
  urlHost : URL -> list Z;
  urlString : URL -> list Z;
  isIP : list Z -> bool }.

(** * Constants and types *)

(** gmx509.go:24-52. *)
Definition oidSM2P256V1 : list Z := [1; 2; 156; 10197; 1; 301].
Definition oidSignatureSM3WithSM2 : list Z := [1; 2; 156; 10197; 1; 501].
Definition oidPublicKeyECDSA : list Z := [1; 2; 840; 10045; 2; 1].
Definition oidExtensionRequest : list Z := [1; 2; 840; 113549; 1; 9; 14].
Definition oidExtensionSubjectKeyId : list Z := [2; 5; 29; 14].
Definition oidExtensionKeyUsage : list Z := [2; 5; 29; 15].
Definition oidExtensionExtendedKeyUsage : list Z := [2; 5; 29; 37].
Definition oidExtensionAuthorityKeyId : list Z := [2; 5; 29; 35].
Definition oidExtensionBasicConstraints : list Z := [2; 5; 29; 19].
Definition oidExtensionSubjectAltName : list Z := [2; 5; 29; 17].
Definition oidExtensionCertificatePolicies : list Z := [2; 5; 29; 32].
Definition oidExtensionNameConstraints : list Z := [2; 5; 29; 30].
Definition oidExtensionCRLDistributionPoints : list Z := [2; 5; 29; 31].
Definition oidExtensionAuthorityInfoAccess : list Z := [1; 3; 6; 1; 5; 5; 7; 1; 1].
Definition oidAuthorityInfoAccessOcsp : list Z := [1; 3; 6; 1; 5; 5; 7; 48; 1].
Definition oidAuthorityInfoAccessIssuers : list Z := [1; 3; 6; 1; 5; 5; 7; 48; 2].
Definition nameTypeEmail : Z := 1.
Definition nameTypeDNS : Z := 2.
Definition nameTypeURI : Z := 6.
Definition nameTypeIP : Z := 7.

(** gmx509.go:54-58; a struct with RawContent is written as those bytes, header replaced, if there are
    any (makeBody, case reflect.Struct). *)
Definition marshalRawStruct (raw : list Z) (fields : list (res (list Z))) : res (list Z) :=
  makeField false TagSequence true
    (match raw with [] => makeFields fields | _ :: _ => OK (stripTagAndLength raw) end) noParams.
Record publicKeyInfo : Set := mkPKI { pki_raw : list Z; pki_alg : AlgorithmIdentifier; pki_key : BitString }.
Definition zeroPKI : publicKeyInfo := mkPKI [] zeroAlg zeroBits.
Definition uPKI : uty publicKeyInfo := uStruct (fun full l =>
  try (a, l) <- parseField uAlg zeroAlg noParams l;
  try (k, l) <- parseField uBits zeroBits noParams l;
  OK (mkPKI full a k)).
Definition fieldPKI (p : publicKeyInfo) : res (list Z) :=
  marshalRawStruct (pki_raw p) [fieldAlg (pki_alg p); fieldBits (pki_key p)].

(** gmx509.go:60-66; RawAttributes has the field tag "tag:0". *)
Record tbsCertificateRequest : Set := mkTbsCSR {
  tr_raw : list Z; tr_version : Z; tr_subject : RawValue; tr_key : publicKeyInfo; tr_attrs : list RawValue }.
Definition zeroTbsCSR : tbsCertificateRequest := mkTbsCSR [] 0 zeroRaw zeroPKI [].
Definition tag0 : fieldParameters := mkFP false (Some 0) false false.
Definition uTbsCSR : uty tbsCertificateRequest := uStruct (fun full l =>
  try (v, l) <- parseField uInt 0 noParams l;
  try (s, l) <- parseField uRaw zeroRaw noParams l;
  try (k, l) <- parseField uPKI zeroPKI noParams l;
  try (a, l) <- parseField (uList uRaw zeroRaw false) [] tag0 l;
  OK (mkTbsCSR full v s k a)).
Definition fieldInt (i : Z) : res (list Z) := makeField false TagInteger false (OK (int64Bytes i)) noParams.
Definition fieldTbsCSR (t : tbsCertificateRequest) : res (list Z) :=
  marshalRawStruct (tr_raw t)
    [fieldInt (tr_version t); OK (makeRaw (tr_subject t)); fieldPKI (tr_key t);
     makeField false TagSequence true (makeFields (map (fun a => OK (makeRaw a)) (tr_attrs t))) tag0].

(** gmx509.go:68-73. *)
Record certificateRequest : Set := mkCsr {
  cr_raw : list Z; cr_tbs : tbsCertificateRequest; cr_alg : AlgorithmIdentifier; cr_sig : BitString }.
Definition zeroCsr : certificateRequest := mkCsr [] zeroTbsCSR zeroAlg zeroBits.
Definition uCsr : uty certificateRequest := uStruct (fun full l =>
  try (t, l) <- parseField uTbsCSR zeroTbsCSR noParams l;
  try (a, l) <- parseField uAlg zeroAlg noParams l;
  try (s, l) <- parseField uBits zeroBits noParams l;
  OK (mkCsr full t a s)).
Definition fieldCsr (c : certificateRequest) : res (list Z) :=
  marshalRawStruct (cr_raw c) [fieldTbsCSR (cr_tbs c); fieldAlg (cr_alg c); fieldBits (cr_sig c)].

(** gmx509.go:647-679. basicConstraints: IsCA "optional", MaxPathLen "optional,default:-1". *)
Definition uBasicConstraints : uty (bool * Z) := uStruct (fun _ l =>
  try (c, l) <- parseField uBool false optParams l;
  try (m, l) <- parseField uInt (-1) optParams l;
  OK (c, m)).
Definition marshalBasicConstraints (isCA : bool) (maxPathLen : Z) : res (list Z) :=
  marshalStruct [fieldBool isCA; makeField (maxPathLen =? -1) TagInteger false (OK (int64Bytes maxPathLen)) optParams].
(** authKeyId: Id "optional,tag:0"; a nil slice is omitted, which does not happen (see the caller). *)
Definition optTag (n : Z) : fieldParameters := mkFP true (Some n) false false.
Definition uAuthKeyId : uty (list Z) := uStruct (fun _ l =>
  try (i, l) <- parseField uOctets None (optTag 0) l;
  OK (contents i)).
Definition marshalAuthKeyId (id : list Z) : res (list Z) :=
  marshalStruct [makeField false TagOctetString false (OK id) (optTag 0)].
(** authorityInfoAccess. *)
Definition uAIA : uty (list Z * RawValue) := uStruct (fun _ l =>
  try (m, l) <- parseField uOID [] noParams l;
  try (v, l) <- parseField uRaw zeroRaw noParams l;
  OK (m, v)).
Definition fieldAIA (m : list Z) (v : RawValue) : res (list Z) := marshalStruct [fieldOID m; OK (makeRaw v)].
(** policyInformation. *)
Definition uPolicy : uty (list Z) := uStruct (fun _ l => try (o, l) <- parseField uOID [] noParams l; OK o).
(** distributionPointName: FullName "optional,tag:0", RelativeName "optional,tag:1". Only FullName is
    looked at. *)
Definition uDPName : uty (list RawValue) := uStruct (fun _ l =>
  try (f, l) <- parseField (uList uRaw zeroRaw false) [] (optTag 0) l;
  try (r, l) <- parseField uRDNSequence [] (optTag 1) l;
  OK f).
(** distributionPoint: "optional,tag:0", "optional,tag:1", "optional,tag:2". *)
Definition uDP : uty (list RawValue) := uStruct (fun _ l =>
  try (d, l) <- parseField uDPName [] (optTag 0) l;
  try (r, l) <- parseField uBits zeroBits (optTag 1) l;
  try (c, l) <- parseField uRaw zeroRaw (optTag 2) l;
  OK d).
(** A distribution point with one full name; the other fields are zero and omitted. *)
Definition fieldDP (name : RawValue) : res (list Z) :=
  marshalStruct
    [makeField false TagSequence true
       (makeFields [makeField false TagSequence true (makeFields [OK (makeRaw name)]) (optTag 0)]) (optTag 0)].

(** gmx509.go:952-977: validity, tbsCertificate, certificate. Version "optional,explicit,default:0,tag:0",
    UniqueId "optional,tag:1", SubjectUniqueId "optional,tag:2", Extensions "optional,explicit,tag:3".
    SerialNumber and Extensions may be nil. *)
Definition uValidity : uty (Time * Time) := uStruct (fun _ l =>
  try (a, l) <- parseField uTime zeroTime noParams l;
  try (b, l) <- parseField uTime zeroTime noParams l;
  OK (a, b)).
Definition fieldTime (t : Time) : res (list Z) := makeField false (timeTag t) false (makeTime t) noParams.
Record TBSCertificate : Set := mkTBS {
  tb_raw : list Z; tb_version : Z; tb_serial : option Z; tb_alg : AlgorithmIdentifier; tb_issuer : RawValue;
  tb_notBefore : Time; tb_notAfter : Time; tb_subject : RawValue; tb_key : publicKeyInfo;
  tb_uid : BitString; tb_suid : BitString; tb_exts : option (list Extension) }.
Definition zeroTBS : TBSCertificate :=
  mkTBS [] 0 None zeroAlg zeroRaw zeroTime zeroTime zeroRaw zeroPKI zeroBits zeroBits None.
Definition explicitTag (n : Z) : fieldParameters := mkFP true (Some n) true false.
Definition uTBS : uty TBSCertificate := uStruct (fun full l =>
  try (v, l) <- parseField uInt 0 (explicitTag 0) l;
  try (n, l) <- parseField uBigInt 0 noParams l;
  try (a, l) <- parseField uAlg zeroAlg noParams l;
  try (i, l) <- parseField uRaw zeroRaw noParams l;
  try (t, l) <- parseField uValidity (zeroTime, zeroTime) noParams l;
  try (s, l) <- parseField uRaw zeroRaw noParams l;
  try (k, l) <- parseField uPKI zeroPKI noParams l;
  try (u1, l) <- parseField uBits zeroBits (optTag 1) l;
  try (u2, l) <- parseField uBits zeroBits (optTag 2) l;
  try (e, l) <- parseField (uSlice uExtension zeroExt false) None (explicitTag 3) l;
  OK (mkTBS full v (Some n) a i (fst t) (snd t) s k u1 u2 e)).
Definition isZeroBits (b : BitString) : bool := (zlen (bs_bytes b) =? 0) && (bs_len b =? 0).
Definition fieldTBS (t : TBSCertificate) : res (list Z) :=
  marshalRawStruct (tb_raw t)
    [makeField (tb_version t =? 0) TagInteger false (OK (int64Bytes (tb_version t))) (explicitTag 0);
     match tb_serial t with None => ERR "empty integer" | Some n => fieldBigInt n end;
     fieldAlg (tb_alg t);
     OK (makeRaw (tb_issuer t));
     marshalStruct [fieldTime (tb_notBefore t); fieldTime (tb_notAfter t)];
     OK (makeRaw (tb_subject t));
     fieldPKI (tb_key t);
     makeField (isZeroBits (tb_uid t)) TagBitString false (OK (makeBitString (tb_uid t))) (optTag 1);
     makeField (isZeroBits (tb_suid t)) TagBitString false (OK (makeBitString (tb_suid t))) (optTag 2);
     makeField (match tb_exts t with None => true | Some _ => false end) TagSequence true
       (makeFields (map fieldExtension (match tb_exts t with None => [] | Some l => l end))) (explicitTag 3)].
Record certificate : Set := mkCert {
  ct_raw : list Z; ct_tbs : TBSCertificate; ct_alg : AlgorithmIdentifier; ct_sig : BitString }.
Definition zeroCert : certificate := mkCert [] zeroTBS zeroAlg zeroBits.
Definition uCert : uty certificate := uStruct (fun full l =>
  try (t, l) <- parseField uTBS zeroTBS noParams l;
  try (a, l) <- parseField uAlg zeroAlg noParams l;
  try (s, l) <- parseField uBits zeroBits noParams l;
  OK (mkCert full t a s)).
Definition fieldCert (c : certificate) : res (list Z) :=
  marshalRawStruct (ct_raw c) [fieldTBS (ct_tbs c); fieldAlg (ct_alg c); fieldBits (ct_sig c)].

(** gmx509.go:234-241. *)
Definition oidInExtensions (oid : list Z) (extensions : list Extension) : bool :=
  existsb (fun e => oidEqual (e_id e) oid) extensions.

(** A public key held in an interface{}: nil, *sm2.PublicKey, or something else. *)
Inductive anyKey : Set := KeyNil | KeySM2 (pub : PublicKey) | KeyOther.

(** gmx509.go:342-367. *)
Definition parsePublicKey (keyData : publicKeyInfo) : res PublicKey :=
  let paramsData := rv_full (alg_params (pki_alg keyData)) in
  try (namedCurveOID, rest) <- unmarshal uOID [] paramsData;
  if negb (zlen rest =? 0) then ERR "x509: trailing data after SM2 parameters"
  else if negb (oidEqual oidSM2P256V1 namedCurveOID) then ERR "x509: CurveOID is not the OID of SM2P256V1"
  else match Unmarshal curveP curveB (rightAlign (pki_key keyData)) with
       | None => ERR "x509: Unmarshal PublicKey failed"
       | Some (x, y) => OK (mkPub x y)
       end.

(** gmx509.go:243-253: the error of Marshal is dropped. *)
Definition marshalPublicKey (pub : PublicKey) : go (list Z * AlgorithmIdentifier) :=
  do publicKeyBytes <- GetUnCompressBytes pub;
  let paramBytes := match fieldOID oidSM2P256V1 with OK b => b | ERR _ => [] end in
  Ret (publicKeyBytes, mkAlg oidPublicKeyECDSA (mkRaw 0 0 false [] paramBytes)).

(** gmx509.go:257-271. *)
Definition newRawAttributes (attributes : list ATVSet) : res (list RawValue) :=
  try b <- fieldSlice false (map fieldATVSet attributes);
  try (rawAttributes, rest) <- unmarshal (uList uRaw zeroRaw false) [] b;
  if negb (zlen rest =? 0) then ERR "x509: failed to unmarshal raw CSR Attributes" else OK rawAttributes.

(** gmx509.go:370-382. *)
Definition parseRawAttributes (rawAttributes : list RawValue) : list ATVSet :=
  List.concat (map (fun rawAttr =>
    match unmarshal uATVSet (mkATVS [] []) (rv_full rawAttr) with
    | OK (attr, []) => [attr]
    | _ => []
    end) rawAttributes).

(** gmx509.go:386-414. *)
Definition uPkcs10Attribute : uty (list Z * list RawValue) := uStruct (fun _ l =>
  try (i, l) <- parseField uOID [] noParams l;
  try (v, l) <- parseField (uList uRaw zeroRaw false) [] setParams l;
  OK (i, v)).
Fixpoint parseCSRExtensions (rawAttributes : list RawValue) : res (list Extension) :=
  match rawAttributes with
  | [] => OK []
  | rawAttr :: more =>
      match unmarshal uPkcs10Attribute ([], []) (rv_full rawAttr) with
      | OK (id, v0 :: _, []) =>
          if negb (oidEqual id oidExtensionRequest) then parseCSRExtensions more
          else
            try (extensions, _) <- unmarshal (uList uExtension zeroExt false) [] (rv_full v0);
            try ret <- parseCSRExtensions more;
            OK (extensions ++ ret)
      | _ => parseCSRExtensions more
      end
  end.

(** gmx509.go:416-458: the tags and contents the callback sees, and the error that ends the list. The
    code calls back for each name before it parses the next one; the callbacks only append to lists
    that are dropped on an error, so that it does not matter when an error of either kind comes. *)
Fixpoint sanLoop (fuel : nat) (rest : list Z) : res (list (Z * list Z)) :=
  match rest with
  | [] => OK []
  | _ :: _ =>
      match fuel with
      | O => ERR "model: out of fuel"
      | S fuel =>
          try (v, rest) <- unmarshal uRaw zeroRaw rest;
          try more <- sanLoop fuel rest;
          OK ((rv_tag v, rv_bytes v) :: more)
      end
  end.
Definition forEachSAN (extension : list Z) : res (list (Z * list Z)) :=
  try (seq, rest) <- unmarshal uRaw zeroRaw extension;
  if negb (zlen rest =? 0) then ERR "x509: trailing data after X.509 extension"
  else if negb (rv_comp seq) || negb (rv_tag seq =? 16) || negb (rv_class seq =? 0) then ERR "bad SAN sequence"
  else sanLoop (List.length (rv_bytes seq)) (rv_bytes seq).

(** The three tags of name constraints: cryptobyte/asn1/asn1.go Tag.ContextSpecific and Constructed. *)
Definition contextSpecific (tag : Z) : Z := Z.lor tag 0x80.
Definition constructed (tag : Z) : Z := Z.lor tag 0x20.

(** Part of x509.Certificate: the names in a name constraint. *)
Record Constraints : Set := mkNC {
  nc_dns : list (list Z); nc_ips : list IPNet; nc_emails : list (list Z); nc_uris : list (list Z) }.
Definition zeroConstraints : Constraints := mkNC [] [] [] [].

(** gmx509.go:833-839. *)
Definition ipAndMask (ipNet : IPNet) : list Z := maskIP (in_ip ipNet) (in_mask ipNet) ++ in_mask ipNet.

(** gmx509.go:841-889: the calls on the builder for one name; the first name that is not an IA5String
    ends the function with an error. The calls are collected and made at the end. *)
Definition subtree (tag : Z) (value : list Z) : op :=
  OASN1 0 SEQUENCE [OASN1 0 (contextSpecific tag) [AddBytes value]].
Fixpoint ia5Subtrees (tag : Z) (names : list (list Z)) : res (list op) :=
  match names with
  | [] => OK []
  | n :: r => if isIA5String n then try ops <- ia5Subtrees tag r; OK (subtree tag n :: ops)
              else ERR "x509: cannot be encoded as an IA5String"
  end.
Definition runBuilder (ops : list op) : go (res (list Z)) :=
  match execs ops (NewBuilder []) with
  | (_, Some k) => Panic k
  | (st, None) => Ret (Bytes st)
  end.
Definition serialiseConstraints (c : Constraints) : go (res (list Z)) :=
  run dns <- Ret (ia5Subtrees 2 (nc_dns c));
  let ips := map (fun i => subtree 7 (ipAndMask i)) (nc_ips c) in
  run emails <- Ret (ia5Subtrees 1 (nc_emails c));
  run uris <- Ret (ia5Subtrees 6 (nc_uris c));
  runBuilder (dns ++ ips ++ emails ++ uris).

(** gmx509.go:891-919. *)
Definition marshalNameConstraints (permitted excluded : Constraints) : go (res (list Z)) :=
  run permitted <- serialiseConstraints permitted;
  run excluded <- serialiseConstraints excluded;
  runBuilder
    [OASN1 0 SEQUENCE
       ((if 0 <? zlen permitted then [OASN1 0 (constructed (contextSpecific 0)) [AddBytes permitted]] else []) ++
        (if 0 <? zlen excluded then [OASN1 0 (constructed (contextSpecific 1)) [AddBytes excluded]] else []))].

(** A leading period is dropped: gmx509.go:1357-1364, 1407-1410, 1427-1434. *)
Definition trimDot (domain : list Z) : list Z :=
  match domain with c :: r => if c =? 46 then r else domain | [] => domain end.

Section Env.
Variable E : netEnv.

(** gmx509.go:1334-1447: getValues. [unhandled] is the variable of the enclosing function. *)
Definition parseSubtree (tag : Z) (value : list Z) (c : Constraints) (unhandled : bool) : go (res (Constraints * bool)) :=
  let '(mkNC dns ips emails uris) := c in
  if tag =? contextSpecific 2 then
    if negb (isIA5String value) then Ret (ERR "x509: invalid constraint value")
    else
      do ok <- domainToReverseLabels (trimDot value);
      match ok with
      | None => Ret (ERR "x509: failed to parse dnsName constraint")
      | Some _ => Ret (OK (mkNC (dns ++ [value]) ips emails uris, unhandled))
      end
  else if tag =? contextSpecific 7 then
    let l := zlen value in
    do im <- (if l =? 8 then do ip <- go_slice value 0 4; do mask <- go_slice value 4 l; Ret (Some (ip, mask))
              else if l =? 32 then do ip <- go_slice value 0 16; do mask <- go_slice value 16 l; Ret (Some (ip, mask))
              else Ret None);
    match im with
    | None => Ret (ERR "x509: IP constraint contained value of wrong length")
    | Some (ip, mask) =>
        if negb (isValidIPMask mask) then Ret (ERR "x509: IP constraint contained invalid mask")
        else Ret (OK (mkNC dns (ips ++ [mkIPNet ip mask]) emails uris, unhandled))
    end
  else if tag =? contextSpecific 1 then
    if negb (isIA5String value) then Ret (ERR "x509: invalid constraint value")
    else
      do ok <- (if existsb (fun c => c =? 64) value
                then do m <- parseRFC2821Mailbox value; Ret (match m with None => false | Some _ => true end)
                else do d <- domainToReverseLabels (trimDot value); Ret (match d with None => false | Some _ => true end));
      if negb ok then Ret (ERR "x509: failed to parse rfc822Name constraint")
      else Ret (OK (mkNC dns ips (emails ++ [value]) uris, unhandled))
  else if tag =? contextSpecific 6 then
    if negb (isIA5String value) then Ret (ERR "x509: invalid constraint value")
    else if isIP E value then Ret (ERR "x509: failed to parse URI constraint: cannot be IP address")
    else
      do ok <- domainToReverseLabels (trimDot value);
      match ok with
      | None => Ret (ERR "x509: failed to parse URI constraint")
      | Some _ => Ret (OK (mkNC dns ips emails (uris ++ [value]), unhandled))
      end
  else Ret (OK (c, true)).
Fixpoint getValues (fuel : nat) (subtrees : cstr) (c : Constraints) (unhandled : bool) : go (res (Constraints * bool)) :=
  if Empty subtrees then Ret (OK (c, unhandled))
  else
    match fuel with
    | O => Panic (PUser "model: out of fuel")
    | S fuel =>
        do (ok, seq, subtrees) <- ReadASN1 subtrees None SEQUENCE;
        if negb ok then Ret (ERR "x509: invalid NameConstraints extension")
        else
          do q <- ReadAnyASN1 seq None 0;
          let '(ok, value, tag, _) := q in
          if negb ok then Ret (ERR "x509: invalid NameConstraints extension")
          else
            run (c, unhandled) <- parseSubtree tag (contents value) c unhandled;
            getValues fuel subtrees c unhandled
    end.

(** gmx509.go:1299-1457, without the assignment to PermittedDNSDomainsCritical: the permitted and
    excluded names and the flag unhandled. *)
Definition parseNameConstraintsExtension (value : list Z) : go (res (Constraints * Constraints * bool)) :=
  let bad {A} : go (res A) := Ret (ERR "x509: invalid NameConstraints extension") in
  do (ok, toplevel, outer) <- ReadASN1 (Some value) None SEQUENCE;
  if negb ok || negb (Empty outer) then bad
  else
    do q <- ReadOptionalASN1 toplevel None (constructed (contextSpecific 0));
    let '(ok, permitted, havePermitted, toplevel) := q in
    if negb ok then bad
    else
      do q <- ReadOptionalASN1 toplevel None (constructed (contextSpecific 1));
      let '(ok, excluded, haveExcluded, toplevel) := q in
      if negb ok || negb (Empty toplevel) then bad
      else if (negb havePermitted && negb haveExcluded) || ((slen permitted =? 0) && (slen excluded =? 0))
           then Ret (ERR "x509: empty name constraints extension")
           else
             run (p, unhandled) <- getValues (List.length (contents permitted)) permitted zeroConstraints false;
             run (x, unhandled) <- getValues (List.length (contents excluded)) excluded zeroConstraints unhandled;
             Ret (OK (p, x, unhandled)).

(** Subject alternative names. *)
Record AltNames : Type := mkAlt { an_dns : list (list Z); an_emails : list (list Z); an_ips : list (list Z); an_uris : list (URL E) }.
Definition zeroAlt : AltNames := mkAlt [] [] [] [].
Definition altEmpty (a : AltNames) : bool :=
  (zlen (an_dns a) =? 0) && (zlen (an_emails a) =? 0) && (zlen (an_ips a) =? 0) && (zlen (an_uris a) =? 0).

(** gmx509.go:210-230. *)
Definition ipBytes (rawIP : list Z) : list Z := match To4 rawIP with Some ip => ip | None => rawIP end.
Definition marshalSANs (a : AltNames) : res (list Z) :=
  fieldSlice false
    (map (fun n => OK (makeRaw (mkRaw 2 nameTypeDNS false n []))) (an_dns a) ++
     map (fun n => OK (makeRaw (mkRaw 2 nameTypeEmail false n []))) (an_emails a) ++
     map (fun n => OK (makeRaw (mkRaw 2 nameTypeIP false (ipBytes n) []))) (an_ips a) ++
     map (fun u => OK (makeRaw (mkRaw 2 nameTypeURI false (urlString E u) []))) (an_uris a)).

(** The callback of gmx509.go:495-526. *)
Definition addSAN (a : AltNames) (tag : Z) (data : list Z) : go (res AltNames) :=
  let '(mkAlt dns emails ips uris) := a in
  if tag =? nameTypeEmail then Ret (OK (mkAlt dns (emails ++ [data]) ips uris))
  else if tag =? nameTypeDNS then Ret (OK (mkAlt (dns ++ [data]) emails ips uris))
  else if tag =? nameTypeURI then
    match urlParse E data with
    | None => Ret (ERR "x509: cannot parse URI")
    | Some uri =>
        do ok <- (if 0 <? zlen (urlHost E uri)
                  then do d <- domainToReverseLabels (urlHost E uri); Ret (match d with None => false | Some _ => true end)
                  else Ret true);
        if ok then Ret (OK (mkAlt dns emails ips (uris ++ [uri])))
        else Ret (ERR "x509: cannot parse URI: invalid domain")
    end
  else if tag =? nameTypeIP then
    if (zlen data =? 4) || (zlen data =? 16) then Ret (OK (mkAlt dns emails (ips ++ [data]) uris))
    else Ret (ERR "x509: cannot parse IP address of wrong length")
  else Ret (OK a).
Fixpoint addSANs (a : AltNames) (names : list (Z * list Z)) : go (res AltNames) :=
  match names with
  | [] => Ret (OK a)
  | (tag, data) :: r => run a <- addSAN a tag data; addSANs a r
  end.
Definition parseSANExtension (value : list Z) : go (res AltNames) :=
  run names <- Ret (forEachSAN value);
  addSANs zeroAlt names.

Record certFields : Type := mkFields {
  f_KeyUsage : Z;
  f_ExtKeyUsage : list Z;
  f_UnknownExtKeyUsage : list (list Z);
  f_BasicConstraintsValid : bool;
  f_IsCA : bool;
  f_MaxPathLen : Z;
  f_MaxPathLenZero : bool;
  f_SubjectKeyId : list Z;
  f_AuthorityKeyId : list Z;
  f_OCSPServer : list (list Z);
  f_IssuingCertificateURL : list (list Z);
  f_SAN : AltNames;
  f_ConstraintsCritical : bool;
  f_Permitted : Constraints;
  f_Excluded : Constraints;
  f_CRLDistributionPoints : list (list Z);
  f_PolicyIdentifiers : list (list Z) }.
Definition zeroFields : certFields :=
  mkFields 0 [] [] false false 0 false [] [] [] [] zeroAlt false zeroConstraints zeroConstraints [] [].
Definition set_KeyUsage v_KeyUsage (f : certFields) : certFields :=
  mkFields v_KeyUsage (f_ExtKeyUsage f) (f_UnknownExtKeyUsage f) (f_BasicConstraintsValid f) (f_IsCA f) (f_MaxPathLen f) (f_MaxPathLenZero f) (f_SubjectKeyId f) (f_AuthorityKeyId f) (f_OCSPServer f) (f_IssuingCertificateURL f) (f_SAN f) (f_ConstraintsCritical f) (f_Permitted f) (f_Excluded f) (f_CRLDistributionPoints f) (f_PolicyIdentifiers f).
Definition set_ExtKeyUsage v_ExtKeyUsage v_UnknownExtKeyUsage (f : certFields) : certFields :=
  mkFields (f_KeyUsage f) v_ExtKeyUsage v_UnknownExtKeyUsage (f_BasicConstraintsValid f) (f_IsCA f) (f_MaxPathLen f) (f_MaxPathLenZero f) (f_SubjectKeyId f) (f_AuthorityKeyId f) (f_OCSPServer f) (f_IssuingCertificateURL f) (f_SAN f) (f_ConstraintsCritical f) (f_Permitted f) (f_Excluded f) (f_CRLDistributionPoints f) (f_PolicyIdentifiers f).
Definition set_BasicConstraints v_BasicConstraintsValid v_IsCA v_MaxPathLen v_MaxPathLenZero (f : certFields) : certFields :=
  mkFields (f_KeyUsage f) (f_ExtKeyUsage f) (f_UnknownExtKeyUsage f) v_BasicConstraintsValid v_IsCA v_MaxPathLen v_MaxPathLenZero (f_SubjectKeyId f) (f_AuthorityKeyId f) (f_OCSPServer f) (f_IssuingCertificateURL f) (f_SAN f) (f_ConstraintsCritical f) (f_Permitted f) (f_Excluded f) (f_CRLDistributionPoints f) (f_PolicyIdentifiers f).
Definition set_SubjectKeyId v_SubjectKeyId (f : certFields) : certFields :=
  mkFields (f_KeyUsage f) (f_ExtKeyUsage f) (f_UnknownExtKeyUsage f) (f_BasicConstraintsValid f) (f_IsCA f) (f_MaxPathLen f) (f_MaxPathLenZero f) v_SubjectKeyId (f_AuthorityKeyId f) (f_OCSPServer f) (f_IssuingCertificateURL f) (f_SAN f) (f_ConstraintsCritical f) (f_Permitted f) (f_Excluded f) (f_CRLDistributionPoints f) (f_PolicyIdentifiers f).
Definition set_AuthorityKeyId v_AuthorityKeyId (f : certFields) : certFields :=
  mkFields (f_KeyUsage f) (f_ExtKeyUsage f) (f_UnknownExtKeyUsage f) (f_BasicConstraintsValid f) (f_IsCA f) (f_MaxPathLen f) (f_MaxPathLenZero f) (f_SubjectKeyId f) v_AuthorityKeyId (f_OCSPServer f) (f_IssuingCertificateURL f) (f_SAN f) (f_ConstraintsCritical f) (f_Permitted f) (f_Excluded f) (f_CRLDistributionPoints f) (f_PolicyIdentifiers f).
Definition set_AuthorityInfo v_OCSPServer v_IssuingCertificateURL (f : certFields) : certFields :=
  mkFields (f_KeyUsage f) (f_ExtKeyUsage f) (f_UnknownExtKeyUsage f) (f_BasicConstraintsValid f) (f_IsCA f) (f_MaxPathLen f) (f_MaxPathLenZero f) (f_SubjectKeyId f) (f_AuthorityKeyId f) v_OCSPServer v_IssuingCertificateURL (f_SAN f) (f_ConstraintsCritical f) (f_Permitted f) (f_Excluded f) (f_CRLDistributionPoints f) (f_PolicyIdentifiers f).
Definition set_SAN v_SAN (f : certFields) : certFields :=
  mkFields (f_KeyUsage f) (f_ExtKeyUsage f) (f_UnknownExtKeyUsage f) (f_BasicConstraintsValid f) (f_IsCA f) (f_MaxPathLen f) (f_MaxPathLenZero f) (f_SubjectKeyId f) (f_AuthorityKeyId f) (f_OCSPServer f) (f_IssuingCertificateURL f) v_SAN (f_ConstraintsCritical f) (f_Permitted f) (f_Excluded f) (f_CRLDistributionPoints f) (f_PolicyIdentifiers f).
Definition set_NameConstraints v_ConstraintsCritical v_Permitted v_Excluded (f : certFields) : certFields :=
  mkFields (f_KeyUsage f) (f_ExtKeyUsage f) (f_UnknownExtKeyUsage f) (f_BasicConstraintsValid f) (f_IsCA f) (f_MaxPathLen f) (f_MaxPathLenZero f) (f_SubjectKeyId f) (f_AuthorityKeyId f) (f_OCSPServer f) (f_IssuingCertificateURL f) (f_SAN f) v_ConstraintsCritical v_Permitted v_Excluded (f_CRLDistributionPoints f) (f_PolicyIdentifiers f).
Definition set_CRLDistributionPoints v_CRLDistributionPoints (f : certFields) : certFields :=
  mkFields (f_KeyUsage f) (f_ExtKeyUsage f) (f_UnknownExtKeyUsage f) (f_BasicConstraintsValid f) (f_IsCA f) (f_MaxPathLen f) (f_MaxPathLenZero f) (f_SubjectKeyId f) (f_AuthorityKeyId f) (f_OCSPServer f) (f_IssuingCertificateURL f) (f_SAN f) (f_ConstraintsCritical f) (f_Permitted f) (f_Excluded f) v_CRLDistributionPoints (f_PolicyIdentifiers f).
Definition set_PolicyIdentifiers v_PolicyIdentifiers (f : certFields) : certFields :=
  mkFields (f_KeyUsage f) (f_ExtKeyUsage f) (f_UnknownExtKeyUsage f) (f_BasicConstraintsValid f) (f_IsCA f) (f_MaxPathLen f) (f_MaxPathLenZero f) (f_SubjectKeyId f) (f_AuthorityKeyId f) (f_OCSPServer f) (f_IssuingCertificateURL f) (f_SAN f) (f_ConstraintsCritical f) (f_Permitted f) (f_Excluded f) (f_CRLDistributionPoints f) v_PolicyIdentifiers.

(** x509.CertificateRequest. *)
Record CertificateRequest : Type := mkReq {
  r_Raw : list Z; r_RawTBS : list Z; r_RawSPKI : list Z; r_RawSubject : list Z;
  r_Signature : list Z; r_SignatureAlgorithm : Z; r_PublicKeyAlgorithm : Z; r_PublicKey : anyKey;
  r_Version : Z; r_Subject : Name; r_Attributes : list ATVSet;
  r_Extensions : list Extension; r_ExtraExtensions : list Extension; r_SAN : AltNames }.

(** x509.Certificate. *)
Record Certificate : Type := mkX509 {
  c_Raw : list Z; c_RawTBS : list Z; c_RawSPKI : list Z; c_RawSubject : list Z; c_RawIssuer : list Z;
  c_Signature : list Z; c_SignatureAlgorithm : Z; c_PublicKeyAlgorithm : Z; c_PublicKey : anyKey;
  c_Version : Z; c_SerialNumber : option Z; c_Issuer : Name; c_Subject : Name; c_NotBefore : Time; c_NotAfter : Time;
  c_Extensions : list Extension; c_ExtraExtensions : list Extension; c_Unhandled : list (list Z);
  c_fields : certFields }.

(** * Certificate requests *)

(** gmx509.go:105-132: the extensions that the template's attributes do not already specify. *)
Definition specifiedExtensions (attrs : list ATVSet) : list (list Z) :=
  List.concat (map (fun s => if oidEqual (as_type s) oidExtensionRequest
                             then map atv_type (List.concat (as_value s)) else []) attrs).
Definition extensionATVs (attrs : list ATVSet) (extensions : list Extension) : list ATV :=
  map (fun e => mkATV (e_id e) (AnyBytes (e_value e)))
      (filter (fun e => negb (existsb (oidEqual (e_id e)) (specifiedExtensions attrs))) extensions).
(** gmx509.go:135-144: the first attribute that can take them; [None] if there is none. The slice that
    is assigned to belongs to the template. *)
Fixpoint appendToAttribute (atvs : list ATV) (attrs : list ATVSet) : option (list ATVSet) :=
  match attrs with
  | [] => None
  | s :: r =>
      match as_value s with
      | v0 :: vs =>
          if oidEqual (as_type s) oidExtensionRequest
          then Some (mkATVS (as_type s) ((v0 ++ atvs) :: vs) :: r)
          else match appendToAttribute atvs r with Some r' => Some (s :: r') | None => None end
      | [] => match appendToAttribute atvs r with Some r' => Some (s :: r') | None => None end
      end
  end.

(** gmx509.go:84-97: the extensions to request. *)
Definition requestedExtensions (template : CertificateRequest) : res (list Extension) :=
  try san <- (if negb (altEmpty (r_SAN template))
                 && negb (oidInExtensions oidExtensionSubjectAltName (r_ExtraExtensions template))
              then try sanBytes <- marshalSANs (r_SAN template);
                   OK [mkExt oidExtensionSubjectAltName false sanBytes]
              else OK []);
  OK (san ++ r_ExtraExtensions template).
(** gmx509.go:99-155: the attributes of the request, and the template's attributes afterwards. *)
Definition requestAttributes (template : CertificateRequest) (extensions : list Extension) : list ATVSet * list ATVSet :=
  let attrs := r_Attributes template in
  if 0 <? zlen extensions then
    let atvs := extensionATVs attrs extensions in
    match appendToAttribute atvs attrs with
    | Some attrs' => (attrs', attrs')
    | None => (attrs ++ [mkATVS oidExtensionRequest [atvs]], attrs)
    end
  else (attrs, attrs).

(** gmx509.go:75-206. The result is the request, the rest of the tape and the template's Attributes
    after the call. *)
Definition CreateCertificateRequest (template : CertificateRequest) (pub : PublicKey) (pri : PrivateKey)
    (userId : option (list Z)) (tape : list Z) : go (res (list Z) * list Z * list ATVSet) :=
  do (publicKeyBytes, publicKeyAlgorithm) <- marshalPublicKey pub;
  match requestedExtensions template with
  | ERR e => Ret (ERR e, tape, r_Attributes template)
  | OK extensions =>
      let '(attributes, after) := requestAttributes template extensions in
      let tbs :=
        try asn1Subject <- (match r_RawSubject template with
                            | [] => marshalRDNSequence (ToRDNSequence (r_Subject template))
                            | raw => OK raw
                            end);
        try rawAttributes <- newRawAttributes attributes;
        let tbsCSR := mkTbsCSR [] 0 (mkRaw 0 0 false [] asn1Subject)
                        (mkPKI [] publicKeyAlgorithm (mkBits publicKeyBytes (zlen publicKeyBytes * 8))) rawAttributes in
        try tbsCSRContents <- fieldTbsCSR tbsCSR;
        OK (tbsCSR, tbsCSRContents) in
      match tbs with
      | ERR e => Ret (ERR e, tape, after)
      | OK (tbsCSR, tbsCSRContents) =>
          do (signature, tape) <- Sign pri userId tbsCSRContents tape;
          match signature with
          | ERR e => Ret (ERR e, tape, after)
          | OK signature =>
              Ret (fieldCsr (mkCsr [] (mkTbsCSR tbsCSRContents (tr_version tbsCSR) (tr_subject tbsCSR) (tr_key tbsCSR) (tr_attrs tbsCSR))
                                   (mkAlg oidSignatureSM3WithSM2 zeroRaw) (mkBits signature (zlen signature * 8))),
                   tape, after)
          end
      end
  end.

(** The loop of gmx509.go:330-337: later extensions overwrite earlier ones. *)
Fixpoint requestSANs (extensions : list Extension) (san : AltNames) : go (res AltNames) :=
  match extensions with
  | [] => Ret (OK san)
  | e :: r =>
      if oidEqual (e_id e) oidExtensionSubjectAltName
      then run san <- parseSANExtension (e_value e); requestSANs r san
      else requestSANs r san
  end.
(** gmx509.go:288-340. *)
Definition parseCertificateRequest (inp : certificateRequest) : go (res CertificateRequest) :=
  let tbs := cr_tbs inp in
  if negb (oidEqual oidSignatureSM3WithSM2 (alg_oid (cr_alg inp))) then Ret (ERR "x509: illegal signature algorithm OID")
  else if negb (oidEqual oidPublicKeyECDSA (alg_oid (pki_alg (tr_key tbs)))) then Ret (ERR "x509: illegal publick key algorithm OID")
  else
    run pub <- Ret (parsePublicKey (tr_key tbs));
    run (subject, rest) <- Ret (unmarshal uRDNSequence [] (rv_full (tr_subject tbs)));
    if negb (zlen rest =? 0) then Ret (ERR "x509: trailing data after X.509 Subject")
    else
      run extensions <- Ret (parseCSRExtensions (tr_attrs tbs));
      run san <- requestSANs extensions zeroAlt;
      Ret (OK (mkReq (cr_raw inp) (tr_raw tbs) (pki_raw (tr_key tbs)) (rv_full (tr_subject tbs))
                     (rightAlign (cr_sig inp)) 0 0 (KeySM2 pub) (tr_version tbs)
                     (FillFromRDNSequence zeroName subject) (parseRawAttributes (tr_attrs tbs))
                     extensions [] san)).
(** gmx509.go:275-286. *)
Definition ParseCertificateRequest (asn1Data : list Z) : go (res CertificateRequest) :=
  run (csr, rest) <- Ret (unmarshal uCsr zeroCsr asn1Data);
  if negb (zlen rest =? 0) then Ret (ERR "trailing data") else parseCertificateRequest csr.

(** gmx509.go:536-539: the type assertion panics unless the key is an *sm2.PublicKey. *)
Definition VerifyCSRSign (csr : CertificateRequest) (userId : option (list Z)) : go bool :=
  match r_PublicKey csr with
  | KeySM2 pub => Verify pub userId (r_RawTBS csr) (r_Signature csr)
  | _ => Panic (PUser "interface conversion")
  end.
(** gmx509.go:528-534. *)
Definition VerifyDERCSRSign (asn1Data : list Z) (userId : option (list Z)) : go (res bool) :=
  run csr <- ParseCertificateRequest asn1Data;
  do b <- VerifyCSRSign csr userId;
  Ret (OK b).

(** gmx509.go:541-551. *)
Definition FillCertificateTemplateByCSR (template : Certificate) (csr : CertificateRequest) : Certificate :=
  mkX509 (c_Raw template) (c_RawTBS template) (c_RawSPKI template) (c_RawSubject template) (c_RawIssuer template)
         (c_Signature template) (c_SignatureAlgorithm template) (r_PublicKeyAlgorithm csr) (r_PublicKey csr)
         (c_Version template) (c_SerialNumber template) (c_Issuer template) (r_Subject csr) (c_NotBefore template) (c_NotAfter template)
         (r_Extensions csr) (r_ExtraExtensions csr) (c_Unhandled template)
         (set_SAN (r_SAN csr) (c_fields template)).

(** * Certificates *)

(** gmx509.go:553-559. *)
Definition subjectBytes (cert : Certificate) : res (list Z) :=
  match c_RawSubject cert with
  | [] => marshalRDNSequence (ToRDNSequence (c_Subject cert))
  | raw => OK raw
  end.

(** gmx509.go:700-711: the value of the KeyUsage extension. *)
Definition marshalKeyUsage (keyUsage : Z) : res (list Z) :=
  let a0 := reverseBitsInAByte (u8 keyUsage) in
  let a1 := reverseBitsInAByte (u8 (Z.shiftr keyUsage 8)) in
  let bitString := if negb (a1 =? 0) then [a0; a1] else [a0] in
  fieldBits (mkBits bitString (asn1BitLength bitString)).
(** gmx509.go:721-732: the OIDs of the extended key usages; an unknown usage panics. *)
Fixpoint extKeyUsageToOIDs (l : list Z) : go (list (list Z)) :=
  match l with
  | [] => Ret []
  | u :: r => match oidFromExtKeyUsage u with
              | Some oid => do oids <- extKeyUsageToOIDs r; Ret (oid :: oids)
              | None => Panic (PUser "internal error")
              end
  end.
Definition rawURI (name : list Z) : RawValue := mkRaw 2 6 false name [].

(** One block of buildExtensions: ret[n] = {id, critical, value}; n++. [ret] is the 10-element buffer. *)
Definition putExt (st : list Extension * Z) (e : Extension) : go (res (list Extension * Z)) :=
  let '(ret, n) := st in
  do ret <- go_set ret n e; Ret (OK (ret, n + 1)).
(** A block that is skipped unless [cond]. The code touches ret[n] before it marshals; an index out of
    range would panic there. *)
Definition block (cond : bool) (st : list Extension * Z) (id : list Z) (critical : bool) (value : go (res (list Z)))
  : go (res (list Extension * Z)) :=
  if cond then
    do _ <- go_index (fst st) (snd st);
    run value <- value;
    putExt st (mkExt id critical value)
  else Ret (OK st).
(** gmx509.go:691-950. *)
Definition buildExtensions (template : Certificate) (subjectIsEmpty : bool) (authorityKeyId : list Z) : go (res (list Extension)) :=
  let t := c_fields template in
  let extra := c_ExtraExtensions template in
  let fresh oid := negb (oidInExtensions oid extra) in
  let st := (repeat zeroExt 10, 0) in
  run st <- block (negb (f_KeyUsage t =? 0) && fresh oidExtensionKeyUsage) st
                  oidExtensionKeyUsage true (Ret (marshalKeyUsage (f_KeyUsage t)));
  run st <- block (((0 <? zlen (f_ExtKeyUsage t)) || (0 <? zlen (f_UnknownExtKeyUsage t))) && fresh oidExtensionExtendedKeyUsage) st
                  oidExtensionExtendedKeyUsage false
                  (do oids <- extKeyUsageToOIDs (f_ExtKeyUsage t);
                   Ret (fieldSlice false (map fieldOID (oids ++ f_UnknownExtKeyUsage t))));
  run st <- block (f_BasicConstraintsValid t && fresh oidExtensionBasicConstraints) st
                  oidExtensionBasicConstraints true
                  (let maxPathLen := if (f_MaxPathLen t =? 0) && negb (f_MaxPathLenZero t) then -1 else f_MaxPathLen t in
                   Ret (marshalBasicConstraints (f_IsCA t) maxPathLen));
  run st <- block ((0 <? zlen (f_SubjectKeyId t)) && fresh oidExtensionSubjectKeyId) st
                  oidExtensionSubjectKeyId false (Ret (fieldOctets (f_SubjectKeyId t)));
  run st <- block ((0 <? zlen authorityKeyId) && fresh oidExtensionAuthorityKeyId) st
                  oidExtensionAuthorityKeyId false (Ret (marshalAuthKeyId authorityKeyId));
  run st <- block (((0 <? zlen (f_OCSPServer t)) || (0 <? zlen (f_IssuingCertificateURL t))) && fresh oidExtensionAuthorityInfoAccess) st
                  oidExtensionAuthorityInfoAccess false
                  (Ret (fieldSlice false
                          (map (fun name => fieldAIA oidAuthorityInfoAccessOcsp (rawURI name)) (f_OCSPServer t) ++
                           map (fun name => fieldAIA oidAuthorityInfoAccessIssuers (rawURI name)) (f_IssuingCertificateURL t))));
  run st <- block (negb (altEmpty (f_SAN t)) && fresh oidExtensionSubjectAltName) st
                  oidExtensionSubjectAltName subjectIsEmpty (Ret (marshalSANs (f_SAN t)));
  run st <- block ((0 <? zlen (f_PolicyIdentifiers t)) && fresh oidExtensionCertificatePolicies) st
                  oidExtensionCertificatePolicies false
                  (Ret (fieldSlice false (map (fun p => marshalStruct [fieldOID p]) (f_PolicyIdentifiers t))));
  let p := f_Permitted t in
  let x := f_Excluded t in
  run st <- block (((0 <? zlen (nc_dns p)) || (0 <? zlen (nc_dns x)) || (0 <? zlen (nc_ips p)) || (0 <? zlen (nc_ips x)) ||
                    (0 <? zlen (nc_emails p)) || (0 <? zlen (nc_emails x)) || (0 <? zlen (nc_uris p)) || (0 <? zlen (nc_uris x)))
                   && fresh oidExtensionNameConstraints) st
                  oidExtensionNameConstraints (f_ConstraintsCritical t) (marshalNameConstraints p x);
  run st <- block ((0 <? zlen (f_CRLDistributionPoints t)) && fresh oidExtensionCRLDistributionPoints) st
                  oidExtensionCRLDistributionPoints false
                  (Ret (fieldSlice false (map (fun name => fieldDP (rawURI name)) (f_CRLDistributionPoints t))));
  let '(ret, n) := st in
  do ret <- go_slice ret 0 n;
  Ret (OK (ret ++ extra)).

(** gmx509.go:981. *)
Definition emptyASN1Subject : list Z := [0x30; 0].

(** gmx509.go:985-1036. *)
Definition CreateCertificateInfo (template parent : Certificate) (csr : CertificateRequest) : go (res TBSCertificate) :=
  match c_SerialNumber template with
  | None => Ret (ERR "x509: no SerialNumber given")
  | Some serial =>
      run asn1Issuer <- Ret (subjectBytes parent);
      run asn1Subject <- Ret (subjectBytes template);
      let authorityKeyId := if negb (oidEqual asn1Issuer asn1Subject) && (0 <? zlen (f_SubjectKeyId (c_fields parent)))
                            then f_SubjectKeyId (c_fields parent) else f_AuthorityKeyId (c_fields template) in
      run extensions <- buildExtensions template (oidEqual asn1Subject emptyASN1Subject) authorityKeyId;
      run (subjectPubKeyInfo, rest) <- Ret (unmarshal uPKI zeroPKI (r_RawSPKI csr));
      if negb (zlen rest =? 0) then Ret (ERR "trailing data")
      else
        let c raw := mkTBS raw 2 (Some serial) (mkAlg oidSignatureSM3WithSM2 zeroRaw) (mkRaw 0 0 false [] asn1Issuer)
                       (UTC (c_NotBefore template)) (UTC (c_NotAfter template)) (mkRaw 0 0 false [] asn1Subject)
                       subjectPubKeyInfo zeroBits zeroBits (Some extensions) in
        run tbsCertContents <- Ret (fieldTBS (c []));
        Ret (OK (c tbsCertContents))
  end.

(** gmx509.go:1046-1055. *)
Definition CreateCertificate (cinfo : TBSCertificate) (signature : list Z) : res (list Z) :=
  fieldCert (mkCert [] cinfo (mkAlg oidSignatureSM3WithSM2 zeroRaw) (mkBits signature (zlen signature * 8))).
(** gmx509.go:1038-1044. *)
Definition IssueCertificateBySoftCAKey (cinfo : TBSCertificate) (caPri : PrivateKey) (userId : option (list Z)) (tape : list Z)
  : go (res (list Z) * list Z) :=
  do (signature, tape) <- Sign caPri userId (tb_raw cinfo) tape;
  Ret (match signature with ERR e => ERR e | OK signature => CreateCertificate cinfo signature end, tape).

(** asn1.Unmarshal of an extension's value, which has to be used up. *)
Definition unmarshalAll {A} (u : uty A) (zero : A) (l : list Z) : res A :=
  try (v, rest) <- unmarshal u zero l;
  if negb (zlen rest =? 0) then ERR "x509: trailing data after X.509 extension" else OK v.

(** gmx509.go:1132-1138. *)
Fixpoint usageLoop (n : nat) (i : Z) (usageBits : BitString) (usage : Z) : go Z :=
  match n with
  | O => Ret usage
  | S n =>
      do b <- bitsAt usageBits i;
      usageLoop n (i + 1) usageBits (if negb (b =? 0) then Z.lor usage (Z.shiftl 1 i) else usage)
  end.
(** gmx509.go:1231-1237: known and unknown extended key usages. *)
Definition knownUsages (l : list (list Z)) : list Z :=
  List.concat (map (fun u => match extKeyUsageFromOID u with Some k => [k] | None => [] end) l).
Definition unknownUsages (l : list (list Z)) : list (list Z) :=
  filter (fun u => match extKeyUsageFromOID u with Some _ => false | None => true end) l.
(** gmx509.go:1192-1203 and 1275-1285. *)
Definition dpNames (names : list RawValue) : list (list Z) :=
  map rv_bytes (filter (fun r => rv_tag r =? 6) names).
Definition aiaNames (method : list Z) (l : list (list Z * RawValue)) : list (list Z) :=
  map (fun p => rv_bytes (snd p)) (filter (fun p => (rv_tag (snd p) =? 6) && oidEqual (fst p) method) l).

(** gmx509.go:1117-1294: one round of the loop over the extensions; the new fields and the flag
    unhandled. *)
Definition parseExtension (e : Extension) (f : certFields) : go (res (certFields * bool)) :=
  let done f : go (res (certFields * bool)) := Ret (OK (f, false)) in
  match (match e_id e with
         | [a; b; c; n] => if (a =? 2) && (b =? 5) && (c =? 29) then Some n else None
         | _ => None
         end) with
  | Some n =>
      if n =? 15 then
        run usageBits <- Ret (unmarshalAll uBits zeroBits (e_value e));
        do usage <- usageLoop 9 0 usageBits 0;
        done (set_KeyUsage usage f)
      else if n =? 19 then
        run (isCA, maxPathLen) <- Ret (unmarshalAll uBasicConstraints (false, 0) (e_value e));
        done (set_BasicConstraints true isCA maxPathLen (maxPathLen =? 0) f)
      else if n =? 17 then
        run san <- parseSANExtension (e_value e);
        Ret (OK (set_SAN san f, altEmpty san))
      else if n =? 30 then
        run (p, x, unhandled) <- parseNameConstraintsExtension (e_value e);
        Ret (OK (set_NameConstraints (e_critical e) p x f, unhandled))
      else if n =? 31 then
        run cdp <- Ret (unmarshalAll (uList uDP [] false) [] (e_value e));
        done (set_CRLDistributionPoints (f_CRLDistributionPoints f ++ List.concat (map dpNames cdp)) f)
      else if n =? 35 then
        run id <- Ret (unmarshalAll uAuthKeyId [] (e_value e));
        done (set_AuthorityKeyId id f)
      else if n =? 37 then
        run keyUsage <- Ret (unmarshalAll (uList uOID [] false) [] (e_value e));
        done (set_ExtKeyUsage (f_ExtKeyUsage f ++ knownUsages keyUsage) (f_UnknownExtKeyUsage f ++ unknownUsages keyUsage) f)
      else if n =? 14 then
        run keyid <- Ret (unmarshalAll uOctets None (e_value e));
        done (set_SubjectKeyId (contents keyid) f)
      else if n =? 32 then
        run policies <- Ret (unmarshalAll (uList uPolicy [] false) [] (e_value e));
        done (set_PolicyIdentifiers policies f)
      else Ret (OK (f, true))
  | None =>
      if oidEqual (e_id e) oidExtensionAuthorityInfoAccess then
        run aia <- Ret (unmarshalAll (uList uAIA ([], zeroRaw) false) [] (e_value e));
        done (set_AuthorityInfo (f_OCSPServer f ++ aiaNames oidAuthorityInfoAccessOcsp aia)
                                (f_IssuingCertificateURL f ++ aiaNames oidAuthorityInfoAccessIssuers aia) f)
      else Ret (OK (f, true))
  end.
Fixpoint parseExtensions (l : list Extension) (f : certFields) (unhandled : list (list Z)) : go (res (certFields * list (list Z))) :=
  match l with
  | [] => Ret (OK (f, unhandled))
  | e :: r =>
      run (f, u) <- parseExtension e f;
      parseExtensions r f (if e_critical e && u then unhandled ++ [e_id e] else unhandled)
  end.

(** gmx509.go:1071-1297. *)
Definition parseCertificate (inp : certificate) : go (res Certificate) :=
  let tbs := ct_tbs inp in
  if negb (oidEqual oidSignatureSM3WithSM2 (alg_oid (ct_alg inp))) then Ret (ERR "x509: illegal signature algorithm OID")
  else if negb (oidEqual oidPublicKeyECDSA (alg_oid (pki_alg (tb_key tbs)))) then Ret (ERR "x509: illegal publick key algorithm OID")
  else
    run pub <- Ret (parsePublicKey (tb_key tbs));
    run subject <- Ret (unmarshalAll uRDNSequence [] (rv_full (tb_subject tbs)));
    run issuer <- Ret (unmarshalAll uRDNSequence [] (rv_full (tb_issuer tbs)));
    let exts := match tb_exts tbs with Some l => l | None => [] end in
    run (fields, unhandled) <- parseExtensions exts zeroFields [];
    Ret (OK (mkX509 (ct_raw inp) (tb_raw tbs) (pki_raw (tb_key tbs)) (rv_full (tb_subject tbs)) (rv_full (tb_issuer tbs))
                    (rightAlign (ct_sig inp)) 0 0 (KeySM2 pub) (i64 (tb_version tbs + 1)) (tb_serial tbs)
                    (FillFromRDNSequence zeroName issuer) (FillFromRDNSequence zeroName subject)
                    (tb_notBefore tbs) (tb_notAfter tbs) exts [] unhandled fields)).
(** gmx509.go:1058-1069. *)
Definition ParseCertificate (asn1Data : list Z) : go (res Certificate) :=
  run (cert, rest) <- Ret (unmarshal uCert zeroCert asn1Data);
  if negb (zlen rest =? 0) then Ret (ERR "trailing data") else parseCertificate cert.
End Env.
