(** Model of the part of sm2/cert/gmx509.go that makes requests and certificates, for callers who leave pointers nil: the template, the parent,
    the request, the certificate info and the keys are passed by pointer, and the URIs and IP ranges of a template are slices of
    pointers. Cert.v has the same functions on values; a nil pointer is None here. The key of a request is an interface, which may also
    hold a nil *sm2.PublicKey. Nil slices, maps and serial numbers are in Cert.v. *)
From Coq Require Import ZArith List Lia Bool String.
From Verif Require Import GoBase BeMin CbString CbBuilder GoAsn1 GoElliptic Sm3 Sm2 Sm2Der Sm2Nil GoText GoPkix CertText Cert.
Import ListNotations.
Open Scope Z_scope.

(** gmx509.go:843-889. The call for an IP range reads it in the inner callback, so a nil one panics there (the builder's recover passes on
    panics that are not a BuildError). The calls for the DNS names and ranges are made before the e-mail addresses and URI
    domains are looked at; otherwise they are collected, as in Cert.v. *)
Definition rangeSubtree (ipNet : option IPNet) : op :=
  match ipNet with
  | Some i => subtree 7 (ipAndMask i)
  | None => OASN1 0 SEQUENCE [OASN1 0 (contextSpecific 7) [OPanic PNil]]
  end.
Definition serialiseConstraintsN (c : Constraints) (ips : list (option IPNet)) : go (res (list Z)) :=
  run dns <- Ret (ia5Subtrees 2 (nc_dns c));
  let ips := map rangeSubtree ips in
  match execs (dns ++ ips) (NewBuilder []) with
  | (_, Some k) => Panic k
  | (_, None) =>
      run emails <- Ret (ia5Subtrees 1 (nc_emails c));
      run uris <- Ret (ia5Subtrees 6 (nc_uris c));
      runBuilder (dns ++ ips ++ emails ++ uris)
  end.
(** gmx509.go:891-919. *)
Definition marshalNameConstraintsN (permitted : Constraints) (permittedIPs : list (option IPNet))
    (excluded : Constraints) (excludedIPs : list (option IPNet)) : go (res (list Z)) :=
  run permitted <- serialiseConstraintsN permitted permittedIPs;
  run excluded <- serialiseConstraintsN excluded excludedIPs;
  runBuilder
    [OASN1 0 SEQUENCE
       ((if 0 <? zlen permitted then [OASN1 0 (constructed (contextSpecific 0)) [AddBytes permitted]] else []) ++
        (if 0 <? zlen excluded then [OASN1 0 (constructed (contextSpecific 1)) [AddBytes excluded]] else []))].

(** The public key of a request: an *sm2.PublicKey, which may be nil or have parts missing, or anything else. *)
Inductive reqKey : Set := ReqSM2 (pub : option nPub) | ReqOther.

Section Env.
Variable E : netEnv.

(** x509.Certificate and x509.CertificateRequest: the slices of pointers stand beside the record of Cert.v, whose own URIs, ranges and
    request key are not used. *)
Record nCert : Type := mkNCert {
  n_cert : Certificate E; n_URIs : list (option (URL E)); n_Permitted : list (option IPNet); n_Excluded : list (option IPNet) }.
Record nReq : Type := mkNReq { n_req : CertificateRequest E; nr_URIs : list (option (URL E)); nr_Key : reqKey }.

(** gmx509.go:210-230: String is called on every URI before anything is marshalled. *)
Fixpoint uriStrings (uris : list (option (URL E))) : go (list (list Z)) :=
  match uris with
  | [] => Ret []
  | u :: r => do u <- deref u; do l <- uriStrings r; Ret (urlString E u :: l)
  end.
Definition marshalSANsN (a : AltNames E) (uris : list (option (URL E))) : go (res (list Z)) :=
  do uris <- uriStrings uris;
  Ret (fieldSlice false
    (map (fun n => OK (makeRaw (mkRaw 2 nameTypeDNS false n []))) (an_dns E a) ++
     map (fun n => OK (makeRaw (mkRaw 2 nameTypeEmail false n []))) (an_emails E a) ++
     map (fun n => OK (makeRaw (mkRaw 2 nameTypeIP false (ipBytes n) []))) (an_ips E a) ++
     map (fun u => OK (makeRaw (mkRaw 2 nameTypeURI false u []))) uris)).
Definition altEmptyN (a : AltNames E) (uris : list (option (URL E))) : bool :=
  (zlen (an_dns E a) =? 0) && (zlen (an_emails E a) =? 0) && (zlen (an_ips E a) =? 0) && (zlen uris =? 0).

(** gmx509.go:691-950. *)
Definition buildExtensionsN (template : nCert) (subjectIsEmpty : bool) (authorityKeyId : list Z) : go (res (list Extension)) :=
  let t := c_fields E (n_cert template) in
  let extra := c_ExtraExtensions E (n_cert template) in
  let fresh oid := negb (oidInExtensions oid extra) in
  let st := (repeat zeroExt 10, 0) in
  run st <- block (negb (f_KeyUsage E t =? 0) && fresh oidExtensionKeyUsage) st
                  oidExtensionKeyUsage true (Ret (marshalKeyUsage (f_KeyUsage E t)));
  run st <- block (((0 <? zlen (f_ExtKeyUsage E t)) || (0 <? zlen (f_UnknownExtKeyUsage E t))) && fresh oidExtensionExtendedKeyUsage) st
                  oidExtensionExtendedKeyUsage false
                  (do oids <- extKeyUsageToOIDs (f_ExtKeyUsage E t);
                   Ret (fieldSlice false (map fieldOID (oids ++ f_UnknownExtKeyUsage E t))));
  run st <- block (f_BasicConstraintsValid E t && fresh oidExtensionBasicConstraints) st
                  oidExtensionBasicConstraints true
                  (let maxPathLen := if (f_MaxPathLen E t =? 0) && negb (f_MaxPathLenZero E t) then -1 else f_MaxPathLen E t in
                   Ret (marshalBasicConstraints (f_IsCA E t) maxPathLen));
  run st <- block ((0 <? zlen (f_SubjectKeyId E t)) && fresh oidExtensionSubjectKeyId) st
                  oidExtensionSubjectKeyId false (Ret (fieldOctets (f_SubjectKeyId E t)));
  run st <- block ((0 <? zlen authorityKeyId) && fresh oidExtensionAuthorityKeyId) st
                  oidExtensionAuthorityKeyId false (Ret (marshalAuthKeyId authorityKeyId));
  run st <- block (((0 <? zlen (f_OCSPServer E t)) || (0 <? zlen (f_IssuingCertificateURL E t))) && fresh oidExtensionAuthorityInfoAccess) st
                  oidExtensionAuthorityInfoAccess false
                  (Ret (fieldSlice false
                          (map (fun name => fieldAIA oidAuthorityInfoAccessOcsp (rawURI name)) (f_OCSPServer E t) ++
                           map (fun name => fieldAIA oidAuthorityInfoAccessIssuers (rawURI name)) (f_IssuingCertificateURL E t))));
  run st <- block (negb (altEmptyN (f_SAN E t) (n_URIs template)) && fresh oidExtensionSubjectAltName) st
                  oidExtensionSubjectAltName subjectIsEmpty (marshalSANsN (f_SAN E t) (n_URIs template));
  run st <- block ((0 <? zlen (f_PolicyIdentifiers E t)) && fresh oidExtensionCertificatePolicies) st
                  oidExtensionCertificatePolicies false
                  (Ret (fieldSlice false (map (fun p => marshalStruct [fieldOID p]) (f_PolicyIdentifiers E t))));
  let p := f_Permitted E t in
  let x := f_Excluded E t in
  run st <- block (((0 <? zlen (nc_dns p)) || (0 <? zlen (nc_dns x)) || (0 <? zlen (n_Permitted template)) || (0 <? zlen (n_Excluded template)) ||
                    (0 <? zlen (nc_emails p)) || (0 <? zlen (nc_emails x)) || (0 <? zlen (nc_uris p)) || (0 <? zlen (nc_uris x)))
                   && fresh oidExtensionNameConstraints) st
                  oidExtensionNameConstraints (f_ConstraintsCritical E t)
                  (marshalNameConstraintsN p (n_Permitted template) x (n_Excluded template));
  run st <- block ((0 <? zlen (f_CRLDistributionPoints E t)) && fresh oidExtensionCRLDistributionPoints) st
                  oidExtensionCRLDistributionPoints false
                  (Ret (fieldSlice false (map (fun name => fieldDP (rawURI name)) (f_CRLDistributionPoints E t))));
  let '(ret, n) := st in
  do ret <- go_slice ret 0 n;
  Ret (OK (ret ++ extra)).

(** gmx509.go:985-1036. *)
Definition CreateCertificateInfoN (template parent : option nCert) (csr : option nReq) : go (res TBSCertificate) :=
  do template <- deref template;
  match c_SerialNumber E (n_cert template) with
  | None => Ret (ERR "x509: no SerialNumber given")
  | Some serial =>
      do parent <- deref parent;
      run asn1Issuer <- Ret (subjectBytes E (n_cert parent));
      run asn1Subject <- Ret (subjectBytes E (n_cert template));
      let parentId := f_SubjectKeyId E (c_fields E (n_cert parent)) in
      let authorityKeyId := if negb (oidEqual asn1Issuer asn1Subject) && (0 <? zlen parentId)
                            then parentId else f_AuthorityKeyId E (c_fields E (n_cert template)) in
      run extensions <- buildExtensionsN template (oidEqual asn1Subject emptyASN1Subject) authorityKeyId;
      do csr <- deref csr;
      run (subjectPubKeyInfo, rest) <- Ret (unmarshal uPKI zeroPKI (r_RawSPKI E (n_req csr)));
      if negb (zlen rest =? 0) then Ret (ERR "trailing data")
      else
        let c raw := mkTBS raw 2 (Some serial) (mkAlg oidSignatureSM3WithSM2 zeroRaw) (mkRaw 0 0 false [] asn1Issuer)
                       (UTC (c_NotBefore E (n_cert template))) (UTC (c_NotAfter E (n_cert template))) (mkRaw 0 0 false [] asn1Subject)
                       subjectPubKeyInfo zeroBits zeroBits (Some extensions) in
        run tbsCertContents <- Ret (fieldTBS (c []));
        Ret (OK (c tbsCertContents))
  end.

(** gmx509.go:1046-1055. *)
Definition CreateCertificateN (cinfo : option TBSCertificate) (signature : list Z) : go (res (list Z)) :=
  do cinfo <- deref cinfo; Ret (CreateCertificate cinfo signature).
(** gmx509.go:1038-1044: cinfo.Raw is read before Sign is called. *)
Definition IssueCertificateBySoftCAKeyN (cinfo : option TBSCertificate) (caPri : option nPriv) (userId : option (list Z)) (tape : list Z)
  : go (res (list Z) * list Z) :=
  do info <- deref cinfo;
  do (signature, tape) <- SignN caPri userId (tb_raw info) tape;
  match signature with
  | ERR e => Ret (ERR e, tape)
  | OK signature => do c <- CreateCertificateN cinfo signature; Ret (c, tape)
  end.

(** gmx509.go:84-97. *)
Definition requestedExtensionsN (template : nReq) : go (res (list Extension)) :=
  let r := n_req template in
  run san <- (if negb (altEmptyN (r_SAN E r) (nr_URIs template))
                 && negb (oidInExtensions oidExtensionSubjectAltName (r_ExtraExtensions E r))
              then run sanBytes <- marshalSANsN (r_SAN E r) (nr_URIs template);
                   Ret (OK [mkExt oidExtensionSubjectAltName false sanBytes])
              else Ret (OK []));
  Ret (OK (san ++ r_ExtraExtensions E r)).
(** gmx509.go:75-206; the public key is written out before the template is looked at (line 79), the private key is used last. *)
Definition CreateCertificateRequestN (template : option nReq) (pub : option nPub) (pri : option nPriv)
    (userId : option (list Z)) (tape : list Z) : go (res (list Z) * list Z * list ATVSet) :=
  do publicKeyBytes <- GetUnCompressBytesN pub;
  let paramBytes := match fieldOID oidSM2P256V1 with OK b => b | ERR _ => [] end in
  let publicKeyAlgorithm := mkAlg oidPublicKeyECDSA (mkRaw 0 0 false [] paramBytes) in
  do template <- deref template;
  let r := n_req template in
  do extensions <- requestedExtensionsN template;
  match extensions with
  | ERR e => Ret (ERR e, tape, r_Attributes E r)
  | OK extensions =>
      let '(attributes, after) := requestAttributes E r extensions in
      let tbs :=
        try asn1Subject <- (match r_RawSubject E r with
                            | [] => marshalRDNSequence (ToRDNSequence (r_Subject E r))
                            | raw => OK raw
                            end);
        try rawAttributes <- newRawAttributes attributes;
        let tbsCSR := mkTbsCSR [] 0 (mkRaw 0 0 false [] asn1Subject)
                        (mkPKI [] publicKeyAlgorithm (mkBits publicKeyBytes (zlen publicKeyBytes * 8))) rawAttributes in
        try tbsCSRContents <- fieldTbsCSR tbsCSR;
        OK (tbsCSR, tbsCSRContents) in
      match tbs with
      | ERR e => Ret (ERR e, tape, after)
      | OK (tbsCSR, tbsCSRContents) =>
          do (signature, tape) <- SignN pri userId tbsCSRContents tape;
          match signature with
          | ERR e => Ret (ERR e, tape, after)
          | OK signature =>
              Ret (fieldCsr (mkCsr [] (mkTbsCSR tbsCSRContents (tr_version tbsCSR) (tr_subject tbsCSR) (tr_key tbsCSR) (tr_attrs tbsCSR))
                                   (mkAlg oidSignatureSM3WithSM2 zeroRaw) (mkBits signature (zlen signature * 8))),
                   tape, after)
          end
      end
  end.

(** gmx509.go:536-539. *)
Definition VerifyCSRSignN (csr : option nReq) (userId : option (list Z)) : go bool :=
  do csr <- deref csr;
  match nr_Key csr with
  | ReqSM2 pub => VerifyN pub userId (r_RawTBS E (n_req csr)) (r_Signature E (n_req csr))
  | ReqOther => Panic (PUser "interface conversion")
  end.

(** gmx509.go:541-551: the slices of pointers are shared. *)
Definition FillCertificateTemplateByCSRN (template : option nCert) (csr : option nReq) : go nCert :=
  do csr <- deref csr;
  do template <- deref template;
  Ret (mkNCert (FillCertificateTemplateByCSR E (n_cert template) (n_req csr)) (nr_URIs csr) (n_Permitted template) (n_Excluded template)).
End Env.
