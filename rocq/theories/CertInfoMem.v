(** CreateCertificateInfo, CreateCertificate and IssueCertificateBySoftCAKey with the memory that their arguments and results
    live in: byte arrays, the arrays of object identifiers, and big.Ints. Cert.v has the same functions on contents.
    The object identifiers that gmx509.go:26-44 declares are package variables, hence arrays of the memory, too.
    Only what the result can share is kept in memory here: a certificate's serial number, its RawSubject, its key
    identifiers and its ExtraExtensions; a request's RawSubjectPublicKeyInfo. The other fields are read only
    (everything made of them is the output of asn1.Marshal or of a Builder, which is new). An object identifier is the address of
    its array, which it fills. *)
From Coq Require Import ZArith List Lia Bool String.
From Verif Require Import GoBase CbString GoAsn1 Sm2 Sm2Der GoText GoPkix CertText Cert CertShare.
Import ListNotations.
Open Scope Z_scope.

Record heap : Set := mkIH { bufs : list (list Z); oids : list (list Z); bigs : list Z }.
(** A []byte: its array and the window in it. *)
Record bslice : Set := mkBS { b_arr : nat; b_win : win }.
Definition readB (h : heap) (s : bslice) : list Z := rd (nth (b_arr s) (bufs h) []) (b_win s).
Definition readOid (h : heap) (a : nat) : list Z := nth a (oids h) [].

(** pkix.Extension; the Id may be nil. *)
Record extM : Set := mkExtM { x_id : option nat; x_critical : bool; x_value : bslice }.
Definition nilB : bslice := mkBS 0 nilW.
Definition zeroExtM : extM := mkExtM None false nilB.
Definition viewExt (h : heap) (x : extM) : Extension :=
  mkExt (match x_id x with None => [] | Some a => readOid h a end) (x_critical x) (readB h (x_value x)).

(** gmx509.go:26-44: the package variables that the functions below use, at the beginning of the memory. *)
Definition v_SignatureSM3WithSM2 : nat := 0.
Definition v_KeyUsage : nat := 1.
Definition v_ExtendedKeyUsage : nat := 2.
Definition v_BasicConstraints : nat := 3.
Definition v_SubjectKeyId : nat := 4.
Definition v_AuthorityKeyId : nat := 5.
Definition v_AuthorityInfoAccess : nat := 6.
Definition v_SubjectAltName : nat := 7.
Definition v_CertificatePolicies : nat := 8.
Definition v_NameConstraints : nat := 9.
Definition v_CRLDistributionPoints : nat := 10.
Definition v_Ocsp : nat := 11.
Definition v_Issuers : nat := 12.
Definition packageOids : list (list Z) :=
  [oidSignatureSM3WithSM2; oidExtensionKeyUsage; oidExtensionExtendedKeyUsage; oidExtensionBasicConstraints; oidExtensionSubjectKeyId;
   oidExtensionAuthorityKeyId; oidExtensionAuthorityInfoAccess; oidExtensionSubjectAltName; oidExtensionCertificatePolicies;
   oidExtensionNameConstraints; oidExtensionCRLDistributionPoints; oidAuthorityInfoAccessOcsp; oidAuthorityInfoAccessIssuers].

(** A computation with memory: a value, an error or a panic, and the memory that is left. *)
Definition M (A : Type) : Type := heap -> go (res A) * heap.
Definition bindI {A B} (m : M A) (k : A -> M B) : M B := fun h =>
  match m h with
  | (Ret (OK a), h) => k a h
  | (Ret (ERR e), h) => (Ret (ERR e), h)
  | (Panic e, h) => (Panic e, h)
  end.
Definition pureI {A} (x : go (res A)) : M A := fun h => (x, h).
(** A new array that a new slice fills: the result of asn1.Marshal or Builder.Bytes. *)
Definition newB (l : list Z) : M bslice := fun h =>
  (Ret (OK (mkBS (List.length (bufs h)) (mkW 0 (zlen l)))), mkIH (bufs h ++ [l]) (oids h) (bigs h)).
Notation "'mem' x <- e ; f" := (bindI e (fun x => f)) (at level 200, x pattern, e at level 100, f at level 200, right associativity).

Section Env.
Variable E : netEnv.

(** A *x509.Certificate used as template or parent: the fields that are in memory, and a certificate for the others. *)
Record certM : Type := mkCertM {
  m_serial : option nat; m_rawSubject : bslice; m_subjectKeyId : bslice; m_authorityKeyId : bslice; m_extra : list extM;
  m_rest : Certificate E }.
Definition withIds (ski aki : list Z) (f : certFields E) : certFields E :=
  set_AuthorityKeyId E aki (set_SubjectKeyId E ski f).
Definition viewCert (h : heap) (c : certM) : Certificate E :=
  let r := m_rest c in
  mkX509 E (c_Raw E r) (c_RawTBS E r) (c_RawSPKI E r) (readB h (m_rawSubject c)) (c_RawIssuer E r)
    (c_Signature E r) (c_SignatureAlgorithm E r) (c_PublicKeyAlgorithm E r) (c_PublicKey E r)
    (c_Version E r) (option_map (fun p => nth p (bigs h) 0) (m_serial c)) (c_Issuer E r) (c_Subject E r) (c_NotBefore E r) (c_NotAfter E r)
    (c_Extensions E r) (map (viewExt h) (m_extra c)) (c_Unhandled E r)
    (withIds (readB h (m_subjectKeyId c)) (readB h (m_authorityKeyId c)) (c_fields E r)).
(** A request: RawSubjectPublicKeyInfo, and a request for the other fields. *)
Record reqM : Type := mkReqM { m_spki : bslice; m_restR : CertificateRequest E }.
Definition viewReq (h : heap) (q : reqM) : CertificateRequest E :=
  let r := m_restR q in
  mkReq E (r_Raw E r) (r_RawTBS E r) (readB h (m_spki q)) (r_RawSubject E r) (r_Signature E r) (r_SignatureAlgorithm E r)
    (r_PublicKeyAlgorithm E r) (r_PublicKey E r) (r_Version E r) (r_Subject E r) (r_Attributes E r) (r_Extensions E r)
    (r_ExtraExtensions E r) (r_SAN E r).

(** A TBSCertificate as CreateCertificateInfo makes it. The windows of the key are in the array [i_keyArr]; its algorithm's
    identifier has been copied by asn1.Unmarshal and is held by nothing else. *)
Record infoM : Set := mkInfoM {
  i_raw : bslice; i_serial : nat; i_algorithm : nat; i_issuer : bslice; i_notBefore : Time; i_notAfter : Time; i_subject : bslice;
  i_keyArr : nat; i_key : PKIW; i_exts : list extM }.
Definition viewInfo (h : heap) (i : infoM) : TBSCertificate :=
  mkTBS (readB h (i_raw i)) 2 (Some (nth (i_serial i) (bigs h) 0)) (mkAlg (readOid h (i_algorithm i)) zeroRaw)
    (mkRaw 0 0 false [] (readB h (i_issuer i))) (i_notBefore i) (i_notAfter i) (mkRaw 0 0 false [] (readB h (i_subject i)))
    (readPKI (nth (i_keyArr i) (bufs h) []) (i_key i)) zeroBits zeroBits (Some (map (viewExt h) (i_exts i))).

(** gmx509.go:553-559. *)
Definition subjectBytesM (c : certM) : M bslice := fun h =>
  if 0 <? w_len (b_win (m_rawSubject c)) then (Ret (OK (m_rawSubject c)), h)
  else (mem s <- pureI (Ret (marshalRDNSequence (ToRDNSequence (c_Subject E (m_rest c))))); newB s) h.

(** One block of buildExtensions: the Id is the package's variable, the Value is new. *)
Definition blockM (cond : heap -> bool) (st : list extM * Z) (id : nat) (critical : bool) (value : heap -> go (res (list Z))) : M (list extM * Z) := fun h =>
  if cond h then
    (mem _ <- pureI (do x <- go_index (fst st) (snd st); Ret (OK x));
     mem v <- pureI (value h);
     mem s <- newB v;
     pureI (do ret <- go_set (fst st) (snd st) (mkExtM (Some id) critical s); Ret (OK (ret, snd st + 1)))) h
  else (Ret (OK st), h).

(** gmx509.go:691-950. append copies the template's Extension structs, not what they point to; the array [ret] is the
    function's own. *)
Definition buildExtensionsM (template : certM) (subjectIsEmpty : bool) (authorityKeyId : bslice) : M (list extM) :=
  let fresh v h := negb (oidInExtensions (readOid h v) (map (viewExt h) (m_extra template))) in
  let t := c_fields E (m_rest template) in
  let st := (repeat zeroExtM 10, 0) in
  mem st <- blockM (fun h => negb (f_KeyUsage E t =? 0) && fresh v_KeyUsage h) st
                   v_KeyUsage true (fun _ => Ret (marshalKeyUsage (f_KeyUsage E t)));
  mem st <- blockM (fun h => ((0 <? zlen (f_ExtKeyUsage E t)) || (0 <? zlen (f_UnknownExtKeyUsage E t))) && fresh v_ExtendedKeyUsage h) st
                   v_ExtendedKeyUsage false
                   (fun _ => do oids <- extKeyUsageToOIDs (f_ExtKeyUsage E t);
                             Ret (fieldSlice false (map fieldOID (oids ++ f_UnknownExtKeyUsage E t))));
  mem st <- blockM (fun h => f_BasicConstraintsValid E t && fresh v_BasicConstraints h) st
                   v_BasicConstraints true
                   (fun _ => let maxPathLen := if (f_MaxPathLen E t =? 0) && negb (f_MaxPathLenZero E t) then -1 else f_MaxPathLen E t in
                             Ret (marshalBasicConstraints (f_IsCA E t) maxPathLen));
  mem st <- blockM (fun h => (0 <? w_len (b_win (m_subjectKeyId template))) && fresh v_SubjectKeyId h) st
                   v_SubjectKeyId false (fun h => Ret (fieldOctets (readB h (m_subjectKeyId template))));
  mem st <- blockM (fun h => (0 <? w_len (b_win authorityKeyId)) && fresh v_AuthorityKeyId h) st
                   v_AuthorityKeyId false (fun h => Ret (marshalAuthKeyId (readB h authorityKeyId)));
  mem st <- blockM (fun h => ((0 <? zlen (f_OCSPServer E t)) || (0 <? zlen (f_IssuingCertificateURL E t))) && fresh v_AuthorityInfoAccess h) st
                   v_AuthorityInfoAccess false
                   (fun h => Ret (fieldSlice false
                          (map (fun name => fieldAIA (readOid h v_Ocsp) (rawURI name)) (f_OCSPServer E t) ++
                           map (fun name => fieldAIA (readOid h v_Issuers) (rawURI name)) (f_IssuingCertificateURL E t))));
  mem st <- blockM (fun h => negb (altEmpty E (f_SAN E t)) && fresh v_SubjectAltName h) st
                   v_SubjectAltName subjectIsEmpty (fun _ => Ret (marshalSANs E (f_SAN E t)));
  mem st <- blockM (fun h => (0 <? zlen (f_PolicyIdentifiers E t)) && fresh v_CertificatePolicies h) st
                   v_CertificatePolicies false
                   (fun _ => Ret (fieldSlice false (map (fun p => marshalStruct [fieldOID p]) (f_PolicyIdentifiers E t))));
  let p := f_Permitted E t in
  let x := f_Excluded E t in
  mem st <- blockM (fun h => ((0 <? zlen (nc_dns p)) || (0 <? zlen (nc_dns x)) || (0 <? zlen (nc_ips p)) || (0 <? zlen (nc_ips x)) ||
                    (0 <? zlen (nc_emails p)) || (0 <? zlen (nc_emails x)) || (0 <? zlen (nc_uris p)) || (0 <? zlen (nc_uris x)))
                   && fresh v_NameConstraints h) st
                  v_NameConstraints (f_ConstraintsCritical E t) (fun _ => marshalNameConstraints p x);
  mem st <- blockM (fun h => (0 <? zlen (f_CRLDistributionPoints E t)) && fresh v_CRLDistributionPoints h) st
                  v_CRLDistributionPoints false
                  (fun _ => Ret (fieldSlice false (map (fun name => fieldDP (rawURI name)) (f_CRLDistributionPoints E t))));
  let '(ret, n) := st in
  pureI (do ret <- go_slice ret 0 n; Ret (OK (ret ++ m_extra template))).

(** gmx509.go:985-1036 *)
Definition CreateCertificateInfoM (template parent : certM) (csr : reqM) : M infoM := fun h =>
  match m_serial template with
  | None => (Ret (ERR "x509: no SerialNumber given"), h)
  | Some serial =>
      (mem asn1Issuer <- subjectBytesM parent;
       mem asn1Subject <- subjectBytesM template;
       fun h =>
       let authorityKeyId := if negb (oidEqual (readB h asn1Issuer) (readB h asn1Subject)) && (0 <? w_len (b_win (m_subjectKeyId parent)))
                             then m_subjectKeyId parent else m_authorityKeyId template in
       (mem extensions <- buildExtensionsM template (oidEqual (readB h asn1Subject) emptyASN1Subject) authorityKeyId;
        fun h =>
        (mem (subjectPubKeyInfo, rest) <- pureI (Ret (unmarshalW (nth (b_arr (m_spki csr)) (bufs h) []) (uPKIW (nth (b_arr (m_spki csr)) (bufs h) [])) zeroPKIW (b_win (m_spki csr))));
         if negb (w_len rest =? 0) then pureI (Ret (ERR "trailing data"))
         else
           let c raw := mkInfoM raw serial v_SignatureSM3WithSM2 asn1Issuer
                          (UTC (c_NotBefore E (m_rest template))) (UTC (c_NotAfter E (m_rest template))) asn1Subject
                          (b_arr (m_spki csr)) subjectPubKeyInfo extensions in
           mem tbsCertContents <- (fun h => pureI (Ret (fieldTBS (viewInfo h (c nilB)))) h);
           mem raw <- newB tbsCertContents;
           pureI (Ret (OK (c raw)))) h) h) h
  end.
End Env.

(** gmx509.go:1046-1055: the memory is only read. *)
Definition CreateCertificateM (h : heap) (cinfo : infoM) (signature : list Z) : res (list Z) :=
  fieldCert (mkCert [] (viewInfo h cinfo) (mkAlg (readOid h v_SignatureSM3WithSM2) zeroRaw) (mkBits signature (zlen signature * 8))).
(** gmx509.go:1038-1044 *)
Definition IssueCertificateBySoftCAKeyM (h : heap) (cinfo : infoM) (caPri : PrivateKey) (userId : option (list Z)) (tape : list Z)
  : go (res (list Z) * list Z) :=
  do (signature, tape) <- Sign caPri userId (readB h (i_raw cinfo)) tape;
  Ret (match signature with ERR e => ERR e | OK signature => CreateCertificateM h cinfo signature end, tape).
