(** Parsing of certificates and requests once more, with byte slices as windows of the array behind the argument.
    Cert.v has the same functions on contents. encoding/asn1 copies a []byte, a string, an object identifier and a number
    out of its input; a RawContent, a RawValue, the Bytes of a BitString, and an octet or bit string stored in an
    interface{} are windows of the input (asn1.go of the standard library: parseField, parseBitString).
    Nothing writes to the array while parsing, so that it is a parameter. *)
From Coq Require Import ZArith List Lia Bool String.
From Verif Require Import GoBase BeMin CbString GoAsn1 GoText GoPkix Sm2 Cert.
Import ListNotations.
Open Scope Z_scope.

(** A []byte: where it begins in the array, and its length. A nil slice is the empty window at 0. *)
Record win : Set := mkW { w_off : Z; w_len : Z }.
Definition nilW : win := mkW 0 0.
Definition rd (d : list Z) (w : win) : list Z := sub d (w_off w) (w_off w + w_len w).
(** The last [n] bytes of a window: what is left when the others have been read. *)
Definition endW (w : win) (n : Z) : win := mkW (w_off w + (w_len w - n)) n.

(** The types of encoding/asn1 and pkix that hold slices of the input. *)
Record RawW : Set := mkRawW { rw_class : Z; rw_tag : Z; rw_comp : bool; rw_bytes : win; rw_full : win }.
Definition zeroRawW : RawW := mkRawW 0 0 false nilW nilW.
Record BitsW : Set := mkBitsW { bw_bytes : win; bw_len : Z }.
Definition zeroBitsW : BitsW := mkBitsW nilW 0.
Inductive anyW : Set := PlainW (v : goAny) | BitsAnyW (b : BitsW) | BytesAnyW (w : win).
Record ATVW : Set := mkATVW { aw_type : list Z; aw_value : anyW }.
Definition zeroATVW : ATVW := mkATVW [] (PlainW AnyNil).
Record ATVSetW : Set := mkATVSW { asw_type : list Z; asw_value : list (list ATVW) }.
Record AlgW : Set := mkAlgW { algw_oid : list Z; algw_params : RawW }.
Definition zeroAlgW : AlgW := mkAlgW [] zeroRawW.
Record PKIW : Set := mkPKIW { pkw_raw : win; pkw_alg : AlgW; pkw_key : BitsW }.
Definition zeroPKIW : PKIW := mkPKIW nilW zeroAlgW zeroBitsW.
Record TbsCSRW : Set := mkTbsCSRW { trw_raw : win; trw_version : Z; trw_subject : RawW; trw_key : PKIW; trw_attrs : list RawW }.
Definition zeroTbsCSRW : TbsCSRW := mkTbsCSRW nilW 0 zeroRawW zeroPKIW [].
Record CsrW : Set := mkCsrW { crw_raw : win; crw_tbs : TbsCSRW; crw_alg : AlgW; crw_sig : BitsW }.
Definition zeroCsrW : CsrW := mkCsrW nilW zeroTbsCSRW zeroAlgW zeroBitsW.
Record TBSW : Set := mkTBSW {
  tbw_raw : win; tbw_version : Z; tbw_serial : option Z; tbw_alg : AlgW; tbw_issuer : RawW;
  tbw_notBefore : Time; tbw_notAfter : Time; tbw_subject : RawW; tbw_key : PKIW;
  tbw_uid : BitsW; tbw_suid : BitsW; tbw_exts : option (list Extension) }.
Definition zeroTBSW : TBSW :=
  mkTBSW nilW 0 None zeroAlgW zeroRawW zeroTime zeroTime zeroRawW zeroPKIW zeroBitsW zeroBitsW None.
Record CertW : Set := mkCertW { ctw_raw : win; ctw_tbs : TBSW; ctw_alg : AlgW; ctw_sig : BitsW }.
Definition zeroCertW : CertW := mkCertW nilW zeroTBSW zeroAlgW zeroBitsW.

(** What they hold when the array is [d]. *)
Definition readRaw (d : list Z) (r : RawW) : RawValue := mkRaw (rw_class r) (rw_tag r) (rw_comp r) (rd d (rw_bytes r)) (rd d (rw_full r)).
Definition readBits (d : list Z) (b : BitsW) : BitString := mkBits (rd d (bw_bytes b)) (bw_len b).
Definition readAny (d : list Z) (a : anyW) : goAny :=
  match a with PlainW v => v | BitsAnyW b => AnyBits (readBits d b) | BytesAnyW w => AnyBytes (rd d w) end.
Definition readATV (d : list Z) (a : ATVW) : ATV := mkATV (aw_type a) (readAny d (aw_value a)).
Definition readATVSet (d : list Z) (a : ATVSetW) : ATVSet := mkATVS (asw_type a) (map (map (readATV d)) (asw_value a)).
Definition readAlg (d : list Z) (a : AlgW) : AlgorithmIdentifier := mkAlg (algw_oid a) (readRaw d (algw_params a)).
Definition readPKI (d : list Z) (k : PKIW) : publicKeyInfo := mkPKI (rd d (pkw_raw k)) (readAlg d (pkw_alg k)) (readBits d (pkw_key k)).
Definition readTbsCSR (d : list Z) (t : TbsCSRW) : tbsCertificateRequest :=
  mkTbsCSR (rd d (trw_raw t)) (trw_version t) (readRaw d (trw_subject t)) (readPKI d (trw_key t)) (map (readRaw d) (trw_attrs t)).
Definition readCsr (d : list Z) (c : CsrW) : certificateRequest :=
  mkCsr (rd d (crw_raw c)) (readTbsCSR d (crw_tbs c)) (readAlg d (crw_alg c)) (readBits d (crw_sig c)).
Definition readTBS (d : list Z) (t : TBSW) : TBSCertificate :=
  mkTBS (rd d (tbw_raw t)) (tbw_version t) (tbw_serial t) (readAlg d (tbw_alg t)) (readRaw d (tbw_issuer t))
        (tbw_notBefore t) (tbw_notAfter t) (readRaw d (tbw_subject t)) (readPKI d (tbw_key t))
        (readBits d (tbw_uid t)) (readBits d (tbw_suid t)) (tbw_exts t).
Definition readCert (d : list Z) (c : CertW) : certificate :=
  mkCert (rd d (ctw_raw c)) (readTBS d (ctw_tbs c)) (readAlg d (ctw_alg c)) (readBits d (ctw_sig c)).

Section Array.
(** The array behind the argument. *)
Variable d : list Z.

(** * encoding/asn1 *)

(** As [uty] of GoAsn1.v: the whole element and its contents are windows. *)
Record utyW (A : Type) : Type := mkUW {
  uw_any : bool;
  uw_tag : tagAndLength -> Z;
  uw_comp : bool;
  uw_body : Z -> tagAndLength -> win -> win -> res A }.
Arguments mkUW {A}.
Arguments uw_any {A}.
Arguments uw_tag {A}.
Arguments uw_comp {A}.
Arguments uw_body {A}.
(** A type whose values are copied out of the input. *)
Definition copied {A} (u : uty A) : utyW A :=
  mkUW (u_any u) (u_tag u) (u_comp u) (fun utag t full i => u_body u utag t (rd d full) (rd d i)).
(** parseTagAndLength *)
Definition headerW (w : win) : res (tagAndLength * win) :=
  try (t, r) <- parseTagAndLength (rd d w); OK (t, endW w (zlen r)).
(** parseField *)
Definition parseFieldW {A} (u : utyW A) (absent : A) (p : fieldParameters) (w : win) : res (A * win) :=
  if w_len w =? 0 then if fp_optional p then OK (absent, w) else ERR "sequence truncated"
  else
    try (t, r) <- headerW w;
    try h <- (if fp_explicit p then
                if w_len r =? 0 then ERR "explicit tag has no child"
                else if (tl_class t =? 2) && (match fp_tag p with Some n => tl_tag t =? n | None => false end)
                        && ((tl_length t =? 0) || tl_comp t)
                then if uw_any u then OK (Some (t, r))
                     else if 0 <? tl_length t then try h <- headerW r; OK (Some h)
                     else ERR "zero length explicit tag was not an asn1.Flag"
                else if fp_optional p then OK None
                else ERR "explicitly tagged member didn't match"
              else OK (Some (t, r)));
    match h with
    | None => OK (absent, w)
    | Some (t, r) =>
        let utag := if fp_set p then TagSet else uw_tag u t in
        let '(anyTag, eclass, etag) :=
          match fp_tag p with
          | Some n => if fp_explicit p then (uw_any u, 0, utag) else (false, 2, n)
          | None => (uw_any u, 0, utag)
          end in
        if (negb anyTag && (negb (tl_class t =? eclass) || negb (tl_tag t =? etag)))
           || (negb (uw_any u) && negb (Bool.eqb (tl_comp t) (uw_comp u)))
        then if fp_optional p then OK (absent, w) else ERR "tags don't match"
        else if w_len r <? tl_length t then ERR "data truncated"
        else
          let inner := mkW (w_off r) (tl_length t) in
          let rest := endW r (w_len r - tl_length t) in
          try v <- uw_body u utag t (mkW (w_off w) (w_off rest - w_off w)) inner;
          OK (v, rest)
    end.
Definition unmarshalW {A} (u : utyW A) (zero : A) (w : win) : res (A * win) := parseFieldW u zero noParams w.
(** parseSequenceOf: the first loop keeps nothing but the number of elements. *)
Definition shape {A} (u : utyW A) : uty unit := mkU (uw_any u) (uw_tag u) (uw_comp u) (fun _ _ _ _ => OK tt).
Fixpoint parseElementsW {A} (n : nat) (u : utyW A) (zero : A) (w : win) : res (list A) :=
  match n with
  | O => OK []
  | S n => try (v, w) <- parseFieldW u zero noParams w; try vs <- parseElementsW n u zero w; OK (v :: vs)
  end.
Definition parseSequenceOfW {A} (u : utyW A) (zero : A) (w : win) : res (list A) :=
  try n <- countElements (List.length (rd d w)) (shape u) (rd d w); parseElementsW n u zero w.
Definition structW {A} (body : win -> win -> res A) : utyW A := mkUW false (fun _ => TagSequence) true (fun _ _ full i => body full i).
Definition uListW {A} (u : utyW A) (zero : A) (isSET : bool) : utyW (list A) :=
  mkUW false (fun _ => if isSET then TagSet else TagSequence) true (fun _ _ _ i => parseSequenceOfW u zero i).
(** RawValue: Bytes and FullBytes are slices of the input. *)
Definition uRawW : utyW RawW := mkUW true (fun _ => -1) false (fun _ t full i => OK (mkRawW (tl_class t) (tl_tag t) (tl_comp t) i full)).
(** parseBitString: ret.Bytes = bytes[1:] *)
Definition parseBitStringW (i : win) : res BitsW :=
  try b <- parseBitString (rd d i); OK (mkBitsW (endW i (w_len i - 1)) (bs_len b)).
Definition uBitsW : utyW BitsW := mkUW false (fun _ => TagBitString) false (fun _ _ _ i => parseBitStringW i).
(** parseField for interface{}: the slices of a bit string and of an octet string are those of the input. *)
Definition parseAnyBodyW (tag : Z) (i : win) : res anyW :=
  if tag =? TagBitString then try b <- parseBitStringW i; OK (BitsAnyW b)
  else if tag =? TagOctetString then OK (BytesAnyW i)
  else try v <- parseAnyBody tag (rd d i); OK (PlainW v).
Definition parseAnyW (w : win) : res (anyW * win) :=
  if w_len w =? 0 then ERR "sequence truncated"
  else
    try (t, r) <- headerW w;
    if w_len r <? tl_length t then ERR "data truncated"
    else
      try v <- (if negb (tl_comp t) && (tl_class t =? 0) then parseAnyBodyW (tl_tag t) (mkW (w_off r) (tl_length t))
                else OK (PlainW AnyNil));
      OK (v, endW r (w_len r - tl_length t)).

(** * crypto/x509/pkix and gmx509.go:54-73, 953-979 *)

Definition uATVW : utyW ATVW := structW (fun _ w =>
  try (t, w) <- parseFieldW (copied uOID) [] noParams w;
  try (v, w) <- parseAnyW w;
  OK (mkATVW t v)).
Definition uRDNW : utyW (list ATVW) := uListW uATVW zeroATVW true.
Definition uRDNSequenceW : utyW (list (list ATVW)) := uListW uRDNW [] false.
Definition uATVSetW : utyW ATVSetW := structW (fun _ w =>
  try (t, w) <- parseFieldW (copied uOID) [] noParams w;
  try (v, w) <- parseFieldW (uListW (uListW uATVW zeroATVW false) [] false) [] setParams w;
  OK (mkATVSW t v)).
Definition uAlgW : utyW AlgW := structW (fun _ w =>
  try (o, w) <- parseFieldW (copied uOID) [] noParams w;
  try (p, w) <- parseFieldW uRawW zeroRawW optParams w;
  OK (mkAlgW o p)).
Definition uPKIW : utyW PKIW := structW (fun full w =>
  try (a, w) <- parseFieldW uAlgW zeroAlgW noParams w;
  try (k, w) <- parseFieldW uBitsW zeroBitsW noParams w;
  OK (mkPKIW full a k)).
Definition uTbsCSRW : utyW TbsCSRW := structW (fun full w =>
  try (v, w) <- parseFieldW (copied uInt) 0 noParams w;
  try (s, w) <- parseFieldW uRawW zeroRawW noParams w;
  try (k, w) <- parseFieldW uPKIW zeroPKIW noParams w;
  try (a, w) <- parseFieldW (uListW uRawW zeroRawW false) [] tag0 w;
  OK (mkTbsCSRW full v s k a)).
Definition uCsrW : utyW CsrW := structW (fun full w =>
  try (t, w) <- parseFieldW uTbsCSRW zeroTbsCSRW noParams w;
  try (a, w) <- parseFieldW uAlgW zeroAlgW noParams w;
  try (s, w) <- parseFieldW uBitsW zeroBitsW noParams w;
  OK (mkCsrW full t a s)).
Definition uTBSW : utyW TBSW := structW (fun full w =>
  try (v, w) <- parseFieldW (copied uInt) 0 (explicitTag 0) w;
  try (n, w) <- parseFieldW (copied uBigInt) 0 noParams w;
  try (a, w) <- parseFieldW uAlgW zeroAlgW noParams w;
  try (i, w) <- parseFieldW uRawW zeroRawW noParams w;
  try (t, w) <- parseFieldW (copied uValidity) (zeroTime, zeroTime) noParams w;
  try (s, w) <- parseFieldW uRawW zeroRawW noParams w;
  try (k, w) <- parseFieldW uPKIW zeroPKIW noParams w;
  try (u1, w) <- parseFieldW uBitsW zeroBitsW (optTag 1) w;
  try (u2, w) <- parseFieldW uBitsW zeroBitsW (optTag 2) w;
  try (e, w) <- parseFieldW (copied (uSlice uExtension zeroExt false)) None (explicitTag 3) w;
  OK (mkTBSW full v (Some n) a i (fst t) (snd t) s k u1 u2 e)).
Definition uCertW : utyW CertW := structW (fun full w =>
  try (t, w) <- parseFieldW uTBSW zeroTBSW noParams w;
  try (a, w) <- parseFieldW uAlgW zeroAlgW noParams w;
  try (s, w) <- parseFieldW uBitsW zeroBitsW noParams w;
  OK (mkCertW full t a s)).
(** The attributes that parse (gmx509.go:370-382). *)
Definition parseRawAttributesW (rawAttributes : list RawW) : list ATVSetW :=
  List.concat (map (fun rawAttr =>
    match unmarshalW uATVSetW (mkATVSW [] []) (rw_full rawAttr) with
    | OK (attr, rest) => if w_len rest =? 0 then [attr] else []
    | ERR _ => []
    end) rawAttributes).
(** A slice that is a window of the array, or one of its own. *)
Inductive sharing : Set := Shared (w : win) | Own (l : list Z).
(** BitString.RightAlign returns Bytes itself when there is nothing to shift. *)
Definition rightAlignW (b : BitsW) : sharing :=
  let shift := 8 - Z.rem (bw_len b) 8 in
  if (shift =? 8) || (w_len (bw_bytes b) =? 0) then Shared (bw_bytes b) else Own (alignLoop shift 0 (rd d (bw_bytes b))).

(** * The results *)

(** pkix.Name without Names. *)
Definition withNames (ns : list ATV) (n : Name) : Name :=
  mkName (n_Country n) (n_Organization n) (n_OrganizationalUnit n) (n_Locality n) (n_Province n) (n_StreetAddress n)
         (n_PostalCode n) (n_SerialNumber n) (n_CommonName n) ns (n_ExtraNames n).
(** Name.FillFromRDNSequence: only strings go to fields other than Names. *)
Definition fillW (rdns : list (list ATVW)) : Name := withNames [] (FillFromRDNSequence zeroName (map (map (readATV d)) rdns)).

Variable E : netEnv.
(** A parsed request: the windows, and everything that does not share memory with the array in
    [q_own], where the shared fields are empty. *)
Record RequestW : Type := mkRequestW {
  q_Raw : win; q_RawTBS : win; q_RawSPKI : win; q_RawSubject : win; q_Signature : sharing;
  q_Names : list ATVW; q_Attributes : list ATVSetW; q_own : CertificateRequest E }.
(** gmx509.go:288-340. *)
Definition parseCertificateRequestW (inp : CsrW) : go (res RequestW) :=
  let tbs := crw_tbs inp in
  if negb (oidEqual oidSignatureSM3WithSM2 (algw_oid (crw_alg inp))) then Ret (ERR "x509: illegal signature algorithm OID")
  else if negb (oidEqual oidPublicKeyECDSA (algw_oid (pkw_alg (trw_key tbs)))) then Ret (ERR "x509: illegal publick key algorithm OID")
  else
    run pub <- Ret (parsePublicKey (readPKI d (trw_key tbs)));
    run (subject, rest) <- Ret (unmarshalW uRDNSequenceW [] (rw_full (trw_subject tbs)));
    if negb (w_len rest =? 0) then Ret (ERR "x509: trailing data after X.509 Subject")
    else
      run extensions <- Ret (parseCSRExtensions (map (readRaw d) (trw_attrs tbs)));
      run san <- requestSANs E extensions (zeroAlt E);
      Ret (OK (mkRequestW (crw_raw inp) (trw_raw tbs) (pkw_raw (trw_key tbs)) (rw_full (trw_subject tbs))
                          (rightAlignW (crw_sig inp)) (List.concat subject) (parseRawAttributesW (trw_attrs tbs))
                 (mkReq E [] [] [] [] [] 0 0 (KeySM2 pub) (trw_version tbs) (fillW subject) [] extensions [] san))).
(** gmx509.go:275-286; asn1Data is the window [w]. *)
Definition ParseCertificateRequestW (w : win) : go (res RequestW) :=
  run (csr, rest) <- Ret (unmarshalW uCsrW zeroCsrW w);
  if negb (w_len rest =? 0) then Ret (ERR "trailing data") else parseCertificateRequestW csr.

(** A parsed certificate. *)
Record CertificateW : Type := mkCertificateW {
  k_Raw : win; k_RawTBS : win; k_RawSPKI : win; k_RawSubject : win; k_RawIssuer : win; k_Signature : sharing;
  k_IssuerNames : list ATVW; k_SubjectNames : list ATVW; k_own : Certificate E }.
(** gmx509.go:1071-1297. *)
Definition parseCertificateW (inp : CertW) : go (res CertificateW) :=
  let tbs := ctw_tbs inp in
  if negb (oidEqual oidSignatureSM3WithSM2 (algw_oid (ctw_alg inp))) then Ret (ERR "x509: illegal signature algorithm OID")
  else if negb (oidEqual oidPublicKeyECDSA (algw_oid (pkw_alg (tbw_key tbs)))) then Ret (ERR "x509: illegal publick key algorithm OID")
  else
    run pub <- Ret (parsePublicKey (readPKI d (tbw_key tbs)));
    run (subject, rest) <- Ret (unmarshalW uRDNSequenceW [] (rw_full (tbw_subject tbs)));
    if negb (w_len rest =? 0) then Ret (ERR "x509: trailing data after X.509 extension")
    else
      run (issuer, rest) <- Ret (unmarshalW uRDNSequenceW [] (rw_full (tbw_issuer tbs)));
      if negb (w_len rest =? 0) then Ret (ERR "x509: trailing data after X.509 extension")
      else
        let exts := match tbw_exts tbs with Some l => l | None => [] end in
        run (fields, unhandled) <- parseExtensions E exts (zeroFields E) [];
        Ret (OK (mkCertificateW (ctw_raw inp) (tbw_raw tbs) (pkw_raw (tbw_key tbs)) (rw_full (tbw_subject tbs)) (rw_full (tbw_issuer tbs))
                                (rightAlignW (ctw_sig inp)) (List.concat issuer) (List.concat subject)
                   (mkX509 E [] [] [] [] [] [] 0 0 (KeySM2 pub) (i64 (tbw_version tbs + 1)) (tbw_serial tbs)
                           (fillW issuer) (fillW subject) (tbw_notBefore tbs) (tbw_notAfter tbs) exts [] unhandled fields))).
(** gmx509.go:1058-1069; asn1Data is the window [w]. *)
Definition ParseCertificateW (w : win) : go (res CertificateW) :=
  run (cert, rest) <- Ret (unmarshalW uCertW zeroCertW w);
  if negb (w_len rest =? 0) then Ret (ERR "trailing data") else parseCertificateW cert.
End Array.

(** * What the caller sees of a result while the array holds [d] *)

Section View.
Context {E : netEnv}.
Definition readSharing (d : list Z) (s : sharing) : list Z := match s with Shared w => rd d w | Own l => l end.
Definition viewRequest (d : list Z) (q : RequestW E) : CertificateRequest E :=
  let o := q_own E q in
  mkReq E (rd d (q_Raw E q)) (rd d (q_RawTBS E q)) (rd d (q_RawSPKI E q)) (rd d (q_RawSubject E q)) (readSharing d (q_Signature E q))
    (r_SignatureAlgorithm E o) (r_PublicKeyAlgorithm E o) (r_PublicKey E o) (r_Version E o)
    (withNames (map (readATV d) (q_Names E q)) (r_Subject E o)) (map (readATVSet d) (q_Attributes E q))
    (r_Extensions E o) (r_ExtraExtensions E o) (r_SAN E o).
Definition viewCertificate (d : list Z) (k : CertificateW E) : Certificate E :=
  let o := k_own E k in
  mkX509 E (rd d (k_Raw E k)) (rd d (k_RawTBS E k)) (rd d (k_RawSPKI E k)) (rd d (k_RawSubject E k)) (rd d (k_RawIssuer E k))
    (readSharing d (k_Signature E k)) (c_SignatureAlgorithm E o) (c_PublicKeyAlgorithm E o) (c_PublicKey E o)
    (c_Version E o) (c_SerialNumber E o) (withNames (map (readATV d) (k_IssuerNames E k)) (c_Issuer E o))
    (withNames (map (readATV d) (k_SubjectNames E k)) (c_Subject E o)) (c_NotBefore E o) (c_NotAfter E o)
    (c_Extensions E o) (c_ExtraExtensions E o) (c_Unhandled E o) (c_fields E o).
End View.
