(** * The readers of cryptobyte and the certificate parser where int has another width

    CbString.v and Cert.v model a platform on which int has 64 bits. Here the conversion to int is a
    parameter, [toInt]: [i64] on the platforms of those files, [i32] where int has 32 bits (GOARCH 386,
    arm, mips, ...). Only the functions that convert something to int, and their callers, are repeated;
    PropsCbWidth.v proves that with [i64] they are the functions of CbString.v and Cert.v. *)
From Coq Require Import ZArith List Bool String Lia.
From Verif Require Import GoBase BeMin CbString CbBuilder GoAsn1 GoElliptic Sm3 Sm2 Sm2Der GoText GoPkix CertText Cert.
Import ListNotations.
Open Scope Z_scope.

Section Width.
Variable toInt : Z -> Z.

(** asn1.go:662-732. The [uint32(int(length)) != length] of line 724 is spelled out; without the width
    it is the dead code that CbString.v leaves out. *)
Definition readASN1W (s out : cstr) (outTag : Z) (skipHeader : bool) : go (bool * cstr * Z * cstr) :=
  if slen s <? 2 then Ret (false, out, outTag, s) else
  do tag <- go_index (contents s) 0;
  do lenByte <- go_index (contents s) 1;
  if Z.land tag 0x1f =? 0x1f then Ret (false, out, outTag, s) else
  let outTag := tag in
  do hdr <-
    (if Z.land lenByte 0x80 =? 0 then Ret (Some (u32 (lenByte + 2), 2))
     else
       let lenLen := Z.land lenByte 0x7f in
       if (lenLen =? 0) || (4 <? lenLen) || (slen s <? toInt (2 + lenLen)) then Ret None else
       do lenBytes <- go_slice (contents s) 2 (2 + lenLen);
       do (len32, _) <- readUnsigned (Some lenBytes) (toInt lenLen);
       match len32 with
       | None => Ret None
       | Some len32 =>
           if len32 <? 128 then Ret None
           else if Z.shiftr len32 ((lenLen - 1) * 8) =? 0 then Ret None
           else
             let headerLen := u32 (2 + lenLen) in
             if u32 (headerLen + len32) <? len32 then Ret None
             else Ret (Some (u32 (headerLen + len32), headerLen))
       end);
  match hdr with
  | None => Ret (false, out, outTag, s)
  | Some (length, headerLen) =>
      if negb (u32 (toInt length) =? length) then Ret (false, out, outTag, s) else
      do (v, s) <- ReadBytes s (toInt length);
      match v with
      | None => Ret (false, out, outTag, s)
      | Some v =>
          if skipHeader then
            do (ok, out) <- Skip (Some v) (toInt headerLen);
            if ok then Ret (true, out, outTag, s) else Panic (PUser "cryptobyte: internal error")
          else Ret (true, Some v, outTag, s)
      end
  end.

(** asn1.go:502-554: the functions around it. *)
Definition ReadAnyASN1W (s out : cstr) (outTag : Z) := readASN1W s out outTag true.
Definition ReadAnyASN1ElementW (s out : cstr) (outTag : Z) := readASN1W s out outTag false.
Definition ReadASN1W (s out : cstr) (tag : Z) : go (bool * cstr * cstr) :=
  do (ok, out, t, s) <- ReadAnyASN1W s out 0;
  if negb ok || negb (t =? tag) then Ret (false, out, s) else Ret (true, out, s).
Definition ReadASN1ElementW (s out : cstr) (tag : Z) : go (bool * cstr * cstr) :=
  do (ok, out, t, s) <- ReadAnyASN1ElementW s out 0;
  if negb ok || negb (t =? tag) then Ret (false, out, s) else Ret (true, out, s).
Definition SkipASN1W (s : cstr) (tag : Z) : go (bool * cstr) :=
  do (ok, _, s) <- ReadASN1W s None tag; Ret (ok, s).

(** asn1.go:227-243. *)
Definition ReadASN1BooleanW (s : cstr) : go (option bool * cstr) :=
  do (ok, bs, s) <- ReadASN1W s None INTEGER;
  if negb ok || negb (slen bs =? 1) then Ret (None, s) else
  do b <- go_index (contents bs) 0;
  if b =? 0 then Ret (Some false, s)
  else if b =? 0xff then Ret (Some true, s)
  else Ret (None, s).

(** asn1.go:294-343. *)
Definition readASN1BigIntW (s : cstr) : go (option Z * cstr) :=
  do (ok, bs, s) <- ReadASN1W s None INTEGER;
  if negb ok || negb (checkASN1Integer (contents bs)) then Ret (None, s) else
  do b0 <- go_index (contents bs) 0;
  if Z.land b0 0x80 =? 0x80 then
    let neg := map (fun b => 255 - b) (contents bs) in
    Ret (Some (- (be_dec neg + 1)), s)
  else Ret (Some (be_dec (contents bs)), s).
Definition readASN1Int64W (s : cstr) : go (option Z * cstr) :=
  do (ok, bs, s) <- ReadASN1W s None INTEGER;
  if negb ok || negb (checkASN1Integer (contents bs)) then Ret (None, s)
  else Ret (asn1Signed (contents bs), s).
Definition readASN1Uint64W (s : cstr) : go (option Z * cstr) :=
  do (ok, bs, s) <- ReadASN1W s None INTEGER;
  if negb ok || negb (checkASN1Integer (contents bs)) then Ret (None, s)
  else do r <- asn1Unsigned (contents bs); Ret (r, s).

(** asn1.go:250-275. A pointer to an int is [KInt 32] where int has 32 bits. *)
Definition ReadASN1IntegerW (s : cstr) (k : ikind) : go (option Z * cstr) :=
  match k with
  | KNoPtr => Panic (PUser "out is not a pointer")
  | KInt bits =>
      do (i, s) <- readASN1Int64W s;
      match i with
      | None => Ret (None, s)
      | Some i => if overflowInt bits i then Ret (None, s) else Ret (Some i, s)
      end
  | KUint bits =>
      do (u, s) <- readASN1Uint64W s;
      match u with
      | None => Ret (None, s)
      | Some u => if overflowUint bits u then Ret (None, s) else Ret (Some u, s)
      end
  | KBig => readASN1BigIntW s
  | KOther => Panic (PUser "out does not point to an integer type")
  end.

(** asn1.go:364-375. *)
Definition ReadASN1EnumW (s : cstr) : go (option Z * cstr) :=
  do (ok, bs, s) <- ReadASN1W s None ENUM;
  if negb ok || negb (checkASN1Integer (contents bs)) then Ret (None, s)
  else match asn1Signed (contents bs) with
       | None => Ret (None, s)
       | Some i => if negb (i64 (toInt i) =? i) then Ret (None, s) else Ret (Some (toInt i), s)
       end.

(** asn1.go:396-431. The arcs are below 2^28, so the int of readBase128Int needs no conversion. *)
Definition ReadASN1ObjectIdentifierW (s : cstr) : go (option (list Z) * cstr) :=
  do (ok, bs, s) <- ReadASN1W s None OBJECT_IDENTIFIER;
  if negb ok || (slen bs =? 0) then Ret (None, s) else
  do components <- go_make (slen bs + 1);
  match readBase128Int (contents bs) with
  | (None, _) => Ret (None, s)
  | (Some v, l) =>
      do components <-
        (if v <? 80 then
           do c <- go_set components 0 (Z.quot v 40); go_set c 1 (Z.rem v 40)
         else
           do c <- go_set components 0 2; go_set c 1 (v - 80));
      do r <- oidLoop (List.length l) l 2 components;
      match r with
      | None => Ret (None, s)
      | Some (components, i) => do out <- go_slice components 0 i; Ret (Some out, s)
      end
  end.

(** asn1.go:454-471: BitLength is an int. *)
Definition ReadASN1BitStringW (s : cstr) : go (option (list Z * Z) * cstr) :=
  do (ok, bs, s) <- ReadASN1W s None BIT_STRING;
  if negb ok || (slen bs =? 0) then Ret (None, s) else
  do paddingBits <- go_index (contents bs) 0;
  do rest <- go_slice (contents bs) 1 (slen bs);
  if 7 <? paddingBits then Ret (None, s)
  else if (zlen rest =? 0) && negb (paddingBits =? 0) then Ret (None, s)
  else
    do bad <- (if 0 <? zlen rest then
                 do last <- go_index rest (zlen rest - 1);
                 Ret (negb (Z.land last (Z.shiftl 1 paddingBits - 1) =? 0))
               else Ret false);
    if bad then Ret (None, s)
    else Ret (Some (rest, toInt (toInt (zlen rest * 8) - paddingBits)), s).

(** asn1.go:476-488. *)
Definition ReadASN1BitStringAsBytesW (s : cstr) : go (option (list Z) * cstr) :=
  do (ok, bs, s) <- ReadASN1W s None BIT_STRING;
  if negb ok || (slen bs =? 0) then Ret (None, s) else
  do paddingBits <- go_index (contents bs) 0;
  if negb (paddingBits =? 0) then Ret (None, s)
  else do rest <- go_slice (contents bs) 1 (slen bs); Ret (Some rest, s).

(** asn1.go:560-579. *)
Definition ReadOptionalASN1W (s out : cstr) (tag : Z) : go (bool * cstr * bool * cstr) :=
  do present <- PeekASN1Tag s tag;
  if present then
    do (ok, out, s) <- ReadASN1W s out tag;
    Ret (ok, out, present, s)
  else Ret (true, out, present, s).
Definition SkipOptionalASN1W (s : cstr) (tag : Z) : go (bool * cstr) :=
  do present <- PeekASN1Tag s tag;
  if negb present then Ret (true, s)
  else do (ok, _, s) <- ReadASN1W s None tag; Ret (ok, s).

(** asn1.go:586-660. *)
Definition ReadOptionalASN1IntegerW (s : cstr) (k : ikind) (tag default : Z) : go (option Z * cstr) :=
  match k with
  | KNoPtr => Panic (PUser "out is not a pointer")
  | _ =>
      do (ok, i, present, s) <- ReadOptionalASN1W s None tag;
      if negb ok then Ret (None, s)
      else if negb present then
        match k with
        | KOther => Panic (PUser "invalid integer type")
        | _ => Ret (Some default, s)
        end
      else
        do (v, i) <- ReadASN1IntegerW i k;
        match v with
        | None => Ret (None, s)
        | Some v => if negb (Empty i) then Ret (None, s) else Ret (Some v, s)
        end
  end.
Definition ReadOptionalASN1OctetStringW (s : cstr) (tag : Z) : go (option (cstr * bool) * cstr) :=
  do (ok, child, present, s) <- ReadOptionalASN1W s None tag;
  if negb ok then Ret (None, s)
  else if present then
    do (ok, oct, child) <- ReadASN1W child None OCTET_STRING;
    if negb ok || negb (Empty child) then Ret (None, s)
    else Ret (Some (oct, present), s)
  else Ret (Some (None, present), s).
Definition ReadOptionalASN1BooleanW (s : cstr) (default : bool) : go (option bool * cstr) :=
  do (ok, _, present, s) <- ReadOptionalASN1W s None BOOLEAN;
  if negb ok then Ret (None, s)
  else if negb present then Ret (Some default, s)
  else ReadASN1BooleanW s.

(** * The certificate parser *)

(** encoding/asn1's parseField on a field of type int: parseInt64 where int has 64 bits, and parseInt32
    where it has 32, which refuses what does not fit. *)
Definition parseIntW (bs : list Z) : res Z :=
  try v <- parseInt64 bs;
  if negb (toInt v =? v) then ERR "integer too large" else OK v.
Definition uIntW : uty Z := mkU false (fun _ => TagInteger) false (fun _ _ _ i => parseIntW i).

(** gmx509.go:952-977 (as uTBS and uCert of Cert.v): Version is an int. *)
Definition uTBSW : uty TBSCertificate := uStruct (fun full l =>
  try (v, l) <- parseField uIntW 0 (explicitTag 0) l;
  try (n, l) <- parseField uBigInt 0 noParams l;
  try (a, l) <- parseField uAlg zeroAlg noParams l;
  try (i, l) <- parseField uRaw zeroRaw noParams l;
  try (t, l) <- parseField uValidity (zeroTime, zeroTime) noParams l;
  try (s, l) <- parseField uRaw zeroRaw noParams l;
  try (k, l) <- parseField uPKI zeroPKI noParams l;
  try (u1, l) <- parseField uBits zeroBits (optTag 1) l;
  try (u2, l) <- parseField uBits zeroBits (optTag 2) l;
  try (e, l) <- parseField (uSlice uExtension zeroExt false) None (explicitTag 3) l;
  OK (mkTBS full v (Some n) a i (fst t) (snd t) s k u1 u2 e)).
Definition uCertW : uty certificate := uStruct (fun full l =>
  try (t, l) <- parseField uTBSW zeroTBS noParams l;
  try (a, l) <- parseField uAlg zeroAlg noParams l;
  try (s, l) <- parseField uBits zeroBits noParams l;
  OK (mkCert full t a s)).
(** gmx509.go:647-679: MaxPathLen is an int. *)
Definition uBasicConstraintsW : uty (bool * Z) := uStruct (fun _ l =>
  try (c, l) <- parseField uBool false optParams l;
  try (m, l) <- parseField uIntW (-1) optParams l;
  OK (c, m)).

Variable E : netEnv.

(** gmx509.go:1334-1447: getValues. *)
Fixpoint getValuesW (fuel : nat) (subtrees : cstr) (c : Constraints) (unhandled : bool) : go (res (Constraints * bool)) :=
  if Empty subtrees then Ret (OK (c, unhandled))
  else
    match fuel with
    | O => Panic (PUser "model: out of fuel")
    | S fuel =>
        do (ok, seq, subtrees) <- ReadASN1W subtrees None SEQUENCE;
        if negb ok then Ret (ERR "x509: invalid NameConstraints extension")
        else
          do q <- ReadAnyASN1W seq None 0;
          let '(ok, value, tag, _) := q in
          if negb ok then Ret (ERR "x509: invalid NameConstraints extension")
          else
            run (c, unhandled) <- parseSubtree E tag (contents value) c unhandled;
            getValuesW fuel subtrees c unhandled
    end.

(** gmx509.go:1299-1457. *)
Definition parseNameConstraintsExtensionW (value : list Z) : go (res (Constraints * Constraints * bool)) :=
  let bad {A} : go (res A) := Ret (ERR "x509: invalid NameConstraints extension") in
  do (ok, toplevel, outer) <- ReadASN1W (Some value) None SEQUENCE;
  if negb ok || negb (Empty outer) then bad
  else
    do q <- ReadOptionalASN1W toplevel None (constructed (contextSpecific 0));
    let '(ok, permitted, havePermitted, toplevel) := q in
    if negb ok then bad
    else
      do q <- ReadOptionalASN1W toplevel None (constructed (contextSpecific 1));
      let '(ok, excluded, haveExcluded, toplevel) := q in
      if negb ok || negb (Empty toplevel) then bad
      else if (negb havePermitted && negb haveExcluded) || ((slen permitted =? 0) && (slen excluded =? 0))
           then Ret (ERR "x509: empty name constraints extension")
           else
             run (p, unhandled) <- getValuesW (List.length (contents permitted)) permitted zeroConstraints false;
             run (x, unhandled) <- getValuesW (List.length (contents excluded)) excluded zeroConstraints unhandled;
             Ret (OK (p, x, unhandled)).

(** The extension number [n] below 2.5.29, if it is one. *)
Definition idCe (e : Extension) : option Z :=
  match e_id e with
  | [a; b; c; n] => if (a =? 2) && (b =? 5) && (c =? 29) then Some n else None
  | _ => None
  end.
(** gmx509.go:1117-1294: the extensions that depend on the width are the basic constraints (19) and the
    name constraints (30); the others are read as in Cert.v. *)
Definition parseExtensionW (e : Extension) (f : certFields E) : go (res (certFields E * bool)) :=
  match idCe e with
  | Some n =>
      if n =? 19 then
        run (isCA, maxPathLen) <- Ret (unmarshalAll uBasicConstraintsW (false, 0) (e_value e));
        Ret (OK (set_BasicConstraints E true isCA maxPathLen (maxPathLen =? 0) f, false))
      else if n =? 30 then
        run (p, x, unhandled) <- parseNameConstraintsExtensionW (e_value e);
        Ret (OK (set_NameConstraints E (e_critical e) p x f, unhandled))
      else parseExtension E e f
  | None => parseExtension E e f
  end.
Fixpoint parseExtensionsW (l : list Extension) (f : certFields E) (unhandled : list (list Z)) : go (res (certFields E * list (list Z))) :=
  match l with
  | [] => Ret (OK (f, unhandled))
  | e :: r =>
      run (f, u) <- parseExtensionW e f;
      parseExtensionsW r f (if e_critical e && u then unhandled ++ [e_id e] else unhandled)
  end.

(** gmx509.go:1058-1297. *)
Definition parseCertificateW (inp : certificate) : go (res (Certificate E)) :=
  let tbs := ct_tbs inp in
  if negb (oidEqual oidSignatureSM3WithSM2 (alg_oid (ct_alg inp))) then Ret (ERR "x509: illegal signature algorithm OID")
  else if negb (oidEqual oidPublicKeyECDSA (alg_oid (pki_alg (tb_key tbs)))) then Ret (ERR "x509: illegal publick key algorithm OID")
  else
    run pub <- Ret (parsePublicKey (tb_key tbs));
    run subject <- Ret (unmarshalAll uRDNSequence [] (rv_full (tb_subject tbs)));
    run issuer <- Ret (unmarshalAll uRDNSequence [] (rv_full (tb_issuer tbs)));
    let exts := match tb_exts tbs with Some l => l | None => [] end in
    run (fields, unhandled) <- parseExtensionsW exts (zeroFields E) [];
    Ret (OK (mkX509 E (ct_raw inp) (tb_raw tbs) (pki_raw (tb_key tbs)) (rv_full (tb_subject tbs)) (rv_full (tb_issuer tbs))
                    (rightAlign (ct_sig inp)) 0 0 (KeySM2 pub) (toInt (tb_version tbs + 1)) (tb_serial tbs)
                    (FillFromRDNSequence zeroName issuer) (FillFromRDNSequence zeroName subject)
                    (tb_notBefore tbs) (tb_notAfter tbs) exts [] unhandled fields)).
Definition ParseCertificateW (asn1Data : list Z) : go (res (Certificate E)) :=
  run (cert, rest) <- Ret (unmarshal uCertW zeroCert asn1Data);
  if negb (zlen rest =? 0) then Ret (ERR "trailing data") else parseCertificateW cert.
End Width.
