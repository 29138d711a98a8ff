(** Model of sm2.go and keyexchange.go on keys that may have parts missing: the exported fields of PublicKey, PrivateKey and
    P256V1Curve are pointers that a caller who fills in the structs can leave nil, and the keys are passed by pointer. Sm2.v has the same functions
    on keys made by the package's constructors. Here a nil pointer is None. The Curve field is a struct of two pointers, the embedded
    *elliptic.CurveParams and A; each is nil or the package's own. (Curve parameters other than the package's are not modelled.) *)
From Coq Require Import ZArith List Lia Bool String.
From Verif Require Import GoBase BeMin FpField GoElliptic GoAsn1 Sm3 Sm2 Sm2Der KeyExchange.
Import ListNotations.
Open Scope Z_scope.

(** sm2.go:43-46: whether CurveParams and A are set. *)
Record curveField : Set := mkCurve { cParams : bool; cA : bool }.
(** sm2.go:48-56 *)
Record nPub : Set := mkNPub { nX : option Z; nY : option Z; nPubCurve : curveField }.
Record nPriv : Set := mkNPriv { nD : option Z; nPrivCurve : curveField }.

(** Using what a pointer points to; reading a field of the embedded CurveParams. *)
Definition deref {A} (p : option A) : go A := match p with Some a => Ret a | None => Panic PNil end.
Definition params (c : curveField) : go unit := if cParams c then Ret tt else Panic PNil.

(** big.Int.Bytes reads the integer's words. *)
Definition BytesN (x : option Z) : go (list Z) := do x <- deref x; Ret (BigBytes x).
(** sm2.go:211-219 *)
Definition to32N (x : option Z) : go (list Z) := do x <- deref x; bigIntTo32Bytes x.

(** elliptic.go ScalarMult: the curve is read when a bit of k is processed, the coordinates when that bit is 1 (addJacobian copies
    them). With no bit set the point at infinity, (0, 0), is returned. *)
Definition ScalarMultN (c : curveField) (x y : option Z) (k : list Z) : go (Z * Z) :=
  match k with
  | [] => Ret (0, 0)
  | _ => do _ <- params c;
         if forallb (fun b => b =? 0) k then Ret (0, 0)
         else do x <- deref x; do y <- deref y; curveScalarMult x y k
  end.
(** elliptic.go ScalarBaseMult reads curve.Gx and curve.Gy first. *)
Definition ScalarBaseMultN (c : curveField) (k : list Z) : go (Z * Z) := do _ <- params c; curveScalarBaseMult k.
(** elliptic.go Add, on coordinates that are there. *)
Definition AddN (c : curveField) (x1 y1 x2 y2 : Z) : go (Z * Z) := do _ <- params c; curveAdd x1 y1 x2 y2.

(** sm2.go:135-159. With both coordinates there the rest is that of Sm2.v. *)
Definition GetUnCompressBytesN (pub : option nPub) : go (list Z) :=
  do pub <- deref pub;
  do x <- deref (nX pub);
  do _ <- bigIntTo32Bytes x;
  do y <- deref (nY pub);
  GetUnCompressBytes (mkPub x y).
(** sm2.go:161-164 *)
Definition PublicKey_GetRawBytesN (pub : option nPub) : go (list Z) :=
  do raw <- GetUnCompressBytesN pub;
  go_slice raw 1 (zlen raw).
(** sm2.go:166-180 *)
Definition PrivateKey_GetRawBytesN (pri : option nPriv) : go (list Z) :=
  do pri <- deref pri;
  do d <- deref (nD pri);
  PrivateKey_GetRawBytes (mkPriv d).

(** sm2.go:182-187 *)
Definition CalculatePubKeyN (priv : option nPriv) : go nPub :=
  do priv <- deref priv;
  do db <- BytesN (nD priv);
  do (x, y) <- ScalarBaseMultN (nPrivCurve priv) db;
  Ret (mkNPub (Some x) (Some y) (nPrivCurve priv)).

(** sm2.go:268-283 *)
Fixpoint encrypt_loopN (fuel : nat) (pub : option nPub) (inp c2 : list Z) (d : sm3Digest) (tape : list Z)
  : go (res (list Z * list Z * Z * Z * sm3Digest) * list Z) :=
  do p <- deref pub;
  do _ <- params (nPubCurve p);
  match nextK curveN tape with
  | (ERR e, tape) => Ret (ERR e, tape)
  | (OK k, tape) =>
      let kBytes := BigBytes k in
      do (c1x, c1y) <- ScalarBaseMultN (nPubCurve p) kBytes;
      do c1 <- Marshal c1x c1y;
      do (kPBx, kPBy) <- ScalarMultN (nPubCurve p) (nX p) (nY p) kBytes;
      do (d, c2) <- kdf d kPBx kPBy c2;
      do ne <- notEncrypted c2 inp;
      if negb ne then Ret (OK (c1, c2, kPBx, kPBy, d), tape)
      else match fuel with
           | O => Panic (PUser "model: out of fuel")
           | S fuel => encrypt_loopN fuel pub inp c2 d tape
           end
  end.
(** sm2.go:262-306 *)
Definition EncryptN (pub : option nPub) (inp : list Z) (cipherTextType : Z) (tape : list Z) : go (res (list Z) * list Z) :=
  do (r, tape) <- encrypt_loopN (List.length tape) pub inp inp New tape;
  match r with
  | ERR e => Ret (ERR e, tape)
  | OK (c1, c2, kPBx, kPBy, d) =>
      do xb <- bigIntTo32Bytes kPBx;
      do yb <- bigIntTo32Bytes kPBy;
      do (d, c3) <- hashOf d [xb; inp; yb];
      if cipherTextType =? C1C2C3 then Ret (OK (c1 ++ c2 ++ c3), tape)
      else if cipherTextType =? C1C3C2 then Ret (OK (c1 ++ c3 ++ c2), tape)
      else Ret (ERR (unknownType cipherTextType), tape)
  end.

(** sm2.go:308-346. elliptic.Unmarshal reads the curve's P, B and BitSize; its nil coordinates go to ScalarMult. After the scalar
    multiplication by D the key is not used any more. *)
Definition DecryptN (priv : option nPriv) (inp : list Z) (cipherTextType : Z) : go (res (list Z)) :=
  do p <- deref priv;
  do _ <- params (nPrivCurve p);
  let c1Len := Z.shiftr (curveBitSize + 7) 3 * 2 + 1 in
  do c1 <- go_slice inp 0 c1Len;
  let q := Unmarshal curveP curveB c1 in
  let qx := option_map fst q in
  let qy := option_map snd q in
  do (sx, sy) <- ScalarMultN (nPrivCurve p) qx qy (BigBytes sm2H);
  if IsEcPointInfinity sx sy then Ret (ERR "[h]C1 at infinity")
  else
    do db <- BytesN (nD p);
    do (c1x, c1y) <- ScalarMultN (nPrivCurve p) qx qy db;
    let d := New in
    let c3Len := DigestLength in
    let c2Len := zlen inp - c1Len - c3Len in
    do _ <- go_make c2Len;
    do r <- (if cipherTextType =? C1C2C3 then
               do c2 <- go_slice inp c1Len (c1Len + c2Len);
               do c3 <- go_slice inp (c1Len + c2Len) (zlen inp);
               Ret (OK (c2, c3))
             else if cipherTextType =? C1C3C2 then
               do c3 <- go_slice inp c1Len (c1Len + c3Len);
               do c2 <- go_slice inp (c1Len + c3Len) (zlen inp);
               Ret (OK (c2, c3))
             else Ret (ERR (unknownType cipherTextType)));
    match r with
    | ERR e => Ret (ERR e)
    | OK (c2, c3) =>
        do (d, c2) <- kdf d c1x c1y c2;
        do xb <- bigIntTo32Bytes c1x;
        do yb <- bigIntTo32Bytes c1y;
        do (d, newC3) <- hashOf d [xb; c2; yb];
        if list_eq_dec Z.eq_dec newC3 c3 then Ret (OK c2) else Ret (ERR "invalid cipher text")
    end.

(** sm2.go:441-459 *)
Definition getZN (d : sm3Digest) (c : curveField) (pubX pubY : option Z) (userId : list Z) : go (sm3Digest * list Z) :=
  let userIdLen := u16 (zlen userId * 8) in
  do ab <- to32N (if cA c then Some curveA else None);
  do _ <- params c;
  do bb <- bigIntTo32Bytes curveB;
  do gxb <- bigIntTo32Bytes curveGx;
  do gyb <- bigIntTo32Bytes curveGy;
  do pxb <- to32N pubX;
  do pyb <- to32N pubY;
  hashOf d ([be_enc 2 userIdLen] ++ (if 0 <? zlen userId then [userId] else []) ++ [ab; bb; gxb; gyb; pxb; pyb]).
(** sm2.go:461-469 *)
Definition calculateEN (d : sm3Digest) (c : curveField) (pubX pubY : option Z) (userId src : list Z) : go (sm3Digest * Z) :=
  do (d, z) <- getZN d c pubX pubY userId;
  do (d, eHash) <- hashOf d [z; src];
  Ret (d, be_dec eHash).

(** sm2.go:488-531. When the loops are reached the key has all its parts: D was read, and getZ read the curve. *)
Definition SignToRSN (priv : option nPriv) (userId : option (list Z)) (inp tape : list Z) : go (res (Z * Z) * list Z) :=
  do p <- deref priv;
  do d <- deref (nD p);
  do (pubX, pubY) <- ScalarBaseMultN (nPrivCurve p) (BigBytes d);
  do (_, e) <- calculateEN New (nPrivCurve p) (Some pubX) (Some pubY) (signId userId) inp;
  do _ <- params (nPrivCurve p);
  sign_outer (List.length tape) d e tape.
(** sm2.go:534-541 *)
Definition SignN (priv : option nPriv) (userId : option (list Z)) (inp tape : list Z) : go (res (list Z) * list Z) :=
  do (rs, tape) <- SignToRSN priv userId inp tape;
  Ret (match rs with ERR e => ERR e | OK (r, s) => MarshalSign r s end, tape).

(** sm2.go:543-575. Each comparison dereferences its operands, in the order of the text. *)
Definition VerifyByRSN (pub : option nPub) (userId : option (list Z)) (src : list Z) (r s : option Z) : go bool :=
  do rv <- deref r;
  do r1 <- (if rv <? 1 then Ret true else do p <- deref pub; do _ <- params (nPubCurve p); Ret (curveN <=? rv));
  if r1 then Ret false
  else
    do sv <- deref s;
    do s1 <- (if sv <? 1 then Ret true else do p <- deref pub; do _ <- params (nPubCurve p); Ret (curveN <=? sv));
    if s1 then Ret false
    else
      do p <- deref pub;
      do (_, e) <- calculateEN New (nPubCurve p) (nX p) (nY p) (signId userId) src;
      let t := rv + sv in
      let t := t mod curveN in
      if t =? 0 then Ret false
      else
        do (sgx, sgy) <- ScalarBaseMultN (nPubCurve p) (BigBytes sv);
        do (tpx, tpy) <- ScalarMultN (nPubCurve p) (nX p) (nY p) (BigBytes t);
        do (x, y) <- AddN (nPubCurve p) sgx sgy tpx tpy;
        if IsEcPointInfinity x y then Ret false
        else
          let expectedR := e + x in
          let expectedR := expectedR mod curveN in
          Ret (expectedR =? rv).
(** sm2.go:578-585. What UnmarshalSign returns without an error is not nil. *)
Definition VerifyN (pub : option nPub) (userId : option (list Z)) (src sign : list Z) : go bool :=
  match UnmarshalSign sign with
  | ERR _ => Ret false
  | OK (r, s) => VerifyByRSN pub userId src (Some r) (Some s)
  end.

(** sm2.go:471-477. encoding/asn1's makeBigInt returns an error for a nil *big.Int. *)
Definition fieldBigIntN (v : option Z) : res (list Z) :=
  match v with Some v => fieldBigInt v | None => ERR "asn1: structure error: empty integer" end.
Definition MarshalSignN (r s : option Z) : res (list Z) := marshalStruct [fieldBigIntN r; fieldBigIntN s].

(** keyexchange.go:28-44. The keys were all dereferenced before, except the other side's ephemeral key. *)
Definition calculateUN (w : Z) (selfStaticPriv selfEphemeralPriv : nPriv) (selfEphemeralPub : nPub)
    (otherStaticPub otherEphemeralPub : option nPub) : go (Z * Z) :=
  do ex <- deref (nX selfEphemeralPub);
  let x1 := reduce ex w in
  do oe <- deref otherEphemeralPub;
  do oex <- deref (nX oe);
  let x2 := reduce oex w in
  do ed <- deref (nD selfEphemeralPriv);
  let tA := x1 * ed in
  do sd <- deref (nD selfStaticPriv);
  let tA := sd + tA in
  let k1 := sm2H * tA in
  do _ <- params (nPrivCurve selfStaticPriv);
  let k1 := k1 mod curveN in
  let k2 := k1 * x2 in
  let k2 := k2 mod curveN in
  do os <- deref otherStaticPub;
  do (p1x, p1y) <- ScalarMultN (nPrivCurve selfStaticPriv) (nX os) (nY os) (BigBytes k1);
  do (p2x, p2y) <- ScalarMultN (nPrivCurve selfStaticPriv) (nX oe) (nY oe) (BigBytes k2);
  AddN (nPrivCurve selfStaticPriv) p1x p1y p2x p2y.

(** keyexchange.go:79-89 *)
Definition calculateInnerHashN (digest : sm3Digest) (ux : Z) (za zb : list Z) (p1x p1y p2x p2y : option Z) : go (sm3Digest * list Z) :=
  do p1xb <- BytesN p1x;
  do p1yb <- BytesN p1y;
  do p2xb <- BytesN p2x;
  do p2yb <- BytesN p2y;
  hashOf digest [BigBytes ux; za; zb; p1xb; p1yb; p2xb; p2yb].

(** keyexchange.go:107-144 *)
Definition CalculateKeyWithConfirmationN (initiator : bool) (keyBits : Z) (confirmationTag : option (list Z))
    (selfStaticPriv selfEphemeralPriv : option nPriv) (selfId : option (list Z))
    (otherStaticPub otherEphemeralPub : option nPub) (otherId : option (list Z)) : go (res ExchangeResult) :=
  let selfId := contentsOf selfId in
  let otherId := contentsOf otherId in
  if initiator && isNil confirmationTag then Ret (ERR "if initiating, confirmationTag must be set")
  else
    do selfStaticPub <- CalculatePubKeyN selfStaticPriv;
    let digest := New in
    do ss <- deref selfStaticPriv;
    do (digest, za) <- getZN digest (nPrivCurve ss) (nX selfStaticPub) (nY selfStaticPub) selfId;
    do os <- deref otherStaticPub;
    do (digest, zb) <- getZN digest (nPrivCurve ss) (nX os) (nY os) otherId;
    do _ <- params (nPrivCurve ss);
    let w := Z.quot curveBitSize 2 - 1 in
    do selfEphemeralPub <- CalculatePubKeyN selfEphemeralPriv;
    do se <- deref selfEphemeralPriv;
    do (ux, uy) <- calculateUN w ss se selfEphemeralPub otherStaticPub otherEphemeralPub;
    do oe <- deref otherEphemeralPub;
    if initiator then
      do (digest, rv) <- kdfForExch digest ux uy za zb keyBits;
      do (digest, innerHash) <- calculateInnerHashN digest ux za zb (nX selfEphemeralPub) (nY selfEphemeralPub) (nX oe) (nY oe);
      do (digest, t1) <- s1 digest uy innerHash;
      if list_eq_dec Z.eq_dec t1 (contentsOf confirmationTag) then
        do (digest, t2) <- s2 digest uy innerHash;
        Ret (OK (mkExch rv None t2))
      else Ret (ERR "confirmation tag mismatch")
    else
      do (digest, rv) <- kdfForExch digest ux uy zb za keyBits;
      do (digest, innerHash) <- calculateInnerHashN digest ux zb za (nX oe) (nY oe) (nX selfEphemeralPub) (nY selfEphemeralPub);
      do (digest, t1) <- s1 digest uy innerHash;
      do (digest, t2) <- s2 digest uy innerHash;
      Ret (OK (mkExch rv (Some t1) t2)).
