(** Model of /repo/sm2/sm2.go: keys, key generation, encryption and signatures. The DER functions
    (MarshalCipher, UnmarshalCipher, MarshalSign, UnmarshalSign, Sign, Verify) are in Sm2Der.v.
    Keys are taken to be made by this package's constructors, so that their Curve field is
    sm2P256V1; *big.Int values are [Z] and are never nil, except where elliptic.Unmarshal returns
    nil. The global rand.Reader is a tape argument (GoElliptic.v). Slices passed in have a capacity
    equal to their length. *)
From Coq Require Import ZArith List Lia Bool String Ascii.
From Verif Require Import GoBase BeMin FpField GoElliptic Sm3.
Import ListNotations.
Open Scope Z_scope.

(** sm2.go:19-23 *)
Definition KeyBytes : Z := 32.
Definition UnCompress : Z := 4.
(** sm2.go:25-32. Sm2CipherTextType is an int32. *)
Definition C1C2C3 : Z := 1.
Definition C1C3C2 : Z := 2.
(** sm2.go:34-39 *)
Definition sm2H : Z := 1.
Definition sm2SignDefaultUserId : list Z :=
  [0x31; 0x32; 0x33; 0x34; 0x35; 0x36; 0x37; 0x38; 0x31; 0x32; 0x33; 0x34; 0x35; 0x36; 0x37; 0x38].

(** big.Int.SetString(s, 16) for a string of upper-case hexadecimal digits. *)
Definition hexDigit (c : ascii) : Z :=
  let n := Z.of_nat (nat_of_ascii c) in if n <=? 57 then n - 48 else n - 55.
Fixpoint hexLoop (acc : Z) (s : string) : Z :=
  match s with EmptyString => acc | String c s => hexLoop (acc * 16 + hexDigit c) s end.
Definition SetString16 (s : string) : Z := hexLoop 0 s.

(** sm2.go:78-93, initSm2P256V1 *)
Definition curveP : Z := SetString16 "FFFFFFFEFFFFFFFFFFFFFFFFFFFFFFFFFFFFFFFF00000000FFFFFFFFFFFFFFFF".
Definition curveA : Z := SetString16 "FFFFFFFEFFFFFFFFFFFFFFFFFFFFFFFFFFFFFFFF00000000FFFFFFFFFFFFFFFC".
Definition curveB : Z := SetString16 "28E9FA9E9D9F5E344D5A9E4BCF6509A7F39789F515AB8F92DDBCBD414D940E93".
Definition curveN : Z := SetString16 "FFFFFFFEFFFFFFFFFFFFFFFFFFFFFFFF7203DF6B21C6052B53BBF40939D54123".
Definition curveGx : Z := SetString16 "32C4AE2C1F1981195F9904466A39C9948FE30BBFF2660BE1715A4589334C74C7".
Definition curveGy : Z := SetString16 "BC3736A2F4F6779C59BDCEE36B692153D0A9877CC62A474002DF32E52139F0A0".
Definition curveBitSize : Z := 256.

(** big.Int.Bytes: the minimal big-endian form of the absolute value. *)
Definition BigBytes (x : Z) : list Z := be_min (Z.abs x).

(** The methods of the embedded CurveParams. *)
Definition curveScalarMult (x y : Z) (k : list Z) : go (Z * Z) := ScalarMult curveP x y k.
Definition curveScalarBaseMult (k : list Z) : go (Z * Z) := ScalarMult curveP curveGx curveGy k.
Definition curveAdd (x1 y1 x2 y2 : Z) : go (Z * Z) := Add curveP x1 y1 x2 y2.

(** sm2.go:48-56 *)
Record PublicKey : Set := mkPub { X : Z; Y : Z }.
Record PrivateKey : Set := mkPriv { D : Z }.

(** sm2.go:99-112 *)
Definition GenerateKey (tape : list Z) : go (res (PrivateKey * PublicKey) * list Z) :=
  match genkey_scalar curveN tape with
  | (ERR e, tape) => Ret (ERR e, tape)
  | (OK priv, tape) =>
      do (x, y) <- curveScalarBaseMult priv;
      Ret (OK (mkPriv (be_dec priv), mkPub x y), tape)
  end.

(** sm2.go:114-123 *)
Definition RawBytesToPublicKey (bs : list Z) : res PublicKey :=
  if negb (zlen bs =? KeyBytes * 2) then ERR "Public key raw bytes length must be 64"
  else OK (mkPub (be_dec (sub bs 0 KeyBytes)) (be_dec (sub bs KeyBytes (zlen bs)))).

(** sm2.go:125-133 *)
Definition RawBytesToPrivateKey (bs : list Z) : res PrivateKey :=
  if negb (zlen bs =? KeyBytes) then ERR "Private key raw bytes length must be 32"
  else OK (mkPriv (be_dec bs)).

(** sm2.go:211-219. make panics for a negative length. *)
Definition bigIntTo32Bytes (bn : Z) : go (list Z) :=
  let byteArr := BigBytes bn in
  let byteArrLen := zlen byteArr in
  if byteArrLen =? KeyBytes then Ret byteArr
  else do pad <- go_make (KeyBytes - byteArrLen);
       Ret (pad ++ byteArr).

(** copy(dst[lo:hi], src): the bytes of dst from lo on are replaced, as many as fit. *)
Definition copy_at (dst : list Z) (lo hi : Z) (src : list Z) : list Z :=
  let k := Z.to_nat (Z.min (hi - lo) (zlen src)) in
  firstn (Z.to_nat lo) dst ++ firstn k src ++ skipn (Z.to_nat lo + k) dst.

(** sm2.go:135-159. xl and yl are the lengths of what bigIntTo32Bytes returned. *)
Definition GetUnCompressBytes (pub : PublicKey) : go (list Z) :=
  do xBytes <- bigIntTo32Bytes (X pub);
  do yBytes <- bigIntTo32Bytes (Y pub);
  let xl := zlen xBytes in
  let yl := zlen yBytes in
  let raw := UnCompress :: repeat 0 64 in
  let raw := if KeyBytes <? xl then copy_at raw 1 (1 + KeyBytes) (sub xBytes (xl - KeyBytes) xl)
             else if xl <? KeyBytes then copy_at raw (1 + (KeyBytes - xl)) (1 + KeyBytes) xBytes
             else copy_at raw 1 (1 + KeyBytes) xBytes in
  let raw := if KeyBytes <? yl then copy_at raw (1 + KeyBytes) (zlen raw) (sub yBytes (yl - KeyBytes) yl)
             else if yl <? KeyBytes then copy_at raw (1 + KeyBytes + (KeyBytes - yl)) (zlen raw) yBytes
             else copy_at raw (1 + KeyBytes) (zlen raw) yBytes in
  Ret raw.

(** sm2.go:161-164 *)
Definition PublicKey_GetRawBytes (pub : PublicKey) : go (list Z) :=
  do raw <- GetUnCompressBytes pub;
  go_slice raw 1 (zlen raw).

(** sm2.go:166-180 *)
Definition PrivateKey_GetRawBytes (pri : PrivateKey) : go (list Z) :=
  do dBytes <- bigIntTo32Bytes (D pri);
  let dl := zlen dBytes in
  if KeyBytes <? dl then Ret (copy_at (repeat 0 32) 0 KeyBytes (sub dBytes (dl - KeyBytes) dl))
  else if dl <? KeyBytes then Ret (copy_at (repeat 0 32) (KeyBytes - dl) KeyBytes dBytes)
  else Ret dBytes.

(** sm2.go:182-187 *)
Definition CalculatePubKey (priv : PrivateKey) : go PublicKey :=
  do (x, y) <- curveScalarBaseMult (BigBytes (D priv));
  Ret (mkPub x y).

(** sm2.go:189-202. Each turn consumes random bytes, so the length of the tape bounds the loop. *)
Fixpoint nextK_loop (fuel : nat) (max : Z) (tape : list Z) : res Z * list Z :=
  match rand_Int max tape with
  | (ERR e, tape) => (ERR e, tape)
  | (OK k, tape) =>
      if 1 <=? k then (OK k, tape)
      else match fuel with
           | O => (ERR "model: out of fuel", tape)
           | S fuel => nextK_loop fuel max tape
           end
  end.
Definition nextK (max : Z) (tape : list Z) : res Z * list Z := nextK_loop (List.length tape) max tape.

(** sm2.go:204-208: data[i] ^= kdfOut[i] for i < n. *)
Fixpoint xor (data kdfOut : list Z) (n : nat) : go (list Z) :=
  match n with
  | O => Ret data
  | S n => match data, kdfOut with
           | d :: data, k :: kdfOut => do r <- xor data kdfOut n; Ret (Z.lxor d k :: r)
           | _, _ => Panic PIndex
           end
  end.

(** digest.Write of each chunk in turn. *)
Fixpoint Writes (d : sm3Digest) (chunks : list (list Z)) : go sm3Digest :=
  match chunks with
  | [] => Ret d
  | c :: chunks => do (d, _) <- Write d c; Writes d chunks
  end.
(** The sequence digest.Reset(); digest.Write(..); ...; digest.Sum(nil) that recurs in this file. *)
Definition hashOf (d : sm3Digest) (chunks : list (list Z)) : go (sm3Digest * list Z) :=
  do d <- Writes (Reset d) chunks;
  SumMethod d [].

(** sm2.go:231-249, the loop of kdf on the part of encData not yet treated. [buf] is overwritten
    by the digest at every turn and its first four bytes by the counter before that. *)
Fixpoint kdf_loop (fuel : nat) (d : sm3Digest) (xb yb : list Z) (ct : Z) (data : list Z)
  : go (sm3Digest * list Z) :=
  match data with
  | [] => Ret (d, [])
  | _ =>
      match fuel with
      | O => Panic (PUser "model: out of fuel")
      | S fuel =>
          let ct := u32 (ct + 1) in
          do (d, tmp) <- hashOf d [xb; yb; be_enc 4 ct];
          do buf <- go_slice tmp 0 32;
          let xorLen := Z.min (zlen data) DigestLength in
          do data' <- xor data buf (Z.to_nat xorLen);
          do (d, rest) <- kdf_loop fuel d xb yb ct (skipn (Z.to_nat xorLen) data');
          Ret (d, firstn (Z.to_nat xorLen) data' ++ rest)
      end
  end.
(** sm2.go:221-250; returns the new contents of encData. *)
Definition kdf (d : sm3Digest) (c1x c1y : Z) (encData : list Z) : go (sm3Digest * list Z) :=
  do c1xBytes <- bigIntTo32Bytes c1x;
  do c1yBytes <- bigIntTo32Bytes c1y;
  kdf_loop (List.length encData) d c1xBytes c1yBytes 0 encData.

(** sm2.go:252-260 *)
Fixpoint notEncrypted (encData inp : list Z) : go bool :=
  match encData with
  | [] => Ret true
  | e :: encData =>
      match inp with
      | [] => Panic PIndex
      | i :: inp => if e =? i then notEncrypted encData inp else Ret false
      end
  end.

(** sm2.go:268-283: the loop of Encrypt; yields c1, c2, kPBx, kPBy. *)
Fixpoint encrypt_loop (fuel : nat) (pub : PublicKey) (inp c2 : list Z) (d : sm3Digest) (tape : list Z)
  : go (res (list Z * list Z * Z * Z * sm3Digest) * list Z) :=
  match nextK curveN tape with
  | (ERR e, tape) => Ret (ERR e, tape)
  | (OK k, tape) =>
      let kBytes := BigBytes k in
      do (c1x, c1y) <- curveScalarBaseMult kBytes;
      do c1 <- Marshal c1x c1y;
      do (kPBx, kPBy) <- curveScalarMult (X pub) (Y pub) kBytes;
      do (d, c2) <- kdf d kPBx kPBy c2;
      do ne <- notEncrypted c2 inp;
      if negb ne then Ret (OK (c1, c2, kPBx, kPBy, d), tape)
      else match fuel with
           | O => Panic (PUser "model: out of fuel")
           | S fuel => encrypt_loop fuel pub inp c2 d tape
           end
  end.

(** Go's conversion string(x) of an integer to the UTF-8 form of that code point (unicode/utf8 EncodeRune); a surrogate or a value
    outside 0..0x10ffff gives that of U+FFFD. Then a Go string as a Coq string of the same bytes. *)
Definition encodeRune (r : Z) : list Z :=
  let r := if (r <? 0) || (0x10ffff <? r) || ((0xd800 <=? r) && (r <=? 0xdfff)) then 0xfffd else r in
  if r <=? 0x7f then [r]
  else if r <=? 0x7ff then [Z.lor 0xc0 (Z.shiftr r 6); Z.lor 0x80 (Z.land r 0x3f)]
  else if r <=? 0xffff then [Z.lor 0xe0 (Z.shiftr r 12); Z.lor 0x80 (Z.land (Z.shiftr r 6) 0x3f); Z.lor 0x80 (Z.land r 0x3f)]
  else [Z.lor 0xf0 (Z.shiftr r 18); Z.lor 0x80 (Z.land (Z.shiftr r 12) 0x3f); Z.lor 0x80 (Z.land (Z.shiftr r 6) 0x3f); Z.lor 0x80 (Z.land r 0x3f)].
Definition stringOf (l : list Z) : string := string_of_list_ascii (map (fun b => ascii_of_N (Z.to_N b)) l).
(** sm2.go:303, 331, 383, 437 *)
Definition unknownType (cipherTextType : Z) : string := ("unknown cipherTextType:" ++ stringOf (encodeRune cipherTextType))%string.

(** sm2.go:262-306. *)
Definition Encrypt (pub : PublicKey) (inp : list Z) (cipherTextType : Z) (tape : list Z)
  : go (res (list Z) * list Z) :=
  do (r, tape) <- encrypt_loop (List.length tape) pub inp inp New tape;
  match r with
  | ERR e => Ret (ERR e, tape)
  | OK (c1, c2, kPBx, kPBy, d) =>
      do xb <- bigIntTo32Bytes kPBx;
      do yb <- bigIntTo32Bytes kPBy;
      do (d, c3) <- hashOf d [xb; inp; yb];
      if cipherTextType =? C1C2C3 then Ret (OK (c1 ++ c2 ++ c3), tape)
      else if cipherTextType =? C1C3C2 then Ret (OK (c1 ++ c3 ++ c2), tape)
      else Ret (ERR (unknownType cipherTextType), tape)
  end.

(** util/ec.go:5-10 *)
Definition IsEcPointInfinity (x y : Z) : bool := (x =? 0) && (y =? 0).

(** sm2.go:308-346. elliptic.Unmarshal returns nil coordinates for an invalid C1, which the next
    ScalarMult dereferences. *)
Definition Decrypt (priv : PrivateKey) (inp : list Z) (cipherTextType : Z) : go (res (list Z)) :=
  let c1Len := Z.shiftr (curveBitSize + 7) 3 * 2 + 1 in
  do c1 <- go_slice inp 0 c1Len;
  match Unmarshal curveP curveB c1 with
  | None => Panic PNil
  | Some (c1x, c1y) =>
      do (sx, sy) <- curveScalarMult c1x c1y (BigBytes sm2H);
      if IsEcPointInfinity sx sy then Ret (ERR "[h]C1 at infinity")
      else
        do (c1x, c1y) <- curveScalarMult c1x c1y (BigBytes (D priv));
        let d := New in
        let c3Len := DigestLength in
        let c2Len := zlen inp - c1Len - c3Len in
        do _ <- go_make c2Len;
        do r <- (if cipherTextType =? C1C2C3 then
                   do c2 <- go_slice inp c1Len (c1Len + c2Len);
                   do c3 <- go_slice inp (c1Len + c2Len) (zlen inp);
                   Ret (OK (c2, c3))
                 else if cipherTextType =? C1C3C2 then
                   do c3 <- go_slice inp c1Len (c1Len + c3Len);
                   do c2 <- go_slice inp (c1Len + c3Len) (zlen inp);
                   Ret (OK (c2, c3))
                 else Ret (ERR (unknownType cipherTextType)));
        match r with
        | ERR e => Ret (ERR e)
        | OK (c2, c3) =>
            do (d, c2) <- kdf d c1x c1y c2;
            do xb <- bigIntTo32Bytes c1x;
            do yb <- bigIntTo32Bytes c1y;
            do (d, newC3) <- hashOf d [xb; c2; yb];
            if list_eq_dec Z.eq_dec newC3 c3 then Ret (OK c2) else Ret (ERR "invalid cipher text")
        end
  end.

(** sm2.go:441-459. [userId] is a slice whose nil-ness does not matter here. *)
Definition getZ (d : sm3Digest) (pubX pubY : Z) (userId : list Z) : go (sm3Digest * list Z) :=
  let userIdLen := u16 (zlen userId * 8) in
  do ab <- bigIntTo32Bytes curveA;
  do bb <- bigIntTo32Bytes curveB;
  do gxb <- bigIntTo32Bytes curveGx;
  do gyb <- bigIntTo32Bytes curveGy;
  do pxb <- bigIntTo32Bytes pubX;
  do pyb <- bigIntTo32Bytes pubY;
  hashOf d ([be_enc 2 userIdLen] ++ (if 0 <? zlen userId then [userId] else []) ++ [ab; bb; gxb; gyb; pxb; pyb]).

(** sm2.go:461-469 *)
Definition calculateE (d : sm3Digest) (pubX pubY : Z) (userId src : list Z) : go (sm3Digest * Z) :=
  do (d, z) <- getZ d pubX pubY userId;
  do (d, eHash) <- hashOf d [z; src];
  Ret (d, be_dec eHash).

(** util/bigint.go: ModInverse leaves its result 0 when there is no inverse. *)
Definition utilModInverse (x y : Z) : Z := match ModInverse x y with Some i => i | None => 0 end.

(** The userId nil check of sm2.go:491-493 and 553-555. *)
Definition signId (userId : option (list Z)) : list Z :=
  match userId with None => sm2SignDefaultUserId | Some l => l end.

(** sm2.go:499-516, the inner loop of SignToRS; yields k and r. *)
Fixpoint sign_inner (fuel : nat) (e : Z) (tape : list Z) : go (res (Z * Z) * list Z) :=
  match nextK curveN tape with
  | (ERR er, tape) => Ret (ERR er, tape)
  | (OK k, tape) =>
      do (px, _) <- curveScalarBaseMult (BigBytes k);
      let r := (e + px) mod curveN in
      let rk := r + k in
      if negb (r =? 0) && negb (rk =? curveN) then Ret (OK (k, r), tape)
      else match fuel with
           | O => Panic (PUser "model: out of fuel")
           | S fuel => sign_inner fuel e tape
           end
  end.
(** sm2.go:498-529, the outer loop. *)
Fixpoint sign_outer (fuel : nat) (d e : Z) (tape : list Z) : go (res (Z * Z) * list Z) :=
  do (kr, tape) <- sign_inner (List.length tape) e tape;
  match kr with
  | ERR er => Ret (ERR er, tape)
  | OK (k, r) =>
      let dPlus1ModN := d + 1 in
      let dPlus1ModN := utilModInverse dPlus1ModN curveN in
      let s := r * d in
      let s := k - s in
      let s := s mod curveN in
      let s := dPlus1ModN * s in
      let s := s mod curveN in
      if negb (s =? 0) then Ret (OK (r, s), tape)
      else match fuel with
           | O => Panic (PUser "model: out of fuel")
           | S fuel => sign_outer fuel d e tape
           end
  end.
(** sm2.go:488-531 *)
Definition SignToRS (priv : PrivateKey) (userId : option (list Z)) (inp tape : list Z)
  : go (res (Z * Z) * list Z) :=
  do (pubX, pubY) <- curveScalarBaseMult (BigBytes (D priv));
  do (_, e) <- calculateE New pubX pubY (signId userId) inp;
  sign_outer (List.length tape) (D priv) e tape.

(** sm2.go:543-575 *)
Definition VerifyByRS (pub : PublicKey) (userId : option (list Z)) (src : list Z) (r s : Z) : go bool :=
  if (r <? 1) || (curveN <=? r) then Ret false
  else if (s <? 1) || (curveN <=? s) then Ret false
  else
    do (_, e) <- calculateE New (X pub) (Y pub) (signId userId) src;
    let t := r + s in
    let t := t mod curveN in
    if t =? 0 then Ret false
    else
      do (sgx, sgy) <- curveScalarBaseMult (BigBytes s);
      do (tpx, tpy) <- curveScalarMult (X pub) (Y pub) (BigBytes t);
      do (x, y) <- curveAdd sgx sgy tpx tpy;
      if IsEcPointInfinity x y then Ret false
      else
        let expectedR := e + x in
        let expectedR := expectedR mod curveN in
        Ret (expectedR =? r).
