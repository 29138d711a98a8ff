(** A second model of sm2.go, keyexchange.go's calculateU, util/bigint.go and util/ec.go, with memory: a *big.Int is an
    address, a []byte is a window with a capacity into an addressed buffer, and the curve and key structs hold
    addresses. Sm2.v and KeyExchange.v have the same functions on values. Nil addresses do not occur (where
    elliptic.Unmarshal returns nil the model panics at once, as the code does one line later).
    Functions of the standard library: methods of big.Int write their receiver only; elliptic and rand functions
    return addresses they have just allocated and write nothing else; a digest is a value of its own (Sm3.v), Write reads
    its argument, Sum(nil) returns a new slice. Byte slices that are made, never written afterwards and
    never returned (c1xBytes, tmp, the results of Bytes) are plain lists. *)
From Coq Require Import ZArith List Lia Bool String.
From Verif Require Import GoBase BeMin FpField GoElliptic Sm3 Sm2 KeyExchange.
Import ListNotations.
Open Scope Z_scope.

Record heap := mkHeap { ints : list Z; bufs : list (list Z) }.
(** A program is the sequence of its accesses to memory. It ends with a value or a panic. *)
Inductive prog (A : Type) : Type :=
  | Done (o : go A)
  | NewInt (k : nat -> prog A)                            (* a new integer, zero; its address *)
  | GetInt (p : nat) (k : Z -> prog A)
  | SetInt (p : nat) (v : Z) (k : prog A)
  | NewBuf (l : list Z) (k : nat -> prog A)               (* a new buffer; its address *)
  | GetBuf (j : nat) (k : list Z -> prog A)
  | PutBuf (j off : nat) (l : list Z) (k : prog A).       (* bytes written to a buffer from an offset *)
Arguments Done {A}. Arguments NewInt {A}. Arguments GetInt {A}. Arguments SetInt {A}.
Arguments NewBuf {A}. Arguments GetBuf {A}. Arguments PutBuf {A}.
Definition retp {A} (a : A) : prog A := Done (Ret a).
Definition liftp {A} (o : go A) : prog A := Done o.
Fixpoint bindp {A B} (m : prog A) (k : A -> prog B) : prog B :=
  match m with
  | Done (Ret a) => k a
  | Done (Panic e) => Done (Panic e)
  | NewInt f => NewInt (fun p => bindp (f p) k)
  | GetInt p f => GetInt p (fun v => bindp (f v) k)
  | SetInt p v f => SetInt p v (bindp f k)
  | NewBuf l f => NewBuf l (fun j => bindp (f j) k)
  | GetBuf j f => GetBuf j (fun l => bindp (f l) k)
  | PutBuf j off l f => PutBuf j off l (bindp f k)
  end.
(** Execution: a value or a panic, and in both cases the memory that is left. New memory follows the old. *)
Definition putAt (b : list Z) (off : nat) (l : list Z) : list Z := firstn off b ++ l ++ skipn (off + List.length l) b.
Fixpoint run {A} (m : prog A) (h : heap) : go A * heap :=
  match m with
  | Done o => (o, h)
  | NewInt k => run (k (List.length (ints h))) (mkHeap (ints h ++ [0]) (bufs h))
  | GetInt p k => match nth_error (ints h) p with Some v => run (k v) h | None => (Panic PNil, h) end
  | SetInt p v k => if Nat.ltb p (List.length (ints h)) then run k (mkHeap (upd (ints h) p v) (bufs h)) else (Panic PNil, h)
  | NewBuf l k => run (k (List.length (bufs h))) (mkHeap (ints h) (bufs h ++ [l]))
  | GetBuf j k => run (k (nth j (bufs h) [])) h
  | PutBuf j off l k => run k (mkHeap (ints h) (upd (bufs h) j (putAt (nth j (bufs h) []) off l)))
  end.
Coercion run : prog >-> Funclass.
Notation "'mem' x <- e ; f" := (bindp e (fun x => f)) (at level 200, x pattern, e at level 100, f at level 200, right associativity).

(** * Integers *)
Definition newInt : prog nat := NewInt retp.
Definition getInt (p : nat) : prog Z := GetInt p retp.
Definition setInt (p : nat) (v : Z) : prog unit := SetInt p v (retp tt).

(** math/big: z.Add(x, y) and the like. The receiver may be one of the arguments. *)
Definition bigSet (z x : nat) : prog unit := mem a <- getInt x; setInt z a.
Definition bigAdd (z x y : nat) : prog unit := mem a <- getInt x; mem b <- getInt y; setInt z (a + b).
Definition bigSub (z x y : nat) : prog unit := mem a <- getInt x; mem b <- getInt y; setInt z (a - b).
Definition bigMul (z x y : nat) : prog unit := mem a <- getInt x; mem b <- getInt y; setInt z (a * b).
Definition bigMod (z x y : nat) : prog unit :=
  mem a <- getInt x; mem b <- getInt y; if b =? 0 then liftp (Panic PDiv) else setInt z (a mod Z.abs b).
Definition bigAnd (z x y : nat) : prog unit := mem a <- getInt x; mem b <- getInt y; setInt z (Z.land a b).
Definition bigLsh (z x : nat) (n : Z) : prog unit := mem a <- getInt x; setInt z (Z.shiftl a n).
Definition bigSetBit (z x : nat) (i b : Z) : prog unit :=
  mem a <- getInt x; setInt z (if b =? 0 then Z.clearbit a i else Z.setbit a i).
(** Without an inverse the receiver is left alone (and nil is returned, which the caller ignores). *)
Definition bigModInverse (z x y : nat) : prog unit :=
  mem a <- getInt x; mem b <- getInt y; match ModInverse a b with Some i => setInt z i | None => retp tt end.
(** new(big.Int).SetInt64(v) or SetBytes *)
Definition newOf (v : Z) : prog nat := mem z <- newInt; mem _ <- setInt z v; retp z.

(** util/bigint.go:5-9 *)
Definition utilAdd (x y : nat) : prog nat := mem z <- newInt; mem _ <- bigAdd z x y; retp z.
(** util/bigint.go:11-15 *)
Definition utilSub (x y : nat) : prog nat := mem z <- newInt; mem _ <- bigSub z x y; retp z.
(** util/bigint.go:17-21 *)
Definition utilMod (x y : nat) : prog nat := mem z <- newInt; mem _ <- bigMod z x y; retp z.
(** util/bigint.go:23-27 *)
Definition utilModInverseM (x y : nat) : prog nat := mem z <- newInt; mem _ <- bigModInverse z x y; retp z.
(** util/bigint.go:29-33 *)
Definition utilMul (x y : nat) : prog nat := mem z <- newInt; mem _ <- bigMul z x y; retp z.
(** util/bigint.go:35-39 *)
Definition utilLsh (x : nat) (n : Z) : prog nat := mem z <- newInt; mem _ <- bigLsh z x n; retp z.
(** util/bigint.go:41-45 *)
Definition utilSetBit (x : nat) (i b : Z) : prog nat := mem z <- newInt; mem _ <- bigSetBit z x i b; retp z.
(** util/bigint.go:47-51 *)
Definition utilAnd (x y : nat) : prog nat := mem z <- newInt; mem _ <- bigAnd z x y; retp z.
(** util/ec.go:5-10 *)
Definition IsEcPointInfinityM (x y : nat) : prog bool := mem a <- getInt x; mem b <- getInt y; retp ((a =? 0) && (b =? 0)).
(** util/ec.go:12-18 *)
Definition ZForAffine (x y : nat) : prog nat :=
  mem z <- newInt; mem a <- getInt x; mem b <- getInt y;
  mem _ <- (if negb (a =? 0) || negb (b =? 0) then setInt z 1 else retp tt); retp z.

(** * Slices *)
Record slice := mkSl { s_buf : nat; s_off : nat; s_len : nat; s_cap : nat }.
Definition view (h : heap) (s : slice) : list Z := firstn (s_len s) (skipn (s_off s) (nth (s_buf s) (bufs h) [])).
Definition readAll (s : slice) : prog (list Z) := GetBuf (s_buf s) (fun b => retp (firstn (s_len s) (skipn (s_off s) b))).
Definition newBuf (l : list Z) : prog slice :=
  NewBuf l (fun j => retp (mkSl j 0 (List.length l) (List.length l))).
(** make([]byte, n) *)
Definition makeM (n : Z) : prog slice := mem l <- liftp (go_make n); newBuf l.
(** s[lo:hi], bounded by the capacity *)
Definition sliceM (s : slice) (lo hi : Z) : prog slice :=
  if (0 <=? lo) && (lo <=? hi) && (hi <=? Z.of_nat (s_cap s))
  then retp (mkSl (s_buf s) (s_off s + Z.to_nat lo) (Z.to_nat (hi - lo)) (s_cap s - Z.to_nat lo))
  else liftp (Panic PSlice).
(** The window of a slice replaced from its start by [l]. *)
Definition putM (s : slice) (l : list Z) : prog unit := PutBuf (s_buf s) (s_off s) l (retp tt).
(** copy(dst, src) *)
Definition copyM (dst src : slice) : prog unit := mem l <- readAll src; putM dst (firstn (s_len dst) l).
(** s[i] and s[i] = v *)
Definition indexM (s : slice) (i : nat) : prog Z :=
  if Nat.ltb i (s_len s) then GetBuf (s_buf s) (fun b => retp (nth (s_off s + i) b 0)) else liftp (Panic PIndex).
Definition storeM (s : slice) (i : nat) (v : Z) : prog unit :=
  if Nat.ltb i (s_len s)
  then PutBuf (s_buf s) (s_off s + i) [v] (retp tt)
  else liftp (Panic PIndex).

(** * Curve and keys: sm2.go:43-56. The embedded CurveParams is shared by all copies; its BitSize is a constant here. *)
Record curveRef := mkCurve { cP : nat; cA : nat; cB : nat; cN : nat; cGx : nat; cGy : nat }.
Record pubRef := mkPubRef { rX : nat; rY : nat; rC : curveRef }.
Record privRef := mkPrivRef { rD : nat; rDC : curveRef }.
(** The package variables sm2P256V1, sm2H and sm2SignDefaultUserId: sm2.go:34-41. *)
Record globals := mkGlobals { gCurve : curveRef; gH : nat; gId : slice }.

(** sm2.go:74-93, init. *)
Definition initGlobals : prog globals :=
  mem hh <- newOf sm2H;
  mem id <- newBuf sm2SignDefaultUserId;
  mem p <- newOf curveP; mem a <- newOf curveA; mem b <- newOf curveB; mem n <- newOf curveN; mem gx <- newOf curveGx; mem gy <- newOf curveGy;
  retp (mkGlobals (mkCurve p a b n gx gy) hh id).
(** sm2.go:95-97: a copy of the struct, hence the same addresses. *)
Definition GetSm2P256V1 (g : globals) : prog curveRef := retp (gCurve g).

(** crypto/elliptic on addresses: the values of GoElliptic.v in newly allocated integers. *)
Definition newPair (q : Z * Z) : prog (nat * nat) := let (u, v) := q in mem a <- newOf u; mem b <- newOf v; retp (a, b).
Definition ScalarMultM (c : curveRef) (x y : nat) (k : list Z) : prog (nat * nat) :=
  mem p <- getInt (cP c); mem a <- getInt x; mem b <- getInt y; mem q <- liftp (ScalarMult p a b k); newPair q.
Definition ScalarBaseMultM (c : curveRef) (k : list Z) : prog (nat * nat) := ScalarMultM c (cGx c) (cGy c) k.
Definition AddM (c : curveRef) (x1 y1 x2 y2 : nat) : prog (nat * nat) :=
  mem p <- getInt (cP c); mem a <- getInt x1; mem b <- getInt y1; mem a' <- getInt x2; mem b' <- getInt y2;
  mem q <- liftp (Add p a b a' b'); newPair q.
Definition BytesM (x : nat) : prog (list Z) := mem a <- getInt x; retp (BigBytes a).

(** sm2.go:99-112 *)
Definition GenerateKeyM (g : globals) (tape : list Z) : prog (res (privRef * pubRef) * list Z) :=
  mem n <- getInt (cN (gCurve g));
  match genkey_scalar n tape with
  | (ERR e, tape) => retp (ERR e, tape)
  | (OK priv, tape) =>
      mem (x, y) <- ScalarBaseMultM (gCurve g) priv;
      mem d <- newOf (be_dec priv);
      retp (OK (mkPrivRef d (gCurve g), mkPubRef x y (gCurve g)), tape)
  end.
(** sm2.go:114-123 *)
Definition RawBytesToPublicKeyM (g : globals) (bs : slice) : prog (res pubRef) :=
  if negb (Z.of_nat (s_len bs) =? KeyBytes * 2) then retp (ERR "Public key raw bytes length must be 64")
  else
    mem xs <- sliceM bs 0 KeyBytes; mem xb <- readAll xs; mem x <- newOf (be_dec xb);
    mem ys <- sliceM bs KeyBytes (Z.of_nat (s_len bs)); mem yb <- readAll ys; mem y <- newOf (be_dec yb);
    retp (OK (mkPubRef x y (gCurve g))).
(** sm2.go:125-133 *)
Definition RawBytesToPrivateKeyM (g : globals) (bs : slice) : prog (res privRef) :=
  if negb (Z.of_nat (s_len bs) =? KeyBytes) then retp (ERR "Private key raw bytes length must be 32")
  else mem l <- readAll bs; mem d <- newOf (be_dec l); retp (OK (mkPrivRef d (gCurve g))).

(** sm2.go:182-187 *)
Definition CalculatePubKeyM (priv : privRef) : prog pubRef :=
  mem db <- BytesM (rD priv);
  mem (x, y) <- ScalarBaseMultM (rDC priv) db;
  retp (mkPubRef x y (rDC priv)).

(** sm2.go:189-202; rand.Int returns a new integer. *)
Fixpoint nextK_loopM (fuel : nat) (intOne max : nat) (tape : list Z) : prog (res nat * list Z) :=
  mem mx <- getInt max;
  match rand_Int mx tape with
  | (ERR e, tape) => retp (ERR e, tape)
  | (OK kv, tape) =>
      mem k <- newOf kv;
      mem a <- getInt k; mem b <- getInt intOne;
      if b <=? a then retp (OK k, tape)
      else match fuel with
           | O => retp (ERR "model: out of fuel", tape)
           | S fuel => nextK_loopM fuel intOne max tape
           end
  end.
Definition nextKM (max : nat) (tape : list Z) : prog (res nat * list Z) :=
  mem intOne <- newOf 1; nextK_loopM (List.length tape) intOne max tape.

(** sm2.go:211-219 *)
Definition bigIntTo32BytesM (x : nat) : prog (list Z) := mem a <- getInt x; liftp (bigIntTo32Bytes a).

(** sm2.go:204-208 *)
Fixpoint xorM (n i : nat) (data kdfOut : slice) : prog unit :=
  match n with
  | O => retp tt
  | S n =>
      mem a <- indexM data i; mem b <- indexM kdfOut i; mem _ <- storeM data i (Z.lxor a b);
      xorM n (S i) data kdfOut
  end.

(** sm2.go:231-249 *)
Fixpoint kdf_loopM (fuel : nat) (d : sm3Digest) (xb yb : list Z) (ct : Z) (off : nat) (buf encData : slice) : prog sm3Digest :=
  if Nat.ltb off (s_len encData) then
    match fuel with
    | O => liftp (Panic (PUser "model: out of fuel"))
    | S fuel =>
        let ct := u32 (ct + 1) in
        mem _ <- putM buf (be_enc 4 ct);
        mem cs <- sliceM buf 0 4; mem cb <- readAll cs;
        mem (d, tmp) <- liftp (hashOf d [xb; yb; cb]);
        mem tmp <- liftp (go_slice tmp 0 32);
        mem _ <- putM buf tmp;
        let xorLen := Z.to_nat (Z.min (Z.of_nat (s_len encData - off)) DigestLength) in
        mem part <- sliceM encData (Z.of_nat off) (Z.of_nat (s_len encData));
        mem _ <- xorM xorLen 0 part buf;
        kdf_loopM fuel d xb yb ct (off + xorLen) buf encData
    end
  else retp d.
(** sm2.go:221-250; bufSize is digest.Size() = 32. *)
Definition kdfM (d : sm3Digest) (c1x c1y : nat) (encData : slice) : prog sm3Digest :=
  mem buf <- makeM 32;
  mem xb <- bigIntTo32BytesM c1x;
  mem yb <- bigIntTo32BytesM c1y;
  kdf_loopM (s_len encData) d xb yb 0 0 buf encData.

(** sm2.go:268-283; yields c1, kPBx, kPBy; c2 is written in place. *)
Fixpoint encrypt_loopM (fuel : nat) (pub : pubRef) (inp c2 : slice) (d : sm3Digest) (tape : list Z)
  : prog (res (slice * nat * nat * sm3Digest) * list Z) :=
  mem (r, tape) <- nextKM (cN (rC pub)) tape;
  match r with
  | ERR e => retp (ERR e, tape)
  | OK k =>
      mem kBytes <- BytesM k;
      mem (c1x, c1y) <- ScalarBaseMultM (rC pub) kBytes;
      mem a <- getInt c1x; mem b <- getInt c1y;
      mem c1l <- liftp (Marshal a b);
      mem c1 <- newBuf c1l;
      mem (kPBx, kPBy) <- ScalarMultM (rC pub) (rX pub) (rY pub) kBytes;
      mem d <- kdfM d kPBx kPBy c2;
      mem l2 <- readAll c2; mem li <- readAll inp;
      mem ne <- liftp (notEncrypted l2 li);
      if negb ne then retp (OK (c1, kPBx, kPBy, d), tape)
      else match fuel with
           | O => liftp (Panic (PUser "model: out of fuel"))
           | S fuel => encrypt_loopM fuel pub inp c2 d tape
           end
  end.
(** sm2.go:262-306 *)
Definition EncryptM (pub : pubRef) (inp : slice) (cipherTextType : Z) (tape : list Z) : prog (res slice * list Z) :=
  mem c2 <- makeM (Z.of_nat (s_len inp));
  mem _ <- copyM c2 inp;
  mem (r, tape) <- encrypt_loopM (List.length tape) pub inp c2 New tape;
  match r with
  | ERR e => retp (ERR e, tape)
  | OK (c1, kPBx, kPBy, d) =>
      mem xb <- bigIntTo32BytesM kPBx;
      mem yb <- bigIntTo32BytesM kPBy;
      mem li <- readAll inp;
      mem (d, c3l) <- liftp (hashOf d [xb; li; yb]);
      mem c3 <- newBuf c3l;
      let c1Len := Z.of_nat (s_len c1) in
      let c2Len := Z.of_nat (s_len c2) in
      let c3Len := Z.of_nat (s_len c3) in
      mem result <- makeM (c1Len + c2Len + c3Len);
      if cipherTextType =? C1C2C3 then
        mem w <- sliceM result 0 c1Len; mem _ <- copyM w c1;
        mem w <- sliceM result c1Len (c1Len + c2Len); mem _ <- copyM w c2;
        mem w <- sliceM result (c1Len + c2Len) (Z.of_nat (s_len result)); mem _ <- copyM w c3;
        retp (OK result, tape)
      else if cipherTextType =? C1C3C2 then
        mem w <- sliceM result 0 c1Len; mem _ <- copyM w c1;
        mem w <- sliceM result c1Len (c1Len + c3Len); mem _ <- copyM w c3;
        mem w <- sliceM result (c1Len + c3Len) (Z.of_nat (s_len result)); mem _ <- copyM w c2;
        retp (OK result, tape)
      else retp (ERR (unknownType cipherTextType), tape)
  end.

(** sm2.go:308-346 *)
Definition DecryptM (g : globals) (priv : privRef) (inp : slice) (cipherTextType : Z) : prog (res slice) :=
  let c1Len := Z.shiftr (curveBitSize + 7) 3 * 2 + 1 in
  mem c1 <- makeM c1Len;
  mem w <- sliceM inp 0 c1Len; mem _ <- copyM c1 w;
  mem l1 <- readAll c1;
  mem p <- getInt (cP (rDC priv)); mem b <- getInt (cB (rDC priv));
  match Unmarshal p b l1 with
  | None => liftp (Panic PNil)
  | Some q =>
      mem (c1x, c1y) <- newPair q;
      mem hb <- BytesM (gH g);
      mem (sx, sy) <- ScalarMultM (rDC priv) c1x c1y hb;
      mem inf <- IsEcPointInfinityM sx sy;
      if inf : bool then retp (ERR "[h]C1 at infinity")
      else
        mem db <- BytesM (rD priv);
        mem (c1x, c1y) <- ScalarMultM (rDC priv) c1x c1y db;
        let d := New in
        let c3Len := DigestLength in
        let inLen := Z.of_nat (s_len inp) in
        let c2Len := inLen - c1Len - c3Len in
        mem c2 <- makeM c2Len;
        mem c3 <- makeM c3Len;
        mem r <- (if cipherTextType =? C1C2C3 then
                    mem w <- sliceM inp c1Len (c1Len + c2Len); mem _ <- copyM c2 w;
                    mem w <- sliceM inp (c1Len + c2Len) inLen; mem _ <- copyM c3 w;
                    retp (OK tt)
                  else if cipherTextType =? C1C3C2 then
                    mem w <- sliceM inp c1Len (c1Len + c3Len); mem _ <- copyM c3 w;
                    mem w <- sliceM inp (c1Len + c3Len) inLen; mem _ <- copyM c2 w;
                    retp (OK tt)
                  else retp (ERR (unknownType cipherTextType)));
        match r with
        | ERR e => retp (ERR e)
        | OK _ =>
            mem d <- kdfM d c1x c1y c2;
            mem xb <- bigIntTo32BytesM c1x;
            mem yb <- bigIntTo32BytesM c1y;
            mem l2 <- readAll c2; mem l3 <- readAll c3;
            mem (d, newC3) <- liftp (hashOf d [xb; l2; yb]);
            if list_eq_dec Z.eq_dec newC3 l3 then retp (OK c2) else retp (ERR "invalid cipher text")
        end
  end.

(** sm2.go:441-459 and 461-469 with the curve's constants as arguments. *)
Definition getZwith (ca cb cgx cgy : Z) (d : sm3Digest) (pubX pubY : Z) (userId : list Z) : go (sm3Digest * list Z) :=
  let userIdLen := u16 (zlen userId * 8) in
  do ab <- bigIntTo32Bytes ca;
  do bb <- bigIntTo32Bytes cb;
  do gxb <- bigIntTo32Bytes cgx;
  do gyb <- bigIntTo32Bytes cgy;
  do pxb <- bigIntTo32Bytes pubX;
  do pyb <- bigIntTo32Bytes pubY;
  hashOf d ([be_enc 2 userIdLen] ++ (if 0 <? zlen userId then [userId] else []) ++ [ab; bb; gxb; gyb; pxb; pyb]).
Definition getZM (d : sm3Digest) (c : curveRef) (pubX pubY : nat) (userId : slice) : prog (sm3Digest * list Z) :=
  mem a <- getInt (cA c); mem b <- getInt (cB c); mem gx <- getInt (cGx c); mem gy <- getInt (cGy c);
  mem x <- getInt pubX; mem y <- getInt pubY; mem id <- readAll userId;
  liftp (getZwith a b gx gy d x y id).
Definition calculateEM (d : sm3Digest) (c : curveRef) (pubX pubY : nat) (userId src : slice) : prog (sm3Digest * nat) :=
  mem (d, z) <- getZM d c pubX pubY userId;
  mem m <- readAll src;
  mem (d, eHash) <- liftp (hashOf d [z; m]);
  mem e <- newOf (be_dec eHash);
  retp (d, e).

(** sm2.go:499-516; yields k and r. rk is a copy of r, added to in place. *)
Fixpoint sign_innerM (fuel : nat) (c : curveRef) (intZero e : nat) (tape : list Z) : prog (res (nat * nat) * list Z) :=
  mem (kr, tape) <- nextKM (cN c) tape;
  match kr with
  | ERR er => retp (ERR er, tape)
  | OK k =>
      mem kb <- BytesM k;
      mem (px, _) <- ScalarBaseMultM c kb;
      mem r <- utilAdd e px;
      mem r <- utilMod r (cN c);
      mem rk <- newInt; mem _ <- bigSet rk r;
      mem _ <- bigAdd rk rk k;
      mem vr <- getInt r; mem v0 <- getInt intZero; mem vrk <- getInt rk; mem vn <- getInt (cN c);
      if negb (vr =? v0) && negb (vrk =? vn) then retp (OK (k, r), tape)
      else match fuel with
           | O => liftp (Panic (PUser "model: out of fuel"))
           | S fuel => sign_innerM fuel c intZero e tape
           end
  end.
(** sm2.go:498-529 *)
Fixpoint sign_outerM (fuel : nat) (priv : privRef) (intZero intOne e : nat) (tape : list Z) : prog (res (nat * nat) * list Z) :=
  mem (kr, tape) <- sign_innerM (List.length tape) (rDC priv) intZero e tape;
  match kr with
  | ERR er => retp (ERR er, tape)
  | OK (k, r) =>
      mem dPlus1ModN <- utilAdd (rD priv) intOne;
      mem dPlus1ModN <- utilModInverseM dPlus1ModN (cN (rDC priv));
      mem s <- utilMul r (rD priv);
      mem s <- utilSub k s;
      mem s <- utilMod s (cN (rDC priv));
      mem s <- utilMul dPlus1ModN s;
      mem s <- utilMod s (cN (rDC priv));
      mem vs <- getInt s; mem v0 <- getInt intZero;
      if negb (vs =? v0) then retp (OK (r, s), tape)
      else match fuel with
           | O => liftp (Panic (PUser "model: out of fuel"))
           | S fuel => sign_outerM fuel priv intZero intOne e tape
           end
  end.
(** sm2.go:488-531; a nil userId is None. *)
Definition SignToRSM (g : globals) (priv : privRef) (userId : option slice) (inp : slice) (tape : list Z) : prog (res (nat * nat) * list Z) :=
  mem db <- BytesM (rD priv);
  mem (pubX, pubY) <- ScalarBaseMultM (rDC priv) db;
  let userId := match userId with None => gId g | Some s => s end in
  mem (_, e) <- calculateEM New (rDC priv) pubX pubY userId inp;
  mem intZero <- newOf 0;
  mem intOne <- newOf 1;
  sign_outerM (List.length tape) priv intZero intOne e tape.

(** sm2.go:543-575 *)
Definition VerifyByRSM (g : globals) (pub : pubRef) (userId : option slice) (src : slice) (r s : nat) : prog bool :=
  mem intOne <- newOf 1;
  mem vr <- getInt r; mem vs <- getInt s; mem v1 <- getInt intOne; mem vn <- getInt (cN (rC pub));
  if (vr <? v1) || (vn <=? vr) then retp false
  else if (vs <? v1) || (vn <=? vs) then retp false
  else
    let userId := match userId with None => gId g | Some s => s end in
    mem (_, e) <- calculateEM New (rC pub) (rX pub) (rY pub) userId src;
    mem intZero <- newOf 0;
    mem t <- utilAdd r s;
    mem t <- utilMod t (cN (rC pub));
    mem vt <- getInt t; mem v0 <- getInt intZero;
    if vt =? v0 then retp false
    else
      mem sb <- BytesM s;
      mem (sgx, sgy) <- ScalarBaseMultM (rC pub) sb;
      mem tb <- BytesM t;
      mem (tpx, tpy) <- ScalarMultM (rC pub) (rX pub) (rY pub) tb;
      mem (x, y) <- AddM (rC pub) sgx sgy tpx tpy;
      mem inf <- IsEcPointInfinityM x y;
      if inf : bool then retp false
      else
        mem expectedR <- utilAdd e x;
        mem expectedR <- utilMod expectedR (cN (rC pub));
        mem ve <- getInt expectedR; mem vr <- getInt r;
        retp (ve =? vr).

(** keyexchange.go:19-26 *)
Definition reduceM (x : nat) (w : Z) : prog nat :=
  mem intOne <- newOf 1;
  mem result <- utilLsh intOne w;
  mem result <- utilSub result intOne;
  mem result <- utilAnd x result;
  utilSetBit result w 1.
(** keyexchange.go:28-43 *)
Definition calculateUM (g : globals) (w : Z) (selfStaticPriv selfEphemeralPriv : privRef)
    (selfEphemeralPub otherStaticPub otherEphemeralPub : pubRef) : prog (nat * nat) :=
  mem x1 <- reduceM (rX selfEphemeralPub) w;
  mem x2 <- reduceM (rX otherEphemeralPub) w;
  mem tA <- utilMul x1 (rD selfEphemeralPriv);
  mem tA <- utilAdd (rD selfStaticPriv) tA;
  mem k1 <- utilMul (gH g) tA;
  mem k1 <- utilMod k1 (cN (rDC selfStaticPriv));
  mem k2 <- utilMul k1 x2;
  mem k2 <- utilMod k2 (cN (rDC selfStaticPriv));
  mem k1b <- BytesM k1;
  mem (p1x, p1y) <- ScalarMultM (rDC selfStaticPriv) (rX otherStaticPub) (rY otherStaticPub) k1b;
  mem k2b <- BytesM k2;
  mem (p2x, p2y) <- ScalarMultM (rDC selfStaticPriv) (rX otherEphemeralPub) (rY otherEphemeralPub) k2b;
  AddM (rDC selfStaticPriv) p1x p1y p2x p2y.
