(** sm3.go and sm4.go once more, as programs on a memory whose cells are single bytes, words and counters (ConcMem.v), to
    tell what calls that run at the same time do to each other. Sm3.v and Sm4.v have the same functions on values;
    SmConcAlone.v proves that alone they do the same. Local variables (including arrays: x in expandKey and processBlock of SM4, out in
    checkSum) are not memory; nor are the constant tables sBox, cK, fK, gT, which nothing writes; nor are the two slice headers
    in an sm4Cipher, written once before the cipher is returned. CBC and padding are in SmConcMode.v. *)
From Coq Require Import ZArith List Lia String Bool.
From Verif Require Import GoBase ConcMem Sm3 Sm4.
Import ListNotations.
Open Scope Z_scope.

(** A []byte: a window of a block, with a capacity. *)
Record cslice := mkCs { s_blk : block; s_off : nat; s_len : nat; s_cap : nat }.
Definition cell (s : cslice) (i : nat) : loc := mkLoc (s_blk s) (s_off s + i).
Fixpoint rdN (n : nat) (b : block) (o : nat) : prog (list Z) :=
  match n with O => ret [] | S n => par x <- rd (mkLoc b o); par l <- rdN n b (S o); ret (x :: l) end.
Fixpoint wrL (b : block) (o : nat) (l : list Z) : prog unit :=
  match l with [] => ret tt | x :: l => par _ <- wr (mkLoc b o) x; wrL b (S o) l end.
(** A loop with a body that touches memory. *)
Fixpoint loopP {A} (n : nat) (i : Z) (f : Z -> A -> prog A) (a : A) : prog A :=
  match n with O => ret a | S n => par a' <- f i a; loopP n (i + 1) f a' end.
(** binary.BigEndian.Uint32 and PutUint32 *)
Definition getU32P (b : block) (o : nat) : prog Z := par l <- rdN 4 b o; ret (be_dec l).
Definition putU32P (b : block) (o : nat) (x : Z) : prog unit := wrL b o (be_enc 4 x).

(** * sm4.go *)
(** sm4.go:72-75 *)
Record cipherRef := mkCipherRef { cEnc : block; cDec : block }.
(** sm4.go:126-134 and 157-167: one turn of either loop, which writes one round key. *)
Definition keyStepP (rk : block) (forEnc : bool) (i : Z) (x : list Z) : prog (list Z) :=
  let y := Z.lxor (at_ x (i mod 5)) (tAp (Z.lxor (Z.lxor (Z.lxor (at_ x ((i + 1) mod 5)) (at_ x ((i + 2) mod 5))) (at_ x ((i + 3) mod 5))) (at_ cK i))) in
  par _ <- wr (mkLoc rk (Z.to_nat (if forEnc then i else 31 - i))) y;
  ret (put x ((i + 4) mod 5) y).
(** sm4.go:112-136 *)
Definition expandKeyP (key : cslice) (forEnc : bool) : prog block :=
  par mK0 <- getU32P (s_blk key) (s_off key);
  par mK1 <- getU32P (s_blk key) (s_off key + 4);
  par mK2 <- getU32P (s_blk key) (s_off key + 8);
  par mK3 <- getU32P (s_blk key) (s_off key + 12);
  let x := [Z.lxor mK0 (at_ fK 0); Z.lxor mK1 (at_ fK 1); Z.lxor mK2 (at_ fK 2); Z.lxor mK3 (at_ fK 3); 0] in
  Alloc (repeat 0 32) (fun rk => par _ <- loopP 32 0 (keyStepP rk forEnc) x; ret rk).
(** sm4.go:77-86 *)
Definition NewCipherP (key : cslice) : prog (result cipherRef) :=
  if negb (Z.of_nat (s_len key) =? KeySize) then ret (Err (KeySizeError (Z.of_nat (s_len key))))
  else par e <- expandKeyP key true; par d <- expandKeyP key false; ret (Ok (mkCipherRef e d)).
(** sm4.go:176-181 *)
Definition fourRoundsP (rk : block) (j : Z) (x : list Z) : prog (list Z) :=
  let i := 4 * j in
  par k0 <- rd (mkLoc rk (Z.to_nat i)); let x := put x 0 (f0 x k0) in
  par k1 <- rd (mkLoc rk (Z.to_nat (i + 1))); let x := put x 1 (f1 x k1) in
  par k2 <- rd (mkLoc rk (Z.to_nat (i + 2))); let x := put x 2 (f2 x k2) in
  par k3 <- rd (mkLoc rk (Z.to_nat (i + 3))); let x := put x 3 (f3 x k3) in
  ret x.
(** sm4.go:169-188 *)
Definition processBlock4P (rk : block) (inp out : cslice) : prog unit :=
  par x0 <- getU32P (s_blk inp) (s_off inp);
  par x1 <- getU32P (s_blk inp) (s_off inp + 4);
  par x2 <- getU32P (s_blk inp) (s_off inp + 8);
  par x3 <- getU32P (s_blk inp) (s_off inp + 12);
  par x <- loopP 8 0 (fourRoundsP rk) [x0; x1; x2; x3];
  let x := r x in
  par _ <- putU32P (s_blk out) (s_off out) (at_ x 0);
  par _ <- putU32P (s_blk out) (s_off out + 4) (at_ x 1);
  par _ <- putU32P (s_blk out) (s_off out + 8) (at_ x 2);
  putU32P (s_blk out) (s_off out + 12) (at_ x 3).
(** sm4.go:92-110 *)
Definition cryptP (rk : block) (dst src : cslice) : prog unit :=
  if Z.of_nat (s_len src) <? BlockSize then panic (PUser "sm4: input not full block")
  else if Z.of_nat (s_len dst) <? BlockSize then panic (PUser "sm4: output not full block")
  else processBlock4P rk src dst.
Definition EncryptP (c : cipherRef) (dst src : cslice) : prog unit := cryptP (cEnc c) dst src.
Definition DecryptP (c : cipherRef) (dst src : cslice) : prog unit := cryptP (cDec c) dst src.
(** sm4.go:237-239 and 256-258: s[i:i+BlockSize] within the length. *)
Definition windowP (s : cslice) (i : nat) : cslice := mkCs (s_blk s) (s_off s + i) 16 (s_cap s - i).
Fixpoint ecbP (crypt : cslice -> cslice -> prog unit) (n i : nat) (dst src : cslice) : prog unit :=
  match n with O => ret tt | S n => par _ <- crypt (windowP dst i) (windowP src i); ecbP crypt n (i + 16) dst src end.
(** sm4.go:226-260 *)
Definition ecbCallP (enc : bool) (key inp : cslice) : prog (result cslice) :=
  if negb (Z.of_nat (s_len inp) mod BlockSize =? 0) then ret (Err NotFullBlocks)
  else par r <- NewCipherP key;
  match r with
  | Err e => ret (Err e)
  | Ok c => Alloc (repeat 0 (s_len inp)) (fun b =>
      let out := mkCs b 0 (s_len inp) (s_len inp) in
      par _ <- ecbP (if enc then EncryptP c else DecryptP c) (s_len inp / 16) 0 out inp; ret (Ok out))
  end.

(** * sm3.go *)
(** sm3.go:25-33: a digest is a block; its fields in order. *)
Definition fV := 0%nat. Definition fIn := 8%nat. Definition fXOff := 24%nat. Definition fW := 25%nat.
Definition fXBuf := 93%nat. Definition fXBufOff := 97%nat. Definition fCount := 98%nat.
Definition fieldI (d : block) (f : nat) (i : Z) : loc := mkLoc d (f + Z.to_nat i).
(** An element of an array field of length [n]. *)
Definition setI (d : block) (f : nat) (n i x : Z) : prog unit :=
  if (0 <=? i) && (i <? n) then wr (fieldI d f i) x else panic PIndex.
(** sm3.go:152-156 *)
Definition expandStepP (d : block) (j : Z) (_ : unit) : prog unit :=
  par wj3 <- rd (fieldI d fW (j - 3));
  par wj13 <- rd (fieldI d fW (j - 13));
  par wj16 <- rd (fieldI d fW (j - 16));
  par wj9 <- rd (fieldI d fW (j - 9));
  par wj6 <- rd (fieldI d fW (j - 6));
  wr (fieldI d fW j) (Z.lxor (Z.lxor (p1 (Z.lxor (Z.lxor wj16 wj9) (rot wj3 15))) (rot wj13 7)) wj6).
(** sm3.go:169-203: both loop bodies read w[j] and w[j+4]. *)
Definition roundP (f : list Z -> Z -> vars -> vars) (d : block) (j : Z) (s : vars) : prog vars :=
  par wj <- rd (fieldI d fW j);
  par wj4 <- rd (fieldI d fW (j + 4));
  ret (f (put (put (repeat 0 68) j wj) (j + 4) wj4) j s).
(** sm3.go:206-213: v[i] ^= x *)
Definition xorV (d : block) (i x : Z) : prog unit := par y <- rd (fieldI d fV i); wr (fieldI d fV i) (Z.lxor y x).
(** sm3.go:147-216 *)
Definition processBlock3P (d : block) : prog unit :=
  par _ <- loopP 16 0 (fun j _ => par x <- rd (fieldI d fIn j); wr (fieldI d fW j) x) tt;
  par _ <- loopP 52 16 (expandStepP d) tt;
  par A <- rd (fieldI d fV 0); par B <- rd (fieldI d fV 1); par C <- rd (fieldI d fV 2); par D <- rd (fieldI d fV 3);
  par E <- rd (fieldI d fV 4); par F <- rd (fieldI d fV 5); par G <- rd (fieldI d fV 6); par H <- rd (fieldI d fV 7);
  par s <- loopP 16 0 (roundP round0 d) (mkVars A B C D E F G H);
  par s <- loopP 48 16 (roundP round1 d) s;
  par _ <- xorV d 0 (vA s); par _ <- xorV d 1 (vB s); par _ <- xorV d 2 (vC s); par _ <- xorV d 3 (vD s);
  par _ <- xorV d 4 (vE s); par _ <- xorV d 5 (vF s); par _ <- xorV d 6 (vG s); par _ <- xorV d 7 (vH s);
  wr (mkLoc d fXOff) 0.
(** x++ on a field *)
Definition incP (a : loc) : prog unit := par x <- rd a; wr a (x + 1).
(** sm3.go:218-227; the slice expression is bounded by the capacity, and inOff is an int32. *)
Definition processWordP (d : block) (inp : cslice) (inOff : Z) : prog unit :=
  if (0 <=? inOff) && (inOff <=? i32 (inOff + 4)) && (i32 (inOff + 4) <=? Z.of_nat (s_cap inp)) then
    par n <- getU32P (s_blk inp) (s_off inp + Z.to_nat inOff);
    par o <- rd (mkLoc d fXOff);
    par _ <- setI d fIn 16 o n;
    par _ <- incP (mkLoc d fXOff);
    par o <- rd (mkLoc d fXOff);
    if 16 <=? o then processBlock3P d else ret tt
  else panic PSlice.
(** sm3.go:237-239: the loop on the field xOff itself. At most [fuel] turns are modelled; 14 suffice. *)
Fixpoint zeroP (fuel : nat) (d : block) : prog unit :=
  par o <- rd (mkLoc d fXOff);
  if o <? 14 then match fuel with
    | O => panic (PUser "model: zero loop bound exceeded")
    | S fuel => par o <- rd (mkLoc d fXOff); par _ <- setI d fIn 16 o 0; par _ <- incP (mkLoc d fXOff); zeroP fuel d
    end
  else ret tt.
(** inWords[xOff] = x; xOff++ *)
Definition pushP (d : block) (x : Z) : prog unit := par o <- rd (mkLoc d fXOff); par _ <- setI d fIn 16 o x; incP (mkLoc d fXOff).
(** sm3.go:229-245 *)
Definition processLengthP (d : block) (bitLength : Z) : prog unit :=
  par o <- rd (mkLoc d fXOff);
  par _ <- (if 14 <? o then par _ <- pushP d 0; processBlock3P d else ret tt);
  par _ <- zeroP 14 d;
  par _ <- pushP d (u32 (Z.shiftr bitLength 32));
  pushP d (u32 bitLength).
(** sm3.go:60-86 *)
Definition ResetP (d : block) : prog unit :=
  par _ <- wr (mkLoc d fCount) 0;
  par _ <- wr (mkLoc d fXBufOff) 0;
  par _ <- wrL d fXBuf (repeat 0 4);
  par _ <- wrL d fIn (repeat 0 16);
  par _ <- wrL d fW (repeat 0 68);
  par _ <- wrL d fV [0x7380166F; 0x4914B2B9; 0x172442D7; 0xDA8A0600; 0xA96F30BC; 0x163138AA; 0xE38DEE4D; 0xB0FB0E4E];
  wr (mkLoc d fXOff) 0.
(** sm3.go:35-39: new(sm3Digest) is zero. *)
Definition NewP : prog block := Alloc (repeat 0 99) (fun d => par _ <- ResetP d; ret d).
(** xBuf[xBufOff] = x; xBufOff++ *)
Definition bufP (d : block) (x : Z) : prog unit :=
  par o <- rd (mkLoc d fXBufOff); par _ <- setI d fXBuf 4 o x; incP (mkLoc d fXBufOff).
(** digest.xBuf[:] *)
Definition xBufS (d : block) : cslice := mkCs d fXBuf 4 4.
(** sm3.go:93-104 for the [n] bytes from [i]; yields where it stopped. *)
Fixpoint fillP (n : nat) (d : block) (p : cslice) (i : nat) : prog nat :=
  match n with
  | O => ret i
  | S n => par x <- rd (cell p i); par _ <- bufP d x;
           par o <- rd (mkLoc d fXBufOff);
           if o =? 4 then par _ <- processWordP d (xBufS d) 0; par _ <- wr (mkLoc d fXBufOff) 0; ret (S i)
           else fillP n d p (S i)
  end.
(** sm3.go:107-109 *)
Fixpoint wordsP (n : nat) (d : block) (p : cslice) (i : nat) : prog unit :=
  match n with O => ret tt | S n => par _ <- processWordP d p (i32 (Z.of_nat i)); wordsP n d p (i + 4) end.
(** sm3.go:111-115 *)
Fixpoint tailP (n : nat) (d : block) (p : cslice) (i : nat) : prog unit :=
  match n with O => ret tt | S n => par x <- rd (cell p i); par _ <- bufP d x; tailP n d p (S i) end.
(** sm3.go:88-121; (inLen-i) & ^3 is the largest multiple of 4 below. *)
Definition WriteP (d : block) (p : cslice) : prog Z :=
  match s_len p with
  | O => panic PIndex
  | _ =>
    par _ <- rd (cell p 0);
    par o <- rd (mkLoc d fXBufOff);
    par i <- (if o =? 0 then ret O else fillP (s_len p) d p 0);
    let limit := (4 * ((s_len p - i) / 4) + i)%nat in
    par _ <- wordsP ((s_len p - i) / 4) d p i;
    par _ <- tailP (s_len p - limit) d p limit;
    par c <- rd (mkLoc d fCount);
    par _ <- wr (mkLoc d fCount) (i64 (c + Z.of_nat (s_len p)));
    ret (Z.of_nat (s_len p))
  end.
(** sm3.go:126 and 129: Write of a new slice of one byte. *)
Definition write1P (d : block) (x : Z) : prog Z := Alloc [x] (fun b => WriteP d (mkCs b 0 1 1)).
(** sm3.go:128-130: at most [fuel] turns are modelled; 3 suffice. *)
Fixpoint padP (fuel : nat) (d : block) : prog unit :=
  par o <- rd (mkLoc d fXBufOff);
  if o =? 0 then ret tt
  else match fuel with
       | O => panic (PUser "model: pad loop bound exceeded")
       | S f => par _ <- write1P d 0; padP f d
       end.
(** sm3.go:123-135 *)
Definition finishP (d : block) : prog unit :=
  par c <- rd (mkLoc d fCount);
  par _ <- write1P d 128;
  par _ <- padP 4 d;
  par _ <- processLengthP d (i64 (Z.shiftl c 3));
  processBlock3P d.
(** sm3.go:137-145 *)
Definition checkSumP (d : block) : prog (list Z) := par _ <- finishP d; par l <- rdN 8 d fV; ret (List.concat (map (be_enc 4) l)).
(** append(b, l...): in place when the capacity suffices, else into a new block (whose spare capacity is not modelled). *)
Definition appendP (b : cslice) (l : list Z) : prog cslice :=
  if (s_len b + List.length l <=? s_cap b)%nat
  then par _ <- wrL (s_blk b) (s_off b + s_len b) l; ret (mkCs (s_blk b) (s_off b) (s_len b + List.length l) (s_cap b))
  else par old <- rdN (s_len b) (s_blk b) (s_off b);
       Alloc (old ++ l) (fun n => ret (mkCs n 0 (s_len b + List.length l) (s_len b + List.length l))).
(** sm3.go:41-45 *)
Definition SumMethodP (d : block) (b : cslice) : prog cslice := par h <- checkSumP d; appendP b h.
(** sm3.go:275-280 *)
Definition SumP (data : cslice) : prog (list Z) :=
  Alloc (repeat 0 99) (fun d => par _ <- ResetP d; par _ <- WriteP d data; checkSumP d).

(** * Goroutines *)
Inductive call :=
  | CNewCipher (key : cslice)
  | CEncrypt (c : cipherRef) (dst src : cslice)
  | CDecrypt (c : cipherRef) (dst src : cslice)
  | CEcb (enc : bool) (key inp : cslice)
  | CNewDigest
  | CReset (d : block)
  | CWrite (d : block) (p : cslice)
  | CSum (d : block) (b : cslice)
  | CSumOf (data : cslice).
Inductive answer :=
  | ANone
  | ACipher (r : result cipherRef)
  | ABytes (r : result cslice)
  | ADigest (d : block)
  | ALen (n : Z)
  | AHash (h : list Z).
Definition execute (c : call) : prog answer :=
  match c with
  | CNewCipher key => par r <- NewCipherP key; ret (ACipher r)
  | CEncrypt c dst src => par _ <- EncryptP c dst src; ret ANone
  | CDecrypt c dst src => par _ <- DecryptP c dst src; ret ANone
  | CEcb enc key inp => par r <- ecbCallP enc key inp; ret (ABytes r)
  | CNewDigest => par d <- NewP; ret (ADigest d)
  | CReset d => par _ <- ResetP d; ret ANone
  | CWrite d p => par n <- WriteP d p; ret (ALen n)
  | CSum d b => par s <- SumMethodP d b; ret (ABytes (Ok s))
  | CSumOf data => par h <- SumP data; ret (AHash h)
  end.
(** A goroutine makes its calls one after the other; a panic ends it. *)
Fixpoint goroutine (cs : list call) : prog (list answer) :=
  match cs with [] => ret [] | c :: cs => par a <- execute c; par l <- goroutine cs; ret (a :: l) end.
