(** Model of /repo/sm3/sm3.go (whole file except [PrintT], lines 282-301, a printing helper).
    Arrays are lists; the Go types fix their lengths (8, 16, 68, 4), see [wf] in Sm3Proofs.v.
    Indexing with loop constants inside an array is written with [nth]/[upd]; indexing with a
    variable offset is checked and may panic. *)
From Coq Require Import ZArith List Lia String.
From Verif Require Import GoBase.
Import ListNotations.
Open Scope Z_scope.

(** sm3.go:10-13 *)
Definition DigestLength : Z := 32.
Definition BlockSize : Z := 16.

(** sm3.go:15-23 *)
Definition gT : list Z := [
  0x79CC4519; 0xF3988A32; 0xE7311465; 0xCE6228CB; 0x9CC45197; 0x3988A32F; 0x7311465E; 0xE6228CBC;
  0xCC451979; 0x988A32F3; 0x311465E7; 0x6228CBCE; 0xC451979C; 0x88A32F39; 0x11465E73; 0x228CBCE6;
  0x9D8A7A87; 0x3B14F50F; 0x7629EA1E; 0xEC53D43C; 0xD8A7A879; 0xB14F50F3; 0x629EA1E7; 0xC53D43CE;
  0x8A7A879D; 0x14F50F3B; 0x29EA1E76; 0x53D43CEC; 0xA7A879D8; 0x4F50F3B1; 0x9EA1E762; 0x3D43CEC5;
  0x7A879D8A; 0xF50F3B14; 0xEA1E7629; 0xD43CEC53; 0xA879D8A7; 0x50F3B14F; 0xA1E7629E; 0x43CEC53D;
  0x879D8A7A; 0x0F3B14F5; 0x1E7629EA; 0x3CEC53D4; 0x79D8A7A8; 0xF3B14F50; 0xE7629EA1; 0xCEC53D43;
  0x9D8A7A87; 0x3B14F50F; 0x7629EA1E; 0xEC53D43C; 0xD8A7A879; 0xB14F50F3; 0x629EA1E7; 0xC53D43CE;
  0x8A7A879D; 0x14F50F3B; 0x29EA1E76; 0x53D43CEC; 0xA7A879D8; 0x4F50F3B1; 0x9EA1E762; 0x3D43CEC5].

(** sm3.go:25-33, type sm3Digest *)
Record sm3Digest := mkDigest {
  v : list Z;          (* [8]uint32 *)
  inWords : list Z;    (* [16]uint32 *)
  xOff : Z;            (* int32 *)
  w : list Z;          (* [68]uint32 *)
  xBuf : list Z;       (* [4]byte *)
  xBufOff : Z;         (* int32 *)
  byteCount : Z        (* int64 *)
}.

(** The zero value of the struct ([new(sm3Digest)], [var d sm3Digest]). *)
Definition zeroDigest : sm3Digest :=
  mkDigest (repeat 0 8) (repeat 0 16) 0 (repeat 0 68) (repeat 0 4) 0 0.

(** math/bits RotateLeft32(x, k) for 0 <= k < 32: x<<s | x>>(32-s), s = k & 31. *)
Definition RotateLeft32 (x k : Z) : Z :=
  let s := Z.land k 31 in Z.lor (u32 (Z.shiftl x s)) (Z.shiftr x (32 - s)).

(** The expression (x << n) | (x >> (32 - n)) written out in processBlock. *)
Definition rot (x n : Z) : Z := Z.lor (u32 (Z.shiftl x n)) (Z.shiftr x (32 - n)).

(** sm3.go:247-251 *)
Definition p0 (x : Z) : Z :=
  let r9 := RotateLeft32 x 9 in
  let r17 := RotateLeft32 x 17 in
  Z.lxor (Z.lxor x r9) r17.

(** sm3.go:253-257 *)
Definition p1 (x : Z) : Z :=
  let r15 := RotateLeft32 x 15 in
  let r23 := RotateLeft32 x 23 in
  Z.lxor (Z.lxor x r15) r23.

(** sm3.go:259-273 *)
Definition ff0 (x y z : Z) : Z := Z.lxor (Z.lxor x y) z.
Definition ff1 (x y z : Z) : Z := Z.lor (Z.lor (Z.land x y) (Z.land x z)) (Z.land y z).
Definition gg0 (x y z : Z) : Z := Z.lxor (Z.lxor x y) z.
(** Go's unary ^x on uint32 is x xor 0xFFFFFFFF. *)
Definition gg1 (x y z : Z) : Z := Z.lor (Z.land x y) (Z.land (Z.lxor x 0xFFFFFFFF) z).

Definition at_ (l : list Z) (j : Z) : Z := nth (Z.to_nat j) l 0.
Definition put (l : list Z) (j x : Z) : list Z := upd l (Z.to_nat j) x.

(** sm3.go:152-156: loop body of the expansion. *)
Definition expandStep (j : Z) (wa : list Z) : list Z :=
  let wj3 := at_ wa (j - 3) in
  let r15 := rot wj3 15 in
  let wj13 := at_ wa (j - 13) in
  let r7 := rot wj13 7 in
  put wa j (Z.lxor (Z.lxor (p1 (Z.lxor (Z.lxor (at_ wa (j - 16)) (at_ wa (j - 9))) r15)) r7)
                   (at_ wa (j - 6))).

(** sm3.go:148-157: fill w from inWords and expand it. *)
Definition expandW (inw w0 : list Z) : list Z :=
  let w1 := for_loop 16 0 (fun j wa => put wa j (at_ inw j)) w0 in
  for_loop 52 16 expandStep w1.

(** The local variables A..H of processBlock. *)
Record vars := mkVars { vA : Z; vB : Z; vC : Z; vD : Z; vE : Z; vF : Z; vG : Z; vH : Z }.

(** sm3.go:169-184, loop body for j < 16 *)
Definition round0 (wa : list Z) (j : Z) (s : vars) : vars :=
  let a12 := rot (vA s) 12 in
  let s1 := u32 (u32 (a12 + vE s) + at_ gT j) in
  let SS1 := rot s1 7 in
  let SS2 := Z.lxor SS1 a12 in
  let Wj := at_ wa j in
  let W1j := Z.lxor Wj (at_ wa (j + 4)) in
  let TT1 := u32 (u32 (u32 (ff0 (vA s) (vB s) (vC s) + vD s) + SS2) + W1j) in
  let TT2 := u32 (u32 (u32 (gg0 (vE s) (vF s) (vG s) + vH s) + SS1) + Wj) in
  mkVars TT1 (vA s) (rot (vB s) 9) (vC s) (p0 TT2) (vE s) (rot (vF s) 19) (vG s).

(** sm3.go:188-203, loop body for j >= 16 *)
Definition round1 (wa : list Z) (j : Z) (s : vars) : vars :=
  let a12 := rot (vA s) 12 in
  let s1 := u32 (u32 (a12 + vE s) + at_ gT j) in
  let SS1 := rot s1 7 in
  let SS2 := Z.lxor SS1 a12 in
  let Wj := at_ wa j in
  let W1j := Z.lxor Wj (at_ wa (j + 4)) in
  let TT1 := u32 (u32 (u32 (ff1 (vA s) (vB s) (vC s) + vD s) + SS2) + W1j) in
  let TT2 := u32 (u32 (u32 (gg1 (vE s) (vF s) (vG s) + vH s) + SS1) + Wj) in
  mkVars TT1 (vA s) (rot (vB s) 9) (vC s) (p0 TT2) (vE s) (rot (vF s) 19) (vG s).

(** sm3.go:147-216 *)
Definition processBlock (d : sm3Digest) : sm3Digest :=
  let wa := expandW (inWords d) (w d) in
  let s0 := mkVars (at_ (v d) 0) (at_ (v d) 1) (at_ (v d) 2) (at_ (v d) 3)
                   (at_ (v d) 4) (at_ (v d) 5) (at_ (v d) 6) (at_ (v d) 7) in
  let s1 := for_loop 16 0 (round0 wa) s0 in
  let s2 := for_loop 48 16 (round1 wa) s1 in
  let v' := [Z.lxor (at_ (v d) 0) (vA s2); Z.lxor (at_ (v d) 1) (vB s2);
             Z.lxor (at_ (v d) 2) (vC s2); Z.lxor (at_ (v d) 3) (vD s2);
             Z.lxor (at_ (v d) 4) (vE s2); Z.lxor (at_ (v d) 5) (vF s2);
             Z.lxor (at_ (v d) 6) (vG s2); Z.lxor (at_ (v d) 7) (vH s2)] in
  mkDigest v' (inWords d) 0 wa (xBuf d) (xBufOff d) (byteCount d).

(** sm3.go:218-227. [inOff] is an int32 and [inOff+4] wraps as an int32.
    binary.BigEndian.Uint32 of a 4-byte slice is [be_dec]. *)
Definition processWord (d : sm3Digest) (inp : list Z) (inOff : Z) : go sm3Digest :=
  do s <- go_slice inp inOff (i32 (inOff + 4));
  do iw <- go_set (inWords d) (xOff d) (be_dec s);
  let d' := mkDigest (v d) iw (xOff d + 1) (w d) (xBuf d) (xBufOff d) (byteCount d) in
  if 16 <=? xOff d' then Ret (processBlock d') else Ret d'.

(** sm3.go:229-245 *)
Definition processLength (d : sm3Digest) (bitLength : Z) : go sm3Digest :=
  do d1 <- (if BlockSize - 2 <? xOff d
            then do iw <- go_set (inWords d) (xOff d) 0;
                 Ret (processBlock (mkDigest (v d) iw (xOff d + 1) (w d) (xBuf d) (xBufOff d) (byteCount d)))
            else Ret d);
  do iw1 <- for_loop (Z.to_nat (BlockSize - 2 - xOff d1)) (xOff d1)
             (fun j acc => do a <- acc; go_set a j 0) (Ret (inWords d1));
  let off := Z.max (xOff d1) (BlockSize - 2) in
  do iw2 <- go_set iw1 off (u32 (Z.shiftr bitLength 32));
  do iw3 <- go_set iw2 (off + 1) (u32 bitLength);
  Ret (mkDigest (v d1) iw3 (off + 2) (w d1) (xBuf d1) (xBufOff d1) (byteCount d1)).

(** sm3.go:60-86 *)
Definition Reset (d : sm3Digest) : sm3Digest :=
  let xb := for_loop 4 0 (fun i a => put a i 0) (xBuf d) in
  let iw := for_loop 16 0 (fun i a => put a i 0) (inWords d) in
  let wa := for_loop 68 0 (fun i a => put a i 0) (w d) in
  let va := put (put (put (put (put (put (put (put (v d)
              0 0x7380166F) 1 0x4914B2B9) 2 0x172442D7) 3 0xDA8A0600)
              4 0xA96F30BC) 5 0x163138AA) 6 0xE38DEE4D) 7 0xB0FB0E4E in
  mkDigest va iw 0 wa xb 0 0.

(** sm3.go:35-39 *)
Definition New : sm3Digest := Reset zeroDigest.

(** sm3.go:93-104: complete a partly filled word buffer; returns the unread rest p[i:]. *)
Fixpoint fillBuf (d : sm3Digest) (p : list Z) : go (sm3Digest * list Z) :=
  match p with
  | [] => Ret (d, [])
  | b :: p' =>
      do xb <- go_set (xBuf d) (xBufOff d) b;
      let d' := mkDigest (v d) (inWords d) (xOff d) (w d) xb (xBufOff d + 1) (byteCount d) in
      if xBufOff d' =? 4 then
        do d2 <- processWord d' (xBuf d') 0;
        Ret (mkDigest (v d2) (inWords d2) (xOff d2) (w d2) (xBuf d2) 0 (byteCount d2), p')
      else fillBuf d' p'
  end.

(** sm3.go:107-109: the loop over whole words of p, offsets i, i+4, ..., [n] of them. *)
Fixpoint wordLoop (n : nat) (d : sm3Digest) (p : list Z) (i : Z) : go sm3Digest :=
  match n with
  | O => Ret d
  | S m => do d' <- processWord d p (i32 i); wordLoop m d' p (i + 4)
  end.

(** sm3.go:111-115: keep the remaining bytes. *)
Fixpoint tailLoop (d : sm3Digest) (p : list Z) : go sm3Digest :=
  match p with
  | [] => Ret d
  | b :: p' =>
      do xb <- go_set (xBuf d) (xBufOff d) b;
      tailLoop (mkDigest (v d) (inWords d) (xOff d) (w d) xb (xBufOff d + 1) (byteCount d)) p'
  end.

(** sm3.go:88-121; returns the new state and n (err is always nil). *)
Definition Write (d : sm3Digest) (p : list Z) : go (sm3Digest * Z) :=
  do _ <- go_index p 0;
  let inLen := zlen p in
  do (d1, rest) <- (if xBufOff d =? 0 then Ret (d, p) else fillBuf d p);
  let i := inLen - zlen rest in
  let limit := Z.land (inLen - i) (-4) + i in
  do d2 <- wordLoop (Z.to_nat ((limit - i) / 4)) d1 p i;
  do d3 <- tailLoop d2 (sub p limit inLen);
  Ret (mkDigest (v d3) (inWords d3) (xOff d3) (w d3) (xBuf d3) (xBufOff d3)
                (i64 (byteCount d3 + inLen)), inLen).

(** sm3.go:128-130. The Go loop has no bound; the model allows 4 turns and fails loudly
    afterwards (it is proved that at most 3 are needed). *)
Fixpoint padLoop (fuel : nat) (d : sm3Digest) : go sm3Digest :=
  if xBufOff d =? 0 then Ret d
  else match fuel with
       | O => Panic (PUser "model: pad loop bound exceeded")
       | S f => do (d', _) <- Write d [0]; padLoop f d'
       end.

(** sm3.go:123-135 *)
Definition finish (d : sm3Digest) : go sm3Digest :=
  let bitLength := i64 (Z.shiftl (byteCount d) 3) in
  do (d1, _) <- Write d [128];
  do d2 <- padLoop 4 d1;
  do d3 <- processLength d2 bitLength;
  Ret (processBlock d3).

(** sm3.go:137-145 *)
Definition checkSum (d : sm3Digest) : go (sm3Digest * list Z) :=
  do d' <- finish d;
  Ret (d', List.concat (map (be_enc 4) (v d'))).

(** sm3.go:41-45. [d1 := digest] copies the pointer, so the receiver itself is finalised. *)
Definition SumMethod (d : sm3Digest) (b : list Z) : go (sm3Digest * list Z) :=
  do (d', h) <- checkSum d;
  Ret (d', b ++ h).

(** sm3.go:48-50, 56-58 *)
Definition Size (d : sm3Digest) : Z := DigestLength.
Definition BlockSizeMethod (d : sm3Digest) : Z := BlockSize.

(** sm3.go:275-280 *)
Definition Sum (data : list Z) : go (list Z) :=
  let d := Reset zeroDigest in
  do (d1, _) <- Write d data;
  do (_, h) <- checkSum d1;
  Ret h.
