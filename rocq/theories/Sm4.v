(** Model of /repo/sm4/sm4.go (whole file).
    Memory is one byte array (the heap); a slice argument is a window of it. Slices in different
    allocations are disjoint windows, so aliasing of every kind is covered. *)
From Coq Require Import ZArith List Lia String Bool.
From Verif Require Import GoBase Sm3.
Import ListNotations.
Open Scope Z_scope.

(** sm4.go:11-14 *)
Definition BlockSize : Z := 16.
Definition KeySize : Z := 16.

(** sm4.go:16-49 *)
Definition sBox : list Z := [
  0xd6; 0x90; 0xe9; 0xfe; 0xcc; 0xe1; 0x3d; 0xb7; 0x16; 0xb6; 0x14; 0xc2; 0x28; 0xfb; 0x2c; 0x05;
  0x2b; 0x67; 0x9a; 0x76; 0x2a; 0xbe; 0x04; 0xc3; 0xaa; 0x44; 0x13; 0x26; 0x49; 0x86; 0x06; 0x99;
  0x9c; 0x42; 0x50; 0xf4; 0x91; 0xef; 0x98; 0x7a; 0x33; 0x54; 0x0b; 0x43; 0xed; 0xcf; 0xac; 0x62;
  0xe4; 0xb3; 0x1c; 0xa9; 0xc9; 0x08; 0xe8; 0x95; 0x80; 0xdf; 0x94; 0xfa; 0x75; 0x8f; 0x3f; 0xa6;
  0x47; 0x07; 0xa7; 0xfc; 0xf3; 0x73; 0x17; 0xba; 0x83; 0x59; 0x3c; 0x19; 0xe6; 0x85; 0x4f; 0xa8;
  0x68; 0x6b; 0x81; 0xb2; 0x71; 0x64; 0xda; 0x8b; 0xf8; 0xeb; 0x0f; 0x4b; 0x70; 0x56; 0x9d; 0x35;
  0x1e; 0x24; 0x0e; 0x5e; 0x63; 0x58; 0xd1; 0xa2; 0x25; 0x22; 0x7c; 0x3b; 0x01; 0x21; 0x78; 0x87;
  0xd4; 0x00; 0x46; 0x57; 0x9f; 0xd3; 0x27; 0x52; 0x4c; 0x36; 0x02; 0xe7; 0xa0; 0xc4; 0xc8; 0x9e;
  0xea; 0xbf; 0x8a; 0xd2; 0x40; 0xc7; 0x38; 0xb5; 0xa3; 0xf7; 0xf2; 0xce; 0xf9; 0x61; 0x15; 0xa1;
  0xe0; 0xae; 0x5d; 0xa4; 0x9b; 0x34; 0x1a; 0x55; 0xad; 0x93; 0x32; 0x30; 0xf5; 0x8c; 0xb1; 0xe3;
  0x1d; 0xf6; 0xe2; 0x2e; 0x82; 0x66; 0xca; 0x60; 0xc0; 0x29; 0x23; 0xab; 0x0d; 0x53; 0x4e; 0x6f;
  0xd5; 0xdb; 0x37; 0x45; 0xde; 0xfd; 0x8e; 0x2f; 0x03; 0xff; 0x6a; 0x72; 0x6d; 0x6c; 0x5b; 0x51;
  0x8d; 0x1b; 0xaf; 0x92; 0xbb; 0xdd; 0xbc; 0x7f; 0x11; 0xd9; 0x5c; 0x41; 0x1f; 0x10; 0x5a; 0xd8;
  0x0a; 0xc1; 0x31; 0x88; 0xa5; 0xcd; 0x7b; 0xbd; 0x2d; 0x74; 0xd0; 0x12; 0xb8; 0xe5; 0xb4; 0xb0;
  0x89; 0x69; 0x97; 0x4a; 0x0c; 0x96; 0x77; 0x7e; 0x65; 0xb9; 0xf1; 0x09; 0xc5; 0x6e; 0xc6; 0x84;
  0x18; 0xf0; 0x7d; 0xec; 0x3a; 0xdc; 0x4d; 0x20; 0x79; 0xee; 0x5f; 0x3e; 0xd7; 0xcb; 0x39; 0x48].

(** sm4.go:51-60 *)
Definition cK : list Z := [
  0x00070e15; 0x1c232a31; 0x383f464d; 0x545b6269; 0x70777e85; 0x8c939aa1; 0xa8afb6bd; 0xc4cbd2d9;
  0xe0e7eef5; 0xfc030a11; 0x181f262d; 0x343b4249; 0x50575e65; 0x6c737a81; 0x888f969d; 0xa4abb2b9;
  0xc0c7ced5; 0xdce3eaf1; 0xf8ff060d; 0x141b2229; 0x30373e45; 0x4c535a61; 0x686f767d; 0x848b9299;
  0xa0a7aeb5; 0xbcc3cad1; 0xd8dfe6ed; 0xf4fb0209; 0x10171e25; 0x2c333a41; 0x484f565d; 0x646b7279].

(** sm4.go:62-64 *)
Definition fK : list Z := [0xa3b1bac6; 0x56aa3350; 0x677d9197; 0xb27022dc].

(** A slice: offset and length of a window of the heap. *)
Record slice := mkSlice { off : Z; len : Z }.

(** binary.BigEndian.Uint32 / PutUint32 on four bytes of the heap. *)
Definition getU32 (h : list Z) (o : Z) : Z := be_dec (sub h o (o + 4)).
Definition putU32 (h : list Z) (o x : Z) : list Z :=
  firstn (Z.to_nat o) h ++ be_enc 4 x ++ skipn (Z.to_nat (o + 4)) h.

(** sm4.go:138-147 *)
Definition tau (a : Z) : Z :=
  let aArr := be_enc 4 a in
  let bArr := [at_ sBox (at_ aArr 0); at_ sBox (at_ aArr 1);
               at_ sBox (at_ aArr 2); at_ sBox (at_ aArr 3)] in
  be_dec bArr.

(** sm4.go:149-155 *)
Definition lAp (b : Z) : Z := Z.lxor (Z.lxor b (RotateLeft32 b 13)) (RotateLeft32 b 23).
Definition tAp (z : Z) : Z := lAp (tau z).

(** sm4.go:157-167: encRound and decRound return the new word and the updated rk. *)
Definition encRound (x0 x1 x2 x3 : Z) (rk : list Z) (i : Z) : Z * list Z :=
  let x4 := Z.lxor x0 (tAp (Z.lxor (Z.lxor (Z.lxor x1 x2) x3) (at_ cK i))) in
  (x4, put rk i x4).
Definition decRound (x0 x1 x2 x3 : Z) (rk : list Z) (i : Z) : Z * list Z :=
  let x4 := Z.lxor x0 (tAp (Z.lxor (Z.lxor (Z.lxor x1 x2) x3) (at_ cK i))) in
  (x4, put rk (31 - i) x4).

(** sm4.go:126-134: one turn of either loop; [x] is the ring buffer [5]uint32. *)
Definition keyStep (forEnc : bool) (i : Z) (s : list Z * list Z) : list Z * list Z :=
  let '(x, rk) := s in
  let '(y, rk') := (if forEnc then encRound else decRound)
                     (at_ x (i mod 5)) (at_ x ((i + 1) mod 5)) (at_ x ((i + 2) mod 5))
                     (at_ x ((i + 3) mod 5)) rk i in
  (put x ((i + 4) mod 5) y, rk').

(** sm4.go:112-136. Only called with a 16-byte key. *)
Definition expandKey (key : list Z) (forEnc : bool) : list Z :=
  let mK0 := be_dec (sub key 0 4) in
  let mK1 := be_dec (sub key 4 8) in
  let mK2 := be_dec (sub key 8 12) in
  let mK3 := be_dec (sub key 12 16) in
  let x := [Z.lxor mK0 (at_ fK 0); Z.lxor mK1 (at_ fK 1);
            Z.lxor mK2 (at_ fK 2); Z.lxor mK3 (at_ fK 3); 0] in
  snd (for_loop 32 0 (keyStep forEnc) (x, repeat 0 32)).

(** sm4.go:190-197 *)
Definition l (b : Z) : Z :=
  Z.lxor (Z.lxor (Z.lxor (Z.lxor b (RotateLeft32 b 2)) (RotateLeft32 b 10))
         (RotateLeft32 b 18)) (RotateLeft32 b 24).
Definition t (z : Z) : Z := l (tau z).

(** sm4.go:199-206 *)
Definition r (a : list Z) : list Z :=
  let a := put a 0 (Z.lxor (at_ a 0) (at_ a 3)) in
  let a := put a 3 (Z.lxor (at_ a 0) (at_ a 3)) in
  let a := put a 0 (Z.lxor (at_ a 0) (at_ a 3)) in
  let a := put a 1 (Z.lxor (at_ a 1) (at_ a 2)) in
  let a := put a 2 (Z.lxor (at_ a 1) (at_ a 2)) in
  let a := put a 1 (Z.lxor (at_ a 1) (at_ a 2)) in
  a.

Definition xor4 (a b c d : Z) : Z := Z.lxor (Z.lxor (Z.lxor a b) c) d.

(** sm4.go:208-222 *)
Definition f0 (x : list Z) (rk : Z) : Z := Z.lxor (at_ x 0) (t (xor4 (at_ x 1) (at_ x 2) (at_ x 3) rk)).
Definition f1 (x : list Z) (rk : Z) : Z := Z.lxor (at_ x 1) (t (xor4 (at_ x 2) (at_ x 3) (at_ x 0) rk)).
Definition f2 (x : list Z) (rk : Z) : Z := Z.lxor (at_ x 2) (t (xor4 (at_ x 3) (at_ x 0) (at_ x 1) rk)).
Definition f3 (x : list Z) (rk : Z) : Z := Z.lxor (at_ x 3) (t (xor4 (at_ x 0) (at_ x 1) (at_ x 2) rk)).

(** sm4.go:176-181: loop body with i = 4 * j. *)
Definition fourRounds (rk : list Z) (j : Z) (x : list Z) : list Z :=
  let i := 4 * j in
  let x := put x 0 (f0 x (at_ rk i)) in
  let x := put x 1 (f1 x (at_ rk (i + 1))) in
  let x := put x 2 (f2 x (at_ rk (i + 2))) in
  let x := put x 3 (f3 x (at_ rk (i + 3))) in
  x.

(** sm4.go:169-188; the callers have checked that both slices have 16 bytes. *)
Definition processBlock (h : list Z) (rk : list Z) (inp out : slice) : list Z :=
  let x := [getU32 h (off inp); getU32 h (off inp + 4); getU32 h (off inp + 8); getU32 h (off inp + 12)] in
  let x := for_loop 8 0 (fourRounds rk) x in
  let x := r x in
  let h := putU32 h (off out) (at_ x 0) in
  let h := putU32 h (off out + 4) (at_ x 1) in
  let h := putU32 h (off out + 8) (at_ x 2) in
  let h := putU32 h (off out + 12) (at_ x 3) in
  h.

(** sm4.go:72-75 *)
Record sm4Cipher := mkCipher { enc : list Z; dec : list Z }.

(** sm4.go:66-70: KeySizeError(n); its text is fixed by n. *)
Inductive sm4err : Type := KeySizeError (n : Z) | NotFullBlocks.
Inductive result (A : Type) : Type := Ok (a : A) | Err (e : sm4err).
Arguments Ok {A} _.
Arguments Err {A} _.

(** sm4.go:77-86 *)
Definition NewCipher (key : list Z) : result sm4Cipher :=
  let n := zlen key in
  if negb (n =? KeySize) then Err (KeySizeError n)
  else Ok (mkCipher (expandKey key true) (expandKey key false)).

(** sm4.go:92-100 *)
Definition Encrypt (c : sm4Cipher) (h : list Z) (dst src : slice) : go (list Z) :=
  if len src <? BlockSize then Panic (PUser "sm4: input not full block")
  else if len dst <? BlockSize then Panic (PUser "sm4: output not full block")
  else Ret (processBlock h (enc c) src dst).

(** sm4.go:102-110 *)
Definition Decrypt (c : sm4Cipher) (h : list Z) (dst src : slice) : go (list Z) :=
  if len src <? BlockSize then Panic (PUser "sm4: input not full block")
  else if len dst <? BlockSize then Panic (PUser "sm4: output not full block")
  else Ret (processBlock h (dec c) src dst).

(** The slicing expression s[lo:hi] (with hi <= len s). *)
Definition subslice (s : slice) (lo hi : Z) : go slice :=
  if (0 <=? lo) && (lo <=? hi) && (hi <=? len s) then Ret (mkSlice (off s + lo) (hi - lo))
  else Panic PSlice.

(** sm4.go:237-239 and 256-258: the block loop, [n] turns from [i]. *)
Fixpoint ecbLoop (crypt : list Z -> slice -> slice -> go (list Z)) (n : nat) (i : Z)
    (h : list Z) (dst src : slice) : go (list Z) :=
  match n with
  | O => Ret h
  | S m => do d <- subslice dst i (i + BlockSize);
           do s <- subslice src i (i + BlockSize);
           do h' <- crypt h d s;
           ecbLoop crypt m (i + BlockSize) h' dst src
  end.

(** sm4.go:226-241. The heap is the caller's data followed by the freshly made output. The
    result also carries the caller's data after the call. *)
Definition ECBEncrypt (key plainText : list Z) : go (result (list Z) * list Z) :=
  let n := zlen plainText in
  if negb (n mod BlockSize =? 0) then Ret (Err NotFullBlocks, plainText)
  else match NewCipher key with
  | Err e => Ret (Err e, plainText)
  | Ok c =>
      do h <- ecbLoop (Encrypt c) (Z.to_nat (n / BlockSize)) 0 (plainText ++ repeat 0 (Z.to_nat n))
                (mkSlice n n) (mkSlice 0 n);
      Ret (Ok (sub h n (2 * n)), sub h 0 n)
  end.

(** sm4.go:245-260 *)
Definition ECBDecrypt (key cipherText : list Z) : go (result (list Z) * list Z) :=
  let n := zlen cipherText in
  if negb (n mod BlockSize =? 0) then Ret (Err NotFullBlocks, cipherText)
  else match NewCipher key with
  | Err e => Ret (Err e, cipherText)
  | Ok c =>
      do h <- ecbLoop (Decrypt c) (Z.to_nat (n / BlockSize)) 0 (cipherText ++ repeat 0 (Z.to_nat n))
                (mkSlice n n) (mkSlice 0 n);
      Ret (Ok (sub h n (2 * n)), sub h 0 n)
  end.

(** ** crypto/cipher CBC (standard library, cipher/cbc.go), used through its interface *)

(** subtle.XORBytes / fastXORBytes(dst, a, b) of 16 bytes: dst window := heap a xor bytes b. *)
Definition xor16 (h : list Z) (dst : Z) (a : list Z) (b : list Z) : list Z :=
  firstn (Z.to_nat dst) h ++ map (fun '(x, y) => Z.lxor x y) (combine a b) ++ skipn (Z.to_nat (dst + 16)) h.

(** cbcEncrypter.CryptBlocks: for len(src) > 0: xor src[:16] with iv into dst[:16]; Encrypt in
    place; iv = dst[:16]; advance. *)
Fixpoint cbcEncLoop (c : sm4Cipher) (n : nat) (h iv : list Z) (dst src : Z) : go (list Z) :=
  match n with
  | O => Ret h
  | S m => let h1 := xor16 h dst (sub h src (src + 16)) iv in
           do h2 <- Encrypt c h1 (mkSlice dst 16) (mkSlice dst 16);
           cbcEncLoop c m h2 (sub h2 dst (dst + 16)) (dst + 16) (src + 16)
  end.

(** cbcDecrypter.CryptBlocks: from the last block down; block [k] is decrypted from src to dst and
    xored with block [k-1] of src, block 0 with the iv. *)
Fixpoint cbcDecLoop (c : sm4Cipher) (k : nat) (h iv : list Z) (dst src : Z) : go (list Z) :=
  match k with
  | O => Ret h
  | S m => let o := 16 * Z.of_nat m in
           do h1 <- Decrypt c h (mkSlice (dst + o) 16) (mkSlice (src + o) 16);
           let prev := match m with O => iv | S _ => sub h1 (src + o - 16) (src + o) end in
           let h2 := xor16 h1 (dst + o) (sub h1 (dst + o) (dst + o + 16)) prev in
           cbcDecLoop c m h2 iv dst src
  end.

(** sm4.go:264-278; NewCBCEncrypter panics when the iv is not one block. *)
Definition CBCEncrypt (key iv plainText : list Z) : go (result (list Z) * list Z) :=
  let n := zlen plainText in
  if negb (n mod BlockSize =? 0) then Ret (Err NotFullBlocks, plainText)
  else match NewCipher key with
  | Err e => Ret (Err e, plainText)
  | Ok c =>
      if negb (zlen iv =? BlockSize)
      then Panic (PUser "cipher.NewCBCEncrypter: IV length must equal block size")
      else
        do h <- cbcEncLoop c (Z.to_nat (n / BlockSize)) (plainText ++ repeat 0 (Z.to_nat n)) iv n 0;
        Ret (Ok (sub h n (2 * n)), sub h 0 n)
  end.

(** sm4.go:282-296 *)
Definition CBCDecrypt (key iv cipherText : list Z) : go (result (list Z) * list Z) :=
  let n := zlen cipherText in
  if negb (n mod BlockSize =? 0) then Ret (Err NotFullBlocks, cipherText)
  else match NewCipher key with
  | Err e => Ret (Err e, cipherText)
  | Ok c =>
      if negb (zlen iv =? BlockSize)
      then Panic (PUser "cipher.NewCBCDecrypter: IV length must equal block size")
      else
        do h <- cbcDecLoop c (Z.to_nat (n / BlockSize)) (cipherText ++ repeat 0 (Z.to_nat n)) iv n 0;
        Ret (Ok (sub h n (2 * n)), sub h 0 n)
  end.
