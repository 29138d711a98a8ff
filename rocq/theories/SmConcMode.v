(** CBC (sm4.go:262-296 with crypto/cipher/cbc.go) and padding.go as programs on shared memory (ConcMem.v), beside the calls of
    SmConc.v. Sm4.v and Util.v have the same functions on values. The fields of the standard library's cbc object other than
    its two byte slices (the block cipher, the block size, the slice headers) are not memory here. *)
From Coq Require Import ZArith List Lia String Bool.
From Verif Require Import GoBase ConcMem Sm3 Sm4 Util SmConc.
Import ListNotations.
Open Scope Z_scope.

(** crypto/cipher/xor.go: xorBytes(dst, a, b) on one block. The word-by-word versions read a word of both before they write it;
    here all is read first, which differs only for windows that overlap without being equal. *)
Definition xorP (dst a b : cslice) : prog unit :=
  par x <- rdN 16 (s_blk a) (s_off a);
  par y <- rdN 16 (s_blk b) (s_off b);
  wrL (s_blk dst) (s_off dst) (map (fun '(u, v) => Z.lxor u v) (combine x y)).
(** cbc.go, cbcEncrypter.CryptBlocks: the loop. Returns the slice that holds the last block. *)
Fixpoint cbcEncP (c : cipherRef) (n i : nat) (dst src iv : cslice) : prog cslice :=
  match n with
  | O => ret iv
  | S n => par _ <- xorP (windowP dst i) (windowP src i) iv;
           par _ <- EncryptP c (windowP dst i) (windowP dst i);
           cbcEncP c n (i + 16) dst src (windowP dst i)
  end.
(** ... and copy(x.iv, iv) after it. *)
Definition cbcEncRunP (c : cipherRef) (xiv xtmp : block) (dst src : cslice) : prog unit :=
  par last <- cbcEncP c (s_len src / 16) 0 dst src (mkCs xiv 0 16 16);
  par l <- rdN 16 (s_blk last) (s_off last);
  wrL xiv 0 l.
(** cbc.go, cbcDecrypter.CryptBlocks: from the last block to the first. *)
Fixpoint cbcDecP (c : cipherRef) (k : nat) (dst src iv : cslice) : prog unit :=
  match k with
  | O => ret tt
  | S m => par _ <- DecryptP c (windowP dst (16 * m)) (windowP src (16 * m));
           par _ <- xorP (windowP dst (16 * m)) (windowP dst (16 * m)) (match m with O => iv | S m' => windowP src (16 * m') end);
           cbcDecP c m dst src iv
  end.
(** ... after copy(x.tmp, src[start:end]); the exchange of x.iv and x.tmp at the end exchanges headers only. *)
Definition cbcDecRunP (c : cipherRef) (xiv xtmp : block) (dst src : cslice) : prog unit :=
  if (s_len src =? 0)%nat then ret tt
  else par l <- rdN 16 (s_blk src) (s_off src + (s_len src - 16));
       par _ <- wrL xtmp 0 l;
       cbcDecP c (s_len src / 16) dst src (mkCs xiv 0 16 16).
(** sm4.go:262-278 and 280-296; newCBC copies the iv (dup) and makes tmp. *)
Definition cbcCallP (enc : bool) (key iv inp : cslice) : prog (result cslice) :=
  if negb (Z.of_nat (s_len inp) mod BlockSize =? 0) then ret (Err NotFullBlocks)
  else par r <- NewCipherP key;
  match r with
  | Err e => ret (Err e)
  | Ok c =>
      if negb (Z.of_nat (s_len iv) =? BlockSize)
      then panic (PUser (if enc then "cipher.NewCBCEncrypter: IV length must equal block size" else "cipher.NewCBCDecrypter: IV length must equal block size"))
      else par l <- rdN 16 (s_blk iv) (s_off iv);
           Alloc l (fun xiv => Alloc (repeat 0 16) (fun xtmp => Alloc (repeat 0 (s_len inp)) (fun b =>
             let out := mkCs b 0 (s_len inp) (s_len inp) in
             par _ <- (if enc then cbcEncRunP else cbcDecRunP) c xiv xtmp out inp;
             ret (Ok out))))
  end.

(** padding.go:5-9 and 17-21; bytes.Repeat makes a block that append then reads. *)
Definition padCallP (zero : bool) (src : cslice) (blockSize : Z) : prog cslice :=
  par m <- Done (go_rem (Z.of_nat (s_len src)) blockSize);
  let padding := blockSize - m in
  par padtext <- Done (repeatByte (if zero then 0 else u8 padding) padding);
  Alloc padtext (fun t =>
    par l <- rdN (List.length padtext) t 0;
    appendP src l).
(** src[:hi], bounded by the capacity. *)
Definition cutP (src : cslice) (hi : Z) : prog cslice :=
  if (0 <=? hi) && (hi <=? Z.of_nat (s_cap src)) then ret (mkCs (s_blk src) (s_off src) (Z.to_nat hi) (s_cap src)) else panic PSlice.
(** padding.go:11-15 *)
Definition unpadCallP (src : cslice) : prog cslice :=
  if (s_len src =? 0)%nat then panic PIndex
  else par u <- rd (cell src (s_len src - 1)); cutP src (Z.of_nat (s_len src) - u).
(** padding.go:26-28 *)
Definition unzeroCallP (src : cslice) (paddingLen : Z) : prog cslice := cutP src (Z.of_nat (s_len src) - paddingLen).

(** * Goroutines *)
Inductive mcall :=
  | MOld (c : call)
  | MCbc (enc : bool) (key iv inp : cslice)
  | MPad (zero : bool) (src : cslice) (blockSize : Z)
  | MUnpad (src : cslice)
  | MUnzero (src : cslice) (paddingLen : Z).
Definition executeM (c : mcall) : prog answer :=
  match c with
  | MOld c => execute c
  | MCbc enc key iv inp => par r <- cbcCallP enc key iv inp; ret (ABytes r)
  | MPad zero src b => par s <- padCallP zero src b; ret (ABytes (Ok s))
  | MUnpad src => par s <- unpadCallP src; ret (ABytes (Ok s))
  | MUnzero src n => par s <- unzeroCallP src n; ret (ABytes (Ok s))
  end.
Fixpoint goroutineM (cs : list mcall) : prog (list answer) :=
  match cs with [] => ret [] | c :: cs => par a <- executeM c; par l <- goroutineM cs; ret (a :: l) end.
