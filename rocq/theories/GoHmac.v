(** Model of crypto/hmac (Go 1.12, src/crypto/hmac/hmac.go) used with this library's hash, hmac.New(sm3.New, key), as callers who
    need HMAC-SM3 do: sm3.New has the type that hmac.New asks for (sm3/sm3.go:35-58). The standard library is not part of /repo; the file is transcribed from its
    published source. *)
From Coq Require Import ZArith List Lia Bool String.
From Verif Require Import GoBase Sm3.
Import ListNotations.
Open Scope Z_scope.

(** type hmac; the field size is not used below. *)
Record hmac := mkHmac { blocksize : Z; opad : list Z; ipad : list Z; outer : sm3Digest; inner : sm3Digest }.

(** copy(dst, src): as many bytes as fit. *)
Definition copyTo (dst src : list Z) : list Z := firstn (List.length dst) src ++ skipn (List.length src) dst.
(** New: a key longer than the hash's BlockSize() is hashed first. *)
Definition HNew (key : list Z) : go hmac :=
  let outer := New in
  let inner := New in
  let blocksize := BlockSizeMethod inner in
  do ipad <- go_make blocksize;
  do opad <- go_make blocksize;
  do (outer, key) <- (if blocksize <? zlen key then do (outer, _) <- Write outer key; SumMethod outer [] else Ret (outer, key));
  let ipad := copyTo ipad key in
  let opad := copyTo opad key in
  let ipad := map (fun b => Z.lxor b 0x36) ipad in
  let opad := map (fun b => Z.lxor b 0x5c) opad in
  do (inner, _) <- Write inner ipad;
  Ret (mkHmac blocksize opad ipad outer inner).
(** Write *)
Definition HWrite (h : hmac) (p : list Z) : go (hmac * Z) :=
  do (i, n) <- Write (inner h) p;
  Ret (mkHmac (blocksize h) (opad h) (ipad h) (outer h) i, n).
(** Sum *)
Definition HSum (h : hmac) (inp : list Z) : go (hmac * list Z) :=
  let origLen := zlen inp in
  do (i, inp) <- SumMethod (inner h) inp;
  let o := Reset (outer h) in
  do (o, _) <- Write o (opad h);
  do tail <- go_slice inp origLen (zlen inp);
  do (o, _) <- Write o tail;
  do head <- go_slice inp 0 origLen;
  do (o, r) <- SumMethod o head;
  Ret (mkHmac (blocksize h) (opad h) (ipad h) o i, r).
(** Reset *)
Definition HReset (h : hmac) : go hmac :=
  do (i, _) <- Write (Reset (inner h)) (ipad h);
  Ret (mkHmac (blocksize h) (opad h) (ipad h) (outer h) i).
