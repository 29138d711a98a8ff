(** Model of the stream modes of crypto/cipher (Go 1.12, src/crypto/cipher/ctr.go, ofb.go and cfb.go) used with this library's cipher,
    cipher.NewCTR(block, iv) and so on where block is what sm4.NewCipher returns (sm4/sm4.go:77-110): it has the methods that the modes ask for. The
    standard library is not part of /repo; the files are transcribed from its published source. *)
From Coq Require Import ZArith List Lia Bool String.
From Verif Require Import GoBase Sm4.
Import ListNotations.
Open Scope Z_scope.

(** The block size of sm4/sm4.go:88-90 and the constant streamBufferSize; lengths and offsets are natural numbers here. *)
Definition bs : nat := Z.to_nat BlockSize.
Definition streamBufferSize : nat := 512%nat.

(** xorBytes(dst, a, b): as many bytes as the shorter of the two has. *)
Definition xorBytes (a b : list Z) : list Z := map (fun '(x, y) => Z.lxor x y) (combine a b).
(** copy(d[o:], src) *)
Definition copyAt (d : list Z) (o : nat) (src : list Z) : list Z :=
  firstn o d ++ firstn (List.length d - o) src ++ skipn (o + List.length src) d.
(** The cells from [lo] to [hi]. *)
Definition cells (l : list Z) (lo hi : nat) : list Z := firstn (hi - lo) (skipn lo l).

(** b.Encrypt(d[o:], s) for two arrays [s] and [d]: what is in [d] then. *)
Definition encryptTo (c : sm4Cipher) (s d : list Z) (o : nat) : go (list Z) :=
  do h <- Encrypt c (s ++ d) (mkSlice (zlen s + Z.of_nat o) (zlen d - Z.of_nat o)) (mkSlice 0 (zlen s));
  Ret (skipn (List.length s) h).
(** b.Encrypt(s, s) *)
Definition encryptIn (c : sm4Cipher) (s : list Z) : go (list Z) := Encrypt c s (mkSlice 0 (zlen s)) (mkSlice 0 (zlen s)).

(** * CTR and OFB *)

(** type ctr and type ofb: the counter, or the last block of the key stream; the array of the slice out, its length, and outUsed. *)
Record stream := mkStream { s_block : list Z; s_buf : list Z; s_len : nat; s_used : nat }.
(** NewCTR and NewOFB. sm4Cipher has no method NewCTR of its own. *)
Definition newStream (text : string) (iv : list Z) : go stream :=
  if negb (zlen iv =? BlockSize) then Panic (PUser text)
  else Ret (mkStream iv (repeat 0 (if (streamBufferSize <? bs)%nat then bs else streamBufferSize)) 0 0).
Definition NewCTR (iv : list Z) : go stream := newStream "cipher.NewCTR: IV length must equal block size" iv.
Definition NewOFB (iv : list Z) : go stream := newStream "cipher.NewOFB: IV length must equal block size" iv.

(** The loop that increments the counter, on the reversed bytes. *)
Fixpoint incRev (l : list Z) : list Z :=
  match l with
  | [] => []
  | b :: l => let b := u8 (b + 1) in if negb (b =? 0) then b :: l else b :: incRev l
  end.
Definition increment (ctr : list Z) : list Z := rev (incRev (rev ctr)).
(** The loop of ctr.refill. *)
Fixpoint ctrFill (c : sm4Cipher) (n : nat) (ctr buf : list Z) (remain : nat) : go (list Z * list Z * nat) :=
  if (remain + bs <=? List.length buf)%nat then
    match n with
    | O => Panic (PUser "model: out of fuel")
    | S n => do buf <- encryptTo c ctr buf remain; ctrFill c n (increment ctr) buf (remain + bs)
    end
  else Ret (ctr, buf, remain).
Definition ctrRefill (c : sm4Cipher) (x : stream) : go stream :=
  let remain := (s_len x - s_used x)%nat in
  let buf := copyAt (s_buf x) 0 (cells (s_buf x) (s_used x) (s_len x)) in
  do (ctr, buf, remain) <- ctrFill c (List.length buf) (s_block x) buf remain;
  Ret (mkStream ctr buf remain 0).
(** The loop of ofb.refill. *)
Fixpoint ofbFill (c : sm4Cipher) (n : nat) (cipher buf : list Z) (remain : nat) : go (list Z * list Z * nat) :=
  if (remain + bs <? List.length buf)%nat then
    match n with
    | O => Panic (PUser "model: out of fuel")
    | S n => do cipher <- encryptIn c cipher; ofbFill c n cipher (copyAt buf remain cipher) (remain + bs)
    end
  else Ret (cipher, buf, remain).
Definition ofbRefill (c : sm4Cipher) (x : stream) : go stream :=
  let remain := (s_len x - s_used x)%nat in
  if (s_used x <? remain)%nat then Ret x
  else
    let buf := copyAt (s_buf x) 0 (cells (s_buf x) (s_used x) (s_len x)) in
    do (cipher, buf, remain) <- ofbFill c (List.length buf) (s_block x) buf remain;
    Ret (mkStream cipher buf remain 0).
(** The loop of XORKeyStream, which is the same in both: the bytes that are written. *)
Fixpoint streamLoop (refill : stream -> go stream) (n : nat) (x : stream) (src : list Z) : go (stream * list Z) :=
  if 0 <? zlen src then
    match n with
    | O => Panic (PUser "model: out of fuel")
    | S n =>
        do x <- (if (s_len x <=? s_used x + bs)%nat then refill x else Ret x);
        let d := xorBytes src (cells (s_buf x) (s_used x) (s_len x)) in
        do (x, ds) <- streamLoop refill n (mkStream (s_block x) (s_buf x) (s_len x) (s_used x + List.length d)) (skipn (List.length d) src);
        Ret (x, d ++ ds)
    end
  else Ret (x, []).
(** XORKeyStream(dst, src); the result has what is in dst then. dst and src are two arrays, or one and the same slice. *)
Definition XORKeyStream (refill : stream -> go stream) (x : stream) (dst src : list Z) : go (stream * list Z) :=
  if zlen dst <? zlen src then Panic (PUser "crypto/cipher: output smaller than input")
  else do (x, d) <- streamLoop refill (List.length src) x src; Ret (x, d ++ skipn (List.length d) dst).

(** * CFB *)

(** type cfb *)
Record cfb := mkCfb { f_next : list Z; f_out : list Z; f_used : nat; f_decrypt : bool }.
(** newCFB; NewCFBEncrypter and NewCFBDecrypter call it with false and true. *)
Definition newCFB (iv : list Z) (decrypt : bool) : go cfb :=
  if negb (zlen iv =? BlockSize) then Panic (PUser "cipher.newCFB: IV length must equal block size")
  else Ret (mkCfb (copyAt (repeat 0 bs) 0 iv) (repeat 0 bs) bs decrypt).
Fixpoint cfbLoop (c : sm4Cipher) (n : nat) (x : cfb) (dst src : list Z) : go (cfb * list Z) :=
  if 0 <? zlen src then
    match n with
    | O => Panic (PUser "model: out of fuel")
    | S n =>
        do (out, used) <- (if (f_used x =? List.length (f_out x))%nat
                           then do out <- encryptTo c (f_next x) (f_out x) 0; Ret (out, 0%nat) else Ret (f_out x, f_used x));
        let next := if f_decrypt x then copyAt (f_next x) used src else f_next x in
        let d := xorBytes src (cells out used (List.length out)) in
        let rest := skipn (List.length d) dst in
        let next := if negb (f_decrypt x) then copyAt next used (d ++ rest) else next in
        do (x, ds) <- cfbLoop c n (mkCfb next out (used + List.length d) (f_decrypt x)) rest (skipn (List.length d) src);
        Ret (x, d ++ ds)
    end
  else Ret (x, dst).
Definition cfbXORKeyStream (c : sm4Cipher) (x : cfb) (dst src : list Z) : go (cfb * list Z) :=
  if zlen dst <? zlen src then Panic (PUser "crypto/cipher: output smaller than input")
  else cfbLoop c (List.length src) x dst src.
