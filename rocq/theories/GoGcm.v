(** Model of GCM in crypto/cipher (Go 1.12, src/crypto/cipher/gcm.go) used with this library's cipher: cipher.NewGCM(block) and its variants where
    block is what sm4.NewCipher returns (sm4/sm4.go:77-110). sm4Cipher has no method NewGCM of its own, so the generic code runs. The standard
    library is not part of /repo; the file is transcribed from its published source. Slices are values here: what Seal and Open append to dst may
    lie in its spare capacity, which is not modelled, nor are the panics for overlapping slices. *)
From Coq Require Import ZArith List Lia Bool String.
From Verif Require Import GoBase Sm4 GoStream.
Import ListNotations.
Open Scope Z_scope.

(** getUint64: the first eight bytes, big-endian. putUint64 is [be_enc 8]. *)
Definition getUint64 (l : list Z) : go Z := if zlen l <? 8 then Panic PIndex else Ret (be_dec (firstn 8 l)).

(** type gcmFieldElement: the bits of low are the coefficients of x^0 to x^63, the highest bit first, those of high the others. *)
Record fe := mkFe { fe_low : Z; fe_high : Z }.
Definition fe0 : fe := mkFe 0 0.
Definition reverseBits (i : Z) : Z :=
  let i := Z.lor (Z.land (Z.shiftl i 2) 0xc) (Z.land (Z.shiftr i 2) 0x3) in
  Z.lor (Z.land (Z.shiftl i 1) 0xa) (Z.land (Z.shiftr i 1) 0x5).
Definition gcmAdd (x y : fe) : fe := mkFe (Z.lxor (fe_low x) (fe_low y)) (Z.lxor (fe_high x) (fe_high y)).
Definition gcmDouble (x : fe) : fe :=
  let msbSet := Z.land (fe_high x) 1 =? 1 in
  let high := Z.lor (Z.shiftr (fe_high x) 1) (u64 (Z.shiftl (fe_low x) 63)) in
  let low := Z.shiftr (fe_low x) 1 in
  mkFe (if msbSet then Z.lxor low 0xe100000000000000 else low) high.
Definition gcmReductionTable : list Z :=
  [0x0000; 0x1c20; 0x3840; 0x2460; 0x7080; 0x6ca0; 0x48c0; 0x54e0; 0xe100; 0xfd20; 0xd940; 0xc560; 0x9180; 0x8da0; 0xa9c0; 0xb5e0].
(** The loop of newGCMWithNonceAndTagSize that fills productTable, an array of 16. *)
Definition productTable (x : fe) : list fe :=
  fold_left (fun t i =>
    let d := gcmDouble (nth (Z.to_nat (reverseBits (i / 2))) t fe0) in
    let t := upd t (Z.to_nat (reverseBits i)) d in
    upd t (Z.to_nat (reverseBits (i + 1))) (gcmAdd (nth (Z.to_nat (reverseBits i)) t fe0) x))
    [2; 4; 6; 8; 10; 12; 14] (upd (repeat fe0 16) (Z.to_nat (reverseBits 1)) x).
(** The body of the inner loop of mul. *)
Definition mulStep (tbl : list fe) (word : Z) (z : fe) : fe :=
  let msw := Z.land (fe_high z) 0xf in
  let high := Z.lor (Z.shiftr (fe_high z) 4) (u64 (Z.shiftl (fe_low z) 60)) in
  let low := Z.lxor (Z.shiftr (fe_low z) 4) (u64 (Z.shiftl (nth (Z.to_nat msw) gcmReductionTable 0) 48)) in
  let t := nth (Z.to_nat (Z.land word 0xf)) tbl fe0 in
  mkFe (Z.lxor low (fe_low t)) (Z.lxor high (fe_high t)).
(** The inner loop: [n] times four bits. *)
Fixpoint mulWord (tbl : list fe) (n : nat) (word : Z) (z : fe) : fe :=
  match n with O => z | S n => mulWord tbl n (Z.shiftr word 4) (mulStep tbl word z) end.
Definition mul (tbl : list fe) (y : fe) : fe := mulWord tbl 16 (fe_low y) (mulWord tbl 16 (fe_high y) fe0).

Fixpoint updateBlocks (tbl : list fe) (n : nat) (y : fe) (blocks : list Z) : go fe :=
  if 0 <? zlen blocks then
    match n with
    | O => Panic (PUser "model: out of fuel")
    | S n => do a <- getUint64 blocks; do b <- getUint64 (skipn 8 blocks);
             updateBlocks tbl n (mul tbl (mkFe (Z.lxor (fe_low y) a) (Z.lxor (fe_high y) b))) (skipn 16 blocks)
    end
  else Ret y.
Definition update (tbl : list fe) (y : fe) (data : list Z) : go fe :=
  let fullBlocks := Z.to_nat (Z.shiftl (Z.shiftr (zlen data) 4) 4) in
  do y <- updateBlocks tbl (List.length data) y (firstn fullBlocks data);
  if negb (List.length data =? fullBlocks)%nat then updateBlocks tbl 1 y (copyAt (repeat 0 16) 0 (skipn fullBlocks data)) else Ret y.

(** gcmInc32: the last four bytes are a counter. *)
Definition gcmInc32 (counter : list Z) : list Z := firstn 12 counter ++ increment (skipn 12 counter).
(** g.cipher.Encrypt(mask[:], counter[:]) *)
Definition encryptMask (c : sm4Cipher) (counter : list Z) : go (list Z) := encryptTo c counter (repeat 0 16) 0.
(** counterCrypt(out, in, counter): the bytes that are written. *)
Fixpoint counterCrypt (c : sm4Cipher) (n : nat) (l counter : list Z) : go (list Z) :=
  if 16 <=? zlen l then
    match n with
    | O => Panic (PUser "model: out of fuel")
    | S n => do mask <- encryptMask c counter;
             do out <- counterCrypt c n (skipn 16 l) (gcmInc32 counter);
             Ret (xorBytes (firstn 16 l) mask ++ out)
    end
  else if 0 <? zlen l then do mask <- encryptMask c counter; Ret (xorBytes l mask)
  else Ret [].
Definition deriveCounter (tbl : list fe) (nonce : list Z) : go (list Z) :=
  if zlen nonce =? 12 then Ret (upd (copyAt (repeat 0 16) 0 nonce) 15 1)
  else
    do y <- update tbl fe0 nonce;
    let y := mul tbl (mkFe (fe_low y) (Z.lxor (fe_high y) (u64 (zlen nonce * 8)))) in
    Ret (be_enc 8 (fe_low y) ++ be_enc 8 (fe_high y)).
Definition auth (tbl : list fe) (ciphertext additionalData tagMask : list Z) : go (list Z) :=
  do y <- update tbl fe0 additionalData;
  do y <- update tbl y ciphertext;
  let y := mul tbl (mkFe (Z.lxor (fe_low y) (u64 (zlen additionalData * 8))) (Z.lxor (fe_high y) (u64 (zlen ciphertext * 8)))) in
  Ret (xorBytes (be_enc 8 (fe_low y) ++ be_enc 8 (fe_high y)) tagMask).

(** type gcm *)
Record gcm := mkGcm { g_cipher : sm4Cipher; g_nonceSize : Z; g_tagSize : Z; g_table : list fe }.
(** newGCMWithNonceAndTagSize; the block size of SM4 is 16. Later versions of Go also refuse the nonce size 0. *)
Definition newGCM (c : sm4Cipher) (nonceSize tagSize : Z) : go (res gcm) :=
  if (tagSize <? 12) || (16 <? tagSize) then Ret (ERR "cipher: incorrect tag size given to GCM")
  else if negb (BlockSize =? 16) then Ret (ERR "cipher: NewGCM requires 128-bit block cipher")
  else
    do key <- encryptIn c (repeat 0 16);
    do a <- getUint64 (firstn 8 key); do b <- getUint64 (skipn 8 key);
    Ret (OK (mkGcm c nonceSize tagSize (productTable (mkFe a b)))).
Definition NewGCM (c : sm4Cipher) := newGCM c 12 16.
Definition NewGCMWithNonceSize (c : sm4Cipher) (size : Z) := newGCM c size 16.
Definition NewGCMWithTagSize (c : sm4Cipher) (tagSize : Z) := newGCM c 12 tagSize.

Definition maxPlain : Z := (2 ^ 32 - 2) * BlockSize.
(** subtle.ConstantTimeCompare *)
Definition ConstantTimeCompare (x y : list Z) : Z :=
  if negb (List.length x =? List.length y)%nat then 0
  else if fold_left (fun v p => Z.lor v (Z.lxor (fst p) (snd p))) (combine x y) 0 =? 0 then 1 else 0.
(** Seal(dst, nonce, plaintext, data) *)
Definition Seal (g : gcm) (dst nonce plaintext data : list Z) : go (list Z) :=
  if negb (zlen nonce =? g_nonceSize g) then Panic (PUser "crypto/cipher: incorrect nonce length given to GCM")
  else if maxPlain <? zlen plaintext then Panic (PUser "crypto/cipher: message too large for GCM")
  else
    do counter <- deriveCounter (g_table g) nonce;
    do tagMask <- encryptMask (g_cipher g) counter;
    do out <- counterCrypt (g_cipher g) (List.length plaintext) plaintext (gcmInc32 counter);
    do tag <- auth (g_table g) out data tagMask;
    Ret (dst ++ out ++ firstn (Z.to_nat (g_tagSize g)) tag).
(** Open(dst, nonce, ciphertext, data) *)
Definition Open (g : gcm) (dst nonce ciphertext data : list Z) : go (res (list Z)) :=
  if negb (zlen nonce =? g_nonceSize g) then Panic (PUser "crypto/cipher: incorrect nonce length given to GCM")
  else if g_tagSize g <? 12 then Panic (PUser "crypto/cipher: incorrect GCM tag size")
  else if zlen ciphertext <? g_tagSize g then Ret (ERR "cipher: message authentication failed")
  else if maxPlain + g_tagSize g <? zlen ciphertext then Ret (ERR "cipher: message authentication failed")
  else
    let n := Z.to_nat (zlen ciphertext - g_tagSize g) in
    let tag := skipn n ciphertext in
    let ciphertext := firstn n ciphertext in
    do counter <- deriveCounter (g_table g) nonce;
    do tagMask <- encryptMask (g_cipher g) counter;
    do expectedTag <- auth (g_table g) ciphertext data tagMask;
    if negb (ConstantTimeCompare (firstn (Z.to_nat (g_tagSize g)) expectedTag) tag =? 1) then Ret (ERR "cipher: message authentication failed")
    else do out <- counterCrypt (g_cipher g) (List.length ciphertext) ciphertext (gcmInc32 counter); Ret (OK (dst ++ out)).
