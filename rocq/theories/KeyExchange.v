(** Model of sm2/keyexchange.go. *)
From Coq Require Import ZArith List Lia Bool String.
From Verif Require Import GoBase GoElliptic Sm3 Sm2.
Import ListNotations.
Open Scope Z_scope.

(** keyexchange.go:13-17. A nil slice is None. *)
Record ExchangeResult : Set := mkExch { exKey : list Z; exS1 : option (list Z); exS2 : list Z }.

(** keyexchange.go:19-26; util/bigint.go Lsh, Sub, And, SetBit. *)
Definition reduce (x w : Z) : Z :=
  let result := Z.shiftl 1 w in
  let result := result - 1 in
  let result := Z.land x result in
  Z.setbit result w.

(** keyexchange.go:28-44. *)
Definition calculateU (w : Z) (selfStaticPriv selfEphemeralPriv : PrivateKey)
    (selfEphemeralPub otherStaticPub otherEphemeralPub : PublicKey) : go (Z * Z) :=
  let x1 := reduce (X selfEphemeralPub) w in
  let x2 := reduce (X otherEphemeralPub) w in
  let tA := x1 * D selfEphemeralPriv in
  let tA := D selfStaticPriv + tA in
  let k1 := sm2H * tA in
  let k1 := k1 mod curveN in
  let k2 := k1 * x2 in
  let k2 := k2 mod curveN in
  do (p1x, p1y) <- curveScalarMult (X otherStaticPub) (Y otherStaticPub) (BigBytes k1);
  do (p2x, p2y) <- curveScalarMult (X otherEphemeralPub) (Y otherEphemeralPub) (BigBytes k2);
  curveAdd p1x p1y p2x p2y.

(** A sum of two Go ints. *)
Definition addInt (a b : Z) : Z := (a + b + 2 ^ 63) mod 2 ^ 64 - 2 ^ 63.

(** keyexchange.go:59-75, the loop. Only the first four bytes of buf are read before the digest is
    copied over it, and they are the counter written there just before; cap(buf) = bufSize. *)
Fixpoint kdfForExch_loop (fuel : nat) (bufSize : Z) (digest : sm3Digest) (uxBytes uyBytes za zb : list Z)
    (off ct : Z) (rv : list Z) : go (sm3Digest * list Z) :=
  if off <? zlen rv then
    match fuel with
    | O => Panic (PUser "model: out of fuel")
    | S fuel =>
        let ct := u32 (ct + 1) in
        do (digest, tmp) <- hashOf digest [uxBytes; uyBytes; za; zb; be_enc 4 ct];
        do buf <- go_slice tmp 0 bufSize;
        let copyLen := zlen rv - off in
        do _ <- go_slice rv off (off + copyLen);
        do src <- go_slice buf 0 copyLen;
        let rv := sub rv 0 off ++ src ++ sub rv (off + copyLen) (zlen rv) in
        kdfForExch_loop fuel bufSize digest uxBytes uyBytes za zb (off + copyLen) ct rv
    end
  else Ret (digest, rv).

(** keyexchange.go:46-77. The division is Go's, towards zero. *)
Definition kdfForExch (digest : sm3Digest) (ux uy : Z) (za zb : list Z) (keyBits : Z) : go (sm3Digest * list Z) :=
  let bufSize := 4 in
  let bufSize := if bufSize <? BlockSizeMethod digest then BlockSizeMethod digest else bufSize in
  do rv <- go_make (Z.quot (addInt keyBits 7) 8);
  kdfForExch_loop (List.length rv) bufSize digest (BigBytes ux) (BigBytes uy) za zb 0 0 rv.

(** keyexchange.go:79-89. *)
Definition calculateInnerHash (digest : sm3Digest) (ux : Z) (za zb : list Z) (p1x p1y p2x p2y : Z) : go (sm3Digest * list Z) :=
  hashOf digest [BigBytes ux; za; zb; BigBytes p1x; BigBytes p1y; BigBytes p2x; BigBytes p2y].

(** keyexchange.go:91-97. *)
Definition s1 (digest : sm3Digest) (uy : Z) (innerHash : list Z) : go (sm3Digest * list Z) :=
  hashOf digest [[0x02]; BigBytes uy; innerHash].

(** keyexchange.go:99-105. *)
Definition s2 (digest : sm3Digest) (uy : Z) (innerHash : list Z) : go (sm3Digest * list Z) :=
  hashOf digest [[0x03]; BigBytes uy; innerHash].

(** The bytes of a slice that may be nil. *)
Definition contentsOf (s : option (list Z)) : list Z := match s with Some l => l | None => [] end.
Definition isNil (s : option (list Z)) : bool := match s with Some _ => false | None => true end.

(** keyexchange.go:107-144. *)
Definition CalculateKeyWithConfirmation (initiator : bool) (keyBits : Z) (confirmationTag : option (list Z))
    (selfStaticPriv selfEphemeralPriv : PrivateKey) (selfId : option (list Z))
    (otherStaticPub otherEphemeralPub : PublicKey) (otherId : option (list Z)) : go (res ExchangeResult) :=
  let selfId := contentsOf selfId in
  let otherId := contentsOf otherId in
  if initiator && isNil confirmationTag then Ret (ERR "if initiating, confirmationTag must be set")
  else
    do selfStaticPub <- CalculatePubKey selfStaticPriv;
    let digest := New in
    do (digest, za) <- getZ digest (X selfStaticPub) (Y selfStaticPub) selfId;
    do (digest, zb) <- getZ digest (X otherStaticPub) (Y otherStaticPub) otherId;
    let w := Z.quot curveBitSize 2 - 1 in
    do selfEphemeralPub <- CalculatePubKey selfEphemeralPriv;
    do (ux, uy) <- calculateU w selfStaticPriv selfEphemeralPriv selfEphemeralPub otherStaticPub otherEphemeralPub;
    if initiator then
      do (digest, rv) <- kdfForExch digest ux uy za zb keyBits;
      do (digest, innerHash) <- calculateInnerHash digest ux za zb (X selfEphemeralPub) (Y selfEphemeralPub)
                                  (X otherEphemeralPub) (Y otherEphemeralPub);
      do (digest, t1) <- s1 digest uy innerHash;
      if list_eq_dec Z.eq_dec t1 (contentsOf confirmationTag) then
        do (digest, t2) <- s2 digest uy innerHash;
        Ret (OK (mkExch rv None t2))
      else Ret (ERR "confirmation tag mismatch")
    else
      do (digest, rv) <- kdfForExch digest ux uy zb za keyBits;
      do (digest, innerHash) <- calculateInnerHash digest ux zb za (X otherEphemeralPub) (Y otherEphemeralPub)
                                  (X selfEphemeralPub) (Y selfEphemeralPub);
      do (digest, t1) <- s1 digest uy innerHash;
      do (digest, t2) <- s2 digest uy innerHash;
      Ret (OK (mkExch rv (Some t1) t2)).

(** keyexchange.go:146-148. *)
Definition ResponderConfirm (responderS2 initiatorS2 : list Z) : bool :=
  if list_eq_dec Z.eq_dec responderS2 initiatorS2 then true else false.
