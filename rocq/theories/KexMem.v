(** keyexchange.go:46-144 with memory, in the manner of Sm2Mem.v: the result's slices, the ids and the confirmation tag
    are windows into addressed buffers. KeyExchange.v has the same functions on values. *)
From Coq Require Import ZArith List Lia Bool String.
From Verif Require Import GoBase BeMin FpField GoElliptic Sm3 Sm2 KeyExchange Sm2Mem.
Import ListNotations.
Open Scope Z_scope.

(** keyexchange.go:13-17; a nil S1 is None. *)
Record exchRef := mkExchRef { eKey : slice; eS1 : option slice; eS2 : slice }.

(** keyexchange.go:59-75. *)
Fixpoint kdfForExch_loopM (fuel : nat) (bufSize : Z) (digest : sm3Digest) (uxBytes uyBytes za zb : list Z)
    (off ct : Z) (buf rv : slice) : prog sm3Digest :=
  if off <? Z.of_nat (s_len rv) then
    match fuel with
    | O => liftp (Panic (PUser "model: out of fuel"))
    | S fuel =>
        let ct := u32 (ct + 1) in
        mem _ <- putM buf (be_enc 4 ct);
        mem cs <- sliceM buf 0 4; mem cb <- readAll cs;
        mem (digest, tmp) <- liftp (hashOf digest [uxBytes; uyBytes; za; zb; cb]);
        mem all <- sliceM buf 0 bufSize;
        mem tmp <- liftp (go_slice tmp 0 bufSize);
        mem _ <- putM all (firstn (s_len all) tmp);
        let copyLen := Z.of_nat (s_len rv) - off in
        mem part <- sliceM rv off (off + copyLen);
        mem src <- sliceM buf 0 copyLen;
        mem _ <- copyM part src;
        kdfForExch_loopM fuel bufSize digest uxBytes uyBytes za zb (off + copyLen) ct buf rv
    end
  else retp digest.
(** keyexchange.go:46-77; yields rv. *)
Definition kdfForExchM (digest : sm3Digest) (ux uy : nat) (za zb : list Z) (keyBits : Z) : prog (sm3Digest * slice) :=
  let bufSize := 4 in
  let bufSize := if bufSize <? BlockSizeMethod digest then BlockSizeMethod digest else bufSize in
  mem buf <- makeM bufSize;
  mem rv <- makeM (Z.quot (addInt keyBits 7) 8);
  mem uxBytes <- BytesM ux; mem uyBytes <- BytesM uy;
  mem digest <- kdfForExch_loopM (s_len rv) bufSize digest uxBytes uyBytes za zb 0 0 buf rv;
  retp (digest, rv).
(** keyexchange.go:79-89 *)
Definition calculateInnerHashM (digest : sm3Digest) (ux : nat) (za zb : list Z) (p1x p1y p2x p2y : nat) : prog (sm3Digest * list Z) :=
  mem u <- BytesM ux; mem a <- BytesM p1x; mem b <- BytesM p1y; mem c <- BytesM p2x; mem d <- BytesM p2y;
  liftp (hashOf digest [u; za; zb; a; b; c; d]).
(** keyexchange.go:91-97 and 99-105: Sum returns a new slice. *)
Definition confirmM (first : Z) (digest : sm3Digest) (uy : nat) (innerHash : list Z) : prog (sm3Digest * slice) :=
  mem u <- BytesM uy;
  mem (digest, t) <- liftp (hashOf digest [[first]; u; innerHash]);
  mem s <- newBuf t; retp (digest, s).
Definition s1M := confirmM 0x02.
Definition s2M := confirmM 0x03.
(** keyexchange.go:110-115: an empty slice for a nil id. *)
Definition orEmpty (id : option slice) : prog slice := match id with Some s => retp s | None => makeM 0 end.
(** keyexchange.go:107-144 *)
Definition CalculateKeyWithConfirmationM (g : globals) (initiator : bool) (keyBits : Z) (confirmationTag : option slice)
    (selfStaticPriv selfEphemeralPriv : privRef) (selfId : option slice)
    (otherStaticPub otherEphemeralPub : pubRef) (otherId : option slice) : prog (res exchRef) :=
  mem selfId <- orEmpty selfId;
  mem otherId <- orEmpty otherId;
  if initiator && match confirmationTag with Some _ => false | None => true end
  then retp (ERR "if initiating, confirmationTag must be set")
  else
    mem selfStaticPub <- CalculatePubKeyM selfStaticPriv;
    mem (digest, za) <- getZM New (rDC selfStaticPriv) (rX selfStaticPub) (rY selfStaticPub) selfId;
    mem (digest, zb) <- getZM digest (rDC selfStaticPriv) (rX otherStaticPub) (rY otherStaticPub) otherId;
    let w := Z.quot curveBitSize 2 - 1 in
    mem selfEphemeralPub <- CalculatePubKeyM selfEphemeralPriv;
    mem (ux, uy) <- calculateUM g w selfStaticPriv selfEphemeralPriv selfEphemeralPub otherStaticPub otherEphemeralPub;
    if initiator then
      mem (digest, rv) <- kdfForExchM digest ux uy za zb keyBits;
      mem (digest, innerHash) <- calculateInnerHashM digest ux za zb (rX selfEphemeralPub) (rY selfEphemeralPub)
                                   (rX otherEphemeralPub) (rY otherEphemeralPub);
      mem (digest, t1) <- s1M digest uy innerHash;
      mem l1 <- readAll t1;
      mem tag <- match confirmationTag with Some s => readAll s | None => retp [] end;
      if list_eq_dec Z.eq_dec l1 tag then
        mem (digest, t2) <- s2M digest uy innerHash;
        retp (OK (mkExchRef rv None t2))
      else retp (ERR "confirmation tag mismatch")
    else
      mem (digest, rv) <- kdfForExchM digest ux uy zb za keyBits;
      mem (digest, innerHash) <- calculateInnerHashM digest ux zb za (rX otherEphemeralPub) (rY otherEphemeralPub)
                                   (rX selfEphemeralPub) (rY selfEphemeralPub);
      mem (digest, t1) <- s1M digest uy innerHash;
      mem (digest, t2) <- s2M digest uy innerHash;
      retp (OK (mkExchRef rv (Some t1) t2)).
(** keyexchange.go:146-148 *)
Definition ResponderConfirmM (responderS2 initiatorS2 : slice) : prog bool :=
  mem a <- readAll responderS2; mem b <- readAll initiatorS2; retp (if list_eq_dec Z.eq_dec a b then true else false).
