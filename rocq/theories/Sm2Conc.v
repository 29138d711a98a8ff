(** Calls of SM2 that run at the same time: the programs of Sm2Mem.v, each in a goroutine of its own, on one memory.
    A step of a goroutine is one access to memory; between two steps of one, others may take any number of steps. New
    integers and buffers follow whatever is there, so addresses depend on the interleaving. The memory is sequentially
    consistent, which Go promises to programs without data races; PropsSm2Conc.v proves that there is none.
    Every call has the random bytes it gets as an argument: a reader shared by several goroutines deals its bytes out among them in
    some way. A digest belongs to its call (sm3.New() in each). *)
From Coq Require Import ZArith List Lia Bool String.
From Verif Require Import GoBase BeMin FpField GoElliptic Sm3 Sm2 KeyExchange Sm2Mem KexMem.
Import ListNotations.
Open Scope Z_scope.

Inductive access := RdI (p : nat) | WrI (p : nat) | RdB (j : nat) | WrB (j : nat).
(** One access, what is left to do after it, and the memory. Making an integer or a buffer writes it. *)
Definition step {A} (m : prog A) (h : heap) : option (access * prog A * heap) :=
  match m with
  | Done _ => None
  | NewInt k => let p := List.length (ints h) in Some (WrI p, k p, mkHeap (ints h ++ [0]) (bufs h))
  | GetInt p k => Some (RdI p, match nth_error (ints h) p with Some v => k v | None => Done (Panic PNil) end, h)
  | SetInt p v k =>
      if Nat.ltb p (List.length (ints h)) then Some (WrI p, k, mkHeap (upd (ints h) p v) (bufs h)) else Some (WrI p, Done (Panic PNil), h)
  | NewBuf l k => let j := List.length (bufs h) in Some (WrB j, k j, mkHeap (ints h) (bufs h ++ [l]))
  | GetBuf j k => Some (RdB j, k (nth j (bufs h) []), h)
  | PutBuf j off l k => Some (WrB j, k, mkHeap (ints h) (upd (bufs h) j (putAt (nth j (bufs h) []) off l)))
  end.
(** Goroutines running by a schedule: the list says whose turn it is. One that is finished, or does not exist, lets its turn
    pass. Yields all accesses, the memory and what is left of each. *)
Fixpoint interleave {A} (sched : list nat) (h : heap) (ts : list (prog A)) : list (nat * access) * heap * list (prog A) :=
  match sched with
  | [] => ([], h, ts)
  | i :: sched =>
      match nth_error ts i with
      | None => interleave sched h ts
      | Some m =>
          match step m h with
          | None => interleave sched h ts
          | Some (a, m', h') => let '(tr, hf, tf) := interleave sched h' (upd ts i m') in ((i, a) :: tr, hf, tf)
          end
      end
  end.

(** The calls: functions of sm2.go:99-575, the point of the key exchange, keyexchange.go:28-43, and the whole of it, 107-148. *)
Inductive call :=
  | KGenerate (tape : list Z)
  | KPub (priv : privRef)
  | KRawPub (bs : slice)
  | KRawPriv (bs : slice)
  | KEncrypt (pub : pubRef) (inp : slice) (t : Z) (tape : list Z)
  | KDecrypt (priv : privRef) (inp : slice) (t : Z)
  | KSign (priv : privRef) (id : option slice) (inp : slice) (tape : list Z)
  | KVerify (pub : pubRef) (id : option slice) (inp : slice) (r s : nat)
  | KExchange (w : Z) (sp se : privRef) (sep osp oep : pubRef)
  | KAgree (initiator : bool) (keyBits : Z) (tag : option slice) (sp se : privRef) (sid : option slice) (osp oep : pubRef) (oid : option slice)
  | KConfirm (a b : slice).
Inductive answer :=
  | AKeys (r : res (privRef * pubRef)) (tape : list Z)
  | APub (p : pubRef)
  | ARawPub (r : res pubRef)
  | ARawPriv (r : res privRef)
  | ACipher (r : res slice) (tape : list Z)
  | APlain (r : res slice)
  | ASignature (r : res (nat * nat)) (tape : list Z)
  | AVerdict (b : bool)
  | APoint (x y : nat)
  | AExch (r : res exchRef).
Definition execute (g : globals) (c : call) : prog answer :=
  match c with
  | KGenerate tape => mem (r, t) <- GenerateKeyM g tape; retp (AKeys r t)
  | KPub priv => mem p <- CalculatePubKeyM priv; retp (APub p)
  | KRawPub bs => mem r <- RawBytesToPublicKeyM g bs; retp (ARawPub r)
  | KRawPriv bs => mem r <- RawBytesToPrivateKeyM g bs; retp (ARawPriv r)
  | KEncrypt pub inp t tape => mem (r, tl) <- EncryptM pub inp t tape; retp (ACipher r tl)
  | KDecrypt priv inp t => mem r <- DecryptM g priv inp t; retp (APlain r)
  | KSign priv id inp tape => mem (r, tl) <- SignToRSM g priv id inp tape; retp (ASignature r tl)
  | KVerify pub id inp r s => mem b <- VerifyByRSM g pub id inp r s; retp (AVerdict b)
  | KExchange w sp se sep osp oep => mem (x, y) <- calculateUM g w sp se sep osp oep; retp (APoint x y)
  | KAgree i kb tag sp se sid osp oep oid => mem r <- CalculateKeyWithConfirmationM g i kb tag sp se sid osp oep oid; retp (AExch r)
  | KConfirm a b => mem r <- ResponderConfirmM a b; retp (AVerdict r)
  end.
