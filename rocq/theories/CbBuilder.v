(** Model of cryptobyte/builder.go and of the writing half of cryptobyte/asn1.go.

    A BuilderContinuation is an arbitrary Go function.  What such a function does to builders is a
    finite sequence of calls on the child it receives and on the enclosing builders it can reach
    through its closure, possibly ending in a panic; the model runs such a sequence ([op]), given
    as a tree because the calls contain continuations themselves.  Level 0 is the innermost builder (the
    one passed to the running continuation), level k the builder k steps further out.  Calls on a
    child after its continuation has returned (which the documentation forbids), a BuildError that
    carries a nil error, and continuations that recover panics themselves are in CbMem.v only.

    Memory: all builders of one tree write to the same backing array at increasing offsets, so the
    state keeps one buffer [mem] and for each builder the length of its [result] slice; that slice
    shows the first [f_len] bytes of [mem].  In growing mode append may move the array, but a
    parent is never read or written between a child's first write and the flush, at which it
    takes over the child's slice; the single buffer therefore shows the same bytes (proved in PropsCbMem.v).  In
    fixed mode there is only one array.  [mem] may extend beyond the capacity [b_cap] of a fixed
    builder's slice: those are bytes of the caller's array that it must not touch. *)
From Coq Require Import ZArith List Lia Bool String.
From Verif Require Import GoBase BeMin CbString.
Import ListNotations.
Open Scope Z_scope.

(** builder.go:23-32 ([child] and [inContinuation] are given by the position in the stack). *)
Record frame : Set := mkFrame {
  f_err : option string;
  f_len : Z;                (* len(result) *)
  f_off : Z;                (* offset *)
  f_pll : Z;                (* pendingLenLen *)
  f_asn1 : bool             (* pendingIsASN1 *)
}.

(** The stack of builders, innermost first; every builder but the first has the one before it
    as its pending child. *)
Record bstate : Set := mkB {
  mem : list Z;
  fixed : bool;             (* fixedSize *)
  b_cap : Z;                (* cap(result), used in fixed mode only *)
  frames : list frame
}.

Definition set_err (f : frame) (e : string) : frame :=
  mkFrame (Some e) (f_len f) (f_off f) (f_pll f) (f_asn1 f).
Definition set_len (f : frame) (n : Z) : frame :=
  mkFrame (f_err f) n (f_off f) (f_pll f) (f_asn1 f).

Definition set_frames (st : bstate) (fs : list frame) : bstate :=
  mkB (mem st) (fixed st) (b_cap st) fs.
Definition set_mem (st : bstate) (m : list Z) : bstate :=
  mkB m (fixed st) (b_cap st) (frames st).

(** Replace the frame at level [k]. *)
Definition put_frame (st : bstate) (k : nat) (f : frame) : bstate :=
  set_frames st (upd (frames st) k f).

(** A call either returns or panics; the state at that moment matters for recover. *)
Definition outcome : Set := (bstate * option panic_kind)%type.

(** builder.go:37-41; also the zero value [Builder{}] with the empty buffer. *)
Definition NewBuilder (buffer : list Z) : bstate :=
  mkB buffer false 0 [mkFrame None (zlen buffer) 0 0 false].

(** builder.go:46-51; [m] is the array from the start of the slice on. *)
Definition NewFixedBuilder (m : list Z) (len cap : Z) : bstate :=
  mkB m true cap [mkFrame None len 0 0 false].

(** builder.go:55-60, for the root builder. *)
Definition Bytes (st : bstate) : res (list Z) :=
  match frames st with
  | [f] => match f_err f with
           | Some e => ERR e
           | None => OK (sub (mem st) (f_off f) (f_len f))
           end
  | _ => ERR "model: not at the root"
  end.

(** Writing [bs] at offset [o]: in growing mode the slice ends after them. *)
Definition write (st : bstate) (o : Z) (bs : list Z) : list Z :=
  if fixed st then splice (mem st) o bs else firstn (Z.to_nat o) (mem st) ++ bs.

(** builder.go:276-291 on the builder at level [k]; a builder at a level above 0 has a pending
    child.  The test for overflow of [int] is left out: slices are shorter. *)
Definition add (st : bstate) (k : nat) (bs : list Z) : outcome :=
  match nth_error (frames st) k with
  | None => (st, Some PNil)
  | Some f =>
      match f_err f with
      | Some _ => (st, None)
      | None =>
          if negb (Nat.eqb k 0) then
            (st, Some (PUser "attempted write while child is pending"))
          else if fixed st && (b_cap st <? f_len f + zlen bs) then
            (put_frame st k
               (set_err f "cryptobyte: Builder is exceeding its fixed-size buffer"), None)
          else
            (put_frame (set_mem st (write st (f_len f) bs)) k (set_len f (f_len f + zlen bs)), None)
      end
  end.

(** builder.go:226-246: number of length octets and first length octet for an ASN.1 child,
    and the value of [length] afterwards; [None] if it is too long. *)
Definition asn1LenBytes (length : Z) : option (Z * Z * Z) :=
  if 0xfffffffe <? length then None
  else if 0xffffff <? length then Some (5, 0x84, length)
  else if 0xffff <? length then Some (4, 0x83, length)
  else if 0xff <? length then Some (3, 0x82, length)
  else if 0x7f <? length then Some (2, 0x81, length)
  else Some (1, length, 0).

(** builder.go:200-274 for the innermost builder and its parent (the recursive call on the
    child's own child is the iteration in [flush]).  The [length] reported in error messages is
    left out. *)
Definition flush1 (st : bstate) : outcome :=
  match frames st with
  | c :: b :: rest =>
      match f_err c with
      | Some e => (set_frames st (set_err b e :: rest), None)
      | None =>
          let length := f_len c - f_pll c - f_off c in
          if length <? 0 then (st, Some (PUser "cryptobyte: internal error"))
          else
            (* result: state, the child's len, offset, pendingLenLen and length after 222-262 *)
            let hdr : option (bstate * Z * Z * Z * Z) + panic_kind :=
              if f_asn1 c then
                if negb (f_pll c =? 1) then inr (PUser "cryptobyte: internal error")
                else match asn1LenBytes length with
                     | None => inl None
                     | Some (lenLen, lenByte, length) =>
                         if f_len c <=? f_off c then inr PIndex else
                         let st := set_mem st (splice (mem st) (f_off c) [lenByte]) in
                         let extra := lenLen - 1 in
                         if negb (extra =? 0) then
                           (* child.add(make([]byte, extraBytes)...); the child has no child *)
                           let (st, clen) :=
                             if fixed st && (b_cap st <? f_len c + extra) then (st, f_len c)
                             else (set_mem st (write st (f_len c) (repeat 0 (Z.to_nat extra))),
                                   f_len c + extra) in
                           let childStart := f_off c + f_pll c in
                           if clen <? childStart + extra then inr PSlice else
                           let n := clen - (childStart + extra) in
                           let st := set_mem st (splice (mem st) (childStart + extra)
                                                   (sub (mem st) childStart (childStart + n))) in
                           inl (Some (st, clen, f_off c + 1, extra, length))
                         else inl (Some (st, f_len c, f_off c + 1, extra, length))
                     end
              else inl (Some (st, f_len c, f_off c, f_pll c, length)) in
            match hdr with
            | inr k => (st, Some k)
            | inl None =>
                (set_frames st (set_err b "pending ASN.1 child too long" :: rest), None)
            | inl (Some (st, clen, off, pll, length)) =>
                if (0 <? pll) && (clen <? off + pll) then (st, Some PIndex) else
                let st := set_mem st (splice (mem st) off (be_enc (Z.to_nat pll) length)) in
                if negb (Z.shiftr length (8 * pll) =? 0) then
                  (set_frames st
                     (set_err b "cryptobyte: pending child length exceeds length prefix" :: rest), None)
                else
                  (set_frames st ((if fixed st then b else set_len b clen) :: rest), None)
            end
      end
  | _ => (st, None)
  end.

(** flushChild down to the builder below which [n] builders are stacked. *)
Fixpoint flush (n : nat) (st : bstate) : outcome :=
  match n with
  | O => (st, None)
  | S n => match flush1 st with
           | (st, None) => flush n st
           | x => x
           end
  end.

(** What a continuation (or the code outside of any continuation) does. *)
Inductive op : Set :=
| OAdd (lvl : nat) (bs : list Z)
| OSetErr (lvl : nat) (e : string)                   (* assigns b.err, e.g. builder.go:304-309 *)
| OLP (lvl : nat) (lenLen : Z) (body : list op)      (* AddUintNLengthPrefixed *)
| OASN1 (lvl : nat) (tag : Z) (body : list op)       (* AddASN1 *)
| OPanicBuild (e : string)                           (* panic(BuildError{e}) *)
| OPanic (k : panic_kind).                           (* any other panic *)

(** builder.go:181-194: the state in which the continuation of a length-prefixed call on the
    innermost builder starts.  A failing [add] of the placeholder does not stop it. *)
Definition enter (st : bstate) (lenLen : Z) (isASN1 : bool) : bstate :=
  match frames st with
  | f :: _ =>
      let (st, _) := add st 0 (repeat 0 (Z.to_nat lenLen)) in
      match frames st with
      | f1 :: rest => set_frames st (mkFrame None (f_len f1) (f_len f) lenLen isASN1 :: f1 :: rest)
      | [] => st
      end
  | [] => st
  end.

(** The [err] field of the outermost builder, set by the recover in builder.go:148-169. *)
Definition set_root_err (st : bstate) (e : string) : bstate :=
  match rev (frames st) with
  | r :: fs => set_frames st (rev (set_err r e :: fs))
  | [] => st
  end.

(** builder.go:148-198: [depth] is the number of builders on the stack before the call, so the
    call is the outermost continuation iff it is 1; [after] is the outcome of the continuation. *)
Definition leave (depth : nat) (after : outcome) : outcome :=
  match after with
  | (st, None) => flush (List.length (frames st) - depth) st
  | (st, Some (PBuildError e)) =>
      if Nat.eqb depth 1 then
        let st := set_root_err st e in flush (List.length (frames st) - depth) st
      else (st, Some (PBuildError e))
  | (st, Some k) => (st, Some k)
  end.

Fixpoint exec (o : op) (st : bstate) {struct o} : outcome :=
  let fix execs (l : list op) (st : bstate) {struct l} : outcome :=
    match l with
    | [] => (st, None)
    | o :: r => match exec o st with
                | (st, None) => execs r st
                | x => x
                end
    end in
  (* builder.go:171-198 on the builder at level [lvl] *)
  let addLengthPrefixed (lvl : nat) (lenLen : Z) (isASN1 : bool) (body : list op) (st : bstate) :=
    match nth_error (frames st) lvl with
    | None => (st, Some PNil)
    | Some f =>
        match f_err f with
        | Some _ => (st, None)
        | None =>
            if negb (Nat.eqb lvl 0) then add st lvl (repeat 0 (Z.to_nat lenLen))
            else leave (List.length (frames st)) (execs body (enter st lenLen isASN1))
        end
    end in
  match o with
  | OAdd lvl bs => add st lvl bs
  | OSetErr lvl e =>
      match nth_error (frames st) lvl with
      | None => (st, Some PNil)
      | Some f => (put_frame st lvl (set_err f e), None)
      end
  | OLP lvl lenLen body => addLengthPrefixed lvl lenLen false body st
  | OASN1 lvl tag body =>
      (* asn1.go:211-223 *)
      match nth_error (frames st) lvl with
      | None => (st, Some PNil)
      | Some f =>
          match f_err f with
          | Some _ => (st, None)
          | None =>
              if Z.land tag 0x1f =? 0x1f then
                (put_frame st lvl
                   (set_err f "cryptobyte: high-tag number identifier octects not supported"), None)
              else match add st lvl [tag] with
                   | (st, None) => addLengthPrefixed lvl 1 true body st
                   | x => x
                   end
          end
      end
  | OPanicBuild e => (st, Some (PBuildError e))
  | OPanic k => (st, Some k)
  end.

Fixpoint execs (l : list op) (st : bstate) : outcome :=
  match l with
  | [] => (st, None)
  | o :: r => match exec o st with
              | (st, None) => execs r st
              | x => x
              end
  end.

(** * The plain adders, builder.go:72-95: as calls on the innermost builder *)

Definition AddUint8 (v : Z) : op := OAdd 0 [u8 v].
Definition AddUint16 (v : Z) : op := OAdd 0 [u8 (Z.shiftr v 8); u8 v].
Definition AddUint24 (v : Z) : op := OAdd 0 [u8 (Z.shiftr v 16); u8 (Z.shiftr v 8); u8 v].
Definition AddUint32 (v : Z) : op :=
  OAdd 0 [u8 (Z.shiftr v 24); u8 (Z.shiftr v 16); u8 (Z.shiftr v 8); u8 v].
Definition AddBytes (v : list Z) : op := OAdd 0 v.

(** * asn1.go, writing *)

(** The length computation of asn1.go:33-36 on an int64; ten rounds are enough for 64 bits. *)
Fixpoint signedLen (fuel : nat) (i : Z) : nat :=
  match fuel with
  | O => 1
  | S fuel => if (0x80 <=? i) || (i <? -0x80) then S (signedLen fuel (Z.shiftr i 8)) else 1
  end.
(** asn1.go:48-51 on a uint64. *)
Fixpoint unsignedLen (fuel : nat) (i : Z) : nat :=
  match fuel with
  | O => 1
  | S fuel => if 0x80 <=? i then S (unsignedLen fuel (Z.shiftr i 8)) else 1
  end.

(** The loops of asn1.go:38-41 and 53-56: one AddUint8 per octet, most significant first. *)
Fixpoint addOctets (length : nat) (v : Z) : list op :=
  match length with
  | O => []
  | S m => AddUint8 (Z.land (Z.shiftr v (Z.of_nat m * 8)) 0xff) :: addOctets m v
  end.

(** asn1.go:22-43 *)
Definition addASN1Signed (tag v : Z) : op := OASN1 0 tag (addOctets (signedLen 10 v) v).
Definition AddASN1Int64 (v : Z) : op := addASN1Signed INTEGER v.
Definition AddASN1Enum (v : Z) : op := addASN1Signed ENUM v.
(** asn1.go:46-58 *)
Definition AddASN1Uint64 (v : Z) : op := OASN1 0 INTEGER (addOctets (unsignedLen 10 v) v).

(** asn1.go:61-92; [big.Int.Bytes] is [be_min] of the absolute value. *)
Definition AddASN1BigInt (n : Z) : op :=
  OASN1 0 INTEGER
    (if n <? 0 then
       let bs := map (fun b => Z.lxor b 0xff) (be_min (- n - 1)) in
       match bs with
       | [] => [OPanic PIndex]
       | b0 :: _ => (if Z.land b0 0x80 =? 0 then [OAdd 0 [0xff]] else []) ++ [OAdd 0 bs]
       end
     else if n =? 0 then [OAdd 0 [0]]
     else
       let bs := be_min n in
       match bs with
       | [] => [OPanic PIndex]
       | b0 :: _ => (if negb (Z.land b0 0x80 =? 0) then [OAdd 0 [0]] else []) ++ [OAdd 0 bs]
       end).

(** asn1.go:95-99 *)
Definition AddASN1OctetString (bs : list Z) : op := OASN1 0 OCTET_STRING [AddBytes bs].
(** asn1.go:116-121 *)
Definition AddASN1BitString (data : list Z) : op := OASN1 0 BIT_STRING [AddUint8 0; AddBytes data].

(** asn1.go:124-131 *)
Fixpoint base128Len (fuel : nat) (i : Z) : nat :=
  match fuel with
  | O => 0
  | S fuel => if 0 <? i then S (base128Len fuel (Z.shiftr i 7)) else 0
  end.
(** asn1.go:133-141 *)
Fixpoint addBase128Octets (length : nat) (n : Z) : list op :=
  match length with
  | O => []
  | S i =>
      let o := Z.land (u8 (Z.shiftr n (Z.of_nat i * 7))) 0x7f in
      let o := if Nat.eqb i 0 then o else Z.lor o 0x80 in
      OAdd 0 [o] :: addBase128Octets i n
  end.
Definition addBase128Int (n : Z) : list op :=
  addBase128Octets (if n =? 0 then 1 else base128Len 10 n) n.

(** asn1.go:144-160 *)
Definition isValidOID (oid : list Z) : bool :=
  match oid with
  | a :: b :: _ =>
      if (2 <? a) || ((a <=? 1) && (40 <=? b)) then false
      else forallb (fun v => 0 <=? v) oid
  | _ => false
  end.

(** asn1.go:162-174; the arithmetic is on int64. *)
Definition AddASN1ObjectIdentifier (oid : list Z) : op :=
  OASN1 0 OBJECT_IDENTIFIER
    (match oid with
     | a :: b :: r =>
         if negb (isValidOID oid) then [OSetErr 0 "cryptobyte: invalid OID"]
         else addBase128Int (i64 (i64 (a * 40) + b)) ++ List.concat (map addBase128Int r)
     | _ => [OSetErr 0 "cryptobyte: invalid OID"]
     end).

(** asn1.go:176-188 *)
Definition AddASN1Boolean (v : bool) : op :=
  OASN1 0 BOOLEAN [if v then AddUint8 0xff else AddUint8 0].
Definition AddASN1NULL : op := OAdd 0 [NULL; 0].
