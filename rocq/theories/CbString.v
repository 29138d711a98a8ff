(** Model of cryptobyte/string.go and of the reading half of cryptobyte/asn1.go.

    A [String] is a slice of bytes that may be the nil slice, which the code can tell from an
    empty non-nil slice ([read] returns nil on failure): [None] is nil, [Some l] is a non-nil
    slice with contents [l].  A method with receiver [s *String] takes the value of [*s] and
    returns the new value.  The slices returned alias the input; nothing in these files writes
    through them, so only contents are modelled.  A result [None] in the first component is the
    return value false with the out-parameter untouched; where the code writes to the
    out-parameter and then still returns false, the model returns the out-parameter explicitly.
    The code is taken on a 64-bit platform ([int] has 64 bits). *)
From Coq Require Import ZArith List Lia Bool String.
From Verif Require Import GoBase.
Import ListNotations.
Open Scope Z_scope.

Definition cstr : Set := option (list Z).

Definition contents (s : cstr) : list Z := match s with Some l => l | None => [] end.

Definition slen (s : cstr) : Z := zlen (contents s).

(** * string.go *)

(** string.go:26-33.  [s[:n]] panics for negative [n]; slicing nil with [:0] gives nil. *)
Definition read (s : cstr) (n : Z) : go (cstr * cstr) :=
  if slen s <? n then Ret (None, s)
  else if n <? 0 then Panic PSlice
  else match s with
       | None => Ret (None, None)
       | Some l => Ret (Some (firstn (Z.to_nat n) l), Some (skipn (Z.to_nat n) l))
       end.

(** string.go:36-38 *)
Definition Skip (s : cstr) (n : Z) : go (bool * cstr) :=
  do (v, s) <- read s n;
  Ret (match v with Some _ => true | None => false end, s).

(** string.go:42-49 *)
Definition ReadUint8 (s : cstr) : go (option Z * cstr) :=
  do (v, s) <- read s 1;
  match v with
  | None => Ret (None, s)
  | Some v => do a <- go_index v 0; Ret (Some a, s)
  end.

(** string.go:53-60 *)
Definition ReadUint16 (s : cstr) : go (option Z * cstr) :=
  do (v, s) <- read s 2;
  match v with
  | None => Ret (None, s)
  | Some v =>
      do a <- go_index v 0; do b <- go_index v 1;
      Ret (Some (Z.lor (u16 (Z.shiftl a 8)) b), s)
  end.

(** string.go:64-71 *)
Definition ReadUint24 (s : cstr) : go (option Z * cstr) :=
  do (v, s) <- read s 3;
  match v with
  | None => Ret (None, s)
  | Some v =>
      do a <- go_index v 0; do b <- go_index v 1; do c <- go_index v 2;
      Ret (Some (Z.lor (Z.lor (u32 (Z.shiftl a 16)) (u32 (Z.shiftl b 8))) c), s)
  end.

(** string.go:75-82 *)
Definition ReadUint32 (s : cstr) : go (option Z * cstr) :=
  do (v, s) <- read s 4;
  match v with
  | None => Ret (None, s)
  | Some v =>
      do a <- go_index v 0; do b <- go_index v 1; do c <- go_index v 2; do d <- go_index v 3;
      Ret (Some (Z.lor (Z.lor (Z.lor (u32 (Z.shiftl a 24)) (u32 (Z.shiftl b 16)))
                              (u32 (Z.shiftl c 8))) d), s)
  end.

(** The accumulation [result = result<<8 | uint32(b)] of string.go:89-93 and 103-107. *)
Definition acc32 (l : list Z) : Z :=
  fold_left (fun r b => Z.lor (u32 (Z.shiftl r 8)) b) l 0.

(** string.go:84-96 *)
Definition readUnsigned (s : cstr) (length : Z) : go (option Z * cstr) :=
  do (v, s) <- read s length;
  match v with
  | None => Ret (None, s)
  | Some v => Ret (Some (acc32 v), s)
  end.

(** string.go:98-119.  [int(length) < 0] cannot hold with 64-bit [int]. *)
Definition readLengthPrefixed (s : cstr) (lenLen : Z) : go (option (list Z) * cstr) :=
  do (lenBytes, s) <- read s lenLen;
  match lenBytes with
  | None => Ret (None, s)
  | Some lenBytes =>
      let length := acc32 lenBytes in
      do (v, s) <- read s length;
      Ret (v, s)
  end.

(** string.go:124-140 *)
Definition ReadUint8LengthPrefixed (s : cstr) := readLengthPrefixed s 1.
Definition ReadUint16LengthPrefixed (s : cstr) := readLengthPrefixed s 2.
Definition ReadUint24LengthPrefixed (s : cstr) := readLengthPrefixed s 3.

(** string.go:144-151 *)
Definition ReadBytes (s : cstr) (n : Z) : go (option (list Z) * cstr) :=
  do (v, s) <- read s n;
  Ret (v, s).

(** string.go:155-162.  [out] is the destination slice; its length decides how much is read.
    Returns the result, the new contents of [out], and the new value of the String. *)
Definition CopyBytes (s : cstr) (out : list Z) : go (bool * list Z * cstr) :=
  let n := zlen out in
  do (v, s) <- read s n;
  match v with
  | None => Ret (false, out, s)
  | Some v =>
      let k := Nat.min (List.length out) (List.length v) in
      Ret (Z.of_nat k =? n, firstn k v ++ skipn k out, s)
  end.

(** string.go:165-167 *)
Definition Empty (s : cstr) : bool := slen s =? 0.

(** * asn1.go, reading *)

(** The tags of cryptobyte/asn1/asn1.go:27-45 that the code uses. *)
Definition BOOLEAN := 1.
Definition INTEGER := 2.
Definition BIT_STRING := 3.
Definition OCTET_STRING := 4.
Definition NULL := 5.
Definition OBJECT_IDENTIFIER := 6.
Definition ENUM := 10.
Definition SEQUENCE := 48.
Definition IA5String := 22.

(** asn1.go:662-732.  [out] and [outTag] are the values of the out-parameters before the call;
    the result is (return value, [*out], [*outTag], [*s]).  If the caller passes the same
    pointer for [s] and [out] (the idiom [s.ReadASN1(&s, tag)]), the final value of the
    variable is the second component, because nothing reads [*s] after [*out] is written. *)
Definition readASN1 (s out : cstr) (outTag : Z) (skipHeader : bool)
  : go (bool * cstr * Z * cstr) :=
  if slen s <? 2 then Ret (false, out, outTag, s) else
  do tag <- go_index (contents s) 0;
  do lenByte <- go_index (contents s) 1;
  if Z.land tag 0x1f =? 0x1f then Ret (false, out, outTag, s) else
  let outTag := tag in
  do hdr <-
    (if Z.land lenByte 0x80 =? 0 then Ret (Some (u32 (lenByte + 2), 2))
     else
       let lenLen := Z.land lenByte 0x7f in
       if (lenLen =? 0) || (4 <? lenLen) || (slen s <? 2 + lenLen) then Ret None else
       do lenBytes <- go_slice (contents s) 2 (2 + lenLen);
       do (len32, _) <- readUnsigned (Some lenBytes) lenLen;
       match len32 with
       | None => Ret None
       | Some len32 =>
           if len32 <? 128 then Ret None
           else if Z.shiftr len32 ((lenLen - 1) * 8) =? 0 then Ret None
           else
             let headerLen := u32 (2 + lenLen) in
             if u32 (headerLen + len32) <? len32 then Ret None
             else Ret (Some (u32 (headerLen + len32), headerLen))
       end);
  match hdr with
  | None => Ret (false, out, outTag, s)
  | Some (length, headerLen) =>
      do (v, s) <- ReadBytes s length;
      match v with
      | None => Ret (false, out, outTag, s)
      | Some v =>
          if skipHeader then
            do (ok, out) <- Skip (Some v) headerLen;
            if ok then Ret (true, out, outTag, s) else Panic (PUser "cryptobyte: internal error")
          else Ret (true, Some v, outTag, s)
      end
  end.

(** asn1.go:528-539 *)
Definition ReadAnyASN1 (s out : cstr) (outTag : Z) := readASN1 s out outTag true.
Definition ReadAnyASN1Element (s out : cstr) (outTag : Z) := readASN1 s out outTag false.

(** asn1.go:502-508.  The result is (return value, [*out], [*s]). *)
Definition ReadASN1 (s out : cstr) (tag : Z) : go (bool * cstr * cstr) :=
  do (ok, out, t, s) <- ReadAnyASN1 s out 0;
  if negb ok || negb (t =? tag) then Ret (false, out, s) else Ret (true, out, s).

(** asn1.go:515-521 *)
Definition ReadASN1Element (s out : cstr) (tag : Z) : go (bool * cstr * cstr) :=
  do (ok, out, t, s) <- ReadAnyASN1Element s out 0;
  if negb ok || negb (t =? tag) then Ret (false, out, s) else Ret (true, out, s).

(** asn1.go:493-495 *)
Definition ReadASN1Bytes (s out : cstr) (tag : Z) := ReadASN1 s out tag.

(** asn1.go:543-548 *)
Definition PeekASN1Tag (s : cstr) (tag : Z) : go bool :=
  if slen s =? 0 then Ret false
  else do t <- go_index (contents s) 0; Ret (t =? tag).

(** asn1.go:551-554 *)
Definition SkipASN1 (s : cstr) (tag : Z) : go (bool * cstr) :=
  do (ok, _, s) <- ReadASN1 s None tag; Ret (ok, s).

(** asn1.go:227-243 *)
Definition ReadASN1Boolean (s : cstr) : go (option bool * cstr) :=
  do (ok, bs, s) <- ReadASN1 s None INTEGER;
  if negb ok || negb (slen bs =? 1) then Ret (None, s) else
  do b <- go_index (contents bs) 0;
  if b =? 0 then Ret (Some false, s)
  else if b =? 0xff then Ret (Some true, s)
  else Ret (None, s).

(** asn1.go:277-290 *)
Definition checkASN1Integer (bs : list Z) : bool :=
  match bs with
  | [] => false
  | [_] => true
  | b0 :: b1 :: _ =>
      negb (((b0 =? 0) && (Z.land b1 0x80 =? 0)) || ((b0 =? 0xff) && (Z.land b1 0x80 =? 0x80)))
  end.

(** asn1.go:294-312; [big.Int.SetBytes] is [be_dec]. *)
Definition readASN1BigInt (s : cstr) : go (option Z * cstr) :=
  do (ok, bs, s) <- ReadASN1 s None INTEGER;
  if negb ok || negb (checkASN1Integer (contents bs)) then Ret (None, s) else
  do b0 <- go_index (contents bs) 0;
  if Z.land b0 0x80 =? 0x80 then
    let neg := map (fun b => 255 - b) (contents bs) in
    Ret (Some (- (be_dec neg + 1)), s)
  else Ret (Some (be_dec (contents bs)), s).

(** asn1.go:322-335; called with [*out = 0]. *)
Definition asn1Signed (n : list Z) : option Z :=
  let length := zlen n in
  if 8 <? length then None
  else
    let acc := fold_left (fun out b => Z.lor (i64 (Z.shiftl out 8)) b) n 0 in
    let k := 64 - length * 8 in
    Some (Z.shiftr (i64 (Z.shiftl acc k)) k).

(** asn1.go:345-360; called with [*out = 0]. *)
Definition asn1Unsigned (n : list Z) : go (option Z) :=
  let length := zlen n in
  do big <- (if 9 <? length then Ret true
             else if length =? 9 then do n0 <- go_index n 0; Ret (negb (n0 =? 0))
             else Ret false);
  if big then Ret None else
  do n0 <- go_index n 0;
  if negb (Z.land n0 0x80 =? 0) then Ret None
  else Ret (Some (fold_left (fun out b => Z.lor (u64 (Z.shiftl out 8)) b) n 0)).

(** asn1.go:314-320 *)
Definition readASN1Int64 (s : cstr) : go (option Z * cstr) :=
  do (ok, bs, s) <- ReadASN1 s None INTEGER;
  if negb ok || negb (checkASN1Integer (contents bs)) then Ret (None, s)
  else Ret (asn1Signed (contents bs), s).

(** asn1.go:337-343 *)
Definition readASN1Uint64 (s : cstr) : go (option Z * cstr) :=
  do (ok, bs, s) <- ReadASN1 s None INTEGER;
  if negb ok || negb (checkASN1Integer (contents bs)) then Ret (None, s)
  else do r <- asn1Unsigned (contents bs); Ret (r, s).

(** The type behind the [interface{}] argument of ReadASN1Integer: a pointer to a signed or
    unsigned integer of 8/16/32/64 bits ([int] and [uint] are the 64-bit ones), a pointer to
    big.Int, a pointer to something else, or no pointer. *)
Inductive ikind : Set :=
| KInt (bits : Z)
| KUint (bits : Z)
| KBig
| KOther
| KNoPtr.

(** reflect's OverflowInt / OverflowUint: the value changes when truncated to [bits]. *)
Definition overflowInt (bits i : Z) : bool :=
  negb (Z.shiftr (i64 (Z.shiftl i (64 - bits))) (64 - bits) =? i).
Definition overflowUint (bits u : Z) : bool :=
  negb (Z.shiftr (u64 (Z.shiftl u (64 - bits))) (64 - bits) =? u).

(** asn1.go:250-275 *)
Definition ReadASN1Integer (s : cstr) (k : ikind) : go (option Z * cstr) :=
  match k with
  | KNoPtr => Panic (PUser "out is not a pointer")
  | KInt bits =>
      do (i, s) <- readASN1Int64 s;
      match i with
      | None => Ret (None, s)
      | Some i => if overflowInt bits i then Ret (None, s) else Ret (Some i, s)
      end
  | KUint bits =>
      do (u, s) <- readASN1Uint64 s;
      match u with
      | None => Ret (None, s)
      | Some u => if overflowUint bits u then Ret (None, s) else Ret (Some u, s)
      end
  | KBig => readASN1BigInt s
  | KOther => Panic (PUser "out does not point to an integer type")
  end.

(** asn1.go:364-375; [int(i)] is the identity on 64-bit platforms. *)
Definition ReadASN1Enum (s : cstr) : go (option Z * cstr) :=
  do (ok, bs, s) <- ReadASN1 s None ENUM;
  if negb ok || negb (checkASN1Integer (contents bs)) then Ret (None, s)
  else match asn1Signed (contents bs) with
       | None => Ret (None, s)
       | Some i => if negb (i64 i =? i) then Ret (None, s) else Ret (Some i, s)
       end.

(** asn1.go:377-392, on the contents of the String (which is never nil here); [i] and [ret] are
    the loop variables. *)
Fixpoint readBase128Loop (l : list Z) (i : Z) (ret : Z) : option Z * list Z :=
  match l with
  | [] => (None, [])
  | b :: r =>
      if i =? 4 then (None, l)
      else
        let ret := Z.lor (i64 (Z.shiftl ret 7)) (Z.land b 0x7f) in
        if Z.land b 0x80 =? 0 then (Some ret, r)
        else readBase128Loop r (i + 1) ret
  end.
Definition readBase128Int (l : list Z) : option Z * list Z := readBase128Loop l 0 0.

(** The loop of asn1.go:423-428; [fuel] bounds the number of iterations, each of which consumes
    a byte. *)
Fixpoint oidLoop (fuel : nat) (l : list Z) (i : Z) (components : list Z)
  : go (option (list Z * Z)) :=
  match l with
  | [] => Ret (Some (components, i))
  | _ =>
      match fuel with
      | O => Panic (PUser "model: out of fuel")
      | S fuel =>
          match readBase128Int l with
          | (None, _) => Ret None
          | (Some v, l) =>
              do components <- go_set components i v;
              oidLoop fuel l (i + 1) components
          end
      end
  end.

(** asn1.go:396-431 *)
Definition ReadASN1ObjectIdentifier (s : cstr) : go (option (list Z) * cstr) :=
  do (ok, bs, s) <- ReadASN1 s None OBJECT_IDENTIFIER;
  if negb ok || (slen bs =? 0) then Ret (None, s) else
  do components <- go_make (slen bs + 1);
  match readBase128Int (contents bs) with
  | (None, _) => Ret (None, s)
  | (Some v, l) =>
      do components <-
        (if v <? 80 then
           do c <- go_set components 0 (Z.quot v 40); go_set c 1 (Z.rem v 40)
         else
           do c <- go_set components 0 2; go_set c 1 (v - 80));
      do r <- oidLoop (List.length l) l 2 components;
      match r with
      | None => Ret (None, s)
      | Some (components, i) => do out <- go_slice components 0 i; Ret (Some out, s)
      end
  end.

(** asn1.go:454-471.  The result is (Bytes, BitLength). *)
Definition ReadASN1BitString (s : cstr) : go (option (list Z * Z) * cstr) :=
  do (ok, bs, s) <- ReadASN1 s None BIT_STRING;
  if negb ok || (slen bs =? 0) then Ret (None, s) else
  do paddingBits <- go_index (contents bs) 0;
  do rest <- go_slice (contents bs) 1 (slen bs);
  if 7 <? paddingBits then Ret (None, s)
  else if (zlen rest =? 0) && negb (paddingBits =? 0) then Ret (None, s)
  else
    do bad <- (if 0 <? zlen rest then
                 do last <- go_index rest (zlen rest - 1);
                 Ret (negb (Z.land last (Z.shiftl 1 paddingBits - 1) =? 0))
               else Ret false);
    if bad then Ret (None, s)
    else Ret (Some (rest, zlen rest * 8 - paddingBits), s).

(** asn1.go:476-488 *)
Definition ReadASN1BitStringAsBytes (s : cstr) : go (option (list Z) * cstr) :=
  do (ok, bs, s) <- ReadASN1 s None BIT_STRING;
  if negb ok || (slen bs =? 0) then Ret (None, s) else
  do paddingBits <- go_index (contents bs) 0;
  if negb (paddingBits =? 0) then Ret (None, s)
  else do rest <- go_slice (contents bs) 1 (slen bs); Ret (Some rest, s).

(** asn1.go:560-569.  The result is (return value, [*out], [*outPresent], [*s]). *)
Definition ReadOptionalASN1 (s out : cstr) (tag : Z) : go (bool * cstr * bool * cstr) :=
  do present <- PeekASN1Tag s tag;
  if present then
    do (ok, out, s) <- ReadASN1 s out tag;
    Ret (ok, out, present, s)
  else Ret (true, out, present, s).

(** asn1.go:573-579 *)
Definition SkipOptionalASN1 (s : cstr) (tag : Z) : go (bool * cstr) :=
  do present <- PeekASN1Tag s tag;
  if negb present then Ret (true, s)
  else do (ok, _, s) <- ReadASN1 s None tag; Ret (ok, s).

(** asn1.go:586-618.  [default] is a value of the type [out] points to (with any other type
    the reflective Set panics, which is not modelled). *)
Definition ReadOptionalASN1Integer (s : cstr) (k : ikind) (tag default : Z)
  : go (option Z * cstr) :=
  match k with
  | KNoPtr => Panic (PUser "out is not a pointer")
  | _ =>
      do (ok, i, present, s) <- ReadOptionalASN1 s None tag;
      if negb ok then Ret (None, s)
      else if negb present then
        match k with
        | KOther => Panic (PUser "invalid integer type")
        | _ => Ret (Some default, s)
        end
      else
        do (v, i) <- ReadASN1Integer i k;
        match v with
        | None => Ret (None, s)
        | Some v => if negb (Empty i) then Ret (None, s) else Ret (Some v, s)
        end
  end.

(** asn1.go:624-643.  On success the result is ([*out], present). *)
Definition ReadOptionalASN1OctetString (s : cstr) (tag : Z) : go (option (cstr * bool) * cstr) :=
  do (ok, child, present, s) <- ReadOptionalASN1 s None tag;
  if negb ok then Ret (None, s)
  else if present then
    do (ok, oct, child) <- ReadASN1 child None OCTET_STRING;
    if negb ok || negb (Empty child) then Ret (None, s)
    else Ret (Some (oct, present), s)
  else Ret (Some (None, present), s).

(** asn1.go:647-660 *)
Definition ReadOptionalASN1Boolean (s : cstr) (default : bool) : go (option bool * cstr) :=
  do (ok, _, present, s) <- ReadOptionalASN1 s None BOOLEAN;
  if negb ok then Ret (None, s)
  else if negb present then Ret (Some default, s)
  else ReadASN1Boolean s.
