(** cryptobyte/string.go and the reading half of asn1.go once more, with Strings as variables that hold windows of arrays.
    CbString.v has the same functions on contents. Here a call is given the variables to read from and to write to, which may be the same one,
    and what is stored shares memory with what was read. Integers are returned as values. *)
From Coq Require Import ZArith List Lia Bool String.
From Verif Require Import GoBase CbString CbMem.
Import ListNotations.
Open Scope Z_scope.

(** A []byte or String: nil, or a window. *)
Definition gstr : Type := option slice.
(** The memory, and the variables of type String or []byte, numbered. *)
Record rst := mkR { r_heap : heap; r_vars : list gstr }.
Definition M (A : Type) : Type := rst -> go (A * rst).
Definition retM {A} (a : A) : M A := fun st => Ret (a, st).
Definition liftM {A} (x : go A) : M A := fun st => do a <- x; Ret (a, st).
Definition bindM {A B} (x : M A) (f : A -> M B) : M B := fun st => do (a, st) <- x st; f a st.
Notation "'win' x <- e ; f" := (bindM e (fun x => f)) (at level 200, x pattern, e at level 100, f at level 200, right associativity).
Definition getv (p : nat) : M gstr := fun st => match nth_error (r_vars st) p with Some g => Ret (g, st) | None => Panic PNil end.
Definition setv (p : nat) (g : gstr) : M unit := fun st => Ret (tt, mkR (r_heap st) (upd (r_vars st) p g)).
(** var x String *)
Definition newv : M nat := fun st => Ret (List.length (r_vars st), mkR (r_heap st) (r_vars st ++ [None])).
Definition glen (g : gstr) : Z := match g with Some s => s_len s | None => 0 end.
Definition val (h : heap) (g : gstr) : cstr := option_map (content h) g.
Definition bytesv (g : gstr) : M (list Z) := fun st => Ret (contents (val (r_heap st) g), st).
(** s[:n] and s[n:], for n at most the length. *)
Definition takeS (s : slice) (n : Z) : slice := mkSl (s_arr s) (s_off s) n (s_cap s).
Definition dropS (s : slice) (n : Z) : slice := mkSl (s_arr s) (s_off s + n) (s_len s - n) (s_cap s - n).

(** string.go:26-33 *)
Definition readS (p : nat) (n : Z) : M gstr :=
  win g <- getv p;
  if glen g <? n then retM None
  else if n <? 0 then liftM (Panic PSlice)
  else match g with
       | None => retM None
       | Some s => win _ <- setv p (Some (dropS s n)); retM (Some (takeS s n))
       end.
(** string.go:36-38 *)
Definition SkipS (p : nat) (n : Z) : M bool :=
  win v <- readS p n; retM (match v with Some _ => true | None => false end).
(** string.go:42-82: what the bytes read mean. *)
Definition byteS (p : nat) (n : Z) (f : list Z -> go Z) : M (option Z) :=
  win v <- readS p n;
  match v with
  | None => retM None
  | Some _ => win l <- bytesv v; win a <- liftM (f l); retM (Some a)
  end.
Definition ReadUint8S (p : nat) : M (option Z) := byteS p 1 (fun v => go_index v 0).
Definition ReadUint16S (p : nat) : M (option Z) := byteS p 2 (fun v =>
  do a <- go_index v 0; do b <- go_index v 1; Ret (Z.lor (u16 (Z.shiftl a 8)) b)).
Definition ReadUint24S (p : nat) : M (option Z) := byteS p 3 (fun v =>
  do a <- go_index v 0; do b <- go_index v 1; do c <- go_index v 2;
  Ret (Z.lor (Z.lor (u32 (Z.shiftl a 16)) (u32 (Z.shiftl b 8))) c)).
Definition ReadUint32S (p : nat) : M (option Z) := byteS p 4 (fun v =>
  do a <- go_index v 0; do b <- go_index v 1; do c <- go_index v 2; do d <- go_index v 3;
  Ret (Z.lor (Z.lor (Z.lor (u32 (Z.shiftl a 24)) (u32 (Z.shiftl b 16))) (u32 (Z.shiftl c 8))) d)).
(** string.go:84-96 *)
Definition readUnsignedS (p : nat) (length : Z) : M (option Z) := byteS p length (fun v => Ret (acc32 v)).
(** string.go:144-151 *)
Definition ReadBytesS (p q : nat) (n : Z) : M bool :=
  win v <- readS p n;
  match v with
  | None => retM false
  | Some _ => win _ <- setv q v; retM true
  end.
(** string.go:98-119 *)
Definition readLengthPrefixedS (p q : nat) (lenLen : Z) : M bool :=
  win lenBytes <- readS p lenLen;
  match lenBytes with
  | None => retM false
  | Some _ =>
      win l <- bytesv lenBytes;
      win v <- readS p (acc32 l);
      match v with
      | None => retM false
      | Some _ => win _ <- setv q v; retM true
      end
  end.
(** string.go:155-162; copy takes the bytes before it writes any. *)
Definition CopyBytesS (p : nat) (out : slice) : M bool :=
  win v <- readS p (s_len out);
  match v with
  | None => retM false
  | Some s => fun st =>
      let k := Z.min (s_len out) (s_len s) in
      Ret (k =? s_len out, mkR (store (r_heap st) (s_arr out) (s_off out) (content (r_heap st) (setLen s k))) (r_vars st))
  end.
(** string.go:165-167 *)
Definition EmptyS (p : nat) : M bool := win g <- getv p; retM (glen g =? 0).

(** asn1.go:662-732 *)
Definition readASN1S (p q : nat) (outTag : Z) (skipHeader : bool) : M (bool * Z) :=
  win g <- getv p;
  if glen g <? 2 then retM (false, outTag) else
  win l <- bytesv g;
  win tag <- liftM (go_index l 0);
  win lenByte <- liftM (go_index l 1);
  if Z.land tag 0x1f =? 0x1f then retM (false, outTag) else
  let outTag := tag in
  win hdr <-
    (if Z.land lenByte 0x80 =? 0 then retM (Some (u32 (lenByte + 2), 2))
     else
       let lenLen := Z.land lenByte 0x7f in
       if (lenLen =? 0) || (4 <? lenLen) || (glen g <? 2 + lenLen) then retM None else
       win lenBytes <- newv;
       win _ <- setv lenBytes (option_map (fun s => takeS (dropS s 2) lenLen) g);
       win len32 <- readUnsignedS lenBytes lenLen;
       match len32 with
       | None => retM None
       | Some len32 =>
           if len32 <? 128 then retM None
           else if Z.shiftr len32 ((lenLen - 1) * 8) =? 0 then retM None
           else
             let headerLen := u32 (2 + lenLen) in
             if u32 (headerLen + len32) <? len32 then retM None
             else retM (Some (u32 (headerLen + len32), headerLen))
       end);
  match hdr with
  | None => retM (false, outTag)
  | Some (length, headerLen) =>
      win ok <- ReadBytesS p q length;
      if negb ok then retM (false, outTag)
      else if skipHeader then
        win ok <- SkipS q headerLen;
        if ok then retM (true, outTag) else liftM (Panic (PUser "cryptobyte: internal error"))
      else retM (true, outTag)
  end.
(** asn1.go:502-539 *)
Definition ReadAnyASN1S (p q : nat) (outTag : Z) := readASN1S p q outTag true.
Definition ReadAnyASN1ElementS (p q : nat) (outTag : Z) := readASN1S p q outTag false.
Definition ReadASN1S (p q : nat) (tag : Z) : M bool :=
  win (ok, t) <- ReadAnyASN1S p q 0; retM (if negb ok || negb (t =? tag) then false else true).
Definition ReadASN1ElementS (p q : nat) (tag : Z) : M bool :=
  win (ok, t) <- ReadAnyASN1ElementS p q 0; retM (if negb ok || negb (t =? tag) then false else true).
(** asn1.go:493-495 *)
Definition ReadASN1BytesS (p q : nat) (tag : Z) := ReadASN1S p q tag.
(** asn1.go:543-548 *)
Definition PeekASN1TagS (p : nat) (tag : Z) : M bool :=
  win g <- getv p;
  if glen g =? 0 then retM false
  else win l <- bytesv g; win t <- liftM (go_index l 0); retM (t =? tag).
(** asn1.go:551-554 *)
Definition SkipASN1S (p : nat) (tag : Z) : M bool := win q <- newv; ReadASN1S p q tag.
(** The calls that take an element and return what its bytes mean: asn1.go:227-431. *)
Definition valueS {A} (p : nat) (tag : Z) (f : list Z -> go (option A)) : M (option A) :=
  win q <- newv;
  win ok <- ReadASN1S p q tag;
  if negb ok then retM None else
  win g <- getv q; win l <- bytesv g; liftM (f l).
(** asn1.go:227-243 *)
Definition ReadASN1BooleanS (p : nat) : M (option bool) := valueS p INTEGER (fun bs =>
  if negb (zlen bs =? 1) then Ret None else
  do b <- go_index bs 0;
  Ret (if b =? 0 then Some false else if b =? 0xff then Some true else None)).
(** asn1.go:294-312 *)
Definition readASN1BigIntS (p : nat) : M (option Z) := valueS p INTEGER (fun bs =>
  if negb (checkASN1Integer bs) then Ret None else
  do b0 <- go_index bs 0;
  Ret (Some (if Z.land b0 0x80 =? 0x80 then - (be_dec (map (fun b => 255 - b) bs) + 1) else be_dec bs))).
(** asn1.go:314-343 *)
Definition readASN1Int64S (p : nat) : M (option Z) := valueS p INTEGER (fun bs =>
  Ret (if negb (checkASN1Integer bs) then None else asn1Signed bs)).
Definition readASN1Uint64S (p : nat) : M (option Z) := valueS p INTEGER (fun bs =>
  if negb (checkASN1Integer bs) then Ret None else asn1Unsigned bs).
(** asn1.go:250-275 *)
Definition ReadASN1IntegerS (p : nat) (k : ikind) : M (option Z) :=
  match k with
  | KNoPtr => liftM (Panic (PUser "out is not a pointer"))
  | KInt bits =>
      win i <- readASN1Int64S p;
      retM (match i with None => None | Some i => if overflowInt bits i then None else Some i end)
  | KUint bits =>
      win u <- readASN1Uint64S p;
      retM (match u with None => None | Some u => if overflowUint bits u then None else Some u end)
  | KBig => readASN1BigIntS p
  | KOther => liftM (Panic (PUser "out does not point to an integer type"))
  end.
(** asn1.go:364-375 *)
Definition ReadASN1EnumS (p : nat) : M (option Z) := valueS p ENUM (fun bs =>
  Ret (if negb (checkASN1Integer bs) then None
       else match asn1Signed bs with None => None | Some i => if negb (i64 i =? i) then None else Some i end)).
(** asn1.go:396-431; the loops are those of CbString.v, on the bytes of a local variable. *)
Definition ReadASN1ObjectIdentifierS (p : nat) : M (option (list Z)) := valueS p OBJECT_IDENTIFIER (fun bs =>
  if zlen bs =? 0 then Ret None else
  do components <- go_make (zlen bs + 1);
  match readBase128Int bs with
  | (None, _) => Ret None
  | (Some v, l) =>
      do components <-
        (if v <? 80 then
           do c <- go_set components 0 (Z.quot v 40); go_set c 1 (Z.rem v 40)
         else
           do c <- go_set components 0 2; go_set c 1 (v - 80));
      do r <- oidLoop (List.length l) l 2 components;
      match r with
      | None => Ret None
      | Some (components, i) => do out <- go_slice components 0 i; Ret (Some out)
      end
  end).
(** asn1.go:454-471; [q] is out.Bytes, the result out.BitLength. *)
Definition ReadASN1BitStringS (p q : nat) : M (option Z) :=
  win b <- newv;
  win ok <- ReadASN1S p b BIT_STRING;
  win g <- getv b;
  if negb ok || (glen g =? 0) then retM None else
  win l <- bytesv g;
  win paddingBits <- liftM (go_index l 0);
  let g := option_map (fun s => dropS s 1) g in
  win rest <- bytesv g;
  if 7 <? paddingBits then retM None
  else if (zlen rest =? 0) && negb (paddingBits =? 0) then retM None
  else
    win bad <- liftM (if 0 <? zlen rest then
                 do last <- go_index rest (zlen rest - 1);
                 Ret (negb (Z.land last (Z.shiftl 1 paddingBits - 1) =? 0))
               else Ret false);
    if bad then retM None
    else win _ <- setv q g; retM (Some (zlen rest * 8 - paddingBits)).
(** asn1.go:476-488 *)
Definition ReadASN1BitStringAsBytesS (p q : nat) : M bool :=
  win b <- newv;
  win ok <- ReadASN1S p b BIT_STRING;
  win g <- getv b;
  if negb ok || (glen g =? 0) then retM false else
  win l <- bytesv g;
  win paddingBits <- liftM (go_index l 0);
  if negb (paddingBits =? 0) then retM false
  else win _ <- setv q (option_map (fun s => dropS s 1) g); retM true.
(** asn1.go:560-569; the result is (return value, present). *)
Definition ReadOptionalASN1S (p q : nat) (tag : Z) : M (bool * bool) :=
  win present <- PeekASN1TagS p tag;
  if present then win ok <- ReadASN1S p q tag; retM (ok, present) else retM (true, present).
(** asn1.go:573-579 *)
Definition SkipOptionalASN1S (p : nat) (tag : Z) : M bool :=
  win present <- PeekASN1TagS p tag;
  if negb present then retM true else win q <- newv; ReadASN1S p q tag.
(** asn1.go:586-618 *)
Definition ReadOptionalASN1IntegerS (p : nat) (k : ikind) (tag default : Z) : M (option Z) :=
  match k with
  | KNoPtr => liftM (Panic (PUser "out is not a pointer"))
  | _ =>
      win i <- newv;
      win (ok, present) <- ReadOptionalASN1S p i tag;
      if negb ok then retM None
      else if negb present then
        match k with
        | KOther => liftM (Panic (PUser "invalid integer type"))
        | _ => retM (Some default)
        end
      else
        win v <- ReadASN1IntegerS i k;
        match v with
        | None => retM None
        | Some v => win e <- EmptyS i; retM (if negb e then None else Some v)
        end
  end.
(** asn1.go:624-643; the result is whether the call succeeds, and then present. *)
Definition ReadOptionalASN1OctetStringS (p q : nat) (tag : Z) : M (option bool) :=
  win child <- newv;
  win (ok, present) <- ReadOptionalASN1S p child tag;
  if negb ok then retM None
  else if present then
    win oct <- newv;
    win ok <- ReadASN1S child oct OCTET_STRING;
    win e <- EmptyS child;
    if negb ok || negb e then retM None
    else win g <- getv oct; win _ <- setv q g; retM (Some present)
  else win _ <- setv q None; retM (Some present).
(** asn1.go:647-660 *)
Definition ReadOptionalASN1BooleanS (p : nat) (default : bool) : M (option bool) :=
  win child <- newv;
  win (ok, present) <- ReadOptionalASN1S p child BOOLEAN;
  if negb ok then retM None
  else if negb present then retM (Some default)
  else ReadASN1BooleanS p.
