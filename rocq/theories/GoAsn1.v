(** The part of Go 1.12's encoding/asn1 that sm2/sm2.go and sm2/cert/gmx509.go use. The package is
    outside /repo; this file transcribes its documented algorithms (asn1.go, marshal.go, common.go)
    for the Go types the repository hands to Marshal and Unmarshal.

    Go finds out the type of a field by reflection. Here a field type is a record [uty]; a struct is
    parsed by calling [parseField] for its fields in order (see [parseStruct2] etc. at the users).
    parseField works on a byte string and an offset and returns the new offset; here it works on the
    bytes from the offset on and returns those from the new offset on. Error texts are shortened. *)
From Coq Require Import ZArith List Lia Bool String.
From Verif Require Import GoBase BeMin CbString CbBuilder.
Import ListNotations.
Open Scope Z_scope.

(** Errors propagate. *)
Definition rbind {A B} (x : res A) (f : A -> res B) : res B :=
  match x with OK a => f a | ERR e => ERR e end.
Notation "'try' x <- e ; f" := (rbind e (fun x => f))
  (at level 200, x pattern, e at level 100, f at level 200, right associativity).

(** asn1.TagInteger etc. (common.go). *)
Definition TagBoolean : Z := 1.
Definition TagInteger : Z := 2.
Definition TagBitString : Z := 3.
Definition TagOctetString : Z := 4.
Definition TagOID : Z := 6.
Definition TagUTF8String : Z := 12.
Definition TagSequence : Z := 16.
Definition TagSet : Z := 17.
Definition TagNumericString : Z := 18.
Definition TagPrintableString : Z := 19.
Definition TagT61String : Z := 20.
Definition TagIA5String : Z := 22.
Definition TagUTCTime : Z := 23.
Definition TagGeneralizedTime : Z := 24.

(** tagAndLength (common.go). *)
Record tagAndLength : Set := mkTL { tl_class : Z; tl_tag : Z; tl_length : Z; tl_comp : bool }.

(** * Parsing *)

(** parseBase128Int: at most five groups, and the value fits in 31 bits. *)
Fixpoint base128Loop (l : list Z) (shifted : Z) (ret64 : Z) : res (Z * list Z) :=
  match l with
  | [] => ERR "truncated base 128 integer"
  | b :: r =>
      if shifted =? 5 then ERR "base 128 integer too large"
      else
        let ret64 := Z.lor (Z.shiftl ret64 7) (Z.land b 0x7f) in
        if Z.land b 0x80 =? 0 then
          if 2 ^ 31 - 1 <? ret64 then ERR "base 128 integer too large" else OK (ret64, r)
        else base128Loop r (shifted + 1) ret64
  end.
Definition parseBase128Int (l : list Z) : res (Z * list Z) := base128Loop l 0 0.

(** The loop over the length bytes in parseTagAndLength. *)
Fixpoint lengthLoop (n : nat) (l : list Z) (length : Z) : res (Z * list Z) :=
  match n with
  | O => OK (length, l)
  | S n =>
      match l with
      | [] => ERR "truncated tag or length"
      | b :: r =>
          if 2 ^ 23 <=? length then ERR "length too large"
          else
            let length := Z.lor (Z.shiftl length 8) b in
            if length =? 0 then ERR "superfluous leading zeros in length"
            else lengthLoop n r length
      end
  end.

(** parseTagAndLength. *)
Definition parseTagAndLength (l : list Z) : res (tagAndLength * list Z) :=
  match l with
  | [] => ERR "asn1: internal error in parseTagAndLength"
  | b :: l =>
      let class := Z.shiftr b 6 in
      let comp := Z.land b 0x20 =? 0x20 in
      try (tag, l) <- (if Z.land b 0x1f =? 0x1f then
                         try (tag, l) <- parseBase128Int l;
                         if tag <? 0x1f then ERR "non-minimal tag" else OK (tag, l)
                       else OK (Z.land b 0x1f, l));
      match l with
      | [] => ERR "truncated tag or length"
      | b :: l =>
          if Z.land b 0x80 =? 0 then OK (mkTL class tag (Z.land b 0x7f) comp, l)
          else
            let numBytes := Z.land b 0x7f in
            if numBytes =? 0 then ERR "indefinite length found (not DER)"
            else
              try (length, l) <- lengthLoop (Z.to_nat numBytes) l 0;
              if length <? 0x80 then ERR "non-minimal length"
              else OK (mkTL class tag length comp, l)
      end
  end.

(** The parameters of a field tag that occur in the repository: optional, tag:n, explicit, set. *)
Record fieldParameters : Set := mkFP { fp_optional : bool; fp_tag : option Z; fp_explicit : bool; fp_set : bool }.
Definition noParams : fieldParameters := mkFP false None false false.

(** A Go type as parseField sees it: [u_any] is set for RawValue; [u_tag] is the universal tag,
    which for time.Time depends on the tag that was read; [u_body] parses the contents, given the
    universal tag, the header and the bytes of the whole element. *)
Record uty (A : Type) : Type := mkU {
  u_any : bool;
  u_tag : tagAndLength -> Z;
  u_comp : bool;
  u_body : Z -> tagAndLength -> list Z -> list Z -> res A }.
Arguments mkU {A}.
Arguments u_any {A}.
Arguments u_tag {A}.
Arguments u_comp {A}.
Arguments u_body {A}.

(** parseField. [absent] is what the field holds when an optional element is missing: its default
    value, or the zero value it had. *)
Definition parseField {A} (u : uty A) (absent : A) (p : fieldParameters) (l : list Z) : res (A * list Z) :=
  match l with
  | [] => if fp_optional p then OK (absent, l) else ERR "sequence truncated"
  | _ :: _ =>
      try (t, r) <- parseTagAndLength l;
      try h <- (if fp_explicit p then
                  match r with
                  | [] => ERR "explicit tag has no child"
                  | _ :: _ =>
                      if (tl_class t =? 2) && (match fp_tag p with Some n => tl_tag t =? n | None => false end)
                         && ((tl_length t =? 0) || tl_comp t)
                      then if u_any u then OK (Some (t, r))
                           else if 0 <? tl_length t then try h <- parseTagAndLength r; OK (Some h)
                           else ERR "zero length explicit tag was not an asn1.Flag"
                      else if fp_optional p then OK None
                      else ERR "explicitly tagged member didn't match"
                  end
                else OK (Some (t, r)));
      match h with
      | None => OK (absent, l)
      | Some (t, r) =>
          let utag := if fp_set p then TagSet else u_tag u t in
          let '(anyTag, eclass, etag) :=
            match fp_tag p with
            | Some n => if fp_explicit p then (u_any u, 0, utag) else (false, 2, n)
            | None => (u_any u, 0, utag)
            end in
          if (negb anyTag && (negb (tl_class t =? eclass) || negb (tl_tag t =? etag)))
             || (negb (u_any u) && negb (Bool.eqb (tl_comp t) (u_comp u)))
          then if fp_optional p then OK (absent, l) else ERR "tags don't match"
          else if zlen r <? tl_length t then ERR "data truncated"
          else
            let inner := sub r 0 (tl_length t) in
            let rest := sub r (tl_length t) (zlen r) in
            try v <- u_body u utag t (sub l 0 (zlen l - zlen rest)) inner;
            OK (v, rest)
      end
  end.

(** Unmarshal: parseField with no parameters. *)
Definition unmarshal {A} (u : uty A) (zero : A) (l : list Z) : res (A * list Z) := parseField u zero noParams l.

(** parseSequenceOf: the first loop checks all headers and counts. [fuel] is the number of bytes. *)
Fixpoint countElements {A} (fuel : nat) (u : uty A) (l : list Z) : res nat :=
  match l with
  | [] => OK O
  | _ :: _ =>
      match fuel with
      | O => ERR "model: out of fuel"
      | S fuel =>
          try (t, r) <- parseTagAndLength l;
          if negb (u_any u) && (negb (tl_class t =? 0) || negb (Bool.eqb (tl_comp t) (u_comp u))
                                || negb (tl_tag t =? u_tag u t))
          then ERR "sequence tag mismatch"
          else if zlen r <? tl_length t then ERR "truncated sequence"
          else try n <- countElements fuel u (sub r (tl_length t) (zlen r)); OK (S n)
      end
  end.
Fixpoint parseElements {A} (n : nat) (u : uty A) (zero : A) (l : list Z) : res (list A) :=
  match n with
  | O => OK []
  | S n => try (v, l) <- parseField u zero noParams l; try vs <- parseElements n u zero l; OK (v :: vs)
  end.
Definition parseSequenceOf {A} (u : uty A) (zero : A) (l : list Z) : res (list A) :=
  try n <- countElements (List.length l) u l; parseElements n u zero l.

(** parseBigInt. checkInteger is the function cryptobyte copied as checkASN1Integer. *)
Definition parseBigInt (bs : list Z) : res Z :=
  match bs with
  | [] => ERR "empty integer"
  | b0 :: _ =>
      if negb (checkASN1Integer bs) then ERR "integer not minimally-encoded"
      else if Z.land b0 0x80 =? 0x80
           then OK (- (be_dec (map (fun b => 255 - b) bs) + 1))
           else OK (be_dec bs)
  end.

(** parseInt64. *)
Definition parseInt64 (bs : list Z) : res Z :=
  match bs with
  | [] => ERR "empty integer"
  | _ :: _ =>
      if negb (checkASN1Integer bs) then ERR "integer not minimally-encoded"
      else match asn1Signed bs with None => ERR "integer too large" | Some v => OK v end
  end.

(** parseBool. *)
Definition parseBool (bs : list Z) : res bool :=
  match bs with
  | [b] => if b =? 0 then OK false else if b =? 0xff then OK true else ERR "invalid boolean"
  | _ => ERR "invalid boolean"
  end.

(** asn1.BitString; nil and empty Bytes are not told apart. *)
Record BitString : Set := mkBits { bs_bytes : list Z; bs_len : Z }.
Definition zeroBits : BitString := mkBits [] 0.

(** parseBitString. *)
Definition parseBitString (bs : list Z) : res BitString :=
  match bs with
  | [] => ERR "zero length BIT STRING"
  | p :: body =>
      if (7 <? p) || ((zlen bs =? 1) && (0 <? p)) || negb (Z.land (last bs 0) (2 ^ p - 1) =? 0)
      then ERR "invalid padding bits in BIT STRING"
      else OK (mkBits body ((zlen bs - 1) * 8 - p))
  end.

(** parseObjectIdentifier: the loop after the first group. *)
Fixpoint oidRest (fuel : nat) (l : list Z) : res (list Z) :=
  match l with
  | [] => OK []
  | _ :: _ =>
      match fuel with
      | O => ERR "model: out of fuel"
      | S fuel => try (v, l) <- parseBase128Int l; try vs <- oidRest fuel l; OK (v :: vs)
      end
  end.
Definition parseObjectIdentifier (bs : list Z) : res (list Z) :=
  match bs with
  | [] => ERR "zero length OBJECT IDENTIFIER"
  | _ :: _ =>
      try (v, l) <- parseBase128Int bs;
      try vs <- oidRest (List.length l) l;
      OK (if v <? 80 then v / 40 :: v mod 40 :: vs else 2 :: v - 80 :: vs)
  end.

(** asn1.RawValue. nil and empty byte slices are not told apart. *)
Record RawValue : Set := mkRaw { rv_class : Z; rv_tag : Z; rv_comp : bool; rv_bytes : list Z; rv_full : list Z }.
Definition zeroRaw : RawValue := mkRaw 0 0 false [] [].

(** The Go types: *big.Int, int, bool, []byte, ObjectIdentifier, BitString, RawValue. A []byte is
    nil when it was never set, so its values are [option (list Z)]. *)
Definition uBigInt : uty Z := mkU false (fun _ => TagInteger) false (fun _ _ _ i => parseBigInt i).
Definition uInt : uty Z := mkU false (fun _ => TagInteger) false (fun _ _ _ i => parseInt64 i).
Definition uBool : uty bool := mkU false (fun _ => TagBoolean) false (fun _ _ _ i => parseBool i).
Definition uOctets : uty (option (list Z)) := mkU false (fun _ => TagOctetString) false (fun _ _ _ i => OK (Some i)).
Definition uOID : uty (list Z) := mkU false (fun _ => TagOID) false (fun _ _ _ i => parseObjectIdentifier i).
Definition uBits : uty BitString := mkU false (fun _ => TagBitString) false (fun _ _ _ i => parseBitString i).
Definition uRaw : uty RawValue :=
  mkU true (fun _ => -1) false (fun _ t full i => OK (mkRaw (tl_class t) (tl_tag t) (tl_comp t) i full)).
(** A struct: its fields are parsed one after the other from the contents; what follows the last
    field is ignored. [body] also receives the bytes of the whole element, for RawContent. *)
Definition uStruct {A} (body : list Z -> list Z -> res A) : uty A :=
  mkU false (fun _ => TagSequence) true (fun _ _ full i => body full i).
(** A slice of something other than bytes; its values are never nil once parsed. A slice type whose
    name ends in SET has the tag of SET. *)
Definition uSlice {A} (u : uty A) (zero : A) (isSET : bool) : uty (option (list A)) :=
  mkU false (fun _ => if isSET then TagSet else TagSequence) true
      (fun _ _ _ i => try vs <- parseSequenceOf u zero i; OK (Some vs)).

(** * Marshalling *)

(** appendBase128Int: [base128Len 10] counts the groups as cryptobyte does; encoding/asn1 has the
    same loop. *)
Fixpoint base128Bytes (l : nat) (n : Z) : list Z :=
  match l with
  | O => []
  | S i =>
      let o := Z.land (Z.shiftr n (7 * Z.of_nat i)) 0x7f in
      (if (i =? 0)%nat then o else Z.lor o 0x80) :: base128Bytes i n
  end.
Definition appendBase128Int (n : Z) : list Z :=
  base128Bytes (if n =? 0 then 1%nat else base128Len 10 n) n.

(** lengthLength and appendLength. *)
Fixpoint lengthLength (fuel : nat) (i : Z) : nat :=
  match fuel with
  | O => 1%nat
  | S fuel => if 255 <? i then S (lengthLength fuel (Z.shiftr i 8)) else 1%nat
  end.
Fixpoint lengthBytes (n : nat) (i : Z) : list Z :=
  match n with
  | O => []
  | S n => u8 (Z.shiftr i (8 * Z.of_nat n)) :: lengthBytes n i
  end.

(** appendTagAndLength. *)
Definition appendTagAndLength (t : tagAndLength) : list Z :=
  let b := u8 (Z.shiftl (tl_class t) 6) in
  let b := if tl_comp t then Z.lor b 0x20 else b in
  (if 31 <=? tl_tag t then Z.lor b 0x1f :: appendBase128Int (tl_tag t)
   else [Z.lor b (u8 (tl_tag t))]) ++
  (if 128 <=? tl_length t then
     let n := lengthLength 8 (tl_length t) in
     Z.lor 0x80 (Z.of_nat n) :: lengthBytes n (tl_length t)
   else [tl_length t]).

Definition tagged (class tag : Z) (comp : bool) (body : list Z) : list Z :=
  appendTagAndLength (mkTL class tag (zlen body) comp) ++ body.

(** makeField for everything but RawValue and interface{}: [isDefault] tells whether the value
    equals the default (or, without a default, the zero value of its type). *)
Definition makeField (isDefault : bool) (tag : Z) (comp : bool) (body : res (list Z)) (p : fieldParameters)
  : res (list Z) :=
  if fp_optional p && isDefault then OK []
  else if fp_set p && negb (tag =? TagSequence) then ERR "non sequence tagged as set"
  else
    try body <- body;
    let tag := if fp_set p then TagSet else tag in
    OK match fp_tag p with
       | None => tagged 0 tag comp body
       | Some n => if fp_explicit p then tagged 2 n true (tagged 0 tag comp body) else tagged 2 n comp body
       end.

(** makeField of a RawValue: FullBytes win; parameters other than optional are ignored. *)
Definition makeRaw (v : RawValue) : list Z :=
  match rv_full v with
  | [] => tagged (rv_class v) (rv_tag v) (rv_comp v) (rv_bytes v)
  | full => full
  end.

(** makeBigInt. *)
Definition makeBigInt (n : Z) : list Z :=
  if n <? 0 then
    let bs := map (fun b => Z.lxor b 0xff) (be_min (- n - 1)) in
    match bs with
    | [] => 0xff :: bs
    | b :: _ => if Z.land b 0x80 =? 0 then 0xff :: bs else bs
    end
  else if n =? 0 then [0]
  else
    let bs := be_min n in
    match bs with
    | [] => bs
    | b :: _ => if negb (Z.land b 0x80 =? 0) then 0 :: bs else bs
    end.

(** int64Encoder. *)
Definition int64Bytes (i : Z) : list Z := lengthBytes (signedLen 10 i) i.

(** bitStringEncoder. *)
Definition makeBitString (b : BitString) : list Z := u8 (Z.rem (8 - Z.rem (bs_len b) 8) 8) :: bs_bytes b.

(** makeObjectIdentifier; the arithmetic is on int. *)
Definition makeObjectIdentifier (oid : list Z) : res (list Z) :=
  match oid with
  | a :: b :: r =>
      if (2 <? a) || ((a <? 2) && (40 <=? b)) then ERR "invalid object identifier"
      else OK (appendBase128Int (i64 (i64 (a * 40) + b)) ++ List.concat (map appendBase128Int r))
  | _ => ERR "invalid object identifier"
  end.

(** stripTagAndLength. *)
Definition stripTagAndLength (l : list Z) : list Z :=
  match parseTagAndLength l with ERR _ => l | OK (_, r) => r end.
