(** Model of sm2/cert/gmx509.go, part 1: key usage bits, extended key usages, and the checks on
    strings and IP masks. Strings are lists of bytes. *)
From Coq Require Import ZArith List Lia Bool String.
From Verif Require Import GoBase GoAsn1 GoText GoPkix.
Import ListNotations.
Open Scope Z_scope.

(** gmx509.go:561-566; the shifts to the left are on bytes. *)
Definition reverseBitsInAByte (inp : Z) : Z :=
  let b1 := Z.lor (Z.shiftr inp 4) (u8 (Z.shiftl inp 4)) in
  let b2 := Z.lor (Z.land (Z.shiftr b1 2) 0x33) (Z.land (u8 (Z.shiftl b1 2)) 0xcc) in
  Z.lor (Z.land (Z.shiftr b2 1) 0x55) (Z.land (u8 (Z.shiftl b2 1)) 0xaa).

(** gmx509.go:571-586. [bitLoop] is the inner loop: [inl] is a return out of the function, [inr] the
    value of bitLen after the loop. *)
Fixpoint bitLoop (n : nat) (b bit bitLen : Z) : Z + Z :=
  match n with
  | O => inr bitLen
  | S n => if Z.land (Z.shiftr b bit) 1 =? 1 then inl bitLen else bitLoop n b (bit + 1) (bitLen - 1)
  end.
Fixpoint bitLengthLoop (rev_bs : list Z) (bitLen : Z) : Z :=
  match rev_bs with
  | [] => 0
  | b :: r => match bitLoop 8 b 0 bitLen with inl n => n | inr n => bitLengthLoop r n end
  end.
Definition asn1BitLength (bitString : list Z) : Z := bitLengthLoop (rev bitString) (zlen bitString * 8).

(** x509.ExtKeyUsageAny = 0, ..., x509.ExtKeyUsageMicrosoftKernelCodeSigning = 13, with their OIDs:
    gmx509.go:600-636. *)
Definition extKeyUsageOIDs : list (Z * list Z) :=
  [ (0, [2; 5; 29; 37; 0]);
    (1, [1; 3; 6; 1; 5; 5; 7; 3; 1]);
    (2, [1; 3; 6; 1; 5; 5; 7; 3; 2]);
    (3, [1; 3; 6; 1; 5; 5; 7; 3; 3]);
    (4, [1; 3; 6; 1; 5; 5; 7; 3; 4]);
    (5, [1; 3; 6; 1; 5; 5; 7; 3; 5]);
    (6, [1; 3; 6; 1; 5; 5; 7; 3; 6]);
    (7, [1; 3; 6; 1; 5; 5; 7; 3; 7]);
    (8, [1; 3; 6; 1; 5; 5; 7; 3; 8]);
    (9, [1; 3; 6; 1; 5; 5; 7; 3; 9]);
    (10, [1; 3; 6; 1; 4; 1; 311; 10; 3; 3]);
    (11, [2; 16; 840; 1; 113730; 4; 1]);
    (12, [1; 3; 6; 1; 4; 1; 311; 2; 1; 22]);
    (13, [1; 3; 6; 1; 4; 1; 311; 61; 1; 1]) ].
(** gmx509.go:638-645. *)
Definition oidFromExtKeyUsage (eku : Z) : option (list Z) :=
  match find (fun p => eku =? fst p) extKeyUsageOIDs with Some p => Some (snd p) | None => None end.
(** gmx509.go:1633-1640. *)
Definition extKeyUsageFromOID (oid : list Z) : option Z :=
  match find (fun p => oidEqual oid (snd p)) extKeyUsageOIDs with Some p => Some (fst p) | None => None end.

(** gmx509.go:681-689. *)
Definition isIA5String (s : list Z) : bool := forallb (fun r => negb (0x80 <=? r)) (runes s).

(** strings.LastIndexByte. *)
Fixpoint lastIndexByte (s : list Z) (c : Z) : Z :=
  match s with
  | [] => -1
  | b :: r => let i := lastIndexByte r c in
              if i =? -1 then (if b =? c then 0 else -1) else i + 1
  end.
(** gmx509.go:462-472. *)
Fixpoint labelLoop (fuel : nat) (domain : list Z) (reverseLabels : list (list Z)) : go (list (list Z)) :=
  match domain with
  | [] => Ret reverseLabels
  | _ :: _ =>
      match fuel with
      | O => Panic (PUser "model: out of fuel")
      | S fuel =>
          let i := lastIndexByte domain 46 in
          if i =? -1 then labelLoop fuel [] (reverseLabels ++ [domain])
          else
            do label <- go_slice domain (i + 1) (zlen domain);
            do domain <- go_slice domain 0 i;
            labelLoop fuel domain (reverseLabels ++ [label])
      end
  end.
(** gmx509.go:462-493; [None] is (nil, false). *)
Definition domainToReverseLabels (domain : list Z) : go (option (list (list Z))) :=
  do reverseLabels <- labelLoop (S (List.length domain)) domain [];
  if (match reverseLabels with l0 :: _ => zlen l0 =? 0 | [] => false end) then Ret None
  else if forallb (fun label => negb (zlen label =? 0) && forallb (fun c => negb ((c <? 33) || (126 <? c))) (runes label))
                  reverseLabels
       then Ret (Some reverseLabels) else Ret None.

(** gmx509.go:1460-1482. *)
Fixpoint maskLoop (seenZero : bool) (mask : list Z) : bool :=
  match mask with
  | [] => true
  | b :: r =>
      if seenZero then if negb (b =? 0) then false else maskLoop seenZero r
      else if existsb (fun x => b =? x) [0x00; 0x80; 0xc0; 0xe0; 0xf0; 0xf8; 0xfc; 0xfe] then maskLoop true r
      else if b =? 0xff then maskLoop seenZero r
      else false
  end.
Definition isValidIPMask (mask : list Z) : bool := maskLoop false mask.

(** gmx509.go:1533-1541 and 1543-1556: what may follow a backslash in a quoted string, and what a
    quoted string may contain unescaped. *)
Definition quotedPairOk (c : Z) : bool :=
  (c =? 11) || (c =? 12) || ((1 <=? c) && (c <=? 9)) || ((14 <=? c) && (c <=? 127)).
Definition qtext (c : Z) : bool :=
  (c =? 11) || (c =? 12) || (c =? 32) || (c =? 33) || (c =? 127) || ((1 <=? c) && (c <=? 8))
  || ((14 <=? c) && (c <=? 31)) || ((35 <=? c) && (c <=? 91)) || ((93 <=? c) && (c <=? 126)).
(** gmx509.go:1584-1591. *)
Definition atext (c : Z) : bool :=
  ((48 <=? c) && (c <=? 57)) || ((97 <=? c) && (c <=? 122)) || ((65 <=? c) && (c <=? 90))
  || existsb (fun x => c =? x) [33; 35; 36; 37; 38; 39; 42; 43; 45; 47; 61; 63; 94; 95; 96; 123; 124; 125; 126; 46].

(** The loop over a quoted local part, gmx509.go:1516-1563, after the opening quote: the local part
    and what follows the closing quote. *)
Fixpoint quotedLoop (inp acc : list Z) : option (list Z * list Z) :=
  match inp with
  | [] => None
  | c :: r =>
      if c =? 34 then Some (acc, r)
      else if c =? 92 then
        match r with
        | [] => None
        | d :: r => if quotedPairOk d then quotedLoop r (acc ++ [d]) else None
        end
      else if qtext c then quotedLoop r (acc ++ [c])
      else None
  end.
(** The loop over an unquoted local part, gmx509.go:1566-1598. *)
Fixpoint atomLoop (inp acc : list Z) : option (list Z * list Z) :=
  match inp with
  | [] => Some (acc, [])
  | c :: r =>
      if c =? 92 then
        match r with
        | [] => None
        | d :: r => atomLoop r (acc ++ [d])
        end
      else if atext c then atomLoop r (acc ++ [c])
      else Some (acc, inp)
  end.
(** bytes.Contains(l, ".."). *)
Fixpoint twoDots (l : list Z) : bool :=
  match l with
  | a :: r => match r with b :: _ => ((a =? 46) && (b =? 46)) || twoDots r | [] => false end
  | [] => false
  end.
(** gmx509.go:1496-1631; [None] is a false second result, otherwise the local part and the domain. *)
Definition parseRFC2821Mailbox (inp : list Z) : go (option (list Z * list Z)) :=
  if zlen inp =? 0 then Ret None
  else
    do c0 <- go_index inp 0;
    do p <- (if c0 =? 34 then do inp <- go_slice inp 1 (zlen inp); Ret (quotedLoop inp [])
             else match atomLoop inp [] with
                  | None => Ret None
                  | Some (local, inp) =>
                      if zlen local =? 0 then Ret None
                      else
                        do first <- go_index local 0;
                        do last <- go_index local (zlen local - 1);
                        if (first =? 46) || (last =? 46) || twoDots local then Ret None
                        else Ret (Some (local, inp))
                  end);
    match p with
    | None => Ret None
    | Some (local, inp) =>
        if zlen inp =? 0 then Ret None
        else
          do c <- go_index inp 0;
          if negb (c =? 64) then Ret None
          else
            do inp <- go_slice inp 1 (zlen inp);
            do labels <- domainToReverseLabels inp;
            match labels with
            | None => Ret None
            | Some _ => Ret (Some (local, inp))
            end
    end.
