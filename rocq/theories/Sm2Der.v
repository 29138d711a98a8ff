(** The DER functions of sm2/sm2.go. *)
From Coq Require Import ZArith List Lia Bool String.
From Verif Require Import GoBase BeMin CbString GoAsn1 GoElliptic Sm3 Sm2.
Import ListNotations.
Open Scope Z_scope.

(** encoding/asn1 applied to a struct without RawContent: all fields one after the other
    (makeBody, case reflect.Struct). *)
Fixpoint makeFields (l : list (res (list Z))) : res (list Z) :=
  match l with
  | [] => OK []
  | f :: r => try a <- f; try b <- makeFields r; OK (a ++ b)
  end.
Definition marshalStruct (fields : list (res (list Z))) : res (list Z) :=
  makeField false TagSequence true (makeFields fields) noParams.
Definition fieldBigInt (n : Z) : res (list Z) := makeField false TagInteger false (OK (makeBigInt n)) noParams.
Definition fieldOctets (b : list Z) : res (list Z) := makeField false TagOctetString false (OK b) noParams.

(** sm2.go:58-60 sm2Signature{R, S *big.Int}. *)
Definition uSm2Signature : uty (Z * Z) := uStruct (fun _ l =>
  try (r, l) <- parseField uBigInt 0 noParams l;
  try (s, l) <- parseField uBigInt 0 noParams l;
  OK (r, s)).

(** sm2.go:471-477. *)
Definition MarshalSign (r s : Z) : res (list Z) := marshalStruct [fieldBigInt r; fieldBigInt s].

(** sm2.go:479-486. The rest that Unmarshal returns is ignored. *)
Definition UnmarshalSign (sign : list Z) : res (Z * Z) :=
  try (rs, _) <- unmarshal uSm2Signature (0, 0) sign;
  OK rs.

(** sm2.go:62-72 sm2CipherC1C3C2 and sm2CipherC1C2C3: two integers, two byte slices. *)
Definition uSm2Cipher : uty (Z * Z * list Z * list Z) := uStruct (fun _ l =>
  try (x, l) <- parseField uBigInt 0 noParams l;
  try (y, l) <- parseField uBigInt 0 noParams l;
  try (a, l) <- parseField uOctets None noParams l;
  try (b, l) <- parseField uOctets None noParams l;
  OK (x, y, contents a, contents b)).

(** sm2.go:348-385. *)
Definition MarshalCipher (inp : list Z) (cipherTextType : Z) : go (res (list Z)) :=
  let byteLen := Z.shiftr (curveBitSize + 7) 3 in
  do _ <- go_make byteLen;
  do _ <- go_make byteLen;
  let c2Len := zlen inp - (1 + byteLen * 2) - DigestLength in
  do _ <- go_make c2Len;
  do _ <- go_make DigestLength;
  let pos := 1 in
  do c1x <- go_slice inp pos (pos + byteLen);
  let pos := pos + byteLen in
  do c1y <- go_slice inp pos (pos + byteLen);
  let pos := pos + byteLen in
  let nc1x := be_dec c1x in
  let nc1y := be_dec c1y in
  if cipherTextType =? C1C2C3 then
    do c2 <- go_slice inp pos (pos + c2Len);
    let pos := pos + c2Len in
    do c3 <- go_slice inp pos (pos + DigestLength);
    Ret (marshalStruct [fieldBigInt nc1x; fieldBigInt nc1y; fieldOctets c2; fieldOctets c3])
  else if cipherTextType =? C1C3C2 then
    do c3 <- go_slice inp pos (pos + DigestLength);
    let pos := pos + DigestLength in
    do c2 <- go_slice inp pos (pos + c2Len);
    Ret (marshalStruct [fieldBigInt nc1x; fieldBigInt nc1y; fieldOctets c3; fieldOctets c2])
  else Ret (ERR (unknownType cipherTextType)).

(** sm2.go:387-439. The result buffer is exactly as long as the pieces copied into it. *)
Definition UnmarshalCipher (inp : list Z) (cipherTextType : Z) : go (res (list Z)) :=
  if (cipherTextType =? C1C2C3) || (cipherTextType =? C1C3C2) then
    match unmarshal uSm2Cipher (0, 0, [], []) inp with
    | ERR e => Ret (ERR e)
    | OK (x, y, a, b, _) =>
        do c1xBytes <- bigIntTo32Bytes x;
        do c1yBytes <- bigIntTo32Bytes y;
        Ret (OK (UnCompress :: c1xBytes ++ c1yBytes ++ a ++ b))
    end
  else Ret (ERR (unknownType cipherTextType)).

(** sm2.go:534-541. *)
Definition Sign (priv : PrivateKey) (userId : option (list Z)) (inp tape : list Z) : go (res (list Z) * list Z) :=
  do (rs, tape) <- SignToRS priv userId inp tape;
  Ret (match rs with ERR e => ERR e | OK (r, s) => MarshalSign r s end, tape).

(** sm2.go:578-585. *)
Definition Verify (pub : PublicKey) (userId : option (list Z)) (src sign : list Z) : go bool :=
  match UnmarshalSign sign with
  | ERR _ => Ret false
  | OK (r, s) => VerifyByRS pub userId src r s
  end.
