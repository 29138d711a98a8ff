(** The functions of sm2.go that use random bytes, on an arbitrary io.Reader instead of a tape. A reader
    has a state; a call with a buffer of [n] bytes gives the bytes it delivers, an error or none, and the
    new state. GenerateKey takes the reader as an argument, the others use the variable
    crypto/rand.Reader, which a program may set.

    A reader need not come to an end, so the loops have fuel: [None] means that it did not suffice. The
    value of a call is what it gives for all sufficiently large fuel, and if there is none the call does
    not return. io.EOF is the text "EOF". *)
From Coq Require Import ZArith List Lia Bool String.
From Verif Require Import GoBase GoElliptic Sm3 Sm2 Sm2Der.
Import ListNotations.
Open Scope Z_scope.

Section Reader.
Variable St : Type.
Variable read : St -> Z -> list Z * option string * St.

(** Results: fuel, panic, error or value, with the reader's state. *)
Definition outcome (A : Type) : Type := option (go (res A * St)).
Definition done {A} (a : A) (s : St) : outcome A := Some (Ret (OK a, s)).
Definition bindR {A B} (x : outcome A) (f : A -> St -> outcome B) : outcome B :=
  match x with
  | Some (Ret (OK a, s)) => f a s
  | Some (Ret (ERR e, s)) => Some (Ret (ERR e, s))
  | Some (Panic p) => Some (Panic p)
  | None => None
  end.
Definition liftR {A B} (x : go A) (f : A -> outcome B) : outcome B :=
  match x with Ret a => f a | Panic p => Some (Panic p) end.

(** io.ReadAtLeast (io.go), called by io.ReadFull with a buffer of [need] bytes; [got] is what has been
    read into it. An error that comes with the last byte needed is dropped. *)
Fixpoint readLoop (fuel : nat) (need : Z) (got : list Z) (s : St) : outcome (list Z) :=
  if need <=? zlen got then done got s
  else match fuel with
       | O => None
       | S fuel =>
           let '(chunk, err, s) := read s (need - zlen got) in
           match err with
           | None => readLoop fuel need (got ++ chunk) s
           | Some e =>
               if need <=? zlen (got ++ chunk) then done (got ++ chunk) s
               else Some (Ret (ERR (if (0 <? zlen (got ++ chunk)) && (e =? "EOF")%string then "unexpected EOF" else e), s))
           end
       end.
Definition ReadFullR (fuel : nat) (s : St) : outcome (list Z) := readLoop fuel 32 [] s.

(** crypto/rand.Int (rand/util.go), as in GoElliptic.v. *)
Fixpoint rand_IntR (fuel : nat) (max : Z) (s : St) : outcome Z :=
  bindR (ReadFullR fuel s) (fun bs s =>
  let n := be_dec bs in
  if n <? max then done n s
  else match fuel with O => None | S fuel => rand_IntR fuel max s end).
(** The loop of elliptic.GenerateKey, as in GoElliptic.v. *)
Fixpoint genkey_scalarR (fuel : nat) (N : Z) (s : St) : outcome (list Z) :=
  bindR (ReadFullR fuel s) (fun priv s =>
  let priv := upd priv 0 (Z.land (nth 0 priv 0) 0xff) in
  let priv := upd priv 1 (Z.lxor (nth 1 priv 0) 0x42) in
  if N <=? be_dec priv then match fuel with O => None | S fuel => genkey_scalarR fuel N s end
  else done priv s).
(** sm2.go:99-112 *)
Definition GenerateKeyR (fuel : nat) (s : St) : outcome (PrivateKey * PublicKey) :=
  bindR (genkey_scalarR fuel curveN s) (fun priv s =>
  liftR (curveScalarBaseMult priv) (fun p => let '(x, y) := p in
  done (mkPriv (be_dec priv), mkPub x y) s)).
(** sm2.go:189-202 *)
Fixpoint nextKR (fuel : nat) (max : Z) (s : St) : outcome Z :=
  bindR (rand_IntR fuel max s) (fun k s =>
  if 1 <=? k then done k s else match fuel with O => None | S fuel => nextKR fuel max s end).
(** sm2.go:268-283 *)
Fixpoint encrypt_loopR (fuel : nat) (pub : PublicKey) (inp c2 : list Z) (d : sm3Digest) (s : St) : outcome (list Z * list Z * Z * Z * sm3Digest) :=
  bindR (nextKR fuel curveN s) (fun k s =>
  let kBytes := BigBytes k in
  liftR (do (c1x, c1y) <- curveScalarBaseMult kBytes;
         do c1 <- Marshal c1x c1y;
         do (kPBx, kPBy) <- curveScalarMult (X pub) (Y pub) kBytes;
         do (d, c2) <- kdf d kPBx kPBy c2;
         do ne <- notEncrypted c2 inp;
         Ret (c1, c2, kPBx, kPBy, d, ne)) (fun v =>
  let '(c1, c2, kPBx, kPBy, d, ne) := v in
  if negb ne then done (c1, c2, kPBx, kPBy, d) s
  else match fuel with O => None | S fuel => encrypt_loopR fuel pub inp c2 d s end)).
(** sm2.go:262-306 *)
Definition EncryptR (fuel : nat) (pub : PublicKey) (inp : list Z) (cipherTextType : Z) (s : St) : outcome (list Z) :=
  bindR (encrypt_loopR fuel pub inp inp New s) (fun v s =>
  let '(c1, c2, kPBx, kPBy, d) := v in
  liftR (do xb <- bigIntTo32Bytes kPBx;
         do yb <- bigIntTo32Bytes kPBy;
         hashOf d [xb; inp; yb]) (fun p => let '(_, c3) := p in
  if cipherTextType =? C1C2C3 then done (c1 ++ c2 ++ c3) s
  else if cipherTextType =? C1C3C2 then done (c1 ++ c3 ++ c2) s
  else Some (Ret (ERR (unknownType cipherTextType), s)))).
(** sm2.go:499-516 *)
Fixpoint sign_innerR (fuel : nat) (e : Z) (s : St) : outcome (Z * Z) :=
  bindR (nextKR fuel curveN s) (fun k s =>
  liftR (curveScalarBaseMult (BigBytes k)) (fun p => let '(px, _) := p in
  let r := (e + px) mod curveN in
  let rk := r + k in
  if negb (r =? 0) && negb (rk =? curveN) then done (k, r) s
  else match fuel with O => None | S fuel => sign_innerR fuel e s end)).
(** sm2.go:498-529 *)
Fixpoint sign_outerR (fuel : nat) (d e : Z) (st : St) : outcome (Z * Z) :=
  bindR (sign_innerR fuel e st) (fun kr st => let '(k, r) := kr in
  let dPlus1ModN := utilModInverse (d + 1) curveN in
  let s := (k - r * d) mod curveN in
  let s := (dPlus1ModN * s) mod curveN in
  if negb (s =? 0) then done (r, s) st
  else match fuel with O => None | S fuel => sign_outerR fuel d e st end).
(** sm2.go:488-531 *)
Definition SignToRSR (fuel : nat) (priv : PrivateKey) (userId : option (list Z)) (inp : list Z) (s : St) : outcome (Z * Z) :=
  liftR (do (pubX, pubY) <- curveScalarBaseMult (BigBytes (D priv));
         do (_, e) <- calculateE New pubX pubY (signId userId) inp;
         Ret e) (fun e =>
  sign_outerR fuel (D priv) e s).
(** sm2.go:534-541 *)
Definition SignR (fuel : nat) (priv : PrivateKey) (userId : option (list Z)) (inp : list Z) (s : St) : outcome (list Z) :=
  bindR (SignToRSR fuel priv userId inp s) (fun rs st => let '(r, s) := rs in Some (Ret (MarshalSign r s, st))).
End Reader.
