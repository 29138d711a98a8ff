(** Model of crypto/elliptic's generic [CurveParams] (Go 1.12, src/crypto/elliptic/elliptic.go), which
    sm2.P256V1Curve embeds (sm2/sm2.go:43-46) and therefore uses for all its arithmetic, and of the two
    ways the package draws scalars. The standard library is not part of /repo: its algorithms are
    transcribed here from its published source. Integers of math/big are [Z]; [Mod] is [Z.modulo],
    which agrees with Go's Euclidean Mod for a positive modulus. *)
From Coq Require Import ZArith List Lia Bool String.
From Verif Require Import GoBase BeMin FpField.
Import ListNotations.
Open Scope Z_scope.

Section Curve.
(** curve.P and curve.B; the coefficient a is -3 throughout, as in elliptic.go. *)
Variables P B : Z.

(** [if v.Sign() == -1 { v.Add(v, curve.P) }] *)
Definition fix_sign (v : Z) : Z := if v <? 0 then v + P else v.

(** IsOnCurve, elliptic.go. *)
Definition IsOnCurve (x y : Z) : bool :=
  let y2 := (y * y) mod P in
  let x3 := x * x * x in
  let threeX := Z.shiftl x 1 + x in
  (x3 - threeX + B) mod P =? y2.

(** zForAffine, elliptic.go. *)
Definition zForAffine (x y : Z) : Z := if negb (x =? 0) || negb (y =? 0) then 1 else 0.

(** affineFromJacobian, elliptic.go. [ModInverse] returns nil when z has no inverse, and the
    multiplications that follow dereference it. *)
Definition affineFromJacobian (j : Z * Z * Z) : go (Z * Z) :=
  let '(x, y, z) := j in
  if z =? 0 then Ret (0, 0)
  else match ModInverse z P with
       | None => Panic PNil
       | Some zinv =>
           let zinvsq := zinv * zinv in
           let xOut := (x * zinvsq) mod P in
           let zinvsq := zinvsq * zinv in
           let yOut := (y * zinvsq) mod P in
           Ret (xOut, yOut)
       end.

(** doubleJacobian, elliptic.go (dbl-2001-b). *)
Definition doubleJacobian (j : Z * Z * Z) : Z * Z * Z :=
  let '(x, y, z) := j in
  let delta := (z * z) mod P in
  let gamma := (y * y) mod P in
  let alpha := fix_sign (x - delta) in
  let alpha2 := x + delta in
  let alpha := alpha * alpha2 in
  let alpha2 := alpha in
  let alpha := Z.shiftl alpha 1 + alpha2 in
  let beta := x * gamma in
  let beta8 := Z.shiftl beta 3 mod P in
  let x3 := fix_sign (alpha * alpha - beta8) mod P in
  let z3 := fix_sign ((y + z) * (y + z) - gamma) in
  let z3 := fix_sign (z3 - delta) mod P in
  let beta := fix_sign (Z.shiftl beta 2 - x3) in
  let y3 := alpha * beta in
  let gamma := Z.shiftl (gamma * gamma) 3 mod P in
  let y3 := fix_sign (y3 - gamma) mod P in
  (x3, y3, z3).

(** addJacobian, elliptic.go (add-2007-bl). *)
Definition addJacobian (j1 j2 : Z * Z * Z) : Z * Z * Z :=
  let '(x1, y1, z1) := j1 in
  let '(x2, y2, z2) := j2 in
  if z1 =? 0 then (x2, y2, z2)
  else if z2 =? 0 then (x1, y1, z1)
  else
    let z1z1 := (z1 * z1) mod P in
    let z2z2 := (z2 * z2) mod P in
    let u1 := (x1 * z2z2) mod P in
    let u2 := (x2 * z1z1) mod P in
    let h := u2 - u1 in
    let xEqual := h =? 0 in
    let h := fix_sign h in
    let i := Z.shiftl h 1 in
    let i := i * i in
    let j := h * i in
    let s1 := (y1 * z2 * z2z2) mod P in
    let s2 := (y2 * z1 * z1z1) mod P in
    let r := fix_sign (s2 - s1) in
    let yEqual := r =? 0 in
    if xEqual && yEqual then doubleJacobian (x1, y1, z1)
    else
      let r := Z.shiftl r 1 in
      let v := u1 * i in
      let x3 := (r * r - j - v - v) mod P in
      let y3 := (r * (v - x3) - Z.shiftl (s1 * j) 1) mod P in
      let z3 := (((z1 + z2) * (z1 + z2) - z1z1 - z2z2) * h) mod P in
      (x3, y3, z3).

(** Add, elliptic.go. *)
Definition Add (x1 y1 x2 y2 : Z) : go (Z * Z) :=
  let z1 := zForAffine x1 y1 in
  let z2 := zForAffine x2 y2 in
  affineFromJacobian (addJacobian (x1, y1, z1) (x2, y2, z2)).

(** Double, elliptic.go. *)
Definition Double (x1 y1 : Z) : go (Z * Z) :=
  affineFromJacobian (doubleJacobian (x1, y1, zForAffine x1 y1)).

(** One pass of ScalarMult's inner loop: [byte] is tested at 0x80 and shifted left. *)
Definition sm_bit (Bx By : Z) (st : Z * (Z * Z * Z)) : Z * (Z * Z * Z) :=
  let '(byte, j) := st in
  let j := doubleJacobian j in
  let j := if Z.land byte 0x80 =? 0x80 then addJacobian (Bx, By, 1) j else j in
  (u8 (Z.shiftl byte 1), j).

(** [for bitNum := 0; bitNum < 8; bitNum++] *)
Definition sm_byte (Bx By : Z) (j : Z * Z * Z) (byte : Z) : Z * Z * Z :=
  snd (for_loop 8 0 (fun _ => sm_bit Bx By) (byte, j)).

(** ScalarMult, elliptic.go. *)
Definition ScalarMult (Bx By : Z) (k : list Z) : go (Z * Z) :=
  affineFromJacobian (fold_left (sm_byte Bx By) k (0, 0, 0)).

(** Marshal, elliptic.go, for a 256-bit curve: 0x04 and the coordinates padded to 32 bytes. The
    padding is done by copying [x.Bytes()] to the end of its field: a longer value makes the slice
    expression [ret[1+byteLen-len(xBytes):]] start early (and panic below 0). Only called by the
    package on coordinates that fit, so the modelled domain is 0 <= x, y < 2^256; outside it the
    model panics. *)
Definition Marshal (x y : Z) : go (list Z) :=
  if (0 <=? x) && (x <? 2 ^ 256) && (0 <=? y) && (y <? 2 ^ 256)
  then Ret (4 :: be_enc 32 x ++ be_enc 32 y)
  else Panic (PUser "model: Marshal outside its modelled domain").

(** Unmarshal, elliptic.go, for a 256-bit curve; [None] is (nil, nil). *)
Definition Unmarshal (data : list Z) : option (Z * Z) :=
  if negb (zlen data =? 65) then None
  else if negb (nth 0 data 0 =? 4) then None
  else
    let x := be_dec (sub data 1 33) in
    let y := be_dec (sub data 33 65) in
    if (P <=? x) || (P <=? y) then None
    else if negb (IsOnCurve x y) then None
    else Some (x, y).
End Curve.

(** * Randomness *)

(** A random source is the finite list of bytes it will deliver before failing.
    io.ReadFull(rand, buf): [None] when the source fails first. *)
Definition ReadFull (n : nat) (tape : list Z) : option (list Z * list Z) :=
  if Nat.ltb (List.length tape) n then None else Some (firstn n tape, skipn n tape).

(** The error of that failing ReadFull. *)
Definition eof_msg (tape : list Z) : string := match tape with [] => "EOF" | _ => "unexpected EOF" end.

(** crypto/rand.Int(rand, max) for a [max] of exactly 256 bits (rand/util.go): 32 bytes are drawn; the
    mask of the top byte is 0xff; values >= max are drawn again. The tape shrinks at every draw, so its
    length bounds the loop. *)
Fixpoint rand_int_loop (fuel : nat) (max : Z) (tape : list Z) : res Z * list Z :=
  match ReadFull 32 tape with
  | None => (ERR (eof_msg tape), [])
  | Some (bs, tape) =>
      let n := be_dec bs in
      if n <? max then (OK n, tape)
      else match fuel with
           | O => (ERR "model: out of fuel", tape)
           | S fuel => rand_int_loop fuel max tape
           end
  end.
Definition rand_Int (max : Z) (tape : list Z) : res Z * list Z := rand_int_loop (List.length tape) max tape.

(** elliptic.GenerateKey's loop for an order N of exactly 256 bits: priv[0] &= mask[0] = 0xff,
    priv[1] ^= 0x42, and a new draw when the scalar is >= N. Returns the scalar's bytes. *)
Fixpoint genkey_loop (fuel : nat) (N : Z) (tape : list Z) : res (list Z) * list Z :=
  match ReadFull 32 tape with
  | None => (ERR (eof_msg tape), [])
  | Some (priv, tape) =>
      let priv := upd priv 0 (Z.land (nth 0 priv 0) 0xff) in
      let priv := upd priv 1 (Z.lxor (nth 1 priv 0) 0x42) in
      if N <=? be_dec priv then
        match fuel with
        | O => (ERR "model: out of fuel", tape)
        | S fuel => genkey_loop fuel N tape
        end
      else (OK priv, tape)
  end.
Definition genkey_scalar (N : Z) (tape : list Z) : res (list Z) * list Z := genkey_loop (List.length tape) N tape.
