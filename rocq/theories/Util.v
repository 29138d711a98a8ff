(** Model of /repo/util/padding.go (whole file). bigint.go and ec.go are one-line wrappers over
    math/big; Sm2.v has what sm2.go uses of them on values, Sm2Mem.v all of them on addresses.
    A slice is a window with a capacity into a backing array [h]. *)
From Coq Require Import ZArith List Lia String Bool.
From Verif Require Import GoBase.
Import ListNotations.
Open Scope Z_scope.

Record gslice := mkG { g_off : Z; g_len : Z; g_cap : Z }.

(** The bytes a slice shows. *)
Definition contents (h : list Z) (s : gslice) : list Z := sub h (g_off s) (g_off s + g_len s).

(** bytes.Repeat([]byte{b}, count); the length product cannot overflow for one byte. *)
Definition repeatByte (b count : Z) : go (list Z) :=
  if count <? 0 then Panic (PUser "bytes: negative Repeat count")
  else Ret (repeat b (Z.to_nat count)).

(** append(s, l...): in place when the capacity suffices, otherwise into a new array. Returns the
    caller's backing array afterwards and the bytes of the resulting slice. (Appending nothing
    keeps the slice.) *)
Definition append (h : list Z) (s : gslice) (l : list Z) : list Z * list Z :=
  if g_len s + zlen l <=? g_cap s
  then let h' := splice h (g_off s + g_len s) l in
       (h', contents h' (mkG (g_off s) (g_len s + zlen l) (g_cap s)))
  else (h, contents h s ++ l).

(** Go's % on int: sign of the dividend; zero divisor panics. *)
Definition go_rem (a b : Z) : go Z := if b =? 0 then Panic PDiv else Ret (Z.rem a b).

(** padding.go:5-9 *)
Definition PKCS5Padding (h : list Z) (src : gslice) (blockSize : Z) : go (list Z * list Z) :=
  do m <- go_rem (g_len src) blockSize;
  let padding := blockSize - m in
  do padtext <- repeatByte (u8 padding) padding;
  Ret (append h src padtext).

(** padding.go:11-15; returns the bytes of the shortened slice (same backing array). *)
Definition PKCS5UnPadding (src : list Z) : go (list Z) :=
  let length := zlen src in
  do unpadding <- go_index src (length - 1);
  go_slice src 0 (length - unpadding).

(** padding.go:17-21 *)
Definition ZeroPadding (h : list Z) (src : gslice) (blockSize : Z) : go (list Z * list Z) :=
  do m <- go_rem (g_len src) blockSize;
  let padding := blockSize - m in
  do padtext <- repeatByte 0 padding;
  Ret (append h src padtext).

(** padding.go:26-28: src[:len(src)-paddingLen] is bounded by the capacity, not the length. *)
Definition UnZeroPadding (h : list Z) (src : gslice) (paddingLen : Z) : go (list Z) :=
  let hi := g_len src - paddingLen in
  if (0 <=? hi) && (hi <=? g_cap src) then Ret (sub h (g_off src) (g_off src + hi))
  else Panic PSlice.
