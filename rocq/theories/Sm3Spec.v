(** The SM3 hash function as GM/T 0004-2012 (GB/T 32905-2016) defines it, for messages of
    whole bytes. Written from the standard; nothing here refers to the Go code. *)
From Coq Require Import ZArith List Lia.
From Verif Require Import GoBase.
Import ListNotations.
Open Scope Z_scope.

(** Section 3/4: cyclic left shift of a 32-bit word by [n] bits. *)
Definition rotl (n x : Z) : Z := (x * 2 ^ n) mod 2 ^ 32 + x / 2 ^ (32 - n).

(** Section 4.1: initial value. *)
Definition IV : list Z :=
  [0x7380166f; 0x4914b2b9; 0x172442d7; 0xda8a0600;
   0xa96f30bc; 0x163138aa; 0xe38dee4d; 0xb0fb0e4e].

(** Section 4.2: constants. *)
Definition T (j : Z) : Z := if j <? 16 then 0x79cc4519 else 0x7a879d8a.

(** Section 4.3: boolean functions. *)
Definition FF (j x y z : Z) : Z :=
  if j <? 16 then Z.lxor (Z.lxor x y) z
  else Z.lor (Z.lor (Z.land x y) (Z.land x z)) (Z.land y z).
Definition GG (j x y z : Z) : Z :=
  if j <? 16 then Z.lxor (Z.lxor x y) z
  else Z.lor (Z.land x y) (Z.land (2 ^ 32 - 1 - x) z).

(** Section 4.4: permutations. *)
Definition P0 (x : Z) : Z := Z.lxor (Z.lxor x (rotl 9 x)) (rotl 17 x).
Definition P1 (x : Z) : Z := Z.lxor (Z.lxor x (rotl 15 x)) (rotl 23 x).

(** Section 5.2: padding. The bit "1", then the least number of zero bits that brings the
    length to 448 mod 512, then the 64-bit length in bits. On whole bytes: 0x80, then
    [(55 - len) mod 64] zero bytes, then 8 length bytes. *)
Definition pad (m : list Z) : list Z :=
  m ++ [0x80] ++ repeat 0 (Z.to_nat ((55 - zlen m) mod 64)) ++ be_enc 8 (8 * zlen m).

(** Section 5.3.2: message expansion, W_0..W_67, by appending one word at a time. *)
Definition W_next (W : list Z) : Z :=
  let w k := nth (length W - k) W 0 in
  Z.lxor (Z.lxor (P1 (Z.lxor (Z.lxor (w 16%nat) (w 9%nat)) (rotl 15 (w 3%nat))))
                 (rotl 7 (w 13%nat)))
         (w 6%nat).
Fixpoint W_extend (n : nat) (W : list Z) : list Z :=
  match n with O => W | S k => W_extend k (W ++ [W_next W]) end.
Definition expand (B : list Z) : list Z := W_extend 52 B.

(** Section 5.3.3: compression. *)
Record regs := mk_regs { rA : Z; rB : Z; rC : Z; rD : Z; rE : Z; rF : Z; rG : Z; rH : Z }.

Definition round (W : list Z) (j : Z) (r : regs) : regs :=
  let Wj := nth (Z.to_nat j) W 0 in
  let W'j := Z.lxor Wj (nth (Z.to_nat (j + 4)) W 0) in
  let SS1 := rotl 7 ((rotl 12 (rA r) + rE r + rotl (j mod 32) (T j)) mod 2 ^ 32) in
  let SS2 := Z.lxor SS1 (rotl 12 (rA r)) in
  let TT1 := (FF j (rA r) (rB r) (rC r) + rD r + SS2 + W'j) mod 2 ^ 32 in
  let TT2 := (GG j (rE r) (rF r) (rG r) + rH r + SS1 + Wj) mod 2 ^ 32 in
  mk_regs TT1 (rA r) (rotl 9 (rB r)) (rC r) (P0 TT2) (rE r) (rotl 19 (rF r)) (rG r).

Definition regs_of (V : list Z) : regs :=
  mk_regs (nth 0 V 0) (nth 1 V 0) (nth 2 V 0) (nth 3 V 0)
          (nth 4 V 0) (nth 5 V 0) (nth 6 V 0) (nth 7 V 0).
Definition list_of (r : regs) : list Z :=
  [rA r; rB r; rC r; rD r; rE r; rF r; rG r; rH r].

Fixpoint map2 (f : Z -> Z -> Z) (l m : list Z) : list Z :=
  match l, m with
  | x :: l', y :: m' => f x y :: map2 f l' m'
  | _, _ => []
  end.

Definition CF (V B : list Z) : list Z :=
  map2 Z.lxor (list_of (for_loop 64 0 (round (expand B)) (regs_of V))) V.

(** Sections 5.3.1 and 5.4: iteration over the 512-bit blocks, output big-endian. *)
Definition words_of (blk : list Z) : list Z := map be_dec (chunks 4 blk).
Definition hash_words (m : list Z) : list Z :=
  fold_left (fun V blk => CF V (words_of blk)) (chunks 64 (pad m)) IV.
Definition sm3_hash (m : list Z) : list Z := concat (map (be_enc 4) (hash_words m)).
