(** The SM4 block cipher as GM/T 0002-2012 (GB/T 32907) defines it, and the two modes of
    operation, written without reference to the code. The S-box is given algebraically (affine
    map, inversion in GF(2^8) modulo x^8+x^7+x^6+x^5+x^4+x^2+1, the same affine map), so that
    the equality with the table in the code is a real statement. *)
From Coq Require Import ZArith List.
From Verif Require Import GoBase Sm3Spec.
Import ListNotations.
Open Scope Z_scope.

(** Multiplication by x and product in GF(2^8). *)
Definition gf_x (a : Z) : Z :=
  let b := 2 * a in if 256 <=? b then Z.lxor b 0x1F5 else b.
Fixpoint gf_mul_bits (n : nat) (a b : Z) : Z :=
  match n with
  | O => 0
  | S m => Z.lxor (if Z.odd b then a else 0) (gf_mul_bits m (gf_x a) (b / 2))
  end.
Definition gf_mul (a b : Z) : Z := gf_mul_bits 8 a b.
(** a^254, which is the inverse for a <> 0 and 0 for a = 0. *)
Definition gf_inv (a : Z) : Z :=
  let a2 := gf_mul a a in let a4 := gf_mul a2 a2 in let a8 := gf_mul a4 a4 in
  let a16 := gf_mul a8 a8 in let a32 := gf_mul a16 a16 in let a64 := gf_mul a32 a32 in
  let a128 := gf_mul a64 a64 in
  gf_mul a2 (gf_mul a4 (gf_mul a8 (gf_mul a16 (gf_mul a32 (gf_mul a64 a128))))).

Definition rotl8 (x n : Z) : Z := (x * 2 ^ n) mod 256 + x / 2 ^ (8 - n).
Fixpoint parity (n : nat) (x : Z) : bool :=
  match n with O => false | S m => xorb (Z.odd x) (parity m (x / 2)) end.
(** Multiplication by the circulant matrix with first row 0xA7, then addition of 0xD3. *)
Definition affine (x : Z) : Z :=
  Z.lxor 0xD3 (fold_left (fun acc k => acc + if parity 8 (Z.land x (rotl8 0xA7 k)) then 2 ^ k else 0)
                 [0; 1; 2; 3; 4; 5; 6; 7] 0).
Definition sbox (x : Z) : Z := affine (gf_inv (affine x)).

Definition tau (a : Z) : Z := be_dec (map sbox (be_enc 4 a)).
Definition xor3 (a b c : Z) : Z := Z.lxor (Z.lxor a b) c.
Definition L (b : Z) : Z :=
  Z.lxor (Z.lxor (Z.lxor (Z.lxor b (rotl 2 b)) (rotl 10 b)) (rotl 18 b)) (rotl 24 b).
Definition L' (b : Z) : Z := Z.lxor (Z.lxor b (rotl 13 b)) (rotl 23 b).
Definition T (x : Z) : Z := L (tau x).
Definition T' (x : Z) : Z := L' (tau x).

(** System parameters and fixed parameters. *)
Definition FK (i : Z) : Z :=
  nth (Z.to_nat i) [0xA3B1BAC6; 0x56AA3350; 0x677D9197; 0xB27022DC] 0.
Definition CK (i : Z) : Z :=
  be_dec (map (fun j => ((4 * i + j) * 7) mod 256) [0; 1; 2; 3]).

(** Round keys rk_i = K_(i+4), [n] of them starting at index [i]. *)
Fixpoint schedule (n : nat) (i k0 k1 k2 k3 : Z) : list Z :=
  match n with
  | O => []
  | S m => let k4 := Z.lxor k0 (T' (Z.lxor (xor3 k1 k2 k3) (CK i))) in
           k4 :: schedule m (i + 1) k1 k2 k3 k4
  end.

(** The j-th 32-bit word of a byte string. *)
Definition word (b : list Z) (j : Z) : Z := be_dec (sub b (4 * j) (4 * j + 4)).

Definition round_keys (key : list Z) : list Z :=
  schedule 32 0 (Z.lxor (word key 0) (FK 0)) (Z.lxor (word key 1) (FK 1))
                (Z.lxor (word key 2) (FK 2)) (Z.lxor (word key 3) (FK 3)).

(** The unbalanced Feistel network and the reverse transformation R. *)
Fixpoint feistel (rks : list Z) (x : Z * Z * Z * Z) : Z * Z * Z * Z :=
  match rks with
  | [] => x
  | rk :: r => let '(x0, x1, x2, x3) := x in
               feistel r (x1, x2, x3, Z.lxor x0 (T (Z.lxor (xor3 x1 x2 x3) rk)))
  end.
Definition crypt (rks : list Z) (b : list Z) : list Z :=
  let '(y0, y1, y2, y3) := feistel rks (word b 0, word b 1, word b 2, word b 3) in
  List.concat (map (be_enc 4) [y3; y2; y1; y0]).

Definition sm4_enc (key b : list Z) : list Z := crypt (round_keys key) b.
(** Decryption is the same transformation with the round keys in reverse order. *)
Definition sm4_dec (key b : list Z) : list Z := crypt (rev (round_keys key)) b.

Definition xor_bytes (a b : list Z) : list Z := map (fun '(x, y) => Z.lxor x y) (combine a b).

(** i-th 16-byte block. *)
Definition block (m : list Z) (i : Z) : list Z := sub m (16 * i) (16 * i + 16).
