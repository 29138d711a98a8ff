(** Independent specification of the SM2 algorithms (GM/T 0003.2 signatures, 0003.4 encryption), on
    the group of Sm2Group.v and the hash of Sm3Spec.v. *)
From Coq Require Import ZArith List Lia Bool.
From Verif Require Import GoBase Sm3Spec Sm2Primes Sm2Group.
Import ListNotations.
Open Scope Z_scope.

(** Coordinates of a point as integers; infinity is (0, 0), as in Go. *)
Definition xc (P : point) : Z := fst (enc P).
Definition yc (P : point) : Z := snd (enc P).
Definition b32 (x : Z) : list Z := be_enc 32 x.

(** Z_A: the hash of the identity, the curve and the public point. The length field has two bytes. *)
Definition ZA (id : list Z) (x y : Z) : list Z :=
  sm3_hash (be_enc 2 (8 * zlen id) ++ id ++ b32 (sm2p - 3) ++ b32 sm2b ++ b32 sm2gx ++ b32 sm2gy ++ b32 x ++ b32 y).
(** e: the hash of Z_A and the message, as an integer. *)
Definition msg_e (id : list Z) (x y : Z) (m : list Z) : Z := be_dec (sm3_hash (ZA id x y ++ m)).

(** The default identity "1234567812345678". *)
Definition default_id : list Z := map (fun i => 0x30 + Z.of_nat i) (seq 1 8 ++ seq 1 8).
Definition effective_id (id : option (list Z)) : list Z := match id with None => default_id | Some l => l end.

(** (r, s) is a signature made with the private scalar d and the nonce k for the hash value e. *)
Definition signature (d e k r s : Z) : Prop :=
  r = (e + xc (pmul k G)) mod sm2n /\ r <> 0 /\ r + k <> sm2n /\
  0 < s < sm2n /\ ((1 + d) * s) mod sm2n = (k - r * d) mod sm2n.

(** The verification equation for the public point P. *)
Definition verifies (P : point) (e r s : Z) : Prop :=
  1 <= r < sm2n /\ 1 <= s < sm2n /\ (r + s) mod sm2n <> 0 /\
  let Q := padd (pmul s G) (pmul ((r + s) mod sm2n) P) in
  Q <> O /\ (e + xc Q) mod sm2n = r.

(** The key derivation function: n bytes of SM3(z || 1) || SM3(z || 2) || ... *)
Definition kdf_block (z : list Z) (i : nat) : list Z := sm3_hash (z ++ be_enc 4 (Z.of_nat i)).
Definition kdf_from (z : list Z) (i n : nat) : list Z :=
  firstn n (List.concat (map (kdf_block z) (seq i (n / 32 + 1)))).
Definition KDF (z : list Z) (n : nat) : list Z := kdf_from z 1 n.

(** The ciphertext parts for the shared point S = [k]P: C2 and C3. *)
Definition point_bytes (S : point) : list Z := b32 (xc S) ++ b32 (yc S).
Definition enc_c2 (S : point) (m : list Z) : list Z := map2 Z.lxor m (KDF (point_bytes S) (List.length m)).
Definition enc_c3 (S : point) (m : list Z) : list Z := sm3_hash (b32 (xc S) ++ m ++ b32 (yc S)).

(** The 32-byte draws of a random tape that are in [1, n-1], each with the tape that follows it. *)
Fixpoint nonces_f (fuel : nat) (tape : list Z) : list (Z * list Z) :=
  match fuel with
  | Datatypes.O => []
  | S fuel =>
      if Nat.ltb (List.length tape) 32 then []
      else let k := be_dec (firstn 32 tape) in
           let rest := skipn 32 tape in
           if (1 <=? k) && (k <? sm2n) then (k, rest) :: nonces_f fuel rest else nonces_f fuel rest
  end.
Definition nonces (tape : list Z) : list (Z * list Z) := nonces_f (List.length tape) tape.
