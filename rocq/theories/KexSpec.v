(** Independent specification of the SM2 key exchange (GM/T 0003.3), on the group of Sm2Group.v and the
    hash of Sm3Spec.v. The standard encodes coordinates in 32 bytes; the encoding is a parameter here. *)
From Coq Require Import ZArith List Lia Bool.
From Verif Require Import GoBase Sm3Spec Sm2Primes Sm2Group Sm2Spec.
Import ListNotations.
Open Scope Z_scope.

(** The reduced coordinate: 2^127 + (x mod 2^127). *)
Definition xbar (x : Z) : Z := 2 ^ 127 + x mod 2 ^ 127.

(** t = d + xbar(x_R) r, for the party with static scalar d and ephemeral scalar r, R = [r]G. *)
Definition kex_t (d r : Z) : Z := d + xbar (xc (pmul r G)) * r.
(** The point computed by the party with t from the other side's static P and ephemeral R. *)
Definition kex_point (t : Z) (P R : point) : point :=
  padd (pmul (t mod sm2n) P) (pmul ((t mod sm2n * xbar (xc R)) mod sm2n) R).

Section Enc.
Context (co : Z -> list Z).   (* the encoding of coordinates *)
(** The key: the first bytes of the first block of the KDF. Z1 is the initiator's hash, Z2 the responder's. *)
Definition kex_key (U : point) (Z1 Z2 : list Z) (n : nat) : list Z :=
  firstn n (sm3_hash (co (xc U) ++ co (yc U) ++ Z1 ++ Z2 ++ be_enc 4 1)).
(** The confirmation tags; R1 is the initiator's ephemeral point. *)
Definition kex_tag (c : Z) (U : point) (Z1 Z2 : list Z) (R1 R2 : point) : list Z :=
  sm3_hash ([c] ++ co (yc U) ++
            sm3_hash (co (xc U) ++ Z1 ++ Z2 ++ co (xc R1) ++ co (yc R1) ++ co (xc R2) ++ co (yc R2))).
End Enc.

(** The six coordinates that are hashed are all non-zero. *)
Definition kex_nonzero (U R1 R2 : point) : Prop :=
  xc U <> 0 /\ yc U <> 0 /\ xc R1 <> 0 /\ yc R1 <> 0 /\ xc R2 <> 0 /\ yc R2 <> 0.
