(** The minimal big-endian representation of a natural number, and its uniqueness. *)
From Coq Require Import ZArith List Lia Bool.
From Verif Require Import GoBase.
Import ListNotations.
Open Scope Z_scope.

(** The shortest list of base-256 digits, most significant first; [] for zero.
    This is also what Go's [big.Int.Bytes] returns for the absolute value. *)
Definition be_min (n : Z) : list Z :=
  if n <=? 0 then [] else be_enc (Z.to_nat (Z.log2 n / 8 + 1)) n.

Lemma pow256 : forall k, 0 <= k -> 256 ^ k = 2 ^ (8 * k).
Proof. intros k H. change 256 with (2 ^ 8). rewrite <- Z.pow_mul_r by lia. reflexivity. Qed.

Lemma be_min_size : forall n, 0 < n ->
  256 ^ (Z.log2 n / 8) <= n < 256 ^ (Z.log2 n / 8 + 1).
Proof.
  intros n H. pose proof (Z.log2_spec n H) as [L U].
  pose proof (Z.log2_nonneg n) as N.
  pose proof (Z.div_pos (Z.log2 n) 8 N ltac:(lia)) as D.
  pose proof (Z.div_mod (Z.log2 n) 8 ltac:(lia)) as E.
  pose proof (Z.mod_pos_bound (Z.log2 n) 8 ltac:(lia)) as M.
  rewrite !pow256 by lia. split.
  - eapply Z.le_trans; [|exact L]. apply Z.pow_le_mono_r; lia.
  - eapply Z.lt_le_trans; [exact U|]. apply Z.pow_le_mono_r; lia.
Qed.

Lemma be_min_bytes : forall n, bytes (be_min n).
Proof.
  intros; unfold be_min. destruct (n <=? 0); [apply bytes_nil|apply be_enc_bytes].
Qed.

Lemma be_min_pos : forall n, 0 < n -> be_min n = be_enc (Z.to_nat (Z.log2 n / 8 + 1)) n.
Proof. intros; unfold be_min. destruct (Z.leb_spec n 0); [lia|reflexivity]. Qed.

Lemma be_min_0 : be_min 0 = [].
Proof. reflexivity. Qed.

Lemma log8_nonneg : forall n, 0 <= Z.log2 n / 8.
Proof. intros. apply Z.div_pos; [apply Z.log2_nonneg|lia]. Qed.

Lemma be_dec_min : forall n, 0 <= n -> be_dec (be_min n) = n.
Proof.
  intros n H. destruct (Z.eq_dec n 0) as [->|]; [reflexivity|].
  rewrite be_min_pos by lia. pose proof (be_min_size n ltac:(lia)). pose proof (log8_nonneg n).
  apply be_dec_enc_small. rewrite Z2Nat.id by lia. lia.
Qed.

Lemma zlen_be_min : forall n, 0 < n -> zlen (be_min n) = Z.log2 n / 8 + 1.
Proof.
  intros n H. rewrite be_min_pos, zlen_be_enc by lia. pose proof (log8_nonneg n). lia.
Qed.

Lemma pow256_pos : forall k, 0 <= k -> 0 < 256 ^ k.
Proof. intros. apply Z.pow_pos_nonneg; lia. Qed.

Lemma pow256_lt_inv : forall a b, 256 ^ a < 256 ^ b -> 0 <= b -> a < b.
Proof. intros a b H Hb. apply (Z.pow_lt_mono_r_iff 256); lia. Qed.

Lemma pow256_between : forall n j k, 0 <= j -> 0 <= k ->
  256 ^ j <= n < 256 ^ (j + 1) -> 256 ^ k <= n < 256 ^ (k + 1) -> j = k.
Proof.
  intros n j k Hj Hk A B.
  assert (j < k + 1) by (apply pow256_lt_inv; lia).
  assert (k < j + 1) by (apply pow256_lt_inv; lia). lia.
Qed.

Lemma zlen_be_min_iff : forall n k, 0 <= k -> 256 ^ k <= n < 256 ^ (k + 1) ->
  zlen (be_min n) = k + 1.
Proof.
  intros n k Hk H. pose proof (pow256_pos k Hk).
  rewrite zlen_be_min by lia. f_equal.
  eapply pow256_between; [apply log8_nonneg|exact Hk|apply be_min_size; lia|exact H].
Qed.

Lemma be_min_len_le : forall n k, 0 <= n < 256 ^ k -> 0 <= k -> zlen (be_min n) <= k.
Proof.
  intros n k H Hk. destruct (Z.eq_dec n 0) as [->|]; [rewrite be_min_0; cbn; lia|].
  rewrite zlen_be_min by lia. pose proof (be_min_size n ltac:(lia)).
  assert (Z.log2 n / 8 < k) by (apply pow256_lt_inv; lia). lia.
Qed.

Lemma be_min_len_gt : forall n k, 256 ^ k <= n -> 0 <= k -> k < zlen (be_min n).
Proof.
  intros n k H Hk. pose proof (pow256_pos k Hk).
  rewrite zlen_be_min by lia. pose proof (be_min_size n ltac:(lia)). pose proof (log8_nonneg n).
  apply pow256_lt_inv; lia.
Qed.

(** Digit lists without a leading zero are determined by their value. *)
Lemma be_dec_lead : forall b l, byte b -> bytes l -> b <> 0 ->
  256 ^ zlen l <= be_dec (b :: l) < 256 ^ (zlen l + 1).
Proof.
  intros b l Hb Hl H0. pose proof (be_dec_bound l Hl). pose proof (zlen_nonneg _ l).
  rewrite be_dec_cons, Z.pow_add_r by lia. unfold byte in Hb.
  pose proof (pow256_pos (zlen l)). nia.
Qed.

Lemma be_min_unique : forall l, bytes l -> (forall b r, l = b :: r -> b <> 0) ->
  be_min (be_dec l) = l.
Proof.
  intros [|b l] H H0; [reflexivity|].
  apply bytes_cons in H. destruct H as [Hb Hl].
  specialize (H0 b l eq_refl).
  pose proof (be_dec_lead b l Hb Hl H0) as B. pose proof (zlen_nonneg _ l) as N.
  pose proof (pow256_pos (zlen l) N).
  assert (E : zlen (be_min (be_dec (b :: l))) = zlen (b :: l)).
  { rewrite zlen_cons. apply zlen_be_min_iff; auto. }
  apply be_dec_inj; [apply be_min_bytes|apply bytes_cons; auto|unfold zlen in E; lia|].
  apply be_dec_min. lia.
Qed.

Lemma be_min_cons : forall n, 0 < n -> exists b r, be_min n = b :: r /\ 0 < b < 256 /\ bytes r.
Proof.
  intros n H. pose proof (be_min_bytes n) as B.
  destruct (be_min n) as [|b r] eqn:E.
  - pose proof (be_dec_min n ltac:(lia)) as D. rewrite E in D. cbn in D. lia.
  - apply bytes_cons in B. destruct B as [Bb Br]. unfold byte in Bb.
    exists b, r. split; [reflexivity|]. split; [|exact Br].
    destruct (Z.eq_dec b 0) as [->|]; [|lia]. exfalso.
    pose proof (be_dec_min n ltac:(lia)) as D. rewrite E, be_dec_cons in D.
    pose proof (be_dec_bound r Br). pose proof (be_min_size n H).
    pose proof (zlen_be_min n H) as L. rewrite E, zlen_cons in L.
    replace (Z.log2 n / 8) with (zlen r) in * by lia. lia.
Qed.
