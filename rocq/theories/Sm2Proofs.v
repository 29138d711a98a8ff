(** Lemmas connecting the model Sm2.v with the specification Sm2Spec.v. *)
From Coq Require Import ZArith Znumtheory List Lia Bool String.
From Verif Require Import GoBase BeMin FpField GoElliptic Sm3Spec Sm3 Sm3Proofs Sm3Main PropsSm3.
From Verif Require Import Primes Sm2Primes WeiGroup Sm2Group Sm2Order Sm2Spec Sm2.
Import ListNotations.
Open Scope Z_scope.

(** * Constants *)
Lemma curveP_eq : curveP = sm2p. Proof. vm_compute. reflexivity. Qed.
Lemma curveA_eq : curveA = sm2p - 3. Proof. vm_compute. reflexivity. Qed.
Lemma curveB_eq : curveB = sm2b. Proof. vm_compute. reflexivity. Qed.
Lemma curveN_eq : curveN = sm2n. Proof. vm_compute. reflexivity. Qed.
Lemma curveGx_eq : curveGx = sm2gx. Proof. vm_compute. reflexivity. Qed.
Lemma curveGy_eq : curveGy = sm2gy. Proof. vm_compute. reflexivity. Qed.
Lemma sm2p_lt : sm2p < 2 ^ 256. Proof. reflexivity. Qed.
Lemma sm2n_lt : sm2n < 2 ^ 256. Proof. reflexivity. Qed.
Lemma sm2n_pos : 1 < sm2n. Proof. reflexivity. Qed.

(** * Byte encodings *)
Lemma be_enc_0 : forall n, be_enc n 0 = repeat 0 n.
Proof.
  induction n as [|n IH]; [reflexivity|]. cbn [be_enc]. change (0 / 256) with 0. change (0 mod 256) with 0.
  rewrite IH. change [0] with (repeat 0 1). rewrite <- repeat_app. f_equal. lia.
Qed.

Lemma be_enc_pad : forall n x, 0 <= x < 256 ^ Z.of_nat n -> zlen (be_min x) <= Z.of_nat n /\
  be_enc n x = repeat 0 (Z.to_nat (Z.of_nat n - zlen (be_min x))) ++ be_min x.
Proof.
  intros n x H. destruct (Z.eq_dec x 0) as [->|N].
  - rewrite be_min_0, app_nil_r, be_enc_0. split; [cbn; lia|]. rewrite zlen_nil. f_equal. lia.
  - pose proof (be_min_size x ltac:(lia)) as [L U]. pose proof (log8_nonneg x).
    assert (B : Z.log2 x / 8 < Z.of_nat n).
    { apply (Z.pow_lt_mono_r_iff 256); lia. }
    rewrite zlen_be_min by lia. split; [lia|].
    rewrite be_min_pos by lia. set (m := Z.to_nat (Z.log2 x / 8 + 1)).
    replace n with ((n - m) + m)%nat at 1 by (unfold m; lia). rewrite be_enc_app.
    rewrite Z.div_small by (unfold m; rewrite Z2Nat.id by lia; lia). rewrite be_enc_0. f_equal. f_equal. unfold m. lia.
Qed.

Lemma pow256_32 : 256 ^ Z.of_nat 32 = 2 ^ 256. Proof. reflexivity. Qed.

Lemma to32_abs : forall x, Z.abs x < 2 ^ 256 -> bigIntTo32Bytes x = Ret (b32 (Z.abs x)).
Proof.
  intros x H. unfold bigIntTo32Bytes, BigBytes, b32, KeyBytes.
  pose proof (be_enc_pad 32 (Z.abs x) ltac:(rewrite pow256_32; lia)) as (L & E).
  change (Z.of_nat 32) with 32 in *. rewrite E.
  destruct (Z.eqb_spec (zlen (be_min (Z.abs x))) 32) as [Q|Q].
  - rewrite Q. reflexivity.
  - unfold go_make. destruct (Z.ltb_spec (32 - zlen (be_min (Z.abs x))) 0); [lia|]. reflexivity.
Qed.
Lemma to32_ok : forall x, 0 <= x < 2 ^ 256 -> bigIntTo32Bytes x = Ret (b32 x).
Proof. intros x H. rewrite to32_abs by lia. rewrite Z.abs_eq by lia. reflexivity. Qed.
Lemma to32_panic : forall x, 2 ^ 256 <= Z.abs x -> bigIntTo32Bytes x = Panic PMake.
Proof.
  intros x H. unfold bigIntTo32Bytes, BigBytes, KeyBytes. set (a := Z.abs x) in *.
  assert (P : 0 < a) by lia. pose proof (be_min_size a P) as [L U]. pose proof (log8_nonneg a).
  assert (B : 32 < Z.log2 a / 8 + 1).
  { apply (Z.pow_lt_mono_r_iff 256); [lia|lia|]. eapply Z.le_lt_trans; [|exact U]. change (256 ^ 32) with (2 ^ 256). lia. }
  rewrite zlen_be_min by exact P. destruct (Z.eqb_spec (Z.log2 a / 8 + 1) 32); [lia|].
  unfold go_make. destruct (Z.ltb_spec (32 - (Z.log2 a / 8 + 1)) 0); [reflexivity|lia].
Qed.
Lemma BigBytes_ok : forall x, 0 <= x -> BigBytes x = be_min x.
Proof. intros x H. unfold BigBytes. rewrite Z.abs_eq by exact H. reflexivity. Qed.

Lemma b32_len : forall x, zlen (b32 x) = 32.
Proof. intro x. unfold b32. rewrite zlen_be_enc. reflexivity. Qed.
Lemma b32_length : forall x, List.length (b32 x) = 32%nat.
Proof. intro x. pose proof (b32_len x) as H. unfold zlen in H. lia. Qed.
Lemma b32_bytes : forall x, bytes (b32 x).
Proof. intro x. apply be_enc_bytes. Qed.
Lemma b32_dec : forall x, 0 <= x < 2 ^ 256 -> be_dec (b32 x) = x.
Proof. intros x H. apply be_dec_enc_small. rewrite pow256_32. exact H. Qed.
Lemma b32_of_dec : forall l, bytes l -> List.length l = 32%nat -> b32 (be_dec l) = l.
Proof. intros l H L. unfold b32. rewrite <- L. apply be_enc_dec. exact H. Qed.
Lemma be_dec_range32 : forall l, bytes l -> List.length l = 32%nat -> 0 <= be_dec l < 2 ^ 256.
Proof.
  intros l H L. pose proof (be_dec_bound l H) as B. unfold zlen in B. rewrite L in B. exact B.
Qed.

(** * Curve operations *)
Lemma xc_range : forall P, 0 <= xc P < 2 ^ 256.
Proof. intro P. unfold xc. pose proof (enc_range P). pose proof sm2p_lt. lia. Qed.
Lemma yc_range : forall P, 0 <= yc P < 2 ^ 256.
Proof. intro P. unfold yc. pose proof (enc_range P). pose proof sm2p_lt. lia. Qed.
Lemma enc_xy : forall P, enc P = (xc P, yc P).
Proof. intro P. unfold xc, yc. destruct (enc P); reflexivity. Qed.

Lemma base_mult : forall k, bytes k -> curveScalarBaseMult k = Ret (xc (pmul (be_dec k) G), yc (pmul (be_dec k) G)).
Proof.
  intros k H. unfold curveScalarBaseMult. rewrite curveP_eq, curveGx_eq, curveGy_eq.
  rewrite (ScalarMult_spec sm2gx sm2gy k G_on H). rewrite enc_xy. reflexivity.
Qed.
Lemma base_mult_z : forall k, 0 <= k -> curveScalarBaseMult (BigBytes k) = Ret (xc (pmul k G), yc (pmul k G)).
Proof.
  intros k H. rewrite BigBytes_ok by exact H. rewrite base_mult by apply be_min_bytes.
  rewrite be_dec_min by exact H. reflexivity.
Qed.
Lemma mult_z : forall x y k, on_curve (A (kf x) (kf y)) -> 0 <= k ->
  curveScalarMult x y (BigBytes k) = Ret (xc (pmul k (A (kf x) (kf y))), yc (pmul k (A (kf x) (kf y)))).
Proof.
  intros x y k On H. rewrite BigBytes_ok by exact H. unfold curveScalarMult. rewrite curveP_eq.
  rewrite (ScalarMult_spec x y _ On (be_min_bytes k)). rewrite be_dec_min by exact H. rewrite enc_xy. reflexivity.
Qed.
Lemma dec_coords : forall P, on_curve P -> dec (xc P) (yc P) = P.
Proof. exact dec_enc. Qed.
Lemma add_pts : forall P Q, on_curve P -> on_curve Q ->
  curveAdd (xc P) (yc P) (xc Q) (yc Q) = Ret (xc (padd P Q), yc (padd P Q)).
Proof.
  intros P Q HP HQ. unfold curveAdd. rewrite curveP_eq.
  rewrite Add_spec; rewrite ?dec_coords; try assumption. rewrite enc_xy. reflexivity.
Qed.
Lemma inf_test : forall P, on_curve P -> (IsEcPointInfinity (xc P) (yc P) = true <-> P = O).
Proof.
  intros P H. unfold IsEcPointInfinity. rewrite andb_true_iff, !Z.eqb_eq. rewrite <- (enc_O P H), enc_xy.
  split; [intros [-> ->]; reflexivity|]. intro E. injection E. auto.
Qed.
Lemma coords_on : forall P, on_curve P -> P <> O -> on_curve (A (kf (xc P)) (kf (yc P))) /\ A (kf (xc P)) (kf (yc P)) = P.
Proof.
  intros [|x y] H N; [contradiction N; reflexivity|]. unfold xc, yc. cbn [enc fst snd]. rewrite !kf_fv. split; [exact H|reflexivity].
Qed.

(** * Hashing *)
Lemma Writes_stands : forall cs d m, stands_for d m -> Forall good_chunk cs ->
  exists d2, Writes d cs = Ret d2 /\ stands_for d2 (m ++ List.concat cs).
Proof.
  induction cs as [|c cs IH]; intros d m S H.
  - exists d. cbn [List.concat]. rewrite app_nil_r. auto.
  - inversion H; subst. destruct (write_stands d m c S) as (d1 & E1 & S1); auto.
    destruct (IH d1 (m ++ c) S1) as (d2 & E2 & S2); auto.
    exists d2. cbn [Writes]. rewrite E1. cbn [bind List.concat]. rewrite app_assoc. auto.
Qed.
Lemma sized_Writes : forall cs d d', sized d -> Writes d cs = Ret d' -> sized d'.
Proof.
  induction cs as [|c cs IH]; intros d d' S E; cbn [Writes] in E; [injection E as <-; exact S|].
  apply bind_ret in E. destruct E as ([d1 n] & E1 & E2). apply sized_Write in E1; [|exact S]. eapply IH; eassumption.
Qed.
Lemma hashOf_ok : forall d cs, sized d -> Forall good_chunk cs -> zlen (List.concat cs) < 2 ^ 61 ->
  exists d', hashOf d cs = Ret (d', sm3_hash (List.concat cs)) /\ sized d'.
Proof.
  intros d cs S H L. unfold hashOf. rewrite (C03_reset_any_state d S).
  destruct (Writes_stands cs New [] stands_New H) as (d1 & E1 & S1). cbn [app] in S1.
  destruct (checkSum_stands d1 _ S1 L) as (d2 & E2 & _).
  exists d2. rewrite E1. cbn [bind]. unfold SumMethod. rewrite E2. split; [reflexivity|].
  apply sized_Writes in E1; [|exact sized_New]. apply sized_checkSum in E2; assumption.
Qed.
Lemma hashOf_empty : forall d pre post, sized d -> Forall good_chunk pre -> hashOf d (pre ++ [] :: post) = Panic PIndex.
Proof.
  intros d pre post S H. unfold hashOf. rewrite (C03_reset_any_state d S). clear d S.
  assert (W : forall pre d m, Forall good_chunk pre -> stands_for d m -> Writes d (pre ++ [] :: post) = Panic PIndex).
  { clear. induction pre as [|c pre IH]; intros d m H S; cbn [Writes app].
    - rewrite Write_empty. reflexivity.
    - inversion H; subst. destruct (write_stands d m c S) as (d1 & E1 & S1); auto.
      rewrite E1. cbn [bind]. apply (IH d1 (m ++ c) H3 S1). }
  rewrite (W pre New [] H stands_New). reflexivity.
Qed.
Lemma good32 : forall x, good_chunk (b32 x).
Proof.
  intro x. split; [apply b32_bytes|]. split; [|rewrite b32_len; reflexivity].
  intro E. pose proof (b32_len x) as H. rewrite E in H. discriminate.
Qed.
Lemma sm3_bytes : forall m, bytes (sm3_hash m).
Proof. intro m. apply concat_be4_bytes. Qed.
Lemma hash_words_length : forall m, List.length (hash_words m) = 8%nat.
Proof.
  intro m. unfold hash_words. generalize (chunks 64 (pad m)). intro l.
  assert (W : forall l V, List.length V = 8%nat -> List.length (fold_left (fun V b => CF V (words_of b)) l V) = 8%nat).
  { clear. induction l as [|b l IH]; intros V H; [exact H|]. cbn [fold_left]. apply IH. apply CF_length. exact H. }
  apply W. reflexivity.
Qed.
Lemma sm3_len : forall m, zlen (sm3_hash m) = 32.
Proof. intro m. unfold sm3_hash. rewrite concat_be4_len. unfold zlen. rewrite hash_words_length. reflexivity. Qed.
Lemma sm3_length : forall m, List.length (sm3_hash m) = 32%nat.
Proof. intro m. pose proof (sm3_len m) as H. unfold zlen in H. lia. Qed.

(** * The key derivation function *)
Lemma map2_nil_r : forall (f : Z -> Z -> Z) l, map2 f l [] = [].
Proof. intros f [|x l]; reflexivity. Qed.
Lemma map2_app : forall (f : Z -> Z -> Z) l1 l2 m1 m2, List.length l1 = List.length m1 ->
  map2 f (l1 ++ l2) (m1 ++ m2) = map2 f l1 m1 ++ map2 f l2 m2.
Proof.
  induction l1 as [|x l1 IH]; intros l2 [|y m1] m2 H; cbn in *; try discriminate; [reflexivity|].
  rewrite IH by lia. reflexivity.
Qed.
Lemma xor_ok : forall n data k, (n <= List.length data)%nat -> (n <= List.length k)%nat ->
  xor data k n = Ret (map2 Z.lxor (firstn n data) (firstn n k) ++ skipn n data).
Proof.
  induction n as [|n IH]; intros data k H1 H2; [destruct data; reflexivity|].
  destruct data as [|x data]; [cbn in H1; lia|]. destruct k as [|y k]; [cbn in H2; lia|].
  cbn [xor firstn skipn map2 app]. rewrite IH by (cbn in *; lia). reflexivity.
Qed.

Lemma kdf_block_length : forall z i, List.length (kdf_block z i) = 32%nat.
Proof. intros. apply sm3_length. Qed.
Lemma concat_blocks_length : forall z l, List.length (List.concat (map (kdf_block z) l)) = (32 * List.length l)%nat.
Proof.
  induction l as [|i l IH]; [reflexivity|]. cbn [map List.concat List.length]. rewrite app_length, IH, kdf_block_length. lia.
Qed.
Lemma kdf_from_length : forall z i n, List.length (kdf_from z i n) = n.
Proof.
  intros. unfold kdf_from. rewrite firstn_length, concat_blocks_length, seq_length.
  pose proof (Nat.div_mod n 32 ltac:(lia)). pose proof (Nat.mod_upper_bound n 32 ltac:(lia)). lia.
Qed.
Lemma kdf_from_short : forall z i n, (n <= 32)%nat -> kdf_from z i n = firstn n (kdf_block z i).
Proof.
  intros z i n H. unfold kdf_from. replace (n / 32 + 1)%nat with (S (n / 32)) by lia. cbn [seq map List.concat].
  rewrite firstn_app, kdf_block_length. replace (n - 32)%nat with 0%nat by lia. cbn [firstn]. apply app_nil_r.
Qed.
Lemma kdf_from_long : forall z i n, (32 <= n)%nat -> kdf_from z i n = kdf_block z i ++ kdf_from z (S i) (n - 32).
Proof.
  intros z i n H. unfold kdf_from.
  assert (D : (n / 32 = (n - 32) / 32 + 1)%nat).
  { replace n with ((n - 32) + 1 * 32)%nat at 1 by lia. rewrite Nat.div_add by lia. reflexivity. }
  rewrite D. replace ((n - 32) / 32 + 1 + 1)%nat with (S ((n - 32) / 32 + 1)) by lia. cbn [seq map List.concat].
  rewrite firstn_app, kdf_block_length. rewrite firstn_all2 by (rewrite kdf_block_length; lia). reflexivity.
Qed.

Lemma map2_len : forall (f : Z -> Z -> Z) l m, List.length l = List.length m -> List.length (map2 f l m) = List.length l.
Proof. induction l as [|x l IH]; intros [|y m] H; cbn in *; try discriminate; [reflexivity|]. rewrite IH by lia. reflexivity. Qed.

Lemma good_be4 : forall x, good_chunk (be_enc 4 x).
Proof.
  intro x. assert (L : zlen (be_enc 4 x) = 4) by (rewrite zlen_be_enc; reflexivity).
  split; [apply be_enc_bytes|]. split; [|rewrite L; reflexivity]. intro E. rewrite E in L. discriminate.
Qed.

Lemma kdf_loop_ok : forall fuel d x y ct data, sized d ->
  (List.length data <= fuel)%nat -> Z.of_nat ct + zlen data < 2 ^ 32 ->
  exists d', kdf_loop fuel d (b32 x) (b32 y) (Z.of_nat ct) data =
    Ret (d', map2 Z.lxor data (kdf_from (b32 x ++ b32 y) (S ct) (List.length data))) /\ sized d'.
Proof.
  induction fuel as [|fuel IH]; intros d x y ct data S HL HC.
  - destruct data; [|cbn in HL; lia]. exists d. split; [reflexivity|exact S].
  - destruct data as [|b data]; [exists d; split; [reflexivity|exact S]|].
    set (l := b :: data) in *. cbn [kdf_loop].
    assert (Hne : l <> []) by discriminate. clearbody l. destruct l as [|b' l']; [contradiction|]. set (l := b' :: l') in *.
    pose proof (zlen_nonneg _ l).
    assert (Hl : 1 <= zlen l) by (unfold l; rewrite zlen_cons; pose proof (zlen_nonneg _ l'); lia).
    assert (EC : u32 (Z.of_nat ct + 1) = Z.of_nat (Datatypes.S ct)).
    { unfold u32. rewrite Z.mod_small by lia. lia. }
    cbv zeta. rewrite EC.
    destruct (hashOf_ok d [b32 x; b32 y; be_enc 4 (Z.of_nat (Datatypes.S ct))] S) as (d1 & E1 & S1).
    { apply Forall_cons; [apply good32|]. apply Forall_cons; [apply good32|]. apply Forall_cons; [apply good_be4|constructor]. }
    { cbn [List.concat]. rewrite !zlen_app, !b32_len, zlen_be_enc. reflexivity. }
    rewrite E1. cbn [bind]. cbn [List.concat]. rewrite app_nil_r, app_assoc.
    change (sm3_hash ((b32 x ++ b32 y) ++ be_enc 4 (Z.of_nat (Datatypes.S ct)))) with (kdf_block (b32 x ++ b32 y) (Datatypes.S ct)).
    set (z := b32 x ++ b32 y). set (blk := kdf_block z (Datatypes.S ct)).
    assert (LB : List.length blk = 32%nat) by apply kdf_block_length.
    rewrite go_slice_ret by (unfold zlen; rewrite ?LB; lia). cbn [bind].
    replace (sub blk 0 32) with blk.
    2:{ unfold sub. cbn [Z.to_nat skipn]. rewrite firstn_all2; [reflexivity|]. change (Z.to_nat (32 - 0)) with 32%nat. lia. }
    set (n := Z.to_nat (Z.min (zlen l) DigestLength)).
    assert (Hn : n = Nat.min (List.length l) 32) by (unfold n, zlen, DigestLength; lia).
    rewrite xor_ok by lia. cbn [bind].
    assert (LX : List.length (map2 Z.lxor (firstn n l) (firstn n blk)) = n).
    { rewrite map2_len; rewrite !firstn_length; lia. }
    rewrite skipn_app_exact by (symmetry; exact LX). rewrite firstn_app_exact by (symmetry; exact LX).
    destruct (IH d1 x y (Datatypes.S ct) (skipn n l) S1) as (d2 & E2 & S2).
    { rewrite skipn_length. unfold zlen in Hl. lia. }
    { rewrite zlen_skipn by lia. unfold zlen in *. lia. }
    rewrite E2. cbn [bind]. exists d2. split; [|exact S2]. f_equal. f_equal. fold z.
    destruct (Nat.le_gt_cases (List.length l) 32) as [Q|Q].
    + rewrite (skipn_all2 l) by lia. cbn [map2]. rewrite app_nil_r. rewrite kdf_from_short by exact Q.
      fold blk. replace n with (List.length l) by lia. rewrite firstn_all. reflexivity.
    + rewrite (kdf_from_long z (Datatypes.S ct) (List.length l)) by lia. fold blk. rewrite <- (firstn_skipn n l) at 4.
      rewrite map2_app by (rewrite firstn_length; lia). f_equal.
      * rewrite (firstn_all2 blk) by lia. reflexivity.
      * rewrite skipn_length. replace (List.length l - n)%nat with (List.length l - 32)%nat by lia. reflexivity.
Qed.

Lemma kdf_ok : forall d x y data, sized d -> 0 <= x < 2 ^ 256 -> 0 <= y < 2 ^ 256 -> zlen data < 2 ^ 32 ->
  exists d', kdf d x y data = Ret (d', map2 Z.lxor data (KDF (b32 x ++ b32 y) (List.length data))) /\ sized d'.
Proof.
  intros d x y data S Hx Hy HL. unfold kdf. rewrite !to32_ok by assumption. cbn [bind].
  apply (kdf_loop_ok (List.length data) d x y 0 data S); [lia|exact HL].
Qed.
Lemma kdf_point : forall d P data, sized d -> zlen data < 2 ^ 32 ->
  exists d', kdf d (xc P) (yc P) data = Ret (d', enc_c2 P data) /\ sized d'.
Proof. intros d P data S HL. apply kdf_ok; auto using xc_range, yc_range. Qed.

Lemma enc_c2_length : forall P m, List.length (enc_c2 P m) = List.length m.
Proof. intros. unfold enc_c2. apply map2_len. unfold KDF. rewrite kdf_from_length. reflexivity. Qed.
Lemma concat_blocks_bytes : forall z l, bytes (List.concat (map (kdf_block z) l)).
Proof.
  induction l as [|i l IH]; [constructor|]. cbn [map List.concat]. apply bytes_app. split; [apply sm3_bytes|exact IH].
Qed.
Lemma KDF_bytes : forall z n, bytes (KDF z n).
Proof. intros. apply bytes_firstn. apply concat_blocks_bytes. Qed.
Lemma KDF_length : forall z n, List.length (KDF z n) = n.
Proof. intros. apply kdf_from_length. Qed.
Lemma lxor_byte : forall a b, byte a -> byte b -> byte (Z.lxor a b).
Proof.
  unfold byte. intros a b Ha Hb.
  assert (N : 0 <= Z.lxor a b) by (apply Z.lxor_nonneg; lia). split; [exact N|].
  destruct (Z.eq_dec (Z.lxor a b) 0) as [->|Z0]; [lia|].
  apply (Z.log2_lt_cancel _ 256). change (Z.log2 256) with 8.
  pose proof (Z.log2_lxor a b ltac:(lia) ltac:(lia)).
  assert (T : forall x, 0 <= x < 256 -> Z.log2 x < 8).
  { intros x Hx. destruct (Z.eq_dec x 0) as [->|]; [reflexivity|]. apply Z.log2_lt_pow2; lia. }
  pose proof (T a Ha). pose proof (T b Hb). lia.
Qed.
Lemma map2_xor_bytes : forall l m, bytes l -> bytes m -> bytes (map2 Z.lxor l m).
Proof.
  induction l as [|x l IH]; intros [|y m] H1 H2; try constructor.
  - apply bytes_cons in H1. apply bytes_cons in H2. apply lxor_byte; tauto.
  - apply bytes_cons in H1. apply bytes_cons in H2. apply IH; tauto.
Qed.
Lemma map2_xor_invol : forall l m, List.length l = List.length m -> map2 Z.lxor (map2 Z.lxor l m) m = l.
Proof.
  induction l as [|x l IH]; intros [|y m] H; cbn in *; try discriminate; [reflexivity|].
  rewrite IH by lia. f_equal. rewrite Z.lxor_assoc, Z.lxor_nilpotent, Z.lxor_0_r. reflexivity.
Qed.
Lemma enc_c2_invol : forall P m, enc_c2 P (enc_c2 P m) = m.
Proof.
  intros. unfold enc_c2 at 1. rewrite enc_c2_length. apply map2_xor_invol. symmetry. apply KDF_length.
Qed.
Lemma enc_c2_bytes : forall P m, bytes m -> bytes (enc_c2 P m).
Proof. intros. apply map2_xor_bytes; [assumption|apply KDF_bytes]. Qed.

(** * The point (0, 0) *)
Lemma double_z0 : forall x y z, (z = 0 \/ (x = 0 /\ y = 0 /\ z = 1)) -> exists x' y', doubleJacobian sm2p (x, y, z) = (x', y', 0).
Proof.
  intros x y z H. unfold doubleJacobian. cbv zeta.
  match goal with |- exists _ _, (_, _, ?t) = _ => assert (E : t = 0) end; [|rewrite E; eauto].
  destruct H as [->|(-> & -> & ->)]; [|vm_compute; reflexivity].
  change ((0 * 0) mod sm2p) with 0. rewrite Z.add_0_r, Z.sub_0_r.
  assert (P : 0 < sm2p) by reflexivity. generalize P. generalize sm2p. clear P. intros p P.
  assert (Q : 0 <= y * y - (y * y) mod p).
  { pose proof (Z.mod_le (y * y) p ltac:(nia) P). lia. }
  assert (FS : forall v, 0 <= v -> fix_sign p v = v).
  { intros v Hv. unfold fix_sign. destruct (Z.ltb_spec v 0); [lia|reflexivity]. }
  rewrite !FS by (rewrite ?FS; exact Q). rewrite Zminus_mod, Zmod_mod, Z.sub_diag. apply Z.mod_0_l. lia.
Qed.
Lemma mult_origin : forall k, ScalarMult sm2p 0 0 k = Ret (0, 0).
Proof.
  intro k. unfold ScalarMult.
  set (good := fun j : Z * Z * Z => snd j = 0 \/ j = (0, 0, 1)).
  assert (DB : forall j, good j -> snd (doubleJacobian sm2p j) = 0).
  { intros [[x y] z] [H|H]; [cbn [snd] in H; subst z|injection H as -> -> ->];
    [destruct (double_z0 x y 0) as (x' & y' & E)|destruct (double_z0 0 0 1) as (x' & y' & E)]; auto; rewrite E; reflexivity. }
  assert (BIT : forall b j, good j -> good (snd (sm_bit sm2p 0 0 (b, j)))).
  { intros b j H. unfold sm_bit. cbv zeta. apply DB in H. destruct (doubleJacobian sm2p j) as [[x y] z].
    cbn [snd] in *. subst z. destruct (Z.land b 128 =? 128); [right|left]; reflexivity. }
  assert (BYTE : forall b j, good j -> good (sm_byte sm2p 0 0 j b)).
  { intros b j H. unfold sm_byte. cbn [for_loop].
    assert (W : forall st, good (snd st) -> good (snd (sm_bit sm2p 0 0 st))) by (intros [b' j']; apply BIT).
    do 8 apply W. exact H. }
  assert (FOLD : forall k j, good j -> good (fold_left (sm_byte sm2p 0 0) k j)).
  { clear k. induction k as [|b k IH]; intros j H; [exact H|]. cbn [fold_left]. apply IH, BYTE, H. }
  specialize (FOLD k (0, 0, 0) ltac:(left; reflexivity)).
  destruct (fold_left (sm_byte sm2p 0 0) k (0, 0, 0)) as [[x y] z]. unfold affineFromJacobian.
  destruct FOLD as [H|H]; [cbn [snd] in H; subst z; reflexivity|]. injection H as -> -> ->. vm_compute. reflexivity.
Qed.

(** Scalar multiplication of a point given by Go coordinates, (0, 0) included. *)
Lemma mult_dec : forall x y k, on_curve (dec x y) -> bytes k ->
  curveScalarMult x y k = Ret (xc (pmul (be_dec k) (dec x y)), yc (pmul (be_dec k) (dec x y))).
Proof.
  intros x y k On Hk. unfold curveScalarMult. rewrite curveP_eq. unfold dec in *.
  destruct (Z.eqb_spec x 0) as [->|Hx]; [destruct (Z.eqb_spec y 0) as [->|Hy]|]; cbn [andb] in *.
  - rewrite mult_origin, pmul_O. reflexivity.
  - rewrite (ScalarMult_spec _ _ k On Hk), enc_xy. reflexivity.
  - rewrite (ScalarMult_spec _ _ k On Hk), enc_xy. reflexivity.
Qed.
Lemma mult_dec_z : forall x y k, on_curve (dec x y) -> 0 <= k ->
  curveScalarMult x y (BigBytes k) = Ret (xc (pmul k (dec x y)), yc (pmul k (dec x y))).
Proof.
  intros x y k On H. rewrite BigBytes_ok by exact H. rewrite mult_dec by (try assumption; apply be_min_bytes).
  rewrite be_dec_min by exact H. reflexivity.
Qed.
Lemma mult_pt : forall P k, on_curve P -> 0 <= k ->
  curveScalarMult (xc P) (yc P) (BigBytes k) = Ret (xc (pmul k P), yc (pmul k P)).
Proof.
  intros P k On H. rewrite mult_dec_z by (rewrite ?dec_coords; assumption). rewrite dec_coords by exact On. reflexivity.
Qed.

(** * Nonces *)
Lemma nonces_fuel : forall f g tape, (List.length tape <= f)%nat -> (List.length tape <= g)%nat ->
  nonces_f f tape = nonces_f g tape.
Proof.
  induction f as [|f IH]; intros [|g] tape Hf Hg; cbn [nonces_f]; try reflexivity.
  - destruct tape; [reflexivity|cbn in Hf; lia].
  - destruct tape; [reflexivity|cbn in Hg; lia].
  - destruct (Nat.ltb_spec (List.length tape) 32); [reflexivity|]. cbv zeta.
    rewrite (IH g) by (rewrite skipn_length; lia). reflexivity.
Qed.
Lemma nonces_short : forall tape, (List.length tape < 32)%nat -> nonces tape = [].
Proof.
  intros tape H. unfold nonces. destruct (List.length tape) eqn:E; [reflexivity|]. cbn [nonces_f].
  rewrite E. destruct (Nat.ltb_spec (S n) 32); [reflexivity|lia].
Qed.
Lemma nonces_step : forall tape, (32 <= List.length tape)%nat ->
  nonces tape = let k := be_dec (firstn 32 tape) in
                let rest := skipn 32 tape in
                if (1 <=? k) && (k <? sm2n) then (k, rest) :: nonces rest else nonces rest.
Proof.
  intros tape H. unfold nonces at 1. destruct (List.length tape) eqn:E; [lia|]. cbn [nonces_f].
  rewrite E. destruct (Nat.ltb_spec (S n) 32); [lia|]. cbv zeta. unfold nonces.
  rewrite (nonces_fuel n (List.length (skipn 32 tape))) by (rewrite ?skipn_length; lia). reflexivity.
Qed.

(** The messages of an exhausted source. *)
Definition is_eof (e : string) : Prop := e = "EOF"%string \/ e = "unexpected EOF"%string.
Lemma eof_is : forall tape, is_eof (eof_msg tape).
Proof. intros [|b tape]; [left|right]; reflexivity. Qed.

Lemma rand_int_ok : forall fuel tape, (List.length tape <= fuel)%nat -> bytes tape ->
  (exists k r, rand_int_loop fuel sm2n tape = (OK k, r) /\ 0 <= k < sm2n /\ (List.length r < List.length tape)%nat /\
     bytes r /\ nonces tape = if 1 <=? k then (k, r) :: nonces r else nonces r) \/
  (exists e, is_eof e /\ rand_int_loop fuel sm2n tape = (ERR e, []) /\ nonces tape = []).
Proof.
  induction fuel as [|fuel IH]; intros tape HL HB; cbn [rand_int_loop]; unfold ReadFull;
    destruct (Nat.ltb_spec (List.length tape) 32) as [Q|Q].
  - right. exists (eof_msg tape). split; [apply eof_is|]. split; [reflexivity|apply nonces_short; exact Q].
  - lia.
  - right. exists (eof_msg tape). split; [apply eof_is|]. split; [reflexivity|apply nonces_short; exact Q].
  - cbv zeta. pose proof (be_dec_bound (firstn 32 tape) (bytes_firstn 32 _ HB)) as NN. rewrite (nonces_step tape Q).
    cbv zeta. destruct (Z.ltb_spec (be_dec (firstn 32 tape)) sm2n) as [C|C].
    + left. eexists _, _. split; [reflexivity|]. split; [lia|]. split; [rewrite skipn_length; lia|].
      split; [apply bytes_skipn; exact HB|]. rewrite andb_true_r. reflexivity.
    + rewrite andb_false_r. destruct (IH (skipn 32 tape)) as [(k & r & E & R & L & B & N)|(e & EE & E & N)];
        [rewrite skipn_length; lia|apply bytes_skipn; exact HB| |].
      * left. exists k, r. rewrite skipn_length in L. repeat (split; [auto; lia|]). exact N.
      * right. exists e. auto.
Qed.

Lemma nextK_loop_ok : forall fuel tape, (List.length tape <= fuel)%nat -> bytes tape ->
  (exists k r, nextK_loop fuel sm2n tape = (OK k, r) /\ 1 <= k < sm2n /\ (List.length r < List.length tape)%nat /\
     bytes r /\ nonces tape = (k, r) :: nonces r) \/
  (exists e, is_eof e /\ nextK_loop fuel sm2n tape = (ERR e, []) /\ nonces tape = []).
Proof.
  induction fuel as [|fuel IH]; intros tape HL HB; cbn [nextK_loop]; unfold rand_Int;
    destruct (rand_int_ok (List.length tape) tape (le_n _) HB) as [(k & r & -> & R & L & B & N)|(e & EE & -> & N)];
    try (right; exists e; auto; fail).
  - lia.
  - destruct (Z.leb_spec 1 k) as [C|C].
    + left. exists k, r. split; [reflexivity|]. split; [lia|]. auto.
    + rewrite N. destruct (IH r) as [(k' & r' & E & R' & L' & B' & N')|(e & EE & E & N')]; [lia|exact B| |].
      * left. exists k', r'. split; [exact E|]. split; [lia|]. split; [lia|]. auto.
      * right. exists e. auto.
Qed.
Lemma nextK_ok : forall tape, bytes tape ->
  (exists k r, nextK curveN tape = (OK k, r) /\ 1 <= k < sm2n /\ (List.length r < List.length tape)%nat /\
     bytes r /\ nonces tape = (k, r) :: nonces r) \/
  (exists e, is_eof e /\ nextK curveN tape = (ERR e, []) /\ nonces tape = []).
Proof. intros tape HB. rewrite curveN_eq. apply nextK_loop_ok; [apply le_n|exact HB]. Qed.

(** * Encryption *)
Lemma notEncrypted_ok : forall l m, List.length l = List.length m ->
  notEncrypted l m = Ret (if list_eq_dec Z.eq_dec l m then true else false).
Proof.
  induction l as [|x l IH]; intros [|y m] H; cbn in H; try discriminate; [reflexivity|]. cbn [notEncrypted].
  destruct (Z.eqb_spec x y) as [->|N].
  - rewrite IH by lia. destruct (list_eq_dec Z.eq_dec l m); destruct (list_eq_dec Z.eq_dec (y :: l) (y :: m)); congruence.
  - destruct (list_eq_dec Z.eq_dec (x :: l) (y :: m)); congruence.
Qed.
Lemma Marshal_pt : forall P, Marshal (xc P) (yc P) = Ret (4 :: point_bytes P).
Proof.
  intro P. unfold Marshal. pose proof (xc_range P). pose proof (yc_range P).
  rewrite (proj2 (Z.leb_le 0 (xc P))), (proj2 (Z.leb_le 0 (yc P))), (proj2 (Z.ltb_lt (xc P) _)), (proj2 (Z.ltb_lt (yc P) _)) by lia.
  reflexivity.
Qed.

(** The nonce is usable when the key stream changes the message. *)
Definition masks (P : point) (m : list Z) (k : Z) : bool :=
  if list_eq_dec Z.eq_dec (enc_c2 (pmul k P) m) m then false else true.

Lemma encrypt_loop_ok : forall fuel pub inp d tape, (List.length tape <= fuel)%nat -> bytes tape ->
  on_curve (dec (X pub) (Y pub)) -> zlen inp < 2 ^ 32 -> sized d ->
  match find (fun kr => masks (dec (X pub) (Y pub)) inp (fst kr)) (nonces tape) with
  | Some (k, r) => exists d', sized d' /\
      let S := pmul k (dec (X pub) (Y pub)) in
      encrypt_loop fuel pub inp inp d tape = Ret (OK (4 :: point_bytes (pmul k G), enc_c2 S inp, xc S, yc S, d'), r)
  | None => exists e, is_eof e /\ encrypt_loop fuel pub inp inp d tape = Ret (ERR e, [])
  end.
Proof.
  induction fuel as [|fuel IH]; intros pub inp d tape HL HB On HI Sd; cbn [encrypt_loop];
    destruct (nextK_ok tape HB) as [(k & r & -> & R & L & B & N)|(e & EE & -> & N)]; try (rewrite N; cbn [find]; exists e; auto; fail).
  - lia.
  - cbv zeta. rewrite base_mult_z by lia. cbn [bind]. rewrite Marshal_pt. cbn [bind].
    rewrite mult_dec_z by (assumption || lia). cbn [bind]. set (P := dec (X pub) (Y pub)) in *.
    destruct (kdf_point d (pmul k P) inp Sd HI) as (d' & -> & Sd'). cbn [bind].
    rewrite notEncrypted_ok by apply enc_c2_length. cbn [bind]. rewrite N. cbn [find fst].
    change (if list_eq_dec Z.eq_dec (enc_c2 (pmul k P) inp) inp then true else false) with
           (if list_eq_dec Z.eq_dec (enc_c2 (pmul k P) inp) inp then true else false).
    unfold masks at 1. destruct (list_eq_dec Z.eq_dec (enc_c2 (pmul k P) inp) inp) as [E|E]; cbn [negb].
    + rewrite E. apply IH; try assumption. lia.
    + exists d'. split; [exact Sd'|reflexivity].
Qed.

(** The ciphertext for a nonce. *)
Definition ciphertext (P : point) (m : list Z) (k t : Z) : list Z :=
  let S := pmul k P in
  4 :: point_bytes (pmul k G) ++ (if t =? 1 then enc_c2 S m ++ enc_c3 S m else enc_c3 S m ++ enc_c2 S m).

Lemma Encrypt_ok : forall pub inp t tape, bytes tape -> bytes inp -> on_curve (dec (X pub) (Y pub)) ->
  zlen inp < 2 ^ 31 -> inp <> [] ->
  match find (fun kr => masks (dec (X pub) (Y pub)) inp (fst kr)) (nonces tape) with
  | Some (k, r) => Encrypt pub inp t tape =
      Ret (if (t =? 1) || (t =? 2) then OK (ciphertext (dec (X pub) (Y pub)) inp k t) else ERR (unknownType t), r)
  | None => exists e, is_eof e /\ Encrypt pub inp t tape = Ret (ERR e, [])
  end.
Proof.
  intros pub inp t tape HB HI On HL NE.
  pose proof (encrypt_loop_ok (List.length tape) pub inp New tape (le_n _) HB On ltac:(lia) sized_New) as H.
  destruct (find _ (nonces tape)) as [[k r]|].
  - destruct H as (d' & Sd & H). unfold Encrypt. cbv zeta in H. rewrite H. cbn [bind].
    set (P := dec (X pub) (Y pub)) in *.
    rewrite !to32_ok by (apply xc_range || apply yc_range). cbn [bind].
    destruct (hashOf_ok d' [b32 (xc (pmul k P)); inp; b32 (yc (pmul k P))] Sd) as (d2 & E2 & _).
    { apply Forall_cons; [apply good32|]. apply Forall_cons; [split; [exact HI|split; [exact NE|exact HL]]|].
      apply Forall_cons; [apply good32|constructor]. }
    { cbn [List.concat]. rewrite app_nil_r, !zlen_app, !b32_len. lia. }
    rewrite E2. cbn [bind List.concat]. rewrite app_nil_r. fold (enc_c3 (pmul k P) inp). unfold C1C2C3, C1C3C2, ciphertext. cbv zeta.
    destruct (t =? 1); cbn [orb]; [reflexivity|]. destruct (t =? 2); reflexivity.
  - destruct H as (e & EE & H). exists e. split; [exact EE|]. unfold Encrypt. rewrite H. reflexivity.
Qed.

(** An empty message. *)
Lemma Encrypt_empty : forall pub t tape, bytes tape -> on_curve (dec (X pub) (Y pub)) ->
  exists e, is_eof e /\ Encrypt pub [] t tape = Ret (ERR e, []).
Proof.
  intros pub t tape HB On.
  pose proof (encrypt_loop_ok (List.length tape) pub [] New tape (le_n _) HB On ltac:(reflexivity) sized_New) as H.
  replace (find _ (nonces tape)) with (@None (Z * list Z)) in H.
  - destruct H as (e & EE & H). exists e. split; [exact EE|]. unfold Encrypt. rewrite H. reflexivity.
  - symmetry. generalize (nonces tape). intro l. induction l as [|kr l IH]; [reflexivity|]. cbn [find].
    unfold masks at 1. destruct (list_eq_dec Z.eq_dec (enc_c2 (pmul (fst kr) (dec (X pub) (Y pub))) []) []) as [E|E];
      [exact IH|contradiction E; reflexivity].
Qed.
