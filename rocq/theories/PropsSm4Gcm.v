(** GCM of crypto/cipher with this library's SM4 (C134). *)
From Coq Require Import ZArith List Lia Bool String.
From Verif Require Import GoBase Sm3 Sm3Proofs.
From Verif Require Sm4Spec.
From Verif Require Import Sm4 Sm4Proofs PropsSm4Util GoStream PropsSm4Stream GoGcm.
Import ListNotations.
Open Scope Z_scope.

(** * What GCM is (NIST SP 800-38D) *)

(** A block is a number of 128 bits; its highest bit is the coefficient of x^0. Multiplication by x, modulo x^128 + x^7 + x^2 + x + 1. *)
Definition gcm_R : Z := 0xe1 * 2 ^ 120.
Definition dbl (v : Z) : Z := Z.lxor (Z.shiftr v 1) (if Z.odd v then gcm_R else 0).
(** The product of the [n] coefficients of [x] in the bits below [n] with [v]. *)
Fixpoint gf_mul (n : nat) (x v : Z) : Z :=
  match n with O => 0 | S m => Z.lxor (if Z.testbit x (Z.of_nat m) then v else 0) (gf_mul m x (dbl v)) end.
Definition ghash (h : Z) (blocks : list Z) : Z := fold_left (fun y b => gf_mul 128 (Z.lxor y b) h) blocks 0.
(** The blocks of a byte string, the last one filled up with zeros. *)
Fixpoint first_blocks (n : nat) (l : list Z) : list Z :=
  match n with O => [] | S n => be_dec (firstn 16 (l ++ repeat 0 16)) :: first_blocks n (skipn 16 l) end.
Definition blocks (l : list Z) : list Z := first_blocks ((List.length l + 15) / 16) l.
Definition hkey (key : list Z) : Z := be_dec (Sm4Spec.sm4_enc key (repeat 0 16)).
Definition j0 (key nonce : list Z) : list Z :=
  if zlen nonce =? 12 then nonce ++ [0; 0; 0; 1] else be_enc 16 (ghash (hkey key) (blocks nonce ++ [zlen nonce * 8])).
(** Byte [i] of the key stream: 32-bit counters that follow the one in [j0]. *)
Definition gcm_byte (key nonce : list Z) (i : nat) : Z :=
  let j := j0 key nonce in nth (i mod 16) (Sm4Spec.sm4_enc key (firstn 12 j ++ be_enc 4 (be_dec (skipn 12 j) + 1 + Z.of_nat (i / 16)))) 0.
Definition gcm_tag (key nonce data cipher : list Z) : list Z :=
  map (fun '(a, b) => Z.lxor a b)
    (combine (be_enc 16 (ghash (hkey key) (blocks data ++ blocks cipher ++ [zlen data * 8 * 2 ^ 64 + zlen cipher * 8]))) (Sm4Spec.sm4_enc key (j0 key nonce))).

Lemma enc_bytes : forall key b, bytes (Sm4Spec.sm4_enc key b).
Proof. intros key b. apply crypt_bytes. Qed.
Local Opaque Sm4Spec.sm4_enc.

(** * The field *)

Definition val (f : fe) : Z := fe_low f * 2 ^ 64 + fe_high f.
Definition wf (f : fe) : Prop := 0 <= fe_low f < 2 ^ 64 /\ 0 <= fe_high f < 2 ^ 64.
Lemma val_bits : forall f i, wf f -> 0 <= i -> Z.testbit (val f) i = if i <? 64 then Z.testbit (fe_high f) i else Z.testbit (fe_low f) (i - 64).
Proof.
  intros f i [L H] I. unfold val. destruct (Z.ltb_spec i 64) as [B|B].
  - rewrite <- (Z.mod_pow2_bits_low _ 64) by lia. rewrite Z.add_comm, Z_mod_plus_full, Z.mod_small by lia. reflexivity.
  - replace i with ((i - 64) + 64) at 1 by lia. rewrite <- Z.div_pow2_bits by lia. rewrite Z.div_add_l, Z.div_small, Z.add_0_r by lia. reflexivity.
Qed.
Lemma high_zero : forall x i, 0 <= x < 2 ^ 64 -> 64 <= i -> Z.testbit x i = false.
Proof.
  intros x i H I. destruct (Z.eq_dec x 0) as [->|N]; [apply Z.bits_0|]. apply Z.bits_above_log2; [lia|]. assert (Z.log2 x < 64) by (apply Z.log2_lt_pow2; lia). lia.
Qed.
Lemma add_wf : forall a b, wf a -> wf b -> wf (gcmAdd a b).
Proof. intros a b [A1 A2] [B1 B2]. split; cbn [fe_low fe_high gcmAdd]; apply lxor_range; lia. Qed.
Lemma val_add : forall a b, wf a -> wf b -> val (gcmAdd a b) = Z.lxor (val a) (val b).
Proof.
  intros a b A B. apply Z.bits_inj'. intros i I. rewrite Z.lxor_spec, !val_bits by (try apply add_wf; assumption). cbn [gcmAdd fe_low fe_high].
  destruct (i <? 64); apply Z.lxor_spec.
Qed.
(** The two words shifted to the right together. *)
Definition shp (k : Z) (x : fe) : fe := mkFe (Z.shiftr (fe_low x) k) (Z.lor (Z.shiftr (fe_high x) k) (u64 (Z.shiftl (fe_low x) (64 - k)))).
Lemma shr_range : forall x k, 0 <= k -> 0 <= x < 2 ^ 64 -> 0 <= Z.shiftr x k < 2 ^ 64.
Proof.
  intros x k K H. rewrite Z.shiftr_div_pow2 by lia. assert (P : 0 < 2 ^ k) by (apply Z.pow_pos_nonneg; lia). split; [apply Z.div_pos; lia|].
  apply Z.div_lt_upper_bound; [lia|]. nia.
Qed.
Lemma u64_bits : forall x i, 0 <= i < 64 -> Z.testbit (u64 x) i = Z.testbit x i.
Proof. intros. apply Z.mod_pow2_bits_low. lia. Qed.
Lemma shp_wf : forall k x, 0 < k < 64 -> wf x -> wf (shp k x).
Proof.
  intros k x K [L H]. split; cbn [shp fe_low fe_high]; [apply shr_range; lia|].
  assert (U : 0 <= u64 (Z.shiftl (fe_low x) (64 - k)) < 2 ^ 64) by (apply Z.mod_pos_bound; reflexivity).
  apply lor_range; [lia|apply shr_range; lia|exact U].
Qed.
Lemma val_shp : forall k x, 0 < k < 64 -> wf x -> val (shp k x) = Z.shiftr (val x) k.
Proof.
  intros k x K W. apply Z.bits_inj'. intros i I. rewrite Z.shiftr_spec by lia. rewrite !val_bits by (try apply shp_wf; try assumption; lia). destruct W as [L H].
  cbn [shp fe_low fe_high]. destruct (Z.ltb_spec i 64) as [B|B]; destruct (Z.ltb_spec (i + k) 64) as [B'|B']; try lia.
  - rewrite Z.lor_spec, Z.shiftr_spec, u64_bits, Z.shiftl_spec by lia. rewrite (Z.testbit_neg_r _ (i - (64 - k))) by lia. apply orb_false_r.
  - rewrite Z.lor_spec, Z.shiftr_spec, u64_bits, Z.shiftl_spec by lia. rewrite (high_zero (fe_high x) (i + k)) by lia. cbn [orb]. f_equal. lia.
  - rewrite Z.shiftr_spec by lia. f_equal. lia.
Qed.

Lemma dbl_xor : forall a b, dbl (Z.lxor a b) = Z.lxor (dbl a) (dbl b).
Proof.
  intros a b. unfold dbl. rewrite Z.shiftr_lxor. rewrite <- !Z.bit0_odd, Z.lxor_spec.
  destruct (Z.testbit a 0), (Z.testbit b 0); cbn [xorb]; apply Z.bits_inj'; intros i I; rewrite !Z.lxor_spec, ?Z.bits_0;
    destruct (Z.testbit (Z.shiftr a 1) i), (Z.testbit (Z.shiftr b 1) i), (Z.testbit gcm_R i); reflexivity.
Qed.
Lemma dbl_even : forall a k, 0 <= k -> dbl (Z.shiftl a (k + 1)) = Z.shiftl a k.
Proof.
  intros a k K. unfold dbl. rewrite <- Z.bit0_odd, Z.shiftl_spec by lia. rewrite Z.testbit_neg_r by lia. rewrite Z.lxor_0_r.
  rewrite Z.shiftr_shiftl_l by lia. f_equal. lia.
Qed.
Definition dbl4 (v : Z) : Z := dbl (dbl (dbl (dbl v))).
Lemma dbl4_shl : forall a, dbl4 (Z.shiftl a 4) = a.
Proof.
  intros a. unfold dbl4. change 4 with (3 + 1). rewrite dbl_even by lia. change 3 with (2 + 1). rewrite dbl_even by lia. change 2 with (1 + 1).
  rewrite dbl_even by lia. change 1 with (0 + 1). rewrite dbl_even by lia. apply Z.shiftl_0_r.
Qed.
Lemma small4 : forall (P : Z -> Prop), (forall m, In m [0;1;2;3;4;5;6;7;8;9;10;11;12;13;14;15] -> P m) -> forall m, 0 <= m < 16 -> P m.
Proof.
  intros P H m R. apply H. cbn [In]. lia.
Qed.
Lemma dbl4_table : forall v, 0 <= v -> dbl4 v = Z.lxor (Z.shiftr v 4) (nth (Z.to_nat (Z.land v 15)) gcmReductionTable 0 * 2 ^ 112).
Proof.
  intros v V. assert (E : v = Z.lxor (Z.shiftl (Z.shiftr v 4) 4) (Z.land v 15)).
  { apply Z.bits_inj'. intros i I. rewrite Z.lxor_spec, Z.land_spec, Z.shiftl_spec by lia. change 15 with (Z.ones 4). rewrite Z.testbit_ones by lia.
    destruct (Z.ltb_spec i 4) as [B|B].
    - rewrite (Z.testbit_neg_r _ (i - 4)) by lia. destruct (Z.leb_spec 0 i); [|lia]. destruct (Z.ltb_spec i 4); [|lia]. cbn [andb xorb]. rewrite andb_true_r. destruct (Z.testbit v i); reflexivity.
    - rewrite Z.shiftr_spec by lia. rewrite andb_false_r, andb_false_r, xorb_false_r. f_equal. lia. }
  rewrite E at 1. unfold dbl4. rewrite !dbl_xor. fold (dbl4 (Z.shiftl (Z.shiftr v 4) 4)). rewrite dbl4_shl. f_equal.
  assert (R : 0 <= Z.land v 15 < 16) by (change 15 with (Z.ones 4); rewrite Z.land_ones by lia; change (2 ^ 4) with 16; apply Z.mod_pos_bound; lia).
  revert R. generalize (Z.land v 15). apply small4. intros m M. cbn [In] in M. repeat (destruct M as [<-|M]; [vm_compute; reflexivity|]). contradiction.
Qed.

(** Bits from the lowest on: the product so far is doubled, and [h] added if the bit is set. *)
Fixpoint steps (h : Z) (n : nat) (w z : Z) : Z :=
  match n with O => z | S n => Z.lxor (dbl (steps h n w z)) (if Z.testbit w (Z.of_nat n) then h else 0) end.
Lemma steps_app : forall h m k w z, steps h (m + k) w z = steps h m (Z.shiftr w (Z.of_nat k)) (steps h k w z).
Proof.
  intros h m k w z. induction m as [|m IH]; [reflexivity|]. cbn [Nat.add steps]. rewrite IH, Z.shiftr_spec by lia. replace (Z.of_nat m + Z.of_nat k) with (Z.of_nat (m + k)) by lia. reflexivity.
Qed.
Lemma steps_ext : forall h n w w' z, (forall i, 0 <= i < Z.of_nat n -> Z.testbit w i = Z.testbit w' i) -> steps h n w z = steps h n w' z.
Proof. intros h n w w' z. induction n as [|n IH]; intros H; [reflexivity|]. cbn [steps]. rewrite IH by (intros; apply H; lia). rewrite H by lia. reflexivity. Qed.
Lemma dbl_0 : dbl 0 = 0.
Proof. reflexivity. Qed.
Lemma steps_dbl : forall h n w, steps (dbl h) n w 0 = dbl (steps h n w 0).
Proof.
  intros h n w. induction n as [|n IH]; [reflexivity|]. cbn [steps]. rewrite IH, dbl_xor. f_equal. destruct (Z.testbit w (Z.of_nat n)); reflexivity.
Qed.
Lemma gf_steps : forall n x h, gf_mul n x h = steps h n x 0.
Proof.
  induction n as [|n IH]; intros x h; [reflexivity|]. cbn [gf_mul steps]. rewrite IH, steps_dbl. apply Z.lxor_comm.
Qed.
Definition sel (b : bool) (v : Z) : Z := if b then v else 0.
Lemma dbl_sel : forall b v, dbl (sel b v) = sel b (dbl v).
Proof. intros [] v; reflexivity. Qed.
Definition nib (h w : Z) : Z :=
  Z.lxor (Z.lxor (sel (Z.testbit w 0) (dbl (dbl (dbl h)))) (sel (Z.testbit w 1) (dbl (dbl h)))) (Z.lxor (sel (Z.testbit w 2) (dbl h)) (sel (Z.testbit w 3) h)).
Lemma steps4 : forall h w z, steps h 4 w z = Z.lxor (dbl4 z) (nib h w).
Proof.
  intros h w z. cbn [steps]. change (Z.of_nat 0) with 0. change (Z.of_nat 1) with 1. change (Z.of_nat 2) with 2. change (Z.of_nat 3) with 3.
  fold (sel (Z.testbit w 0) h) (sel (Z.testbit w 1) h) (sel (Z.testbit w 2) h) (sel (Z.testbit w 3) h).
  rewrite !dbl_xor, !dbl_sel. unfold nib, dbl4. rewrite !Z.lxor_assoc. reflexivity.
Qed.

(** * The tables *)
Lemma double_ok : forall x, wf x -> wf (gcmDouble x) /\ val (gcmDouble x) = dbl (val x).
Proof.
  intros x W. assert (E : gcmDouble x = gcmAdd (shp 1 x) (if Z.odd (val x) then mkFe 0xe100000000000000 0 else fe0)).
  { assert (O : (Z.land (fe_high x) 1 =? 1) = Z.odd (val x)).
    { rewrite <- Z.bit0_odd, val_bits by (assumption || lia). change (0 <? 64) with true. cbv iota. change 1 with (Z.ones 1) at 1. rewrite Z.land_ones by lia.
      rewrite Z.bit0_odd, Zodd_mod. change (2 ^ 1) with 2. destruct (Z.mod_pos_bound (fe_high x) 2 ltac:(lia)). assert (fe_high x mod 2 = 0 \/ fe_high x mod 2 = 1) as [->| ->] by lia; reflexivity. }
    unfold gcmDouble, gcmAdd, shp. cbv zeta. rewrite O. destruct (Z.odd (val x)); cbn [fe_low fe_high fe0]; rewrite !Z.lxor_0_r; reflexivity. }
  assert (W2 : wf (if Z.odd (val x) then mkFe 0xe100000000000000 0 else fe0)) by (destruct (Z.odd (val x)); split; cbn; lia).
  rewrite E. split; [apply add_wf; [apply shp_wf; [lia|exact W]|exact W2]|]. rewrite val_add by (assumption || (apply shp_wf; [lia|exact W])). rewrite val_shp by (assumption || lia).
  unfold dbl. f_equal. destruct (Z.odd (val x)); reflexivity.
Qed.

Lemma table_ok : forall x w, wf x -> 0 <= w < 16 -> let t := nth (Z.to_nat w) (productTable x) fe0 in wf t /\ val t = nib (val x) w.
Proof.
  intros x w W. revert w. apply small4. intros w M.
  assert (D1 : wf (gcmDouble x) /\ val (gcmDouble x) = dbl (val x)) by (apply double_ok, W). destruct D1 as [W1 D1].
  assert (A1 : wf (gcmAdd (gcmDouble x) x) /\ val (gcmAdd (gcmDouble x) x) = Z.lxor (dbl (val x)) (val x)) by (split; [apply add_wf; assumption|rewrite val_add, D1 by assumption; reflexivity]).
  destruct A1 as [WA A1].
  assert (N : forall y a, wf y -> val y = a -> wf (gcmDouble y) /\ val (gcmDouble y) = dbl a /\ wf (gcmAdd (gcmDouble y) x) /\ val (gcmAdd (gcmDouble y) x) = Z.lxor (dbl a) (val x)).
  { intros y a WY <-. destruct (double_ok y WY) as [Q1 Q2]. split; [exact Q1|]. split; [exact Q2|]. split; [apply add_wf; assumption|]. rewrite val_add, Q2 by assumption. reflexivity. }
  destruct (N _ _ W1 D1) as (W4 & D4 & W5 & D5). destruct (N _ _ WA A1) as (W6 & D6 & W7 & D7).
  destruct (N _ _ W4 D4) as (W8 & D8 & W9 & D9). destruct (N _ _ W5 D5) as (W10 & D10 & W11 & D11).
  destruct (N _ _ W6 D6) as (W12 & D12 & W13 & D13). destruct (N _ _ W7 D7) as (W14 & D14 & W15 & D15).
  assert (W0 : wf fe0) by (split; cbn; lia).
  assert (T : productTable x = [fe0; gcmDouble (gcmDouble (gcmDouble x)); gcmDouble (gcmDouble x); gcmDouble (gcmDouble (gcmAdd (gcmDouble x) x));
     gcmDouble x; gcmDouble (gcmAdd (gcmDouble (gcmDouble x)) x); gcmDouble (gcmAdd (gcmDouble x) x); gcmDouble (gcmAdd (gcmDouble (gcmAdd (gcmDouble x) x)) x);
     x; gcmAdd (gcmDouble (gcmDouble (gcmDouble x))) x; gcmAdd (gcmDouble (gcmDouble x)) x; gcmAdd (gcmDouble (gcmDouble (gcmAdd (gcmDouble x) x))) x;
     gcmAdd (gcmDouble x) x; gcmAdd (gcmDouble (gcmAdd (gcmDouble (gcmDouble x)) x)) x; gcmAdd (gcmDouble (gcmAdd (gcmDouble x) x)) x;
     gcmAdd (gcmDouble (gcmAdd (gcmDouble (gcmAdd (gcmDouble x) x)) x)) x]) by reflexivity.
  rewrite T. cbn [In] in M.
  repeat (destruct M as [<-|M]; [match goal with |- context [Z.to_nat ?k] => let r := eval compute in (Z.to_nat k) in change (Z.to_nat k) with r end; cbn [nth]; split; [assumption|];
    unfold nib, sel; repeat match goal with |- context [Z.testbit ?a ?b] => let r := eval compute in (Z.testbit a b) in change (Z.testbit a b) with r end; cbv iota;
    rewrite ?D4, ?D5, ?D6, ?D7, ?D8, ?D9, ?D10, ?D11, ?D12, ?D13, ?D14, ?D15, ?A1, ?D1; rewrite ?dbl_xor, ?Z.lxor_0_r, ?Z.lxor_0_l, ?Z.lxor_assoc; reflexivity|]).
  contradiction.
Qed.
Lemma land15 : forall w, 0 <= Z.land w 15 < 16.
Proof. intros w. change 15 with (Z.ones 4). rewrite Z.land_ones by lia. change (2 ^ 4) with 16. apply Z.mod_pos_bound. lia. Qed.
Lemma nib_land : forall h w, nib h (Z.land w 15) = nib h w.
Proof.
  intros h w. unfold nib. change 15 with (Z.ones 4). rewrite !Z.land_spec, !Z.testbit_ones by lia.
  change (0 <=? 0) with true. change (0 <? 4) with true. change (0 <=? 1) with true. change (1 <? 4) with true. change (0 <=? 2) with true. change (2 <? 4) with true. change (0 <=? 3) with true. change (3 <? 4) with true.
  cbn [andb]. rewrite !andb_true_r. reflexivity.
Qed.
Lemma step_ok : forall x w z, wf x -> wf z -> wf (mulStep (productTable x) w z) /\ val (mulStep (productTable x) w z) = steps (val x) 4 w (val z).
Proof.
  intros x w z WX WZ. destruct (table_ok x (Z.land w 15) WX (land15 w)) as [WT VT].
  set (r := nth (Z.to_nat (Z.land (fe_high z) 15)) gcmReductionTable 0).
  assert (RR : 0 <= r < 2 ^ 16).
  { unfold r. generalize (land15 (fe_high z)). generalize (Z.land (fe_high z) 15). apply (small4 (fun m => 0 <= nth (Z.to_nat m) gcmReductionTable 0 < 2 ^ 16)).
    intros m M. cbn [In] in M. repeat (destruct M as [<-|M]; [vm_compute; split; [discriminate|reflexivity]|]). contradiction. }
  assert (E : mulStep (productTable x) w z = gcmAdd (gcmAdd (shp 4 z) (mkFe (r * 2 ^ 48) 0)) (nth (Z.to_nat (Z.land w 15)) (productTable x) fe0)).
  { unfold mulStep, gcmAdd, shp. cbv zeta. fold r. cbn [fe_low fe_high]. rewrite Z.lxor_0_r. f_equal. f_equal. f_equal. rewrite Z.shiftl_mul_pow2 by lia. apply Z.mod_small. lia. }
  assert (WR : wf (mkFe (r * 2 ^ 48) 0)) by (split; cbn [fe_low fe_high]; lia). assert (WS : wf (shp 4 z)) by (apply shp_wf; [lia|exact WZ]).
  rewrite E. split; [apply add_wf; [apply add_wf; assumption|exact WT]|]. rewrite !val_add by (try apply add_wf; assumption). rewrite VT, nib_land, steps4. f_equal.
  assert (V0 : 0 <= val z) by (unfold val; destruct WZ; lia). rewrite dbl4_table by exact V0. rewrite val_shp by (assumption || lia). f_equal.
  assert (L : Z.land (val z) 15 = Z.land (fe_high z) 15).
  { change 15 with (Z.ones 4). rewrite !Z.land_ones by lia. unfold val. change (2 ^ 64) with (2 ^ 60 * 2 ^ 4). rewrite Z.mul_assoc, Z.add_comm, Z_mod_plus_full. reflexivity. }
  rewrite L. fold r. unfold val. cbn [fe_low fe_high]. rewrite Z.add_0_r, <- Z.mul_assoc. reflexivity.
Qed.
Lemma word_ok : forall x n w z, wf x -> wf z -> wf (mulWord (productTable x) n w z) /\ val (mulWord (productTable x) n w z) = steps (val x) (n * 4) w (val z).
Proof.
  intros x n. induction n as [|n IH]; intros w z WX WZ; [split; [exact WZ|reflexivity]|]. cbn [mulWord]. destruct (step_ok x w z WX WZ) as [S1 S2].
  destruct (IH (Z.shiftr w 4) _ WX S1) as [I1 I2]. split; [exact I1|]. rewrite I2, S2. replace (S n * 4)%nat with (n * 4 + 4)%nat by lia. rewrite steps_app. reflexivity.
Qed.
Lemma mul_ok : forall x y, wf x -> wf y -> wf (mul (productTable x) y) /\ val (mul (productTable x) y) = gf_mul 128 (val y) (val x).
Proof.
  intros x y WX WY. unfold mul. assert (W0 : wf fe0) by (split; cbn; lia). destruct (word_ok x 16 (fe_high y) fe0 WX W0) as [A1 A2].
  destruct (word_ok x 16 (fe_low y) _ WX A1) as [B1 B2]. split; [exact B1|]. rewrite B2, A2, gf_steps. change 128%nat with (16 * 4 + 16 * 4)%nat. rewrite steps_app.
  change (val fe0) with 0. rewrite (steps_ext (val x) (16 * 4) (val y) (fe_high y) 0).
  2: { intros i I. rewrite val_bits by (assumption || lia). destruct (Z.ltb_spec i 64); [reflexivity|lia]. }
  f_equal. change (Z.of_nat (16 * 4)) with 64. rewrite Z.shiftr_div_pow2 by lia. unfold val. destruct WY. rewrite Z.div_add_l, Z.div_small by lia. lia.
Qed.

(** * GHASH *)
Definition gh (h y : Z) (l : list Z) : Z := fold_left (fun y b => gf_mul 128 (Z.lxor y b) h) l y.
Lemma firstn_bytes : forall n l, bytes l -> bytes (firstn n l).
Proof. intros n l H. rewrite <- (firstn_skipn n l) in H. apply Forall_app in H. apply H. Qed.
Lemma skipn_bytes : forall n l, bytes l -> bytes (skipn n l).
Proof. intros n l H. rewrite <- (firstn_skipn n l) in H. apply Forall_app in H. apply H. Qed.
Lemma word_range : forall l, bytes l -> List.length l = 8%nat -> 0 <= be_dec l < 2 ^ 64.
Proof. intros l B L. pose proof (be_dec_bound l B) as R. unfold zlen in R. rewrite L in R. exact R. Qed.
(** Two words are a block. *)
Lemma fe_block : forall l, bytes l -> List.length l = 16%nat ->
  wf (mkFe (be_dec (firstn 8 l)) (be_dec (skipn 8 l))) /\ val (mkFe (be_dec (firstn 8 l)) (be_dec (skipn 8 l))) = be_dec l.
Proof.
  intros l B L. split.
  - split; cbn [fe_low fe_high]; apply word_range; try (apply firstn_bytes, B); try (apply skipn_bytes, B); rewrite ?firstn_length, ?skipn_length; lia.
  - unfold val. cbn [fe_low fe_high]. rewrite <- (firstn_skipn 8 l) at 3. rewrite be_dec_app. f_equal. f_equal. unfold zlen. rewrite skipn_length, L. reflexivity.
Qed.
Lemma firstn_pad : forall l, (16 <= List.length l)%nat -> firstn 16 (l ++ repeat 0 16) = firstn 16 l.
Proof. intros l H. rewrite firstn_app. replace (16 - List.length l)%nat with 0%nat by lia. rewrite firstn_O. apply app_nil_r. Qed.
Lemma blocks_ok : forall x k n y l, wf x -> wf y -> bytes l -> List.length l = (16 * k)%nat -> (k <= n)%nat ->
  exists y', updateBlocks (productTable x) n y l = Ret y' /\ wf y' /\ val y' = gh (val x) (val y) (first_blocks k l).
Proof.
  intros x k. induction k as [|k IH]; intros n y l WX WY B L N.
  { destruct l; [|cbn in L; lia]. exists y. split; [destruct n; reflexivity|]. split; [exact WY|reflexivity]. }
  destruct n as [|n]; [lia|]. cbn [updateBlocks]. destruct (Z.ltb_spec 0 (zlen l)) as [P|P]; [|unfold zlen in P; lia].
  unfold getUint64. unfold zlen. rewrite skipn_length. destruct (Z.ltb_spec (Z.of_nat (List.length l)) 8); [lia|]. destruct (Z.ltb_spec (Z.of_nat (List.length l - 8)) 8); [lia|]. cbn [bind].
  assert (L16 : List.length (firstn 16 l) = 16%nat) by (rewrite firstn_length; lia).
  destruct (fe_block (firstn 16 l) (firstn_bytes _ _ B) L16) as [F1 F2].
  replace (firstn 8 (firstn 16 l)) with (firstn 8 l) in F1, F2 by (rewrite firstn_firstn; reflexivity).
  replace (skipn 8 (firstn 16 l)) with (firstn 8 (skipn 8 l)) in F1, F2 by (rewrite skipn_firstn_comm; reflexivity).
  change (mkFe (Z.lxor (fe_low y) (be_dec (firstn 8 l))) (Z.lxor (fe_high y) (be_dec (firstn 8 (skipn 8 l))))) with (gcmAdd y (mkFe (be_dec (firstn 8 l)) (be_dec (firstn 8 (skipn 8 l))))).
  destruct (mul_ok x _ WX (add_wf _ _ WY F1)) as [M1 M2].
  destruct (IH n _ (skipn 16 l) WX M1 (skipn_bytes _ _ B)) as (y' & E & W' & V'); [rewrite skipn_length; lia|lia|].
  exists y'. split; [exact E|]. split; [exact W'|]. rewrite V', M2, val_add, F2 by assumption. cbn [first_blocks gh fold_left]. rewrite firstn_pad by lia. reflexivity.
Qed.
Lemma first_blocks_app : forall q r l, first_blocks (q + r) l = first_blocks q l ++ first_blocks r (skipn (16 * q) l).
Proof.
  induction q as [|q IH]; intros r l; [reflexivity|]. cbn [Nat.add first_blocks app]. f_equal. rewrite IH. f_equal. rewrite skipn_skipn. replace (16 * S q)%nat with (16 * q + 16)%nat by lia. reflexivity.
Qed.
Lemma first_blocks_prefix : forall q l, (16 * q <= List.length l)%nat -> first_blocks q (firstn (16 * q) l) = first_blocks q l.
Proof.
  induction q as [|q IH]; intros l H; [reflexivity|]. cbn [first_blocks]. f_equal.
  - rewrite !firstn_pad by (rewrite ?firstn_length; lia). rewrite firstn_firstn. replace (Nat.min 16 (16 * S q)) with 16%nat by lia. reflexivity.
  - rewrite <- (IH (skipn 16 l)) by (rewrite skipn_length; lia). rewrite skipn_firstn_comm. replace (16 * S q - 16)%nat with (16 * q)%nat by lia. reflexivity.
Qed.
Lemma pad_copy : forall l, (List.length l <= 16)%nat -> copyAt (repeat 0 16) 0 l = firstn 16 (l ++ repeat 0 16).
Proof.
  intros l H. unfold copyAt. change (firstn 0 (repeat 0 16)) with (@nil Z). rewrite app_nil_l, repeat_length, Nat.sub_0_r, Nat.add_0_l. rewrite (firstn_app 16). f_equal.
  assert (R : repeat 0 16 = repeat 0 (List.length l) ++ repeat 0 (16 - List.length l)) by (rewrite <- repeat_app; f_equal; lia).
  rewrite R at 1. rewrite skipn_app, repeat_length, Nat.sub_diag. rewrite skipn_all2 by (rewrite repeat_length; lia). cbn [skipn app].
  replace (repeat 0 16) with (repeat 0 (16 - List.length l) ++ repeat 0 (List.length l)) by (rewrite <- repeat_app; f_equal; lia).
  rewrite firstn_app, repeat_length, Nat.sub_diag. rewrite firstn_all2 by (rewrite repeat_length; lia). rewrite firstn_O. symmetry. apply app_nil_r.
Qed.
Lemma zeros_bytes : forall n, bytes (repeat 0 n).
Proof. induction n; constructor; [unfold byte; lia|assumption]. Qed.
Lemma update_ok : forall x y l, wf x -> wf y -> bytes l ->
  exists y', update (productTable x) y l = Ret y' /\ wf y' /\ val y' = gh (val x) (val y) (blocks l).
Proof.
  intros x y l WX WY B. unfold update. set (q := (List.length l / 16)%nat).
  assert (Q : Z.to_nat (Z.shiftl (Z.shiftr (zlen l) 4) 4) = (16 * q)%nat).
  { rewrite Z.shiftl_mul_pow2, Z.shiftr_div_pow2 by lia. change (2 ^ 4) with 16. unfold zlen. change 16 with (Z.of_nat 16). rewrite <- Nat2Z.inj_div, <- Nat2Z.inj_mul, Nat2Z.id. fold q. lia. }
  rewrite Q. pose proof (Nat.div_mod (List.length l) 16 ltac:(lia)) as DM. fold q in DM. pose proof (Nat.mod_upper_bound (List.length l) 16 ltac:(lia)) as MB.
  destruct (blocks_ok x q (List.length l) y (firstn (16 * q) l) WX WY (firstn_bytes _ _ B)) as (y1 & -> & W1 & V1); [rewrite firstn_length; lia|lia|]. cbn [bind].
  rewrite first_blocks_prefix in V1 by lia. unfold blocks. destruct (Nat.eqb_spec (List.length l) (16 * q)) as [E|E]; cbn [negb].
  - exists y1. split; [reflexivity|]. split; [exact W1|]. rewrite V1. do 2 f_equal. rewrite E. symmetry. replace (16 * q + 15)%nat with (15 + q * 16)%nat by lia. rewrite Nat.div_add by lia. reflexivity.
  - assert (K : ((List.length l + 15) / 16 = q + 1)%nat).
    { symmetry. apply (Nat.div_unique _ 16 _ (List.length l mod 16 - 1)); lia. }
    rewrite K, first_blocks_app. set (r := skipn (16 * q) l). assert (LR : (List.length r < 16)%nat) by (unfold r; rewrite skipn_length; lia).
    rewrite pad_copy by lia. set (p := firstn 16 (r ++ repeat 0 16)).
    assert (LP : List.length p = 16%nat) by (unfold p; rewrite firstn_length, app_length, repeat_length; lia).
    assert (BP : bytes p) by (unfold p; apply firstn_bytes, Forall_app; split; [apply skipn_bytes, B|apply zeros_bytes]).
    destruct (blocks_ok x 1 1 y1 p WX W1 BP ltac:(lia) ltac:(lia)) as (y2 & E2 & W2 & V2). exists y2. split; [exact E2|]. split; [exact W2|]. rewrite V2, V1.
    unfold gh. rewrite fold_left_app. cbn [first_blocks]. rewrite firstn_pad by lia. rewrite (firstn_all2 p) by lia. reflexivity.
Qed.
Lemma out_block : forall y, wf y -> be_enc 8 (fe_low y) ++ be_enc 8 (fe_high y) = be_enc 16 (val y).
Proof.
  intros y [L H]. change 16%nat with (8 + 8)%nat. rewrite be_enc_app. unfold val. change (256 ^ Z.of_nat 8) with (2 ^ 64).
  rewrite Z.div_add_l, Z.div_small, Z.add_0_r by lia. f_equal. rewrite <- (be_enc_mod 8 (_ + _)). change (256 ^ Z.of_nat 8) with (2 ^ 64).
  rewrite Z.add_comm, Z_mod_plus_full, Z.mod_small by lia. reflexivity.
Qed.
Lemma len_block : forall y a b, wf y -> 0 <= a < 2 ^ 64 -> 0 <= b < 2 ^ 64 -> wf (gcmAdd y (mkFe a b)) /\ val (gcmAdd y (mkFe a b)) = Z.lxor (val y) (a * 2 ^ 64 + b).
Proof. intros y a b W A B. assert (F : wf (mkFe a b)) by (split; assumption). split; [apply add_wf; assumption|apply val_add; assumption]. Qed.
Lemma auth_ok : forall x cipher data mask, wf x -> bytes cipher -> bytes data -> zlen data < 2 ^ 61 -> zlen cipher < 2 ^ 61 ->
  auth (productTable x) cipher data mask = Ret (xorBytes (be_enc 16 (ghash (val x) (blocks data ++ blocks cipher ++ [zlen data * 8 * 2 ^ 64 + zlen cipher * 8]))) mask).
Proof.
  intros x cipher data mask WX BC BD LD LC. unfold auth. assert (W0 : wf fe0) by (split; cbn; lia).
  destruct (update_ok x fe0 data WX W0 BD) as (y1 & -> & W1 & V1). cbn [bind]. destruct (update_ok x y1 cipher WX W1 BC) as (y2 & -> & W2 & V2). cbn [bind].
  pose proof (zlen_nonneg _ data) as N1. pose proof (zlen_nonneg _ cipher) as N2. unfold u64. rewrite !Z.mod_small by lia.
  destruct (len_block y2 (zlen data * 8) (zlen cipher * 8) W2 ltac:(lia) ltac:(lia)) as [L1 L2]. unfold gcmAdd in L1, L2. cbn [fe_low fe_high] in L1, L2.
  destruct (mul_ok x _ WX L1) as [M1 M2]. rewrite out_block by exact M1. rewrite M2, L2, V2, V1. unfold ghash, gh. rewrite !fold_left_app. reflexivity.
Qed.

(** * The counters *)
Lemma increment_gen : forall l, bytes l -> increment l = be_enc (List.length l) (be_dec l + 1).
Proof.
  intros l HB. destruct (incRev_value (rev l)) as [I1 I2]; [apply Forall_rev; exact HB|]. rewrite rev_involutive in I2.
  fold (increment l) in I2. pose proof (be_enc_dec (increment l)) as E. rewrite increment_length, I2 in E. rewrite <- E by (apply Forall_rev; exact I1).
  unfold zlen. rewrite rev_length. apply be_enc_mod.
Qed.
(** The counter block [j] after [ctr]. *)
Definition at_ctr (ctr : list Z) (j : nat) : list Z := firstn 12 ctr ++ be_enc 4 (be_dec (skipn 12 ctr) + Z.of_nat j).
Lemma inc32_ok : forall ctr, bytes ctr -> List.length ctr = 16%nat -> gcmInc32 ctr = at_ctr ctr 1.
Proof.
  intros ctr B L. unfold gcmInc32, at_ctr. rewrite increment_gen by (apply skipn_bytes, B). rewrite skipn_length, L. reflexivity.
Qed.
Lemma at_ctr_block : forall ctr j, bytes ctr -> List.length ctr = 16%nat -> bytes (at_ctr ctr j) /\ List.length (at_ctr ctr j) = 16%nat.
Proof.
  intros ctr j B L. unfold at_ctr. split; [apply Forall_app; split; [apply firstn_bytes, B|apply be_enc_bytes]|]. rewrite app_length, firstn_length, be_enc_length. lia.
Qed.
Lemma at_ctr_at : forall ctr i j, List.length ctr = 16%nat -> at_ctr (at_ctr ctr i) j = at_ctr ctr (i + j).
Proof.
  intros ctr i j L. unfold at_ctr. assert (L12 : List.length (firstn 12 ctr) = 12%nat) by (rewrite firstn_length; lia). f_equal.
  - rewrite firstn_app, L12, Nat.sub_diag, firstn_O, app_nil_r. apply firstn_all2. lia.
  - rewrite skipn_app, L12, Nat.sub_diag. rewrite skipn_all2 by lia. rewrite app_nil_l. change (skipn 0 ?x) with x.
    rewrite be_dec_enc. rewrite <- be_enc_mod, <- (be_enc_mod 4 (_ + Z.of_nat (i + j))). f_equal. rewrite Zplus_mod_idemp_l. f_equal. lia.
Qed.
Lemma at_ctr_0 : forall ctr, bytes ctr -> List.length ctr = 16%nat -> at_ctr ctr 0 = ctr.
Proof.
  intros ctr B L. unfold at_ctr. rewrite Z.add_0_r. rewrite <- (firstn_skipn 12 ctr) at 3. f_equal.
  pose proof (be_enc_dec (skipn 12 ctr) (skipn_bytes _ _ B)) as E. rewrite skipn_length, L in E. exact E.
Qed.
Section Crypt.
Variable E : list Z -> list Z.
Hypothesis HE : forall b, List.length (E b) = 16%nat.
Variable c : sm4Cipher.
Hypothesis HM : forall s, List.length s = 16%nat -> encryptMask c s = Ret (E s).
Lemma crypt_ok : forall n l ctr, (List.length l <= n)%nat -> bytes ctr -> List.length ctr = 16%nat ->
  exists out, counterCrypt c n l ctr = Ret out /\ with_stream (fun i => nth (i mod 16) (E (at_ctr ctr (i / 16))) 0) l out.
Proof.
  assert (LAST : forall l ctr, (List.length l < 16)%nat -> bytes ctr -> List.length ctr = 16%nat ->
    with_stream (fun i => nth (i mod 16) (E (at_ctr ctr (i / 16))) 0) l (xorBytes l (E ctr))).
  { intros l ctr L B LC. split; [rewrite xor_length, HE; lia|]. intros i I. rewrite xor_nth by (rewrite ?HE; lia). rewrite Nat.mod_small, Nat.div_small, at_ctr_0 by (assumption || lia). reflexivity. }
  induction n as [|n IH]; intros l ctr N B L; cbn [counterCrypt]; destruct (Z.leb_spec 16 (zlen l)) as [G|G]; unfold zlen in G; try lia.
  - destruct l; [|cbn in N; lia]. exists []. split; [reflexivity|]. split; [reflexivity|]. cbn. lia.
  - rewrite HM by exact L. cbn [bind]. destruct (at_ctr_block ctr 1 B L) as [B1 L1]. rewrite inc32_ok by assumption.
    destruct (IH (skipn 16 l) (at_ctr ctr 1)) as (out & -> & W1 & W2); [rewrite skipn_length; lia|exact B1|exact L1|]. cbn [bind]. eexists. split; [reflexivity|].
    assert (LF : List.length (xorBytes (firstn 16 l) (E ctr)) = 16%nat) by (rewrite xor_length, firstn_length, HE; lia). rewrite skipn_length in W1, W2.
    split; [rewrite app_length, LF, W1; lia|]. intros i I. destruct (Nat.lt_ge_cases i 16) as [S|S].
    + rewrite app_nth1 by lia. rewrite xor_nth by (rewrite ?HE, ?firstn_length; lia). rewrite nth_firstn by exact S.
      rewrite Nat.mod_small, Nat.div_small, at_ctr_0 by (assumption || lia). reflexivity.
    + rewrite app_nth2 by lia. rewrite LF, W2 by lia. rewrite nth_skipn, at_ctr_at by exact L.
      assert (D : (i / 16 = 1 + (i - 16) / 16)%nat /\ (i mod 16 = (i - 16) mod 16)%nat).
      { replace i with ((i - 16) + 1 * 16)%nat at 1 3 by lia. rewrite Nat.div_add, Nat.mod_add by lia. lia. }
      destruct D as [-> ->]. replace (16 + (i - 16))%nat with i by lia. reflexivity.
  - destruct l as [|a l]; [exists []; split; [reflexivity|]; split; [reflexivity|]; cbn; lia|]. destruct (Z.ltb_spec 0 (zlen (a :: l))) as [P|P]; [|unfold zlen in P; cbn [List.length] in P; lia].
    rewrite HM by exact L. cbn [bind]. eexists. split; [reflexivity|]. apply LAST; assumption || lia.
Qed.
End Crypt.
Section Gcm.
Variable key : list Z.
Hypothesis HK : zlen key = 16.
Variable c : sm4Cipher.
Hypothesis HC : NewCipher key = Ok c.
Lemma mask_ok : forall s, List.length s = 16%nat -> encryptMask c s = Ret (Sm4Spec.sm4_enc key s).
Proof.
  intros s L. unfold encryptMask. rewrite (encrypt_to key HK c HC) by (rewrite ?repeat_length; lia).
  change (firstn 0 (repeat 0 16)) with (@nil Z). change (skipn (0 + 16) (repeat 0 16)) with (@nil Z). rewrite app_nil_l, app_nil_r. reflexivity.
Qed.
Definition hx : fe := mkFe (be_dec (firstn 8 (Sm4Spec.sm4_enc key (repeat 0 16)))) (be_dec (skipn 8 (Sm4Spec.sm4_enc key (repeat 0 16)))).
Lemma hx_ok : wf hx /\ val hx = hkey key.
Proof. apply fe_block; [apply enc_bytes|apply enc16]. Qed.
Lemma new_gcm : forall ns ts, newGCM c ns ts = if (ts <? 12) || (16 <? ts) then Ret (ERR "cipher: incorrect tag size given to GCM") else Ret (OK (mkGcm c ns ts (productTable hx))).
Proof.
  intros ns ts. unfold newGCM. destruct ((ts <? 12) || (16 <? ts)); [reflexivity|]. change (negb (BlockSize =? 16)) with false. cbv iota.
  rewrite (encrypt_in key HK c HC) by (rewrite repeat_length; reflexivity). cbn [bind]. pose proof (enc16 key (repeat 0 16)) as L.
  unfold getUint64, zlen. rewrite firstn_length, skipn_length, L. change (Z.of_nat (Nat.min 8 16) <? 8) with false. change (Z.of_nat (16 - 8) <? 8) with false. cbn [bind].
  unfold hx. rewrite firstn_firstn. change (Nat.min 8 8) with 8%nat. rewrite (firstn_all2 (skipn 8 (Sm4Spec.sm4_enc key (repeat 0 16)))) by (rewrite skipn_length, L; lia). reflexivity.
Qed.
Lemma j0_ok : forall nonce, bytes nonce -> zlen nonce < 2 ^ 61 ->
  deriveCounter (productTable hx) nonce = Ret (j0 key nonce) /\ bytes (j0 key nonce) /\ List.length (j0 key nonce) = 16%nat.
Proof.
  intros nonce B L. destruct hx_ok as [WX VX]. unfold deriveCounter, j0. destruct (Z.eqb_spec (zlen nonce) 12) as [E|E].
  - assert (L12 : List.length nonce = 12%nat) by (unfold zlen in E; lia). split; [|split].
    + do 12 (destruct nonce as [|? nonce]; [cbn in L12; lia|]). destruct nonce; [reflexivity|cbn in L12; lia].
    + apply Forall_app. split; [exact B|]. repeat constructor; lia.
    + rewrite app_length, L12. reflexivity.
  - assert (W0 : wf fe0) by (split; cbn; lia). destruct (update_ok hx fe0 nonce WX W0 B) as (y & -> & W & V). cbn [bind]. pose proof (zlen_nonneg _ nonce) as N.
    unfold u64. rewrite Z.mod_small by lia. destruct (len_block y 0 (zlen nonce * 8) W ltac:(lia) ltac:(lia)) as [L1 L2]. unfold gcmAdd in L1, L2. cbn [fe_low fe_high] in L1, L2.
    rewrite Z.lxor_0_r in L1, L2. destruct (mul_ok hx _ WX L1) as [M1 M2]. rewrite out_block by exact M1. rewrite M2, L2, V, VX. split; [|split; [apply be_enc_bytes|apply be_enc_length]].
    unfold ghash, gh. rewrite fold_left_app. reflexivity.
Qed.
Lemma stream_ok : forall nonce l, bytes nonce -> zlen nonce < 2 ^ 61 ->
  exists out, counterCrypt c (List.length l) l (gcmInc32 (j0 key nonce)) = Ret out /\ with_stream (gcm_byte key nonce) l out.
Proof.
  intros nonce l B L. destruct (j0_ok nonce B L) as (_ & B0 & L0). rewrite inc32_ok by assumption. destruct (at_ctr_block (j0 key nonce) 1 B0 L0) as [B1 L1].
  destruct (crypt_ok (Sm4Spec.sm4_enc key) (enc16 key) c mask_ok (List.length l) l (at_ctr (j0 key nonce) 1) ltac:(lia) B1 L1) as (out & E & W). exists out. split; [exact E|].
  refine (with_stream_ext _ _ _ _ _ W). intros i. unfold gcm_byte. rewrite at_ctr_at by exact L0. unfold at_ctr.
  replace (be_dec (skipn 12 (j0 key nonce)) + Z.of_nat (1 + i / 16)) with (be_dec (skipn 12 (j0 key nonce)) + 1 + Z.of_nat (i / 16)) by lia. reflexivity.
Qed.
Lemma tag_ok : forall nonce cipher data, bytes nonce -> zlen nonce < 2 ^ 61 -> bytes cipher -> bytes data -> zlen data < 2 ^ 61 -> zlen cipher < 2 ^ 61 ->
  auth (productTable hx) cipher data (Sm4Spec.sm4_enc key (j0 key nonce)) = Ret (gcm_tag key nonce data cipher).
Proof.
  intros nonce cipher data BN LN BC BD LD LC. destruct hx_ok as [WX VX]. rewrite auth_ok by assumption. rewrite VX. reflexivity.
Qed.
End Gcm.
Lemma stream_bytes : forall f s d, (forall i, byte (f i)) -> bytes s -> with_stream f s d -> bytes d.
Proof.
  intros f s d F B [L W]. apply Forall_forall. intros x I. apply (In_nth _ _ 0) in I. destruct I as (i & I & <-). rewrite W by lia.
  assert (BI : byte (nth i s 0)) by (unfold bytes in B; rewrite Forall_forall in B; apply B, nth_In; lia). apply (lxor_range 8); [lia|exact BI|apply F].
Qed.
Lemma gcm_byte_byte : forall key nonce i, byte (gcm_byte key nonce i).
Proof.
  intros key nonce i. unfold gcm_byte. cbv zeta. generalize (firstn 12 (j0 key nonce) ++ be_enc 4 (be_dec (skipn 12 (j0 key nonce)) + 1 + Z.of_nat (i / 16))). intros b.
  pose proof (enc_bytes key b) as B. unfold bytes in B. rewrite Forall_forall in B. apply B, nth_In. rewrite enc16. apply Nat.mod_upper_bound. lia.
Qed.
Lemma compare_ok : forall x y, ConstantTimeCompare x y = 1 <-> x = y.
Proof.
  assert (G : forall x y v, List.length x = List.length y -> (fold_left (fun v p => Z.lor v (Z.lxor (fst p) (snd p))) (combine x y) v = 0 <-> v = 0 /\ x = y)).
  { induction x as [|a x IH]; intros [|b y] v L; cbn [List.length] in L; try lia; cbn [combine fold_left].
    - tauto.
    - rewrite IH by lia. cbn [fst snd]. rewrite Z.lor_eq_0_iff, Z.lxor_eq_0_iff. split; [intros [[-> ->] ->]; auto|intros [-> E]; injection E as -> ->; auto]. }
  intros x y. unfold ConstantTimeCompare. destruct (Nat.eqb_spec (List.length x) (List.length y)) as [L|L]; cbn [negb].
  - destruct (Z.eqb_spec (fold_left (fun v p => Z.lor v (Z.lxor (fst p) (snd p))) (combine x y) 0) 0) as [E|E].
    + apply G in E; [|exact L]. tauto.
    + split; [discriminate|]. intros ->. exfalso. apply E. apply G; auto.
  - split; [discriminate|]. intros ->. now elim L.
Qed.
Lemma tag_length : forall key nonce data cipher, List.length (gcm_tag key nonce data cipher) = 16%nat.
Proof. intros. unfold gcm_tag. rewrite map_length, combine_length, be_enc_length, enc16. reflexivity. Qed.
Lemma gcm_of : forall key c ns ts g, zlen key = 16 -> NewCipher key = Ok c -> newGCM c ns ts = Ret (OK g) -> g = mkGcm c ns ts (productTable (hx key)) /\ 12 <= ts <= 16.
Proof.
  intros key c ns ts g HK HC HG. rewrite (new_gcm key HK c HC) in HG. destruct (Z.ltb_spec ts 12); cbn [orb] in HG; [discriminate|]. destruct (Z.ltb_spec 16 ts); [discriminate|].
  injection HG as <-. split; [reflexivity|lia].
Qed.
Lemma stream_zlen : forall f s d, with_stream f s d -> zlen d = zlen s.
Proof. intros f s d [L _]. unfold zlen. lia. Qed.

(** * The theorems *)

(** Which tag sizes there are: 12 to 16 bytes. *)
Theorem C134_new : forall key c ns ts, zlen key = 16 -> NewCipher key = Ok c ->
  (12 <= ts <= 16 -> exists g, newGCM c ns ts = Ret (OK g)) /\
  (~ 12 <= ts <= 16 -> newGCM c ns ts = Ret (ERR "cipher: incorrect tag size given to GCM")).
Proof.
  intros key c ns ts HK HC. rewrite (new_gcm key HK c HC). split; intros H; destruct (Z.ltb_spec ts 12), (Z.ltb_spec 16 ts); cbn [orb]; try lia; try reflexivity. eexists. reflexivity.
Qed.
(** Seal appends to dst the message with the key stream of GCM, and the tag of GCM over that and the additional data. *)
Theorem C134_seal : forall key c ns ts g dst nonce plain data,
  zlen key = 16 -> NewCipher key = Ok c -> newGCM c ns ts = Ret (OK g) ->
  zlen nonce = ns -> zlen nonce < 2 ^ 61 -> bytes nonce -> zlen plain <= (2 ^ 32 - 2) * 16 -> bytes plain -> bytes data -> zlen data < 2 ^ 61 ->
  exists cipher, Seal g dst nonce plain data = Ret (dst ++ cipher ++ firstn (Z.to_nat ts) (gcm_tag key nonce data cipher)) /\
    with_stream (gcm_byte key nonce) plain cipher.
Proof.
  intros key c ns ts g dst nonce plain data HK HC HG HN LN BN LP BP BD LD. destruct (gcm_of key c ns ts g HK HC HG) as [-> HT].
  unfold Seal. cbn [g_nonceSize g_table g_cipher g_tagSize]. rewrite HN, Z.eqb_refl. cbn [negb]. change maxPlain with ((2 ^ 32 - 2) * 16). destruct (Z.ltb_spec ((2 ^ 32 - 2) * 16) (zlen plain)); [lia|].
  destruct (j0_ok key nonce BN LN) as (-> & B0 & L0). cbn [bind]. rewrite (mask_ok key HK c HC) by exact L0. cbn [bind].
  destruct (stream_ok key HK c HC nonce plain BN LN) as (out & -> & W). cbn [bind]. pose proof (stream_zlen _ _ _ W) as ZL.
  rewrite (tag_ok key nonce out data BN LN (stream_bytes _ _ _ (gcm_byte_byte key nonce) BP W) BD LD) by lia. cbn [bind]. exists out. split; [reflexivity|exact W].
Qed.
(** Open gives a message exactly if its input is what Seal makes of that message; in all other cases it gives the one error. *)
Theorem C134_open : forall key c ns ts g dst nonce input data,
  zlen key = 16 -> NewCipher key = Ok c -> newGCM c ns ts = Ret (OK g) ->
  zlen nonce = ns -> zlen nonce < 2 ^ 61 -> bytes nonce -> bytes input -> bytes data -> zlen data < 2 ^ 61 ->
  (exists plain, bytes plain /\ Seal g [] nonce plain data = Ret input /\ Open g dst nonce input data = Ret (OK (dst ++ plain))) \/
  ((forall plain, bytes plain -> Seal g [] nonce plain data <> Ret input) /\ Open g dst nonce input data = Ret (ERR "cipher: message authentication failed")).
Proof.
  intros key c ns ts g dst nonce input data HK HC HG HN LN BN BI BD LD.
  (* what Seal makes of a message, from either side *)
  assert (SEAL : forall plain, bytes plain -> Seal g [] nonce plain data = Ret input ->
    zlen plain <= (2 ^ 32 - 2) * 16 /\ exists cipher, input = cipher ++ firstn (Z.to_nat ts) (gcm_tag key nonce data cipher) /\ with_stream (gcm_byte key nonce) plain cipher).
  { intros plain BP HS. destruct (Z.le_gt_cases (zlen plain) ((2 ^ 32 - 2) * 16)) as [LP|LP].
    - split; [exact LP|]. destruct (C134_seal key c ns ts g [] nonce plain data HK HC HG HN LN BN LP BP BD LD) as (cipher & E & W). rewrite HS in E. injection E as ->. exists cipher. split; [reflexivity|exact W].
    - exfalso. unfold Seal in HS. destruct (negb _); [discriminate|]. change maxPlain with ((2 ^ 32 - 2) * 16) in HS. destruct (Z.ltb_spec ((2 ^ 32 - 2) * 16) (zlen plain)); [discriminate|lia]. }
  pose proof HG as HG'. destruct (gcm_of key c ns ts g HK HC HG) as [EG HT].
  assert (LT : forall cipher, List.length (firstn (Z.to_nat ts) (gcm_tag key nonce data cipher)) = Z.to_nat ts) by (intros cipher; rewrite firstn_length, tag_length; lia).
  unfold Open. rewrite EG. cbn [g_nonceSize g_table g_cipher g_tagSize]. rewrite HN, Z.eqb_refl. cbn [negb]. destruct (Z.ltb_spec ts 12); [lia|]. rewrite <- EG.
  destruct (Z.ltb_spec (zlen input) ts) as [S1|S1].
  { right. split; [|reflexivity]. intros plain BP HS. destruct (SEAL plain BP HS) as (_ & cipher & E & _). subst input. unfold zlen in S1. rewrite app_length, LT in S1. lia. }
  change maxPlain with ((2 ^ 32 - 2) * 16). destruct (Z.ltb_spec ((2 ^ 32 - 2) * 16 + ts) (zlen input)) as [S2|S2].
  { right. split; [|reflexivity]. intros plain BP HS. destruct (SEAL plain BP HS) as (LP & cipher & E & W). apply stream_zlen in W. subst input. unfold zlen in *. rewrite app_length, LT in S2. lia. }
  set (n := Z.to_nat (zlen input - ts)). set (cipher := firstn n input).
  assert (LC : List.length cipher = n) by (unfold cipher; rewrite firstn_length; unfold n, zlen; lia).
  assert (BC : bytes cipher) by (apply firstn_bytes, BI).
  assert (LC61 : zlen cipher < 2 ^ 61) by (unfold zlen; rewrite LC; unfold n, zlen in *; lia).
  destruct (j0_ok key nonce BN LN) as (-> & B0 & L0). cbn [bind]. rewrite (mask_ok key HK c HC) by exact L0. cbn [bind].
  rewrite (tag_ok key nonce cipher data BN LN BC BD LD LC61). cbn [bind].
  destruct (stream_ok key HK c HC nonce cipher BN LN) as (out & EO & W).
  destruct (Z.eqb_spec (ConstantTimeCompare (firstn (Z.to_nat ts) (gcm_tag key nonce data cipher)) (skipn n input)) 1) as [Q|Q]; cbn [negb].
  - apply compare_ok in Q. left. exists out. rewrite EO. cbn [bind]. assert (BO : bytes out) by exact (stream_bytes _ _ _ (gcm_byte_byte key nonce) BC W). split; [exact BO|]. split; [|reflexivity].
    pose proof (stream_zlen _ _ _ W) as ZO.
    destruct (C134_seal key c ns ts g [] nonce out data HK HC HG HN LN BN) as (cipher' & E & W'); [|exact BO|exact BD|exact LD|].
    { rewrite ZO. unfold zlen. rewrite LC. unfold n, zlen in *. lia. }
    assert (cipher' = cipher) by exact (with_stream_unique _ _ _ _ W' (with_stream_back _ _ _ W)). subst cipher'. rewrite E, app_nil_l, Q. f_equal. apply firstn_skipn.
  - right. split; [|reflexivity]. intros plain BP HS. destruct (SEAL plain BP HS) as (_ & cipher' & E & _). apply Q. apply compare_ok.
    assert (LI : List.length cipher' = n) by (unfold n, zlen; rewrite E, app_length, LT; lia).
    assert (CC : cipher = cipher') by (unfold cipher; rewrite E, firstn_app, LI, Nat.sub_diag, firstn_O, app_nil_r; apply firstn_all2; lia).
    rewrite CC. rewrite E at 1. rewrite skipn_app, LI, Nat.sub_diag. rewrite skipn_all2 by lia. reflexivity.
Qed.
(** So opening what was sealed gives the message, behind whatever dst had. *)
Theorem C134_round_trip : forall key c ns ts g dst nonce plain data,
  zlen key = 16 -> NewCipher key = Ok c -> newGCM c ns ts = Ret (OK g) ->
  zlen nonce = ns -> zlen nonce < 2 ^ 61 -> bytes nonce -> zlen plain <= (2 ^ 32 - 2) * 16 -> bytes plain -> bytes data -> zlen data < 2 ^ 61 ->
  exists sealed, Seal g [] nonce plain data = Ret sealed /\ zlen sealed = zlen plain + ts /\ Open g dst nonce sealed data = Ret (OK (dst ++ plain)).
Proof.
  intros key c ns ts g dst nonce plain data HK HC HG HN LN BN LP BP BD LD.
  destruct (C134_seal key c ns ts g [] nonce plain data HK HC HG HN LN BN LP BP BD LD) as (cipher & E & W). rewrite app_nil_l in E.
  pose proof (gcm_of key c ns ts g HK HC HG) as [_ HT].
  assert (BT : bytes (gcm_tag key nonce data cipher)).
  { apply (stream_bytes (fun i => nth i (Sm4Spec.sm4_enc key (j0 key nonce)) 0) (be_enc 16 (ghash (hkey key) (blocks data ++ blocks cipher ++ [zlen data * 8 * 2 ^ 64 + zlen cipher * 8])))).
    - intros i. destruct (Nat.lt_ge_cases i 16) as [I|I]; [|rewrite nth_overflow by (rewrite enc16; lia); unfold byte; lia].
      pose proof (enc_bytes key (j0 key nonce)) as B. unfold bytes in B. rewrite Forall_forall in B. apply B, nth_In. rewrite enc16. exact I.
    - apply be_enc_bytes.
    - split; [rewrite tag_length, be_enc_length; reflexivity|]. intros i I. rewrite be_enc_length in I. unfold gcm_tag. fold (xorBytes (be_enc 16 (ghash (hkey key) (blocks data ++ blocks cipher ++ [zlen data * 8 * 2 ^ 64 + zlen cipher * 8]))) (Sm4Spec.sm4_enc key (j0 key nonce))).
      apply xor_nth; [rewrite be_enc_length; exact I|rewrite enc16; exact I]. }
  assert (BS : bytes (cipher ++ firstn (Z.to_nat ts) (gcm_tag key nonce data cipher))).
  { apply Forall_app. split; [exact (stream_bytes _ _ _ (gcm_byte_byte key nonce) BP W)|apply firstn_bytes, BT]. }
  eexists. split; [exact E|]. split.
  { unfold zlen. rewrite app_length, firstn_length, tag_length. destruct W as [-> _]. lia. }
  destruct (C134_open key c ns ts g dst nonce _ data HK HC HG HN LN BN BS BD LD) as [(p & BP' & E' & EO)|[N _]]; [|exfalso; exact (N plain BP E)].
  rewrite EO. assert (LP' : zlen p <= (2 ^ 32 - 2) * 16).
  { destruct (Z.le_gt_cases (zlen p) ((2 ^ 32 - 2) * 16)) as [Q|Q]; [exact Q|]. exfalso. unfold Seal in E'. destruct (negb _); [discriminate|].
    change maxPlain with ((2 ^ 32 - 2) * 16) in E'. destruct (Z.ltb_spec ((2 ^ 32 - 2) * 16) (zlen p)); [discriminate|lia]. }
  destruct (C134_seal key c ns ts g [] nonce p data HK HC HG HN LN BN LP' BP' BD LD) as (cipher' & E2 & W2). rewrite app_nil_l in E2. rewrite E' in E2. injection E2 as E2.
  assert (LL : List.length cipher' = List.length cipher).
  { apply (f_equal (@List.length Z)) in E2. rewrite !app_length, !firstn_length, !tag_length in E2. lia. }
  assert (CC : cipher' = cipher).
  { apply (f_equal (firstn (List.length cipher))) in E2. rewrite !firstn_app in E2. rewrite LL, Nat.sub_diag, !firstn_O, !app_nil_r in E2. rewrite (firstn_all2 cipher') in E2 by lia. rewrite firstn_all in E2. congruence. }
  subst cipher'. do 3 f_equal. exact (with_stream_unique _ _ _ _ (with_stream_back _ _ _ W2) (with_stream_back _ _ _ W)).
Qed.
(** A nonce of another length and a message that is too long panic. *)
Theorem C134_refused : forall g dst nonce plain data,
  (zlen nonce <> g_nonceSize g -> Seal g dst nonce plain data = Panic (PUser "crypto/cipher: incorrect nonce length given to GCM") /\
     Open g dst nonce plain data = Panic (PUser "crypto/cipher: incorrect nonce length given to GCM")) /\
  (zlen nonce = g_nonceSize g -> (2 ^ 32 - 2) * 16 < zlen plain -> Seal g dst nonce plain data = Panic (PUser "crypto/cipher: message too large for GCM")).
Proof.
  intros g dst nonce plain data. split; intros H.
  - unfold Seal, Open. destruct (Z.eqb_spec (zlen nonce) (g_nonceSize g)); [contradiction|]. split; reflexivity.
  - intros L. unfold Seal. rewrite H, Z.eqb_refl. cbn [negb]. change maxPlain with ((2 ^ 32 - 2) * 16). destruct (Z.ltb_spec ((2 ^ 32 - 2) * 16) (zlen plain)); [reflexivity|lia].
Qed.
(** For one nonce, ciphertext and additional data exactly one tag is right: with any other, Open fails. *)
Theorem C134_one_tag : forall key c ns ts g dst nonce cipher tag data,
  zlen key = 16 -> NewCipher key = Ok c -> newGCM c ns ts = Ret (OK g) ->
  zlen nonce = ns -> zlen nonce < 2 ^ 61 -> bytes nonce -> bytes cipher -> bytes tag -> zlen tag = ts -> bytes data -> zlen data < 2 ^ 61 ->
  tag <> firstn (Z.to_nat ts) (gcm_tag key nonce data cipher) ->
  Open g dst nonce (cipher ++ tag) data = Ret (ERR "cipher: message authentication failed").
Proof.
  intros key c ns ts g dst nonce cipher tag data HK HC HG HN LN BN BC BT LT BD LD NE.
  pose proof (gcm_of key c ns ts g HK HC HG) as [_ HT].
  assert (BI : bytes (cipher ++ tag)) by (apply Forall_app; split; assumption).
  destruct (C134_open key c ns ts g dst nonce _ data HK HC HG HN LN BN BI BD LD) as [(p & BP & E & _)|[_ EO]]; [|exact EO]. exfalso.
  assert (LP : zlen p <= (2 ^ 32 - 2) * 16).
  { destruct (Z.le_gt_cases (zlen p) ((2 ^ 32 - 2) * 16)) as [Q|Q]; [exact Q|]. exfalso. unfold Seal in E. destruct (negb _); [discriminate|].
    change maxPlain with ((2 ^ 32 - 2) * 16) in E. destruct (Z.ltb_spec ((2 ^ 32 - 2) * 16) (zlen p)); [discriminate|lia]. }
  destruct (C134_seal key c ns ts g [] nonce p data HK HC HG HN LN BN LP BP BD LD) as (cipher' & E2 & W2). rewrite app_nil_l in E2. rewrite E in E2. injection E2 as E2.
  assert (LL : List.length cipher' = List.length cipher).
  { apply (f_equal (@List.length Z)) in E2. rewrite !app_length, firstn_length, tag_length in E2. unfold zlen in LT. lia. }
  assert (CC : cipher' = cipher).
  { apply (f_equal (firstn (List.length cipher))) in E2. rewrite !firstn_app in E2. rewrite LL, Nat.sub_diag, !firstn_O, !app_nil_r in E2. rewrite (firstn_all2 cipher') in E2 by lia. rewrite firstn_all in E2. congruence. }
  subst cipher'. apply app_inv_head in E2. exact (NE E2).
Qed.
(** One nonce for two messages: the XOR of the messages is public, and what the tags differ by does not depend on the key stream, only on the hash key. *)
Theorem C134_nonce_twice : forall key c ns g nonce p1 d1 p2 d2,
  zlen key = 16 -> NewCipher key = Ok c -> newGCM c ns 16 = Ret (OK g) -> zlen nonce = ns -> zlen nonce < 2 ^ 61 -> bytes nonce ->
  zlen p1 <= (2 ^ 32 - 2) * 16 -> bytes p1 -> bytes d1 -> zlen d1 < 2 ^ 61 -> zlen p2 <= (2 ^ 32 - 2) * 16 -> bytes p2 -> bytes d2 -> zlen d2 < 2 ^ 61 ->
  exists c1 t1 c2 t2, Seal g [] nonce p1 d1 = Ret (c1 ++ t1) /\ Seal g [] nonce p2 d2 = Ret (c2 ++ t2) /\ List.length t1 = 16%nat /\ List.length t2 = 16%nat /\
    (forall i, (i < List.length p1)%nat -> (i < List.length p2)%nat -> Z.lxor (nth i c1 0) (nth i c2 0) = Z.lxor (nth i p1 0) (nth i p2 0)) /\
    forall i, (i < 16)%nat -> Z.lxor (nth i t1 0) (nth i t2 0) =
      Z.lxor (nth i (be_enc 16 (ghash (hkey key) (blocks d1 ++ blocks c1 ++ [zlen d1 * 8 * 2 ^ 64 + zlen c1 * 8]))) 0)
             (nth i (be_enc 16 (ghash (hkey key) (blocks d2 ++ blocks c2 ++ [zlen d2 * 8 * 2 ^ 64 + zlen c2 * 8]))) 0).
Proof.
  intros key c ns g nonce p1 d1 p2 d2 HK HC HG HN LN BN LP1 BP1 BD1 LD1 LP2 BP2 BD2 LD2.
  destruct (C134_seal key c ns 16 g [] nonce p1 d1 HK HC HG HN LN BN LP1 BP1 BD1 LD1) as (c1 & E1 & W1).
  destruct (C134_seal key c ns 16 g [] nonce p2 d2 HK HC HG HN LN BN LP2 BP2 BD2 LD2) as (c2 & E2 & W2). rewrite app_nil_l in E1, E2. change (Z.to_nat 16) with 16%nat in E1, E2.
  rewrite firstn_all2 in E1 by (rewrite tag_length; lia). rewrite firstn_all2 in E2 by (rewrite tag_length; lia).
  exists c1, (gcm_tag key nonce d1 c1), c2, (gcm_tag key nonce d2 c2). split; [exact E1|]. split; [exact E2|]. split; [apply tag_length|]. split; [apply tag_length|].
  split; [exact (stream_twice _ _ _ _ _ W1 W2)|].
  assert (T : forall d cc, with_stream (fun i => nth i (Sm4Spec.sm4_enc key (j0 key nonce)) 0) (be_enc 16 (ghash (hkey key) (blocks d ++ blocks cc ++ [zlen d * 8 * 2 ^ 64 + zlen cc * 8]))) (gcm_tag key nonce d cc)).
  { intros d cc. split; [rewrite tag_length, be_enc_length; reflexivity|]. intros i I. rewrite be_enc_length in I.
    apply (xor_nth (be_enc 16 (ghash (hkey key) (blocks d ++ blocks cc ++ [zlen d * 8 * 2 ^ 64 + zlen cc * 8]))) (Sm4Spec.sm4_enc key (j0 key nonce))); [rewrite be_enc_length; exact I|rewrite enc16; exact I]. }
  intros i I. apply (stream_twice _ _ _ _ _ (T d1 c1) (T d2 c2)); rewrite be_enc_length; exact I.
Qed.

(** * Examples *)

(** The vector of RFC 8998, appendix A.1. *)
Definition gx_nonce : list Z := [0; 0; 18; 52; 86; 120; 0; 0; 0; 0; 171; 205].
Definition gx_plain : list Z := [170; 170; 170; 170; 170; 170; 170; 170; 187; 187; 187; 187; 187; 187; 187; 187; 204; 204; 204; 204; 204; 204; 204; 204; 221; 221; 221; 221; 221; 221; 221; 221; 238; 238; 238; 238; 238; 238; 238; 238; 255; 255; 255; 255; 255; 255; 255; 255; 238; 238; 238; 238; 238; 238; 238; 238; 170; 170; 170; 170; 170; 170; 170; 170].
Definition gx_data : list Z := [254; 237; 250; 206; 222; 173; 190; 239; 254; 237; 250; 206; 222; 173; 190; 239; 171; 173; 218; 210].
Definition gx_sealed : list Z := [23; 243; 153; 240; 140; 103; 213; 238; 25; 208; 220; 153; 105; 196; 187; 125; 95; 212; 111; 211; 117; 100; 137; 6; 145; 87; 178; 130; 187; 32; 7; 53; 216; 39; 16; 202; 92; 34; 240; 204; 250; 124; 191; 147; 212; 150; 172; 21; 165; 104; 52; 203; 207; 152; 195; 151; 180; 2; 74; 38; 145; 35; 59; 141; 131; 222; 53; 65; 228; 194; 181; 129; 119; 224; 101; 169; 191; 123; 98; 236].
Definition gx (f : gcm -> go (list Z)) : go (list Z) :=
  match NewCipher ex_key with Ok c => do r <- NewGCM c; match r with OK g => f g | ERR e => Panic (PUser e) end | Err _ => Panic (PUser "no cipher") end.
Example C134_ex_hyps : zlen ex_key = 16 /\ (exists c g, NewCipher ex_key = Ok c /\ newGCM c 12 16 = Ret (OK g)) /\ zlen gx_nonce = 12 /\ bytes gx_nonce /\
  zlen gx_plain = 64 /\ bytes gx_plain /\ zlen gx_data = 20 /\ bytes gx_data.
Proof.
  split; [reflexivity|]. split. { destruct C133_ex_hyps as (HK & [c HC] & _). exists c. destruct (C134_new ex_key c 12 16 HK HC) as [N _]. destruct (N ltac:(lia)) as [g HG]. exists g. split; assumption. }
  split; [reflexivity|]. split; [repeat constructor; unfold byte; lia|]. split; [reflexivity|]. split; [repeat constructor; unfold byte; lia|]. split; [reflexivity|]. repeat constructor; unfold byte; lia.
Qed.
Example C134_ex : gx (fun g => Seal g [7] gx_nonce gx_plain gx_data) = Ret (7 :: gx_sealed).
Proof. vm_compute. reflexivity. Qed.
(** One bit of the additional data changed: refused. *)
Example C134_ex_changed : gx (fun g => do r <- Open g [] gx_nonce gx_sealed (255 :: tl gx_data); match r with OK p => Ret p | ERR e => Panic (PUser e) end) = Panic (PUser "cipher: message authentication failed").
Proof. vm_compute. reflexivity. Qed.
(** A nonce of another length goes through GHASH. *)
Example C134_ex_nonce : match NewCipher ex_key with
  | Ok c => do r <- NewGCMWithNonceSize c 5; match r with OK g => do s <- Seal g [] [1; 2; 3; 4; 5] [9; 9] []; Open g [] [1; 2; 3; 4; 5] s [] | ERR e => Ret (ERR e) end
  | Err _ => Panic (PUser "no cipher") end = Ret (OK [9; 9]).
Proof. vm_compute. reflexivity. Qed.
(** The last bit of the tag changed: refused. *)
Example C134_ex_tag : gx (fun g => do r <- Open g [] gx_nonce (firstn 79 gx_sealed ++ [237]) gx_data; match r with OK p => Ret p | ERR e => Panic (PUser e) end) = Panic (PUser "cipher: message authentication failed").
Proof. vm_compute. reflexivity. Qed.
