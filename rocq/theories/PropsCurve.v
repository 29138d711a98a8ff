(** C39, C40: the SM2 domain parameters and the curve arithmetic of crypto/elliptic on them. *)
From Coq Require Import ZArith Znumtheory List Lia Bool String Ring Field.
From Verif Require Import GoBase BeMin FpField GoElliptic.
From Verif Require Import Primes Sm2Primes WeiGroup Sm2Group Sm2Order Sm2Spec Sm2 Sm2Proofs.
Import ListNotations.
Open Scope Z_scope.
Add Field KFc : K_field.

(** * Specification: the affine chord-and-tangent law on integers modulo curveP *)

(** A point of the curve in Go's convention: (0, 0) for infinity, or reduced affine coordinates. *)
Definition valid (P : Z * Z) : Prop :=
  let '(x, y) := P in
  (x = 0 /\ y = 0) \/
  (0 <= x < curveP /\ 0 <= y < curveP /\ (y * y) mod curveP = (x * x * x + curveA * x + curveB) mod curveP).

(** R is on the line of slope l through (x1, y1), reflected, for second abscissa x2. *)
Definition third (l x1 y1 x2 : Z) (R : Z * Z) : Prop :=
  let x3 := (l * l - x1 - x2) mod curveP in R = (x3, (l * (x1 - x3) - y1) mod curveP).
(** R is the sum of P and Q. *)
Definition chord_tangent (P Q R : Z * Z) : Prop :=
  let '(x1, y1) := P in
  let '(x2, y2) := Q in
  if (x1 =? 0) && (y1 =? 0) then R = Q
  else if (x2 =? 0) && (y2 =? 0) then R = P
  else if x1 =? x2 then
    if (y1 + y2) mod curveP =? 0 then R = (0, 0)
    else exists l, (2 * y1 * l) mod curveP = (3 * x1 * x1 + curveA) mod curveP /\ third l x1 y1 x2 R
  else exists l, (l * (x2 - x1)) mod curveP = (y2 - y1) mod curveP /\ third l x1 y1 x2 R.

(** R is P added to infinity k times. *)
Inductive multiple (P : Z * Z) : nat -> Z * Z -> Prop :=
| mult_0 : multiple P 0 (0, 0)
| mult_S : forall k R R', multiple P k R -> chord_tangent R P R' -> multiple P (S k) R'.

(** * Connection with the field *)
Lemma kf_A : kf curveA = kf (-3).
Proof. rewrite curveA_eq. apply kf_eq. reflexivity. Qed.

Lemma valid_on : forall x y, valid (x, y) -> on_curve (dec x y) /\ enc (dec x y) = (x, y).
Proof.
  intros x y [[-> ->]|(Hx & Hy & E)]; [split; [exact I|reflexivity]|].
  rewrite curveP_eq in *. split; [|apply enc_dec; assumption].
  assert (On : on_curve (A (kf x) (kf y))).
  { unfold on_curve, A, on. rewrite <- kf_A, <- curveB_eq, <- !kf_mul, <- !kf_add. apply kf_eq. exact E. }
  rewrite dec_A by exact On. exact On.
Qed.
Lemma on_valid : forall P, on_curve P -> valid (enc P).
Proof.
  intros [|x y] On; [left; split; reflexivity|]. cbn [enc valid]. right. rewrite curveP_eq.
  split; [apply fv_range|]. split; [apply fv_range|]. unfold on_curve, on in On.
  apply kf_eq. rewrite !kf_add, !kf_mul, !kf_fv, kf_A, curveB_eq. exact On.
Qed.

Lemma fv_kf : forall x, fv sm2p (kf x) = x mod sm2p.
Proof. intro x. apply fv_F. Qed.
Lemma kf_2 : forall x, kf (2 * x) = ((k1 + k1) * kf x)%K.
Proof. intro x. rewrite kf_mul. reflexivity. Qed.
Lemma kf_3 : forall x, kf (3 * x) = ((k1 + k1 + k1) * kf x)%K.
Proof. intro x. rewrite kf_mul. reflexivity. Qed.

Lemma enc_A_nz : forall x y, on_curve (A x y) -> (fv sm2p x =? 0) && (fv sm2p y =? 0) = false.
Proof.
  intros x y On. destruct (Z.eqb_spec (fv sm2p x) 0) as [EX|]; [|reflexivity].
  destruct (Z.eqb_spec (fv sm2p y) 0) as [EY|]; [|reflexivity]. exfalso.
  assert (E : enc (A x y) = (0, 0)) by (cbn [enc A]; rewrite EX, EY; reflexivity).
  apply enc_O in E; [discriminate|exact On].
Qed.

Lemma third_spec : forall (l x1 y1 x2 : K), third (fv sm2p l) (fv sm2p x1) (fv sm2p y1) (fv sm2p x2) (enc (chord K kmul ksub l x1 y1 x2)).
Proof.
  intros. unfold third, chord. cbn [enc]. rewrite curveP_eq.
  assert (EX : (fv sm2p l * fv sm2p l - fv sm2p x1 - fv sm2p x2) mod sm2p = fv sm2p (l * l - x1 - x2)%K).
  { rewrite <- fv_kf. f_equal. rewrite !kf_sub, kf_mul, !kf_fv. reflexivity. }
  cbv zeta. rewrite EX. apply (f_equal (pair (fv sm2p (l * l - x1 - x2)%K))).
  rewrite <- fv_kf. f_equal. rewrite kf_sub, kf_mul, kf_sub, !kf_fv. reflexivity.
Qed.

Lemma sum_spec : forall P Q, on_curve P -> on_curve Q -> chord_tangent (enc P) (enc Q) (enc (padd P Q)).
Proof.
  intros [|x1 y1] [|x2 y2] HP HQ; [reflexivity|reflexivity| |].
  - fold (A x1 y1) in *. unfold chord_tangent. cbn [enc A]. rewrite (enc_A_nz _ _ HP). reflexivity.
  - fold (A x1 y1) in *. fold (A x2 y2) in *. unfold chord_tangent. cbn [enc A].
    rewrite (enc_A_nz _ _ HP), (enc_A_nz _ _ HQ). unfold padd, A, add.
    destruct (K_dec x1 x2) as [<-|NX].
    + rewrite Z.eqb_refl.
      assert (EM : (fv sm2p y1 + fv sm2p y2) mod curveP = 0 <-> (y1 + y2)%K = k0).
      { rewrite curveP_eq, <- kf_0, kf_add, !kf_fv. reflexivity. }
      destruct (K_dec (y1 + y2)%K k0) as [E|NE].
      * rewrite (proj2 (Z.eqb_eq _ _) (proj2 EM E)). reflexivity.
      * rewrite (proj2 (Z.eqb_neq _ _) (fun e => NE (proj1 EM e))).
        destruct (same_x_cases x1 y1 y2 HP HQ) as [<-|E]; [|contradiction].
        set (l := (((k1 + k1 + k1) * x1 * x1 + kf (-3)) / ((k1 + k1) * y1))%K).
        assert (N2 : ((k1 + k1) * y1)%K <> k0) by (intro E; apply NE; rewrite <- E; ring).
        exists (fv sm2p l). split; [|apply third_spec]. rewrite curveP_eq.
        apply kf_eq. rewrite kf_mul, kf_2, kf_add, kf_mul, kf_3, kf_A, !kf_fv. unfold l. field.
        split; [|exact k2_nz]. intro E. apply N2. rewrite E. ring.
    + assert (NE : fv sm2p x1 <> fv sm2p x2) by (intro E; apply NX; rewrite <- (kf_fv x1), <- (kf_fv x2), E; reflexivity).
      rewrite (proj2 (Z.eqb_neq _ _) NE). set (l := ((y2 - y1) / (x2 - x1))%K).
      exists (fv sm2p l). split; [|apply third_spec]. rewrite curveP_eq.
      apply kf_eq. rewrite kf_mul, !kf_sub, !kf_fv. unfold l. field. intro E. apply NX. symmetry. apply ksub_z. exact E.
Qed.

Lemma multiple_spec : forall n P, on_curve P -> multiple (enc P) n (enc (pmul (Z.of_nat n) P)).
Proof.
  induction n as [|n IH]; intros P H; [apply mult_0|].
  apply mult_S with (enc (pmul (Z.of_nat n) P)); [apply IH, H|].
  rewrite Nat2Z.inj_succ. unfold Z.succ. rewrite pmul_add by (try exact H; lia). rewrite pmul_1.
  apply sum_spec; [apply pmul_on|]; exact H.
Qed.

(** * C39 *)

Theorem C39_domain_parameters :
  prime curveP /\ prime curveN /\ curveA = curveP - 3 /\ 2 ^ 255 < curveN < curveP /\ curveP < 2 ^ 256 /\
  (4 * curveA * curveA * curveA + 27 * curveB * curveB) mod curveP <> 0 /\
  IsOnCurve curveP curveB curveGx curveGy = true /\ valid (curveGx, curveGy) /\ (curveGx, curveGy) <> (0, 0).
Proof.
  rewrite curveP_eq at 1. rewrite curveN_eq at 1. split; [exact sm2p_prime|]. split; [exact sm2n_prime|].
  split; [vm_compute; reflexivity|]. split; [vm_compute; split; reflexivity|]. split; [vm_compute; reflexivity|].
  split; [vm_compute; discriminate|]. split; [vm_compute; reflexivity|]. split; [|vm_compute; discriminate].
  right. split; [vm_compute; split; [discriminate|reflexivity]|]. split; [vm_compute; split; [discriminate|reflexivity]|].
  vm_compute. reflexivity.
Qed.

Theorem C39_base_point_order : forall k, bytes k ->
  exists x y, curveScalarBaseMult k = Ret (x, y) /\ valid (x, y) /\ ((x, y) = (0, 0) <-> (curveN | be_dec k)).
Proof.
  intros k Hk. rewrite base_mult by exact Hk. eexists _, _. split; [reflexivity|].
  assert (On : on_curve (pmul (be_dec k) G)) by (apply pmul_on, G_on). rewrite <- enc_xy.
  split; [apply on_valid, On|]. rewrite enc_O by exact On. rewrite curveN_eq. apply G_mul_O. apply be_dec_bound, Hk.
Qed.
(** Different scalars below the order give different points. *)
Theorem C39_base_mult_injective : forall k l, bytes k -> bytes l ->
  (curveScalarBaseMult k = curveScalarBaseMult l <-> be_dec k mod curveN = be_dec l mod curveN).
Proof.
  intros k l Hk Hl. rewrite !base_mult by assumption. rewrite curveN_eq.
  pose proof (be_dec_bound k Hk). pose proof (be_dec_bound l Hl). pose proof sm2n_pos.
  assert (OK1 : on_curve (pmul (be_dec k) G)) by (apply pmul_on, G_on).
  assert (OK2 : on_curve (pmul (be_dec l) G)) by (apply pmul_on, G_on).
  split; intro E.
  - apply G_mul_inj; try lia. apply enc_inj; [exact OK1|exact OK2|]. rewrite !enc_xy. congruence.
  - rewrite (pmul_cong sm2n (be_dec k) (be_dec l) G); [reflexivity|exact G_on|lia|lia|lia|exact G_order|exact E].
Qed.

(** The order's bytes, and two scalars that are congruent. *)
Example C39_ex : (curveN | be_dec (be_enc 32 sm2n)) /\ ~ (curveN | be_dec [2]).
Proof.
  rewrite curveN_eq. split; [rewrite be_dec_enc_small; [apply Z.divide_refl|vm_compute; split; [discriminate|reflexivity]]|].
  intro E. apply Z.divide_pos_le in E; [|vm_compute; reflexivity]. vm_compute in E. apply E. reflexivity.
Qed.

(** * C40 *)

Theorem C40_add_is_chord_tangent : forall x1 y1 x2 y2, valid (x1, y1) -> valid (x2, y2) ->
  exists R, Add curveP x1 y1 x2 y2 = Ret R /\ valid R /\ chord_tangent (x1, y1) (x2, y2) R.
Proof.
  intros x1 y1 x2 y2 H1 H2. apply valid_on in H1, H2. destruct H1 as [O1 E1]. destruct H2 as [O2 E2].
  rewrite curveP_eq, Add_spec by assumption. eexists. split; [reflexivity|]. split; [apply on_valid, padd_on; assumption|].
  rewrite <- E1, <- E2. apply sum_spec; assumption.
Qed.
Theorem C40_double_is_chord_tangent : forall x y, valid (x, y) ->
  exists R, Double curveP x y = Ret R /\ valid R /\ chord_tangent (x, y) (x, y) R.
Proof.
  intros x y H. apply valid_on in H. destruct H as [O1 E1].
  rewrite curveP_eq, Double_spec. eexists. split; [reflexivity|]. split; [apply on_valid, padd_on; assumption|].
  rewrite <- E1. apply sum_spec; assumption.
Qed.
Theorem C40_scalar_mult_is_iterated_sum : forall x y k, valid (x, y) -> bytes k ->
  exists R, curveScalarMult x y k = Ret R /\ valid R /\ multiple (x, y) (Z.to_nat (be_dec k)) R.
Proof.
  intros x y k H Hk. apply valid_on in H. destruct H as [O1 E1].
  rewrite mult_dec by assumption. eexists. split; [reflexivity|]. rewrite <- enc_xy.
  split; [apply on_valid, pmul_on; assumption|].
  replace (be_dec k) with (Z.of_nat (Z.to_nat (be_dec k))) at 2 by (apply Z2Nat.id, be_dec_bound, Hk).
  rewrite <- E1. apply multiple_spec. exact O1.
Qed.

(** The sum is determined by its summands, so the two theorems above pin the results down. *)
Lemma solve_unique : forall c l m r, kf c <> k0 -> (l * c) mod sm2p = r mod sm2p -> (m * c) mod sm2p = r mod sm2p -> kf l = kf m.
Proof.
  intros c l m r N E1 E2. apply kf_eq in E1, E2. rewrite kf_mul in E1, E2. apply (kmul_cancel (kf c)); [exact N|].
  transitivity (kf r); [rewrite <- E1|rewrite <- E2]; ring.
Qed.
Lemma third_unique : forall l m x1 y1 x2 R R', kf l = kf m -> third l x1 y1 x2 R -> third m x1 y1 x2 R' -> R = R'.
Proof.
  intros l m x1 y1 x2 R R' E -> ->. rewrite curveP_eq. cbv zeta.
  assert (EX : (l * l - x1 - x2) mod sm2p = (m * m - x1 - x2) mod sm2p).
  { apply kf_eq. rewrite !kf_sub, !kf_mul, E. reflexivity. }
  rewrite EX. apply (f_equal (pair _)). apply kf_eq. rewrite !kf_sub, !kf_mul, E. reflexivity.
Qed.
Theorem C40_sum_unique : forall P Q R R', valid P -> valid Q -> chord_tangent P Q R -> chord_tangent P Q R' -> R = R'.
Proof.
  intros [x1 y1] [x2 y2] R R' V1 V2 H H'. unfold chord_tangent in H, H'.
  destruct ((x1 =? 0) && (y1 =? 0)) eqn:Z1; [congruence|]. destruct ((x2 =? 0) && (y2 =? 0)) eqn:Z2; [congruence|].
  assert (F : forall x y, (x =? 0) && (y =? 0) = false -> valid (x, y) -> 0 <= x < sm2p /\ on_curve (A (kf x) (kf y))).
  { intros x y Z V. pose proof V as V0. destruct V as [[-> ->]|(R1 & _ & _)]; [discriminate|]. rewrite curveP_eq in R1. split; [exact R1|].
    apply valid_on in V0. destruct V0 as [On _]. unfold dec in On. rewrite Z in On. exact On. }
  destruct (F _ _ Z1 V1) as [R1 O1]. destruct (F _ _ Z2 V2) as [R2 O2].
  destruct (Z.eqb_spec x1 x2) as [<-|NX].
  - destruct (Z.eqb_spec ((y1 + y2) mod curveP) 0) as [E|NE]; [congruence|].
    destruct H as (l & E1 & T1). destruct H' as (m & E2 & T2). rewrite curveP_eq in E1, E2, NE.
    refine (third_unique l m _ _ _ _ _ _ T1 T2).
    refine (solve_unique (2 * y1) l m _ _ (eq_trans (f_equal (fun z => z mod sm2p) (Z.mul_comm _ _)) E1)
             (eq_trans (f_equal (fun z => z mod sm2p) (Z.mul_comm _ _)) E2)).
    intro N. apply NE. apply kf_0. rewrite kf_add.
    destruct (same_x_cases _ _ _ O1 O2) as [E|E]; [|exact E]. rewrite <- E. rewrite kf_2 in N. rewrite <- N. ring.
  - destruct H as (l & E1 & T1). destruct H' as (m & E2 & T2). rewrite curveP_eq in E1, E2.
    refine (third_unique l m _ _ _ _ _ _ T1 T2). refine (solve_unique (x2 - x1) l m _ _ E1 E2).
    intro N. rewrite kf_sub in N. apply ksub_z in N. apply kf_eq in N. rewrite !Z.mod_small in N by assumption. congruence.
Qed.

(** Group laws of Go's Add on points of the curve. *)
Theorem C40_add_commutative : forall x1 y1 x2 y2, valid (x1, y1) -> valid (x2, y2) ->
  Add curveP x1 y1 x2 y2 = Add curveP x2 y2 x1 y1.
Proof.
  intros x1 y1 x2 y2 H1 H2. apply valid_on in H1, H2. destruct H1 as [O1 _]. destruct H2 as [O2 _].
  rewrite curveP_eq, !Add_spec by assumption. rewrite padd_comm by assumption. reflexivity.
Qed.
Theorem C40_add_associative : forall x1 y1 x2 y2 x3 y3, valid (x1, y1) -> valid (x2, y2) -> valid (x3, y3) ->
  (do (x, y) <- Add curveP x1 y1 x2 y2; Add curveP x y x3 y3) = (do (x, y) <- Add curveP x2 y2 x3 y3; Add curveP x1 y1 x y).
Proof.
  intros x1 y1 x2 y2 x3 y3 H1 H2 H3. apply valid_on in H1, H2, H3.
  destruct H1 as [O1 E1]. destruct H2 as [O2 E2]. destruct H3 as [O3 E3].
  rewrite curveP_eq, !Add_spec by assumption. cbn [bind]. rewrite !enc_xy.
  assert (O12 := padd_on _ _ O1 O2). assert (O23 := padd_on _ _ O2 O3).
  rewrite !Add_spec; rewrite ?dec_coords; try assumption. rewrite padd_assoc by assumption. reflexivity.
Qed.
Theorem C40_add_identity : forall x y, valid (x, y) -> Add curveP x y 0 0 = Ret (x, y) /\ Add curveP 0 0 x y = Ret (x, y).
Proof.
  intros x y H. apply valid_on in H. destruct H as [On E].
  rewrite curveP_eq, !Add_spec by (try assumption; exact I). change (dec 0 0) with O. rewrite padd_O_r, padd_O_l, E. split; reflexivity.
Qed.
Theorem C40_add_inverse : forall x y, valid (x, y) ->
  valid (x, (- y) mod curveP) /\ Add curveP x y x ((- y) mod curveP) = Ret (0, 0).
Proof.
  intros x y V. assert (P0 : 0 < curveP) by (rewrite curveP_eq; reflexivity).
  destruct V as [[-> ->]|(Rx & Ry & E)].
  - split; [left; split; reflexivity|]. vm_compute. reflexivity.
  - assert (V' : valid (x, (- y) mod curveP)).
    { right. split; [exact Rx|]. split; [apply Z.mod_pos_bound; exact P0|]. rewrite <- Z.mul_mod by lia. rewrite Z.mul_opp_opp. exact E. }
    split; [exact V'|].
    assert (V : valid (x, y)) by (right; auto). pose proof V as V2.
    apply valid_on in V, V'. destruct V as [O1 E1]. destruct V' as [O2 E2]. rewrite curveP_eq in *.
    rewrite Add_spec by assumption.
    assert (F : forall x y, 0 <= x < sm2p -> (y * y) mod sm2p = (x * x * x + curveA * x + curveB) mod sm2p -> dec x y = A (kf x) (kf y)).
    { clear. intros x y R E. unfold dec. destruct (Z.eqb_spec x 0) as [->|]; [|reflexivity]. destruct (Z.eqb_spec y 0) as [->|]; [|reflexivity].
      vm_compute in E. discriminate. }
    rewrite (F x y Rx E). rewrite F; [|exact Rx|rewrite <- Z.mul_mod by lia; rewrite Z.mul_opp_opp; exact E].
    rewrite padd_opp; [reflexivity|]. rewrite kf_mod, kf_opp. ring.
Qed.

(** Concrete points: the base point doubled, and added to its opposite. *)
Example C40_ex_valid : valid (curveGx, curveGy) /\ valid (0, 0) /\ bytes [1; 2].
Proof. split; [apply C39_domain_parameters|]. split; [left; split; reflexivity|]. repeat constructor; unfold byte; lia. Qed.
Example C40_ex_double : exists x y, Double curveP curveGx curveGy = Ret (x, y) /\ curveScalarBaseMult [2] = Ret (x, y) /\
  Add curveP curveGx curveGy curveGx curveGy = Ret (x, y) /\ (x, y) <> (0, 0).
Proof.
  exists 0x56CEFD60D7C87C000D58EF57FA73BA4D9C0DFA08C08A7331495C2E1DA3F2BD52, 0x31B7E7E6CC8189F668535CE0F8EAF1BD6DE84C182F6C8E716F780D3A970A23C3.
  split; [vm_compute; reflexivity|]. split; [vm_compute; reflexivity|]. split; [vm_compute; reflexivity|]. discriminate.
Qed.
