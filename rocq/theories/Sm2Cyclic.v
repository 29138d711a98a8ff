(** The SM2 curve has exactly n points: every point is a multiple of the base point. There are at most two points
    for each of the p values of x, and infinity. A point outside the multiples of G would give three classes of n
    points each, which is too many, unless its double is a multiple of G; then there is a point of order two, and
    the cubic would have a root. *)
From Coq Require Import ZArith Znumtheory List Lia Bool Ring Field.
From Verif Require Import Primes Sm2Primes GoBase FpField WeiGroup GoElliptic Sm2Group Sm2Order Sm2Cubic.
Import ListNotations.
Open Scope Z_scope.
Add Field KF3 : K_field.

(** * Counting *)
Definition range (n : Z) : list Z := map Z.of_nat (seq 0 (Z.to_nat n)).
Lemma range_in : forall n x, In x (range n) <-> 0 <= x < n.
Proof.
  intros n x. unfold range. rewrite in_map_iff. split.
  - intros (i & <- & H). apply in_seq in H. lia.
  - intros H. exists (Z.to_nat x). split; [lia|]. apply in_seq. lia.
Qed.
Lemma range_length : forall n, 0 <= n -> Z.of_nat (List.length (range n)) = n.
Proof. intros n H. unfold range. rewrite map_length, seq_length. lia. Qed.
Lemma range_nodup : forall n, NoDup (range n).
Proof. intro n. unfold range. apply FinFun.Injective_map_NoDup; [intros a b; apply Nat2Z.inj|apply seq_NoDup]. Qed.
Lemma nodup_map : forall (g : Z -> Z) l, NoDup l -> (forall x y, In x l -> In y l -> g x = g y -> x = y) -> NoDup (map g l).
Proof.
  intros g l H. induction H as [|x l NI ND IH]; intros J; cbn [map]; constructor.
  - intros Q. apply in_map_iff in Q. destruct Q as (y & E & HY). apply J in E; [subst; contradiction|right; exact HY|left; reflexivity].
  - apply IH. intros a b HA HB. apply J; right; assumption.
Qed.
Lemma pigeon : forall n m (g : Z -> Z), 0 <= n -> 0 <= m -> (forall i, 0 <= i < n -> 0 <= g i < m) ->
  (forall i j, 0 <= i < n -> 0 <= j < n -> g i = g j -> i = j) -> n <= m.
Proof.
  intros n m g Hn Hm HR HI. rewrite <- (range_length n Hn), <- (range_length m Hm).
  rewrite <- (map_length g (range n)). apply inj_le. apply NoDup_incl_length.
  - apply nodup_map; [apply range_nodup|]. intros x y HX HY. apply HI; apply range_in; assumption.
  - intros x HX. apply in_map_iff in HX. destruct HX as (i & <- & HX). apply range_in. apply HR. apply range_in. exact HX.
Qed.
Lemma search : forall (P : Z -> Prop), (forall i, {P i} + {~ P i}) -> forall n, (exists i, 0 <= i < n /\ P i) \/ (forall i, 0 <= i < n -> ~ P i).
Proof.
  intros P D n. destruct (Exists_dec P (range n) D) as [X|X].
  - left. apply Exists_exists in X. destruct X as (i & HI & HP). exists i. split; [apply range_in; exact HI|exact HP].
  - right. intros i HI HP. apply X. apply Exists_exists. exists i. split; [apply range_in; exact HI|exact HP].
Qed.

(** * At most 2p + 1 points *)
Definition code (P : point) : Z :=
  match P with
  | Inf _ => 2 * sm2p
  | Aff _ x y => 2 * fv sm2p x + (if 2 * fv sm2p y <? sm2p then 0 else 1)
  end.
Lemma code_range : forall P, 0 <= code P < 2 * sm2p + 1.
Proof.
  intros [|x y]; unfold code; [unfold sm2p; lia|]. pose proof (fv_range sm2p x) as R. destruct (_ <? _); lia.
Qed.
Lemma fv_zero : forall a b : K, (a + b)%K = k0 -> (fv sm2p a + fv sm2p b) mod sm2p = 0.
Proof. intros a b H. apply kf_0. rewrite kf_add, !kf_fv. exact H. Qed.
Lemma code_inj : forall P Q, on_curve P -> on_curve Q -> code P = code Q -> P = Q.
Proof.
  intros [|x y] [|x' y'] HP HQ E; unfold code in E; [reflexivity| | |].
  - pose proof (fv_range sm2p x') as R. destruct (_ <? _); lia.
  - pose proof (fv_range sm2p x) as R. destruct (_ <? _); lia.
  - assert (EX : x = x'). { apply fp_eq. destruct (_ <? _), (_ <? _); lia. }
    subst x'. f_equal. destruct (same_x_cases x y y' HP HQ) as [H|H]; [exact H|].
    apply fv_zero in H. pose proof (fv_range sm2p y) as R. pose proof (fv_range sm2p y') as R'.
    apply Z.mod_divide in H; [|discriminate]. destruct H as [k H].
    assert (OD : forall v, 2 * v <> sm2p) by (intros v HV; apply (f_equal Z.odd) in HV; rewrite Z.odd_mul in HV; vm_compute in HV; discriminate HV).
    pose proof (OD (fv sm2p y)) as O1. pose proof (OD (fv sm2p y')) as O2.
    apply fp_eq. set (u := fv sm2p y) in *. set (v := fv sm2p y') in *. clearbody u v.
    assert (k = 0 \/ k = 1) as [->| ->] by (pose proof sm2p_pos; nia); [lia|].
    exfalso. destruct (Z.ltb_spec (2 * u) sm2p), (Z.ltb_spec (2 * v) sm2p); lia.
Qed.

(** * No point of order two *)
Lemma no_two_torsion : forall T, on_curve T -> padd T T = O -> T = O.
Proof.
  intros [|x y] On H; [reflexivity|]. exfalso.
  destruct (K_dec y k0) as [->|N].
  - apply (cubic_no_root (fv sm2p x)). unfold cong. rewrite Z.sub_0_r. apply Z.mod_divide; [discriminate|]. apply kf_0.
    unfold cub. rewrite kf_add, kf_sub, !kf_mul, kf_fv. change (kf 3) with (kf (1 + 1 + 1)). rewrite !kf_add. change (kf 1) with k1.
    unfold on_curve, on in On. rewrite kf_m3 in On. transitivity (x * x * x + kopp (k1 + k1 + k1) * x + kf sm2b)%K; [ring|].
    rewrite <- On. ring.
  - change (Aff K x y) with (A x y) in H. rewrite padd_self in H by exact N. discriminate H.
Qed.

(** * Every point is a multiple of G *)
Lemma point_dec : forall P Q : point, {P = Q} + {P <> Q}.
Proof. decide equality; apply K_dec. Qed.
Definition in_G (Q : point) : Prop := exists d, 0 <= d < sm2n /\ Q = pmul d G.
Lemma in_G_mul : forall k, 0 <= k -> in_G (pmul k G).
Proof.
  intros k Hk. exists (k mod sm2n). split; [apply Z.mod_pos_bound; reflexivity|].
  apply (pmul_cong sm2n); [exact G_on|reflexivity|exact Hk|apply Z.mod_pos_bound; reflexivity|exact G_order|].
  rewrite Z.mod_mod by discriminate. reflexivity.
Qed.
(** The inverse of a multiple. *)
Lemma mul_neg_G : forall k, 0 <= k -> padd (pmul k G) (pmul ((sm2n - 1) * k) G) = O.
Proof.
  intros k Hk. rewrite <- pmul_add by (try exact G_on; unfold sm2n; lia). replace (k + (sm2n - 1) * k) with (k * sm2n) by ring.
  rewrite pmul_mul by (try exact G_on; try exact Hk; discriminate). rewrite G_order. apply pmul_O.
Qed.
Lemma cancel_G : forall P Q k, on_curve P -> on_curve Q -> 0 <= k -> padd P (pmul k G) = Q -> P = padd Q (pmul ((sm2n - 1) * k) G).
Proof.
  intros P Q k HP HQ Hk <-. rewrite padd_assoc by auto using pmul_on, G_on. rewrite mul_neg_G by exact Hk. symmetry. apply padd_O_r.
Qed.
Lemma half_G : forall Q, on_curve Q -> in_G (padd Q Q) -> in_G Q.
Proof.
  intros Q On (m & Hm & E). assert (Gon := G_on).
  set (h := (sm2n + 1) / 2). assert (Hh : 2 * h = sm2n + 1) by (vm_compute; reflexivity). assert (h0 : 0 <= h) by lia. clearbody h.
  assert (C0 : 0 <= (sm2n - 1) * (m * h)) by (pose proof (Z.mul_nonneg_nonneg m h ltac:(lia) h0); apply Z.mul_nonneg_nonneg; [discriminate|assumption]).
  set (T := padd Q (pmul ((sm2n - 1) * (m * h)) G)).
  assert (OT : on_curve T) by (apply padd_on; [exact On|apply pmul_on; exact Gon]).
  assert (T2 : padd T T = O).
  { unfold T at 2. rewrite <- padd_assoc by auto using pmul_on. unfold T. rewrite (padd_comm Q (pmul _ G)) by auto using pmul_on.
    rewrite (padd_assoc (pmul _ G) Q Q) by auto using pmul_on. rewrite E, (padd_comm (pmul _ G) (pmul m G)) by auto using pmul_on.
    rewrite <- !pmul_add by (try exact Gon; lia).
    replace (m + (sm2n - 1) * (m * h) + (sm2n - 1) * (m * h)) with (m + (sm2n - 1) * (m * (2 * h))) by ring. rewrite Hh.
    replace (m + (sm2n - 1) * (m * (sm2n + 1))) with (m * sm2n * sm2n) by ring.
    assert (MN : 0 <= m * sm2n) by (apply Z.mul_nonneg_nonneg; [apply Hm|discriminate]).
    rewrite (pmul_mul (m * sm2n) sm2n G Gon MN ltac:(discriminate)). rewrite G_order. apply pmul_O. }
  apply no_two_torsion in T2; [|exact OT]. unfold T in T2. apply cancel_G in T2; [|exact On|exact I|exact C0].
  rewrite T2. rewrite padd_O_l. apply in_G_mul. apply Z.mul_nonneg_nonneg; [discriminate|exact C0].
Qed.

Lemma sm2n_size : 2 * sm2p + 1 < 3 * sm2n. Proof. reflexivity. Qed.

(** The three classes: a Q + i G for a in 0..2 and i in 0..n-1. *)
Definition in_class (Q : point) (t : Z) : point := padd (pmul (t / sm2n) Q) (pmul (t mod sm2n) G).
Lemma shift_class : forall Q a i j, on_curve Q -> 0 <= a -> 0 <= i -> 0 <= j -> pmul i G = padd (pmul a Q) (pmul j G) -> in_G (pmul a Q).
Proof.
  intros Q a i j On Ha Hi Hj E. symmetry in E. apply cancel_G in E; [|apply pmul_on; exact On|apply pmul_on, G_on|exact Hj].
  pose proof (Z.mul_nonneg_nonneg (sm2n - 1) j ltac:(discriminate) Hj) as NJ.
  rewrite E. rewrite <- (pmul_add i ((sm2n - 1) * j) G G_on Hi NJ). apply in_G_mul. apply Z.add_nonneg_nonneg; assumption.
Qed.
Lemma padd_cancel_l : forall P Q R, on_curve P -> on_curve Q -> on_curve R -> padd P Q = padd P R -> Q = R.
Proof.
  intros P Q R HP HQ HR E. apply (f_equal (padd (pneg P))) in E. rewrite <- !padd_assoc in E by auto using pneg_on.
  rewrite (padd_comm (pneg P) P), padd_neg, !padd_O_l in E by auto using pneg_on. exact E.
Qed.
Lemma class_lt : forall Q a b i j, on_curve Q -> ~ in_G Q -> 0 <= a < b -> b <= 2 -> 0 <= i -> 0 <= j ->
  padd (pmul a Q) (pmul i G) = padd (pmul b Q) (pmul j G) -> False.
Proof.
  intros Q a b i j On N Hab Hb Hi Hj E.
  replace b with (a + (b - a)) in E by lia. rewrite (pmul_add a (b - a)), padd_assoc in E by (auto using pmul_on, G_on; lia).
  apply padd_cancel_l in E; auto using pmul_on, padd_on, G_on.
  apply shift_class in E; [|exact On|lia|exact Hi|exact Hj].
  assert (D : b - a = 1 \/ b - a = 2) by lia. destruct D as [D|D]; rewrite D in E.
  - rewrite pmul_1 in E. exact (N E).
  - change 2 with (1 + 1) in E. rewrite pmul_add, pmul_1 in E by (try exact On; lia). exact (N (half_G Q On E)).
Qed.
Lemma class_inj : forall Q s t, on_curve Q -> ~ in_G Q -> 0 <= s < 3 * sm2n -> 0 <= t < 3 * sm2n -> in_class Q s = in_class Q t -> s = t.
Proof.
  intros Q s t On N Hs Ht E. unfold in_class in E.
  assert (n0 : 0 < sm2n) by reflexivity.
  pose proof (Z.mod_pos_bound s sm2n n0) as R1. pose proof (Z.mod_pos_bound t sm2n n0) as R2.
  pose proof (Z.div_mod s sm2n ltac:(lia)) as D1. pose proof (Z.div_mod t sm2n ltac:(lia)) as D2.
  assert (Q1 : 0 <= s / sm2n <= 2) by (split; [apply Z.div_pos; lia|apply Z.lt_succ_r; apply Z.div_lt_upper_bound; lia]).
  assert (Q2 : 0 <= t / sm2n <= 2) by (split; [apply Z.div_pos; lia|apply Z.lt_succ_r; apply Z.div_lt_upper_bound; lia]).
  destruct (Z.lt_trichotomy (s / sm2n) (t / sm2n)) as [L|[L|L]].
  - exfalso. apply (class_lt Q (s / sm2n) (t / sm2n) (s mod sm2n) (t mod sm2n)); auto; lia.
  - rewrite L in E. apply padd_cancel_l in E; auto using pmul_on, G_on.
    apply (pmul_inj sm2n) in E; [|exact G_on|exact sm2n_prime|exact G_fin|exact G_order|lia|lia].
    rewrite !Z.mod_mod in E by lia. congruence.
  - exfalso. symmetry in E. apply (class_lt Q (t / sm2n) (s / sm2n) (t mod sm2n) (s mod sm2n)); auto; lia.
Qed.

Theorem all_multiples : forall Q, on_curve Q -> exists d, 0 <= d < sm2n /\ Q = pmul d G.
Proof.
  intros Q On. destruct (search (fun d => Q = pmul d G) (fun d => point_dec Q (pmul d G)) sm2n) as [H|H]; [exact H|]. exfalso.
  assert (N : ~ in_G Q) by (intros (d & R & E); exact (H d R E)).
  assert (B : 3 * sm2n <= 2 * sm2p + 1).
  { apply (pigeon (3 * sm2n) (2 * sm2p + 1) (fun t => code (in_class Q t))).
    - discriminate.
    - discriminate.
    - intros i _. apply code_range.
    - intros i j Hi Hj E. apply code_inj in E; try (apply padd_on; apply pmul_on; auto using G_on).
      exact (class_inj Q i j On N Hi Hj E). }
  pose proof sm2n_size. lia.
Qed.
(** The multiple is unique, and n is the order of every point but infinity. *)
Theorem multiple_unique : forall d d', 0 <= d < sm2n -> 0 <= d' < sm2n -> pmul d G = pmul d' G -> d = d'.
Proof.
  intros d d' H H' E. apply (pmul_inj sm2n) in E; [|exact G_on|exact sm2n_prime|exact G_fin|exact G_order|lia|lia].
  rewrite !Z.mod_small in E by assumption. exact E.
Qed.
Theorem point_order : forall Q k, on_curve Q -> Q <> O -> 0 <= k -> (pmul k Q = O <-> (sm2n | k)).
Proof.
  intros Q k On N Hk. apply pmul_order; [exact On|exact sm2n_prime|exact N| |exact Hk].
  destruct (all_multiples Q On) as (d & R & ->). rewrite <- pmul_mul by (try exact G_on; try apply R; discriminate).
  rewrite Z.mul_comm. rewrite pmul_mul by (try exact G_on; try apply R; discriminate). rewrite G_order. apply pmul_O.
Qed.
