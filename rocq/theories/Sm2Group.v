(** The SM2 curve y^2 = x^3 - 3x + b over the prime field of sm2p, its affine group, and the proof that
    the Jacobian arithmetic of crypto/elliptic computes in that group. *)
From Coq Require Import ZArith Znumtheory List Lia Bool Ring Field.
From Verif Require Import GoBase FpField Primes Sm2Primes WeiGroup GoElliptic.
Import ListNotations.
Open Scope Z_scope.

(** * The curve (specification) *)

(** b, and the base point, of GM/T 0003.5; p and n are in Sm2Primes. *)
Definition sm2b : Z := 0x28E9FA9E9D9F5E344D5A9E4BCF6509A7F39789F515AB8F92DDBCBD414D940E93.
Definition sm2gx : Z := 0x32C4AE2C1F1981195F9904466A39C9948FE30BBFF2660BE1715A4589334C74C7.
Definition sm2gy : Z := 0xBC3736A2F4F6779C59BDCEE36B692153D0A9877CC62A474002DF32E52139F0A0.

(** The field, and the class of an integer in it. *)
Definition K : Set := fp sm2p.
Definition kf (z : Z) : K := F sm2p sm2p_prime z.
Definition kadd : K -> K -> K := fadd sm2p sm2p_prime.
Definition kmul : K -> K -> K := fmul sm2p sm2p_prime.
Definition ksub : K -> K -> K := fsub sm2p sm2p_prime.
Definition kopp : K -> K := fopp sm2p sm2p_prime.
Definition kdiv : K -> K -> K := fdiv sm2p sm2p_prime.
Definition kinv : K -> K := finv sm2p sm2p_prime.
Definition k0 : K := kf 0.
Definition k1 : K := kf 1.
Lemma K_field : field_theory k0 k1 kadd kmul ksub kopp kdiv kinv (@eq K).
Proof. exact (fp_field sm2p sm2p_prime). Qed.
Definition K_dec : forall x y : K, {x = y} + {x <> y} := fp_dec sm2p.
Add Field KF : K_field.
Declare Scope K_scope.
Delimit Scope K_scope with K.
Infix "+" := kadd : K_scope.
Infix "*" := kmul : K_scope.
Infix "-" := ksub : K_scope.
Infix "/" := kdiv : K_scope.

(** Points: infinity or a pair of field elements; the curve equation; chord-and-tangent addition;
    the k-fold sum. *)
Definition point : Type := pt K.
Definition O : point := Inf K.
Definition A (x y : K) : point := Aff K x y.
Definition on_curve (P : point) : Prop := on K kadd kmul (kf (-3)) (kf sm2b) P.
Definition pneg (P : point) : point := neg K kopp P.
Definition padd (P Q : point) : point := add K k0 k1 kadd kmul ksub kdiv K_dec (kf (-3)) P Q.
Definition pmul (k : Z) (P : point) : point := mul K k0 k1 kadd kmul ksub kdiv K_dec (kf (-3)) k P.
Definition G : point := A (kf sm2gx) (kf sm2gy).

(** * Integers in the field *)

Lemma kf_eq : forall x y, x mod sm2p = y mod sm2p <-> kf x = kf y.
Proof. exact (F_eq sm2p sm2p_prime). Qed.
Lemma kf_add : forall x y, kf (x + y) = (kf x + kf y)%K.
Proof. exact (F_add sm2p sm2p_prime). Qed.
Lemma kf_sub : forall x y, kf (x - y) = (kf x - kf y)%K.
Proof. exact (F_sub sm2p sm2p_prime). Qed.
Lemma kf_mul : forall x y, kf (x * y) = (kf x * kf y)%K.
Proof. exact (F_mul sm2p sm2p_prime). Qed.
Lemma kf_mod : forall x, kf (x mod sm2p) = kf x.
Proof. exact (F_mod sm2p sm2p_prime). Qed.
Lemma kf_opp : forall x, kf (- x) = kopp (kf x).
Proof. exact (F_opp sm2p sm2p_prime). Qed.
Lemma kf_0 : forall x, kf x = k0 <-> x mod sm2p = 0.
Proof. exact (F_0_iff sm2p sm2p_prime). Qed.
Lemma sm2p_pos : 0 < sm2p.
Proof. reflexivity. Qed.
Lemma kf_small_0 : forall x, 0 <= x < sm2p -> (kf x = k0 <-> x = 0).
Proof. intros x H. rewrite kf_0, Z.mod_small by exact H. reflexivity. Qed.
Lemma kf_shift1 : forall x, kf (Z.shiftl x 1) = (kf x + kf x)%K.
Proof. intro x. rewrite <- kf_add. f_equal. rewrite Z.shiftl_mul_pow2 by lia. lia. Qed.
Lemma kf_shift2 : forall x, kf (Z.shiftl x 2) = ((k1 + k1) * (k1 + k1) * kf x)%K.
Proof. intro x. unfold k1. rewrite <- !kf_add, <- !kf_mul. f_equal. rewrite Z.shiftl_mul_pow2 by lia. lia. Qed.
Lemma kf_shift3 : forall x, kf (Z.shiftl x 3) = ((k1 + k1) * (k1 + k1) * (k1 + k1) * kf x)%K.
Proof. intro x. unfold k1. rewrite <- !kf_add, <- !kf_mul. f_equal. rewrite Z.shiftl_mul_pow2 by lia. lia. Qed.
Lemma kf_fix : forall x, kf (fix_sign sm2p x) = kf x.
Proof.
  intro x. unfold fix_sign. destruct (x <? 0); [|reflexivity]. apply kf_eq.
  rewrite <- (Z.mul_1_l sm2p) at 1. apply Z_mod_plus_full.
Qed.
Lemma kf_1 : kf 1 = k1. Proof. reflexivity. Qed.
Lemma kf_m3 : kf (-3) = kopp (k1 + k1 + k1)%K.
Proof. unfold k1. rewrite <- !kf_add, <- kf_opp. reflexivity. Qed.
Lemma k2_nz : (k1 + k1)%K <> k0.
Proof. unfold k1. rewrite <- kf_add. rewrite kf_0. discriminate. Qed.

Lemma disc_nz : forall x : K, (x * x * x + kf (-3) * x + kf sm2b)%K = k0 ->
  ((k1 + k1 + k1) * x * x + kf (-3))%K <> k0.
Proof.
  intros x H1 H2. rewrite kf_m3 in *. set (b := kf sm2b) in *.
  assert (D : kf (27 * (sm2b * sm2b) - 108) = k0).
  { replace (kf (27 * (sm2b * sm2b) - 108)) with
      ((k1 + k1 + k1) * (k1 + k1 + k1) * (k1 + k1 + k1) * (b * b - (k1 + k1) * (k1 + k1)))%K.
    2:{ unfold k1, b. rewrite <- ?kf_add. rewrite <- ?kf_mul. rewrite <- ?kf_sub. rewrite <- ?kf_mul. apply (f_equal kf). generalize sm2b. intro c. ring. }
    replace b with ((k1 + k1 + k1) * x - x * x * x)%K.
    2:{ transitivity ((k1 + k1 + k1) * x - x * x * x + (x * x * x + kopp (k1 + k1 + k1) * x + b))%K; [rewrite H1|]; ring. }
    transitivity ((k1 + k1 + k1) * (((k1 + k1 + k1) * x * x + kopp (k1 + k1 + k1)) * ((k1 + k1 + k1) * x * x + kopp (k1 + k1 + k1))) *
      (x * x - (k1 + k1) * (k1 + k1)))%K; [ring|]. rewrite H2. ring. }
  apply kf_0 in D. revert D. vm_compute. discriminate.
Qed.

(** * The group *)

Lemma padd_on : forall P Q, on_curve P -> on_curve Q -> on_curve (padd P Q).
Proof. exact (add_on K k0 k1 kadd kmul ksub kopp kdiv kinv K_field K_dec k2_nz (kf (-3)) (kf sm2b)). Qed.
Lemma pneg_on : forall P, on_curve P -> on_curve (pneg P).
Proof. exact (neg_on K k0 k1 kadd kmul ksub kopp kdiv kinv K_field (kf (-3)) (kf sm2b)). Qed.
Lemma padd_comm : forall P Q, on_curve P -> on_curve Q -> padd P Q = padd Q P.
Proof. exact (add_comm K k0 k1 kadd kmul ksub kopp kdiv kinv K_field K_dec k2_nz (kf (-3)) (kf sm2b)). Qed.
Lemma padd_assoc : forall P Q R, on_curve P -> on_curve Q -> on_curve R -> padd (padd P Q) R = padd P (padd Q R).
Proof. exact (add_assoc K k0 k1 kadd kmul ksub kopp kdiv kinv K_field K_dec k2_nz (kf (-3)) (kf sm2b) disc_nz). Qed.
Lemma padd_O_l : forall P, padd O P = P.
Proof. reflexivity. Qed.
Lemma padd_O_r : forall P, padd P O = P.
Proof. intros [|x y]; reflexivity. Qed.
Lemma padd_neg : forall P, padd P (pneg P) = O.
Proof. exact (add_neg K k0 k1 kadd kmul ksub kopp kdiv kinv K_field K_dec (kf (-3))). Qed.
Lemma pmul_on : forall k P, on_curve P -> on_curve (pmul k P).
Proof. exact (mul_on K k0 k1 kadd kmul ksub kopp kdiv kinv K_field K_dec k2_nz (kf (-3)) (kf sm2b)). Qed.
Lemma pmul_0 : forall P, pmul 0 P = O.
Proof. reflexivity. Qed.
Lemma pmul_1 : forall P, pmul 1 P = P.
Proof. intro P. unfold pmul, mul. cbn [Z.to_nat Pos.to_nat nmul]. apply padd_O_r. Qed.
Lemma pmul_O : forall k, pmul k O = O.
Proof. exact (mul_inf K k0 k1 kadd kmul ksub kdiv K_dec (kf (-3))). Qed.
Lemma pmul_add : forall k l P, on_curve P -> 0 <= k -> 0 <= l -> pmul (k + l) P = padd (pmul k P) (pmul l P).
Proof. exact (mul_add K k0 k1 kadd kmul ksub kopp kdiv kinv K_field K_dec k2_nz (kf (-3)) (kf sm2b) disc_nz). Qed.
Lemma pmul_mul : forall k l P, on_curve P -> 0 <= k -> 0 <= l -> pmul (k * l) P = pmul k (pmul l P).
Proof. exact (mul_mul K k0 k1 kadd kmul ksub kopp kdiv kinv K_field K_dec k2_nz (kf (-3)) (kf sm2b) disc_nz). Qed.
Lemma pmul_distr : forall k P Q, on_curve P -> on_curve Q -> pmul k (padd P Q) = padd (pmul k P) (pmul k Q).
Proof. exact (mul_distr K k0 k1 kadd kmul ksub kopp kdiv kinv K_field K_dec k2_nz (kf (-3)) (kf sm2b) disc_nz). Qed.
Lemma pmul_cong : forall n k l P, on_curve P -> 0 < n -> 0 <= k -> 0 <= l -> pmul n P = O ->
  k mod n = l mod n -> pmul k P = pmul l P.
Proof. exact (mul_cong K k0 k1 kadd kmul ksub kopp kdiv kinv K_field K_dec k2_nz (kf (-3)) (kf sm2b) disc_nz). Qed.
Lemma pmul_order : forall n k P, on_curve P -> prime n -> P <> O -> pmul n P = O -> 0 <= k -> (pmul k P = O <-> (n | k)).
Proof. exact (mul_order K k0 k1 kadd kmul ksub kopp kdiv kinv K_field K_dec k2_nz (kf (-3)) (kf sm2b) disc_nz). Qed.
Lemma pmul_inj : forall n k l P, on_curve P -> prime n -> P <> O -> pmul n P = O -> 0 <= k -> 0 <= l ->
  pmul k P = pmul l P -> k mod n = l mod n.
Proof. exact (mul_inj K k0 k1 kadd kmul ksub kopp kdiv kinv K_field K_dec k2_nz (kf (-3)) (kf sm2b) disc_nz). Qed.
Lemma pslope_add : forall l x1 y1 x2 y2, on_curve (A x1 y1) -> on_curve (A x2 y2) -> ~ (x1 = x2 /\ (y1 + y2)%K = k0) ->
  y2 = (y1 + l * (x2 - x1))%K -> (l * (y1 + y2))%K = (x1 * x1 + x1 * x2 + x2 * x2 + kf (-3))%K ->
  padd (A x1 y1) (A x2 y2) = A (l * l - x1 - x2)%K (l * (x1 - (l * l - x1 - x2)) - y1)%K.
Proof.
  intros l x1 y1 x2 y2 H1 H2 N S1 S2.
  exact (slope_add K k0 k1 kadd kmul ksub kopp kdiv kinv K_field K_dec k2_nz (kf (-3)) (kf sm2b) l x1 y1 x2 y2 H1 H2 N (conj S1 S2)).
Qed.
Lemma same_x_cases : forall x y1 y2, on_curve (A x y1) -> on_curve (A x y2) -> y1 = y2 \/ (y1 + y2)%K = k0.
Proof. exact (same_x K k0 k1 kadd kmul ksub kopp kdiv kinv K_field K_dec (kf (-3)) (kf sm2b)). Qed.

Lemma kmul_nz : forall x y, x <> k0 -> y <> k0 -> (x * y)%K <> k0.
Proof. exact (mul_nz K k0 k1 kadd kmul ksub kopp kdiv kinv K_field). Qed.
Lemma kmul_cancel : forall c x y, c <> k0 -> (c * x)%K = (c * y)%K -> x = y.
Proof. exact (mul_cancel K k0 k1 kadd kmul ksub kopp kdiv kinv K_field). Qed.
Lemma kdbl_nz : forall y, y <> k0 -> (y + y)%K <> k0.
Proof. intros y H. replace (y + y)%K with ((k1 + k1) * y)%K by ring. apply kmul_nz; [exact k2_nz|exact H]. Qed.
Lemma ksub_z : forall x y, (x - y)%K = k0 -> x = y.
Proof. intros x y H. replace x with (x - y + y)%K by ring. rewrite H. ring. Qed.

(** * Jacobian coordinates *)

(** (x, y, z) stands for the point (x/z^2, y/z^3), and for infinity when z = 0. Only z need be reduced. *)
Definition jrep (j : Z * Z * Z) (P : point) : Prop :=
  let '(x, y, z) := j in
  0 <= z < sm2p /\
  match P with
  | Inf _ => z = 0
  | Aff _ u v => z <> 0 /\ kf x = (u * (kf z * kf z))%K /\ kf y = (v * (kf z * kf z * kf z))%K
  end.

Ltac push := rewrite ?kf_fix, ?kf_mod, ?kf_add, ?kf_sub, ?kf_mul, ?kf_shift1, ?kf_shift2, ?kf_shift3, ?kf_fix, ?kf_mod.
Ltac pushall := repeat (progress push).

Lemma mod_range : forall x, 0 <= x mod sm2p < sm2p.
Proof. intro x. apply Z.mod_pos_bound. reflexivity. Qed.

Lemma doubleJacobian_kf : forall x y z x3 y3 z3, doubleJacobian sm2p (x, y, z) = (x3, y3, z3) ->
  let X := kf x in let Y := kf y in let ZZ := kf z in
  let three := (k1 + k1 + k1)%K in let two := (k1 + k1)%K in
  let al := (three * (X - ZZ * ZZ) * (X + ZZ * ZZ))%K in let be := (X * (Y * Y))%K in
  0 <= z3 < sm2p /\
  kf x3 = (al * al - two * two * two * be)%K /\
  kf y3 = (al * (two * two * be - (al * al - two * two * two * be)) - two * two * two * (Y * Y * (Y * Y)))%K /\
  kf z3 = (two * (Y * ZZ))%K.
Proof.
  intros x y z x3 y3 z3 E. unfold doubleJacobian in E.
  assert (E1 := f_equal (fun t => fst (fst t)) E). assert (E2 := f_equal (fun t => snd (fst t)) E).
  assert (E3 := f_equal snd E). clear E. cbn [fst snd] in E1, E2, E3.
  intros X Y ZZ three two al be.
  split; [rewrite <- E3; apply mod_range|].
  rewrite <- E1, <- E2, <- E3. pushall. fold X Y ZZ. clearbody X Y ZZ. clear.
  subst al be three two. split; [|split]; ring.
Qed.

Lemma padd_self : forall u v, v <> k0 ->
  padd (A u v) (A u v) = let l := (((k1 + k1 + k1) * u * u + kf (-3)) / ((k1 + k1) * v))%K in
    A (l * l - u - u)%K (l * (u - (l * l - u - u)) - v)%K.
Proof.
  intros u v H. unfold padd, A, add. destruct (K_dec u u); [|contradiction].
  destruct (K_dec (v + v)%K k0) as [E|E]; [exfalso; revert E; apply kdbl_nz; exact H|]. reflexivity.
Qed.
Lemma padd_opp : forall u v w, (v + w)%K = k0 -> padd (A u v) (A u w) = O.
Proof.
  intros u v w H. unfold padd, A, add. destruct (K_dec u u); [|contradiction].
  destruct (K_dec (v + w)%K k0) as [E|E]; [reflexivity|contradiction].
Qed.
Lemma padd_diff : forall u v u2 v2, u <> u2 ->
  padd (A u v) (A u2 v2) = let l := ((v2 - v) / (u2 - u))%K in
    A (l * l - u - u2)%K (l * (u - (l * l - u - u2)) - v)%K.
Proof.
  intros u v u2 v2 H. unfold padd, A, add. destruct (K_dec u u2); [contradiction|]. reflexivity.
Qed.

Lemma double_rep : forall j P, jrep j P -> jrep (doubleJacobian sm2p j) (padd P P).
Proof.
  intros [[x y] z] P (Hz & H).
  destruct (doubleJacobian sm2p (x, y, z)) as [[x3 y3] z3] eqn:E.
  apply doubleJacobian_kf in E. cbv zeta in E. destruct E as (R & EX & EY & EZ).
  split; [exact R|].
  destruct P as [|u v].
  - change (padd (Inf K) (Inf K)) with (Inf K). subst z. apply (kf_small_0 z3 R). rewrite EZ. change (kf 0) with k0. ring.
  - destruct H as (Nz & HX & HY).
    assert (Kz : kf z <> k0) by (intro Z0; apply Nz; apply (kf_small_0 z Hz); exact Z0).
    rewrite HX, HY in EX, EY. rewrite HY in EZ. clear HX HY x y.
    destruct (K_dec v k0) as [V|V].
    + change (Aff K u v) with (A u v). rewrite padd_opp by (rewrite V; ring).
      apply (kf_small_0 z3 R). rewrite EZ, V. ring.
    + change (Aff K u v) with (A u v). rewrite (padd_self u v V). cbv zeta. unfold A.
      assert (N3 : kf z3 <> k0).
      { rewrite EZ. repeat apply kmul_nz; auto using k2_nz. }
      split; [intro Z0; apply N3; apply (kf_small_0 z3 R); exact Z0|].
      rewrite EX, EY, EZ, kf_m3. generalize dependent (kf z). intros ZZ. intros. clear - V Kz. pose proof k2_nz.
      split; field; split; assumption.
Qed.

Lemma fix_zero : forall a b, (fix_sign sm2p (a mod sm2p - b mod sm2p) =? 0) = (a mod sm2p - b mod sm2p =? 0).
Proof.
  intros a b. unfold fix_sign. pose proof (mod_range a). pose proof (mod_range b).
  destruct (Z.ltb_spec (a mod sm2p - b mod sm2p) 0); [|reflexivity].
  destruct (Z.eqb_spec (a mod sm2p - b mod sm2p + sm2p) 0); destruct (Z.eqb_spec (a mod sm2p - b mod sm2p) 0); lia.
Qed.
Lemma diff_zero : forall a b, (a mod sm2p - b mod sm2p =? 0) = true <-> kf a = kf b.
Proof. intros a b. rewrite Z.eqb_eq, <- kf_eq. lia. Qed.

Lemma addJacobian_kf : forall x1 y1 z1 x2 y2 z2, z1 <> 0 -> z2 <> 0 ->
  let U1 := (kf x1 * (kf z2 * kf z2))%K in let U2 := (kf x2 * (kf z1 * kf z1))%K in
  let S1 := (kf y1 * kf z2 * (kf z2 * kf z2))%K in let S2 := (kf y2 * kf z1 * (kf z1 * kf z1))%K in
  let two := (k1 + k1)%K in let h := (U2 - U1)%K in let r := (two * (S2 - S1))%K in
  let i := (two * two * (h * h))%K in let j := (h * i)%K in let v := (U1 * i)%K in
  (U1 = U2 /\ S1 = S2 -> addJacobian sm2p (x1, y1, z1) (x2, y2, z2) = doubleJacobian sm2p (x1, y1, z1)) /\
  (~ (U1 = U2 /\ S1 = S2) -> exists x3 y3 z3, addJacobian sm2p (x1, y1, z1) (x2, y2, z2) = (x3, y3, z3) /\
    0 <= z3 < sm2p /\
    kf x3 = (r * r - j - two * v)%K /\
    kf y3 = (r * (v - (r * r - j - two * v)) - two * (S1 * j))%K /\
    kf z3 = (two * (kf z1 * kf z2) * h)%K).
Proof.
  intros x1 y1 z1 x2 y2 z2 N1 N2 U1 U2 S1 S2 two h r i j v.
  unfold addJacobian. apply Z.eqb_neq in N1, N2. rewrite N1, N2. cbv zeta. rewrite fix_zero.
  set (e1 := (x2 * ((z1 * z1) mod sm2p)) mod sm2p - (x1 * ((z2 * z2) mod sm2p)) mod sm2p =? 0).
  set (e2 := (y2 * z1 * ((z1 * z1) mod sm2p)) mod sm2p - (y1 * z2 * ((z2 * z2) mod sm2p)) mod sm2p =? 0).
  assert (H1 : e1 = true <-> U1 = U2).
  { unfold e1. rewrite diff_zero. pushall. fold U1 U2. split; congruence. }
  assert (H2 : e2 = true <-> S1 = S2).
  { unfold e2. rewrite diff_zero. pushall. fold S1 S2. split; congruence. }
  split; intro H.
  - destruct H as (A1 & A2). apply H1 in A1. apply H2 in A2. rewrite A1, A2. reflexivity.
  - assert (EE : e1 && e2 = false).
    { destruct e1; [|reflexivity]. destruct e2; [|reflexivity]. exfalso. apply H. split; [apply H1|apply H2]; reflexivity. }
    rewrite EE. do 3 eexists. split; [reflexivity|]. split; [apply mod_range|]. pushall.
    subst r i j v h U1 U2 S1 S2 two. clear.
    generalize (kf x1) (kf y1) (kf z1) (kf x2) (kf y2) (kf z2). intros.
    split; [|split]; ring.
Qed.

Lemma add_rep : forall j1 j2 P Q, on_curve P -> on_curve Q -> jrep j1 P -> jrep j2 Q ->
  jrep (addJacobian sm2p j1 j2) (padd P Q).
Proof.
  intros [[x1 y1] z1] [[x2 y2] z2] P Q OP OQ JP JQ.
  destruct P as [|u1 v1].
  { destruct JP as (_ & ->). exact JQ. }
  destruct Q as [|u2 v2].
  { destruct JP as (R1 & N1 & H1). destruct JQ as (_ & ->). unfold addJacobian.
    rewrite (proj2 (Z.eqb_neq z1 0) N1). exact (conj R1 (conj N1 H1)). }
  pose proof JP as JP'.
  destruct JP as (R1 & N1 & X1 & Y1). destruct JQ as (R2 & N2 & X2 & Y2).
  assert (K1 : kf z1 <> k0) by (intro Z0; apply N1; apply (kf_small_0 z1 R1); exact Z0).
  assert (K2 : kf z2 <> k0) by (intro Z0; apply N2; apply (kf_small_0 z2 R2); exact Z0).
  destruct (addJacobian_kf x1 y1 z1 x2 y2 z2 N1 N2) as (D & N).
  rewrite X1, X2, Y1, Y2 in D, N.
  set (Z1 := kf z1) in *. set (Z2 := kf z2) in *.
  change (Aff K u1 v1) with (A u1 v1) in *. change (Aff K u2 v2) with (A u2 v2) in *.
  destruct (K_dec u1 u2) as [EU|NU].
  - subst u2. destruct (same_x_cases u1 v1 v2 OP OQ) as [EV|EV].
    + subst v2. rewrite D; [|split; ring]. apply double_rep. exact JP'.
    + rewrite padd_opp by exact EV.
      destruct (K_dec v1 v2) as [EV2|NV].
      * subst v2. rewrite D; [|split; ring].
        pose proof (double_rep _ _ JP') as DR. rewrite (padd_opp u1 v1 v1 EV) in DR. exact DR.
      * destruct N as (x3 & y3 & z3 & -> & R3 & _ & _ & EZ).
        { intros (_ & ES). apply NV. apply (kmul_cancel (Z1 * Z1 * Z1 * (Z2 * Z2 * Z2))%K).
          - repeat apply kmul_nz; assumption.
          - transitivity (v1 * (Z1 * Z1 * Z1) * Z2 * (Z2 * Z2))%K; [ring|]. rewrite ES. ring. }
        split; [exact R3|]. apply (kf_small_0 z3 R3). rewrite EZ. ring.
  - destruct N as (x3 & y3 & z3 & -> & R3 & EX & EY & EZ).
    { intros (EU & _). apply NU. apply (kmul_cancel (Z1 * Z1 * (Z2 * Z2))%K).
      - repeat apply kmul_nz; assumption.
      - transitivity (u1 * (Z1 * Z1) * (Z2 * Z2))%K; [ring|]. rewrite EU. ring. }
    rewrite (padd_diff u1 v1 u2 v2 NU). cbv zeta. unfold A.
    assert (NU' : (u2 - u1)%K <> k0) by (intro E; apply ksub_z in E; congruence).
    assert (N3 : kf z3 <> k0).
    { rewrite EZ. replace (u2 * (Z2 * Z2) * (Z1 * Z1) - u1 * (Z1 * Z1) * (Z2 * Z2))%K
        with (Z2 * Z2 * (Z1 * Z1) * (u2 - u1))%K by ring.
      repeat apply kmul_nz; auto using k2_nz. }
    split; [exact R3|]. split; [intro Z0; apply N3; apply (kf_small_0 z3 R3); exact Z0|].
    rewrite EX, EY, EZ. clear - K1 K2 NU'. clearbody Z1 Z2.
    split; field; exact NU'.
Qed.

(** * The affine interface *)

(** Go represents infinity by (0, 0), which is not on the curve. *)
Definition enc (P : point) : Z * Z :=
  match P with Inf _ => (0, 0) | Aff _ x y => (fv sm2p x, fv sm2p y) end.
Definition dec (x y : Z) : point := if (x =? 0) && (y =? 0) then O else A (kf x) (kf y).

Lemma affine_rep : forall j P, jrep j P -> affineFromJacobian sm2p j = Ret (enc P).
Proof.
  intros [[x y] z] P (R & H). unfold affineFromJacobian. destruct P as [|u v].
  - subst z. reflexivity.
  - destruct H as (N & X & Y). rewrite (proj2 (Z.eqb_neq z 0) N).
    assert (NM : z mod sm2p <> 0) by (rewrite Z.mod_small by exact R; exact N).
    destruct (ModInverse_some z sm2p ltac:(reflexivity) (prime_gcd sm2p z sm2p_prime NM)) as (i & -> & Hi & E).
    assert (I : (kf z * kf i)%K = k1).
    { rewrite <- kf_mul. apply kf_eq. rewrite E. symmetry. apply Z.mod_small. split; [lia|reflexivity]. }
    cbv zeta. f_equal. cbn [enc]. f_equal.
    + change ((x * (i * i)) mod sm2p) with (fv sm2p (kf (x * (i * i)))). f_equal.
      rewrite !kf_mul, X. transitivity (u * ((kf z * kf i) * (kf z * kf i)))%K; [ring|]. rewrite I. ring.
    + change ((y * (i * i * i)) mod sm2p) with (fv sm2p (kf (y * (i * i * i)))). f_equal.
      rewrite !kf_mul, Y. transitivity (v * ((kf z * kf i) * (kf z * kf i) * (kf z * kf i)))%K; [ring|]. rewrite I. ring.
Qed.

Lemma IsOnCurve_spec : forall x y, IsOnCurve sm2p sm2b x y = true <-> on_curve (A (kf x) (kf y)).
Proof.
  intros x y. unfold IsOnCurve, on_curve, A, on. rewrite Z.eqb_eq. rewrite kf_eq. pushall. rewrite kf_m3.
  generalize (kf x) (kf y) (kf sm2b). intros X Y B.
  split; intro H.
  - rewrite <- H. ring.
  - rewrite H. ring.
Qed.

Lemma sm2b_nz : kf sm2b <> k0.
Proof. rewrite kf_small_0 by (split; [discriminate|reflexivity]). discriminate. Qed.
Lemma origin_off : forall x y, kf x = k0 -> kf y = k0 -> ~ on_curve (A (kf x) (kf y)).
Proof.
  intros x y -> -> H. unfold on_curve, A, on in H. apply sm2b_nz.
  transitivity (k0 * k0 * k0 + kf (-3) * k0 + kf sm2b)%K; [ring|]. rewrite <- H. ring.
Qed.
Lemma dec_A : forall x y, on_curve (A (kf x) (kf y)) -> dec x y = A (kf x) (kf y).
Proof.
  intros x y H. unfold dec. destruct (Z.eqb_spec x 0) as [->|]; [|reflexivity].
  destruct (Z.eqb_spec y 0) as [->|]; [|reflexivity]. exfalso. revert H. apply origin_off; reflexivity.
Qed.
Lemma enc_range : forall P, 0 <= fst (enc P) < sm2p /\ 0 <= snd (enc P) < sm2p.
Proof.
  intros [|x y]; cbn [enc fst snd]; [split; (split; [lia|reflexivity])|]. split; apply fv_range.
Qed.
Lemma kf_fv : forall x : K, kf (fv sm2p x) = x.
Proof. exact (F_fv sm2p sm2p_prime). Qed.
Lemma dec_enc : forall P, on_curve P -> dec (fst (enc P)) (snd (enc P)) = P.
Proof.
  intros [|x y] H; [reflexivity|]. cbn [enc fst snd].
  rewrite dec_A; rewrite ?kf_fv; [reflexivity|exact H].
Qed.
Lemma enc_inj : forall P Q, on_curve P -> on_curve Q -> enc P = enc Q -> P = Q.
Proof. intros P Q HP HQ E. rewrite <- (dec_enc P HP), <- (dec_enc Q HQ), E. reflexivity. Qed.
Lemma enc_dec : forall x y, 0 <= x < sm2p -> 0 <= y < sm2p -> enc (dec x y) = (x, y).
Proof.
  intros x y Hx Hy. unfold dec. destruct (Z.eqb_spec x 0) as [->|]; destruct (Z.eqb_spec y 0) as [->|]; cbn [andb enc O A]; try reflexivity;
    unfold kf; rewrite !fv_F, !Z.mod_small by assumption; reflexivity.
Qed.
Lemma enc_O : forall P, on_curve P -> (enc P = (0, 0) <-> P = O).
Proof.
  intros P H. split; [|intros ->; reflexivity]. intro E. apply enc_inj; [exact H|exact I|exact E].
Qed.

Lemma rep_one : forall x y, jrep (x, y, 1) (A (kf x) (kf y)).
Proof.
  intros x y. split; [split; [lia|reflexivity]|]. cbn [A]. split; [lia|]. change (kf 1) with k1. split; ring.
Qed.
Lemma rep_dec : forall x y, jrep (x, y, zForAffine x y) (dec x y).
Proof.
  intros x y. unfold zForAffine, dec.
  destruct (Z.eqb_spec x 0) as [->|]; destruct (Z.eqb_spec y 0) as [->|]; cbn [negb andb orb]; try apply rep_one.
  split; [split; [lia|reflexivity]|reflexivity].
Qed.

(** Add and Double compute the group operation. *)
Lemma Add_spec : forall x1 y1 x2 y2, on_curve (dec x1 y1) -> on_curve (dec x2 y2) ->
  Add sm2p x1 y1 x2 y2 = Ret (enc (padd (dec x1 y1) (dec x2 y2))).
Proof.
  intros x1 y1 x2 y2 H1 H2. unfold Add. apply affine_rep. apply add_rep; auto using rep_dec.
Qed.
Lemma Double_spec : forall x y, Double sm2p x y = Ret (enc (padd (dec x y) (dec x y))).
Proof. intros x y. unfold Double. apply affine_rep. apply double_rep. apply rep_dec. Qed.

(** ScalarMult *)
Lemma bit7 : forall b, 0 <= b < 256 -> (Z.land b 0x80 =? 0x80) = (128 <=? b).
Proof.
  intros b H. assert (T : Z.land b 0x80 = 128 * (b / 128)).
  { assert (D : b / 128 = 0 \/ b / 128 = 1) by (pose proof (Z.div_pos b 128); assert (b / 128 < 2) by (apply Z.div_lt_upper_bound; lia); lia).
    replace (128 * (b / 128)) with (Z.shiftl (Z.shiftr b 7) 7)
      by (rewrite Z.shiftl_mul_pow2, Z.shiftr_div_pow2 by lia; change (2 ^ 7) with 128; lia).
    change 0x80 with (2 ^ 7). apply Z.bits_inj'. intros n Hn. rewrite Z.land_spec, Z.pow2_bits_eqb by lia.
    destruct (Z.eqb_spec 7 n) as [<-|N].
    - rewrite andb_true_r. rewrite Z.shiftl_spec, Z.shiftr_spec by lia. reflexivity.
    - rewrite andb_false_r. destruct (Z.lt_ge_cases n 7) as [L|L].
      + rewrite Z.shiftl_spec_low by lia. reflexivity.
      + rewrite Z.shiftl_spec, Z.shiftr_spec by lia. replace (n - 7 + 7) with n by lia.
        symmetry. destruct (Z.eq_dec b 0) as [->|]; [apply Z.testbit_0_l|]. apply Z.bits_above_log2; [lia|].
        assert (Z.log2 b < 8) by (apply Z.log2_lt_pow2; lia). lia. }
  rewrite T. pose proof (Z.div_mod b 128 ltac:(lia)). pose proof (Z.mod_pos_bound b 128 ltac:(lia)).
  destruct (Z.leb_spec 128 b); destruct (Z.eqb_spec (128 * (b / 128)) 128); lia.
Qed.

Lemma sm_bits : forall x y, on_curve (A (kf x) (kf y)) -> forall n i m b j,
  0 <= m -> 0 <= b < 256 -> jrep j (pmul m (A (kf x) (kf y))) ->
  exists m' b' j', for_loop n i (fun _ => sm_bit sm2p x y) (b, j) = (b', j') /\
    0 <= m' /\ 0 <= b' < 256 /\ jrep j' (pmul m' (A (kf x) (kf y))) /\
    m' * 256 + b' = 2 ^ Z.of_nat n * (m * 256 + b) /\
    (forall q, (2 ^ q | b) -> 0 <= q -> (q + Z.of_nat n <= 8) -> (2 ^ (q + Z.of_nat n) | b')).
Proof.
  intros x y OP. set (P := A (kf x) (kf y)) in *.
  induction n as [|n IH]; intros i m b j Hm Hb Hj.
  - exists m, b, j. split; [reflexivity|]. repeat split; try lia; try assumption.
    intros q D Hq _. cbn [Z.of_nat]. rewrite Z.add_0_r. exact D.
  - cbn [for_loop]. set (st := sm_bit sm2p x y (b, j)).
    assert (S1 : exists j1, st = (u8 (Z.shiftl b 1), j1) /\ jrep j1 (pmul (2 * m + b / 128) P)).
    { unfold st, sm_bit. eexists. split; [reflexivity|]. rewrite bit7 by exact Hb.
      pose proof (double_rep _ _ Hj) as D. rewrite <- pmul_add in D by (try assumption; lia).
      destruct (Z.leb_spec 128 b) as [L|L].
      - replace (b / 128) with 1 by (apply Z.div_unique with (b - 128); lia).
        replace (2 * m + 1) with (1 + (m + m)) by lia. rewrite pmul_add by (try assumption; lia).
        rewrite pmul_1. apply add_rep; auto using pmul_on. apply rep_one.
      - rewrite (Z.div_small b 128) by lia. replace (2 * m + 0) with (m + m) by lia. exact D. }
    destruct S1 as (j1 & E1 & R1). rewrite E1.
    assert (Eb : u8 (Z.shiftl b 1) = 2 * b - 256 * (b / 128)).
    { unfold u8. rewrite Z.shiftl_mul_pow2 by lia. change (2 ^ 1) with 2.
      pose proof (Z.div_mod b 128 ltac:(lia)). pose proof (Z.mod_pos_bound b 128 ltac:(lia)).
      symmetry. apply Zmod_unique with (b / 128); lia. }
    pose proof (Z.div_pos b 128 ltac:(lia) ltac:(lia)).
    destruct (IH (i + 1) (2 * m + b / 128) (u8 (Z.shiftl b 1)) j1) as (m' & b' & j' & E & Hm' & Hb' & R' & EV & DV);
      [lia|unfold u8; apply Z.mod_pos_bound; lia|exact R1|].
    exists m', b', j'. split; [exact E|]. split; [exact Hm'|]. split; [exact Hb'|]. split; [exact R'|]. split.
    + rewrite EV, Eb. rewrite Nat2Z.inj_succ, Z.pow_succ_r by lia. ring.
    + intros q D Hq Hq8. rewrite Nat2Z.inj_succ in *.
      replace (q + Z.succ (Z.of_nat n)) with (q + 1 + Z.of_nat n) by lia. apply DV; [|lia|lia].
      rewrite Eb. rewrite Z.pow_add_r by lia. change (2 ^ 1) with 2.
      apply Z.divide_sub_r.
      * rewrite Z.mul_comm. apply Z.mul_divide_mono_l. exact D.
      * apply Z.divide_mul_l. change 256 with (2 ^ 8). change (2 ^ q * 2) with (2 ^ q * 2 ^ 1). rewrite <- (Z.pow_add_r 2 q 1) by lia.
        exists (2 ^ (8 - (q + 1))). rewrite <- Z.pow_add_r by lia. f_equal. lia.
Qed.

Lemma sm_byte_rep : forall x y m b j, on_curve (A (kf x) (kf y)) -> 0 <= m -> 0 <= b < 256 ->
  jrep j (pmul m (A (kf x) (kf y))) -> jrep (sm_byte sm2p x y j b) (pmul (m * 256 + b) (A (kf x) (kf y))).
Proof.
  intros x y m b j OP Hm Hb Hj. unfold sm_byte.
  destruct (sm_bits x y OP 8 0 m b j Hm Hb Hj) as (m' & b' & j' & -> & Hm' & Hb' & R & EV & DV). cbn [snd].
  change (Z.of_nat 8) with 8 in *. change (2 ^ 8) with 256 in EV.
  destruct (DV 0 (Z.divide_1_l b) ltac:(lia) ltac:(lia)) as [q Q]. change (2 ^ (0 + 8)) with 256 in Q.
  replace (m * 256 + b) with m' by lia. exact R.
Qed.

Theorem ScalarMult_spec : forall x y k, on_curve (A (kf x) (kf y)) -> bytes k ->
  ScalarMult sm2p x y k = Ret (enc (pmul (be_dec k) (A (kf x) (kf y)))).
Proof.
  intros x y k OP Hk. unfold ScalarMult. apply affine_rep.
  assert (W : forall k m j, bytes k -> 0 <= m -> jrep j (pmul m (A (kf x) (kf y))) ->
    jrep (fold_left (sm_byte sm2p x y) k j) (pmul (fold_left (fun a b => a * 256 + b) k m) (A (kf x) (kf y)))).
  { clear k Hk. induction k as [|b k IH]; intros m j Hk Hm Hj; [exact Hj|]. cbn [fold_left].
    apply bytes_cons in Hk. destruct Hk as [Hb Hk]. unfold byte in Hb. apply IH; [exact Hk|lia|].
    apply sm_byte_rep; assumption. }
  apply (W k 0 (0, 0, 0)); [exact Hk|lia|]. split; [split; [lia|reflexivity]|reflexivity].
Qed.

(** * The base point *)

Lemma G_on : on_curve G.
Proof. apply IsOnCurve_spec. vm_compute. reflexivity. Qed.
Lemma G_fin : G <> O.
Proof. discriminate. Qed.
