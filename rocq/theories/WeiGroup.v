(** The group law of a Weierstrass curve y^2 = x^3 + ax + b over any field of characteristic other
    than two, including associativity, from the textbook affine definition. *)
From Coq Require Import ZArith Znumtheory Lia Ring Field Setoid.

Section Wei.
Variable F : Type.
Variables f0 f1 : F.
Variables fadd fmul fsub : F -> F -> F.
Variable fopp : F -> F.
Variable fdiv : F -> F -> F.
Variable finv : F -> F.
Hypothesis FT : field_theory f0 f1 fadd fmul fsub fopp fdiv finv (@eq F).
Hypothesis feq_dec : forall x y : F, {x = y} + {x <> y}.
Add Field Ff : FT.
Local Notation "0" := f0.
Local Notation "1" := f1.
Local Infix "+" := fadd.
Local Infix "-" := fsub.
Local Infix "*" := fmul.
Local Infix "/" := fdiv.
Local Notation "- x" := (fopp x).
Local Notation "2" := (1 + 1).
Local Notation "3" := (1 + 1 + 1).
Hypothesis two_nz : 2 <> 0.
Variables a b : F.

(** Points: infinity or affine coordinates. *)
Inductive pt : Type :=
| Inf
| Aff (x y : F).

Definition on (P : pt) : Prop :=
  match P with
  | Inf => True
  | Aff x y => y * y = x * x * x + a * x + b
  end.

Definition neg (P : pt) : pt :=
  match P with
  | Inf => Inf
  | Aff x y => Aff x (- y)
  end.

(** Third intersection, reflected, of the line of slope [l] through (x1,y1) and a point over x2. *)
Definition chord (l x1 y1 x2 : F) : pt :=
  let x3 := l * l - x1 - x2 in Aff x3 (l * (x1 - x3) - y1).

(** The textbook addition. *)
Definition add (P Q : pt) : pt :=
  match P, Q with
  | Inf, _ => Q
  | _, Inf => P
  | Aff x1 y1, Aff x2 y2 =>
      if feq_dec x1 x2 then
        if feq_dec (y1 + y2) 0 then Inf
        else chord ((3 * x1 * x1 + a) / (2 * y1)) x1 y1 x2
      else chord ((y2 - y1) / (x2 - x1)) x1 y1 x2
  end.

Lemma feq_em : forall x y : F, x = y \/ x <> y.
Proof. intros x y. destruct (feq_dec x y); auto. Qed.

Lemma mul_nz : forall x y, x <> 0 -> y <> 0 -> x * y <> 0.
Proof.
  intros x y Hx Hy E. apply Hx. replace x with (x * y / y) by (field; exact Hy). rewrite E. field. exact Hy.
Qed.
Lemma mul_0 : forall x y, x * y = 0 -> x = 0 \/ y = 0.
Proof. intros x y E. destruct (feq_em x 0); [auto|]. destruct (feq_em y 0); [auto|]. exfalso. revert E. apply mul_nz; auto. Qed.
Lemma sub_nz : forall x y, x <> y -> x - y <> 0.
Proof. intros x y H E. apply H. replace x with (x - y + y) by ring. rewrite E. ring. Qed.
Lemma sub_z : forall x y, x - y = 0 -> x = y.
Proof. intros x y E. replace x with (x - y + y) by ring. rewrite E. ring. Qed.
Lemma mul_cancel : forall c x y, c <> 0 -> c * x = c * y -> x = y.
Proof. intros c x y Hc E. replace x with (c * x / c) by (field; exact Hc). rewrite E. field. exact Hc. Qed.
Lemma dbl_nz : forall y, y <> 0 -> y + y <> 0.
Proof. intros y H. replace (y + y) with (2 * y) by ring. apply mul_nz; auto. Qed.
Lemma dbl_z : forall y, y + y = 0 -> y = 0.
Proof. intros y H. destruct (feq_em y 0); [assumption|]. exfalso. revert H. apply dbl_nz. assumption. Qed.

(** Two points of the curve over the same x. *)
Lemma same_x : forall x y1 y2, on (Aff x y1) -> on (Aff x y2) -> y1 = y2 \/ y1 + y2 = 0.
Proof.
  intros x y1 y2 H1 H2. cbn [on] in *.
  assert (E : (y1 - y2) * (y1 + y2) = 0).
  { replace ((y1 - y2) * (y1 + y2)) with (y1 * y1 - y2 * y2) by ring. rewrite H1, H2. ring. }
  apply mul_0 in E. destruct E as [E|E]; [left; apply sub_z; exact E|right; exact E].
Qed.

(** [l] is the slope of the line through two points: the chord, or the tangent. *)
Definition slope (l x1 y1 x2 y2 : F) : Prop :=
  y2 = y1 + l * (x2 - x1) /\ l * (y1 + y2) = x1 * x1 + x1 * x2 + x2 * x2 + a.

Lemma add_slope : forall x1 y1 x2 y2, on (Aff x1 y1) -> on (Aff x2 y2) -> add (Aff x1 y1) (Aff x2 y2) <> Inf ->
  exists l, slope l x1 y1 x2 y2 /\ add (Aff x1 y1) (Aff x2 y2) = chord l x1 y1 x2.
Proof.
  intros x1 y1 x2 y2 H1 H2 N. cbn [add] in *. destruct (feq_dec x1 x2) as [E|D].
  - subst x2. destruct (feq_dec (y1 + y2) 0) as [Z|Z]; [contradiction|].
    destruct (same_x _ _ _ H1 H2) as [E|E]; [subst y2|contradiction].
    eexists. split; [|reflexivity]. split; [ring|].
    assert (2 * y1 <> 0) by (intro X; apply Z; rewrite <- X; ring).
    assert (y1 <> 0) by (intros ->; apply Z; ring). field. auto.
  - eexists. split; [|reflexivity]. pose proof (sub_nz _ _ (not_eq_sym D)) as D'.
    split; [field; exact D'|]. cbn [on] in *.
    apply (mul_cancel (x2 - x1)); [exact D'|].
    replace ((x2 - x1) * ((y2 - y1) / (x2 - x1) * (y1 + y2))) with (y2 * y2 - y1 * y1) by (field; exact D').
    rewrite H1, H2. ring.
Qed.

Lemma slope_add : forall l x1 y1 x2 y2, on (Aff x1 y1) -> on (Aff x2 y2) ->
  ~ (x1 = x2 /\ y1 + y2 = 0) -> slope l x1 y1 x2 y2 -> add (Aff x1 y1) (Aff x2 y2) = chord l x1 y1 x2.
Proof.
  intros l x1 y1 x2 y2 H1 H2 N (S1 & S2). cbn [add]. destruct (feq_dec x1 x2) as [E|D].
  - subst x2. destruct (feq_dec (y1 + y2) 0) as [Z|Z]; [exfalso; auto|].
    destruct (same_x _ _ _ H1 H2) as [E|E]; [|contradiction]. rewrite <- E in S2, Z. f_equal.
    assert (y1 <> 0) by (intros X; apply Z; rewrite X; ring).
    replace (3 * x1 * x1 + a) with (l * (y1 + y1)) by (rewrite S2; ring). field. auto.
  - f_equal. rewrite S1. field. apply sub_nz. auto.
Qed.

Lemma slope_sym : forall l x1 y1 x2 y2, slope l x1 y1 x2 y2 -> slope l x2 y2 x1 y1.
Proof.
  intros l x1 y1 x2 y2 (S1 & S2). split; [rewrite S1; ring|].
  replace (y2 + y1) with (y1 + y2) by ring. rewrite S2. ring.
Qed.

(** * Elementary properties *)

Lemma add_inf_l : forall P, add Inf P = P.
Proof. reflexivity. Qed.
Lemma add_inf_r : forall P, add P Inf = P.
Proof. intros [|x y]; reflexivity. Qed.

Lemma chord_on : forall l x1 y1 x2 y2, on (Aff x1 y1) -> slope l x1 y1 x2 y2 -> on (chord l x1 y1 x2).
Proof.
  intros l x1 y1 x2 y2 H1 (S1 & S2). unfold chord. cbn [on] in *.
  assert (Ea : a = l * (y1 + y2) - (x1 * x1 + x1 * x2 + x2 * x2)) by (rewrite S2; ring).
  assert (Eb : b = y1 * y1 - x1 * x1 * x1 - a * x1) by (rewrite H1; ring).
  rewrite Eb, Ea, S1. ring.
Qed.

Lemma add_on : forall P Q, on P -> on Q -> on (add P Q).
Proof.
  intros [|x1 y1] [|x2 y2] HP HQ; try assumption.
  destruct (add (Aff x1 y1) (Aff x2 y2)) as [|x3 y3] eqn:E; [exact I|].
  destruct (add_slope x1 y1 x2 y2 HP HQ) as (l & S & A); [congruence|].
  rewrite <- E, A. eapply chord_on; eauto.
Qed.

Lemma neg_on : forall P, on P -> on (neg P).
Proof. intros [|x y] H; [exact I|]. cbn [on neg] in *. rewrite <- H. ring. Qed.
Lemma neg_neg : forall P, neg (neg P) = P.
Proof. intros [|x y]; [reflexivity|]. cbn [neg]. f_equal. ring. Qed.

Lemma add_neg : forall P, add P (neg P) = Inf.
Proof.
  intros [|x y]; [reflexivity|]. cbn [add neg]. destruct (feq_dec x x); [|contradiction].
  destruct (feq_dec (y + - y) 0) as [|N]; [reflexivity|]. exfalso. apply N. ring.
Qed.

Lemma add_inf_inv : forall P Q, on P -> on Q -> add P Q = Inf -> Q = neg P.
Proof.
  intros [|x1 y1] [|x2 y2] HP HQ H; try reflexivity; try discriminate.
  cbn [add] in H. destruct (feq_dec x1 x2) as [E|D]; [|discriminate].
  destruct (feq_dec (y1 + y2) 0) as [Z|Z]; [|discriminate]. subst x2. cbn [neg]. f_equal.
  replace y2 with (y1 + y2 + - y1) by ring. rewrite Z. ring.
Qed.

Lemma add_comm : forall P Q, on P -> on Q -> add P Q = add Q P.
Proof.
  intros [|x1 y1] [|x2 y2] HP HQ; try reflexivity.
  destruct (add (Aff x1 y1) (Aff x2 y2)) as [|x3 y3] eqn:E.
  - symmetry. apply add_inf_inv in E; auto. rewrite E.
    rewrite <- (neg_neg (Aff x1 y1)) at 2. apply add_neg.
  - destruct (add_slope x1 y1 x2 y2 HP HQ) as (l & S & A); [congruence|].
    rewrite <- E, A. symmetry. rewrite (slope_add l); auto.
    + destruct S as (S1 & S2). unfold chord. rewrite S1. f_equal; ring.
    + intros (-> & Z). assert (X : add (Aff x1 y1) (Aff x1 y2) = Inf); [|congruence].
      cbn [add]. destruct (feq_dec x1 x1); [|contradiction].
      destruct (feq_dec (y1 + y2) 0) as [|N]; [reflexivity|]. exfalso. apply N. rewrite <- Z. ring.
    + apply slope_sym. exact S.
Qed.

Lemma add_neg_l : forall P, on P -> add (neg P) P = Inf.
Proof. intros P H. rewrite add_comm; [apply add_neg|apply neg_on; exact H|exact H]. Qed.

Lemma neg_add : forall P Q, on P -> on Q -> neg (add P Q) = add (neg P) (neg Q).
Proof.
  intros [|x1 y1] [|x2 y2] HP HQ; try reflexivity. cbn [add neg].
  destruct (feq_dec x1 x2) as [E|D].
  - destruct (feq_dec (y1 + y2) 0) as [Z|Z]; destruct (feq_dec (- y1 + - y2) 0) as [Z'|Z']; try reflexivity.
    + exfalso. apply Z'. replace (- y1 + - y2) with (- (y1 + y2)) by ring. rewrite Z. ring.
    + exfalso. apply Z. replace (y1 + y2) with (- (- y1 + - y2)) by ring. rewrite Z'. ring.
    + subst x2. destruct (same_x _ _ _ HP HQ) as [E|E]; [subst y2|contradiction].
      assert (y1 <> 0) by (intros X; apply Z; rewrite X; ring).
      assert (- y1 <> 0) by (intro X; apply H; replace y1 with (- - y1) by ring; rewrite X; ring).
      unfold chord. cbn [neg]. f_equal; field; auto.
  - pose proof (sub_nz _ _ (not_eq_sym D)). unfold chord. cbn [neg]. f_equal; field; auto.
Qed.

(** The curve has no singular point. *)
Hypothesis nonsing : forall x, x * x * x + a * x + b = 0 -> 3 * x * x + a <> 0.

Lemma cancel_neg : forall P Q, on P -> on Q -> add (neg P) (add P Q) = Q.
Proof.
  intros [|x1 y1] [|x2 y2] HP HQ; try reflexivity; [apply add_neg_l; exact HP|].
  destruct (add (Aff x1 y1) (Aff x2 y2)) as [|x3 y3] eqn:E.
  - rewrite add_inf_r. apply add_inf_inv in E; auto.
  - destruct (add_slope x1 y1 x2 y2 HP HQ) as (l & S & A); [congruence|].
    assert (HR : on (Aff x3 y3)) by (rewrite <- E; apply add_on; assumption).
    rewrite E in A. unfold chord in A. injection A as A1 A2. destruct S as (S1 & S2).
    pose proof (neg_on _ HP) as HN. cbn [neg] in *.
    rewrite (slope_add (- l) x1 (- y1) x3 y3 HN HR).
    + unfold chord. f_equal; rewrite ?A1, ?S1; ring.
    + intros (Ex & Ey).
      (* P + Q = - P forces the tangent; then 2P would be infinite *)
      assert (Y : y1 = y3) by (apply sub_z; replace (y1 - y3) with (- (- y1 + y3)) by ring; rewrite Ey; ring).
      assert (X : y1 + y1 = 0).
      { rewrite Y at 2. rewrite A2, <- A1, <- Ex. ring. }
      apply dbl_z in X. apply (nonsing x1).
      * cbn [on] in HP. rewrite <- HP, X. ring.
      * assert (L2 : l * l = x1 + x1 + x2) by (rewrite Ex at 2; rewrite A1; ring).
        rewrite X in S1, S2. rewrite S1 in S2.
        assert (S3 : l * l * (x2 - x1) = x1 * x1 + x1 * x2 + x2 * x2 + a) by (rewrite <- S2; ring).
        rewrite L2 in S3.
        replace (3 * x1 * x1 + a) with (x1 * x1 + x1 * x2 + x2 * x2 + a - (x1 + x1 + x2) * (x2 - x1)) by ring.
        rewrite <- S3. ring.
    + split.
      * rewrite A2, A1. ring.
      * assert (Ea : a = l * (y1 + y2) - (x1 * x1 + x1 * x2 + x2 * x2)) by (rewrite S2; ring).
        rewrite Ea, A2, A1, S1. ring.
Qed.

Lemma cancel_r : forall P Q, on P -> on Q -> add (add P Q) (neg Q) = P.
Proof.
  intros P Q HP HQ. rewrite (add_comm P Q), (add_comm (add Q P)); auto using add_on, neg_on, cancel_neg.
Qed.

Lemma add_self_inf : forall P Q, on P -> on Q -> add P Q = Q -> P = Inf.
Proof. intros P Q HP HQ E. pose proof (cancel_r P Q HP HQ) as C. rewrite E, add_neg in C. auto. Qed.

(** * Associativity *)

Lemma add_fin_cond : forall x1 y1 x2 y2, add (Aff x1 y1) (Aff x2 y2) <> Inf -> ~ (x1 = x2 /\ y1 + y2 = 0).
Proof.
  intros x1 y1 x2 y2 N (E & Z). apply N. cbn [add]. destruct (feq_dec x1 x2); [|contradiction].
  destruct (feq_dec (y1 + y2) 0); [reflexivity|contradiction].
Qed.

(** All chords finite, and the two outer ones between different x. *)
Lemma assoc_generic : forall x1 y1 x2 y2 x3 y3 l m n k,
  slope l x1 y1 x2 y2 -> slope m x2 y2 x3 y3 ->
  let x4 := l * l - x1 - x2 in let y4 := l * (x1 - x4) - y1 in
  let x5 := m * m - x2 - x3 in let y5 := m * (x2 - x5) - y2 in
  y3 = y4 + n * (x3 - x4) -> y5 = y1 + k * (x5 - x1) -> x4 <> x3 -> x5 <> x1 -> ~ (x1 = x3 /\ y1 = y3) ->
  chord n x4 y4 x3 = chord k x1 y1 x5.
Proof.
  intros x1 y1 x2 y2 x3 y3 l m n k (S1 & S2) (S3 & S4) x4 y4 x5 y5 Hn Hk N43 N51 N13.
  assert (Ea : a = l * (y1 + y2) - (x1 * x1 + x1 * x2 + x2 * x2)) by (rewrite S2; ring).
  assert (ER : 2 * y1 * (l - m) = m * (2 * l * (x2 - x1) + m * (x3 - x2)) - l * l * (x2 - x1)
              + x1 * x1 + x1 * x2 - x2 * x3 - x3 * x3).
  { rewrite Ea, S3, S1 in S4. apply sub_z.
    match goal with |- ?u - ?v = 0 => 
      replace (u - v) with (- (m * (y1 + l * (x2 - x1) + (y1 + l * (x2 - x1) + m * (x3 - x2))) -
        (x2 * x2 + x2 * x3 + x3 * x3 + (l * (y1 + (y1 + l * (x2 - x1))) - (x1 * x1 + x1 * x2 + x2 * x2))))) by ring end.
    rewrite S4. ring. }
  assert (NL : l - m <> 0).
  { intro E. apply sub_z in E. subst m.
    assert (C : (x1 - x3) * (x4 - x3) = 0).
    { unfold x4. replace ((x1 - x3) * (l * l - x1 - x2 - x3)) with
        (2 * y1 * (l - l) - (l * (2 * l * (x2 - x1) + l * (x3 - x2)) - l * l * (x2 - x1)
              + x1 * x1 + x1 * x2 - x2 * x3 - x3 * x3)) by ring. rewrite ER. ring. }
    apply mul_0 in C. destruct C as [C|C]; apply sub_z in C; [|contradiction].
    apply N13. split; [exact C|]. rewrite S3, S1, C. ring. }
  pose proof (sub_nz _ _ (not_eq_sym N43)) as D43. pose proof (sub_nz _ _ N51) as D51.
  assert (En : n = (y3 - y4) / (x3 - x4)) by (rewrite Hn; field; exact D43).
  assert (Ek : k = (y5 - y1) / (x5 - x1)) by (rewrite Hk; field; exact D51).
  assert (E1 : y1 = (m * (2 * l * (x2 - x1) + m * (x3 - x2)) - l * l * (x2 - x1)
              + x1 * x1 + x1 * x2 - x2 * x3 - x3 * x3) / (2 * (l - m))).
  { rewrite <- ER. field. auto. }
  clear Hn Hk ER Ea S2 S4 N13 N43 N51. unfold chord. rewrite En, Ek. unfold y4, y5. rewrite S3, S1.
  clear S1 S3 En Ek.
  unfold x4, x5 in *. rewrite E1. clear E1.
  f_equal; field; auto.
Qed.

(** P1 + P2 = P3, so that the left outer sum is a doubling. *)
Lemma assoc_tangent : forall x1 y1 x2 y2 l m n k,
  slope l x1 y1 x2 y2 ->
  let x3 := l * l - x1 - x2 in let y3 := l * (x1 - x3) - y1 in
  let x5 := m * m - x2 - x3 in let y5 := m * (x2 - x5) - y2 in
  slope m x2 y2 x3 y3 -> slope n x3 y3 x3 y3 -> y5 = y1 + k * (x5 - x1) ->
  x2 <> x3 -> x5 <> x1 -> y3 <> 0 ->
  chord n x3 y3 x3 = chord k x1 y1 x5.
Proof.
  intros x1 y1 x2 y2 l m n k (S1 & S2) x3 y3 x5 y5 (S3 & S4) (_ & S6) Hk N23 N51 NY.
  assert (Ea : a = l * (y1 + y2) - (x1 * x1 + x1 * x2 + x2 * x2)) by (rewrite S2; ring).
  pose proof (sub_nz _ _ (not_eq_sym N23)) as D23. pose proof (sub_nz _ _ N51) as D51.
  assert (En : n = (x3 * x3 + x3 * x3 + x3 * x3 + a) / (2 * y3)) by (rewrite <- S6; field; auto).
  assert (Ek : k = (y5 - y1) / (x5 - x1)) by (rewrite Hk; field; exact D51).
  assert (Em : m = (y3 - y2) / (x3 - x2)) by (rewrite S3 at 1; field; exact D23).
  clear S2 S3 S4 S6 Hk N23 N51. unfold chord. rewrite En, Ek. clear En Ek.
  rewrite Ea. clear Ea. unfold y5. unfold x5 in *. rewrite Em in *. clear Em. clear y5 x5.
  rewrite S1 in *. clear S1.
  unfold y3 in *. clear y3. unfold x3 in *. clear x3.
  assert (D : forall u d e, d <> 0 -> u / d * (u / d) - e <> 0 -> u * u - e * (d * d) <> 0).
  { intros u d e Hd H X. apply H. replace (u / d * (u / d) - e) with ((u * u - e * (d * d)) / (d * d)) by (field; exact Hd).
    rewrite X. field. exact Hd. }
  match type of D51 with ?u / ?d * _ - ?e1 - ?e2 - ?e3 <> 0 =>
    assert (D51' : u * u - (e1 + e2 + e3) * (d * d) <> 0);
    [apply D; [exact D23|]; intro X; apply D51; rewrite <- X; ring|] end.
  f_equal; field; split; auto; (split; [|auto]); intro X; apply D51'; rewrite <- X; ring.
Qed.

(** P1 + P2 = P3 and P2 + P3 = P1: both outer sums are doublings (P2 has order two). *)
Lemma assoc_tangents : forall x1 y1 x2 y2 l m n k,
  slope l x1 y1 x2 y2 ->
  let x3 := l * l - x1 - x2 in let y3 := l * (x1 - x3) - y1 in
  slope m x2 y2 x3 y3 -> x1 = m * m - x2 - x3 -> y1 = m * (x2 - x1) - y2 ->
  slope n x3 y3 x3 y3 -> slope k x1 y1 x1 y1 -> y1 <> 0 -> y3 <> 0 ->
  chord n x3 y3 x3 = chord k x1 y1 x1.
Proof.
  intros x1 y1 x2 y2 l m n k (S1 & S2) x3 y3 (S3 & S4) X1 Y1 (_ & S6) (_ & S8) NY1 NY3.
  assert (M : (m - l) * (m + l) = 0).
  { replace ((m - l) * (m + l)) with (m * m - x2 - x3 - x1 + (x3 - (l * l - x1 - x2))) by ring.
    rewrite <- X1. unfold x3. ring. }
  apply mul_0 in M. destruct M as [M|M].
  { apply sub_z in M. subst m. exfalso. apply NY3. apply dbl_z. rewrite S3 at 1. rewrite S1. unfold y3. ring. }
  assert (Em : m = - l) by (apply sub_z; rewrite <- M; ring). subst m. clear M.
  assert (E1 : y1 = l * (x1 - x2)).
  { apply sub_z. apply dbl_z. rewrite S1 in Y1.
    transitivity (y1 - (- l * (x2 - x1) - (y1 + l * (x2 - x1)))); [ring|]. rewrite <- Y1. ring. }
  assert (E2 : y2 = 0) by (rewrite S1, E1; ring).
  assert (Ea : a = l * (y1 + y2) - (x1 * x1 + x1 * x2 + x2 * x2)) by (rewrite S2; ring).
  assert (E3 : y3 = l * (x2 - x3)) by (unfold y3; rewrite E1; ring).
  assert (Nl : l <> 0) by (intro X; apply NY1; rewrite E1, X; ring).
  assert (N12 : x1 - x2 <> 0) by (intro X; apply NY1; rewrite E1, X; ring).
  assert (N23 : x2 - x3 <> 0) by (intro X; apply NY3; rewrite E3, X; ring).
  assert (En : n = (x3 * x3 + x3 * x3 + x3 * x3 + a) / (2 * y3)) by (rewrite <- S6; field; auto).
  assert (Ek : k = (x1 * x1 + x1 * x1 + x1 * x1 + a) / (2 * y1)) by (rewrite <- S8; field; auto).
  clear S1 S2 S3 S4 S6 S8 X1 Y1 NY1 NY3. unfold chord. rewrite En, Ek, E3, Ea, E2, E1.
  clear En Ek E3 Ea E2 E1 y3. unfold x3 in *. clear x3.
  f_equal; field; auto.
Qed.

Lemma pt_em : forall P Q : pt, P = Q \/ P <> Q.
Proof.
  intros [|x1 y1] [|x2 y2]; auto; try (right; discriminate).
  destruct (feq_em x1 x2) as [->|N]; [|right; congruence]. destruct (feq_em y1 y2) as [->|N]; [left; reflexivity|right; congruence].
Qed.

(** The same with named intermediate points. *)
Lemma assoc_half : forall x1 y1 x2 y2 x3 y3 x4 y4 x5 y5 l m n k,
  on (Aff x1 y1) -> on (Aff x2 y2) -> on (Aff x3 y3) ->
  slope l x1 y1 x2 y2 -> slope m x2 y2 x3 y3 ->
  add (Aff x1 y1) (Aff x2 y2) = Aff x4 y4 -> Aff x4 y4 = chord l x1 y1 x2 ->
  add (Aff x2 y2) (Aff x3 y3) = Aff x5 y5 -> Aff x5 y5 = chord m x2 y2 x3 ->
  slope n x4 y4 x3 y3 -> slope k x1 y1 x5 y5 ->
  add (Aff x4 y4) (Aff x3 y3) <> Inf -> x5 <> x1 -> Aff x1 y1 <> Aff x3 y3 ->
  chord n x4 y4 x3 = chord k x1 y1 x5.
Proof.
  intros x1 y1 x2 y2 x3 y3 x4 y4 x5 y5 l m n k H1 H2 H3 Sl Sm A4 C4 A5 C5 Sn Sk F6 N51 N13.
  assert (H4 : on (Aff x4 y4)) by (rewrite <- A4; apply add_on; assumption).
  pose proof Sk as (Sk1 & _). pose proof Sn as (Sn1 & _).
  destruct (feq_em x4 x3) as [E|N43].
  - apply add_fin_cond in F6.
    assert (Ey : y4 = y3).
    { rewrite E in H4. destruct (same_x _ _ _ H4 H3) as [|X]; [assumption|]. exfalso. apply F6. auto. }
    assert (NY : y4 <> 0) by (intro X; apply F6; split; [exact E|]; rewrite <- Ey, X; ring).
    assert (N24 : x2 <> x4).
    { intro X. assert (H2' : on (Aff x4 y2)) by (rewrite <- X; exact H2).
      destruct (same_x _ _ _ H2' H4) as [Y|Y].
      - assert (C : Aff x1 y1 = Inf); [|discriminate].
        apply (add_self_inf _ (Aff x2 y2)); auto. rewrite A4, X, Y. reflexivity.
      - assert (C : add (Aff x2 y2) (Aff x3 y3) = Inf); [|congruence].
        cbn [add]. destruct (feq_dec x2 x3) as [|D]; [|exfalso; apply D; congruence].
        destruct (feq_dec (y2 + y3) 0) as [|D]; [reflexivity|exfalso; apply D; congruence]. }
    clear Sn1. subst x3 y3. unfold chord in C4, C5. injection C4 as -> ->. injection C5 as -> ->.
    apply (assoc_tangent x1 y1 x2 y2 l m n k); assumption.
  - unfold chord in C4, C5. injection C4 as -> ->. injection C5 as -> ->.
    apply (assoc_generic x1 y1 x2 y2 x3 y3 l m n k); auto. intros (X & Y). apply N13. congruence.
Qed.

Lemma chord_sym : forall l x1 y1 x2 y2, slope l x1 y1 x2 y2 -> chord l x1 y1 x2 = chord l x2 y2 x1.
Proof. intros l x1 y1 x2 y2 (S1 & S2). unfold chord. rewrite S1. f_equal; ring. Qed.

Theorem add_assoc : forall P Q R, on P -> on Q -> on R -> add (add P Q) R = add P (add Q R).
Proof.
  intros P Q R HP HQ HR.
  destruct (pt_em P R) as [E13|N13].
  { rewrite <- E13. rewrite (add_comm Q P), (add_comm (add P Q) P); auto using add_on. }
  destruct (pt_em (add P Q) Inf) as [E|NPQ].
  { rewrite E. apply add_inf_inv in E; auto. rewrite E, add_inf_l.
    rewrite <- (neg_neg P) at 1. symmetry. apply cancel_neg; auto using neg_on. }
  destruct (pt_em (add Q R) Inf) as [E|NQR].
  { rewrite E. apply add_inf_inv in E; auto. rewrite E, add_inf_r. apply cancel_r; auto. }
  destruct (pt_em (add (add P Q) R) Inf) as [E|NL].
  { rewrite E. apply add_inf_inv in E; auto using add_on. rewrite E, neg_add by auto.
    rewrite (add_comm (neg P) (neg Q)) by auto using neg_on.
    rewrite <- (neg_neg Q) at 1. rewrite cancel_neg by auto using neg_on. symmetry. apply add_neg. }
  destruct (pt_em (add P (add Q R)) Inf) as [E|NR].
  { rewrite E. apply add_inf_inv in E; auto using add_on.
    assert (EP : P = add (neg R) (neg Q)).
    { rewrite <- (neg_neg P), <- E, neg_add by auto. apply add_comm; auto using neg_on. }
    rewrite EP. rewrite <- (neg_neg Q) at 2. rewrite cancel_r by auto using neg_on. apply add_neg_l. exact HR. }
  destruct P as [|x1 y1]; [reflexivity|]. destruct Q as [|x2 y2]; [reflexivity|].
  destruct R as [|x3 y3]; [rewrite !add_inf_r; reflexivity|].
  destruct (add_slope _ _ _ _ HP HQ NPQ) as (l & Sl & C4).
  destruct (add_slope _ _ _ _ HQ HR NQR) as (m & Sm & C5).
  destruct (add (Aff x1 y1) (Aff x2 y2)) as [|x4 y4] eqn:A4; [contradiction|].
  destruct (add (Aff x2 y2) (Aff x3 y3)) as [|x5 y5] eqn:A5; [contradiction|].
  assert (H4 : on (Aff x4 y4)) by (rewrite <- A4; apply add_on; assumption).
  assert (H5 : on (Aff x5 y5)) by (rewrite <- A5; apply add_on; assumption).
  destruct (add_slope _ _ _ _ H4 HR NL) as (n & Sn & A6). destruct (add_slope _ _ _ _ HP H5 NR) as (k & Sk & A7).
  rewrite A6, A7.
  destruct (feq_em x5 x1) as [E51|N51].
  2:{ apply (assoc_half x1 y1 x2 y2 x3 y3 x4 y4 x5 y5 l m n k); assumption. }
  destruct (feq_em x4 x3) as [E43|N43].
  - apply add_fin_cond in NL. apply add_fin_cond in NR.
    assert (Ey4 : y4 = y3).
    { rewrite E43 in H4. destruct (same_x _ _ _ H4 HR) as [|X]; [assumption|]. exfalso. apply NL. auto. }
    assert (Ey5 : y5 = y1).
    { rewrite E51 in H5. destruct (same_x _ _ _ HP H5) as [|X]; [auto|]. exfalso. apply NR. auto. }
    assert (NY3 : y4 <> 0) by (intro X; apply NL; split; [exact E43|]; rewrite <- Ey4, X; ring).
    assert (NY1 : y1 <> 0) by (intro X; apply NR; split; [auto|]; rewrite Ey5, X; ring).
    subst x3 y3 x5 y5. unfold chord in C4, C5. injection C4 as -> ->. injection C5 as C5x C5y.
    rewrite <- C5x in C5y.
    apply (assoc_tangents x1 y1 x2 y2 l m n k); assumption.
  - rewrite (chord_sym n x4 y4 x3 y3) by exact Sn. rewrite (chord_sym k x1 y1 x5 y5) by exact Sk.
    symmetry. apply (assoc_half x3 y3 x2 y2 x1 y1 x5 y5 x4 y4 m l k n); auto using slope_sym.
    + rewrite add_comm by assumption. exact A5.
    + rewrite C5. apply chord_sym. exact Sm.
    + rewrite add_comm by assumption. exact A4.
    + rewrite C4. apply chord_sym. exact Sl.
    + rewrite add_comm by assumption. exact NR.
Qed.

(** * Multiples *)

Fixpoint nmul (k : nat) (P : pt) : pt :=
  match k with O => Inf | S k => add P (nmul k P) end.
(** [k]P: the sum of k copies of P, for k >= 0. *)
Definition mul (k : Z) (P : pt) : pt := nmul (Z.to_nat k) P.

Lemma nmul_on : forall k P, on P -> on (nmul k P).
Proof. induction k as [|k IH]; intros P H; [exact I|]. apply add_on; auto. Qed.
Lemma nmul_inf : forall k, nmul k Inf = Inf.
Proof. induction k as [|k IH]; [reflexivity|exact IH]. Qed.
Lemma nmul_add : forall k l P, on P -> nmul (k + l) P = add (nmul k P) (nmul l P).
Proof.
  induction k as [|k IH]; intros l P H; [reflexivity|]. cbn [nmul Nat.add]. rewrite (IH l P H).
  symmetry. apply add_assoc; auto using nmul_on.
Qed.
Lemma nmul_mul : forall k l P, on P -> nmul (k * l) P = nmul k (nmul l P).
Proof.
  induction k as [|k IH]; intros l P H; [reflexivity|]. cbn [nmul Nat.mul]. rewrite (nmul_add l (k * l) P H), (IH l P H). reflexivity.
Qed.
Lemma nmul_distr : forall k P Q, on P -> on Q -> nmul k (add P Q) = add (nmul k P) (nmul k Q).
Proof.
  induction k as [|k IH]; intros P Q HP HQ; [reflexivity|]. cbn [nmul]. rewrite (IH P Q HP HQ).
  pose proof (nmul_on k P HP). pose proof (nmul_on k Q HQ).
  rewrite (add_assoc P Q) by auto using add_on. rewrite <- (add_assoc Q (nmul k P)) by auto.
  rewrite (add_comm Q (nmul k P)) by auto. rewrite (add_assoc (nmul k P) Q) by auto.
  symmetry. apply add_assoc; auto using add_on.
Qed.
Lemma nmul_neg : forall k P, on P -> nmul k (neg P) = neg (nmul k P).
Proof.
  induction k as [|k IH]; intros P H; [reflexivity|]. cbn [nmul]. rewrite (IH P H), neg_add; auto using nmul_on.
Qed.

Lemma mul_on : forall k P, on P -> on (mul k P).
Proof. intros. apply nmul_on. assumption. Qed.
Lemma mul_0_l : forall P, mul 0 P = Inf.
Proof. reflexivity. Qed.
Lemma mul_1_l : forall P, mul 1 P = P.
Proof. intro P. unfold mul. cbn. apply add_inf_r. Qed.
Lemma mul_inf : forall k, mul k Inf = Inf.
Proof. intro k. apply nmul_inf. Qed.
Lemma mul_add : forall k l P, on P -> (0 <= k)%Z -> (0 <= l)%Z -> mul (k + l) P = add (mul k P) (mul l P).
Proof. intros k l P H Hk Hl. unfold mul. rewrite Z2Nat.inj_add by assumption. apply nmul_add. exact H. Qed.
Lemma mul_mul : forall k l P, on P -> (0 <= k)%Z -> (0 <= l)%Z -> mul (k * l) P = mul k (mul l P).
Proof. intros k l P H Hk Hl. unfold mul. rewrite Z2Nat.inj_mul by assumption. apply nmul_mul. exact H. Qed.
Lemma mul_distr : forall k P Q, on P -> on Q -> mul k (add P Q) = add (mul k P) (mul k Q).
Proof. intros. apply nmul_distr; assumption. Qed.
Lemma mul_dbl : forall k P, on P -> (0 <= k)%Z -> mul (2 * k) P = add (mul k P) (mul k P).
Proof. intros k P H Hk. replace (2 * k)%Z with (k + k)%Z by lia. apply mul_add; assumption. Qed.

Lemma mul_mod : forall n k P, on P -> (0 < n)%Z -> (0 <= k)%Z -> mul n P = Inf -> mul (k mod n) P = mul k P.
Proof.
  intros n k P H Hn Hk E. pose proof (Z.mod_pos_bound k n Hn). pose proof (Z.div_pos k n Hk Hn).
  rewrite (Z.div_mod k n) at 2 by lia. rewrite mul_add by (try assumption; try nia; lia).
  rewrite (Z.mul_comm n), mul_mul by (try assumption; lia). rewrite E, mul_inf. reflexivity.
Qed.
Lemma mul_cong : forall n k l P, on P -> (0 < n)%Z -> (0 <= k)%Z -> (0 <= l)%Z -> mul n P = Inf ->
  (k mod n = l mod n)%Z -> mul k P = mul l P.
Proof.
  intros n k l P H Hn Hk Hl E M. rewrite <- (mul_mod n k P) by assumption. rewrite M. apply mul_mod; assumption.
Qed.
Lemma mul_order : forall n k P, on P -> prime n -> P <> Inf -> mul n P = Inf -> (0 <= k)%Z ->
  (mul k P = Inf <-> (n | k)%Z).
Proof.
  intros n k P H Hn NP E Hk. pose proof (prime_ge_2 n Hn) as H2. split; intro A.
  - destruct (Zdivide_dec n k) as [D|D]; [exact D|]. exfalso. apply NP.
    assert (R : rel_prime k n) by (apply rel_prime_sym, prime_rel_prime; assumption).
    apply rel_prime_bezout in R. destruct R as [u v B].
    rewrite <- (mul_1_l P). rewrite <- (mul_mod n 1 P) by (auto; lia).
    assert (M : ((u mod n * k) mod n = 1 mod n)%Z).
    { rewrite <- B. rewrite Z.mul_mod_idemp_l by lia. rewrite Z_mod_plus_full. reflexivity. }
    rewrite <- M. pose proof (Z.mod_pos_bound u n ltac:(lia)).
    rewrite mul_mod by (auto; try lia; nia). rewrite mul_mul by (auto; lia). rewrite A. apply mul_inf.
  - destruct A as [q ->]. rewrite mul_mul by (auto; nia). rewrite E. apply mul_inf.
Qed.
Lemma mul_inj : forall n k l P, on P -> prime n -> P <> Inf -> mul n P = Inf -> (0 <= k)%Z -> (0 <= l)%Z ->
  mul k P = mul l P -> (k mod n = l mod n)%Z.
Proof.
  intros n k l P H Hn NP E. pose proof (prime_ge_2 n Hn) as H2.
  assert (W : forall k l, (0 <= k <= l)%Z -> mul k P = mul l P -> (k mod n = l mod n)%Z).
  { clear k l. intros k l Hkl M. assert (A : mul (l - k) P = Inf).
    { apply (add_self_inf _ (mul k P)); auto using mul_on. rewrite <- mul_add by (auto; lia).
      rewrite Z.sub_add. auto. }
    apply (mul_order n) in A; auto; [|lia]. destruct A as [q A].
    replace l with (k + q * n)%Z by lia. symmetry. apply Z_mod_plus_full. }
  intros Hk Hl M. destruct (Z.le_ge_cases k l); [apply W; auto; lia|]. symmetry. apply W; auto; lia.
Qed.
End Wei.
