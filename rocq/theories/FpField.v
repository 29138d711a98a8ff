(** Modular inverses as math/big computes them, and the prime field Z/p with Leibniz equality. *)
From Coq Require Import ZArith Znumtheory List Lia Bool Ring Field Eqdep_dec.
From Verif Require Import GoBase Primes.
Import ListNotations.
Open Scope Z_scope.

(** * Extended Euclid *)

(** (g, x) with g the gcd and a * x = g modulo b. *)
Fixpoint egcd (fuel : nat) (a b : Z) : Z * Z * Z :=
  match fuel with
  | O => (a, 1, 0)
  | S fuel => if b =? 0 then (a, 1, 0)
              else let '(g, x, y) := egcd fuel b (a mod b) in (g, y, x - a / b * y)
  end.

Lemma egcd_bezout : forall fuel a b g x y, egcd fuel a b = (g, x, y) -> a * x + b * y = g.
Proof.
  induction fuel as [|fuel IH]; intros a b g x y E; cbn [egcd] in E.
  - injection E as <- <- <-. lia.
  - destruct (Z.eqb_spec b 0) as [->|N]; [injection E as <- <- <-; lia|].
    destruct (egcd fuel b (a mod b)) as [[g' x'] y'] eqn:E'. injection E as <- <- <-.
    apply IH in E'. pose proof (Z.div_mod a b N). rewrite <- E'. rewrite H at 1. ring.
Qed.

Lemma egcd_gcd : forall k a b, 0 <= a -> 0 <= b < 2 ^ Z.of_nat k ->
  fst (fst (egcd (2 * k + 1) a b)) = Z.gcd a b.
Proof.
  induction k as [|k IH]; intros a b Ha Hb.
  - replace b with 0 by (cbn in Hb; lia). cbn [egcd Nat.mul Nat.add Z.eqb fst]. rewrite Z.gcd_0_r. lia.
  - replace (2 * S k + 1)%nat with (S (S (2 * k + 1))) by lia. cbn [egcd].
    destruct (Z.eqb_spec b 0) as [->|N]; [cbn [fst]; rewrite Z.gcd_0_r; lia|].
    assert (G1 : Z.gcd a b = Z.gcd b (a mod b)) by (rewrite (Z.gcd_comm b (a mod b)), Z.gcd_mod by lia; apply Z.gcd_comm).
    rewrite Nat2Z.inj_succ, Z.pow_succ_r in Hb by lia.
    pose proof (Z.mod_pos_bound a b ltac:(lia)) as R. set (r := a mod b) in *.
    destruct (Z.eqb_spec r 0) as [Z0|N2].
    + cbn [fst]. rewrite G1, Z0, Z.gcd_0_r. lia.
    + destruct (egcd (2 * k + 1) r (b mod r)) as [[g x] y] eqn:E. cbn [fst].
      specialize (IH r (b mod r) ltac:(lia)). rewrite E in IH. cbn [fst] in IH. rewrite IH.
      * rewrite G1. rewrite (Z.gcd_comm r (b mod r)), Z.gcd_mod by lia. apply Z.gcd_comm.
      * pose proof (Z.mod_pos_bound b r ltac:(lia)). pose proof (Z.div_mod b r ltac:(lia)).
        assert (1 <= b / r) by (apply Z.div_le_lower_bound; lia). nia.
Qed.

(** big.Int.ModInverse(g, n) for n > 0: [None] when there is no inverse, in which case the receiver
    keeps its value and nil is returned. *)
Definition ModInverse (g n : Z) : option Z :=
  let '(d, x, _) := egcd (2 * Z.to_nat (Z.log2 n + 1) + 1) (g mod n) n in
  if d =? 1 then Some (x mod n) else None.

Lemma ModInverse_spec : forall g n, 1 < n ->
  match ModInverse g n with
  | Some i => 0 <= i < n /\ (g * i) mod n = 1
  | None => Z.gcd g n <> 1
  end.
Proof.
  intros g n Hn. unfold ModInverse.
  pose proof (Z.mod_pos_bound g n ltac:(lia)) as B.
  assert (L : n < 2 ^ Z.of_nat (Z.to_nat (Z.log2 n + 1))).
  { pose proof (Z.log2_spec n ltac:(lia)). pose proof (Z.log2_nonneg n). rewrite Z2Nat.id by lia. exact (proj2 H). }
  pose proof (egcd_gcd (Z.to_nat (Z.log2 n + 1)) (g mod n) n ltac:(lia) ltac:(lia)) as G.
  destruct (egcd _ (g mod n) n) as [[d x] y] eqn:E. cbn [fst] in G. apply egcd_bezout in E.
  rewrite Z.gcd_mod in G by lia.
  destruct (Z.eqb_spec d 1) as [->|N].
  - split; [apply Z.mod_pos_bound; lia|]. rewrite Z.mul_mod_idemp_r by lia.
    rewrite <- Z.mul_mod_idemp_l by lia. replace (g mod n * x) with (1 + (- y) * n) by lia.
    rewrite Z_mod_plus_full. apply Z.mod_small. lia.
  - rewrite Z.gcd_comm. congruence.
Qed.

Lemma inverse_unique : forall g n i j, 1 < n -> 0 <= i < n -> 0 <= j < n ->
  (g * i) mod n = 1 -> (g * j) mod n = 1 -> i = j.
Proof.
  intros g n i j Hn Hi Hj Ei Ej.
  rewrite <- (Z.mod_small i n Hi), <- (Z.mod_small j n Hj).
  transitivity ((i * (g * j)) mod n).
  - rewrite <- Z.mul_mod_idemp_r, Ej, Z.mul_1_r by lia. reflexivity.
  - replace (i * (g * j)) with ((g * i) * j) by ring. rewrite <- Z.mul_mod_idemp_l, Ei, Z.mul_1_l by lia. reflexivity.
Qed.

Lemma ModInverse_some : forall g n, 1 < n -> Z.gcd g n = 1 ->
  exists i, ModInverse g n = Some i /\ 0 <= i < n /\ (g * i) mod n = 1.
Proof.
  intros g n Hn G. pose proof (ModInverse_spec g n Hn) as S. destruct (ModInverse g n) as [i|]; [eauto|contradiction].
Qed.
Lemma ModInverse_none : forall g n, 1 < n -> Z.gcd g n <> 1 -> ModInverse g n = None.
Proof.
  intros g n Hn G. pose proof (ModInverse_spec g n Hn) as S. destruct (ModInverse g n) as [i|]; [|reflexivity].
  exfalso. apply G. destruct S as [_ S]. apply Zgcd_1_rel_prime. apply bezout_rel_prime.
  apply Bezout_intro with i (- (g * i / n)). pose proof (Z.div_mod (g * i) n ltac:(lia)). lia.
Qed.

Lemma prime_gcd : forall p x, prime p -> x mod p <> 0 -> Z.gcd x p = 1.
Proof.
  intros p x Hp N. apply Zgcd_1_rel_prime, rel_prime_sym, prime_rel_prime; [exact Hp|].
  intro D. apply N. apply Z.mod_divide; [|exact D]. pose proof (prime_ge_2 p Hp). lia.
Qed.

(** * The field *)

Section Fp.
Variable p : Z.
Hypothesis p_prime : prime p.

Record fp : Set := mkfp { fv : Z; fok : (0 <=? fv) && (fv <? p) = true }.

Lemma p_pos : 2 <= p.
Proof. apply prime_ge_2. exact p_prime. Qed.

Lemma fv_range : forall x, 0 <= fv x < p.
Proof. intros [v H]. cbn [fv]. apply andb_true_iff in H. destruct H as [H1 H2]. apply Z.leb_le in H1. apply Z.ltb_lt in H2. lia. Qed.

Lemma fp_eq : forall x y, fv x = fv y -> x = y.
Proof.
  intros [v H] [w K] E. cbn [fv] in E. subst w. f_equal. apply UIP_dec. apply bool_dec.
Qed.

Lemma mod_ok : forall z, (0 <=? z mod p) && (z mod p <? p) = true.
Proof.
  intro z. pose proof p_pos. pose proof (Z.mod_pos_bound z p ltac:(lia)).
  apply andb_true_iff. split; [apply Z.leb_le|apply Z.ltb_lt]; lia.
Qed.

(** The class of an integer. *)
Definition F (z : Z) : fp := mkfp (z mod p) (mod_ok z).

Lemma F_fv : forall x, F (fv x) = x.
Proof. intro x. apply fp_eq. cbn [fv F]. apply Z.mod_small. apply fv_range. Qed.
Lemma fv_F : forall z, fv (F z) = z mod p.
Proof. reflexivity. Qed.
Lemma F_eq : forall x y, x mod p = y mod p <-> F x = F y.
Proof.
  intros x y. split; intro H; [apply fp_eq; exact H|]. apply (f_equal fv) in H. exact H.
Qed.
Lemma F_mod : forall x, F (x mod p) = F x.
Proof. intro x. apply F_eq. apply Z.mod_mod. pose proof p_pos. lia. Qed.

Definition fadd (x y : fp) : fp := F (fv x + fv y).
Definition fmul (x y : fp) : fp := F (fv x * fv y).
Definition fsub (x y : fp) : fp := F (fv x - fv y).
Definition fopp (x : fp) : fp := F (- fv x).
Definition finv (x : fp) : fp := match ModInverse (fv x) p with Some i => F i | None => F 0 end.
Definition fdiv (x y : fp) : fp := fmul x (finv y).

Lemma F_add : forall x y, F (x + y) = fadd (F x) (F y).
Proof. intros. apply F_eq. cbn [fv F]. apply Z.add_mod. pose proof p_pos. lia. Qed.
Lemma F_mul : forall x y, F (x * y) = fmul (F x) (F y).
Proof. intros. apply F_eq. cbn [fv F]. apply Z.mul_mod. pose proof p_pos. lia. Qed.
Lemma F_sub : forall x y, F (x - y) = fsub (F x) (F y).
Proof. intros. apply F_eq. cbn [fv F]. apply Zminus_mod. Qed.
Lemma F_opp : forall x, F (- x) = fopp (F x).
Proof.
  intros. apply F_eq. cbn [fv F]. pose proof p_pos.
  rewrite <- (Z.sub_0_l x), <- (Z.sub_0_l (x mod p)). rewrite Zminus_mod_idemp_r. reflexivity.
Qed.
Lemma F_p : F p = F 0.
Proof. apply F_eq. pose proof p_pos. rewrite Z.mod_same, Z.mod_0_l by lia. reflexivity. Qed.

Lemma fp_dec : forall x y : fp, {x = y} + {x <> y}.
Proof.
  intros x y. destruct (Z.eq_dec (fv x) (fv y)) as [E|N]; [left; apply fp_eq; exact E|right; congruence].
Defined.

Lemma F_0_iff : forall z, F z = F 0 <-> z mod p = 0.
Proof. intro z. rewrite <- F_eq. rewrite Z.mod_0_l by (pose proof p_pos; lia). reflexivity. Qed.

Lemma finv_l : forall x, x <> F 0 -> fmul (finv x) x = F 1.
Proof.
  intros x Hx. pose proof p_pos as H2. unfold finv.
  assert (N : fv x mod p <> 0).
  { intro E. apply Hx. rewrite <- (F_fv x). apply F_0_iff. exact E. }
  destruct (ModInverse_some (fv x) p ltac:(lia) (prime_gcd p _ p_prime N)) as (i & -> & Hi & E).
  rewrite <- (F_fv x) at 1. rewrite <- F_mul. apply F_eq. rewrite Z.mul_comm, E. symmetry. apply Z.mod_small. lia.
Qed.

Lemma fp_ring : ring_theory (F 0) (F 1) fadd fmul fsub fopp (@eq fp).
Proof.
  constructor; intros;
    repeat match goal with x : fp |- _ => rewrite <- (F_fv x); generalize (fv x); clear x; intro end;
    rewrite <- ?F_opp, <- ?F_mul, <- ?F_add, <- ?F_sub, <- ?F_mul, <- ?F_add; f_equal; ring.
Qed.

Lemma F_1_nz : F 1 <> F 0.
Proof. pose proof p_pos. rewrite F_0_iff, Z.mod_small by lia. lia. Qed.

Lemma fp_field : field_theory (F 0) (F 1) fadd fmul fsub fopp fdiv finv (@eq fp).
Proof. constructor; [exact fp_ring|exact F_1_nz|reflexivity|exact finv_l]. Qed.

Lemma finv_spec : forall z i, 0 <= i < p -> (z * i) mod p = 1 -> finv (F z) = F i.
Proof.
  intros z i Hi E. pose proof p_pos.
  assert (N : F z <> F 0).
  { intro X. apply F_0_iff in X. rewrite <- Z.mul_mod_idemp_l, X in E by lia. rewrite Z.mul_0_l, Z.mod_0_l in E; lia. }
  assert (M : F (z * i) = F 1) by (apply F_eq; rewrite E; symmetry; apply Z.mod_small; lia).
  destruct fp_ring. rewrite F_mul in M.
  transitivity (fmul (finv (F z)) (fmul (F z) (F i))).
  - rewrite M. rewrite Rmul_comm, Rmul_1_l. reflexivity.
  - rewrite Rmul_assoc, (finv_l _ N), Rmul_1_l. reflexivity.
Qed.
End Fp.
