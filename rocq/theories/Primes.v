(** Primality certificates: Fermat's little theorem and Pocklington's criterion over Z, with a
    boolean checker, so that the primality of the SM2 constants is proved inside Coq. *)
From Coq Require Import ZArith Znumtheory Zpow_facts List Lia Bool Permutation.
Import ListNotations.
Open Scope Z_scope.

(** * Modular powers *)

Fixpoint powmod_pos (m a : Z) (e : positive) : Z :=
  match e with
  | xH => a mod m
  | xO e => let r := powmod_pos m a e in (r * r) mod m
  | xI e => let r := powmod_pos m a e in ((r * r) mod m * a) mod m
  end.
Definition powmod (m a e : Z) : Z :=
  match e with
  | Zpos e => powmod_pos m a e
  | _ => 1 mod m
  end.

Lemma powmod_pos_spec : forall m a e, 0 < m -> powmod_pos m a e = a ^ Zpos e mod m.
Proof.
  intros m a e Hm. induction e as [e IH|e IH|]; cbn [powmod_pos].
  - rewrite IH. rewrite Pos2Z.inj_xI. rewrite Z.pow_add_r, Z.pow_1_r by lia.
    rewrite <- Z.mul_mod by lia. rewrite Z.mul_mod_idemp_l by lia. f_equal.
    replace (2 * Zpos e) with (Zpos e + Zpos e) by lia. rewrite Z.pow_add_r by lia. reflexivity.
  - rewrite IH. rewrite Pos2Z.inj_xO. rewrite <- Z.mul_mod by lia. f_equal.
    replace (2 * Zpos e) with (Zpos e + Zpos e) by lia. rewrite Z.pow_add_r by lia. reflexivity.
  - rewrite Z.pow_1_r. reflexivity.
Qed.

Lemma powmod_spec : forall m a e, 0 < m -> 0 <= e -> powmod m a e = a ^ e mod m.
Proof.
  intros m a [|e|e] Hm He; [reflexivity|apply powmod_pos_spec; exact Hm|lia].
Qed.

(** * Fermat *)

Definition zprod (l : list Z) : Z := fold_right Z.mul 1 l.

Lemma zprod_perm : forall l l', Permutation l l' -> zprod l = zprod l'.
Proof. induction 1; cbn [zprod fold_right] in *; unfold zprod in *; lia. Qed.

Definition residues (p : Z) : list Z := map Z.of_nat (seq 1 (Z.to_nat (p - 1))).

Lemma residues_in : forall p x, In x (residues p) <-> 1 <= x < p.
Proof.
  intros p x. unfold residues. rewrite in_map_iff. split.
  - intros (n & <- & H). apply in_seq in H. lia.
  - intro H. exists (Z.to_nat x). split; [lia|]. apply in_seq. lia.
Qed.
Lemma residues_nodup : forall p, NoDup (residues p).
Proof. intro p. apply FinFun.Injective_map_NoDup; [intros x y; lia|apply seq_NoDup]. Qed.

Lemma prime_mul_inj : forall p a x y, prime p -> ~ (p | a) -> 1 <= x < p -> 1 <= y < p ->
  (a * x) mod p = (a * y) mod p -> x = y.
Proof.
  intros p a x y Hp Ha Hx Hy E. pose proof (prime_ge_2 p Hp).
  assert (D : (p | a * (x - y))).
  { apply Z.mod_divide; [lia|]. replace (a * (x - y)) with (a * x - a * y) by ring.
    rewrite Zminus_mod, E, Z.sub_diag. apply Z.mod_0_l. lia. }
  apply prime_mult in D; [|exact Hp]. destruct D as [D|D]; [contradiction|].
  destruct D as [k D]. assert (k = 0) by nia. lia.
Qed.

Lemma zprod_map_mod : forall p a l, 0 < p ->
  zprod (map (fun x => (a * x) mod p) l) mod p = (a ^ Z.of_nat (List.length l) * zprod l) mod p.
Proof.
  intros p a l Hp. induction l as [|x l IH]; [reflexivity|].
  cbn [map zprod fold_right List.length]. fold (zprod l). fold (zprod (map (fun x => (a * x) mod p) l)).
  rewrite Z.mul_mod, IH, Z.mod_mod, <- Z.mul_mod by lia. f_equal.
  rewrite Nat2Z.inj_succ, Z.pow_succ_r by lia. ring.
Qed.

Lemma prime_not_div_zprod : forall p l, prime p -> Forall (fun x => ~ (p | x)) l -> ~ (p | zprod l).
Proof.
  intros p l Hp H. induction H as [|x l Hx Hl IH].
  - intro D. cbn in D. apply Z.divide_1_r_nonneg in D; pose proof (prime_ge_2 p Hp); lia.
  - cbn [zprod fold_right]. intro D. apply prime_mult in D; [|exact Hp]. destruct D; auto.
Qed.

Theorem fermat : forall p a, prime p -> ~ (p | a) -> a ^ (p - 1) mod p = 1.
Proof.
  intros p a Hp Ha. pose proof (prime_ge_2 p Hp) as H2.
  assert (P : Permutation (map (fun x => (a * x) mod p) (residues p)) (residues p)).
  { apply NoDup_Permutation_bis.
    - assert (G : forall l, NoDup l -> Forall (fun x => 1 <= x < p) l -> NoDup (map (fun x => (a * x) mod p) l)).
      { induction l as [|x l IH]; intros N F; [constructor|]. cbn [map]. inversion N; subst. inversion F; subst.
        constructor; [|auto]. rewrite in_map_iff. intros (y & E & Hy). rewrite Forall_forall in *.
        assert (y = x) by (apply (prime_mul_inj p a); auto). subst. contradiction. }
      apply G; [apply residues_nodup|]. apply Forall_forall. intros x. apply residues_in.
    - rewrite map_length. lia.
    - intros z Hz. apply in_map_iff in Hz. destruct Hz as (x & <- & Hx). apply residues_in in Hx. apply residues_in.
      pose proof (Z.mod_pos_bound (a * x) p ltac:(lia)) as B. split; [|lia].
      assert ((a * x) mod p <> 0); [|lia]. intro E. apply Z.mod_divide in E; [|lia].
      apply prime_mult in E; [|exact Hp]. destruct E as [E|[k E]]; [contradiction|]. assert (0 < k) by nia. nia. }
  apply zprod_perm in P. pose proof (zprod_map_mod p a (residues p) ltac:(lia)) as M. rewrite P in M.
  assert (L : Z.of_nat (List.length (residues p)) = p - 1).
  { unfold residues. rewrite map_length, seq_length. lia. }
  rewrite L in M. set (A := a ^ (p - 1)) in *. set (R := zprod (residues p)) in *.
  assert (D : (p | (A - 1) * R)).
  { apply Z.mod_divide; [lia|]. replace ((A - 1) * R) with (A * R - R) by ring.
    rewrite Zminus_mod, <- M, Z.sub_diag. apply Z.mod_0_l. lia. }
  apply prime_mult in D; [|exact Hp]. destruct D as [D|D].
  - destruct D as [k D]. replace A with (1 + k * p) by lia. rewrite Z_mod_plus_full. apply Z.mod_small. lia.
  - exfalso. revert D. apply prime_not_div_zprod; [exact Hp|]. apply Forall_forall. intros x Hx.
    apply residues_in in Hx. intros [k E]. assert (0 < k) by nia. nia.
Qed.

(** * Exponents *)

Lemma pow_one_mul : forall m a x k, 1 < m -> 0 <= x -> 0 <= k -> a ^ x mod m = 1 -> a ^ (x * k) mod m = 1.
Proof.
  intros m a x k Hm Hx Hk E. rewrite Z.pow_mul_r by lia.
  rewrite (Zpower_mod (a ^ x) k m) by lia. rewrite E, Z.pow_1_l by lia. apply Z.mod_small. lia.
Qed.

Lemma pow_one_rel : forall m a x y, 1 < m -> 0 < x -> 0 < y -> a ^ x mod m = 1 -> a ^ y mod m = 1 ->
  a ^ Z.gcd x y mod m = 1.
Proof.
  intros m a x y Hm Hx Hy Ex Ey. destruct (Z.gcd_bezout x y (Z.gcd x y) eq_refl) as (u & v & B).
  (* make the coefficient of x nonnegative and that of y nonpositive *)
  set (t := Z.abs u + Z.abs v). set (g := Z.gcd x y) in *. pose proof (Z.gcd_nonneg x y). fold g in H.
  assert (E1 : a ^ (x * (u + t * y)) mod m = 1).
  { apply pow_one_mul; try lia. unfold t. nia. }
  assert (Hv : 0 <= t * x - v) by (unfold t; nia).
  assert (E2 : a ^ (y * (t * x - v)) mod m = 1) by (apply pow_one_mul; try lia).
  replace (x * (u + t * y)) with (g + y * (t * x - v)) in E1 by (rewrite <- B; ring).
  rewrite Z.pow_add_r in E1 by nia. rewrite <- Z.mul_mod_idemp_r, E2, Z.mul_1_r in E1 by lia. exact E1.
Qed.

Lemma pow_nondiv : forall m a x, 1 < m -> 0 < x -> a ^ x mod m = 1 -> ~ (m | a).
Proof.
  intros m a x Hm Hx E D.
  assert (X : a ^ x mod m = 0).
  { apply Z.mod_divide; [lia|]. replace x with (1 + (x - 1)) by lia. rewrite Z.pow_add_r, Z.pow_1_r by lia.
    apply Z.divide_mul_l. exact D. }
  lia.
Qed.

(** * Pocklington *)

Lemma prime_divisor : forall n, 1 < n -> exists d, prime d /\ (d | n) /\ (prime n \/ d * d <= n).
Proof.
  intros n. assert (G : forall k n, 1 < n < Z.of_nat k -> exists d, prime d /\ (d | n) /\ (prime n \/ d * d <= n)).
  { induction k as [|k IH]; intros m H; [lia|].
    destruct (prime_dec m) as [P|NP]; [exists m; split; [exact P|]; split; [apply Z.divide_refl|left; exact P]|].
    destruct (not_prime_divide m ltac:(lia) NP) as (d & Hd & D). destruct D as [e D].
    assert (1 < e < m) by nia.
    (* the smaller factor *)
    assert (S : exists f, 1 < f < m /\ (f | m) /\ f * f <= m).
    { destruct (Z.le_gt_cases d e); [exists d|exists e].
      - split; [lia|]. split; [exists e; exact D|nia].
      - split; [lia|]. split; [exists d; lia|nia]. }
    destruct S as (f & Hf & Df & Sf). destruct (IH f ltac:(lia)) as (q & Pq & Dq & _).
    exists q. split; [exact Pq|]. split; [eapply Z.divide_trans; eauto|]. right.
    assert (0 < q) by (pose proof (prime_ge_2 q Pq); lia).
    assert (q <= f) by (apply Z.divide_pos_le; [lia|exact Dq]). nia. }
  intro H. apply (G (Z.to_nat (n + 1))). lia.
Qed.

Lemma pocklington_step : forall n a q m d, 1 < n -> n - 1 = q * m -> prime q -> 0 < m ->
  a ^ (n - 1) mod n = 1 -> Z.gcd (a ^ m mod n - 1) n = 1 -> prime d -> (d | n) -> (q | d - 1).
Proof.
  intros n a q m d Hn E Hq Hm A G Hd Dn. pose proof (prime_ge_2 d Hd) as H2. pose proof (prime_ge_2 q Hq) as Q2.
  destruct (Zdivide_dec q (d - 1)) as [|ND]; [assumption|exfalso].
  assert (Ad : a ^ (n - 1) mod d = 1).
  { pose proof (Zmod_div_mod d n (a ^ (n - 1)) ltac:(lia) ltac:(lia) Dn) as X. rewrite X, A. apply Z.mod_small. lia. }
  assert (F : a ^ (d - 1) mod d = 1) by (apply fermat; [exact Hd|eapply pow_nondiv; [| |exact Ad]; lia]).
  pose proof (pow_one_rel d a (n - 1) (d - 1) ltac:(lia) ltac:(lia) ltac:(lia) Ad F) as O.
  assert (GD : (Z.gcd (n - 1) (d - 1) | m)).
  { set (g := Z.gcd (n - 1) (d - 1)).
    assert (g1 : (g | q * m)) by (rewrite <- E; apply Z.gcd_divide_l).
    assert (g2 : (g | d - 1)) by apply Z.gcd_divide_r.
    apply Gauss with q; [exact g1|]. apply rel_prime_sym. apply prime_rel_prime; [exact Hq|].
    intro X. apply ND. eapply Z.divide_trans; eauto. }
  destruct GD as [k K].
  assert (Om : a ^ m mod d = 1).
  { rewrite K, Z.mul_comm. apply pow_one_mul; [lia|apply Z.gcd_nonneg| |exact O].
    pose proof (Z.gcd_nonneg (n - 1) (d - 1)). nia. }
  assert (Dg : (d | Z.gcd (a ^ m mod n - 1) n)).
  { apply Z.gcd_greatest; [|exact Dn]. apply Z.mod_divide; [lia|].
    rewrite Zminus_mod, <- (Zmod_div_mod d n (a ^ m)), Om by (try lia; exact Dn).
    rewrite (Z.mod_small 1 d), Z.sub_diag by lia. apply Z.mod_0_l. lia. }
  rewrite G in Dg. apply Z.divide_1_r_nonneg in Dg; lia.
Qed.

(** [qs]: distinct primes dividing n - 1 whose product exceeds the square root of n. *)
Fixpoint pairwise_coprime (qs : list Z) : bool :=
  match qs with
  | [] => true
  | q :: r => forallb (fun q' => Z.gcd q q' =? 1) r && pairwise_coprime r
  end.

Definition pock_check (n a : Z) (qs : list Z) : bool :=
  (1 <? n) && (powmod n a (n - 1) =? 1) &&
  forallb (fun q => (0 <? q) && ((n - 1) mod q =? 0) && (0 <? (n - 1) / q) &&
                    (Z.gcd (powmod n a ((n - 1) / q) - 1) n =? 1)) qs &&
  pairwise_coprime qs && (n <? zprod qs * zprod qs).

Lemma coprime_prod : forall q r, forallb (fun q' => Z.gcd q q' =? 1) r = true -> rel_prime q (zprod r).
Proof.
  intros q r. induction r as [|x r IH]; intro H; [apply rel_prime_sym, rel_prime_1|].
  cbn [forallb] in H. apply andb_true_iff in H. destruct H as [H1 H2]. apply Z.eqb_eq in H1.
  cbn [zprod fold_right]. apply rel_prime_mult; [apply Zgcd_1_rel_prime; exact H1|apply IH; exact H2].
Qed.

Lemma prod_divides : forall qs x, pairwise_coprime qs = true -> Forall (fun q => (q | x)) qs -> (zprod qs | x).
Proof.
  induction qs as [|q qs IH]; intros x P F; [apply Z.divide_1_l|].
  cbn [pairwise_coprime] in P. apply andb_true_iff in P. destruct P as [P1 P2].
  pose proof (Forall_inv F) as Hq. cbn beta in Hq. specialize (IH x P2 (Forall_inv_tail F)). destruct IH as [k K].
  cbn [zprod fold_right]. fold (zprod qs).
  assert (D : (q | k)).
  { apply Gauss with (zprod qs); [rewrite Z.mul_comm, <- K; exact Hq|apply coprime_prod; exact P1]. }
  destruct D as [j ->]. exists j. rewrite K. ring.
Qed.

Theorem pocklington : forall n a qs, pock_check n a qs = true -> Forall prime qs -> prime n.
Proof.
  intros n a qs H P. unfold pock_check in H. rewrite !andb_true_iff in H.
  destruct H as ((((H1 & H2) & H3) & H4) & H5). apply Z.ltb_lt in H1, H5. apply Z.eqb_eq in H2.
  rewrite powmod_spec in H2 by lia. rewrite forallb_forall in H3.
  destruct (prime_divisor n H1) as (d & Hd & Dd & [Pn|Sq]); [exact Pn|exfalso].
  pose proof (prime_ge_2 d Hd) as D2.
  assert (F : (zprod qs | d - 1)).
  { apply prod_divides; [exact H4|]. apply Forall_forall. intros q Hq. specialize (H3 q Hq).
    rewrite !andb_true_iff in H3. destruct H3 as (((A1 & A2) & A3) & A4). apply Z.ltb_lt in A1, A3. apply Z.eqb_eq in A2, A4.
    rewrite powmod_spec in A4 by lia. rewrite Forall_forall in P.
    apply (pocklington_step n a q ((n - 1) / q) d); auto.
    pose proof (Z.div_mod (n - 1) q ltac:(lia)). lia. }
  assert (zprod qs <= d - 1) by (apply Z.divide_pos_le; [lia|exact F]).
  assert (0 < zprod qs).
  { assert (0 <> zprod qs) by (intro X; rewrite <- X in H5; lia). destruct F as [k F].
    destruct (Z.le_gt_cases 0 (zprod qs)); [lia|].
    assert (G : forall l, Forall prime l -> 0 < zprod l).
    { clear. induction l as [|x l IH]; intro F; [reflexivity|]. cbn [zprod fold_right]. fold (zprod l).
      pose proof (prime_ge_2 x (Forall_inv F)). specialize (IH (Forall_inv_tail F)). nia. }
    apply G. exact P. }
  nia.
Qed.

(** Trial division, for the small primes at the bottom of the certificates. *)
Fixpoint no_div (k : nat) (d n : Z) : bool :=
  match k with
  | O => true
  | S k => negb (n mod d =? 0) && no_div k (d + 1) n
  end.
Definition trial_check (n : Z) : bool :=
  (1 <? n) && (let s := Z.sqrt n in no_div (Z.to_nat (s - 1)) 2 n).

Lemma no_div_spec : forall k d n, no_div k d n = true -> forall x, d <= x < d + Z.of_nat k -> n mod x <> 0.
Proof.
  induction k as [|k IH]; intros d n H x Hx; [lia|]. cbn [no_div] in H. apply andb_true_iff in H. destruct H as [H1 H2].
  destruct (Z.eq_dec x d) as [->|N].
  - apply negb_true_iff, Z.eqb_neq in H1. exact H1.
  - apply (IH (d + 1) n H2). lia.
Qed.

Theorem trial : forall n, trial_check n = true -> prime n.
Proof.
  intros n H. unfold trial_check in H. apply andb_true_iff in H. destruct H as [H1 H2]. apply Z.ltb_lt in H1.
  destruct (prime_divisor n H1) as (d & Hd & Dd & [P|S]); [exact P|exfalso].
  pose proof (prime_ge_2 d Hd). apply (no_div_spec _ _ _ H2 d).
  - pose proof (Z.sqrt_le_square n d ltac:(lia) ltac:(lia)) as Q. apply Q in S. lia.
  - apply Z.mod_divide; [lia|exact Dd].
Qed.
