(** C85, C86: what a signature together with its nonce gives away, and how far a pair (r, s) and a
    message determine each other. *)
From Coq Require Import ZArith Znumtheory List Lia Bool.
From Verif Require Import GoBase BeMin FpField GoElliptic Sm3Spec Sm3 Sm3Main PropsSm3.
From Verif Require Import Primes Sm2Primes WeiGroup Sm2Group Sm2Order Sm2Spec Sm2 Sm2Proofs Sm2Proofs2 PropsCurve PropsSm2.
Import ListNotations.
Open Scope Z_scope.

(** * C85: nonces *)
Lemma modn_eq : forall a b, a mod sm2n = b mod sm2n <-> (sm2n | a - b).
Proof.
  intros a b. assert (HN : sm2n <> 0) by discriminate. split; intros H.
  - apply (Z.mod_divide _ _ HN). rewrite Zminus_mod, H, Z.sub_diag. reflexivity.
  - apply (Z.mod_divide _ _ HN) in H. replace a with (b + (a - b)) by lia. rewrite Zplus_mod, H, Z.add_0_r, Z.mod_mod by exact HN. reflexivity.
Qed.
Lemma small_multiple : forall n a, 0 < n -> (n | a) -> - n < a < n -> a = 0.
Proof.
  intros n a Hn [q ->] H. destruct (Z_lt_le_dec q 0); [nia|]. destruct (Z_lt_le_dec 0 q); nia.
Qed.
Lemma modn_small : forall a, (sm2n | a) -> - sm2n < a < sm2n -> a = 0.
Proof. intros a. apply small_multiple. reflexivity. Qed.
(** A linear equation modulo the prime N with a coefficient that is not zero has one solution. *)
Lemma linear_unique : forall c v d D, (sm2n | D * c - v) -> ~ (sm2n | c) -> 0 <= d < sm2n ->
  ((d * c) mod sm2n = v mod sm2n <-> d = D mod sm2n).
Proof.
  intros c v d D HD HC Hd. pose proof sm2n_pos as HP. pose proof (modn_range D) as RD.
  assert (DD : (sm2n | D - D mod sm2n)).
  { exists (D / sm2n). pose proof (Z.div_mod D sm2n ltac:(lia)). lia. }
  rewrite modn_eq. split.
  - intros H. assert (K : (sm2n | (d - D mod sm2n) * c)).
    { replace ((d - D mod sm2n) * c) with ((d * c - v) - (D * c - v) + (D - D mod sm2n) * c) by ring.
      apply Z.divide_add_r; [apply Z.divide_sub_r; assumption|apply Z.divide_mul_l; exact DD]. }
    apply (prime_mult _ sm2n_prime) in K. destruct K as [K|K]; [|contradiction]. apply modn_small in K; lia.
  - intros ->. replace (D mod sm2n * c - v) with ((D * c - v) - (D - D mod sm2n) * c) by ring.
    apply Z.divide_sub_r; [exact HD|apply Z.divide_mul_l; exact DD].
Qed.
Lemma signature_linear : forall d e k r s, 1 <= k < sm2n -> signature d e k r s ->
  (sm2n | d * (r + s) - (k - s)) /\ ~ (sm2n | r + s).
Proof.
  intros d e k r s Hk (ER & R0 & RK & SR & EQ). apply modn_eq in EQ. pose proof (modn_range (e + xc (pmul k G))) as RR. rewrite <- ER in RR.
  assert (H1 : (sm2n | d * (r + s) - (k - s))) by (replace (d * (r + s) - (k - s)) with ((1 + d) * s - (k - r * d)) by ring; exact EQ).
  split; [exact H1|]. intros H2. assert (H3 : (sm2n | k - s)).
  { replace (k - s) with (d * (r + s) - (d * (r + s) - (k - s))) by ring. apply Z.divide_sub_r; [apply Z.divide_mul_r; exact H2|exact H1]. }
  assert (k = s) by (apply modn_small in H3; lia). subst s. destruct H2 as [q H2].
  assert (q = 0 \/ q = 1 \/ q < 0 \/ 1 < q) as [->|[->|[Q|Q]]] by lia; nia.
Qed.

(** From a signature and the nonce that was drawn for it, the private scalar follows (modulo N). *)
Theorem C85_nonce_gives_key : forall priv id m tape r s rest, 0 <= D priv -> good_id id -> good_msg m -> bytes tape ->
  SignToRS priv id m tape = Ret (OK (r, s), rest) ->
  exists k, In (k, rest) (nonces tape) /\
    forall d, 0 <= d < curveN -> ((d * (r + s)) mod curveN = (k - s) mod curveN <-> d = D priv mod curveN).
Proof.
  intros priv id m tape r s rest Hd Hid Hm HB E. rewrite curveN_eq.
  destruct (SignToRS_ok priv id m tape Hd Hid Hm HB) as [(k & rest' & pre & post & r' & s' & E' & S & R & N & F)|(er & _ & E' & _)];
    rewrite E' in E; [|discriminate]. injection E as <- <- <-.
  exists k. split; [rewrite N; apply in_elt|]. destruct (signature_linear _ _ _ _ _ R S) as [H1 H2].
  intros d Rd. apply linear_unique; assumption.
Qed.

(** A nonce is known from the tape before and after it was drawn. *)
Lemma nonce_from_tape : forall tape k k' rest, In (k, rest) (nonces tape) -> In (k', rest) (nonces tape) -> k = k'.
Proof.
  intros tape k k' rest H H'. rewrite C43_nonces_are_blocks in H, H'. apply in_map_iff in H, H'.
  destruct H as (i & E & I1). destruct H' as (j & E' & I2). apply pair_equal_spec in E, E'. destruct E as [<- E]. destruct E' as [<- E'].
  apply filter_In in I1, I2. destruct I1 as [I1 _]. destruct I2 as [I2 _]. apply in_seq in I1, I2.
  assert (LI : (32 * (List.length tape / 32) <= List.length tape)%nat) by (apply Nat.mul_div_le; lia).
  assert (i = j) as ->; [|reflexivity].
  rewrite <- E' in E. apply (f_equal (@List.length Z)) in E. rewrite !skipn_length in E. lia.
Qed.
(** Two different signatures made from the same random bytes give the private scalar to everybody. *)
Theorem C85_nonce_reuse : forall priv id1 m1 id2 m2 tape r1 s1 r2 s2 rest, 0 <= D priv -> good_id id1 -> good_id id2 ->
  good_msg m1 -> good_msg m2 -> bytes tape ->
  SignToRS priv id1 m1 tape = Ret (OK (r1, s1), rest) -> SignToRS priv id2 m2 tape = Ret (OK (r2, s2), rest) -> (r1, s1) <> (r2, s2) ->
  forall d, 0 <= d < curveN -> ((d * (r1 + s1 - r2 - s2)) mod curveN = (s2 - s1) mod curveN <-> d = D priv mod curveN).
Proof.
  intros priv id1 m1 id2 m2 tape r1 s1 r2 s2 rest Hd Hi1 Hi2 Hm1 Hm2 HB E1 E2 NE. rewrite curveN_eq.
  destruct (SignToRS_ok priv id1 m1 tape Hd Hi1 Hm1 HB) as [(k & rest' & pre & post & r' & s' & E' & S & R & N & F)|(er & _ & E' & _)];
    rewrite E' in E1; [|discriminate]. injection E1 as <- <- <-.
  destruct (SignToRS_ok priv id2 m2 tape Hd Hi2 Hm2 HB) as [(k2 & rest2 & pre2 & post2 & r'' & s'' & E'' & S2 & R2 & N2 & F2)|(er & _ & E'' & _)];
    rewrite E'' in E2; [|discriminate]. injection E2 as <- <- ->.
  assert (k2 = k) as ->.
  { apply (nonce_from_tape tape k2 k rest'); [rewrite N2|rewrite N]; apply in_elt. }
  destruct (signature_linear _ _ _ _ _ R S) as [H1 H2]. destruct (signature_linear _ _ _ _ _ R S2) as [H3 H4].
  intros d Rd. apply linear_unique; [| |exact Rd].
  - replace (D priv * (r' + s' - r'' - s'') - (s'' - s')) with ((D priv * (r' + s') - (k - s')) - (D priv * (r'' + s'') - (k - s''))) by ring.
    apply Z.divide_sub_r; assumption.
  - intros H5. apply NE.
    assert (H6 : (sm2n | s'' - s')).
    { replace (s'' - s') with (D priv * (r' + s' - r'' - s'') - ((D priv * (r' + s') - (k - s')) - (D priv * (r'' + s'') - (k - s'')))) by ring.
      apply Z.divide_sub_r; [apply Z.divide_mul_r; exact H5|apply Z.divide_sub_r; assumption]. }
    destruct S as (ER & _ & _ & SR & _). destruct S2 as (ER2 & _ & _ & SR2 & _).
    assert (s'' = s') as -> by (apply modn_small in H6; lia).
    pose proof (modn_range (sig_e (D priv) id1 m1 + xc (pmul k G))) as Q1. pose proof (modn_range (sig_e (D priv) id2 m2 + xc (pmul k G))) as Q2.
    rewrite <- ER in Q1. rewrite <- ER2 in Q2. f_equal. apply modn_small in H5; lia.
Qed.
(** The two signatures are different as soon as the two hash values differ modulo N. *)
Theorem C85_different : forall priv id1 m1 id2 m2 tape r1 s1 r2 s2 rest, 0 <= D priv -> good_id id1 -> good_id id2 ->
  good_msg m1 -> good_msg m2 -> bytes tape ->
  SignToRS priv id1 m1 tape = Ret (OK (r1, s1), rest) -> SignToRS priv id2 m2 tape = Ret (OK (r2, s2), rest) ->
  sig_e (D priv) id1 m1 mod curveN <> sig_e (D priv) id2 m2 mod curveN -> r1 <> r2.
Proof.
  intros priv id1 m1 id2 m2 tape r1 s1 r2 s2 rest Hd Hi1 Hi2 Hm1 Hm2 HB E1 E2 NE. rewrite curveN_eq in NE.
  destruct (SignToRS_ok priv id1 m1 tape Hd Hi1 Hm1 HB) as [(k & rest' & pre & post & r' & s' & E' & S & R & N & F)|(er & _ & E' & _)];
    rewrite E' in E1; [|discriminate]. injection E1 as <- <- <-.
  destruct (SignToRS_ok priv id2 m2 tape Hd Hi2 Hm2 HB) as [(k2 & rest2 & pre2 & post2 & r'' & s'' & E'' & S2 & R2 & N2 & F2)|(er & _ & E'' & _)];
    rewrite E'' in E2; [|discriminate]. injection E2 as <- <- ->.
  assert (k2 = k) as ->.
  { apply (nonce_from_tape tape k2 k rest'); [rewrite N2|rewrite N]; apply in_elt. }
  destruct S as (-> & _). destruct S2 as (-> & _). intros H. apply NE. apply modn_eq in H. apply modn_eq.
  replace (sig_e (D priv) id1 m1 - sig_e (D priv) id2 m2) with (sig_e (D priv) id1 m1 + xc (pmul k G) - (sig_e (D priv) id2 m2 + xc (pmul k G))) by ring. exact H.
Qed.

(** * C86: signatures, messages and verification *)

(** A pair (r, s) is accepted for one hash value (modulo N) only. *)
Theorem C86_one_digest : forall pub id1 m1 id2 m2 r s,
  0 <= X pub < 2 ^ 256 -> 0 <= Y pub < 2 ^ 256 -> IsOnCurve curveP curveB (X pub) (Y pub) = true ->
  good_id id1 -> good_msg m1 -> good_id id2 -> good_msg m2 ->
  VerifyByRS pub id1 m1 r s = Ret true -> VerifyByRS pub id2 m2 r s = Ret true ->
  msg_e (effective_id id1) (X pub) (Y pub) m1 mod curveN = msg_e (effective_id id2) (X pub) (Y pub) m2 mod curveN.
Proof.
  intros pub id1 m1 id2 m2 r s HX HY On Hi1 Hm1 Hi2 Hm2 E1 E2. rewrite curveN_eq.
  destruct (C46_verify_iff_equation pub id1 m1 r s HX HY On Hi1 Hm1) as (b & B1 & I1). rewrite E1 in B1. injection B1 as <-.
  destruct (C46_verify_iff_equation pub id2 m2 r s HX HY On Hi2 Hm2) as (b & B2 & I2). rewrite E2 in B2. injection B2 as <-.
  destruct (proj1 I1 eq_refl) as (_ & _ & _ & _ & V1). destruct (proj1 I2 eq_refl) as (_ & _ & _ & _ & V2).
  set (x := xc _) in V1, V2. rewrite <- V2 in V1. apply modn_eq in V1. apply modn_eq.
  match type of V1 with (_ | ?a + x - (?b + x)) => replace (a - b) with (a + x - (b + x)) by ring end. exact V1.
Qed.

(** The point that verification computes for a key made from d. *)
Definition vpoint (d r s : Z) : point := padd (pmul s G) (pmul ((r + s) mod sm2n) (pmul d G)).
Lemma vpoint_mul : forall d r s, 0 <= d -> 0 <= s -> vpoint d r s = pmul (s + (r + s) mod sm2n * d) G.
Proof.
  intros d r s Hd Hs. unfold vpoint. pose proof (modn_range (r + s)). rewrite <- pmul_mul by (try apply G_on; lia).
  rewrite pmul_add by (try apply G_on; nia). reflexivity.
Qed.
Lemma vpoint_on : forall d r s, on_curve (vpoint d r s).
Proof. intros. apply padd_on; [|apply pmul_on]; apply pmul_on, G_on. Qed.
Lemma vpoint_inj : forall d r s s', 0 <= d -> 1 <= s < sm2n -> 1 <= s' < sm2n -> (1 + d) mod sm2n <> 0 ->
  vpoint d r s = vpoint d r s' -> s = s'.
Proof.
  intros d r s s' Hd Hs Hs' ND H. rewrite !vpoint_mul in H by lia. pose proof (modn_range (r + s)) as R1. pose proof (modn_range (r + s')) as R2.
  apply G_mul_inj in H; [|nia|nia]. apply modn_eq in H.
  assert (K : (sm2n | (1 + d) * (s - s'))).
  { assert (M : forall a, (sm2n | a - a mod sm2n)) by (intros a; exists (a / sm2n); pose proof (Z.div_mod a sm2n ltac:(discriminate)); lia).
    replace ((1 + d) * (s - s')) with ((s + (r + s) mod sm2n * d - (s' + (r + s') mod sm2n * d)) + d * ((r + s) - (r + s) mod sm2n) - d * ((r + s') - (r + s') mod sm2n)) by ring.
    apply Z.divide_sub_r; [apply Z.divide_add_r; [exact H|]|]; apply Z.divide_mul_r, M. }
  apply (prime_mult _ sm2n_prime) in K. destruct K as [K|K].
  - exfalso. apply ND. apply Z.mod_divide; [discriminate|exact K].
  - apply modn_small in K; lia.
Qed.
(** Three points with the same x-coordinate are not different from each other. *)
Lemma three_points : forall P Q R, on_curve P -> on_curve Q -> on_curve R -> P <> O -> Q <> O -> R <> O ->
  xc P = xc Q -> xc P = xc R -> P = Q \/ P = R \/ Q = R.
Proof.
  assert (SX : forall P Q, on_curve P -> on_curve Q -> P <> O -> Q <> O -> xc P = xc Q ->
    exists x y y', P = A x y /\ Q = A x y' /\ (y = y' \/ (y + y')%K = k0)).
  { intros P Q HP HQ NP NQ E. destruct P as [|x y]; [exfalso; apply NP; reflexivity|]. destruct Q as [|x' y']; [exfalso; apply NQ; reflexivity|]. unfold xc in E. cbn [enc fst] in E.
    assert (x = x') as <- by (rewrite <- (kf_fv x), <- (kf_fv x'), E; reflexivity).
    exists x, y, y'. split; [reflexivity|]. split; [reflexivity|]. exact (same_x_cases x y y' HP HQ). }
  intros P Q R HP HQ HR NP NQ NR E1 E2.
  destruct (SX P Q HP HQ NP NQ E1) as (x & y & y' & EP & EQ & C1). destruct (SX P R HP HR NP NR E2) as (x2 & y2 & y3 & EP2 & ER & C2).
  rewrite EP in EP2. injection EP2 as <- <-. subst P Q R.
  destruct C1 as [->|C1]; [auto|]. destruct C2 as [->|C2]; [auto|]. right. right. f_equal. apply ksub_z.
  replace (y' - y3)%K with ((y + y') - (y + y3))%K by ring. rewrite C1, C2. ring.
Qed.
Lemma at_most_two : forall (l : list Z) (P : Z -> Prop), NoDup l -> (forall s, In s l -> P s) ->
  (forall a b c, P a -> P b -> P c -> a = b \/ a = c \/ b = c) -> (List.length l <= 2)%nat.
Proof.
  intros l P ND HP H3. destruct l as [|a [|b [|c l]]]; cbn [List.length]; try lia. exfalso.
  inversion ND as [|? ? Ha ND1]; subst. inversion ND1 as [|? ? Hb _]; subst.
  destruct (H3 a b c) as [E|[E|E]]; try (apply HP; cbn; auto); subst; cbn in *; tauto.
Qed.
Lemma filter_length : forall (f : Z -> bool) l, List.length l = (List.length (filter f l) + List.length (filter (fun x => negb (f x)) l))%nat.
Proof. intros f l. induction l as [|a l IH]; [reflexivity|]. cbn [filter List.length]. destruct (f a); cbn [negb List.length]; lia. Qed.
Lemma mod_same : forall n a b, 0 < n -> 0 <= a < n -> 0 <= b < n -> (n | a - b) -> a = b.
Proof. intros n a b Hn Ha Hb H. apply small_multiple in H; lia. Qed.
Lemma verifies_few : forall d e r l, 0 <= d -> (1 + d) mod sm2n <> 0 -> NoDup l -> Forall (verifies (pmul d G) e r) l -> (List.length l <= 4)%nat.
Proof.
  intros d e r l Hd ND HN HV. rewrite Forall_forall in HV.
  set (low := fun s => xc (vpoint d r s) <? sm2n). rewrite (filter_length low l).
  assert (T : forall b (f : Z -> bool), (forall s, f s = true -> low s = b) -> (List.length (filter f l) <= 2)%nat).
  { intros b f Hf. apply (at_most_two _ (fun s => verifies (pmul d G) e r s /\ low s = b)).
    - apply NoDup_filter. exact HN.
    - intros s Hs. apply filter_In in Hs. split; [apply HV, Hs|apply Hf, Hs].
    - assert (SX : forall s s', verifies (pmul d G) e r s -> verifies (pmul d G) e r s' -> low s = b -> low s' = b -> xc (vpoint d r s) = xc (vpoint d r s')).
      { intros s s' (_ & _ & _ & _ & V) (_ & _ & _ & _ & V') L L'. fold (vpoint d r s) in V. fold (vpoint d r s') in V'.
        pose proof (eq_trans V (eq_sym V')) as VV. apply modn_eq in VV. unfold low in L, L'. pose proof (enc_range (vpoint d r s)) as [R1 _]. pose proof (enc_range (vpoint d r s')) as [R2 _].
        fold (xc (vpoint d r s)) in R1. fold (xc (vpoint d r s')) in R2. set (x := xc (vpoint d r s)) in *. set (x' := xc (vpoint d r s')) in *.
        assert (DV : (sm2n | x - x')) by (replace (x - x') with (e + x - (e + x')) by ring; exact VV).
        assert (PN : sm2p < 2 * sm2n) by reflexivity.
        destruct b.
        - apply Z.ltb_lt in L, L'. apply (mod_same sm2n); [reflexivity|lia|lia|exact DV].
        - apply Z.ltb_ge in L, L'. assert (x - sm2n = x' - sm2n); [|lia]. apply (mod_same sm2n); [reflexivity|lia|lia|].
          replace (x - sm2n - (x' - sm2n)) with (x - x') by ring. exact DV. }
      intros a b' c [Va La] [Vb Lb] [Vc Lc]. pose proof (SX a b' Va Vb La Lb) as X1. pose proof (SX a c Va Vc La Lc) as X2.
      destruct Va as (_ & Sa & _ & Qa & _). destruct Vb as (_ & Sb & _ & Qb & _). destruct Vc as (_ & Sc & _ & Qc & _).
      destruct (three_points (vpoint d r a) (vpoint d r b') (vpoint d r c)) as [H|[H|H]]; try apply vpoint_on; try assumption;
        [left|right; left|right; right]; apply (vpoint_inj d r); assumption. }
  pose proof (T true low ltac:(auto)). pose proof (T false (fun s => negb (low s)) (fun s Hs => proj1 (negb_true_iff (low s)) Hs)). lia.
Qed.
Lemma pub_point : forall priv pub, 0 <= D priv -> CalculatePubKey priv = Ret pub -> 0 <= X pub < 2 ^ 256 /\ 0 <= Y pub < 2 ^ 256 /\ dec (X pub) (Y pub) = pmul (D priv) G.
Proof.
  intros priv pub Hd HP. unfold CalculatePubKey in HP. rewrite base_mult_z in HP by exact Hd. cbn [bind] in HP. injection HP as <-. cbn [X Y].
  split; [apply xc_range|]. split; [apply yc_range|]. apply dec_coords, pmul_on, G_on.
Qed.
(** For a key made from a scalar other than -1, at most four values of s go with a message and r. *)
Theorem C86_few_s : forall priv pub id m r l, 0 <= D priv -> (1 + D priv) mod curveN <> 0 -> CalculatePubKey priv = Ret pub ->
  good_id id -> good_msg m -> NoDup l -> Forall (fun s => VerifyByRS pub id m r s = Ret true) l -> (List.length l <= 4)%nat.
Proof.
  intros priv pub id m r l Hd N1 HP Hi Hm ND HV. rewrite curveN_eq in N1. destruct (pub_point priv pub Hd HP) as (RX & RY & DP).
  apply (verifies_few (D priv) (msg_e (effective_id id) (X pub) (Y pub) m) r l Hd N1 ND). apply Forall_forall. intros s Hs. rewrite Forall_forall in HV.
  destruct (VerifyByRS_ok pub id m r s RX RY ltac:(rewrite DP; apply pmul_on, G_on) Hi Hm) as (b & B & I). rewrite (HV s Hs) in B. injection B as <-.
  rewrite DP in I. apply I. reflexivity.
Qed.
(** For the key of the scalar -1, s plays no part. *)
Theorem C86_any_s : forall priv pub id m r s s', 0 <= D priv -> (1 + D priv) mod curveN = 0 -> CalculatePubKey priv = Ret pub ->
  good_id id -> good_msg m -> 1 <= s < curveN -> (r + s) mod curveN <> 0 -> 1 <= s' < curveN -> (r + s') mod curveN <> 0 ->
  VerifyByRS pub id m r s = VerifyByRS pub id m r s'.
Proof.
  intros priv pub id m r s s' Hd N1 HP Hi Hm Hs NR Hs' NR'. rewrite curveN_eq in *. destruct (pub_point priv pub Hd HP) as (RX & RY & DP).
  assert (ON : on_curve (dec (X pub) (Y pub))) by (rewrite DP; apply pmul_on, G_on).
  assert (E : vpoint (D priv) r s' = vpoint (D priv) r s).
  { rewrite !vpoint_mul by lia. pose proof (modn_range (r + s)) as R1. pose proof (modn_range (r + s')) as R2.
    apply (pmul_cong sm2n); [exact G_on|reflexivity|nia|nia|exact G_order|]. apply modn_eq.
    assert (M : forall a, (sm2n | a - a mod sm2n)) by (intros a; exists (a / sm2n); pose proof (Z.div_mod a sm2n ltac:(discriminate)); lia).
    replace (s' + (r + s') mod sm2n * D priv - (s + (r + s) mod sm2n * D priv))
      with ((1 + D priv) * (s' - s) - D priv * ((r + s') - (r + s') mod sm2n) + D priv * ((r + s) - (r + s) mod sm2n)) by ring.
    apply Z.divide_add_r; [apply Z.divide_sub_r; [|apply Z.divide_mul_r, M]|apply Z.divide_mul_r, M].
    apply Z.divide_mul_l. apply Z.mod_divide; [discriminate|exact N1]. }
  destruct (VerifyByRS_ok pub id m r s RX RY ON Hi Hm) as (b & B & I).
  destruct (VerifyByRS_ok pub id m r s' RX RY ON Hi Hm) as (b' & B' & I'). rewrite B, B'. f_equal. rewrite DP in I, I'.
  apply eq_true_iff_eq. rewrite I, I'. unfold verifies. fold (vpoint (D priv) r s'). fold (vpoint (D priv) r s). cbv zeta. rewrite E. intuition.
Qed.

(** D = 1 signs the messages "abc" and "abd" from the same random bytes (nonce 1). *)
Definition ex_msg2 : list Z := [0x61; 0x62; 0x64].
Lemma ex_msg2_good : good_msg ex_msg2.
Proof. split; [repeat constructor; unfold byte; lia|]. split; [discriminate|reflexivity]. Qed.
Definition ex_sig : Z * Z :=
  (0x1527cca3ee51d58406681400fbde52e50a5f22b14d7ba4564202697caafdaf39,
   0xf56c19ad08d7153dfccbf5ff8210d68cecd44e127b08330032babf4ae4566987).
Definition ex_sig2 : Z * Z :=
  (0x2161b32faa2033fcf385d4bc2732de681e972048e0416efb79b9d2f989f15b32,
   0x6f4f2667aaefe601863d15a1ec6690cba9b65f9120c24b17ed011087d7f1f2f9).
Example C85_ex_sign : SignToRS ex_priv None ex_msg ex_tape = Ret (OK ex_sig, []) /\ SignToRS ex_priv None ex_msg2 ex_tape = Ret (OK ex_sig2, []) /\ ex_sig <> ex_sig2.
Proof. split; [vm_compute; reflexivity|]. split; [vm_compute; reflexivity|discriminate]. Qed.
Example C85_ex : (1 * (fst ex_sig + snd ex_sig)) mod curveN = (1 - snd ex_sig) mod curveN /\
  (1 * (fst ex_sig + snd ex_sig - fst ex_sig2 - snd ex_sig2)) mod curveN = (snd ex_sig2 - snd ex_sig) mod curveN.
Proof. vm_compute. auto. Qed.
Example C86_ex : VerifyByRS (mkPub curveGx curveGy) None ex_msg (fst ex_sig) (snd ex_sig) = Ret true /\ (1 + D ex_priv) mod curveN <> 0.
Proof.
  split; [|vm_compute; discriminate].
  apply (C44_signatures_verify ex_priv (mkPub curveGx curveGy) None ex_msg ex_tape (fst ex_sig) (snd ex_sig) []); [cbn; lia|exact I|exact ex_msg_good|exact ex_tape_bytes| |].
  - vm_compute. reflexivity.
  - exact (proj1 C85_ex_sign).
Qed.
Example C86_any_ex : 0 <= D (mkPriv (curveN - 1)) /\ (1 + D (mkPriv (curveN - 1))) mod curveN = 0 /\ (5 + 7) mod curveN <> 0 /\ (5 + 8) mod curveN <> 0.
Proof. vm_compute. repeat split; discriminate. Qed.
