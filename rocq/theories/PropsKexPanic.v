(** Property C120: between which keys the key exchange panics, and the peers that always make it panic
    (sm2/keyexchange.go:28-43, 103-144). *)
From Coq Require Import ZArith Znumtheory List Lia Bool String.
From Verif Require Import GoBase BeMin CbStringProofs FpField GoElliptic Sm3Spec Sm3 Sm3Proofs Sm3Main PropsSm3.
From Verif Require Import Primes Sm2Primes WeiGroup Sm2Group Sm2Order Sm2Spec Sm2 Sm2Proofs Sm2Proofs2 PropsCurve KexSpec KeyExchange KexCert PropsKex Sm2Cyclic PropsSm2Full.
Import ListNotations.
Open Scope Z_scope.

(** * No point has y = 0 *)
Lemma no_y0 : forall P, on_curve P -> (yc P = 0 <-> P = O).
Proof.
  intros P On. split; [|intros ->; reflexivity]. intro H. destruct P as [|u v]; [reflexivity|]. exfalso.
  change (yc (Aff K u v)) with (fv sm2p v) in H. assert (V : v = k0) by (rewrite <- (kf_fv v), H; reflexivity).
  assert (N : Aff K u v <> O) by discriminate.
  assert (E : pmul 2 (Aff K u v) = O).
  { change 2 with (1 + 1). rewrite pmul_add by (try exact On; lia). rewrite !pmul_1. apply padd_opp. rewrite V. ring. }
  apply (point_order _ 2 On N ltac:(lia)) in E. destruct E as [q E]. pose proof (Z.divide_pos_le sm2n 2 ltac:(lia) (ex_intro _ q E)) as L. revert L. vm_compute. intro L. apply L. reflexivity.
Qed.
Lemma x0_y : forall P, on_curve P -> (xc P <> 0 /\ yc P <> 0 <-> xc P <> 0).
Proof. intros P On. split; [tauto|]. intro H. split; [exact H|]. intro Y. apply no_y0 in Y; [|exact On]. subst P. apply H. reflexivity. Qed.

(** * When the shared point is infinity *)

(** A static and an ephemeral key whose combination P + xbar(R) R is infinity. *)
Definition cancels (P R : PublicKey) : Prop := padd (dec (X P) (Y P)) (pmul (xbar (X R)) (dec (X R) (Y R))) = O.

Lemma xbar_pos : forall v, 2 ^ 127 <= xbar v < 2 ^ 128.
Proof. intro v. unfold xbar. pose proof (Z.mod_pos_bound v (2 ^ 127) ltac:(lia)). lia. Qed.
Lemma kex_t_pos : forall d r, 0 <= d -> 0 <= r -> 0 <= kex_t d r.
Proof. intros d r Hd Hr. unfold kex_t. pose proof (xbar_pos (xc (pmul r G))). nia. Qed.
Lemma O_iff : forall k, 0 <= k -> (pmul k G = O <-> (sm2n | k)).
Proof. intros k H. apply point_order; [exact G_on|exact G_fin|exact H]. Qed.
(** The scalars of the peer's keys. *)
Lemma peer : forall P R, valid (X P, Y P) -> valid (X R, Y R) ->
  exists d r, 0 <= d < sm2n /\ 0 <= r < sm2n /\ dec (X P) (Y P) = pmul d G /\ dec (X R) (Y R) = pmul r G /\ X R = xc (pmul r G) /\
    (cancels P R <-> (sm2n | kex_t d r)).
Proof.
  intros P R VP VR. destruct (valid_on _ _ VP) as [OP EP]. destruct (valid_on _ _ VR) as [OR ER].
  destruct (all_multiples _ OP) as (d & Hd & Ed). destruct (all_multiples _ OR) as (r & Hr & Er). exists d, r.
  assert (XR : X R = xc (pmul r G)) by (rewrite <- Er; unfold xc; rewrite ER; reflexivity).
  split; [exact Hd|]. split; [exact Hr|]. split; [exact Ed|]. split; [exact Er|]. split; [exact XR|].
  unfold cancels. rewrite Ed, Er, XR. pose proof (xbar_pos (xc (pmul r G))) as Xp.
  rewrite <- pmul_mul by (try exact G_on; lia). rewrite <- pmul_add by (try exact G_on; nia). fold (kex_t d r). apply O_iff, kex_t_pos; lia.
Qed.
Lemma nonzero_x : forall U R1 R2, on_curve U -> on_curve R1 -> on_curve R2 -> (kex_nonzero U R1 R2 <-> xc U <> 0 /\ xc R1 <> 0 /\ xc R2 <> 0).
Proof.
  intros U R1 R2 O1 O2 O3. unfold kex_nonzero. pose proof (x0_y U O1). pose proof (x0_y R1 O2). pose proof (x0_y R2 O3). tauto.
Qed.

(** With key lengths that the function supports: it panics exactly if one side's keys cancel, or the shared point or an
    ephemeral key has x = 0 (the key (0, 0) included). *)
Theorem C120_when : forall (init : bool) n tag dS dE idS idO P R,
  0 <= D dS -> 0 <= D dE -> valid (X P, Y P) -> valid (X R, Y R) -> good_opt idS -> good_opt idO ->
  -15 < n <= 128 -> init && isNil tag = false ->
  ((exists p, CalculateKeyWithConfirmation init n tag dS dE idS P R idO = Panic p) <->
   (curveN | D dS + xbar (xc (pmul (D dE) G)) * D dE) \/ cancels P R \/
   (exists y, y <> 0 /\ enc (kex_point (kex_t (D dS) (D dE)) (dec (X P) (Y P)) (dec (X R) (Y R))) = (0, y)) \/
   xc (pmul (D dE) G) = 0 \/ X R = 0).
Proof.
  intros init n tag dS dE idS idO P R HS HE VP VR G1 G2 Hn NT. destruct (C60_exact init n tag dS dE idS idO P R HS HE VP VR G1 G2 ltac:(lia) NT) as [H1 H2].
  destruct (peer P R VP VR) as (d & r & Hd & Hr & Ed & Er & XR & C). rewrite C. clear C. rewrite curveN_eq. fold (kex_t (D dS) (D dE)).
  cbv zeta in H1, H2. rewrite Ed, Er in H1, H2 |- *. rewrite XR. rewrite kex_shared in H1, H2 |- * by lia. set (tA := kex_t (D dS) (D dE)) in *. set (tB := kex_t d r) in *.
  assert (TA : 0 <= tA) by (apply kex_t_pos; lia). assert (TB : 0 <= tB) by (apply kex_t_pos; lia).
  assert (OU : on_curve (pmul (tA * tB) G)) by apply pmul_on, G_on.
  set (R1 := if init then pmul (D dE) G else pmul r G) in *. set (R2 := if init then pmul r G else pmul (D dE) G) in *.
  assert (O1 : on_curve R1) by (unfold R1; destruct init; apply pmul_on, G_on). assert (O2 : on_curve R2) by (unfold R2; destruct init; apply pmul_on, G_on).
  rewrite (nonzero_x _ _ _ OU O1 O2) in H1, H2.
  assert (X12 : xc R1 <> 0 /\ xc R2 <> 0 <-> xc (pmul (D dE) G) <> 0 /\ xc (pmul r G) <> 0) by (unfold R1, R2; destruct init; tauto).
  assert (XU : xc (pmul (tA * tB) G) = 0 <-> (sm2n | tA) \/ (sm2n | tB) \/ exists y, y <> 0 /\ enc (pmul (tA * tB) G) = (0, y)).
  { split.
    - intro H. destruct (Z.eq_dec (yc (pmul (tA * tB) G)) 0) as [Y|Y].
      + apply no_y0 in Y; [|exact OU]. apply O_iff in Y; [|nia]. apply (prime_mult _ sm2n_prime) in Y. destruct Y as [Y|Y]; [left; exact Y|right; left; exact Y].
      + right. right. exists (yc (pmul (tA * tB) G)). split; [exact Y|]. rewrite enc_xy, H. reflexivity.
    - intros [H|[H|(y & _ & H)]].
      + rewrite (proj2 (O_iff (tA * tB) ltac:(nia))); [reflexivity|]. apply Z.divide_mul_l, H.
      + rewrite (proj2 (O_iff (tA * tB) ltac:(nia))); [reflexivity|]. apply Z.divide_mul_r, H.
      + unfold xc. rewrite H. reflexivity. }
  split.
  - intros [p H]. assert (N : ~ (xc (pmul (tA * tB) G) <> 0 /\ xc (pmul (D dE) G) <> 0 /\ xc (pmul r G) <> 0)).
    { intros (N1 & N2). rewrite H1 in H; [destruct init; discriminate H|tauto]. }
    clear H1 H2 H X12. destruct XU as [XU _]. revert XU N. generalize (xc (pmul (tA * tB) G)) (xc (pmul (D dE) G)) (xc (pmul r G)). intros a b c XU N.
    destruct (Z.eq_dec a 0) as [E|E]; [specialize (XU E); tauto|].
    destruct (Z.eq_dec b 0) as [E'|E']; [tauto|]. destruct (Z.eq_dec c 0) as [E2|E2]; tauto.
  - intro H. apply H2. intros [(N1 & N2) _]. clear H1 H2. pose proof (proj1 X12 N2) as N3. destruct XU as [_ XU]. clear X12. tauto.
Qed.

(** * Peers that make every call panic *)

Lemma G2_x : xc (pmul 2 G) <> 0.
Proof.
  assert (E : padd G G = pmul 2 G) by (change 2 with (1 + 1); rewrite pmul_add by (try exact G_on; lia); rewrite !pmul_1; reflexivity).
  rewrite <- E. pose proof (Double_spec sm2gx sm2gy) as DS. rewrite dec_A in DS by exact G_on. fold G in DS.
  unfold xc. intro H. assert (Q : match Double sm2p sm2gx sm2gy with Ret (x, _) => x | _ => 0 end = 0) by (rewrite DS; destruct (enc (padd G G)) as [x y]; exact H).
  revert Q. vm_compute. discriminate.
Qed.
Lemma G1_x : xc (pmul 1 G) <> 0.
Proof. rewrite pmul_1, (proj1 G_xc). discriminate. Qed.

(** Every peer key pair with which no caller at all gets a result: x = 0, or the two keys cancel. *)
Theorem C120_poison : forall (init : bool) n tag P R, valid (X P, Y P) -> valid (X R, Y R) -> -15 < n <= 128 -> init && isNil tag = false ->
  ((forall dS dE idS idO, 1 <= D dS < curveN -> 1 <= D dE < curveN -> good_opt idS -> good_opt idO ->
      exists p, CalculateKeyWithConfirmation init n tag dS dE idS P R idO = Panic p)
   <-> X R = 0 \/ cancels P R).
Proof.
  intros init n tag P R VP VR Hn NT. rewrite curveN_eq. split.
  - intro H. destruct (Z.eq_dec (X R) 0) as [|NX]; [left; assumption|]. right.
    destruct (peer P R VP VR) as (d & r & Hd & Hr & Ed & Er & XR & C). apply C.
    destruct (Zdivide_dec sm2n (kex_t d r)) as [|ND]; [assumption|]. exfalso.
    pose proof sm2n_pos as Np. assert (NM : kex_t d r mod sm2n <> 0) by (rewrite Z.mod_divide by lia; exact ND).
    destruct (ModInverse_some (kex_t d r) sm2n ltac:(reflexivity) (prime_gcd sm2n _ sm2n_prime NM)) as (i & _ & Hi & E).
    set (x := xbar (xc (pmul 1 G))). pose proof (xbar_pos (xc (pmul 1 G))) as Xp. fold x in Xp.
    assert (S : exists s, (s = 1 \/ s = 2) /\ (s * i - x) mod sm2n <> 0).
    { destruct (Z.eq_dec ((1 * i - x) mod sm2n) 0) as [Z1|Z1]; [|exists 1; split; [left; reflexivity|exact Z1]].
      exists 2. split; [right; reflexivity|]. intro Z2. apply Z.mod_divide in Z1, Z2; try lia.
      assert (DI : (sm2n | i)) by (replace i with ((2 * i - x) - (1 * i - x)) by lia; apply Z.divide_sub_r; assumption).
      apply Z.mod_divide in DI; [|lia]. rewrite Z.mul_mod, DI, Z.mul_0_r, Z.mod_0_l in E by lia. discriminate E. }
    destruct S as (s & Hs & NS). set (dS := (s * i - x) mod sm2n) in *. pose proof (Z.mod_pos_bound (s * i - x) sm2n Np) as RS. fold dS in RS.
    specialize (H (mkPriv dS) (mkPriv 1) None None). cbn [D] in H.
    assert (GN : good_opt None) by (split; [constructor|reflexivity]).
    specialize (H ltac:(lia) ltac:(split; [lia|reflexivity]) GN GN).
    apply C120_when in H; try assumption; cbn [D]; try lia. rewrite curveN_eq in H. cbn [D] in H. rewrite Ed, Er, kex_shared in H by lia.
    fold (kex_t dS 1) in H. assert (T1 : kex_t dS 1 = dS + x) by (unfold kex_t; fold x; lia). rewrite T1 in H.
    assert (TM : ((dS + x) * kex_t d r) mod sm2n = s mod sm2n).
    { rewrite Z.mul_mod by lia. unfold dS. rewrite Zplus_mod_idemp_l. replace (s * i - x + x) with (s * i) by lia. rewrite <- Z.mul_mod by lia.
      replace (s * i * kex_t d r) with (s * (kex_t d r * i)) by lia. rewrite Z.mul_mod, E, Z.mul_1_r by lia. apply Z.mod_mod. lia. }
    assert (TP : 0 <= kex_t d r) by (apply kex_t_pos; lia).
    assert (EU : pmul ((dS + x) * kex_t d r) G = pmul s G) by (apply (pmul_cong sm2n); [exact G_on|lia|nia|lia|exact G_order|exact TM]).
    assert (SX : xc (pmul s G) <> 0) by (destruct Hs as [-> | ->]; [apply G1_x|apply G2_x]).
    assert (SN : ~ (sm2n | s)) by (intro DV; apply Z.divide_pos_le in DV; [|lia]; revert DV; destruct Hs as [-> | ->]; vm_compute; intro L; apply L; reflexivity).
    assert (SM : s mod sm2n <> 0) by (rewrite Z.mod_divide by lia; exact SN).
    destruct H as [H|[H|[(y & _ & H)|[H|H]]]].
    + apply SM. rewrite <- TM. apply Z.mod_divide; [lia|]. apply Z.divide_mul_l, H.
    + apply C in H. exact (ND H).
    + rewrite EU in H. apply SX. unfold xc. rewrite H. reflexivity.
    + exact (G1_x H).
    + exact (NX H).
  - intros H dS dE idS idO HS HE G1 G2. apply C120_when; try assumption; try lia. tauto.
Qed.

(** Every ephemeral key has exactly one static key with which it cancels. It is found from the ephemeral key alone, and is
    an ordinary key: whoever knows r knows its private key. *)
Theorem C120_one_static : forall R, valid (X R, Y R) -> (X R, Y R) <> (0, 0) ->
  exists P, valid (X P, Y P) /\ (X P, Y P) <> (0, 0) /\ cancels P R /\ forall P', valid (X P', Y P') -> cancels P' R -> P' = P.
Proof.
  intros R VR NZ. destruct (valid_on _ _ VR) as [OR ER]. set (Q := pneg (pmul (xbar (X R)) (dec (X R) (Y R)))).
  assert (OQ : on_curve Q) by (apply pneg_on, pmul_on, OR). exists (mkPub (xc Q) (yc Q)). cbn [X Y].
  assert (DQ : dec (xc Q) (yc Q) = Q) by (apply dec_enc; exact OQ).
  assert (CQ : cancels (mkPub (xc Q) (yc Q)) R). { unfold cancels. cbn [X Y]. rewrite DQ, padd_comm by (try exact OQ; apply pmul_on, OR). apply padd_neg. }
  assert (NR : dec (X R) (Y R) <> O) by (intro E; rewrite E in ER; apply NZ; symmetry; exact ER).
  split; [rewrite <- enc_xy; apply on_valid, OQ|]. split; [|split; [exact CQ|]].
  - intro E. rewrite <- enc_xy in E. apply (enc_O _ OQ) in E.
    assert (MO : pmul (xbar (X R)) (dec (X R) (Y R)) = O).
    { unfold Q in E. destruct (pmul (xbar (X R)) (dec (X R) (Y R))); [reflexivity|discriminate E]. }
    pose proof (xbar_pos (X R)) as Xp. apply point_order in MO; [|exact OR|exact NR|lia]. apply Z.divide_pos_le in MO; [|lia].
    assert (2 ^ 128 < sm2n) by reflexivity. lia.
  - intros [x y] VP C. cbn [X Y] in VP. destruct (valid_on _ _ VP) as [OP EP]. unfold cancels in C, CQ. cbn [X Y] in C, CQ. rewrite DQ in CQ.
    assert (E : dec x y = Q).
    { set (M := pmul (xbar (X R)) (dec (X R) (Y R))) in *. assert (OM : on_curve M) by (apply pmul_on, OR).
      transitivity (padd (dec x y) (padd M (pneg M))); [rewrite padd_neg, padd_O_r; reflexivity|].
      rewrite <- padd_assoc by (try assumption; apply pneg_on, OM). rewrite C. reflexivity. }
    rewrite E in EP. rewrite enc_xy in EP. congruence.
Qed.
Theorem C120_private_key : forall r R, 1 <= r < curveN -> CalculatePubKey (mkPriv r) = Ret R ->
  let d := (- xbar (X R) * r) mod curveN in
  1 <= d < curveN /\ exists P, CalculatePubKey (mkPriv d) = Ret P /\ valid (X P, Y P) /\ cancels P R.
Proof.
  intros r R Hr ER d. unfold d. clear d. rewrite !curveN_eq in *. rewrite pub_eq in ER by lia. apply ret_inj in ER. subst R. cbn [X Y].
  pose proof sm2n_pos as Np. set (x := xbar (xc (pmul r G))). pose proof (xbar_pos (xc (pmul r G))) as Xp. fold x in Xp.
  set (d := (- x * r) mod sm2n). pose proof (Z.mod_pos_bound (- x * r) sm2n Np) as Rd. fold d in Rd.
  assert (ND : d <> 0).
  { unfold d. rewrite Z.mod_divide by lia. intro DV. apply (prime_mult _ sm2n_prime) in DV. assert (2 ^ 128 < sm2n) by reflexivity.
    destruct DV as [DV|DV]; [apply Z.divide_opp_r in DV|]; apply Z.divide_pos_le in DV; lia. }
  split; [lia|]. exists (mkPub (xc (pmul d G)) (yc (pmul d G))). split; [apply pub_eq; lia|]. cbn [X Y].
  assert (OD : forall k, on_curve (pmul k G)) by (intro k; apply pmul_on, G_on).
  split; [rewrite <- enc_xy; apply on_valid, OD|]. unfold cancels. cbn [X Y].
  assert (DE : forall Q, on_curve Q -> dec (xc Q) (yc Q) = Q) by (intros Q OQ; apply dec_enc; exact OQ). rewrite !DE by apply OD. fold x.
  rewrite <- pmul_mul by (try exact G_on; lia). rewrite <- pmul_add by (try exact G_on; nia). apply O_iff; [nia|]. apply Z.mod_divide; [lia|].
  unfold d. rewrite Zplus_mod_idemp_l. replace (- x * r + x * r) with 0 by lia. reflexivity.
Qed.

(** * Examples *)
Example C120_ex_cancels : exists P, valid (X P, Y P) /\ cancels P ex_G /\
  forall init n tag dS dE, -15 < n <= 128 -> init && isNil tag = false -> 1 <= D dS < curveN -> 1 <= D dE < curveN ->
    exists p, CalculateKeyWithConfirmation init n tag dS dE (Some [1]) P ex_G None = Panic p.
Proof.
  assert (VG : valid (X ex_G, Y ex_G)) by apply C39_domain_parameters.
  destruct (C120_one_static ex_G VG) as (P & VP & _ & C & _); [discriminate|]. exists P. split; [exact VP|]. split; [exact C|].
  intros init n tag dS dE Hn NT HS HE. apply (proj2 (C120_poison init n tag P ex_G VP VG Hn NT)); auto; [split; [repeat constructor; unfold byte; lia|reflexivity]|split; [constructor|reflexivity]].
Qed.
(** Not every pair of keys cancels, so the condition of C120_poison is not always met. *)
Example C120_ex_not : ~ cancels ex_G ex_G /\ X ex_G <> 0.
Proof.
  assert (VG : valid (X ex_G, Y ex_G)) by apply C39_domain_parameters. split; [|discriminate].
  destruct C59_ex as (good & r & E & _). intro C. assert (PZ : exists p, CalculateKeyWithConfirmation true 128 (Some good) ex1 exA_r None ex_G ex_G None = Panic p).
  { apply (proj2 (C120_poison true 128 (Some good) ex_G ex_G VG VG ltac:(lia) eq_refl)); [right; exact C|vm_compute; split; [discriminate|reflexivity]|vm_compute; split; [discriminate|reflexivity]| |]; split; try constructor; reflexivity. }
  destruct PZ as [p PZ]. rewrite PZ in E. discriminate E.
Qed.
