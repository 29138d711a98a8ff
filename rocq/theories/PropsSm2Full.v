(** Consequences of the curve having exactly n points (Sm2Cyclic.v): every valid public key has one private key
    (C89), decryption accepts what encryption can produce (C90), verification accepts what signing can produce
    (C91). *)
From Coq Require Import ZArith Znumtheory List Lia Bool String.
From Verif Require Import GoBase BeMin Sm3Spec FpField Primes Sm2Primes WeiGroup GoElliptic Sm2Group Sm2Spec Sm2 Sm2Order PropsCurve Sm2Proofs Sm2Proofs2 PropsSm2
  PropsSm2Sec Sm2Cyclic.
Import ListNotations.
Open Scope Z_scope.

Lemma ret_inj : forall A (a b : A), Ret a = Ret b -> a = b.
Proof. intros A a b H. injection H as H. exact H. Qed.

(** * C89: every valid public key has exactly one private key *)
Lemma pub_eq : forall d, 0 <= d -> CalculatePubKey (mkPriv d) = Ret (mkPub (xc (pmul d G)) (yc (pmul d G))).
Proof. intros d Hd. unfold CalculatePubKey. cbn [D]. rewrite base_mult_z by exact Hd. reflexivity. Qed.
Lemma key_scalar : forall x y, valid (x, y) -> (x, y) <> (0, 0) -> exists d, 1 <= d < sm2n /\ dec x y = pmul d G /\ CalculatePubKey (mkPriv d) = Ret (mkPub x y).
Proof.
  intros x y V NZ. destruct (valid_on _ _ V) as [On E]. destruct (all_multiples _ On) as (d & R & HD).
  assert (d <> 0). { intros ->. apply NZ. rewrite <- E, HD. reflexivity. }
  exists d. split; [lia|]. split; [exact HD|]. rewrite pub_eq by lia. rewrite <- HD. unfold xc, yc. rewrite E. reflexivity.
Qed.
Lemma pub_inj : forall d d', 0 <= d < sm2n -> 0 <= d' < sm2n -> CalculatePubKey (mkPriv d) = CalculatePubKey (mkPriv d') -> d = d'.
Proof.
  intros d d' H H' E. rewrite !pub_eq in E by lia. apply multiple_unique; [exact H|exact H'|].
  apply enc_inj; [apply pmul_on, G_on|apply pmul_on, G_on|]. rewrite !enc_xy.
  assert (EX : xc (pmul d G) = xc (pmul d' G)) by (apply (f_equal (fun x => match x with Ret q => X q | _ => 0 end)) in E; exact E).
  assert (EY : yc (pmul d G) = yc (pmul d' G)) by (apply (f_equal (fun x => match x with Ret q => Y q | _ => 0 end)) in E; exact E).
  rewrite EX, EY. reflexivity.
Qed.
Theorem C89_one_private_key : forall x y, valid (x, y) -> (x, y) <> (0, 0) ->
  exists d, 1 <= d < curveN /\ CalculatePubKey (mkPriv d) = Ret (mkPub x y) /\
    forall d', 0 <= d' < curveN -> CalculatePubKey (mkPriv d') = Ret (mkPub x y) -> d' = d.
Proof.
  intros x y V NZ. rewrite curveN_eq. destruct (key_scalar x y V NZ) as (d & R & _ & E). exists d. split; [exact R|]. split; [exact E|].
  intros d' R' E'. apply pub_inj; [exact R'|lia|congruence].
Qed.

(** The curve equation has exactly n - 1 solutions. *)
Lemma key_list : forall n, NoDup (map (fun d => enc (pmul (1 + d) G)) (range n)) \/ sm2n <= n.
Proof.
  intro n. destruct (Z.lt_ge_cases n sm2n) as [L|L]; [left|right; exact L].
  assert (W : forall l, NoDup l -> (forall x, In x l -> 0 <= x < n) -> NoDup (map (fun d => enc (pmul (1 + d) G)) l)).
  { intros l H. induction H as [|x l NI ND IH]; intros R; cbn [map]; constructor.
    - intros Q. apply in_map_iff in Q. destruct Q as (y & E & HY). apply enc_inj in E; [|apply pmul_on, G_on|apply pmul_on, G_on].
      pose proof (R x (or_introl eq_refl)). pose proof (R y (or_intror HY)).
      apply multiple_unique in E; [|lia|lia]. apply NI. replace x with y by lia. exact HY.
    - apply IH. intros y HY. apply R. right. exact HY. }
  apply W; [apply range_nodup|]. intros x. apply range_in.
Qed.
Theorem C89_number_of_points : exists l : list (Z * Z), NoDup l /\ Z.of_nat (List.length l) = curveN - 1 /\
  forall x y, In (x, y) l <-> 0 <= x < curveP /\ 0 <= y < curveP /\ IsOnCurve curveP curveB x y = true.
Proof.
  rewrite curveN_eq. exists (map (fun d => enc (pmul (1 + d) G)) (range (sm2n - 1))). split.
  { destruct (key_list (sm2n - 1)) as [H|H]; [exact H|lia]. }
  split; [rewrite map_length; apply range_length; discriminate|]. intros x y. rewrite in_map_iff. rewrite curveP_eq, curveB_eq, IsOnCurve_spec. split.
  - intros (d & E & HI). apply range_in in HI. assert (On : on_curve (pmul (1 + d) G)) by (apply pmul_on, G_on).
    assert (NO : pmul (1 + d) G <> O).
    { intro EO. change O with (pmul 0 G) in EO. apply multiple_unique in EO; lia. }
    destruct (enc_range (pmul (1 + d) G)) as [RX RY]. rewrite E in RX, RY. cbn [fst snd] in RX, RY. split; [exact RX|]. split; [exact RY|].
    destruct (pmul (1 + d) G) as [|u v]; [contradiction NO; reflexivity|]. cbn [enc] in E.
    assert (EU : fv sm2p u = x) by congruence. assert (EV : fv sm2p v = y) by congruence. rewrite <- EU, <- EV, !kf_fv. exact On.
  - intros (HX & HY & On). destruct (all_multiples _ On) as (d & R & E).
    assert (d <> 0) by (intros ->; discriminate E).
    exists (d - 1). split; [|apply range_in; lia]. replace (1 + (d - 1)) with d by lia. rewrite <- E. rewrite <- (dec_A _ _ On). apply enc_dec; assumption.
Qed.

(** Every valid point but infinity has order n: no multiple of it is infinity except those by multiples of n. *)
Theorem C89_order : forall x y k, valid (x, y) -> (x, y) <> (0, 0) -> 0 <= k ->
  (curveScalarMult x y (BigBytes k) = Ret (0, 0) <-> (curveN | k)).
Proof.
  intros x y k V NZ Hk. rewrite curveN_eq. destruct (valid_on _ _ V) as [On E].
  assert (NO : dec x y <> O) by (intro Q; rewrite Q in E; apply NZ; rewrite <- E; reflexivity).
  rewrite enc_xy in E. assert (EX : x = xc (dec x y)) by congruence. assert (EY : y = yc (dec x y)) by congruence.
  rewrite EX at 1. rewrite EY at 2. rewrite mult_pt by assumption.
  rewrite <- (point_order _ k On NO Hk). rewrite <- (enc_O _ (pmul_on k _ On)), enc_xy. split; [intro H; congruence|intro H; f_equal; exact H].
Qed.

(** * C90: what Decrypt accepts *)
Definition a_tape (k : Z) : list Z := be_enc 32 k.
Lemma a_tape_nonces : forall k, 1 <= k < sm2n -> nonces (a_tape k) = [(k, [])].
Proof.
  intros k Hk. assert (L : List.length (a_tape k) = 32%nat) by apply be_enc_length.
  rewrite nonces_step by (rewrite L; apply le_n). cbv zeta.
  assert (F : firstn 32 (a_tape k) = a_tape k) by (apply firstn_all2; rewrite L; apply le_n).
  assert (S : skipn 32 (a_tape k) = []) by (apply skipn_all2; rewrite L; apply le_n).
  rewrite F, S. unfold a_tape. rewrite be_dec_enc. rewrite (Z.mod_small k) by (pose proof sm2n_lt; change (256 ^ Z.of_nat 32) with (2 ^ 256); lia).
  destruct (Z.leb_spec 1 k); [|lia]. destruct (Z.ltb_spec k sm2n); [|lia]. reflexivity.
Qed.

(** The parts of a ciphertext in order t put together again. *)
Lemma parts_whole : forall t c, (t = 1 \/ t = 2) -> (97 <= List.length c)%nat ->
  c = firstn 65 c ++ (if t =? 1 then c2_of t c ++ c3_of t c else c3_of t c ++ c2_of t c).
Proof.
  intros t c T L. rewrite <- (firstn_skipn 65 c) at 1. f_equal. unfold c2_of, c3_of. destruct T as [->| ->].
  - change (1 =? 1) with true. cbv iota. rewrite <- (firstn_skipn (List.length c - 97) (skipn 65 c)) at 1. f_equal.
    rewrite skipn_skipn. f_equal. lia.
  - change (2 =? 1) with false. cbv iota. rewrite <- (firstn_skipn 32 (skipn 65 c)) at 1. f_equal. rewrite skipn_skipn. reflexivity.
Qed.

(** Decrypt accepts c with result m exactly if c is the ciphertext of m for a nonce in [1, n-1]. *)
Theorem C90_decrypt_iff : forall priv pub c t m, 0 <= D priv -> CalculatePubKey priv = Ret pub -> bytes c -> zlen c < 2 ^ 31 ->
  Decrypt priv c t = Ret (OK m) <->
  (t = 1 \/ t = 2) /\ m <> [] /\ bytes m /\
  exists k, 1 <= k < curveN /\
    let S := pmul k (dec (X pub) (Y pub)) in
    let c1 := 4 :: be_enc 32 (xc (pmul k G)) ++ be_enc 32 (yc (pmul k G)) in
    let c2 := map2 Z.lxor m (KDF (be_enc 32 (xc S) ++ be_enc 32 (yc S)) (List.length m)) in
    let c3 := sm3_hash (be_enc 32 (xc S) ++ m ++ be_enc 32 (yc S)) in
    c = c1 ++ (if t =? 1 then c2 ++ c3 else c3 ++ c2).
Proof.
  intros priv pub c t m Hd HP HB HL. rewrite curveN_eq. destruct (pub_point priv pub Hd HP) as (_ & _ & DP). rewrite DP.
  set (P := pmul (D priv) G).
  assert (SH : forall k, 0 <= k -> pmul (D priv) (pmul k G) = pmul k P).
  { intros k Hk. unfold P. rewrite <- !pmul_mul by (exact G_on || assumption). rewrite Z.mul_comm. reflexivity. }
  rewrite (C52_decrypt_authenticates priv c t m Hd HB HL). split.
  - intros (T & L & Q & (On & NO & E1) & E2 & E3). cbv zeta in E2, E3.
    destruct (all_multiples Q On) as (k & R & ->).
    assert (k <> 0) by (intros ->; apply NO; reflexivity).
    rewrite SH in E2, E3 by lia. change (c2_of t c = enc_c2 (pmul k P) m) in E2. change (c3_of t c = enc_c3 (pmul k P) m) in E3.
    assert (LC : List.length (c2_of t c) = (List.length c - 97)%nat) by (apply c2_of_length; unfold zlen in L; lia).
    split; [exact T|]. split.
    { intros ->. rewrite E2 in LC. cbn in LC. unfold zlen in L. lia. }
    split. { rewrite <- (enc_c2_invol (pmul k P) m). rewrite <- E2. apply enc_c2_bytes, c2_of_bytes, HB. }
    exists k. split; [lia|]. change (c = ciphertext P m k t). rewrite (parts_whole t c T) by (unfold zlen in L; lia). rewrite E1, E2, E3. reflexivity.
  - intros (T & NE & BM & k & R & E). change (c = ciphertext P m k t) in E. split; [exact T|].
    destruct (ciphertext_parts P m k t) as (PL & P1 & P2 & P3). rewrite <- E in PL, P1, P2, P3.
    split. { unfold zlen. rewrite PL. destruct m; [contradiction|]. cbn [List.length]. lia. }
    exists (pmul k G). split.
    { split; [apply pmul_on, G_on|]. split; [|exact P1]. intro EO. change O with (pmul 0 G) in EO. apply multiple_unique in EO; lia. }
    cbv zeta. rewrite SH by lia. split; [exact P2|exact P3].
Qed.

(** The ciphertexts Encrypt can produce are exactly those Decrypt accepts with a message that the key stream
    changes. *)
Theorem C90_encrypt_iff : forall priv pub c t m, 0 <= D priv -> CalculatePubKey priv = Ret pub -> bytes c -> zlen c < 2 ^ 31 -> good_msg m ->
  (exists tape rest, bytes tape /\ Encrypt pub m t tape = Ret (OK c, rest)) <->
  Decrypt priv c t = Ret (OK m) /\ c2_of t c <> m.
Proof.
  intros priv pub c t m Hd HP HB LC GM. pose proof GM as (BM & NE & Lm). destruct (pub_point priv pub Hd HP) as (_ & _ & DP).
  assert (On : on_curve (dec (X pub) (Y pub))) by (rewrite DP; apply pmul_on, G_on).
  assert (V : valid (X pub, Y pub)).
  { pose proof HP as HP'. destruct priv as [d]. cbn [D] in Hd. rewrite pub_eq in HP' by exact Hd. injection HP' as <-. cbn [X Y]. rewrite <- enc_xy. apply on_valid, pmul_on, G_on. }
  split.
  - intros (tape & rest & BT & E).
    pose proof (Encrypt_ok pub m t tape BT BM On ltac:(lia) NE) as H. destruct (find _ (nonces tape)) as [[k r]|] eqn:F; [|destruct H as (e & _ & H); rewrite H in E; discriminate].
    pose proof E as E'. rewrite H in E'. destruct ((t =? 1) || (t =? 2)); [|discriminate]. apply ret_inj in E'. assert (EC : c = ciphertext (dec (X pub) (Y pub)) m k t) by congruence.
    destruct (ciphertext_parts (dec (X pub) (Y pub)) m k t) as (PL & _ & P2 & _). rewrite <- EC in PL, P2.
    split; [apply (C50_decrypt_inverts_encrypt priv pub m t tape c rest Hd HP BM); [unfold zlen in *; lia|exact BT|exact E]|]. rewrite P2.
    apply find_some in F. destruct F as [_ MK]. cbn [fst] in MK. unfold masks in MK.
    destruct (list_eq_dec Z.eq_dec (enc_c2 (pmul k (dec (X pub) (Y pub))) m) m) as [|N]; [discriminate|exact N].
  - intros [E N].
    pose proof E as E'. rewrite (C90_decrypt_iff priv pub c t m Hd HP HB LC) in E'. destruct E' as (T & _ & _ & k & R & EC). rewrite curveN_eq in R.
    exists (a_tape k), []. split; [apply be_enc_bytes|].
    pose proof (Encrypt_ok pub m t (a_tape k) (be_enc_bytes _ _) BM On ltac:(lia) NE) as H. rewrite (a_tape_nonces k R) in H. cbn [find fst] in H.
    change (c = ciphertext (dec (X pub) (Y pub)) m k t) in EC.
    assert (MK : masks (dec (X pub) (Y pub)) m k = true).
    { unfold masks. destruct (list_eq_dec Z.eq_dec _ m) as [Q|]; [|reflexivity]. exfalso. apply N. rewrite EC.
      destruct (ciphertext_parts (dec (X pub) (Y pub)) m k t) as (_ & _ & P2 & _). rewrite P2. exact Q. }
    rewrite MK in H. rewrite H. replace ((t =? 1) || (t =? 2)) with true by (destruct T as [->| ->]; reflexivity). rewrite <- EC. reflexivity.
Qed.

(** * C91: what VerifyByRS accepts *)
Lemma verifies_signature : forall d e r s, 0 <= d -> (1 + d) mod sm2n <> 0 -> verifies (pmul d G) e r s ->
  exists k, 1 <= k < sm2n /\ signature d e k r s.
Proof.
  intros d e r s Hd ND (HR & HS & T0 & V). cbv zeta in V. destruct V as [NO EX].
  change (padd (pmul s G) (pmul ((r + s) mod sm2n) (pmul d G))) with (vpoint d r s) in NO, EX.
  rewrite vpoint_mul in NO, EX by lia. pose proof (modn_range (r + s)) as RT. set (t := (r + s) mod sm2n) in *. pose proof sm2n_pos as NP.
  assert (HT : 0 <= s + t * d) by (pose proof (Z.mul_nonneg_nonneg t d ltac:(lia) Hd); lia).
  set (k := (s + t * d) mod sm2n). pose proof (modn_range (s + t * d)) as RK. fold k in RK.
  assert (EK : pmul k G = pmul (s + t * d) G).
  { apply (pmul_cong sm2n); [exact G_on|lia|lia|exact HT|exact G_order|]. unfold k. apply Z.mod_mod. lia. }
  assert (K0 : k <> 0). { intro Q. apply NO. rewrite <- EK, Q. reflexivity. }
  assert (DT : (sm2n | t - (r + s))). { apply modn_eq. unfold t. apply Z.mod_mod. lia. }
  assert (DK : (sm2n | k - (s + (r + s) * d))).
  { replace (k - (s + (r + s) * d)) with ((k - (s + t * d)) + (t - (r + s)) * d) by ring. apply Z.divide_add_r; [|apply Z.divide_mul_l; exact DT].
    apply modn_eq. unfold k. apply Z.mod_mod. lia. }
  exists k. split; [lia|]. split; [rewrite EK; symmetry; exact EX|]. split; [lia|]. split.
  - intro Q. assert (K : (sm2n | (1 + d) * (r + s))).
    { replace ((1 + d) * (r + s)) with ((r + k) - (k - (s + (r + s) * d))) by ring. apply Z.divide_sub_r; [rewrite Q; apply Z.divide_refl|exact DK]. }
    apply (prime_mult _ sm2n_prime) in K. destruct K as [K|K]; apply Z.mod_divide in K; try lia; try contradiction.
  - split; [lia|]. apply modn_eq. replace ((1 + d) * s - (k - r * d)) with (- (k - (s + (r + s) * d))) by ring. apply Z.divide_opp_r. exact DK.
Qed.
Lemma pub_verify : forall priv pub id m r s, 0 <= D priv -> CalculatePubKey priv = Ret pub -> good_id id -> good_msg m ->
  exists b, VerifyByRS pub id m r s = Ret b /\ (b = true <-> verifies (pmul (D priv) G) (sig_e (D priv) id m) r s).
Proof.
  intros [d] pub id m r s Hd HP GI GM. cbn [D] in *. rewrite pub_eq in HP by exact Hd. apply ret_inj in HP. subst pub.
  assert (On : on_curve (pmul d G)) by apply pmul_on, G_on. pose proof (xc_range (pmul d G)). pose proof (yc_range (pmul d G)).
  destruct (VerifyByRS_ok (mkPub (xc (pmul d G)) (yc (pmul d G))) id m r s) as (b & E & H'); cbn [X Y] in *; try assumption.
  - rewrite dec_coords by exact On. exact On.
  - exists b. rewrite dec_coords in H' by exact On. split; [exact E|exact H'].
Qed.

(** A pair (r, s) is accepted exactly if some nonce draw makes the owner of the private key produce it. *)
Theorem C91_accepted_is_producible : forall priv pub id m r s, 0 <= D priv -> CalculatePubKey priv = Ret pub ->
  (1 + D priv) mod curveN <> 0 -> good_id id -> good_msg m ->
  VerifyByRS pub id m r s = Ret true <-> exists tape rest, bytes tape /\ SignToRS priv id m tape = Ret (OK (r, s), rest).
Proof.
  intros priv pub id m r s Hd HP ND GI GM. rewrite curveN_eq in ND. split.
  - intro E. destruct (pub_verify priv pub id m r s Hd HP GI GM) as (b & E' & H). rewrite E in E'. apply ret_inj in E'.
    symmetry in E'. rewrite H in E'. destruct (verifies_signature _ _ _ _ Hd ND E') as (k & R & S).
    exists (a_tape k), []. split; [apply be_enc_bytes|].
    apply (C45_first_signature priv id m (a_tape k) k [] [] [] r s Hd GI GM (be_enc_bytes _ _)); [exact (a_tape_nonces k R)|constructor|exact S].
  - intros (tape & rest & BT & E). exact (C44_signatures_verify priv pub id m tape r s rest Hd GI GM BT HP E).
Qed.

(** The nonce behind an accepted pair is determined by the pair and the key. *)
Theorem C91_one_nonce : forall priv pub id m r s, 0 <= D priv -> CalculatePubKey priv = Ret pub ->
  (1 + D priv) mod curveN <> 0 -> good_id id -> good_msg m -> VerifyByRS pub id m r s = Ret true ->
  exists k, 1 <= k < curveN /\ SignToRS priv id m (be_enc 32 k) = Ret (OK (r, s), []) /\
    forall k', 1 <= k' < curveN -> SignToRS priv id m (be_enc 32 k') = Ret (OK (r, s), []) -> k' = k.
Proof.
  intros priv pub id m r s Hd HP ND GI GM E. rewrite curveN_eq in *.
  destruct (pub_verify priv pub id m r s Hd HP GI GM) as (b & E' & H). rewrite E in E'. apply ret_inj in E'.
  symmetry in E'. rewrite H in E'. destruct (verifies_signature _ _ _ _ Hd ND E') as (k & R & S). exists k. split; [exact R|]. split.
  - apply (C45_first_signature priv id m (a_tape k) k [] [] [] r s Hd GI GM (be_enc_bytes _ _)); [exact (a_tape_nonces k R)|constructor|exact S].
  - intros k' R' E2. destruct (SignToRS_ok priv id m (a_tape k') Hd GI GM (be_enc_bytes _ _)) as [(k2 & rest & pre & post & r' & s' & E3 & S' & _ & N & _)|(er & _ & E3 & _)].
    + change (be_enc 32 k') with (a_tape k') in E2. rewrite E2 in E3. apply ret_inj in E3. assert (r = r') by congruence. assert (s = s') by congruence. subst r' s'.
      rewrite (a_tape_nonces k' R') in N. assert (EK : k2 = k').
      { destruct pre as [|x pre]; [cbn in N; congruence|]. exfalso. apply (f_equal (@List.length _)) in N. cbn [List.length app] in N. rewrite app_length in N. cbn [List.length] in N. lia. }
      subst k2. destruct (signature_linear _ _ _ _ _ R S) as [L1 _]. destruct (signature_linear _ _ _ _ _ R' S') as [L2 _].
      assert (L : (sm2n | k' - k)). { replace (k' - k) with ((D priv * (r + s) - (k - s)) - (D priv * (r + s) - (k' - s))) by ring. apply Z.divide_sub_r; assumption. }
      apply modn_small in L; lia.
    + change (be_enc 32 k') with (a_tape k') in E2. rewrite E2 in E3. apply ret_inj in E3. discriminate E3.
Qed.

(** The one key left out, minus the generator: its owner can never sign, and the check of a pair does not involve
    s beyond its range. *)
Theorem C91_last_key : forall pub id m, CalculatePubKey (mkPriv (curveN - 1)) = Ret pub -> good_id id -> good_msg m ->
  (forall tape r s rest, bytes tape -> SignToRS (mkPriv (curveN - 1)) id m tape <> Ret (OK (r, s), rest)) /\
  forall r s, 1 <= r < curveN -> 1 <= s < curveN -> r + s <> curveN ->
    (VerifyByRS pub id m r s = Ret true <-> (sig_e (curveN - 1) id m + xc (pmul r G)) mod curveN = r).
Proof.
  intros pub id m HP GI GM. rewrite curveN_eq in *. pose proof sm2n_pos as NP. assert (Hd : 0 <= D (mkPriv (sm2n - 1))) by (cbn [D]; lia). split.
  - intros tape r s rest BT E. destruct (SignToRS_ok (mkPriv (sm2n - 1)) id m tape Hd GI GM BT) as [(k & rest' & pre & post & r' & s' & _ & (ER & R0 & RK & SR & ES) & Rk & _)|(er & _ & E' & _)].
    + apply modn_eq in ES. cbn [D] in ES. pose proof (modn_range (sig_e (sm2n - 1) id m + xc (pmul k G))) as RR. cbn [D] in ER. rewrite <- ER in RR.
      assert (K : (sm2n | k + r')).
      { replace (k + r') with (sm2n * (s' + r') - ((1 + (sm2n - 1)) * s' - (k - r' * (sm2n - 1)))) by ring. apply Z.divide_sub_r; [apply Z.divide_factor_l|exact ES]. }
      destruct K as [q Q]. assert (q = 1) by nia. subst q. lia.
    + rewrite E in E'. apply ret_inj in E'. discriminate E'.
  - intros r s HR HS NE. destruct (pub_verify (mkPriv (sm2n - 1)) pub id m r s Hd HP GI GM) as (b & E & H). cbn [D] in H. rewrite E.
    assert (W : Ret b = Ret true <-> b = true) by (split; [apply ret_inj|intros ->; reflexivity]). rewrite W, H. clear W H E b.
    set (e := sig_e (sm2n - 1) id m).
    assert (RS : (r + s) mod sm2n <> 0).
    { intro Q. apply Z.mod_divide in Q; [|lia]. destruct Q as [q Q]. assert (q = 1) by nia. subst q. lia. }
    assert (EV : vpoint (sm2n - 1) r s = pneg (pmul r G)).
    { rewrite vpoint_mul by lia. pose proof (modn_range (r + s)) as RT. set (t := (r + s) mod sm2n) in *.
      assert (HT : 0 <= s + t * (sm2n - 1)) by (pose proof (Z.mul_nonneg_nonneg t (sm2n - 1) ltac:(lia) ltac:(lia)); lia).
      assert (EN : pmul (s + t * (sm2n - 1)) G = pmul (sm2n - r) G).
      { apply (pmul_cong sm2n); [exact G_on|lia|exact HT|lia|exact G_order|]. apply modn_eq.
        replace (s + t * (sm2n - 1) - (sm2n - r)) with (sm2n * (t - 1) - (t - (r + s))) by ring. apply Z.divide_sub_r; [apply Z.divide_factor_l|].
        apply modn_eq. unfold t. apply Z.mod_mod. lia. }
      rewrite EN. apply (padd_cancel_l (pmul r G)); [apply pmul_on, G_on|apply pmul_on, G_on|apply pneg_on, pmul_on, G_on|].
      rewrite padd_neg. assert (EA := pmul_add r (sm2n - r) G G_on ltac:(lia) ltac:(lia)). rewrite <- EA. replace (r + (sm2n - r)) with sm2n by ring. exact G_order. }
    unfold verifies. change (padd (pmul s G) (pmul ((r + s) mod sm2n) (pmul (sm2n - 1) G))) with (vpoint (sm2n - 1) r s). rewrite EV. cbv zeta.
    assert (XO : xc (pneg (pmul r G)) = xc (pmul r G)) by (destruct (pmul r G); reflexivity). rewrite XO.
    assert (NO : pneg (pmul r G) <> O). { intro Q. assert (Q' : pmul r G = O) by (destruct (pmul r G); [reflexivity|discriminate Q]). apply G_mul_O in Q'; [|lia]. apply Z.divide_pos_le in Q'; lia. }
    split; [intros (_ & _ & _ & _ & Q); exact Q|intros Q]. split; [exact HR|]. split; [exact HS|]. split; [exact RS|]. split; [exact NO|exact Q].
Qed.

(** * Examples *)
Example C89_ex : valid (curveGx, curveGy) /\ (curveGx, curveGy) <> (0, 0) /\ CalculatePubKey ex_priv = Ret (mkPub curveGx curveGy) /\
  curveScalarMult curveGx curveGy (BigBytes curveN) = Ret (0, 0).
Proof.
  assert (V : valid (curveGx, curveGy)) by apply C39_domain_parameters. assert (NZ : (curveGx, curveGy) <> (0, 0)) by discriminate.
  split; [exact V|]. split; [exact NZ|]. split; [exact ex_pub_ok|]. apply C89_order; [exact V|exact NZ|rewrite curveN_eq; discriminate|apply Z.divide_refl].
Qed.
Lemma encrypt_out : forall pub m t tape c rest, bytes tape -> good_msg m -> on_curve (dec (X pub) (Y pub)) -> Encrypt pub m t tape = Ret (OK c, rest) ->
  bytes c /\ List.length c = (97 + List.length m)%nat.
Proof.
  intros pub m t tape c rest BT (BM & NE & Lm) On E. pose proof (Encrypt_ok pub m t tape BT BM On Lm NE) as H.
  destruct (find _ (nonces tape)) as [[k r]|]; [|destruct H as (e & _ & H); rewrite H in E; discriminate].
  rewrite H in E. destruct ((t =? 1) || (t =? 2)); [|discriminate]. apply ret_inj in E.
  assert (EC : c = ciphertext (dec (X pub) (Y pub)) m k t) by congruence. rewrite EC. split; [apply ciphertext_bytes, BM|].
  destruct (ciphertext_parts (dec (X pub) (Y pub)) m k t) as (PL & _). rewrite PL. apply Nat.add_comm || reflexivity.
Qed.
Lemma ex_pub_valid : valid (X ex_pub, Y ex_pub). Proof. apply C39_domain_parameters. Qed.
(** A ciphertext that Encrypt can produce and Decrypt accepts, and one that Decrypt accepts for the same key although
    Encrypt never returns it: with nonce 351 the key stream starts with a zero byte, so the letter "a" stands in the
    ciphertext as it is. *)
Definition visible_c : list Z := be_enc 98
  0x04316fe3dd6255801cc977e25de41e72c4bd74712f9d307a72e13305e1e4a8f4d06606511ca364d9502307c881aae55216c611693b2d686fe674e33038deecf15e61355e6c3ba036fedda9e0f0eb15e0f8026d45734390238d26232caf12869d8d00.
Lemma visible_opens : Decrypt ex_priv visible_c 1 = Ret (OK [0x61]).
Proof. vm_compute. reflexivity. Qed.
Example C90_ex : (exists c tape rest, bytes c /\ zlen c < 2 ^ 31 /\ Encrypt ex_pub ex_msg 1 tape = Ret (OK c, rest) /\ Decrypt ex_priv c 1 = Ret (OK ex_msg)) /\
  Decrypt ex_priv visible_c 1 = Ret (OK [0x61]) /\ forall tape rest, bytes tape -> Encrypt ex_pub [0x61] 1 tape <> Ret (OK visible_c, rest).
Proof.
  split; [|split; [exact visible_opens|]].
  - destruct C50_ex as (c & E & D & _). exists c, ex_tape, []. pose proof ex_msg_good as (BM & NE & Lm).
    destruct (encrypt_out ex_pub ex_msg 1 ex_tape c [] ex_tape_bytes ex_msg_good (proj1 (valid_on _ _ ex_pub_valid)) E) as [B L].
    split; [exact B|]. split; [|split; [exact E|exact D]]. unfold zlen. rewrite L. reflexivity.
  - intros tape rest BT E. assert (GM : good_msg [0x61]) by (split; [constructor; [unfold byte; lia|constructor]|split; [discriminate|reflexivity]]).
    destruct (C90_encrypt_iff ex_priv ex_pub visible_c 1 [0x61]) as [H _]; try exact GM.
    + discriminate.
    + exact ex_pub_ok.
    + apply be_enc_bytes.
    + reflexivity.
    + destruct H as [_ N]; [exists tape, rest; split; assumption|]. apply N. vm_compute. reflexivity.
Qed.
Example C91_ex : exists r s, VerifyByRS (mkPub curveGx curveGy) None ex_msg r s = Ret true /\ (1 + D ex_priv) mod curveN <> 0 /\
  SignToRS ex_priv None ex_msg ex_tape = Ret (OK (r, s), []).
Proof. destruct C44_ex as (r & s & E & V). exists r, s. split; [exact V|]. split; [vm_compute; discriminate|exact E]. Qed.
