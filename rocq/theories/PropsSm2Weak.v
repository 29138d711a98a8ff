(** C96, C97: public keys that RawBytesToPublicKey accepts although they are not points of the curve. The key
    (0, 0) is the neutral element (C96); any other pair of coordinates is computed with on the curve
    y^2 = x^3 - 3x + b' that happens to go through it (C97). *)
From Coq Require Import ZArith Znumtheory List Lia Bool String Ring Field.
From Verif Require Import GoBase BeMin FpField GoElliptic Sm3Spec Sm3 Sm3Main PropsSm3.
From Verif Require Import Primes Sm2Primes WeiGroup Sm2Group Sm2Order Sm2Spec Sm2 Sm2Proofs Sm2Proofs2 PropsCurve PropsSm2 PropsSm2Sec Sm2Cyclic PropsSm2Full.
Import ListNotations.
Open Scope Z_scope.

(** * C96: the key (0, 0) *)

(** How it comes into being: 64 zero bytes, or a private scalar that is a multiple of the order. *)
Theorem C96_where_from : RawBytesToPublicKey (repeat 0 64) = OK (mkPub 0 0) /\
  forall d, 0 <= d -> (CalculatePubKey (mkPriv d) = Ret (mkPub 0 0) <-> (curveN | d)).
Proof.
  split; [vm_compute; reflexivity|]. intros d Hd. rewrite curveN_eq. unfold CalculatePubKey. cbn [D].
  rewrite base_mult_z by exact Hd. cbn [bind]. rewrite <- G_mul_O by exact Hd.
  assert (On : on_curve (pmul d G)) by (apply pmul_on, G_on). rewrite <- (enc_O _ On), enc_xy. split; intro H; injection H as -> ->; reflexivity.
Qed.

Lemma neg_mul : forall s, 1 <= s < sm2n -> pmul (sm2n - s) G = pneg (pmul s G).
Proof.
  intros s R. apply (padd_cancel_l (pmul s G)); [apply pmul_on, G_on|apply pmul_on, G_on|apply pneg_on, pmul_on, G_on|].
  rewrite padd_neg. rewrite <- pmul_add by (try exact G_on; lia). replace (s + (sm2n - s)) with sm2n by lia.
  apply G_mul_O; [apply Z.lt_le_incl; reflexivity|apply Z.divide_refl].
Qed.
Lemma neg_x : forall s, 1 <= s < sm2n -> xc (pmul (sm2n - s) G) = xc (pmul s G).
Proof. intros s R. rewrite neg_mul by exact R. destruct (pmul s G); reflexivity. Qed.
Lemma mod_apart : forall e a b n, n <> 0 -> (b - a) mod n <> 0 -> (e + a) mod n <> 0 \/ (e + b) mod n <> 0.
Proof.
  intros e a b n Hn H. destruct (Z.eq_dec ((e + a) mod n) 0) as [E1|N1]; [|left; exact N1]. right. intro E2. apply H.
  replace (b - a) with (e + b - (e + a)) by ring. rewrite Zminus_mod, E1, E2. apply Z.mod_0_l, Hn.
Qed.
Lemma x_two : (xc (pmul 2 G) - xc (pmul 1 G)) mod sm2n <> 0.
Proof.
  rewrite pmul_1. change 2 with (1 + 1). rewrite pmul_add by (try exact G_on; lia). rewrite pmul_1.
  assert (E : Double sm2p sm2gx sm2gy = Ret (xc (padd G G), yc (padd G G))).
  { rewrite Double_spec, enc_xy. rewrite dec_A by exact G_on. reflexivity. }
  apply (f_equal (fun v => match v with Ret (x, _) => x | _ => 0 end)) in E. cbv beta iota in E. rewrite <- E. clear E.
  vm_compute. discriminate.
Qed.

(** For every identity and message one of the four values 1, 2, N-1, N-2 of s, with the r that is computed from public
    data alone, is an accepted signature. *)
Theorem C96_forgery : forall id m, good_id id -> good_msg m ->
  exists s, In s [1; 2; curveN - 1; curveN - 2] /\
    let r := (msg_e (effective_id id) 0 0 m + xc (pmul s G)) mod curveN in
    VerifyByRS (mkPub 0 0) id m r s = Ret true.
Proof.
  intros id m GI GM. rewrite curveN_eq. set (e := msg_e (effective_id id) 0 0 m).
  assert (NB : 4 < sm2n) by reflexivity.
  assert (ACC : forall s r, r = (e + xc (pmul s G)) mod sm2n -> 1 <= s < sm2n -> r <> 0 -> (r + s) mod sm2n <> 0 -> VerifyByRS (mkPub 0 0) id m r s = Ret true).
  { intros s r ER RS R0 RT. destruct (C46_verify_infinity_key id m r s GI GM) as (b & -> & H). fold e in H. f_equal. apply H.
    pose proof (modn_range (e + xc (pmul s G))) as RR. rewrite <- ER in RR. unfold verifies. split; [lia|]. split; [exact RS|]. split; [exact RT|].
    cbv zeta. rewrite pmul_O, padd_O_r. split; [|symmetry; exact ER]. intro Q. apply G_mul_O in Q; [|lia]. apply Z.divide_pos_le in Q; lia. }
  assert (PAIR : forall s, s = 1 \/ s = 2 -> (e + xc (pmul s G)) mod sm2n <> 0 ->
    exists s', (s' = s \/ s' = sm2n - s) /\ VerifyByRS (mkPub 0 0) id m ((e + xc (pmul s' G)) mod sm2n) s' = Ret true).
  { intros s HS R0. assert (RS : 1 <= s < sm2n) by lia. pose proof (modn_range (e + xc (pmul s G))) as RR.
    set (r := (e + xc (pmul s G)) mod sm2n) in *. destruct (Z.eq_dec ((r + s) mod sm2n) 0) as [T|T].
    - exists (sm2n - s). split; [auto|]. apply ACC; [reflexivity|lia| |]; rewrite neg_x by exact RS; fold r; [exact R0|].
      intro T'. apply Z.mod_divide in T; [|lia]. apply Z.mod_divide in T'; [|lia]. destruct T as [q T]. destruct T' as [q' T'].
      assert (q = 1) by nia. assert (q' = 1) by nia. subst. assert (sm2n = 2 * s) by lia. lia.
    - exists s. split; [auto|]. apply ACC; auto. }
  assert (R12 : (e + xc (pmul 1 G)) mod sm2n <> 0 \/ (e + xc (pmul 2 G)) mod sm2n <> 0).
  { exact (mod_apart e _ _ sm2n ltac:(discriminate) x_two). }
  destruct R12 as [R|R]; [destruct (PAIR 1 (or_introl eq_refl) R) as (s & HS & V)|destruct (PAIR 2 (or_intror eq_refl) R) as (s & HS & V)];
    exists s; (split; [|exact V]); cbn [In]; destruct HS as [->| ->]; tauto.
Qed.

(** What is encrypted to it is masked with a constant: the message can be read off with no key at all, and Decrypt does
    so with the scalar 0. *)
Theorem C96_encryption_is_open : forall m t tape c rest, good_msg m -> zlen m < 2 ^ 31 - 97 -> bytes tape ->
  Encrypt (mkPub 0 0) m t tape = Ret (OK c, rest) ->
  let c2 := if t =? 1 then skipn 65 (firstn (65 + List.length m) c) else skipn 97 c in
  m = map2 Z.lxor c2 (KDF (repeat 0 64) (List.length m)) /\ Decrypt (mkPriv 0) c t = Ret (OK m).
Proof.
  intros m t tape c rest GM LM HB E. split.
  - pose proof GM as (Hm & NE & Lm). assert (On : on_curve (dec (X (mkPub 0 0)) (Y (mkPub 0 0)))) by exact I.
    pose proof (Encrypt_ok (mkPub 0 0) m t tape HB Hm On Lm NE) as H. change (dec (X (mkPub 0 0)) (Y (mkPub 0 0))) with O in H.
    destruct (find _ (nonces tape)) as [[k r]|]; [|destruct H as (e & _ & H); rewrite H in E; discriminate].
    rewrite H in E. destruct ((t =? 1) || (t =? 2)) eqn:T; [|discriminate]. injection E as <- _. unfold ciphertext. cbv zeta. rewrite pmul_O.
    assert (EI : map2 Z.lxor (enc_c2 O m) (KDF (repeat 0 64) (List.length m)) = m).
    { change (repeat 0 64) with (point_bytes O). unfold enc_c2. apply map2_xor_invol. symmetry. apply KDF_length. }
    assert (LP : List.length (4 :: point_bytes (pmul k G)) = 65%nat) by (cbn [List.length]; rewrite point_bytes_length; reflexivity).
    rewrite app_comm_cons. destruct (t =? 1).
    + rewrite <- LP. rewrite firstn_app_2. rewrite skipn_app_exact by reflexivity.
      rewrite firstn_app_exact by (symmetry; apply enc_c2_length). symmetry. exact EI.
    + rewrite app_assoc. rewrite skipn_app_exact; [symmetry; exact EI|]. rewrite app_length, LP, enc_c3_length. reflexivity.
  - apply (C50_decrypt_inverts_encrypt (mkPriv 0) (mkPub 0 0) m t tape c rest); try assumption; [cbn [D]; lia|reflexivity|apply GM].
Qed.
Example C96_ex : good_id None /\ good_msg ex_msg /\ exists c, Encrypt (mkPub 0 0) ex_msg 1 ex_tape = Ret (OK c, []).
Proof.
  split; [exact I|]. split; [exact ex_msg_good|].
  destruct (Encrypt (mkPub 0 0) ex_msg 1 ex_tape) as [[[c|e] rest]|p] eqn:E; [exists c| |].
  2,3: exfalso; revert E; vm_compute; discriminate.
  assert (H : (match Encrypt (mkPub 0 0) ex_msg 1 ex_tape with Ret (_, t) => t | _ => [0] end) = []) by (vm_compute; reflexivity).
  rewrite E in H. subst rest. reflexivity.
Qed.

(** * C97: other pairs of coordinates *)

(** The curve y^2 = x^3 - 3x + b for another b, with the same chord-and-tangent addition. *)
Definition on_other (b : K) (P : point) : Prop := on K kadd kmul (kf (-3)) b P.
(** The b of the curve through (x, y), as an integer; the curve is singular for b = 2 and b = -2. *)
Definition other_b (x y : Z) : Z := y * y - x * x * x + 3 * x.
Definition smooth (x y : Z) : Prop := (other_b x y * other_b x y) mod sm2p <> 4.

Lemma three_nz : (k1 + k1 + k1)%K <> k0.
Proof. unfold k1. rewrite <- !kf_add. rewrite kf_0. discriminate. Qed.
Lemma on_other_own : forall x y, on_other (kf (other_b x y)) (A (kf x) (kf y)).
Proof.
  intros x y. unfold on_other, A, on, other_b. rewrite kf_m3. rewrite kf_add, kf_sub. rewrite !kf_mul.
  replace (kf 3) with (k1 + k1 + k1)%K by (unfold k1; rewrite <- !kf_add; reflexivity). ring.
Qed.
Lemma smooth_nonsing : forall x y, smooth x y -> forall u : K,
  (u * u * u + kf (-3) * u + kf (other_b x y))%K = k0 -> ((k1 + k1 + k1) * u * u + kf (-3))%K <> k0.
Proof.
  intros x y S u H1 H2. apply S. set (b := other_b x y) in *. clearbody b. rewrite kf_m3 in *.
  assert (U : (u * u)%K = k1).
  { apply (kmul_cancel (k1 + k1 + k1)%K); [exact three_nz|].
    transitivity ((k1 + k1 + k1) * u * u + kopp (k1 + k1 + k1) + (k1 + k1 + k1))%K; [ring|]. rewrite H2. ring. }
  assert (B : kf b = ((k1 + k1) * u)%K).
  { transitivity (u * u * u + kopp (k1 + k1 + k1) * u + kf b - u * (u * u) + (k1 + k1 + k1) * u)%K; [ring|]. rewrite H1, U. ring. }
  assert (E : kf (b * b) = kf 4).
  { rewrite kf_mul, B. transitivity ((k1 + k1) * (k1 + k1) * (u * u))%K; [ring|]. rewrite U. unfold k1. rewrite <- kf_add, <- !kf_mul. reflexivity. }
  apply kf_eq in E. rewrite E. reflexivity.
Qed.

(** The arithmetic of crypto/elliptic on such a curve. *)
Lemma add_rep_other : forall b j1 j2 P Q, on_other b P -> on_other b Q -> jrep j1 P -> jrep j2 Q ->
  jrep (addJacobian sm2p j1 j2) (padd P Q).
Proof.
  intros b [[x1 y1] z1] [[x2 y2] z2] P Q OP OQ JP JQ.
  destruct P as [|u1 v1].
  { destruct JP as (_ & ->). exact JQ. }
  destruct Q as [|u2 v2].
  { destruct JP as (R1 & N1 & H1). destruct JQ as (_ & ->). unfold addJacobian.
    rewrite (proj2 (Z.eqb_neq z1 0) N1). exact (conj R1 (conj N1 H1)). }
  pose proof JP as JP'.
  destruct JP as (R1 & N1 & X1 & Y1). destruct JQ as (R2 & N2 & X2 & Y2).
  assert (K1 : kf z1 <> k0) by (intro Z0; apply N1; apply (kf_small_0 z1 R1); exact Z0).
  assert (K2 : kf z2 <> k0) by (intro Z0; apply N2; apply (kf_small_0 z2 R2); exact Z0).
  destruct (addJacobian_kf x1 y1 z1 x2 y2 z2 N1 N2) as (D & N).
  rewrite X1, X2, Y1, Y2 in D, N.
  set (Z1 := kf z1) in *. set (Z2 := kf z2) in *.
  change (Aff K u1 v1) with (A u1 v1) in *. change (Aff K u2 v2) with (A u2 v2) in *.
  destruct (K_dec u1 u2) as [EU|NU].
  - subst u2. destruct (same_x K k0 k1 kadd kmul ksub kopp kdiv kinv K_field K_dec (kf (-3)) b u1 v1 v2 OP OQ) as [EV|EV].
    + subst v2. rewrite D; [|split; ring]. apply double_rep. exact JP'.
    + rewrite padd_opp by exact EV.
      destruct (K_dec v1 v2) as [EV2|NV].
      * subst v2. rewrite D; [|split; ring].
        pose proof (double_rep _ _ JP') as DR. rewrite (padd_opp u1 v1 v1 EV) in DR. exact DR.
      * destruct N as (x3 & y3 & z3 & -> & R3 & _ & _ & EZ).
        { intros (_ & ES). apply NV. apply (kmul_cancel (Z1 * Z1 * Z1 * (Z2 * Z2 * Z2))%K).
          - repeat apply kmul_nz; assumption.
          - transitivity (v1 * (Z1 * Z1 * Z1) * Z2 * (Z2 * Z2))%K; [ring|]. rewrite ES. ring. }
        split; [exact R3|]. apply (kf_small_0 z3 R3). rewrite EZ. ring.
  - destruct N as (x3 & y3 & z3 & -> & R3 & EX & EY & EZ).
    { intros (EU & _). apply NU. apply (kmul_cancel (Z1 * Z1 * (Z2 * Z2))%K).
      - repeat apply kmul_nz; assumption.
      - transitivity (u1 * (Z1 * Z1) * (Z2 * Z2))%K; [ring|]. rewrite EU. ring. }
    rewrite (padd_diff u1 v1 u2 v2 NU). cbv zeta. unfold A.
    assert (NU' : (u2 - u1)%K <> k0) by (intro E; apply ksub_z in E; congruence).
    assert (N3 : kf z3 <> k0).
    { rewrite EZ. replace (u2 * (Z2 * Z2) * (Z1 * Z1) - u1 * (Z1 * Z1) * (Z2 * Z2))%K
        with (Z2 * Z2 * (Z1 * Z1) * (u2 - u1))%K by ring.
      repeat apply kmul_nz; auto using k2_nz. }
    split; [exact R3|]. split; [intro Z0; apply N3; apply (kf_small_0 z3 R3); exact Z0|].
    rewrite EX, EY, EZ. clear - K1 K2 NU'. clearbody Z1 Z2.
    split; field; exact NU'.
Qed.

Section Other.
Variables x y : Z.
Hypothesis SM : smooth x y.
Let b := kf (other_b x y).
Let P := A (kf x) (kf y).
Lemma other_on : on_other b P. Proof. apply on_other_own. Qed.
Lemma other_mul_on : forall k, on_other b (pmul k P).
Proof. intro k. exact (mul_on K k0 k1 kadd kmul ksub kopp kdiv kinv K_field K_dec k2_nz (kf (-3)) b k P other_on). Qed.
Lemma other_mul_add : forall k l, 0 <= k -> 0 <= l -> pmul (k + l) P = padd (pmul k P) (pmul l P).
Proof.
  intros k l Hk Hl. exact (mul_add K k0 k1 kadd kmul ksub kopp kdiv kinv K_field K_dec k2_nz (kf (-3)) b (smooth_nonsing x y SM) k l P other_on Hk Hl).
Qed.
Lemma other_mul_mod : forall n k, 0 < n -> 0 <= k -> pmul n P = O -> pmul (k mod n) P = pmul k P.
Proof.
  intros n k Hn Hk E. exact (mul_mod K k0 k1 kadd kmul ksub kopp kdiv kinv K_field K_dec k2_nz (kf (-3)) b (smooth_nonsing x y SM) n k P other_on Hn Hk E).
Qed.

Lemma sm_bits_other : forall n i m a j,
  0 <= m -> 0 <= a < 256 -> jrep j (pmul m P) ->
  exists m' a' j', for_loop n i (fun _ => sm_bit sm2p x y) (a, j) = (a', j') /\
    0 <= m' /\ 0 <= a' < 256 /\ jrep j' (pmul m' P) /\
    m' * 256 + a' = 2 ^ Z.of_nat n * (m * 256 + a) /\
    (forall q, (2 ^ q | a) -> 0 <= q -> (q + Z.of_nat n <= 8) -> (2 ^ (q + Z.of_nat n) | a')).
Proof.
  induction n as [|n IH]; intros i m a j Hm Hb Hj.
  - exists m, a, j. split; [reflexivity|]. repeat split; try lia; try assumption.
    intros q D Hq _. cbn [Z.of_nat]. rewrite Z.add_0_r. exact D.
  - cbn [for_loop]. set (st := sm_bit sm2p x y (a, j)).
    assert (S1 : exists j1, st = (u8 (Z.shiftl a 1), j1) /\ jrep j1 (pmul (2 * m + a / 128) P)).
    { unfold st, sm_bit. eexists. split; [reflexivity|]. rewrite bit7 by exact Hb.
      pose proof (double_rep _ _ Hj) as D. rewrite <- other_mul_add in D by lia.
      destruct (Z.leb_spec 128 a) as [L|L].
      - replace (a / 128) with 1 by (apply Z.div_unique with (a - 128); lia).
        replace (2 * m + 1) with (1 + (m + m)) by lia. rewrite other_mul_add by lia.
        apply (add_rep_other b); [apply other_mul_on|apply other_mul_on| |exact D]. rewrite pmul_1. apply rep_one.
      - rewrite (Z.div_small a 128) by lia. replace (2 * m + 0) with (m + m) by lia. exact D. }
    destruct S1 as (j1 & E1 & R1). rewrite E1.
    assert (Eb : u8 (Z.shiftl a 1) = 2 * a - 256 * (a / 128)).
    { unfold u8. rewrite Z.shiftl_mul_pow2 by lia. change (2 ^ 1) with 2.
      pose proof (Z.div_mod a 128 ltac:(lia)). pose proof (Z.mod_pos_bound a 128 ltac:(lia)).
      symmetry. apply Zmod_unique with (a / 128); lia. }
    pose proof (Z.div_pos a 128 ltac:(lia) ltac:(lia)).
    destruct (IH (i + 1) (2 * m + a / 128) (u8 (Z.shiftl a 1)) j1) as (m' & b' & j' & E & Hm' & Hb' & R' & EV & DV);
      [lia|unfold u8; apply Z.mod_pos_bound; lia|exact R1|].
    exists m', b', j'. split; [exact E|]. split; [exact Hm'|]. split; [exact Hb'|]. split; [exact R'|]. split.
    + rewrite EV, Eb. rewrite Nat2Z.inj_succ, Z.pow_succ_r by lia. ring.
    + intros q D Hq Hq8. rewrite Nat2Z.inj_succ in *.
      replace (q + Z.succ (Z.of_nat n)) with (q + 1 + Z.of_nat n) by lia. apply DV; [|lia|lia].
      rewrite Eb. rewrite Z.pow_add_r by lia. change (2 ^ 1) with 2.
      apply Z.divide_sub_r.
      * rewrite Z.mul_comm. apply Z.mul_divide_mono_l. exact D.
      * apply Z.divide_mul_l. change 256 with (2 ^ 8). change (2 ^ q * 2) with (2 ^ q * 2 ^ 1). rewrite <- (Z.pow_add_r 2 q 1) by lia.
        exists (2 ^ (8 - (q + 1))). rewrite <- Z.pow_add_r by lia. f_equal. lia.
Qed.
Lemma sm_byte_other : forall m a j, 0 <= m -> 0 <= a < 256 -> jrep j (pmul m P) -> jrep (sm_byte sm2p x y j a) (pmul (m * 256 + a) P).
Proof.
  intros m a j Hm Hb Hj. unfold sm_byte.
  destruct (sm_bits_other 8 0 m a j Hm Hb Hj) as (m' & b' & j' & -> & Hm' & Hb' & R & EV & DV). cbn [snd].
  change (Z.of_nat 8) with 8 in *. change (2 ^ 8) with 256 in EV.
  destruct (DV 0 (Z.divide_1_l a) ltac:(lia) ltac:(lia)) as [q Q]. change (2 ^ (0 + 8)) with 256 in Q.
  replace (m * 256 + a) with m' by lia. exact R.
Qed.
Lemma ScalarMult_other : forall k, bytes k -> ScalarMult sm2p x y k = Ret (enc (pmul (be_dec k) P)).
Proof.
  intros k Hk. unfold ScalarMult. apply affine_rep.
  assert (W : forall k m j, bytes k -> 0 <= m -> jrep j (pmul m P) ->
    jrep (fold_left (sm_byte sm2p x y) k j) (pmul (fold_left (fun a b => a * 256 + b) k m) P)).
  { clear k Hk. induction k as [|a k IH]; intros m j Hk Hm Hj; [exact Hj|]. cbn [fold_left].
    apply bytes_cons in Hk. destruct Hk as [Hb Hk]. unfold byte in Hb. apply IH; [exact Hk|lia|].
    apply sm_byte_other; assumption. }
  apply (W k 0 (0, 0, 0)); [exact Hk|lia|]. split; [split; [lia|reflexivity]|reflexivity].
Qed.
Lemma mult_other_z : forall k, 0 <= k -> curveScalarMult x y (BigBytes k) = Ret (xc (pmul k P), yc (pmul k P)).
Proof.
  intros k H. unfold curveScalarMult. rewrite curveP_eq, BigBytes_ok by exact H.
  rewrite ScalarMult_other by apply be_min_bytes. rewrite be_dec_min by exact H. rewrite enc_xy. reflexivity.
Qed.

Lemma encrypt_loop_other : forall fuel inp d tape, (List.length tape <= fuel)%nat -> bytes tape ->
  zlen inp < 2 ^ 32 -> sized d ->
  match find (fun kr => masks P inp (fst kr)) (nonces tape) with
  | Some (k, r) => exists d', sized d' /\
      encrypt_loop fuel (mkPub x y) inp inp d tape =
        Ret (OK (4 :: point_bytes (pmul k G), enc_c2 (pmul k P) inp, xc (pmul k P), yc (pmul k P), d'), r)
  | None => exists e, is_eof e /\ encrypt_loop fuel (mkPub x y) inp inp d tape = Ret (ERR e, [])
  end.
Proof.
  induction fuel as [|fuel IH]; intros inp d tape HL HB HI Sd; cbn [encrypt_loop X Y];
    destruct (nextK_ok tape HB) as [(k & r & -> & R & L & B & N)|(e & EE & -> & N)]; try (rewrite N; cbn [find]; exists e; auto; fail).
  - lia.
  - cbv zeta. rewrite base_mult_z by lia. cbn [bind]. rewrite Marshal_pt. cbn [bind].
    rewrite mult_other_z by lia. cbn [bind].
    destruct (kdf_point d (pmul k P) inp Sd HI) as (d' & -> & Sd'). cbn [bind].
    rewrite notEncrypted_ok by apply enc_c2_length. cbn [bind]. rewrite N. cbn [find fst].
    unfold masks at 1. destruct (list_eq_dec Z.eq_dec (enc_c2 (pmul k P) inp) inp) as [E|E]; cbn [negb].
    + rewrite E. apply IH; try assumption. lia.
    + exists d'. split; [exact Sd'|reflexivity].
Qed.
Lemma Encrypt_other : forall inp t tape, bytes tape -> good_msg inp ->
  match find (fun kr => masks P inp (fst kr)) (nonces tape) with
  | Some (k, r) => Encrypt (mkPub x y) inp t tape =
      Ret (if (t =? 1) || (t =? 2) then OK (ciphertext P inp k t) else ERR (unknownType t), r)
  | None => exists e, is_eof e /\ Encrypt (mkPub x y) inp t tape = Ret (ERR e, [])
  end.
Proof.
  intros inp t tape HB (HI & NE & HL).
  pose proof (encrypt_loop_other (List.length tape) inp New tape (le_n _) HB ltac:(lia) sized_New) as H.
  destruct (find _ (nonces tape)) as [[k r]|].
  - destruct H as (d' & Sd & H). unfold Encrypt. rewrite H. cbn [bind].
    rewrite !to32_ok by (apply xc_range || apply yc_range). cbn [bind].
    destruct (hashOf_ok d' [b32 (xc (pmul k P)); inp; b32 (yc (pmul k P))] Sd) as (d2 & E2 & _).
    { apply Forall_cons; [apply good32|]. apply Forall_cons; [split; [exact HI|split; [exact NE|exact HL]]|].
      apply Forall_cons; [apply good32|constructor]. }
    { cbn [List.concat]. rewrite app_nil_r, !zlen_app, !b32_len. lia. }
    rewrite E2. cbn [bind List.concat]. rewrite app_nil_r. fold (enc_c3 (pmul k P) inp). unfold C1C2C3, C1C3C2, ciphertext. cbv zeta.
    destruct (t =? 1); cbn [orb]; [reflexivity|]. destruct (t =? 2); reflexivity.
  - destruct H as (e & EE & H). exists e. split; [exact EE|]. unfold Encrypt. rewrite H. reflexivity.
Qed.
End Other.

(** ScalarMult computes on the curve through the point it is given, whichever that is. *)
Theorem C97_scalar_mult : forall x y k, smooth x y -> 0 <= k ->
  curveScalarMult x y (BigBytes k) = Ret (enc (pmul k (A (kf x) (kf y)))) /\ on_other (kf (other_b x y)) (pmul k (A (kf x) (kf y))).
Proof. intros x y k S Hk. split; [|apply other_mul_on]. rewrite mult_other_z by assumption. rewrite enc_xy. reflexivity. Qed.

(** Encrypting to it: when n times the point is infinity on its own curve, the point that hides the message is one of
    n known ones, so that the message is one of n that can be computed from the ciphertext. *)
Theorem C97_encryption : forall x y n m t tape c rest, smooth x y -> 0 < n -> pmul n (A (kf x) (kf y)) = O ->
  good_msg m -> bytes tape -> Encrypt (mkPub x y) m t tape = Ret (OK c, rest) ->
  let c2 := if t =? 1 then skipn 65 (firstn (65 + List.length m) c) else skipn 97 c in
  exists i, 0 <= i < n /\ m = map2 Z.lxor c2 (KDF (point_bytes (pmul i (A (kf x) (kf y)))) (List.length m)).
Proof.
  intros x y n m t tape c rest SM Hn ON GM HB E. pose proof (Encrypt_other x y SM m t tape HB GM) as H.
  set (P := A (kf x) (kf y)) in *.
  destruct (find _ (nonces tape)) as [[k r]|] eqn:F; [|destruct H as (e & _ & H); rewrite H in E; discriminate].
  rewrite H in E. destruct ((t =? 1) || (t =? 2)) eqn:T; [|discriminate]. injection E as <- _.
  assert (RK : 1 <= k).
  { apply find_some in F. destruct F as [F _]. rewrite C43_nonces_are_blocks in F. apply in_map_iff in F. destruct F as (i & E & F).
    injection E as <- _. apply filter_In in F. destruct F as [_ F]. apply andb_prop in F. destruct F as [H1 _]. apply Z.leb_le in H1. lia. }
  cbv zeta. exists (k mod n). split; [apply Z.mod_pos_bound, Hn|]. pose proof (other_mul_mod x y SM n k Hn ltac:(lia) ON) as M. fold P in M. rewrite M.
  assert (EI : map2 Z.lxor (enc_c2 (pmul k P) m) (KDF (point_bytes (pmul k P)) (List.length m)) = m).
  { unfold enc_c2. apply map2_xor_invol. symmetry. apply KDF_length. }
  assert (LP : List.length (4 :: point_bytes (pmul k G)) = 65%nat) by (cbn [List.length]; rewrite point_bytes_length; reflexivity).
  unfold ciphertext. cbv zeta. rewrite app_comm_cons. destruct (t =? 1).
  + rewrite <- LP. rewrite firstn_app_2. rewrite skipn_app_exact by reflexivity.
    rewrite firstn_app_exact by (symmetry; apply enc_c2_length). symmetry. exact EI.
  + rewrite app_assoc. rewrite skipn_app_exact; [symmetry; exact EI|]. rewrite app_length, LP, enc_c3_length. reflexivity.
Qed.

(** Verifying with it: when t = r + s times the point is infinity, the key plays no role and the equation is one that
    anybody can satisfy by choosing s first. *)
Theorem C97_verification : forall x y id m r s, 0 <= x < 2 ^ 256 -> 0 <= y < 2 ^ 256 -> smooth x y -> good_id id -> good_msg m ->
  pmul ((r + s) mod curveN) (A (kf x) (kf y)) = O ->
  (VerifyByRS (mkPub x y) id m r s = Ret true <->
   1 <= r < curveN /\ 1 <= s < curveN /\ r + s <> curveN /\ r = (msg_e (effective_id id) x y m + xc (pmul s G)) mod curveN).
Proof.
  intros x y id m r s HX HY SM Hid (Hm & NE & Lm) TO. unfold VerifyByRS. rewrite curveN_eq in *. cbn [X Y].
  set (e := msg_e (effective_id id) x y m). assert (NP : 4 < sm2n) by reflexivity.
  destruct ((r <? 1) || (sm2n <=? r)) eqn:CR.
  { split; [discriminate|]. intros (R & _). apply orb_true_iff in CR. destruct CR as [CR|CR]; [apply Z.ltb_lt in CR|apply Z.leb_le in CR]; lia. }
  destruct ((s <? 1) || (sm2n <=? s)) eqn:CS.
  { split; [discriminate|]. intros (_ & R & _). apply orb_true_iff in CS. destruct CS as [CS|CS]; [apply Z.ltb_lt in CS|apply Z.leb_le in CS]; lia. }
  apply orb_false_iff in CR, CS. destruct CR as [R1 R2]. destruct CS as [S1 S2].
  apply Z.ltb_ge in R1, S1. apply Z.leb_gt in R2, S2.
  rewrite effective_id_eq. destruct (good_id_eff id Hid) as [B L].
  destruct (calculateE_ok x y (effective_id id) m HX HY B L Hm NE Lm) as (d' & ->). cbn [bind]. fold e. cbv zeta.
  pose proof (modn_range (r + s)) as RT.
  assert (TZ : (r + s) mod sm2n = 0 <-> r + s = sm2n).
  { split; [|intros ->; apply Z.mod_same; lia]. intro T. apply Z.mod_divide in T; [|lia]. destruct T as [q T]. assert (q = 1) by nia. subst q. lia. }
  set (t := (r + s) mod sm2n) in *.
  destruct (Z.eqb_spec t 0) as [T0|T0].
  { split; [discriminate|]. intros (_ & _ & T & _). apply TZ in T0. contradiction. }
  rewrite base_mult_z by lia. cbn [bind]. rewrite mult_other_z by (assumption || lia). cbn [bind]. rewrite TO.
  change (xc O) with 0. change (yc O) with 0. change 0 with (xc O) at 1. change 0 with (yc O) at 1.
  rewrite add_pts by ((apply pmul_on; exact G_on) || exact I). cbn [bind]. rewrite padd_O_r.
  assert (NQ : pmul s G <> O). { intro Q. apply G_mul_O in Q; [|lia]. apply Z.divide_pos_le in Q; lia. }
  destruct (IsEcPointInfinity (xc (pmul s G)) (yc (pmul s G))) eqn:I. { apply inf_test in I; [contradiction|apply pmul_on, G_on]. }
  split; intro H.
  - apply ret_inj in H. apply Z.eqb_eq in H. split; [lia|]. split; [lia|]. split; [|symmetry; exact H]. intro Q. apply T0, TZ, Q.
  - destruct H as (_ & _ & _ & H). f_equal. apply Z.eqb_eq. symmetry. exact H.
Qed.

(** The sharpest case: a second coordinate 0 makes every even multiple infinity. *)
Theorem C97_two_secrets : forall x k, smooth x 0 -> 0 <= x < sm2p -> 0 <= k ->
  curveScalarMult x 0 (BigBytes k) = Ret (if Z.even k then (0, 0) else (x, 0)).
Proof.
  intros x k SM RX Hk. rewrite mult_other_z by assumption. set (P := A (kf x) (kf 0)).
  assert (P2 : pmul 2 P = O).
  { change 2 with (1 + 1). unfold P. rewrite other_mul_add by (assumption || lia). rewrite pmul_1. apply padd_opp. rewrite <- kf_add. reflexivity. }
  pose proof (other_mul_mod x 0 SM 2 k ltac:(lia) Hk P2) as M. fold P in M. rewrite <- M. rewrite Zmod_even. destruct (Z.even k).
  - reflexivity.
  - rewrite pmul_1. unfold xc, yc, P. cbn [enc A fst snd]. unfold kf. rewrite !fv_F, !Z.mod_small by (lia || (split; [lia|reflexivity])). reflexivity.
Qed.
Example C97_ex : smooth 5 0 /\ RawBytesToPublicKey (be_enc 32 5 ++ repeat 0 32) = OK (mkPub 5 0) /\ pmul 2 (A (kf 5) (kf 0)) = O /\
  IsOnCurve curveP curveB 5 0 = false.
Proof.
  split; [vm_compute; discriminate|]. split; [vm_compute; reflexivity|]. split; [|vm_compute; reflexivity].
  change 2 with (1 + 1). rewrite other_mul_add by (try lia; vm_compute; discriminate). rewrite pmul_1. apply padd_opp. rewrite <- kf_add. reflexivity.
Qed.
