(** What equal parts of SM2 outputs imply: reused random bytes in Encrypt (C104), the hash part of a ciphertext
    (C105) and the confirmation tags of the key exchange (C106). *)
From Coq Require Import ZArith Znumtheory List Lia Bool String.
From Verif Require Import GoBase BeMin Sm3Spec FpField Primes Sm2Primes WeiGroup GoElliptic Sm2Group Sm2Spec Sm3 Sm2 Sm2Order PropsCurve Sm2Proofs Sm2Proofs2 PropsSm3 PropsSm2
  PropsSm2Sec Sm2Cyclic PropsSm2Full KexSpec KeyExchange PropsKex Sm2VecCert KexVecCert Vectors.
Import ListNotations.
Open Scope Z_scope.

(** * C104: random bytes used twice, or known *)

(** Where the masked message starts in a ciphertext of order t. *)
Definition masked_at (t : Z) : nat := if t =? 1 then 65 else 97.
(** The byte of the message's mask at position i. *)
Definition at_ (c : list Z) (i : nat) : Z := nth i c 0.

Lemma enc_made : forall pub m t tape c rest, bytes tape -> good_msg m -> on_curve (dec (X pub) (Y pub)) -> Encrypt pub m t tape = Ret (OK c, rest) ->
  exists k, find (fun kr => masks (dec (X pub) (Y pub)) m (fst kr)) (nonces tape) = Some (k, rest) /\ (t = 1 \/ t = 2) /\
    c = ciphertext (dec (X pub) (Y pub)) m k t.
Proof.
  intros pub m t tape c rest BT (BM & NE & Lm) On E. pose proof (Encrypt_ok pub m t tape BT BM On Lm NE) as H.
  destruct (find _ (nonces tape)) as [[k r]|]; [|destruct H as (e & _ & H); rewrite H in E; discriminate].
  rewrite H in E. destruct ((t =? 1) || (t =? 2)) eqn:T; [|discriminate]. apply ret_inj in E. exists k.
  split; [congruence|]. split; [|congruence]. apply orb_prop in T. destruct T as [T|T]; apply Z.eqb_eq in T; auto.
Qed.

Lemma nonce_range : forall tape k r, In (k, r) (nonces tape) -> 1 <= k < sm2n.
Proof.
  intros tape k r F. rewrite C43_nonces_are_blocks in F. apply in_map_iff in F. destruct F as (i & E & F).
  apply filter_In in F. destruct F as [_ F]. apply andb_prop in F. destruct F as [H1 H2].
  apply Z.leb_le in H1. apply Z.ltb_lt in H2. injection E as <- _. lia.
Qed.

Lemma nth_skip : forall n (l : list Z) i, nth i (skipn n l) 0 = nth (n + i) l 0.
Proof. induction n as [|n IH]; intros [|x l] i; cbn [skipn Nat.add nth]; try reflexivity; [destruct i; reflexivity|apply IH]. Qed.
Lemma nth_first : forall n (l : list Z) i, (i < n)%nat -> nth i (firstn n l) 0 = nth i l 0.
Proof. induction n as [|n IH]; intros [|x l] [|i] H; try lia; cbn [firstn nth]; try reflexivity. apply IH. lia. Qed.
Lemma app_inj_len : forall (a b c d : list Z), List.length a = List.length c -> a ++ b = c ++ d -> a = c /\ b = d.
Proof.
  induction a as [|x a IH]; intros b [|y c] d L E; try discriminate; [auto|]. cbn [app] in E. injection E as -> E.
  destruct (IH b c d) as [-> ->]; auto.
Qed.

Lemma nth_map2 : forall l m i, List.length l = List.length m -> at_ (map2 Z.lxor l m) i = Z.lxor (at_ l i) (at_ m i).
Proof.
  unfold at_. induction l as [|x l IH]; intros [|y m] [|i] L; try discriminate; cbn [map2 nth]; try reflexivity.
  apply IH. cbn in L. lia.
Qed.

Lemma mask_nth : forall P m k t i, (t = 1 \/ t = 2) -> (i < List.length m)%nat ->
  at_ (ciphertext P m k t) (masked_at t + i) = Z.lxor (at_ m i) (at_ (KDF (point_bytes (pmul k P)) (List.length m)) i).
Proof.
  intros P m k t i T L. rewrite <- nth_map2 by (rewrite KDF_length; reflexivity). fold (enc_c2 (pmul k P) m).
  destruct (ciphertext_parts P m k t) as (PL & _ & P2 & _). rewrite <- P2. unfold at_, masked_at, c2_of. destruct T as [->| ->].
  - change (1 =? 1) with true. cbv iota. rewrite PL.
    rewrite nth_first by lia. rewrite nth_skip. reflexivity.
  - change (2 =? 1) with false. cbv iota. rewrite nth_skip. reflexivity.
Qed.

Lemma masks_stream : forall P m k, masks P m k = existsb (fun b => negb (b =? 0)) (KDF (point_bytes (pmul k P)) (List.length m)).
Proof.
  intros P m k. unfold masks, enc_c2. set (K := KDF _ _). assert (L : List.length m = List.length K) by (unfold K; rewrite KDF_length; reflexivity).
  clearbody K. revert K L. induction m as [|x m IH]; intros [|y K] L; try discriminate; [reflexivity|].
  cbn [map2 existsb]. specialize (IH K ltac:(cbn in L; lia)).
  destruct (Z.eqb_spec y 0) as [->|N]; cbn [negb orb].
  - rewrite Z.lxor_0_r. rewrite <- IH. destruct (list_eq_dec Z.eq_dec (map2 Z.lxor m K) m) as [E|E].
    + rewrite E. destruct (list_eq_dec Z.eq_dec (x :: m) (x :: m)); [reflexivity|congruence].
    + destruct (list_eq_dec Z.eq_dec (x :: map2 Z.lxor m K) (x :: m)); [congruence|reflexivity].
  - destruct (list_eq_dec Z.eq_dec (Z.lxor x y :: map2 Z.lxor m K) (x :: m)) as [E|]; [|reflexivity].
    exfalso. apply N. assert (E1 : Z.lxor x y = x) by congruence.
    rewrite <- (Z.lxor_0_l y), <- (Z.lxor_nilpotent x), Z.lxor_assoc, E1. reflexivity.
Qed.

Lemma xor_twice : forall a b s, Z.lxor (Z.lxor a s) (Z.lxor b s) = Z.lxor a b.
Proof.
  intros a b s. rewrite Z.lxor_assoc, (Z.lxor_comm b s), <- (Z.lxor_assoc s s b), Z.lxor_nilpotent, Z.lxor_0_l. reflexivity.
Qed.

(** The same random bytes for two messages of equal length: the second call also succeeds and leaves the same
    bytes, the first 65 bytes are the same, and the masked bytes differ exactly as the messages do. *)
Theorem C104_same_bytes : forall pub m1 m2 t tape c1 rest, valid (X pub, Y pub) -> good_msg m1 -> good_msg m2 ->
  List.length m1 = List.length m2 -> bytes tape -> Encrypt pub m1 t tape = Ret (OK c1, rest) ->
  exists c2, Encrypt pub m2 t tape = Ret (OK c2, rest) /\ firstn 65 c2 = firstn 65 c1 /\
    forall i, (i < List.length m1)%nat ->
      Z.lxor (at_ c1 (masked_at t + i)) (at_ c2 (masked_at t + i)) = Z.lxor (at_ m1 i) (at_ m2 i).
Proof.
  intros pub m1 m2 t tape c1 rest V G1 G2 L BT E. destruct (valid_on _ _ V) as [On _].
  destruct (enc_made pub m1 t tape c1 rest BT G1 On E) as (k & F & T & ->).
  set (P := dec (X pub) (Y pub)) in *.
  assert (F2 : find (fun kr => masks P m2 (fst kr)) (nonces tape) = Some (k, rest)).
  { rewrite <- F. generalize (nonces tape). induction l as [|[q r] l IH]; [reflexivity|]. cbn [find fst]. rewrite !masks_stream, L.
    destruct (existsb _ _); [reflexivity|exact IH]. }
  exists (ciphertext P m2 k t). split.
  - destruct G2 as (BM & NE & Lm). pose proof (Encrypt_ok pub m2 t tape BT BM On Lm NE) as H. fold P in H. rewrite F2 in H.
    rewrite H. destruct T as [->| ->]; reflexivity.
  - split.
    + destruct (ciphertext_parts P m1 k t) as (_ & -> & _). destruct (ciphertext_parts P m2 k t) as (_ & -> & _). reflexivity.
    + intros i Hi. rewrite (mask_nth P m1 k t i T Hi), (mask_nth P m2 k t i T) by lia. rewrite <- L. apply xor_twice.
Qed.

Lemma point_bytes_inj : forall P Q, on_curve P -> on_curve Q -> point_bytes P = point_bytes Q -> P = Q.
Proof.
  intros P Q OP OQ E. apply enc_inj; [exact OP|exact OQ|]. rewrite !enc_xy. unfold point_bytes, b32 in E.
  apply app_inj_len in E; [|rewrite !be_enc_length; reflexivity]. destruct E as [E1 E2].
  pose proof (xc_range P). pose proof (xc_range Q). pose proof (yc_range P). pose proof (yc_range Q).
  apply (f_equal be_dec) in E1. apply (f_equal be_dec) in E2.
  rewrite !be_dec_enc_small in E1, E2 by (change (256 ^ Z.of_nat 32) with (2 ^ 256); lia). rewrite E1, E2. reflexivity.
Qed.
Lemma c1_nonce : forall k k', 1 <= k < sm2n -> 1 <= k' < sm2n -> 4 :: point_bytes (pmul k G) = 4 :: point_bytes (pmul k' G) -> k = k'.
Proof.
  intros k k' H H' E. apply multiple_unique; [lia|lia|]. apply point_bytes_inj; [apply pmul_on, G_on|apply pmul_on, G_on|]. congruence.
Qed.

Lemma KDF_prefix : forall z n m i, (i < n)%nat -> (i < m)%nat -> at_ (KDF z n) i = at_ (KDF z m) i.
Proof.
  intros z n m i. unfold at_, KDF. generalize 1%nat at 1 2. revert m i. induction n as [n IH] using lt_wf_ind. intros m i b Hn Hm.
  destruct (Nat.le_gt_cases 32 n) as [A|A]; destruct (Nat.le_gt_cases 32 m) as [B|B].
  - rewrite (kdf_from_long z b n A), (kdf_from_long z b m B). destruct (Nat.le_gt_cases 32 i) as [C|C].
    + rewrite (app_nth2 _ (kdf_from z (S b) (n - 32))), (app_nth2 _ (kdf_from z (S b) (m - 32))) by (rewrite kdf_block_length; lia).
      rewrite kdf_block_length. apply IH; lia.
    + rewrite (app_nth1 _ (kdf_from z (S b) (n - 32))), (app_nth1 _ (kdf_from z (S b) (m - 32))) by (rewrite kdf_block_length; lia). reflexivity.
  - rewrite (kdf_from_long z b n A), (kdf_from_short z b m) by lia. rewrite app_nth1 by (rewrite kdf_block_length; lia).
    rewrite nth_first by lia. reflexivity.
  - rewrite (kdf_from_long z b m B), (kdf_from_short z b n) by lia. rewrite app_nth1 by (rewrite kdf_block_length; lia).
    rewrite nth_first by lia. reflexivity.
  - rewrite !kdf_from_short by lia. rewrite !nth_first by lia. reflexivity.
Qed.

(** Any two ciphertexts for one key with the same first 65 bytes, whatever the random bytes, lengths and orders: the
    masked bytes differ as the messages do, as far as the shorter one goes. *)
Theorem C104_same_start : forall pub m1 m2 t1 t2 tape1 tape2 c1 c2 rest1 rest2, valid (X pub, Y pub) -> good_msg m1 -> good_msg m2 ->
  bytes tape1 -> bytes tape2 -> Encrypt pub m1 t1 tape1 = Ret (OK c1, rest1) -> Encrypt pub m2 t2 tape2 = Ret (OK c2, rest2) ->
  firstn 65 c1 = firstn 65 c2 ->
  forall i, (i < List.length m1)%nat -> (i < List.length m2)%nat ->
    Z.lxor (at_ c1 (masked_at t1 + i)) (at_ c2 (masked_at t2 + i)) = Z.lxor (at_ m1 i) (at_ m2 i).
Proof.
  intros pub m1 m2 t1 t2 tape1 tape2 c1 c2 rest1 rest2 V G1 G2 B1 B2 E1 E2 ES i H1 H2. destruct (valid_on _ _ V) as [On _].
  destruct (enc_made pub m1 t1 tape1 c1 rest1 B1 G1 On E1) as (k1 & F1 & T1 & ->).
  destruct (enc_made pub m2 t2 tape2 c2 rest2 B2 G2 On E2) as (k2 & F2 & T2 & ->).
  set (P := dec (X pub) (Y pub)) in *.
  apply find_some in F1, F2. destruct F1 as [F1 _], F2 as [F2 _]. apply nonce_range in F1, F2.
  destruct (ciphertext_parts P m1 k1 t1) as (_ & A1 & _). destruct (ciphertext_parts P m2 k2 t2) as (_ & A2 & _). rewrite A1, A2 in ES.
  pose proof (c1_nonce k1 k2 F1 F2 ES) as ->.
  rewrite (mask_nth P m1 k2 t1 i T1 H1), (mask_nth P m2 k2 t2 i T2 H2).
  rewrite (KDF_prefix _ (List.length m2) (List.length m1) i H2 H1). apply xor_twice.
Qed.

(** The random bytes open the ciphertext: one of their 32-byte blocks is a number k with [k]G in the ciphertext's
    first 65 bytes, and whoever has such a number reads the message with the public key alone. *)
Theorem C104_random_bytes_open : forall pub m t tape c rest, valid (X pub, Y pub) -> good_msg m -> bytes tape ->
  Encrypt pub m t tape = Ret (OK c, rest) ->
  let fits k := 1 <= k < curveN /\ firstn 65 c = 4 :: point_bytes (pmul k G) in
  (exists j, (32 * j + 32 <= List.length tape)%nat /\ fits (be_dec (firstn 32 (skipn (32 * j) tape)))) /\
  forall k, fits k -> m = map2 Z.lxor (firstn (List.length c - 97) (skipn (masked_at t) c))
                            (KDF (point_bytes (pmul k (dec (X pub) (Y pub)))) (List.length c - 97)).
Proof.
  intros pub m t tape c rest V GM BT E fits. destruct (valid_on _ _ V) as [On _].
  destruct (enc_made pub m t tape c rest BT GM On E) as (k & F & T & EC).
  set (P := dec (X pub) (Y pub)) in *. apply find_some in F. destruct F as [F _].
  destruct (ciphertext_parts P m k t) as (PL & P1 & P2 & _). rewrite <- EC in PL, P1, P2.
  pose proof (nonce_range _ _ _ F) as R. split.
  - rewrite C43_nonces_are_blocks in F. apply in_map_iff in F. destruct F as (j & EJ & F).
    apply filter_In in F. destruct F as [FI F]. apply in_seq in FI. exists j.
    injection EJ as EJ _. unfold block in EJ.
    assert (32 * j + 32 <= List.length tape)%nat.
    { pose proof (Nat.div_mod (List.length tape) 32 ltac:(lia)). lia. }
    split; [assumption|]. rewrite EJ. split; [rewrite curveN_eq; exact R|exact P1].
  - intros k' [R' E']. rewrite curveN_eq in R'. rewrite P1 in E'. pose proof (c1_nonce k k' R R' E') as <-.
    assert (C2 : firstn (List.length c - 97) (skipn (masked_at t) c) = enc_c2 (pmul k P) m).
    { rewrite <- P2. unfold c2_of, masked_at. destruct T as [->| ->].
      - reflexivity.
      - change (2 =? 1) with false. cbv iota. apply firstn_all2. rewrite skipn_length. lia. }
    rewrite C2. replace (List.length c - 97)%nat with (List.length m) by lia. unfold enc_c2. symmetry. apply map2_xor_invol.
    symmetry. apply KDF_length.
Qed.

(** * C105: the hash part binds a ciphertext *)

(** Two ciphertexts that one private key accepts, in whatever order, with the same 32-byte hash part: they have the
    same first part, the same masked bytes and the same message; or the two strings hashed, which contain the two
    messages, are different and have the same SM3 value. *)
Theorem C105_hash_part_binds : forall priv c1 t1 m1 c2 t2 m2, 0 <= D priv -> D priv mod curveN <> 0 ->
  bytes c1 -> bytes c2 -> zlen c1 < 2 ^ 31 -> zlen c2 < 2 ^ 31 ->
  Decrypt priv c1 t1 = Ret (OK m1) -> Decrypt priv c2 t2 = Ret (OK m2) -> c3_of t1 c1 = c3_of t2 c2 ->
  (firstn 65 c1 = firstn 65 c2 /\ m1 = m2 /\ c2_of t1 c1 = c2_of t2 c2) \/
  exists x1 y1 x2 y2, let s1 := be_enc 32 x1 ++ m1 ++ be_enc 32 y1 in let s2 := be_enc 32 x2 ++ m2 ++ be_enc 32 y2 in
    s1 <> s2 /\ Sum s1 = Ret (c3_of t1 c1) /\ Sum s2 = Ret (c3_of t1 c1).
Proof.
  intros priv c1 t1 m1 c2 t2 m2 Hd NZ B1 B2 L1 L2 E1 E2 E3.
  apply (C52_decrypt_authenticates priv c1 t1 m1 Hd B1 L1) in E1. apply (C52_decrypt_authenticates priv c2 t2 m2 Hd B2 L2) in E2.
  destruct E1 as (T1 & G1 & Q1 & HQ1 & A1 & H1). destruct E2 as (T2 & G2 & Q2 & HQ2 & A2 & H2). cbv zeta in *.
  destruct HQ1 as (O1 & N1 & F1). destruct HQ2 as (O2 & N2 & F2).
  set (S1 := pmul (D priv) Q1) in *. set (S2 := pmul (D priv) Q2) in *.
  assert (OS1 : on_curve S1) by (apply pmul_on, O1). assert (OS2 : on_curve S2) by (apply pmul_on, O2).
  destruct (list_eq_dec Z.eq_dec (be_enc 32 (xc S1) ++ m1 ++ be_enc 32 (yc S1)) (be_enc 32 (xc S2) ++ m2 ++ be_enc 32 (yc S2))) as [E|N].
  - left. apply app_inj_len in E; [|rewrite !be_enc_length; reflexivity]. destruct E as [EX E].
    assert (LM : List.length m1 = List.length m2).
    { apply (f_equal (@List.length Z)) in E. rewrite !app_length, !be_enc_length in E. lia. }
    apply app_inj_len in E; [|exact LM]. destruct E as [EM EY].
    assert (ES : S1 = S2).
    { apply point_bytes_inj; [exact OS1|exact OS2|]. unfold point_bytes, b32. rewrite EX, EY. reflexivity. }
    assert (EQ : Q1 = Q2).
    { destruct (all_multiples _ O1) as (a & Ra & HA). destruct (all_multiples _ O2) as (b & Rb & HB).
      unfold S1, S2 in ES. rewrite HA, HB in ES |- *. rewrite <- !pmul_mul in ES by (exact G_on || lia).
      apply (pmul_inj sm2n) in ES; [|exact G_on|exact sm2n_prime|exact G_fin|exact G_order|nia|nia].
      rewrite curveN_eq in NZ. rewrite !(Z.mul_comm (D priv)) in ES. f_equal.
      assert (DV : ((a - b) * D priv) mod sm2n = 0).
      { rewrite Z.mul_sub_distr_r, Zminus_mod, ES, Z.sub_diag. reflexivity. }
      apply Z.mod_divide in DV; [|lia]. apply (prime_mult _ sm2n_prime) in DV. destruct DV as [DV|DV].
      - destruct DV as [q DV]. assert (q = 0) by nia. subst q. lia.
      - apply Z.mod_divide in DV; [contradiction|lia]. }
    split; [rewrite F1, F2, EQ; reflexivity|]. split; [exact EM|]. rewrite A1, A2, ES, EM. reflexivity.
  - right. exists (xc S1), (yc S1), (xc S2), (yc S2). cbv zeta. split; [exact N|].
    assert (SUM : forall c t m x y, 97 < zlen c -> zlen c < 2 ^ 31 -> bytes m -> List.length m = List.length (c2_of t c) -> (t = 1 \/ t = 2) ->
              Sum (be_enc 32 x ++ m ++ be_enc 32 y) = Ret (sm3_hash (be_enc 32 x ++ m ++ be_enc 32 y))).
    { intros c t m x y LC1 LC2 BM LM T. apply C01_sum_is_standard.
      - apply bytes_app. split; [apply be_enc_bytes|]. apply bytes_app. split; [exact BM|apply be_enc_bytes].
      - intro X. apply (f_equal (@List.length Z)) in X. rewrite app_length, be_enc_length in X. cbn in X. lia.
      - unfold zlen in *. rewrite !app_length, !be_enc_length, LM. unfold c2_of. destruct T as [->| ->].
        + change (1 =? 1) with true. cbv iota. rewrite firstn_length, skipn_length. lia.
        + change (2 =? 1) with false. cbv iota. rewrite skipn_length. lia. }
    assert (BM : forall c t m S, bytes c -> c2_of t c = map2 Z.lxor m (KDF (be_enc 32 (xc S) ++ be_enc 32 (yc S)) (List.length m)) ->
              bytes m /\ List.length m = List.length (c2_of t c)).
    { intros c t m S B A. change (c2_of t c = enc_c2 S m) in A. split.
      - rewrite <- (enc_c2_invol S m), <- A. apply enc_c2_bytes, c2_of_bytes, B.
      - rewrite A, enc_c2_length. reflexivity. }
    destruct (BM c1 t1 m1 S1 B1 A1) as [BM1 LM1]. destruct (BM c2 t2 m2 S2 B2 A2) as [BM2 LM2].
    split.
    + rewrite (SUM c1 t1) by assumption. rewrite H1. reflexivity.
    + rewrite (SUM c2 t2) by assumption. rewrite E3, H2. reflexivity.
Qed.

(** In particular an accepted ciphertext with bytes changed before or after its hash part is accepted only with a
    collision of SM3. *)
Theorem C105_changed_ciphertext : forall priv c1 c2 t m1 m2, 0 <= D priv -> D priv mod curveN <> 0 ->
  bytes c1 -> bytes c2 -> zlen c1 < 2 ^ 31 -> zlen c2 < 2 ^ 31 -> c1 <> c2 -> c3_of t c1 = c3_of t c2 ->
  Decrypt priv c1 t = Ret (OK m1) -> Decrypt priv c2 t = Ret (OK m2) ->
  exists x1 y1 x2 y2, let s1 := be_enc 32 x1 ++ m1 ++ be_enc 32 y1 in let s2 := be_enc 32 x2 ++ m2 ++ be_enc 32 y2 in
    s1 <> s2 /\ Sum s1 = Ret (c3_of t c1) /\ Sum s2 = Ret (c3_of t c1).
Proof.
  intros priv c1 c2 t m1 m2 Hd NZ B1 B2 L1 L2 NE E3 E1 E2.
  destruct (C105_hash_part_binds priv c1 t m1 c2 t m2 Hd NZ B1 B2 L1 L2 E1 E2 E3) as [(F & _ & C)|(x1 & y1 & x2 & y2 & N & S1 & S2)].
  - exfalso. apply NE.
    apply (C52_decrypt_authenticates priv c1 t m1 Hd B1 L1) in E1. apply (C52_decrypt_authenticates priv c2 t m2 Hd B2 L2) in E2.
    destruct E1 as (T & G1 & _). destruct E2 as (_ & G2 & _). unfold zlen in *.
    rewrite (parts_whole t c1 T), (parts_whole t c2 T) by lia. rewrite F, C, E3. reflexivity.
  - exists x1, y1, x2, y2. split; [exact N|]. split; [exact S1|exact S2].
Qed.

(** * C106: what an accepted confirmation tag says about the other side *)

(** The strings hashed for the identities of the two parties. *)
Definition id_string (id : list Z) (x y : Z) : list Z :=
  be_enc 2 (8 * zlen id) ++ id ++ b32 (sm2p - 3) ++ b32 sm2b ++ b32 sm2gx ++ b32 sm2gy ++ b32 x ++ b32 y.
(** What one side takes part with: the shared point, the initiator's id, static point and ephemeral point, and the
    responder's. Points are pairs of coordinates. *)
Record view := mkView { v_u : Z * Z; v_id1 : list Z; v_p1 : Z * Z; v_r1 : Z * Z; v_id2 : list Z; v_p2 : Z * Z; v_r2 : Z * Z }.
Definition coords (P : point) : Z * Z := (xc P, yc P).
Definition my_view (init : bool) (dS dE : PrivateKey) (idS : option (list Z)) (P R : PublicKey) (idO : option (list Z)) : view :=
  let u := coords (kex_point (kex_t (D dS) (D dE)) (dec (X P) (Y P)) (dec (X R) (Y R))) in
  let me := pmul (D dS) G in let eph := pmul (D dE) G in
  if init then mkView u (contentsOf idS) (coords me) (coords eph) (contentsOf idO) (X P, Y P) (X R, Y R)
  else mkView u (contentsOf idO) (X P, Y P) (X R, Y R) (contentsOf idS) (coords me) (coords eph).

(** The strings one side hashes for the tags: the two identity strings, the inner and the outer one. *)
Definition inner_string (w : view) : list Z :=
  be_min (fst (v_u w)) ++ sm3_hash (id_string (v_id1 w) (fst (v_p1 w)) (snd (v_p1 w))) ++ sm3_hash (id_string (v_id2 w) (fst (v_p2 w)) (snd (v_p2 w))) ++
  be_min (fst (v_r1 w)) ++ be_min (snd (v_r1 w)) ++ be_min (fst (v_r2 w)) ++ be_min (snd (v_r2 w)).
Definition outer_string (c : Z) (w : view) : list Z := [c] ++ be_min (snd (v_u w)) ++ sm3_hash (inner_string w).
Definition strings (c : Z) (w : view) : list (list Z) :=
  [id_string (v_id1 w) (fst (v_p1 w)) (snd (v_p1 w)); id_string (v_id2 w) (fst (v_p2 w)) (snd (v_p2 w)); inner_string w; outer_string c w].
(** Two corresponding strings are different but have the same SM3 value. *)
Definition clash (l r : list (list Z)) : Prop := exists a b, In (a, b) (combine l r) /\ a <> b /\ sm3_hash a = sm3_hash b.
(** All coordinates that are hashed without leading zero bytes fill 32 bytes. *)
Definition full_coords (w : view) : Prop :=
  Forall (fun x => 2 ^ 248 <= x < 2 ^ 256) [fst (v_u w); snd (v_u w); fst (v_r1 w); snd (v_r1 w); fst (v_r2 w); snd (v_r2 w)].

Lemma kex_says : forall (init : bool) n tag dS dE idS P R idO r,
  0 <= D dS -> 0 <= D dE -> valid (X P, Y P) -> valid (X R, Y R) -> good_opt idS -> good_opt idO ->
  - 2 ^ 63 <= n < 2 ^ 63 -> CalculateKeyWithConfirmation init n tag dS dE idS P R idO = Ret (OK r) ->
  let w := my_view init dS dE idS P R idO in
  (if init then tag else exS1 r) = Some (sm3_hash (outer_string 2 w)) /\ exS2 r = sm3_hash (outer_string 3 w) /\
  exKey r = firstn (Z.to_nat (Z.quot (n + 7) 8)) (sm3_hash (be_min (fst (v_u w)) ++ be_min (snd (v_u w)) ++
    sm3_hash (id_string (v_id1 w) (fst (v_p1 w)) (snd (v_p1 w))) ++ sm3_hash (id_string (v_id2 w) (fst (v_p2 w)) (snd (v_p2 w))) ++ be_enc 4 1)).
Proof.
  intros init n tag dS dE idS P R idO r HS HE VP VR GS GO Rn E.
  assert (NT : init && isNil tag = false).
  { destruct (init && isNil tag) eqn:NT; [|reflexivity]. unfold CalculateKeyWithConfirmation in E. rewrite NT in E. discriminate. }
  destruct (C60_exact init n tag dS dE idS idO P R HS HE VP VR GS GO Rn NT) as [H1 H2]. cbv zeta in H1, H2.
  destruct (C60_key_length init n tag dS dE idS idO P R r HS HE VP VR GS GO Rn E) as [_ Hn].
  destruct (valid_pub P VP) as (P' & OP & EP & EP'). destruct (valid_pub R VR) as (R' & OR & ER & ER'). 
  cbv zeta. unfold my_view. rewrite EP, ER in *. subst P R. cbn [X Y] in *.
  set (U := kex_point _ _ _) in *. set (RS := pmul (D dE) G) in *. set (PS := pmul (D dS) G) in *. clearbody U RS PS.
  assert (NZ : kex_nonzero U (if init then RS else R') (if init then R' else RS)).
  { assert (DZ : kex_nonzero U (if init then RS else R') (if init then R' else RS) \/ ~ kex_nonzero U (if init then RS else R') (if init then R' else RS)) by (unfold kex_nonzero; lia).
    destruct DZ as [|NZ]; [assumption|]. destruct H2 as [p H2]; [tauto|]. rewrite H2 in E. discriminate. }
  rewrite (H1 (conj NZ Hn)) in E. clear H1 H2. apply ret_inj in E. destruct init.
  - destruct tag as [tag|]; [|discriminate]. cbn [contentsOf] in E.
    destruct (list_eq_dec Z.eq_dec _ _) as [T|] in E; [|discriminate]. 
    assert (EQR : r = mkExch (kex_key be_min U (ZA (contentsOf idS) (xc PS) (yc PS)) (ZA (contentsOf idO) (xc P') (yc P')) (Z.to_nat (Z.quot (n + 7) 8))) None
       (kex_tag be_min 3 U (ZA (contentsOf idS) (xc PS) (yc PS)) (ZA (contentsOf idO) (xc P') (yc P')) RS R')) by congruence.
    rewrite EQR. cbn [exS2 exKey]. split; [|split; reflexivity]. f_equal. rewrite <- T. reflexivity.
  - assert (EQR : r = mkExch (kex_key be_min U (ZA (contentsOf idO) (xc P') (yc P')) (ZA (contentsOf idS) (xc PS) (yc PS)) (Z.to_nat (Z.quot (n + 7) 8)))
       (Some (kex_tag be_min 2 U (ZA (contentsOf idO) (xc P') (yc P')) (ZA (contentsOf idS) (xc PS) (yc PS)) R' RS))
       (kex_tag be_min 3 U (ZA (contentsOf idO) (xc P') (yc P')) (ZA (contentsOf idS) (xc PS) (yc PS)) R' RS)) by congruence.
    rewrite EQR. cbn [exS1 exS2 exKey]. split; [|split]; reflexivity.
Qed.

Lemma in_combine4 : forall (a b c d a' b' c' d' : list Z), clash [a; b; c; d] [a'; b'; c'; d'] <->
  (a <> a' /\ sm3_hash a = sm3_hash a') \/ (b <> b' /\ sm3_hash b = sm3_hash b') \/ (c <> c' /\ sm3_hash c = sm3_hash c') \/ (d <> d' /\ sm3_hash d = sm3_hash d').
Proof.
  intros. unfold clash. cbn [combine In]. split.
  - intros (x & y & [E|[E|[E|[E|[]]]]] & N & H); injection E as <- <-; tauto.
  - intros [[N H]|[[N H]|[[N H]|[N H]]]]; eexists _, _; (split; [|split; [exact N|exact H]]); tauto.
Qed.

(** Equal outer hashes: the second coordinates of the shared points are the same and so are the inner strings, or
    there is a clash. *)
Lemma outer_binds : forall c w w', 0 <= snd (v_u w) -> 0 <= snd (v_u w') -> sm3_hash (outer_string c w) = sm3_hash (outer_string c w') ->
  clash (strings c w) (strings c w') \/ (snd (v_u w) = snd (v_u w') /\ inner_string w = inner_string w').
Proof.
  intros c w w' P1 P2 E. destruct (list_eq_dec Z.eq_dec (outer_string c w) (outer_string c w')) as [EO|NO];
    [|left; apply in_combine4; right; right; right; split; assumption].
  unfold outer_string in EO. cbn [app] in EO. injection EO as EO.
  assert (LE : List.length (be_min (snd (v_u w))) = List.length (be_min (snd (v_u w')))).
  { apply (f_equal (@List.length Z)) in EO. rewrite !app_length, !sm3_length in EO. lia. }
  apply app_inj_len in EO; [|exact LE]. destruct EO as [EY EI].
  destruct (list_eq_dec Z.eq_dec (inner_string w) (inner_string w')) as [E2|N2]; [|left; apply in_combine4; right; right; left; split; assumption].
  right. split; [|exact E2]. rewrite <- (be_dec_min (snd (v_u w)) P1), <- (be_dec_min (snd (v_u w')) P2), EY. reflexivity.
Qed.

Lemma id_string_inj : forall id x y id' x' y', 0 <= x < 2 ^ 256 -> 0 <= y < 2 ^ 256 -> 0 <= x' < 2 ^ 256 -> 0 <= y' < 2 ^ 256 ->
  id_string id x y = id_string id' x' y' -> id = id' /\ x = x' /\ y = y'.
Proof.
  intros id x y id' x' y' Hx Hy Hx' Hy' E. unfold id_string in E.
  apply app_inj_len in E; [|rewrite !be_enc_length; reflexivity]. destruct E as [_ E].
  assert (L : List.length id = List.length id').
  { apply (f_equal (@List.length Z)) in E. rewrite !app_length, !b32_length in E. lia. }
  apply app_inj_len in E; [|exact L]. destruct E as [EI E].
  do 4 (apply app_inj_len in E; [|rewrite !b32_length; reflexivity]; destruct E as [_ E]).
  apply app_inj_len in E; [|rewrite !b32_length; reflexivity]. destruct E as [EX EY].
  apply (f_equal be_dec) in EX. apply (f_equal be_dec) in EY. unfold b32 in EX, EY.
  rewrite !be_dec_enc_small in EX, EY by (change (256 ^ Z.of_nat 32) with (2 ^ 256); lia). tauto.
Qed.

Lemma full_min : forall x, 2 ^ 248 <= x < 2 ^ 256 -> List.length (be_min x) = 32%nat.
Proof. intros x H. rewrite min_is_b32 by exact H. apply b32_length. Qed.

Lemma inner_binds : forall c w w', full_coords w -> full_coords w' ->
  Forall (fun x => 0 <= x < 2 ^ 256) [fst (v_p1 w); snd (v_p1 w); fst (v_p2 w); snd (v_p2 w)] ->
  Forall (fun x => 0 <= x < 2 ^ 256) [fst (v_p1 w'); snd (v_p1 w'); fst (v_p2 w'); snd (v_p2 w')] ->
  snd (v_u w) = snd (v_u w') -> inner_string w = inner_string w' -> clash (strings c w) (strings c w') \/ w = w'.
Proof.
  intros c [[ux uy] i1 [p1x p1y] [r1x r1y] i2 [p2x p2y] [r2x r2y]] [[ux' uy'] i1' [p1x' p1y'] [r1x' r1y'] i2' [p2x' p2y'] [r2x' r2y']] F F' Q Q' EU E.
  unfold full_coords, inner_string in *. cbn [v_u v_id1 v_p1 v_r1 v_id2 v_p2 v_r2 fst snd] in *.
  repeat match goal with H : Forall _ (_ :: _) |- _ => apply Forall_cons_iff in H; destruct H as [? H] end.
  assert (INJ : forall x y, 2 ^ 248 <= x < 2 ^ 256 -> 2 ^ 248 <= y < 2 ^ 256 -> be_min x = be_min y -> x = y).
  { intros x y Hx Hy EM. rewrite <- (be_dec_min x), <- (be_dec_min y), EM by lia. reflexivity. }
  apply app_inj_len in E; [|rewrite !full_min by assumption; reflexivity]. destruct E as [E1 E].
  apply app_inj_len in E; [|rewrite !sm3_length; reflexivity]. destruct E as [E2 E].
  apply app_inj_len in E; [|rewrite !sm3_length; reflexivity]. destruct E as [E3 E].
  apply app_inj_len in E; [|rewrite !full_min by assumption; reflexivity]. destruct E as [E4 E].
  apply app_inj_len in E; [|rewrite !full_min by assumption; reflexivity]. destruct E as [E5 E].
  apply app_inj_len in E; [|rewrite !full_min by assumption; reflexivity]. destruct E as [E6 E7].
  apply INJ in E1, E4, E5, E6, E7; try assumption. subst.
  destruct (list_eq_dec Z.eq_dec (id_string i1 p1x p1y) (id_string i1' p1x' p1y')) as [A|A];
    [|left; apply in_combine4; left; split; assumption].
  destruct (list_eq_dec Z.eq_dec (id_string i2 p2x p2y) (id_string i2' p2x' p2y')) as [B|B];
    [|left; apply in_combine4; right; left; split; assumption].
  apply id_string_inj in A, B; try assumption. destruct A as (-> & -> & ->). destruct B as (-> & -> & ->). right. reflexivity.
Qed.

Lemma view_range : forall init dS dE idS P R idO, valid (X P, Y P) -> valid (X R, Y R) ->
  let w := my_view init dS dE idS P R idO in
  0 <= snd (v_u w) /\ Forall (fun x => 0 <= x < 2 ^ 256) [fst (v_p1 w); snd (v_p1 w); fst (v_p2 w); snd (v_p2 w)].
Proof.
  intros init dS dE idS P R idO VP VR w. destruct (valid_pub P VP) as (P' & OP & EP & ->). 
  assert (RX : forall Q, 0 <= xc Q < 2 ^ 256) by (intro Q; pose proof (xc_range Q); lia).
  assert (RY : forall Q, 0 <= yc Q < 2 ^ 256) by (intro Q; pose proof (yc_range Q); lia).
  unfold w, my_view, coords. destruct init; cbn [v_u v_p1 v_p2 fst snd X Y]; (split; [apply RY|]); repeat constructor; first [apply RX|apply RY].
Qed.

(** The initiator accepts a responder's tag, whatever the two sides were given: the second coordinates of their shared
    points agree and the two concatenations of everything else are the same string, or two corresponding hashed
    strings clash. *)
Theorem C106_accepted_tag : forall nA nB tagB dA rA idA PB RB idB dB rB idB' PA RA idA' resA resB t,
  0 <= D dA -> 0 <= D rA -> 0 <= D dB -> 0 <= D rB ->
  valid (X PA, Y PA) -> valid (X RA, Y RA) -> valid (X PB, Y PB) -> valid (X RB, Y RB) ->
  good_opt idA -> good_opt idB -> good_opt idA' -> good_opt idB' -> - 2 ^ 63 <= nA < 2 ^ 63 -> - 2 ^ 63 <= nB < 2 ^ 63 ->
  CalculateKeyWithConfirmation false nB tagB dB rB idB' PA RA idA' = Ret (OK resB) -> exS1 resB = Some t ->
  CalculateKeyWithConfirmation true nA (Some t) dA rA idA PB RB idB = Ret (OK resA) ->
  let a := my_view true dA rA idA PB RB idB in let b := my_view false dB rB idB' PA RA idA' in
  clash (strings 2 a) (strings 2 b) \/
  (snd (v_u a) = snd (v_u b) /\ inner_string a = inner_string b /\ exS2 resA = exS2 resB).
Proof.
  intros nA nB tagB dA rA idA PB RB idB dB rB idB' PA RA idA' resA resB t HA HrA HB HrB VPA VRA VPB VRB GA GB GA' GB' RnA RnB EB ES EA a b.
  destruct (kex_says false nB tagB dB rB idB' PA RA idA' resB HB HrB VPA VRA GB' GA' RnB EB) as (TB & S2B & _). fold b in TB, S2B.
  destruct (kex_says true nA (Some t) dA rA idA PB RB idB resA HA HrA VPB VRB GA GB RnA EA) as (TA & S2A & _). fold a in TA, S2A.
  destruct (view_range true dA rA idA PB RB idB VPB VRB) as [Ya _]. fold a in Ya.
  destruct (view_range false dB rB idB' PA RA idA' VPA VRA) as [Yb _]. fold b in Yb.
  assert (EH : sm3_hash (outer_string 2 a) = sm3_hash (outer_string 2 b)) by congruence. clear TA TB ES.
  destruct (outer_binds 2 a b Ya Yb EH) as [C|[EU EI]]; [left; exact C|]. right. split; [exact EU|]. split; [exact EI|].
  rewrite S2A, S2B. unfold outer_string. rewrite EU, EI. reflexivity.
Qed.

(** What two sides with the same view have in common. *)
Lemma same_view : forall nA nB tagA tagB dA rA idA PB RB idB dB rB idB' PA RA idA' resA resB,
  0 <= D dA -> 0 <= D rA -> 0 <= D dB -> 0 <= D rB ->
  valid (X PA, Y PA) -> valid (X RA, Y RA) -> valid (X PB, Y PB) -> valid (X RB, Y RB) ->
  good_opt idA -> good_opt idB -> good_opt idA' -> good_opt idB' -> - 2 ^ 63 <= nA < 2 ^ 63 -> - 2 ^ 63 <= nB < 2 ^ 63 ->
  CalculateKeyWithConfirmation false nB tagB dB rB idB' PA RA idA' = Ret (OK resB) ->
  CalculateKeyWithConfirmation true nA tagA dA rA idA PB RB idB = Ret (OK resA) ->
  my_view true dA rA idA PB RB idB = my_view false dB rB idB' PA RA idA' ->
  contentsOf idA = contentsOf idA' /\ contentsOf idB = contentsOf idB' /\
  CalculatePubKey dA = Ret PA /\ CalculatePubKey rA = Ret RA /\ CalculatePubKey dB = Ret PB /\ CalculatePubKey rB = Ret RB /\
  tagA = exS1 resB /\ exS2 resA = exS2 resB /\
  forall i, (i < List.length (exKey resA))%nat -> (i < List.length (exKey resB))%nat -> nth i (exKey resA) 0 = nth i (exKey resB) 0.
Proof.
  intros nA nB tagA tagB dA rA idA PB RB idB dB rB idB' PA RA idA' resA resB HA HrA HB HrB VPA VRA VPB VRB GA GB GA' GB' RnA RnB EB EA E.
  destruct (kex_says false nB tagB dB rB idB' PA RA idA' resB HB HrB VPA VRA GB' GA' RnB EB) as (TB & SB & KB).
  destruct (kex_says true nA tagA dA rA idA PB RB idB resA HA HrA VPB VRB GA GB RnA EA) as (TA & SA & KA).
  rewrite E in TA, SA, KA. pose proof E as E'. unfold my_view, coords in E'.
  assert (PK : forall d q, 0 <= D d -> (xc (pmul (D d) G), yc (pmul (D d) G)) = (X q, Y q) -> CalculatePubKey d = Ret q).
  { intros [d] [qx qy] Hd H. cbn [D X Y] in *. rewrite pub_eq by exact Hd. congruence. }
  split; [exact (f_equal v_id1 E')|]. split; [exact (f_equal v_id2 E')|].
  split; [apply PK; [exact HA|exact (f_equal v_p1 E')]|]. split; [apply PK; [exact HrA|exact (f_equal v_r1 E')]|].
  split; [apply PK; [exact HB|symmetry; exact (f_equal v_p2 E')]|]. split; [apply PK; [exact HrB|symmetry; exact (f_equal v_r2 E')]|].
  split; [congruence|]. split; [congruence|].
  intros i Hi Hj. rewrite KA, KB in *. rewrite firstn_length in Hi, Hj. rewrite !nth_first by lia. reflexivity.
Qed.

(** When no hashed coordinate starts with a zero byte: the two sides agree on both ids, on all four public keys, on
    the key as far as both ask for it, and on the second tag; or there is a clash. *)
Theorem C106_initiator_agrees : forall nA nB tagB dA rA idA PB RB idB dB rB idB' PA RA idA' resA resB,
  0 <= D dA -> 0 <= D rA -> 0 <= D dB -> 0 <= D rB ->
  valid (X PA, Y PA) -> valid (X RA, Y RA) -> valid (X PB, Y PB) -> valid (X RB, Y RB) ->
  good_opt idA -> good_opt idB -> good_opt idA' -> good_opt idB' -> - 2 ^ 63 <= nA < 2 ^ 63 -> - 2 ^ 63 <= nB < 2 ^ 63 ->
  CalculateKeyWithConfirmation false nB tagB dB rB idB' PA RA idA' = Ret (OK resB) ->
  CalculateKeyWithConfirmation true nA (exS1 resB) dA rA idA PB RB idB = Ret (OK resA) ->
  let a := my_view true dA rA idA PB RB idB in let b := my_view false dB rB idB' PA RA idA' in
  full_coords a -> full_coords b ->
  clash (strings 2 a) (strings 2 b) \/
  (contentsOf idA = contentsOf idA' /\ contentsOf idB = contentsOf idB' /\
   CalculatePubKey dA = Ret PA /\ CalculatePubKey rA = Ret RA /\ CalculatePubKey dB = Ret PB /\ CalculatePubKey rB = Ret RB /\
   exS2 resA = exS2 resB /\
   forall i, (i < List.length (exKey resA))%nat -> (i < List.length (exKey resB))%nat -> nth i (exKey resA) 0 = nth i (exKey resB) 0).
Proof.
  intros nA nB tagB dA rA idA PB RB idB dB rB idB' PA RA idA' resA resB HA HrA HB HrB VPA VRA VPB VRB GA GB GA' GB' RnA RnB EB EA a b Fa Fb.
  destruct (kex_says false nB tagB dB rB idB' PA RA idA' resB HB HrB VPA VRA GB' GA' RnB EB) as (TB & _).
  destruct (C106_accepted_tag nA nB tagB dA rA idA PB RB idB dB rB idB' PA RA idA' resA resB _ HA HrA HB HrB VPA VRA VPB VRB GA GB GA' GB' RnA RnB EB TB
    ltac:(rewrite <- TB; exact EA)) as [C|(EU & EI & E2)]; [left; exact C|]. fold a b in EU, EI.
  destruct (view_range true dA rA idA PB RB idB VPB VRB) as [_ Ra]. fold a in Ra.
  destruct (view_range false dB rB idB' PA RA idA' VPA VRA) as [_ Rb]. fold b in Rb.
  destruct (inner_binds 2 a b Fa Fb Ra Rb EU EI) as [C|E]; [left; exact C|]. right.
  destruct (same_view nA nB _ tagB dA rA idA PB RB idB dB rB idB' PA RA idA' resA resB HA HrA HB HrB VPA VRA VPB VRB GA GB GA' GB' RnA RnB EB EA E)
    as (Q1 & Q2 & Q3 & Q4 & Q5 & Q6 & _ & Q7). tauto.
Qed.

(** The same for the responder that finds the initiator's second tag equal to its own: then they agree, and the tag
    the initiator was given is the responder's. *)
Theorem C106_responder_agrees : forall nA nB tagA tagB dA rA idA PB RB idB dB rB idB' PA RA idA' resA resB,
  0 <= D dA -> 0 <= D rA -> 0 <= D dB -> 0 <= D rB ->
  valid (X PA, Y PA) -> valid (X RA, Y RA) -> valid (X PB, Y PB) -> valid (X RB, Y RB) ->
  good_opt idA -> good_opt idB -> good_opt idA' -> good_opt idB' -> - 2 ^ 63 <= nA < 2 ^ 63 -> - 2 ^ 63 <= nB < 2 ^ 63 ->
  CalculateKeyWithConfirmation false nB tagB dB rB idB' PA RA idA' = Ret (OK resB) ->
  CalculateKeyWithConfirmation true nA tagA dA rA idA PB RB idB = Ret (OK resA) ->
  ResponderConfirm (exS2 resB) (exS2 resA) = true ->
  let a := my_view true dA rA idA PB RB idB in let b := my_view false dB rB idB' PA RA idA' in
  full_coords a -> full_coords b ->
  clash (strings 3 a) (strings 3 b) \/
  (contentsOf idA = contentsOf idA' /\ contentsOf idB = contentsOf idB' /\
   CalculatePubKey dA = Ret PA /\ CalculatePubKey rA = Ret RA /\ CalculatePubKey dB = Ret PB /\ CalculatePubKey rB = Ret RB /\
   tagA = exS1 resB /\
   forall i, (i < List.length (exKey resA))%nat -> (i < List.length (exKey resB))%nat -> nth i (exKey resA) 0 = nth i (exKey resB) 0).
Proof.
  intros nA nB tagA tagB dA rA idA PB RB idB dB rB idB' PA RA idA' resA resB HA HrA HB HrB VPA VRA VPB VRB GA GB GA' GB' RnA RnB EB EA EC a b Fa Fb.
  apply C58_confirm_is_equality in EC.
  destruct (kex_says false nB tagB dB rB idB' PA RA idA' resB HB HrB VPA VRA GB' GA' RnB EB) as (_ & SB & _). fold b in SB.
  destruct (kex_says true nA tagA dA rA idA PB RB idB resA HA HrA VPB VRB GA GB RnA EA) as (_ & SA & _). fold a in SA.
  destruct (view_range true dA rA idA PB RB idB VPB VRB) as [Ya Ra]. fold a in Ya, Ra.
  destruct (view_range false dB rB idB' PA RA idA' VPA VRA) as [Yb Rb]. fold b in Yb, Rb.
  assert (EH : sm3_hash (outer_string 3 a) = sm3_hash (outer_string 3 b)) by congruence.
  destruct (outer_binds 3 a b Ya Yb EH) as [C|[EU EI]]; [left; exact C|].
  destruct (inner_binds 3 a b Fa Fb Ra Rb EU EI) as [C|E]; [left; exact C|]. right.
  destruct (same_view nA nB _ tagB dA rA idA PB RB idB dB rB idB' PA RA idA' resA resB HA HrA HB HrB VPA VRA VPB VRB GA GB GA' GB' RnA RnB EB EA E)
    as (Q1 & Q2 & Q3 & Q4 & Q5 & Q6 & Q7 & _ & Q8). tauto.
Qed.

(** * Examples *)
Definition ex_msg2b : list Z := map (fun x => 255 - x) ex_msg.
(** C104 for one tape and two messages; C105 for the two orders of one encryption, which are different strings with
    the same hash part. *)
Example C104_ex : exists c1 c2, Encrypt ex_pub ex_msg 1 ex_tape = Ret (OK c1, []) /\ Encrypt ex_pub ex_msg2b 1 ex_tape = Ret (OK c2, []) /\
  ex_msg <> ex_msg2b /\ Z.lxor (at_ c1 65) (at_ c2 65) = 255.
Proof.
  destruct C50_ex as (c & E & _). 
  assert (G2 : good_msg ex_msg2b).
  { split; [|split; [discriminate|reflexivity]]. pose proof (proj1 ex_msg_good) as B. unfold bytes, ex_msg2b in *. rewrite Forall_map.
    eapply Forall_impl; [|exact B]. unfold byte. intros. lia. }
  destruct (C104_same_bytes ex_pub ex_msg ex_msg2b 1 ex_tape c [] ex_pub_valid ex_msg_good G2) as (c2 & E2 & _ & X).
  - unfold ex_msg2b. rewrite map_length. reflexivity.
  - exact ex_tape_bytes.
  - exact E.
  - exists c, c2. split; [exact E|]. split; [exact E2|]. split; [intro F; apply (f_equal (hd 0)) in F; revert F; vm_compute; discriminate|].
    specialize (X 0%nat). change (masked_at 1 + 0)%nat with 65%nat in X. rewrite X by (cbn; lia). vm_compute. reflexivity.
Qed.
Example C105_ex : exists c1 c2, c1 <> c2 /\ Decrypt ex_priv c1 1 = Ret (OK ex_msg) /\ Decrypt ex_priv c2 2 = Ret (OK ex_msg) /\
  c3_of 1 c1 = c3_of 2 c2 /\ D ex_priv mod curveN <> 0.
Proof.
  destruct C50_ex as (c & E & DC & _).
  pose proof (C51_orders_rearrange ex_pub ex_msg ex_tape c [] ex_pub_valid ex_msg_good ex_tape_bytes E) as (a & b & h & La & Lh & Lb & EC & E2).
  exists c, (a ++ h ++ b).
  assert (DC2 : Decrypt ex_priv (a ++ h ++ b) 2 = Ret (OK ex_msg)).
  { apply (C50_decrypt_inverts_encrypt ex_priv ex_pub ex_msg 2 ex_tape _ []); try assumption.
    - cbn. lia.
    - exact ex_pub_ok.
    - apply ex_msg_good.
    - reflexivity.
    - exact ex_tape_bytes. }
  assert (H3 : c3_of 1 c = h /\ c3_of 2 (a ++ h ++ b) = h).
  { unfold c3_of. change (1 =? 1) with true. change (2 =? 1) with false. cbv iota. rewrite EC. unfold zlen in *. split.
    - rewrite !app_length. replace (List.length a + (List.length b + List.length h) - 32)%nat with (List.length a + List.length b)%nat by lia.
      rewrite app_assoc, <- app_length. apply skipn_app_exact. reflexivity.
    - replace 65%nat with (List.length a) by lia. rewrite skipn_app_exact by reflexivity.
      replace 32%nat with (List.length h) by lia. apply firstn_app_exact. reflexivity. }
  split; [|split; [exact DC|split; [exact DC2|split; [rewrite (proj1 H3), (proj2 H3); reflexivity|vm_compute; discriminate]]]].
  destruct (enc_made ex_pub ex_msg 1 ex_tape c [] ex_tape_bytes ex_msg_good (proj1 (valid_on _ _ ex_pub_valid)) E) as (k & F1 & _ & ->).
  destruct (enc_made ex_pub ex_msg 2 ex_tape _ [] ex_tape_bytes ex_msg_good (proj1 (valid_on _ _ ex_pub_valid)) E2) as (k' & F2 & _ & ->).
  rewrite F1 in F2. injection F2 as <-. apply find_some in F1. destruct F1 as [F1 _].
  assert (NE : nonces ex_tape = [(1, [])]) by (vm_compute; reflexivity). rewrite NE in F1.
  destruct F1 as [F1|[]]. injection F1 as <-. intro F. apply (f_equal (fun c => nth 65 c 0)) in F. revert F. vm_compute. discriminate.
Qed.
(** C106: the sample exchange of the standard meets the hypotheses. *)
Example C106_ex : let a := my_view true std_dA std_rA (Some default_id) std_PB std_RB (Some default_id) in
  let b := my_view false std_dB std_rB (Some default_id) std_PA std_RA (Some default_id) in
  a = b /\ full_coords a /\
  CalculateKeyWithConfirmation false 128 None std_dB std_rB (Some default_id) std_PA std_RA (Some default_id) = Ret (OK (mkExch std_K (Some std_S1) std_S2)) /\
  CalculateKeyWithConfirmation true 128 (Some std_S1) std_dA std_rA (Some default_id) std_PB std_RB (Some default_id) = Ret (OK (mkExch std_K None std_S2)).
Proof.
  intros a b. 
  assert (V : forall P k x y, P = mkPub x y -> pmul k G = A (kf x) (kf y) /\ xc (pmul k G) = x /\ yc (pmul k G) = y -> dec (X P) (Y P) = pmul k G /\ coords (pmul k G) = (x, y)).
  { intros P k x y -> (_ & <- & <-). cbn [X Y]. split; [|reflexivity]. apply dec_coords, pmul_on, G_on. }
  destruct (V std_PA kda_k _ _ eq_refl kda_pt) as [A1 A2]. destruct (V std_PB kdb_k _ _ eq_refl kdb_pt) as [B1 B2].
  destruct (V std_RA kra_k _ _ eq_refl kra_pt) as [C1 C2]. destruct (V std_RB krb_k _ _ eq_refl krb_pt) as [D1 D2].
  assert (U : coords (pmul ku_k G) = (ku_x, ku_y)) by (unfold coords; destruct ku_pt as (_ & -> & ->); reflexivity).
  assert (EA : kex_point (kex_t (D std_dA) (D std_rA)) (dec (X std_PB) (Y std_PB)) (dec (X std_RB) (Y std_RB)) = pmul ku_k G).
  { rewrite B1, D1. cbn [D std_dA std_rA]. rewrite kex_shared by (vm_compute; discriminate). rewrite Z.mul_comm.
    rewrite <- kex_shared by (vm_compute; discriminate). exact std_U. }
  assert (EB : kex_point (kex_t (D std_dB) (D std_rB)) (dec (X std_PA) (Y std_PA)) (dec (X std_RA) (Y std_RA)) = pmul ku_k G).
  { rewrite A1, C1. exact std_U. }
  assert (Ha : a = mkView (ku_x, ku_y) default_id (kda_x, kda_y) (kra_x, kra_y) default_id (kdb_x, kdb_y) (krb_x, krb_y)).
  { unfold a, my_view. rewrite EA, U. change (D std_dA) with kda_k. change (D std_rA) with kra_k. rewrite A2, C2. reflexivity. }
  assert (Hb : b = mkView (ku_x, ku_y) default_id (kda_x, kda_y) (kra_x, kra_y) default_id (kdb_x, kdb_y) (krb_x, krb_y)).
  { unfold b, my_view. rewrite EB, U. change (D std_dB) with kdb_k. change (D std_rB) with krb_k. rewrite B2, D2. reflexivity. }
  split; [rewrite Ha, Hb; reflexivity|]. split.
  { rewrite Ha. unfold full_coords. cbn [v_u v_r1 v_r2 fst snd]. repeat constructor; vm_compute; first [discriminate|reflexivity]. }
  split; [exact C60_standard_responder|exact (proj1 C58_standard_initiator)].
Qed.
