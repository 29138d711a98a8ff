(** The model of sm4.go computes the standard's functions. *)
From Coq Require Import ZArith List Lia String Bool.
From Verif Require Import GoBase Sm3 Sm3Spec Sm3Proofs.
From Verif Require Sm4Spec.
From Verif Require Import Sm4.
Import ListNotations.
Open Scope Z_scope.
Local Ltac Zify.zify_post_hook ::= Z.div_mod_to_equations.

(** ** S-box and linear maps *)

Lemma sbox_table : forall x, byte x -> at_ sBox x = Sm4Spec.sbox x /\ byte (Sm4Spec.sbox x).
Proof.
  assert (H : forallb (fun k => let x := Z.of_nat k in
      (at_ sBox x =? Sm4Spec.sbox x) && byteb (Sm4Spec.sbox x)) (seq 0 256) = true)
    by (vm_compute; reflexivity).
  rewrite forallb_forall in H. intros x Hx. unfold byte in Hx.
  assert (I : In (Z.to_nat x) (seq 0 256)) by (apply in_seq; lia).
  specialize (H _ I). cbv zeta in H. rewrite Z2Nat.id in H by lia.
  apply andb_true_iff in H. destruct H as [H1 H2].
  apply Z.eqb_eq in H1. apply byteb_spec in H2. auto.
Qed.

Lemma tau_eq : forall a, tau a = Sm4Spec.tau a.
Proof.
  intro a. unfold tau, Sm4Spec.tau. cbv zeta.
  pose proof (be_enc_bytes 4 a) as B. pose proof (be_enc_length 4 a) as Ln.
  destruct (be_enc 4 a) as [|b0 [|b1 [|b2 [|b3 [|b4 q]]]]]; try discriminate.
  repeat match goal with H : bytes (_ :: _) |- _ => apply bytes_cons in H; destruct H end.
  cbn [map]. unfold at_ at 2 4 6 8.
  change (Z.to_nat 0) with 0%nat. change (Z.to_nat 1) with 1%nat.
  change (Z.to_nat 2) with 2%nat. change (Z.to_nat 3) with 3%nat. cbn [nth].
  repeat match goal with |- context [at_ sBox ?x] =>
    replace (at_ sBox x) with (Sm4Spec.sbox x) by (symmetry; apply sbox_table; assumption) end.
  reflexivity.
Qed.

Lemma tau_u32 : forall a, is_u32 (Sm4Spec.tau a).
Proof.
  intro a. unfold Sm4Spec.tau, is_u32.
  assert (B : bytes (map Sm4Spec.sbox (be_enc 4 a))).
  { pose proof (be_enc_bytes 4 a) as B. induction B; constructor; auto. apply sbox_table; auto. }
  apply be_dec_bound in B. unfold zlen in B. rewrite map_length, be_enc_length in B. exact B.
Qed.

Lemma t_eq : forall a, t a = Sm4Spec.T a.
Proof.
  intro a. unfold t, l, Sm4Spec.T, Sm4Spec.L. rewrite tau_eq.
  pose proof (tau_u32 a). rewrite !RotateLeft32_rotl by (auto; lia). reflexivity.
Qed.

Lemma tAp_eq : forall a, tAp a = Sm4Spec.T' a.
Proof.
  intro a. unfold tAp, lAp, Sm4Spec.T', Sm4Spec.L'. rewrite tau_eq.
  pose proof (tau_u32 a). rewrite !RotateLeft32_rotl by (auto; lia). reflexivity.
Qed.

Lemma T_u32 : forall a, is_u32 (Sm4Spec.T a).
Proof.
  intro a. unfold Sm4Spec.T, Sm4Spec.L. pose proof (tau_u32 a).
  repeat apply is_u32_lxor; auto; apply rotl_u32; auto; lia.
Qed.

Lemma cK_eq : forall i, 0 <= i < 32 -> at_ cK i = Sm4Spec.CK i.
Proof.
  assert (H : forallb (fun k => at_ cK (Z.of_nat k) =? Sm4Spec.CK (Z.of_nat k)) (seq 0 32) = true)
    by (vm_compute; reflexivity).
  rewrite forallb_forall in H. intros i Hi.
  assert (I : In (Z.to_nat i) (seq 0 32)) by (apply in_seq; lia).
  apply H in I. rewrite Z2Nat.id in I by lia. apply Z.eqb_eq in I. exact I.
Qed.

(** ** Key schedule *)

Lemma at_put_same : forall l i x, 0 <= i < zlen l -> at_ (put l i x) i = x.
Proof. intros. unfold at_, put. apply nth_upd_same. unfold zlen in *. lia. Qed.

Lemma at_put_other : forall l i j x, 0 <= i -> 0 <= j -> i <> j -> at_ (put l i x) j = at_ l j.
Proof. intros. unfold at_, put. apply nth_upd_other. lia. Qed.

Definition ring (x : list Z) (i k0 k1 k2 k3 : Z) : Prop :=
  zlen x = 5 /\ at_ x (i mod 5) = k0 /\ at_ x ((i + 1) mod 5) = k1 /\
  at_ x ((i + 2) mod 5) = k2 /\ at_ x ((i + 3) mod 5) = k3.

Lemma ring_step : forall x i k0 k1 k2 k3 y, 0 <= i -> ring x i k0 k1 k2 k3 ->
  ring (put x ((i + 4) mod 5) y) (i + 1) k1 k2 k3 y.
Proof.
  intros x i k0 k1 k2 k3 y Hi (Hl & H0 & H1 & H2 & H3). unfold ring.
  rewrite put_zlen. split; auto.
  rewrite !at_put_other by lia.
  replace (i + 1 + 1) with (i + 2) by lia. replace (i + 1 + 2) with (i + 3) by lia.
  replace (i + 1 + 3) with (i + 4) by lia.
  rewrite at_put_same by lia. auto.
Qed.

Lemma upd_app_mid : forall A (a c : list A) b x n, n = List.length a ->
  upd (a ++ b :: c) n x = a ++ x :: c.
Proof. intros A a c b x n ->. induction a; cbn [app List.length upd]; congruence. Qed.

Local Transparent for_loop.

Lemma keys_enc : forall n i x k0 k1 k2 k3 pre, 0 <= i -> i + Z.of_nat n <= 32 -> zlen pre = i ->
  ring x i k0 k1 k2 k3 ->
  snd (for_loop n i (keyStep true) (x, pre ++ repeat 0 n)) =
  pre ++ Sm4Spec.schedule n i k0 k1 k2 k3.
Proof.
  induction n; intros i x k0 k1 k2 k3 pre Hi Hn Hp R.
  - reflexivity.
  - cbn [for_loop Sm4Spec.schedule]. cbv zeta.
    unfold keyStep at 2. unfold encRound. cbv zeta.
    pose proof R as (Hl & E0 & E1 & E2 & E3). rewrite E0, E1, E2, E3, tAp_eq, cK_eq by lia.
    fold (Sm4Spec.xor3 k1 k2 k3).
    set (y := Z.lxor k0 _). cbn [repeat]. unfold put at 2.
    rewrite upd_app_mid by (unfold zlen in Hp; lia).
    change (pre ++ y :: repeat 0 n) with (pre ++ [y] ++ repeat 0 n). rewrite app_assoc.
    erewrite IHn.
    + rewrite <- app_assoc. reflexivity.
    + lia.
    + lia.
    + rewrite zlen_app. change (zlen [y]) with 1. lia.
    + eapply ring_step; eauto.
Qed.

Lemma repeat_snoc : forall A (x : A) n, repeat x (S n) = repeat x n ++ [x].
Proof. induction n; [reflexivity|]. cbn [repeat app] in *. congruence. Qed.

Lemma keys_dec : forall n i x k0 k1 k2 k3 post, 0 <= i -> i + Z.of_nat n = 32 -> zlen post = i ->
  ring x i k0 k1 k2 k3 ->
  snd (for_loop n i (keyStep false) (x, repeat 0 n ++ post)) =
  rev (Sm4Spec.schedule n i k0 k1 k2 k3) ++ post.
Proof.
  induction n; intros i x k0 k1 k2 k3 post Hi Hn Hp R.
  - reflexivity.
  - cbn [for_loop Sm4Spec.schedule]. cbv zeta.
    unfold keyStep at 2. unfold decRound. cbv zeta.
    pose proof R as (Hl & E0 & E1 & E2 & E3). rewrite E0, E1, E2, E3, tAp_eq, cK_eq by lia.
    fold (Sm4Spec.xor3 k1 k2 k3).
    set (y := Z.lxor k0 _). rewrite repeat_snoc, <- app_assoc. cbn [app]. unfold put at 2.
    rewrite upd_app_mid by (rewrite repeat_length; lia).
    erewrite IHn.
    + cbn [rev]. rewrite <- app_assoc. reflexivity.
    + lia.
    + lia.
    + rewrite zlen_cons. lia.
    + eapply ring_step; eauto.
Qed.

Lemma expandKey_eq : forall key b,
  expandKey key b = if b then Sm4Spec.round_keys key else rev (Sm4Spec.round_keys key).
Proof.
  intros key b. unfold expandKey, Sm4Spec.round_keys. cbv zeta.
  match goal with |- context [(?x, repeat 0 32)] => set (x0 := x) end.
  assert (R : ring x0 0 (Z.lxor (Sm4Spec.word key 0) (Sm4Spec.FK 0))
     (Z.lxor (Sm4Spec.word key 1) (Sm4Spec.FK 1)) (Z.lxor (Sm4Spec.word key 2) (Sm4Spec.FK 2))
     (Z.lxor (Sm4Spec.word key 3) (Sm4Spec.FK 3))) by (repeat split).
  clearbody x0.
  destruct b.
  - change (repeat 0 32) with ([] ++ repeat 0 32). erewrite (keys_enc 32 0 x0); [reflexivity|lia|lia|reflexivity|exact R].
  - rewrite <- (app_nil_r (repeat 0 32)). erewrite (keys_dec 32 0 x0); [apply app_nil_r|lia|lia|reflexivity|exact R].
Qed.

Lemma schedule_length : forall n i k0 k1 k2 k3, List.length (Sm4Spec.schedule n i k0 k1 k2 k3) = n.
Proof. induction n; intros; cbn [Sm4Spec.schedule List.length]; auto. Qed.

Lemma round_keys_length : forall key, List.length (Sm4Spec.round_keys key) = 32%nat.
Proof. intro. apply schedule_length. Qed.

(** ** Rounds *)

Definition tolist (x : Z * Z * Z * Z) : list Z := let '(a, b, c, d) := x in [a; b; c; d].

Lemma feistel_app : forall r1 r2 x, Sm4Spec.feistel (r1 ++ r2) x = Sm4Spec.feistel r2 (Sm4Spec.feistel r1 x).
Proof.
  induction r1; intros r2 [[[x0 x1] x2] x3]; [reflexivity|]. cbn [app Sm4Spec.feistel]. apply IHr1.
Qed.

Lemma fourRounds_eq : forall rk j x, fourRounds rk j (tolist x) =
  tolist (Sm4Spec.feistel [at_ rk (4 * j); at_ rk (4 * j + 1); at_ rk (4 * j + 2); at_ rk (4 * j + 3)] x).
Proof.
  intros rk j [[[a b] c] d]. unfold fourRounds. cbv zeta.
  set (r0 := at_ rk (4 * j)). set (r1 := at_ rk (4 * j + 1)).
  set (r2 := at_ rk (4 * j + 2)). set (r3 := at_ rk (4 * j + 3)).
  cbn [Sm4Spec.feistel tolist]. unfold f0, f1, f2, f3. rewrite !t_eq.
  reflexivity.
Qed.

Lemma firstn_snoc : forall (l : list Z) n, (n < List.length l)%nat ->
  firstn (S n) l = firstn n l ++ [nth n l 0].
Proof.
  induction l; intros n H; [cbn in H; lia|]. destruct n; [reflexivity|].
  cbn [firstn app nth]. f_equal. apply IHl. cbn in H. lia.
Qed.

Lemma rounds_eq4 : forall n rk x, (4 * n <= List.length rk)%nat ->
  for_loop n 0 (fourRounds rk) (tolist x) = tolist (Sm4Spec.feistel (firstn (4 * n) rk) x).
Proof.
  induction n; intros rk x H.
  - reflexivity.
  - rewrite for_loop_S, IHn by lia. rewrite fourRounds_eq. rewrite <- feistel_app. do 2 f_equal.
    replace (4 * S n)%nat with (S (S (S (S (4 * n)))))%nat by lia.
    rewrite !firstn_snoc by lia. rewrite <- !app_assoc. cbn [app]. unfold at_.
    replace (Z.to_nat (4 * (0 + Z.of_nat n))) with (4 * n)%nat by lia.
    replace (Z.to_nat (4 * (0 + Z.of_nat n) + 1)) with (S (4 * n))%nat by lia.
    replace (Z.to_nat (4 * (0 + Z.of_nat n) + 2)) with (S (S (4 * n)))%nat by lia.
    replace (Z.to_nat (4 * (0 + Z.of_nat n) + 3)) with (S (S (S (4 * n))))%nat by lia.
    reflexivity.
Qed.

Lemma r_eq : forall a b c d, r [a; b; c; d] = [d; c; b; a].
Proof.
  intros. unfold r. cbv zeta. unfold put, at_.
  change (Z.to_nat 0) with 0%nat. change (Z.to_nat 1) with 1%nat.
  change (Z.to_nat 2) with 2%nat. change (Z.to_nat 3) with 3%nat. cbn [upd nth].
  assert (X : forall x y, Z.lxor (Z.lxor x y) y = x)
    by (intros; rewrite Z.lxor_assoc, Z.lxor_nilpotent, Z.lxor_0_r; reflexivity).
  rewrite !X.
  assert (Y : forall x y, Z.lxor (Z.lxor x y) x = y)
    by (intros; rewrite (Z.lxor_comm x y); apply X).
  rewrite !Y. reflexivity.
Qed.

Lemma putU32_splice : forall h o x, putU32 h o x = splice h o (be_enc 4 x).
Proof. intros. unfold putU32, splice. rewrite zlen_be_enc. reflexivity. Qed.

Lemma word_sub : forall h o j, 0 <= o -> 0 <= j < 4 ->
  Sm4Spec.word (sub h o (o + 16)) j = getU32 h (o + 4 * j).
Proof. intros. unfold Sm4Spec.word, getU32. rewrite sub_sub by lia. f_equal. f_equal. lia. Qed.

Lemma crypt_length : forall rk b, zlen (Sm4Spec.crypt rk b) = 16.
Proof.
  intros. unfold Sm4Spec.crypt. destruct (Sm4Spec.feistel _ _) as [[[y0 y1] y2] y3].
  cbn [map List.concat]. rewrite !zlen_app, !zlen_be_enc. reflexivity.
Qed.

Lemma crypt_bytes : forall rk b, bytes (Sm4Spec.crypt rk b).
Proof.
  intros. unfold Sm4Spec.crypt. destruct (Sm4Spec.feistel _ _) as [[[y0 y1] y2] y3].
  cbn [map List.concat]. rewrite !bytes_app. repeat split; try apply be_enc_bytes. constructor.
Qed.

Lemma processBlock_eq : forall h rk inp out, List.length rk = 32%nat ->
  0 <= off inp -> off inp + 16 <= zlen h -> 0 <= off out -> off out + 16 <= zlen h ->
  processBlock h rk inp out = splice h (off out) (Sm4Spec.crypt rk (sub h (off inp) (off inp + 16))).
Proof.
  intros h rk inp out Hrk H1 H2 H3 H4. unfold processBlock. cbv zeta.
  match goal with |- context [for_loop 8 0 _ ?x] =>
    change x with (tolist (getU32 h (off inp), getU32 h (off inp + 4),
                           getU32 h (off inp + 8), getU32 h (off inp + 12))) end.
  rewrite rounds_eq4 by lia. rewrite firstn_all2 by lia.
  unfold Sm4Spec.crypt. rewrite !word_sub by lia.
  replace (off inp + 4 * 0) with (off inp) by lia.
  change (4 * 1) with 4. change (4 * 2) with 8. change (4 * 3) with 12.
  destruct (Sm4Spec.feistel _ _) as [[[y0 y1] y2] y3]. cbn [tolist]. rewrite r_eq.
  unfold at_. change (Z.to_nat 0) with 0%nat. change (Z.to_nat 1) with 1%nat.
  change (Z.to_nat 2) with 2%nat. change (Z.to_nat 3) with 3%nat. cbn [nth map List.concat].
  rewrite !putU32_splice. rewrite !splice_splice; rewrite ?zlen_app, ?zlen_be_enc; try lia.
  - rewrite app_nil_r. reflexivity.
  - rewrite splice_length; rewrite ?zlen_be_enc; lia.
  - rewrite !splice_length; rewrite ?splice_length; rewrite ?zlen_be_enc; lia.
Qed.

(** ** The block cipher is a permutation *)

Definition u32_4 (x : Z * Z * Z * Z) : Prop :=
  let '(a, b, c, d) := x in is_u32 a /\ is_u32 b /\ is_u32 c /\ is_u32 d.

Lemma feistel_u32 : forall rks x, u32_4 x -> u32_4 (Sm4Spec.feistel rks x).
Proof.
  induction rks; intros [[[x0 x1] x2] x3] (H0 & H1 & H2 & H3); cbn [Sm4Spec.feistel]; [repeat split; try apply H0; try apply H1; try apply H2; try apply H3|].
  apply IHrks. unfold u32_4. split; [auto|]. split; [auto|]. split; [auto|].
  apply is_u32_lxor; auto. apply T_u32.
Qed.

Definition rev4 (x : Z * Z * Z * Z) : Z * Z * Z * Z := let '(a, b, c, d) := x in (d, c, b, a).

Lemma feistel_inverse : forall rks x,
  Sm4Spec.feistel (rev rks) (rev4 (Sm4Spec.feistel rks x)) = rev4 x.
Proof.
  induction rks; intros [[[x0 x1] x2] x3]; [reflexivity|].
  cbn [rev Sm4Spec.feistel]. rewrite feistel_app, IHrks. cbn [rev4 Sm4Spec.feistel].
  replace (Sm4Spec.xor3 x3 x2 x1) with (Sm4Spec.xor3 x1 x2 x3).
  - rewrite Z.lxor_assoc, Z.lxor_nilpotent, Z.lxor_0_r. reflexivity.
  - unfold Sm4Spec.xor3. rewrite (Z.lxor_comm x3 x2), (Z.lxor_comm _ x1), <- Z.lxor_assoc.
    reflexivity.
Qed.

Lemma word_u32 : forall b j, bytes b -> 0 <= j < 4 -> zlen b = 16 -> is_u32 (Sm4Spec.word b j).
Proof.
  intros b j Hb Hj Hl. unfold Sm4Spec.word, is_u32.
  pose proof (sub_bytes b (4 * j) (4 * j + 4) Hb) as B. apply be_dec_bound in B.
  rewrite sub_length in B by lia. replace (4 * j + 4 - 4 * j) with 4 in B by lia. exact B.
Qed.

Lemma words_block : forall b, bytes b -> zlen b = 16 ->
  List.concat (map (be_enc 4) [Sm4Spec.word b 0; Sm4Spec.word b 1; Sm4Spec.word b 2; Sm4Spec.word b 3]) = b.
Proof.
  intros b Hb Hl. cbn [map List.concat]. unfold Sm4Spec.word.
  assert (E : forall lo, 0 <= lo <= 12 -> be_enc 4 (be_dec (sub b lo (lo + 4))) = sub b lo (lo + 4)).
  { intros lo Hlo. pose proof (sub_length _ b lo (lo + 4)) as S.
    replace 4%nat with (List.length (sub b lo (lo + 4))) by (unfold zlen in *; lia).
    apply be_enc_dec. apply sub_bytes; auto. }
  change (4 * 0) with 0. change (4 * 1) with 4. change (4 * 2) with 8. change (4 * 3) with 12.
  rewrite (E 0), (E 4), (E 8), (E 12) by lia. rewrite app_nil_r.
  unfold sub. change (Z.to_nat (0 + 4 - 0)) with 4%nat. change (Z.to_nat (4 + 4 - 4)) with 4%nat.
  change (Z.to_nat (8 + 4 - 8)) with 4%nat. change (Z.to_nat (12 + 4 - 12)) with 4%nat.
  change (Z.to_nat 0) with 0%nat. change (Z.to_nat 4) with 4%nat.
  change (Z.to_nat 8) with (4 + 4)%nat. change (Z.to_nat 12) with (4 + (4 + 4))%nat.
  rewrite <- !skipn_skipn. cbn [skipn].
  rewrite (firstn_all2 (skipn 4 (skipn 4 (skipn 4 b)))).
  - rewrite !firstn_skipn. reflexivity.
  - rewrite !skipn_length. unfold zlen in Hl. lia.
Qed.

Lemma word_concat : forall a b c d, u32_4 (a, b, c, d) ->
  let m := List.concat (map (be_enc 4) [a; b; c; d]) in
  (Sm4Spec.word m 0, Sm4Spec.word m 1, Sm4Spec.word m 2, Sm4Spec.word m 3) = (a, b, c, d).
Proof.
  intros a b c d (H0 & H1 & H2 & H3). cbv zeta. cbn [map List.concat]. rewrite app_nil_r.
  unfold Sm4Spec.word.
  rewrite sub_app_l by (rewrite zlen_be_enc; reflexivity).
  rewrite sub_mid by (rewrite ?zlen_be_enc; reflexivity).
  rewrite (app_assoc (be_enc 4 a)).
  rewrite (sub_mid _ _ (be_enc 4 c)) by (rewrite ?zlen_app, ?zlen_be_enc; reflexivity).
  rewrite (app_assoc _ (be_enc 4 c)).
  rewrite (sub_app_r _ _ (be_enc 4 d)) by (rewrite ?zlen_app, ?zlen_be_enc; reflexivity).
  rewrite !be_dec_enc_small by assumption. reflexivity.
Qed.

Lemma crypt_inverse : forall rks b, bytes b -> zlen b = 16 ->
  Sm4Spec.crypt (rev rks) (Sm4Spec.crypt rks b) = b.
Proof.
  intros rks b Hb Hl. unfold Sm4Spec.crypt at 2.
  set (x := (Sm4Spec.word b 0, Sm4Spec.word b 1, Sm4Spec.word b 2, Sm4Spec.word b 3)).
  assert (Hx : u32_4 x).
  { unfold x, u32_4. split; [|split; [|split]]; apply word_u32; auto; lia. }
  pose proof (feistel_u32 rks x Hx) as Hy. pose proof (feistel_inverse rks x) as F.
  destruct (Sm4Spec.feistel rks x) as [[[y0 y1] y2] y3]. unfold rev4 in F at 1.
  unfold Sm4Spec.crypt.
  rewrite word_concat by (destruct Hy as (A & B & C & D); exact (conj D (conj C (conj B A)))).
  rewrite F. unfold x, rev4. apply words_block; auto.
Qed.

Global Opaque Sm4Spec.round_keys Sm4Spec.crypt processBlock.

(** ** Encrypt and Decrypt on the heap *)

Definition window (h : list Z) (s : slice) : Prop := 0 <= off s /\ 0 <= len s /\ off s + len s <= zlen h.

Lemma NewCipher_ok : forall key, zlen key = 16 ->
  NewCipher key = Ok (mkCipher (Sm4Spec.round_keys key) (rev (Sm4Spec.round_keys key))).
Proof.
  intros key H. unfold NewCipher. rewrite H. cbn [Z.eqb KeySize negb Pos.eqb].
  rewrite !expandKey_eq. reflexivity.
Qed.

Lemma NewCipher_err : forall key, zlen key <> 16 -> NewCipher key = Err (KeySizeError (zlen key)).
Proof.
  intros key H. unfold NewCipher, KeySize. destruct (Z.eqb_spec (zlen key) 16); [lia|reflexivity].
Qed.

Lemma Encrypt_ok : forall key h dst src, window h dst -> window h src -> 16 <= len dst -> 16 <= len src ->
  Encrypt (mkCipher (Sm4Spec.round_keys key) (rev (Sm4Spec.round_keys key))) h dst src =
  Ret (splice h (off dst) (Sm4Spec.sm4_enc key (sub h (off src) (off src + 16)))).
Proof.
  intros key h dst src (A1 & A2 & A3) (B1 & B2 & B3) Hd Hs. unfold Encrypt, BlockSize.
  destruct (Z.ltb_spec (len src) 16); [lia|]. destruct (Z.ltb_spec (len dst) 16); [lia|].
  cbn [enc]. unfold Sm4Spec.sm4_enc. rewrite processBlock_eq; [reflexivity|apply round_keys_length|lia|lia|lia|lia].
Qed.

Lemma Decrypt_ok : forall key h dst src, window h dst -> window h src -> 16 <= len dst -> 16 <= len src ->
  Decrypt (mkCipher (Sm4Spec.round_keys key) (rev (Sm4Spec.round_keys key))) h dst src =
  Ret (splice h (off dst) (Sm4Spec.sm4_dec key (sub h (off src) (off src + 16)))).
Proof.
  intros key h dst src (A1 & A2 & A3) (B1 & B2 & B3) Hd Hs. unfold Decrypt, BlockSize.
  destruct (Z.ltb_spec (len src) 16); [lia|]. destruct (Z.ltb_spec (len dst) 16); [lia|].
  cbn [dec]. unfold Sm4Spec.sm4_dec. rewrite processBlock_eq; [reflexivity|rewrite rev_length; apply round_keys_length|lia|lia|lia|lia].
Qed.

(** ** Modes *)

(** A message of whole blocks is a list of blocks. *)
Definition is_block (b : list Z) : Prop := zlen b = 16.

Lemma to_blocks : forall n m, zlen m = 16 * Z.of_nat n ->
  exists bs, m = List.concat bs /\ Forall is_block bs /\ List.length bs = n.
Proof.
  induction n; intros m H.
  - exists []. split; [|split]; [|constructor|reflexivity]. apply zlen_0_nil in H; auto.
  - destruct (IHn (skipn 16 m)) as (bs & E & F & Ln).
    + rewrite zlen_skipn; unfold zlen in *; lia.
    + exists (firstn 16 m :: bs). cbn [List.concat List.length]. rewrite <- E, firstn_skipn.
      split; [reflexivity|]. split; [|lia]. constructor; auto.
      unfold is_block. rewrite zlen_firstn; unfold zlen in *; lia.
Qed.

Lemma concat_blocks_len : forall bs, Forall is_block bs -> zlen (List.concat bs) = 16 * zlen bs.
Proof.
  induction 1; [reflexivity|]. cbn [List.concat]. rewrite zlen_app, zlen_cons, IHForall.
  unfold is_block in H. lia.
Qed.

Lemma block_concat : forall bs i, Forall is_block bs -> 0 <= i < zlen bs ->
  Sm4Spec.block (List.concat bs) i = nth (Z.to_nat i) bs [].
Proof.
  intros bs i F. revert i. induction F; intros i Hi.
  - cbn in Hi. lia.
  - rewrite zlen_cons in Hi. unfold is_block in H. cbn [List.concat]. unfold Sm4Spec.block in *.
    destruct (Z.eq_dec i 0) as [->|N].
    + cbn [nth Z.to_nat]. apply sub_app_l. rewrite H. reflexivity.
    + rewrite sub_app_right by lia. rewrite H.
      replace (16 * i - 16) with (16 * (i - 1)) by lia.
      replace (16 * i + 16 - 16) with (16 * (i - 1) + 16) by lia. rewrite IHF by lia.
      replace (Z.to_nat i) with (S (Z.to_nat (i - 1))) by lia. reflexivity.
Qed.

Lemma ecbLoop_ok : forall (crypt : list Z -> slice -> slice -> go (list Z)) (f : list Z -> list Z),
  (forall h d s, window h d -> window h s -> len d = 16 -> len s = 16 ->
     crypt h d s = Ret (splice h (off d) (f (sub h (off s) (off s + 16))))) ->
  (forall b, zlen (f b) = 16) ->
  forall bs pre don rest n i,
  Forall is_block bs -> zlen don = zlen pre -> zlen rest = zlen (List.concat bs) ->
  n = zlen (pre ++ List.concat bs) -> i = zlen pre ->
  ecbLoop crypt (List.length bs) i ((pre ++ List.concat bs) ++ don ++ rest) (mkSlice n n) (mkSlice 0 n) =
  Ret ((pre ++ List.concat bs) ++ don ++ List.concat (map f bs)).
Proof.
  intros crypt f Hc Hf. induction bs as [|b bs IH]; intros pre don rest n i F Hd Hr Hn Hi.
  - cbn [List.concat map List.length ecbLoop] in *. rewrite zlen_nil in Hr. apply zlen_0_nil in Hr. subst rest.
    rewrite !app_nil_r. reflexivity.
  - inversion F as [|b0 bs0 Fb Fbs]; subst b0 bs0. unfold is_block in Fb.
    pose proof (zlen_nonneg _ pre). pose proof (zlen_nonneg _ (List.concat bs)).
    cbn [List.concat] in *. rewrite !zlen_app, Fb in *.
    cbn [List.length ecbLoop]. unfold subslice at 1 2. cbn [off len]. unfold BlockSize.
    destruct (Z.leb_spec 0 i); [|lia]. destruct (Z.leb_spec i (i + 16)); [|lia].
    destruct (Z.leb_spec (i + 16) n); [|lia]. cbn [andb bind].
    rewrite Hc; cbn [off len]; try lia;
      try (unfold window; cbn [off len]; rewrite !zlen_app; lia).
    cbn [bind].
    (* the block read *)
    replace (sub _ (0 + i) (0 + i + 16)) with b.
    2:{ symmetry. rewrite <- app_assoc, <- app_assoc. apply sub_mid; lia. }
    (* the block written *)
    rewrite <- (firstn_skipn 16 rest) at 1.
    rewrite (app_assoc _ don). rewrite splice_mid.
    2:{ rewrite !zlen_app. lia. }
    2:{ rewrite Hf, zlen_firstn; unfold zlen in *; lia. }
    replace (i + 16) with (zlen (pre ++ b)) by (rewrite zlen_app; lia).
    specialize (IH (pre ++ b) (don ++ f b) (skipn 16 rest) n (zlen (pre ++ b)) Fbs).
    cbn [map List.concat]. rewrite <- !app_assoc in *. rewrite IH.
    + reflexivity.
    + rewrite !zlen_app, Hf. lia.
    + rewrite zlen_skipn; unfold zlen in *; lia.
    + rewrite !zlen_app. lia.
    + reflexivity.
Qed.

Lemma sm4_enc_len : forall k b, zlen (Sm4Spec.sm4_enc k b) = 16.
Proof. intros. apply crypt_length. Qed.
Lemma sm4_dec_len : forall k b, zlen (Sm4Spec.sm4_dec k b) = 16.
Proof. intros. apply crypt_length. Qed.

Lemma map_blocks : forall (f : list Z -> list Z) bs, (forall b, zlen (f b) = 16) -> Forall is_block (map f bs).
Proof. intros f bs H. induction bs; constructor; auto. apply H. Qed.

Lemma ECBEncrypt_ok : forall key bs, zlen key = 16 -> Forall is_block bs ->
  ECBEncrypt key (List.concat bs) =
  Ret (Ok (List.concat (map (Sm4Spec.sm4_enc key) bs)), List.concat bs).
Proof.
  intros key bs Hk F. unfold ECBEncrypt. cbv zeta. pose proof (concat_blocks_len bs F) as Ln.
  unfold BlockSize. rewrite Ln at 1. rewrite Z.mul_comm, Z.mod_mul by lia. cbn [Z.eqb negb].
  rewrite NewCipher_ok by auto.
  replace (Z.to_nat (zlen (List.concat bs) / 16)) with (List.length bs)
    by (rewrite Ln, Z.mul_comm, Z.div_mul by lia; unfold zlen; lia).
  pose proof (ecbLoop_ok _ (Sm4Spec.sm4_enc key)
     (fun h d s W1 W2 L1 L2 => Encrypt_ok key h d s W1 W2 ltac:(lia) ltac:(lia))
     (sm4_enc_len key) bs [] [] (repeat 0 (Z.to_nat (zlen (List.concat bs))))
     (zlen (List.concat bs)) 0 F) as E.
  cbn [app] in E. rewrite E; auto.
  2:{ rewrite zlen_repeat. pose proof (zlen_nonneg _ (List.concat bs)). lia. }
  cbn [bind]. rewrite sub_app_l by reflexivity. rewrite sub_app_r; auto.
  rewrite (concat_blocks_len (map _ bs)) by (apply map_blocks, sm4_enc_len).
  replace (zlen (map _ bs)) with (zlen bs) by (unfold zlen; rewrite map_length; reflexivity). lia.
Qed.

Lemma ECBDecrypt_ok : forall key bs, zlen key = 16 -> Forall is_block bs ->
  ECBDecrypt key (List.concat bs) =
  Ret (Ok (List.concat (map (Sm4Spec.sm4_dec key) bs)), List.concat bs).
Proof.
  intros key bs Hk F. unfold ECBDecrypt. cbv zeta. pose proof (concat_blocks_len bs F) as Ln.
  unfold BlockSize. rewrite Ln at 1. rewrite Z.mul_comm, Z.mod_mul by lia. cbn [Z.eqb negb].
  rewrite NewCipher_ok by auto.
  replace (Z.to_nat (zlen (List.concat bs) / 16)) with (List.length bs)
    by (rewrite Ln, Z.mul_comm, Z.div_mul by lia; unfold zlen; lia).
  pose proof (ecbLoop_ok _ (Sm4Spec.sm4_dec key)
     (fun h d s W1 W2 L1 L2 => Decrypt_ok key h d s W1 W2 ltac:(lia) ltac:(lia))
     (sm4_dec_len key) bs [] [] (repeat 0 (Z.to_nat (zlen (List.concat bs))))
     (zlen (List.concat bs)) 0 F) as E.
  cbn [app] in E. rewrite E; auto.
  2:{ rewrite zlen_repeat. pose proof (zlen_nonneg _ (List.concat bs)). lia. }
  cbn [bind]. rewrite sub_app_l by reflexivity. rewrite sub_app_r; auto.
  rewrite (concat_blocks_len (map _ bs)) by (apply map_blocks, sm4_dec_len).
  replace (zlen (map _ bs)) with (zlen bs) by (unfold zlen; rewrite map_length; reflexivity). lia.
Qed.

(** CBC on lists of blocks. *)
Fixpoint cbc_enc (f : list Z -> list Z) (iv : list Z) (bs : list (list Z)) : list (list Z) :=
  match bs with
  | [] => []
  | b :: r => let c := f (Sm4Spec.xor_bytes b iv) in c :: cbc_enc f c r
  end.
Fixpoint cbc_dec (f : list Z -> list Z) (iv : list Z) (bs : list (list Z)) : list (list Z) :=
  match bs with
  | [] => []
  | b :: r => Sm4Spec.xor_bytes (f b) iv :: cbc_dec f b r
  end.

Lemma xor_bytes_len : forall a b, zlen a = zlen b -> zlen (Sm4Spec.xor_bytes a b) = zlen b.
Proof. intros. unfold Sm4Spec.xor_bytes, zlen in *. rewrite map_length, combine_length. lia. Qed.

Lemma xor16_splice : forall h o a b, zlen a = 16 -> zlen b = 16 ->
  xor16 h o a b = splice h o (Sm4Spec.xor_bytes a b).
Proof.
  intros h o a b Ha Hb. unfold xor16, splice. rewrite xor_bytes_len by lia. rewrite Hb. reflexivity.
Qed.

Lemma cbcEncLoop_ok : forall key bs pre don rest iv dst src, zlen iv = 16 ->
  Forall is_block bs -> zlen don = zlen pre -> zlen rest = zlen (List.concat bs) ->
  src = zlen pre -> dst = zlen (pre ++ List.concat bs) + zlen pre ->
  cbcEncLoop (mkCipher (Sm4Spec.round_keys key) (rev (Sm4Spec.round_keys key))) (List.length bs)
    ((pre ++ List.concat bs) ++ don ++ rest) iv dst src =
  Ret ((pre ++ List.concat bs) ++ don ++ List.concat (cbc_enc (Sm4Spec.sm4_enc key) iv bs)).
Proof.
  intros key. induction bs as [|b bs IH]; intros pre don rest iv dst src Hiv F Hd Hr Hsrc Hdst.
  - cbn [List.concat cbc_enc List.length cbcEncLoop] in *. rewrite zlen_nil in Hr. apply zlen_0_nil in Hr.
    subst rest. rewrite !app_nil_r. reflexivity.
  - inversion F as [|b0 bs0 Fb Fbs]; subst b0 bs0. unfold is_block in Fb.
    pose proof (zlen_nonneg _ pre). pose proof (zlen_nonneg _ (List.concat bs)).
    cbn [List.concat cbc_enc] in *. rewrite !zlen_app, Fb in *.
    cbn [List.length cbcEncLoop]. cbv zeta.
    replace (sub _ src (src + 16)) with b.
    2:{ symmetry. rewrite <- app_assoc, <- app_assoc. apply sub_mid; lia. }
    rewrite xor16_splice by lia.
    assert (Hx : zlen (Sm4Spec.xor_bytes b iv) = 16) by (rewrite xor_bytes_len; lia).
    rewrite <- (firstn_skipn 16 rest) at 1.
    assert (Hf : zlen (firstn 16 rest) = 16) by (rewrite zlen_firstn; unfold zlen in *; lia).
    assert (Hs : zlen (skipn 16 rest) = zlen (List.concat bs)) by (rewrite zlen_skipn; unfold zlen in *; lia).
    rewrite (app_assoc _ don). rewrite splice_mid by (rewrite ?zlen_app; lia).
    rewrite Encrypt_ok; cbn [off len]; try lia;
      try (unfold window; cbn [off len]; rewrite !zlen_app, Hx; lia).
    cbn [bind].
    rewrite sub_mid by (rewrite ?zlen_app; lia).
    rewrite splice_mid by (rewrite ?zlen_app, ?sm4_enc_len; lia).
    rewrite sub_mid by (rewrite ?zlen_app, ?sm4_enc_len; lia).
    set (c := Sm4Spec.sm4_enc key _). assert (Hc : zlen c = 16) by apply sm4_enc_len.
    specialize (IH (pre ++ b) (don ++ c) (skipn 16 rest) c (dst + 16) (src + 16) Hc Fbs).
    cbn [List.concat]. rewrite <- !app_assoc in *. rewrite IH.
    + reflexivity.
    + rewrite !zlen_app. lia.
    + lia.
    + rewrite zlen_app. lia.
    + rewrite !zlen_app. lia.
Qed.

Lemma last_default : forall A (l : list A) x d e, last (x :: l) d = last (x :: l) e.
Proof. induction l as [|y l IH]; intros x d e; [reflexivity|]. apply (IH y). Qed.

Lemma cbc_dec_snoc : forall f bs iv b, cbc_dec f iv (bs ++ [b]) =
  cbc_dec f iv bs ++ [Sm4Spec.xor_bytes (f b) (last bs iv)].
Proof.
  induction bs as [|c bs IH]; intros iv b; [reflexivity|].
  cbn [app cbc_dec]. rewrite IH. f_equal. f_equal. f_equal. f_equal.
  destruct bs as [|x bs']; [reflexivity|]. cbn [last]. apply last_default.
Qed.

Lemma last_block : forall bs iv, Forall is_block bs -> zlen iv = 16 -> zlen (last bs iv) = 16.
Proof.
  intros bs iv F Hiv. induction F as [|b l Hb F IH]; [exact Hiv|].
  destruct l; [exact Hb|]. exact IH.
Qed.

Lemma cbcDecLoop_ok : forall key bs iv after rest tail dst, zlen iv = 16 ->
  Forall is_block bs -> zlen rest = zlen (List.concat bs) -> dst = zlen (List.concat bs ++ after) ->
  cbcDecLoop (mkCipher (Sm4Spec.round_keys key) (rev (Sm4Spec.round_keys key))) (List.length bs)
    ((List.concat bs ++ after) ++ rest ++ tail) iv dst 0 =
  Ret ((List.concat bs ++ after) ++ List.concat (cbc_dec (Sm4Spec.sm4_dec key) iv bs) ++ tail).
Proof.
  intros key bs. induction bs as [|b bs IH] using rev_ind; intros iv after rest tail dst Hiv F Hr Hd.
  - cbn [List.concat cbc_dec List.length cbcDecLoop] in *. rewrite zlen_nil in Hr.
    apply zlen_0_nil in Hr. subst rest. reflexivity.
  - apply Forall_app in F. destruct F as [Fbs Fb]. inversion Fb as [|b0 l0 Hb _]; subst b0 l0. clear Fb.
    unfold is_block in Hb.
    rewrite app_length. cbn [List.length]. rewrite Nat.add_1_r. cbn [cbcDecLoop]. cbv zeta.
    rewrite concat_app in *. cbn [List.concat] in *. rewrite app_nil_r in *.
    pose proof (concat_blocks_len bs Fbs) as Ln. fold (zlen bs).
    assert (H0 : 0 <= zlen bs) by apply zlen_nonneg. pose proof (zlen_nonneg _ after).
    rewrite !zlen_app in *.
    set (o := 16 * zlen bs) in *.
    assert (Ho : 0 <= o) by lia.
    pose proof (zlen_nonneg _ tail).
    rewrite Decrypt_ok; cbn [off len]; try lia;
      try (unfold window; cbn [off len]; rewrite !zlen_app; lia).
    cbn [bind].
    replace (sub _ (0 + o) (0 + o + 16)) with b.
    2:{ symmetry. rewrite <- !app_assoc. apply sub_mid; lia. }
    set (p := Sm4Spec.sm4_dec key b). assert (Hp : zlen p = 16) by apply sm4_dec_len.
    assert (Hsplit : exists r1 r2, rest = r1 ++ r2 /\ zlen r1 = o /\ zlen r2 = 16).
    { exists (firstn (Z.to_nat o) rest), (skipn (Z.to_nat o) rest). rewrite firstn_skipn.
      split; [reflexivity|]. rewrite zlen_firstn, zlen_skipn by (unfold zlen in *; lia). lia. }
    destruct Hsplit as (r1 & r2 & -> & Hr1 & Hr2).
    replace (((List.concat bs ++ b) ++ after) ++ (r1 ++ r2) ++ tail)
      with ((((List.concat bs ++ b) ++ after) ++ r1) ++ r2 ++ tail) by (rewrite <- !app_assoc; reflexivity).
    rewrite splice_mid by (rewrite ?zlen_app; lia).
    rewrite sub_mid by (rewrite ?zlen_app; lia).
    set (prev := match List.length bs with O => _ | S _ => _ end).
    assert (Eprev : prev = last bs iv).
    { unfold prev. destruct bs as [|c cs] using rev_ind.
      - reflexivity.
      - clear IHcs. rewrite app_length, Nat.add_1_r. cbn [List.length].
        rewrite last_last. apply Forall_app in Fbs. destruct Fbs as [Fcs Fc].
        inversion Fc as [|c0 l0 Hc _]; subst. unfold is_block in Hc.
        rewrite concat_app. cbn [List.concat]. rewrite app_nil_r.
        pose proof (concat_blocks_len cs Fcs).
        replace o with (zlen (List.concat cs) + 16) by (unfold o; rewrite zlen_app; change (zlen [c]) with 1; lia).
        rewrite <- !app_assoc. apply sub_mid; lia. }
    rewrite Eprev. clear prev Eprev.
    rewrite xor16_splice by (auto using last_block).
    assert (Hx : zlen (Sm4Spec.xor_bytes p (last bs iv)) = 16)
      by (rewrite xor_bytes_len; rewrite last_block; auto).
    rewrite splice_mid by (rewrite ?zlen_app; lia).
    specialize (IH iv (b ++ after) r1 (Sm4Spec.xor_bytes p (last bs iv) ++ tail) dst Hiv Fbs).
    rewrite cbc_dec_snoc, concat_app. cbn [List.concat]. rewrite app_nil_r.
    fold p. rewrite <- !app_assoc in *. apply IH.
    + lia.
    + rewrite !zlen_app. lia.
Qed.

Lemma CBCEncrypt_ok : forall key iv bs, zlen key = 16 -> zlen iv = 16 -> Forall is_block bs ->
  CBCEncrypt key iv (List.concat bs) =
  Ret (Ok (List.concat (cbc_enc (Sm4Spec.sm4_enc key) iv bs)), List.concat bs).
Proof.
  intros key iv bs Hk Hiv F. unfold CBCEncrypt. cbv zeta. pose proof (concat_blocks_len bs F) as Ln.
  unfold BlockSize. rewrite Ln at 1. rewrite Z.mul_comm, Z.mod_mul by lia. cbn [Z.eqb negb].
  rewrite NewCipher_ok by auto. rewrite Hiv. cbn [Z.eqb Pos.eqb negb].
  replace (Z.to_nat (zlen (List.concat bs) / 16)) with (List.length bs)
    by (rewrite Ln, Z.mul_comm, Z.div_mul by lia; unfold zlen; lia).
  pose proof (cbcEncLoop_ok key bs [] [] (repeat 0 (Z.to_nat (zlen (List.concat bs)))) iv
     (zlen (List.concat bs)) 0 Hiv F) as E.
  cbn [app] in E. rewrite E; auto.
  2:{ rewrite zlen_repeat. pose proof (zlen_nonneg _ (List.concat bs)). lia. }
  2:{ rewrite zlen_nil. lia. }
  cbn [bind]. rewrite sub_app_l by reflexivity. rewrite sub_app_r; auto.
  assert (B : forall bs iv, Forall is_block (cbc_enc (Sm4Spec.sm4_enc key) iv bs) /\
     zlen (cbc_enc (Sm4Spec.sm4_enc key) iv bs) = zlen bs).
  { clear. induction bs; intros iv; cbn [cbc_enc]; [split; [constructor|reflexivity]|].
    cbv zeta. destruct (IHbs (Sm4Spec.sm4_enc key (Sm4Spec.xor_bytes a iv))) as [I1 I2].
    rewrite !zlen_cons, I2. split; [|reflexivity]. constructor; auto. unfold is_block. apply sm4_enc_len. }
  destruct (B bs iv) as [B1 B2]. rewrite (concat_blocks_len _ B1), B2. lia.
Qed.

Lemma cbc_dec_blocks : forall key bs iv, zlen iv = 16 -> Forall is_block bs ->
  Forall is_block (cbc_dec (Sm4Spec.sm4_dec key) iv bs) /\
  zlen (cbc_dec (Sm4Spec.sm4_dec key) iv bs) = zlen bs.
Proof.
  induction bs; intros iv Hiv F; cbn [cbc_dec]; [split; [constructor|reflexivity]|].
  inversion F; subst. destruct (IHbs a) as [I1 I2]; auto.
  rewrite !zlen_cons, I2. split; [|reflexivity]. constructor; auto.
  unfold is_block. rewrite xor_bytes_len; rewrite ?sm4_dec_len; lia.
Qed.

Lemma CBCDecrypt_ok : forall key iv bs, zlen key = 16 -> zlen iv = 16 -> Forall is_block bs ->
  CBCDecrypt key iv (List.concat bs) =
  Ret (Ok (List.concat (cbc_dec (Sm4Spec.sm4_dec key) iv bs)), List.concat bs).
Proof.
  intros key iv bs Hk Hiv F. unfold CBCDecrypt. cbv zeta. pose proof (concat_blocks_len bs F) as Ln.
  unfold BlockSize. rewrite Ln at 1. rewrite Z.mul_comm, Z.mod_mul by lia. cbn [Z.eqb negb].
  rewrite NewCipher_ok by auto. rewrite Hiv. cbn [Z.eqb Pos.eqb negb].
  replace (Z.to_nat (zlen (List.concat bs) / 16)) with (List.length bs)
    by (rewrite Ln, Z.mul_comm, Z.div_mul by lia; unfold zlen; lia).
  pose proof (cbcDecLoop_ok key bs iv [] (repeat 0 (Z.to_nat (zlen (List.concat bs)))) []
     (zlen (List.concat bs)) Hiv F) as E.
  rewrite !app_nil_r in E. rewrite E; auto.
  2:{ rewrite zlen_repeat. pose proof (zlen_nonneg _ (List.concat bs)). lia. }
  cbn [bind]. rewrite sub_app_l by reflexivity. rewrite sub_app_r; auto.
  destruct (cbc_dec_blocks key bs iv Hiv F) as [B1 B2]. rewrite (concat_blocks_len _ B1), B2. lia.
Qed.

(** Round trips on blocks. *)
Lemma xor_bytes_twice : forall a b, zlen a = zlen b -> Sm4Spec.xor_bytes (Sm4Spec.xor_bytes a b) b = a.
Proof.
  induction a as [|x a IH]; intros b H.
  - reflexivity.
  - destruct b as [|y b]; [discriminate|]. rewrite !zlen_cons in H.
    unfold Sm4Spec.xor_bytes in *. cbn [combine map]. rewrite IH by lia.
    rewrite Z.lxor_assoc, Z.lxor_nilpotent, Z.lxor_0_r. reflexivity.
Qed.

Lemma xor_bytes_bytes : forall a b, bytes a -> bytes b -> bytes (Sm4Spec.xor_bytes a b).
Proof.
  intros a. induction a as [|x a IH]; intros b Ha Hb; [constructor|].
  destruct b as [|y b]; [constructor|]. apply bytes_cons in Ha. apply bytes_cons in Hb.
  unfold Sm4Spec.xor_bytes in *. cbn [combine map]. apply bytes_cons. split; [|apply IH; tauto].
  unfold byte in *. change 256 with (2 ^ 8) in *. apply lxor_range; tauto || lia.
Qed.

Lemma cbc_round : forall key bs iv, bytes iv -> zlen iv = 16 -> Forall is_block bs ->
  Forall bytes bs ->
  cbc_dec (Sm4Spec.sm4_dec key) iv (cbc_enc (Sm4Spec.sm4_enc key) iv bs) = bs.
Proof.
  induction bs; intros iv Hbi Hiv F Fb; [reflexivity|].
  inversion F; inversion Fb; subst. unfold is_block in *. cbn [cbc_enc]. cbv zeta. cbn [cbc_dec].
  rewrite IHbs; auto using sm4_enc_len; [|apply crypt_bytes]. f_equal.
  unfold Sm4Spec.sm4_dec, Sm4Spec.sm4_enc. rewrite crypt_inverse.
  - apply xor_bytes_twice. lia.
  - apply xor_bytes_bytes; auto.
  - rewrite xor_bytes_len; lia.
Qed.
