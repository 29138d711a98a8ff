(** Lemmas about the ASN.1 values of cryptobyte: integers and object identifiers. *)
From Coq Require Import ZArith List Lia Bool String.
From Verif Require Import GoBase BeMin CbString CbStringProofs PropsCbString CbBuilder CbBuilderProofs.
Import ListNotations.
Open Scope Z_scope.

(** * Two's complement, big endian *)

(** The integer a non-empty byte string denotes. *)
Definition tc_val (l : list Z) : Z :=
  be_dec l - (if 128 <=? hd 0 l then 256 ^ zlen l else 0).

(** [c] is the DER contents of the INTEGER [v] (X.690 8.3): two's complement in the fewest octets. *)
Definition int_der (v : Z) (c : list Z) : Prop :=
  bytes c /\ c <> [] /\ tc_val c = v /\
  forall c', bytes c' -> c' <> [] -> tc_val c' = v -> zlen c <= zlen c'.

(** [n] octets hold [v]. *)
Definition fits (n v : Z) : Prop := - 2 ^ (8 * n - 1) <= v < 2 ^ (8 * n - 1).

Lemma pow_half : forall n, 1 <= n -> 256 ^ n = 2 * 2 ^ (8 * n - 1).
Proof.
  intros n Hn. replace (256 ^ n) with (2 ^ (8 * n)) by (rewrite Z.pow_mul_r by lia; reflexivity).
  replace (8 * n) with (1 + (8 * n - 1)) at 1 by lia. rewrite Z.pow_add_r by lia. lia.
Qed.
Lemma half_128 : forall n, 1 <= n -> 2 ^ (8 * n - 1) = 128 * 256 ^ (n - 1).
Proof.
  intros n Hn. replace (256 ^ (n - 1)) with (2 ^ (8 * (n - 1))) by (rewrite Z.pow_mul_r by lia; reflexivity).
  change 128 with (2 ^ 7). rewrite <- Z.pow_add_r by lia. f_equal. lia.
Qed.

Lemma zlen_pos : forall A (l : list A), l <> [] -> 1 <= zlen l.
Proof. intros A [|x l] H; [contradiction|]. rewrite zlen_cons. pose proof (zlen_nonneg _ l). lia. Qed.

Lemma be_dec_half : forall l, bytes l -> l <> [] ->
  (if 128 <=? hd 0 l then 2 ^ (8 * zlen l - 1) <= be_dec l < 256 ^ zlen l
   else 0 <= be_dec l < 2 ^ (8 * zlen l - 1)).
Proof.
  intros [|b l] HB HN; [contradiction|]. cbn [hd]. apply bytes_cons in HB. destruct HB as [Hb HB].
  rewrite be_dec_cons, zlen_cons. pose proof (be_dec_bound l HB) as D. pose proof (zlen_nonneg _ l) as N.
  pose proof (half_128 (zlen l + 1) ltac:(lia)) as E. replace (zlen l + 1 - 1) with (zlen l) in E by lia.
  rewrite E. replace (256 ^ (zlen l + 1)) with (256 * 256 ^ zlen l) by (rewrite Z.pow_add_r by lia; lia).
  unfold byte in Hb. destruct (Z.leb_spec 128 b); nia.
Qed.

Lemma tc_range : forall l, bytes l -> l <> [] -> fits (zlen l) (tc_val l).
Proof.
  intros l HB HN. pose proof (be_dec_half l HB HN) as H. pose proof (pow_half (zlen l) (zlen_pos _ l HN)) as P.
  unfold fits, tc_val. destruct (128 <=? hd 0 l); lia.
Qed.

Lemma tc_inj : forall l m, bytes l -> bytes m -> l <> [] -> m <> [] -> zlen l = zlen m ->
  tc_val l = tc_val m -> l = m.
Proof.
  intros l m Bl Bm Nl Nm L E. apply be_dec_inj; auto; [unfold zlen in L; lia|].
  pose proof (be_dec_half l Bl Nl) as H1. pose proof (be_dec_half m Bm Nm) as H2.
  pose proof (pow_half (zlen l) (zlen_pos _ l Nl)) as P. unfold tc_val in E. rewrite <- L in *.
  destruct (128 <=? hd 0 l), (128 <=? hd 0 m); lia.
Qed.

Lemma fits_mono : forall m n v, 1 <= m <= n -> fits m v -> fits n v.
Proof.
  intros m n v H F. unfold fits in *. assert (2 ^ (8 * m - 1) <= 2 ^ (8 * n - 1)) by (apply Z.pow_le_mono_r; lia). lia.
Qed.

(** Encoding a value in [n] octets. *)
Lemma be_dec_enc_Z : forall n v, 0 <= n -> be_dec (be_enc (Z.to_nat n) v) = v mod 256 ^ n.
Proof. intros. rewrite be_dec_enc, Z2Nat.id by lia. reflexivity. Qed.
Lemma zlen_be_enc_Z : forall n v, 0 <= n -> zlen (be_enc (Z.to_nat n) v) = n.
Proof. intros. rewrite zlen_be_enc. lia. Qed.

Lemma nonnil_zlen : forall A (l : list A), 1 <= zlen l -> l <> [].
Proof. intros A [|x l] H; [rewrite zlen_nil in H; lia|discriminate]. Qed.

Lemma tc_enc : forall n v, 1 <= n -> fits n v -> tc_val (be_enc (Z.to_nat n) v) = v.
Proof.
  intros n v Hn F. set (l := be_enc (Z.to_nat n) v).
  assert (L : zlen l = n) by (apply zlen_be_enc_Z; lia).
  assert (D : be_dec l = v mod 256 ^ n) by (apply be_dec_enc_Z; lia).
  assert (NN : l <> []) by (apply nonnil_zlen; lia).
  pose proof (be_dec_half l (be_enc_bytes _ _) NN) as H. pose proof (pow_half n Hn) as P. rewrite L in *.
  unfold tc_val, fits in *. rewrite L, D in *. pose proof (Z.div_mod v (256 ^ n) ltac:(lia)) as E.
  set (q := v / 256 ^ n) in *. set (r := v mod 256 ^ n) in *. set (M := 256 ^ n) in *.
  destruct (128 <=? hd 0 l).
  - assert (q = -1) by nia. nia.
  - assert (q = 0) by nia. nia.
Qed.

(** * checkASN1Integer is minimality *)

Lemma check_short : forall b0 b1 r, bytes (b0 :: b1 :: r) ->
  checkASN1Integer (b0 :: b1 :: r) = true <-> ~ fits (zlen (b1 :: r)) (tc_val (b0 :: b1 :: r)).
Proof.
  intros b0 b1 r HB. pose proof HB as HB2. apply bytes_cons in HB2. destruct HB2 as [H0 HB2].
  pose proof HB2 as HB3. apply bytes_cons in HB3. destruct HB3 as [H1 _].
  pose proof (be_dec_half (b1 :: r) HB2 ltac:(discriminate)) as D. cbn [hd] in D.
  unfold checkASN1Integer. rewrite land_80 by auto. unfold tc_val, fits. cbn [hd].
  rewrite be_dec_cons, (zlen_cons _ b0). set (t := b1 :: r) in *.
  assert (N : 1 <= zlen t) by (apply zlen_pos; discriminate).
  pose proof (pow_half (zlen t) N) as P. set (H := 2 ^ (8 * zlen t - 1)) in *.
  replace (256 ^ (zlen t + 1)) with (256 * 256 ^ zlen t) by (rewrite Z.pow_add_r by lia; lia).
  rewrite P in *. clear P. unfold byte in H0, H1.
  destruct (Z.eqb_spec b0 0) as [E0|E0]; [subst b0|]; destruct (Z.leb_spec 128 b1) as [L|L].
  - destruct (Z.ltb_spec b1 128); [lia|]. cbn [andb orb negb Z.eqb Pos.eqb]. change (128 <=? 0) with false. cbv iota.
    split; [intros _; lia|reflexivity].
  - destruct (Z.ltb_spec b1 128); [|lia]. cbn [andb orb negb Z.eqb Pos.eqb]. change (128 <=? 0) with false. cbv iota.
    split; [discriminate|lia].
  - destruct (Z.ltb_spec b1 128); [lia|]. cbn [andb orb Z.eqb Pos.eqb].
    destruct (Z.eqb_spec b0 255) as [E|E]; cbn [andb orb negb].
    + subst b0. change (128 <=? 255) with true. cbv iota. split; [discriminate|lia].
    + split; [intros _|reflexivity]. destruct (Z.leb_spec 128 b0); nia.
  - destruct (Z.ltb_spec b1 128); [|lia]. cbn [andb orb Z.eqb Pos.eqb]. rewrite andb_false_r. cbn [negb].
    split; [intros _|reflexivity]. destruct (Z.leb_spec 128 b0); nia.
Qed.

Lemma check_iff : forall c, bytes c -> (checkASN1Integer c = true <-> c <> [] /\
  (zlen c = 1 \/ ~ fits (zlen c - 1) (tc_val c))).
Proof.
  intros c HB. destruct c as [|b0 [|b1 r]].
  - cbn. split; [discriminate|tauto].
  - cbn. split; [intros _; split; [discriminate|left; reflexivity]|reflexivity].
  - rewrite check_short by exact HB. rewrite (zlen_cons _ b0).
    replace (zlen (b1 :: r) + 1 - 1) with (zlen (b1 :: r)) by lia.
    assert (1 <= zlen (b1 :: r)) by (apply zlen_pos; discriminate).
    split; [intro H0; split; [discriminate|right; exact H0]|intros [_ [H0|H0]]; [lia|exact H0]].
Qed.

Lemma check_int_der : forall c, bytes c -> c <> [] -> (checkASN1Integer c = true <-> int_der (tc_val c) c).
Proof.
  intros c HB HN. rewrite check_iff by exact HB. pose proof (zlen_pos _ c HN) as LC. split.
  - intros [_ H]. split; [exact HB|]. split; [exact HN|]. split; [reflexivity|].
    intros c' B' N' E. pose proof (zlen_pos _ c' N'). destruct H as [H|H]; [lia|].
    destruct (Z.le_gt_cases (zlen c) (zlen c')) as [|L]; [assumption|exfalso]. apply H.
    apply (fits_mono (zlen c')); [lia|]. rewrite <- E. apply tc_range; auto.
  - intros (_ & _ & _ & M). split; [exact HN|]. destruct (Z.eq_dec (zlen c) 1) as [|L1]; [auto|right].
    intro F. pose proof (M (be_enc (Z.to_nat (zlen c - 1)) (tc_val c)) (be_enc_bytes _ _)) as X.
    rewrite zlen_be_enc_Z in X by lia. rewrite tc_enc in X by (auto; lia).
    specialize (X ltac:(apply nonnil_zlen; rewrite zlen_be_enc_Z; lia) eq_refl). lia.
Qed.

Lemma int_der_unique : forall v c c', int_der v c -> int_der v c' -> c = c'.
Proof.
  intros v c c' (B & N & E & M) (B' & N' & E' & M').
  apply tc_inj; auto; [|congruence]. specialize (M c' B' N' E'). specialize (M' c B N E). lia.
Qed.

Lemma int_der_check : forall v c, int_der v c -> checkASN1Integer c = true /\ tc_val c = v.
Proof.
  intros v c H. pose proof H as (B & N & E & M). split; [|exact E].
  apply check_int_der; auto. rewrite E. exact H.
Qed.

(** Encoding in the right number of octets gives the DER contents. *)
Lemma int_der_enc : forall n v, 1 <= n -> fits n v -> (n = 1 \/ ~ fits (n - 1) v) ->
  int_der v (be_enc (Z.to_nat n) v).
Proof.
  intros n v Hn F M. set (c := be_enc (Z.to_nat n) v).
  assert (E : tc_val c = v) by (apply tc_enc; auto).
  assert (L : zlen c = n) by (apply zlen_be_enc_Z; lia).
  assert (NN : c <> []) by (apply nonnil_zlen; lia).
  rewrite <- E. apply check_int_der; [apply be_enc_bytes|exact NN|].
  apply check_iff; [apply be_enc_bytes|]. split; [exact NN|]. rewrite L, E. exact M.
Qed.

(** Number of octets of a value. *)
Definition octets (v n : Z) : Prop := 1 <= n /\ fits n v /\ (n = 1 \/ ~ fits (n - 1) v).

Lemma octets_le : forall v n m, octets v n -> 1 <= m -> fits m v -> n <= m.
Proof.
  intros v n m (H1 & H2 & H3) Hm F. destruct (Z.le_gt_cases n m) as [|L]; [assumption|].
  destruct H3 as [->|H3]; [lia|]. exfalso. apply H3. apply (fits_mono m); [lia|exact F].
Qed.

Lemma int_der_octets : forall v c, int_der v c -> octets v (zlen c).
Proof.
  intros v c H. pose proof H as (B & N & E & M). destruct (int_der_check v c H) as [C _].
  apply check_iff in C; [|exact B]. rewrite E in C. split; [apply zlen_pos; exact N|].
  split; [rewrite <- E; apply tc_range; auto|tauto].
Qed.

(** * Reading *)

Lemma flip_be : forall l, bytes l -> be_dec (map (fun b => 255 - b) l) = 256 ^ zlen l - 1 - be_dec l.
Proof.
  induction l as [|b l IH]; intro HB; [reflexivity|]. apply bytes_cons in HB. destruct HB as [Hb HB].
  cbn [map]. rewrite !be_dec_cons, zlen_cons, IH by exact HB.
  replace (zlen (map (fun b => 255 - b) l)) with (zlen l) by (unfold zlen; rewrite map_length; reflexivity).
  pose proof (zlen_nonneg _ l). rewrite Z.pow_add_r by lia. lia.
Qed.

Lemma land_80_eq : forall b, byte b -> (Z.land b 0x80 =? 0x80) = (128 <=? b).
Proof. intros b Hb. rewrite land_80 by auto. destruct (Z.ltb_spec b 128), (Z.leb_spec 128 b); try lia; reflexivity. Qed.

(** readASN1BigInt on an element. *)
Lemma readASN1BigInt_elem : forall s t c r, bytes (contents s) -> element s t c r -> bytes c ->
  readASN1BigInt s = Ret (if (t =? INTEGER) && checkASN1Integer c then Some (tc_val c) else None, Some r).
Proof.
  intros s t c r HB HE Bc. unfold readASN1BigInt. rewrite (ReadASN1_element _ _ _ _ _ _ HB HE).
  cbn [bind contents]. destruct (t =? INTEGER); cbn [negb orb andb]; [|reflexivity].
  destruct (checkASN1Integer c) eqn:C; cbn [negb]; [|reflexivity].
  destruct c as [|b0 c]; [discriminate|]. change (go_index (b0 :: c) 0) with (Ret b0). cbn [bind].
  pose proof Bc as Bc'. apply bytes_cons in Bc'. destruct Bc' as [Hb0 _].
  rewrite land_80_eq by exact Hb0.
  unfold tc_val. cbn [hd]. destruct (128 <=? b0); [|rewrite Z.sub_0_r; reflexivity].
  cbv zeta. rewrite flip_be by exact Bc. do 3 f_equal. lia.
Qed.

Lemma i64_range : forall x, - 2 ^ 63 <= i64 x < 2 ^ 63.
Proof. intro x. unfold i64. pose proof (Z.mod_pos_bound (x + 2 ^ 63) (2 ^ 64) ltac:(lia)). lia. Qed.
Lemma i64_id : forall x, - 2 ^ 63 <= x < 2 ^ 63 -> i64 x = x.
Proof. intros x H. unfold i64. rewrite Z.mod_small by lia. lia. Qed.
Lemma i64_eqm : forall x, exists k, i64 x = x + k * 2 ^ 64.
Proof.
  intro x. unfold i64. exists (- ((x + 2 ^ 63) / 2 ^ 64)).
  pose proof (Z.div_mod (x + 2 ^ 63) (2 ^ 64) ltac:(lia)). lia.
Qed.
Lemma i64_cong : forall x y k, x = y + k * 2 ^ 64 -> i64 x = i64 y.
Proof.
  intros x y k ->. unfold i64. replace (y + k * 2 ^ 64 + 2 ^ 63) with (y + 2 ^ 63 + k * 2 ^ 64) by lia.
  rewrite Z_mod_plus_full. reflexivity.
Qed.

Lemma lor_low : forall x b, byte b -> Z.lor (x * 256) b = x * 256 + b.
Proof.
  intros x b Hb. unfold byte in Hb. apply (lor_disjoint_add 8); [lia|exact Hb].
Qed.

Lemma asn1Signed_acc : forall l a, bytes l -> 0 <= a -> (a + 1) * 256 ^ zlen l <= 2 ^ 64 ->
  fold_left (fun out b => Z.lor (i64 (Z.shiftl out 8)) b) l (i64 a) = i64 (a * 256 ^ zlen l + be_dec l).
Proof.
  induction l as [|b l IH]; intros a HB Ha HL.
  - cbn. f_equal. lia.
  - apply bytes_cons in HB. destruct HB as [Hb HB]. rewrite zlen_cons in *. pose proof (zlen_nonneg _ l).
    rewrite Z.pow_add_r in * by lia. change (256 ^ 1) with 256 in *.
    cbn [fold_left]. rewrite be_dec_cons. unfold byte in Hb.
    replace (Z.lor (i64 (Z.shiftl (i64 a) 8)) b) with (i64 (a * 256 + b)).
    + rewrite IH; [f_equal; lia|exact HB|lia|nia].
    + rewrite Z.shiftl_mul_pow2 by lia. change (2 ^ 8) with 256.
      destruct (i64_eqm a) as [k Ek].
      rewrite (i64_cong (i64 a * 256) (a * 256) (k * 256)) by lia.
      destruct (i64_eqm (a * 256)) as [j Ej]. rewrite Ej at 1.
      replace (a * 256 + j * 2 ^ 64) with ((a + j * 2 ^ 56) * 256) by lia.
      rewrite lor_low by exact Hb.
      pose proof (i64_range (a * 256)) as R1.
      rewrite (i64_cong (a * 256 + b) ((a + j * 2 ^ 56) * 256 + b) (- j)) by lia.
      apply i64_id. lia.
Qed.

Lemma asn1Signed_val : forall c, bytes c -> c <> [] ->
  asn1Signed c = if 8 <? zlen c then None else Some (tc_val c).
Proof.
  intros c HB HN. unfold asn1Signed. destruct (Z.ltb_spec 8 (zlen c)) as [L|L]; [reflexivity|]. f_equal.
  pose proof (zlen_pos _ c HN) as N. change 0 with (i64 0) at 1.
  assert (P8 : 256 ^ zlen c * 2 ^ (64 - zlen c * 8) = 2 ^ 64).
  { replace (256 ^ zlen c) with (2 ^ (8 * zlen c)) by (rewrite Z.pow_mul_r by lia; reflexivity).
    rewrite <- Z.pow_add_r by lia. f_equal. lia. }
  assert (P1 : 0 < 2 ^ (64 - zlen c * 8)) by (apply Z.pow_pos_nonneg; lia).
  rewrite asn1Signed_acc; [|exact HB|lia|nia].
  rewrite Z.mul_0_l, Z.add_0_l. rewrite Z.shiftl_mul_pow2, Z.shiftr_div_pow2 by lia.
  pose proof (be_dec_half c HB HN) as H. pose proof (pow_half (zlen c) N) as PH.
  destruct (i64_eqm (be_dec c)) as [k Ek]. unfold tc_val.
  set (s := 2 ^ (64 - zlen c * 8)) in *. set (M := 256 ^ zlen c) in *. set (D := be_dec c) in *.
  set (Hh := 2 ^ (8 * zlen c - 1)) in *.
  assert (HS : Hh * s = 2 ^ 63) by lia.
  rewrite (i64_cong (i64 D * s) (D * s) (k * s)) by (rewrite Ek; lia).
  destruct (128 <=? hd 0 c).
  - rewrite (i64_cong (D * s) ((D - M) * s) 1) by lia. rewrite i64_id by nia.
    apply Z.div_mul. lia.
  - rewrite i64_id by nia. rewrite Z.div_mul by lia. lia.
Qed.

Lemma asn1Unsigned_acc : forall l a, bytes l -> 0 <= a -> (a + 1) * 256 ^ zlen l <= 2 ^ 64 ->
  fold_left (fun out b => Z.lor (u64 (Z.shiftl out 8)) b) l a = a * 256 ^ zlen l + be_dec l.
Proof.
  induction l as [|b l IH]; intros a HB Ha HL.
  - cbn. lia.
  - apply bytes_cons in HB. destruct HB as [Hb HB]. rewrite zlen_cons in *. pose proof (zlen_nonneg _ l).
    rewrite Z.pow_add_r in * by lia. change (256 ^ 1) with 256 in *.
    assert (0 < 256 ^ zlen l) by (apply Z.pow_pos_nonneg; lia).
    cbn [fold_left]. rewrite be_dec_cons. unfold byte in Hb.
    replace (Z.lor (u64 (Z.shiftl a 8)) b) with (a * 256 + b).
    + rewrite IH; [lia|exact HB|lia|nia].
    + rewrite Z.shiftl_mul_pow2 by lia. change (2 ^ 8) with 256. unfold u64. rewrite Z.mod_small by nia.
      rewrite lor_low by exact Hb. reflexivity.
Qed.

(** For minimal contents. *)
Lemma asn1Unsigned_val : forall c, bytes c -> checkASN1Integer c = true ->
  asn1Unsigned c = Ret (if (0 <=? tc_val c) && (tc_val c <? 2 ^ 64) then Some (tc_val c) else None).
Proof.
  intros c HB C. assert (HN : c <> []) by (intros ->; discriminate).
  pose proof (zlen_pos _ c HN) as N. pose proof (be_dec_half c HB HN) as H.
  pose proof (pow_half (zlen c) N) as PH. pose proof (half_128 (zlen c) N) as HH.
  unfold asn1Unsigned. destruct c as [|b0 c]; [contradiction|].
  assert (G0 : go_index (b0 :: c) 0 = Ret b0).
  { unfold go_index. cbn. reflexivity. }
  rewrite G0. cbn [hd] in *.
  pose proof HB as HB'. apply bytes_cons in HB'. destruct HB' as [Hb0 HBc].
  pose proof (be_dec_bound (b0 :: c) HB) as BB0. pose proof (land_80 b0 Hb0) as L80. unfold tc_val. cbn [hd].
  assert (NEG : 128 <= b0 -> (0 <=? be_dec (b0 :: c) - 256 ^ zlen (b0 :: c)) = false).
  { intro L. destruct (Z.leb_spec 128 b0); [|lia]. apply Z.leb_gt. lia. }
  destruct (Z.ltb_spec 9 (zlen (b0 :: c))) as [L9|L9].
  - cbn [bind]. destruct (Z.leb_spec 128 b0) as [Lb|Lb]; [rewrite NEG by lia; reflexivity|].
    rewrite Z.sub_0_r.
    assert (BIG : 2 ^ 64 <= be_dec (b0 :: c)).
    { apply check_iff in C; [|exact HB]. destruct C as [_ [C|C]]; [lia|].
      unfold fits, tc_val in C. cbn [hd] in C. destruct (Z.leb_spec 128 b0); [lia|].
      assert (2 ^ 64 <= 2 ^ (8 * (zlen (b0 :: c) - 1) - 1)) by (apply Z.pow_le_mono_r; lia). lia. }
    destruct (Z.ltb_spec (be_dec (b0 :: c)) (2 ^ 64)); [lia|]. rewrite andb_false_r. reflexivity.
  - assert (ACC : (zlen (b0 :: c) = 9 -> b0 = 0) ->
      fold_left (fun out b => Z.lor (u64 (Z.shiftl out 8)) b) (b0 :: c) 0 = be_dec (b0 :: c) /\
      be_dec (b0 :: c) < 2 ^ 64).
    { intro H0. pose proof (be_dec_bound (b0 :: c) HB) as BB. pose proof (be_dec_bound c HBc) as BC.
      destruct (Z.eq_dec (zlen (b0 :: c)) 9) as [E9|E9].
      - specialize (H0 E9). subst b0. cbn [fold_left]. change (Z.lor (u64 (Z.shiftl 0 8)) 0) with 0.
        rewrite zlen_cons in E9. assert (E8 : zlen c = 8) by lia. rewrite E8 in BC.
        rewrite asn1Unsigned_acc; [|exact HBc|lia|rewrite E8; lia].
        rewrite be_dec_cons, E8. lia.
      - assert (P : 256 ^ zlen (b0 :: c) <= 256 ^ 8) by (apply Z.pow_le_mono_r; lia).
        change (256 ^ 8) with (2 ^ 64) in P.
        rewrite asn1Unsigned_acc; [lia|exact HB|lia|lia]. }
    destruct (Z.eqb_spec (zlen (b0 :: c)) 9) as [E9|E9]; cbn [bind].
    + destruct (Z.eqb_spec b0 0) as [E0|E0]; cbn [negb bind].
      * destruct (ACC (fun _ => E0)) as [A1 A2]. rewrite L80, A1. subst b0.
        change (128 <=? 0) with false. change (0 <? 128) with true. cbv iota. cbn [Z.eqb negb]. rewrite Z.sub_0_r in *.
        destruct (Z.leb_spec 0 (be_dec (0 :: c))); [|lia].
        destruct (Z.ltb_spec (be_dec (0 :: c)) (2 ^ 64)); [reflexivity|lia].
      * destruct (Z.leb_spec 128 b0) as [Lb|Lb]; [rewrite NEG by lia; reflexivity|]. rewrite Z.sub_0_r.
        assert (BIG : 2 ^ 64 <= be_dec (b0 :: c)).
        { rewrite be_dec_cons. rewrite zlen_cons in E9. assert (E8 : zlen c = 8) by lia. rewrite E8.
          pose proof (be_dec_bound c HBc). unfold byte in Hb0. lia. }
        destruct (Z.ltb_spec (be_dec (b0 :: c)) (2 ^ 64)); [lia|]. rewrite andb_false_r. reflexivity.
    + destruct (ACC ltac:(lia)) as [A1 A2]. rewrite L80.
      destruct (Z.ltb_spec b0 128) as [Lb|Lb].
      * cbn [Z.eqb negb]. rewrite A1. destruct (Z.leb_spec 128 b0); [lia|]. rewrite Z.sub_0_r in *.
        destruct (Z.leb_spec 0 (be_dec (b0 :: c))); [|lia].
        destruct (Z.ltb_spec (be_dec (b0 :: c)) (2 ^ 64)); [reflexivity|lia].
      * cbn [Z.eqb negb]. destruct (Z.leb_spec 128 b0); [|lia]. rewrite NEG by lia. reflexivity.
Qed.

(** * Writing *)

(** On a growing Builder that holds anything, [o] appends [bs]. *)
Definition writes (o : op) (bs : list Z) : Prop := forall buf,
  exists st, execs [o] (NewBuilder buf) = (st, None) /\ Bytes st = OK (buf ++ bs).

Lemma be_enc_head : forall m v, be_enc (S m) v = (v / 256 ^ Z.of_nat m) mod 256 :: be_enc m v.
Proof.
  induction m as [|m IH]; intro v.
  - cbn [be_enc app]. change (256 ^ Z.of_nat 0) with 1. rewrite Z.div_1_r. reflexivity.
  - change (be_enc (S (S m)) v) with (be_enc (S m) (v / 256) ++ [v mod 256]). rewrite IH.
    change (be_enc (S m) v) with (be_enc m (v / 256) ++ [v mod 256]). cbn [app]. f_equal.
    rewrite Z.div_div by (try apply Z.pow_pos_nonneg; lia). do 2 f_equal.
    rewrite Nat2Z.inj_succ, Z.pow_succ_r by lia. reflexivity.
Qed.

Definition one_byte (b : Z) : item := IBytes [b].

Lemma addOctets_call : forall n v, addOctets n v = map call (map one_byte (be_enc n v)).
Proof.
  induction n as [|n IH]; intro v; [reflexivity|]. rewrite be_enc_head. cbn [addOctets map one_byte call].
  rewrite <- IH. f_equal. unfold AddUint8, one_byte. cbn [call]. unfold u8.
  change 255 with (Z.ones 8). rewrite Z.land_ones by lia. change (2 ^ 8) with 256.
  rewrite Zmod_mod, Z.shiftr_div_pow2 by lia. do 3 f_equal.
  rewrite Z.mul_comm, Z.pow_mul_r by lia. reflexivity.
Qed.

Lemma sers_bytes : forall l, sers (map one_byte l) = Some l.
Proof. induction l as [|b l IH]; [reflexivity|]. cbn [map sers one_byte ser]. rewrite IH. reflexivity. Qed.
Lemma wf_bytes : forall l, wf_items (map one_byte l).
Proof. induction l as [|b l IH]; cbn; auto. Qed.

(** The number of octets the signed loop finds. *)
Lemma shiftr8_fits : forall n v, 1 <= n -> fits (n + 1) v <-> fits n (Z.shiftr v 8).
Proof.
  intros n v Hn. rewrite Z.shiftr_div_pow2 by lia. change (2 ^ 8) with 256. unfold fits.
  replace (2 ^ (8 * (n + 1) - 1)) with (256 * 2 ^ (8 * n - 1)).
  2:{ change 256 with (2 ^ 8). rewrite <- Z.pow_add_r by lia. f_equal. lia. }
  pose proof (Z.div_mod v 256 ltac:(lia)). pose proof (Z.mod_pos_bound v 256 ltac:(lia)). split; nia.
Qed.

Lemma signedLen_octets : forall fuel v, fits (Z.of_nat fuel + 1) v -> octets v (Z.of_nat (signedLen fuel v)).
Proof.
  induction fuel as [|fuel IH]; intros v F.
  - cbn [signedLen]. split; [lia|]. split; [exact F|left; reflexivity].
  - cbn [signedLen]. destruct ((0x80 <=? v) || (v <? -0x80)) eqn:E.
    + apply orb_true_iff in E. rewrite Z.leb_le, Z.ltb_lt in E. rewrite Nat2Z.inj_succ in *. unfold Z.succ in *.
      destruct (IH (Z.shiftr v 8)) as (O1 & O2 & O3).
      { apply (proj1 (shiftr8_fits (Z.of_nat fuel + 1) v ltac:(lia))). exact F. }
      split; [lia|]. split; [apply (proj2 (shiftr8_fits _ v O1)); exact O2|]. right.
      replace (Z.of_nat (signedLen fuel (Z.shiftr v 8)) + 1 - 1) with (Z.of_nat (signedLen fuel (Z.shiftr v 8))) by lia.
      destruct O3 as [O3|O3].
      * rewrite O3. unfold fits. cbn. lia.
      * set (k := Z.of_nat (signedLen fuel (Z.shiftr v 8))) in *.
        destruct (Z.eq_dec k 1) as [E1|E1]; [rewrite E1; unfold fits; cbn; lia|].
        intro F2. apply O3. apply (proj1 (shiftr8_fits (k - 1) v ltac:(lia))). replace (k - 1 + 1) with k by lia. exact F2.
    + apply orb_false_iff in E. rewrite Z.leb_gt, Z.ltb_ge in E. change (Z.of_nat 1) with 1. split; [lia|]. split; [unfold fits; cbn; lia|left; reflexivity].
Qed.

Lemma unsignedLen_signed : forall fuel v, 0 <= v -> unsignedLen fuel v = signedLen fuel v.
Proof.
  induction fuel as [|fuel IH]; intros v Hv; [reflexivity|]. cbn [unsignedLen signedLen].
  destruct (Z.ltb_spec v (-0x80)); [lia|]. rewrite orb_false_r.
  destruct (0x80 <=? v); [|reflexivity]. rewrite IH; [reflexivity|]. apply Z.shiftr_nonneg. exact Hv.
Qed.

Lemma octets_unique : forall v n m, octets v n -> octets v m -> n = m.
Proof.
  intros v n m H1 H2. pose proof (octets_le v n m H1 (proj1 H2) (proj1 (proj2 H2))).
  pose proof (octets_le v m n H2 (proj1 H1) (proj1 (proj2 H1))). lia.
Qed.

Lemma octets_enc : forall v n, octets v (Z.of_nat n) -> int_der v (be_enc n v).
Proof.
  intros v n (H1 & H2 & H3). rewrite <- (Nat2Z.id n). apply int_der_enc; auto.
Qed.

(** The contents the big integer writer produces. *)
Definition big_items (n : Z) : list item :=
  if n <? 0 then
    let bs := map (fun b => Z.lxor b 0xff) (be_min (- n - 1)) in
    (if Z.land (hd 0 bs) 0x80 =? 0 then [IBytes [0xff]] else []) ++ [IBytes bs]
  else if n =? 0 then [IBytes [0]]
  else (if negb (Z.land (hd 0 (be_min n)) 0x80 =? 0) then [IBytes [0]] else []) ++ [IBytes (be_min n)].

Lemma big_call : forall n, n <> -1 -> AddASN1BigInt n = call (IASN1 INTEGER (big_items n)).
Proof.
  intros n Hn. unfold AddASN1BigInt, big_items. cbn [call]. f_equal.
  destruct (Z.ltb_spec n 0) as [L|L].
  - destruct (be_min_cons (- n - 1) ltac:(lia)) as (b & r & E & _ & _). rewrite E. cbn [map hd].
    destruct (Z.land (Z.lxor b 255) 128 =? 0); reflexivity.
  - destruct (Z.eqb_spec n 0); [reflexivity|].
    destruct (be_min_cons n ltac:(lia)) as (b & r & E & _ & _). rewrite E. cbn [hd].
    destruct (negb (Z.land b 128 =? 0)); reflexivity.
Qed.

Lemma lxor_ff : forall b, byte b -> Z.lxor b 0xff = 255 - b.
Proof.
  intros b Hb. unfold byte in Hb. pose proof (Z.add_lnot_diag b).
  assert (E : Z.lxor b 255 = Z.lnot b mod 256).
  { change 256 with (2 ^ 8). rewrite <- Z.land_ones by lia. apply Z.bits_inj'. intros i Hi.
    rewrite Z.lxor_spec, Z.land_spec, Z.lnot_spec by lia.
    change 255 with (Z.ones 8). destruct (Z.lt_ge_cases i 8) as [L|L].
    - rewrite Z.ones_spec_low by lia. rewrite andb_true_r, xorb_true_r. reflexivity.
    - rewrite Z.ones_spec_high by lia. rewrite andb_false_r, xorb_false_r.
      apply (testbit_high b 8 i); lia. }
  rewrite E. replace (Z.lnot b) with (255 - b + (-1) * 256) by (unfold Z.lnot; lia).
  rewrite Z_mod_plus_full, Z.mod_small by lia. reflexivity.
Qed.

Lemma big_sers : forall n, n <> -1 -> wf_items (big_items n) /\
  exists c, sers (big_items n) = Some c /\ int_der n c.
Proof.
  intros n Hn. unfold big_items.
  assert (IC : forall c, bytes c -> c <> [] -> tc_val c = n -> checkASN1Integer c = true -> int_der n c).
  { intros c B N E C. rewrite <- E. apply check_int_der; auto. }
  destruct (Z.ltb_spec n 0) as [L|L].
  - destruct (be_min_cons (- n - 1) ltac:(lia)) as (b & r & E & Hb & Br).
    pose proof (be_min_bytes (- n - 1)) as Bm. pose proof (be_dec_min (- n - 1) ltac:(lia)) as D.
    rewrite E in *. cbv zeta.
    assert (F : map (fun b => Z.lxor b 0xff) (b :: r) = map (fun b => 255 - b) (b :: r)).
    { apply map_ext_in. intros x Hx. apply lxor_ff. unfold bytes in Bm. rewrite Forall_forall in Bm. auto. }
    rewrite F. cbn [map hd]. set (f := 255 - b :: map (fun b => 255 - b) r).
    assert (Bf : bytes f).
    { unfold f. change (255 - b :: map (fun b => 255 - b) r) with (map (fun b => 255 - b) (b :: r)).
      unfold bytes. rewrite Forall_forall. intros x Hx. apply in_map_iff in Hx. destruct Hx as (y & <- & Hy).
      unfold bytes in Bm. rewrite Forall_forall in Bm. specialize (Bm y Hy). unfold byte in *. lia. }
    assert (Df : be_dec f = 256 ^ zlen f - 1 - (- n - 1)).
    { unfold f. change (255 - b :: map (fun b => 255 - b) r) with (map (fun b => 255 - b) (b :: r)).
      rewrite flip_be by exact Bm. rewrite D. f_equal. f_equal. f_equal. unfold zlen. rewrite map_length. reflexivity. }
    assert (Hb1 : byte (255 - b)) by (unfold byte; lia).
    rewrite land_80 by exact Hb1. destruct (Z.ltb_spec (255 - b) 128) as [Lb|Lb].
    + cbn [Z.eqb app]. split; [cbn; auto|]. exists (255 :: f).
      split; [cbn [sers ser app]; rewrite app_nil_r; reflexivity|].
      apply IC; [apply bytes_cons; split; [unfold byte; lia|exact Bf]|discriminate| |].
      * unfold tc_val. cbn [hd]. change (128 <=? 255) with true. cbv iota. rewrite be_dec_cons, zlen_cons, Df.
        pose proof (zlen_nonneg _ f). rewrite Z.pow_add_r by lia. lia.
      * unfold f. cbn [checkASN1Integer]. rewrite land_80 by exact Hb1.
        destruct (Z.ltb_spec (255 - b) 128); [reflexivity|lia].
    + cbn [Z.eqb app]. split; [cbn; auto|]. exists f.
      split; [cbn [sers ser app]; rewrite app_nil_r; reflexivity|].
      apply IC; [exact Bf|discriminate| |].
      * unfold tc_val. replace (hd 0 f) with (255 - b) by reflexivity.
        destruct (Z.leb_spec 128 (255 - b)); [lia|lia].
      * unfold f. destruct r as [|b1 r]; [reflexivity|]. cbn [map checkASN1Integer].
        destruct (Z.eqb_spec (255 - b) 0); [lia|]. destruct (Z.eqb_spec (255 - b) 255); [lia|]. reflexivity.
  - destruct (Z.eqb_spec n 0) as [->|N0].
    + split; [cbn; auto|]. exists [0]. split; [reflexivity|].
      apply IC; [apply bytes_cons; split; [unfold byte; lia|apply bytes_nil]|discriminate|reflexivity|reflexivity].
    + destruct (be_min_cons n ltac:(lia)) as (b & r & E & Hb & Br).
      pose proof (be_min_bytes n) as Bm. pose proof (be_dec_min n ltac:(lia)) as D.
      rewrite E in *. cbn [hd]. assert (Hb1 : byte b) by (unfold byte; lia).
      rewrite land_80 by exact Hb1. destruct (Z.ltb_spec b 128) as [Lb|Lb].
      * cbn [Z.eqb negb app]. split; [cbn; auto|]. exists (b :: r).
        split; [cbn [sers ser app]; rewrite app_nil_r; reflexivity|].
        apply IC; [exact Bm|discriminate| |].
        -- unfold tc_val. cbn [hd]. destruct (Z.leb_spec 128 b); lia.
        -- destruct r as [|b1 r]; [reflexivity|]. cbn [checkASN1Integer].
           destruct (Z.eqb_spec b 0); [lia|]. destruct (Z.eqb_spec b 255); [lia|]. reflexivity.
      * cbn [Z.eqb negb app]. split; [cbn; auto|]. exists (0 :: b :: r).
        split; [cbn [sers ser app]; rewrite app_nil_r; reflexivity|].
        apply IC; [apply bytes_cons; split; [unfold byte; lia|exact Bm]|discriminate| |].
        -- unfold tc_val. cbn [hd]. change (128 <=? 0) with false. cbv iota. rewrite be_dec_cons. lia.
        -- cbn [checkASN1Integer]. rewrite land_80 by exact Hb1. destruct (Z.ltb_spec b 128); [lia|reflexivity].
Qed.

(** Every integer has DER contents. *)
Lemma int_der_exists : forall v, exists c, int_der v c.
Proof.
  intro v. destruct (Z.eq_dec v (-1)) as [->|N].
  - exists (be_enc (Z.to_nat 1) (-1)). apply int_der_enc; [lia|unfold fits; cbn; lia|left; reflexivity].
  - destruct (big_sers v N) as (_ & c & _ & H). eauto.
Qed.

(** * Object identifiers *)

(** The base-128 octets the writer emits for a group. *)
Fixpoint octs (k : nat) (n : Z) : list Z :=
  match k with
  | O => []
  | S i => ((n / 128 ^ Z.of_nat i) mod 128 + (if Nat.eqb i 0 then 0 else 128)) :: octs i n
  end.

Lemma lor_80 : forall y, 0 <= y < 128 -> Z.lor y 128 = y + 128.
Proof.
  intros y Hy. rewrite Z.lor_comm. pose proof (lor_disjoint_add 7 1 y ltac:(lia) Hy) as E.
  change (1 * 2 ^ 7) with 128 in E. lia.
Qed.

Lemma addBase128Octets_call : forall k n, addBase128Octets k n = map call (map one_byte (octs k n)).
Proof.
  induction k as [|k IH]; intro n; [reflexivity|]. cbn [addBase128Octets octs map one_byte call].
  rewrite IH. f_equal. unfold u8. rewrite land_7f.
  rewrite Z.shiftr_div_pow2 by lia.
  replace (2 ^ (Z.of_nat k * 7)) with (128 ^ Z.of_nat k).
  2:{ rewrite Z.mul_comm, Z.pow_mul_r by lia. reflexivity. }
  set (x := n / 128 ^ Z.of_nat k).
  replace (x mod 256 mod 128) with (x mod 128).
  2:{ rewrite (Z.div_mod x 256) at 1 by lia. replace (256 * (x / 256) + x mod 256) with (x mod 256 + (2 * (x / 256)) * 128) by lia.
      rewrite Z_mod_plus_full. reflexivity. }
  pose proof (Z.mod_pos_bound x 128 ltac:(lia)). do 2 f_equal.
  destruct (Nat.eqb k 0); [lia|].
  apply lor_80. assumption.
Qed.

Lemma octs_length : forall k n, List.length (octs k n) = k.
Proof. induction k; intro n; cbn; auto. Qed.
Lemma octs_bytes : forall k n, bytes (octs k n).
Proof.
  induction k as [|k IH]; intro n; [apply bytes_nil|]. cbn [octs]. apply bytes_cons. split; [|apply IH].
  pose proof (Z.mod_pos_bound (n / 128 ^ Z.of_nat k) 128 ltac:(lia)). unfold byte. destruct (Nat.eqb k 0); lia.
Qed.

(** The reader on such a group: at most four octets. *)
Lemma readBase128_ok : forall k n rest i ret, i + Z.of_nat k <= 3 -> 0 <= i -> 0 <= ret < 128 ^ i ->
  readBase128Loop (octs (S k) n ++ rest) i ret
  = (Some (ret * 128 ^ Z.of_nat (S k) + n mod 128 ^ Z.of_nat (S k)), rest).
Proof.
  induction k as [|k IH]; intros n rest i ret Hi Hi0 Hr.
  - cbn [octs app readBase128Loop Nat.eqb]. change (128 ^ Z.of_nat 0) with 1. change (128 ^ Z.of_nat 1) with 128.
    rewrite Z.div_1_r, Z.add_0_r. destruct (Z.eqb_spec i 4); [lia|].
    pose proof (Z.mod_pos_bound n 128 ltac:(lia)) as M.
    rewrite land_7f, Zmod_mod. rewrite land_80 by (unfold byte; lia).
    destruct (Z.ltb_spec (n mod 128) 128); [|lia]. cbn [Z.eqb]. rewrite Z.shiftl_mul_pow2 by lia.
    assert (128 ^ i <= 128 ^ 3) by (apply Z.pow_le_mono_r; lia).
    change (128 ^ 3) with 2097152 in *. change (2 ^ 7) with 128. rewrite i64_id by lia. change 128 with (2 ^ 7) at 1. rewrite lor_disjoint_add by lia. reflexivity.
  - change (octs (S (S k)) n) with (((n / 128 ^ Z.of_nat (S k)) mod 128 + 128) :: octs (S k) n).
    cbn [app readBase128Loop]. destruct (Z.eqb_spec i 4); [lia|].
    set (d := (n / 128 ^ Z.of_nat (S k)) mod 128).
    assert (M : 0 <= d < 128) by (apply Z.mod_pos_bound; lia).
    rewrite land_7f. replace ((d + 128) mod 128) with d by (rewrite <- (Z.mul_1_l 128) at 1; rewrite Z_mod_plus_full, Z.mod_small; lia).
    rewrite land_80 by (unfold byte; lia).
    destruct (Z.ltb_spec (d + 128) 128); [lia|]. cbn [Z.eqb]. rewrite Z.shiftl_mul_pow2 by lia.
    assert (128 ^ i <= 128 ^ 2) by (apply Z.pow_le_mono_r; lia).
    change (128 ^ 2) with 16384 in *. change (2 ^ 7) with 128. rewrite i64_id by lia. change 128 with (2 ^ 7) at 1. rewrite lor_disjoint_add by lia. change (2 ^ 7) with 128.
    rewrite IH; [|lia|lia|rewrite Z.pow_add_r by lia; change (128 ^ 1) with 128; lia].
    do 2 f_equal. rewrite (Nat2Z.inj_succ (S k)), Z.pow_succ_r by lia.
    set (P := 128 ^ Z.of_nat (S k)) in *. assert (0 < P) by (apply Z.pow_pos_nonneg; lia).
    rewrite (Z.mul_comm 128 P). rewrite (Z.rem_mul_r n P 128) by lia. fold d. lia.
Qed.

(** Five octets and more are rejected. *)
Lemma readBase128_long : forall k n rest i ret, 4 <= i + Z.of_nat k -> 0 <= i <= 4 ->
  fst (readBase128Loop (octs (S k) n ++ rest) i ret) = None.
Proof.
  induction k as [|k IH]; intros n rest i ret Hi Hi4.
  - cbn [octs app readBase128Loop]. destruct (Z.eqb_spec i 4); [reflexivity|lia].
  - change (octs (S (S k)) n) with (((n / 128 ^ Z.of_nat (S k)) mod 128 + 128) :: octs (S k) n).
    cbn [app readBase128Loop]. destruct (Z.eqb_spec i 4); [reflexivity|].
    set (d := (n / 128 ^ Z.of_nat (S k)) mod 128).
    assert (M : 0 <= d < 128) by (apply Z.mod_pos_bound; lia).
    rewrite land_80 by (unfold byte; lia).
    destruct (Z.ltb_spec (d + 128) 128); [lia|]. cbn [Z.eqb]. apply IH; lia.
Qed.

(** The length of a group. *)
Lemma base128Len_bound : forall fuel n, 0 <= n < 128 ^ Z.of_nat fuel -> n < 128 ^ Z.of_nat (base128Len fuel n).
Proof.
  induction fuel as [|fuel IH]; intros n H; [cbn in *; lia|]. cbn [base128Len].
  destruct (Z.ltb_spec 0 n) as [L|L]; [|cbn; lia].
  rewrite Nat2Z.inj_succ, Z.pow_succ_r in * by lia. rewrite Z.shiftr_div_pow2 by lia. change (2 ^ 7) with 128.
  assert (D : 0 <= n / 128 < 128 ^ Z.of_nat fuel).
  { split; [apply Z.div_pos; lia|apply Z.div_lt_upper_bound; lia]. }
  specialize (IH _ D). pose proof (Z.div_mod n 128 ltac:(lia)). pose proof (Z.mod_pos_bound n 128 ltac:(lia)). lia.
Qed.
Lemma base128Len_low : forall fuel n, 0 < n -> (1 <= fuel)%nat -> (1 <= base128Len fuel n)%nat.
Proof. intros [|fuel] n H F; [lia|]. cbn [base128Len]. destruct (Z.ltb_spec 0 n); lia. Qed.
Lemma base128Len_le : forall fuel n k, 0 <= n < 128 ^ Z.of_nat k -> (base128Len fuel n <= k)%nat.
Proof.
  induction fuel as [|fuel IH]; intros n k H; [cbn; lia|]. cbn [base128Len].
  destruct (Z.ltb_spec 0 n) as [L|L]; [|lia]. destruct k as [|k]; [cbn in H; lia|].
  rewrite Nat2Z.inj_succ, Z.pow_succ_r in H by lia. rewrite Z.shiftr_div_pow2 by lia. change (2 ^ 7) with 128.
  apply le_n_S. apply IH. split; [apply Z.div_pos; lia|apply Z.div_lt_upper_bound; lia].
Qed.

(** The octets of one group. *)
Definition group (n : Z) : list Z := octs (if n =? 0 then 1 else base128Len 10 n) n.

Lemma addBase128Int_call : forall n, addBase128Int n = map call (map one_byte (group n)).
Proof. intro n. apply addBase128Octets_call. Qed.

Lemma group_small : forall n, 0 <= n < 2 ^ 28 -> exists k, group n = octs (S k) n /\ (k <= 3)%nat /\ n < 128 ^ Z.of_nat (S k).
Proof.
  intros n H. unfold group. destruct (Z.eqb_spec n 0) as [->|N].
  - exists 0%nat. split; [reflexivity|]. split; [lia|cbn; lia].
  - pose proof (base128Len_low 10 n ltac:(lia) ltac:(lia)) as L.
    pose proof (base128Len_le 10 n 4 ltac:(cbn; lia)) as U.
    pose proof (base128Len_bound 10 n ltac:(cbn; lia)) as B.
    destruct (base128Len 10 n) as [|k]; [lia|]. exists k. split; [reflexivity|]. split; [lia|exact B].
Qed.

Lemma read_group : forall n rest, 0 <= n < 2 ^ 28 -> readBase128Int (group n ++ rest) = (Some n, rest).
Proof.
  intros n rest H. destruct (group_small n H) as (k & -> & Hk & B). unfold readBase128Int.
  rewrite readBase128_ok by (cbn; lia). rewrite Z.mul_0_l, Z.add_0_l, Z.mod_small by lia. reflexivity.
Qed.

Lemma read_group_big : forall n rest, 2 ^ 28 <= n < 2 ^ 63 -> fst (readBase128Int (group n ++ rest)) = None.
Proof.
  intros n rest H. unfold group. destruct (Z.eqb_spec n 0); [lia|].
  pose proof (base128Len_bound 10 n ltac:(cbn; lia)) as B.
  destruct (Nat.le_gt_cases (base128Len 10 n) 4) as [L|L].
  - assert (128 ^ Z.of_nat (base128Len 10 n) <= 128 ^ 4) by (apply Z.pow_le_mono_r; lia). cbn in *. lia.
  - destruct (base128Len 10 n) as [|k]; [lia|]. unfold readBase128Int. apply readBase128_long; lia.
Qed.

Lemma group_len : forall n, 0 <= n < 2 ^ 63 -> 1 <= zlen (group n).
Proof.
  intros n H. unfold group, zlen. rewrite octs_length. destruct (Z.eqb_spec n 0); [lia|].
  pose proof (base128Len_low 10 n ltac:(lia) ltac:(lia)). lia.
Qed.
Lemma group_len_le : forall n, 0 <= n < 2 ^ 28 -> zlen (group n) <= 4.
Proof.
  intros n H. destruct (group_small n H) as (k & -> & Hk & _). unfold zlen. rewrite octs_length. lia.
Qed.
Lemma group_bytes : forall n, bytes (group n).
Proof. intro. apply octs_bytes. Qed.
