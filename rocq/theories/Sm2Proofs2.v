(** Decryption, signing and verification of Sm2.v against Sm2Spec.v. *)
From Coq Require Import ZArith Znumtheory List Lia Bool String.
From Verif Require Import GoBase BeMin FpField GoElliptic Sm3Spec Sm3 Sm3Proofs Sm3Main PropsSm3.
From Verif Require Import Primes Sm2Primes WeiGroup Sm2Group Sm2Order Sm2Spec Sm2 Sm2Proofs.
Import ListNotations.
Open Scope Z_scope.

(** * Point encodings *)
Lemma point_bytes_length : forall P, List.length (point_bytes P) = 64%nat.
Proof. intro P. unfold point_bytes. rewrite app_length, !b32_length. reflexivity. Qed.
Lemma point_bytes_bytes : forall P, bytes (point_bytes P).
Proof. intro P. apply bytes_app. split; apply b32_bytes. Qed.

Lemma sub_c1 : forall P, sub (4 :: point_bytes P) 1 33 = b32 (xc P) /\ sub (4 :: point_bytes P) 33 65 = b32 (yc P).
Proof.
  intro P. unfold sub, point_bytes.
  change (Z.to_nat (33 - 1)) with 32%nat. change (Z.to_nat (65 - 33)) with 32%nat.
  set (l := b32 (xc P) ++ b32 (yc P)).
  change (skipn (Z.to_nat 1) (4 :: l)) with l. change (skipn (Z.to_nat 33) (4 :: l)) with (skipn 32 l). unfold l.
  rewrite firstn_app_exact by (symmetry; apply b32_length).
  rewrite skipn_app_exact by (symmetry; apply b32_length). split; [reflexivity|].
  apply firstn_all2. rewrite b32_length. apply le_n.
Qed.

Lemma Unmarshal_point : forall P, on_curve P -> P <> O -> Unmarshal sm2p sm2b (4 :: point_bytes P) = Some (xc P, yc P).
Proof.
  intros P On NO. unfold Unmarshal.
  assert (L : zlen (4 :: point_bytes P) = 65) by (unfold zlen; cbn [List.length]; rewrite point_bytes_length; reflexivity).
  rewrite L. cbn [Z.eqb negb Pos.eqb nth]. destruct (sub_c1 P) as [-> ->]. cbv zeta.
  rewrite !b32_dec by (apply xc_range || apply yc_range).
  pose proof (enc_range P) as [RX RY]. fold (xc P) in RX. fold (yc P) in RY.
  destruct (Z.leb_spec sm2p (xc P)); [lia|]. destruct (Z.leb_spec sm2p (yc P)); [lia|]. cbn [orb].
  destruct (coords_on P On NO) as [On' _]. rewrite (proj2 (IsOnCurve_spec (xc P) (yc P)) On'). reflexivity.
Qed.

Lemma Unmarshal_some : forall data x y, bytes data -> Unmarshal sm2p sm2b data = Some (x, y) ->
  exists P, on_curve P /\ P <> O /\ data = 4 :: point_bytes P /\ x = xc P /\ y = yc P.
Proof.
  intros data x y HB H. unfold Unmarshal in H.
  destruct (Z.eqb_spec (zlen data) 65) as [L|]; [|discriminate]. cbn [negb] in H.
  destruct (Z.eqb_spec (nth 0 data 0) 4) as [H4|]; [|discriminate]. cbn [negb] in H. cbv zeta in H.
  set (a := be_dec (sub data 1 33)) in *. set (b := be_dec (sub data 33 65)) in *.
  destruct (Z.leb_spec sm2p a) as [|La]; [discriminate|]. destruct (Z.leb_spec sm2p b) as [|Lb]; [discriminate|]. cbn [orb] in H.
  destruct (IsOnCurve sm2p sm2b a b) eqn:On; [|discriminate]. cbn [negb] in H. injection H as <- <-.
  apply IsOnCurve_spec in On.
  assert (LN : List.length data = 65%nat) by (unfold zlen in L; lia).
  destruct data as [|c data]; [discriminate|]. cbn [nth] in H4. subst c. cbn [List.length] in LN.
  apply bytes_cons in HB. destruct HB as [_ HB].
  assert (E1 : sub (4 :: data) 1 33 = firstn 32 data) by reflexivity.
  assert (E2 : sub (4 :: data) 33 65 = skipn 32 data).
  { unfold sub. change (skipn (Z.to_nat 33) (4 :: data)) with (skipn 32 data). apply firstn_all2. rewrite skipn_length. change (Z.to_nat (65 - 33)) with 32%nat. lia. }
  assert (Ra : 0 <= a < sm2p). { split; [|exact La]. unfold a. rewrite E1. apply be_dec_bound, bytes_firstn, HB. }
  assert (Rb : 0 <= b < sm2p). { split; [|exact Lb]. unfold b. rewrite E2. apply be_dec_bound, bytes_skipn, HB. }
  exists (A (kf a) (kf b)). split; [exact On|]. split; [discriminate|].
  pose proof (dec_A a b On) as DA. pose proof (enc_dec a b Ra Rb) as ED. rewrite DA in ED.
  unfold point_bytes. rewrite enc_xy in ED. injection ED as EX EY. rewrite EX, EY.
  split; [|split; reflexivity]. f_equal. unfold a, b. rewrite E1, E2.
  rewrite !b32_of_dec; [symmetry; apply firstn_skipn|apply bytes_skipn, HB|rewrite skipn_length; lia|apply bytes_firstn, HB|rewrite firstn_length; lia].
Qed.

(** * Decryption *)

(** C1 of the ciphertext [c] is the point Q. *)
Definition c1_is (c : list Z) (Q : point) : Prop := on_curve Q /\ Q <> O /\ firstn 65 c = 4 :: point_bytes Q.
(** C2 and C3 of a ciphertext in order t. *)
Definition c2_of (t : Z) (c : list Z) : list Z := if t =? 1 then firstn (List.length c - 97) (skipn 65 c) else skipn 97 c.
Definition c3_of (t : Z) (c : list Z) : list Z := if t =? 1 then skipn (List.length c - 32) c else firstn 32 (skipn 65 c).

Lemma c1Len_eq : Z.shiftr (curveBitSize + 7) 3 * 2 + 1 = 65. Proof. reflexivity. Qed.

Lemma Decrypt_short : forall priv c t, zlen c < 65 -> Decrypt priv c t = Panic PSlice.
Proof.
  intros priv c t H. unfold Decrypt. rewrite c1Len_eq. unfold go_slice. destruct (Z.leb_spec 65 (zlen c)); [lia|]. reflexivity.
Qed.
Lemma sub_firstn : forall (c : list Z) n, 0 <= n -> sub c 0 n = firstn (Z.to_nat n) c.
Proof. intros c n H. unfold sub. rewrite Z.sub_0_r. reflexivity. Qed.

Lemma Decrypt_bad_c1 : forall priv c t, bytes c -> 65 <= zlen c -> (forall Q, ~ c1_is c Q) -> Decrypt priv c t = Panic PNil.
Proof.
  intros priv c t HB HL N. unfold Decrypt. cbv zeta. rewrite c1Len_eq. rewrite go_slice_ret by lia. cbn [bind].
  rewrite curveP_eq, curveB_eq, sub_firstn by lia. change (Z.to_nat 65) with 65%nat.
  destruct (Unmarshal sm2p sm2b (firstn 65 c)) as [[x y]|] eqn:E; [|reflexivity].
  apply Unmarshal_some in E; [|apply bytes_firstn, HB]. destruct E as (P & On & NO & E & _).
  exfalso. apply (N P). repeat split; assumption.
Qed.

Lemma b1_bytes : BigBytes sm2H = be_min 1. Proof. reflexivity. Qed.

(** The steps of Decrypt up to the split of the input. *)
Lemma Decrypt_good_c1 : forall priv c t Q, 0 <= D priv -> c1_is c Q -> bytes c ->
  Decrypt priv c t =
  (if zlen c <? 97 then Panic PMake
   else if negb ((t =? 1) || (t =? 2)) then Ret (ERR (unknownType t))
   else let S := pmul (D priv) Q in
        do (d, c2) <- kdf New (xc S) (yc S) (c2_of t c);
        do (d, newC3) <- hashOf d [b32 (xc S); c2; b32 (yc S)];
        if list_eq_dec Z.eq_dec newC3 (c3_of t c) then Ret (OK c2) else Ret (ERR "invalid cipher text")).
Proof.
  intros priv c t Q HD (On & NO & E1) HB.
  assert (HL : (65 <= List.length c)%nat).
  { apply (f_equal (@List.length Z)) in E1. rewrite firstn_length in E1. cbn [List.length] in E1. rewrite point_bytes_length in E1. lia. }
  assert (HZ : 65 <= zlen c) by (unfold zlen; lia).
  unfold Decrypt. cbv zeta. rewrite c1Len_eq. rewrite go_slice_ret by lia. cbn [bind].
  rewrite curveP_eq, curveB_eq, sub_firstn by lia. change (Z.to_nat 65) with 65%nat. rewrite E1.
  rewrite (Unmarshal_point Q On NO).
  rewrite mult_pt by (try assumption; unfold sm2H; lia). unfold sm2H at 1 2. cbn [bind]. rewrite pmul_1.
  replace (IsEcPointInfinity (xc Q) (yc Q)) with false.
  2:{ destruct (IsEcPointInfinity (xc Q) (yc Q)) eqn:F; [|reflexivity]. apply inf_test in F; [contradiction|exact On]. }
  rewrite mult_pt by assumption. cbn [bind]. unfold DigestLength.
  unfold go_make. destruct (Z.ltb_spec (zlen c - 65 - 32) 0) as [Q1|Q1]; destruct (Z.ltb_spec (zlen c) 97) as [Q2|Q2]; try lia; [reflexivity|].
  cbn [bind]. unfold C1C2C3, C1C3C2, c2_of, c3_of.
  rewrite !to32_ok by (apply xc_range || apply yc_range).
  assert (LN : (97 <= List.length c)%nat) by (unfold zlen in Q2; lia).
  destruct (t =? 1) eqn:T1; cbn [orb negb].
  - rewrite !go_slice_ret by lia. cbn [bind].
    replace (sub c 65 (65 + (zlen c - 65 - 32))) with (firstn (List.length c - 97) (skipn 65 c)).
    2:{ unfold sub. f_equal. unfold zlen. lia. }
    replace (sub c (65 + (zlen c - 65 - 32)) (zlen c)) with (skipn (List.length c - 32) c).
    2:{ unfold sub. replace (Z.to_nat (65 + (zlen c - 65 - 32))) with (List.length c - 32)%nat by (unfold zlen; lia).
        symmetry. apply firstn_all2. rewrite skipn_length. unfold zlen. lia. }
    reflexivity.
  - destruct (t =? 2) eqn:T2; cbn [negb]; [|reflexivity].
    rewrite !go_slice_ret by lia. cbn [bind].
    replace (sub c 65 (65 + 32)) with (firstn 32 (skipn 65 c)) by reflexivity.
    replace (sub c (65 + 32) (zlen c)) with (skipn 97 c).
    2:{ unfold sub. change (Z.to_nat (65 + 32)) with 97%nat. symmetry. apply firstn_all2. rewrite skipn_length. unfold zlen. lia. }
    reflexivity.
Qed.

Lemma c2_of_length : forall t c, (97 <= List.length c)%nat -> List.length (c2_of t c) = (List.length c - 97)%nat.
Proof.
  intros t c H. unfold c2_of. destruct (t =? 1); [|apply skipn_length].
  rewrite firstn_length, skipn_length. lia.
Qed.
Lemma c2_of_bytes : forall t c, bytes c -> bytes (c2_of t c).
Proof. intros t c H. unfold c2_of. destruct (t =? 1); [apply bytes_firstn|]; apply bytes_skipn; exact H. Qed.

Lemma Decrypt_97 : forall priv c t Q, 0 <= D priv -> c1_is c Q -> bytes c -> zlen c = 97 -> t = 1 \/ t = 2 ->
  Decrypt priv c t = Panic PIndex.
Proof.
  intros priv c t Q HD HC HB HL T. rewrite (Decrypt_good_c1 priv c t Q HD HC HB).
  rewrite HL. change (97 <? 97) with false.
  replace ((t =? 1) || (t =? 2)) with true by (destruct T as [->| ->]; reflexivity). cbn [negb]. cbv zeta.
  assert (E : c2_of t c = []).
  { apply length_zero_iff_nil. rewrite c2_of_length by (unfold zlen in HL; lia). unfold zlen in HL. lia. }
  rewrite E. unfold kdf. rewrite !to32_ok by (apply xc_range || apply yc_range). cbn [bind List.length kdf_loop].
  pose proof (hashOf_empty New [b32 (xc (pmul (D priv) Q))] [b32 (yc (pmul (D priv) Q))] sized_New) as HE.
  cbn [app] in HE. rewrite HE; [reflexivity|].
  apply Forall_cons; [apply good32|constructor].
Qed.

Lemma Decrypt_long : forall priv c t Q, 0 <= D priv -> c1_is c Q -> bytes c -> 97 < zlen c < 2 ^ 31 -> t = 1 \/ t = 2 ->
  let S := pmul (D priv) Q in
  let m := enc_c2 S (c2_of t c) in
  Decrypt priv c t = Ret (if list_eq_dec Z.eq_dec (enc_c3 S m) (c3_of t c) then OK m else ERR "invalid cipher text").
Proof.
  intros priv c t Q HD HC HB HL T S m. rewrite (Decrypt_good_c1 priv c t Q HD HC HB).
  destruct (Z.ltb_spec (zlen c) 97) as [|_]; [lia|].
  replace ((t =? 1) || (t =? 2)) with true by (destruct T as [->| ->]; reflexivity). cbn [negb]. cbv zeta. fold S.
  assert (LC : List.length (c2_of t c) = (List.length c - 97)%nat) by (apply c2_of_length; unfold zlen in HL; lia).
  destruct (kdf_point New S (c2_of t c) sized_New) as (d1 & -> & S1); [unfold zlen in *; lia|]. cbn [bind]. fold m.
  assert (LM : List.length m = (List.length c - 97)%nat) by (unfold m; rewrite enc_c2_length; exact LC).
  destruct (hashOf_ok d1 [b32 (xc S); m; b32 (yc S)] S1) as (d2 & -> & _).
  { apply Forall_cons; [apply good32|]. apply Forall_cons; [|apply Forall_cons; [apply good32|constructor]].
    split; [apply enc_c2_bytes, c2_of_bytes, HB|]. split; [|unfold zlen in *; lia].
    intro E. rewrite E in LM. cbn [List.length] in LM. unfold zlen in HL. lia. }
  { cbn [List.concat]. rewrite app_nil_r, !zlen_app, !b32_len. unfold zlen in *. lia. }
  cbn [bind List.concat]. rewrite app_nil_r. fold (enc_c3 S m).
  destruct (list_eq_dec Z.eq_dec (enc_c3 S m) (c3_of t c)); reflexivity.
Qed.

Lemma Decrypt_97_unknown : forall priv c t Q, 0 <= D priv -> c1_is c Q -> bytes c -> 97 <= zlen c -> t <> 1 -> t <> 2 ->
  Decrypt priv c t = Ret (ERR (unknownType t)).
Proof.
  intros priv c t Q HD HC HB HL T1 T2. rewrite (Decrypt_good_c1 priv c t Q HD HC HB).
  destruct (Z.ltb_spec (zlen c) 97) as [|_]; [lia|].
  rewrite (proj2 (Z.eqb_neq t 1) T1), (proj2 (Z.eqb_neq t 2) T2). reflexivity.
Qed.
Lemma Decrypt_mid : forall priv c t Q, 0 <= D priv -> c1_is c Q -> bytes c -> zlen c < 97 -> Decrypt priv c t = Panic PMake.
Proof.
  intros priv c t Q HD HC HB HL. rewrite (Decrypt_good_c1 priv c t Q HD HC HB).
  destruct (Z.ltb_spec (zlen c) 97) as [_|]; [reflexivity|lia].
Qed.

(** The parts of a ciphertext made by [ciphertext]. *)
Lemma enc_c3_length : forall P m, List.length (enc_c3 P m) = 32%nat.
Proof. intros. apply sm3_length. Qed.
Lemma ciphertext_parts : forall P m k t, 
  List.length (ciphertext P m k t) = (97 + List.length m)%nat /\
  firstn 65 (ciphertext P m k t) = 4 :: point_bytes (pmul k G) /\
  c2_of t (ciphertext P m k t) = enc_c2 (pmul k P) m /\ c3_of t (ciphertext P m k t) = enc_c3 (pmul k P) m.
Proof.
  intros P m k t. unfold ciphertext. cbv zeta. set (S := pmul k P).
  set (tail := if t =? 1 then enc_c2 S m ++ enc_c3 S m else enc_c3 S m ++ enc_c2 S m).
  assert (L : List.length tail = (32 + List.length m)%nat).
  { unfold tail. destruct (t =? 1); rewrite app_length, enc_c2_length, enc_c3_length; lia. }
  assert (LL : List.length (4 :: point_bytes (pmul k G) ++ tail) = (97 + List.length m)%nat).
  { cbn [List.length]. rewrite app_length, point_bytes_length, L. lia. }
  assert (SK : skipn 65 (4 :: point_bytes (pmul k G) ++ tail) = tail).
  { change (skipn 64 (point_bytes (pmul k G) ++ tail) = tail). apply skipn_app_exact. symmetry. apply point_bytes_length. }
  split; [exact LL|]. split.
  - change (4 :: firstn 64 (point_bytes (pmul k G) ++ tail) = 4 :: point_bytes (pmul k G)). apply (f_equal (cons 4)). apply firstn_app_exact.
    symmetry. apply point_bytes_length.
  - unfold c2_of, c3_of. rewrite LL. destruct (t =? 1).
    + rewrite SK. split.
      * unfold tail. apply firstn_app_exact. rewrite enc_c2_length. lia.
      * replace (97 + List.length m - 32)%nat with (65 + List.length m)%nat by lia.
        rewrite (Nat.add_comm 65), <- skipn_skipn, SK. unfold tail. apply skipn_app_exact. rewrite enc_c2_length. reflexivity.
    + split.
      * change 97%nat with (32 + 65)%nat. rewrite <- skipn_skipn, SK. unfold tail. apply skipn_app_exact. symmetry. apply enc_c3_length.
      * rewrite SK. unfold tail. apply firstn_app_exact. symmetry. apply enc_c3_length.
Qed.
Lemma ciphertext_bytes : forall P m k t, bytes m -> bytes (ciphertext P m k t).
Proof.
  intros P m k t H. unfold ciphertext. cbv zeta. apply bytes_cons. split; [unfold byte; lia|].
  apply bytes_app. split; [apply point_bytes_bytes|]. destruct (t =? 1); apply bytes_app; split; try apply sm3_bytes; apply enc_c2_bytes; exact H.
Qed.

(** * The hash of the identity and of the message *)
Lemma effective_id_eq : forall id, signId id = effective_id id.
Proof. intros [l|]; reflexivity. Qed.

Lemma good_be2 : forall x, good_chunk (be_enc 2 x).
Proof.
  intro x. assert (L : zlen (be_enc 2 x) = 2) by (rewrite zlen_be_enc; reflexivity).
  split; [apply be_enc_bytes|]. split; [|rewrite L; reflexivity]. intro E. rewrite E in L. discriminate.
Qed.

Lemma getZ_ok : forall d x y id, sized d -> 0 <= x < 2 ^ 256 -> 0 <= y < 2 ^ 256 -> bytes id -> zlen id < 2 ^ 31 ->
  exists d', getZ d x y id = Ret (d', ZA id x y) /\ sized d'.
Proof.
  intros d x y id Sd Hx Hy Hid Lid. unfold getZ. cbv zeta.
  rewrite curveA_eq, curveB_eq, curveGx_eq, curveGy_eq.
  rewrite (to32_ok (sm2p - 3)) by (split; [lia|reflexivity] || (vm_compute; split; [discriminate|reflexivity])).
  rewrite (to32_ok sm2b) by (vm_compute; split; [discriminate|reflexivity]).
  rewrite (to32_ok sm2gx) by (vm_compute; split; [discriminate|reflexivity]).
  rewrite (to32_ok sm2gy) by (vm_compute; split; [discriminate|reflexivity]).
  rewrite (to32_ok x Hx), (to32_ok y Hy). cbn [bind].
  assert (E2 : be_enc 2 (u16 (zlen id * 8)) = be_enc 2 (8 * zlen id)).
  { unfold u16. rewrite Z.mul_comm. exact (be_enc_mod 2 (8 * zlen id)). }
  rewrite E2. pose proof (zlen_nonneg _ id) as NN.
  set (chunks := [be_enc 2 (8 * zlen id)] ++ (if 0 <? zlen id then [id] else []) ++
                 [b32 (sm2p - 3); b32 sm2b; b32 sm2gx; b32 sm2gy; b32 x; b32 y]).
  assert (CC : List.concat chunks = be_enc 2 (8 * zlen id) ++ id ++ b32 (sm2p - 3) ++ b32 sm2b ++ b32 sm2gx ++ b32 sm2gy ++ b32 x ++ b32 y).
  { unfold chunks. rewrite !concat_app. cbn [List.concat]. rewrite !app_nil_r. f_equal. f_equal.
    destruct (Z.ltb_spec 0 (zlen id)); cbn [List.concat]; [apply app_nil_r|].
    destruct id; [reflexivity|]. rewrite zlen_cons in *. pose proof (zlen_nonneg _ id). lia. }
  destruct (hashOf_ok d chunks Sd) as (d' & E & Sd').
  - unfold chunks. apply Forall_app. split; [apply Forall_cons; [apply good_be2|constructor]|].
    apply Forall_app. split.
    + destruct (Z.ltb_spec 0 (zlen id)) as [Q|]; [|constructor]. apply Forall_cons; [|constructor].
      split; [exact Hid|]. split; [|exact Lid]. intros ->. rewrite zlen_nil in Q. lia.
    + do 6 (apply Forall_cons; [apply good32|]). constructor.
  - rewrite CC. rewrite !zlen_app, !b32_len, zlen_be_enc. lia.
  - exists d'. rewrite E, CC. split; [reflexivity|exact Sd'].
Qed.

Lemma calculateE_ok : forall x y id m, 0 <= x < 2 ^ 256 -> 0 <= y < 2 ^ 256 -> bytes id -> zlen id < 2 ^ 31 ->
  bytes m -> m <> [] -> zlen m < 2 ^ 31 ->
  exists d', calculateE New x y id m = Ret (d', msg_e id x y m).
Proof.
  intros x y id m Hx Hy Hid Lid Hm NE Lm. unfold calculateE.
  destruct (getZ_ok New x y id sized_New Hx Hy Hid Lid) as (d1 & -> & S1). cbn [bind].
  destruct (hashOf_ok d1 [ZA id x y; m] S1) as (d2 & -> & _).
  - apply Forall_cons; [|apply Forall_cons; [|constructor]].
    + split; [apply sm3_bytes|]. unfold ZA. rewrite sm3_len. split; [|reflexivity].
      intro E. apply (f_equal zlen) in E. rewrite sm3_len in E. discriminate.
    + split; [exact Hm|]. split; [exact NE|exact Lm].
  - cbn [List.concat]. rewrite app_nil_r, zlen_app. unfold ZA. rewrite sm3_len. lia.
  - cbn [bind List.concat]. rewrite app_nil_r. exists d2. reflexivity.
Qed.
Lemma calculateE_empty : forall x y id, 0 <= x < 2 ^ 256 -> 0 <= y < 2 ^ 256 -> bytes id -> zlen id < 2 ^ 31 ->
  calculateE New x y id [] = Panic PIndex.
Proof.
  intros x y id Hx Hy Hid Lid. unfold calculateE.
  destruct (getZ_ok New x y id sized_New Hx Hy Hid Lid) as (d1 & -> & S1). cbn [bind].
  pose proof (hashOf_empty d1 [ZA id x y] [] S1) as HE. cbn [app] in HE. rewrite HE; [reflexivity|].
  apply Forall_cons; [|constructor]. split; [apply sm3_bytes|]. unfold ZA. rewrite sm3_len. split; [|reflexivity].
  intro E. apply (f_equal zlen) in E. rewrite sm3_len in E. discriminate.
Qed.
Lemma msg_e_nonneg : forall id x y m, 0 <= msg_e id x y m < 2 ^ 256.
Proof. intros. apply be_dec_range32; [apply sm3_bytes|apply sm3_length]. Qed.

(** * Signing *)
Lemma inv_ok : forall d, 0 <= d -> (d + 1) mod sm2n <> 0 ->
  exists i, utilModInverse (d + 1) sm2n = i /\ 0 <= i < sm2n /\ ((d + 1) * i) mod sm2n = 1.
Proof.
  intros d Hd N. destruct (ModInverse_some (d + 1) sm2n sm2n_pos (prime_gcd sm2n (d + 1) sm2n_prime N)) as (i & E & R & M).
  exists i. unfold utilModInverse. rewrite E. auto.
Qed.
Lemma inv_none : forall d, (d + 1) mod sm2n = 0 -> utilModInverse (d + 1) sm2n = 0.
Proof.
  intros d H. unfold utilModInverse. rewrite ModInverse_none; [reflexivity|exact sm2n_pos|].
  assert (DV : (sm2n | d + 1)) by (apply Z.mod_divide; [intro Q; pose proof sm2n_pos; rewrite Q in *; lia|exact H]).
  apply Z.divide_gcd_iff in DV; [|pose proof sm2n_pos; lia]. rewrite Z.gcd_comm, DV. pose proof sm2n_pos. lia.
Qed.

(** The values computed for one nonce. *)
Definition sig_r (e k : Z) : Z := (e + xc (pmul k G)) mod sm2n.
Definition sig_s (d e k : Z) : Z := (utilModInverse (d + 1) sm2n * ((k - sig_r e k * d) mod sm2n)) mod sm2n.

Lemma sig_s_def : forall d e k, (utilModInverse (d + 1) sm2n * ((k - sig_r e k * d) mod sm2n)) mod sm2n = sig_s d e k.
Proof. intros. unfold sig_s. reflexivity. Qed.
Lemma modn_range : forall a, 0 <= a mod sm2n < sm2n.
Proof. intro a. apply Z.mod_pos_bound. pose proof sm2n_pos. lia. Qed.

Lemma modarith_s : forall n d i u, 1 < n -> ((d + 1) * i) mod n = 1 -> ((1 + d) * ((i * (u mod n)) mod n)) mod n = u mod n.
Proof.
  intros n d i u Hn E. rewrite Z.mul_mod_idemp_r by lia.
  replace ((1 + d) * (i * (u mod n))) with (((d + 1) * i) * (u mod n)) by ring.
  rewrite <- Z.mul_mod_idemp_l by lia. rewrite E. rewrite Z.mul_1_l. apply Z.mod_mod. lia.
Qed.
Lemma modarith_unique : forall n d i s u, 1 < n -> 0 <= s < n -> ((d + 1) * i) mod n = 1 -> ((1 + d) * s) mod n = u mod n ->
  s = (i * (u mod n)) mod n.
Proof.
  intros n d i s u Hn Hs E H. rewrite <- H. rewrite Z.mul_mod_idemp_r by lia.
  replace (i * ((1 + d) * s)) with (((d + 1) * i) * s) by ring.
  rewrite <- Z.mul_mod_idemp_l by lia. rewrite E, Z.mul_1_l. symmetry. apply Z.mod_small. exact Hs.
Qed.
Lemma modarith_none : forall n d k r s, 1 < n -> (d + 1) mod n = 0 -> 1 <= k < n -> 0 <= r < n -> r <> 0 -> r + k <> n ->
  ((1 + d) * s) mod n <> (k - r * d) mod n.
Proof.
  intros n d k r s Hn Z0 Hk Hr R0 RK E.
  assert (A0 : ((1 + d) * s) mod n = 0).
  { rewrite <- Z.mul_mod_idemp_l by lia. rewrite (Z.add_comm 1 d), Z0. reflexivity. }
  rewrite A0 in E. symmetry in E.
  assert (E2 : (k + r) mod n = 0).
  { replace (k + r) with ((k - r * d) + r * (d + 1)) by ring.
    rewrite Z.add_mod, E by lia. rewrite <- (Z.mul_mod_idemp_r r (d + 1)) by lia. rewrite Z0, Z.mul_0_r. reflexivity. }
  apply Z.mod_divide in E2; [|lia]. destruct E2 as [q Q]. assert (q = 1) by nia. subst q. lia.
Qed.

Lemma sig_one : forall d e k, 0 <= d -> 1 <= k < sm2n ->
  forall r s, signature d e k r s <->
    r = sig_r e k /\ s = sig_s d e k /\ sig_r e k <> 0 /\ sig_r e k + k <> sm2n /\ sig_s d e k <> 0.
Proof.
  intros d e k Hd Hk r s. unfold signature. fold (sig_r e k). pose proof (modn_range (e + xc (pmul k G))) as RR. fold (sig_r e k) in RR.
  destruct (Z.eq_dec ((d + 1) mod sm2n) 0) as [Z0|N].
  - assert (S0 : sig_s d e k = 0).
    { unfold sig_s. rewrite (inv_none d Z0). rewrite Z.mul_0_l. apply Z.mod_0_l. pose proof sm2n_pos. lia. }
    split.
    + intros (-> & R0 & RK & SR & E). exfalso.
      exact (modarith_none sm2n d k (sig_r e k) s sm2n_pos Z0 Hk RR R0 RK E).
    + intros (_ & _ & _ & _ & H). contradiction.
  - destruct (inv_ok d Hd N) as (i & EI & RI & MI). unfold sig_s at 1 2. rewrite EI. set (u := k - sig_r e k * d).
    split.
    + intros (-> & R0 & RK & SR & E). split; [reflexivity|].
      assert (ES : s = (i * (u mod sm2n)) mod sm2n).
      { apply (modarith_unique sm2n d i s u sm2n_pos); [lia|exact MI|exact E]. }
      split; [exact ES|]. split; [exact R0|]. split; [exact RK|]. rewrite <- ES. lia.
    + intros (-> & -> & R0 & RK & S0). split; [reflexivity|]. split; [exact R0|]. split; [exact RK|].
      pose proof (modn_range (i * (u mod sm2n))). split; [lia|]. apply modarith_s; [exact sm2n_pos|exact MI].
Qed.

(** No signature comes from nonce k. *)
Definition no_sig (d e : Z) (kr : Z * list Z) : Prop := forall r s, ~ signature d e (fst kr) r s.

Lemma sign_inner_ok : forall fuel d e tape, (List.length tape <= fuel)%nat -> bytes tape -> 0 <= d ->
  (exists k rest pre, sign_inner fuel e tape = Ret (OK (k, sig_r e k), rest) /\ sig_r e k <> 0 /\ sig_r e k + k <> sm2n /\
     1 <= k < sm2n /\ nonces tape = pre ++ (k, rest) :: nonces rest /\ Forall (no_sig d e) pre /\
     bytes rest /\ (List.length rest < List.length tape)%nat) \/
  (exists er, is_eof er /\ sign_inner fuel e tape = Ret (ERR er, []) /\ Forall (no_sig d e) (nonces tape)).
Proof.
  induction fuel as [|fuel IH]; intros d e tape HL HB Hd; cbn [sign_inner];
    destruct (nextK_ok tape HB) as [(k & r & -> & R & L & B & N)|(er & EE & -> & N)];
    try (right; exists er; rewrite N; split; [exact EE|split; [reflexivity|constructor]]; fail).
  - lia.
  - rewrite base_mult_z by lia. cbn [bind]. rewrite curveN_eq. fold (sig_r e k). cbv zeta.
    destruct (negb (sig_r e k =? 0) && negb (sig_r e k + k =? sm2n)) eqn:C.
    + left. exists k, r, []. apply andb_prop in C. destruct C as [C1 C2].
      apply negb_true_iff, Z.eqb_neq in C1. apply negb_true_iff, Z.eqb_neq in C2.
      split; [reflexivity|]. split; [exact C1|]. split; [exact C2|]. split; [exact R|].
      split; [rewrite N; reflexivity|]. split; [constructor|]. split; [exact B|exact L].
    + assert (BAD : no_sig d e (k, r)).
      { intros r0 s0 H. cbn [fst] in H. apply sig_one in H; [|exact Hd|exact R]. destruct H as (_ & _ & R0 & RK & _).
        rewrite (proj2 (Z.eqb_neq _ _) R0), (proj2 (Z.eqb_neq _ _) RK) in C. discriminate. }
      destruct (IH d e r ltac:(lia) B Hd) as [(k' & rest & pre & E & P1 & P2 & P3 & P4 & P5 & P6 & P7)|(er & EE & E & F)].
      * left. exists k', rest, ((k, r) :: pre). split; [exact E|]. split; [exact P1|]. split; [exact P2|]. split; [exact P3|].
        split; [rewrite N, P4; reflexivity|]. split; [constructor; assumption|]. split; [exact P6|lia].
      * right. exists er. split; [exact EE|]. split; [exact E|]. rewrite N. constructor; assumption.
Qed.

Lemma sign_outer_ok : forall fuel d e tape, (List.length tape <= fuel)%nat -> bytes tape -> 0 <= d ->
  (exists k rest pre post r s, sign_outer fuel d e tape = Ret (OK (r, s), rest) /\ signature d e k r s /\
     1 <= k < sm2n /\ nonces tape = pre ++ (k, rest) :: post /\ Forall (no_sig d e) pre) \/
  (exists er, is_eof er /\ sign_outer fuel d e tape = Ret (ERR er, []) /\ Forall (no_sig d e) (nonces tape)).
Proof.
  induction fuel as [|fuel IH]; intros d e tape HL HB Hd; cbn [sign_outer];
    destruct (sign_inner_ok (List.length tape) d e tape (le_n _) HB Hd) as
      [(k & rest & pre & -> & P1 & P2 & P3 & P4 & P5 & P6 & P7)|(er & EE & -> & F)];
    try (right; exists er; cbn [bind]; split; [exact EE|split; [reflexivity|exact F]]; fail).
  - lia.
  - cbn [bind]. cbv zeta. rewrite curveN_eq, sig_s_def.
    destruct (Z.eqb_spec (sig_s d e k) 0) as [S0|S0]; cbn [negb].
    + assert (BAD : no_sig d e (k, rest)).
      { intros r0 s0 H. cbn [fst] in H. apply sig_one in H; [|exact Hd|exact P3]. tauto. }
      destruct (IH d e rest ltac:(lia) P6 Hd) as [(k' & rest' & pre' & post & r & s & E & Q1 & Q2 & Q3 & Q4)|(er & EE & E & F)].
      * left. exists k', rest', (pre ++ (k, rest) :: pre'), post, r, s. split; [exact E|]. split; [exact Q1|]. split; [exact Q2|].
        split; [rewrite P4, Q3, <- app_assoc; reflexivity|]. apply Forall_app. split; [exact P5|]. constructor; assumption.
      * right. exists er. split; [exact EE|]. split; [exact E|]. rewrite P4. apply Forall_app. split; [exact P5|]. constructor; assumption.
    + left. exists k, rest, pre, (nonces rest), (sig_r e k), (sig_s d e k). split; [reflexivity|].
      split; [apply sig_one; auto|]. split; [exact P3|]. split; [exact P4|exact P5].
Qed.

(** The value signed for a private scalar. *)
Definition pub_of (d : Z) : point := pmul d G.
Definition sig_e (d : Z) (id : option (list Z)) (m : list Z) : Z :=
  msg_e (effective_id id) (xc (pub_of d)) (yc (pub_of d)) m.

Definition good_id (id : option (list Z)) : Prop := match id with None => True | Some l => bytes l /\ zlen l < 2 ^ 31 end.
Definition good_msg (m : list Z) : Prop := bytes m /\ m <> [] /\ zlen m < 2 ^ 31.
Lemma good_id_eff : forall id, good_id id -> bytes (effective_id id) /\ zlen (effective_id id) < 2 ^ 31.
Proof.
  intros [l|] H; [exact H|]. split; [|reflexivity]. unfold effective_id, default_id. apply Forall_map. apply Forall_forall.
  intros i Hi. unfold byte. cbn in Hi. lia.
Qed.

Lemma SignToRS_ok : forall priv id m tape, 0 <= D priv -> good_id id -> good_msg m -> bytes tape ->
  (exists k rest pre post r s, SignToRS priv id m tape = Ret (OK (r, s), rest) /\ signature (D priv) (sig_e (D priv) id m) k r s /\
     1 <= k < sm2n /\ nonces tape = pre ++ (k, rest) :: post /\ Forall (no_sig (D priv) (sig_e (D priv) id m)) pre) \/
  (exists er, is_eof er /\ SignToRS priv id m tape = Ret (ERR er, []) /\ Forall (no_sig (D priv) (sig_e (D priv) id m)) (nonces tape)).
Proof.
  intros priv id m tape Hd Hid (Hm & NE & Lm) HB. unfold SignToRS. rewrite base_mult_z by exact Hd. cbn [bind].
  fold (pub_of (D priv)). rewrite effective_id_eq. destruct (good_id_eff id Hid) as [B L].
  destruct (calculateE_ok (xc (pub_of (D priv))) (yc (pub_of (D priv))) (effective_id id) m
              (xc_range _) (yc_range _) B L Hm NE Lm) as (d' & ->). cbn [bind].
  fold (sig_e (D priv) id m). apply sign_outer_ok; [apply le_n|exact HB|exact Hd].
Qed.

(** * Verification *)
Lemma VerifyByRS_ok : forall pub id m r s, 0 <= X pub < 2 ^ 256 -> 0 <= Y pub < 2 ^ 256 -> on_curve (dec (X pub) (Y pub)) ->
  good_id id -> good_msg m ->
  exists b, VerifyByRS pub id m r s = Ret b /\
    (b = true <-> verifies (dec (X pub) (Y pub)) (msg_e (effective_id id) (X pub) (Y pub) m) r s).
Proof.
  intros pub id m r s HX HY On Hid (Hm & NE & Lm). unfold VerifyByRS. rewrite curveN_eq. set (P := dec (X pub) (Y pub)) in *.
  set (e := msg_e (effective_id id) (X pub) (Y pub) m).
  destruct ((r <? 1) || (sm2n <=? r)) eqn:CR.
  { exists false. split; [reflexivity|]. split; [discriminate|]. intros (R & _). apply orb_true_iff in CR.
    destruct CR as [CR|CR]; [apply Z.ltb_lt in CR|apply Z.leb_le in CR]; lia. }
  destruct ((s <? 1) || (sm2n <=? s)) eqn:CS.
  { exists false. split; [reflexivity|]. split; [discriminate|]. intros (_ & R & _). apply orb_true_iff in CS.
    destruct CS as [CS|CS]; [apply Z.ltb_lt in CS|apply Z.leb_le in CS]; lia. }
  apply orb_false_iff in CR, CS. destruct CR as [R1 R2]. destruct CS as [S1 S2].
  apply Z.ltb_ge in R1, S1. apply Z.leb_gt in R2, S2.
  rewrite effective_id_eq. destruct (good_id_eff id Hid) as [B L].
  destruct (calculateE_ok (X pub) (Y pub) (effective_id id) m HX HY B L Hm NE Lm) as (d' & ->). cbn [bind]. fold e. cbv zeta.
  pose proof (modn_range (r + s)) as RT. unfold verifies. cbv zeta. set (t := (r + s) mod sm2n) in *.
  destruct (Z.eqb_spec t 0) as [T0|T0].
  { exists false. split; [reflexivity|]. split; [discriminate|]. intros (_ & _ & T & _). contradiction. }
  rewrite base_mult_z by lia. cbn [bind]. rewrite mult_dec_z by (try exact On; lia). cbn [bind]. fold P.
  rewrite add_pts by (apply pmul_on; [exact G_on] || (apply pmul_on; exact On)). cbn [bind].
  assert (OnQ : on_curve (padd (pmul s G) (pmul t P))) by (apply padd_on; apply pmul_on; [exact G_on|exact On]).
  set (Q := padd (pmul s G) (pmul t P)) in *.
  destruct (IsEcPointInfinity (xc Q) (yc Q)) eqn:I.
  { apply inf_test in I; [|exact OnQ]. exists false. split; [reflexivity|]. split; [discriminate|]. tauto. }
  assert (NQ : Q <> O). { intro E. apply inf_test in E; [|exact OnQ]. congruence. }
  exists ((e + xc Q) mod sm2n =? r). split; [reflexivity|]. rewrite Z.eqb_eq.
  split; [intro E|intros (_ & _ & _ & _ & E); exact E].
  split; [lia|]. split; [lia|]. split; [exact T0|]. split; [exact NQ|exact E].
Qed.

(** The algebra: a signature verifies. *)
Lemma signature_verifies : forall d e k r s, 0 <= d -> 1 <= k < sm2n -> signature d e k r s -> verifies (pmul d G) e r s.
Proof.
  intros d e k r s Hd Hk (ER & R0 & RK & SR & ES). pose proof sm2n_pos as NP.
  pose proof (modn_range (e + xc (pmul k G))) as RR. rewrite <- ER in RR.
  assert (TK : (s + ((r + s) mod sm2n) * d) mod sm2n = k mod sm2n).
  { rewrite Z.add_mod, Z.mul_mod_idemp_l, <- Z.add_mod by lia.
    replace (s + (r + s) * d) with ((1 + d) * s + r * d) by ring.
    rewrite Z.add_mod, ES, <- Z.add_mod by lia. f_equal. ring. }
  assert (T0 : (r + s) mod sm2n <> 0).
  { intro E. rewrite E, Z.mul_0_l, Z.add_0_r in TK. rewrite !Z.mod_small in TK by lia. subst s.
    apply Z.mod_divide in E; [|lia]. destruct E as [q Q]. assert (q = 1) by nia. subst q. lia. }
  pose proof (modn_range (r + s)) as RT.
  split; [lia|]. split; [lia|]. split; [exact T0|]. cbv zeta. set (t := (r + s) mod sm2n) in *.
  assert (EQ : padd (pmul s G) (pmul t (pmul d G)) = pmul k G).
  { rewrite <- pmul_mul by (exact G_on || lia). rewrite <- pmul_add by (try exact G_on; nia).
    apply (pmul_cong sm2n); [exact G_on|lia|nia|lia|exact G_order|exact TK]. }
  rewrite EQ. split; [|symmetry; exact ER].
  intro E. apply G_mul_O in E; [|lia]. apply Z.divide_pos_le in E; lia.
Qed.
