(** Property C129: a message padded and encrypted in CBC mode can be cut short, without the key, by changing one byte
    (sm4/sm4.go:264-296, util/padding.go:5-15). *)
From Coq Require Import ZArith List Lia String Bool.
From Verif Require Import GoBase Sm3 Sm3Proofs.
From Verif Require Sm4Spec.
From Verif Require Import Sm4 Sm4Proofs Util PropsSm4Util PropsSm4Modes.
Import ListNotations.
Open Scope Z_scope.

Local Notation xor := Sm4Spec.xor_bytes.

(** * Specification *)

(** c is the ciphertext of the message in the slice s of the array h. *)
Definition sealed (key iv h : list Z) (s : gslice) (c : list Z) : Prop :=
  exists h' padded q, PKCS5Padding h s 16 = Ret (h', padded) /\ CBCEncrypt key iv padded = Ret (Ok c, q).
(** Byte i of l xored with d, the rest as it was. *)
Definition tamper (l : list Z) (i d : Z) : list Z :=
  firstn (Z.to_nat i) l ++ [Z.lxor (nth (Z.to_nat i) l 0) d] ++ skipn (S (Z.to_nat i)) l.
(** The number of padding bytes: known to whoever knows how long the message is. *)
Definition pads (c : list Z) (s : gslice) : Z := zlen c - g_len s.

(** * Proofs *)
Lemma unpad_last : forall a q, 0 <= q ->
  PKCS5UnPadding (a ++ [q]) = if q <=? zlen a + 1 then Ret (firstn (Z.to_nat (zlen a + 1 - q)) (a ++ [q])) else Panic PSlice.
Proof.
  intros a q Hq. unfold PKCS5UnPadding. cbv zeta. pose proof (zlen_nonneg _ a).
  assert (L : zlen (a ++ [q]) = zlen a + 1) by (rewrite zlen_app; reflexivity). rewrite L.
  rewrite (go_index_ret _ _ _ 0) by lia. cbn [bind]. replace (Z.to_nat (zlen a + 1 - 1)) with (List.length a) by (unfold zlen; lia).
  rewrite nth_middle. destruct (Z.leb_spec q (zlen a + 1)) as [G|G].
  - rewrite go_slice_ret by lia. unfold sub. cbn [skipn Z.to_nat]. rewrite Z.sub_0_r. reflexivity.
  - unfold go_slice. destruct (Z.leb_spec 0 (zlen a + 1 - q)); [lia|]. cbn [andb]. reflexivity.
Qed.
Lemma block_last : forall b : list Z, zlen b = 16 -> exists (a : list Z) (x : Z), b = a ++ [x] /\ List.length a = 15%nat.
Proof. intros b L. destruct (last_nth15 b L) as (a & E & La). exists a, (nth 15 b 0). split; [exact E|unfold zlen in La; lia]. Qed.
Lemma xor_snoc : forall (a b : list Z) (x y : Z), List.length a = List.length b -> xor (a ++ [x]) (b ++ [y]) = xor a b ++ [Z.lxor x y].
Proof.
  induction a as [|c a IH]; intros [|d b] x y L; try discriminate L; [reflexivity|]. cbn [app]. unfold Sm4Spec.xor_bytes in *. cbn [combine map app]. f_equal. apply IH. injection L. auto.
Qed.
Lemma tamper_at : forall (a : list Z) x b i d, i = zlen a -> tamper (a ++ x :: b) i d = a ++ Z.lxor x d :: b.
Proof.
  intros a x b i d ->. unfold tamper. replace (Z.to_nat (zlen a)) with (List.length a) by (unfold zlen; lia). rewrite nth_middle.
  rewrite firstn_app, Nat.sub_diag, firstn_all. cbn [firstn]. rewrite app_nil_r. rewrite skipn_app, skipn_all2 by lia.
  replace (S (List.length a) - List.length a)%nat with 1%nat by lia. reflexivity.
Qed.
Lemma xor_len15 : forall a b : list Z, List.length a = 15%nat -> List.length b = 15%nat -> List.length (xor a b) = 15%nat.
Proof. intros a b La Lb. unfold Sm4Spec.xor_bytes. rewrite map_length, combine_length. lia. Qed.
Lemma lxor_back : forall e b q, Z.lxor e (Z.lxor b (Z.lxor (Z.lxor e b) q)) = q.
Proof. intros e b q. apply Z.bits_inj'. intros n _. rewrite !Z.lxor_spec. destruct (Z.testbit e n), (Z.testbit b n), (Z.testbit q n); reflexivity. Qed.
Lemma snoc_split : forall (l : list (list Z)), (1 <= List.length l)%nat -> exists a x, l = a ++ [x].
Proof. intros l H. destruct l as [|x l] using rev_ind; [cbn in H; lia|]. eauto. Qed.

(** The ciphertext of a message: it decrypts to the padded message. *)
Lemma sealed_shape : forall key iv h s c, zlen key = 16 -> zlen iv = 16 -> bytes iv -> bytes h -> gwindow h s -> sealed key iv h s c ->
  exists p cs, c = List.concat cs /\ Forall is_block cs /\ zlen c = 16 * zlen cs /\ 1 <= pads c s <= 16 /\ bytes p /\
    List.concat (cbc_dec (Sm4Spec.sm4_dec key) iv cs) = contents h s ++ p ++ [pads c s] /\ zlen p = pads c s - 1.
Proof.
  intros key iv h s c K I Bi Bh W (h' & padded & q & E1 & E2).
  destruct (C14_pkcs5_shape h s 16 W ltac:(lia)) as (h2 & out & p & E & Eo & Lp & Hm & Hv). rewrite E in E1. injection E1 as <- <-.
  assert (B : bytes out). { rewrite Eo. apply bytes_app. split; [apply sub_bytes; auto|]. unfold bytes. eapply Forall_impl; [|exact Hv]. intros x ->. unfold byte. lia. }
  destruct (C12_cbc key iv out K I Bi B Hm) as (c' & E3 & L3 & _ & D). rewrite E3 in E2. assert (c' = c) by congruence. subst c'.
  assert (Mc : zlen c mod 16 = 0) by (rewrite L3; exact Hm). destruct (blocks_of c Mc) as (cs & Ec & Fc & Lc). subst c.
  rewrite (CBCDecrypt_ok key iv cs K I Fc) in D. assert (D' : List.concat (cbc_dec (Sm4Spec.sm4_dec key) iv cs) = out) by congruence.
  assert (Lo : zlen out = g_len s + zlen p) by (rewrite Eo, zlen_app, contents_len by exact W; reflexivity).
  assert (P : pads (List.concat cs) s = zlen p) by (unfold pads; lia).
  assert (Np : exists p' x, p = p' ++ [x]). { destruct p as [|x p'] using rev_ind; [cbn in Lp; lia|]. eauto. }
  destruct Np as (p' & x & ->). rewrite Forall_app in Hv. destruct Hv as [Hv1 Hv2]. inversion_clear Hv2 as [|? ? Hx _].
  exists p', cs. split; [reflexivity|]. split; [exact Fc|]. split; [apply concat_blocks_len, Fc|]. rewrite P. split; [lia|].
  split. { unfold bytes. eapply Forall_impl; [|exact Hv1]. intros y ->. unfold byte. pose proof (Z.mod_pos_bound (zlen (p' ++ [x])) 256). lia. }
  rewrite Z.mod_small in Hx by lia. rewrite D', Eo, <- Hx. split; [reflexivity|]. rewrite zlen_app in Hx. change (zlen [x]) with 1 in Hx. lia.
Qed.

(** What a receiver gets who opens the ciphertext with the byte 17 from the end changed. *)
Lemma cut_run : forall key iv h s c q, zlen key = 16 -> zlen iv = 16 -> bytes iv -> bytes h -> gwindow h s -> sealed key iv h s c -> 32 <= zlen c ->
  exists a z y, zlen a = zlen c - 32 /\ zlen z = 31 /\ contents h s ++ y = a ++ skipn (Z.to_nat (zlen c - 32)) (contents h s ++ y) /\ a = firstn (Z.to_nat (zlen c - 32)) (contents h s ++ y) /\
    zlen y = pads c s /\ 1 <= pads c s <= 16 /\ opened key iv (tamper c (zlen c - 17) (Z.lxor (pads c s) q)) = PKCS5UnPadding ((a ++ z) ++ [q]).
Proof.
  intros key iv h s c q K I Bi Bh W S L. destruct (sealed_shape key iv h s c K I Bi Bh W S) as (p & cs & Ec & Fc & Lc & Pc & Bp & D & Lp).
  destruct (snoc_split cs) as (cs' & y & ->). { unfold zlen in Lc at 2. lia. }
  assert (L2 : zlen (cs' ++ [y]) = zlen cs' + 1) by (rewrite zlen_app; reflexivity). destruct (snoc_split cs') as (pre & x & ->). { unfold zlen in *. lia. }
  assert (L3 : zlen (pre ++ [x]) = zlen pre + 1) by (rewrite zlen_app; reflexivity).
  apply Forall_app in Fc as [Fc Fy]. apply Forall_app in Fc as [Fp Fx]. inversion_clear Fx as [|? ? Bx _]. inversion_clear Fy as [|? ? By _]. unfold is_block in Bx, By.
  destruct (block_last x Bx) as (x0 & b & -> & Lx0). destruct (block_last (Sm4Spec.sm4_dec key y) (sm4_dec_len key y)) as (d0 & e & Ed & Ld0).
  rewrite !cbc_dec_snoc in D. rewrite last_last in D. rewrite Ed, xor_snoc in D by lia. rewrite !concat_app in D. cbn [List.concat] in D. rewrite !app_nil_r in D.
  set (A := List.concat (cbc_dec (Sm4Spec.sm4_dec key) iv pre)) in *. set (X := xor (Sm4Spec.sm4_dec key (x0 ++ [b])) (last pre iv)) in *.
  rewrite !app_assoc in D. apply app_inj_tail in D as [D Db].
  assert (LA : zlen A = 16 * zlen pre). { destruct (cbc_dec_blocks key pre iv I Fp) as [B1 B2]. unfold A. rewrite concat_blocks_len, B2 by exact B1. reflexivity. }
  assert (LX : zlen X = 16) by (unfold X; rewrite xor_bytes_len; rewrite ?sm4_dec_len, ?last_block; auto).
  set (d := Z.lxor (pads c s) q). set (X' := xor (Sm4Spec.sm4_dec key (x0 ++ [Z.lxor b d])) (last pre iv)).
  assert (LX' : zlen X' = 16) by (unfold X'; rewrite xor_bytes_len; rewrite ?sm4_dec_len, ?last_block; auto).
  exists A, (X' ++ xor d0 x0), (p ++ [pads c s]).
  assert (EA : A = firstn (Z.to_nat (zlen c - 32)) (contents h s ++ p ++ [pads c s])).
  { replace (Z.to_nat (zlen c - 32)) with (List.length A) by (unfold zlen in *; lia). rewrite app_assoc, <- D, <- !app_assoc, firstn_app, Nat.sub_diag, firstn_all. cbn [firstn]. rewrite app_nil_r. reflexivity. }
  split; [lia|]. split; [rewrite zlen_app, LX'; unfold zlen; rewrite xor_len15 by assumption; reflexivity|].
  split; [rewrite EA at 1; symmetry; apply firstn_skipn|]. split; [exact EA|]. split; [rewrite zlen_app; cbn; lia|]. split; [exact Pc|].
  assert (ET : tamper c (zlen c - 17) d = List.concat ((pre ++ [x0 ++ [Z.lxor b d]]) ++ [y])).
  { rewrite Ec at 1. rewrite !concat_app. cbn [List.concat]. rewrite !app_nil_r. rewrite <- !app_assoc. cbn [app]. rewrite (app_assoc (List.concat pre) x0), tamper_at, <- app_assoc; [reflexivity|].
    rewrite zlen_app, concat_blocks_len by exact Fp. replace (zlen x0) with 15 by (unfold zlen; lia). lia. }
  rewrite ET. unfold opened. rewrite CBCDecrypt_ok; [|exact K|exact I|].
  2:{ apply Forall_app. split; [apply Forall_app; split; [exact Fp|]|]; constructor; try constructor; [|exact By]. unfold is_block. rewrite zlen_app. unfold zlen. rewrite Lx0. reflexivity. }
  cbn [bind]. rewrite !cbc_dec_snoc, last_last, Ed, xor_snoc by lia. rewrite !concat_app. cbn [List.concat]. rewrite !app_nil_r. fold A X'.
  replace (Z.lxor e (Z.lxor b d)) with q. 2:{ unfold d. rewrite <- Db. symmetry. apply lxor_back. }
  f_equal. rewrite <- !app_assoc. reflexivity.
Qed.

(** With one byte changed the receiver gets, and no error, the beginning of the message: whoever changes it chooses how much, anything that takes away
    from 32 to 255 bytes of the padded message. *)
Theorem C129_cut : forall key iv h s c q, zlen key = 16 -> zlen iv = 16 -> bytes iv -> bytes h -> gwindow h s -> sealed key iv h s c ->
  32 <= q <= 255 -> q <= zlen c ->
  opened key iv (tamper c (zlen c - 17) (Z.lxor (pads c s) q)) = Ret (firstn (Z.to_nat (zlen c - q)) (contents h s)).
Proof.
  intros key iv h s c q K I Bi Bh W S Q L. destruct (cut_run key iv h s c q K I Bi Bh W S ltac:(lia)) as (a & z & y & La & Lz & _ & Ea & Ly & P & ->).
  rewrite unpad_last by lia. rewrite zlen_app, La, Lz. destruct (Z.leb_spec q (zlen c - 32 + 31 + 1)); [|lia]. f_equal.
  replace (zlen c - 32 + 31 + 1 - q) with (zlen c - q) by lia.
  rewrite <- app_assoc, firstn_app. replace (Z.to_nat (zlen c - q) - List.length a)%nat with 0%nat by (unfold zlen in *; lia). cbn [firstn]. rewrite app_nil_r, Ea, firstn_firstn.
  rewrite Nat.min_l by lia. rewrite firstn_app. pose proof (contents_len h s W) as LC. unfold pads in *.
  replace (Z.to_nat (zlen c - q) - List.length (contents h s))%nat with 0%nat by (unfold zlen in *; lia). cbn [firstn]. apply app_nil_r.
Qed.
(** Any smaller number of bytes can be taken away as well: then the end of what is returned is not the message's, but the length is as chosen, and all before
    the last 32 bytes of the padded message is right. *)
Theorem C129_length : forall key iv h s c q, zlen key = 16 -> zlen iv = 16 -> bytes iv -> bytes h -> gwindow h s -> sealed key iv h s c ->
  32 <= zlen c -> 0 <= q <= 31 ->
  exists out, opened key iv (tamper c (zlen c - 17) (Z.lxor (pads c s) q)) = Ret out /\ zlen out = zlen c - q /\
    firstn (Z.to_nat (zlen c - 32)) out = firstn (Z.to_nat (zlen c - 32)) (contents h s).
Proof.
  intros key iv h s c q K I Bi Bh W S L Q. destruct (cut_run key iv h s c q K I Bi Bh W S L) as (a & z & y & La & Lz & _ & Ea & Ly & P & ->).
  rewrite unpad_last by lia. rewrite zlen_app, La, Lz. destruct (Z.leb_spec q (zlen c - 32 + 31 + 1)); [|lia]. eexists. split; [reflexivity|].
  replace (zlen c - 32 + 31 + 1 - q) with (zlen c - q) by lia. split.
  - unfold zlen in *. rewrite firstn_length, !app_length. cbn [List.length]. lia.
  - rewrite firstn_firstn, Nat.min_l by lia. rewrite <- app_assoc, firstn_app. replace (Z.to_nat (zlen c - 32) - List.length a)%nat with 0%nat by (unfold zlen in *; lia).
    cbn [firstn]. rewrite app_nil_r. rewrite firstn_all2 by (unfold zlen in *; lia). rewrite Ea, firstn_app. pose proof (contents_len h s W) as LC. unfold pads in *.
    replace (Z.to_nat (zlen c - 32) - List.length (contents h s))%nat with 0%nat by (unfold zlen in *; lia). cbn [firstn]. apply app_nil_r.
Qed.
(** And a receiver of up to 15 blocks is brought down. *)
Theorem C129_crash : forall key iv h s c q, zlen key = 16 -> zlen iv = 16 -> bytes iv -> bytes h -> gwindow h s -> sealed key iv h s c ->
  32 <= zlen c -> zlen c < q -> opened key iv (tamper c (zlen c - 17) (Z.lxor (pads c s) q)) = Panic PSlice.
Proof.
  intros key iv h s c q K I Bi Bh W S L Q. destruct (cut_run key iv h s c q K I Bi Bh W S L) as (a & z & y & La & Lz & _ & Ea & Ly & P & ->).
  rewrite unpad_last by lia. rewrite zlen_app, La, Lz. destruct (Z.leb_spec q (zlen c - 32 + 31 + 1)); [lia|]. reflexivity.
Qed.
(** A message of one block, through the initialisation vector: the beginning of any length, or a panic. *)
Theorem C129_short : forall key iv h s c q, zlen key = 16 -> zlen iv = 16 -> bytes iv -> bytes h -> gwindow h s -> sealed key iv h s c -> zlen c = 16 ->
  pads c s <= q ->
  opened key (tamper iv 15 (Z.lxor (pads c s) q)) c = if q <=? 16 then Ret (firstn (Z.to_nat (16 - q)) (contents h s)) else Panic PSlice.
Proof.
  intros key iv h s c q K I Bi Bh W S L Q. destruct (sealed_shape key iv h s c K I Bi Bh W S) as (p & cs & Ec & Fc & Lc & Pc & Bp & D & Lp).
  destruct (snoc_split cs) as (cs' & y & ->). { unfold zlen in *. lia. }
  assert (L2 : zlen (cs' ++ [y]) = zlen cs' + 1) by (rewrite zlen_app; reflexivity). destruct cs' as [|? ?]; [|rewrite zlen_cons in L2; pose proof (zlen_nonneg _ cs'); lia]. cbn [app] in *.
  inversion_clear Fc as [|? ? By _]. unfold is_block in By.
  destruct (block_last iv I) as (i0 & b & Ei & Li0). destruct (block_last (Sm4Spec.sm4_dec key y) (sm4_dec_len key y)) as (d0 & e & Ed & Ld0).
  cbn [cbc_dec List.concat] in D. rewrite app_nil_r, Ed, Ei, xor_snoc in D by lia. rewrite app_assoc in D. apply app_inj_tail in D as [D Db].
  set (d := Z.lxor (pads c s) q).
  assert (ET : tamper iv 15 d = i0 ++ [Z.lxor b d]). { rewrite Ei. apply tamper_at. unfold zlen. rewrite Li0. reflexivity. }
  rewrite ET. unfold opened. rewrite Ec at 1. rewrite CBCDecrypt_ok; [|exact K|rewrite zlen_app; unfold zlen; rewrite Li0; reflexivity|constructor; [exact By|constructor]].
  cbn [bind cbc_dec List.concat]. rewrite app_nil_r, Ed, xor_snoc by lia.
  replace (Z.lxor e (Z.lxor b d)) with q. 2:{ unfold d. rewrite <- Db. symmetry. apply lxor_back. }
  rewrite unpad_last by lia. replace (zlen (xor d0 i0)) with 15 by (unfold zlen; rewrite xor_len15 by assumption; reflexivity). change (15 + 1) with 16.
  destruct (Z.leb_spec q 16); [|reflexivity]. f_equal. rewrite D, <- app_assoc, firstn_app. pose proof (contents_len h s W) as LC. unfold pads in *.
  replace (Z.to_nat (16 - q) - List.length (contents h s))%nat with 0%nat by (unfold zlen in *; lia). cbn [firstn]. apply app_nil_r.
Qed.
(** So it is false that a changed ciphertext is refused or gives a message unrelated to the one sent. *)
Theorem C129_integrity_refuted : exists key iv h s c i d, sealed key iv h s c /\ 0 <= i < zlen c /\ 0 < d < 256 /\ contents h s = map Z.of_nat (seq 1 20) /\
  opened key iv (tamper c i d) = Ret [].
Proof.
  set (m := map Z.of_nat (seq 1 20)). set (k := repeat 0 16). assert (W : gwindow m (mkG 0 20 20)) by (unfold gwindow; cbn; lia).
  assert (Bk : bytes k) by (apply bytes_repeat; unfold byte; lia).
  assert (Bm : bytes m). { unfold bytes, m. rewrite Forall_map. apply Forall_forall. intros x Hx. apply in_seq in Hx. unfold byte. lia. }
  destruct (C13_padded_roundtrip k k m (mkG 0 20 20) eq_refl eq_refl Bk Bm W) as (h' & padded & ce & cc & E1 & _ & E2 & _).
  assert (S : sealed k k m (mkG 0 20 20) cc) by (exists h', padded, padded; split; assumption).
  assert (Lc : zlen cc = 32). { rewrite pkcs5_run in E1 by (exact W || lia). assert (EP : padded = m ++ repeat 12 12) by (injection E1 as _ <-; reflexivity).
    assert (Bp : bytes padded) by (rewrite EP; apply bytes_app; split; [exact Bm|apply bytes_repeat; unfold byte; lia]).
    destruct (C12_cbc k k padded eq_refl eq_refl Bk Bp ltac:(rewrite EP; reflexivity)) as (c' & E3 & L3 & _). rewrite E3 in E2. assert (c' = cc) by congruence. subst c'. rewrite L3, EP. reflexivity. }
  exists k, k, m, (mkG 0 20 20), cc, 15, (Z.lxor 12 32). split; [exact S|]. split; [lia|]. split; [cbn; lia|]. split; [reflexivity|].
  pose proof (C129_cut k k m (mkG 0 20 20) cc 32 eq_refl eq_refl Bk Bm W S ltac:(lia) ltac:(lia)) as E. rewrite Lc in E. unfold pads in E. rewrite Lc in E. exact E.
Qed.
Example C129_ex : gwindow (map Z.of_nat (seq 1 40)) (mkG 0 40 40) /\ tamper [1; 2; 3] 1 3 = [1; 1; 3] /\
  exists c, sealed (repeat 7 16) (repeat 9 16) (map Z.of_nat (seq 1 40)) (mkG 0 40 40) c.
Proof.
  assert (W : gwindow (map Z.of_nat (seq 1 40)) (mkG 0 40 40)) by (unfold gwindow; cbn; lia). split; [exact W|]. split; [reflexivity|].
  assert (Bm : bytes (map Z.of_nat (seq 1 40))). { unfold bytes. rewrite Forall_map. apply Forall_forall. intros x Hx. apply in_seq in Hx. unfold byte. lia. }
  destruct (C13_padded_roundtrip (repeat 7 16) (repeat 9 16) _ (mkG 0 40 40) eq_refl eq_refl ltac:(apply bytes_repeat; unfold byte; lia) Bm W) as (h' & padded & ce & cc & E1 & _ & E2 & _).
  exists cc, h', padded, padded. split; assumption.
Qed.
