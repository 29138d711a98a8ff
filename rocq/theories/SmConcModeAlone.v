(** What the programs of SmConcMode.v do when a goroutine runs alone. *)
From Coq Require Import ZArith List Lia Bool String Arith.
From Verif Require Import GoBase ConcMem Sm3 Sm4 Sm4Spec Sm4Proofs Util SmConc SmConcAlone SmConcMode.
Import ListNotations.
Open Scope Z_scope.

Notation contents := SmConcAlone.contents.

Lemma xor_bytes_length : forall a b, List.length a = 16%nat -> List.length b = 16%nat -> List.length (xor_bytes a b) = 16%nat.
Proof. intros a b Ha Hb. change (xor_bytes a b) with (map (fun '(x, y) => Z.lxor x y) (combine a b)). rewrite map_length, combine_length, Ha, Hb. reflexivity. Qed.
Lemma alone_xor : forall g n dst a b s, alone g n (xorP dst a b) s =
  (n, Ret tt, storeL s (s_blk dst) (s_off dst) (xor_bytes (loadN s (s_blk a) (s_off a) 16) (loadN s (s_blk b) (s_off b) 16))).
Proof. intros. unfold xorP. rewrite alone_bind, alone_rdN, alone_bind, alone_rdN. apply alone_wrL. Qed.
Opaque sm4_enc sm4_dec xor_bytes.
Lemma load_store_block : forall s b o l b' o' k, b' <> b -> loadN (storeL s b o l) b' o' k = loadN s b' o' k.
Proof. intros s b o l b' o' k N. apply load_ext. intros i _. apply storeL_out. left. exact N. Qed.
Lemma block_length : forall b, is_block b -> List.length b = 16%nat.
Proof. intros b H. unfold is_block, zlen in H. lia. Qed.

Lemma alone_cbcEnc : forall g n c key dst src bs i s ivs iv, cipherOf s c key -> cEnc c <> s_blk dst -> cDec c <> s_blk dst -> s_blk src <> s_blk dst ->
  Forall is_block bs -> loadN s (s_blk src) (s_off src + i) (16 * List.length bs) = List.concat bs ->
  loadN s (s_blk ivs) (s_off ivs) 16 = iv -> (s_blk ivs <> s_blk dst \/ s_off ivs + 16 <= s_off dst + i)%nat ->
  exists s' last, alone g n (cbcEncP c (List.length bs) i dst src ivs) s = (n, Ret last, s') /\
    loadN s' (s_blk dst) (s_off dst + i) (16 * List.length bs) = List.concat (cbc_enc (sm4_enc key) iv bs) /\
    forall a, blk a <> s_blk dst \/ (idx a < s_off dst + i)%nat -> s' a = s a.
Proof.
  intros g n c key dst src bs. induction bs as [|b bs IH]; intros i s ivs iv C N1 N2 N3 B E V Iv; cbn [List.length cbcEncP]; [exists s, ivs; auto|].
  apply Forall_inv in B as Bb. apply Forall_inv_tail in B. assert (Lb := block_length b Bb).
  replace (16 * List.length (b :: bs))%nat with (16 + 16 * List.length bs)%nat in E by (cbn; lia). rewrite loadN_app in E. cbn [List.concat] in E.
  apply app_split in E; [|rewrite loadN_length; lia]. destruct E as [E1 E2].
  assert (Li : List.length iv = 16%nat) by (rewrite <- V; apply loadN_length).
  rewrite alone_bind, alone_xor. cbn [windowP s_blk s_off]. rewrite E1, V.
  set (s1 := storeL s (s_blk dst) (s_off dst + i) (xor_bytes b iv)).
  assert (C1 : cipherOf s1 c key) by (apply cipher_store; assumption).
  rewrite alone_bind. unfold EncryptP. change (cEnc c) with (modeKeys true c). rewrite (alone_mode g n true c key) by (exact C1 || cbn; lia). cbn [windowP s_blk s_off].
  unfold s1 at 2. rewrite load_store_eq by (apply xor_bytes_length; assumption). cbn [modeSpec].
  assert (Lx := modeSpec_length true key (xor_bytes b iv)). cbn [modeSpec] in Lx. set (x := sm4_enc key (xor_bytes b iv)) in *.
  set (s2 := storeL s1 (s_blk dst) (s_off dst + i) x).
  destruct (IH (i + 16)%nat s2 (windowP dst i) x) as (s' & last & R & L & F); try assumption.
  - apply cipher_store; assumption.
  - rewrite <- E2, Nat.add_assoc. unfold s2, s1. rewrite !load_store_block by exact N3. reflexivity.
  - apply load_store_eq. exact Lx.
  - right. cbn [windowP s_off]. lia.
  - exists s', last. split; [exact R|]. split.
    + replace (16 * S (List.length bs))%nat with (16 + 16 * List.length bs)%nat by lia. rewrite loadN_app. cbn [cbc_enc]. cbv zeta. fold x. cbn [List.concat]. f_equal.
      * rewrite <- (load_store_eq x 16 s1 (s_blk dst) (s_off dst + i)) by exact Lx. apply load_ext. intros j Hj. apply F. right. cbn [idx]. lia.
      * rewrite <- Nat.add_assoc. exact L.
    + intros a Ha. rewrite F by (destruct Ha; [auto|right; lia]). unfold s2, s1. rewrite !storeL_out by (destruct Ha; [auto|right; lia]). reflexivity.
Qed.

Lemma cbc_dec_snoc : forall f bs iv b, cbc_dec f iv (bs ++ [b]) = cbc_dec f iv bs ++ [xor_bytes (f b) (last bs iv)].
Proof.
  induction bs as [|x bs IH]; intros iv b; [reflexivity|]. cbn [app cbc_dec]. rewrite IH. f_equal. f_equal. f_equal. f_equal.
  destruct bs as [|y bs]; [reflexivity|]. cbn [last]. clear. revert y. induction bs as [|z bs IH]; intro y; [reflexivity|]. apply (IH z).
Qed.
Lemma alone_cbcDec : forall g n c key dst src ivs iv bs s, cipherOf s c key -> cEnc c <> s_blk dst -> cDec c <> s_blk dst -> s_blk src <> s_blk dst -> s_blk ivs <> s_blk dst ->
  Forall is_block bs -> loadN s (s_blk src) (s_off src) (16 * List.length bs) = List.concat bs -> loadN s (s_blk ivs) (s_off ivs) 16 = iv ->
  exists s', alone g n (cbcDecP c (List.length bs) dst src ivs) s = (n, Ret tt, s') /\
    loadN s' (s_blk dst) (s_off dst) (16 * List.length bs) = List.concat (cbc_dec (sm4_dec key) iv bs) /\
    forall a, blk a <> s_blk dst \/ (s_off dst + 16 * List.length bs <= idx a)%nat -> s' a = s a.
Proof.
  intros g n c key dst src ivs iv bs. induction bs as [|b bs IH] using rev_ind; intros s C N1 N2 N3 N4 B E V; [exists s; auto|].
  apply Forall_app in B. destruct B as [B Bb]. apply Forall_inv in Bb. assert (Lb := block_length b Bb).
  rewrite app_length in E |- *. cbn [List.length] in E |- *. set (m := List.length bs) in *. replace (m + 1)%nat with (S m) in * by lia.
  replace (16 * S m)%nat with (16 * m + 16)%nat in E |- * by lia. rewrite loadN_app in E. rewrite concat_app in E. cbn [List.concat] in E. rewrite app_nil_r in E.
  assert (LB : List.length (List.concat bs) = (16 * m)%nat) by (assert (Q := concat_blocks_len bs B); unfold zlen in Q; fold m in Q; lia).
  apply app_split in E; [|rewrite loadN_length; lia]. destruct E as [E1 E2].
  cbn [cbcDecP]. rewrite alone_bind. unfold DecryptP. change (cDec c) with (modeKeys false c). rewrite (alone_mode g n false c key) by (exact C || cbn; lia). cbn [windowP s_blk s_off modeSpec].
  rewrite E2. assert (Lx := modeSpec_length false key b). cbn [modeSpec] in Lx. set (x := sm4_dec key b) in *.
  set (s1 := storeL s (s_blk dst) (s_off dst + 16 * m) x). rewrite alone_bind, alone_xor. cbn [windowP s_blk s_off]. unfold s1 at 2. rewrite load_store_eq by exact Lx.
  assert (P : loadN s1 (s_blk (match m with O => ivs | S m' => windowP src (16 * m') end)) (s_off (match m with O => ivs | S m' => windowP src (16 * m') end)) 16 = last bs iv).
  { unfold s1. destruct bs as [|b0 bs0] using rev_ind.
    - change m with O. cbv iota. rewrite load_store_block by exact N4. exact V.
    - clear IHbs0. replace m with (S (List.length bs0)) by (unfold m; rewrite app_length; cbn; lia). rewrite last_last. cbn [windowP s_blk s_off]. rewrite load_store_block by exact N3.
      apply Forall_app in B. destruct B as [B0 Bb0]. apply Forall_inv in Bb0. apply block_length in Bb0.
      assert (LB0 : List.length (List.concat bs0) = (16 * List.length bs0)%nat) by (assert (Q := concat_blocks_len bs0 B0); unfold zlen in Q; lia).
      replace (16 * m)%nat with (16 * List.length bs0 + 16)%nat in E1 by (unfold m; rewrite app_length; cbn; lia). rewrite loadN_app, concat_app in E1. cbn [List.concat] in E1. rewrite app_nil_r in E1.
      apply app_split in E1; [|rewrite loadN_length; lia]. exact (proj2 E1). }
  rewrite P. set (y := xor_bytes x (last bs iv)).
  assert (Ly : List.length y = 16%nat) by (apply xor_bytes_length; [exact Lx|rewrite <- P; apply loadN_length]).
  set (s2 := storeL s1 (s_blk dst) (s_off dst + 16 * m) y).
  destruct (IH s2) as (s' & R & L & F); try assumption.
  - apply cipher_store; try assumption. apply cipher_store; assumption.
  - unfold s2, s1. rewrite !load_store_block by exact N3. exact E1.
  - unfold s2, s1. rewrite !load_store_block by exact N4. exact V.
  - exists s'. split; [exact R|]. split.
    + rewrite loadN_app, cbc_dec_snoc, concat_app. cbn [List.concat]. rewrite app_nil_r. fold x. fold y. f_equal; [exact L|].
      rewrite <- (load_store_eq y 16 s1 (s_blk dst) (s_off dst + 16 * m)) by exact Ly. apply load_ext. intros j Hj. apply F. right. cbn [idx]. lia.
    + intros a Ha. rewrite F by (destruct Ha; [auto|right; lia]). unfold s2, s1. rewrite !storeL_out by (destruct Ha; [auto|right; lia]). reflexivity.
Qed.

(** CBC of either direction. *)
Definition cbcSpec (e : bool) (key iv : list Z) (bs : list (list Z)) : list (list Z) :=
  if e then cbc_enc (sm4_enc key) iv bs else cbc_dec (sm4_dec key) iv bs.
Lemma alone_cbcCall : forall g n e key iv inp bs s, s_len key = 16%nat -> s_len iv = 16%nat -> known g n (s_blk key) -> known g n (s_blk iv) -> known g n (s_blk inp) ->
  Forall is_block bs -> contents s inp = List.concat bs ->
  let out := mkCs (mkBlock (S g) (4 + n)) 0 (s_len inp) (s_len inp) in
  exists s', alone g n (cbcCallP e key iv inp) s = ((5 + n)%nat, Ret (Ok out), s') /\
    contents s' out = List.concat (cbcSpec e (contents s key) (contents s iv) bs) /\ forall a, known g n (blk a) -> s' a = s a.
Proof.
  intros g n e key iv inp bs s Hk Hv Kk Kv Ki B E out. unfold cbcCallP.
  assert (LI : s_len inp = (16 * List.length bs)%nat).
  { assert (Q := concat_blocks_len bs B). rewrite <- E in Q. unfold zlen, contents in Q. rewrite loadN_length in Q. lia. }
  assert (Z0 : negb (Z.of_nat (s_len inp) mod BlockSize =? 0) = false).
  { rewrite LI, Nat2Z.inj_mul. change (Z.of_nat 16) with BlockSize. rewrite Z.mul_comm, Z.mod_mul by discriminate. reflexivity. }
  rewrite Z0. destruct (alone_NewCipher g n key s Hk Kk) as (s1 & E1 & C1 & F1). rewrite alone_bind, E1. cbv iota. rewrite Hv. change (negb (Z.of_nat 16 =? BlockSize)) with false. cbv iota.
  rewrite alone_bind, alone_rdN. do 3 rewrite alone_alloc. cbv zeta. rewrite alone_bind.
  change (S (S (S (S (S n))))) with (5 + n)%nat. change (S (S (S (S n)))) with (4 + n)%nat. fold out.
  set (xiv := mkBlock (S g) (S (S n))). set (xtmp := mkBlock (S g) (S (S (S n)))). set (b := mkBlock (S g) (4 + n)) in *.
  set (c := mkCipherRef (mkBlock (S g) n) (mkBlock (S g) (S n))) in *.
  assert (NK : forall p j, known g n p -> (n <= j)%nat -> p <> mkBlock (S g) j) by (intros p j K Hj Q; rewrite Q in K; specialize (K eq_refl); cbn in K; lia).
  set (s2 := fill (fill (fill s1 xiv (loadN s1 (s_blk iv) (s_off iv) 16)) xtmp (repeat 0 16)) b (repeat 0 (s_len inp))).
  assert (O2 : forall a, known g n (blk a) -> s2 a = s a).
  { intros a Ka. unfold s2. rewrite !fill_other by (apply NK; [exact Ka|lia]). apply F1; apply NK; (exact Ka || lia). }
  assert (C2 : cipherOf s2 c (contents s key)).
  { destruct C1 as [X1 X2]. split; [rewrite <- X1|rewrite <- X2]; apply load_ext; intros i _; unfold s2; rewrite !fill_other; try reflexivity;
      unfold b, xiv, xtmp; cbn [blk cEnc cDec c]; intro Q; injection Q; lia. }
  assert (V2 : loadN s2 xiv 0 16 = contents s iv).
  { unfold contents. rewrite Hv. apply (list_ext _ _ 16); [apply loadN_length|apply loadN_length|]. intros i Hi. rewrite loadN_nth by exact Hi. cbn [Nat.add]. unfold s2.
    rewrite !fill_other by (cbn [blk]; unfold b, xiv, xtmp; intro Q; injection Q; lia). rewrite fill_same. f_equal. apply load_ext. intros j _. apply F1; apply NK; (exact Kv || lia). }
  assert (I2 : loadN s2 (s_blk inp) (s_off inp) (16 * List.length bs) = List.concat bs).
  { rewrite <- E. unfold contents. rewrite LI. apply load_ext. intros i _. apply O2. exact Ki. }
  assert (D : (s_len inp / 16)%nat = List.length bs) by (rewrite LI, Nat.mul_comm, Nat.div_mul by lia; reflexivity).
  assert (NI : s_blk inp <> b) by (apply NK; [exact Ki|lia]).
  assert (NV : xiv <> b) by (unfold xiv, b; intro Q; injection Q; lia).
  assert (NT : xtmp <> b) by (unfold xtmp, b; intro Q; injection Q; lia).
  assert (NE : cEnc c <> b) by (unfold b; cbn [cEnc c]; intro Q; injection Q; lia). assert (ND : cDec c <> b) by (unfold b; cbn [cDec c]; intro Q; injection Q; lia).
  destruct e; cbn [cbcSpec].
  - unfold cbcEncRunP. rewrite D.
    destruct (alone_cbcEnc g (5 + n) c (contents s key) out inp bs 0 s2 (mkCs xiv 0 16 16) (contents s iv) C2) as (s3 & last & R & L & F); try assumption.
    + rewrite Nat.add_0_r. exact I2.
    + left. exact NV.
    + rewrite alone_bind, R. rewrite alone_bind, alone_rdN, alone_wrL. rewrite alone_ret.
      eexists. split; [reflexivity|]. split.
      * unfold contents at 1. cbn [out s_blk s_off s_len]. rewrite load_store_block by (intro Q; apply NV; symmetry; exact Q). rewrite LI. exact L.
      * intros a Ka. rewrite storeL_out by (left; apply NK; [exact Ka|lia]). rewrite F by (left; cbn; apply NK; [exact Ka|lia]). apply O2. exact Ka.
  - unfold cbcDecRunP. destruct (Nat.eqb_spec (s_len inp) 0) as [Z|NZ].
    + destruct bs as [|b0 bs]; [|cbn in LI; lia]. rewrite !alone_ret. eexists. split; [reflexivity|]. split; [|exact O2].
      unfold contents. cbn [out s_len]. rewrite Z. reflexivity.
    + rewrite D. rewrite alone_bind, alone_rdN. rewrite alone_bind, alone_wrL.
      set (s3 := storeL s2 xtmp 0 (loadN s2 (s_blk inp) (s_off inp + (s_len inp - 16)) 16)).
      assert (NX : xiv <> xtmp) by (unfold xiv, xtmp; intro Q; injection Q; lia).
      destruct (alone_cbcDec g (5 + n) c (contents s key) out inp (mkCs xiv 0 16 16) (contents s iv) bs s3) as (s4 & R & L & F); try assumption.
      * apply cipher_store; [exact C2| |]; unfold xtmp; cbn [cEnc cDec c]; intro Q; injection Q; lia.
      * unfold s3. rewrite load_store_block by (apply NK; [exact Ki|lia]). exact I2.
      * cbn [s_blk s_off]. unfold s3. rewrite load_store_block by exact NX. exact V2.
      * rewrite R, alone_ret. eexists. split; [reflexivity|]. split; [unfold contents at 1; cbn [out s_blk s_off s_len]; rewrite LI; exact L|].
        intros a Ka. rewrite F by (left; cbn; apply NK; [exact Ka|lia]). unfold s3. rewrite storeL_out by (left; apply NK; [exact Ka|lia]). apply O2. exact Ka.
Qed.

(** Appending. *)
Lemma alone_append : forall g n b l s, exists n' out s', alone g n (appendP b l) s = (n', Ret out, s') /\ contents s' out = contents s b ++ l /\
  ((s_len b + List.length l <= s_cap b)%nat -> n' = n /\ out = mkCs (s_blk b) (s_off b) (s_len b + List.length l) (s_cap b)) /\
  ((s_cap b < s_len b + List.length l)%nat -> n' = S n /\ out = mkCs (mkBlock (S g) n) 0 (s_len b + List.length l) (s_len b + List.length l)) /\
  forall a, known g n (blk a) -> ~ (blk a = s_blk b /\ s_off b + s_len b <= idx a < s_off b + s_len b + List.length l /\ s_len b + List.length l <= s_cap b)%nat -> s' a = s a.
Proof.
  intros g n b l s. unfold appendP. destruct (Nat.leb_spec (s_len b + List.length l) (s_cap b)) as [C|C].
  - rewrite alone_bind, alone_wrL, alone_ret. do 3 eexists. split; [reflexivity|]. split; [|split; [auto|split; [lia|]]].
    + unfold contents. cbn [s_blk s_off s_len]. rewrite loadN_app. f_equal; [|apply load_store_eq; reflexivity]. apply load_store_out. lia.
    + intros a _ N. apply storeL_out. destruct (Nat.lt_ge_cases (idx a) (s_off b + s_len b)) as [Q|Q]; [auto|].
      destruct (Nat.lt_ge_cases (idx a) (s_off b + s_len b + List.length l)) as [Q'|Q']; [|auto]. left. intro Qb. apply N. auto.
  - rewrite alone_bind, alone_rdN. cbn [alone ret]. do 3 eexists. split; [reflexivity|]. split; [|split; [lia|split; [auto|]]].
    + unfold contents. cbn [s_blk s_off s_len]. apply (list_ext _ _ (s_len b + List.length l)); [apply loadN_length|rewrite app_length, loadN_length; lia|].
      intros i Hi. rewrite loadN_nth by exact Hi. rewrite fill_same. reflexivity.
    + intros a K _. apply fill_other. intro Q. rewrite Q in K. specialize (K eq_refl). cbn in K. lia.
Qed.
Transparent sm4_enc sm4_dec xor_bytes.
