(** Property C128: HMAC made from this library's hash, hmac.New(sm3.New, key) (sm3/sm3.go:10-58): it is not HMAC-SM3. *)
From Coq Require Import ZArith List Lia Bool String.
From Verif Require Import GoBase Sm3Spec Sm3 Sm3Proofs Sm3Main PropsSm3 PropsSm3Hist GoHmac.
Import ListNotations.
Open Scope Z_scope.

(** * Specification *)

(** HMAC as RFC 2104 defines it from SM3, for blocks of B bytes: the key, hashed if it is longer than a block, cut or filled up with zeros to B bytes. *)
Definition keyBlock (B : nat) (key : list Z) : list Z :=
  let k := if Nat.ltb B (List.length key) then sm3_hash key else key in firstn B (k ++ repeat 0 B).
Definition padded (B : nat) (key : list Z) (c : Z) : list Z := map (fun b => Z.lxor b c) (keyBlock B key).
Definition HMAC (B : nat) (key m : list Z) : list Z :=
  sm3_hash (padded B key 0x5c ++ sm3_hash (padded B key 0x36 ++ m)).
(** HMAC-SM3: the blocks of SM3 have 64 bytes. *)
Definition HMAC_SM3 : list Z -> list Z -> list Z := HMAC 64.

(** The message written in pieces, then Sum(b). *)
Fixpoint writes (h : hmac) (chunks : list (list Z)) : go hmac :=
  match chunks with [] => Ret h | c :: cs => do (h, _) <- HWrite h c; writes h cs end.
Definition mac (key : list Z) (chunks : list (list Z)) (b : list Z) : go (list Z) :=
  do h <- HNew key; do h <- writes h chunks; do (_, r) <- HSum h b; Ret r.
Definition good_key (key : list Z) : Prop := bytes key /\ zlen key < 2 ^ 31.

(** * Proofs *)
Lemma hash_ok : forall m, bytes m -> List.length (sm3_hash m) = 32%nat /\ bytes (sm3_hash m).
Proof.
  intros m H. split; [|unfold sm3_hash; apply concat_be4_bytes]. unfold sm3_hash. pose proof (concat_be4_len (hash_words m)) as E.
  destruct (hash_words_ok m H) as [L _]. unfold zlen in E. rewrite L in E. lia.
Qed.
Lemma hash_good : forall m, bytes m -> good_chunk (sm3_hash m).
Proof.
  intros m H. destruct (hash_ok m H) as [L B]. split; [exact B|]. unfold zlen. rewrite L. split; [|lia]. intro E. rewrite E in L. discriminate L.
Qed.
Lemma keyBlock_ok : forall B key, bytes key -> List.length (keyBlock B key) = B /\ bytes (keyBlock B key).
Proof.
  intros B key H. unfold keyBlock. cbv zeta. split.
  - rewrite firstn_length, app_length, repeat_length. lia.
  - apply bytes_firstn. apply bytes_app. split; [|apply bytes_repeat; unfold byte; lia]. destruct (Nat.ltb B (List.length key)); [apply hash_ok, H|exact H].
Qed.
Lemma lxor_byte : forall b c, 0 <= b < 256 -> 0 <= c < 256 -> 0 <= Z.lxor b c < 256.
Proof.
  intros b c Hb Hc. assert (0 <= Z.lxor b c) by (apply Z.lxor_nonneg; lia). split; [assumption|].
  destruct (Z.eq_dec (Z.lxor b c) 0) as [->|N]; [lia|]. apply Z.log2_lt_cancel. change (Z.log2 256) with 8.
  pose proof (Z.log2_lxor b c ltac:(lia) ltac:(lia)). assert (forall x, 0 <= x < 256 -> Z.log2 x < 8).
  { intros x Hx. destruct (Z.eq_dec x 0) as [->|]; [reflexivity|]. apply Z.log2_lt_pow2; lia. }
  pose proof (H1 b Hb). pose proof (H1 c Hc). lia.
Qed.
Lemma padded_good : forall key c, bytes key -> 0 <= c < 256 -> good_chunk (padded 16 key c) /\ List.length (padded 16 key c) = 16%nat.
Proof.
  intros key c H Hc. destruct (keyBlock_ok 16 key H) as [L B]. unfold padded.
  assert (LM : List.length (map (fun b => Z.lxor b c) (keyBlock 16 key)) = 16%nat) by (rewrite map_length; exact L).
  split; [|exact LM]. split.
  - unfold bytes in *. apply Forall_map. apply Forall_forall. intros x Hx. rewrite Forall_forall in B. apply lxor_byte; [apply B, Hx|exact Hc].
  - unfold zlen. rewrite LM. split; [|lia]. intro E. rewrite E in LM. discriminate LM.
Qed.
Lemma copyTo_key : forall k, copyTo (repeat 0 16) k = firstn 16 (k ++ repeat 0 16).
Proof.
  intro k. unfold copyTo. rewrite repeat_length. rewrite firstn_app. f_equal.
  destruct (Nat.le_gt_cases (List.length k) 16) as [L|L].
  - do 17 (destruct k as [|? k]; [reflexivity|]). cbn [List.length] in L. lia.
  - rewrite skipn_all2 by (rewrite repeat_length; lia). replace (16 - List.length k)%nat with 0%nat by lia. reflexivity.
Qed.

(** A MAC object for this key, with this message written. *)
Definition holds (key m : list Z) (h : hmac) : Prop :=
  opad h = padded 16 key 0x5c /\ ipad h = padded 16 key 0x36 /\ sized (outer h) /\ sized (inner h) /\ stands_for (inner h) (padded 16 key 0x36 ++ m).

Lemma HNew_ok : forall key, good_key key -> exists h, HNew key = Ret h /\ holds key [] h.
Proof.
  intros key [HB HL]. unfold HNew. change (BlockSizeMethod New) with 16. change (go_make 16) with (@Ret (list Z) (repeat 0 16)). cbn [bind]. cbv zeta.
  destruct (padded_good key 0x36 HB ltac:(lia)) as [G1 _].
  assert (K : exists o k, (if 16 <? zlen key then do (o, _) <- Write New key; SumMethod o [] else Ret (New, key)) = Ret (o, k) /\ sized o /\
    firstn 16 (k ++ repeat 0 16) = keyBlock 16 key).
  { unfold keyBlock. cbv zeta. unfold zlen. destruct (Z.ltb_spec 16 (Z.of_nat (List.length key))) as [L|L].
    - replace (Nat.ltb 16 (List.length key)) with true by (symmetry; apply Nat.ltb_lt; lia).
      assert (GC : good_chunk key) by (split; [exact HB|split; [intros ->; cbn in L; lia|exact HL]]).
      destruct (write_stands New [] key stands_New GC) as (d & E & S). cbn [app] in S. rewrite E. cbn [bind].
      destruct (checkSum_stands d key S) as (d2 & E2 & _); [lia|]. unfold SumMethod. rewrite E2. cbn [bind app].
      exists d2, (sm3_hash key). split; [reflexivity|]. split; [|reflexivity].
      apply (sized_checkSum d d2 (sm3_hash key)); [|exact E2]. apply (sized_Write New key d (zlen key)); [apply sized_New|exact E].
    - replace (Nat.ltb 16 (List.length key)) with false by (symmetry; apply Nat.ltb_ge; lia).
      exists New, key. split; [reflexivity|]. split; [apply sized_New|reflexivity]. }
  destruct K as (o & k & E & So & EK). rewrite E. cbn [bind]. cbv zeta. rewrite !copyTo_key, EK. fold (padded 16 key 0x36). fold (padded 16 key 0x5c).
  destruct (write_stands New [] _ stands_New G1) as (d & E1 & S1). cbn [app] in S1. rewrite E1. cbn [bind].
  eexists. split; [reflexivity|]. unfold holds. cbn [opad ipad outer inner]. split; [reflexivity|]. split; [reflexivity|]. split; [exact So|].
  split; [apply (sized_Write New _ d _ sized_New E1)|]. rewrite app_nil_r. exact S1.
Qed.
Lemma writes_ok : forall chunks key m h, holds key m h -> Forall good_chunk chunks -> exists h', writes h chunks = Ret h' /\ holds key (m ++ List.concat chunks) h'.
Proof.
  induction chunks as [|c cs IH]; intros key m h H HC; [exists h; cbn [List.concat]; rewrite app_nil_r; auto|].
  inversion_clear HC as [|? ? Hc Hcs]. destruct H as (A1 & A2 & A3 & A4 & A5). destruct (write_stands _ _ c A5 Hc) as (d & E & S).
  cbn [writes]. unfold HWrite. rewrite E. cbn [bind]. cbn [List.concat]. rewrite app_assoc. apply IH; [|exact Hcs].
  unfold holds. cbn [opad ipad outer inner]. split; [exact A1|]. split; [exact A2|]. split; [exact A3|]. split; [apply (sized_Write _ _ _ _ A4 E)|].
  rewrite app_assoc. exact S.
Qed.
(** The outer half of Sum. *)
Lemma outer_ok : forall key o x, bytes key -> sized o -> good_chunk x -> zlen x <= 32 ->
  exists o1 o2 o3, Write (Reset o) (padded 16 key 0x5c) = Ret (o1, 16) /\ Write o1 x = Ret (o2, zlen x) /\
    (forall b, SumMethod o2 b = Ret (o3, b ++ sm3_hash (padded 16 key 0x5c ++ x))) /\ sized o3.
Proof.
  intros key o x HB So Gx Lx. rewrite (C03_reset_any_state o So). destruct (padded_good key 0x5c HB ltac:(lia)) as [G LG].
  destruct (write_stands New [] _ stands_New G) as (o1 & E1 & S1). cbn [app] in S1. destruct (write_stands o1 _ x S1 Gx) as (o2 & E2 & S2).
  destruct (checkSum_stands o2 _ S2) as (o3 & E3 & _). { rewrite zlen_app. unfold zlen at 1. rewrite LG. lia. }
  exists o1, o2, o3. split; [rewrite E1; unfold zlen; rewrite LG; reflexivity|]. split; [exact E2|].
  split; [intro b; unfold SumMethod; rewrite E3; reflexivity|].
  eapply (sized_checkSum o2 o3); [|exact E3]. eapply (sized_Write o1 x o2); [|exact E2]. apply (sized_Write New _ o1 _ sized_New E1).
Qed.
Lemma holds_bytes : forall key c m, bytes key -> 0 <= c < 256 -> bytes m -> bytes (padded 16 key c ++ m).
Proof. intros key c m H Hc Hm. apply bytes_app. split; [apply padded_good; assumption|exact Hm]. Qed.
Lemma slices : forall b h : list Z, go_slice (b ++ h) (zlen b) (zlen (b ++ h)) = Ret h /\ go_slice (b ++ h) 0 (zlen b) = Ret b.
Proof.
  intros b h. pose proof (zlen_nonneg _ b). pose proof (zlen_nonneg _ h). rewrite !go_slice_ret by (rewrite ?zlen_app; lia). split; f_equal.
  - unfold sub. rewrite zlen_app. replace (Z.to_nat (zlen b + zlen h - zlen b)) with (List.length h) by (unfold zlen; lia).
    replace (Z.to_nat (zlen b)) with (List.length b) by (unfold zlen; lia). rewrite skipn_app, skipn_all, Nat.sub_diag. cbn [app skipn]. apply firstn_all.
  - unfold sub. rewrite Z.sub_0_r. replace (Z.to_nat (zlen b)) with (List.length b) by (unfold zlen; lia). cbn [Z.to_nat skipn].
    rewrite firstn_app, Nat.sub_diag, firstn_all. cbn [firstn]. apply app_nil_r.
Qed.
Lemma HSum_ok : forall key m h b, holds key m h -> bytes key -> bytes m -> zlen m < 2 ^ 60 ->
  exists h', HSum h b = Ret (h', b ++ HMAC 16 key m) /\ ipad h' = ipad h /\ opad h' = opad h /\ sized (outer h') /\ sized (inner h') /\
    rep (inner h') (hash_words (padded 16 key 0x36 ++ m), [], []) /\ byteCount (inner h') = i64 (4 * (zlen (padded 16 key 0x36 ++ m) / 4 + 1)).
Proof.
  intros key m h b (A1 & A2 & A3 & A4 & A5) HB HM HL. unfold HSum. cbv zeta.
  destruct (padded_good key 0x36 HB ltac:(lia)) as [_ LG].
  destruct (checkSum_stands _ _ A5) as (i & Ei & Ri & Bi). { rewrite zlen_app. unfold zlen at 1. rewrite LG. lia. }
  unfold SumMethod at 1. rewrite Ei. cbn [bind]. rewrite A1.
  pose proof (holds_bytes key 0x36 m HB ltac:(lia) HM) as HBM.
  destruct (outer_ok key (outer h) (sm3_hash (padded 16 key 0x36 ++ m)) HB A3 (hash_good _ HBM)) as (o1 & o2 & o3 & E1 & E2 & E3 & S3).
  { unfold zlen. rewrite (proj1 (hash_ok _ HBM)). lia. }
  rewrite E1. cbn [bind]. destruct (slices b (sm3_hash (padded 16 key 0x36 ++ m))) as [-> ->]. cbn [bind]. rewrite E2. cbn [bind]. rewrite E3. cbn [bind].
  eexists. split; [reflexivity|]. cbn [ipad opad outer inner]. split; [reflexivity|]. split; [reflexivity|]. split; [exact S3|].
  split; [apply (sized_checkSum _ _ _ A4 Ei)|]. split; [exact Ri|exact Bi].
Qed.

(** What comes out, for every key, message and way to write it: HMAC with blocks of 16 bytes. *)
Theorem C128_value : forall key chunks b, good_key key -> Forall good_chunk chunks -> zlen (List.concat chunks) < 2 ^ 60 ->
  mac key chunks b = Ret (b ++ HMAC 16 key (List.concat chunks)).
Proof.
  intros key chunks b HK HC HL. unfold mac. destruct (HNew_ok key HK) as (h & -> & H). cbn [bind].
  destruct (writes_ok chunks key [] h H HC) as (h' & -> & H'). cbn [bind]. cbn [app] in H'.
  assert (BM : bytes (List.concat chunks)). { clear - HC. induction HC as [|c cs (B & _) _ IH]; [constructor|]. cbn [List.concat]. apply bytes_app. auto. }
  destruct (HSum_ok key _ h' b H' (proj1 HK) BM HL) as (h2 & -> & _). reflexivity.
Qed.

(** That is not HMAC-SM3. *)
Theorem C128_standard_refuted : exists key m, mac key [m] [] <> Ret (HMAC_SM3 key m).
Proof.
  exists [1], [97]. rewrite C128_value.
  - cbn [app List.concat]. intro E. assert (N : nth 0 (HMAC 16 [1] [97]) 0 <> nth 0 (HMAC_SM3 [1] [97]) 0) by (vm_compute; discriminate).
    exact (N (f_equal (fun g => match g with Ret l => nth 0 l 0 | Panic _ => 0 end) E)).
  - split; [repeat constructor; discriminate|reflexivity].
  - repeat constructor; discriminate.
  - reflexivity.
Qed.

(** A key longer than 16 bytes is the same as the first half of its digest: half of the digest is thrown away. *)
Theorem C128_long_key : forall key chunks b, good_key key -> 16 < zlen key -> Forall good_chunk chunks -> zlen (List.concat chunks) < 2 ^ 60 ->
  mac key chunks b = mac (firstn 16 (sm3_hash key)) chunks b.
Proof.
  intros key chunks b HK HL HC HM. pose proof (hash_ok key (proj1 HK)) as [LH BH].
  assert (L16 : List.length (firstn 16 (sm3_hash key)) = 16%nat) by (rewrite firstn_length, LH; reflexivity).
  rewrite !C128_value; try assumption.
  2:{ split; [apply bytes_firstn, BH|unfold zlen; rewrite L16; lia]. }
  f_equal. f_equal.
  assert (E : keyBlock 16 key = keyBlock 16 (firstn 16 (sm3_hash key))).
  { unfold keyBlock. cbv zeta. rewrite L16. change (Nat.ltb 16 16) with false. unfold zlen in HL.
    replace (Nat.ltb 16 (List.length key)) with true by (symmetry; apply Nat.ltb_lt; lia). cbn match.
    rewrite !firstn_app, L16, LH. change (16 - 16)%nat with 0%nat. change (16 - 32)%nat with 0%nat. rewrite !firstn_O, !app_nil_r.
    rewrite firstn_all2 with (l := firstn 16 (sm3_hash key)) by (rewrite L16; lia). reflexivity. }
  unfold HMAC, padded. rewrite E. reflexivity.
Qed.

(** After a Sum the object is spoilt: a second Sum gives another value, that of an inner digest continued by one more block. *)
Theorem C128_second_sum : forall key chunks h, good_key key -> Forall good_chunk chunks -> zlen (List.concat chunks) < 2 ^ 58 ->
  (do h <- HNew key; writes h chunks) = Ret h ->
  exists h1 h2, (forall b, HSum h b = Ret (h1, b ++ HMAC 16 key (List.concat chunks))) /\
    let m := padded 16 key 0x36 ++ List.concat chunks in
    (forall b, HSum h1 b = Ret (h2, b ++ sm3_hash (padded 16 key 0x5c ++ List.concat (map (be_enc 4) (CF (hash_words m) (second_block (zlen m))))))).
Proof.
  intros key chunks h HK HC HL E. destruct (HNew_ok key HK) as (h0 & E0 & H0). rewrite E0 in E. cbn [bind] in E.
  destruct (writes_ok chunks key [] h0 H0 HC) as (h' & E' & H'). rewrite E' in E. injection E as <-. cbn [app] in H'.
  assert (BM : bytes (List.concat chunks)). { clear - HC. induction HC as [|c cs (B & _) _ IH]; [constructor|]. cbn [List.concat]. apply bytes_app. auto. }
  set (m := padded 16 key 0x36 ++ List.concat chunks).
  destruct (HSum_ok key _ h' [] H' (proj1 HK) BM ltac:(lia)) as (h1 & E1 & I1 & O1 & S1 & S1' & R1 & B1).
  assert (ALL : forall b, HSum h' b = Ret (h1, b ++ HMAC 16 key (List.concat chunks))).
  { intro b. destruct (HSum_ok key _ h' b H' (proj1 HK) BM ltac:(lia)) as (h1' & Eb & _). rewrite Eb. f_equal. f_equal.
    revert E1 Eb. unfold HSum. cbv zeta. unfold SumMethod at 1 3. destruct (checkSum (inner h')) as [[i x]|]; [|discriminate]. cbn [bind].
    destruct (Write (Reset (outer h')) (opad h')) as [[o n]|]; [|discriminate]. cbn [bind].
    destruct (slices [] x) as [Q1 Q2]. destruct (slices b x) as [Q3 Q4]. rewrite Q1, Q2, Q3, Q4. cbn [bind].
    destruct (Write o x) as [[o' n']|]; [|discriminate]. cbn [bind]. unfold SumMethod. destruct (checkSum o') as [[o'' y]|]; [|discriminate]. cbn [bind].
    intros X1 X2. injection X1 as <- _. injection X2 as <- _. reflexivity. }
  assert (Hm : zlen m = 16 + zlen (List.concat chunks)). { unfold m. rewrite zlen_app. unfold zlen at 1. rewrite (proj2 (padded_good key 0x36 (proj1 HK) ltac:(lia))). lia. }
  fold m in R1, B1. pose proof (zlen_nonneg _ (List.concat chunks)) as HN. pose proof (Z.mul_div_le (zlen m) 4 ltac:(lia)) as HD. pose proof (Z.div_pos (zlen m) 4 ltac:(lia) ltac:(lia)) as HP.
  destruct (checkSum_again (inner h1) _ _ R1 B1) as (i2 & E2); [lia|]. fold (second_block (zlen m)) in E2.
  set (x := List.concat (map (be_enc 4) (CF (hash_words m) (second_block (zlen m))))) in *.
  pose proof (checkSum_len _ _ _ S1' E2) as [LX BX].
  assert (GX : good_chunk x). { split; [exact BX|]. split; [|lia]. intro N. rewrite N in LX. discriminate LX. }
  destruct (outer_ok key (outer h1) x (proj1 HK) S1 GX ltac:(lia)) as (o1 & o2 & o3 & F1 & F2 & F3 & F4).
  exists h1. eexists. split; [exact ALL|]. cbv zeta. intro b. unfold HSum. cbv zeta. unfold SumMethod at 1. rewrite E2. cbn [bind]. rewrite O1. destruct H' as (P1 & _). rewrite P1, F1. cbn [bind].
  destruct (slices b x) as [-> ->]. cbn [bind]. rewrite F2. cbn [bind]. rewrite F3. cbn [bind]. reflexivity.
Qed.
(** Those differ: Sum changes the state, against hash.Hash. *)
Theorem C128_sum_keeps_state_refuted : exists key m h0 h n h1 r1 h2 r2, HNew key = Ret h0 /\ HWrite h0 m = Ret (h, n) /\ HSum h [] = Ret (h1, r1) /\ HSum h1 [] = Ret (h2, r2) /\ r1 <> r2.
Proof.
  exists [1], [97].
  assert (E : match (do h0 <- HNew [1]; do (h, n) <- HWrite h0 [97]; do (h1, r1) <- HSum h []; do (h2, r2) <- HSum h1 []; Ret (nth 0 r1 0, nth 0 r2 0)) with
              | Ret (x, y) => x <> y | Panic _ => False end) by (vm_compute; discriminate).
  destruct (HNew [1]) as [h0|] eqn:E0; [|destruct E]. cbn [bind] in E. destruct (HWrite h0 [97]) as [[h n]|] eqn:E1; [|destruct E]. cbn [bind] in E.
  destruct (HSum h []) as [[h1 r1]|] eqn:E2; [|destruct E]. cbn [bind] in E. destruct (HSum h1 []) as [[h2 r2]|] eqn:E3; [|destruct E]. cbn [bind] in E.
  exists h0, h, n, h1, r1, h2, r2. repeat (split; [assumption || reflexivity|]). intros ->. apply E. reflexivity.
Qed.
(** Reset makes it a new object for the same key. *)
Theorem C128_reset : forall key before h chunks b, good_key key -> Forall good_chunk before -> zlen (List.concat before) < 2 ^ 60 ->
  (do h <- HNew key; do h <- writes h before; do (h, _) <- HSum h []; HReset h) = Ret h ->
  Forall good_chunk chunks -> zlen (List.concat chunks) < 2 ^ 60 ->
  (do h <- writes h chunks; do (_, r) <- HSum h b; Ret r) = Ret (b ++ HMAC 16 key (List.concat chunks)).
Proof.
  intros key before h chunks b HK HC HL E HC' HL'. destruct (HNew_ok key HK) as (h0 & E0 & H0). rewrite E0 in E. cbn [bind] in E.
  assert (BB : forall l, Forall good_chunk l -> bytes (List.concat l)).
  { clear. intros l H. induction H as [|c cs (B & _) _ IH]; [constructor|]. cbn [List.concat]. apply bytes_app. auto. }
  destruct (writes_ok before key [] h0 H0 HC) as (h' & E' & H'). rewrite E' in E. cbn [bind app] in E, H'.
  destruct (HSum_ok key _ h' [] H' (proj1 HK) (BB _ HC) HL) as (h1 & E1 & I1 & O1 & S1 & S1' & _). rewrite E1 in E. cbn [bind] in E.
  unfold HReset in E. rewrite (C03_reset_any_state _ S1') in E. destruct H' as (P1 & P2 & _). rewrite I1, P2 in E.
  destruct (padded_good key 0x36 (proj1 HK) ltac:(lia)) as [G _]. destruct (write_stands New [] _ stands_New G) as (d & Ed & Sd). cbn [app] in Sd. rewrite Ed in E. cbn [bind] in E. injection E as <-.
  assert (H2 : holds key [] (mkHmac (blocksize h1) (opad h1) (padded 16 key 0x36) (outer h1) d)).
  { unfold holds. cbn [opad ipad outer inner]. split; [congruence|]. split; [reflexivity|]. split; [exact S1|]. split; [apply (sized_Write New _ d _ sized_New Ed)|]. rewrite app_nil_r. exact Sd. }
  destruct (writes_ok chunks key [] _ H2 HC') as (h3 & E3 & H3). rewrite E3. cbn [bind app] in *.
  destruct (HSum_ok key _ h3 b H3 (proj1 HK) (BB _ HC') HL') as (h4 & E4 & _). rewrite E4. reflexivity.
Qed.
(** An empty Write panics. *)
Theorem C128_empty_write : forall h, HWrite h [] = Panic PIndex.
Proof. intro h. reflexivity. Qed.
Example C128_ex : good_key (repeat 7 20) /\ 16 < zlen (repeat 7 20) /\ Forall good_chunk [[97]; [98; 99]] /\ keyBlock 16 [1; 2] = [1; 2; 0; 0; 0; 0; 0; 0; 0; 0; 0; 0; 0; 0; 0; 0] /\
  mac [1; 2] [[97]; [98; 99]] [5] = Ret (5 :: HMAC 16 [1; 2] [97; 98; 99]).
Proof.
  split; [split; [repeat constructor; discriminate|reflexivity]|]. split; [reflexivity|]. split; [repeat constructor; discriminate|]. split; [reflexivity|].
  apply (C128_value [1; 2] [[97]; [98; 99]] [5]); [split; [repeat constructor; discriminate|reflexivity]|repeat constructor; discriminate|reflexivity].
Qed.
