(** Consequences of Sm3Proofs.v in terms of sequences of API calls. *)
From Coq Require Import ZArith List Lia String Bool.
From Verif Require Import GoBase Sm3Spec Sm3 Sm3Proofs.
Import ListNotations.
Open Scope Z_scope.

(** Write every chunk in turn; also collect the returned counts. *)
Fixpoint write_all (d : sm3Digest) (chunks : list (list Z)) : go (sm3Digest * list Z) :=
  match chunks with
  | [] => Ret (d, [])
  | c :: cs =>
      do (d1, n) <- Write d c;
      do (d2, ns) <- write_all d1 cs;
      Ret (d2, n :: ns)
  end.

(** A chunk Write accepts whatever the state: non-empty bytes, shorter than 2 GiB. *)
Definition good_chunk (c : list Z) : Prop := bytes c /\ c <> [] /\ zlen c < 2 ^ 31.

(** Histories of calls on one digest object, with what each call returns. *)
Inductive op : Type := OWrite (p : list Z) | OSum (b : list Z) | OReset.
Inductive out : Type := RWrite (n : Z) | RSum (h : list Z) | RReset.

Definition step (d : sm3Digest) (o : op) : go (sm3Digest * out) :=
  match o with
  | OWrite p => do (d1, n) <- Write d p; Ret (d1, RWrite n)
  | OSum b => do (d1, h) <- SumMethod d b; Ret (d1, RSum h)
  | OReset => Ret (Reset d, RReset)
  end.
Fixpoint run (d : sm3Digest) (h : list op) : go (sm3Digest * list out) :=
  match h with
  | [] => Ret (d, [])
  | o :: os => do (d1, r) <- step d o; do (d2, rs) <- run d1 os; Ret (d2, r :: rs)
  end.

(** The fixed array sizes of the Go struct. *)
Definition sized (d : sm3Digest) : Prop :=
  List.length (v d) = 8%nat /\ List.length (inWords d) = 16%nat /\
  List.length (w d) = 68%nat /\ List.length (xBuf d) = 4%nat.

Lemma words_dec : forall l, forallb (fun x => (0 <=? x) && (x <? 2 ^ 32)) l = true -> words l.
Proof.
  intros l H. apply Forall_forall. intros x Hx. rewrite forallb_forall in H. apply H in Hx.
  apply andb_true_iff in Hx. unfold is_u32. lia.
Qed.

Lemma wf_New : wf New.
Proof.
  constructor.
  - reflexivity.
  - apply words_dec. vm_compute. reflexivity.
  - reflexivity.
  - apply words_dec. vm_compute. reflexivity.
  - vm_compute. reflexivity.
  - reflexivity.
Qed.

Lemma rep_New : rep New (IV, [], []).
Proof.
  constructor; cbn [fst snd]; try exact wf_New; try (vm_compute; reflexivity); try (cbn; lia).
  constructor.
Qed.

Lemma stands_New : stands_for New [].
Proof. split; [exact rep_New|reflexivity]. Qed.

Lemma direct_end_le : forall nb len, 0 <= nb < 4 -> 0 <= len -> direct_end nb len <= len.
Proof.
  intros nb len H1 H2. unfold direct_end.
  assert (0 <= lead nb len <= len) by (unfold lead; destruct (nb =? 0); lia).
  pose proof (Z.mul_div_le (len - lead nb len) 4). lia.
Qed.

Lemma rep_xbo : forall d s, rep d s -> 0 <= xBufOff d < 4.
Proof. intros d s R. rewrite (rep_bo _ _ R). pose proof (rep_bo4 _ _ R). unfold zlen. lia. Qed.

Lemma write_stands : forall d m p, stands_for d m -> good_chunk p ->
  exists d2, Write d p = Ret (d2, zlen p) /\ stands_for d2 (m ++ p).
Proof.
  intros d m p [R B] (Hb & Hne & Hl).
  destruct (Write_ok d _ p R Hb Hne) as (d2 & E1 & E2 & E3).
  - pose proof (direct_end_le (xBufOff d) (zlen p) (rep_xbo _ _ R) (zlen_nonneg _ p)). lia.
  - exists d2. split; auto. split.
    + rewrite absorb_app. exact E2.
    + rewrite E3, B, i64_idem, zlen_app. reflexivity.
Qed.

Lemma write_all_stands : forall cs d m, stands_for d m -> Forall good_chunk cs ->
  exists d2, write_all d cs = Ret (d2, map zlen cs) /\ stands_for d2 (m ++ List.concat cs).
Proof.
  induction cs as [|c cs IH]; intros d m S H.
  - exists d. cbn [List.concat]. rewrite app_nil_r. auto.
  - inversion H; subst. destruct (write_stands d m c S) as (d1 & E1 & S1); auto.
    destruct (IH d1 (m ++ c) S1) as (d2 & E2 & S2); auto.
    exists d2. cbn [write_all]. rewrite E1. cbn [bind]. rewrite E2. cbn [bind List.concat map].
    split; [reflexivity|]. rewrite app_assoc. exact S2.
Qed.

Lemma i64_shift_mod : forall x, i64 (Z.shiftl (i64 x) 3) mod 2 ^ 64 = (8 * x) mod 2 ^ 64.
Proof.
  intro x. rewrite Z.shiftl_mul_pow2 by lia. change (2 ^ 3) with 8.
  assert (M : forall y, i64 y mod 2 ^ 64 = y mod 2 ^ 64).
  { intro y. unfold i64. rewrite Zminus_mod_idemp_l. f_equal. lia. }
  rewrite M. rewrite <- Zmult_mod_idemp_l, M, Zmult_mod_idemp_l. f_equal. lia.
Qed.

(** The state and result of the first finalisation. *)
Lemma checkSum_stands : forall d m, stands_for d m -> zlen m < 2 ^ 61 ->
  exists d2, checkSum d = Ret (d2, sm3_hash m) /\ rep d2 (hash_words m, [], []) /\
    byteCount d2 = i64 (4 * (zlen m / 4 + 1)).
Proof.
  intros d m [R B] Hm. pose proof (zlen_nonneg _ m) as H0.
  destruct (finish_ok d _ R) as (d2 & E1 & R2 & A2 & B2).
  rewrite <- absorb_app in A2. rewrite final_pad_spec in A2; [|lia|].
  2:{ rewrite B, i64_shift_mod. apply Z.mod_small. lia. }
  destruct (pad_length m) as [n Hn]. rewrite (absorb_blocks n) in A2 by auto.
  assert (V2 : v d2 = hash_words m) by (unfold hash_words; congruence).
  exists d2. unfold checkSum. rewrite E1. cbn [bind]. rewrite V2.
  split; [reflexivity|]. rewrite V2 in R2. split; [exact R2|].
  rewrite B2, B. rewrite <- Z.add_assoc, i64_idem. f_equal.
  destruct (absorb_pos m IV) as (V1 & ws1 & bs1 & E & H1 & H2). rewrite E. cbn [snd].
  unfold align. rewrite Z2Nat.id by (apply Z.mod_pos_bound; lia).
  unfold zlen at 2. rewrite H1.
  pose proof (Z.div_mod (zlen m) 4). pose proof (Z.mod_pos_bound (zlen m) 4).
  assert (X : (- (zlen m mod 4 + 1)) mod 4 = 3 - zlen m mod 4).
  { symmetry. apply Z.mod_unique with (-1); lia. }
  rewrite X. lia.
Qed.

(** The extra padding block a second finalisation hashes after a message of [len] bytes. *)
Definition second_block (len : Z) : list Z :=
  let bits := 8 * (4 * (len / 4 + 1)) in
  [0x80000000] ++ repeat 0 13 ++ [bits / 2 ^ 32; bits mod 2 ^ 32].

Lemma checkSum_again : forall d V c, rep d (V, [], []) -> byteCount d = i64 c -> 0 <= 8 * c < 2 ^ 64 ->
  exists d2, checkSum d = Ret (d2, List.concat (map (be_enc 4)
     (CF V ([0x80000000] ++ repeat 0 13 ++ [(8 * c) / 2 ^ 32; (8 * c) mod 2 ^ 32])))).
Proof.
  intros d V c R B Hc.
  destruct (finish_ok d _ R) as (d2 & E1 & R2 & A2 & B2).
  exists d2. unfold checkSum. rewrite E1. cbn [bind]. do 2 f_equal. f_equal. f_equal.
  rewrite B in A2. set (bl := i64 (Z.shiftl (i64 c) 3)) in *.
  assert (Hbl : bl mod 2 ^ 64 = 8 * c) by (unfold bl; rewrite i64_shift_mod; apply Z.mod_small; lia).
  unfold final_pad in A2. cbn [snd] in A2. change (align (zlen [] + 1)) with 3%nat in A2.
  cbn [repeat app] in A2.
  change (128 :: 0 :: 0 :: 0 :: ?l) with ([128; 0; 0; 0] ++ l) in A2.
  rewrite absorb_app in A2. rewrite absorb_word in A2. change (be_dec [128; 0; 0; 0]) with 0x80000000 in A2.
  unfold push_word in A2. cbn [fst snd app List.length Nat.eqb] in A2.
  change (zwords 1) with 13%nat in A2. rewrite absorb_words in A2.
  rewrite map_app, map_repeat in A2. cbn [map] in A2. change (u32 0) with 0 in A2.
  rewrite push_words_flush in A2; [|reflexivity|discriminate].
  cbn [fst] in A2. 
  assert (A3 : v d2 = CF V ([0x80000000] ++ repeat 0 13 ++ [u32 (Z.shiftr bl 32); u32 bl])) by congruence.
  rewrite A3. f_equal. f_equal. f_equal. unfold u32. rewrite Z.shiftr_div_pow2 by lia.
  pose proof (Z.div_mod bl (2 ^ 64)) as D.
  f_equal; [|f_equal].
  - rewrite <- Hbl. rewrite (Z.mod_eq bl (2 ^ 64)) by lia.
    change (2 ^ 64) with (2 ^ 32 * 2 ^ 32) at 1. rewrite <- Z.mul_assoc.
    replace (bl - 2 ^ 32 * (2 ^ 32 * (bl / 2 ^ 64))) with (bl + (- (2 ^ 32 * (bl / 2 ^ 64))) * 2 ^ 32) by lia.
    rewrite Z.div_add by lia. rewrite (Z.mod_eq (bl / 2 ^ 32)) by lia.
    rewrite Z.div_div by lia. change (2 ^ 32 * 2 ^ 32) with (2 ^ 64). lia.
  - rewrite <- Hbl. change (2 ^ 64) with (2 ^ 32 * 2 ^ 32).
    rewrite Z.rem_mul_r by lia. rewrite Z.mul_comm, Z.mod_add by lia. rewrite Z.mod_mod by lia. reflexivity.
Qed.

(** ** Preservation of array sizes by every call, for arbitrary arguments *)

Lemma put_length : forall l j x, List.length (put l j x) = List.length l.
Proof. intros; unfold put; apply upd_length. Qed.

Transparent for_loop processBlock.

Lemma expandW_length : forall a b, List.length (expandW a b) = List.length b.
Proof.
  intros a b. unfold expandW. cbv zeta.
  apply (for_loop_inv _ (fun x => List.length x = List.length b)).
  - apply (for_loop_inv _ (fun x => List.length x = List.length b)); [reflexivity|].
    intros. rewrite put_length. auto.
  - intros. unfold expandStep. cbv zeta. rewrite put_length. auto.
Qed.

Lemma sized_processBlock : forall d, sized d -> sized (processBlock d).
Proof.
  intros d (H1 & H2 & H3 & H4). unfold sized, processBlock. cbv zeta. cbn [v inWords w xBuf].
  rewrite expandW_length. auto.
Qed.
Opaque processBlock.

Lemma go_set_length : forall l i x l', go_set l i x = Ret l' -> List.length l' = @List.length Z l.
Proof.
  intros l i x l' H. unfold go_set in H. destruct (_ || _); [discriminate|].
  inversion H. apply upd_length.
Qed.

Lemma sized_processWord : forall d p o d', sized d -> processWord d p o = Ret d' -> sized d'.
Proof.
  intros d p o d' S H. unfold processWord in H. apply bind_ret in H. destruct H as (s & _ & H).
  apply bind_ret in H. destruct H as (iw & E & H). apply go_set_length in E.
  cbv zeta in H. cbn [xOff] in H.
  set (d1 := mkDigest _ _ _ _ _ _ _) in H.
  assert (S1 : sized d1) by (destruct S as (H1 & H2 & H3 & H4); unfold sized; cbn; repeat split; congruence).
  destruct (16 <=? xOff d + 1); inversion H; auto. apply sized_processBlock; auto.
Qed.

Lemma sized_fillBuf : forall p d d' r, sized d -> fillBuf d p = Ret (d', r) -> sized d'.
Proof.
  induction p; intros d d' r S H; cbn [fillBuf] in H; [inversion H; subst; auto|].
  apply bind_ret in H. destruct H as (xb & E & H). apply go_set_length in E. cbn [xBufOff] in H.
  set (d1 := mkDigest _ _ _ _ _ _ _) in H.
  assert (S1 : sized d1) by (destruct S as (H1 & H2 & H3 & H4); unfold sized; cbn; repeat split; congruence).
  destruct (xBufOff d + 1 =? 4).
  - apply bind_ret in H. destruct H as (d2 & E2 & H). apply sized_processWord in E2; auto.
    inversion H; subst. destruct E2 as (H1 & H2 & H3 & H4). unfold sized; cbn; auto.
  - eapply IHp; eauto.
Qed.

Lemma sized_wordLoop : forall n d p i d', sized d -> wordLoop n d p i = Ret d' -> sized d'.
Proof.
  induction n; intros d p i d' S H; cbn [wordLoop] in H; [inversion H; subst; auto|].
  apply bind_ret in H. destruct H as (d1 & E & H). apply sized_processWord in E; eauto.
Qed.

Lemma sized_tailLoop : forall p d d', sized d -> tailLoop d p = Ret d' -> sized d'.
Proof.
  induction p; intros d d' S H; cbn [tailLoop] in H; [inversion H; subst; auto|].
  apply bind_ret in H. destruct H as (xb & E & H). apply go_set_length in E.
  eapply IHp; [|exact H].
  destruct S as (H1 & H2 & H3 & H4); unfold sized; cbn; repeat split; congruence.
Qed.

Lemma sized_Write : forall d p d' n, sized d -> Write d p = Ret (d', n) -> sized d'.
Proof.
  intros d p d' n S H. unfold Write in H.
  apply bind_ret in H. destruct H as (x & _ & H).
  apply bind_ret in H. destruct H as ([d1 r] & E1 & H).
  assert (S1 : sized d1).
  { destruct (xBufOff d =? 0); [inversion E1; subst; auto|eapply sized_fillBuf; eauto]. }
  cbv zeta in H.
  apply bind_ret in H. destruct H as (d2 & E2 & H). apply sized_wordLoop in E2; auto.
  apply bind_ret in H. destruct H as (d3 & E3 & H). apply sized_tailLoop in E3; auto.
  inversion H; subst. destruct E3 as (H1 & H2 & H3 & H4). unfold sized; cbn; auto.
Qed.

Lemma sized_padLoop : forall f d d', sized d -> padLoop f d = Ret d' -> sized d'.
Proof.
  induction f; intros d d' S H; cbn [padLoop] in H; destruct (xBufOff d =? 0);
    try (inversion H; subst; auto; fail).
  apply bind_ret in H. destruct H as ([d1 n] & E & H). apply sized_Write in E; eauto.
Qed.

Lemma zloop_length : forall n k a r,
  for_loop n k (fun j acc => do x <- acc; go_set x j 0) (Ret a) = Ret r -> List.length r = List.length a.
Proof.
  induction n; intros k a r H.
  - inversion H; reflexivity.
  - rewrite for_loop_S in H. apply bind_ret in H. destruct H as (x & E & H).
    apply IHn in E. apply go_set_length in H. congruence.
Qed.

Lemma sized_processLength : forall d bl d', sized d -> processLength d bl = Ret d' -> sized d'.
Proof.
  intros d bl d' S H. unfold processLength in H.
  apply bind_ret in H. destruct H as (d1 & E1 & H).
  assert (S1 : sized d1).
  { destruct (BlockSize - 2 <? xOff d); [|inversion E1; subst; auto].
    apply bind_ret in E1. destruct E1 as (iw & E & E1). apply go_set_length in E.
    injection E1 as <-. apply sized_processBlock.
    destruct S as (H1 & H2 & H3 & H4); unfold sized; cbn; repeat split; congruence. }
  apply bind_ret in H. destruct H as (iw1 & E2 & H). apply zloop_length in E2. cbv zeta in H.
  apply bind_ret in H. destruct H as (iw2 & E3 & H). apply go_set_length in E3.
  apply bind_ret in H. destruct H as (iw3 & E4 & H). apply go_set_length in E4.
  injection H as <-. destruct S1 as (H1 & H2 & H3 & H4); unfold sized; cbn; repeat split; congruence.
Qed.

Lemma sized_checkSum : forall d d' h, sized d -> checkSum d = Ret (d', h) -> sized d'.
Proof.
  intros d d' h S H. unfold checkSum, finish in H.
  apply bind_ret in H. destruct H as (d0 & E & H). inversion H; subst. clear H.
  apply bind_ret in E. destruct E as ([d1 n] & E1 & E). apply sized_Write in E1; auto.
  apply bind_ret in E. destruct E as (d2 & E2 & E). apply sized_padLoop in E2; auto.
  apply bind_ret in E. destruct E as (d3 & E3 & E). apply sized_processLength in E3; auto.
  injection E as <-. apply sized_processBlock. auto.
Qed.

Lemma sized_New : sized New.
Proof. repeat split. Qed.

Lemma sized_Reset : forall d, sized d -> sized (Reset d).
Proof. intros d (H1 & H2 & H3 & H4). rewrite reset_wf; auto. apply sized_New. Qed.

Lemma sized_step : forall d o d' r, sized d -> step d o = Ret (d', r) -> sized d'.
Proof.
  intros d [p|b|] d' r S H; cbn [step] in H.
  - apply bind_ret in H. destruct H as ([d1 n] & E & H). inversion H; subst. eapply sized_Write; eauto.
  - apply bind_ret in H. destruct H as ([d1 n] & E & H). inversion H; subst.
    unfold SumMethod in E. apply bind_ret in E. destruct E as ([d2 h] & E & H1). inversion H1; subst.
    eapply sized_checkSum; eauto.
  - inversion H; subst. apply sized_Reset; auto.
Qed.

Lemma sized_run : forall h d d' rs, sized d -> run d h = Ret (d', rs) -> sized d'.
Proof.
  induction h; intros d d' rs S H; cbn [run] in H; [inversion H; subst; auto|].
  apply bind_ret in H. destruct H as ([d1 r] & E & H).
  apply bind_ret in H. destruct H as ([d2 r2] & E2 & H). inversion H; subst.
  eapply IHh; [|exact E2]. eapply sized_step; eauto.
Qed.

Lemma concat_be4_len : forall l, zlen (List.concat (map (be_enc 4) l)) = 4 * zlen l.
Proof.
  induction l; [reflexivity|]. cbn [map List.concat]. rewrite zlen_app, zlen_be_enc, IHl, zlen_cons. lia.
Qed.

Lemma concat_be4_bytes : forall l, bytes (List.concat (map (be_enc 4) l)).
Proof.
  induction l; [constructor|]. cbn [map List.concat]. apply bytes_app. split; auto. apply be_enc_bytes.
Qed.

Lemma checkSum_len : forall d d' h, sized d -> checkSum d = Ret (d', h) -> zlen h = 32 /\ bytes h.
Proof.
  intros d d' h S H. pose proof (sized_checkSum _ _ _ S H) as (S1 & _).
  unfold checkSum in H. apply bind_ret in H. destruct H as (d0 & E & H). inversion H; subst.
  split; [|apply concat_be4_bytes]. rewrite concat_be4_len. unfold zlen. rewrite S1. reflexivity.
Qed.
