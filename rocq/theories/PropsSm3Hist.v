(** Properties C98-C100: every history of calls on one SM3 object, length extension, and the
    reduction of collisions to the compression function. *)
From Coq Require Import ZArith List Lia String Bool.
From Verif Require Import GoBase Sm3Spec Sm3 Sm3Proofs Sm3Main PropsSm3.
Import ListNotations.
Open Scope Z_scope.

(** ** C98. A small description of the object: a chaining value, the number of bytes counted
    before the bytes at hand, and the bytes written since the last Sum or Reset. *)
Record session := mkSession { chain : list Z; counted : Z; pending : list Z }.
Definition fresh_session : session := mkSession IV 0 [].

(** Iterating the standard's compression function over a whole number of 64-byte blocks. *)
Definition iterate (V l : list Z) : list Z :=
  fold_left (fun V blk => CF V (words_of blk)) (chunks 64 l) V.
(** The padding of a message of [n] bytes whose length field says [c] bytes, modulo 2^61. *)
Definition closing (n c : Z) : list Z :=
  [0x80] ++ repeat 0 (Z.to_nat ((55 - n) mod 64)) ++ be_enc 8 (8 * c).
Definition digest_of (V : list Z) : list Z := List.concat (map (be_enc 4) V).

(** When [n] bytes are pending, a slice of [len] bytes is refused if it is empty or if its last
    whole word ends at 2^31 or later. *)
Definition refused (n len : Z) : bool :=
  (len =? 0) || (2 ^ 31 <=? (- n) mod 4 + 4 * ((len - (- n) mod 4) / 4)).

Definition session_step (s : session) (o : op) : option (session * out) :=
  match o with
  | OWrite p => if refused (zlen (pending s)) (zlen p) then None
                else Some (mkSession (chain s) (counted s) (pending s ++ p), RWrite (zlen p))
  | OSum b =>
      let n := zlen (pending s) in
      let V := iterate (chain s) (pending s ++ closing n (counted s + n)) in
      Some (mkSession V (counted s + 4 * (n / 4 + 1)) [], RSum (b ++ digest_of V))
  | OReset => Some (fresh_session, RReset)
  end.
Fixpoint session_run (s : session) (h : list op) : option (list out) :=
  match h with
  | [] => Some []
  | o :: os => match session_step s o with
               | None => None
               | Some (s1, r) => match session_run s1 os with None => None | Some rs => Some (r :: rs) end
               end
  end.
Definition op_bytes (o : op) : Prop := match o with OWrite p => bytes p | _ => True end.

(** The state of the object that a session describes. *)
Definition means (d : sm3Digest) (s : session) : Prop :=
  rep d (absorb (chain s, [], []) (pending s)) /\ byteCount d = i64 (counted s + zlen (pending s)).

Lemma refused_iff : forall n len, 0 <= n -> 0 <= len ->
  refused n len = (len =? 0) || (2 ^ 31 <=? direct_end (n mod 4) len).
Proof.
  intros n len Hn Hl. unfold refused. f_equal. unfold direct_end, lead.
  assert (E : (- n) mod 4 = (4 - n mod 4) mod 4).
  { rewrite Zminus_mod_idemp_r. replace (- n) with (4 - n + (-1) * 4) by lia. apply Z.mod_add. lia. }
  rewrite E. pose proof (Z.mod_pos_bound n 4). set (r := n mod 4) in *. clearbody r. clear E.
  destruct (Z.eqb_spec r 0) as [->|Nr].
  - reflexivity.
  - rewrite (Z.mod_small (4 - r)) by lia.
    destruct (Z.le_gt_cases (4 - r) len) as [G|G].
    + rewrite Z.min_l by lia. reflexivity.
    + rewrite Z.min_r by lia. rewrite Z.sub_diag. change (0 / 4) with 0.
      assert (X : (len - (4 - r)) / 4 = -1) by (symmetry; apply Z.div_unique with (len - (4 - r) + 4); lia).
      rewrite X. destruct (Z.leb_spec (2 ^ 31) (4 - r + 4 * -1)); destruct (Z.leb_spec (2 ^ 31) (len + 4 * 0)); lia.
Qed.

(** The padding that finalisation appends, for any chaining value and any counter. *)
Lemma final_pad_closing : forall V m c bl, bl mod 2 ^ 64 = (8 * c) mod 2 ^ 64 ->
  final_pad (absorb (V, [], []) m) bl = closing (zlen m) c.
Proof.
  intros V m c bl Hbl.
  unfold closing, final_pad.
  destruct (absorb_pos m V) as (V1 & ws1 & bs1 & E1 & H1 & H2).
  rewrite E1. cbn [snd].
  destruct (absorb_pos (m ++ [128] ++ repeat 0 (align (zlen bs1 + 1))) V) as (V2 & ws2 & bs2 & E2 & H3 & H4).
  rewrite absorb_app, E1 in E2. rewrite E2. cbn [fst snd].
  assert (Eal : Z.of_nat (align (zlen bs1 + 1)) = (3 - zlen m) mod 4).
  { unfold align. rewrite Z2Nat.id by (apply Z.mod_pos_bound; lia). unfold zlen at 1. rewrite H1.
    pose proof (Z.div_mod (zlen m) 4).
    replace (- (zlen m mod 4 + 1)) with (3 - zlen m + (zlen m / 4 - 1) * 4) by lia.
    apply Z.mod_add. lia. }
  set (a := align (zlen bs1 + 1)) in *.
  rewrite map_app, concat_app, concat_zero_words. cbn [map List.concat app].
  rewrite app_nil_r. f_equal.
  assert (EL : be_enc 4 (Z.shiftr bl 32) ++ be_enc 4 bl = be_enc 8 (8 * c)).
  { rewrite <- (be_enc_mod 8 (8 * c)). change (256 ^ Z.of_nat 8) with (2 ^ 64). rewrite <- Hbl.
    change (2 ^ 64) with (256 ^ Z.of_nat 8). rewrite be_enc_mod.
    change 8%nat with (4 + 4)%nat. rewrite be_enc_app. rewrite Z.shiftr_div_pow2 by lia. reflexivity. }
  rewrite EL. rewrite !app_assoc. f_equal. rewrite <- repeat_app. f_equal.
  pose proof (zlen_nonneg _ m).
  rewrite !zlen_app, zlen_repeat in H4. change (zlen [128]) with 1 in H4.
  set (L := zlen m) in *. rewrite Eal in H4. clear - H4 Eal H.
  unfold zwords.
  pose proof (Z.div_mod (3 - L) 4) as D1. pose proof (Z.mod_pos_bound (3 - L) 4) as B1.
  set (q := (3 - L) / 4) in *. set (r := (3 - L) mod 4) in *.
  assert (Q : (L + (1 + r)) / 4 = 1 - q).
  { symmetry. apply Z.div_unique with 0; lia. }
  rewrite Q in H4.
  pose proof (Z.div_mod (1 - q) 16) as D2. pose proof (Z.mod_pos_bound (1 - q) 16) as B2.
  assert (R : (55 - L) mod 64 = r + 4 * Z.of_nat (if (List.length ws2 <=? 14)%nat then (14 - List.length ws2)%nat else (30 - List.length ws2)%nat)).
  { destruct (Nat.leb_spec (List.length ws2) 14).
    - symmetry. apply Z.mod_unique with (- ((1 - q) / 16)); lia.
    - symmetry. apply Z.mod_unique with (- ((1 - q) / 16) - 1); lia. }
  rewrite R. lia.
Qed.

Lemma closing_length : forall m c, exists n, List.length (m ++ closing (zlen m) c) = (n * 64)%nat.
Proof.
  intros m c. destruct (pad_length m) as [n H]. exists n. rewrite <- H. unfold pad, closing.
  rewrite !app_length, !repeat_length, !be_enc_length. reflexivity.
Qed.

Lemma sum_means : forall d s, means d s ->
  let n := zlen (pending s) in
  let V := iterate (chain s) (pending s ++ closing n (counted s + n)) in
  exists d2, checkSum d = Ret (d2, digest_of V) /\ means d2 (mkSession V (counted s + 4 * (n / 4 + 1)) []).
Proof.
  intros d [V c m] [R B]. cbn [chain counted pending] in *.
  pose proof (zlen_nonneg _ m) as H0.
  destruct (finish_ok d _ R) as (d2 & E1 & R2 & A2 & B2).
  rewrite <- absorb_app in A2. rewrite (final_pad_closing V m (c + zlen m)) in A2.
  2:{ rewrite B, i64_shift_mod. reflexivity. }
  destruct (closing_length m (c + zlen m)) as [n Hn]. rewrite (absorb_blocks n) in A2 by auto.
  assert (V2 : v d2 = iterate V (m ++ closing (zlen m) (c + zlen m))) by (unfold iterate; congruence).
  exists d2. unfold checkSum. rewrite E1. cbn [bind]. rewrite V2.
  split; [reflexivity|]. rewrite V2 in R2. split; [exact R2|]. cbn [chain counted pending].
  rewrite B2, B. rewrite <- Z.add_assoc, i64_idem. change (zlen (@nil Z)) with 0. f_equal.
  destruct (absorb_pos m V) as (V1 & ws1 & bs1 & E & H1 & H2). rewrite E. cbn [snd].
  unfold align. rewrite Z2Nat.id by (apply Z.mod_pos_bound; lia).
  unfold zlen at 2. rewrite H1.
  pose proof (Z.div_mod (zlen m) 4). pose proof (Z.mod_pos_bound (zlen m) 4).
  assert (X : (- (zlen m mod 4 + 1)) mod 4 = 3 - zlen m mod 4).
  { symmetry. apply Z.mod_unique with (-1); lia. }
  rewrite X. lia.
Qed.

Lemma means_fresh : means New fresh_session.
Proof. split; [exact rep_New|reflexivity]. Qed.

Lemma step_means : forall d s o, means d s -> op_bytes o ->
  match session_step s o with
  | Some (s1, r) => exists d1, step d o = Ret (d1, r) /\ means d1 s1
  | None => exists k, step d o = Panic k
  end.
Proof.
  intros d s [p|b|] M Hb; cbn [session_step step op_bytes] in *.
  - destruct M as [R B]. pose proof (zlen_nonneg _ p) as L0. pose proof (zlen_nonneg _ (pending s)) as L1.
    rewrite refused_iff by assumption.
    assert (X : xBufOff d = zlen (pending s) mod 4).
    { rewrite (rep_bo _ _ R).
      destruct (absorb_pos (pending s) (chain s)) as (V1 & ws1 & bs1 & E1 & H1 & H2).
      rewrite E1. exact H1. }
    rewrite <- X. destruct (Z.eqb_spec (zlen p) 0) as [Z0|N0]; cbn [orb].
    + apply zlen_0_nil in Z0. subst p. exists PIndex. rewrite Write_empty. reflexivity.
    + assert (Np : p <> []) by (intros ->; apply N0; reflexivity).
      destruct (Z.leb_spec (2 ^ 31) (direct_end (xBufOff d) (zlen p))) as [G|G].
      * exists PSlice. rewrite (Write_panic_long d _ p R); auto.
      * destruct (Write_ok d _ p R Hb Np G) as (d2 & E1 & E2 & E3). exists d2. rewrite E1. split; [reflexivity|].
        split; cbn [chain counted pending].
        -- rewrite absorb_app. exact E2.
        -- rewrite E3, B, i64_idem, zlen_app. f_equal. lia.
  - destruct (sum_means d s M) as (d2 & E & M2). exists d2. unfold SumMethod. rewrite E. auto.
  - exists New. split; [|exact means_fresh]. destruct M as [R _]. destruct (rep_wf _ _ R) as [A1 A2 A3 A4 A5 A6].
    rewrite reset_wf; auto. unfold zlen in A5. lia.
Qed.

Lemma run_means : forall h d s, means d s -> Forall op_bytes h ->
  match session_run s h with
  | Some outs => exists d1, run d h = Ret (d1, outs)
  | None => exists k, run d h = Panic k
  end.
Proof.
  induction h as [|o h IH]; intros d s M HF; cbn [session_run run].
  - eauto.
  - apply Forall_cons_iff in HF. destruct HF as [Ho HF]. pose proof (step_means d s o M Ho) as S.
    destruct (session_step s o) as [[s1 r]|].
    + destruct S as (d1 & E1 & M1). rewrite E1. cbn [bind]. specialize (IH d1 s1 M1 HF).
      destruct (session_run s1 h) as [rs|].
      * destruct IH as (d2 & E2). rewrite E2. cbn [bind]. eauto.
      * destruct IH as (k & E2). rewrite E2. cbn [bind]. eauto.
    + destruct S as (k & E). rewrite E. cbn [bind]. eauto.
Qed.

(** C98. What every history of calls on a new object returns, and when it panics. *)
Theorem C98_every_history : forall h, Forall op_bytes h ->
  match session_run fresh_session h with
  | Some outs => exists d, run New h = Ret (d, outs)
  | None => exists k, run New h = Panic k
  end.
Proof. intros h HF. exact (run_means h New fresh_session means_fresh HF). Qed.

(** The history Write "abc", Sum, Write "d", Sum, Reset, Write "abc", Sum: the first and the last
    Sum return the digest of "abc", the middle one a value that counts 4 of the padding bytes. *)
Example C98_ex :
  Forall op_bytes [OWrite [97; 98; 99]; OSum []; OWrite [100]; OSum [7]; OReset; OWrite [97; 98; 99]; OSum []] /\
  session_run fresh_session [OWrite [97; 98; 99]; OSum []; OWrite [100]; OSum [7]; OReset; OWrite [97; 98; 99]; OSum []] =
  Some [RWrite 3; RSum (sm3_hash [97; 98; 99]); RWrite 1;
        RSum (7 :: digest_of (iterate (hash_words [97; 98; 99])
                ([100; 0x80] ++ repeat 0 54 ++ [0; 0; 0; 0; 0; 0; 0; 40])));
        RReset; RWrite 3; RSum (sm3_hash [97; 98; 99])] /\
  session_run fresh_session [OWrite [97]; OWrite []] = None.
Proof.
  split; [|split; vm_compute; reflexivity].
  repeat (apply Forall_cons; [cbn [op_bytes]; try exact I; repeat constructor; discriminate|]). constructor.
Qed.

(** ** C99. Length extension *)
Lemma hash_iterate : forall m, hash_words m = iterate IV (m ++ closing (zlen m) (zlen m)).
Proof. reflexivity. Qed.

Lemma iterate_app : forall V l r n, List.length l = (n * 64)%nat -> iterate V (l ++ r) = iterate (iterate V l) r.
Proof.
  intros V l r n H. unfold iterate. rewrite chunks_app by (try lia; eauto). apply fold_left_app.
Qed.

Lemma closing_shift : forall n c k, closing (n + 64 * k) c = closing n c.
Proof.
  intros n c k. unfold closing. do 4 f_equal. replace (55 - (n + 64 * k)) with (55 - n + (- k) * 64) by lia.
  apply Z.mod_add. lia.
Qed.

Lemma iterate_words : forall n l V, List.length l = (n * 64)%nat -> bytes l -> List.length V = 8%nat -> words V ->
  List.length (iterate V l) = 8%nat /\ words (iterate V l).
Proof.
  induction n as [|n IH]; intros l V H B L W.
  - destruct l; [|discriminate]. auto.
  - rewrite <- (firstn_skipn 64 l) in *. apply bytes_app in B. destruct B as [B1 B2].
    assert (L1 : List.length (firstn 64 l) = 64%nat).
    { rewrite app_length, firstn_length, skipn_length in H. rewrite firstn_length. lia. }
    rewrite (iterate_app _ _ _ 1) by lia.
    apply IH; [rewrite app_length in H; lia|exact B2| |].
    + unfold iterate. rewrite <- (app_nil_r (firstn 64 l)), chunks_cons by (auto; lia). apply CF_length. exact L.
    + unfold iterate. rewrite <- (app_nil_r (firstn 64 l)), chunks_cons by (auto; lia).
      apply CF_words; [exact L|exact W|]. unfold words_of.
      assert (G : forall k q, List.length q = (k * 4)%nat -> bytes q -> words (map be_dec (chunks 4 q))).
      { induction k as [|k IHk]; intros q Hq Bq; [destruct q; [constructor|discriminate]|].
        rewrite <- (firstn_skipn 4 q) in *. apply bytes_app in Bq. destruct Bq as [Q1 Q2].
        assert (L4 : List.length (firstn 4 q) = 4%nat).
        { rewrite app_length, firstn_length, skipn_length in Hq. rewrite firstn_length. lia. }
        rewrite chunks_cons by (auto; lia). cbn [map]. constructor.
        - apply is_u32_be_dec4; [exact Q1|unfold zlen; rewrite L4; reflexivity].
        - apply IHk; [rewrite app_length in Hq; lia|exact Q2]. }
      apply (G 16%nat); [exact L1|exact B1].
Qed.

(** Eight words from a digest, and back. *)
Lemma words_of_digest : forall V, words V -> words_of (digest_of V) = V.
Proof.
  induction V as [|x V IH]; intro W; [reflexivity|]. apply Forall_cons_iff in W. destruct W as [Wx W].
  unfold digest_of, words_of. cbn [map List.concat].
  rewrite chunks_cons by (try lia; rewrite be_enc_length; reflexivity). cbn [map]. f_equal.
  - apply be_dec_enc_small. exact Wx.
  - apply IH. exact W.
Qed.

Lemma IV_words : List.length IV = 8%nat /\ words IV.
Proof. split; [reflexivity|]. apply words_dec. vm_compute. reflexivity. Qed.

Lemma closing_bytes : forall n c, bytes (closing n c).
Proof.
  intros n c. unfold closing. apply bytes_app. split; [repeat constructor; discriminate|].
  apply bytes_app. split; [|apply be_enc_bytes]. apply Forall_forall. intros x H. apply repeat_spec in H. subst x.
  unfold byte. lia.
Qed.

Lemma hash_words_ok : forall m, bytes m -> List.length (hash_words m) = 8%nat /\ words (hash_words m).
Proof.
  intros m B. rewrite hash_iterate. destruct (closing_length m (zlen m)) as [n H].
  apply (iterate_words n); [exact H| |apply IV_words|apply IV_words].
  apply bytes_app. split; [exact B|apply closing_bytes].
Qed.

(** What anybody can compute from a digest [h] of an unknown message of [n] bytes: the digest of
    that message, its padding, and any further bytes [x]. *)
Definition extension (h : list Z) (n : Z) (x : list Z) : list Z :=
  digest_of (iterate (words_of h)
    (x ++ closing (zlen x) (n + zlen (closing n n) + zlen x))).

Lemma hash_extension : forall m x, bytes m ->
  sm3_hash (m ++ closing (zlen m) (zlen m) ++ x) = extension (sm3_hash m) (zlen m) x.
Proof.
  intros m x B. unfold extension. change (sm3_hash m) with (digest_of (hash_words m)).
  rewrite words_of_digest by (apply hash_words_ok; exact B).
  change (sm3_hash ?q) with (digest_of (hash_words q)). f_equal.
  rewrite !hash_iterate. destruct (closing_length m (zlen m)) as [k Hk].
  set (pm := closing (zlen m) (zlen m)) in *.
  replace ((m ++ pm ++ x) ++ closing (zlen (m ++ pm ++ x)) (zlen (m ++ pm ++ x)))
    with ((m ++ pm) ++ (x ++ closing (zlen (m ++ pm ++ x)) (zlen (m ++ pm ++ x)))) by (rewrite !app_assoc; reflexivity).
  rewrite (iterate_app _ _ _ k) by exact Hk. f_equal. f_equal.
  assert (E : zlen (m ++ pm ++ x) = zlen x + 64 * Z.of_nat k).
  { rewrite app_assoc, zlen_app. unfold zlen at 1. rewrite Hk. lia. }
  rewrite E at 1. rewrite closing_shift. f_equal. rewrite !zlen_app. lia.
Qed.

Theorem C99_length_extension : forall m x h, bytes m -> bytes x -> m <> [] ->
  zlen (m ++ closing (zlen m) (zlen m) ++ x) < 2 ^ 31 -> Sum m = Ret h ->
  Sum (m ++ closing (zlen m) (zlen m) ++ x) = Ret (extension h (zlen m) x).
Proof.
  intros m x h Bm Bx N L H. rewrite !zlen_app in L. pose proof (zlen_nonneg _ (closing (zlen m) (zlen m))).
  pose proof (zlen_nonneg _ x). rewrite C01_sum_is_standard in H; [|exact Bm|exact N|lia]. assert (Eh : h = sm3_hash m) by congruence. subst h.
  rewrite C01_sum_is_standard; [rewrite hash_extension by exact Bm; reflexivity| | |rewrite !zlen_app; lia].
  - apply bytes_app. split; [exact Bm|]. apply bytes_app. split; [apply closing_bytes|exact Bx].
  - destruct m; [congruence|discriminate].
Qed.

(** In particular a digest of secret bytes followed by a message is no authentication code: from
    the code of one message, and the length of the secret, follow those of infinitely many. *)
Corollary C99_prefix_code_is_forged : forall secret m x tag, bytes secret -> bytes m -> bytes x -> secret ++ m <> [] ->
  let n := zlen secret + zlen m in
  let m' := m ++ closing n n ++ x in
  zlen (secret ++ m') < 2 ^ 31 -> Sum (secret ++ m) = Ret tag ->
  Sum (secret ++ m') = Ret (extension tag n x).
Proof.
  intros secret m x tag Bs Bm Bx N n m' L H. unfold m' in *. clear m'.
  rewrite (app_assoc secret m) in *. assert (E : n = zlen (secret ++ m)) by (rewrite zlen_app; reflexivity).
  rewrite E in *. apply C99_length_extension; auto. apply bytes_app. auto.
Qed.

Example C99_ex : bytes ([115] ++ [97; 98; 99]) /\ bytes [33; 33] /\
  closing 4 4 = 0x80 :: repeat 0 58 ++ [32] /\
  Sum [115; 97; 98; 99] = Ret (sm3_hash [115; 97; 98; 99]) /\
  Sum ([115; 97; 98; 99] ++ closing 4 4 ++ [33; 33]) = Ret (extension (sm3_hash [115; 97; 98; 99]) 4 [33; 33]) /\
  nth 0 (extension (sm3_hash [115; 97; 98; 99]) 4 [33; 33]) 0 = nth 0 (sm3_hash ([115; 97; 98; 99; 0x80] ++ repeat 0 58 ++ [32; 33; 33])) 0.
Proof.
  assert (B : bytes ([115] ++ [97; 98; 99])) by (repeat constructor; discriminate).
  assert (B2 : bytes [33; 33]) by (repeat constructor; discriminate).
  assert (E : Sum [115; 97; 98; 99] = Ret (sm3_hash [115; 97; 98; 99])).
  { apply C01_sum_is_standard; [exact B|discriminate|reflexivity]. }
  split; [exact B|]. split; [exact B2|]. split; [reflexivity|]. split; [exact E|]. split.
  - apply (C99_length_extension [115; 97; 98; 99] [33; 33]); [exact B|exact B2|discriminate|reflexivity|exact E].
  - vm_compute. reflexivity.
Qed.

(** ** C100. A collision of Sum is a collision of the compression function *)
Definition blocks (l : list Z) : list (list Z) := map words_of (chunks 64 l).
(** The inputs (chaining value, block) of the compression function, in order. *)
Fixpoint calls (V : list Z) (bs : list (list Z)) : list (list Z * list Z) :=
  match bs with [] => [] | b :: r => (V, b) :: calls (CF V b) r end.
Definition compressions (m : list Z) : list (list Z * list Z) := calls IV (blocks (pad m)).

Lemma calls_app : forall l V r, calls V (l ++ r) = calls V l ++ calls (fold_left CF l V) r.
Proof. induction l as [|b l IH]; intros V r; [reflexivity|]. cbn [app calls fold_left]. rewrite IH. reflexivity. Qed.

Lemma iterate_fold : forall l V, iterate V l = fold_left CF (blocks l) V.
Proof.
  intros l V. unfold iterate, blocks. generalize (chunks 64 l). intro cs. revert V.
  induction cs as [|c cs IH]; intro V; [reflexivity|]. cbn [map fold_left]. apply IH.
Qed.

Definition collide (l r : list (list Z * list Z)) : Prop :=
  exists p q, In p l /\ In q r /\ p <> q /\ CF (fst p) (snd p) = CF (fst q) (snd q).

Lemma same_number : forall l r V, List.length l = List.length r -> fold_left CF l V = fold_left CF r V ->
  l = r \/ collide (calls V l) (calls V r).
Proof.
  induction l as [|a l IH] using rev_ind; intros r V L E.
  - destruct r; [auto|discriminate].
  - destruct r as [|b r _] using rev_ind; [rewrite app_length in L; cbn in L; lia|].
    rewrite !app_length in L. cbn [List.length] in L. rewrite !fold_left_app in E. cbn [fold_left] in E.
    rewrite !calls_app. cbn [calls].
    destruct (list_eq_dec Z.eq_dec (fold_left CF l V) (fold_left CF r V)) as [EV|NV].
    + destruct (list_eq_dec Z.eq_dec a b) as [EB|NB].
      * subst b. destruct (IH r V ltac:(lia) EV) as [->|(p & q & Hp & Hq & N & C)]; [auto|].
        right. exists p, q. split; [apply in_or_app; auto|]. split; [apply in_or_app; auto|]. auto.
      * right. exists (fold_left CF l V, a), (fold_left CF r V, b).
        split; [apply in_or_app; right; left; reflexivity|]. split; [apply in_or_app; right; left; reflexivity|].
        split; [congruence|exact E].
    + right. exists (fold_left CF l V, a), (fold_left CF r V, b).
      split; [apply in_or_app; right; left; reflexivity|]. split; [apply in_or_app; right; left; reflexivity|].
      split; [congruence|exact E].
Qed.

Lemma last_block : forall l r V a b, a <> b -> fold_left CF (l ++ [a]) V = fold_left CF (r ++ [b]) V ->
  collide (calls V (l ++ [a])) (calls V (r ++ [b])).
Proof.
  intros l r V a b N E. rewrite !fold_left_app in E. cbn [fold_left] in E. rewrite !calls_app. cbn [calls].
  exists (fold_left CF l V, a), (fold_left CF r V, b).
  split; [apply in_or_app; right; left; reflexivity|]. split; [apply in_or_app; right; left; reflexivity|].
  split; [congruence|exact E].
Qed.

(** The bytes can be read off the words again. *)
Lemma digest_of_words : forall k q, List.length q = (k * 4)%nat -> bytes q -> digest_of (words_of q) = q.
Proof.
  induction k as [|k IHk]; intros q Hq Bq; [destruct q; [reflexivity|discriminate]|].
  rewrite <- (firstn_skipn 4 q) in *. apply bytes_app in Bq. destruct Bq as [Q1 Q2].
  assert (L4 : List.length (firstn 4 q) = 4%nat).
  { rewrite app_length, firstn_length, skipn_length in Hq. rewrite firstn_length. lia. }
  unfold words_of. rewrite chunks_cons by (auto; lia). unfold digest_of. cbn [map List.concat]. f_equal.
  - rewrite <- L4 at 1. apply be_enc_dec. exact Q1.
  - apply IHk; [rewrite app_length in Hq; lia|exact Q2].
Qed.

Lemma unblocks : forall n l, List.length l = (n * 64)%nat -> bytes l -> List.concat (map digest_of (blocks l)) = l.
Proof.
  induction n as [|n IH]; intros l H B; [destruct l; [reflexivity|discriminate]|].
  rewrite <- (firstn_skipn 64 l) in *. apply bytes_app in B. destruct B as [B1 B2].
  assert (L1 : List.length (firstn 64 l) = 64%nat).
  { rewrite app_length, firstn_length, skipn_length in H. rewrite firstn_length. lia. }
  unfold blocks. rewrite chunks_cons by (auto; lia). cbn [map List.concat]. f_equal.
  - apply (digest_of_words 16); [exact L1|exact B1].
  - apply IH; [rewrite app_length in H; lia|exact B2].
Qed.

Lemma blocks_number : forall n l, List.length l = (n * 64)%nat -> List.length (blocks l) = n.
Proof. intros n l H. unfold blocks. rewrite map_length. apply chunks_length_exact; [lia|exact H]. Qed.

Lemma pad_bytes : forall m, bytes m -> bytes (pad m).
Proof. intros m B. apply (proj2 (bytes_app m _)). split; [exact B|apply (closing_bytes (zlen m) (zlen m))]. Qed.

(** The length can be read off the last 8 bytes of the padding. *)
Lemma pad_tail : forall m, 0 <= zlen m < 2 ^ 61 -> be_dec (skipn (List.length (pad m) - 8) (pad m)) = 8 * zlen m.
Proof.
  intros m H. unfold pad. rewrite !app_assoc. rewrite app_length, be_enc_length.
  match goal with |- be_dec (skipn (List.length ?a + 8 - 8) _) = _ => replace (List.length a + 8 - 8)%nat with (List.length a) by lia end.
  rewrite skipn_app, skipn_all, Nat.sub_diag. cbn [app skipn]. apply be_dec_enc_small.
  change (256 ^ Z.of_nat 8) with (2 ^ 64). lia.
Qed.

Lemma skipn_concat_last : forall (A B : list Z), List.length B = 64%nat -> skipn (List.length (A ++ B) - 8) (A ++ B) = skipn 56 B.
Proof.
  intros A B L. rewrite app_length, L. replace (List.length A + 64 - 8)%nat with (List.length A + 56)%nat by lia.
  rewrite skipn_app. rewrite skipn_all2 by lia. cbn [app]. f_equal. lia.
Qed.

Lemma pad_last : forall m, bytes m -> exists l a, blocks (pad m) = l ++ [a] /\
  skipn 56 (digest_of a) = skipn (List.length (pad m) - 8) (pad m).
Proof.
  intros m B. destruct (pad_length m) as [n H]. pose proof (pad_bytes m B) as BP.
  destruct n as [|n].
  { exfalso. apply (f_equal Z.of_nat) in H. unfold pad in H. rewrite !app_length, be_enc_length in H. cbn in H. lia. }
  assert (HS : pad m = firstn (n * 64) (pad m) ++ skipn (n * 64) (pad m)) by (symmetry; apply firstn_skipn).
  assert (L1 : List.length (firstn (n * 64) (pad m)) = (n * 64)%nat) by (rewrite firstn_length; lia).
  assert (L2 : List.length (skipn (n * 64) (pad m)) = 64%nat) by (rewrite skipn_length; lia).
  exists (blocks (firstn (n * 64) (pad m))), (words_of (skipn (n * 64) (pad m))). split.
  - rewrite HS at 1. unfold blocks. rewrite chunks_app by (try lia; eauto). rewrite map_app. f_equal.
    rewrite <- (app_nil_r (skipn (n * 64) (pad m))) at 1. rewrite chunks_cons by (auto; lia). reflexivity.
  - rewrite (digest_of_words 16).
    + rewrite HS at 2 3. rewrite skipn_concat_last by exact L2. reflexivity.
    + exact L2.
    + rewrite HS in BP. apply bytes_app in BP. apply BP.
Qed.

Lemma pad_injective : forall m1 m2, zlen m1 < 2 ^ 61 -> zlen m2 < 2 ^ 61 -> pad m1 = pad m2 -> m1 = m2.
Proof.
  intros m1 m2 L1 L2 E. pose proof (zlen_nonneg _ m1). pose proof (zlen_nonneg _ m2).
  pose proof (pad_tail m1 ltac:(lia)) as T1. pose proof (pad_tail m2 ltac:(lia)) as T2. rewrite E, T2 in T1.
  assert (EL : zlen m1 = zlen m2) by lia. unfold pad in E.
  assert (X : firstn (List.length m1) (pad m1) = firstn (List.length m2) (pad m2)).
  { unfold zlen in EL. replace (List.length m1) with (List.length m2) by lia. unfold pad. rewrite E. reflexivity. }
  unfold pad in X. rewrite !firstn_app, !firstn_all, !Nat.sub_diag in X. cbn [firstn] in X. rewrite !app_nil_r in X. exact X.
Qed.

Theorem C100_collisions : forall m1 m2 h, bytes m1 -> bytes m2 -> m1 <> m2 -> Sum m1 = Ret h -> Sum m2 = Ret h ->
  collide (compressions m1) (compressions m2).
Proof.
  intros m1 m2 h B1 B2 N H1 H2.
  assert (G : forall m, bytes m -> Sum m = Ret h -> h = sm3_hash m /\ zlen m < 2 ^ 31).
  { intros m B H. assert (D : ~ (m = [] \/ 2 ^ 31 <= zlen m)).
    { intro X. apply C05_sum_panics_iff in X; [|exact B]. destruct X as [k X]. congruence. }
    assert (N0 : m <> []) by tauto. assert (L : zlen m < 2 ^ 31) by lia.
    rewrite C01_sum_is_standard in H by assumption. split; [congruence|exact L]. }
  destruct (G m1 B1 H1) as [E1 L1]. destruct (G m2 B2 H2) as [E2 L2]. clear G H1 H2.
  assert (E : hash_words m1 = hash_words m2).
  { rewrite <- (words_of_digest (hash_words m1)) by (apply hash_words_ok; exact B1).
    rewrite <- (words_of_digest (hash_words m2)) by (apply hash_words_ok; exact B2).
    f_equal. change (sm3_hash m1 = sm3_hash m2). congruence. }
  unfold compressions. change (hash_words ?m) with (iterate IV (pad m)) in E. rewrite !iterate_fold in E.
  destruct (Z.eq_dec (zlen m1) (zlen m2)) as [EL|NL].
  - destruct (pad_length m1) as [n P1].
    assert (P2 : List.length (pad m2) = (n * 64)%nat).
    { rewrite <- P1. unfold pad. rewrite !app_length, !repeat_length, !be_enc_length, EL. unfold zlen in EL. lia. }
    destruct (same_number (blocks (pad m1)) (blocks (pad m2)) IV) as [X|X].
    + rewrite (blocks_number n _ P1), (blocks_number n _ P2). reflexivity.
    + exact E.
    + exfalso. apply N. apply pad_injective; [lia|lia|].
      rewrite <- (unblocks n (pad m1) P1 (pad_bytes m1 B1)), <- (unblocks n (pad m2) P2 (pad_bytes m2 B2)), X. reflexivity.
    + exact X.
  - destruct (pad_last m1 B1) as (l1 & a1 & F1 & S1). destruct (pad_last m2 B2) as (l2 & a2 & F2 & S2).
    rewrite F1, F2 in *. apply last_block; [|exact E]. intros ->. apply NL.
    pose proof (zlen_nonneg _ m1). pose proof (zlen_nonneg _ m2).
    pose proof (pad_tail m1 ltac:(lia)) as T1. pose proof (pad_tail m2 ltac:(lia)) as T2. rewrite <- S1 in T1. rewrite <- S2 in T2. lia.
Qed.

(** The inputs of the compression function are the standard's, and for "abc" there is one. *)
Example C100_ex : compressions [97; 98; 99] =
  [(IV, [0x61626380] ++ repeat 0 14 ++ [24])] /\
  List.length (compressions (repeat 7 100)) = 2%nat /\
  hash_words [97; 98; 99] = CF IV ([0x61626380] ++ repeat 0 14 ++ [24]).
Proof. split; [vm_compute; reflexivity|]. split; vm_compute; reflexivity. Qed.

Print Assumptions C98_every_history.
Print Assumptions C99_length_extension.
Print Assumptions C99_prefix_code_is_forged.
Print Assumptions C100_collisions.
