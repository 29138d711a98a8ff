(** Property C103: SM2 leaves the integers and buffers it is given as they are and returns new ones. *)
From Coq Require Import ZArith List Lia Bool String.
From Verif Require Import GoBase BeMin FpField GoElliptic Sm3 Sm2Group Sm2Spec Sm2 KeyExchange Sm2Mem Sm2Proofs Sm2Proofs2 PropsCurve PropsSm2.
Import ListNotations.
Open Scope Z_scope.

(** Everything that was in memory is still there with the same value. *)
Definition unchanged (h h' : heap) : Prop :=
  firstn (List.length (ints h)) (ints h') = ints h /\ firstn (List.length (bufs h)) (bufs h') = bufs h.
Definition int_at (h : heap) (p : nat) (v : Z) : Prop := nth_error (ints h) p = Some v.
Definition new_int (h : heap) (p : nat) : Prop := (List.length (ints h) <= p)%nat.
(** A slice that lies in its buffer, showing these bytes. *)
Definition slice_at (h : heap) (s : slice) (l : list Z) : Prop :=
  (s_buf s < List.length (bufs h))%nat /\ (s_len s <= s_cap s)%nat /\
  (s_off s + s_cap s <= List.length (nth (s_buf s) (bufs h) []))%nat /\ view h s = l.
Definition new_slice (h : heap) (s : slice) : Prop := (List.length (bufs h) <= s_buf s)%nat.
Definition curve_at (h : heap) (c : curveRef) : Prop :=
  int_at h (cP c) curveP /\ int_at h (cA c) curveA /\ int_at h (cB c) curveB /\ int_at h (cN c) curveN /\ int_at h (cGx c) curveGx /\ int_at h (cGy c) curveGy.
Definition pub_at (h : heap) (p : pubRef) (pub : PublicKey) : Prop := int_at h (rX p) (X pub) /\ int_at h (rY p) (Y pub) /\ curve_at h (rC p).
Definition priv_at (h : heap) (p : privRef) (priv : PrivateKey) : Prop := int_at h (rD p) (D priv) /\ curve_at h (rDC p).
Definition globals_at (h : heap) (g : globals) : Prop :=
  curve_at h (gCurve g) /\ int_at h (gH g) sm2H /\ slice_at h (gId g) sm2SignDefaultUserId.

Definition none : nat -> Prop := fun _ => False.
(** Buffers in [W] may have been written, but keep their lengths. *)
Definition keeps (W : nat -> Prop) (h h' : heap) : Prop :=
  (exists more, ints h' = ints h ++ more) /\ (List.length (bufs h) <= List.length (bufs h'))%nat /\
  (forall j, (j < List.length (bufs h))%nat -> List.length (nth j (bufs h') []) = List.length (nth j (bufs h) []) /\
     (~ W j -> nth j (bufs h') [] = nth j (bufs h) [])).

Lemma keeps_refl : forall W h, keeps W h h.
Proof. intros W h. split; [exists []; rewrite app_nil_r; reflexivity|]. split; [lia|]. intros j _. split; [reflexivity|auto]. Qed.
Lemma keeps_trans : forall W h1 h2 h3, keeps W h1 h2 -> keeps W h2 h3 -> keeps W h1 h3.
Proof.
  intros W h1 h2 h3 ((m1 & E1) & L1 & H1) ((m2 & E2) & L2 & H2). split; [exists (m1 ++ m2); rewrite E2, E1, app_assoc; reflexivity|].
  split; [lia|]. intros j Hj. destruct (H1 j Hj) as [A1 B1]. destruct (H2 j ltac:(lia)) as [A2 B2].
  split; [congruence|]. intro N. rewrite (B2 N). apply B1, N.
Qed.
Lemma keeps_weaken : forall W h h', keeps none h h' -> keeps W h h'.
Proof. intros W h h' (A & B & C). split; [exact A|]. split; [exact B|]. intros j Hj. destruct (C j Hj) as [E1 E2]. split; [exact E1|]. intros _. apply E2. intros []. Qed.
(** Writing new buffers only is writing nothing. *)
Lemma keeps_local : forall (W V : nat -> Prop) h0 h h', keeps V h0 h -> (forall j, W j -> V j \/ (List.length (bufs h0) <= j)%nat) -> keeps W h h' -> keeps V h0 h'.
Proof.
  intros W V h0 h h' ((m1 & E1) & L1 & H1) HW ((m2 & E2) & L2 & H2). split; [exists (m1 ++ m2); rewrite E2, E1, app_assoc; reflexivity|].
  split; [lia|]. intros j Hj. destruct (H1 j Hj) as [A1 B1]. destruct (H2 j ltac:(lia)) as [A2 B2]. split; [congruence|].
  intro N. rewrite (B2 ltac:(intro I; destruct (HW j I); [auto|lia])). apply B1, N.
Qed.
Lemma keeps_unchanged : forall h h', keeps none h h' -> unchanged h h'.
Proof.
  intros h h' ((m & E) & L & H). split; [rewrite E, firstn_app, Nat.sub_diag, firstn_all; apply app_nil_r|].
  apply (nth_ext _ _ [] []); [rewrite firstn_length; lia|]. intros j Hj. rewrite firstn_length in Hj.
  assert (N : forall (l : list (list Z)) n i, (i < n)%nat -> nth i (firstn n l) [] = nth i l []).
  { induction l as [|x l IH]; intros [|n] [|i] Q; try lia; try reflexivity. cbn. apply IH. lia. }
  rewrite N by lia. apply H; [lia|]. intros [].
Qed.
Lemma keeps_ints : forall W h h', keeps W h h' -> (List.length (ints h) <= List.length (ints h'))%nat.
Proof. intros W h h' ((m & E) & _). rewrite E, app_length. lia. Qed.
Lemma keeps_bufs : forall W h h', keeps W h h' -> (List.length (bufs h) <= List.length (bufs h'))%nat.
Proof. intros W h h' (_ & L & _). exact L. Qed.
Lemma int_keeps : forall W h h' p v, keeps W h h' -> int_at h p v -> int_at h' p v.
Proof.
  intros W h h' p v ((m & E) & _) H. unfold int_at in *. rewrite E, nth_error_app1; [exact H|]. apply nth_error_Some. congruence.
Qed.
Lemma curve_keeps : forall W h h' c, keeps W h h' -> curve_at h c -> curve_at h' c.
Proof. intros W h h' c K (A & B & C & D0 & E & F). unfold curve_at. repeat (split; [apply (int_keeps W h); assumption|]). apply (int_keeps W h); assumption. Qed.
Lemma pub_keeps : forall W h h' p q, keeps W h h' -> pub_at h p q -> pub_at h' p q.
Proof. intros W h h' p q K (A & B & C). split; [apply (int_keeps W h); assumption|]. split; [apply (int_keeps W h); assumption|apply (curve_keeps W h); assumption]. Qed.
Lemma priv_keeps : forall W h h' p q, keeps W h h' -> priv_at h p q -> priv_at h' p q.
Proof. intros W h h' p q K (A & C). split; [apply (int_keeps W h); assumption|apply (curve_keeps W h); assumption]. Qed.
Lemma slice_keeps : forall W h h' s l, keeps W h h' -> ~ W (s_buf s) -> slice_at h s l -> slice_at h' s l.
Proof.
  intros W h h' s l (_ & L & H) N (A & B & C & E). destruct (H _ A) as [E1 E2]. specialize (E2 N).
  split; [lia|]. split; [exact B|]. split; [rewrite E1; exact C|]. unfold view in *. rewrite E2. exact E.
Qed.
Lemma globals_keeps : forall h h' g, keeps none h h' -> globals_at h g -> globals_at h' g.
Proof.
  intros h h' g K (A & B & C). split; [apply (curve_keeps none h); assumption|]. split; [apply (int_keeps none h); assumption|].
  apply (slice_keeps none h); [exact K|intros []|exact C].
Qed.

Lemma run_bind : forall A B (m : prog A) (k : A -> prog B) h,
  bindp m k h = match m h with (Ret a, h') => k a h' | (Panic e, h') => (Panic e, h') end.
Proof.
  intros A B m k. induction m as [[a|e]|f IH|p f IH|p v f IH|l f IH|j f IH|j off l f IH]; intro h; cbn [bindp run]; try reflexivity; auto.
  - destruct (nth_error (ints h) p); [apply IH|reflexivity].
  - destruct (Nat.ltb p (List.length (ints h))); [apply IH|reflexivity].
Qed.
(** A program with memory against a computation on values. *)
Definition runs {A B} (W : nat -> Prop) (m : prog A) (h : heap) (o : go B) (R : A -> B -> heap -> Prop) : Prop :=
  keeps W h (snd (m h)) /\
  match o, fst (m h) with Ret b, Ret a => R a b (snd (m h)) | Panic _, Panic _ => True | _, _ => False end.
(** A step that cannot fail. *)
Definition gives {A} (m : prog A) (h : heap) (Q : A -> heap -> Prop) : Prop :=
  exists a h', m h = (Ret a, h') /\ keeps none h h' /\ Q a h'.

Lemma runs_ret : forall A B W (a : A) (b : B) h (R : A -> B -> heap -> Prop), R a b h -> runs W (retp a) h (Ret b) R.
Proof. intros A B W a b h R H. split; [apply keeps_refl|exact H]. Qed.
Lemma runs_panic : forall A B W k k' h (R : A -> B -> heap -> Prop), runs W (liftp (Panic k)) h (Panic k') R.
Proof. intros. split; [apply keeps_refl|exact I]. Qed.
Lemma runs_gives : forall A C B W (m : prog A) (k : A -> prog C) h (o : go B) R Q, gives m h Q ->
  (forall a h', keeps none h h' -> Q a h' -> runs W (k a) h' o R) -> runs W (bindp m k) h o R.
Proof.
  intros A C B W m k h o R Q (a & h' & E & K & HQ) H. destruct (H a h' K HQ) as [K2 M]. unfold runs. rewrite run_bind, E.
  split; [eapply keeps_trans; [apply keeps_weaken; exact K|exact K2]|exact M].
Qed.
Lemma runs_bind : forall A C B D W (m : prog A) (k : A -> prog C) h (o : go B) (k' : B -> go D) R1 R, runs W m h o R1 ->
  (forall a b h', keeps W h h' -> R1 a b h' -> runs W (k a) h' (k' b) R) -> runs W (bindp m k) h (bind o k') R.
Proof.
  intros A C B D W m k h o k' R1 R [K M] H. unfold runs. rewrite run_bind. destruct (m h) as [[a|e] h']; cbn [fst snd] in *.
  - destruct o as [b|e']; [|destruct M]. cbn [bind]. destruct (H a b h' K M) as [K2 M2]. split; [eapply keeps_trans; eassumption|exact M2].
  - destruct o as [b|e']; [destruct M|]. split; [exact K|exact I].
Qed.
Lemma runs_lift : forall A C D W (o : go A) (k : A -> prog C) h (k' : A -> go D) R,
  (forall b, runs W (k b) h (k' b) R) -> runs W (bindp (liftp o) k) h (bind o k') R.
Proof. intros A C D W [b|e] k h k' R H; [exact (H b)|]. split; [apply keeps_refl|exact I]. Qed.
Lemma runs_get : forall A B W p v (k : Z -> prog A) h (o : go B) R, int_at h p v -> runs W (k v) h o R -> runs W (bindp (getInt p) k) h o R.
Proof.
  intros A B W p v k h o R H E. assert (Q : bindp (getInt p) k h = k v h) by (cbn [bindp getInt run retp]; rewrite H; reflexivity).
  unfold runs. rewrite Q. exact E.
Qed.
Lemma runs_read : forall A B W s l (k : list Z -> prog A) h (o : go B) R, slice_at h s l -> runs W (k l) h o R -> runs W (bindp (readAll s) k) h o R.
Proof. 
  intros A B W s l k h o R (_ & _ & _ & H) E. assert (Q : bindp (readAll s) k h = k l h) by (cbn [bindp readAll run retp]; unfold view in H; rewrite H; reflexivity).
  unfold runs. rewrite Q. exact E.
Qed.
Lemma runs_weaken : forall A B (W V : nat -> Prop) (m : prog A) h (o : go B) (R R' : A -> B -> heap -> Prop), runs W m h o R -> (forall j, W j -> V j) ->
  (forall a b h', keeps W h h' -> R a b h' -> R' a b h') -> runs V m h o R'.
Proof.
  intros A B W V m h o R R' [K M] I H. split.
  - eapply keeps_local; [apply keeps_refl| |exact K]. intros j Hj. left. apply I, Hj.
  - destruct o, (fst (m h)); try exact M. apply H; [exact K|exact M].
Qed.

(** * Allocation and the functions of util/bigint.go *)
Lemma upd_last : forall A (l : list A) x v, upd (l ++ [x]) (List.length l) v = l ++ [v].
Proof. induction l as [|y l IH]; intros x v; [reflexivity|]. cbn. rewrite IH. reflexivity. Qed.
Definition grown (h : heap) (v : Z) : heap := mkHeap (ints h ++ [v]) (bufs h).
Lemma grown_keeps : forall h v, keeps none h (grown h v).
Proof. intros h v. split; [exists [v]; reflexivity|]. split; [apply le_n|]. intros j _. split; [reflexivity|intros _; reflexivity]. Qed.
Lemma grown_at : forall h v, int_at (grown h v) (List.length (ints h)) v.
Proof. intros h v. unfold int_at, grown. cbn. rewrite nth_error_app2, Nat.sub_diag by apply le_n. reflexivity. Qed.
Lemma set_last : forall h w v, setInt (List.length (ints h)) v (grown h w) = (Ret tt, grown h v).
Proof.
  intros h w v. unfold setInt, grown. cbn [run ints bufs retp]. rewrite app_length. cbn [List.length].
  destruct (Nat.ltb_spec (List.length (ints h)) (List.length (ints h) + 1)); [|lia]. rewrite upd_last. reflexivity.
Qed.
(** What an allocating step does: one new integer. *)
Definition allocs (m : prog nat) (h : heap) (v : Z) : Prop := m h = (Ret (List.length (ints h)), grown h v).
Lemma allocs_gives : forall m h v, allocs m h v -> gives m h (fun p h' => int_at h' p v /\ new_int h p).
Proof. intros m h v E. exists (List.length (ints h)), (grown h v). split; [exact E|]. split; [apply grown_keeps|]. split; [apply grown_at|apply le_n]. Qed.
Lemma new_run : forall h, newInt h = (Ret (List.length (ints h)), grown h 0).
Proof. reflexivity. Qed.
Lemma get_grown : forall h p v w, int_at h p v -> getInt p (grown h w) = (Ret v, grown h w).
Proof.
  intros h p v w H. cbn [getInt run retp]. assert (E : nth_error (ints (grown h w)) p = Some v) by exact (int_keeps none _ _ _ _ (grown_keeps h w) H).
  rewrite E. reflexivity.
Qed.
Ltac steps := repeat (first [rewrite run_bind|rewrite new_run|rewrite set_last|erewrite get_grown by eassumption]; cbv beta iota).
Lemma newOf_allocs : forall h v, allocs (newOf v) h v.
Proof. intros h v. unfold allocs, newOf. steps. reflexivity. Qed.
Section Alloc.
Variables (h : heap) (x y : nat) (a b : Z).
Hypothesis Hx : int_at h x a.
Hypothesis Hy : int_at h y b.
Lemma utilAdd_allocs : allocs (utilAdd x y) h (a + b).
Proof. unfold allocs, utilAdd, bigAdd. steps. reflexivity. Qed.
Lemma utilSub_allocs : allocs (utilSub x y) h (a - b).
Proof. unfold allocs, utilSub, bigSub. steps. reflexivity. Qed.
Lemma utilMul_allocs : allocs (utilMul x y) h (a * b).
Proof. unfold allocs, utilMul, bigMul. steps. reflexivity. Qed.
Lemma utilAnd_allocs : allocs (utilAnd x y) h (Z.land a b).
Proof. unfold allocs, utilAnd, bigAnd. steps. reflexivity. Qed.
Lemma utilMod_allocs : b <> 0 -> allocs (utilMod x y) h (a mod Z.abs b).
Proof.
  intro P. unfold allocs, utilMod, bigMod. steps.
  destruct (Z.eqb_spec b 0); [contradiction|]. steps. reflexivity.
Qed.
Lemma utilModInverse_allocs : allocs (utilModInverseM x y) h (utilModInverse a b).
Proof.
  unfold allocs, utilModInverseM, utilModInverse, bigModInverse. steps.
  destruct (ModInverse a b); steps; reflexivity.
Qed.
Lemma utilLsh_allocs : forall n, allocs (utilLsh x n) h (Z.shiftl a n).
Proof. intro n. unfold allocs, utilLsh, bigLsh. steps. reflexivity. Qed.
Lemma utilSetBit_allocs : forall i, allocs (utilSetBit x i 1) h (Z.setbit a i).
Proof. intro i. unfold allocs, utilSetBit, bigSetBit. steps. reflexivity. Qed.
Lemma utilClearBit_allocs : forall i, allocs (utilSetBit x i 0) h (Z.clearbit a i).
Proof. intro i. unfold allocs, utilSetBit, bigSetBit. steps. reflexivity. Qed.
Lemma ZForAffine_allocs : allocs (ZForAffine x y) h (zForAffine a b).
Proof.
  unfold allocs, ZForAffine, zForAffine. steps.
  destruct (negb (a =? 0) || negb (b =? 0)); steps; reflexivity.
Qed.
End Alloc.

(** The wrappers of util: a new integer with the value, nothing else touched, whatever the arguments share. *)
Theorem C103_util : forall h x y a b, int_at h x a -> int_at h y b ->
  forall m v, In (m, v) [(utilAdd x y, a + b); (utilSub x y, a - b); (utilMul x y, a * b); (utilAnd x y, Z.land a b);
                         (utilModInverseM x y, utilModInverse a b); (ZForAffine x y, zForAffine a b)] \/
              (b <> 0 /\ m = utilMod x y /\ v = a mod Z.abs b) \/
              (exists n, m = utilLsh x n /\ v = Z.shiftl a n) \/ (exists i, m = utilSetBit x i 1 /\ v = Z.setbit a i) \/ (exists i, m = utilSetBit x i 0 /\ v = Z.clearbit a i) ->
  exists p h', m h = (Ret p, h') /\ int_at h' p v /\ new_int h p /\ unchanged h h'.
Proof.
  intros h x y a b Hx Hy m v H. assert (G : allocs m h v).
  { destruct H as [H|[(P & -> & ->)|[(n & -> & ->)|[(i & -> & ->)|(i & -> & ->)]]]].
    - cbn [In] in H. repeat (destruct H as [H|H]; [apply pair_equal_spec in H; destruct H as [<- <-]|]); [| | | | | |destruct H];
        eauto using utilAdd_allocs, utilSub_allocs, utilMul_allocs, utilAnd_allocs, utilModInverse_allocs, ZForAffine_allocs.
    - apply utilMod_allocs; [exact Hx|exact Hy|exact P].
    - apply utilLsh_allocs; exact Hx.
    - apply utilSetBit_allocs; exact Hx.
    - apply utilClearBit_allocs; exact Hx. }
  destruct (allocs_gives _ _ _ G) as (p & h' & E & K & I1 & I2). exists p, h'. split; [exact E|]. split; [exact I1|]. split; [exact I2|]. apply keeps_unchanged, K.
Qed.

(** * Signatures *)
Lemma runs_alloc : forall A B W m (k : nat -> prog A) h (o : go B) R v, allocs m h v ->
  (forall p h', keeps none h h' -> int_at h' p v -> new_int h p -> runs W (k p) h' o R) -> runs W (bindp m k) h o R.
Proof. intros A B W m k h o R v E H. eapply runs_gives; [apply allocs_gives; exact E|]. intros p h' K [I1 I2]. apply H; assumption. Qed.
Lemma new_int_keeps : forall W h h' p, keeps W h h' -> new_int h' p -> new_int h p.
Proof. intros W h h' p K N. apply keeps_ints in K. unfold new_int in *. lia. Qed.
Lemma new_slice_keeps : forall W h h' p, keeps W h h' -> new_slice h' p -> new_slice h p.
Proof. intros W h h' p K N. apply keeps_bufs in K. unfold new_slice in *. lia. Qed.
(** Two new integers, holding the two coordinates. *)
Definition pair_at (h0 : heap) (p : nat * nat) (q : Z * Z) (h' : heap) : Prop :=
  int_at h' (fst p) (fst q) /\ int_at h' (snd p) (snd q) /\ new_int h0 (fst p) /\ new_int h0 (snd p).
Lemma newPair_gives : forall q h, gives (newPair q) h (fun p h' => pair_at h p q h').
Proof.
  intros [u v] h. unfold newPair. exists (List.length (ints h), List.length (ints (grown h u))), (grown (grown h u) v).
  split; [rewrite run_bind, (newOf_allocs h u); cbv beta iota; rewrite run_bind, (newOf_allocs (grown h u) v); reflexivity|].
  split; [eapply keeps_trans; apply grown_keeps|]. split; [apply (int_keeps none (grown h u)); [apply grown_keeps|apply grown_at]|].
  split; [apply grown_at|]. split; [apply le_n|]. apply (new_int_keeps none h (grown h u)); [apply grown_keeps|apply le_n].
Qed.
Lemma runs_lift_gives : forall A B W (o : go A) (g : A -> prog B) (C : Type) (k' : A -> go C) h R,
  (forall b, o = Ret b -> runs W (g b) h (k' b) R) -> runs W (bindp (liftp o) g) h (bind o k') R.
Proof. intros A B W [b|e] g C k' h R H; [exact (H b eq_refl)|]. split; [apply keeps_refl|exact I]. Qed.
Lemma runs_ret_bind : forall A B (m : prog A) (o : go B) W h R, runs W m h (bind o (fun x => Ret x)) R -> runs W m h o R.
Proof. intros A B m [b|e] W h R H; exact H. Qed.
Lemma gives_runs : forall A B W (m : prog A) h (b : B) Q, gives m h (fun a h' => Q a b h') -> runs W m h (Ret b) Q.
Proof. intros A B W m h b Q (a & h' & E & K & H). unfold runs. rewrite E. split; [apply keeps_weaken, K|exact H]. Qed.
Lemma ScalarMultM_runs : forall W h c x y a b k, curve_at h c -> int_at h x a -> int_at h y b ->
  runs W (ScalarMultM c x y k) h (curveScalarMult a b k) (pair_at h).
Proof.
  intros W h c x y a b k C Hx Hy. unfold ScalarMultM. eapply runs_get; [apply C|]. eapply runs_get; [exact Hx|]. eapply runs_get; [exact Hy|].
  unfold curveScalarMult. apply runs_ret_bind. apply runs_lift_gives. intros q _. apply gives_runs. apply newPair_gives.
Qed.
Lemma ScalarBaseMultM_runs : forall W h c k, curve_at h c -> runs W (ScalarBaseMultM c k) h (curveScalarBaseMult k) (pair_at h).
Proof. intros W h c k C. apply (ScalarMultM_runs W h c _ _ curveGx curveGy); [exact C|apply C|apply C]. Qed.
Lemma AddM_runs : forall W h c x y x' y' a b a' b', curve_at h c -> int_at h x a -> int_at h y b -> int_at h x' a' -> int_at h y' b' ->
  runs W (AddM c x y x' y') h (curveAdd a b a' b') (pair_at h).
Proof.
  intros W h c x y x' y' a b a' b' C H1 H2 H3 H4. unfold AddM. eapply runs_get; [apply C|]. eapply runs_get; [exact H1|]. eapply runs_get; [exact H2|].
  eapply runs_get; [exact H3|]. eapply runs_get; [exact H4|].
  unfold curveAdd. apply runs_ret_bind. apply runs_lift_gives. intros q _. apply gives_runs. apply newPair_gives.
Qed.
Lemma runs_bytes : forall A B W x a (k : list Z -> prog A) h (o : go B) R, int_at h x a -> runs W (k (BigBytes a)) h o R -> runs W (bindp (BytesM x) k) h o R.
Proof.
  intros A B W x a k h o R H E. assert (Q : bindp (BytesM x) k h = k (BigBytes a) h) by (cbn [bindp BytesM getInt retp run]; rewrite H; reflexivity).
  unfold runs. rewrite Q. exact E.
Qed.
Lemma runs_inf : forall A B W x y a b (k : bool -> prog A) h (o : go B) R, int_at h x a -> int_at h y b ->
  runs W (k (IsEcPointInfinity a b)) h o R -> runs W (bindp (IsEcPointInfinityM x y) k) h o R.
Proof.
  intros A B W x y a b k h o R H H' E.
  assert (Q : bindp (IsEcPointInfinityM x y) k h = k (IsEcPointInfinity a b) h) by (cbn [bindp IsEcPointInfinityM getInt retp run]; rewrite H, H'; reflexivity).
  unfold runs. rewrite Q. exact E.
Qed.
Lemma runs_to32 : forall A C W x a (k : list Z -> prog A) h (k' : list Z -> go C) R, int_at h x a ->
  (forall l, runs W (k l) h (k' l) R) -> runs W (bindp (bigIntTo32BytesM x) k) h (bind (bigIntTo32Bytes a) k') R.
Proof.
  intros A C W x a k h k' R H E.
  assert (Q : bindp (bigIntTo32BytesM x) k h = bindp (liftp (bigIntTo32Bytes a)) k h) by (cbn [bindp bigIntTo32BytesM getInt retp run]; rewrite H; reflexivity).
  unfold runs. rewrite Q. apply runs_lift. exact E.
Qed.

(** Transport of everything known about a heap along [keeps]. *)
Ltac carry :=
  match goal with
  | K : keeps ?W ?h ?h' |- _ =>
      repeat match goal with
      | H : int_at h _ _ |- _ => apply (int_keeps W h h' _ _ K) in H
      | H : curve_at h _ |- _ => apply (curve_keeps W h h' _ K) in H
      | H : pub_at h _ _ |- _ => apply (pub_keeps W h h' _ _ K) in H
      | H : priv_at h _ _ |- _ => apply (priv_keeps W h h' _ _ K) in H
      | H : globals_at h _ |- _ => apply (globals_keeps h h' _ K) in H
      | H : slice_at h _ _ |- _ => apply (slice_keeps W h h' _ _ K ltac:(intros [])) in H
      end
  end.
(** The same, relating everything to a first heap [h0]. *)
Ltac step :=
  carry;
  match goal with
  | K0 : keeps none ?h0 ?h, K : keeps none ?h ?h' |- _ =>
      repeat match goal with
      | N : new_int h _ |- _ => apply (new_int_keeps none h0 h _ K0) in N
      | N : new_slice h _ |- _ => apply (new_slice_keeps none h0 h _ K0) in N
      end;
      apply (keeps_trans none h0 h h' K0) in K; clear K0; rename K into K0; clear h || idtac
  end.

Lemma nextK_loopM_gives : forall fuel one max N tape h, int_at h one 1 -> int_at h max N ->
  gives (nextK_loopM fuel one max tape) h (fun a h' => match nextK_loop fuel N tape with
    | (ERR e, t) => a = (ERR e, t)
    | (OK k, t) => exists p, a = (OK p, t) /\ int_at h' p k /\ new_int h p
    end).
Proof.
  induction fuel as [|fuel IH]; intros one max N tape h H1 HN; cbn [nextK_loopM nextK_loop]; unfold gives; rewrite run_bind; cbn [getInt run retp]; rewrite HN; cbv beta iota.
  all: destruct (rand_Int N tape) as [[kv|e] t]; [|exists (ERR e, t), h; split; [reflexivity|split; [apply keeps_refl|reflexivity]]].
  all: pose proof (newOf_allocs h kv) as EA; red in EA; pose proof (grown_at h kv) as Hk; pose proof (int_keeps none _ _ _ _ (grown_keeps h kv) H1) as H1'.
  all: rewrite run_bind, EA; cbv beta iota; do 2 (rewrite run_bind; cbn [getInt run retp]; first [rewrite Hk|rewrite H1']; cbv beta iota).
  all: destruct (1 <=? kv); [exists (OK (List.length (ints h)), t), (grown h kv); split; [reflexivity|]; split; [apply grown_keeps|]; eexists; split; [reflexivity|]; split; [exact Hk|apply le_n]|].
  - exists (ERR "model: out of fuel"%string, t), (grown h kv). split; [reflexivity|]. split; [apply grown_keeps|reflexivity].
  - destruct (IH one max N t (grown h kv) H1' (int_keeps none _ _ _ _ (grown_keeps h kv) HN)) as (a & h' & E & K & Q). exists a, h'. split; [exact E|].
    split; [eapply keeps_trans; [apply grown_keeps|exact K]|]. destruct (nextK_loop fuel N t) as [[k|e] t']; [|exact Q].
    destruct Q as (p & Ea & Ip & Np). exists p. split; [exact Ea|]. split; [exact Ip|]. apply (new_int_keeps none h (grown h kv)); [apply grown_keeps|exact Np].
Qed.
Lemma nextKM_gives : forall max N tape h, int_at h max N ->
  gives (nextKM max tape) h (fun a h' => match nextK N tape with
    | (ERR e, t) => a = (ERR e, t)
    | (OK k, t) => exists p, a = (OK p, t) /\ int_at h' p k /\ new_int h p
    end).
Proof.
  intros max N tape h HN. unfold nextKM, nextK.
  destruct (nextK_loopM_gives (List.length tape) (List.length (ints h)) max N tape (grown h 1) (grown_at h 1) (int_keeps none _ _ _ _ (grown_keeps h 1) HN)) as (a & h' & E & K & Q).
  exists a, h'. split; [rewrite run_bind, (newOf_allocs h 1); exact E|]. split; [eapply keeps_trans; [apply grown_keeps|exact K]|].
  destruct (nextK_loop (List.length tape) N tape) as [[k|e] t']; [|exact Q].
  destruct Q as (p & Ea & Ip & Np). exists p. split; [exact Ea|]. split; [exact Ip|]. apply (new_int_keeps none h (grown h 1)); [apply grown_keeps|exact Np].
Qed.

(** Results that may be errors, with what is left of the random source. *)
Definition res_at {A B} (R : A -> B -> Prop) (a : res A * list Z) (b : res B * list Z) : Prop :=
  match fst a, fst b with OK x, OK y => R x y | ERR e, ERR e' => e = e' | _, _ => False end /\ snd a = snd b.

Lemma n_abs : Z.abs curveN = curveN. Proof. vm_compute. reflexivity. Qed.
Lemma n_nz : curveN <> 0. Proof. vm_compute. discriminate. Qed.
Lemma utilModN_allocs : forall h x y a, int_at h x a -> int_at h y curveN -> allocs (utilMod x y) h (a mod curveN).
Proof. intros h x y a Hx Hy. rewrite <- n_abs at 1. apply utilMod_allocs; [exact Hx|exact Hy|exact n_nz]. Qed.
(** rk := new(big.Int).Set(r); rk.Add(rk, k) *)
Lemma setAdd_runs : forall A B W r k a b (f : nat -> prog A) h (o : go B) R, int_at h r a -> int_at h k b ->
  (forall p h', keeps none h h' -> int_at h' p (a + b) -> runs W (f p) h' o R) ->
  runs W (mem rk <- newInt; mem _ <- bigSet rk r; mem _ <- bigAdd rk rk k; f rk) h o R.
Proof.
  intros A B W r k a b f h o R Hr Hk H.
  assert (E : (mem rk <- newInt; mem _ <- bigSet rk r; mem _ <- bigAdd rk rk k; f rk) h = f (List.length (ints h)) (grown h (a + b))).
  { unfold bigSet, bigAdd. assert (G : getInt (List.length (ints h)) (grown h a) = (Ret a, grown h a)) by (cbn [getInt run retp]; rewrite (grown_at h a); reflexivity).
    steps. rewrite G. steps. reflexivity. }
  destruct (H (List.length (ints h)) (grown h (a + b)) (grown_keeps _ _) (grown_at _ _)) as [K M]. unfold runs. rewrite E. split; [|exact M].
  eapply keeps_trans; [apply keeps_weaken, grown_keeps|exact K].
Qed.

Lemma sign_innerM_runs : forall fuel h0 h c e0 e ve tape, keeps none h0 h -> curve_at h c -> int_at h e0 0 -> int_at h e ve ->
  runs none (sign_innerM fuel c e0 e tape) h (sign_inner fuel ve tape)
    (fun a b h' => res_at (fun p q => pair_at h0 p q h') a b).
Proof.
  induction fuel as [|fuel IH]; intros h0 h c e0 e ve tape K0 C H0 He; cbn [sign_innerM sign_inner].
  all: eapply runs_gives; [apply nextKM_gives; apply C|]; intros a h1 K1 Q; destruct (nextK curveN tape) as [[k|er] t].
  2, 4: subst a; apply runs_ret; split; reflexivity.
  all: destruct Q as (p & -> & Ip & Np); step; cbv beta iota; eapply runs_bytes; [exact Ip|].
  all: eapply runs_bind; [apply ScalarBaseMultM_runs; exact C|]; intros [px py] [x y] h2 K2 (Ix & Iy & _ & _); cbn [fst snd] in Ix, Iy; step; cbv beta iota zeta.
  all: eapply runs_alloc; [apply utilAdd_allocs; [exact He|exact Ix]|]; intros r0 h3 K3 Ir0 Nr0; step.
  all: eapply runs_alloc; [apply utilModN_allocs; [exact Ir0|apply C]|]; intros r h4 K4 Ir Nr; step.
  all: eapply setAdd_runs; [exact Ir|exact Ip|]; intros rk h5 K5 Irk; step.
  all: eapply runs_get; [exact Ir|]; eapply runs_get; [exact H0|]; eapply runs_get; [exact Irk|]; eapply runs_get; [apply C|].
  all: destruct (negb ((ve + x) mod curveN =? 0) && negb ((ve + x) mod curveN + k =? curveN)).
  1, 3: apply runs_ret; split; [|reflexivity]; split; [exact Ip|]; split; [exact Ir|]; split; assumption.
  - apply runs_panic.
  - apply IH; assumption.
Qed.
Lemma sign_outerM_runs : forall fuel h0 h priv d e0 e1 e ve tape, keeps none h0 h -> priv_at h priv d -> int_at h e0 0 -> int_at h e1 1 -> int_at h e ve ->
  runs none (sign_outerM fuel priv e0 e1 e tape) h (sign_outer fuel (D d) ve tape)
    (fun a b h' => res_at (fun p q => pair_at h0 p q h') a b).
Proof.
  induction fuel as [|fuel IH]; intros h0 h priv d e0 e1 e ve tape K0 C H0 H1 He; cbn [sign_outerM sign_outer].
  all: eapply runs_bind; [apply (sign_innerM_runs _ h0); [exact K0|apply C|exact H0|exact He]|].
  all: intros [[[k r]|er] t] [[[vk vr]|er'] t'] h1 K1 [Q1 Q2]; cbn [fst snd] in Q1, Q2; try (exfalso; exact Q1); subst t'; cbv beta iota zeta.
  2, 4: subst er'; apply runs_ret; split; reflexivity.
  all: destruct Q1 as (Ik & Ir & _ & Nr); cbn [fst snd] in Ik, Ir, Nr; assert (Nr0 := Nr); step; destruct C as [Cd C].
  all: eapply runs_alloc; [apply utilAdd_allocs; [exact Cd|exact H1]|]; intros p1 h3 K3 I1 N1; step.
  all: eapply runs_alloc; [apply utilModInverse_allocs; [exact I1|apply C]|]; intros p2 h4 K4 I2 N2; step.
  all: eapply runs_alloc; [apply utilMul_allocs; [exact Ir|exact Cd]|]; intros p3 h5 K5 I3 N3; step.
  all: eapply runs_alloc; [apply utilSub_allocs; [exact Ik|exact I3]|]; intros p4 h6 K6 I4 N4; step.
  all: eapply runs_alloc; [apply utilModN_allocs; [exact I4|apply C]|]; intros p5 h7 K7 I5 N5; step.
  all: eapply runs_alloc; [apply utilMul_allocs; [exact I2|exact I5]|]; intros p6 h8 K8 I6 N6; step.
  all: eapply runs_alloc; [apply utilModN_allocs; [exact I6|apply C]|]; intros p7 h9 K9 I7 N7; step.
  all: eapply runs_get; [exact I7|]; eapply runs_get; [exact H0|].
  all: match goal with |- context [negb (?u =? 0)] => destruct (negb (u =? 0)) end.
  1, 3: apply runs_ret; split; [|reflexivity]; split; [exact Ir|]; split; [exact I7|]; split; assumption.
  - apply runs_panic.
  - apply IH; try assumption. split; assumption.
Qed.
Lemma calculateEM_runs : forall h d c px py x y id idl m ml, curve_at h c -> int_at h px x -> int_at h py y -> slice_at h id idl -> slice_at h m ml ->
  runs none (calculateEM d c px py id m) h (calculateE d x y idl ml) (fun a b h' => fst a = fst b /\ int_at h' (snd a) (snd b) /\ new_int h (snd a)).
Proof.
  intros h d c px py x y id idl m ml C Hx Hy Hid Hm. unfold calculateEM, calculateE.
  apply (runs_bind _ _ _ _ _ _ _ _ _ _ (fun a b h' => a = b /\ h' = h)).
  - unfold getZM. eapply runs_get; [apply C|]. eapply runs_get; [apply C|]. eapply runs_get; [apply C|]. eapply runs_get; [apply C|].
    eapply runs_get; [exact Hx|]. eapply runs_get; [exact Hy|]. eapply runs_read; [exact Hid|]. change (getZ d x y idl) with (getZwith curveA curveB curveGx curveGy d x y idl).
    destruct (getZwith curveA curveB curveGx curveGy d x y idl); split; try apply keeps_refl; try exact I. split; reflexivity.
  - intros a [d' z] h' _ [-> ->]. cbv beta iota. eapply runs_read; [exact Hm|]. apply runs_lift. intros [d'' eh].
    eapply runs_alloc; [apply newOf_allocs|]. intros p h'' K I1 N1. apply runs_ret. split; [reflexivity|]. split; assumption.
Qed.
Definition id_at (h : heap) (g : globals) (id : option slice) (idl : option (list Z)) : Prop :=
  globals_at h g /\ match id, idl with Some s, Some l => slice_at h s l | None, None => True | _, _ => False end.
Lemma id_slice : forall h g id idl, id_at h g id idl -> slice_at h (match id with None => gId g | Some s => s end) (signId idl).
Proof. intros h g [s|] [l|] [G H]; try (exfalso; exact H); [exact H|apply G]. Qed.

Lemma SignToRSM_runs : forall h g priv d id idl m ml tape, priv_at h priv d -> id_at h g id idl -> slice_at h m ml ->
  runs none (SignToRSM g priv id m tape) h (SignToRS d idl ml tape) (fun a b h' => res_at (fun p q => pair_at h p q h') a b).
Proof.
  intros h0 g priv d id idl m ml tape P Hid Hm. apply id_slice in Hid. unfold SignToRSM, SignToRS.
  assert (K0 : keeps none h0 h0) by apply keeps_refl. remember h0 as h eqn:Eh in K0 at 2, P, Hid, Hm |- * at 1. clear Eh. 
  eapply runs_bytes; [apply P|]. eapply runs_bind; [apply ScalarBaseMultM_runs; apply P|].
  intros [px py] [x y] h2 K2 (Ix & Iy & _ & _); cbn [fst snd] in Ix, Iy. step. cbv beta iota zeta.
  eapply runs_bind; [apply calculateEM_runs; [apply P|exact Ix|exact Iy|exact Hid|exact Hm]|].
  intros [d1 e] [d2 ve] h3 K3 (_ & Ie & _); cbn [fst snd] in Ie. step. cbv beta iota.
  eapply runs_alloc; [apply newOf_allocs|]. intros p0 h4 K4 I0 _. step.
  eapply runs_alloc; [apply newOf_allocs|]. intros p1 h5 K5 I1 _. step.
  apply sign_outerM_runs; assumption.
Qed.

Lemma VerifyByRSM_runs : forall h g pub q id idl m ml r s vr vs, pub_at h pub q -> id_at h g id idl -> slice_at h m ml -> int_at h r vr -> int_at h s vs ->
  runs none (VerifyByRSM g pub id m r s) h (VerifyByRS q idl ml vr vs) (fun a b _ => a = b).
Proof.
  intros h0 g pub q id idl m ml r s vr vs (PX & PY & C) Hid Hm Hr Hs. apply id_slice in Hid. unfold VerifyByRSM, VerifyByRS.
  assert (K0 : keeps none h0 h0) by apply keeps_refl. remember h0 as h eqn:Eh in K0 at 2, PX, PY, C, Hid, Hm, Hr, Hs |- *. clear Eh. 
  eapply runs_alloc; [apply newOf_allocs|]. intros p1 h1 K1 I1 _. step.
  eapply runs_get; [exact Hr|]. eapply runs_get; [exact Hs|]. eapply runs_get; [exact I1|]. eapply runs_get; [apply C|].
  destruct ((vr <? 1) || (curveN <=? vr)); [apply runs_ret; reflexivity|]. destruct ((vs <? 1) || (curveN <=? vs)); [apply runs_ret; reflexivity|]. cbv zeta.
  eapply runs_bind; [apply calculateEM_runs; [exact C|exact PX|exact PY|exact Hid|exact Hm]|].
  intros [d1 e] [d2 ve] h3 K3 (_ & Ie & _); cbn [fst snd] in Ie. step. cbv beta iota.
  eapply runs_alloc; [apply newOf_allocs|]. intros p0 h4 K4 I0 _. step.
  eapply runs_alloc; [apply utilAdd_allocs; [exact Hr|exact Hs]|]. intros t0 h5 K5 It0 _. step.
  eapply runs_alloc; [apply utilModN_allocs; [exact It0|apply C]|]. intros t h6 K6 It _. step.
  eapply runs_get; [exact It|]. eapply runs_get; [exact I0|].
  destruct ((vr + vs) mod curveN =? 0); [apply runs_ret; reflexivity|].
  eapply runs_bytes; [exact Hs|]. eapply runs_bind; [apply ScalarBaseMultM_runs; exact C|].
  intros [sx sy] [vsx vsy] h7 K7 (Isx & Isy & _ & _); cbn [fst snd] in Isx, Isy. step. cbv beta iota.
  eapply runs_bytes; [exact It|]. eapply runs_bind; [apply ScalarMultM_runs; [exact C|exact PX|exact PY]|].
  intros [tx ty] [vtx vty] h8 K8 (Itx & Ity & _ & _); cbn [fst snd] in Itx, Ity. step. cbv beta iota.
  eapply runs_bind; [apply AddM_runs; [exact C|exact Isx|exact Isy|exact Itx|exact Ity]|].
  intros [x y] [vx vy] h9 K9 (Ix & Iy & _ & _); cbn [fst snd] in Ix, Iy. step. cbv beta iota.
  eapply runs_inf; [exact Ix|exact Iy|]. destruct (IsEcPointInfinity vx vy); [apply runs_ret; reflexivity|].
  eapply runs_alloc; [apply utilAdd_allocs; [exact Ie|exact Ix]|]. intros e0 h10 K10 Ie0 _. step.
  eapply runs_alloc; [apply utilModN_allocs; [exact Ie0|apply C]|]. intros e1 h11 K11 Ie1 _. step.
  eapply runs_get; [exact Ie1|]. eapply runs_get; [exact Hr|]. apply runs_ret. reflexivity.
Qed.

(** * Keys and the point of the key exchange *)
Lemma GenerateKeyM_runs : forall h g tape, globals_at h g ->
  runs none (GenerateKeyM g tape) h (GenerateKey tape) (fun a b h' => res_at (fun p q =>
    priv_at h' (fst p) (fst q) /\ pub_at h' (snd p) (snd q) /\ rDC (fst p) = gCurve g /\ rC (snd p) = gCurve g /\
    new_int h (rD (fst p)) /\ new_int h (rX (snd p)) /\ new_int h (rY (snd p))) a b).
Proof.
  intros h0 g tape (C & _). unfold GenerateKeyM, GenerateKey.
  assert (K0 : keeps none h0 h0) by apply keeps_refl. remember h0 as h eqn:Eh in K0 at 2, C |- * at 1. clear Eh. 
  eapply runs_get; [apply C|]. destruct (genkey_scalar curveN tape) as [[k|e] t]; [|apply runs_ret; split; reflexivity].
  eapply runs_bind; [apply ScalarBaseMultM_runs; exact C|]. intros [x y] [vx vy] h2 K2 (Ix & Iy & Nx & Ny); cbn [fst snd] in *. step. cbv beta iota.
  eapply runs_alloc; [apply newOf_allocs|]. intros d h4 K4 I0 Nd. step. apply runs_ret. split; [|reflexivity]. cbn [fst snd].
  split; [split; [exact I0|exact C]|]. split; [split; [exact Ix|split; [exact Iy|exact C]]|]. cbn. repeat (split; [first [reflexivity|assumption]|]). assumption.
Qed.
Lemma CalculatePubKeyM_runs : forall h priv d, priv_at h priv d ->
  runs none (CalculatePubKeyM priv) h (CalculatePubKey d) (fun p q h' => pub_at h' p q /\ rC p = rDC priv /\ new_int h (rX p) /\ new_int h (rY p)).
Proof.
  intros h priv d (P & C). unfold CalculatePubKeyM, CalculatePubKey. eapply runs_bytes; [exact P|].
  eapply runs_bind; [apply ScalarBaseMultM_runs; exact C|]. intros [x y] [vx vy] h2 K2 (Ix & Iy & Nx & Ny); cbn [fst snd] in *. carry. cbv beta iota.
  apply runs_ret. split; [split; [exact Ix|split; [exact Iy|exact C]]|]. split; [reflexivity|]. split; assumption.
Qed.
Lemma reduceM_gives : forall h x a w, int_at h x a -> gives (reduceM x w) h (fun p h' => int_at h' p (reduce a w) /\ new_int h p).
Proof.
  intros h x a w Hx. unfold reduceM, gives.
  pose proof (newOf_allocs h 1) as E1. red in E1. rewrite run_bind, E1. cbv beta iota. pose proof (grown_at h 1) as I1. pose proof (int_keeps none _ _ _ _ (grown_keeps h 1) Hx) as Hx1.
  set (h1 := grown h 1) in *. pose proof (utilLsh_allocs h1 _ _ I1 w) as E2. red in E2. rewrite run_bind, E2. cbv beta iota. pose proof (grown_at h1 (Z.shiftl 1 w)) as I2.
  pose proof (int_keeps none _ _ _ _ (grown_keeps h1 (Z.shiftl 1 w)) Hx1) as Hx2. pose proof (int_keeps none _ _ _ _ (grown_keeps h1 (Z.shiftl 1 w)) I1) as I12.
  set (h2 := grown h1 (Z.shiftl 1 w)) in *. pose proof (utilSub_allocs h2 _ _ _ _ I2 I12) as E3. red in E3. rewrite run_bind, E3. cbv beta iota.
  pose proof (grown_at h2 (Z.shiftl 1 w - 1)) as I3. pose proof (int_keeps none _ _ _ _ (grown_keeps h2 (Z.shiftl 1 w - 1)) Hx2) as Hx3.
  set (h3 := grown h2 (Z.shiftl 1 w - 1)) in *. pose proof (utilAnd_allocs h3 _ _ _ _ Hx3 I3) as E4. red in E4. rewrite run_bind, E4. cbv beta iota.
  pose proof (grown_at h3 (Z.land a (Z.shiftl 1 w - 1))) as I4. set (h4 := grown h3 (Z.land a (Z.shiftl 1 w - 1))) in *.
  pose proof (utilSetBit_allocs h4 _ _ I4 w) as E5. red in E5. rewrite E5. eexists _, _. split; [reflexivity|].
  assert (K : keeps none h h4) by (do 3 (eapply keeps_trans; [|apply grown_keeps]); apply grown_keeps).
  split; [eapply keeps_trans; [exact K|apply grown_keeps]|]. split; [apply grown_at|]. apply keeps_ints in K. exact K.
Qed.
Lemma calculateUM_runs : forall h g w sp se sep osp oep d1 d2 q1 q2 q3, globals_at h g ->
  priv_at h sp d1 -> priv_at h se d2 -> pub_at h sep q1 -> pub_at h osp q2 -> pub_at h oep q3 ->
  runs none (calculateUM g w sp se sep osp oep) h (calculateU w d1 d2 q1 q2 q3) (pair_at h).
Proof.
  intros h0 g w sp se sep osp oep d1 d2 q1 q2 q3 (_ & GH & _) (PD & C) (SD & _) (SX & _) (OX & OY & _) (EX & EY & _). unfold calculateUM, calculateU.
  assert (K0 : keeps none h0 h0) by apply keeps_refl. remember h0 as h eqn:Eh in K0 at 2, GH, PD, C, SD, SX, OX, OY, EX, EY |- * at 1. clear Eh. cbv zeta.
  eapply runs_gives; [apply reduceM_gives; exact SX|]. intros x1 h1 K1 [I1 _]. step.
  eapply runs_gives; [apply reduceM_gives; exact EX|]. intros x2 h2 K2 [I2 _]. step.
  eapply runs_alloc; [apply utilMul_allocs; [exact I1|exact SD]|]. intros ta h3 K3 Ita _. step.
  eapply runs_alloc; [apply utilAdd_allocs; [exact PD|exact Ita]|]. intros tb h4 K4 Itb _. step.
  eapply runs_alloc; [apply utilMul_allocs; [exact GH|exact Itb]|]. intros k0 h5 K5 Ik0 _. step.
  eapply runs_alloc; [apply utilModN_allocs; [exact Ik0|apply C]|]. intros k1 h6 K6 Ik1 _. step.
  eapply runs_alloc; [apply utilMul_allocs; [exact Ik1|exact I2]|]. intros k2 h7 K7 Ik2 _. step.
  eapply runs_alloc; [apply utilModN_allocs; [exact Ik2|apply C]|]. intros k3 h8 K8 Ik3 _. step.
  eapply runs_bytes; [exact Ik1|]. eapply runs_bind; [apply ScalarMultM_runs; [exact C|exact OX|exact OY]|].
  intros [ax ay] [vax vay] h9 K9 (Iax & Iay & _ & _); cbn [fst snd] in Iax, Iay. step. cbv beta iota.
  eapply runs_bytes; [exact Ik3|]. eapply runs_bind; [apply ScalarMultM_runs; [exact C|exact EX|exact EY]|].
  intros [bx by_] [vbx vby] h10 K10 (Ibx & Iby & _ & _); cbn [fst snd] in Ibx, Iby. step. cbv beta iota.
  eapply runs_weaken; [apply AddM_runs; [exact C|exact Iax|exact Iay|exact Ibx|exact Iby]|intros j Hj; exact Hj|].
  intros p q h11 _ (A1 & A2 & N1 & N2). split; [exact A1|]. split; [exact A2|]. split; eapply new_int_keeps; eassumption.
Qed.

(** * Buffers *)
(** A slice that is all of its buffer. *)
Definition whole (h : heap) (s : slice) (l : list Z) : Prop :=
  (s_buf s < List.length (bufs h))%nat /\ s = mkSl (s_buf s) 0 (List.length l) (List.length l) /\ nth (s_buf s) (bufs h) [] = l.
Lemma whole_slice : forall h s l, whole h s l -> slice_at h s l.
Proof.
  intros h s l (B & E & N). unfold slice_at, view. rewrite N. rewrite E. cbn. split; [exact B|]. split; [lia|]. split; [lia|]. apply firstn_all.
Qed.
Lemma whole_len : forall h s l, whole h s l -> s_len s = List.length l.
Proof. intros h s l (_ & E & _). rewrite E. reflexivity. Qed.
Lemma whole_keeps : forall W h h' s l, keeps W h h' -> ~ W (s_buf s) -> whole h s l -> whole h' s l.
Proof. intros W h h' s l (_ & L & H) N (A & B & C). destruct (H _ A) as [_ E2]. split; [lia|]. split; [exact B|]. rewrite (E2 N). exact C. Qed.
Lemma slice_len : forall h s l, slice_at h s l -> s_len s = List.length l.
Proof. intros h s l (_ & A & B & <-). unfold view. rewrite firstn_length, skipn_length. lia. Qed.
Lemma newBuf_gives : forall l h, gives (newBuf l) h (fun s h' => whole h' s l /\ new_slice h s).
Proof.
  intros l h. eexists _, _. split; [reflexivity|]. split; [|split; [split; [|split]|]]; cbn.
  - split; [exists []; symmetry; apply app_nil_r|]. cbn. rewrite app_length. split; [lia|]. intros j Hj. rewrite app_nth1 by exact Hj. split; [reflexivity|intros _; reflexivity].
  - rewrite app_length. cbn. lia.
  - reflexivity.
  - rewrite app_nth2, Nat.sub_diag by apply le_n. reflexivity.
  - apply le_n.
Qed.
Lemma runs_newBuf : forall A B W l (k : slice -> prog A) h (o : go B) R,
  (forall s h', keeps none h h' -> whole h' s l -> new_slice h s -> runs W (k s) h' o R) -> runs W (bindp (newBuf l) k) h o R.
Proof. intros A B W l k h o R H. eapply runs_gives; [apply newBuf_gives|]. intros s h' K [Q1 Q2]. apply H; assumption. Qed.
Lemma runs_make : forall A B W n (k : slice -> prog A) h (o : go B) R, 0 <= n ->
  (forall s h', keeps none h h' -> whole h' s (repeat 0 (Z.to_nat n)) -> new_slice h s -> runs W (k s) h' o R) -> runs W (bindp (makeM n) k) h o R.
Proof.
  intros A B W n k h o R P H. eapply runs_gives with (Q := fun s h' => whole h' s (repeat 0 (Z.to_nat n)) /\ new_slice h s).
  - unfold makeM, go_make. destruct (Z.ltb_spec n 0); [lia|]. exact (newBuf_gives _ h).
  - intros s h' K [Q1 Q2]. apply H; assumption.
Qed.
(** Overwriting one buffer. *)
Definition wr (h : heap) (B : nat) (l : list Z) : heap := mkHeap (ints h) (upd (bufs h) B l).
Lemma wr_keeps : forall h B l, (B < List.length (bufs h))%nat -> List.length l = List.length (nth B (bufs h) []) -> keeps (eq B) h (wr h B l).
Proof.
  intros h B l HB L. split; [exists []; symmetry; apply app_nil_r|]. cbn. rewrite upd_length. split; [lia|].
  intros j Hj. destruct (Nat.eq_dec B j) as [<-|N]; [|rewrite nth_upd_other by exact N; split; [reflexivity|intros _; reflexivity]].
  rewrite nth_upd_same by exact HB. split; [exact L|]. intro N. contradiction N. reflexivity.
Qed.
Lemma wr_whole : forall h s l l', whole h s l -> List.length l' = List.length l -> keeps (eq (s_buf s)) h (wr h (s_buf s) l') /\ whole (wr h (s_buf s) l') s l'.
Proof.
  intros h s l l' (A & B & C) L. split; [apply wr_keeps; [exact A|rewrite C; exact L]|]. split; [cbn; rewrite upd_length; exact A|].
  split; [rewrite L; exact B|]. cbn. apply nth_upd_same. exact A.
Qed.
Lemma runs_step : forall A C B (W : nat -> Prop) (m : prog A) (k : A -> prog C) h (o : go B) R W1 a h', m h = (Ret a, h') -> keeps W1 h h' -> (forall j, W1 j -> W j) ->
  runs W (k a) h' o R -> runs W (bindp m k) h o R.
Proof.
  intros A C B W m k h o R W1 a h' E K I [K2 M]. unfold runs. rewrite run_bind, E. split; [|exact M].
  apply (keeps_local W W h h' _); [|auto|exact K2]. apply (keeps_local W1 W h h h'); [apply keeps_refl|auto|exact K].
Qed.
Lemma runs_put : forall A B (W : nat -> Prop) s b l (k : unit -> prog A) h (o : go B) R, whole h s b -> (List.length l <= List.length b)%nat -> W (s_buf s) ->
  (forall h', keeps (eq (s_buf s)) h h' -> whole h' s (l ++ skipn (List.length l) b) -> runs W (k tt) h' o R) -> runs W (bindp (putM s l) k) h o R.
Proof.
  intros A B W s b l k h o R Hw L HW H. destruct (wr_whole h s b (l ++ skipn (List.length l) b) Hw) as [K1 K2]; [rewrite app_length, skipn_length; lia|].
  eapply runs_step; [|exact K1|intros j <-; exact HW|apply H; assumption].
  cbn [putM run retp]. unfold putAt. destruct Hw as (_ & E & N). rewrite N. rewrite E at 2 3. cbn. reflexivity.
Qed.
(** dst[:] = src when they have the same length *)
Lemma runs_copy_all : forall A B (W : nat -> Prop) dst src l m (k : unit -> prog A) h (o : go B) R, whole h dst l -> slice_at h src m -> List.length m = List.length l -> W (s_buf dst) ->
  (forall h', keeps (eq (s_buf dst)) h h' -> whole h' dst m -> runs W (k tt) h' o R) -> runs W (bindp (copyM dst src) k) h o R.
Proof.
  intros A B W dst src l m k h o R Hd Hs L HW H. destruct (wr_whole h dst l m Hd L) as [K1 K2].
  eapply runs_step; [|exact K1|intros j <-; exact HW|apply H; assumption].
  unfold copyM. cbn [bindp readAll putM run retp]. unfold putAt. destruct Hs as (_ & _ & _ & Hs). unfold view in Hs. rewrite Hs. rewrite (whole_len _ _ _ Hd), <- L, firstn_all. destruct Hd as (_ & E & N). rewrite N. rewrite E at 2 3. cbn.
  rewrite L, skipn_all, app_nil_r. reflexivity.
Qed.
Lemma runs_slice : forall A B W s l lo hi (k : slice -> prog A) h (o : go B) R, slice_at h s l -> 0 <= lo <= hi -> hi <= zlen l ->
  (forall w, slice_at h w (sub l lo hi) -> s_buf w = s_buf s -> runs W (k w) h o R) -> runs W (bindp (sliceM s lo hi) k) h o R.
Proof.
  intros A B W s l lo hi k h o R Hs L1 L2 H. assert (LL := slice_len _ _ _ Hs). destruct Hs as (H1 & H2 & H3 & H4). unfold zlen in L2.
  unfold sliceM. assert (T : ((0 <=? lo) && (lo <=? hi) && (hi <=? Z.of_nat (s_cap s)))%bool = true).
  { destruct (Z.leb_spec 0 lo); [|lia]. destruct (Z.leb_spec lo hi); [|lia]. destruct (Z.leb_spec hi (Z.of_nat (s_cap s))); [reflexivity|lia]. }
  rewrite T. apply (H (mkSl (s_buf s) (s_off s + Z.to_nat lo) (Z.to_nat (hi - lo)) (s_cap s - Z.to_nat lo))); [|reflexivity].
  split; [exact H1|]. split; [cbn; lia|]. split; [cbn; lia|]. rewrite <- H4. unfold view, sub. cbn. rewrite skipn_firstn_comm, skipn_skipn, firstn_firstn.
  rewrite Nat.min_l by lia. replace (Z.to_nat lo + s_off s)%nat with (s_off s + Z.to_nat lo)%nat by lia. reflexivity.
Qed.
Lemma copy_at_length : forall l lo hi m, 0 <= lo <= hi -> hi <= zlen l -> List.length (copy_at l lo hi m) = List.length l.
Proof. intros l lo hi m H1 H2. unfold copy_at, zlen in *. rewrite !app_length, !firstn_length, skipn_length. lia. Qed.
Lemma runs_jump : forall A B (W : nat -> Prop) (m m' : prog A) h (o : go B) R W1 h', m h = m' h' -> keeps W1 h h' -> (forall j, W1 j -> W j) ->
  runs W m' h' o R -> runs W m h o R.
Proof.
  intros A B W m m' h o R W1 h' E K I [K2 M]. unfold runs. rewrite E. split; [|exact M].
  apply (keeps_local W W h h' _); [|auto|exact K2]. apply (keeps_local W1 W h h h'); [apply keeps_refl|auto|exact K].
Qed.
Lemma runs_copy_into : forall A B (W : nat -> Prop) s src l m lo hi (k : prog A) h (o : go B) R, whole h s l -> slice_at h src m -> 0 <= lo <= hi -> hi <= zlen l -> W (s_buf s) ->
  (forall h', keeps (eq (s_buf s)) h h' -> whole h' s (copy_at l lo hi m) -> runs W k h' o R) -> runs W (mem w <- sliceM s lo hi; mem _ <- copyM w src; k) h o R.
Proof.
  intros A B W s src l m lo hi k h o R Hd Hs L1 L2 HW H. destruct (wr_whole h s l (copy_at l lo hi m) Hd (copy_at_length l lo hi m L1 L2)) as [K1 K2].
  eapply runs_jump; [|exact K1|intros j <-; exact HW|apply H; [exact K1|exact K2]].
  unfold sliceM, zlen in *. destruct Hd as (_ & E & N). assert (T : ((0 <=? lo) && (lo <=? hi) && (hi <=? Z.of_nat (s_cap s)))%bool = true).
  { rewrite E. cbn. destruct (Z.leb_spec 0 lo); [|lia]. destruct (Z.leb_spec lo hi); [|lia]. destruct (Z.leb_spec hi (Z.of_nat (List.length l))); [reflexivity|lia]. }
  rewrite T. unfold copyM. cbn [bindp readAll putM run retp]. unfold putAt. destruct Hs as (_ & _ & _ & Hs). unfold view in Hs. rewrite Hs. cbn [s_buf s_off s_len]. rewrite N. apply (f_equal (run k)). unfold wr. f_equal. f_equal.
  replace (s_off s) with 0%nat by (rewrite E; reflexivity). unfold copy_at. cbn [Nat.add]. f_equal. rewrite firstn_length. unfold zlen.
  replace (Z.to_nat (Z.min (hi - lo) (Z.of_nat (List.length m)))) with (Nat.min (Z.to_nat (hi - lo)) (List.length m)) by lia.
  f_equal. rewrite <- firstn_firstn, firstn_all. reflexivity.
Qed.

Lemma runs_map : forall A B C W (m : prog A) h (o : go B) (f : B -> C) R1 (R : A -> C -> heap -> Prop), runs W m h o R1 ->
  (forall a b h', keeps W h h' -> R1 a b h' -> R a (f b) h') -> runs W m h (bind o (fun b => Ret (f b))) R.
Proof.
  intros A B C W m h o f R1 R [K M] H. split; [exact K|]. destruct o as [b|e]; cbn [bind]; [|exact M]. destruct (fst (m h)); [|exact M]. apply H; assumption.
Qed.
Lemma runs_bind2 : forall A C B D (W1 W : nat -> Prop) (m : prog A) (k : A -> prog C) h (o : go B) (k' : B -> go D) R1 R, runs W1 m h o R1 -> (forall j, W1 j -> W j) ->
  (forall a b h', keeps W1 h h' -> R1 a b h' -> runs W (k a) h' (k' b) R) -> runs W (bindp m k) h (bind o k') R.
Proof.
  intros A C B D W1 W m k h o k' R1 R H HW H2.
  apply (runs_bind _ _ _ _ _ _ _ _ _ _ (fun a b h' => R1 a b h' /\ keeps W1 h h')).
  - apply (runs_weaken _ _ W1 W m h o R1); [exact H|exact HW|]. intros a b h' K Q. split; assumption.
  - intros a b h' _ [Q K]. apply H2; assumption.
Qed.

Lemma xorM_runs : forall n i h part kb pre todo kl, (s_buf part < List.length (bufs h))%nat -> nth (s_buf part) (bufs h) [] = pre ++ todo ->
  (s_off part + i = List.length pre)%nat -> (s_len part = i + List.length todo)%nat -> whole h kb kl -> s_buf kb <> s_buf part ->
  runs (eq (s_buf part)) (xorM n i part kb) h (xor todo (skipn i kl) n) (fun _ r h' => nth (s_buf part) (bufs h') [] = pre ++ r).
Proof.
  induction n as [|n IH]; intros i h part kb pre todo kl HB HN HO HL HK ND; cbn [xorM]; [replace (xor todo (skipn i kl) 0) with (@Ret (list Z) todo) by (destruct todo; reflexivity); apply runs_ret; exact HN|].
  assert (KE : indexM kb i h = (if Nat.ltb i (List.length kl) then Ret (nth i kl 0) else Panic PIndex, h)).
  { unfold indexM. rewrite (whole_len _ _ _ HK). destruct HK as (_ & E & N). destruct (Nat.ltb i (List.length kl)); [|reflexivity]. cbn [run retp]. rewrite N. rewrite E. reflexivity. }
  destruct todo as [|x todo].
  { assert (E : indexM part i = liftp (Panic PIndex)). { unfold indexM. rewrite HL. cbn [List.length]. rewrite Nat.add_0_r, Nat.ltb_irrefl. reflexivity. }
    rewrite E. split; [apply keeps_refl|exact I]. }
  assert (EI : indexM part i h = (Ret x, h)).
  { unfold indexM. rewrite HL. cbn [List.length]. destruct (Nat.ltb_spec i (i + S (List.length todo))); [|lia]. cbn [run retp]. rewrite HN, HO, app_nth2, Nat.sub_diag by lia. reflexivity. }
  destruct (skipn i kl) as [|kv kr] eqn:SK.
  { assert (L : (List.length kl <= i)%nat) by (apply (f_equal (@List.length Z)) in SK; rewrite skipn_length in SK; cbn in SK; lia).
    destruct (Nat.ltb_spec i (List.length kl)) as [|_]; [lia|]. unfold runs. rewrite run_bind, EI, run_bind, KE. split; [apply keeps_refl|exact I]. }
  assert (L : (i < List.length kl)%nat). { apply (f_equal (@List.length Z)) in SK; rewrite skipn_length in SK; cbn in SK; lia. }
  destruct (Nat.ltb_spec i (List.length kl)) as [_|]; [|lia].
  assert (NK : nth i kl 0 = kv /\ skipn (S i) kl = kr).
  { clear -SK. revert kl SK. induction i as [|i IH]; intros [|y kl] SK; try discriminate SK; [injection SK as <- <-; split; reflexivity|]. apply IH. exact SK. }
  destruct NK as [NK1 NK2]. rewrite NK1 in KE.
  set (h1 := wr h (s_buf part) (pre ++ Z.lxor x kv :: todo)).
  assert (ST : storeM part i (Z.lxor x kv) h = (Ret tt, h1)).
  { unfold storeM. rewrite HL. cbn [List.length]. destruct (Nat.ltb_spec i (i + S (List.length todo))); [|lia]. cbn [run retp]. rewrite HN, HO.
    assert (U : putAt (pre ++ x :: todo) (List.length pre) [Z.lxor x kv] = pre ++ Z.lxor x kv :: todo).
    { unfold putAt. cbn [List.length app]. rewrite firstn_app, Nat.sub_diag, firstn_O, app_nil_r, firstn_all. f_equal. f_equal.
      clear. induction pre; cbn; [reflexivity|assumption]. }
    rewrite U. reflexivity. }
  assert (K1 : keeps (eq (s_buf part)) h h1). { apply wr_keeps; [exact HB|]. rewrite HN, !app_length. reflexivity. }
  assert (G : runs (eq (s_buf part)) (xorM n (S i) part kb) h1 (xor todo kr n) (fun _ r h' => nth (s_buf part) (bufs h') [] = (pre ++ [Z.lxor x kv]) ++ r)).
  { rewrite <- NK2. apply IH.
    - unfold h1. cbn. rewrite upd_length. exact HB.
    - unfold h1. cbn. rewrite nth_upd_same by exact HB. rewrite <- app_assoc. reflexivity.
    - rewrite app_length. cbn. lia.
    - rewrite HL. cbn. lia.
    - eapply whole_keeps; [exact K1| |exact HK]. congruence.
    - exact ND. }
  apply (runs_map _ _ _ _ _ _ _ (fun r => Z.lxor x kv :: r) _ (fun _ r h' => nth (s_buf part) (bufs h') [] = pre ++ r)) in G; [|intros a b h' _ Q; rewrite <- app_assoc in Q; exact Q].
  eapply runs_jump; [|exact K1|auto|exact G]. rewrite run_bind, EI, run_bind, KE, run_bind, ST. reflexivity.
Qed.

Lemma xor_length : forall n data kb r, xor data kb n = Ret r -> List.length r = List.length data.
Proof.
  induction n as [|n IH]; intros [|x data] [|k kb] r E; cbn [xor] in E; try discriminate E; try (injection E as <-; reflexivity).
  destruct (xor data kb n) as [r'|] eqn:X; [|discriminate E]. cbn [bind] in E. injection E as <-. cbn. f_equal. eapply IH. exact X.
Qed.

Lemma kdf_loopM_runs : forall fuel h d xb yb ct pre data buf bl enc, whole h buf bl -> List.length bl = 32%nat ->
  whole h enc (pre ++ data) -> s_buf buf <> s_buf enc ->
  runs (fun j => j = s_buf enc \/ j = s_buf buf) (kdf_loopM fuel d xb yb ct (List.length pre) buf enc) h (kdf_loop fuel d xb yb ct data)
    (fun a b h' => a = fst b /\ whole h' enc (pre ++ snd b) /\ List.length (snd b) = List.length data).
Proof.
  induction fuel as [|fuel IH]; intros h d xb yb ct pre data buf bl enc HB LB HE ND; cbn [kdf_loopM kdf_loop].
  all: rewrite (whole_len _ _ _ HE), app_length.
  all: destruct data as [|x data]; [cbn [List.length]; rewrite Nat.add_0_r, Nat.ltb_irrefl; apply runs_ret; split; [reflexivity|split; [exact HE|reflexivity]]|].
  all: destruct (Nat.ltb_spec (List.length pre) (List.length pre + List.length (x :: data))) as [_|Q]; [|cbn in Q; lia].
  - apply runs_panic.
  - cbv zeta. set (dt := x :: data) in *. assert (Ldt : (0 < List.length dt)%nat) by (cbn; lia). clearbody dt.
    eapply runs_put; [exact HB|rewrite be_enc_length, LB; lia|right; reflexivity|]. intros h1 K1 HB1.
    assert (HE1 : whole h1 enc (pre ++ dt)) by (eapply whole_keeps; [exact K1|exact ND|exact HE]). clear HE HB.
    set (b1 := be_enc 4 (u32 (ct + 1)) ++ skipn (List.length (be_enc 4 (u32 (ct + 1)))) bl) in *.
    assert (Lb1 : List.length b1 = 32%nat) by (unfold b1; rewrite app_length, skipn_length, be_enc_length; lia).
    assert (S1 : sub b1 0 4 = be_enc 4 (u32 (ct + 1))).
    { unfold sub, b1. change (Z.to_nat (4 - 0)) with 4%nat. cbn [Z.to_nat skipn]. rewrite firstn_app, be_enc_length, Nat.sub_diag, firstn_O, app_nil_r. apply firstn_all2. rewrite be_enc_length. lia. }
    eapply runs_slice; [apply whole_slice; exact HB1|lia|unfold zlen; lia|]. intros cs Hcs _. rewrite S1 in Hcs.
    eapply runs_read; [exact Hcs|]. apply runs_lift. intros [d1 tmp].
    apply runs_lift_gives. intros tmp1 Et.
    assert (Lt : List.length tmp1 = 32%nat).
    { destruct (Z.le_gt_cases 32 (zlen tmp)) as [L|L].
      - rewrite go_slice_ret in Et by lia. injection Et as <-. unfold sub, zlen in *. rewrite firstn_length, skipn_length. lia.
      - rewrite go_slice_panic in Et by lia. discriminate Et. }
    eapply runs_put; [exact HB1|lia|right; reflexivity|]. intros h2 K2 HB2. rewrite skipn_all2, app_nil_r in HB2 by lia.
    assert (HE2 : whole h2 enc (pre ++ dt)) by (eapply whole_keeps; [exact K2|exact ND|exact HE1]). clear HE1 HB1 Hcs.
    set (xl := Z.to_nat (Z.min (zlen dt) DigestLength)).
    replace (Z.to_nat (Z.min (Z.of_nat (List.length pre + List.length dt - List.length pre)) DigestLength)) with xl by (unfold xl, zlen; f_equal; f_equal; lia).
    assert (Lxl : (xl <= List.length dt)%nat) by (unfold xl, zlen, DigestLength; lia).
    assert (EP : sliceM enc (Z.of_nat (List.length pre)) (Z.of_nat (List.length pre + List.length dt)) = retp (mkSl (s_buf enc) (List.length pre) (List.length dt) (List.length dt))).
    { unfold sliceM. assert (EE := HE2). destruct EE as (_ & EE & _). rewrite EE. cbn. rewrite app_length.
      assert (T : ((0 <=? Z.of_nat (List.length pre)) && (Z.of_nat (List.length pre) <=? Z.of_nat (List.length pre + List.length dt)) && (Z.of_nat (List.length pre + List.length dt) <=? Z.of_nat (List.length pre + List.length dt)))%bool = true).
      { destruct (Z.leb_spec 0 (Z.of_nat (List.length pre))); [|lia]. destruct (Z.leb_spec (Z.of_nat (List.length pre)) (Z.of_nat (List.length pre + List.length dt))); [|lia]. apply Z.leb_refl. }
      rewrite T. f_equal. f_equal; lia. }
    rewrite EP. set (part := mkSl (s_buf enc) (List.length pre) (List.length dt) (List.length dt)).
    match goal with |- runs ?W (bindp (retp part) ?k) ?h ?o ?R => change (runs W (k part) h o R) end. cbv beta.
    apply (runs_bind2 _ _ _ _ (eq (s_buf enc)) _ _ _ _ _ _ (fun _ r h' => nth (s_buf enc) (bufs h') [] = pre ++ r /\ List.length r = List.length dt)); [|intros j <-; left; reflexivity|].
    + assert (G := xorM_runs xl 0 h2 part buf pre dt tmp1 (proj1 HE2) (proj2 (proj2 HE2)) (Nat.add_0_r _) eq_refl HB2 ND). cbn [skipn] in G. cbn [s_buf part] in G.
      unfold runs in *. destruct G as [G1 G2]. split; [exact G1|]. destruct (xor dt tmp1 xl) as [r|] eqn:EX; [|exact G2]. destruct (fst (xorM xl 0 part buf h2)); [|exact G2].
      split; [exact G2|]. eapply xor_length. exact EX.
    + intros _ r h3 K3 [Nr Lr].
      assert (HE3 : whole h3 enc (pre ++ r)).
      { destruct HE2 as (A1 & A2 & A3). split; [apply keeps_bufs in K3; lia|]. split; [|exact Nr]. rewrite app_length, Lr, <- app_length. exact A2. }
      assert (HB3 : whole h3 buf tmp1) by (eapply whole_keeps; [exact K3|congruence|exact HB2]).
      rewrite <- (firstn_skipn xl r), app_assoc in HE3.
      assert (LP : (List.length pre + xl = List.length (pre ++ firstn xl r))%nat) by (rewrite app_length, firstn_length; lia).
      rewrite LP.
      assert (G := IH h3 d1 xb yb (u32 (ct + 1)) (pre ++ firstn xl r) (skipn xl r) buf tmp1 enc HB3 Lt HE3 ND).
      apply (runs_map _ _ _ _ _ _ _ (fun p => (fst p, firstn xl r ++ snd p)) _ (fun a b h' => a = fst b /\ whole h' enc (pre ++ snd b) /\ List.length (snd b) = List.length dt)) in G.
      * destruct (kdf_loop fuel d1 xb yb (u32 (ct + 1)) (skipn xl r)) as [[d2 rest]|]; exact G.
      * intros a [d2 rest] h' _ (Q1 & Q2 & Q3). cbn [fst snd] in *. split; [exact Q1|]. split; [rewrite app_assoc; exact Q2|]. rewrite app_length, firstn_length, Q3, skipn_length. lia.
Qed.
Lemma runs_local : forall A C B (V W1 : nat -> Prop) (m : prog A) (k : A -> prog C) h (o : go B) R a h1, m h = (Ret a, h1) -> keeps none h h1 -> runs W1 (k a) h1 o R ->
  (forall j, W1 j -> V j \/ (List.length (bufs h) <= j)%nat) -> runs V (bindp m k) h o R.
Proof.
  intros A C B V W1 m k h o R a h1 E K [G1 G2] I. unfold runs. rewrite run_bind, E. split; [|exact G2].
  eapply keeps_local; [apply keeps_weaken; exact K|exact I|exact G1].
Qed.
Lemma kdfM_runs : forall h d cx cy x y enc l, int_at h cx x -> int_at h cy y -> whole h enc l ->
  runs (eq (s_buf enc)) (kdfM d cx cy enc) h (kdf d x y l) (fun a b h' => a = fst b /\ whole h' enc (snd b) /\ List.length (snd b) = List.length l).
Proof.
  intros h d cx cy x y enc l Hx Hy HE. unfold kdfM, kdf.
  assert (Q : exists buf h1, makeM 32 h = (Ret buf, h1) /\ keeps none h h1 /\ whole h1 buf (repeat 0 32) /\ new_slice h buf).
  { destruct (newBuf_gives (repeat 0 32) h) as (buf & h1 & E & K & HW & N). exists buf, h1. repeat (split; [assumption|]). assumption. }
  destruct Q as (buf & h1 & EM & K & HB & NB).
  assert (ND : s_buf buf <> s_buf enc) by (destruct HE as (A & _); unfold new_slice in NB; lia).
  apply (whole_keeps _ _ _ _ _ K (fun F : none _ => F)) in HE. apply (int_keeps _ _ _ _ _ K) in Hx. apply (int_keeps _ _ _ _ _ K) in Hy.
  assert (G : runs (fun j => j = s_buf enc \/ j = s_buf buf) (mem xb <- bigIntTo32BytesM cx; mem yb <- bigIntTo32BytesM cy; kdf_loopM (s_len enc) d xb yb 0 0 buf enc) h1 (kdf d x y l)
    (fun a b h' => a = fst b /\ whole h' enc (snd b) /\ List.length (snd b) = List.length l)).
  { unfold kdf. eapply runs_to32; [exact Hx|]. intro xb. eapply runs_to32; [exact Hy|]. intro yb. rewrite (whole_len _ _ _ HE).
    exact (kdf_loopM_runs (List.length l) h1 d xb yb 0 [] l buf (repeat 0 32) enc HB eq_refl HE ND). }
  apply (runs_local _ _ _ _ _ _ _ _ _ _ _ _ EM K G). intros j [->| ->]; [left; reflexivity|right; exact NB].
Qed.

(** * Encryption and decryption *)
Definition newb (h0 : heap) : nat -> Prop := fun j => (List.length (bufs h0) <= j)%nat.
Definition older (h0 h : heap) : Prop := (List.length (bufs h0) <= List.length (bufs h))%nat.
(** Transport when nothing, or one buffer of ours, has been written. *)
Ltac go_on :=
  match goal with
  | K : keeps ?W ?h ?h' |- _ =>
      repeat match goal with
      | H : int_at h _ _ |- _ => apply (int_keeps W h h' _ _ K) in H
      | H : curve_at h _ |- _ => apply (curve_keeps W h h' _ K) in H
      | H : pub_at h _ _ |- _ => apply (pub_keeps W h h' _ _ K) in H
      | H : priv_at h _ _ |- _ => apply (priv_keeps W h h' _ _ K) in H
      | H : slice_at h ?s _ |- _ => apply (slice_keeps W h h' _ _ K) in H; [|first [exact (fun F : none _ => F)|let E := fresh in intro E; lia]]
      | H : whole h ?s _ |- _ => apply (whole_keeps W h h' _ _ K) in H; [|first [exact (fun F : none _ => F)|let E := fresh in intro E; lia]]
      | H : older ?h0 h |- _ => let H' := fresh in assert (H' : older h0 h') by (apply keeps_bufs in K; unfold older in *; lia); clear H; rename H' into H
      end; clear K
  end.
Lemma whole_lt : forall h s l, whole h s l -> (s_buf s < List.length (bufs h))%nat.
Proof. intros h s l (A & _). exact A. Qed.
Lemma encrypt_loopM_runs : forall fuel h0 h pub q inp li c2 l2 d tape, older h0 h -> pub_at h pub q -> slice_at h inp li -> (s_buf inp < List.length (bufs h0))%nat ->
  whole h c2 l2 -> new_slice h0 c2 ->
  runs (newb h0) (encrypt_loopM fuel pub inp c2 d tape) h (encrypt_loop fuel q li l2 d tape)
    (fun a b h' => older h0 h' /\ slice_at h' inp li /\ res_at (fun u v => match u, v with (c1, px, py, d1), (c1l, c2l, x, y, d2) =>
       whole h' c1 c1l /\ whole h' c2 c2l /\ int_at h' px x /\ int_at h' py y /\ d1 = d2 /\ List.length c2l = List.length l2 end) a b).
Proof.
  induction fuel as [|fuel IH]; intros h0 h pub q inp li c2 l2 d tape O0 P HI BI HC NC; cbn [encrypt_loopM encrypt_loop].
  all: eapply runs_gives; [apply nextKM_gives; apply P|]; intros a h1 K1 Q; destruct (nextK curveN tape) as [[k|er] t]; go_on.
  2, 4: subst a; apply runs_ret; split; [exact O0|]; split; [exact HI|]; split; reflexivity.
  all: destruct Q as (p & -> & Ip & _); cbv beta iota zeta; eapply runs_bytes; [exact Ip|]; clear Ip.
  all: eapply runs_bind2; [apply (ScalarBaseMultM_runs none); apply P|intros j []|]; intros [px py] [x y] h2 K2 (Ix & Iy & _ & _); cbn [fst snd] in Ix, Iy; go_on; cbv beta iota.
  all: eapply runs_get; [exact Ix|]; eapply runs_get; [exact Iy|]; apply runs_lift; intro c1l; apply runs_newBuf; intros c1 h3 K3 H1 N1.
  all: assert (ND : s_buf c1 <> s_buf c2) by (apply whole_lt in HC; unfold new_slice in N1; lia); go_on; clear N1.
  all: eapply runs_bind2; [apply (ScalarMultM_runs none); apply P|intros j []|]; intros [sx sy] [vx vy] h4 K4 (Jx & Jy & _ & _); cbn [fst snd] in Jx, Jy; go_on; cbv beta iota.
  all: eapply runs_bind2; [apply kdfM_runs; [exact Jx|exact Jy|exact HC]|intros j <-; exact NC|]; intros d1 [d2 c2l] h5 K5 (-> & HC2 & L2); cbn [fst snd] in HC2, L2; clear HC.
  all: assert (NI : s_buf inp <> s_buf c2) by (unfold new_slice in NC; lia); go_on; cbv beta iota.
  all: eapply runs_read; [apply whole_slice; exact HC2|]; eapply runs_read; [exact HI|]; apply runs_lift; intro ne; destruct (negb ne).
  1, 3: apply runs_ret; split; [exact O0|]; split; [exact HI|]; split; [|reflexivity]; cbn [fst snd];
        split; [exact H1|]; split; [exact HC2|]; split; [exact Jx|]; split; [exact Jy|]; split; [reflexivity|exact L2].
  - apply runs_panic.
  - rewrite <- L2. apply IH; assumption.
Qed.

(** Filling a buffer of zeros part by part. *)
Lemma fill_at : forall (a m : list Z) k lo hi, lo = zlen a -> hi = lo + zlen m ->
  copy_at (a ++ repeat 0 (List.length m + k)) lo hi m = (a ++ m) ++ repeat 0 k.
Proof.
  intros a m k lo hi -> ->. unfold copy_at, zlen. replace (Z.to_nat (Z.of_nat (List.length a))) with (List.length a) by lia.
  replace (Z.to_nat (Z.min (Z.of_nat (List.length a) + Z.of_nat (List.length m) - Z.of_nat (List.length a)) (Z.of_nat (List.length m)))) with (List.length m) by lia.
  rewrite firstn_app, Nat.sub_diag, firstn_O, app_nil_r, firstn_all, firstn_all, <- app_assoc. f_equal. f_equal.
  rewrite skipn_app, (skipn_all2 a) by lia. cbn [app]. replace (List.length a + List.length m - List.length a)%nat with (List.length m) by lia.
  rewrite repeat_app, skipn_app, skipn_all2 by (rewrite repeat_length; lia). rewrite repeat_length, Nat.sub_diag. reflexivity.
Qed.
Lemma older_refl : forall h, older h h. Proof. intro h. apply le_n. Qed.
Lemma newb_none : forall h h', keeps (newb h) h h' -> keeps none h h'.
Proof. intros h h' K. apply (keeps_local (newb h) none h h h'); [apply keeps_refl|intros j H; right; exact H|exact K]. Qed.
Lemma runs_newb : forall A B (m : prog A) h (o : go B) R, runs (newb h) m h o R -> runs none m h o R.
Proof. intros A B m h o R [K M]. split; [apply newb_none; exact K|exact M]. Qed.

Lemma EncryptM_runs : forall h pub q inp li t tape, pub_at h pub q -> slice_at h inp li ->
  runs none (EncryptM pub inp t tape) h (Encrypt q li t tape) (fun a b h' => res_at (fun s l => whole h' s l /\ new_slice h s) a b).
Proof.
  intros h0 pub q inp li t tape P HI. apply runs_newb. assert (BI : (s_buf inp < List.length (bufs h0))%nat) by apply HI. unfold EncryptM, Encrypt.
  assert (O0 : older h0 h0) by apply older_refl. remember h0 as h eqn:Eh in O0 at 2, P, HI |- * at 2. clear Eh.
  apply runs_make; [lia|]. intros c2 h1 K1 HC NC. assert (NC0 : new_slice h0 c2) by (unfold new_slice, older in *; lia). clear NC. go_on.
  rewrite (slice_len _ _ _ HI), Nat2Z.id in HC.
  eapply runs_copy_all; [exact HC|exact HI|symmetry; apply repeat_length|exact NC0|]. intros h2 K2 HC2. clear HC.
  assert (NI : s_buf inp <> s_buf c2) by (unfold new_slice in NC0; lia). go_on.
  eapply runs_bind; [apply (encrypt_loopM_runs _ h0); [exact O0|exact P|exact HI|exact BI|exact HC2|exact NC0]|].
  intros [[[[[c1 px] py] d1]|er] t1] [[[[[[c1l c2l] x] y] d2]|er'] t2] h3 _ (O3 & HI3 & Q1 & Q2); cbn [fst snd] in Q1, Q2; try (exfalso; exact Q1); subst t2; cbv beta iota.
  2: subst er'; apply runs_ret; split; reflexivity.
  destruct Q1 as (H1 & H2 & Ix & Iy & -> & L2). clear HC2 HI P O0.
  eapply runs_to32; [exact Ix|]. intro xb. eapply runs_to32; [exact Iy|]. intro yb. eapply runs_read; [exact HI3|]. apply runs_lift. intros [d3 c3l]. cbv beta iota.
  apply runs_newBuf. intros c3 h4 K4 H3 N3. go_on. clear N3. cbv zeta.
  rewrite (whole_len _ _ _ H1), (whole_len _ _ _ H2), (whole_len _ _ _ H3).
  apply runs_make; [lia|]. intros res h5 K5 HR NR. assert (NR0 : new_slice h0 res) by (unfold new_slice, older in *; lia).
  assert (D1 : s_buf c1 <> s_buf res) by (apply whole_lt in H1; unfold new_slice in NR; lia).
  assert (D2 : s_buf c2 <> s_buf res) by (apply whole_lt in H2; unfold new_slice in NR; lia).
  assert (D3 : s_buf c3 <> s_buf res) by (apply whole_lt in H3; unfold new_slice in NR; lia). clear NR. go_on. clear h h1 h2 HI3.
  destruct (t =? C1C2C3); [|destruct (t =? C1C3C2)].
  - replace (Z.to_nat (Z.of_nat (List.length c1l) + Z.of_nat (List.length c2l) + Z.of_nat (List.length c3l))) with (List.length c1l + (List.length c2l + (List.length c3l + 0)))%nat in HR by lia.
    rewrite (whole_len _ _ _ HR), repeat_length.
    eapply runs_copy_into; [exact HR|apply whole_slice; exact H1|lia|unfold zlen; rewrite repeat_length; lia|exact NR0|]. intros h6 K6 HR6. clear HR. go_on.
    pose proof (fill_at [] c1l (List.length c2l + (List.length c3l + 0)) 0 (Z.of_nat (List.length c1l)) eq_refl eq_refl) as F1. cbn [app] in F1. rewrite F1 in HR6. clear F1.
    eapply runs_copy_into; [exact HR6|apply whole_slice; exact H2|lia|unfold zlen; rewrite app_length, repeat_length; lia|exact NR0|]. intros h7 K7 HR7. clear HR6. go_on.
    rewrite fill_at in HR7 by (unfold zlen; lia).
    eapply runs_copy_into; [exact HR7|apply whole_slice; exact H3|lia|unfold zlen; rewrite !app_length, repeat_length; lia|exact NR0|]. intros h8 K8 HR8. clear HR7.
    rewrite fill_at in HR8 by (unfold zlen; rewrite ?app_length; lia). cbn [repeat] in HR8. rewrite app_nil_r, <- app_assoc in HR8.
    apply runs_ret. split; [|reflexivity]. split; [exact HR8|exact NR0].
  - replace (Z.to_nat (Z.of_nat (List.length c1l) + Z.of_nat (List.length c2l) + Z.of_nat (List.length c3l))) with (List.length c1l + (List.length c3l + (List.length c2l + 0)))%nat in HR by lia.
    rewrite (whole_len _ _ _ HR), repeat_length.
    eapply runs_copy_into; [exact HR|apply whole_slice; exact H1|lia|unfold zlen; rewrite repeat_length; lia|exact NR0|]. intros h6 K6 HR6. clear HR. go_on.
    pose proof (fill_at [] c1l (List.length c3l + (List.length c2l + 0)) 0 (Z.of_nat (List.length c1l)) eq_refl eq_refl) as F1. cbn [app] in F1. rewrite F1 in HR6. clear F1.
    eapply runs_copy_into; [exact HR6|apply whole_slice; exact H3|lia|unfold zlen; rewrite app_length, repeat_length; lia|exact NR0|]. intros h7 K7 HR7. clear HR6. go_on.
    rewrite fill_at in HR7 by (unfold zlen; lia).
    eapply runs_copy_into; [exact HR7|apply whole_slice; exact H2|lia|unfold zlen; rewrite !app_length, repeat_length; lia|exact NR0|]. intros h8 K8 HR8. clear HR7.
    rewrite fill_at in HR8 by (unfold zlen; rewrite ?app_length; lia). cbn [repeat] in HR8. rewrite app_nil_r, <- app_assoc in HR8.
    apply runs_ret. split; [|reflexivity]. split; [exact HR8|exact NR0].
  - apply runs_ret. split; reflexivity.
Qed.

(** A point that Unmarshal accepts is not infinity, and neither is one times it. *)
Lemma c1_not_infinity : forall l x y sx sy, bytes l -> Unmarshal curveP curveB l = Some (x, y) ->
  curveScalarMult x y (BigBytes sm2H) = Ret (sx, sy) -> IsEcPointInfinity sx sy = false.
Proof.
  intros l x y sx sy HB U E. rewrite curveP_eq, curveB_eq in U. apply Unmarshal_some in U; [|exact HB]. destruct U as (P & On & NO & _ & -> & ->).
  rewrite mult_pt in E by (exact On || (unfold sm2H; lia)). unfold sm2H in E. rewrite pmul_1 in E. apply (f_equal (fun g => match g with Ret v => v | _ => (sx, sy) end)) in E. apply pair_equal_spec in E.
  destruct E as [<- <-]. destruct (IsEcPointInfinity (xc P) (yc P)) eqn:F; [|reflexivity]. apply inf_test in F; [contradiction|exact On].
Qed.
Definition res1_at {A B} (R : A -> B -> Prop) (a : res A) (b : res B) : Prop := match a, b with OK x, OK y => R x y | ERR e, ERR e' => e = e' | _, _ => False end.
(** A slice may be extended up to its capacity. *)
Lemma runs_reslice : forall A B W s l hi (k : slice -> prog A) h p R, slice_at h s l -> bytes (nth (s_buf s) (bufs h) []) -> 0 <= hi ->
  (forall w m, slice_at h w m -> bytes m -> zlen m = hi -> s_buf w = s_buf s -> runs W (k w) h (@Panic B p) R) -> runs W (bindp (sliceM s 0 hi) k) h (@Panic B p) R.
Proof.
  intros A B W s l hi k h p R Hs HB P H. destruct Hs as (H1 & H2 & H3 & H4).
  unfold sliceM. cbn [Z.leb]. destruct (Z.leb_spec 0 hi); [|lia]. cbn [andb Z.leb Z.compare]. destruct (Z.leb_spec hi (Z.of_nat (s_cap s))); [|split; [apply keeps_refl|exact I]].
  set (w := mkSl (s_buf s) (s_off s + Z.to_nat 0) (Z.to_nat (hi - 0)) (s_cap s - Z.to_nat 0)).
  apply (H w (view h w)); [|apply bytes_firstn, bytes_skipn; exact HB| |reflexivity].
  - split; [exact H1|]. cbn. split; [lia|]. split; [lia|reflexivity].
  - unfold view, zlen. cbn. rewrite firstn_length, skipn_length. lia.
Qed.
Lemma DecryptM_runs : forall h g priv d inp li t, globals_at h g -> priv_at h priv d -> slice_at h inp li -> bytes (nth (s_buf inp) (bufs h) []) ->
  runs none (DecryptM g priv inp t) h (Decrypt d li t) (fun a b h' => res1_at (fun s l => whole h' s l /\ new_slice h s) a b).
Proof.
  intros h0 g priv d inp li t (_ & GH & _) (PD & C) HI HBB. apply runs_newb. assert (BI : (s_buf inp < List.length (bufs h0))%nat) by apply HI.
  assert (LI := slice_len _ _ _ HI). unfold DecryptM. cbv zeta. rewrite c1Len_eq.
  assert (O0 : older h0 h0) by apply older_refl. remember h0 as h eqn:Eh in O0 at 2, GH, PD, C, HI, HBB |- * at 2. clear Eh.
  destruct (Z.lt_ge_cases (zlen li) 65) as [SH|LG].
  { rewrite Decrypt_short by exact SH. apply runs_make; [lia|]. intros c1 h1 K1 H1 N1. assert (N10 : newb h0 (s_buf c1)) by (unfold new_slice, newb, older in *; lia).
    assert (HB1 : bytes (nth (s_buf inp) (bufs h1) [])) by (destruct K1 as (_ & _ & K1); rewrite (proj2 (K1 _ (proj1 HI)) (fun F : none _ => F)); exact HBB). go_on.
    eapply runs_reslice; [exact HI|exact HB1|lia|]. intros w m Hw HBm Lm _.
    eapply runs_copy_all; [exact H1|exact Hw|unfold zlen in Lm; rewrite repeat_length; lia|exact N10|]. intros h2 K2 H2. clear H1 Hw. assert (NI : s_buf inp <> s_buf c1) by (unfold newb in N10; lia). go_on.
    eapply runs_read; [apply whole_slice; exact H2|]. eapply runs_get; [apply C|]. eapply runs_get; [apply C|].
    destruct (Unmarshal curveP curveB m) as [q|] eqn:U; [|apply runs_panic]. destruct q as [x y].
    eapply runs_gives; [apply newPair_gives|]. intros [c1x c1y] h3 K3 (Ix & Iy & _ & _); cbn [fst snd] in Ix, Iy. go_on. cbv beta iota.
    eapply runs_bytes; [exact GH|].
    change (@Panic (res (list Z)) PSlice) with (do _ <- @Panic (Z * Z) PSlice; @Panic (res (list Z)) PSlice).
    assert (X : forall (o : go (Z * Z)) P, runs (newb h0) P h3 (do _ <- o; @Panic (res (list Z)) PSlice) (fun a b h' => res1_at (fun s l => whole h' s l /\ new_slice h0 s) a b) ->
      runs (newb h0) P h3 (do _ <- @Panic (Z * Z) PSlice; @Panic (res (list Z)) PSlice) (fun a b h' => res1_at (fun s l => whole h' s l /\ new_slice h0 s) a b)).
    { intros [z|e] P' R'; exact R'. }
    apply (X (curveScalarMult x y (BigBytes sm2H))). clear X.
    assert (N := fun sx sy => c1_not_infinity m x y sx sy HBm U).
    apply (runs_bind _ _ _ _ _ _ _ _ _ _ (fun p q h' => pair_at h3 p q h' /\ IsEcPointInfinity (fst q) (snd q) = false)).
    - assert (G := ScalarMultM_runs (newb h0) h3 (rDC priv) c1x c1y x y (BigBytes sm2H) C Ix Iy). unfold runs in *. destruct G as [G1 G2]. split; [exact G1|].
      destruct (curveScalarMult x y (BigBytes sm2H)) as [[sx sy]|] eqn:ES; [|exact G2]. destruct (fst (ScalarMultM (rDC priv) c1x c1y (BigBytes sm2H) h3)); [|exact G2].
      split; [exact G2|]. exact (N sx sy eq_refl).
    - intros [sx sy] [vx vy] h4 K4 ((Jx & Jy & _ & _) & NI2); cbn [fst snd] in *. clear HI HB1 H2. go_on. cbv beta iota.
      eapply runs_inf; [exact Jx|exact Jy|]. rewrite NI2. eapply runs_bytes; [exact PD|].
      assert (X : forall (o : go (Z * Z)) P, runs (newb h0) P h4 (do _ <- o; @Panic (res (list Z)) PSlice) (fun a b h' => res1_at (fun s l => whole h' s l /\ new_slice h0 s) a b) ->
        runs (newb h0) P h4 (@Panic (res (list Z)) PSlice) (fun a b h' => res1_at (fun s l => whole h' s l /\ new_slice h0 s) a b)).
      { intros [z|e] P' R'; exact R'. }
      apply (X (curveScalarMult x y (BigBytes (D d)))). clear X. eapply runs_bind; [apply ScalarMultM_runs; [exact C|exact Ix|exact Iy]|].
      intros [ux uy] [wx wy] h5 K5 _. cbv beta iota.
      assert (EM : makeM (Z.of_nat (s_len inp) - 65 - DigestLength) = liftp (Panic PMake)).
      { unfold makeM, go_make. unfold zlen, DigestLength in *. destruct (Z.ltb_spec (Z.of_nat (s_len inp) - 65 - 32) 0); [reflexivity|lia]. }
      rewrite EM. split; [apply keeps_refl|exact I]. }
  unfold Decrypt. cbv zeta. rewrite c1Len_eq. rewrite go_slice_ret by lia. cbn [bind]. apply runs_make; [lia|]. intros c1 h1 K1 H1 N1.
  assert (N10 : newb h0 (s_buf c1)) by (unfold new_slice, newb, older in *; lia). clear HBB N1. go_on.
  eapply runs_slice; [exact HI|lia|lia|]. intros w Hw _.
  eapply runs_copy_all; [exact H1|exact Hw|rewrite repeat_length; unfold sub, zlen in *; rewrite firstn_length, skipn_length; lia|exact N10|]. intros h2 K2 H2. clear H1 Hw w.
  assert (NI : s_buf inp <> s_buf c1) by (unfold newb in N10; lia). go_on.
  eapply runs_read; [apply whole_slice; exact H2|]. eapply runs_get; [apply C|]. eapply runs_get; [apply C|].
  destruct (Unmarshal curveP curveB (sub li 0 65)) as [[x y]|]; [|apply runs_panic]. clear H2 NI.
  eapply runs_gives; [apply newPair_gives|]. intros [c1x c1y] h3 K3 (Ix & Iy & _ & _); cbn [fst snd] in Ix, Iy. go_on. cbv beta iota.
  eapply runs_bytes; [exact GH|]. eapply runs_bind2; [apply (ScalarMultM_runs none); [exact C|exact Ix|exact Iy]|intros j []|].
  intros [sx sy] [vx vy] h4 K4 (Jx & Jy & _ & _); cbn [fst snd] in *. go_on. cbv beta iota.
  eapply runs_inf; [exact Jx|exact Jy|]. destruct (IsEcPointInfinity vx vy); [apply runs_ret; reflexivity|]. clear Jx Jy.
  eapply runs_bytes; [exact PD|]. eapply runs_bind2; [apply (ScalarMultM_runs none); [exact C|exact Ix|exact Iy]|intros j []|]. clear Ix Iy.
  intros [ux uy] [wx wy] h5 K5 (Ix & Iy & _ & _); cbn [fst snd] in *. go_on. cbv beta iota.
  rewrite LI. change (Z.of_nat (List.length li)) with (zlen li). unfold DigestLength.
  destruct (Z.lt_ge_cases (zlen li - 65 - 32) 0) as [NEG|POS].
  { unfold go_make. destruct (Z.ltb_spec (zlen li - 65 - 32) 0); [|lia].
    assert (EM : makeM (zlen li - 65 - 32) = liftp (Panic PMake)) by (unfold makeM, go_make; destruct (Z.ltb_spec (zlen li - 65 - 32) 0); [reflexivity|lia]).
    rewrite EM. split; [apply keeps_refl|exact I]. }
  unfold go_make. destruct (Z.ltb_spec (zlen li - 65 - 32) 0); [lia|]. cbn [bind].
  apply runs_make; [lia|]. intros c2 h6 K6 H2 N2. assert (N20 : newb h0 (s_buf c2)) by (unfold new_slice, newb, older in *; lia). clear N2. go_on.
  apply runs_make; [lia|]. intros c3 h7 K7 H3 N3. assert (N30 : newb h0 (s_buf c3)) by (unfold new_slice, newb, older in *; lia).
  assert (D23 : s_buf c2 <> s_buf c3) by (apply whole_lt in H2; unfold new_slice in N3; lia). clear N3. go_on.
  assert (NI2 : s_buf inp <> s_buf c2) by (unfold newb in N20; lia). assert (NI3 : s_buf inp <> s_buf c3) by (unfold newb in N30; lia).
  apply (runs_bind2 _ _ _ _ (fun j => j = s_buf c2 \/ j = s_buf c3) _ _ _ _ _ _ (fun a b h' => res1_at (fun _ q => whole h' c2 (fst q) /\ whole h' c3 (snd q)) a b)); [|intros j [->| ->]; assumption|].
  - destruct (t =? C1C2C3); [|destruct (t =? C1C3C2)].
    + rewrite !go_slice_ret by lia. cbn [bind].
      eapply runs_slice; [exact HI|lia|lia|]. intros w Hw _.
      eapply runs_copy_all; [exact H2|exact Hw|rewrite repeat_length; unfold sub, zlen in *; rewrite firstn_length, skipn_length; lia|left; reflexivity|]. intros h8 K8 H2'. clear H2 Hw w. go_on.
      eapply runs_slice; [exact HI|lia|lia|]. intros w Hw _.
      eapply runs_copy_all; [exact H3|exact Hw|rewrite repeat_length; unfold sub, zlen in *; rewrite firstn_length, skipn_length; lia|right; reflexivity|]. intros h9 K9 H3'. clear H3 Hw w. go_on.
      apply runs_ret. split; assumption.
    + rewrite !go_slice_ret by lia. cbn [bind].
      eapply runs_slice; [exact HI|lia|lia|]. intros w Hw _.
      eapply runs_copy_all; [exact H3|exact Hw|rewrite repeat_length; unfold sub, zlen in *; rewrite firstn_length, skipn_length; lia|right; reflexivity|]. intros h8 K8 H3'. clear H3 Hw w. go_on.
      eapply runs_slice; [exact HI|lia|lia|]. intros w Hw _.
      eapply runs_copy_all; [exact H2|exact Hw|rewrite repeat_length; unfold sub, zlen in *; rewrite firstn_length, skipn_length; lia|left; reflexivity|]. intros h9 K9 H2'. clear H2 Hw w. go_on.
      apply runs_ret. split; assumption.
    + apply runs_ret. reflexivity.
  - intros [[]|e] [[l2 l3]|e'] h8 K8 Q; try (exfalso; exact Q); cbv beta iota; [|cbn in Q; subst e'; apply runs_ret; reflexivity].
    destruct Q as [W2 W3]. cbn [fst snd] in W2, W3. clear H2 H3 HI. go_on.
    eapply runs_bind2; [apply kdfM_runs; [exact Ix|exact Iy|exact W2]|intros j <-; exact N20|]. intros d1 [d2 m] h9 K9 (-> & V2 & _); cbn [fst snd] in *. clear W2. go_on. cbv beta iota.
    eapply runs_to32; [exact Ix|]. intro xb. eapply runs_to32; [exact Iy|]. intro yb.
    eapply runs_read; [apply whole_slice; exact V2|]. eapply runs_read; [apply whole_slice; exact W3|]. apply runs_lift. intros [d3 nc3]. cbv beta iota.
    destruct (list_eq_dec Z.eq_dec nc3 l3); apply runs_ret; [|reflexivity]. split; [exact V2|exact N20].
Qed.

(** * The theorems *)
(** Two outcomes: related values, or a panic in both. *)
Definition agree {A B} (R : A -> B -> Prop) (a : go A) (b : go B) : Prop :=
  match a, b with Ret x, Ret y => R x y | Panic _, Panic _ => True | _, _ => False end.
Lemma runs_agree : forall A B (m : prog A) h (o : go B) R, runs none m h o R ->
  unchanged h (snd (m h)) /\ agree (fun a b => R a b (snd (m h))) (fst (m h)) o.
Proof. intros A B m h o R [K M]. split; [apply keeps_unchanged, K|]. unfold agree. destruct o, (fst (m h)); exact M. Qed.

Theorem C103_sign : forall h g priv d id idl m ml tape, priv_at h priv d -> id_at h g id idl -> slice_at h m ml ->
  let h' := snd (SignToRSM g priv id m tape h) in
  unchanged h h' /\
  agree (res_at (fun rs vs => int_at h' (fst rs) (fst vs) /\ int_at h' (snd rs) (snd vs) /\ new_int h (fst rs) /\ new_int h (snd rs)))
    (fst (SignToRSM g priv id m tape h)) (SignToRS d idl ml tape).
Proof. intros h g priv d id idl m ml tape H1 H2 H3. exact (runs_agree _ _ _ _ _ _ (SignToRSM_runs h g priv d id idl m ml tape H1 H2 H3)). Qed.

Theorem C103_verify : forall h g pub q id idl m ml r s vr vs, pub_at h pub q -> id_at h g id idl -> slice_at h m ml -> int_at h r vr -> int_at h s vs ->
  unchanged h (snd (VerifyByRSM g pub id m r s h)) /\ agree eq (fst (VerifyByRSM g pub id m r s h)) (VerifyByRS q idl ml vr vs).
Proof. intros h g pub q id idl m ml r s vr vs H1 H2 H3 H4 H5. exact (runs_agree _ _ _ _ _ _ (VerifyByRSM_runs h g pub q id idl m ml r s vr vs H1 H2 H3 H4 H5)). Qed.

Theorem C103_encrypt : forall h pub q inp li t tape, pub_at h pub q -> slice_at h inp li ->
  let h' := snd (EncryptM pub inp t tape h) in
  unchanged h h' /\
  agree (res_at (fun s l => slice_at h' s l /\ s_cap s = s_len s /\ new_slice h s)) (fst (EncryptM pub inp t tape h)) (Encrypt q li t tape).
Proof.
  intros h pub q inp li t tape H1 H2 h'. destruct (runs_agree _ _ _ _ _ _ (EncryptM_runs h pub q inp li t tape H1 H2)) as [U A]. fold h' in U, A. split; [exact U|].
  unfold agree in *. destruct (fst (EncryptM pub inp t tape h)) as [[[s|e] t1]|], (Encrypt q li t tape) as [[[l|e'] t2]|]; try exact A. destruct A as [[A1 A2] A3].
  split; [|exact A3]. cbn [fst] in *. split; [apply whole_slice; exact A1|]. split; [|exact A2]. destruct A1 as (_ & -> & _). reflexivity.
Qed.

(** The bytes of a slice beyond its length, up to its capacity, are bytes too. *)
Theorem C103_decrypt : forall h g priv d inp li t, globals_at h g -> priv_at h priv d -> slice_at h inp li -> bytes (nth (s_buf inp) (bufs h) []) ->
  let h' := snd (DecryptM g priv inp t h) in
  unchanged h h' /\
  agree (res1_at (fun s l => slice_at h' s l /\ s_cap s = s_len s /\ new_slice h s)) (fst (DecryptM g priv inp t h)) (Decrypt d li t).
Proof.
  intros h g priv d inp li t H1 H2 H3 H4 h'. destruct (runs_agree _ _ _ _ _ _ (DecryptM_runs h g priv d inp li t H1 H2 H3 H4)) as [U A]. fold h' in U, A. split; [exact U|].
  unfold agree, res1_at in *. destruct (fst (DecryptM g priv inp t h)) as [[s|e]|], (Decrypt d li t) as [[l|e']|]; try exact A. destruct A as [A1 A2].
  split; [apply whole_slice; exact A1|]. split; [|exact A2]. destruct A1 as (_ & -> & _). reflexivity.
Qed.

Theorem C103_generate_key : forall h g tape, globals_at h g ->
  let h' := snd (GenerateKeyM g tape h) in
  unchanged h h' /\
  agree (res_at (fun p q => priv_at h' (fst p) (fst q) /\ pub_at h' (snd p) (snd q) /\ rDC (fst p) = gCurve g /\ rC (snd p) = gCurve g /\
    new_int h (rD (fst p)) /\ new_int h (rX (snd p)) /\ new_int h (rY (snd p)))) (fst (GenerateKeyM g tape h)) (GenerateKey tape).
Proof. intros h g tape H. exact (runs_agree _ _ _ _ _ _ (GenerateKeyM_runs h g tape H)). Qed.

Theorem C103_calculate_pub_key : forall h priv d, priv_at h priv d ->
  let h' := snd (CalculatePubKeyM priv h) in
  unchanged h h' /\
  agree (fun p q => pub_at h' p q /\ rC p = rDC priv /\ new_int h (rX p) /\ new_int h (rY p)) (fst (CalculatePubKeyM priv h)) (CalculatePubKey d).
Proof. intros h priv d H. exact (runs_agree _ _ _ _ _ _ (CalculatePubKeyM_runs h priv d H)). Qed.

Lemma RawPub_runs : forall h g bs l, globals_at h g -> slice_at h bs l ->
  runs none (RawBytesToPublicKeyM g bs) h (Ret (RawBytesToPublicKey l)) (fun a b h' => res1_at (fun p q => pub_at h' p q /\ rC p = gCurve g /\ new_int h (rX p) /\ new_int h (rY p)) a b).
Proof.
  intros h0 g bs l (C & _) HS. unfold RawBytesToPublicKeyM, RawBytesToPublicKey. rewrite (slice_len _ _ _ HS). change (Z.of_nat (List.length l)) with (zlen l).
  destruct (Z.eqb_spec (zlen l) (KeyBytes * 2)) as [E|]; cbn [negb]; [|apply runs_ret; reflexivity]. unfold KeyBytes in *.
  assert (K0 : keeps none h0 h0) by apply keeps_refl. remember h0 as h eqn:Eh in K0 at 2, C, HS |- * at 1. clear Eh.
  eapply runs_slice; [exact HS|lia|lia|]. intros w Hw _. eapply runs_read; [exact Hw|]. eapply runs_alloc; [apply newOf_allocs|]. intros x h1 K1 Ix Nx. clear Hw. step.
  eapply runs_slice; [exact HS|lia|lia|]. intros w2 Hw _. eapply runs_read; [exact Hw|]. eapply runs_alloc; [apply newOf_allocs|]. intros y h2 K2 Iy Ny. clear Hw. step.
  apply runs_ret. cbn [res1_at]. split; [split; [exact Ix|split; [exact Iy|exact C]]|]. split; [reflexivity|]. split; [exact Nx|exact Ny].
Qed.
Lemma RawPriv_runs : forall h g bs l, globals_at h g -> slice_at h bs l ->
  runs none (RawBytesToPrivateKeyM g bs) h (Ret (RawBytesToPrivateKey l)) (fun a b h' => res1_at (fun p q => priv_at h' p q /\ rDC p = gCurve g /\ new_int h (rD p)) a b).
Proof.
  intros h g bs l (C & _) HS. unfold RawBytesToPrivateKeyM, RawBytesToPrivateKey. rewrite (slice_len _ _ _ HS). change (Z.of_nat (List.length l)) with (zlen l).
  destruct (zlen l =? KeyBytes); cbn [negb]; [|apply runs_ret; reflexivity].
  eapply runs_read; [exact HS|]. eapply runs_alloc; [apply newOf_allocs|]. intros x h1 K1 Ix Nx. carry. apply runs_ret. split; [split; [exact Ix|exact C]|]. split; [reflexivity|exact Nx].
Qed.
(** Keys from bytes never panic and do not share with the bytes. *)
Theorem C103_raw_keys : forall h g bs l, globals_at h g -> slice_at h bs l ->
  (let h' := snd (RawBytesToPublicKeyM g bs h) in
   unchanged h h' /\ exists r, fst (RawBytesToPublicKeyM g bs h) = Ret r /\
   res1_at (fun p q => pub_at h' p q /\ rC p = gCurve g /\ new_int h (rX p) /\ new_int h (rY p)) r (RawBytesToPublicKey l)) /\
  (let h' := snd (RawBytesToPrivateKeyM g bs h) in
   unchanged h h' /\ exists r, fst (RawBytesToPrivateKeyM g bs h) = Ret r /\
   res1_at (fun p q => priv_at h' p q /\ rDC p = gCurve g /\ new_int h (rD p)) r (RawBytesToPrivateKey l)).
Proof.
  intros h g bs l H1 H2. split; cbv zeta.
  - destruct (runs_agree _ _ _ _ _ _ (RawPub_runs h g bs l H1 H2)) as [U A]. split; [exact U|]. unfold agree in A. destruct (fst (RawBytesToPublicKeyM g bs h)); [eauto|destruct A].
  - destruct (runs_agree _ _ _ _ _ _ (RawPriv_runs h g bs l H1 H2)) as [U A]. split; [exact U|]. unfold agree in A. destruct (fst (RawBytesToPrivateKeyM g bs h)); [eauto|destruct A].
Qed.

Theorem C103_exchange_point : forall h g w sp se sep osp oep d1 d2 q1 q2 q3, globals_at h g ->
  priv_at h sp d1 -> priv_at h se d2 -> pub_at h sep q1 -> pub_at h osp q2 -> pub_at h oep q3 ->
  let h' := snd (calculateUM g w sp se sep osp oep h) in
  unchanged h h' /\
  agree (fun p q => int_at h' (fst p) (fst q) /\ int_at h' (snd p) (snd q) /\ new_int h (fst p) /\ new_int h (snd p))
    (fst (calculateUM g w sp se sep osp oep h)) (calculateU w d1 d2 q1 q2 q3).
Proof.
  intros h g w sp se sep osp oep d1 d2 q1 q2 q3 H0 H1 H2 H3 H4 H5.
  exact (runs_agree _ _ _ _ _ _ (calculateUM_runs h g w sp se sep osp oep d1 d2 q1 q2 q3 H0 H1 H2 H3 H4 H5)).
Qed.

(** What package initialisation leaves, on any heap. *)
Theorem C103_init : forall h, exists g h', initGlobals h = (Ret g, h') /\ globals_at h' g /\ unchanged h h'.
Proof.
  intro h. assert (G : runs none initGlobals h (Ret tt) (fun g _ h' => globals_at h' g)).
  { unfold initGlobals. eapply runs_alloc; [apply newOf_allocs|]. intros p0 h0 K0 I0 _.
    apply runs_newBuf. intros s h1 K1 HS _. apply whole_slice in HS. carry. clear K1 K0.
    eapply runs_alloc; [apply newOf_allocs|]. intros p1 h2 K I1 _. carry. clear K.
    eapply runs_alloc; [apply newOf_allocs|]. intros p2 h3 K I2 _. carry. clear K.
    eapply runs_alloc; [apply newOf_allocs|]. intros p3 h4 K I3 _. carry. clear K.
    eapply runs_alloc; [apply newOf_allocs|]. intros p4 h5 K I4 _. carry. clear K.
    eapply runs_alloc; [apply newOf_allocs|]. intros p5 h6 K I5 _. carry. clear K.
    eapply runs_alloc; [apply newOf_allocs|]. intros p6 h7 K I6 _. carry. clear K.
    apply runs_ret. split; [split; [exact I1|]; split; [exact I2|]; split; [exact I3|]; split; [exact I4|]; split; [exact I5|exact I6]|]. split; [exact I0|exact HS]. }
  destruct (runs_agree _ _ _ _ _ _ G) as [U A]. unfold agree in A. destruct (initGlobals h) as [[g|] h'] eqn:E; cbn [fst snd] in *; [|destruct A]. exists g, h'. split; [reflexivity|]. split; assumption.
Qed.

(** A state meeting the hypotheses, with much sharing: the private key is the cofactor's integer, the public key is
    the curve's own base point, the message is the default user id. Signing leaves all of it alone. *)
Example C103_ex : exists g h, globals_at h g /\
  priv_at h (mkPrivRef (gH g) (gCurve g)) (mkPriv 1) /\ pub_at h (mkPubRef (cGx (gCurve g)) (cGy (gCurve g)) (gCurve g)) (mkPub curveGx curveGy) /\
  id_at h g (Some (gId g)) (Some sm2SignDefaultUserId) /\ bytes (nth (s_buf (gId g)) (bufs h) []) /\
  List.length (ints h) = 7%nat /\ unchanged h (snd (SignToRSM g (mkPrivRef (gH g) (gCurve g)) None (gId g) (repeat 5 64) h)) /\
  unchanged h (snd (VerifyByRSM g (mkPubRef (cGx (gCurve g)) (cGy (gCurve g)) (gCurve g)) (Some (gId g)) (gId g) (gH g) (gH g) h)).
Proof.
  pose (r := initGlobals (mkHeap [] [])). assert (E : r = (Ret (mkGlobals (mkCurve 1 2 3 4 5 6) 0 (mkSl 0 0 16 16)), mkHeap [sm2H; curveP; curveA; curveB; curveN; curveGx; curveGy] [sm2SignDefaultUserId])) by reflexivity.
  exists (mkGlobals (mkCurve 1 2 3 4 5 6) 0 (mkSl 0 0 16 16)), (mkHeap [sm2H; curveP; curveA; curveB; curveN; curveGx; curveGy] [sm2SignDefaultUserId]).
  set (g := mkGlobals (mkCurve 1 2 3 4 5 6) 0 (mkSl 0 0 16 16)). set (h := mkHeap [sm2H; curveP; curveA; curveB; curveN; curveGx; curveGy] [sm2SignDefaultUserId]).
  assert (G : globals_at h g).
  { split; [repeat (split; [reflexivity|]); reflexivity|]. split; [reflexivity|]. split; [cbn; lia|]. split; [cbn; lia|]. split; [cbn; lia|reflexivity]. }
  assert (P : priv_at h (mkPrivRef (gH g) (gCurve g)) (mkPriv 1)) by (split; [reflexivity|apply G]).
  assert (Q : pub_at h (mkPubRef (cGx (gCurve g)) (cGy (gCurve g)) (gCurve g)) (mkPub curveGx curveGy)) by (split; [apply G|split; [apply G|apply G]]).
  assert (ID : id_at h g (Some (gId g)) (Some sm2SignDefaultUserId)) by (split; [exact G|apply G]).
  split; [exact G|]. split; [exact P|]. split; [exact Q|]. split; [exact ID|]. split; [unfold bytes; cbn; repeat constructor; lia|].
  split; [reflexivity|]. clear r E. clearbody g h. assert (S : slice_at h (gId g) sm2SignDefaultUserId) by apply G. assert (H1 : int_at h (gH g) sm2H) by apply G.
  split.
  - exact (proj1 (C103_sign h g _ (mkPriv 1) None None (gId g) sm2SignDefaultUserId (repeat 5 64) P (conj G I) S)).
  - exact (proj1 (C103_verify h g _ _ _ _ (gId g) sm2SignDefaultUserId (gH g) (gH g) sm2H sm2H Q ID S H1 H1)).
Qed.
