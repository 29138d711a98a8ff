(** Property C111: calls of SM2 that run at the same time do not disturb each other. Also C122 for calls at the same time. *)
From Coq Require Import ZArith List Lia Bool String.
From Verif Require Import GoBase BeMin FpField GoElliptic Sm3 Sm2Group Sm2Spec Sm2 KeyExchange Sm2Mem KexMem Sm2Conc PropsSm2Mem PropsKexMem.
Import ListNotations.
Open Scope Z_scope.

(** * Statements *)
(** Everything a call is given is in memory. *)
Definition has (h : heap) (p : nat) : Prop := (p < List.length (ints h))%nat.
Definition hasB (h : heap) (s : slice) : Prop := (s_buf s < List.length (bufs h))%nat.
Definition hasC (h : heap) (c : curveRef) : Prop := has h (cP c) /\ has h (cA c) /\ has h (cB c) /\ has h (cN c) /\ has h (cGx c) /\ has h (cGy c).
Definition hasPub (h : heap) (p : pubRef) : Prop := has h (rX p) /\ has h (rY p) /\ hasC h (rC p).
Definition hasPriv (h : heap) (p : privRef) : Prop := has h (rD p) /\ hasC h (rDC p).
Definition hasG (h : heap) (g : globals) : Prop := hasC h (gCurve g) /\ has h (gH g) /\ hasB h (gId g).
Definition hasId (h : heap) (id : option slice) : Prop := match id with Some s => hasB h s | None => True end.
Definition ready (h : heap) (c : call) : Prop :=
  match c with
  | KGenerate _ => True
  | KPub priv => hasPriv h priv
  | KRawPub bs | KRawPriv bs => hasB h bs
  | KEncrypt pub inp _ _ => hasPub h pub /\ hasB h inp
  | KDecrypt priv inp _ => hasPriv h priv /\ hasB h inp
  | KSign priv id inp _ => hasPriv h priv /\ hasId h id /\ hasB h inp
  | KVerify pub id inp r s => hasPub h pub /\ hasId h id /\ hasB h inp /\ has h r /\ has h s
  | KExchange _ sp se sep osp oep => hasPriv h sp /\ hasPriv h se /\ hasPub h sep /\ hasPub h osp /\ hasPub h oep
  | KAgree _ _ tag sp se sid osp oep oid => hasPriv h sp /\ hasPriv h se /\ hasPub h osp /\ hasPub h oep /\ hasId h tag /\ hasId h sid /\ hasId h oid
  | KConfirm a b => hasB h a /\ hasB h b
  end.

(** Two answers, each with its memory, that cannot be told apart by what they hold. *)
Definition eqI (h h' : heap) (p p' : nat) : Prop := has h p /\ has h' p' /\ nth_error (ints h) p = nth_error (ints h') p'.
Definition eqB (h h' : heap) (s s' : slice) : Prop :=
  hasB h s /\ hasB h' s' /\ s_off s = s_off s' /\ s_len s = s_len s' /\ s_cap s = s_cap s' /\ nth (s_buf s) (bufs h) [] = nth (s_buf s') (bufs h') [].
Definition eqC (h h' : heap) (c c' : curveRef) : Prop :=
  eqI h h' (cP c) (cP c') /\ eqI h h' (cA c) (cA c') /\ eqI h h' (cB c) (cB c') /\ eqI h h' (cN c) (cN c') /\ eqI h h' (cGx c) (cGx c') /\ eqI h h' (cGy c) (cGy c').
Definition eqPub (h h' : heap) (p p' : pubRef) : Prop := eqI h h' (rX p) (rX p') /\ eqI h h' (rY p) (rY p') /\ eqC h h' (rC p) (rC p').
Definition eqPriv (h h' : heap) (p p' : privRef) : Prop := eqI h h' (rD p) (rD p') /\ eqC h h' (rDC p) (rDC p').
Definition eqRes {A} (R : A -> A -> Prop) (r r' : res A) : Prop := match r, r' with OK a, OK a' => R a a' | ERR e, ERR e' => e = e' | _, _ => False end.
Definition eqSlot (R : slice -> slice -> Prop) (s s' : option slice) : Prop := match s, s' with Some s, Some s' => R s s' | None, None => True | _, _ => False end.
Definition eqExch (R : slice -> slice -> Prop) (r r' : exchRef) : Prop := R (eKey r) (eKey r') /\ eqSlot R (eS1 r) (eS1 r') /\ R (eS2 r) (eS2 r').
Definition eqAnswer (h h' : heap) (a a' : answer) : Prop :=
  match a, a' with
  | AKeys r t, AKeys r' t' => eqRes (fun x y => eqPriv h h' (fst x) (fst y) /\ eqPub h h' (snd x) (snd y)) r r' /\ t = t'
  | APub p, APub p' => eqPub h h' p p'
  | ARawPub r, ARawPub r' => eqRes (eqPub h h') r r'
  | ARawPriv r, ARawPriv r' => eqRes (eqPriv h h') r r'
  | ACipher r t, ACipher r' t' => eqRes (eqB h h') r r' /\ t = t'
  | APlain r, APlain r' => eqRes (eqB h h') r r'
  | ASignature r t, ASignature r' t' => eqRes (fun x y => eqI h h' (fst x) (fst y) /\ eqI h h' (snd x) (snd y)) r r' /\ t = t'
  | AVerdict b, AVerdict b' => b = b'
  | APoint x y, APoint x' y' => eqI h h' x x' /\ eqI h h' y y'
  | AExch r, AExch r' => eqRes (eqExch (eqB h h')) r r'
  | _, _ => False
  end.
Definition eqOutcome (h h' : heap) (o o' : go answer) : Prop :=
  match o, o' with Ret a, Ret a' => eqAnswer h h' a a' | Panic e, Panic e' => e = e' | _, _ => False end.

(** * Programs that differ in the addresses of what they make *)
Section Sim.
Variables (n nb : nat) (G GB : nat -> nat -> Prop).
(** [n] and [nb] bound what all share; [G] and [GB] pair what each has made. *)
Definition ri (p p' : nat) : Prop := G p p' \/ (p = p' /\ (p < n)%nat).
Definition rb (j j' : nat) : Prop := GB j j' \/ (j = j' /\ (j < nb)%nat).
Fixpoint sim {A} (Q : A -> A -> Prop) (m m' : prog A) : Prop :=
  match m, m' with
  | Done (Ret a), Done (Ret a') => Q a a'
  | Done (Panic e), Done (Panic e') => e = e'
  | NewInt k, NewInt k' => forall p p', G p p' -> sim Q (k p) (k' p')
  | GetInt p k, GetInt p' k' => ri p p' /\ forall v, sim Q (k v) (k' v)
  | SetInt p v k, SetInt p' v' k' => G p p' /\ v = v' /\ sim Q k k'
  | NewBuf l k, NewBuf l' k' => l = l' /\ forall j j', GB j j' -> sim Q (k j) (k' j')
  | GetBuf j k, GetBuf j' k' => rb j j' /\ forall l, sim Q (k l) (k' l)
  | PutBuf j off l k, PutBuf j' off' l' k' => GB j j' /\ off = off' /\ l = l' /\ sim Q k k'
  | _, _ => False
  end.
Lemma sim_bind : forall A B (Q1 : A -> A -> Prop) (Q : B -> B -> Prop) m m' k k', sim Q1 m m' -> (forall a a', Q1 a a' -> sim Q (k a) (k' a')) -> sim Q (bindp m k) (bindp m' k').
Proof.
  intros A B Q1 Q m m' k k'. revert m'.
  induction m as [[a|e]|f IH|p f IH|p v f IH|l f IH|j f IH|j off l f IH]; intros [[a'|e']|f'|p' f'|p' v' f'|l' f'|j' f'|j' off' l' f'] H K; cbn [sim bindp] in *;
    try (destruct H; fail); try exact H.
  - apply K, H.
  - intros p p' g. apply IH; auto.
  - destruct H as [H1 H2]. split; [exact H1|]. intro v. apply IH; auto.
  - destruct H as (H1 & H2 & H3). split; [exact H1|]. split; [exact H2|]. apply IH; auto.
  - destruct H as (H1 & H2). split; [exact H1|]. intros j j' g. apply IH; auto.
  - destruct H as [H1 H2]. split; [exact H1|]. intro v. apply IH; auto.
  - destruct H as (H1 & H2 & H3 & H4). split; [exact H1|]. split; [exact H2|]. split; [exact H3|]. apply IH; auto.
Qed.
Lemma sim_ret : forall A (Q : A -> A -> Prop) a a', Q a a' -> sim Q (retp a) (retp a').
Proof. intros A Q a a' H. exact H. Qed.
Lemma sim_lift : forall A (o : go A), sim eq (liftp o) (liftp o).
Proof. intros A [a|e]; reflexivity. Qed.
Lemma sim_panic : forall A (Q : A -> A -> Prop) e, sim Q (liftp (Panic e)) (liftp (Panic e)).
Proof. reflexivity. Qed.
Lemma sim_new : sim G newInt newInt.
Proof. intros p p' H. exact H. Qed.
Lemma sim_get : forall p p', ri p p' -> sim eq (getInt p) (getInt p').
Proof. intros p p' H. split; [exact H|]. intro v. reflexivity. Qed.
Lemma sim_set : forall p p' v, G p p' -> sim (fun _ _ => True) (setInt p v) (setInt p' v).
Proof. intros p p' v H. split; [exact H|]. split; [reflexivity|exact I]. Qed.
Lemma own : forall p p', G p p' -> ri p p'.
Proof. intros p p' H. left. exact H. Qed.
Lemma base : forall p, (p < n)%nat -> ri p p.
Proof. intros p H. right. split; [reflexivity|exact H]. Qed.
(** Slices: the same window, of paired buffers. *)
Definition rs (s s' : slice) : Prop := rb (s_buf s) (s_buf s') /\ s_off s = s_off s' /\ s_len s = s_len s' /\ s_cap s = s_cap s'.
Definition os (s s' : slice) : Prop := GB (s_buf s) (s_buf s') /\ s_off s = s_off s' /\ s_len s = s_len s' /\ s_cap s = s_cap s'.
Lemma os_rs : forall s s', os s s' -> rs s s'.
Proof. intros s s' (H & H'). split; [left; exact H|exact H']. Qed.
Lemma sim_read : forall s s', rs s s' -> sim eq (readAll s) (readAll s').
Proof. intros s s' (H & H1 & H2 & _). split; [exact H|]. intro l. cbn. rewrite H1, H2. reflexivity. Qed.
Lemma sim_newBuf : forall l, sim os (newBuf l) (newBuf l).
Proof. intro l. split; [reflexivity|]. intros j j' H. split; [exact H|]. repeat split. Qed.
Lemma sim_make : forall z, sim os (makeM z) (makeM z).
Proof. intro z. unfold makeM. eapply sim_bind; [apply sim_lift|]. intros a a' <-. apply sim_newBuf. Qed.
Lemma sim_slice : forall s s' lo hi, rs s s' -> sim rs (sliceM s lo hi) (sliceM s' lo hi).
Proof.
  intros s s' lo hi (H & H1 & H2 & H3). unfold sliceM. rewrite H3. destruct ((0 <=? lo) && (lo <=? hi) && (hi <=? Z.of_nat (s_cap s'))); [|reflexivity].
  apply sim_ret. split; [exact H|]. cbn. rewrite H1. repeat split.
Qed.
Lemma sim_slice_own : forall s s' lo hi, os s s' -> sim os (sliceM s lo hi) (sliceM s' lo hi).
Proof.
  intros s s' lo hi (H & H1 & H2 & H3). unfold sliceM. rewrite H3. destruct ((0 <=? lo) && (lo <=? hi) && (hi <=? Z.of_nat (s_cap s'))); [|reflexivity].
  apply sim_ret. split; [exact H|]. cbn. rewrite H1. repeat split.
Qed.
Lemma sim_put : forall s s' l, os s s' -> sim (fun _ _ => True) (putM s l) (putM s' l).
Proof. intros s s' l (H & H1 & H2 & H3). split; [exact H|]. split; [exact H1|]. split; [reflexivity|exact I]. Qed.
Lemma sim_copy : forall d d' s s', os d d' -> rs s s' -> sim (fun _ _ => True) (copyM d s) (copyM d' s').
Proof. intros d d' s s' Hd Hs. unfold copyM. eapply sim_bind; [apply sim_read, Hs|]. intros l l' <-. assert (E : s_len d = s_len d') by apply Hd. rewrite E. apply sim_put, Hd. Qed.
Lemma sim_index : forall s s' i, rs s s' -> sim eq (indexM s i) (indexM s' i).
Proof. intros s s' i (H & H1 & H2 & _). unfold indexM. rewrite H2. destruct (Nat.ltb i (s_len s')); [|reflexivity]. split; [exact H|]. intro l. cbn. rewrite H1. reflexivity. Qed.
Lemma sim_store : forall s s' i v, os s s' -> sim (fun _ _ => True) (storeM s i v) (storeM s' i v).
Proof. intros s s' i v (H & H1 & H2 & _). unfold storeM. rewrite H2. destruct (Nat.ltb i (s_len s')); [|reflexivity]. split; [exact H|]. split; [rewrite H1; reflexivity|]. split; [reflexivity|exact I]. Qed.

Definition bC (c : curveRef) : Prop := (cP c < n)%nat /\ (cA c < n)%nat /\ (cB c < n)%nat /\ (cN c < n)%nat /\ (cGx c < n)%nat /\ (cGy c < n)%nat.
Definition bPub (p : pubRef) : Prop := (rX p < n)%nat /\ (rY p < n)%nat /\ bC (rC p).
Definition bPriv (p : privRef) : Prop := (rD p < n)%nat /\ bC (rDC p).
Definition bS (s : slice) : Prop := (s_buf s < nb)%nat.
Lemma base_s : forall s, bS s -> rs s s.
Proof. intros s H. split; [right; split; [reflexivity|exact H]|repeat split]. Qed.
Ltac more := fail.
Ltac side := first [assumption|solve [apply own; assumption]|solve [apply base; assumption]|solve [apply os_rs; assumption]|solve [apply base_s; assumption]|reflexivity
  |match goal with H : bC ?c |- ri (_ ?c) (_ ?c) => apply base; apply H end].
Ltac one := lazymatch goal with
  | |- sim _ newInt _ => apply sim_new
  | |- sim _ (getInt _) _ => apply sim_get; side
  | |- sim _ (setInt _ _) _ => apply sim_set; side
  | |- sim _ (liftp (Panic _)) _ => apply sim_panic
  | |- sim _ (liftp _) _ => apply sim_lift
  | |- sim _ (readAll _) _ => apply sim_read; side
  | |- sim _ (newBuf _) _ => apply sim_newBuf
  | |- sim _ (makeM _) _ => apply sim_make
  | |- sim _ (sliceM _ _ _) _ => first [apply sim_slice_own; side|apply sim_slice; side]
  | |- sim _ (putM _ _) _ => apply sim_put; side
  | |- sim _ (copyM _ _) _ => apply sim_copy; side
  | |- sim _ (indexM _ _) _ => apply sim_index; side
  | |- sim _ (storeM _ _ _) _ => apply sim_store; side
  | |- _ => more
  end.
(** The next step on both sides, with the paired results. *)
Ltac next := eapply sim_bind; [one|];
  let a := fresh "a" in let a' := fresh "a'" in let H := fresh "H" in intros a a' H;
  cbv beta in H; try (subst a'); cbv beta iota.

Lemma sim_newOf : forall v, sim G (newOf v) (newOf v).
Proof. intro v. unfold newOf. next. next. apply sim_ret. assumption. Qed.
Section Util.
Variables (x x' y y' : nat).
Hypothesis Hx : ri x x'.
Hypothesis Hy : ri y y'.
Lemma sim_utilAdd : sim G (utilAdd x y) (utilAdd x' y').
Proof. unfold utilAdd, bigAdd. next. eapply sim_bind; [next; next; one|]. intros _ _ _. apply sim_ret. assumption. Qed.
Lemma sim_utilSub : sim G (utilSub x y) (utilSub x' y').
Proof. unfold utilSub, bigSub. next. eapply sim_bind; [next; next; one|]. intros _ _ _. apply sim_ret. assumption. Qed.
Lemma sim_utilMul : sim G (utilMul x y) (utilMul x' y').
Proof. unfold utilMul, bigMul. next. eapply sim_bind; [next; next; one|]. intros _ _ _. apply sim_ret. assumption. Qed.
Lemma sim_utilAnd : sim G (utilAnd x y) (utilAnd x' y').
Proof. unfold utilAnd, bigAnd. next. eapply sim_bind; [next; next; one|]. intros _ _ _. apply sim_ret. assumption. Qed.
Lemma sim_utilMod : sim G (utilMod x y) (utilMod x' y').
Proof.
  unfold utilMod, bigMod. next. apply (sim_bind _ _ (fun _ _ => True)); [|intros _ _ _; apply sim_ret; assumption].
  next. next. destruct (_ =? 0); one.
Qed.
Lemma sim_utilModInverse : sim G (utilModInverseM x y) (utilModInverseM x' y').
Proof.
  unfold utilModInverseM, bigModInverse. next. apply (sim_bind _ _ (fun _ _ => True)); [|intros _ _ _; apply sim_ret; assumption].
  next. next. destruct (ModInverse _ _); [one|apply sim_ret; exact I].
Qed.
Lemma sim_utilLsh : forall k, sim G (utilLsh x k) (utilLsh x' k).
Proof. intro k. unfold utilLsh, bigLsh. next. eapply sim_bind; [next; one|]. intros _ _ _. apply sim_ret. assumption. Qed.
Lemma sim_utilSetBit : forall i b, sim G (utilSetBit x i b) (utilSetBit x' i b).
Proof. intros i b. unfold utilSetBit, bigSetBit. next. eapply sim_bind; [next; one|]. intros _ _ _. apply sim_ret. assumption. Qed.
Lemma sim_inf : sim eq (IsEcPointInfinityM x y) (IsEcPointInfinityM x' y').
Proof. unfold IsEcPointInfinityM. next. next. apply sim_ret. reflexivity. Qed.
Lemma sim_bytes : sim eq (BytesM x) (BytesM x').
Proof. unfold BytesM. next. apply sim_ret. reflexivity. Qed.
Lemma sim_to32 : sim eq (bigIntTo32BytesM x) (bigIntTo32BytesM x').
Proof. unfold bigIntTo32BytesM. next. one. Qed.
Lemma sim_bigAdd : forall z z', G z z' -> sim (fun _ _ => True) (bigAdd z x y) (bigAdd z' x' y').
Proof. intros z z' Hz. unfold bigAdd. next. next. one. Qed.
Lemma sim_bigSet : forall z z', G z z' -> sim (fun _ _ => True) (bigSet z x) (bigSet z' x').
Proof. intros z z' Hz. unfold bigSet. next. one. Qed.
End Util.
(** Pairs of new integers. *)
Definition rp (p p' : nat * nat) : Prop := G (fst p) (fst p') /\ G (snd p) (snd p').
Ltac more ::= lazymatch goal with
  | |- sim _ (newOf _) _ => apply sim_newOf
  | |- sim _ (utilAdd _ _) _ => apply sim_utilAdd; side
  | |- sim _ (utilSub _ _) _ => apply sim_utilSub; side
  | |- sim _ (utilMul _ _) _ => apply sim_utilMul; side
  | |- sim _ (utilAnd _ _) _ => apply sim_utilAnd; side
  | |- sim _ (utilMod _ _) _ => apply sim_utilMod; side
  | |- sim _ (utilModInverseM _ _) _ => apply sim_utilModInverse; side
  | |- sim _ (utilLsh _ _) _ => apply sim_utilLsh; side
  | |- sim _ (IsEcPointInfinityM _ _) _ => apply sim_inf; side
  | |- sim _ (bigSet _ _) _ => apply sim_bigSet; side
  | |- sim _ (utilSetBit _ _ _) _ => apply sim_utilSetBit; side
  | |- sim _ (BytesM _) _ => apply sim_bytes; side
  | |- sim _ (bigIntTo32BytesM _) _ => apply sim_to32; side
  | |- sim _ (bigAdd _ _ _) _ => apply sim_bigAdd; side
  end.
Lemma sim_newPair : forall q, sim rp (newPair q) (newPair q).
Proof. intros [u v]. unfold newPair. next. next. apply sim_ret. split; assumption. Qed.
Lemma sim_ScalarMult : forall c x x' y y' k, bC c -> ri x x' -> ri y y' -> sim rp (ScalarMultM c x y k) (ScalarMultM c x' y' k).
Proof. intros c x x' y y' k C Hx Hy. unfold ScalarMultM. next. next. next. next. apply sim_newPair. Qed.
Lemma sim_BaseMult : forall c k, bC c -> sim rp (ScalarBaseMultM c k) (ScalarBaseMultM c k).
Proof. intros c k C. unfold ScalarBaseMultM. apply sim_ScalarMult; side. Qed.
Lemma sim_Add : forall c x x' y y' u u' v v', bC c -> ri x x' -> ri y y' -> ri u u' -> ri v v' -> sim rp (AddM c x y u v) (AddM c x' y' u' v').
Proof. intros. unfold AddM. next. next. next. next. next. next. apply sim_newPair. Qed.
(** A pair that is the same on both sides. *)
Ltac both := match goal with |- sim _ (let (_, _) := ?z in _) _ => destruct z end; cbv beta iota.
Ltac pairs := match goal with H : rp ?p ?p' |- _ => let x := fresh "x" in let y := fresh "y" in let x' := fresh "x'" in let y' := fresh "y'" in
  destruct p as [x y], p' as [x' y'], H as [? ?]; cbn [fst snd] in * end; cbv beta iota.

(** Results. *)
Definition rres {A} (R : A -> A -> Prop) (a a' : res A * list Z) : Prop := eqRes R (fst a) (fst a') /\ snd a = snd a'.
Definition rc (c c' : curveRef) : Prop := c = c' /\ bC c.
Definition rpub (p p' : pubRef) : Prop := ri (rX p) (rX p') /\ ri (rY p) (rY p') /\ rc (rC p) (rC p').
Definition rpriv (p p' : privRef) : Prop := ri (rD p) (rD p') /\ rc (rDC p) (rDC p').
Definition rkeys (a a' : privRef * pubRef) : Prop := rpriv (fst a) (fst a') /\ rpub (snd a) (snd a').
Definition bG (g : globals) : Prop := bC (gCurve g) /\ (gH g < n)%nat /\ bS (gId g).

Lemma sim_GenerateKey : forall g tape, bG g -> sim (rres rkeys) (GenerateKeyM g tape) (GenerateKeyM g tape).
Proof.
  intros g tape (C & _). unfold GenerateKeyM. next. destruct (genkey_scalar a tape) as [[k|e] t]; [|apply sim_ret; split; reflexivity].
  eapply sim_bind; [apply sim_BaseMult, C|]. intros p p' H. pairs. next. apply sim_ret. split; [|reflexivity].
  split; [split; [side|split; [reflexivity|exact C]]|]. split; [side|]. split; [side|]. split; [reflexivity|exact C].
Qed.
Lemma sim_RawPub : forall g bs, bG g -> bS bs -> sim (eqRes rpub) (RawBytesToPublicKeyM g bs) (RawBytesToPublicKeyM g bs).
Proof.
  intros g bs (C & _) H. unfold RawBytesToPublicKeyM. destruct (negb _); [apply sim_ret; reflexivity|].
  next. next. next. next. next. next. apply sim_ret. split; [side|]. split; [side|]. split; [reflexivity|exact C].
Qed.
Lemma sim_RawPriv : forall g bs, bG g -> bS bs -> sim (eqRes rpriv) (RawBytesToPrivateKeyM g bs) (RawBytesToPrivateKeyM g bs).
Proof.
  intros g bs (C & _) H. unfold RawBytesToPrivateKeyM. destruct (negb _); [apply sim_ret; reflexivity|].
  next. next. apply sim_ret. split; [side|]. split; [reflexivity|exact C].
Qed.
Lemma sim_Pub : forall priv, bPriv priv -> sim rpub (CalculatePubKeyM priv) (CalculatePubKeyM priv).
Proof.
  intros priv (P & C). unfold CalculatePubKeyM. next. eapply sim_bind; [apply sim_BaseMult, C|]. intros p p' H. pairs.
  apply sim_ret. split; [side|]. split; [side|]. split; [reflexivity|exact C].
Qed.
Lemma sim_nextK_loop : forall fuel o o' mx tape, ri o o' -> (mx < n)%nat -> sim (rres G) (nextK_loopM fuel o mx tape) (nextK_loopM fuel o' mx tape).
Proof.
  induction fuel as [|fuel IH]; intros o o' mx tape Ho Hm; cbn [nextK_loopM]; next; destruct (rand_Int _ tape) as [[kv|e] t];
    try (apply sim_ret; split; reflexivity); next; next; next; match goal with |- context [if ?b then _ else _] => destruct b end.
  all: try (apply sim_ret; split; [first [assumption|reflexivity]|reflexivity]).
  apply IH; assumption.
Qed.
Lemma sim_nextK : forall mx tape, (mx < n)%nat -> sim (rres G) (nextKM mx tape) (nextKM mx tape).
Proof. intros mx tape H. unfold nextKM. next. apply sim_nextK_loop; side. Qed.
Lemma sim_xor : forall k i d d' s s', os d d' -> rs s s' -> sim (fun _ _ => True) (xorM k i d s) (xorM k i d' s').
Proof.
  induction k as [|k IH]; intros i d d' s s' Hd Hs; cbn [xorM]; [exact I|]. next. next. next. apply IH; assumption.
Qed.
Lemma sim_kdf_loop : forall fuel d xb yb ct off b b' e e', os b b' -> os e e' -> sim eq (kdf_loopM fuel d xb yb ct off b e) (kdf_loopM fuel d xb yb ct off b' e').
Proof.
  induction fuel as [|fuel IH]; intros d xb yb ct off b b' e e' Hb He; cbn [kdf_loopM]; assert (E : s_len e = s_len e') by apply He; rewrite E;
    (destruct (Nat.ltb off (s_len e')); [|apply sim_ret; reflexivity]); [apply sim_panic|].
  cbv zeta. next. next. next. next. both. next. next. next. eapply sim_bind; [apply sim_xor; side|]. intros _ _ _. apply IH; assumption.
Qed.
Lemma sim_kdf : forall d x x' y y' e e', ri x x' -> ri y y' -> os e e' -> sim eq (kdfM d x y e) (kdfM d x' y' e').
Proof.
  intros d x x' y y' e e' Hx Hy He. unfold kdfM. next. next. next. assert (E : s_len e = s_len e') by apply He. rewrite E. apply sim_kdf_loop; assumption.
Qed.
Definition renc (a a' : slice * nat * nat * sm3Digest) : Prop :=
  os (fst (fst (fst a))) (fst (fst (fst a'))) /\ G (snd (fst (fst a))) (snd (fst (fst a'))) /\ G (snd (fst a)) (snd (fst a')) /\ snd a = snd a'.
Lemma sim_encrypt_loop : forall fuel pub inp c c' d tape, bPub pub -> bS inp -> os c c' ->
  sim (rres renc) (encrypt_loopM fuel pub inp c d tape) (encrypt_loopM fuel pub inp c' d tape).
Proof.
  induction fuel as [|fuel IH]; intros pub inp c c' d tape (PX & PY & C) HI Hc; cbn [encrypt_loopM].
  all: eapply sim_bind; [apply sim_nextK, C|]; intros [[k|e] t] [[k'|e'] t'] [H1 H2]; cbn [fst snd] in H1, H2; try (exfalso; exact H1); subst t'; cbv beta iota.
  2, 4: apply sim_ret; split; [exact H1|reflexivity].
  all: cbn [eqRes] in H1; next; eapply sim_bind; [apply sim_BaseMult, C|]; intros p p' Hp; pairs; next; next; next; next.
  all: eapply sim_bind; [apply sim_ScalarMult; side|]; intros q q' Hq; pairs.
  all: eapply sim_bind; [apply sim_kdf; side|]; intros d1 d1' <-; next; next; next.
  all: match goal with |- context [if negb ?b then _ else _] => destruct (negb b) end.
  1, 3: apply sim_ret; split; [|reflexivity]; split; [assumption|]; split; [assumption|]; split; [assumption|reflexivity].
  - apply sim_panic.
  - apply IH; [split; [exact PX|split; [exact PY|exact C]]|exact HI|exact Hc].
Qed.
Lemma sim_Encrypt : forall pub inp t tape, bPub pub -> bS inp -> sim (rres os) (EncryptM pub inp t tape) (EncryptM pub inp t tape).
Proof.
  intros pub inp t tape P HI. unfold EncryptM. next. next. eapply sim_bind; [apply sim_encrypt_loop; assumption|].
  intros [[[[[c1 kx] ky] d]|e] t1] [[[[[c1' kx'] ky'] d']|e'] t1'] [H1 H2]; cbn [fst snd] in H1, H2; try (exfalso; exact H1); subst t1'; cbv beta iota.
  2: { apply sim_ret. split; [exact H1|reflexivity]. }
  destruct H1 as (H1 & H2 & H3 & H4). cbn [fst snd] in H1, H2, H3, H4. subst d'. next. next. next. next. both. next. cbv zeta.
  assert (L1 : s_len c1 = s_len c1') by apply H1.
  repeat match goal with H : os ?a ?b |- _ => lazymatch goal with E : s_len a = s_len b |- _ => fail | _ => assert (s_len a = s_len b) by apply H end end.
  repeat match goal with E : s_len ?a = s_len ?b |- _ => progress rewrite !E end.
  next. match goal with H : os ?a ?b |- context [Z.of_nat (s_len ?a)] => assert (EL : s_len a = s_len b) by apply H; rewrite EL end.
  destruct (t =? C1C2C3); [|destruct (t =? C1C3C2)].
  1, 2: next; next; next; next; next; next; apply sim_ret; split; [assumption|reflexivity].
  apply sim_ret. split; reflexivity.
Qed.
Lemma sim_Decrypt : forall g priv inp t, bG g -> bPriv priv -> bS inp -> sim (eqRes os) (DecryptM g priv inp t) (DecryptM g priv inp t).
Proof.
  intros g priv inp t (_ & GH & _) (PD & C) HI. unfold DecryptM. cbv zeta. next. next. next. next. next. next.
  destruct (Unmarshal _ _ _) as [q|]; [|apply sim_panic].
  eapply sim_bind; [apply sim_newPair|]. intros p p' Hp. pairs. next.
  eapply sim_bind; [apply sim_ScalarMult; side|]. intros p p' Hp. pairs. next.
  match goal with |- context [if ?b then _ else _] => destruct b end; [apply sim_ret; reflexivity|].
  next. eapply sim_bind; [apply sim_ScalarMult; side|]. intros p p' Hp. pairs. next. next.
  eapply (sim_bind _ _ eq).
  - destruct (t =? C1C2C3); [next; next; next; next; apply sim_ret; reflexivity|]. destruct (t =? C1C3C2); [next; next; next; next; apply sim_ret; reflexivity|]. apply sim_ret. reflexivity.
  - intros [u|e] r' <-; [|apply sim_ret; reflexivity]. eapply sim_bind; [apply sim_kdf; side|]. intros d d' <-. next. next. next. next. next. both.
    match goal with |- context [list_eq_dec Z.eq_dec ?u ?v] => destruct (list_eq_dec Z.eq_dec u v) end; apply sim_ret; [assumption|reflexivity].
Qed.
Lemma sim_E : forall d c x x' y y' id inp, bC c -> ri x x' -> ri y y' -> bS id -> bS inp ->
  sim (fun a a' => fst a = fst a' /\ G (snd a) (snd a')) (calculateEM d c x y id inp) (calculateEM d c x' y' id inp).
Proof.
  intros d c x x' y y' id inp C Hx Hy Hid Hin. unfold calculateEM, getZM. eapply (sim_bind _ _ eq).
  - next. next. next. next. next. next. next. one.
  - intros z z' <-. both. next. next. both. next. apply sim_ret. split; [reflexivity|assumption].
Qed.
Lemma sim_inner : forall fuel c z z' e e' tape, bC c -> ri z z' -> ri e e' -> sim (rres rp) (sign_innerM fuel c z e tape) (sign_innerM fuel c z' e' tape).
Proof.
  induction fuel as [|fuel IH]; intros c z z' e e' tape C Hz He; cbn [sign_innerM].
  all: eapply sim_bind; [apply sim_nextK, C|]; intros [[k|er] t] [[k'|er'] t'] [H1 H2]; cbn [fst snd] in H1, H2; try (exfalso; exact H1); subst t'; cbv beta iota.
  2, 4: apply sim_ret; split; [exact H1|reflexivity].
  all: cbn [eqRes] in H1; next; eapply sim_bind; [apply sim_BaseMult, C|]; intros p p' Hp; pairs; next; next; next; next; next; next; next; next; next.
  all: match goal with |- context [if ?b then _ else _] => destruct b end.
  1, 3: apply sim_ret; split; [split; assumption|reflexivity].
  - apply sim_panic.
  - apply IH; assumption.
Qed.
Lemma sim_outer : forall fuel priv z z' o o' e e' tape, bPriv priv -> ri z z' -> ri o o' -> ri e e' -> sim (rres rp) (sign_outerM fuel priv z o e tape) (sign_outerM fuel priv z' o' e' tape).
Proof.
  induction fuel as [|fuel IH]; intros priv z z' o o' e e' tape (P & C) Hz Ho He; cbn [sign_outerM].
  all: eapply sim_bind; [apply sim_inner; side|]; intros [[[k r]|er] t] [[[k' r']|er'] t'] [H1 H2]; cbn [fst snd] in H1, H2; try (exfalso; exact H1); subst t'; cbv beta iota.
  2, 4: apply sim_ret; split; [exact H1|reflexivity].
  all: destruct H1 as [H1 H2]; cbn [fst snd] in H1, H2; next; next; next; next; next; next; next; next; next.
  all: match goal with |- context [if ?b then _ else _] => destruct b end.
  1, 3: apply sim_ret; split; [split; assumption|reflexivity].
  - apply sim_panic.
  - apply IH; try assumption. split; assumption.
Qed.
Definition bId (id : option slice) : Prop := match id with Some s => bS s | None => True end.
Lemma sim_Sign : forall g priv id inp tape, bG g -> bPriv priv -> bId id -> bS inp -> sim (rres rp) (SignToRSM g priv id inp tape) (SignToRSM g priv id inp tape).
Proof.
  intros g priv id inp tape (_ & _ & GI) (P & C) Hid Hin. unfold SignToRSM. next. eapply sim_bind; [apply sim_BaseMult, C|]. intros p p' Hp. pairs. cbv zeta.
  eapply sim_bind; [apply sim_E; try side; destruct id; assumption|]. intros [d1 e] [d1' e'] [_ He]. cbn [snd] in He. next. next.
  apply sim_outer; try side. split; assumption.
Qed.
Lemma sim_Verify : forall g pub id inp r s, bG g -> bPub pub -> bId id -> bS inp -> (r < n)%nat -> (s < n)%nat ->
  sim eq (VerifyByRSM g pub id inp r s) (VerifyByRSM g pub id inp r s).
Proof.
  intros g pub id inp r s (_ & _ & GI) (PX & PY & C) Hid Hin Hr Hs. unfold VerifyByRSM. next. next. next. next. next.
  destruct (_ || _); [apply sim_ret; reflexivity|]. destruct (_ || _); [apply sim_ret; reflexivity|]. cbv zeta.
  eapply sim_bind; [apply sim_E; try side; destruct id; assumption|]. intros [d1 e] [d1' e'] [_ He]. cbn [snd] in He. next. next. next. next. next.
  match goal with |- context [if ?b then _ else _] => destruct b end; [apply sim_ret; reflexivity|].
  next. eapply sim_bind; [apply sim_BaseMult, C|]. intros p p' Hp. pairs. next.
  eapply sim_bind; [apply sim_ScalarMult; side|]. intros p p' Hp. pairs.
  eapply sim_bind; [apply sim_Add; side|]. intros p p' Hp. pairs. next.
  match goal with |- context [if ?b then _ else _] => destruct b end; [apply sim_ret; reflexivity|].
  next. next. next. next. apply sim_ret. reflexivity.
Qed.
Lemma sim_reduce : forall x x' w, ri x x' -> sim G (reduceM x w) (reduceM x' w).
Proof. intros x x' w H. unfold reduceM. next. next. next. next. one. Qed.
Lemma sim_U : forall g w sp se sep sep' osp oep, bG g -> bPriv sp -> bPriv se -> ri (rX sep) (rX sep') -> bPub osp -> bPub oep ->
  sim rp (calculateUM g w sp se sep osp oep) (calculateUM g w sp se sep' osp oep).
Proof.
  intros g w sp se sep sep' osp oep (_ & GH & _) (PD & C) (SD & _) SX (OX & OY & _) (EX & EY & _). unfold calculateUM.
  eapply sim_bind; [apply sim_reduce; side|]. intros x1 x1' H1. eapply sim_bind; [apply sim_reduce; side|]. intros x2 x2' H2.
  next. next. next. next. next. next. next. eapply sim_bind; [apply sim_ScalarMult; side|]. intros p p' Hp. pairs.
  next. eapply sim_bind; [apply sim_ScalarMult; side|]. intros p p' Hp. pairs. apply sim_Add; side.
Qed.
Definition rdig (R : slice -> slice -> Prop) (a a' : sm3Digest * slice) : Prop := fst a = fst a' /\ R (snd a) (snd a').
Lemma sim_kdfx_loop : forall fuel bs d xb yb za zb off ct b b' r r', os b b' -> os r r' ->
  sim eq (kdfForExch_loopM fuel bs d xb yb za zb off ct b r) (kdfForExch_loopM fuel bs d xb yb za zb off ct b' r').
Proof.
  induction fuel as [|fuel IH]; intros bs d xb yb za zb off ct b b' r r' HB HR; cbn [kdfForExch_loopM].
  all: assert (E : s_len r = s_len r') by apply HR; rewrite E; destruct (off <? Z.of_nat (s_len r')); [|apply sim_ret; reflexivity].
  - apply sim_panic.
  - cbv zeta. next. next. next. next. both. next. next.
    match goal with |- context [s_len ?a] => lazymatch goal with H : os a ?a' |- _ => assert (s_len a = s_len a') as -> by apply H end end.
    next. next. next. next. apply IH; assumption.
Qed.
Lemma sim_kdfx : forall d x x' y y' za zb kb, ri x x' -> ri y y' -> sim (rdig os) (kdfForExchM d x y za zb kb) (kdfForExchM d x' y' za zb kb).
Proof.
  intros d x x' y y' za zb kb Hx Hy. unfold kdfForExchM. cbv zeta. next. next. next. next.
  match goal with H : os ?a ?a' |- context [kdfForExch_loopM (s_len ?a)] => assert (s_len a = s_len a') as -> by apply H end.
  eapply sim_bind; [apply sim_kdfx_loop; assumption|]. intros e e' <-. apply sim_ret. split; [reflexivity|assumption].
Qed.
Lemma sim_confirm : forall f d y y' ih, ri y y' -> sim (rdig os) (confirmM f d y ih) (confirmM f d y' ih).
Proof. intros f d y y' ih H. unfold confirmM. next. next. both. next. apply sim_ret. split; [reflexivity|assumption]. Qed.
Lemma sim_innerH : forall d x x' za zb a a' b b' c c' e e', ri x x' -> ri a a' -> ri b b' -> ri c c' -> ri e e' ->
  sim eq (calculateInnerHashM d x za zb a b c e) (calculateInnerHashM d x' za zb a' b' c' e').
Proof. intros. unfold calculateInnerHashM. next. next. next. next. next. one. Qed.
Lemma sim_Z : forall d c x x' y y' id id', bC c -> ri x x' -> ri y y' -> rs id id' -> sim eq (getZM d c x y id) (getZM d c x' y' id').
Proof. intros d c x x' y y' id id' C Hx Hy Hid. unfold getZM. next. next. next. next. next. next. next. one. Qed.
Lemma sim_orEmpty : forall id, bId id -> sim rs (orEmpty id) (orEmpty id).
Proof. intros [s|] H; cbn [orEmpty]; [apply sim_ret, base_s, H|]. eapply (sim_bind _ _ eq); [apply sim_lift|]. intros l l' <-. split; [reflexivity|]. intros j j' Hj. cbn. apply os_rs. split; [exact Hj|]. split; [reflexivity|]. split; reflexivity. Qed.
Lemma sim_Agree : forall g i kb tag sp se sid osp oep oid, bG g -> bPriv sp -> bPriv se -> bPub osp -> bPub oep -> bId tag -> bId sid -> bId oid ->
  sim (eqRes (eqExch os)) (CalculateKeyWithConfirmationM g i kb tag sp se sid osp oep oid) (CalculateKeyWithConfirmationM g i kb tag sp se sid osp oep oid).
Proof.
  intros g i kb tag sp se sid osp oep oid HG HP HE HO HQ HT HS HI. unfold CalculateKeyWithConfirmationM.
  eapply sim_bind; [apply sim_orEmpty, HS|]. intros s s' Hs. eapply sim_bind; [apply sim_orEmpty, HI|]. intros o o' Ho.
  destruct (i && _); [apply sim_ret; reflexivity|].
  eapply sim_bind; [apply sim_Pub, HP|]. intros ps ps' (P1 & P2 & _).
  eapply sim_bind; [apply sim_Z; [apply HP|exact P1|exact P2|exact Hs]|]. intros z z' <-. both.
  eapply sim_bind; [apply sim_Z; [apply HP|apply base, HO|apply base, HO|exact Ho]|]. intros z z' <-. both. cbv zeta.
  eapply sim_bind; [apply sim_Pub, HE|]. intros pe pe' (E1 & E2 & _).
  eapply sim_bind; [apply sim_U; eassumption|]. intros p p' Hp. pairs.
  assert (Q1 := base _ (proj1 HQ)). assert (Q2 := base _ (proj1 (proj2 HQ))).
  destruct i.
  - eapply sim_bind; [apply sim_kdfx; side|]. intros [k r] [k' r'] [W1 W2]; cbn [fst snd] in W1, W2. subst k'. cbv beta iota.
    eapply sim_bind; [apply sim_innerH; side|]. intros z z' <-. both.
    eapply sim_bind; [apply sim_confirm; side|]. intros [u t1] [u' t1'] [W3 W4]; cbn [fst snd] in W3, W4. subst u'. cbv beta iota.
    next. eapply (sim_bind _ _ eq); [destruct tag; [one|apply sim_ret; reflexivity]|]. intros t t' <-.
    match goal with |- context [list_eq_dec Z.eq_dec ?u ?v] => destruct (list_eq_dec Z.eq_dec u v) end; [|apply sim_ret; reflexivity].
    eapply sim_bind; [apply sim_confirm; side|]. intros [v t2] [v' t2'] [W5 W6]; cbn [fst snd] in W5, W6. cbv beta iota. apply sim_ret. split; [exact W2|]. split; [exact I|exact W6].
  - eapply sim_bind; [apply sim_kdfx; side|]. intros [k r] [k' r'] [W1 W2]; cbn [fst snd] in W1, W2. subst k'. cbv beta iota.
    eapply sim_bind; [apply sim_innerH; side|]. intros z z' <-. both.
    eapply sim_bind; [apply sim_confirm; side|]. intros [u t1] [u' t1'] [W3 W4]; cbn [fst snd] in W3, W4. subst u'. cbv beta iota.
    eapply sim_bind; [apply sim_confirm; side|]. intros [v t2] [v' t2'] [W5 W6]; cbn [fst snd] in W5, W6. cbv beta iota. apply sim_ret. split; [exact W2|]. split; [exact W4|exact W6].
Qed.
Lemma sim_RConfirm : forall a b, bS a -> bS b -> sim eq (ResponderConfirmM a b) (ResponderConfirmM a b).
Proof. intros a b A B. unfold ResponderConfirmM. next. next. apply sim_ret. reflexivity. Qed.

(** * Calls *)
Definition ranswer (a a' : answer) : Prop :=
  match a, a' with
  | AKeys r t, AKeys r' t' => eqRes rkeys r r' /\ t = t'
  | APub p, APub p' => rpub p p'
  | ARawPub r, ARawPub r' => eqRes rpub r r'
  | ARawPriv r, ARawPriv r' => eqRes rpriv r r'
  | ACipher r t, ACipher r' t' => eqRes os r r' /\ t = t'
  | APlain r, APlain r' => eqRes os r r'
  | ASignature r t, ASignature r' t' => eqRes rp r r' /\ t = t'
  | AVerdict b, AVerdict b' => b = b'
  | APoint x y, APoint x' y' => G x x' /\ G y y'
  | AExch r, AExch r' => eqRes (eqExch os) r r'
  | _, _ => False
  end.
End Sim.

Lemma sim_execute : forall h0 g c, hasG h0 g -> ready h0 c -> forall G GB,
  sim (List.length (ints h0)) (List.length (bufs h0)) G GB (ranswer (List.length (ints h0)) G GB) (execute g c) (execute g c).
Proof.
  intros h0 g c HG R G GB. destruct c; cbn [execute ready] in *.
  - eapply sim_bind; [apply sim_GenerateKey, HG|]. intros [r t] [r' t'] H. exact H.
  - eapply sim_bind; [apply sim_Pub, R|]. intros r r' H. exact H.
  - eapply sim_bind; [apply sim_RawPub; [exact HG|exact R]|]. intros r r' H. exact H.
  - eapply sim_bind; [apply sim_RawPriv; [exact HG|exact R]|]. intros r r' H. exact H.
  - destruct R as [R1 R2]. eapply sim_bind; [apply sim_Encrypt; [exact R1|exact R2]|]. intros [r t1] [r' t'] H. exact H.
  - destruct R as [R1 R2]. eapply sim_bind; [apply sim_Decrypt; [exact HG|exact R1|exact R2]|]. intros r r' H. exact H.
  - destruct R as (R1 & R2 & R3). eapply sim_bind; [apply sim_Sign; [exact HG|exact R1|exact R2|exact R3]|]. intros [r t1] [r' t'] H. exact H.
  - destruct R as (R1 & R2 & R3 & R4 & R5). eapply sim_bind; [apply sim_Verify; [exact HG|exact R1|exact R2|exact R3|exact R4|exact R5]|]. intros b b' H. exact H.
  - destruct R as (R1 & R2 & R3 & R4 & R5). eapply sim_bind; [apply sim_U; [exact HG|exact R1|exact R2|right; split; [reflexivity|apply R3]|exact R4|exact R5]|]. intros [x y] [x' y'] H. exact H.
  - destruct R as (R1 & R2 & R3 & R4 & R5 & R6 & R7). eapply sim_bind; [apply sim_Agree; [exact HG|exact R1|exact R2|exact R3|exact R4|exact R5|exact R6|exact R7]|]. intros r r' H. exact H.
  - destruct R as (R1 & R2). eapply sim_bind; [apply sim_RConfirm; [exact R1|exact R2]|]. intros r r' H. exact H.
Qed.

(** * One goroutine against its run alone *)
Definition sub2 (G G' : nat -> nat -> Prop) : Prop := forall p p', G p p' -> G' p p'.
(** The pairs hold the same, one to one, above what all share. *)
Definition matched {A} (n : nat) (G : nat -> nat -> Prop) (l l' : list A) : Prop :=
  (forall p p', G p p' -> (n <= p < List.length l)%nat /\ (n <= p' < List.length l')%nat /\ nth_error l p = nth_error l' p') /\
  (forall p p' q', G p p' -> G p q' -> p' = q') /\ (forall p q p', G p p' -> G q p' -> p = q).
Definition below {A} (l0 l : list A) : Prop := (List.length l0 <= List.length l)%nat /\ forall p, (p < List.length l0)%nat -> nth_error l p = nth_error l0 p.
Definition plus (G : nat -> nat -> Prop) (a b : nat) : nat -> nat -> Prop := fun p p' => G p p' \/ (p = a /\ p' = b).
Lemma plus_sub : forall G a b, sub2 G (plus G a b).
Proof. intros G a b p p' H. left. exact H. Qed.
Lemma sub_refl : forall G, sub2 G G.
Proof. intros G p p' H. exact H. Qed.
Lemma matched_push : forall A n G (l l' : list A) x, matched n G l l' -> (n <= List.length l)%nat -> (n <= List.length l')%nat ->
  matched n (plus G (List.length l) (List.length l')) (l ++ [x]) (l' ++ [x]).
Proof.
  intros A n G l l' x (M & I1 & I2) L L'. split; [|split].
  - intros p p' [H|[-> ->]]; rewrite !app_length; cbn [List.length].
    + destruct (M p p' H) as (A1 & A2 & A3). split; [lia|]. split; [lia|]. rewrite !nth_error_app1 by lia. exact A3.
    + split; [lia|]. split; [lia|]. rewrite !nth_error_app2, !Nat.sub_diag by lia. reflexivity.
  - intros p p' q' [H|[-> ->]] [H'|[E ->]].
    + eapply I1; eassumption.
    + destruct (M _ _ H) as (A1 & _). lia.
    + destruct (M _ _ H') as (A1 & _). lia.
    + reflexivity.
  - intros p q p' [H|[-> ->]] [H'|[-> E]].
    + eapply I2; eassumption.
    + destruct (M _ _ H) as (_ & A1 & _). lia.
    + destruct (M _ _ H') as (_ & A1 & _). lia.
    + reflexivity.
Qed.
Lemma below_push : forall A (l0 l : list A) x, below l0 l -> below l0 (l ++ [x]).
Proof. intros A l0 l x [L H]. split; [rewrite app_length; lia|]. intros p Hp. rewrite nth_error_app1 by lia. apply H, Hp. Qed.
Lemma nth_error_upd : forall A (l : list A) p q x, (p < List.length l)%nat -> nth_error (upd l p x) q = if Nat.eq_dec p q then Some x else nth_error l q.
Proof.
  induction l as [|y l IH]; intros [|p] [|q] x L; cbn [List.length upd nth_error] in *; try lia; try reflexivity. rewrite IH by lia.
  destruct (Nat.eq_dec p q), (Nat.eq_dec (S p) (S q)); try reflexivity; lia.
Qed.
Lemma matched_upd : forall A n G (l l' : list A) p p' x, matched n G l l' -> G p p' -> matched n G (upd l p x) (upd l' p' x).
Proof.
  intros A n G l l' p p' x (M & I1 & I2) H. destruct (M _ _ H) as (A1 & A2 & _). split; [|split; [exact I1|exact I2]].
  intros q q' Hq. rewrite !upd_length. destruct (M _ _ Hq) as (B1 & B2 & B3). split; [lia|]. split; [lia|]. rewrite !nth_error_upd by lia.
  destruct (Nat.eq_dec p q) as [<-|N], (Nat.eq_dec p' q') as [<-|N']; [reflexivity| | |exact B3].
  - destruct N'. eapply I1; eassumption.
  - destruct N. eapply I2; eassumption.
Qed.
Lemma below_upd : forall A (l0 l : list A) p x, below l0 l -> (List.length l0 <= p < List.length l)%nat -> below l0 (upd l p x).
Proof.
  intros A l0 l p x [L H] Hp. split; [rewrite upd_length; exact L|]. intros q Hq. rewrite nth_error_upd by lia. destruct (Nat.eq_dec p q); [lia|apply H, Hq].
Qed.
Lemma nth_of_error : forall A (l : list A) p d, nth p l d = match nth_error l p with Some v => v | None => d end.
Proof. induction l as [|x l IH]; intros [|p] d; try reflexivity. apply IH. Qed.

Section Thread.
Variables (A : Type) (h0 : heap) (Q : (nat -> nat -> Prop) -> (nat -> nat -> Prop) -> A -> A -> Prop).
Let n := List.length (ints h0).
Let nb := List.length (bufs h0).
Definition below_h (h : heap) : Prop := below (ints h0) (ints h) /\ below (bufs h0) (bufs h).
(** Related whatever else is paired later. *)
Definition psim (G GB : nat -> nat -> Prop) (m m' : prog A) : Prop :=
  forall G' GB', sub2 G G' -> sub2 GB GB' -> sim n nb G' GB' (Q G' GB') m m'.
Definition linked (G GB : nat -> nat -> Prop) (m m' : prog A) (h h' : heap) : Prop :=
  psim G GB m m' /\ matched n G (ints h) (ints h') /\ matched nb GB (bufs h) (bufs h') /\ below_h h'.
(** Where a goroutine may look and write. *)
Definition touches (G GB : nat -> nat -> Prop) (a : access) : Prop :=
  match a with
  | WrI p => exists p', G p p'
  | RdI p => (p < n)%nat \/ exists p', G p p'
  | WrB j => exists j', GB j j'
  | RdB j => (j < nb)%nat \/ exists j', GB j j'
  end.
(** What others have is left alone. *)
Definition spares {B} (G : nat -> nat -> Prop) (l l1 : list B) : Prop :=
  (List.length l <= List.length l1)%nat /\ forall p, (p < List.length l)%nat -> (forall p', ~ G p p') -> nth_error l1 p = nth_error l p.
Definition extends (len : nat) (G G1 : nat -> nat -> Prop) : Prop := sub2 G G1 /\ forall p p', G1 p p' -> G p p' \/ (len <= p)%nat.
Lemma extends_refl : forall len G, extends len G G.
Proof. intros len G. split; [apply sub_refl|]. intros p p' H. left. exact H. Qed.
Lemma extends_plus : forall len G b, extends len G (plus G len b).
Proof. intros len G b. split; [apply plus_sub|]. intros p p' [H|[-> _]]; [left; exact H|right; lia]. Qed.
Lemma spares_refl : forall B G (l : list B), spares G l l.
Proof. intros B G l. split; [lia|]. intros. reflexivity. Qed.
Lemma spares_push : forall B G (l : list B) x, spares G l (l ++ [x]).
Proof. intros B G l x. split; [rewrite app_length; lia|]. intros p Hp _. apply nth_error_app1. exact Hp. Qed.
Lemma spares_upd : forall B (G : nat -> nat -> Prop) (l : list B) p p' x, G p p' -> (p < List.length l)%nat -> spares G l (upd l p x).
Proof.
  intros B G l p p' x H L. split; [rewrite upd_length; lia|]. intros q Hq N. rewrite nth_error_upd by exact L. destruct (Nat.eq_dec p q) as [<-|]; [destruct (N p' H)|reflexivity].
Qed.

Lemma linked_step : forall G GB m m' h h' a m1 h1, linked G GB m m' h h' -> below_h h -> step m h = Some (a, m1, h1) ->
  exists G1 GB1 a' m1' h1', step m' h' = Some (a', m1', h1') /\ linked G1 GB1 m1 m1' h1 h1' /\ below_h h1 /\
    extends (List.length (ints h)) G G1 /\ extends (List.length (bufs h)) GB GB1 /\
    spares G (ints h) (ints h1) /\ spares GB (bufs h) (bufs h1) /\ touches G1 GB1 a.
Proof.
  intros G GB m m' h h' a m1 h1 (S & MI & MB & BI' & BB') (BI & BB) E.
  assert (S0 := S G GB (sub_refl _) (sub_refl _)).
  assert (LI : (n <= List.length (ints h))%nat) by apply BI. assert (LB : (nb <= List.length (bufs h))%nat) by apply BB.
  assert (LI' : (n <= List.length (ints h'))%nat) by apply BI'. assert (LB' : (nb <= List.length (bufs h'))%nat) by apply BB'.
  destruct m as [o|f|p f|p v f|l f|j f|j off l f]; destruct m' as [o'|f'|p' f'|p' v' f'|l' f'|j' f'|j' off' l' f'];
    try (exfalso; cbn [sim] in S0; try destruct o; exact S0).
  - discriminate E.
  - cbn [step] in *. injection E as <- <- <-. exists (plus G (List.length (ints h)) (List.length (ints h'))), GB. do 3 eexists. split; [reflexivity|].
    split; [split; [|split; [|split; [exact MB|split; [|exact BB']]]]|].
    + intros G' GB' s1 s2. apply (S G' GB'); [intros p p' H; apply s1; left; exact H|exact s2|]. apply s1. right. split; reflexivity.
    + apply matched_push; assumption.
    + apply below_push, BI'.
    + split; [split; [apply below_push, BI|exact BB]|]. split; [apply extends_plus|]. split; [apply extends_refl|]. split; [apply spares_push|]. split; [apply spares_refl|].
      eexists. right. split; reflexivity.
  - cbn [sim] in S0. destruct S0 as [R S0]. cbn [step] in *. injection E as <- <- <-.
    assert (EQ : nth_error (ints h) p = nth_error (ints h') p').
    { destruct R as [R|[<- R]]; [apply MI, R|]. destruct BI as [_ ->]; [|exact R]. destruct BI' as [_ ->]; [reflexivity|exact R]. }
    exists G, GB. do 3 eexists. split; [reflexivity|]. split; [split; [|split; [exact MI|split; [exact MB|split; [exact BI'|exact BB']]]]|].
    + intros G' GB' s1 s2. rewrite <- EQ. destruct (S G' GB' s1 s2) as [_ S1]. destruct (nth_error (ints h) p); [apply S1|reflexivity].
    + split; [split; assumption|]. split; [apply extends_refl|]. split; [apply extends_refl|]. split; [apply spares_refl|]. split; [apply spares_refl|].
      destruct R as [R|[_ R]]; [right; eauto|left; exact R].
  - cbn [sim] in S0. destruct S0 as (R & <- & S0). destruct (proj1 MI _ _ R) as (R1 & R2 & _). cbn [step] in *.
    destruct (Nat.ltb_spec p (List.length (ints h))); [|lia]. destruct (Nat.ltb_spec p' (List.length (ints h'))); [|lia]. injection E as <- <- <-.
    exists G, GB. do 3 eexists. split; [reflexivity|]. split; [split; [|split; [|split; [exact MB|split; [|exact BB']]]]|].
    + intros G' GB' s1 s2. apply (S G' GB' s1 s2).
    + apply matched_upd; assumption.
    + apply below_upd; [exact BI'|unfold n in *; lia].
    + split; [split; [apply below_upd; [exact BI|unfold n in *; lia]|exact BB]|]. split; [apply extends_refl|]. split; [apply extends_refl|]. split; [eapply spares_upd; [exact R|lia]|].
      split; [apply spares_refl|]. exists p'. exact R.
  - cbn [sim] in S0. destruct S0 as [<- _]. cbn [step] in *. injection E as <- <- <-. exists G, (plus GB (List.length (bufs h)) (List.length (bufs h'))). do 3 eexists. split; [reflexivity|].
    split; [split; [|split; [exact MI|split; [|split; [exact BI'|]]]]|].
    + intros G' GB' s1 s2. apply (proj2 (S G' GB' s1 (fun p p' H => s2 p p' (or_introl H)))). apply s2. right. split; reflexivity.
    + apply matched_push; assumption.
    + apply below_push, BB'.
    + split; [split; [exact BI|apply below_push, BB]|]. split; [apply extends_refl|]. split; [apply extends_plus|]. split; [apply spares_refl|]. split; [apply spares_push|].
      eexists. right. split; reflexivity.
  - cbn [sim] in S0. destruct S0 as [R S0]. cbn [step] in *. injection E as <- <- <-.
    assert (EQ : nth j (bufs h) [] = nth j' (bufs h') []).
    { rewrite !nth_of_error. destruct R as [R|[<- R]]; [destruct (proj1 MB _ _ R) as (_ & _ & ->); reflexivity|].
      destruct BB as [_ ->]; [|exact R]. destruct BB' as [_ ->]; [reflexivity|exact R]. }
    exists G, GB. do 3 eexists. split; [reflexivity|]. split; [split; [|split; [exact MI|split; [exact MB|split; [exact BI'|exact BB']]]]|].
    + intros G' GB' s1 s2. rewrite <- EQ. apply (S G' GB' s1 s2).
    + split; [split; assumption|]. split; [apply extends_refl|]. split; [apply extends_refl|]. split; [apply spares_refl|]. split; [apply spares_refl|].
      destruct R as [R|[_ R]]; [right; eauto|left; exact R].
  - cbn [sim] in S0. destruct S0 as (R & <- & <- & S0). destruct (proj1 MB _ _ R) as (R1 & R2 & R3). cbn [step] in *. injection E as <- <- <-.
    assert (EQ : nth j (bufs h) [] = nth j' (bufs h') []) by (rewrite !nth_of_error, R3; reflexivity).
    exists G, GB. do 3 eexists. split; [reflexivity|]. split; [split; [|split; [exact MI|split; [|split; [exact BI'|]]]]|].
    + intros G' GB' s1 s2. apply (S G' GB' s1 s2).
    + rewrite EQ. apply matched_upd; assumption.
    + apply below_upd; [exact BB'|unfold nb in *; lia].
    + split; [split; [exact BI|apply below_upd; [exact BB|unfold nb in *; lia]]|]. split; [apply extends_refl|]. split; [apply extends_refl|]. split; [apply spares_refl|].
      split; [eapply spares_upd; [exact R|lia]|]. exists j'. exact R.
Qed.
Lemma linked_done : forall G GB m m' h h', linked G GB m m' h h' -> step m h = None ->
  exists o o', m = Done o /\ m' = Done o' /\ match o, o' with Ret a, Ret a' => Q G GB a a' | Panic e, Panic e' => e = e' | _, _ => False end.
Proof.
  intros G GB m m' h h' (S & _) E. specialize (S G GB (sub_refl _) (sub_refl _)).
  destruct m as [o|f|p f|p v f|l f|j f|j off l f]; try (cbn [step] in E; discriminate E); [|cbn [step] in E; destruct (Nat.ltb p (List.length (ints h))); discriminate E].
  destruct m' as [o'|f'|p' f'|p' v' f'|l' f'|j' f'|j' off' l' f']; try (exfalso; cbn [sim] in S; destruct o; exact S).
  exists o, o'. split; [reflexivity|]. split; [reflexivity|]. cbn [sim] in S. destruct o, o'; exact S.
Qed.

(** How many accesses a program makes when it runs alone. *)
Fixpoint turns (m : prog A) (h : heap) : nat :=
  match m with
  | Done _ => 0
  | NewInt k => S (turns (k (List.length (ints h))) (mkHeap (ints h ++ [0]) (bufs h)))
  | GetInt p k => S (match nth_error (ints h) p with Some v => turns (k v) h | None => 0 end)
  | SetInt p v k => S (if Nat.ltb p (List.length (ints h)) then turns k (mkHeap (upd (ints h) p v) (bufs h)) else 0)
  | NewBuf l k => S (turns (k (List.length (bufs h))) (mkHeap (ints h) (bufs h ++ [l])))
  | GetBuf j k => S (turns (k (nth j (bufs h) [])) h)
  | PutBuf j off l k => S (turns k (mkHeap (ints h) (upd (bufs h) j (putAt (nth j (bufs h) []) off l))))
  end.
Lemma step_run : forall m h a m1 h1, step m h = Some (a, m1, h1) -> run m h = run m1 h1 /\ turns m h = S (turns m1 h1).
Proof.
  intros m h a m1 h1 E. destruct m as [o|f|p f|p v f|l f|j f|j off l f]; cbn [step run turns] in *; try discriminate E;
    try (injection E as <- <- <-; split; reflexivity).
  - injection E as <- <- <-. destruct (nth_error (ints h) p); split; reflexivity.
  - destruct (Nat.ltb p (List.length (ints h))); injection E as <- <- <-; split; reflexivity.
Qed.

(** * All goroutines *)
Record world := mkWorld { wS : nat -> prog A * heap; wG : nat -> nat -> nat -> Prop; wB : nat -> nat -> nat -> Prop }.
Definition good (w : world) (h : heap) (ts : list (prog A)) : Prop :=
  below_h h /\
  (forall i m, nth_error ts i = Some m -> linked (wG w i) (wB w i) m (fst (wS w i)) h (snd (wS w i))) /\
  (forall i p p', wG w i p p' -> (n <= p < List.length (ints h))%nat) /\ (forall i p p', wB w i p p' -> (nb <= p < List.length (bufs h))%nat) /\
  (forall i j p p' q', i <> j -> wG w i p p' -> wG w j p q' -> False) /\ (forall i j p p' q', i <> j -> wB w i p p' -> wB w j p q' -> False).
Definition grows (w w' : world) : Prop :=
  (forall i, sub2 (wG w i) (wG w' i) /\ sub2 (wB w i) (wB w' i)) /\
  (forall i, run (fst (wS w i)) (snd (wS w i)) = run (fst (wS w' i)) (snd (wS w' i))).
Definition at_i {B} (i : nat) (x : B) (f : nat -> B) : nat -> B := fun k => if Nat.eq_dec k i then x else f k.
Lemma at_same : forall B i (x : B) f, at_i i x f i = x.
Proof. intros. unfold at_i. destruct (Nat.eq_dec i i); [reflexivity|congruence]. Qed.
Lemma at_other : forall B i k (x : B) f, k <> i -> at_i i x f k = f k.
Proof. intros. unfold at_i. destruct (Nat.eq_dec k i); [congruence|reflexivity]. Qed.
Lemma matched_spared : forall B (N : nat) (G Gi : nat -> nat -> Prop) (l l1 l' : list B), matched N G l l' -> spares Gi l l1 -> (forall p p' q', G p p' -> Gi p q' -> False) -> matched N G l1 l'.
Proof.
  intros B N G Gi l l1 l' (M & I) [L S] D. split; [|exact I]. intros p p' H. destruct (M p p' H) as (A1 & A2 & A3). split; [lia|]. split; [exact A2|].
  rewrite S; [exact A3|lia|]. intros q' Hq. eapply D; eassumption.
Qed.
Lemma touches_sub : forall G GB G' GB' a, sub2 G G' -> sub2 GB GB' -> touches G GB a -> touches G' GB' a.
Proof. intros G GB G' GB' [p|p|j|j] s1 s2 H; cbn in *; try (destruct H as [H|[q H]]; [left; exact H|right; exists q; auto]); destruct H as [q H]; exists q; auto. Qed.

Lemma interleave_good : forall sched w h ts, good w h ts ->
  exists w', good w' (snd (fst (interleave sched h ts))) (snd (interleave sched h ts)) /\ grows w w' /\
    List.length (snd (interleave sched h ts)) = List.length ts /\
    (forall i a, In (i, a) (fst (fst (interleave sched h ts))) -> touches (wG w' i) (wB w' i) a) /\
    (forall i, (i < List.length ts)%nat -> (turns (fst (wS w' i)) (snd (wS w' i)) = turns (fst (wS w i)) (snd (wS w i)) - count_occ Nat.eq_dec sched i)%nat).
Proof.
  induction sched as [|i sched IH]; intros w h ts Gd; cbn [interleave].
  { exists w. cbn [fst snd]. split; [exact Gd|]. split; [split; [intro; split; apply sub_refl|reflexivity]|]. split; [reflexivity|]. split; [intros ? ? []|]. intros i _. cbn. lia. }
  destruct (nth_error ts i) as [m|] eqn:EM.
  2: { destruct (IH w h ts Gd) as (w' & H1 & H2 & H3 & H4 & H5). exists w'. split; [exact H1|]. split; [exact H2|]. split; [exact H3|]. split; [exact H4|].
       intros k Hk. rewrite (H5 k Hk). cbn [count_occ]. destruct (Nat.eq_dec i k) as [<-|]; [apply nth_error_None in EM; lia|reflexivity]. }
  destruct (step m h) as [[[a m1] h1]|] eqn:ES.
  2: { destruct (IH w h ts Gd) as (w' & H1 & H2 & H3 & H4 & H5). exists w'. split; [exact H1|]. split; [exact H2|]. split; [exact H3|]. split; [exact H4|].
       intros k Hk. rewrite (H5 k Hk). cbn [count_occ]. destruct (Nat.eq_dec i k) as [<-|]; [|reflexivity]. destruct Gd as (_ & Gd & _).
       destruct (linked_done _ _ _ _ _ _ (Gd i m EM) ES) as (o & o' & _ & E' & _). rewrite E'. reflexivity. }
  destruct Gd as (Bh & L & O1 & O2 & D1 & D2).
  destruct (linked_step _ _ _ _ _ _ _ _ _ (L i m EM) Bh ES) as (G1 & GB1 & a' & m1' & h1' & ES' & L1 & Bh1 & X1 & X2 & P1 & P2 & T).
  destruct (step_run _ _ _ _ _ ES') as [R1 R2]. assert (Li : (i < List.length ts)%nat) by (apply nth_error_Some; congruence).
  set (w1 := mkWorld (at_i i (m1', h1') (wS w)) (at_i i G1 (wG w)) (at_i i GB1 (wB w))).
  assert (G1d : good w1 h1 (upd ts i m1)).
  { split; [exact Bh1|]. unfold w1. cbn [wS wG wB]. split; [|split; [|split; [|split]]].
    - intros k mk Hk. rewrite nth_error_upd in Hk by exact Li. destruct (Nat.eq_dec i k) as [<-|N].
      + injection Hk as <-. rewrite !at_same. exact L1.
      + rewrite !at_other by congruence. destruct (L k mk Hk) as (A1 & A2 & A3 & A4). split; [exact A1|]. split; [|split; [|exact A4]].
        * eapply matched_spared; [exact A2|exact P1|]. intros p p' q' Q1 Q2. apply (D1 k i p p' q'); congruence || assumption.
        * eapply matched_spared; [exact A3|exact P2|]. intros p p' q' Q1 Q2. apply (D2 k i p p' q'); congruence || assumption.
    - intros k p p' H. destruct (Nat.eq_dec k i) as [->|N]; [rewrite at_same in H; destruct L1 as (_ & (M & _) & _); apply (M p p' H)|].
      rewrite at_other in H by exact N. specialize (O1 k p p' H). destruct P1 as [P1 _]. lia.
    - intros k p p' H. destruct (Nat.eq_dec k i) as [->|N]; [rewrite at_same in H; destruct L1 as (_ & _ & (M & _) & _); apply (M p p' H)|].
      rewrite at_other in H by exact N. specialize (O2 k p p' H). destruct P2 as [P2 _]. lia.
    - intros k j p p' q' N. unfold at_i. destruct (Nat.eq_dec k i) as [->|Nk]; destruct (Nat.eq_dec j i) as [->|Nj]; intros H1 H2.
      + congruence.
      + destruct (proj2 X1 _ _ H1) as [H1'|H1']; [exact (D1 i j p p' q' N H1' H2)|]. specialize (O1 _ _ _ H2). lia.
      + destruct (proj2 X1 _ _ H2) as [H1'|H1']; [exact (D1 k i p p' q' N H1 H1')|]. specialize (O1 _ _ _ H1). lia.
      + exact (D1 k j p p' q' N H1 H2).
    - intros k j p p' q' N. unfold at_i. destruct (Nat.eq_dec k i) as [->|Nk]; destruct (Nat.eq_dec j i) as [->|Nj]; intros H1 H2.
      + congruence.
      + destruct (proj2 X2 _ _ H1) as [H1'|H1']; [exact (D2 i j p p' q' N H1' H2)|]. specialize (O2 _ _ _ H2). lia.
      + destruct (proj2 X2 _ _ H2) as [H1'|H1']; [exact (D2 k i p p' q' N H1 H1')|]. specialize (O2 _ _ _ H1). lia.
      + exact (D2 k j p p' q' N H1 H2). }
  destruct (IH w1 h1 (upd ts i m1) G1d) as (w' & H1 & [H2 H2'] & H3 & H4 & H5).
  destruct (interleave sched h1 (upd ts i m1)) as [[tr hf] tf]. cbn [fst snd] in *. exists w'. split; [exact H1|].
  assert (S1 : forall k, sub2 (wG w k) (wG w1 k) /\ sub2 (wB w k) (wB w1 k)).
  { intro k. unfold w1. cbn [wG wB]. unfold at_i. destruct (Nat.eq_dec k i) as [->|]; [split; [apply X1|apply X2]|split; apply sub_refl]. }
  split; [split|split; [|split]].
  - intro k. split; intros p p' H; apply H2, S1, H.
  - intro k. rewrite <- H2'. unfold w1. cbn [wS]. unfold at_i. destruct (Nat.eq_dec k i) as [->|]; [exact R1|reflexivity].
  - rewrite H3. apply upd_length.
  - intros k b [Hb|Hb]; [|apply H4, Hb]. injection Hb as <- <-. eapply touches_sub; [apply H2|apply H2|]. unfold w1. cbn [wG wB]. rewrite !at_same. exact T.
  - intros k Hk. rewrite H5 by (rewrite upd_length; exact Hk). unfold w1. cbn [wS count_occ]. unfold at_i.
    destruct (Nat.eq_dec k i) as [->|N]; [|destruct (Nat.eq_dec i k); [congruence|reflexivity]]. destruct (Nat.eq_dec i i); [|congruence]. cbn [fst snd]. rewrite R2. lia.
Qed.
End Thread.

(** * The claim *)
(** The calls, each in a goroutine, run by a schedule. *)
Definition concurrently (g : globals) (calls : list call) (sched : list nat) (h : heap) : list (nat * access) * heap * list (prog answer) :=
  interleave sched h (map (execute g) calls).
Definition accesses (r : list (nat * access) * heap * list (prog answer)) : list (nat * access) := fst (fst r).
Definition memory (r : list (nat * access) * heap * list (prog answer)) : heap := snd (fst r).
(** Goroutine [i] is finished, with this outcome. *)
Definition finished (r : list (nat * access) * heap * list (prog answer)) (i : nat) (o : go answer) : Prop := nth_error (snd r) i = Some (Done o).
(** Two accesses to one place, not both reads. *)
Definition conflict (a b : access) : Prop :=
  match a, b with
  | WrI p, WrI q | WrI p, RdI q | RdI p, WrI q => p = q
  | WrB p, WrB q | WrB p, RdB q | RdB p, WrB q => p = q
  | _, _ => False
  end.

Definition start (h0 : heap) (ts : list (prog answer)) : world answer :=
  mkWorld _ (fun i => (nth i ts (Done (Panic PNil)), h0)) (fun _ _ _ => False) (fun _ _ _ => False).
Lemma below_refl : forall A (l : list A), below l l.
Proof. intros A l. split; [lia|]. reflexivity. Qed.
Lemma start_good : forall g h0 calls, hasG h0 g -> (forall c, In c calls -> ready h0 c) ->
  good answer h0 (ranswer (List.length (ints h0))) (start h0 (map (execute g) calls)) h0 (map (execute g) calls).
Proof.
  intros g h0 calls HG HR. split; [split; apply below_refl|]. cbn [start wS wG wB]. split; [|repeat split; intros; contradiction].
  intros i m E. rewrite (nth_error_nth _ _ _ E). cbn [fst snd]. split; [|split; [|split]].
  - apply nth_error_In, in_map_iff in E. destruct E as (c & <- & Hc). intros G GB _ _. apply sim_execute; [exact HG|apply HR, Hc].
  - repeat split; intros; contradiction.
  - repeat split; intros; contradiction.
  - split; apply below_refl.
Qed.
Lemma nth_map_call : forall g calls i c, nth_error calls i = Some c -> nth i (map (execute g) calls) (Done (Panic PNil)) = execute g c.
Proof. intros g calls i c E. apply nth_error_nth. apply map_nth_error. exact E. Qed.

Section Answers.
Variables (h0 h h' : heap) (G GB : nat -> nat -> Prop).
Let n := List.length (ints h0).
Let nb := List.length (bufs h0).
Hypothesis BH : below_h h0 h.
Hypothesis BH' : below_h h0 h'.
Hypothesis MI : matched n G (ints h) (ints h').
Hypothesis MB : matched nb GB (bufs h) (bufs h').
Lemma ans_own : forall p p', G p p' -> eqI h h' p p'.
Proof. intros p p' H. destruct (proj1 MI p p' H) as (A1 & A2 & A3). split; [unfold has; lia|]. split; [unfold has; lia|exact A3]. Qed.
Lemma ans_i : forall p p', ri n G p p' -> eqI h h' p p'.
Proof.
  intros p p' [H|[<- H]]; [apply ans_own, H|]. destruct BH as [[L B] _], BH' as [[L' B'] _]. unfold n in *. split; [unfold has; lia|]. split; [unfold has; lia|]. rewrite B, B' by exact H. reflexivity.
Qed.
Lemma ans_s : forall s s', os GB s s' -> eqB h h' s s'.
Proof.
  intros s s' (H & H1 & H2 & H3). destruct (proj1 MB _ _ H) as (A1 & A2 & A3). split; [unfold hasB; lia|]. split; [unfold hasB; lia|].
  split; [exact H1|]. split; [exact H2|]. split; [exact H3|]. rewrite !nth_of_error, A3. reflexivity.
Qed.
Lemma ans_c : forall c c', rc n c c' -> eqC h h' c c'.
Proof. intros c c' [<- (A1 & A2 & A3 & A4 & A5 & A6)]. repeat (split; [apply ans_i; right; split; [reflexivity|assumption]|]). apply ans_i. right. split; [reflexivity|assumption]. Qed.
Lemma ans_pub : forall p p', rpub n G p p' -> eqPub h h' p p'.
Proof. intros p p' (H1 & H2 & H3). split; [apply ans_i, H1|]. split; [apply ans_i, H2|apply ans_c, H3]. Qed.
Lemma ans_priv : forall p p', rpriv n G p p' -> eqPriv h h' p p'.
Proof. intros p p' (H1 & H3). split; [apply ans_i, H1|apply ans_c, H3]. Qed.
Lemma eqRes_mono : forall A (R R' : A -> A -> Prop) r r', (forall a a', R a a' -> R' a a') -> eqRes R r r' -> eqRes R' r r'.
Proof. intros A R R' [a|e] [a'|e'] H E; cbn in *; auto. Qed.
Lemma ans_all : forall a a', ranswer n G GB a a' -> eqAnswer h h' a a'.
Proof.
  intros [r t|p|r|r|r t|r|r t|b|x y|r] [r' t'|p'|r'|r'|r' t'|r'|r' t'|b'|x' y'|r'] H; cbn [ranswer eqAnswer] in *; try (exfalso; exact H).
  - destruct H as [H <-]. split; [|reflexivity]. revert H. apply eqRes_mono. intros a a' [H1 H2]. split; [apply ans_priv, H1|apply ans_pub, H2].
  - apply ans_pub, H.
  - revert H. apply eqRes_mono, ans_pub.
  - revert H. apply eqRes_mono, ans_priv.
  - destruct H as [H <-]. split; [|reflexivity]. revert H. apply eqRes_mono, ans_s.
  - revert H. apply eqRes_mono, ans_s.
  - destruct H as [H <-]. split; [|reflexivity]. revert H. apply eqRes_mono. intros a a' [H1 H2]. split; apply ans_own; assumption.
  - exact H.
  - destruct H as [H1 H2]. split; apply ans_own; assumption.
  - revert H. apply eqRes_mono. intros [k [s|] t] [k' [s'|] t'] (H1 & H2 & H3); cbn [eqSlot eKey eS1 eS2] in H1, H2, H3; try (exfalso; exact H2); (split; [apply ans_s, H1|]); (split; [|apply ans_s, H3]); cbn; [apply ans_s, H2|exact I].
Qed.
End Answers.

(** Whatever the others do, and at whatever time one looks, a finished call has the outcome it has when it runs alone. *)
Theorem C111_same : forall g h0 calls sched i c o, hasG h0 g -> (forall c, In c calls -> ready h0 c) -> nth_error calls i = Some c ->
  finished (concurrently g calls sched h0) i o ->
  eqOutcome (memory (concurrently g calls sched h0)) (snd (execute g c h0)) o (fst (execute g c h0)).
Proof.
  intros g h0 calls sched i c o HG HR Hc F. destruct (interleave_good _ _ _ sched _ _ _ (start_good g h0 calls HG HR)) as (w & (B & L & _) & [_ R] & _).
  specialize (L i _ F). specialize (R i). cbn [start wS fst snd] in R. rewrite (nth_map_call g calls i c Hc) in R.
  destruct (linked_done _ _ _ _ _ _ _ _ _ L eq_refl) as (o1 & o' & E & E' & Q). injection E as <-. rewrite E' in R. cbn [run] in R.
  assert (R1 : fst (execute g c h0) = o') by (rewrite R; reflexivity). assert (R2 : snd (execute g c h0) = snd (wS _ w i)) by (rewrite R; reflexivity).
  rewrite R1, R2. destruct L as (_ & MI & MB & B'). unfold eqOutcome. destruct o, o'; try exact Q.
  exact (ans_all h0 _ _ _ _ B B' MI MB _ _ Q).
Qed.
(** No data race: two goroutines never access the same integer or buffer, one of them writing, however far apart in time. *)
Theorem C111_no_race : forall g h0 calls sched i j a b, hasG h0 g -> (forall c, In c calls -> ready h0 c) -> i <> j ->
  In (i, a) (accesses (concurrently g calls sched h0)) -> In (j, b) (accesses (concurrently g calls sched h0)) -> ~ conflict a b.
Proof.
  intros g h0 calls sched i j a b HG HR N Ha Hb. destruct (interleave_good _ _ _ sched _ _ _ (start_good g h0 calls HG HR)) as (w & (_ & _ & O1 & O2 & D1 & D2) & _ & _ & T & _).
  apply T in Ha. apply T in Hb.
  assert (X1 : forall p p', wG _ w i p p' -> ~ (p < List.length (ints h0))%nat) by (intros p p' H; specialize (O1 _ _ _ H); lia).
  assert (X2 : forall p p', wG _ w j p p' -> ~ (p < List.length (ints h0))%nat) by (intros p p' H; specialize (O1 _ _ _ H); lia).
  assert (X3 : forall p p', wB _ w i p p' -> ~ (p < List.length (bufs h0))%nat) by (intros p p' H; specialize (O2 _ _ _ H); lia).
  assert (X4 : forall p p', wB _ w j p p' -> ~ (p < List.length (bufs h0))%nat) by (intros p p' H; specialize (O2 _ _ _ H); lia).
  destruct a as [p|p|p|p], b as [q|q|q|q]; intro C; cbn [conflict] in C; try exact C; subst q; cbn [touches] in Ha, Hb.
  - destruct Hb as [q Hb], Ha as [Ha|[q' Ha]]; [exact (X2 _ _ Hb Ha)|exact (D1 _ _ _ _ _ N Ha Hb)].
  - destruct Ha as [q Ha], Hb as [Hb|[q' Hb]]; [exact (X1 _ _ Ha Hb)|exact (D1 _ _ _ _ _ N Ha Hb)].
  - destruct Ha as [q Ha], Hb as [q' Hb]. exact (D1 _ _ _ _ _ N Ha Hb).
  - destruct Hb as [q Hb], Ha as [Ha|[q' Ha]]; [exact (X4 _ _ Hb Ha)|exact (D2 _ _ _ _ _ N Ha Hb)].
  - destruct Ha as [q Ha], Hb as [Hb|[q' Hb]]; [exact (X3 _ _ Ha Hb)|exact (D2 _ _ _ _ _ N Ha Hb)].
  - destruct Ha as [q Ha], Hb as [q' Hb]. exact (D2 _ _ _ _ _ N Ha Hb).
Qed.
(** At every moment everything that was there before the calls is as it was. *)
Theorem C111_unchanged : forall g h0 calls sched, hasG h0 g -> (forall c, In c calls -> ready h0 c) -> unchanged h0 (memory (concurrently g calls sched h0)).
Proof.
  intros g h0 calls sched HG HR. destruct (interleave_good _ _ _ sched _ _ _ (start_good g h0 calls HG HR)) as (w & ((B1 & B2) & _) & _).
  assert (X : forall A (l0 l : list A), below l0 l -> firstn (List.length l0) l = l0).
  { clear. induction l0 as [|x l0 IH]; intros l [L H]; [reflexivity|]. destruct l as [|y l]; [cbn in L; lia|]. cbn [firstn List.length].
    assert (E := H 0%nat ltac:(cbn; lia)). cbn in E. injection E as ->. f_equal. apply IH. split; [cbn in L; lia|]. intros p Hp. apply (H (S p)). cbn. lia. }
  split; apply X; assumption.
Qed.
(** Calls do not wait for each other: a number of turns that depends on the call alone is enough. *)
Theorem C111_finishes : forall g h0 c, exists N, forall calls sched i, hasG h0 g -> (forall c, In c calls -> ready h0 c) -> nth_error calls i = Some c ->
  (N <= count_occ Nat.eq_dec sched i)%nat -> exists o, finished (concurrently g calls sched h0) i o.
Proof.
  intros g h0 c. exists (turns answer (execute g c) h0). intros calls sched i HG HR Hc HN.
  destruct (interleave_good _ _ _ sched _ _ _ (start_good g h0 calls HG HR)) as (w & (_ & L & _) & _ & E & _ & T).
  assert (Li : (i < List.length calls)%nat) by (apply nth_error_Some; congruence). rewrite map_length in *.
  specialize (T i Li). cbn [start wS fst snd] in T. rewrite (nth_map_call g calls i c Hc) in T.
  assert (T0 : turns answer (fst (wS _ w i)) (snd (wS _ w i)) = 0%nat) by lia. unfold finished, concurrently.
  destruct (nth_error (snd (interleave sched h0 (map (execute g) calls))) i) as [m|] eqn:EM; [|apply nth_error_None in EM; lia].
  specialize (L i m EM). destruct L as (S & _). specialize (S _ _ (sub_refl _) (sub_refl _)).
  destruct (fst (wS _ w i)); try discriminate T0. destruct m as [o'|f'|p' f'|p' v' f'|l' f'|j' f'|j' off' l' f']; try (exfalso; exact S). exists o'. reflexivity.
Qed.

(** Together with C103: the outcomes are those of the functions on values, under every schedule. *)
Lemma bind_run : forall (A : Type) (m : prog A) (f : A -> answer) h,
  run (mem x <- m; retp (f x)) h = (match fst (run m h) with Ret a => Ret (f a) | Panic e => Panic e end, snd (run m h)).
Proof. intros A m f h. rewrite run_bind. destruct (run m h) as [[a|e] h']; reflexivity. Qed.
Lemma eqI_at : forall h h' p p' v, eqI h h' p p' -> int_at h' p' v -> int_at h p v.
Proof. intros h h' p p' v (_ & _ & E) H. unfold int_at in *. congruence. Qed.
Lemma eqB_at : forall h h' s s' l, eqB h h' s s' -> slice_at h' s' l -> slice_at h s l.
Proof.
  intros h h' s s' l (B & _ & E1 & E2 & E3 & E4) (_ & H2 & H3 & H4). unfold slice_at, view in *. rewrite E1, E2, E3, E4. unfold hasB in B. repeat (split; [assumption|]). assumption.
Qed.
Theorem C111_sign : forall g h0 calls sched i o priv d id idl m ml tape, hasG h0 g -> (forall c, In c calls -> ready h0 c) ->
  nth_error calls i = Some (KSign priv id m tape) -> priv_at h0 priv d -> id_at h0 g id idl -> slice_at h0 m ml ->
  finished (concurrently g calls sched h0) i o ->
  match SignToRS d idl ml tape, o with
  | Ret (OK (r, s), t), Ret (ASignature (OK (r', s')) t') => int_at (memory (concurrently g calls sched h0)) r' r /\ int_at (memory (concurrently g calls sched h0)) s' s /\ t = t'
  | Ret (ERR e, t), Ret (ASignature (ERR e') t') => e = e' /\ t = t'
  | Panic _, Panic _ => True
  | _, _ => False
  end.
Proof.
  intros g h0 calls sched i o priv d id idl m ml tape HG HR Hc P HI HM F. assert (S := C111_same _ _ _ _ _ _ _ HG HR Hc F).
  destruct (C103_sign h0 g priv d id idl m ml tape P HI HM) as [_ A]. unfold execute in S.
  rewrite run_bind in S. destruct (SignToRSM g priv id m tape h0) as [[[r t]|e] h']; cbn [fst snd run retp] in *;
    destruct (SignToRS d idl ml tape) as [[r0 t0]|e0]; try (exfalso; exact A); unfold eqOutcome in S.
  - destruct A as [A A']. cbn [fst snd] in A, A'. subst t0. destruct o as [[| | | | | |r1 t1| | |]|]; try (exfalso; exact S). destruct S as [S ->].
    destruct r1 as [[x y]|], r as [[x' y']|], r0 as [[vx vy]|]; try (exfalso; exact S); try (exfalso; exact A); cbn [eqRes fst snd] in *.
    + destruct A as (A1 & A2 & _). split; [eapply eqI_at; [apply S|exact A1]|]. split; [eapply eqI_at; [apply S|exact A2]|reflexivity].
    + split; [congruence|reflexivity].
  - destruct o; [exfalso; exact S|exact I].
Qed.
Theorem C111_verify : forall g h0 calls sched i o pub q id idl m ml r s vr vs, hasG h0 g -> (forall c, In c calls -> ready h0 c) ->
  nth_error calls i = Some (KVerify pub id m r s) -> pub_at h0 pub q -> id_at h0 g id idl -> slice_at h0 m ml -> int_at h0 r vr -> int_at h0 s vs ->
  finished (concurrently g calls sched h0) i o ->
  match VerifyByRS q idl ml vr vs with Ret b => o = Ret (AVerdict b) | Panic _ => exists e, o = Panic e end.
Proof.
  intros g h0 calls sched i o pub q id idl m ml r s vr vs HG HR Hc P HI HM H1 H2 F. assert (S := C111_same _ _ _ _ _ _ _ HG HR Hc F).
  destruct (C103_verify h0 g pub q id idl m ml r s vr vs P HI HM H1 H2) as [_ A]. unfold execute in S.
  rewrite run_bind in S. destruct (VerifyByRSM g pub id m r s h0) as [[b|e] h']; cbn [fst snd run retp] in *;
    destruct (VerifyByRS q idl ml vr vs) as [b0|e0]; try (exfalso; exact A); unfold eqOutcome in S.
  - cbn [agree] in A. subst b0. destruct o as [[| | | | | | |b1| |]|]; try (exfalso; exact S). cbn [eqAnswer] in S. congruence.
  - destruct o; [exfalso; exact S|eauto].
Qed.
Theorem C111_encrypt : forall g h0 calls sched i o pub q inp li t tape, hasG h0 g -> (forall c, In c calls -> ready h0 c) ->
  nth_error calls i = Some (KEncrypt pub inp t tape) -> pub_at h0 pub q -> slice_at h0 inp li ->
  finished (concurrently g calls sched h0) i o ->
  match Encrypt q li t tape, o with
  | Ret (OK l, tl), Ret (ACipher (OK s) tl') => slice_at (memory (concurrently g calls sched h0)) s l /\ tl = tl'
  | Ret (ERR e, tl), Ret (ACipher (ERR e') tl') => e = e' /\ tl = tl'
  | Panic _, Panic _ => True
  | _, _ => False
  end.
Proof.
  intros g h0 calls sched i o pub q inp li t tape HG HR Hc P HI F. assert (S := C111_same _ _ _ _ _ _ _ HG HR Hc F).
  destruct (C103_encrypt h0 pub q inp li t tape P HI) as [_ A]. unfold execute in S.
  rewrite run_bind in S. destruct (EncryptM pub inp t tape h0) as [[[r tl]|e] h']; cbn [fst snd run retp] in *;
    destruct (Encrypt q li t tape) as [[r0 t0]|e0]; try (exfalso; exact A); unfold eqOutcome in S.
  - destruct A as [A A']. cbn [fst snd] in A, A'. subst t0. destruct o as [[| | | |r1 t1| | | | |]|]; try (exfalso; exact S). destruct S as [S ->].
    destruct r1 as [x|], r as [x'|], r0 as [vx|]; try (exfalso; exact S); try (exfalso; exact A); cbn [eqRes fst snd] in *.
    + split; [eapply eqB_at; [exact S|apply A]|reflexivity].
    + split; [congruence|reflexivity].
  - destruct o; [exfalso; exact S|exact I].
Qed.
Theorem C111_decrypt : forall g h0 calls sched i o priv d inp li t, globals_at h0 g -> (forall c, In c calls -> ready h0 c) ->
  nth_error calls i = Some (KDecrypt priv inp t) -> priv_at h0 priv d -> slice_at h0 inp li -> bytes (nth (s_buf inp) (bufs h0) []) ->
  finished (concurrently g calls sched h0) i o ->
  match Decrypt d li t, o with
  | Ret (OK l), Ret (APlain (OK s)) => slice_at (memory (concurrently g calls sched h0)) s l
  | Ret (ERR e), Ret (APlain (ERR e')) => e = e'
  | Panic _, Panic _ => True
  | _, _ => False
  end.
Proof.
  intros g h0 calls sched i o priv d inp li t GA HR Hc P HI HB F.
  assert (HG : hasG h0 g).
  { destruct GA as ((C1 & C2 & C3 & C4 & C5 & C6) & G2 & G3). unfold hasG, hasC, has, hasB. split; [repeat (split; [apply nth_error_Some; unfold int_at in *; congruence|]); apply nth_error_Some; unfold int_at in *; congruence|].
    split; [apply nth_error_Some; unfold int_at in *; congruence|apply G3]. }
  assert (S := C111_same _ _ _ _ _ _ _ HG HR Hc F).
  destruct (C103_decrypt h0 g priv d inp li t GA P HI HB) as [_ A]. unfold execute in S.
  rewrite run_bind in S. destruct (DecryptM g priv inp t h0) as [[r|e] h']; cbn [fst snd run retp] in *;
    destruct (Decrypt d li t) as [r0|e0]; try (exfalso; exact A); unfold eqOutcome in S.
  - cbn [agree] in A. destruct o as [[| | | | |r1| | | |]|]; try (exfalso; exact S). cbn [eqAnswer] in S.
    destruct r1 as [x|], r as [x'|], r0 as [vx|]; try (exfalso; exact S); try (exfalso; exact A); cbn [eqRes res1_at] in *.
    + eapply eqB_at; [exact S|apply A].
    + congruence.
  - destruct o; [exfalso; exact S|exact I].
Qed.

(** The whole key exchange among other calls: the outcome on values, in the memory all share. *)
Theorem C122_concurrent : forall g h0 calls sched i o init kb tag tagl sp se sid sidl osp oep oid oidl d1 d2 q1 q2,
  globals_at h0 g -> hasG h0 g -> (forall c, In c calls -> ready h0 c) -> nth_error calls i = Some (KAgree init kb tag sp se sid osp oep oid) ->
  priv_at h0 sp d1 -> priv_at h0 se d2 -> pub_at h0 osp q1 -> pub_at h0 oep q2 -> slot_at h0 tag tagl -> slot_at h0 sid sidl -> slot_at h0 oid oidl ->
  finished (concurrently g calls sched h0) i o ->
  let m := memory (concurrently g calls sched h0) in
  match CalculateKeyWithConfirmation init kb tagl d1 d2 sidl q1 q2 oidl, o with
  | Ret (OK v), Ret (AExch (OK r)) => slice_at m (eKey r) (exKey v) /\ slot_at m (eS1 r) (exS1 v) /\ slice_at m (eS2 r) (exS2 v)
  | Ret (ERR e), Ret (AExch (ERR e')) => e = e'
  | Panic _, Panic _ => True
  | _, _ => False
  end.
Proof.
  intros g h0 calls sched i o init kb tag tagl sp se sid sidl osp oep oid oidl d1 d2 q1 q2 H0 HG HR Hc H1 H2 H3 H4 H5 H6 H7 F.
  assert (S := C111_same _ _ _ _ _ _ _ HG HR Hc F).
  destruct (C122_exchange h0 g init kb tag tagl sp se sid sidl osp oep oid oidl d1 d2 q1 q2 H0 H1 H2 H3 H4 H5 H6 H7) as [_ A]. unfold execute in S.
  rewrite run_bind in S. destruct (CalculateKeyWithConfirmationM g init kb tag sp se sid osp oep oid h0) as [[r|e] h']; cbn [fst snd run retp] in *;
    destruct (CalculateKeyWithConfirmation init kb tagl d1 d2 sidl q1 q2 oidl) as [r0|e0]; try (exfalso; exact A); unfold eqOutcome in S.
  - cbn [agree] in A. destruct o as [[| | | | | | | | |r1]|]; try (exfalso; exact S). cbn [eqAnswer] in S.
    destruct r1 as [x|], r as [x'|], r0 as [vx|]; try (exfalso; exact S); try (exfalso; exact A); cbn [eqRes res1_at] in *; [|congruence].
    destruct S as (S1 & S2 & S3), A as (A1 & A2 & _ & A4). split; [eapply eqB_at; [exact S1|apply A1]|]. split; [|eapply eqB_at; [exact S3|apply A2]].
    destruct (eS1 x), (eS1 x'), (exS1 vx); try (exfalso; exact S2); try (exfalso; exact A4); cbn [slot_at eqSlot] in *; [|exact I]. eapply eqB_at; [exact S2|apply A4].
  - destruct o; [exfalso; exact S|exact I].
Qed.

(** Package initialisation, then two key buffers: calls that share the curve, the user id and a key meet the hypotheses. *)
Definition ex_g : globals := mkGlobals (mkCurve 1 2 3 4 5 6) 0 (mkSl 0 0 16 16).
Definition ex_h : heap := mkHeap [sm2H; curveP; curveA; curveB; curveN; curveGx; curveGy] [sm2SignDefaultUserId; repeat 7 64].
Definition ex_pub : pubRef := mkPubRef 5 6 (gCurve ex_g).
Definition ex_calls : list call :=
  [KRawPriv (mkSl 1 0 32 64); KVerify ex_pub None (gId ex_g) 4 0; KRawPub (mkSl 1 0 64 64); KRawPriv (mkSl 1 32 32 32);
   KAgree false 128 None (mkPrivRef 0 (gCurve ex_g)) (mkPrivRef 1 (gCurve ex_g)) None ex_pub ex_pub (Some (gId ex_g)); KConfirm (gId ex_g) (mkSl 1 0 16 64);
   KSign (mkPrivRef 0 (gCurve ex_g)) None (gId ex_g) (repeat 5 64); KSign (mkPrivRef 0 (gCurve ex_g)) None (gId ex_g) (repeat 6 64)].
Example C111_ex_hyps : hasG ex_h ex_g /\ (forall c, In c ex_calls -> ready ex_h c) /\ globals_at ex_h ex_g.
Proof.
  split; [|split].
  - unfold hasG, hasC, has, hasB. cbn. lia.
  - intros c H. cbn [ex_calls In] in H. repeat (destruct H as [<-|H]; [cbn; unfold hasPub, hasPriv, hasC, has, hasB; cbn; lia|]). destruct H.
  - split; [repeat (split; [reflexivity|]); reflexivity|]. split; [reflexivity|]. split; [cbn; lia|]. split; [cbn; lia|]. split; [cbn; lia|reflexivity].
Qed.
(** The first four, round robin, after two turns of goroutines that are not there: all four finish, their integers lying between each
    other's; the key's bytes give the same number four times, at four addresses. *)
Definition ex_sched : list nat := [4; 5]%nat ++ List.concat (repeat [0; 1; 2; 3]%nat 8).
Definition of32 : Z := be_dec (repeat 7 32).
Example C111_ex_runs :
  snd (concurrently ex_g (firstn 4 ex_calls) ex_sched ex_h) =
    [Done (Ret (ARawPriv (OK (mkPrivRef 8 (gCurve ex_g))))); Done (Ret (AVerdict false)); Done (Ret (ARawPub (OK (mkPubRef 9 11 (gCurve ex_g))))); Done (Ret (ARawPriv (OK (mkPrivRef 10 (gCurve ex_g)))))] /\
  skipn 7 (ints (memory (concurrently ex_g (firstn 4 ex_calls) ex_sched ex_h))) = [1; of32; of32; of32; of32] /\
  List.length (accesses (concurrently ex_g (firstn 4 ex_calls) ex_sched ex_h)) = 18%nat.
Proof. vm_compute. repeat split. Qed.
(** Programs that do write what they share race, and what they leave depends on the schedule: the statements are not true of any programs. *)
Example C111_ex_race :
  let add k : prog unit := bigAdd 0 0 k in
  ints (snd (fst (interleave [0; 0; 0; 1; 1; 1]%nat (mkHeap [10; 1; 2] []) [add 1%nat; add 2%nat]))) = [13; 1; 2] /\
  ints (snd (fst (interleave [0; 1; 0; 1; 0; 1]%nat (mkHeap [10; 1; 2] []) [add 1%nat; add 2%nat]))) = [12; 1; 2].
Proof. split; reflexivity. Qed.
