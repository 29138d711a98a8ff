(** What the programs of SmConc.v do when a goroutine runs alone: SM3 calls do what Sm3.v says of the digest in its block,
    SM4 calls what the standard says of the bytes. *)
From Coq Require Import ZArith List Lia Bool String Arith.
From Verif Require Import GoBase ConcMem Sm3 Sm3Spec Sm3Main PropsSm3 Sm4 Sm4Spec Sm4Proofs SmConc.
Import ListNotations.
Open Scope Z_scope.


(** * What the calls do when they run alone *)
(** A list of cells. *)
Definition loadN (s : memory) (b : ConcMem.block) (o k : nat) : list Z := map (fun i => s (mkLoc b i)) (seq o k).
Definition contents (s : memory) (p : cslice) : list Z := loadN s (s_blk p) (s_off p) (s_len p).
(** Block [b] exists when goroutine [g] has made [n] blocks. *)
Definition known (g n : nat) (b : ConcMem.block) : Prop := owner b = S g -> (number b < n)%nat.
(** The digest in a block. *)
Definition loadD (s : memory) (d : ConcMem.block) : sm3Digest :=
  mkDigest (loadN s d fV 8) (loadN s d fIn 16) (s (mkLoc d fXOff)) (loadN s d fW 68) (loadN s d fXBuf 4) (s (mkLoc d fXBufOff)) (s (mkLoc d fCount)).

Lemma loadN_length : forall s b o k, List.length (loadN s b o k) = k.
Proof. intros. unfold loadN. rewrite map_length, seq_length. reflexivity. Qed.
Lemma loadN_nth : forall s b o k i, (i < k)%nat -> nth i (loadN s b o k) 0 = s (mkLoc b (o + i)).
Proof.
  intros s b o k i H. unfold loadN. rewrite (nth_indep _ 0 (s (mkLoc b 0))) by (rewrite map_length, seq_length; exact H).
  rewrite (map_nth (fun i => s (mkLoc b i))). rewrite seq_nth by exact H. reflexivity.
Qed.
Lemma list_ext : forall (l l' : list Z) k, List.length l = k -> List.length l' = k -> (forall i, (i < k)%nat -> nth i l 0 = nth i l' 0) -> l = l'.
Proof. intros l l' k L L' H. apply (nth_ext _ _ 0 0); [congruence|]. intros i Hi. apply H. congruence. Qed.
Lemma nth_upd : forall (l : list Z) p q x, (p < List.length l)%nat -> nth q (upd l p x) 0 = if Nat.eq_dec p q then x else nth q l 0.
Proof.
  intros l p q x H. rewrite !nth_default_eq || idtac. destruct (Nat.eq_dec p q) as [<-|N].
  - apply nth_upd_same. exact H.
  - apply nth_upd_other. exact N.
Qed.
Lemma load_set_in : forall s b o k i v, (o <= i < o + k)%nat -> loadN (set s (mkLoc b i) v) b o k = upd (loadN s b o k) (i - o) v.
Proof.
  intros s b o k i v H. apply (list_ext _ _ k); [apply loadN_length|rewrite upd_length; apply loadN_length|].
  intros j Hj. rewrite loadN_nth by exact Hj. rewrite nth_upd by (rewrite loadN_length; lia). destruct (Nat.eq_dec (i - o) j) as [<-|N].
  - replace (o + (i - o))%nat with i by lia. apply set_same.
  - rewrite set_other, loadN_nth by (congruence || lia || (intro Q; injection Q; lia)). reflexivity.
Qed.
Lemma load_set_out : forall s b o k a v, (blk a <> b \/ (idx a < o \/ o + k <= idx a)%nat) -> loadN (set s a v) b o k = loadN s b o k.
Proof.
  intros s b o k a v H. apply map_ext_in. intros i Hi. apply in_seq in Hi. apply set_other. intros ->. cbn in H. destruct H; [congruence|lia].
Qed.
Lemma load_ext : forall s s' b o k, (forall i, (o <= i < o + k)%nat -> s (mkLoc b i) = s' (mkLoc b i)) -> loadN s b o k = loadN s' b o k.
Proof. intros s s' b o k H. apply map_ext_in. intros i Hi. apply in_seq in Hi. apply H. lia. Qed.
Lemma loadN_S : forall s b o k, loadN s b o (S k) = s (mkLoc b o) :: loadN s b (S o) k.
Proof. reflexivity. Qed.

Lemma alone_rd : forall g n a s, alone g n (rd a) s = (n, Ret (s a), s).
Proof. reflexivity. Qed.
Lemma alone_rdN : forall g k b o n s, alone g n (rdN k b o) s = (n, Ret (loadN s b o k), s).
Proof.
  intros g k. induction k as [|k IH]; intros b o n s; cbn [rdN]; [reflexivity|].
  rewrite alone_bind, alone_rd. rewrite alone_bind, IH. reflexivity.
Qed.
Fixpoint storeL (s : memory) (b : ConcMem.block) (o : nat) (l : list Z) : memory :=
  match l with [] => s | x :: l => storeL (set s (mkLoc b o) x) b (S o) l end.
Lemma alone_wrL : forall g l b o n s, alone g n (wrL b o l) s = (n, Ret tt, storeL s b o l).
Proof. intros g l. induction l as [|x l IH]; intros b o n s; cbn [wrL]; [reflexivity|]. cbn [bindc wr alone ret]. apply IH. Qed.
Lemma storeL_out : forall l s b o a, (blk a <> b \/ (idx a < o \/ o + List.length l <= idx a)%nat) -> storeL s b o l a = s a.
Proof.
  induction l as [|x l IH]; intros s b o a H; cbn [storeL]; [reflexivity|]. cbn [List.length] in H. rewrite IH by (destruct H; [auto|right; lia]).
  apply set_other. intros <-. cbn in H. destruct H; [congruence|lia].
Qed.
Lemma storeL_in : forall l s b o i, (i < List.length l)%nat -> storeL s b o l (mkLoc b (o + i)) = nth i l 0.
Proof.
  induction l as [|x l IH]; intros s b o i H; cbn [List.length] in H; [lia|]. cbn [storeL]. destruct i as [|i].
  - rewrite storeL_out by (right; cbn; lia). rewrite Nat.add_0_r. apply set_same.
  - cbn [nth]. replace (o + S i)%nat with (S o + i)%nat by lia. apply IH. lia.
Qed.
Lemma load_storeL : forall l s b o, loadN (storeL s b o l) b o (List.length l) = l.
Proof.
  intros l s b o. apply (list_ext _ _ (List.length l)); [apply loadN_length|reflexivity|]. intros i Hi. rewrite loadN_nth by exact Hi. apply storeL_in, Hi.
Qed.

Lemma load_store_eq : forall l k s b o, List.length l = k -> loadN (storeL s b o l) b o k = l.
Proof. intros l k s b o <-. apply load_storeL. Qed.
Lemma load_store_out : forall l s b o o' k, (o + List.length l <= o' \/ o' + k <= o)%nat -> loadN (storeL s b o l) b o' k = loadN s b o' k.
Proof. intros l s b o o' k H. apply load_ext. intros i Hi. apply storeL_out. right. cbn [idx]. lia. Qed.

(** ** SM3 *)
Section Refine.
Variables (g : nat) (d : ConcMem.block).
(** A condition that goes on holding while only the digest and new blocks change. *)
Definition stable (P : nat -> memory -> Prop) : Prop :=
  forall n s n' s', P n s -> (n <= n')%nat -> (forall a, blk a <> d -> known g n (blk a) -> s' a = s a) -> P n' s'.
Definition refines {A} (P : nat -> memory -> Prop) (m : prog A) (f : sm3Digest -> go (sm3Digest * A)) : Prop :=
  forall n s, known g n d -> P n s -> exists n' o s', alone g n m s = (n', o, s') /\ (n <= n')%nat /\
    (forall a, blk a <> d -> known g n (blk a) -> s' a = s a) /\
    match f (loadD s d) with Ret (d', a) => o = Ret a /\ loadD s' d = d' | Panic e => o = Panic e end.
Lemma known_mono : forall n n' b, known g n b -> (n <= n')%nat -> known g n' b.
Proof. intros n n' b H L E. specialize (H E). lia. Qed.
Section Pre.
Variable P : nat -> memory -> Prop.
Hypothesis SP : stable P.
Lemma ref_bind : forall A B (m : prog A) (k : A -> prog B) f h, refines P m f -> (forall a, refines P (k a) (h a)) ->
  refines P (bindc m k) (fun x => do (y, a) <- f x; h a y).
Proof.
  intros A B m k f h H K n s Kd HP. destruct (H n s Kd HP) as (n1 & o1 & s1 & E1 & L1 & F1 & Q1).
  rewrite alone_bind, E1. destruct (f (loadD s d)) as [[d1 a]|e].
  - destruct Q1 as [-> D1]. destruct (K a n1 s1 (known_mono _ _ _ Kd L1) (SP _ _ _ _ HP L1 F1)) as (n2 & o2 & s2 & E2 & L2 & F2 & Q2).
    exists n2, o2, s2. split; [exact E2|]. split; [lia|]. split.
    + intros b Nb Kb. rewrite F2 by (exact Nb || exact (known_mono _ _ _ Kb L1)). apply F1; assumption.
    + cbn [bind]. rewrite <- D1. exact Q2.
  - subst o1. exists n1, (Panic e), s1. split; [reflexivity|]. split; [exact L1|]. split; [exact F1|]. reflexivity.
Qed.
Lemma ref_eq : forall A (m : prog A) f f', refines P m f -> (forall s, f (loadD s d) = f' (loadD s d)) -> refines P m f'.
Proof. intros A m f f' H E n s Kd HP. destruct (H n s Kd HP) as (n1 & o1 & s1 & E1 & L1 & F1 & Q1). exists n1, o1, s1. rewrite <- E. auto. Qed.
Lemma ref_ret : forall A (a : A), refines P (ret a) (fun x => Ret (x, a)).
Proof. intros A a n s Kd HP. exists n, (Ret a), s. split; [reflexivity|]. split; [lia|]. split; [auto|]. split; reflexivity. Qed.
Lemma ref_panic : forall A e, refines P (@panic A e) (fun x => Panic e).
Proof. intros A e n s Kd HP. exists n, (Panic e), s. split; [reflexivity|]. split; [lia|]. split; [auto|]. reflexivity. Qed.
(** One cell. *)
Lemma ref_rd : forall i (f : sm3Digest -> Z), (forall s, s (mkLoc d i) = f (loadD s d)) -> refines P (rd (mkLoc d i)) (fun x => Ret (x, f x)).
Proof. intros i f E n s Kd HP. exists n, (Ret (s (mkLoc d i))), s. split; [reflexivity|]. split; [lia|]. split; [auto|]. rewrite E. split; reflexivity. Qed.
Lemma ref_wr : forall i v (f : sm3Digest -> sm3Digest), (forall s, loadD (set s (mkLoc d i) v) d = f (loadD s d)) -> refines P (wr (mkLoc d i) v) (fun x => Ret (f x, tt)).
Proof.
  intros i v f E n s Kd HP. exists n, (Ret tt), (set s (mkLoc d i) v). split; [reflexivity|]. split; [lia|]. split.
  - intros a Na _. apply set_other. intros <-. apply Na. reflexivity.
  - split; [reflexivity|apply E].
Qed.

(** The fields. *)
Definition withV (x : sm3Digest) (l : list Z) := mkDigest l (inWords x) (xOff x) (w x) (xBuf x) (xBufOff x) (byteCount x).
Definition withIn (x : sm3Digest) (l : list Z) := mkDigest (v x) l (xOff x) (w x) (xBuf x) (xBufOff x) (byteCount x).
Definition withXOff (x : sm3Digest) (z : Z) := mkDigest (v x) (inWords x) z (w x) (xBuf x) (xBufOff x) (byteCount x).
Definition withW (x : sm3Digest) (l : list Z) := mkDigest (v x) (inWords x) (xOff x) l (xBuf x) (xBufOff x) (byteCount x).
Definition withXBuf (x : sm3Digest) (l : list Z) := mkDigest (v x) (inWords x) (xOff x) (w x) l (xBufOff x) (byteCount x).
Definition withXBufOff (x : sm3Digest) (z : Z) := mkDigest (v x) (inWords x) (xOff x) (w x) (xBuf x) z (byteCount x).
Definition withCount (x : sm3Digest) (z : Z) := mkDigest (v x) (inWords x) (xOff x) (w x) (xBuf x) (xBufOff x) z.
Ltac fields := unfold fV, fIn, fXOff, fW, fXBuf, fXBufOff, fCount in *.
Ltac cells := unfold loadD, withV, withIn, withXOff, withW, withXBuf, withXBufOff, withCount; cbn [v inWords xOff w xBuf xBufOff byteCount]; fields;
  repeat first [rewrite (load_set_out _ _ 0 8) by (right; cbn; lia)|rewrite (load_set_out _ _ 8 16) by (right; cbn; lia)|rewrite (load_set_out _ _ 25 68) by (right; cbn; lia)|rewrite (load_set_out _ _ 93 4) by (right; cbn; lia)|
  rewrite set_same|rewrite set_other by (let Q := fresh in intro Q; injection Q; lia)].
Lemma set_v : forall s i z, (i < 8)%nat -> loadD (set s (mkLoc d (fV + i)) z) d = withV (loadD s d) (upd (v (loadD s d)) i z).
Proof. intros s i z H. cells. rewrite load_set_in by lia. replace (0 + i - 0)%nat with i by lia. reflexivity. Qed.
Lemma set_in : forall s i z, (i < 16)%nat -> loadD (set s (mkLoc d (fIn + i)) z) d = withIn (loadD s d) (upd (inWords (loadD s d)) i z).
Proof. intros s i z H. cells. rewrite load_set_in by lia. replace (8 + i - 8)%nat with i by lia. reflexivity. Qed.
Lemma set_w : forall s i z, (i < 68)%nat -> loadD (set s (mkLoc d (fW + i)) z) d = withW (loadD s d) (upd (w (loadD s d)) i z).
Proof. intros s i z H. cells. rewrite load_set_in by lia. replace (25 + i - 25)%nat with i by lia. reflexivity. Qed.
Lemma set_xBuf : forall s i z, (i < 4)%nat -> loadD (set s (mkLoc d (fXBuf + i)) z) d = withXBuf (loadD s d) (upd (xBuf (loadD s d)) i z).
Proof. intros s i z H. cells. rewrite load_set_in by lia. replace (93 + i - 93)%nat with i by lia. reflexivity. Qed.
Lemma set_xOff : forall s z, loadD (set s (mkLoc d fXOff) z) d = withXOff (loadD s d) z.
Proof. intros s z. cells. reflexivity. Qed.
Lemma set_xBufOff : forall s z, loadD (set s (mkLoc d fXBufOff) z) d = withXBufOff (loadD s d) z.
Proof. intros s z. cells. reflexivity. Qed.
Lemma set_count : forall s z, loadD (set s (mkLoc d fCount) z) d = withCount (loadD s d) z.
Proof. intros s z. cells. reflexivity. Qed.
Lemma at_load : forall s o k j, 0 <= j < Z.of_nat k -> at_ (loadN s d o k) j = s (fieldI d o j).
Proof. intros s o k j H. unfold at_, fieldI. apply loadN_nth. lia. Qed.

Lemma ref_rdV : forall j, 0 <= j < 8 -> refines P (rd (fieldI d fV j)) (fun x => Ret (x, at_ (v x) j)).
Proof. intros j H. apply (ref_rd (fV + Z.to_nat j)%nat (fun x => at_ (v x) j)). intro s. symmetry. apply at_load. lia. Qed.
Lemma ref_rdIn : forall j, 0 <= j < 16 -> refines P (rd (fieldI d fIn j)) (fun x => Ret (x, at_ (inWords x) j)).
Proof. intros j H. apply (ref_rd (fIn + Z.to_nat j)%nat (fun x => at_ (inWords x) j)). intro s. symmetry. apply at_load. lia. Qed.
Lemma ref_rdW : forall j, 0 <= j < 68 -> refines P (rd (fieldI d fW j)) (fun x => Ret (x, at_ (w x) j)).
Proof. intros j H. apply (ref_rd (fW + Z.to_nat j)%nat (fun x => at_ (w x) j)). intro s. symmetry. apply at_load. lia. Qed.
Lemma ref_rdXOff : refines P (rd (mkLoc d fXOff)) (fun x => Ret (x, xOff x)).
Proof. apply (ref_rd fXOff xOff). reflexivity. Qed.
Lemma ref_rdXBufOff : refines P (rd (mkLoc d fXBufOff)) (fun x => Ret (x, xBufOff x)).
Proof. apply (ref_rd fXBufOff xBufOff). reflexivity. Qed.
Lemma ref_rdCount : refines P (rd (mkLoc d fCount)) (fun x => Ret (x, byteCount x)).
Proof. apply (ref_rd fCount byteCount). reflexivity. Qed.
Lemma ref_wrV : forall j z, 0 <= j < 8 -> refines P (wr (fieldI d fV j) z) (fun x => Ret (withV x (put (v x) j z), tt)).
Proof. intros j z H. apply (ref_wr (fV + Z.to_nat j)%nat z (fun x => withV x (put (v x) j z))). intro s. apply set_v. lia. Qed.
Lemma ref_wrW : forall j z, 0 <= j < 68 -> refines P (wr (fieldI d fW j) z) (fun x => Ret (withW x (put (w x) j z), tt)).
Proof. intros j z H. apply (ref_wr (fW + Z.to_nat j)%nat z (fun x => withW x (put (w x) j z))). intro s. apply set_w. lia. Qed.
Lemma ref_wrXOff : forall z, refines P (wr (mkLoc d fXOff) z) (fun x => Ret (withXOff x z, tt)).
Proof. intro z. apply (ref_wr fXOff z (fun x => withXOff x z)). intro s. apply set_xOff. Qed.
Lemma ref_wrXBufOff : forall z, refines P (wr (mkLoc d fXBufOff) z) (fun x => Ret (withXBufOff x z, tt)).
Proof. intro z. apply (ref_wr fXBufOff z (fun x => withXBufOff x z)). intro s. apply set_xBufOff. Qed.
Lemma ref_wrCount : forall z, refines P (wr (mkLoc d fCount) z) (fun x => Ret (withCount x z, tt)).
Proof. intro z. apply (ref_wr fCount z (fun x => withCount x z)). intro s. apply set_count. Qed.
Lemma ref_setIn : forall i z, refines P (setI d fIn 16 i z) (fun x => do l <- go_set (inWords x) i z; Ret (withIn x l, tt)).
Proof.
  intros i z. unfold setI. destruct ((0 <=? i) && (i <? 16)) eqn:E.
  - apply andb_true_iff in E. destruct E as [E1 E2]. apply Z.leb_le in E1. apply Z.ltb_lt in E2.
    eapply ref_eq; [apply (ref_wr (fIn + Z.to_nat i)%nat z (fun x => withIn x (upd (inWords x) (Z.to_nat i) z))); intro s; apply set_in; lia|].
    intro s. cbv beta. unfold go_set, zlen. cbn [inWords loadD]. rewrite loadN_length. change (Z.of_nat 16) with 16. destruct (Z.ltb_spec i 0); [lia|]. destruct (Z.leb_spec 16 i); [lia|]. reflexivity.
  - eapply ref_eq; [apply ref_panic|]. intro s. cbv beta. unfold go_set, zlen. cbn [inWords loadD]. rewrite loadN_length.
    change (Z.of_nat 16) with 16. apply andb_false_iff in E. destruct (Z.ltb_spec i 0); [reflexivity|]. destruct (Z.leb_spec 16 i); [reflexivity|]. exfalso. destruct E as [E|E]; [apply Z.leb_gt in E|apply Z.ltb_ge in E]; lia.
Qed.
Lemma ref_setXBuf : forall i z, refines P (setI d fXBuf 4 i z) (fun x => do l <- go_set (xBuf x) i z; Ret (withXBuf x l, tt)).
Proof.
  intros i z. unfold setI. destruct ((0 <=? i) && (i <? 4)) eqn:E.
  - apply andb_true_iff in E. destruct E as [E1 E2]. apply Z.leb_le in E1. apply Z.ltb_lt in E2.
    eapply ref_eq; [apply (ref_wr (fXBuf + Z.to_nat i)%nat z (fun x => withXBuf x (upd (xBuf x) (Z.to_nat i) z))); intro s; apply set_xBuf; lia|].
    intro s. cbv beta. unfold go_set, zlen. cbn [xBuf loadD]. rewrite loadN_length. change (Z.of_nat 4) with 4. destruct (Z.ltb_spec i 0); [lia|]. destruct (Z.leb_spec 4 i); [lia|]. reflexivity.
  - eapply ref_eq; [apply ref_panic|]. intro s. cbv beta. unfold go_set, zlen. cbn [xBuf loadD]. rewrite loadN_length.
    change (Z.of_nat 4) with 4. apply andb_false_iff in E. destruct (Z.ltb_spec i 0); [reflexivity|]. destruct (Z.leb_spec 4 i); [reflexivity|]. exfalso. destruct E as [E|E]; [apply Z.leb_gt in E|apply Z.ltb_ge in E]; lia.
Qed.
(** Loops. *)
Lemma ref_loop : forall A n i (f : Z -> A -> prog A) (F : Z -> sm3Digest * A -> sm3Digest * A) a,
  (forall j a, i <= j < i + Z.of_nat n -> refines P (f j a) (fun x => Ret (F j (x, a)))) -> refines P (loopP n i f a) (fun x => Ret (for_loop n i F (x, a))).
Proof.
  intros A n. induction n as [|n IH]; intros i f F a H; cbn [loopP for_loop]; [apply ref_ret|].
  eapply ref_eq; [eapply ref_bind; [apply H; lia|intro a'; apply (IH (i + 1) f F a'); intros j b Hj; apply H; lia]|].
  intro s. cbn [bind]. destruct (F i (loadD s d, a)) as [y b]. reflexivity.
Qed.
Lemma for_W : forall n i (G : sm3Digest -> Z -> list Z -> list Z) x, (forall l j, G (withW x l) j = G x j) ->
  for_loop n i (fun j (q : sm3Digest * unit) => (withW (fst q) (G (fst q) j (w (fst q))), tt)) (x, tt) = (withW x (for_loop n i (G x) (w x)), tt).
Proof.
  intros n. induction n as [|n IH]; intros i G x H; cbn [for_loop fst]; [destruct x; reflexivity|].
  rewrite IH; [|intros l j; transitivity (G x j); [exact (H l j)|symmetry; apply H]].
  cbn [w withW v inWords xOff xBuf xBufOff byteCount]. f_equal. unfold withW at 1. cbn [v inWords xOff xBuf xBufOff byteCount]. unfold withW.
  assert (E : forall k j0 l0, for_loop k j0 (G (mkDigest (v x) (inWords x) (xOff x) (G x i (w x)) (xBuf x) (xBufOff x) (byteCount x))) l0 = for_loop k j0 (G x) l0).
  { induction k as [|k IHk]; intros j0 l0; cbn [for_loop]; [reflexivity|]. rewrite IHk. f_equal. change (G (withW x (G x i (w x))) j0 l0 = G x j0 l0). rewrite H. reflexivity. }
  rewrite E. reflexivity.
Qed.
Lemma for_vars : forall n i (G : Z -> vars -> vars) (x : sm3Digest) a, for_loop n i (fun j (q : sm3Digest * vars) => (fst q, G j (snd q))) (x, a) = (x, for_loop n i G a).
Proof. intros n. induction n as [|n IH]; intros i G x a; cbn [for_loop fst snd]; [reflexivity|]. apply IH. Qed.

(** One step of a program against the reading of its step. *)
Ltac nxt := eapply ref_bind; [|let a := fresh "a" in intro a].
Lemma ref_expandStep : forall j a, 16 <= j < 68 -> refines P (expandStepP d j a) (fun x => Ret (withW x (expandStep j (w x)), tt)).
Proof.
  intros j a H. eapply ref_eq.
  - unfold expandStepP. do 5 (nxt; [apply ref_rdW; lia|]). apply ref_wrW. lia.
  - intro s. reflexivity.
Qed.
Lemma at_pair : forall j a b, 0 <= j < 64 -> at_ (put (put (repeat 0 68) j a) (j + 4) b) j = a /\ at_ (put (put (repeat 0 68) j a) (j + 4) b) (j + 4) = b.
Proof.
  intros j a b H. split; [rewrite at_put_other by lia; apply at_put_same; cbn; lia|]. apply at_put_same. unfold put, zlen. rewrite upd_length. cbn. lia.
Qed.
Lemma ref_round0 : forall j a, 0 <= j < 64 -> refines P (roundP round0 d j a) (fun x => Ret (x, round0 (w x) j a)).
Proof.
  intros j a H. eapply ref_eq.
  - unfold roundP. do 2 (nxt; [apply ref_rdW; lia|]). apply ref_ret.
  - intro s. cbn [bind]. unfold round0. destruct (at_pair j (at_ (w (loadD s d)) j) (at_ (w (loadD s d)) (j + 4)) H) as [E1 E2]. rewrite E1, E2. reflexivity.
Qed.
Lemma ref_round1 : forall j a, 0 <= j < 64 -> refines P (roundP round1 d j a) (fun x => Ret (x, round1 (w x) j a)).
Proof.
  intros j a H. eapply ref_eq.
  - unfold roundP. do 2 (nxt; [apply ref_rdW; lia|]). apply ref_ret.
  - intro s. cbn [bind]. unfold round1. destruct (at_pair j (at_ (w (loadD s d)) j) (at_ (w (loadD s d)) (j + 4)) H) as [E1 E2]. rewrite E1, E2. reflexivity.
Qed.
Lemma ref_xorV : forall i z, 0 <= i < 8 -> refines P (xorV d i z) (fun x => Ret (withV x (put (v x) i (Z.lxor (at_ (v x) i) z)), tt)).
Proof. intros i z H. eapply ref_eq; [unfold xorV; nxt; [apply ref_rdV, H|apply ref_wrV, H]|]. intro s. reflexivity. Qed.
Lemma ref_fillW : refines P (loopP 16 0 (fun j _ => par x <- rd (fieldI d fIn j); wr (fieldI d fW j) x) tt)
  (fun x => Ret (withW x (for_loop 16 0 (fun j l => put l j (at_ (inWords x) j)) (w x)), tt)).
Proof.
  eapply ref_eq; [apply (ref_loop _ _ _ _ (fun j q => (withW (fst q) (put (w (fst q)) j (at_ (inWords (fst q)) j)), tt)))|].
  - intros j a H. eapply ref_eq; [nxt; [apply ref_rdIn; lia|apply ref_wrW; lia]|]. intro s. reflexivity.
  - intro s. cbv beta. rewrite (for_W 16 0 (fun x j l => put l j (at_ (inWords x) j))) by reflexivity. reflexivity.
Qed.
Lemma ref_expandW : refines P (loopP 52 16 (expandStepP d) tt) (fun x => Ret (withW x (for_loop 52 16 expandStep (w x)), tt)).
Proof.
  eapply ref_eq; [apply (ref_loop _ _ _ _ (fun j q => (withW (fst q) (expandStep j (w (fst q))), tt)))|].
  - intros j a H. apply ref_expandStep. lia.
  - intro s. cbv beta. rewrite (for_W 52 16 (fun x j l => expandStep j l)) by reflexivity. reflexivity.
Qed.
Lemma for_w : forall n i (G : list Z -> Z -> vars -> vars) (x : sm3Digest) a,
  for_loop n i (fun j (q : sm3Digest * vars) => (fst q, G (w (fst q)) j (snd q))) (x, a) = (x, for_loop n i (G (w x)) a).
Proof. intros n. induction n as [|n IH]; intros i G x a; cbn [for_loop fst snd]; [reflexivity|]. apply IH. Qed.
Lemma ref_rounds0 : forall a, refines P (loopP 16 0 (roundP round0 d) a) (fun x => Ret (x, for_loop 16 0 (round0 (w x)) a)).
Proof.
  intro a. eapply ref_eq; [apply (ref_loop _ _ _ _ (fun j q => (fst q, round0 (w (fst q)) j (snd q))))|].
  - intros j b H. apply ref_round0. lia.
  - intro s. cbv beta. rewrite (for_w 16 0 round0). reflexivity.
Qed.
Lemma ref_rounds1 : forall a, refines P (loopP 48 16 (roundP round1 d) a) (fun x => Ret (x, for_loop 48 16 (round1 (w x)) a)).
Proof.
  intro a. eapply ref_eq; [apply (ref_loop _ _ _ _ (fun j q => (fst q, round1 (w (fst q)) j (snd q))))|].
  - intros j b H. apply ref_round1. lia.
  - intro s. cbv beta. rewrite (for_w 48 16 round1). reflexivity.
Qed.
Opaque for_loop.
Transparent Sm3.processBlock.
Lemma eight : forall l : list Z, List.length l = 8%nat -> exists a b c e f h i j, l = [a; b; c; e; f; h; i; j].
Proof.
  intros l H. do 8 (destruct l as [|? l]; [discriminate H|]). destruct l; [|discriminate H]. repeat eexists.
Qed.
Definition xored (l : list Z) (q : vars) : list Z :=
  [Z.lxor (at_ l 0) (vA q); Z.lxor (at_ l 1) (vB q); Z.lxor (at_ l 2) (vC q); Z.lxor (at_ l 3) (vD q);
   Z.lxor (at_ l 4) (vE q); Z.lxor (at_ l 5) (vF q); Z.lxor (at_ l 6) (vG q); Z.lxor (at_ l 7) (vH q)].
Lemma ref_xors : forall q, refines P (par _ <- xorV d 0 (vA q); par _ <- xorV d 1 (vB q); par _ <- xorV d 2 (vC q); par _ <- xorV d 3 (vD q);
  par _ <- xorV d 4 (vE q); par _ <- xorV d 5 (vF q); par _ <- xorV d 6 (vG q); par _ <- xorV d 7 (vH q); wr (mkLoc d fXOff) 0)
  (fun x => Ret (withXOff (withV x (xored (v x) q)) 0, tt)).
Proof.
  intros [qa qb qc qd qe qf qg qh]. cbn [vA vB vC vD vE vF vG vH]. eapply ref_eq; [do 8 (nxt; [apply ref_xorV; lia|]); apply ref_wrXOff|].
  intro s. cbn [bind]. destruct (eight (v (loadD s d))) as (a & b & c & e & f & h & i & j & E); [apply loadN_length|].
  unfold xored. generalize dependent (loadD s d). intros x ->. reflexivity.
Qed.
Definition rounds (x : sm3Digest) : vars :=
  for_loop 48 16 (round1 (w x)) (for_loop 16 0 (round0 (w x)) (mkVars (at_ (v x) 0) (at_ (v x) 1) (at_ (v x) 2) (at_ (v x) 3) (at_ (v x) 4) (at_ (v x) 5) (at_ (v x) 6) (at_ (v x) 7))).
Lemma ref_rest : refines P (
  par A <- rd (fieldI d fV 0); par B <- rd (fieldI d fV 1); par C <- rd (fieldI d fV 2); par D <- rd (fieldI d fV 3);
  par E <- rd (fieldI d fV 4); par F <- rd (fieldI d fV 5); par G <- rd (fieldI d fV 6); par H <- rd (fieldI d fV 7);
  par s <- loopP 16 0 (roundP round0 d) (mkVars A B C D E F G H);
  par s <- loopP 48 16 (roundP round1 d) s;
  par _ <- xorV d 0 (vA s); par _ <- xorV d 1 (vB s); par _ <- xorV d 2 (vC s); par _ <- xorV d 3 (vD s);
  par _ <- xorV d 4 (vE s); par _ <- xorV d 5 (vF s); par _ <- xorV d 6 (vG s); par _ <- xorV d 7 (vH s); wr (mkLoc d fXOff) 0)
  (fun x => Ret (withXOff (withV x (xored (v x) (rounds x))) 0, tt)).
Proof.
  eapply ref_eq; [do 8 (nxt; [apply ref_rdV; lia|]); nxt; [apply ref_rounds0|]; nxt; [apply ref_rounds1|]; apply ref_xors|].
  intro s. cbn [bind]. reflexivity.
Qed.
Lemma ref_block3 : refines P (processBlock3P d) (fun x => Ret (Sm3.processBlock x, tt)).
Proof.
  eapply ref_eq; [unfold processBlock3P; nxt; [apply ref_fillW|]; nxt; [apply ref_expandW|]; apply ref_rest|].
  intro s. cbn [bind]. generalize (loadD s d). intro x. unfold Sm3.processBlock, rounds, withV, withXOff.
  change (expandW (inWords x) (w x)) with (for_loop 52 16 expandStep (for_loop 16 0 (fun j l => put l j (at_ (inWords x) j)) (w x))).
  unfold withW. cbn [v inWords xOff w xBuf xBufOff byteCount]. generalize (for_loop 52 16 expandStep (for_loop 16 0 (fun j l => put l j (at_ (inWords x) j)) (w x))).
  intro wa. cbv zeta. reflexivity.
Qed.
Transparent for_loop.
Opaque Sm3.processBlock.
Lemma ref_incXOff : refines P (incP (mkLoc d fXOff)) (fun x => Ret (withXOff x (xOff x + 1), tt)).
Proof. eapply ref_eq; [unfold incP; nxt; [apply ref_rdXOff|apply ref_wrXOff]|]. intro s. reflexivity. Qed.
Lemma ref_incXBufOff : refines P (incP (mkLoc d fXBufOff)) (fun x => Ret (withXBufOff x (xBufOff x + 1), tt)).
Proof. eapply ref_eq; [unfold incP; nxt; [apply ref_rdXBufOff|apply ref_wrXBufOff]|]. intro s. reflexivity. Qed.
Lemma ref_push : forall z, refines P (pushP d z) (fun x => do l <- go_set (inWords x) (xOff x) z; Ret (withXOff (withIn x l) (xOff x + 1), tt)).
Proof.
  intro z. eapply ref_eq; [unfold pushP; nxt; [apply ref_rdXOff|]; nxt; [apply ref_setIn|apply ref_incXOff]|].
  intro s. cbn [bind]. destruct (go_set _ _ _); reflexivity.
Qed.
Lemma ref_buf : forall z, refines P (bufP d z) (fun x => do l <- go_set (xBuf x) (xBufOff x) z; Ret (withXBufOff (withXBuf x l) (xBufOff x + 1), tt)).
Proof.
  intro z. eapply ref_eq; [unfold bufP; nxt; [apply ref_rdXBufOff|]; nxt; [apply ref_setXBuf|apply ref_incXBufOff]|].
  intro s. cbn [bind]. destruct (go_set _ _ _); reflexivity.
Qed.
(** From the word on. *)
Definition afterWord (x : sm3Digest) (z : Z) : go (sm3Digest * unit) :=
  do l <- go_set (inWords x) (xOff x) z;
  let x' := withXOff (withIn x l) (xOff x + 1) in
  if 16 <=? xOff x' then Ret (Sm3.processBlock x', tt) else Ret (x', tt).
Lemma ref_afterWord : forall z, refines P (par o <- rd (mkLoc d fXOff); par _ <- setI d fIn 16 o z; par _ <- incP (mkLoc d fXOff); par o <- rd (mkLoc d fXOff); if 16 <=? o then processBlock3P d else ret tt)
  (fun x => afterWord x z).
Proof.
  intro z. eapply ref_eq.
  - nxt; [apply ref_rdXOff|]. nxt; [apply ref_setIn|]. nxt; [apply ref_incXOff|]. nxt; [apply ref_rdXOff|].
    instantiate (1 := fun o x => if 16 <=? o then Ret (Sm3.processBlock x, tt) else Ret (x, tt)). cbv beta.
    destruct (16 <=? a2); [apply ref_block3|apply ref_ret].
  - intro s. unfold afterWord. cbn [bind]. destruct (go_set _ _ _); reflexivity.
Qed.
(** sm3.go:229-245 with the loop on the field. *)
Definition zeroed (x : sm3Digest) : go (sm3Digest * unit) :=
  do l <- for_loop (Z.to_nat (14 - xOff x)) (xOff x) (fun j acc => do a <- acc; go_set a j 0) (Ret (inWords x));
  Ret (withXOff (withIn x l) (Z.max (xOff x) 14), tt).
Lemma for_panic : forall n i (e : panic_kind), for_loop n i (fun j (acc : go (list Z)) => do a <- acc; go_set a j 0) (Panic e) = Panic e.
Proof. induction n as [|n IH]; intros i e; cbn [for_loop bind]; [reflexivity|apply IH]. Qed.
Lemma ref_zero_upto : forall fuel, refines (fun n s => P n s /\ 0 <= s (mkLoc d fXOff) /\ 14 <= s (mkLoc d fXOff) + Z.of_nat fuel) (zeroP fuel d) zeroed.
Proof.
  induction fuel as [|fuel IH]; intros n s Kd (HP & H0 & H14).
  - exists n, (Ret tt), s. cbn [zeroP bindc rd ret alone]. destruct (Z.ltb_spec (s (mkLoc d fXOff)) 14) as [L|L]; [lia|]. split; [reflexivity|]. split; [lia|]. split; [auto|].
    unfold zeroed. cbn [xOff loadD]. replace (Z.to_nat (14 - s (mkLoc d fXOff))) with O by lia. cbn [for_loop bind]. split; [reflexivity|].
    rewrite Z.max_l by lia. reflexivity.
  - cbn [zeroP]. cbn [bindc rd ret alone]. destruct (Z.ltb_spec (s (mkLoc d fXOff)) 14) as [L|L].
    + cbn [bindc rd ret alone]. rewrite alone_bind. destruct (ref_setIn (s (mkLoc d fXOff)) 0 n s Kd HP) as (n1 & o1 & s1 & E1 & L1 & F1 & Q1).
      rewrite E1. rewrite go_set_ret in Q1 by (unfold zlen; cbn [inWords loadD]; rewrite loadN_length; lia). cbn [bind] in Q1. destruct Q1 as [-> D1].
      rewrite alone_bind. destruct (ref_incXOff n1 s1 (known_mono _ _ _ Kd L1) (SP _ _ _ _ HP L1 F1)) as (n2 & o2 & s2 & E2 & L2 & F2 & -> & D2). rewrite E2.
      assert (F12 : forall a, blk a <> d -> known g n (blk a) -> s2 a = s a).
      { intros a Na Ka. rewrite F2 by (exact Na || exact (known_mono _ _ _ Ka L1)). apply F1; assumption. }
      assert (X2 : s2 (mkLoc d fXOff) = s (mkLoc d fXOff) + 1).
      { change (xOff (loadD s2 d) = xOff (loadD s d) + 1). rewrite D2, D1. reflexivity. }
      destruct (IH n2 s2 (known_mono _ _ _ Kd (Nat.le_trans _ _ _ L1 L2))) as (n3 & o3 & s3 & E3 & L3 & F3 & Q3).
      { split; [exact (SP _ _ _ _ HP (Nat.le_trans _ _ _ L1 L2) F12)|]. rewrite X2. split; lia. }
      exists n3, o3, s3. split; [exact E3|]. split; [lia|]. split.
      { intros a Na Ka. rewrite F3 by (exact Na || exact (known_mono _ _ _ Ka (Nat.le_trans _ _ _ L1 L2))). apply F12; assumption. }
      unfold zeroed in *. rewrite D2, D1 in Q3. cbn [xOff inWords withXOff withIn loadD] in *.
      replace (Z.to_nat (14 - s (mkLoc d fXOff))) with (S (Z.to_nat (14 - (s (mkLoc d fXOff) + 1)))) by lia. cbn [for_loop bind].
      rewrite go_set_ret by (unfold zlen; rewrite loadN_length; lia).
      replace (Z.max (s (mkLoc d fXOff)) 14) with (Z.max (s (mkLoc d fXOff) + 1) 14) by lia. exact Q3.
    + exists n, (Ret tt), s. split; [reflexivity|]. split; [lia|]. split; [auto|].
      unfold zeroed. cbn [xOff loadD]. replace (Z.to_nat (14 - s (mkLoc d fXOff))) with O by lia. cbn [for_loop bind]. split; [reflexivity|].
      rewrite Z.max_l by lia. reflexivity.
Qed.
End Pre.
(** Reading a slice that lies elsewhere. *)
Section Slice.
Variables (p : cslice) (bs : list Z).
Definition holdsP (n : nat) (s : memory) : Prop := s_blk p <> d /\ known g n (s_blk p) /\ contents s p = bs /\ (s_len p <= s_cap p)%nat.
Lemma stable_holds : stable holdsP.
Proof.
  intros n s n' s' (H1 & H2 & H3 & H4) L F. split; [exact H1|]. split; [exact (known_mono _ _ _ H2 L)|]. split; [|exact H4].
  rewrite <- H3. apply load_ext. intros i _. apply F; assumption.
Qed.
Lemma holds_length : forall n s, holdsP n s -> List.length bs = s_len p.
Proof. intros n s (_ & _ & <- & _). apply loadN_length. Qed.
Lemma ref_rdP : forall i, (i < s_len p)%nat -> refines holdsP (rd (cell p i)) (fun x => Ret (x, nth i bs 0)).
Proof.
  intros i Hi n s Kd (H1 & H2 & H3 & H4). exists n, (Ret (s (cell p i))), s. split; [reflexivity|]. split; [lia|]. split; [auto|]. split; [|reflexivity].
  f_equal. rewrite <- H3. unfold contents. rewrite loadN_nth by exact Hi. reflexivity.
Qed.
Ltac nxt := eapply (ref_bind holdsP stable_holds); [|let a := fresh "a" in intro a].
Lemma nth_skip : forall n (l : list Z) i, nth i (skipn n l) 0 = nth (n + i) l 0.
Proof. induction n as [|n IH]; intros l i; [reflexivity|]. destruct l as [|x l]; [destruct i; reflexivity|]. apply IH. Qed.
Lemma loadN_skip : forall s b o k i m, (i + m <= k)%nat -> firstn m (skipn i (loadN s b o k)) = loadN s b (o + i) m.
Proof.
  intros s b o k i m H. apply (list_ext _ _ m).
  - rewrite firstn_length, skipn_length, loadN_length. lia.
  - apply loadN_length.
  - intros j Hj. rewrite loadN_nth by exact Hj. rewrite Sm3Proofs.nth_firstn_lt by exact Hj. rewrite nth_skip. rewrite loadN_nth by lia. f_equal. f_equal. lia.
Qed.
Lemma ref_wordX : refines holdsP (processWordP d (xBufS d) 0) (fun x => do y <- processWord x (xBuf x) 0; Ret (y, tt)).
Proof.
  eapply ref_eq.
  - unfold processWordP. cbn [xBufS s_blk s_off s_cap]. replace ((0 <=? 0) && (0 <=? i32 (0 + 4)) && (i32 (0 + 4) <=? Z.of_nat 4)) with true by reflexivity.
    nxt; [|apply (ref_afterWord holdsP stable_holds)].
    instantiate (1 := fun x => Ret (x, be_dec (xBuf x))). intros n s Kd HP. exists n, (Ret (be_dec (xBuf (loadD s d)))), s.
    split; [unfold getU32P; rewrite alone_bind, alone_rdN; reflexivity|]. split; [lia|]. split; [auto|]. split; reflexivity.
  - intro s. cbn [bind]. unfold processWord, afterWord. rewrite go_slice_ret by (unfold zlen; cbn [xBuf loadD]; rewrite ?loadN_length; cbn; lia). cbn [bind].
    replace (sub (xBuf (loadD s d)) 0 (i32 (0 + 4))) with (xBuf (loadD s d)) by reflexivity.
    destruct (go_set _ _ _) as [l|e]; cbn [bind]; [|reflexivity]. cbn [xOff withXOff withIn]. destruct (16 <=? _); reflexivity.
Qed.
Lemma ref_wordP : forall i, (i + 4 <= s_len p)%nat -> refines holdsP (processWordP d p (i32 (Z.of_nat i))) (fun x => do y <- processWord x bs (i32 (Z.of_nat i)); Ret (y, tt)).
Proof.
  intros i Hi n s Kd HP. assert (Lb := holds_length n s HP). assert (Hc : (s_len p <= s_cap p)%nat) by apply HP.
  assert (B : i32 (Z.of_nat i) <= Z.of_nat i \/ i32 (Z.of_nat i) < 0).
  { unfold i32. assert (Q := Z.mod_le (Z.of_nat i + 2 ^ 31) (2 ^ 32)). lia. }
  assert (B4 : i32 (i32 (Z.of_nat i) + 4) <= i32 (Z.of_nat i) + 4 \/ i32 (Z.of_nat i) < 0).
  { unfold i32. assert (Q := Z.mod_pos_bound (Z.of_nat i + 2 ^ 31) (2 ^ 32) ltac:(lia)). set (z := (Z.of_nat i + 2 ^ 31) mod 2 ^ 32) in *.
    assert (Q' := Z.mod_le (z - 2 ^ 31 + 4 + 2 ^ 31) (2 ^ 32)). lia. }
  unfold processWordP, processWord, go_slice. set (o := i32 (Z.of_nat i)) in *. set (o4 := i32 (o + 4)) in *.
  destruct ((0 <=? o) && (o <=? o4)) eqn:E.
  - apply andb_true_iff in E. destruct E as [E1 E2]. apply Z.leb_le in E1. apply Z.leb_le in E2.
    assert (E4 : o4 = o + 4).
    { unfold o4, i32. rewrite Z.mod_small; [lia|]. unfold o4, i32 in E2. assert (Q := Z.mod_pos_bound (Z.of_nat i + 2 ^ 31) (2 ^ 32) ltac:(lia)). unfold o, i32 in *.
      set (z := (Z.of_nat i + 2 ^ 31) mod 2 ^ 32) in *. destruct (Z_lt_ge_dec (z - 2 ^ 31 + 4 + 2 ^ 31) (2 ^ 32)) as [C|C]; [lia|exfalso].
      assert (M : (z - 2 ^ 31 + 4 + 2 ^ 31) mod 2 ^ 32 = z + 4 - 2 ^ 32) by (symmetry; apply (Z.mod_unique_pos _ _ 1); lia). lia. }
    assert (C1 : (o4 <=? Z.of_nat (s_cap p)) = true) by (apply Z.leb_le; lia). assert (C2 : (o4 <=? zlen bs) = true) by (apply Z.leb_le; unfold zlen; lia).
    rewrite C1, C2. cbn [andb bind]. unfold getU32P. rewrite alone_bind, alone_bind, alone_rdN. cbn [alone ret].
    assert (V : loadN s (s_blk p) (s_off p + Z.to_nat o) 4 = sub bs o o4).
    { destruct HP as (_ & _ & <- & _). unfold sub, contents. rewrite E4. replace (Z.to_nat (o + 4 - o)) with 4%nat by lia. symmetry. apply loadN_skip. lia. }
    rewrite V. destruct (ref_afterWord holdsP stable_holds (be_dec (sub bs o o4)) n s Kd HP) as (n1 & o1 & s1 & E & L1 & F1 & Q1).
    exists n1, o1, s1. split; [exact E|]. split; [exact L1|]. split; [exact F1|]. unfold afterWord in Q1.
    destruct (go_set _ _ _) as [l|e]; cbn [bind] in *; [|exact Q1]. cbn [xOff withXOff withIn] in *. destruct (16 <=? _); exact Q1.
  - cbn [andb bind]. exists n, (Panic PSlice), s. split; [reflexivity|]. split; [lia|]. split; [auto|]. reflexivity.
Qed.
Lemma ref_fillP : forall n i, (i + n = s_len p)%nat -> List.length bs = s_len p ->
  refines holdsP (fillP n d p i) (fun x => do (y, rest) <- fillBuf x (skipn i bs); Ret (y, (List.length bs - List.length rest)%nat)).
Proof.
  induction n as [|n IH]; intros i Hi Lb.
  - cbn [fillP]. eapply ref_eq; [apply ref_ret|]. intro s. cbv beta. rewrite skipn_all2 by lia. cbn [fillBuf bind List.length]. repeat f_equal. lia.
  - cbn [fillP]. assert (E : skipn i bs = nth i bs 0 :: skipn (S i) bs).
    { rewrite <- (firstn_skipn i bs) at 2. rewrite app_nth2 by (rewrite firstn_length; lia). rewrite firstn_length. replace (i - Nat.min i (List.length bs))%nat with O by lia.
      destruct (skipn i bs) as [|y l] eqn:Q; [apply (f_equal (@List.length Z)) in Q; rewrite skipn_length in Q; cbn in Q; lia|]. cbn [nth]. f_equal.
      replace (S i) with (1 + i)%nat by lia. rewrite <- skipn_skipn, Q. reflexivity. }
    eapply ref_eq.
    + nxt; [apply ref_rdP; lia|]. nxt; [apply (ref_buf holdsP stable_holds)|]. nxt; [apply ref_rdXBufOff|].
      instantiate (1 := fun o x => if o =? 4 then do y <- processWord x (xBuf x) 0; Ret (withXBufOff y 0, S i)
                                   else do (y, rest) <- fillBuf x (skipn (S i) bs); Ret (y, (List.length bs - List.length rest)%nat)). cbv beta.
      destruct (a1 =? 4); [|apply IH; lia].
      eapply ref_eq; [nxt; [apply ref_wordX|]; nxt; [apply ref_wrXBufOff|]; apply ref_ret|].
      intro s. cbn [bind]. destruct (processWord _ _ _); reflexivity.
    + intro s. cbn [bind]. rewrite E. cbn [fillBuf]. destruct (go_set _ _ _) as [l|e]; [|reflexivity]. cbn [bind]. unfold withXBuf, withXBufOff at 1. cbn [v inWords xOff w xBuf xBufOff byteCount].
      destruct (_ =? 4); [|reflexivity]. unfold withXBufOff, withXBuf. cbn [v inWords xOff w xBuf xBufOff byteCount].
      destruct (processWord _ _ _) as [y|e]; [|reflexivity]. cbn [bind]. repeat f_equal. rewrite skipn_length. lia.
Qed.
Lemma cons_skip : forall i (l : list Z), (i < List.length l)%nat -> skipn i l = nth i l 0 :: skipn (S i) l.
Proof.
  induction i as [|i IH]; intros [|x l] H; cbn [List.length] in H; try lia; [reflexivity|]. cbn [skipn nth]. rewrite IH by lia. reflexivity.
Qed.
Lemma ref_words : forall n i, (i + 4 * n <= s_len p)%nat -> refines holdsP (wordsP n d p i) (fun x => do y <- wordLoop n x bs (Z.of_nat i); Ret (y, tt)).
Proof.
  induction n as [|n IH]; intros i H; cbn [wordsP wordLoop]; [apply ref_ret|].
  eapply ref_eq; [nxt; [apply ref_wordP; lia|apply IH; lia]|]. intro s. cbn [bind]. destruct (processWord _ _ _); [|reflexivity]. cbn [bind]. rewrite Nat2Z.inj_add. reflexivity.
Qed.
Lemma ref_tail : forall n i, (i + n = s_len p)%nat -> List.length bs = s_len p -> refines holdsP (tailP n d p i) (fun x => do y <- tailLoop x (skipn i bs); Ret (y, tt)).
Proof.
  induction n as [|n IH]; intros i H Lb; cbn [tailP].
  - eapply ref_eq; [apply ref_ret|]. intro s. cbv beta. rewrite skipn_all2 by lia. reflexivity.
  - eapply ref_eq; [nxt; [apply ref_rdP; lia|]; nxt; [apply (ref_buf holdsP stable_holds)|]; apply IH; lia|].
    intro s. cbn [bind]. rewrite (cons_skip i) by lia. cbn [tailLoop]. destruct (go_set _ _ _); reflexivity.
Qed.
Lemma ref_tail' : forall i, List.length bs = s_len p -> refines holdsP (tailP (s_len p - i) d p i) (fun x => do y <- tailLoop x (skipn i bs); Ret (y, tt)).
Proof.
  intros i Lb. destruct (Nat.le_gt_cases i (s_len p)) as [H|H]; [apply ref_tail; [lia|exact Lb]|].
  replace (s_len p - i)%nat with O by lia. rewrite skipn_all2 by lia. apply ref_ret.
Qed.
Lemma ref_words' : forall i, refines holdsP (wordsP ((s_len p - i) / 4) d p i) (fun x => do y <- wordLoop ((s_len p - i) / 4) x bs (Z.of_nat i); Ret (y, tt)).
Proof.
  intro i. destruct (Nat.le_gt_cases i (s_len p)) as [H|H].
  - apply ref_words. assert (Q := Nat.mul_div_le (s_len p - i) 4). lia.
  - replace (s_len p - i)%nat with O by lia. apply ref_ret.
Qed.
Lemma fillBuf_length : forall l x y rest, fillBuf x l = Ret (y, rest) -> (List.length rest <= List.length l)%nat.
Proof.
  induction l as [|b l IH]; intros x y rest H; cbn [fillBuf] in H; [injection H as <- <-; reflexivity|].
  destruct (go_set _ _ _) as [xb|e]; [|discriminate H]. cbn [bind] in H. destruct (_ =? 4).
  - destruct (processWord _ _ _); [|discriminate H]. cbn [bind] in H. injection H as <- <-. cbn. lia.
  - specialize (IH _ _ _ H). cbn. lia.
Qed.
Lemma ref_some : forall A (m : prog A) f, (List.length bs = s_len p -> refines holdsP m f) -> refines holdsP m f.
Proof. intros A m f H n s Kd HP. exact (H (holds_length n s HP) n s Kd HP). Qed.
Lemma ref_Write : refines holdsP (WriteP d p) (fun x => Write x bs).
Proof.
  apply ref_some. intro Lb. unfold WriteP. assert (L : (0 < s_len p)%nat \/ s_len p = O) by lia. destruct L as [L|L].
  2: { rewrite L. eapply ref_eq; [apply ref_panic|]. intro s. unfold Write. rewrite go_index_panic by (unfold zlen; lia). reflexivity. }
  lazymatch goal with |- refines _ (match _ with O => _ | S _ => ?b end) _ => assert (X : refines holdsP b (fun x => Write x bs)); [|destruct (s_len p); [lia|exact X]] end.
  eapply ref_eq.
  - nxt; [apply ref_rdP; exact L|]. nxt; [apply ref_rdXBufOff|]. nxt.
    { instantiate (1 := fun x => if a0 =? 0 then Ret (x, O) else do (y, rest) <- fillBuf x bs; Ret (y, (List.length bs - List.length rest)%nat)).
      destruct (a0 =? 0); [apply ref_ret|]. apply (ref_fillP (s_len p) 0 eq_refl Lb). }
    instantiate (1 := fun i x => 
        do x2 <- wordLoop ((s_len p - i) / 4) x bs (Z.of_nat i); do x3 <- tailLoop x2 (skipn (4 * ((s_len p - i) / 4) + i) bs);
        Ret (withCount x3 (i64 (byteCount x3 + Z.of_nat (s_len p))), Z.of_nat (s_len p))). cbv beta zeta.
    eapply ref_eq; [nxt; [apply ref_words'|]; nxt; [apply ref_tail', Lb|]; nxt; [apply ref_rdCount|]; nxt; [apply ref_wrCount|]; apply ref_ret|].
    intro s. cbn [bind]. destruct (wordLoop _ _ _ _) as [x2|e]; [|reflexivity]. cbn [bind]. destruct (tailLoop _ _) as [x3|e]; reflexivity.
  - intro s. cbn [bind]. unfold Write. rewrite (go_index_ret _ _ _ 0) by (unfold zlen; lia). cbn [bind].
    set (first := if xBufOff (loadD s d) =? 0 then Ret (loadD s d, bs) else fillBuf (loadD s d) bs).
    replace (if xBufOff (loadD s d) =? 0 then Ret (loadD s d, O) else do (y, rest) <- fillBuf (loadD s d) bs; Ret (y, (List.length bs - List.length rest)%nat))
      with (do (y, rest) <- first; Ret (y, (List.length bs - List.length rest)%nat)).
    2: { unfold first. destruct (_ =? 0); [|reflexivity]. cbn [bind]. rewrite Nat.sub_diag. reflexivity. }
    assert (Lr : forall y rest, first = Ret (y, rest) -> (List.length rest <= List.length bs)%nat).
    { intros y rest. unfold first. destruct (_ =? 0); [intro Q; injection Q as <- <-; reflexivity|apply fillBuf_length]. }
    destruct first as [[y rest]|e]; [|reflexivity]. specialize (Lr y rest eq_refl). cbn [bind].
    assert (Ei : zlen bs - zlen rest = Z.of_nat (List.length bs - List.length rest)) by (unfold zlen; lia).
    rewrite Ei. set (i := (List.length bs - List.length rest)%nat) in *. rewrite Lb in *. 
    assert (El : Z.land (zlen bs - Z.of_nat i) (-4) = Z.of_nat (4 * ((s_len p - i) / 4))).
    { rewrite Sm3Proofs.land_m4 by (unfold zlen; lia). unfold zlen. rewrite Lb, Nat2Z.inj_mul, Nat2Z.inj_div. replace (Z.of_nat (s_len p) - Z.of_nat i) with (Z.of_nat (s_len p - i)) by lia. reflexivity. }
    rewrite El. replace (Z.to_nat ((Z.of_nat (4 * ((s_len p - i) / 4)) + Z.of_nat i - Z.of_nat i) / 4)) with ((s_len p - i) / 4)%nat.
    2: { rewrite Z.add_simpl_r, Nat2Z.inj_mul, Z.mul_comm, Z.div_mul by lia. rewrite Nat2Z.id. reflexivity. }
    destruct (wordLoop _ _ _ _) as [x2|e]; [|reflexivity]. cbn [bind]. assert (Q := Nat.mul_div_le (s_len p - i) 4).
    replace (sub bs (Z.of_nat (4 * ((s_len p - i) / 4)) + Z.of_nat i) (zlen bs)) with (skipn (4 * ((s_len p - i) / 4) + i) bs).
    2: { unfold sub, zlen. rewrite <- Nat2Z.inj_add, Nat2Z.id. symmetry. apply firstn_all2. rewrite skipn_length. lia. }
    destruct (tailLoop _ _) as [x3|e]; [|reflexivity]. cbn [bind]. unfold zlen. rewrite Lb. reflexivity.
Qed.
End Slice.
Definition any (n : nat) (s : memory) : Prop := True.
Lemma stable_any : stable any.
Proof. intros n s n' s' _ _ _. exact I. Qed.
Ltac nxt := eapply (ref_bind any stable_any); [|let a := fresh "a" in intro a].
Lemma ref_write1 : forall z, refines any (write1P d z) (fun x => Write x [z]).
Proof.
  intros z n s Kd _. unfold write1P. cbn [alone]. set (b := mkBlock (S g) n). set (s1 := fill s b [z]).
  assert (N : d <> b) by (intro Q; rewrite Q in Kd; specialize (Kd eq_refl); cbn in Kd; lia).
  assert (LD : loadD s1 d = loadD s d).
  { unfold loadD, s1. rewrite !fill_other by exact N. rewrite !(load_ext (fill s b [z]) s d) by (intros i _; apply fill_other; exact N). reflexivity. }
  destruct (ref_Write (mkCs b 0 1 1) [z] (S n) s1) as (n1 & o1 & s2 & E & L & F & Q).
  - intro O. specialize (Kd O). lia.
  - split; [exact (not_eq_sym N)|]. split; [intros _; cbn; lia|]. split; [|cbn; lia]. unfold contents, loadN, s1. cbn [s_blk s_off s_len seq map]. rewrite fill_same. reflexivity.
  - exists n1, o1, s2. split; [exact E|]. split; [lia|]. rewrite LD in Q. split; [|exact Q].
    intros a Na Ka. rewrite F.
    + unfold s1. apply fill_other. intro Qa. rewrite Qa in Ka. specialize (Ka eq_refl). cbn in Ka. lia.
    + exact Na.
    + intro O. specialize (Ka O). lia.
Qed.
Lemma ref_pad : forall fuel, refines any (padP fuel d) (fun x => do y <- padLoop fuel x; Ret (y, tt)).
Proof.
  induction fuel as [|fuel IH]; cbn [padP].
  - eapply ref_eq; [nxt; [apply ref_rdXBufOff|]; instantiate (1 := fun o x => if o =? 0 then Ret (x, tt) else Panic (PUser "model: pad loop bound exceeded")); cbv beta; destruct (a =? 0); [apply ref_ret|apply ref_panic]|].
    intro s. cbn [bind padLoop]. destruct (_ =? 0); reflexivity.
  - eapply ref_eq; [nxt; [apply ref_rdXBufOff|]; instantiate (1 := fun o x => if o =? 0 then Ret (x, tt) else do (y, _) <- Write x [0]; do z <- padLoop fuel y; Ret (z, tt)); cbv beta; destruct (a =? 0); [apply ref_ret|]|].
    + eapply ref_eq; [nxt; [apply ref_write1|apply IH]|]. intro s. reflexivity.
    + intro s. cbn [bind padLoop]. destruct (_ =? 0); [reflexivity|]. destruct (Write _ _) as [[y k]|e]; reflexivity.
Qed.
(** The word counter never gets negative. *)
Definition posD (n : nat) (s : memory) : Prop := 0 <= s (mkLoc d fXOff).
Lemma pos_word : forall x l i y, 0 <= xOff x -> processWord x l i = Ret y -> 0 <= xOff y.
Proof.
  intros x l i y H E. unfold processWord in E. destruct (go_slice _ _ _); [|discriminate E]. cbn [bind] in E. destruct (go_set _ _ _); [|discriminate E]. cbn [bind] in E.
  cbn [xOff] in E. Transparent Sm3.processBlock. destruct (_ <=? _); injection E as <-; cbn [xOff Sm3.processBlock]; lia.
Qed.
Opaque Sm3.processBlock.
Lemma pos_fill : forall l x y r, 0 <= xOff x -> fillBuf x l = Ret (y, r) -> 0 <= xOff y.
Proof.
  induction l as [|b l IH]; intros x y r H E; cbn [fillBuf] in E; [injection E as <- <-; exact H|].
  destruct (go_set _ _ _); [|discriminate E]. cbn [bind] in E. destruct (_ =? 4).
  - destruct (processWord _ _ _) as [z|e] eqn:W; [|discriminate E]. cbn [bind] in E. injection E as <- <-. apply pos_word in W; [exact W|exact H].
  - apply IH in E; [exact E|exact H].
Qed.
Lemma pos_words : forall n x l i y, 0 <= xOff x -> wordLoop n x l i = Ret y -> 0 <= xOff y.
Proof.
  induction n as [|n IH]; intros x l i y H E; cbn [wordLoop] in E; [injection E as <-; exact H|].
  destruct (processWord _ _ _) as [z|e] eqn:W; [|discriminate E]. cbn [bind] in E. apply pos_word in W; [|exact H]. exact (IH _ _ _ _ W E).
Qed.
Lemma pos_tail : forall l x y, 0 <= xOff x -> tailLoop x l = Ret y -> 0 <= xOff y.
Proof.
  induction l as [|b l IH]; intros x y H E; cbn [tailLoop] in E; [injection E as <-; exact H|].
  destruct (go_set _ _ _); [|discriminate E]. cbn [bind] in E. apply IH in E; [exact E|exact H].
Qed.
Lemma pos_Write : forall x l y k, 0 <= xOff x -> Write x l = Ret (y, k) -> 0 <= xOff y.
Proof.
  intros x l y k H E. unfold Write in E. destruct (go_index _ _); [|discriminate E]. cbn [bind] in E.
  set (first := if xBufOff x =? 0 then Ret (x, l) else fillBuf x l) in *. assert (F : forall z r, first = Ret (z, r) -> 0 <= xOff z).
  { intros z r. unfold first. destruct (_ =? 0); [intro Q; injection Q as <- <-; exact H|apply pos_fill, H]. }
  destruct first as [[z r]|e]; [|discriminate E]. specialize (F z r eq_refl). cbn [bind] in E.
  destruct (wordLoop _ _ _ _) as [z1|e] eqn:E1; [|discriminate E]. cbn [bind] in E. apply pos_words in E1; [|exact F].
  destruct (tailLoop _ _) as [z2|e] eqn:E2; [|discriminate E]. cbn [bind] in E. apply pos_tail in E2; [|exact E1]. injection E as <- _. exact E2.
Qed.
Lemma pos_pad : forall f x y, 0 <= xOff x -> padLoop f x = Ret y -> 0 <= xOff y.
Proof.
  induction f as [|f IH]; intros x y H E; cbn [padLoop] in E; (destruct (_ =? 0); [injection E as <-; exact H|]); [discriminate E|].
  destruct (Write _ _) as [[z k]|e] eqn:W; [|discriminate E]. cbn [bind] in E. apply pos_Write in W; [|exact H]. exact (IH _ _ W E).
Qed.
(** Composition when the second part needs the word counter not to be negative. *)
Lemma ref_bindP : forall A B (Q : nat -> memory -> Prop) (m : prog A) (k : A -> prog B) f h, refines Q m f ->
  (forall x y a, 0 <= xOff x -> f x = Ret (y, a) -> 0 <= xOff y) -> (forall a, refines posD (k a) (h a)) ->
  refines (fun n s => Q n s /\ posD n s) (bindc m k) (fun x => do (y, a) <- f x; h a y).
Proof.
  intros A B Q m k f h H HP K n s Kd [HQ Hp]. destruct (H n s Kd HQ) as (n1 & o1 & s1 & E1 & L1 & F1 & Q1).
  rewrite alone_bind, E1. destruct (f (loadD s d)) as [[d1 a]|e] eqn:Ef.
  - destruct Q1 as [-> D1]. destruct (K a n1 s1 (known_mono _ _ _ Kd L1)) as (n2 & o2 & s2 & E2 & L2 & F2 & Q2).
    { unfold posD. change (0 <= xOff (loadD s1 d)). rewrite D1. exact (HP (loadD s d) d1 a Hp Ef). }
    exists n2, o2, s2. split; [exact E2|]. split; [lia|]. split.
    + intros b Nb Kb. rewrite F2 by (exact Nb || exact (known_mono _ _ _ Kb L1)). apply F1; assumption.
    + cbn [bind]. rewrite <- D1. exact Q2.
  - subst o1. exists n1, (Panic e), s1. split; [reflexivity|]. split; [exact L1|]. split; [exact F1|]. reflexivity.
Qed.
Lemma ref_weak : forall A (Q Q' : nat -> memory -> Prop) (m : prog A) f, (forall n s, Q' n s -> Q n s) -> refines Q m f -> refines Q' m f.
Proof. intros A Q Q' m f H R n s Kd HQ. exact (R n s Kd (H n s HQ)). Qed.
Lemma ref_bindA : forall A B (m : prog A) (k : A -> prog B) f h, refines any m f ->
  (forall x y a, 0 <= xOff x -> f x = Ret (y, a) -> 0 <= xOff y) -> (forall a, refines posD (k a) (h a)) -> refines posD (bindc m k) (fun x => do (y, a) <- f x; h a y).
Proof. intros A B m k f h H HP K. apply (ref_weak _ (fun n s => any n s /\ posD n s)); [intros n s Q; split; [exact I|exact Q]|]. apply ref_bindP; assumption. Qed.
Lemma ref_zero : refines posD (zeroP 14 d) zeroed.
Proof. eapply ref_weak; [|apply (ref_zero_upto any stable_any 14)]. intros n s H. split; [exact I|]. unfold posD in H. split; [exact H|]. change (Z.of_nat 14) with 14. lia. Qed.
Lemma ref_any_pos : forall A (m : prog A) f, refines any m f -> refines posD m f.
Proof. intros A m f. apply ref_weak. intros. exact I. Qed.
Ltac nxtP := eapply ref_bindA; [| |let a := fresh "a" in intro a].
Lemma ref_length : forall z, refines posD (processLengthP d z) (fun x => do y <- processLength x z; Ret (y, tt)).
Proof.
  intro z. unfold processLengthP. eapply ref_eq.
  - nxtP; [apply ref_rdXOff|intros x y a H E; injection E as <- <-; exact H|].
    nxtP.
    + instantiate (1 := fun x => if 14 <? a then do l <- go_set (inWords x) (xOff x) 0; Ret (Sm3.processBlock (withXOff (withIn x l) (xOff x + 1)), tt) else Ret (x, tt)).
      destruct (14 <? a); [|apply ref_ret]. eapply ref_eq; [nxt; [apply (ref_push any stable_any)|apply (ref_block3 any stable_any)]|]. intro s. cbn [bind]. destruct (go_set _ _ _); reflexivity.
    + intros x y u H E. destruct (14 <? a); [|injection E as <- <-; exact H]. destruct (go_set _ _ _); [|discriminate E]. cbn [bind] in E. injection E as <- <-.
      Transparent Sm3.processBlock. cbn. lia.
    + instantiate (1 := fun _ x => do (y, _) <- zeroed x; do l1 <- go_set (inWords y) (xOff y) (u32 (Z.shiftr z 32)); do l2 <- go_set l1 (xOff y + 1) (u32 z); Ret (withXOff (withIn y l2) (xOff y + 1 + 1), tt)).
      intros n s Kd Hp. destruct (ref_zero n s Kd Hp) as (n1 & o1 & s1 & E1 & L1 & F1 & Q1). rewrite alone_bind, E1. destruct (zeroed (loadD s d)) as [[d1 u]|e].
      * destruct Q1 as [-> D1]. cbn [bind].
        assert (T : refines any (par _ <- pushP d (u32 (Z.shiftr z 32)); pushP d (u32 z)) (fun y => do l1 <- go_set (inWords y) (xOff y) (u32 (Z.shiftr z 32)); do l2 <- go_set l1 (xOff y + 1) (u32 z); Ret (withXOff (withIn y l2) (xOff y + 1 + 1), tt))).
        { eapply ref_eq; [nxt; [apply (ref_push any stable_any)|apply (ref_push any stable_any)]|]. intro s0. cbn [bind]. destruct (go_set _ _ _) as [l1|e]; [|reflexivity]. cbn [bind inWords xOff withXOff withIn]. destruct (go_set _ _ _); reflexivity. }
        destruct (T n1 s1 (known_mono _ _ _ Kd L1) I) as (n2 & o2 & s2 & E2 & L2 & F2 & Q2). exists n2, o2, s2. split; [exact E2|]. split; [lia|]. split; [|rewrite <- D1; exact Q2].
        intros b Nb Kb. rewrite F2 by (exact Nb || exact (known_mono _ _ _ Kb L1)). apply F1; assumption.
      * subst o1. exists n1, (Panic e), s1. split; [reflexivity|]. split; [exact L1|]. split; [exact F1|]. reflexivity.
  - intro s. generalize (loadD s d). intro x. cbn [bind]. unfold processLength. change (Sm3.BlockSize - 2) with 14.
    set (st := if 14 <? xOff x then do l <- go_set (inWords x) (xOff x) 0; Ret (Sm3.processBlock (withXOff (withIn x l) (xOff x + 1)), tt) else Ret (x, tt)).
    Opaque Sm3.processBlock.
    replace (if 14 <? xOff x then do iw <- go_set (inWords x) (xOff x) 0; Ret (Sm3.processBlock (mkDigest (v x) iw (xOff x + 1) (w x) (xBuf x) (xBufOff x) (byteCount x))) else Ret x)
      with (do (y, _) <- st; Ret y).
    2: { unfold st. destruct (_ <? _); [|reflexivity]. destruct (go_set _ _ _); reflexivity. }
    destruct st as [[y u]|e]; [|reflexivity]. cbn [bind]. unfold zeroed. destruct (for_loop _ _ _ _) as [l|e]; [|reflexivity]. cbn [bind inWords xOff withXOff withIn].
    destruct (go_set l _ _) as [l1|e]; [|reflexivity]. cbn [bind]. destruct (go_set l1 _ _) as [l2|e]; [|reflexivity]. cbn [bind]. unfold withXOff, withIn. cbn [v inWords xOff w xBuf xBufOff byteCount].
    replace (Z.max (xOff y) 14 + 1 + 1) with (Z.max (xOff y) 14 + 2) by lia. reflexivity.
Qed.
Lemma ref_finish : refines posD (finishP d) (fun x => do y <- finish x; Ret (y, tt)).
Proof.
  unfold finishP. eapply ref_eq.
  - nxtP; [apply ref_rdCount|intros x y a H E; injection E as <- <-; exact H|].
    nxtP; [apply ref_write1|intros x y a' H E; exact (pos_Write _ _ _ _ H E)|].
    nxtP; [apply ref_pad|intros x y a' H E; cbv beta in E; destruct (padLoop 4 x) as [q|e] eqn:EP; [|discriminate E]; cbn [bind] in E; injection E as <- _; exact (pos_pad _ _ _ H EP)|].
    instantiate (1 := fun _ x => do y <- processLength x (i64 (Z.shiftl a 3)); Ret (Sm3.processBlock y, tt)). cbv beta.
    intros n s Kd Hp. destruct (ref_length (i64 (Z.shiftl a 3)) n s Kd Hp) as (n1 & o1 & s1 & E1 & L1 & F1 & Q1). rewrite alone_bind, E1.
    destruct (processLength (loadD s d) _) as [d1|e]; cbn [bind] in *.
    + destruct Q1 as [-> D1]. destruct (ref_block3 any stable_any n1 s1 (known_mono _ _ _ Kd L1) I) as (n2 & o2 & s2 & E2 & L2 & F2 & Q2).
      exists n2, o2, s2. split; [exact E2|]. split; [lia|]. rewrite <- D1. split; [|exact Q2].
      intros b Nb Kb. rewrite F2 by (exact Nb || exact (known_mono _ _ _ Kb L1)). apply F1; assumption.
    + subst o1. exists n1, (Panic e), s1. split; [reflexivity|]. split; [exact L1|]. split; [exact F1|]. reflexivity.
  - intro s. generalize (loadD s d). intro x. cbn [bind]. unfold finish. destruct (Write x [128]) as [[y k]|e]; [|reflexivity]. cbn [bind].
    destruct (padLoop 4 y) as [y2|e]; [|reflexivity]. cbn [bind]. destruct (processLength _ _); reflexivity.
Qed.
Lemma ref_checkSum : refines posD (checkSumP d) checkSum.
Proof.
  intros n s Kd Hp. unfold checkSumP. destruct (ref_finish n s Kd Hp) as (n1 & o1 & s1 & E1 & L1 & F1 & Q1). rewrite alone_bind, E1. unfold checkSum.
  destruct (finish (loadD s d)) as [d1|e]; cbn [bind] in *.
  - destruct Q1 as [-> D1]. exists n1, (Ret (List.concat (map (be_enc 4) (v d1)))), s1. rewrite alone_bind, alone_rdN. rewrite <- D1. split; [reflexivity|]. split; [exact L1|]. split; [exact F1|]. split; reflexivity.
  - subst o1. exists n1, (Panic e), s1. split; [reflexivity|]. split; [exact L1|]. split; [exact F1|]. reflexivity.
Qed.
Lemma ref_Reset : refines any (ResetP d) (fun x => Ret (New, tt)).
Proof.
  intros n s Kd _. unfold ResetP. cbn [alone bindc wr ret]. rewrite alone_bind, alone_wrL, alone_bind, alone_wrL, alone_bind, alone_wrL, alone_bind, alone_wrL. cbn [alone wr ret].
  do 3 eexists. split; [reflexivity|]. split; [lia|]. split.
  - intros a Na _. rewrite set_other by (intros <-; apply Na; reflexivity). rewrite !storeL_out by (left; exact Na). rewrite !set_other by (intros <-; apply Na; reflexivity). reflexivity.
  - split; [reflexivity|].
    set (iv := [0x7380166F; 0x4914B2B9; 0x172442D7; 0xDA8A0600; 0xA96F30BC; 0x163138AA; 0xE38DEE4D; 0xB0FB0E4E]).
    assert (L4 : List.length (repeat 0 4) = 4%nat) by reflexivity. assert (L16 : List.length (repeat 0 16) = 16%nat) by reflexivity.
    assert (L68 : List.length (repeat 0 68) = 68%nat) by reflexivity. assert (L8 : List.length iv = 8%nat) by reflexivity.
    transitivity (mkDigest iv (repeat 0 16) 0 (repeat 0 68) (repeat 0 4) 0 0); [|reflexivity].
    unfold loadD. unfold fV, fIn, fXOff, fW, fXBuf, fXBufOff, fCount.
    rewrite !load_set_out by (right; cbn [idx]; lia). rewrite set_same, !set_other by (let Q := fresh in intro Q; injection Q; lia).
    rewrite !(storeL_out _ _ d _ (mkLoc d 97)) by (right; cbn [idx]; lia). rewrite !(storeL_out _ _ d _ (mkLoc d 98)) by (right; cbn [idx]; lia).
    rewrite (set_other _ (mkLoc d 97) 0 (mkLoc d 98)) by (let Q := fresh in intro Q; injection Q; lia). rewrite !set_same.
    generalize dependent (repeat 0 4). intros z4 L4. generalize dependent (repeat 0 16). intros z16 L16. generalize dependent (repeat 0 68). intros z68 L68. generalize dependent iv. intros iv L8.
    rewrite (load_store_eq iv 8 ) by assumption.
    rewrite !(load_store_out iv) by lia.
    rewrite (load_store_eq z68 68 ) by assumption. rewrite !(load_store_out z68) by lia.
    rewrite (load_store_eq z16 16 ) by assumption. rewrite !(load_store_out z16) by lia.
    rewrite (load_store_eq z4 4 ) by assumption. reflexivity.
Qed.
End Refine.

(** ** SM4 *)
Lemma storeL_app : forall l1 l2 s b o, storeL s b o (l1 ++ l2) = storeL (storeL s b o l1) b (o + List.length l1) l2.
Proof.
  induction l1 as [|x l1 IH]; intros l2 s b o; cbn [app storeL List.length]; [rewrite Nat.add_0_r; reflexivity|].
  rewrite IH. f_equal. lia.
Qed.
Lemma load_sub : forall s b o i, (i + 4 <= 16)%nat -> loadN s b (o + i) 4 = sub (loadN s b o 16) (Z.of_nat i) (Z.of_nat i + 4).
Proof.
  intros s b o i H. unfold sub. rewrite Nat2Z.id. replace (Z.to_nat (Z.of_nat i + 4 - Z.of_nat i)) with 4%nat by lia.
  symmetry. apply loadN_skip. lia.
Qed.
Lemma alone_getU32 : forall g n b o s, alone g n (getU32P b o) s = (n, Ret (be_dec (loadN s b o 4)), s).
Proof. intros. unfold getU32P. rewrite alone_bind, alone_rdN. reflexivity. Qed.
Lemma alone_rounds : forall g n rk s k i x, 0 <= i -> i + Z.of_nat k <= 8 ->
  alone g n (loopP k i (fourRoundsP rk) x) s = (n, Ret (for_loop k i (fourRounds (loadN s rk 0 32)) x), s).
Proof.
  intros g n rk s k. induction k as [|k IH]; intros i x H0 H8; cbn [loopP for_loop]; [reflexivity|].
  rewrite alone_bind. unfold fourRoundsP at 1. cbv zeta. cbn [bindc rd ret alone]. rewrite IH by lia.
  unfold fourRounds at 3. cbv zeta.
  assert (A : forall j, 0 <= j < 32 -> at_ (loadN s rk 0 32) j = s (mkLoc rk (Z.to_nat j))).
  { intros j Hj. unfold at_. rewrite loadN_nth by lia. reflexivity. }
  rewrite !A by lia. reflexivity.
Qed.
Transparent Sm4Spec.crypt.
Lemma alone_block4 : forall g n rk inp out s,
  alone g n (processBlock4P rk inp out) s =
  (n, Ret tt, storeL s (s_blk out) (s_off out) (Sm4Spec.crypt (loadN s rk 0 32) (loadN s (s_blk inp) (s_off inp) 16))).
Proof.
  intros g n rk inp out s. unfold processBlock4P. do 4 rewrite alone_bind, alone_getU32. rewrite alone_bind, alone_rounds by lia.
  match goal with |- context [for_loop 8 0 _ [?a; ?b; ?c; ?e]] => change [a; b; c; e] with (tolist (a, b, c, e)) end.
  rewrite rounds_eq4 by (rewrite loadN_length; lia). rewrite firstn_all2 by (rewrite loadN_length; lia).
  unfold Sm4Spec.crypt. unfold Sm4Spec.word.
  replace (loadN s (s_blk inp) (s_off inp) 4) with (sub (loadN s (s_blk inp) (s_off inp) 16) (4 * 0) (4 * 0 + 4)) by (rewrite <- (Nat.add_0_r (s_off inp)) at 2; symmetry; apply (load_sub s _ _ 0); lia).
  rewrite (load_sub s _ _ 4), (load_sub s _ _ 8), (load_sub s _ _ 12) by lia.
  change (4 * 0) with 0. change (4 * 1) with 4. change (4 * 2) with 8. change (4 * 3) with 12. change (Z.of_nat 4) with 4. change (Z.of_nat 8) with 8. change (Z.of_nat 12) with 12.
  destruct (Sm4Spec.feistel _ _) as [[[y0 y1] y2] y3]. cbn [tolist]. rewrite r_eq. cbv zeta. unfold at_.
  change (Z.to_nat 0) with 0%nat. change (Z.to_nat 1) with 1%nat. change (Z.to_nat 2) with 2%nat. change (Z.to_nat 3) with 3%nat. cbn [nth map List.concat].
  unfold putU32P. do 3 rewrite alone_bind, alone_wrL. rewrite alone_wrL. rewrite app_nil_r, !storeL_app, !be_enc_length.
  replace (s_off out + 4 + 4)%nat with (s_off out + 8)%nat by lia. replace (s_off out + 8 + 4)%nat with (s_off out + 12)%nat by lia. reflexivity.
Qed.
Opaque Sm4Spec.crypt.
Lemma alone_crypt : forall g n rk dst src s, (16 <= s_len src)%nat -> (16 <= s_len dst)%nat ->
  alone g n (cryptP rk dst src) s =
  (n, Ret tt, storeL s (s_blk dst) (s_off dst) (Sm4Spec.crypt (loadN s rk 0 32) (loadN s (s_blk src) (s_off src) 16))).
Proof.
  intros g n rk dst src s H1 H2. unfold cryptP, BlockSize. destruct (Z.ltb_spec (Z.of_nat (s_len src)) 16); [lia|]. destruct (Z.ltb_spec (Z.of_nat (s_len dst)) 16); [lia|].
  apply alone_block4.
Qed.
Lemma alone_keys : forall g n rk e k i x s, 0 <= i -> i + Z.of_nat k <= 32 -> exists s',
  alone g n (loopP k i (keyStepP rk e) x) s = (n, Ret (fst (for_loop k i (keyStep e) (x, loadN s rk 0 32))), s') /\
  loadN s' rk 0 32 = snd (for_loop k i (keyStep e) (x, loadN s rk 0 32)) /\ forall a, blk a <> rk -> s' a = s a.
Proof.
  intros g n rk e k. induction k as [|k IH]; intros i x s H0 H32; cbn [loopP for_loop]; [exists s; auto|].
  rewrite alone_bind. unfold keyStepP at 1. cbv zeta. cbn [bindc wr ret alone].
  set (y := Z.lxor (at_ x (i mod 5)) _). set (a := mkLoc rk (Z.to_nat (if e then i else 31 - i))).
  destruct (IH (i + 1) (put x ((i + 4) mod 5) y) (set s a y) ltac:(lia) ltac:(lia)) as (s' & E & L & F).
  assert (K : keyStep e i (x, loadN s rk 0 32) = (put x ((i + 4) mod 5) y, loadN (set s a y) rk 0 32)).
  { unfold keyStep, a, put. rewrite load_set_in by (destruct e; lia). rewrite Nat.sub_0_r. destruct e; reflexivity. }
  exists s'. rewrite K. split; [exact E|]. split; [exact L|]. intros b Nb. rewrite F by exact Nb. apply set_other. unfold a. intros <-. apply Nb. reflexivity.
Qed.
Lemma sub_lo : forall (l : list Z), List.length l = 16%nat -> forall i, (i + 4 <= 16)%nat -> sub l (Z.of_nat i) (Z.of_nat i + 4) = firstn 4 (skipn i l).
Proof. intros l H i Hi. unfold sub. rewrite Nat2Z.id. replace (Z.to_nat (Z.of_nat i + 4 - Z.of_nat i)) with 4%nat by lia. reflexivity. Qed.
Lemma alone_alloc : forall A g n l (k : ConcMem.block -> prog A) s, alone g n (Alloc l k) s = alone g (S n) (k (mkBlock (S g) n)) (fill s (mkBlock (S g) n) l).
Proof. reflexivity. Qed.
Opaque for_loop loopP alone bindc.
Lemma alone_ret : forall A g n (a : A) s, alone g n (ret a) s = (n, Ret a, s).
Proof. reflexivity. Qed.
Lemma alone_expandKey : forall g n key e s, s_len key = 16%nat -> (owner (s_blk key) = S g -> (number (s_blk key) < n)%nat) -> exists s',
  alone g n (expandKeyP key e) s = (S n, Ret (mkBlock (S g) n), s') /\
  loadN s' (mkBlock (S g) n) 0 32 = expandKey (contents s key) e /\ forall a, blk a <> mkBlock (S g) n -> s' a = s a.
Proof.
  intros g n key e s Hk Hn. unfold expandKeyP. do 4 rewrite alone_bind, alone_getU32. cbv zeta. rewrite alone_alloc. set (b := mkBlock (S g) n).
  set (x := [_; _; _; _; 0]). rewrite alone_bind. destruct (alone_keys g (S n) b e 32 0 x (fill s b (repeat 0 32)) ltac:(lia) ltac:(lia)) as (s' & E & L & F).
  rewrite E. rewrite alone_ret. exists s'. split; [reflexivity|]. split.
  - rewrite L. unfold expandKey, contents. rewrite Hk. cbv zeta.
    assert (R : loadN (fill s b (repeat 0 32)) b 0 32 = repeat 0 32).
    { apply (list_ext _ _ 32); [apply loadN_length|apply repeat_length|]. intros i Hi. rewrite loadN_nth by exact Hi. rewrite fill_same. f_equal. }
    rewrite R. unfold x. 
    replace (loadN s (s_blk key) (s_off key) 4) with (sub (loadN s (s_blk key) (s_off key) 16) 0 4) by (rewrite <- (Nat.add_0_r (s_off key)) at 2; symmetry; apply (load_sub s _ _ 0); lia).
    rewrite (load_sub s _ _ 4), (load_sub s _ _ 8), (load_sub s _ _ 12) by lia. change (Z.of_nat 4 + 4) with 8. change (Z.of_nat 8 + 4) with 12. change (Z.of_nat 12 + 4) with 16.
    change (Z.of_nat 4) with 4. change (Z.of_nat 8) with 8. change (Z.of_nat 12) with 12. generalize (loadN s (s_blk key) (s_off key) 16). intro q. reflexivity.
  - intros a Na. rewrite F by exact Na. apply fill_other. exact Na.
Qed.
Transparent for_loop loopP alone bindc.
(** The blocks of a cipher hold the round keys of [key]. *)
Definition cipherOf (s : memory) (c : cipherRef) (key : list Z) : Prop :=
  loadN s (cEnc c) 0 32 = round_keys key /\ loadN s (cDec c) 0 32 = rev (round_keys key).
Lemma alone_NewCipher : forall g n key s, s_len key = 16%nat -> (owner (s_blk key) = S g -> (number (s_blk key) < n)%nat) -> exists s',
  alone g n (NewCipherP key) s = (S (S n), Ret (Ok (mkCipherRef (mkBlock (S g) n) (mkBlock (S g) (S n)))), s') /\
  cipherOf s' (mkCipherRef (mkBlock (S g) n) (mkBlock (S g) (S n))) (contents s key) /\
  forall a, blk a <> mkBlock (S g) n -> blk a <> mkBlock (S g) (S n) -> s' a = s a.
Proof.
  intros g n key s Hk Hn. unfold NewCipherP. rewrite Hk. change (negb (Z.of_nat 16 =? KeySize)) with false. cbv iota.
  destruct (alone_expandKey g n key true s Hk Hn) as (s1 & E1 & L1 & F1). rewrite alone_bind, E1.
  assert (Kb : s_blk key <> mkBlock (S g) n) by (intro Q; rewrite Q in Hn; cbn in Hn; specialize (Hn eq_refl); lia).
  destruct (alone_expandKey g (S n) key false s1 Hk) as (s2 & E2 & L2 & F2); [intro Q; specialize (Hn Q); lia|]. rewrite alone_bind, E2. cbn [alone ret].
  assert (C : contents s1 key = contents s key) by (apply load_ext; intros i _; apply F1; exact Kb). rewrite C in L2.
  exists s2. split; [reflexivity|]. split; [split; cbn [cEnc cDec]|].
  - rewrite <- (expandKey_eq (contents s key) true : _ = round_keys (contents s key)), <- L1. apply load_ext. intros i _. apply F2. cbn. intro Q. injection Q. lia.
  - rewrite L2. apply (expandKey_eq (contents s key) false).
  - intros a N1 N2. rewrite F2, F1 by assumption. reflexivity.
Qed.
Lemma app_split : forall (a b c e : list Z), List.length a = List.length c -> a ++ b = c ++ e -> a = c /\ b = e.
Proof.
  induction a as [|x a IH]; intros b [|y c] e L H; cbn in L; try discriminate L; [auto|]. cbn in H. injection H as -> H. injection L as L. destruct (IH b c e L H) as [-> ->]. auto.
Qed.
Lemma loadN_app : forall s b o j k, loadN s b o (j + k) = loadN s b o j ++ loadN s b (o + j) k.
Proof. intros. unfold loadN. rewrite seq_app, map_app. reflexivity. Qed.
Definition modeKeys (e : bool) (c : cipherRef) : ConcMem.block := if e then cEnc c else cDec c.
Definition modeSpec (e : bool) (key : list Z) : list Z -> list Z := if e then sm4_enc key else sm4_dec key.
Lemma modeSpec_length : forall e key b, List.length (modeSpec e key b) = 16%nat.
Proof. intros e key b. assert (Q := crypt_length (if e then round_keys key else rev (round_keys key)) b). unfold zlen in Q. destruct e; unfold modeSpec, sm4_enc, sm4_dec; lia. Qed.
Lemma alone_mode : forall g n e c key dst src s, cipherOf s c key -> (16 <= s_len src)%nat -> (16 <= s_len dst)%nat ->
  alone g n (cryptP (modeKeys e c) dst src) s = (n, Ret tt, storeL s (s_blk dst) (s_off dst) (modeSpec e key (loadN s (s_blk src) (s_off src) 16))).
Proof.
  intros g n e c key dst src s [C1 C2] H1 H2. rewrite alone_crypt by assumption. destruct e; cbn [modeKeys modeSpec]; rewrite ?C1, ?C2; reflexivity.
Qed.
Lemma cipher_store : forall s c key b o l, cipherOf s c key -> cEnc c <> b -> cDec c <> b -> cipherOf (storeL s b o l) c key.
Proof.
  intros s c key b o l [C1 C2] N1 N2. split; [rewrite <- C1|rewrite <- C2]; apply load_ext; intros i _; apply storeL_out; left; assumption.
Qed.
Lemma alone_ecb : forall g n e c key dst src bs i s, cipherOf s c key -> cEnc c <> s_blk dst -> cDec c <> s_blk dst -> s_blk src <> s_blk dst ->
  Forall is_block bs -> loadN s (s_blk src) (s_off src + i) (16 * List.length bs) = List.concat bs ->
  exists s', alone g n (ecbP (cryptP (modeKeys e c)) (List.length bs) i dst src) s = (n, Ret tt, s') /\
    loadN s' (s_blk dst) (s_off dst + i) (16 * List.length bs) = List.concat (map (modeSpec e key) bs) /\
    forall a, blk a <> s_blk dst \/ (idx a < s_off dst + i)%nat -> s' a = s a.
Proof.
  intros g n e c key dst src bs. induction bs as [|b bs IH]; intros i s C N1 N2 N3 B E; cbn [List.length ecbP]; [exists s; auto|].
  apply Forall_inv in B as Bb. apply Forall_inv_tail in B. assert (Lb : List.length b = 16%nat) by (unfold is_block, zlen in Bb; lia).
  replace (16 * List.length (b :: bs))%nat with (16 + 16 * List.length bs)%nat in E by (cbn; lia). rewrite loadN_app in E. cbn [List.concat] in E.
  apply app_split in E; [|rewrite loadN_length; lia]. destruct E as [E1 E2].
  rewrite alone_bind, (alone_mode g n e c key) by (exact C || cbn; lia). cbn [windowP s_blk s_off]. rewrite E1.
  set (s1 := storeL s (s_blk dst) (s_off dst + i) (modeSpec e key b)).
  destruct (IH (i + 16)%nat s1) as (s' & R & L & F); try assumption.
  - apply cipher_store; assumption.
  - rewrite <- E2. rewrite Nat.add_assoc. apply load_ext. intros j _. apply storeL_out. left. exact N3.
  - exists s'. split; [exact R|]. split.
    + replace (16 * S (List.length bs))%nat with (16 + 16 * List.length bs)%nat by lia. rewrite loadN_app. cbn [map List.concat]. f_equal.
      * rewrite <- (load_store_eq (modeSpec e key b) 16 s (s_blk dst) (s_off dst + i)) by apply modeSpec_length. apply load_ext. intros j Hj. apply F. right. cbn [idx]. lia.
      * rewrite <- Nat.add_assoc. exact L.
    + intros a Ha. rewrite F by (destruct Ha; [auto|right; lia]). apply storeL_out. destruct Ha; [auto|right; lia].
Qed.
Lemma alone_ecbCall : forall g n e key inp bs s, s_len key = 16%nat -> (owner (s_blk key) = S g -> (number (s_blk key) < n)%nat) ->
  (owner (s_blk inp) = S g -> (number (s_blk inp) < n)%nat) -> Forall is_block bs -> contents s inp = List.concat bs ->
  exists s', alone g n (ecbCallP e key inp) s = (S (S (S n)), Ret (Ok (mkCs (mkBlock (S g) (S (S n))) 0 (s_len inp) (s_len inp))), s') /\
    loadN s' (mkBlock (S g) (S (S n))) 0 (s_len inp) = List.concat (map (modeSpec e (contents s key)) bs).
Proof.
  intros g n e key inp bs s Hk Kn In B E. unfold ecbCallP.
  assert (LI : s_len inp = (16 * List.length bs)%nat).
  { assert (Q := concat_blocks_len bs B). rewrite <- E in Q. unfold zlen, contents in Q. rewrite loadN_length in Q. lia. }
  assert (Z0 : negb (Z.of_nat (s_len inp) mod BlockSize =? 0) = false).
  { rewrite LI, Nat2Z.inj_mul. change (Z.of_nat 16) with BlockSize. rewrite Z.mul_comm, Z.mod_mul by discriminate. reflexivity. }
  rewrite Z0. destruct (alone_NewCipher g n key s Hk Kn) as (s1 & E1 & C1 & F1). rewrite alone_bind, E1. cbv iota. rewrite alone_alloc. cbv zeta. rewrite alone_bind.
  set (b := mkBlock (S g) (S (S n))) in *. set (c := mkCipherRef (mkBlock (S g) n) (mkBlock (S g) (S n))) in *.
  assert (NI : forall j, (j = n \/ j = S n \/ j = S (S n)) -> s_blk inp <> mkBlock (S g) j) by (intros j Hj Q; rewrite Q in In; cbn in In; specialize (In eq_refl); lia).
  set (s2 := fill s1 b (repeat 0 (s_len inp))).
  assert (C2 : cipherOf s2 c (contents s key)).
  { destruct C1 as [X1 X2]. split; [rewrite <- X1|rewrite <- X2]; apply load_ext; intros i _; apply fill_other; unfold b; cbn [blk cEnc cDec c]; intro Q; injection Q; lia. }
  replace (s_len inp / 16)%nat with (List.length bs) by (rewrite LI, Nat.mul_comm, Nat.div_mul by lia; reflexivity).
  destruct (alone_ecb g (S (S (S n))) e c (contents s key) (mkCs b 0 (s_len inp) (s_len inp)) inp bs 0 s2 C2) as (s' & R & L & F).
  - cbn. intro Q. injection Q. lia.
  - cbn. intro Q. injection Q. lia.
  - cbn [s_blk]. apply NI. auto.
  - exact B.
  - rewrite <- E. unfold contents. rewrite LI, Nat.add_0_r. apply load_ext. intros i _. unfold s2. rewrite fill_other by (apply NI; auto). apply F1; apply NI; auto.
  - exists s'. split.
    + replace (if e then EncryptP c else DecryptP c) with (cryptP (modeKeys e c)) by (destruct e; reflexivity). rewrite R. reflexivity.
    + rewrite LI. exact L.
Qed.
