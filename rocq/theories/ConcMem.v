(** Programs on a shared memory, running alone or in goroutines. Memory is divided into blocks of cells; a cell holds a
    byte, a word or a counter. Blocks of owner 0 exist before; what goroutine g makes has owner g + 1, so that the
    name of a new block depends on its goroutine only (Go programs cannot observe addresses). *)
From Coq Require Import ZArith List Lia Bool Arith.
From Verif Require Import GoBase.
Import ListNotations.
Open Scope Z_scope.

Record block := mkBlock { owner : nat; number : nat }.
Record loc := mkLoc { blk : block; idx : nat }.
Definition block_eqb (a b : block) : bool := Nat.eqb (owner a) (owner b) && Nat.eqb (number a) (number b).
Definition loc_eqb (a b : loc) : bool := block_eqb (blk a) (blk b) && Nat.eqb (idx a) (idx b).
Definition memory := loc -> Z.
Definition set (s : memory) (a : loc) (v : Z) : memory := fun b => if loc_eqb a b then v else s b.
Definition fill (s : memory) (b : block) (l : list Z) : memory := fun a => if block_eqb b (blk a) then nth (idx a) l 0 else s a.

Inductive prog (A : Type) : Type :=
  | Done (o : go A)
  | Alloc (l : list Z) (k : block -> prog A)          (* a new block with these contents *)
  | Rd (a : loc) (k : Z -> prog A)
  | Wr (a : loc) (v : Z) (k : prog A).
Arguments Done {A}. Arguments Alloc {A}. Arguments Rd {A}. Arguments Wr {A}.
Definition ret {A} (a : A) : prog A := Done (Ret a).
Definition panic {A} (e : panic_kind) : prog A := Done (Panic e).
Fixpoint bindc {A B} (m : prog A) (k : A -> prog B) : prog B :=
  match m with
  | Done (Ret a) => k a
  | Done (Panic e) => Done (Panic e)
  | Alloc l f => Alloc l (fun b => bindc (f b) k)
  | Rd a f => Rd a (fun v => bindc (f v) k)
  | Wr a v f => Wr a v (bindc f k)
  end.
Notation "'par' x <- e ; f" := (bindc e (fun x => f)) (at level 200, x pattern, e at level 100, f at level 200, right associativity).
Definition rd (a : loc) : prog Z := Rd a ret.
Definition wr (a : loc) (v : Z) : prog unit := Wr a v (ret tt).

(** Goroutine [g] without others, having made [n] blocks: how many it has made in the end, the outcome, the memory. *)
Fixpoint alone {A} (g n : nat) (m : prog A) (s : memory) : nat * go A * memory :=
  match m with
  | Done o => (n, o, s)
  | Alloc l k => alone g (S n) (k (mkBlock (S g) n)) (fill s (mkBlock (S g) n) l)
  | Rd a k => alone g n (k (s a)) s
  | Wr a v k => alone g n k (set s a v)
  end.

(** Goroutines: what is left to do, and the number of blocks made. A step is one access. *)
Record thread (A : Type) := mkThread { code : prog A; made : nat }.
Arguments mkThread {A}. Arguments code {A}. Arguments made {A}.
Inductive access := RdA (a : loc) | WrA (a : loc) | NewA (b : block).
Definition step {A} (g : nat) (t : thread A) (s : memory) : option (access * thread A * memory) :=
  match code t with
  | Done _ => None
  | Alloc l k => let b := mkBlock (S g) (made t) in Some (NewA b, mkThread (k b) (S (made t)), fill s b l)
  | Rd a k => Some (RdA a, mkThread (k (s a)) (made t), s)
  | Wr a v k => Some (WrA a, mkThread k (made t), set s a v)
  end.
(** The schedule lists whose turn it is; who is finished or does not exist lets it pass. *)
Fixpoint interleave {A} (sched : list nat) (s : memory) (ts : list (thread A)) : list (nat * access) * memory * list (thread A) :=
  match sched with
  | [] => ([], s, ts)
  | g :: sched =>
      match nth_error ts g with
      | None => interleave sched s ts
      | Some t =>
          match step g t s with
          | None => interleave sched s ts
          | Some (a, t', s') => let '(tr, sf, tf) := interleave sched s' (upd ts g t') in ((g, a) :: tr, sf, tf)
          end
      end
  end.
Definition start {A} (ms : list (prog A)) : list (thread A) := map (fun m => mkThread m 0) ms.

(** * Lemmas *)
Lemma block_eqb_iff : forall a b, block_eqb a b = true <-> a = b.
Proof.
  intros [a1 a2] [b1 b2]. unfold block_eqb. cbn. rewrite andb_true_iff, !Nat.eqb_eq. split; [intros [-> ->]; reflexivity|intro H; injection H; auto].
Qed.
Lemma loc_eqb_iff : forall a b, loc_eqb a b = true <-> a = b.
Proof.
  intros [a1 a2] [b1 b2]. unfold loc_eqb. cbn. rewrite andb_true_iff, block_eqb_iff, Nat.eqb_eq. split; [intros [-> ->]; reflexivity|intro H; injection H; auto].
Qed.
Lemma set_same : forall s a v, set s a v a = v.
Proof. intros s a v. unfold set. rewrite (proj2 (loc_eqb_iff a a) eq_refl). reflexivity. Qed.
Lemma set_other : forall s a v b, a <> b -> set s a v b = s b.
Proof. intros s a v b H. unfold set. destruct (loc_eqb a b) eqn:E; [apply loc_eqb_iff in E; contradiction|reflexivity]. Qed.
Lemma fill_same : forall s b l i, fill s b l (mkLoc b i) = nth i l 0.
Proof. intros s b l i. unfold fill. cbn. rewrite (proj2 (block_eqb_iff b b) eq_refl). reflexivity. Qed.
Lemma fill_other : forall s b l a, blk a <> b -> fill s b l a = s a.
Proof. intros s b l a H. unfold fill. destruct (block_eqb b (blk a)) eqn:E; [apply block_eqb_iff in E; symmetry in E; contradiction|reflexivity]. Qed.

Lemma alone_bind : forall A B g (m : prog A) (k : A -> prog B) n s,
  alone g n (bindc m k) s = match alone g n m s with (n', Ret a, s') => alone g n' (k a) s' | (n', Panic e, s') => (n', Panic e, s') end.
Proof.
  intros A B g m k. induction m as [[a|e]|l f IH|a f IH|a v f IH]; intros n s; cbn [bindc alone]; try reflexivity; apply IH || apply (IH _).
Qed.

(** * Programs that keep to their memory *)
Definition mine (g : nat) (a : loc) : Prop := owner (blk a) = S g.
(** Reads and writes of what was there before are in [R] and [W]. *)
Fixpoint inside {A} (g : nat) (R W : loc -> Prop) (m : prog A) : Prop :=
  match m with
  | Done _ => True
  | Alloc _ k => forall n, inside g R W (k (mkBlock (S g) n))
  | Rd a k => (R a \/ W a \/ mine g a) /\ forall v, inside g R W (k v)
  | Wr a _ k => (W a \/ mine g a) /\ inside g R W k
  end.
(** All that a program may depend on. *)
Definition sees (g : nat) (R W : loc -> Prop) (a : loc) : Prop := R a \/ W a \/ mine g a.

Lemma inside_bind : forall A B g R W (m : prog A) (k : A -> prog B), inside g R W m -> (forall a, inside g R W (k a)) -> inside g R W (bindc m k).
Proof.
  intros A B g R W m k. induction m as [[a|e]|l f IH|a f IH|a v f IH]; cbn [inside bindc]; intros H K; try exact I.
  - apply K.
  - intro n. apply IH; auto.
  - destruct H as [H1 H2]. split; [exact H1|]. intro v. apply IH; auto.
  - destruct H as [H1 H2]. split; [exact H1|]. apply IH; auto.
Qed.
(** What it returns, whatever it reads. *)
Fixpoint returns {A} (g : nat) (Q : A -> Prop) (m : prog A) : Prop :=
  match m with
  | Done (Ret a) => Q a
  | Done (Panic _) => True
  | Alloc _ k => forall n, returns g Q (k (mkBlock (S g) n))
  | Rd _ k => forall v, returns g Q (k v)
  | Wr _ _ k => returns g Q k
  end.
Lemma returns_bind : forall A B g Q Q' (m : prog A) (k : A -> prog B), returns g Q m -> (forall a, Q a -> returns g Q' (k a)) -> returns g Q' (bindc m k).
Proof.
  intros A B g Q Q' m k. induction m as [[a|e]|l f IH|a f IH|a v f IH]; cbn [returns bindc]; intros H K; auto.
Qed.
Lemma returns_any : forall A g (m : prog A), returns g (fun _ => True) m.
Proof. intros A g m. induction m as [[a|e]|l f IH|a f IH|a v f IH]; cbn [returns]; auto. Qed.
Lemma inside_bindQ : forall A B g R W Q (m : prog A) (k : A -> prog B), inside g R W m -> returns g Q m -> (forall a, Q a -> inside g R W (k a)) -> inside g R W (bindc m k).
Proof.
  intros A B g R W Q m k. induction m as [[a|e]|l f IH|a f IH|a v f IH]; cbn [inside returns bindc]; intros H P K; try exact I.
  - apply K, P.
  - intro n. apply IH; auto.
  - destruct H as [H1 H2]. split; [exact H1|]. intro v. apply IH; auto.
  - destruct H as [H1 H2]. split; [exact H1|]. apply IH; auto.
Qed.
Lemma inside_mono : forall A g (R W R' W' : loc -> Prop) (m : prog A), (forall a, R a -> R' a \/ W' a) -> (forall a, W a -> W' a) -> inside g R W m -> inside g R' W' m.
Proof.
  intros A g R W R' W' m HR HW. induction m as [o|l f IH|a f IH|a v f IH]; cbn [inside]; intro H; [exact I| | |].
  - intro n. apply IH, H.
  - destruct H as [H1 H2]. split; [|intro v; apply IH, H2]. destruct H1 as [H1|[H1|H1]]; [destruct (HR _ H1); auto|right; left; auto|auto].
  - destruct H as [H1 H2]. split; [|apply IH, H2]. destruct H1; auto.
Qed.
Lemma inside_rd : forall g R W a, sees g R W a -> inside g R W (rd a).
Proof. intros g R W a H. split; [exact H|]. intro v. exact I. Qed.
Lemma inside_wr : forall g R W a v, W a \/ mine g a -> inside g R W (wr a v).
Proof. intros g R W a v H. split; [exact H|exact I]. Qed.

(** What it does not see does not matter; what it may not write it does not write. *)
Lemma alone_ext : forall A g R W (m : prog A) n s s', inside g R W m -> (forall a, sees g R W a -> s a = s' a) ->
  fst (alone g n m s) = fst (alone g n m s') /\ forall a, sees g R W a -> snd (alone g n m s) a = snd (alone g n m s') a.
Proof.
  intros A g R W m. induction m as [o|l f IH|a f IH|a v f IH]; intros n s s' H E; cbn [alone inside] in *.
  - split; [reflexivity|exact E].
  - apply IH; [apply H|]. intros a Ha. unfold fill. destruct (block_eqb _ _); [reflexivity|apply E, Ha].
  - destruct H as [H1 H2]. rewrite (E a H1). apply IH; [apply H2|exact E].
  - destruct H as [H1 H2]. apply IH; [exact H2|]. intros b Hb. unfold set. destruct (loc_eqb _ _); [reflexivity|apply E, Hb].
Qed.
Lemma alone_frame : forall A g R W (m : prog A) n s a, inside g R W m -> ~ W a -> ~ mine g a -> snd (alone g n m s) a = s a.
Proof.
  intros A g R W m. induction m as [o|l f IH|b f IH|b v f IH]; intros n s a H NW NM; cbn [alone inside] in *.
  - reflexivity.
  - rewrite IH by auto. apply fill_other. intros E. apply NM. unfold mine. rewrite E. reflexivity.
  - apply IH; [apply H|exact NW|exact NM].
  - destruct H as [H1 H2]. rewrite IH by auto. apply set_other. intros ->. destruct H1; contradiction.
Qed.

(** * Ending: enough turns finish a program *)
Fixpoint turns {A} (g n : nat) (m : prog A) (s : memory) : nat :=
  match m with
  | Done _ => O
  | Alloc l k => S (turns g (S n) (k (mkBlock (S g) n)) (fill s (mkBlock (S g) n) l))
  | Rd a k => S (turns g n (k (s a)) s)
  | Wr a v k => S (turns g n k (set s a v))
  end.
Lemma turns_ext : forall A g R W (m : prog A) n s s', inside g R W m -> (forall a, sees g R W a -> s a = s' a) -> turns g n m s = turns g n m s'.
Proof.
  intros A g R W m. induction m as [o|l f IH|a f IH|a v f IH]; intros n s s' H E; cbn [turns inside] in *.
  - reflexivity.
  - f_equal. apply IH; [apply H|]. intros a Ha. unfold fill. destruct (block_eqb _ _); [reflexivity|apply E, Ha].
  - destruct H as [H1 H2]. rewrite (E a H1). f_equal. apply IH; [apply H2|exact E].
  - destruct H as [H1 H2]. f_equal. apply IH; [exact H2|]. intros b Hb. unfold set. destruct (loc_eqb _ _); [reflexivity|apply E, Hb].
Qed.

(** * Goroutines that keep to memory of their own or that nobody writes *)
Lemma nth_error_upd : forall A (l : list A) p q x, (p < List.length l)%nat -> nth_error (upd l p x) q = if Nat.eq_dec p q then Some x else nth_error l q.
Proof.
  intros A l. induction l as [|y l IH]; intros p q x H; [cbn in H; lia|].
  destruct p as [|p], q as [|q]; cbn [List.length upd nth_error] in *; try reflexivity.
  rewrite IH by lia. destruct (Nat.eq_dec p q), (Nat.eq_dec (S p) (S q)); lia || reflexivity.
Qed.
Section World.
Variable A : Type.
Variables R W : nat -> loc -> Prop.
Hypothesis shared : forall g a, R g a \/ W g a -> owner (blk a) = O.
Hypothesis apart : forall g h a, g <> h -> W g a -> ~ R h a /\ ~ W h a.
Variable ms : list (prog A).
Hypothesis ins : forall g m, nth_error ms g = Some m -> inside g (R g) (W g) m.
Variable s0 : memory.

Definition world (s : memory) (ts : list (thread A)) : Prop :=
  List.length ts = List.length ms /\
  (forall g t, nth_error ts g = Some t -> inside g (R g) (W g) (code t) /\
     exists m, nth_error ms g = Some m /\
     fst (alone g (made t) (code t) s) = fst (alone g 0 m s0) /\
     forall a, sees g (R g) (W g) a -> snd (alone g (made t) (code t) s) a = snd (alone g 0 m s0) a) /\
  (forall a, owner (blk a) = O -> (forall g, (g < List.length ms)%nat -> ~ W g a) -> s a = s0 a).
Lemma world_start : world s0 (start ms).
Proof.
  split; [apply map_length|]. split.
  - intros g t H. unfold start in H. rewrite nth_error_map in H. destruct (nth_error ms g) as [m|] eqn:E; [|discriminate H]. cbn in H. injection H as <-. cbn.
    split; [apply ins, E|]. exists m. auto.
  - auto.
Qed.
(** What a goroutine may write is not seen by another. *)
Lemma unseen : forall g h a, g <> h -> W g a \/ mine g a -> ~ sees h (R h) (W h) a.
Proof.
  intros g h a N H S. destruct H as [H|H].
  - destruct (apart g h a N H) as [H1 H2]. destruct S as [S|[S|S]]; try contradiction. assert (E := shared g a (or_intror H)). unfold mine in S. lia.
  - unfold mine in H. destruct S as [S|[S|S]]; [assert (E := shared h a (or_introl S)); lia|assert (E := shared h a (or_intror S)); lia|unfold mine in S; lia].
Qed.
(** What an access touches, and whether it writes. *)
Definition touches (x : access) (a : loc) : Prop := match x with RdA b | WrA b => a = b | NewA b => blk a = b end.
Definition writes (x : access) : Prop := match x with RdA _ => False | _ => True end.
Definition lawful (g : nat) (x : access) : Prop :=
  forall a, touches x a -> sees g (R g) (W g) a /\ (writes x -> W g a \/ mine g a).
Lemma step_ok : forall s ts g t x t' s', world s ts -> nth_error ts g = Some t -> step g t s = Some (x, t', s') ->
  world s' (upd ts g t') /\ lawful g x /\ forall a, ~ (W g a \/ mine g a) -> s' a = s a.
Proof.
  intros s ts g t x t' s' (L & T & F) E S.
  assert (Lg : (g < List.length ts)%nat) by (apply nth_error_Some; rewrite E; discriminate).
  destruct (T g t E) as (I & m & Em & E1 & E2).
  assert (X : inside g (R g) (W g) (code t') /\ alone g (made t') (code t') s' = alone g (made t) (code t) s /\ lawful g x /\
              forall a, ~ (W g a \/ mine g a) -> s' a = s a).
  { destruct t as [m1 n1]. unfold step in S. cbn [code made] in *. destruct m1 as [o|l k|a k|a v k]; [discriminate S| | |]; injection S as <- <- <-; cbn [code made inside alone] in *.
    - split; [apply I|]. split; [reflexivity|]. split.
      + intros a Ha. cbn in Ha. assert (M : mine g a) by (unfold mine; rewrite Ha; reflexivity). split; [right; right; exact M|]. intros _. right. exact M.
      + intros a N. apply fill_other. intros Ea. apply N. right. unfold mine. rewrite Ea. reflexivity.
    - destruct I as [I1 I2]. split; [apply I2|]. split; [reflexivity|]. split; [|reflexivity].
      intros b Hb. cbn in Hb. subst b. split; [exact I1|]. intros [].
    - destruct I as [I1 I2]. split; [exact I2|]. split; [reflexivity|]. split.
      + intros b Hb. cbn in Hb. subst b. split; [right; destruct I1; auto|]. auto.
      + intros b N. apply set_other. intros ->. apply N. exact I1. }
  destruct X as (X1 & X2 & X3 & X4). split; [|split; [exact X3|exact X4]]. split; [|split].
  - rewrite <- L. apply upd_length.
  - intros h th Eh. rewrite nth_error_upd in Eh by exact Lg. destruct (Nat.eq_dec g h) as [<-|N].
    + injection Eh as <-. split; [exact X1|]. exists m. rewrite X2. auto.
    + destruct (T h th Eh) as (J & mh & Emh & J1 & J2). split; [exact J|]. exists mh. split; [exact Emh|].
      assert (Same : forall a, sees h (R h) (W h) a -> s' a = s a).
      { intros a Ha. apply X4. intro Q. exact (unseen g h a N Q Ha). }
      destruct (alone_ext A h (R h) (W h) (code th) (made th) s' s J Same) as [K1 K2].
      split; [rewrite K1; exact J1|]. intros a Ha. rewrite K2 by exact Ha. apply J2, Ha.
  - intros a O N. rewrite X4; [apply F; [exact O|exact N]|]. intros [H|H]; [apply (N g); [lia|exact H]|unfold mine in H; lia].
Qed.
Lemma interleave_ok : forall sched s ts tr sf tf, world s ts -> interleave sched s ts = (tr, sf, tf) ->
  world sf tf /\ forall g x, In (g, x) tr -> lawful g x /\ (g < List.length ms)%nat.
Proof.
  induction sched as [|g sched IH]; intros s ts tr sf tf H E; cbn [interleave] in E.
  - injection E as <- <- <-. split; [exact H|]. intros g x [].
  - destruct (nth_error ts g) as [t|] eqn:Et; [|eapply IH; eassumption].
    destruct (step g t s) as [[[x t'] s']|] eqn:Es; [|eapply IH; eassumption].
    destruct (interleave sched s' (upd ts g t')) as [[tr1 sf1] tf1] eqn:Ei. injection E as <- <- <-.
    destruct (step_ok s ts g t x t' s' H Et Es) as (H1 & H2 & _). destruct (IH s' _ tr1 sf1 tf1 H1 Ei) as [H3 H4].
    split; [exact H3|]. intros h y [Q|Q]; [|apply H4, Q]. injection Q as <- <-. split; [exact H2|].
    destruct H as [L _]. rewrite <- L. apply nth_error_Some. rewrite Et. discriminate.
Qed.
Lemma finishing : forall sched s ts tr sf tf g t, world s ts -> interleave sched s ts = (tr, sf, tf) -> nth_error ts g = Some t ->
  (turns g (made t) (code t) s <= count_occ Nat.eq_dec sched g)%nat -> exists n o, nth_error tf g = Some (mkThread (Done o) n).
Proof.
  induction sched as [|h sched IH]; intros s ts tr sf tf g t H E Eg C; cbn [interleave count_occ] in E, C.
  - injection E as <- <- <-. destruct t as [[o|l k|a k|a v k] n]; cbn [turns code made] in C; [|lia|lia|lia]. exists n, o. exact Eg.
  - destruct (nth_error ts h) as [th|] eqn:Eh.
    2: { destruct (Nat.eq_dec h g) as [->|N]; [congruence|]. exact (IH s ts tr sf tf g t H E Eg C). }
    destruct (step h th s) as [[[x t'] s']|] eqn:Es.
    + destruct (interleave sched s' (upd ts h t')) as [[tr1 sf1] tf1] eqn:Ei. injection E as <- <- <-.
      destruct (step_ok s ts h th x t' s' H Eh Es) as (H1 & _ & H2).
      assert (Lh : (h < List.length ts)%nat) by (apply nth_error_Some; rewrite Eh; discriminate).
      destruct (Nat.eq_dec h g) as [->|N].
      * assert (th = t) as -> by congruence. apply (IH s' (upd ts g t') tr1 sf1 tf1 g t' H1 Ei).
        { rewrite nth_error_upd by exact Lh. destruct (Nat.eq_dec g g); [reflexivity|contradiction]. }
        destruct t as [[o|l k|a k|a v k] n]; unfold step in Es; cbn [code made turns] in *; [discriminate Es| | |]; injection Es as <- <- <-; cbn [code made turns] in *; lia.
      * apply (IH s' (upd ts h t') tr1 sf1 tf1 g t H1 Ei).
        { rewrite nth_error_upd by exact Lh. destruct (Nat.eq_dec h g); [contradiction|exact Eg]. }
        destruct H as (_ & T & _). destruct (T g t Eg) as (I & _).
        rewrite (turns_ext A g (R g) (W g) (code t) (made t) s' s I); [exact C|].
        intros a Ha. apply H2. intro Q. exact (unseen h g a N Q Ha).
    + destruct (Nat.eq_dec h g) as [->|N]; [|exact (IH s ts tr sf tf g t H E Eg C)].
      assert (th = t) as -> by congruence. apply (IH s ts tr sf tf g t H E Eg).
      destruct t as [[o|l k|a k|a v k] n]; unfold step in Es; cbn [code made turns] in *; [lia| | |]; discriminate Es.
Qed.
End World.

