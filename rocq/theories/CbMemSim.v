(** The builders of CbMem.v, on memory, do what those of CbBuilder.v do on one buffer. *)
From Coq Require Import ZArith List Lia Bool String.
From Verif Require Import GoBase CbString CbBuilder CbBuilderProofs CbBuilderFixed CbBuilderGen CbMem CbMemFrame.
Import ListNotations.
Open Scope Z_scope.

(** * Lists and cells *)
Definition get (m : list Z) (i : Z) : Z := nth (Z.to_nat i) m 0.
Lemma get_app1 : forall a b i, 0 <= i < zlen a -> get (a ++ b) i = get a i.
Proof. intros a b i H. unfold get. apply app_nth1. unfold zlen in H. lia. Qed.
Lemma get_app2 : forall a b i, zlen a <= i -> get (a ++ b) i = get b (i - zlen a).
Proof.
  intros a b i H. unfold get. rewrite app_nth2 by (unfold zlen in H; lia). f_equal. unfold zlen in *. lia.
Qed.
Lemma get_beyond : forall m i, zlen m <= i -> get m i = 0.
Proof. intros m i H. unfold get. apply nth_overflow. unfold zlen in H. lia. Qed.
Lemma get_firstn : forall m p i, 0 <= i < p -> get (firstn (Z.to_nat p) m) i = get m i.
Proof.
  intros m p i H. unfold get. rewrite <- (firstn_skipn (Z.to_nat p) m) at 2.
  destruct (Nat.lt_ge_cases (Z.to_nat i) (List.length (firstn (Z.to_nat p) m))) as [L|L].
  - rewrite app_nth1 by exact L. reflexivity.
  - assert (List.length m <= Z.to_nat i)%nat by (rewrite firstn_length in L; lia).
    rewrite (nth_overflow (firstn _ _)) by exact L. rewrite nth_overflow; [reflexivity|].
    rewrite firstn_skipn. exact H0.
Qed.
Lemma get_sub : forall m a n i, 0 <= a -> 0 <= i < n -> a + n <= zlen m -> get (sub m a (a + n)) i = get m (a + i).
Proof.
  intros m a n i Ha Hi Hn. unfold sub. replace (a + n - a) with n by lia.
  rewrite get_firstn by lia. unfold get.
  rewrite <- (firstn_skipn (Z.to_nat a) m) at 2. rewrite app_nth2; rewrite firstn_length; unfold zlen in Hn; [|lia].
  f_equal. lia.
Qed.
Lemma get_splice : forall m p l i, 0 <= p -> p + zlen l <= zlen m -> 0 <= i ->
  get (splice m p l) i = if (p <=? i) && (i <? p + zlen l) then get l (i - p) else get m i.
Proof.
  intros m p l i Hp Hl Hi. pose proof (zlen_nonneg _ l).
  destruct (splice_decomp _ m l p Hp Hl) as (a & b & c & E & La & Lb & ->). rewrite E.
  destruct (Z.leb_spec p i) as [H1|H1]; cbn [andb].
  - rewrite get_app2 by lia. rewrite La. destruct (Z.ltb_spec i (p + zlen l)) as [H2|H2].
    + rewrite get_app1 by lia. reflexivity.
    + rewrite get_app2 by lia. rewrite (get_app2 a) by lia. rewrite (get_app2 b) by lia. f_equal. lia.
  - rewrite !get_app1 by lia. reflexivity.
Qed.
Lemma zlen_content : forall h s, 0 <= s_len s -> zlen (content h s) = s_len s.
Proof. intros h s H. unfold zlen, content. rewrite map_length, seq_length. lia. Qed.
Lemma get_content : forall h s i, 0 <= i < s_len s -> get (content h s) i = cells h (s_arr s) (s_off s + i).
Proof.
  intros h s i H. unfold get, content.
  rewrite (nth_indep _ 0 (cells h (s_arr s) (s_off s + Z.of_nat 0))) by (rewrite map_length, seq_length; lia).
  rewrite (map_nth (fun i => cells h (s_arr s) (s_off s + Z.of_nat i))). rewrite seq_nth by lia. f_equal. lia.
Qed.
Lemma get_ext : forall a b, zlen a = zlen b -> (forall i, 0 <= i < zlen a -> get a i = get b i) -> a = b.
Proof.
  intros a b L H. apply (nth_ext a b 0 0); [unfold zlen in L; lia|]. intros n Hn.
  specialize (H (Z.of_nat n)). unfold get in H. rewrite Nat2Z.id in H. apply H. unfold zlen. lia.
Qed.
Lemma store_in : forall h a o l i, o <= i < o + zlen l -> cells (store h a o l) a i = get l (i - o).
Proof.
  intros h a o l i H. cbn [store cells]. rewrite Nat.eqb_refl. cbn [andb].
  destruct (Z.leb_spec o i), (Z.ltb_spec i (o + zlen l)); try lia. reflexivity.
Qed.
Lemma store_out : forall h a o l b i, b <> a \/ i < o \/ o + zlen l <= i -> cells (store h a o l) b i = cells h b i.
Proof.
  intros h a o l b i H. cbn [store cells]. destruct (Nat.eqb_spec b a) as [->|]; cbn [andb]; [|reflexivity].
  destruct (Z.leb_spec o i), (Z.ltb_spec i (o + zlen l)); try reflexivity. destruct H as [H|[H|H]]; [congruence|lia|lia].
Qed.
Lemma nth_error_upd' : forall A (l : list A) p q x y, nth_error l p = Some y -> nth_error (upd l p x) q = if Nat.eqb p q then Some x else nth_error l q.
Proof.
  intros A l. induction l as [|z l IH]; intros p q x y H; [destruct p; discriminate|].
  destruct p as [|p], q as [|q]; cbn [upd nth_error Nat.eqb] in *; try reflexivity. eapply IH; eauto.
Qed.
Lemma nth_error_upd_none : forall A (l : list A) p q x, p <> q -> nth_error (upd l p x) q = nth_error l q.
Proof.
  intros A l. induction l as [|z l IH]; intros p q x H; [destruct p; reflexivity|].
  destruct p as [|p], q as [|q]; cbn [upd nth_error]; try reflexivity; [congruence|]. apply IH. congruence.
Qed.

(** * Programs that CbBuilder.v can express *)
(** The cells between the length and the capacity of a slice. *)
Definition spareOf (s : slice) (a : nat) (i : Z) : Prop := a = s_arr s /\ s_off s + s_len s <= i < s_off s + s_cap s.
(** A program that names builders by nesting, at most [d] deep, and that does not recover. It appends only what was in the memory [h]
    and is not in the spare part of [buf]. *)
Fixpoint plain (h : heap) (buf : slice) (d : nat) (o : mop) : Prop :=
  let fix plains (d : nat) (l : list mop) : Prop := match l with [] => True | o :: l => plain h buf d o /\ plains d l end in
  match o with
  | MAdd (Lvl k) _ | MSetErr (Lvl k) _ | MBytes (Lvl k) => (k < d)%nat
  | MAddBytes (Lvl k) s => (k < d)%nat /\ (s_arr s < narr h)%nat /\ forall i, 0 <= i < s_len s -> ~ spareOf buf (s_arr s) (s_off s + i)
  | MLP (Lvl k) n body => (k < d)%nat /\ 1 <= n <= 4 /\ plains (S d) body
  | MASN1 (Lvl k) _ body => (k < d)%nat /\ plains (S d) body
  | MPanic (MP _) => True
  | _ => False
  end.
Definition plains (h : heap) (buf : slice) : nat -> list mop -> Prop :=
  fix plains (d : nat) (l : list mop) : Prop := match l with [] => True | o :: l => plain h buf d o /\ plains d l end.
(** The same program in CbBuilder.v; Bytes changes nothing. *)
Fixpoint lower (h : heap) (o : mop) : list op :=
  let fix lowers (l : list mop) : list op := match l with [] => [] | o :: l => lower h o ++ lowers l end in
  match o with
  | MAdd (Lvl k) l => [OAdd k l]
  | MAddBytes (Lvl k) s => [OAdd k (content h s)]
  | MSetErr (Lvl k) e => [OSetErr k e]
  | MLP (Lvl k) n body => [OLP k n (lowers body)]
  | MASN1 (Lvl k) t body => [OASN1 k t (lowers body)]
  | MPanic (MP (PBuildError e)) => [OPanicBuild e]
  | MPanic (MP k) => [OPanic k]
  | _ => []
  end.
Definition lowers (h : heap) : list mop -> list op :=
  fix lowers (l : list mop) : list op := match l with [] => [] | o :: l => lower h o ++ lowers l end.
Lemma lowers_cons : forall h o l, lowers h (o :: l) = lower h o ++ lowers h l.
Proof. reflexivity. Qed.

Lemma execs_app : forall a b st, execs (a ++ b) st = match execs a st with (st, None) => execs b st | r => r end.
Proof.
  induction a as [|o a IH]; intros b st; [reflexivity|]. cbn [app execs]. destruct (exec o st) as [st1 [p|]]; [reflexivity|apply IH].
Qed.
Lemma execs_one : forall o st, execs [o] st = exec o st.
Proof. intros o st. cbn [execs]. destruct (exec o st) as [st1 [p|]]; reflexivity. Qed.

Section Sim.
Variable grow : Z -> Z -> Z.
Variable fx : bool.                       (* fixed or growing *)
Variable h0 : heap.                       (* before *)
Variable a0 : nat.
Variables off0 len0 cap0 : Z.             (* the buffer given *)
Hypothesis a0_old : (a0 < narr h0)%nat.
Hypothesis len0_cap0 : 0 <= len0 <= cap0.

(** ** One slice and the buffer it stands for *)
Definition slice_ok (h : heap) (s : slice) : Prop :=
  (s_arr s = a0 /\ s_off s = off0 /\ s_cap s = cap0 /\ len0 <= s_len s <= cap0) \/
  ((narr h0 <= s_arr s < narr h)%nat /\ s_off s = 0 /\ s_len s <= s_cap s /\ cap0 < s_len s).
Definition data (h : heap) (m : list Z) (err : option string) (s : slice) : Prop :=
  if fx then (s_arr s = a0 /\ s_off s = off0 /\ s_cap s = cap0 /\ len0 <= s_len s <= cap0) /\
    zlen m = cap0 /\ forall i, 0 <= i < cap0 -> cells h a0 (off0 + i) = get m i
  else slice_ok h s /\ s_len s <= zlen m /\ (err = None -> forall i, 0 <= i < s_len s -> cells h (s_arr s) (s_off s + i) = get m i).
Definition wrote (m : list Z) (p : Z) (l : list Z) : list Z := if fx then splice m p l else firstn (Z.to_nat p) m ++ l.
(** What was there before is there still, but for the spare capacity. *)
Definition keep (h : heap) : Prop :=
  (narr h0 <= narr h)%nat /\
  forall a i, (a < narr h0)%nat -> ~ (a = a0 /\ off0 + len0 <= i < off0 + cap0) -> cells h a i = cells h0 a i.
(** Slices that end before [p] do not notice. *)
Definition carries (p : Z) (h : heap) (m : list Z) (h' : heap) (m' : list Z) : Prop :=
  (narr h <= narr h')%nat /\ forall err s, fx = true \/ s_len s <= p -> data h m err s -> data h' m' err s.
Definition same_rest (h h' : heap) : Prop := objs h' = objs h /\ flags h' = flags h /\ log h' = log h.

Lemma same_rest_trans : forall h h' h'', same_rest h h' -> same_rest h' h'' -> same_rest h h''.
Proof. intros h h' h'' (A & B & C) (D & E & F). repeat split; congruence. Qed.
Lemma carries_trans : forall p q h m h' m' h'' m'', carries p h m h' m' -> carries q h' m' h'' m'' -> p <= q -> carries p h m h'' m''.
Proof. intros p q h m h' m' h'' m'' [A B] [C D] L. split; [lia|]. intros err s S H. apply D; [destruct S; [left; assumption|right; lia]|]. apply B; auto. Qed.
Lemma carries_less : forall p q h m h' m', carries p h m h' m' -> q <= p -> carries q h m h' m'.
Proof. intros p q h m h' m' [A B] L. split; [exact A|]. intros err s S H. apply B; [destruct S; [left; assumption|right; lia]|exact H]. Qed.

Lemma data_len : forall h m err s, data h m err s -> len0 <= s_len s.
Proof.
  intros h m err s H. unfold data in H. destruct fx; [destruct H as ((_ & _ & _ & H) & _); lia|].
  destruct H as ([(_ & _ & _ & H)|(_ & _ & _ & H)] & _); lia.
Qed.
Lemma data_cap : forall h m err s, data h m err s -> s_len s <= s_cap s.
Proof.
  intros h m err s H. unfold data in H. destruct fx; [destruct H as ((_ & _ & E & H) & _); lia|].
  destruct H as ([(_ & _ & E & H)|(_ & _ & E & H)] & _); lia.
Qed.
Lemma data_mem : forall h m err s, data h m err s -> s_len s <= zlen m.
Proof.
  intros h m err s H. unfold data in H. destruct fx; [destruct H as ((_ & _ & E & H) & L & _); lia|]. apply H.
Qed.
Lemma data_err : forall h m err s, data h m None s -> data h m err s.
Proof.
  intros h m err s H. unfold data in *. destruct fx; [exact H|]. destruct H as (A & B & C). split; [exact A|]. split; [exact B|]. auto.
Qed.
Lemma data_bad : forall h m err e s, data h m err s -> data h m (Some e) s.
Proof.
  intros h m err e s H. unfold data in *. destruct fx; [exact H|]. destruct H as (A & B & _). split; [exact A|]. split; [exact B|]. discriminate.
Qed.
Lemma data_get : forall h m s i, data h m None s -> 0 <= i < s_len s -> cells h (s_arr s) (s_off s + i) = get m i.
Proof.
  intros h m s i H L. unfold data in H. destruct fx.
  - destruct H as ((A & B & _ & D) & _ & E). rewrite A, B. apply E. lia.
  - apply H; auto.
Qed.

(** Writing into what is shown. *)
Lemma store_sim : forall h m s p l, data h m None s -> len0 <= p -> p + zlen l <= s_len s ->
  let h' := store h (s_arr s) (s_off s + p) l in
  data h' (splice m p l) None s /\ carries p h m h' (splice m p l) /\ same_rest h h' /\ (keep h -> keep h').
Proof.
  intros h m s p l D P L h'. pose proof (zlen_nonneg _ l) as NL. pose proof (data_mem _ _ _ _ D) as LM.
  assert (LS : zlen (splice m p l) = zlen m) by (apply splice_length; lia).
  split; [|split; [|split; [split; [reflexivity|split; reflexivity]|]]].
  - unfold data in *. destruct fx.
    + destruct D as ((A & B & C & E) & F & G). split; [auto|]. split; [lia|]. intros i Hi. unfold h'. rewrite A, B.
      rewrite get_splice by lia. destruct (Z.leb_spec p i), (Z.ltb_spec i (p + zlen l)); cbn [andb].
      * rewrite store_in by lia. f_equal. lia.
      * rewrite store_out by lia. apply G. lia.
      * rewrite store_out by lia. apply G. lia.
      * rewrite store_out by lia. apply G. lia.
    + destruct D as (A & B & C). split; [exact A|]. split; [lia|]. intros _ i Hi. unfold h'.
      rewrite get_splice by lia. destruct (Z.leb_spec p i), (Z.ltb_spec i (p + zlen l)); cbn [andb].
      * rewrite store_in by lia. f_equal. lia.
      * rewrite store_out by lia. apply C; auto.
      * rewrite store_out by lia. apply C; auto.
      * rewrite store_out by lia. apply C; auto.
  - split; [cbn; lia|]. intros err t LT T. unfold data in *. destruct fx.
    + destruct D as ((A & B & C & E) & F & G). destruct T as (T & _). split; [exact T|]. split; [lia|]. intros i Hi. unfold h'. rewrite A, B.
      rewrite get_splice by lia. destruct (Z.leb_spec p i), (Z.ltb_spec i (p + zlen l)); cbn [andb].
      * rewrite store_in by lia. f_equal. lia.
      * rewrite store_out by lia. apply G. lia.
      * rewrite store_out by lia. apply G. lia.
      * rewrite store_out by lia. apply G. lia.
    + destruct LT as [LT|LT]; [discriminate|]. destruct D as (A & B & C). destruct T as (T & T2 & T3). split; [exact T|]. split; [lia|]. intros He i Hi.
      rewrite get_splice by lia. destruct (Z.leb_spec p i); [lia|]. cbn [andb]. unfold h'. rewrite store_out; [apply T3; auto|].
      destruct (Nat.eq_dec (s_arr t) (s_arr s)) as [EA|EA]; [|left; exact EA]. right. left.
      enough (s_off t = s_off s) by lia.
      destruct A as [(A1 & A2 & _)|(A1 & A2 & _)], T as [(U1 & U2 & _)|(U1 & U2 & _)]; lia.
  - intros [K1 K2]. split; [exact K1|]. intros a i Ha Hi. unfold h'. rewrite store_out; [apply K2; auto|].
    destruct (Nat.eq_dec a (s_arr s)) as [EA|EA]; [|left; exact EA]. right.
    assert (s_arr s = a0 /\ s_off s = off0 /\ s_len s <= cap0) as (Q1 & Q2 & Q3).
    { unfold data in D. destruct fx; [destruct D as ((Q1 & Q2 & _ & Q4) & _); lia|].
      destruct D as ([(Q1 & Q2 & _ & Q4)|(Q1 & _)] & _); lia. }
    destruct (Z.lt_ge_cases i (s_off s + p)) as [|G]; [left; lia|]. right. rewrite <- Z.nlt_ge. intro G2. apply Hi. split; [congruence|lia].
Qed.

(** append *)
Lemma append_sim : forall h m s l h' s', data h m None s -> keep h -> (fx = true -> s_len s + zlen l <= cap0) -> appendM grow h s l = (h', s') ->
  s_len s' = s_len s + zlen l /\ data h' (wrote m (s_len s) l) None s' /\ carries (s_len s) h m h' (wrote m (s_len s) l) /\ same_rest h h' /\ keep h'.
Proof.
  intros h m s l h' s' D K F E. pose proof (zlen_nonneg _ l) as NL. pose proof (data_mem _ _ _ _ D) as LM. pose proof (data_len _ _ _ _ D) as LL.
  unfold appendM in E. cbv zeta in E. unfold wrote.
  assert (LF : zlen (firstn (Z.to_nat (s_len s)) m) = s_len s) by (rewrite zlen_firstn; unfold zlen in LM; lia).
  assert (LW : zlen (firstn (Z.to_nat (s_len s)) m ++ l) = s_len s + zlen l) by (rewrite zlen_app; lia).
  assert (GW : forall i, 0 <= i < s_len s + zlen l -> get (firstn (Z.to_nat (s_len s)) m ++ l) i = if i <? s_len s then get m i else get l (i - s_len s)).
  { intros i Hi. destruct (Z.ltb_spec i (s_len s)); [rewrite get_app1 by lia; apply get_firstn; lia|]. rewrite get_app2 by lia. f_equal. lia. }
  destruct (Z.leb_spec (s_len s + zlen l) (s_cap s)) as [C|C]; injection E as <- <-.
  - split; [reflexivity|].
    assert (INC : forall i, 0 <= i -> i < s_len s + zlen l -> data h m None s -> cells (store h (s_arr s) (s_off s + s_len s) l) (s_arr s) (s_off s + i) = if i <? s_len s then get m i else get l (i - s_len s)).
    { intros i H1 H2 _. destruct (Z.ltb_spec i (s_len s)); [rewrite store_out by lia; apply data_get; auto; lia|].
      rewrite store_in by lia. f_equal. lia. }
    split; [|split; [|split; [split; [reflexivity|split; reflexivity]|]]].
    + unfold data in *. destruct fx.
      * specialize (F eq_refl). destruct D as ((A & B & C1 & E) & G & H). cbn [setLen s_arr s_off s_len s_cap]. split; [repeat split; lia|].
        split; [rewrite splice_length; lia|]. intros i Hi. rewrite get_splice by lia. rewrite A, B.
        destruct (Z.leb_spec (s_len s) i), (Z.ltb_spec i (s_len s + zlen l)); cbn [andb].
        -- rewrite store_in by lia. f_equal. lia.
        -- rewrite store_out by lia. apply H. lia.
        -- rewrite store_out by lia. apply H. lia.
        -- rewrite store_out by lia. apply H. lia.
      * pose proof D as (A & B & H). cbn [setLen s_arr s_off s_len s_cap]. split; [|split; [lia|]].
        -- destruct A as [(A1 & A2 & A3 & A4)|(A1 & A2 & A3 & A4)]; [left|right]; cbn [s_arr s_off s_len s_cap store narr]; unfold setLen; cbn [s_arr s_off s_len s_cap]; repeat split; lia.
        -- intros _ i Hi. rewrite GW by lia. apply INC; lia || exact D.
    + split; [cbn; lia|]. intros err t LT T. unfold data in *. destruct fx.
      * specialize (F eq_refl). destruct D as ((A & B & C1 & E) & G & H). destruct T as (T & _). split; [exact T|].
        split; [rewrite splice_length; lia|]. intros i Hi. rewrite get_splice by lia. rewrite A, B.
        destruct (Z.leb_spec (s_len s) i), (Z.ltb_spec i (s_len s + zlen l)); cbn [andb].
        -- rewrite store_in by lia. f_equal. lia.
        -- rewrite store_out by lia. apply H. lia.
        -- rewrite store_out by lia. apply H. lia.
        -- rewrite store_out by lia. apply H. lia.
      * destruct LT as [LT|LT]; [discriminate|]. destruct D as (A & B & H). destruct T as (T & T2 & T3). split; [exact T|]. split; [lia|]. intros He i Hi.
        rewrite GW by lia. destruct (Z.ltb_spec i (s_len s)); [|lia]. rewrite store_out; [apply T3; auto|].
        destruct (Nat.eq_dec (s_arr t) (s_arr s)) as [EA|EA]; [|left; exact EA]. right. left.
        enough (s_off t = s_off s) by lia.
        destruct A as [(A1 & A2 & _)|(A1 & A2 & _)], T as [(U1 & U2 & _)|(U1 & U2 & _)]; lia.
    + destruct K as [K1 K2]. split; [exact K1|]. intros a i Ha Hi. rewrite store_out; [apply K2; auto|].
      destruct (Nat.eq_dec a (s_arr s)) as [EA|EA]; [|left; exact EA]. right.
      assert (s_arr s = a0 /\ s_off s = off0 /\ s_cap s = cap0) as (Q1 & Q2 & Q3).
      { unfold data in D. destruct fx; [destruct D as ((Q1 & Q2 & Q3 & Q4) & _); auto|].
        destruct D as ([(Q1 & Q2 & Q3 & Q4)|(Q1 & _)] & _); [auto|lia]. }
      destruct (Z.lt_ge_cases i (s_off s + s_len s)) as [|G]; [left; lia|]. right. rewrite <- Z.nlt_ge. intro G2. apply Hi. split; [congruence|lia].
  - assert (NF : fx = false).
    { unfold data in D. destruct fx; [|reflexivity]. specialize (F eq_refl). destruct D as ((_ & _ & Q & _) & _). lia. }
    assert (AC : forall i, 0 <= i < s_len s + zlen l -> cells (alloc h (content h s ++ l)) (narr h) i = get (firstn (Z.to_nat (s_len s)) m ++ l) i).
    { intros i Hi. cbn [alloc cells]. rewrite Nat.eqb_refl. fold (get (content h s ++ l) i). rewrite GW by lia.
      destruct (Z.ltb_spec i (s_len s)).
      - rewrite get_app1 by (rewrite zlen_content; lia). rewrite get_content by lia. apply data_get; auto; lia.
      - rewrite get_app2 by (rewrite zlen_content; lia). rewrite zlen_content by lia. reflexivity. }
    assert (OLD : forall a i, (a < narr h)%nat -> cells (alloc h (content h s ++ l)) a i = cells h a i).
    { intros a i Ha. cbn [alloc cells]. destruct (Nat.eqb_spec a (narr h)); [lia|reflexivity]. }
    split; [reflexivity|]. rewrite NF. destruct K as [K1 K2].
    split; [|split; [|split; [split; [reflexivity|split; reflexivity]|]]].
    + unfold data in *. rewrite NF in *. destruct D as (A & B & H). cbn [s_arr s_off s_len s_cap]. split; [|split; [lia|]].
      * right. cbn [s_arr s_off s_len s_cap alloc narr]. split; [lia|]. split; [reflexivity|]. split; [lia|].
        destruct A as [(A1 & A2 & A3 & A4)|(A1 & A2 & A3 & A4)]; lia.
      * intros _ i Hi. rewrite Z.add_0_l. apply AC. lia.
    + split; [cbn; lia|]. intros err t LT T. destruct LT as [LT|LT]; [congruence|]. unfold data in *. rewrite NF in *. destruct T as (T & T2 & T3).
      assert (TA : (s_arr t < narr h)%nat) by (destruct T as [(U1 & _)|(U1 & _)]; lia).
      split; [|split; [lia|]].
      * destruct T as [(U1 & U2 & U3 & U4)|(U1 & U2 & U3 & U4)]; [left|right]; cbn [alloc narr]; repeat split; lia.
      * intros He i Hi. rewrite OLD by exact TA. rewrite GW by lia. destruct (Z.ltb_spec i (s_len s)); [|lia]. apply T3; auto.
    + split; [cbn [alloc narr]; lia|]. intros a i Ha Hi. rewrite OLD by lia. apply K2; auto.
Qed.
(** ** The builders under construction *)
Variable m00 : list Z.                     (* the array of a fixed builder *)
Definition inv (st : bstate) : Prop := if fx then confined m00 cap0 st else tidy st.
Lemma inv_closed : closed_inv inv.
Proof. unfold inv. destruct fx; [apply confined_closed|apply tidy_closed]. Qed.
Definition header (fo : option nat) (f : frame) (x : obj) : Prop :=
  o_err x = f_err f /\ o_fixed x = fx /\ o_off x = f_off f /\ o_pll x = f_pll f /\ o_asn1 x = f_asn1 f /\
  s_len (o_res x) = f_len f /\ o_flag x = fo.
(** A child starts where its parent ended; builders further out end before. *)
Definition above (f : frame) (fs : list frame) : Prop :=
  match fs with [] => True | _ :: r => len0 <= f_off f /\ (fx = true \/ Forall (fun g => f_len g <= f_off f) r) end.
Fixpoint chain (h : heap) (m : list Z) (fo : option nat) (fs : list frame) (env : list nat) (child : option nat) : Prop :=
  match fs, env with
  | [], [] => True
  | f :: fs, b :: env =>
      (exists x, nth_error (objs h) b = Some x /\ o_child x = child /\ header fo f x /\ data h m (f_err f) (o_res x)) /\
      Forall (fun c => (c < b)%nat) env /\ above f fs /\ chain h m fo fs env (Some b)
  | _, _ => False
  end.
Definition flag_ok (h : heap) (fo : option nat) (inc : bool) : Prop :=
  match fo with None => inc = false | Some f => nth_error (flags h) f = Some inc end.
Record R (st : bstate) (h : heap) (env : list nat) (inc : bool) (fo : option nat) : Prop := mkR {
  r_fixed : fixed st = fx;
  r_cap : fx = true -> b_cap st = cap0;
  r_inv : inv st;
  r_keep : keep h;
  r_flag : flag_ok h fo inc;
  r_chain : chain h (mem st) fo (frames st) env None }.

Lemma chain_length : forall h m fo fs env c, chain h m fo fs env c -> List.length fs = List.length env.
Proof.
  intros h m fo fs. induction fs as [|f fs IH]; intros [|b env] c H; cbn [chain] in H; try contradiction; [reflexivity|].
  destruct H as (_ & _ & _ & H). cbn [List.length]. f_equal. eapply IH; eauto.
Qed.
Lemma chain_put : forall h m fo n x fs env c, chain h m fo fs env c -> ~ In n env -> chain (putObj h n x) m fo fs env c.
Proof.
  intros h m fo n x fs. induction fs as [|f fs IH]; intros [|b env] c H N; cbn [chain] in *; try contradiction; [exact I|].
  destruct H as ((y & Y1 & Y2 & Y3 & Y4) & O & A & H). split; [|split; [exact O|split; [exact A|apply IH; [exact H|cbn in N; tauto]]]].
  exists y. cbn [putObj objs]. rewrite nth_error_upd_none by (cbn in N; intro; apply N; auto). auto.
Qed.
Lemma chain_carry : forall p h m fo h' m' fs env c, chain h m fo fs env c -> carries p h m h' m' -> (forall b, In b env -> nth_error (objs h') b = nth_error (objs h) b) ->
  (fx = true \/ Forall (fun f => f_len f <= p) fs) -> chain h' m' fo fs env c.
Proof.
  intros p h m fo h' m' fs. induction fs as [|f fs IH]; intros [|b env] c H C E N; cbn [chain] in *; try contradiction; [exact I|].
  destruct H as ((y & Y1 & Y2 & Y3 & Y4) & O & A & H). split; [|split; [exact O|split; [exact A|apply IH; auto; [intros; apply E; right; assumption|]]]].
  - exists y. rewrite E by (left; reflexivity). split; [exact Y1|]. split; [exact Y2|]. split; [exact Y3|]. apply C; [|exact Y4].
    destruct N as [N|N]; [left; exact N|right]. destruct Y3 as (_ & _ & _ & _ & _ & L & _). rewrite L. inversion N; subst; auto.
  - destruct N as [N|N]; [left; exact N|right]. inversion N; auto.
Qed.
Lemma chain_objs : forall h m fo h' fs env c, chain h m fo fs env c -> cells h' = cells h -> narr h' = narr h ->
  (forall b, In b env -> nth_error (objs h') b = nth_error (objs h) b) -> chain h' m fo fs env c.
Proof.
  intros h m fo h' fs. induction fs as [|f fs IH]; intros [|b env] c H E1 E2 E3; cbn [chain] in *; try contradiction; [exact I|].
  destruct H as ((y & Y1 & Y2 & Y3 & Y4) & O & A & H). split; [|split; [exact O|split; [exact A|apply IH; auto; intros; apply E3; right; assumption]]].
  exists y. rewrite E3 by (left; reflexivity). split; [exact Y1|]. split; [exact Y2|]. split; [exact Y3|].
  unfold data, slice_ok in *. rewrite E1, E2. exact Y4.
Qed.
Lemma chain_nth : forall h m fo fs env c k b, chain h m fo fs env c -> nth_error env k = Some b ->
  exists f x, nth_error fs k = Some f /\ nth_error (objs h) b = Some x /\ header fo f x /\ data h m (f_err f) (o_res x) /\
    (match k with O => o_child x = c | S _ => o_child x <> None end).
Proof.
  intros h m fo fs. induction fs as [|f fs IH]; intros [|b' env] c k b H E; cbn [chain] in H; try contradiction; [destruct k; discriminate|].
  destruct H as ((y & Y1 & Y2 & Y3 & Y4) & O & A & H). destruct k as [|k]; cbn [nth_error] in *.
  - injection E as ->. exists f, y. auto.
  - destruct (IH _ _ _ _ H E) as (f' & x & X1 & X2 & X3 & X4 & X5). exists f', x. split; [exact X1|]. split; [exact X2|]. split; [exact X3|]. split; [exact X4|].
    destruct k; [rewrite X5; discriminate|exact X5].
Qed.
Lemma chain_in : forall h m fo fs env c b, chain h m fo fs env c -> In b env -> (b < List.length (objs h))%nat.
Proof.
  intros h m fo fs env c b H N. apply In_nth_error in N. destruct N as [k N].
  destruct (chain_nth _ _ _ _ _ _ _ _ H N) as (f & x & _ & X & _). apply nth_error_Some. congruence.
Qed.
(** Setting an error. *)
Lemma chain_err : forall e h m fo fs env c k b f x, chain h m fo fs env c -> nth_error env k = Some b -> nth_error fs k = Some f ->
  nth_error (objs h) b = Some x -> chain (putObj h b (setErr x (Some e))) m fo (upd fs k (set_err f e)) env c.
Proof.
  intros e h m fo fs. induction fs as [|f' fs IH]; intros [|b' env] c k b f x H E1 E2 E3; cbn [chain] in H; try contradiction; [destruct k; discriminate|].
  destruct H as ((y & Y1 & Y2 & Y3 & Y4) & O & A & H). destruct k as [|k]; cbn [nth_error upd] in *.
  - injection E1 as ->. injection E2 as ->. assert (x = y) by congruence. subst y. cbn [chain].
    split; [|split; [exact O|split; [destruct fs; exact A|]]].
    + exists (setErr x (Some e)). split; [cbn [putObj objs]; rewrite (nth_error_upd' _ _ _ _ _ _ E3), Nat.eqb_refl; reflexivity|].
      split; [exact Y2|]. split.
      * destruct Y3 as (Y31 & Y32 & Y33 & Y34 & Y35 & Y36 & Y37). repeat split; assumption.
      * eapply data_bad. exact Y4.
    + apply chain_put; [exact H|]. intro N. rewrite Forall_forall in O. specialize (O _ N). lia.
  - cbn [chain]. split; [|split; [exact O|split]].
    + exists y. cbn [putObj objs]. rewrite (nth_error_upd' _ _ _ _ _ _ E3).
      destruct (Nat.eqb_spec b b') as [->|]; [|auto].
      exfalso. rewrite Forall_forall in O. specialize (O b' (nth_error_In _ _ E1)). lia.
    + unfold above in *. destruct fs as [|g fs]; [destruct k; discriminate|]. destruct k as [|k]; cbn [upd nth_error] in *; [exact A|].
      destruct A as [A1 [A2|A2]]; (split; [exact A1|]); [left; exact A2|right]. apply upd_Forall; [exact A2|]. cbn [set_err f_len].
      rewrite Forall_forall in A2. apply A2. eapply nth_error_In. exact E2.
    + eapply IH; eauto.
Qed.

Definition agree (p : option panic_kind) (q : option mpanic) : Prop := q = option_map MP p.

Lemma nested_le : forall fs f, nested (f :: fs) -> Forall (fun g => f_len g <= f_len f) fs.
Proof.
  induction fs as [|g fs IH]; intros f N; [constructor|]. destruct N as [N1 N2]. constructor; [exact N1|].
  eapply Forall_impl; [|apply IH; exact N2]. intros a Ha. cbn in *. lia.
Qed.
Lemma inv_bound : forall st f fs, inv st -> frames st = f :: fs -> fx = true \/ Forall (fun g => f_len g <= f_len f) fs.
Proof.
  intros st f fs H E. unfold inv in H. destruct fx; [left; reflexivity|right]. destruct H as (_ & _ & N). rewrite E in N. apply nested_le. exact N.
Qed.
Lemma inv_frame : forall st f, inv st -> In f (frames st) -> 0 <= f_off f /\ 0 <= f_pll f /\ 0 <= f_len f.
Proof.
  intros st f H N. unfold inv in H. destruct fx.
  - destruct H as (_ & _ & _ & _ & H). rewrite Forall_forall in H. specialize (H f N). unfold in_cap in H. lia.
  - destruct H as (_ & H & _). rewrite Forall_forall in H. specialize (H f N). unfold tidy_frame in H. lia.
Qed.

(** add *)
Lemma add_sim : forall st h env inc fo k b l, R st h env inc fo -> nth_error env k = Some b ->
  let '(st', p) := add st k l in let '(h', q) := addM grow h b l in agree p q /\ R st' h' env inc fo.
Proof.
  intros st h env inc fo k b l H E. pose proof (ci_add _ inv_closed st k l (r_inv _ _ _ _ _ H)) as IV.
  pose proof H as [HF HC HI HK HL HCh].
  destruct (chain_nth _ _ _ _ _ _ _ _ HCh E) as (f & x & F1 & X1 & X2 & X3 & X4). pose proof X2 as (Q1 & Q2 & Q3 & Q4 & Q5 & Q6 & Q7).
  unfold add, addM in *. rewrite F1 in *. rewrite X1, Q1. destruct (f_err f) as [e|] eqn:Ef; [split; [reflexivity|exact H]|].
  destruct k as [|k]; cbn [Nat.eqb negb] in *; [|destruct (o_child x); [split; [reflexivity|exact H]|contradiction]].
  rewrite X4. rewrite HF in *. rewrite Q2.
  destruct env as [|b' env]; [discriminate|]. injection E as ->.
  destruct (frames st) as [|f' fs] eqn:Efr; [discriminate|]. injection F1 as ->.
  assert (CAP : fx = true -> s_cap (o_res x) = cap0) by (intro Fx; unfold data in X3; rewrite Fx in X3; apply X3).
  assert (TST : fx && (b_cap st <? f_len f + zlen l) = fx && (s_cap (o_res x) <? s_len (o_res x) + zlen l)).
  { rewrite Q6. destruct fx; [|reflexivity]. rewrite HC, CAP by reflexivity. reflexivity. }
  rewrite <- TST. destruct (fx && (b_cap st <? f_len f + zlen l)) eqn:ET.
  - split; [reflexivity|]. constructor; auto.
    cbn [put_frame set_frames mem frames]. rewrite Efr. eapply (chain_err _ _ _ _ _ _ _ 0%nat); eauto; reflexivity.
  - destruct (appendM grow h (o_res x) l) as [h' s'] eqn:EA.
    destruct (append_sim h (mem st) (o_res x) l h' s' X3 HK) as (A1 & A2 & A3 & (A4 & A5 & A6) & A7); [|exact EA|].
    { intro Fx. rewrite Fx in ET. cbn [andb] in ET. apply Z.ltb_ge in ET. rewrite HC in ET by exact Fx. lia. }
    split; [reflexivity|].
    assert (EW : write st (f_len f) l = wrote (mem st) (s_len (o_res x)) l) by (unfold write, wrote; rewrite HF, Q6; reflexivity).
    cbn [fst] in IV. constructor; auto.
    + unfold flag_ok in *. cbn [putObj flags]. rewrite A5. exact HL.
    + cbn [put_frame set_frames set_mem mem frames]. rewrite Efr. rewrite EW. cbn [upd chain].
      pose proof HCh as (_ & O & A & HT).
      split; [|split; [exact O|split]].
      * exists (setRes x s'). split; [cbn [putObj objs]; rewrite (nth_error_upd' _ _ _ _ _ x), Nat.eqb_refl; [reflexivity|rewrite A4; exact X1]|].
        split; [exact X4|]. split; [unfold header, setRes, set_len; cbn [o_err o_res o_fixed o_child o_off o_pll o_asn1 o_flag f_err f_len f_off f_pll f_asn1]; repeat split; congruence || lia|]. cbn [set_len f_err setRes o_res]. rewrite Ef. exact A2.
      * destruct fs; exact A.
      * apply chain_put; [|intro N; rewrite Forall_forall in O; specialize (O _ N); lia].
        eapply chain_carry; [exact HT|exact A3|intros; rewrite A4; reflexivity|]. rewrite Q6. apply (inv_bound st f fs HI Efr).
Qed.
Lemma data_any : forall h m err s, data h m err s -> fx = true \/ err = None -> data h m None s.
Proof. intros h m err s H E. unfold data in *. destruct fx; [exact H|]. destruct E as [E| ->]; [discriminate|exact H]. Qed.
(** In another memory, for a builder that has failed, or a fixed one. *)
Lemma data_swap : forall h m err s h' m' s' e, data h m err s -> data h' m' None s' -> (narr h <= narr h')%nat -> s_len s <= zlen m' ->
  fx = true \/ e <> None -> data h' m' e s.
Proof.
  intros h m err s h' m' s' e D D' N L E. unfold data in *. destruct fx.
  - destruct D as (D & _), D' as (_ & D1 & D2). auto.
  - destruct E as [E|E]; [discriminate|]. destruct D as (D & _). split; [|split; [exact L|intro; contradiction]].
    destruct D as [D|D]; [left; exact D|right]. destruct D as (D1 & D2). split; [lia|exact D2].
Qed.

Lemma setFlagPtr_id : forall x fl, o_flag x = Some fl -> x = setFlagPtr x fl.
Proof. intros [e r i c o p a f] fl H. cbn in H. subst f. reflexivity. Qed.

(** The state in which a continuation starts. *)
Lemma enter_sim : forall st h b env inc fo f fs k a, R st h (b :: env) inc fo -> frames st = f :: fs -> f_err f = None ->
  1 <= k <= 4 -> (a = true -> k = 1) -> (inc = false -> env = []) ->
  exists h1 h2 fo', enterM grow h b k a = (h1, None) /\ beginM h1 b = (h2, negb inc) /\
    R (enter st k a) h2 ((List.length (objs h1) - 1)%nat :: b :: env) true fo'.
Proof.
  intros st h b env inc fo f fs k a H Hfr He Hk Ha Hinc.
  pose proof (ci_enter _ inv_closed st k a f fs (r_inv _ _ _ _ _ H) Hfr He Hk Ha) as IV.
  pose proof (add_sim st h (b :: env) inc fo 0 b (repeat 0 (Z.to_nat k)) H eq_refl) as AS.
  pose proof H as [HF HC HI HK HL HCh]. rewrite Hfr in HCh. pose proof HCh as ((x & X1 & X2 & X3 & X4) & O & A & HT).
  pose proof X3 as (Q1 & Q2 & Q3 & Q4 & Q5 & Q6 & Q7).
  unfold enterM, enter in *. rewrite X1. rewrite Hfr in *.
  assert (AN : snd (add st 0 (repeat 0 (Z.to_nat k))) = None).
  { unfold add. rewrite Hfr. cbn [nth_error]. rewrite He. cbn [Nat.eqb negb]. destruct (fixed st && _); reflexivity. }
  assert (AF : exists f1, frames (fst (add st 0 (repeat 0 (Z.to_nat k)))) = f1 :: fs /\ (fx = true \/ f_err f1 = None) /\ f_len f <= f_len f1).
  { unfold add. rewrite Hfr. cbn [nth_error]. rewrite He. cbn [Nat.eqb negb]. rewrite HF. destruct fx; cbn [andb].
    - destruct (b_cap st <? f_len f + zlen (repeat 0 (Z.to_nat k))); cbn [fst put_frame set_mem set_frames frames]; rewrite Hfr; cbn [upd]; eexists; (split; [reflexivity|]);
        (split; [left; reflexivity|]); cbn [set_err set_len f_len]; rewrite ?zlen_repeat; lia.
    - cbn [fst put_frame set_mem set_frames frames]. rewrite Hfr. cbn [upd]. eexists. split; [reflexivity|]. split; [right; exact He|].
      cbn [set_len f_len]. rewrite zlen_repeat. lia. }
  destruct (add st 0 (repeat 0 (Z.to_nat k))) as [st1 p]. cbn [fst snd] in *. subst p.
  destruct AF as (f1 & AF1 & AF2 & AF3). rewrite AF1 in *.
  destruct (addM grow h b (repeat 0 (Z.to_nat k))) as [h1 q] eqn:EAM. destruct AS as [AG H1]. unfold agree in AG. cbn [option_map] in AG. subst q.
  pose proof (data_len _ _ _ _ X4) as XL. clear HCh X1 X2 X3 X4 HT. pose proof H1 as [HF1 HC1 HI1 HK1 HL1 HCh1]. rewrite AF1 in HCh1.
  pose proof HCh1 as ((x1 & X1 & X2 & X3 & X4) & O1 & A1 & HT1). rewrite X1.
  pose proof X3 as (W1 & W2 & W3 & W4 & W5 & W6 & W7).
  assert (BL : (b < List.length (objs h1))%nat) by (apply nth_error_Some; congruence).
  assert (EL : forall c, In c env -> (c < List.length (objs h1))%nat) by (intros c Hc; eapply chain_in; [exact HCh1|right; exact Hc]).
  (* whatever becomes of the flags *)
  assert (FIN : forall h2 h3 fl x2, cells h2 = cells h1 -> narr h2 = narr h1 -> objs h2 = objs h1 -> x2 = setFlagPtr x1 fl ->
    (env = [] \/ fo = Some fl) -> cells h3 = cells h2 -> narr h3 = narr h2 -> nth_error (flags h3) fl = Some true ->
    objs h3 = objs (newObj (putObj h2 b (setChild x2 (Some (List.length (objs h1))))) (mkObj None (o_res x2) (o_fixed x2) None (s_len (o_res x)) k a (o_flag x2))) ->
    R (set_frames st1 (mkFrame None (f_len f1) (f_len f) k a :: f1 :: fs)) h3 (List.length (objs h1) :: b :: env) true (Some fl)).
  { intros h2 h3 fl x2 E1 E2 E3 -> E4 E5 E6 E7 E8.
    assert (OB : forall n, n <> b -> (n < List.length (objs h1))%nat -> nth_error (objs h3) n = nth_error (objs h1) n).
    { intros n N1 N2. rewrite E8. cbn [newObj putObj objs]. rewrite nth_error_app1 by (rewrite upd_length, E3; exact N2).
      rewrite nth_error_upd_none by congruence. rewrite E3. reflexivity. }
    assert (OX : nth_error (objs h3) b = Some (setChild (setFlagPtr x1 fl) (Some (List.length (objs h1))))).
    { rewrite E8. cbn [newObj putObj objs]. rewrite nth_error_app1 by (rewrite upd_length, E3; exact BL).
      rewrite (nth_error_upd' _ _ _ _ _ x1), Nat.eqb_refl by (rewrite E3; exact X1). reflexivity. }
    assert (OC : nth_error (objs h3) (List.length (objs h1)) = Some (mkObj None (o_res x1) (o_fixed x1) None (s_len (o_res x)) k a (Some fl))).
    { rewrite E8. cbn [newObj putObj objs]. rewrite nth_error_app2 by (rewrite upd_length, E3; lia). rewrite upd_length, E3, Nat.sub_diag. reflexivity. }
    assert (DT : forall err s, data h1 (mem st1) err s -> data h3 (mem st1) err s).
    { intros err s D. unfold data, slice_ok in *. rewrite E5, E6, E1, E2. exact D. }
    constructor; auto.
    - destruct HK1 as [K1 K2]. split; [rewrite E6, E2; exact K1|]. rewrite E5, E1. exact K2.
    - cbn [set_frames frames mem chain]. split; [|split; [|split; [|split; [|split; [exact O1|split; [exact A1|]]]]]].
      + eexists. split; [exact OC|]. split; [reflexivity|]. split; [repeat split; auto|]. apply DT.
        cbn [f_err o_res]. eapply data_any; [exact X4|]. destruct AF2 as [AF2|AF2]; [left|right]; exact AF2.
      + constructor; [exact BL|]. apply Forall_forall. exact EL.
      + split; [|].
        * cbn [f_off]. rewrite <- Q6. exact XL.
        * cbn [f_off]. exact (inv_bound st f fs HI Hfr).
      + eexists. split; [exact OX|]. split; [reflexivity|]. split; [|apply DT; exact X4]. repeat split; auto.
      + destruct E4 as [->|E4].
        * destruct fs; [exact I|contradiction].
        * rewrite <- E4. eapply chain_objs; [exact HT1|congruence|congruence|]. intros c Hc. apply OB; [|apply EL; exact Hc].
          rewrite Forall_forall in O1. specialize (O1 c Hc). lia. }
  destruct (o_flag x1) as [fl|] eqn:EF.
  - rewrite <- W7 in *. unfold flag_ok in HL1. clear W7 Q7.
    set (h2 := newObj _ _). exists h2.
    assert (B1 : nth_error (objs h2) b = Some (setChild x1 (Some (List.length (objs h1))))).
    { unfold h2. cbn [newObj putObj objs]. rewrite nth_error_app1 by (rewrite upd_length; exact BL).
      rewrite (nth_error_upd' _ _ _ _ _ x1), Nat.eqb_refl by exact X1. reflexivity. }
    assert (B2 : (List.length (objs h2) - 1 = List.length (objs h1))%nat).
    { unfold h2. cbn [newObj putObj objs]. rewrite app_length, upd_length. cbn. lia. }
    rewrite B2. unfold beginM. rewrite B1. cbn [setChild o_flag]. rewrite EF.
    replace (flags h2) with (flags h1) by reflexivity. rewrite HL1. destruct inc; cbn [negb].
    + exists h2, (Some fl). split; [reflexivity|]. split; [reflexivity|]. apply (FIN h1 h2 fl x1); auto; apply setFlagPtr_id; exact EF.
    + exists (setFlag h2 fl true), (Some fl). split; [reflexivity|]. split; [reflexivity|].
      apply (FIN h1 (setFlag h2 fl true) fl x1); auto.
      * apply setFlagPtr_id; exact EF.
      * cbn [setFlag flags]. rewrite (nth_error_upd' _ _ _ _ _ false), Nat.eqb_refl; [reflexivity|exact HL1].
  - rewrite <- W7 in *. unfold flag_ok in HL1. subst inc. specialize (Hinc eq_refl). subst env. cbn [negb].
    set (h2 := newObj _ _). exists h2.
    assert (B1 : nth_error (objs h2) b = Some (setChild (setFlagPtr x1 (List.length (flags h1))) (Some (List.length (objs h1))))).
    { unfold h2. cbn [newObj putObj newFlag objs]. rewrite nth_error_app1 by (rewrite upd_length; exact BL).
      rewrite (nth_error_upd' _ _ _ _ _ x1), Nat.eqb_refl by exact X1. reflexivity. }
    assert (B2 : (List.length (objs h2) - 1 = List.length (objs h1))%nat).
    { unfold h2. cbn [newObj putObj newFlag objs]. rewrite app_length, upd_length. cbn. lia. }
    assert (B3 : nth_error (flags h2) (List.length (flags h1)) = Some false).
    { unfold h2. cbn [newObj putObj newFlag flags]. rewrite nth_error_app2 by lia. rewrite Nat.sub_diag. reflexivity. }
    rewrite B2. unfold beginM. rewrite B1. cbn [setChild setFlagPtr o_flag]. rewrite B3.
    eexists (setFlag h2 _ true), (Some (List.length (flags h1))). split; [reflexivity|]. split; [reflexivity|].
    apply (FIN (newFlag h1) (setFlag h2 (List.length (flags h1)) true) (List.length (flags h1)) (setFlagPtr x1 (List.length (flags h1)))); auto.
    cbn [setFlag flags]. rewrite (nth_error_upd' _ _ _ _ _ false), Nat.eqb_refl; [reflexivity|exact B3].
Qed.
Lemma putObj_data : forall h m err s n x, data (putObj h n x) m err s <-> data h m err s.
Proof. intros. reflexivity. Qed.

(** flushChild, without what it does to the child's own child *)
Lemma flush1_sim : forall st h c b env inc fo x, R st h (c :: b :: env) inc fo -> nth_error (objs h) b = Some x ->
  let '(st', p) := flush1 st in
  let '(h', q) := flushInto grow (putObj h b (setChild x None)) b c in
  agree p q /\ (p = None -> R st' h' (b :: env) inc fo).
Proof.
  intros st h c b env inc fo x H EX.
  pose proof (ci_flush _ inv_closed st (r_inv _ _ _ _ _ H)) as IV.
  pose proof H as [HF HC HI HK HL HCh].
  destruct (frames st) as [|fc [|fb fs]] eqn:Hfr; [contradiction|destruct HCh as (_ & _ & _ & []) |].
  destruct HCh as ((y & Y1 & Y2 & Y3 & Y4) & O1 & A1 & (x' & X1 & X2 & X3 & X4) & O2 & A2 & HT).
  assert (x' = x) by congruence. subst x'.
  pose proof Y3 as (P1 & P2 & P3 & P4 & P5 & P6 & P7). pose proof X3 as (Q1 & Q2 & Q3 & Q4 & Q5 & Q6 & Q7).
  destruct A1 as [A11 A12].
  destruct (inv_frame st fc HI) as (IC1 & IC2 & IC3); [rewrite Hfr; left; reflexivity|].
  assert (NBC : b <> c) by (inversion O1; lia).
  assert (NB : ~ In b env) by (intro N; rewrite Forall_forall in O2; specialize (O2 _ N); lia).
  assert (NC : ~ In c env) by (intro N; rewrite Forall_forall in O1; specialize (O1 c (or_intror N)); lia).
  assert (LB : fx = true \/ f_len fb <= f_len fc).
  { destruct (inv_bound st fc (fb :: fs) HI Hfr) as [B|B]; [left; exact B|right; inversion B; assumption]. }
  set (x1 := setChild x None). set (h1 := putObj h b x1).
  assert (G1 : nth_error (objs h1) b = Some x1) by (unfold h1; cbn [putObj objs]; rewrite (nth_error_upd' _ _ _ _ _ _ X1), Nat.eqb_refl; reflexivity).
  assert (G2 : nth_error (objs h1) c = Some y) by (unfold h1; cbn [putObj objs]; rewrite nth_error_upd_none by exact NBC; exact Y1).
  (* the stages in between *)
  set (Mid := fun (h2 : heap) (y2 : obj) (m2 : list Z) =>
    nth_error (objs h2) b = Some x1 /\ nth_error (objs h2) c = Some y2 /\ data h2 m2 None (o_res y2) /\ carries (f_off fc) h (mem st) h2 m2 /\
    keep h2 /\ flags h2 = flags h /\ (forall n, In n env -> nth_error (objs h2) n = nth_error (objs h) n) /\ f_len fc <= s_len (o_res y2)).
  assert (ERR : forall h2 y2 m2 e, Mid h2 y2 m2 -> inv (mkB m2 (fixed st) (b_cap st) (set_err fb e :: fs)) ->
    R (mkB m2 (fixed st) (b_cap st) (set_err fb e :: fs)) (putObj h2 b (setErr x1 (Some e))) (b :: env) inc fo).
  { intros h2 y2 m2 e (M1 & M2 & M3 & M4 & M5 & M6 & M7 & M8) IV2. constructor; auto.
    - unfold flag_ok in *. cbn [putObj flags]. rewrite M6. exact HL.
    - cbn [mem frames chain]. split; [|split; [exact O2|split; [exact A2|]]].
      + eexists. split; [cbn [putObj objs]; rewrite (nth_error_upd' _ _ _ _ _ _ M1), Nat.eqb_refl; reflexivity|].
        split; [reflexivity|]. split; [repeat split; auto|]. cbn [set_err f_err]. cbn [setErr x1 setChild o_res].
        eapply data_swap; [exact X4|exact M3|apply M4| |right; discriminate].
        pose proof (data_mem _ _ _ _ M3) as L1. pose proof (data_len _ _ _ _ X4). pose proof (data_mem _ _ _ _ X4).
        destruct LB as [Fx|LB]; [|lia].
        clear - Fx M3 X4. unfold data in *. rewrite Fx in *. destruct M3 as (_ & M3 & _), X4 as ((_ & _ & _ & X) & _). lia.
      + apply chain_put; [|exact NB]. eapply chain_carry; [exact HT|exact M4|exact M7|exact A12]. }
  assert (FIN : forall h2 y2 m2 n2, Mid h2 y2 m2 -> f_off fc <= o_off y2 -> 0 <= o_pll y2 -> (o_pll y2 = 0 -> o_off y2 <= s_len (o_res y2)) ->
     let '(st', p) := (if (0 <? o_pll y2) && (s_len (o_res y2) <? o_off y2 + o_pll y2) then (mkB m2 (fixed st) (b_cap st) (frames st), Some PIndex) else
             let st2 := set_mem (mkB m2 (fixed st) (b_cap st) (frames st)) (splice m2 (o_off y2) (be_enc (Z.to_nat (o_pll y2)) n2)) in
             if negb (Z.shiftr n2 (8 * o_pll y2) =? 0) then
               (set_frames st2 (set_err fb "cryptobyte: pending child length exceeds length prefix" :: fs), None)
             else (set_frames st2 ((if fixed st2 then fb else set_len fb (s_len (o_res y2))) :: fs), None)) in
     let '(h', q) := (match nth_error (objs h2) c with
              | None => (h2, Some (MP PNil))
              | Some y =>
                  let s := o_res y in
                  if (0 <? o_pll y) && (s_len s <? o_off y + o_pll y) then (h2, Some (MP PIndex)) else
                  let h := store h2 (s_arr s) (s_off s + o_off y) (be_enc (Z.to_nat (o_pll y)) n2) in
                  if negb (Z.shiftr n2 (8 * o_pll y) =? 0) then
                    (putObj h b (setErr x1 (Some "cryptobyte: pending child length exceeds length prefix"%string)), None)
                  else if o_fixed x1 then (h, None) else (putObj h b (setRes x1 s), None)
              end) in
     agree p q /\ (p = None -> inv st' -> R st' h' (b :: env) inc fo)).
  { intros h2 y2 m2 n2 (M1 & M2 & M3 & M4 & M5 & M6 & M7 & M8) L1 L2 L3. rewrite M2. cbv zeta.
    destruct ((0 <? o_pll y2) && (s_len (o_res y2) <? o_off y2 + o_pll y2)) eqn:ET; [split; [reflexivity|discriminate]|].
    assert (LW : o_off y2 + zlen (be_enc (Z.to_nat (o_pll y2)) n2) <= s_len (o_res y2)).
    { rewrite zlen_be_enc, Z2Nat.id by lia. apply andb_false_iff in ET. rewrite Z.ltb_ge, Z.ltb_ge in ET. lia. }
    destruct (store_sim h2 m2 (o_res y2) (o_off y2) (be_enc (Z.to_nat (o_pll y2)) n2) M3 ltac:(lia) LW) as (S1 & S2 & (S31 & S32 & S33) & S4).
    set (h3 := store h2 _ _ _) in *.
    assert (MID : Mid h3 y2 (splice m2 (o_off y2) (be_enc (Z.to_nat (o_pll y2)) n2))).
    { split; [rewrite S31; exact M1|]. split; [rewrite S31; exact M2|]. split; [exact S1|]. split; [eapply carries_trans; [exact M4|exact S2|exact L1]|].
      split; [apply S4; exact M5|]. split; [congruence|]. split; [intros n Hn; rewrite S31; apply M7; exact Hn|exact M8]. }
    destruct (negb (Z.shiftr n2 (8 * o_pll y2) =? 0)).
    - split; [reflexivity|]. intros _ IV2. exact (ERR h3 y2 _ _ MID IV2).
    - cbn [set_mem fixed]. unfold x1 at 1. cbn [setChild o_fixed]. rewrite Q2, HF.
      destruct MID as (N1 & N2 & N3 & N4 & N5 & N6 & N7 & N8).
      assert (TL : chain h3 (splice m2 (o_off y2) (be_enc (Z.to_nat (o_pll y2)) n2)) fo fs env (Some b))
        by (eapply chain_carry; [exact HT|exact N4|exact N7|exact A12]).
      assert (ZL : fx = true -> f_len fb <= zlen (splice m2 (o_off y2) (be_enc (Z.to_nat (o_pll y2)) n2))).
      { intro Fx. clear - Fx N3 X4 Q6. unfold data in *. rewrite Fx in *. destruct N3 as (_ & M3 & _), X4 as ((_ & _ & _ & X) & _). lia. }
      assert (Efx : fx = true \/ fx = false) by (destruct fx; auto). destruct Efx as [Efx|Efx]; rewrite Efx; cbv iota; (split; [reflexivity|]); intros _ IV2.
      + constructor; auto.
        * unfold flag_ok in *. rewrite N6. exact HL.
        * cbn [set_frames mem frames chain]. split; [|split; [exact O2|split; [exact A2|exact TL]]].
          exists x1. split; [exact N1|]. split; [reflexivity|]. split; [exact X3|].
          change (o_res x1) with (o_res x). eapply data_swap; [exact X4|exact N3|apply N4|rewrite Q6; apply ZL; exact Efx|left; exact Efx].
      + constructor; auto.
        * unfold flag_ok in *. cbn [putObj flags]. rewrite N6. exact HL.
        * cbn [set_frames mem frames chain]. split; [|split; [exact O2|split; [destruct fs; exact A2|]]].
          -- eexists. split; [cbn [putObj objs]; rewrite (nth_error_upd' _ _ _ _ _ _ N1), Nat.eqb_refl; reflexivity|].
             split; [reflexivity|]. split; [repeat split; auto|]. cbn [setRes o_res set_len f_err]. apply data_err. exact N3.
          -- apply chain_put; [exact TL|exact NB]. }
  assert (COMB : forall (A : outcome) (B : mout), (let '(st', p) := A in let '(h', q) := B in agree p q /\ (p = None -> inv st' -> R st' h' (b :: env) inc fo)) -> inv (fst A) ->
    (let '(st', p) := A in let '(h', q) := B in agree p q /\ (p = None -> R st' h' (b :: env) inc fo))).
  { intros [s1 p1] [h2 q1] [C1 C2] C3. split; [exact C1|]. intro E. exact (C2 E C3). }
  clear H. destruct st as [sm sf sc sfr]. cbn [mem fixed b_cap frames] in *. subst sfr.
  unfold flush1 in *. cbn [mem fixed b_cap frames set_mem] in *. unfold flushInto. rewrite G1, G2, P1, P3, P4, P5, P6.
  destruct (f_err fc) as [e|] eqn:Ec.
  { split; [reflexivity|]. intros _. constructor; auto. cbn [set_frames mem frames chain].
    split; [|split; [exact O2|split; [exact A2|]]].
    - eexists. split; [cbn [putObj objs]; rewrite (nth_error_upd' _ _ _ _ _ _ G1), Nat.eqb_refl; reflexivity|].
      split; [reflexivity|]. split; [repeat split; auto|]. cbn [set_err f_err]. eapply data_bad. exact X4.
    - apply chain_put; [|exact NB]. apply chain_put; [exact HT|exact NB]. }
  assert (M0 : Mid h1 y sm).
  { split; [exact G1|]. split; [exact G2|]. split; [exact Y4|]. split; [split; [cbn; lia|intros err s _ D; exact D]|]. split; [exact HK|].
    split; [reflexivity|]. split; [|lia]. intros n Hn. unfold h1. cbn [putObj objs]. rewrite nth_error_upd_none; [reflexivity|]. intros ->. exact (NB Hn). }
  assert (PUT : forall h2 y2 m2 y', Mid h2 y2 m2 -> o_res y' = o_res y2 -> Mid (putObj h2 c y') y' m2).
  { intros h2 y2 m2 y' (M1 & M2 & M3 & M4 & M5 & M6 & M7 & M8) E. unfold Mid. cbn [putObj objs flags]. rewrite E.
    split; [rewrite nth_error_upd_none by congruence; exact M1|]. split; [rewrite (nth_error_upd' _ _ _ _ _ _ M2), Nat.eqb_refl; reflexivity|].
    split; [exact M3|]. split; [exact M4|]. split; [exact M5|]. split; [exact M6|]. split; [|exact M8].
    intros n Hn. rewrite nth_error_upd_none; [apply M7; exact Hn|]. intros ->. exact (NC Hn). }
  set (n0 := f_len fc - f_pll fc - f_off fc) in *.
  destruct (Z.ltb_spec n0 0) as [|N0]; [split; [reflexivity|discriminate]|].
  destruct (f_asn1 fc).
  2:{ pose proof (FIN h1 y sm n0 M0) as F. rewrite P3, P4, P6 in F. specialize (F ltac:(lia) IC2 ltac:(lia)).
      exact (COMB _ _ F IV). }
  destruct (Z.eqb_spec (f_pll fc) 1) as [EP|EP]; cbn [negb] in *; [|split; [reflexivity|discriminate]].
  destruct (asn1LenBytes n0) as [[[ll lb] n1]|] eqn:EA; [|split; [reflexivity|]; intros _; exact (ERR h1 y sm _ M0 IV)].
  destruct (Z.leb_spec (f_len fc) (f_off fc)) as [LO|LO]; [split; [reflexivity|discriminate]|].
  assert (LL : 1 <= ll <= 5).
  { clear - EA. unfold asn1LenBytes in EA.
    repeat match type of EA with (if ?x then _ else _) = _ => destruct x end; try discriminate; injection EA as <- _ _; lia. }
  assert (M1 : Mid (store h1 (s_arr (o_res y)) (s_off (o_res y) + f_off fc) [lb]) y (splice sm (f_off fc) [lb])).
  { destruct M0 as (M1 & M2 & M3 & M4 & M5 & M6 & M7 & M8).
    destruct (store_sim h1 sm (o_res y) (f_off fc) [lb] M3 ltac:(lia)) as (S1 & S2 & (S31 & S32 & S33) & S4); [change (zlen [lb]) with 1; lia|].
    split; [exact M1|]. split; [exact M2|]. split; [exact S1|]. split; [eapply carries_trans; [exact M4|exact S2|lia]|]. split; [exact (S4 M5)|].
    split; [exact M6|]. split; [exact M7|exact M8]. }
  set (h2 := store h1 _ _ _) in *. set (m2 := splice sm (f_off fc) [lb]) in *.
  destruct (Z.eqb_spec (ll - 1) 0) as [E0|E0]; cbn [negb] in *.
  { pose proof (FIN (putObj h2 c (setPending y (f_off fc + 1) (ll - 1))) (setPending y (f_off fc + 1) (ll - 1)) m2 n1) as F.
    cbn [setPending o_off o_pll o_res] in F. rewrite P6 in F. refine (COMB _ _ (F _ _ _ _) IV); [|lia|lia|lia].
    apply (PUT _ _ _ _ M1). reflexivity. }
  unfold addM. pose proof M1 as (N1 & N2 & N3 & N4 & N5 & N6 & N7 & N8). rewrite N2, P1, Y2, P2, P6, zlen_repeat, Z2Nat.id by lia.
  assert (CAP : fx = true -> s_cap (o_res y) = cap0) by (intro Fx; clear - Fx Y4; unfold data in Y4; rewrite Fx in Y4; apply Y4).
  assert (TST : fx && (s_cap (o_res y) <? f_len fc + (ll - 1)) = sf && (sc <? f_len fc + (ll - 1))).
  { rewrite HF. destruct fx; [|reflexivity]. rewrite HC, CAP by reflexivity. reflexivity. }
  rewrite TST.
  assert (COPY : forall h3 y3 m3 n, Mid h3 y3 m3 -> n = s_len (o_res y3) - (f_off fc + 1 + (ll - 1)) -> 0 <= n ->
    Mid (store h3 (s_arr (o_res y3)) (s_off (o_res y3) + (f_off fc + 1) + (ll - 1)) (content h3 (mkSl (s_arr (o_res y3)) (s_off (o_res y3) + (f_off fc + 1)) n n)))
        y3 (splice m3 (f_off fc + 1 + (ll - 1)) (sub m3 (f_off fc + 1) (f_off fc + 1 + n)))).
  { intros h3 y3 m3 n (M1' & M2 & M3 & M4 & M5 & M6 & M7 & M8) En Hn. pose proof (data_mem _ _ _ _ M3) as LM.
    assert (EC : content h3 (mkSl (s_arr (o_res y3)) (s_off (o_res y3) + (f_off fc + 1)) n n) = sub m3 (f_off fc + 1) (f_off fc + 1 + n)).
    { apply get_ext; [rewrite zlen_content by (cbn; lia); cbn [s_len]; rewrite sub_length by lia; lia|].
      intros i Hi. rewrite zlen_content in Hi by (cbn; lia). cbn [s_len] in Hi. rewrite get_content by (cbn [s_len]; lia). cbn [s_arr s_off].
      rewrite get_sub by lia. rewrite <- Z.add_assoc. apply data_get; [exact M3|lia]. }
    rewrite EC. rewrite <- Z.add_assoc.
    destruct (store_sim h3 m3 (o_res y3) (f_off fc + 1 + (ll - 1)) (sub m3 (f_off fc + 1) (f_off fc + 1 + n)) M3 ltac:(lia)) as (S1 & S2 & (S31 & S32 & S33) & S4);
      [rewrite sub_length by lia; lia|].
    split; [exact M1'|]. split; [exact M2|]. split; [exact S1|]. split; [eapply carries_trans; [exact M4|exact S2|lia]|]. split; [exact (S4 M5)|].
    split; [exact M6|]. split; [exact M7|exact M8]. }
  destruct (sf && (sc <? f_len fc + (ll - 1))) eqn:ET.
  - set (y3 := setErr y _). set (h3 := putObj h2 c y3).
    assert (M2 : Mid h3 y3 m2) by (apply (PUT _ _ _ _ M1); reflexivity).
    pose proof M2 as (_ & M22 & _). rewrite M22.
    replace (s_len (o_res y3)) with (f_len fc) by (symmetry; exact P6). replace (o_off y3) with (f_off fc) by (symmetry; exact P3).
    replace (o_pll y3) with 1 by (cbn; congruence). rewrite EP in *.
    destruct (Z.ltb_spec (f_len fc) (f_off fc + 1 + (ll - 1))) as [L1|L1]; [split; [reflexivity|discriminate]|].
    pose proof (COPY h3 y3 m2 (f_len fc - (f_off fc + 1 + (ll - 1))) M2 ltac:(rewrite <- P6; reflexivity) ltac:(lia)) as MC.
    pose proof (PUT _ _ _ (setPending y3 (f_off fc + 1) (ll - 1)) MC eq_refl) as MD.
    pose proof (FIN _ _ _ n1 MD) as F. cbn [setPending o_off o_pll o_res] in F.
    replace (s_len (o_res y3)) with (f_len fc) in F by (symmetry; exact P6).
    exact (COMB _ _ (F ltac:(lia) ltac:(lia) ltac:(lia)) IV).
  - destruct (appendM grow h2 (o_res y) (repeat 0 (Z.to_nat (ll - 1)))) as [h3 s3] eqn:EAP.
    assert (ZR : zlen (repeat 0 (Z.to_nat (ll - 1))) = ll - 1) by (rewrite zlen_repeat; lia).
    destruct (append_sim h2 m2 (o_res y) (repeat 0 (Z.to_nat (ll - 1))) h3 s3 N3 N5) as (B1 & B2 & B3 & (B41 & B42 & B43) & B5); [|exact EAP|].
    { intro Fx. rewrite ZR. rewrite HF, Fx in ET. cbn [andb] in ET. apply Z.ltb_ge in ET. rewrite HC in ET by exact Fx. lia. }
    rewrite ZR, P6 in B1.
    set (y3 := setRes y s3). set (h4 := putObj h3 c y3).
    replace (write _ (f_len fc) _) with (wrote m2 (s_len (o_res y)) (repeat 0 (Z.to_nat (ll - 1)))) in *
      by (unfold write, wrote; cbn [fixed mem set_mem]; rewrite HF, P6; reflexivity).
    set (m4 := wrote m2 _ _) in *.
    assert (M2 : Mid h4 y3 m4).
    { unfold Mid. cbn [h4 putObj objs flags]. rewrite B41, B42.
      split; [rewrite nth_error_upd_none by congruence; exact N1|]. split; [rewrite (nth_error_upd' _ _ _ _ _ _ N2), Nat.eqb_refl; reflexivity|].
      split; [exact B2|]. split; [eapply carries_trans; [exact N4|exact B3|rewrite P6; lia]|]. split; [exact B5|]. split; [exact N6|].
      split; [|cbn [y3 setRes o_res]; lia]. intros n Hn. rewrite nth_error_upd_none; [apply N7; exact Hn|]. intros ->. exact (NC Hn). }
    pose proof M2 as (_ & M22 & _). rewrite M22.
    replace (s_len (o_res y3)) with (f_len fc + (ll - 1)) by (symmetry; exact B1). replace (o_off y3) with (f_off fc) by (symmetry; exact P3).
    replace (o_pll y3) with 1 by (cbn; congruence). rewrite EP in *.
    destruct (Z.ltb_spec (f_len fc + (ll - 1)) (f_off fc + 1 + (ll - 1))) as [L1|L1]; [split; [reflexivity|discriminate]|].
    pose proof (COPY h4 y3 m4 (f_len fc + (ll - 1) - (f_off fc + 1 + (ll - 1))) M2 ltac:(rewrite <- B1; reflexivity) ltac:(lia)) as MC.
    pose proof (PUT _ _ _ (setPending y3 (f_off fc + 1) (ll - 1)) MC eq_refl) as MD.
    pose proof (FIN _ _ _ n1 MD) as F. cbn [setPending o_off o_pll o_res] in F.
    replace (s_len (o_res y3)) with (f_len fc + (ll - 1)) in F by (symmetry; exact B1).
    exact (COMB _ _ (F ltac:(lia) ltac:(lia) ltac:(lia)) IV).
Qed.

Lemma chain_child : forall h m fo fs env c k b d x, chain h m fo fs env c -> nth_error env k = Some d -> nth_error env (S k) = Some b ->
  nth_error (objs h) b = Some x -> o_child x = Some d.
Proof.
  intros h m fo fs. induction fs as [|f fs IH]; intros [|b' env] c k b d x H E1 E2 E3; cbn [chain] in H; try contradiction; [destruct k; discriminate|].
  destruct H as (_ & _ & _ & H). cbn [nth_error] in E2. destruct k as [|k]; cbn [nth_error] in E1.
  - injection E1 as ->. destruct (chain_nth _ _ _ _ _ _ _ _ H E2) as (f' & x' & _ & X & _ & _ & C). congruence.
  - eapply IH; eauto.
Qed.
Lemma chain_size : forall h m fo fs b env c, chain h m fo fs (b :: env) c -> (List.length env <= b)%nat.
Proof.
  intros h m fo fs. induction fs as [|f fs IH]; intros b env c H; cbn [chain] in H; [contradiction|].
  destruct H as (_ & O & _ & H). destruct env as [|b' env]; cbn [List.length]; [lia|]. specialize (IH _ _ _ H). inversion O; subst. lia.
Qed.
Lemma chain_fuel : forall h m fo fs env c, chain h m fo fs env c -> (List.length env <= List.length (objs h))%nat.
Proof.
  intros h m fo fs env c H. destruct env as [|b env]; cbn [List.length]; [lia|]. pose proof (chain_size _ _ _ _ _ _ _ H).
  pose proof (chain_in _ _ _ _ _ _ b H (or_introl eq_refl)). lia.
Qed.

Lemma flush_snoc : forall n st, flush (S n) st = match flush n st with (st, None) => flush1 st | r => r end.
Proof.
  induction n as [|n IH]; intro st; [cbn [flush]; destruct (flush1 st) as [s [p|]]; reflexivity|].
  cbn [flush] in *. destruct (flush1 st) as [s [p|]]; [reflexivity|]. apply IH.
Qed.
(** flushChild *)
Lemma flush_sim : forall cs st h b env inc fo fuel, R st h (cs ++ b :: env) inc fo -> (List.length cs <= fuel)%nat ->
  let '(st', p) := flush (List.length cs) st in
  let '(h', q) := flushM grow fuel h b in
  agree p q /\ (p = None -> R st' h' (b :: env) inc fo) /\ (forall e, p <> Some (PBuildError e)).
Proof.
  intro cs. induction cs as [|c cs IH] using rev_ind; intros st h b env inc fo fuel H L.
  - cbn [app List.length flush] in *. pose proof (r_chain _ _ _ _ _ H) as HC.
    destruct (chain_nth _ _ _ _ _ _ 0%nat b HC eq_refl) as (f & x & _ & X1 & _ & _ & X2).
    destruct fuel; cbn [flushM]; rewrite X1, X2; (split; [reflexivity|]); (split; [intros _; exact H|discriminate]).
  - rewrite app_length in *. cbn [List.length] in *. replace (List.length cs + 1)%nat with (S (List.length cs)) in * by lia.
    destruct fuel as [|fuel]; [lia|]. rewrite flush_snoc. rewrite <- app_assoc in H. cbn [app] in H.
    pose proof (r_chain _ _ _ _ _ H) as HC.
    assert (E1 : nth_error (cs ++ c :: b :: env) (List.length cs) = Some c) by (rewrite nth_error_app2, Nat.sub_diag by lia; reflexivity).
    assert (E2 : nth_error (cs ++ c :: b :: env) (S (List.length cs)) = Some b)
      by (rewrite nth_error_app2 by lia; replace (S (List.length cs) - List.length cs)%nat with 1%nat by lia; reflexivity).
    destruct (chain_nth _ _ _ _ _ _ _ _ HC E2) as (f & x & _ & X1 & _).
    pose proof (chain_child _ _ _ _ _ _ _ _ _ _ HC E1 E2 X1) as X2.
    cbn [flushM]. rewrite X1, X2.
    specialize (IH st h c (b :: env) inc fo fuel H ltac:(lia)).
    destruct (flush (List.length cs) st) as [st1 p1]. destruct (flushM grow fuel h c) as [h1 q1]. destruct IH as (A & B & D). unfold agree in A. subst q1.
    destruct p1 as [p1|]; cbn [option_map]; [split; [reflexivity|]; split; [discriminate|exact D]|].
    specialize (B eq_refl). pose proof (r_chain _ _ _ _ _ B) as HC1.
    destruct (chain_nth _ _ _ _ _ _ 1%nat b HC1 eq_refl) as (f1 & x1 & _ & Y1 & _).
    rewrite Y1, (chain_child _ _ _ _ _ _ 0%nat b c x1 HC1 eq_refl eq_refl Y1).
    pose proof (flush1_sim _ _ _ _ _ _ _ _ B Y1) as F.
    assert (NB : forall e, snd (flush1 st1) <> Some (PBuildError e)).
    { clear. intro e. unfold flush1. destruct (frames st1) as [|fc [|fb fs]]; try discriminate. destruct (f_err fc); [discriminate|]. cbv zeta.
      destruct (_ <? 0); [discriminate|]. destruct (f_asn1 fc).
      - destruct (negb _); [discriminate|]. destruct (asn1LenBytes _) as [[[ll lb] n]|]; [|discriminate].
        destruct (_ <=? _); [discriminate|]. destruct (negb (ll - 1 =? 0)).
        + destruct (if _ && _ then _ else _) as [s cl]. destruct (_ <? _); [discriminate|].
          destruct (_ && _); [discriminate|]. destruct (negb _); discriminate.
        + destruct (_ && _); [discriminate|]. destruct (negb _); discriminate.
      - destruct (_ && _); [discriminate|]. destruct (negb _); discriminate. }
    destruct (flush1 st1) as [st2 p2]. destruct (flushInto grow _ b c) as [h2 q2]. destruct F as [F1 F2].
    split; [exact F1|]. split; [exact F2|exact NB].
Qed.

(** The error of the outermost builder. *)
Lemma root_sim : forall st h cs b inc fo e x, R st h (cs ++ [b]) inc fo -> nth_error (objs h) b = Some x ->
  R (set_root_err st e) (putObj h b (setErr x (Some e))) (cs ++ [b]) inc fo.
Proof.
  intros st h cs b inc fo e x H EX. pose proof (ci_root _ inv_closed st e (r_inv _ _ _ _ _ H)) as IV. destruct H as [HF HC HI HK HL HCh].
  pose proof (chain_length _ _ _ _ _ _ HCh) as LEN. rewrite app_length in LEN. cbn in LEN.
  destruct (snoc_or_nil _ (frames st)) as [E|(fs & r & E)]; [rewrite E in LEN; cbn in LEN; lia|].
  assert (LC : List.length fs = List.length cs) by (rewrite E, app_length in LEN; cbn in LEN; lia).
  assert (EF : frames (set_root_err st e) = upd (frames st) (List.length cs) (set_err r e)).
  { rewrite (set_root_frames st e fs r E), E, <- LC. clear. induction fs as [|f fs IH]; [reflexivity|]. cbn [List.length app upd]. rewrite <- IH. reflexivity. }
  assert (EM : set_root_err st e = set_frames st (frames (set_root_err st e))).
  { unfold set_root_err. destruct (rev (frames st)); [destruct st; reflexivity|reflexivity]. }
  rewrite EF in EM. rewrite EM in *. constructor; auto. cbn [set_frames mem frames].
  eapply chain_err; [exact HCh| | |exact EX].
  - rewrite nth_error_app2, Nat.sub_diag by lia. reflexivity.
  - rewrite E, <- LC. rewrite nth_error_app2, Nat.sub_diag by lia. reflexivity.
Qed.

Definition post (A : outcome) (B : mout) (env : list nat) (inc : bool) : Prop :=
  let '(st, p) := A in let '(h, q) := B in
  agree p q /\ (p = None -> exists fo, R st h env inc fo) /\ (forall e, p = Some (PBuildError e) -> exists ex fo, R st h (ex ++ env) inc fo).

Lemma flag_sim : forall st h env fo inc f v, R st h env inc fo -> fo = Some f -> R st (setFlag h f v) env v fo.
Proof.
  intros st h env fo inc f v [HF HC HI HK HL HCh] ->. constructor; auto.
  - unfold flag_ok in *. cbn [setFlag flags]. rewrite (nth_error_upd' _ _ _ _ _ _ HL), Nat.eqb_refl. reflexivity.
  - eapply chain_objs; [exact HCh|reflexivity|reflexivity|reflexivity].
Qed.
Lemma close_sim : forall A B c b env inc, post A B (c :: b :: env) true -> (b < List.length (objs (fst B)))%nat -> inc = negb (Nat.eqb (List.length (b :: env)) 1) ->
  post (leave (List.length (b :: env)) A) (closeM grow b (endM b (negb inc) B)) (b :: env) inc.
Proof.
  intros [st p] [h q] c b env inc (P1 & P2 & P3) LB Einc. cbn [fst] in LB. unfold agree in P1. subst q.
  (* flushing what is pending *)
  assert (FL : forall st h cs fo, R st h (cs ++ b :: env) inc fo ->
    post (flush (List.length (frames st) - List.length (b :: env)) st) (closeM grow b (h, None)) (b :: env) inc).
  { clear st h p P2 P3 LB Einc. intros st h cs fo H. pose proof (r_chain _ _ _ _ _ H) as HC. pose proof (chain_length _ _ _ _ _ _ HC) as LEN.
    pose proof (chain_fuel _ _ _ _ _ _ HC) as FU. rewrite app_length in *.
    replace (List.length (frames st) - List.length (b :: env))%nat with (List.length cs) by lia.
    pose proof (flush_sim cs st h b env inc fo (List.length (objs h)) H ltac:(lia)) as F. cbn [closeM].
    destruct (flush (List.length cs) st) as [st1 p1]. destruct (flushM grow (List.length (objs h)) h b) as [h1 q1]. destruct F as (F1 & F2 & F3). unfold agree in F1. subst q1.
    destruct p1 as [p1|]; cbn [option_map].
    - split; [reflexivity|]. split; [discriminate|]. intros e Ee. exfalso. exact (F3 e Ee).
    - specialize (F2 eq_refl). destruct (chain_nth _ _ _ _ _ _ 0%nat b (r_chain _ _ _ _ _ F2) eq_refl) as (f & x & _ & X1 & _ & _ & X2).
      rewrite X1, X2. split; [reflexivity|]. split; [intros _; exists fo; exact F2|discriminate]. }
  assert (OUT : inc = false -> env = []).
  { intros ->. destruct env; [reflexivity|discriminate]. }
  assert (ROOT : forall st h cs fo, inc = false -> R st h (cs ++ b :: env) true fo -> exists x f, nth_error (objs h) b = Some x /\ o_flag x = Some f /\ fo = Some f).
  { clear st h p P2 P3 LB FL. intros st h cs fo Ei H. pose proof (r_flag _ _ _ _ _ H) as HL.
    destruct (chain_nth _ _ _ _ _ _ (List.length cs) b (r_chain _ _ _ _ _ H)) as (f & x & _ & X1 & (_ & _ & _ & _ & _ & _ & X2) & _).
    { rewrite nth_error_app2 by lia. rewrite Nat.sub_diag. reflexivity. }
    destruct fo as [f0|]; [|discriminate HL]. exists x, f0. auto. }
  assert (OTH : forall k, (forall e, k <> PBuildError e) -> post (st, Some k) (closeM grow b (endM b (negb inc) (h, Some (MP k)))) (b :: env) inc).
  { intros k NK. assert (E : exists h', closeM grow b (endM b (negb inc) (h, Some (MP k))) = (h', Some (MP k))).
    { unfold endM. destruct inc; cbn [negb]; [eexists; reflexivity|]. destruct (nth_error (objs h) b) as [x|] eqn:Ex; [|apply nth_error_None in Ex; lia].
      destruct k; try (eexists; reflexivity). exfalso. exact (NK _ eq_refl). }
    destruct E as [h' ->]. split; [reflexivity|]. split; [discriminate|]. intros e Ee. injection Ee as ->. exfalso. exact (NK _ eq_refl). }
  destruct p as [p|]; cbn [option_map].
  - destruct p as [| | | | |msg|e]; try (apply OTH; discriminate).
    destruct (P3 e eq_refl) as (ex & fo & HR). cbn [leave]. destruct inc.
    + destruct (Nat.eqb_spec (List.length (b :: env)) 1) as [|NE]; [discriminate|]. cbn [negb endM closeM].
      split; [reflexivity|]. split; [discriminate|]. intros e' _. exists (ex ++ [c]), fo. rewrite <- app_assoc. exact HR.
    + rewrite (OUT eq_refl) in *. cbn [List.length Nat.eqb negb endM].
      change (ex ++ [c; b]) with (ex ++ [c] ++ [b]) in HR. rewrite app_assoc in HR.
      destruct (ROOT st h (ex ++ [c]) fo eq_refl HR) as (x & f & X1 & X2 & X3). rewrite X1, X2.
      pose proof (flag_sim _ _ _ _ _ f false HR X3) as HR2. pose proof (root_sim _ _ _ _ _ _ e x HR2 X1) as HR3.
      exact (FL _ _ _ _ HR3).
  - destruct (P2 eq_refl) as (fo & HR). cbn [leave]. destruct inc.
    + cbn [negb endM]. exact (FL st h [c] fo HR).
    + cbn [negb endM]. destruct (ROOT st h [c] fo eq_refl HR) as (x & f & X1 & X2 & X3). rewrite X1, X2.
      exact (FL st (setFlag h f false) [c] fo (flag_sim _ _ _ _ _ f false HR X3)).
Qed.

Lemma keep_content : forall h s, keep h -> (s_arr s < narr h0)%nat -> (forall i, 0 <= i < s_len s -> ~ spareOf (mkSl a0 off0 len0 cap0) (s_arr s) (s_off s + i)) ->
  content h s = content h0 s.
Proof.
  intros h s [_ K] A N. unfold content. apply map_ext_in. intros i Hi. apply in_seq in Hi. apply K; [exact A|].
  intro Q. apply (N (Z.of_nat i)); [lia|]. exact Q.
Qed.
Lemma post_R : forall st p h q env inc fo, agree p q -> R st h env inc fo -> post (st, p) (h, q) env inc.
Proof.
  intros st p h q env inc fo A H. split; [exact A|]. split; [intros _; exists fo; exact H|]. intros e _. exists [], fo. exact H.
Qed.
Lemma add_post : forall st h env inc fo k b l, R st h env inc fo -> nth_error env k = Some b -> post (add st k l) (addM grow h b l) env inc.
Proof.
  intros st h env inc fo k b l H E. pose proof (add_sim st h env inc fo k b l H E) as A.
  destruct (add st k l) as [st1 p]. destruct (addM grow h b l) as [h1 q]. destruct A as [A B]. eapply post_R; eauto.
Qed.
Definition depth_ok (env : list nat) (inc : bool) : Prop := inc = negb (Nat.eqb (List.length env) 1).

Lemma exec_sim_all :
  (forall o st h env inc fo, plain h0 (mkSl a0 off0 len0 cap0) (List.length env) o -> depth_ok env inc -> R st h env inc fo -> post (execs (lower h0 o) st) (execM grow o env h) env inc) /\
  (forall l st h env inc fo, plains h0 (mkSl a0 off0 len0 cap0) (List.length env) l -> depth_ok env inc -> R st h env inc fo -> post (execs (lowers h0 l) st) (execsM grow l env h) env inc).
Proof.
  set (P := fun o => forall st h env inc fo, plain h0 (mkSl a0 off0 len0 cap0) (List.length env) o -> depth_ok env inc -> R st h env inc fo -> post (execs (lower h0 o) st) (execM grow o env h) env inc).
  set (Q := fun l => forall st h env inc fo, plains h0 (mkSl a0 off0 len0 cap0) (List.length env) l -> depth_ok env inc -> R st h env inc fo -> post (execs (lowers h0 l) st) (execsM grow l env h) env inc).
  assert (REF : forall (env : list nat) h k, (k < List.length env)%nat -> nth_error env k = Some (resolve env h (Lvl k))).
  { intros env h k L. cbn [resolve]. apply nth_error_nth'. exact L. }
  assert (LP : forall k b n a body env st h inc fo, Q body -> plains h0 (mkSl a0 off0 len0 cap0) (S (List.length env)) body -> 1 <= n <= 4 -> (a = true -> n = 1) -> depth_ok env inc ->
    nth_error env k = Some b -> R st h env inc fo -> post (addLP k n a (lowers h0 body) st) (alpM grow b n a body env h) env inc).
  { intros k b n a body env st h inc fo IH W Hn Ha D E H. unfold addLP, alpM.
    destruct (chain_nth _ _ _ _ _ _ _ _ (r_chain _ _ _ _ _ H) E) as (f & x & F1 & X1 & X2 & X3 & X4). pose proof X2 as (Q1 & _).
    rewrite F1, X1, Q1. destruct (f_err f) as [e|] eqn:Ef; [eapply post_R; [reflexivity|exact H]|].
    destruct k as [|k]; cbn [Nat.eqb negb].
    - destruct env as [|b' env]; [discriminate|]. injection E as ->.
      destruct (frames st) as [|f' fs] eqn:Efr; [discriminate|]. injection F1 as ->.
      assert (HI : inc = false -> env = []) by (intros ->; unfold depth_ok in D; destruct env; [reflexivity|discriminate]).
      destruct (enter_sim st h b env inc fo f fs n a H Efr Ef Hn Ha HI) as (h1 & h2 & fo' & E1 & E2 & HR).
      rewrite E1. cbv zeta. rewrite E2.
      pose proof (chain_length _ _ _ _ _ _ (r_chain _ _ _ _ _ H)) as LEN. rewrite Efr in LEN. rewrite LEN.
      apply (close_sim _ _ (List.length (objs h1) - 1)%nat); [| |exact D].
      + eapply IH; [exact W| |exact HR]. reflexivity.
      + pose proof (proj2 (grows_exec_all grow) body ((List.length (objs h1) - 1)%nat :: b :: env) h2) as G. unfold grows in G.
        pose proof (chain_in _ _ _ _ _ _ b (r_chain _ _ _ _ _ HR) (or_intror (or_introl eq_refl))). lia.
    - pose proof (add_sim st h env inc fo (S k) b (repeat 0 (Z.to_nat n)) H E) as AS.
      unfold add in *. rewrite F1, Ef in *. cbn [Nat.eqb negb] in *. unfold enterM. rewrite X1.
      destruct (addM grow h b (repeat 0 (Z.to_nat n))) as [h1 q]. destruct AS as [A1 A2]. unfold agree in A1. subst q. cbn [option_map].
      eapply post_R; [reflexivity|exact A2]. }
  assert (H1 : forall r l, P (MAdd r l)).
  { intros [k|k] l st h env inc fo W D H; [|contradiction]. cbn [lower execM]. rewrite execs_one. cbn [exec]. eapply add_post; [exact H|]. apply REF. exact W. }
  assert (H2 : forall r s, P (MAddBytes r s)).
  { intros [k|k] s st h env inc fo W D H; [|contradiction]. destruct W as (W1 & W2 & W3). cbn [lower execM]. rewrite execs_one. cbn [exec].
    rewrite (keep_content h s (r_keep _ _ _ _ _ H) W2 W3). eapply add_post; [exact H|]. apply REF. exact W1. }
  assert (H3 : forall r e, P (MSetErr r e)).
  { intros [k|k] e st h env inc fo W D H; [|contradiction]. cbn [lower]. rewrite execs_one. cbn [exec execM]. pose proof (REF env h k W) as E.
    destruct (chain_nth _ _ _ _ _ _ _ _ (r_chain _ _ _ _ _ H) E) as (f & x & F1 & X1 & _). rewrite F1, X1.
    eapply (post_R _ _ _ _ _ _ fo); [reflexivity|]. pose proof (ci_err _ inv_closed st k f e (r_inv _ _ _ _ _ H) F1) as IV. destruct H as [HF HC HI HK HL HCh].
    constructor; auto. cbn [put_frame set_frames mem frames]. eapply chain_err; eauto. }
  assert (H4 : forall r k b, Q b -> P (MLP r k b)).
  { intros [k|k] n b IH st h env inc fo W D H; [|contradiction]. destruct W as (W1 & W2 & W3).
    change (lower h0 (MLP (Lvl k) n b)) with [OLP k n (lowers h0 b)]. rewrite execs_one, exec_OLP, execM_MLP. eapply LP; eauto; discriminate. }
  assert (H5 : forall r t b, Q b -> P (MASN1 r t b)).
  { intros [k|k] t b IH st h env inc fo W D H; [|contradiction]. destruct W as (W1 & W2).
    change (lower h0 (MASN1 (Lvl k) t b)) with [OASN1 k t (lowers h0 b)]. rewrite execs_one, exec_OASN1, execM_MASN1. pose proof (REF env h k W1) as E.
    destruct (chain_nth _ _ _ _ _ _ _ _ (r_chain _ _ _ _ _ H) E) as (f & x & F1 & X1 & X2 & X3 & X4). pose proof X2 as (Q1 & _).
    rewrite F1, X1, Q1. destruct (f_err f) as [e|] eqn:Ef; [eapply post_R; [reflexivity|exact H]|].
    destruct (Z.land t 0x1f =? 0x1f).
    - eapply (post_R _ _ _ _ _ _ fo); [reflexivity|]. pose proof (fun e => ci_err _ inv_closed st k f e (r_inv _ _ _ _ _ H) F1) as IV. destruct H as [HF HC HI HK HL HCh].
      constructor; auto. cbn [put_frame set_frames mem frames]. eapply chain_err; eauto.
    - pose proof (add_sim st h env inc fo k _ [t] H E) as AS. destruct (add st k [t]) as [st1 p]. destruct (addM grow h _ [t]) as [h1 q].
      destruct AS as [A1 A2]. unfold agree in A1. subst q. destruct p as [p|]; cbn [option_map]; [eapply post_R; [reflexivity|exact A2]|].
      eapply LP; eauto. lia. }
  assert (H6 : forall r, P (MBytes r)).
  { intros [k|k] st h env inc fo W D H; [|contradiction]. cbn [lower execs execM]. pose proof (REF env h k W) as E.
    destruct (chain_nth _ _ _ _ _ _ _ _ (r_chain _ _ _ _ _ H) E) as (f & x & F1 & X1 & _). rewrite X1. eapply (post_R _ _ _ _ _ _ fo); [reflexivity|].
    destruct H as [HF HC HI HK HL HCh]. constructor; auto. eapply chain_objs; [exact HCh|reflexivity|reflexivity|reflexivity]. }
  assert (H7 : forall p, P (MPanic p)).
  { intros [k| |] st h env inc fo W D H; try contradiction. cbn [execM]. destruct k; cbn [lower]; rewrite execs_one; cbn [exec]; eapply post_R; try exact H; reflexivity. }
  assert (H8 : forall b, Q b -> P (MRecover b)) by (intros b IH st h env inc fo W; contradiction).
  assert (Hn : Q []) by (intros st h env inc fo W D H; cbn [lowers execs execsM]; eapply post_R; [reflexivity|exact H]).
  assert (Hc : forall o l, P o -> Q l -> Q (o :: l)).
  { intros o l IHo IHl st h env inc fo [W1 W2] D H. rewrite lowers_cons, execs_app, execsM_cons. specialize (IHo st h env inc fo W1 D H).
    destruct (execs (lower h0 o) st) as [st1 p]. destruct (execM grow o env h) as [h1 q]. pose proof IHo as (A & B & C). unfold agree in A. subst q.
    destruct p as [p|]; cbn [option_map] in *; [exact IHo|]. destruct (B eq_refl) as (fo' & HR). eapply IHl; eauto. }
  split; [intro o; apply (mop_ind2 P Q)|intro l; apply (mops_ind2 P Q)]; auto.
Qed.
End Sim.
