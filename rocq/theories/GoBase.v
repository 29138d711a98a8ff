(** Common vocabulary of the model: Go outcomes, machine integers, slices as lists,
    big-endian numbers, and the list lemmas about them. *)
From Coq Require Import ZArith List Lia Bool String.
Import ListNotations.
Open Scope Z_scope.

(** * Outcomes of Go calls *)

(** The run-time panics that occur in the modelled code. [PUser] is [panic(string)],
    [PBuildError] is [panic(BuildError{err})] of cryptobyte/builder.go:33-35. *)
Inductive panic_kind : Set :=
| PIndex                       (* index out of range *)
| PSlice                       (* slice bounds out of range *)
| PDiv                         (* integer divide by zero *)
| PNil                         (* nil pointer dereference *)
| PMake                        (* makeslice: len out of range *)
| PUser (msg : string)
| PBuildError (err : string).

(** A call either returns or panics. *)
Inductive go (A : Type) : Type :=
| Ret (a : A)
| Panic (k : panic_kind).
Arguments Ret {A} _.
Arguments Panic {A} _.

Definition bind {A B} (x : go A) (f : A -> go B) : go B :=
  match x with Ret a => f a | Panic k => Panic k end.
Notation "'do' x <- e ; f" := (bind e (fun x => f))
  (at level 200, x pattern, e at level 100, f at level 200, right associativity).

(** Go's [(value, error)] results: a value, or an error with its message. *)
Inductive res (A : Type) : Type :=
| OK (a : A)
| ERR (msg : string).
Arguments OK {A} _.
Arguments ERR {A} _.

(** * Bytes and machine words *)

Definition byte (b : Z) : Prop := 0 <= b < 256.
Definition bytes (l : list Z) : Prop := Forall byte l.
Definition byteb (b : Z) : bool := (0 <=? b) && (b <? 256).

Definition u8 (x : Z) : Z := x mod 256.
Definition u16 (x : Z) : Z := x mod 2 ^ 16.
Definition u32 (x : Z) : Z := x mod 2 ^ 32.
Definition u64 (x : Z) : Z := x mod 2 ^ 64.
(** Conversion to a signed integer of 32 / 64 bits (two's complement wrap). *)
Definition i32 (x : Z) : Z := (x + 2 ^ 31) mod 2 ^ 32 - 2 ^ 31.
Definition i64 (x : Z) : Z := (x + 2 ^ 63) mod 2 ^ 64 - 2 ^ 63.

Definition is_u32 (x : Z) : Prop := 0 <= x < 2 ^ 32.

Definition zlen {A} (l : list A) : Z := Z.of_nat (List.length l).

(** [l[i]] for a slice or array of length [zlen l]. *)
Definition go_index {A} (l : list A) (i : Z) : go A :=
  if i <? 0 then Panic PIndex
  else match nth_error l (Z.to_nat i) with
       | Some x => Ret x
       | None => Panic PIndex
       end.

(** List update without bounds check. *)
Fixpoint upd {A} (l : list A) (i : nat) (x : A) : list A :=
  match l, i with
  | [], _ => []
  | _ :: t, O => x :: t
  | h :: t, S j => h :: upd t j x
  end.

(** [l[i] = x]. *)
Definition go_set {A} (l : list A) (i : Z) (x : A) : go (list A) :=
  if (i <? 0) || (zlen l <=? i) then Panic PIndex else Ret (upd l (Z.to_nat i) x).

(** Sub-list [lo, hi) without checks. *)
Definition sub {A} (l : list A) (lo hi : Z) : list A :=
  firstn (Z.to_nat (hi - lo)) (skipn (Z.to_nat lo) l).

(** [l[lo:hi]] for a slice whose capacity equals its length. *)
Definition go_slice {A} (l : list A) (lo hi : Z) : go (list A) :=
  if (0 <=? lo) && (lo <=? hi) && (hi <=? zlen l) then Ret (sub l lo hi) else Panic PSlice.

(** [make([]T, n)]. *)
Definition go_make (n : Z) : go (list Z) :=
  if n <? 0 then Panic PMake else Ret (repeat 0 (Z.to_nat n)).

(** * Big-endian numbers *)

Definition be_dec (l : list Z) : Z := fold_left (fun a b => a * 256 + b) l 0.

Fixpoint be_enc (n : nat) (x : Z) : list Z :=
  match n with
  | O => []
  | S m => be_enc m (x / 256) ++ [x mod 256]
  end.

(** Split into pieces of [k] elements (the last one may be shorter). *)
Fixpoint chunks_fuel {A} (fuel k : nat) (l : list A) : list (list A) :=
  match fuel, l with
  | O, _ => []
  | _, [] => []
  | S f, _ => firstn k l :: chunks_fuel f k (skipn k l)
  end.
Definition chunks {A} (k : nat) (l : list A) : list (list A) := chunks_fuel (List.length l) k l.

(** Repeat a state transformer for [i, i+1, ..., i+n-1]. *)
Fixpoint for_loop {S} (n : nat) (i : Z) (f : Z -> S -> S) (s : S) : S :=
  match n with
  | O => s
  | Datatypes.S m => for_loop m (i + 1) f (f i s)
  end.

(** * Lemmas *)

Lemma bind_ret : forall A B (x : go A) (f : A -> go B) b,
  bind x f = Ret b -> exists a, x = Ret a /\ f a = Ret b.
Proof. intros A B [a|k] f b H; simpl in H; [eauto|discriminate]. Qed.

Lemma zlen_nonneg : forall A (l : list A), 0 <= zlen l.
Proof. intros; unfold zlen; lia. Qed.

Lemma zlen_nil : forall A, zlen (@nil A) = 0.
Proof. reflexivity. Qed.

Lemma zlen_cons : forall A (x : A) l, zlen (x :: l) = zlen l + 1.
Proof. intros; unfold zlen; cbn [List.length]; lia. Qed.

Lemma zlen_app : forall A (l m : list A), zlen (l ++ m) = zlen l + zlen m.
Proof. intros; unfold zlen; rewrite app_length; lia. Qed.

Lemma zlen_repeat : forall A (x : A) n, zlen (repeat x n) = Z.of_nat n.
Proof. intros; unfold zlen; rewrite repeat_length; reflexivity. Qed.

Lemma zlen_firstn : forall A n (l : list A), (n <= List.length l)%nat -> zlen (firstn n l) = Z.of_nat n.
Proof. intros; unfold zlen; rewrite firstn_length; lia. Qed.

Lemma zlen_skipn : forall A n (l : list A), (n <= List.length l)%nat ->
  zlen (skipn n l) = zlen l - Z.of_nat n.
Proof. intros; unfold zlen; rewrite skipn_length; lia. Qed.

Lemma zlen_0_nil : forall A (l : list A), zlen l = 0 -> l = [].
Proof. intros A [|x l] H; [reflexivity|rewrite zlen_cons in H; pose proof (zlen_nonneg _ l); lia]. Qed.

Lemma upd_length : forall A (l : list A) i x, List.length (upd l i x) = List.length l.
Proof. induction l; intros [|i] x; simpl; auto. Qed.

Lemma nth_upd_same : forall A (l : list A) i x d, (i < List.length l)%nat -> nth i (upd l i x) d = x.
Proof.
  induction l; intros [|i] x d H; simpl in *; try lia; [reflexivity|].
  apply IHl; lia.
Qed.

Lemma nth_upd_other : forall A (l : list A) i j x d, i <> j -> nth j (upd l i x) d = nth j l d.
Proof.
  induction l; intros [|i] [|j] x d H; simpl; auto; try congruence.
Qed.

Lemma firstn_upd : forall A (l : list A) i x, (i < List.length l)%nat ->
  firstn (S i) (upd l i x) = firstn i l ++ [x].
Proof.
  induction l; intros [|i] x H; simpl in *; try lia; [reflexivity|].
  f_equal. apply IHl. lia.
Qed.

Lemma firstn_upd_lt : forall A (l : list A) i j x, (j <= i)%nat ->
  firstn j (upd l i x) = firstn j l.
Proof.
  induction l; intros [|i] [|j] x H; simpl in *; try lia; try reflexivity.
  f_equal. apply IHl. lia.
Qed.

Lemma firstn_app_exact : forall A (l m : list A) n, n = List.length l -> firstn n (l ++ m) = l.
Proof.
  intros; subst. rewrite firstn_app, firstn_all, Nat.sub_diag. simpl. apply app_nil_r.
Qed.

Lemma skipn_app_exact : forall A (l m : list A) n, n = List.length l -> skipn n (l ++ m) = m.
Proof.
  intros; subst. rewrite skipn_app, skipn_all, Nat.sub_diag. reflexivity.
Qed.

Lemma skipn_skipn : forall A x y (l : list A), skipn x (skipn y l) = skipn (x + y) l.
Proof.
  intros A x y. revert x. induction y; intros x l.
  - rewrite Nat.add_0_r. reflexivity.
  - destruct l; [rewrite !skipn_nil; reflexivity|]. rewrite Nat.add_succ_r. cbn [skipn]. apply IHy.
Qed.

Lemma map_repeat : forall A B (f : A -> B) x n, map f (repeat x n) = repeat (f x) n.
Proof. induction n; simpl; congruence. Qed.

Lemma bytes_app : forall l m, bytes (l ++ m) <-> bytes l /\ bytes m.
Proof. intros; unfold bytes; apply Forall_app. Qed.

Lemma bytes_cons : forall b l, bytes (b :: l) <-> byte b /\ bytes l.
Proof. intros; unfold bytes; split; intro H; [inversion H; auto|constructor; tauto]. Qed.

Lemma bytes_nil : bytes [].
Proof. constructor. Qed.

Lemma bytes_firstn : forall n l, bytes l -> bytes (firstn n l).
Proof.
  intros n l H. rewrite <- (firstn_skipn n l) in H. apply bytes_app in H. tauto.
Qed.

Lemma bytes_skipn : forall n l, bytes l -> bytes (skipn n l).
Proof.
  intros n l H. rewrite <- (firstn_skipn n l) in H. apply bytes_app in H. tauto.
Qed.

Lemma bytes_repeat : forall b n, byte b -> bytes (repeat b n).
Proof. intros b n H; unfold bytes; induction n; simpl; constructor; auto. Qed.

Lemma byteb_spec : forall b, byteb b = true <-> byte b.
Proof. intros; unfold byteb, byte; rewrite andb_true_iff, Z.leb_le, Z.ltb_lt; tauto. Qed.

Lemma bytes_forallb : forall l, forallb byteb l = true <-> bytes l.
Proof.
  intros; unfold bytes; rewrite forallb_forall, Forall_forall.
  split; intros H x Hx; apply byteb_spec; auto.
Qed.

Lemma go_index_ret : forall A (l : list A) i d, 0 <= i < zlen l ->
  go_index l i = Ret (nth (Z.to_nat i) l d).
Proof.
  intros A l i d H. unfold go_index. unfold zlen in H.
  destruct (Z.ltb_spec i 0); [lia|].
  rewrite (nth_error_nth' l d) by lia. reflexivity.
Qed.

Lemma go_index_panic : forall A (l : list A) i, ~ (0 <= i < zlen l) -> go_index l i = Panic PIndex.
Proof.
  intros A l i H. unfold go_index. unfold zlen in H.
  destruct (Z.ltb_spec i 0); [reflexivity|].
  destruct (nth_error l (Z.to_nat i)) eqn:E; [|reflexivity].
  assert (Z.to_nat i < List.length l)%nat by (apply nth_error_Some; congruence). lia.
Qed.

Lemma go_set_ret : forall A (l : list A) i x, 0 <= i < zlen l ->
  go_set l i x = Ret (upd l (Z.to_nat i) x).
Proof.
  intros A l i x H. unfold go_set.
  destruct (Z.ltb_spec i 0); [lia|]. destruct (Z.leb_spec (zlen l) i); [lia|]. reflexivity.
Qed.

Lemma go_slice_ret : forall A (l : list A) lo hi, 0 <= lo <= hi -> hi <= zlen l ->
  go_slice l lo hi = Ret (sub l lo hi).
Proof.
  intros A l lo hi H H1. unfold go_slice.
  destruct (Z.leb_spec 0 lo); [|lia]. destruct (Z.leb_spec lo hi); [|lia].
  destruct (Z.leb_spec hi (zlen l)); [|lia]. reflexivity.
Qed.

Lemma go_slice_panic : forall A (l : list A) lo hi, ~ (0 <= lo <= hi /\ hi <= zlen l) ->
  go_slice l lo hi = Panic PSlice.
Proof.
  intros A l lo hi H. unfold go_slice.
  destruct (Z.leb_spec 0 lo); [|reflexivity]. destruct (Z.leb_spec lo hi); [|reflexivity].
  destruct (Z.leb_spec hi (zlen l)); [lia|reflexivity].
Qed.

Lemma sub_all : forall A (l : list A), sub l 0 (zlen l) = l.
Proof.
  intros; unfold sub, zlen. rewrite Z.sub_0_r, Nat2Z.id. simpl. apply firstn_all.
Qed.

Lemma sub_length : forall A (l : list A) lo hi, 0 <= lo <= hi -> hi <= zlen l ->
  zlen (sub l lo hi) = hi - lo.
Proof.
  intros A l lo hi H H1. unfold sub, zlen in *. rewrite firstn_length, skipn_length. lia.
Qed.

Lemma sub_bytes : forall l lo hi, bytes l -> bytes (sub l lo hi).
Proof. intros; unfold sub; apply bytes_firstn, bytes_skipn; auto. Qed.

Lemma sub_app_r : forall A (l m : list A) lo hi, lo = zlen l -> hi = zlen l + zlen m ->
  sub (l ++ m) lo hi = m.
Proof.
  intros; subst; unfold sub.
  replace (Z.to_nat (zlen l)) with (List.length l) by (unfold zlen; lia).
  rewrite skipn_app_exact by reflexivity.
  replace (zlen l + zlen m - zlen l) with (zlen m) by lia.
  unfold zlen; rewrite Nat2Z.id. apply firstn_all.
Qed.

Lemma sub_app_l : forall A (l m : list A) hi, hi = zlen l -> sub (l ++ m) 0 hi = l.
Proof.
  intros; subst; unfold sub. simpl. rewrite Z.sub_0_r.
  apply firstn_app_exact. unfold zlen; lia.
Qed.

Lemma sub_mid : forall A (l m r : list A) lo hi, lo = zlen l -> hi = zlen l + zlen m ->
  sub (l ++ m ++ r) lo hi = m.
Proof.
  intros; subst; unfold sub.
  replace (Z.to_nat (zlen l)) with (List.length l) by (unfold zlen; lia).
  rewrite skipn_app_exact by reflexivity.
  apply firstn_app_exact. unfold zlen; lia.
Qed.

(** Big-endian encoding and decoding. *)

Lemma be_dec_app : forall l m, be_dec (l ++ m) = be_dec l * 256 ^ zlen m + be_dec m.
Proof.
  unfold be_dec. intros l m. rewrite fold_left_app.
  generalize (fold_left (fun a b => a * 256 + b) l 0) as a.
  induction m as [|x m IH] using rev_ind; intro a.
  - simpl. lia.
  - rewrite !fold_left_app. cbn [fold_left]. rewrite IH, zlen_app.
    replace (zlen [x]) with 1 by reflexivity.
    rewrite Z.pow_add_r by (try lia; apply zlen_nonneg). lia.
Qed.

Lemma be_dec_snoc : forall l x, be_dec (l ++ [x]) = be_dec l * 256 + x.
Proof. intros. unfold be_dec. rewrite fold_left_app. reflexivity. Qed.

Lemma be_dec_cons : forall x l, be_dec (x :: l) = x * 256 ^ zlen l + be_dec l.
Proof. intros. change (x :: l) with ([x] ++ l). rewrite be_dec_app. reflexivity. Qed.

Lemma be_dec_bound : forall l, bytes l -> 0 <= be_dec l < 256 ^ zlen l.
Proof.
  induction l as [|x l IH] using rev_ind; intro H.
  - unfold be_dec; simpl. lia.
  - apply bytes_app in H. destruct H as [H1 H2]. apply bytes_cons in H2.
    destruct H2 as [H2 _]. unfold byte in H2. specialize (IH H1).
    rewrite be_dec_snoc, zlen_app. replace (zlen [x]) with 1 by reflexivity.
    rewrite Z.pow_add_r by (try lia; apply zlen_nonneg). lia.
Qed.

Lemma be_enc_length : forall n x, List.length (be_enc n x) = n.
Proof. induction n; intros; simpl; auto. rewrite app_length, IHn. simpl. lia. Qed.

Lemma zlen_be_enc : forall n x, zlen (be_enc n x) = Z.of_nat n.
Proof. intros; unfold zlen; rewrite be_enc_length; reflexivity. Qed.

Lemma be_enc_bytes : forall n x, bytes (be_enc n x).
Proof.
  induction n; intros; simpl; [constructor|].
  apply bytes_app. split; [apply IHn|]. constructor; [|constructor].
  unfold byte. apply Z.mod_pos_bound. lia.
Qed.

Lemma be_dec_enc : forall n x, be_dec (be_enc n x) = x mod 256 ^ Z.of_nat n.
Proof.
  induction n; intros x.
  - simpl. rewrite Z.mod_1_r. reflexivity.
  - cbn [be_enc]. rewrite be_dec_snoc, IHn.
    replace (256 ^ Z.of_nat (S n)) with (256 * 256 ^ Z.of_nat n)
      by (rewrite Nat2Z.inj_succ, Z.pow_succ_r; lia).
    rewrite Z.rem_mul_r by (try lia; apply Z.pow_pos_nonneg; lia). lia.
Qed.

Lemma be_dec_enc_small : forall n x, 0 <= x < 256 ^ Z.of_nat n -> be_dec (be_enc n x) = x.
Proof. intros. rewrite be_dec_enc. apply Z.mod_small; auto. Qed.

Lemma be_enc_dec : forall l, bytes l -> be_enc (List.length l) (be_dec l) = l.
Proof.
  induction l as [|x l IH] using rev_ind; intro H; [reflexivity|].
  apply bytes_app in H. destruct H as [H1 H2]. apply bytes_cons in H2.
  destruct H2 as [H2 _]. unfold byte in H2.
  rewrite app_length. simpl List.length. rewrite Nat.add_1_r. cbn [be_enc].
  rewrite be_dec_snoc.
  rewrite Z.div_add_l by lia. rewrite (Z.div_small x 256) by lia. rewrite Z.add_0_r, IH by auto.
  rewrite Z.add_comm, Z.mod_add by lia. rewrite Z.mod_small by lia. reflexivity.
Qed.

Lemma be_enc_mod : forall n x, be_enc n (x mod 256 ^ Z.of_nat n) = be_enc n x.
Proof.
  intros. rewrite <- be_dec_enc.
  replace n with (List.length (be_enc n x)) at 1 by apply be_enc_length.
  apply be_enc_dec, be_enc_bytes.
Qed.

Lemma be_dec_inj : forall l m, bytes l -> bytes m -> List.length l = List.length m ->
  be_dec l = be_dec m -> l = m.
Proof.
  intros l m Hl Hm HL HD.
  rewrite <- (be_enc_dec l Hl), <- (be_enc_dec m Hm), HL, HD. reflexivity.
Qed.

(** Chunks. *)

Lemma chunks_fuel_more : forall A k (l : list A) f1 f2, (0 < k)%nat ->
  (List.length l <= f1)%nat -> (List.length l <= f2)%nat ->
  chunks_fuel f1 k l = chunks_fuel f2 k l.
Proof.
  intros A k l f1. revert l. induction f1; intros l f2 Hk H1 H2.
  - destruct l; simpl in H1; [destruct f2; reflexivity|lia].
  - destruct l as [|x l]; [destruct f2; reflexivity|].
    destruct f2; [simpl in H2; lia|]. cbn [chunks_fuel]. f_equal.
    apply IHf1; auto; rewrite skipn_length; cbn [List.length] in *; lia.
Qed.

Lemma chunks_nil : forall A k, @chunks A k [] = [].
Proof. reflexivity. Qed.

Lemma chunks_cons : forall A k (l m : list A), (0 < k)%nat -> List.length l = k ->
  chunks k (l ++ m) = l :: chunks k m.
Proof.
  intros A k l m Hk HL. unfold chunks.
  destruct (l ++ m) as [|x y] eqn:E.
  - apply app_eq_nil in E. destruct E; subst; simpl in *; lia.
  - cbn [List.length chunks_fuel]. rewrite <- E.
    rewrite firstn_app_exact, skipn_app_exact by auto. f_equal.
    apply chunks_fuel_more; auto.
    apply (f_equal (@List.length _)) in E. rewrite app_length in E. simpl in E. lia.
Qed.

Lemma chunks_app : forall A k (l m : list A), (0 < k)%nat ->
  (exists q, List.length l = q * k)%nat -> chunks k (l ++ m) = chunks k l ++ chunks k m.
Proof.
  intros A k l m Hk [q Hq]. revert l Hq. induction q; intros l Hq.
  - destruct l; [reflexivity|simpl in Hq; lia].
  - cbn [Nat.mul] in Hq. rewrite <- (firstn_skipn k l). rewrite <- app_assoc.
    assert (Hl : (List.length (firstn k l) = k)%nat) by (rewrite firstn_length; lia).
    rewrite (chunks_cons _ k (firstn k l) (skipn k l ++ m)) by auto.
    rewrite (chunks_cons _ k (firstn k l) (skipn k l)) by auto.
    rewrite IHq by (rewrite skipn_length; lia). reflexivity.
Qed.

(** Masks and rotations. *)

Lemma mod_land_ones : forall x n, 0 <= n -> x mod 2 ^ n = Z.land x (Z.ones n).
Proof. intros. rewrite Z.land_ones; auto. Qed.

Lemma bits_bound : forall x n, 0 <= n -> 0 <= x -> (forall i, n <= i -> Z.testbit x i = false) ->
  x < 2 ^ n.
Proof.
  intros x n Hn Hx H. destruct (Z_lt_le_dec x (2 ^ n)); auto.
  assert (Hp : 0 < x) by (pose proof (Z.pow_pos_nonneg 2 n); lia).
  pose proof (Z.bit_log2 x Hp) as Hb. rewrite H in Hb; [discriminate|].
  apply Z.log2_le_pow2; lia.
Qed.

Lemma testbit_high : forall x n i, 0 <= x < 2 ^ n -> n <= i -> Z.testbit x i = false.
Proof.
  intros x n i Hx Hi. destruct (Z.eq_dec x 0); [subst; apply Z.bits_0|].
  apply Z.bits_above_log2; [lia|].
  assert (0 <= n) by (destruct (Z_lt_le_dec n 0); [rewrite Z.pow_neg_r in Hx; lia|auto]).
  apply Z.lt_le_trans with n; auto. apply Z.log2_lt_pow2; lia.
Qed.

Lemma lxor_range : forall n x y, 0 <= n -> 0 <= x < 2 ^ n -> 0 <= y < 2 ^ n ->
  0 <= Z.lxor x y < 2 ^ n.
Proof.
  intros n x y Hn Hx Hy.
  assert (0 <= Z.lxor x y) by (apply Z.lxor_nonneg; lia). split; auto.
  apply bits_bound; auto. intros i Hi. rewrite Z.lxor_spec.
  rewrite (testbit_high x n i), (testbit_high y n i) by auto. reflexivity.
Qed.

Lemma lor_range : forall n x y, 0 <= n -> 0 <= x < 2 ^ n -> 0 <= y < 2 ^ n ->
  0 <= Z.lor x y < 2 ^ n.
Proof.
  intros n x y Hn Hx Hy.
  assert (0 <= Z.lor x y) by (apply Z.lor_nonneg; lia). split; auto.
  apply bits_bound; auto. intros i Hi. rewrite Z.lor_spec.
  rewrite (testbit_high x n i), (testbit_high y n i) by auto. reflexivity.
Qed.

Lemma land_range : forall n x y, 0 <= n -> 0 <= x < 2 ^ n -> 0 <= y ->
  0 <= Z.land x y < 2 ^ n.
Proof.
  intros n x y Hn Hx Hy.
  assert (0 <= Z.land x y) by (apply Z.land_nonneg; lia). split; auto.
  apply bits_bound; auto. intros i Hi. rewrite Z.land_spec.
  rewrite (testbit_high x n i) by auto. reflexivity.
Qed.

Lemma lor_disjoint_add : forall n x y, 0 <= n -> 0 <= y < 2 ^ n ->
  Z.lor (x * 2 ^ n) y = x * 2 ^ n + y.
Proof.
  intros n x y Hn Hy. rewrite <- Z.lxor_lor.
  - rewrite <- Z.add_nocarry_lxor; auto.
    apply Z.bits_inj'. intros i Hi. rewrite Z.land_spec, Z.bits_0.
    destruct (Z_lt_le_dec i n).
    + rewrite Z.mul_pow2_bits_low by lia. reflexivity.
    + rewrite (testbit_high y n i) by auto. apply andb_false_r.
  - apply Z.bits_inj'. intros i Hi. rewrite Z.land_spec, Z.bits_0.
    destruct (Z_lt_le_dec i n).
    + rewrite Z.mul_pow2_bits_low by lia. reflexivity.
    + rewrite (testbit_high y n i) by auto. apply andb_false_r.
Qed.

Lemma for_loop_S : forall S n i (f : Z -> S -> S) s,
  for_loop (Datatypes.S n) i f s = f (i + Z.of_nat n) (for_loop n i f s).
Proof.
  intros S n. induction n; intros i f s.
  - simpl. rewrite Z.add_0_r. reflexivity.
  - cbn [for_loop] in *. rewrite IHn. f_equal. lia.
Qed.

(** * Overwriting part of a list *)

Definition splice {A} (h : list A) (o : Z) (l : list A) : list A :=
  firstn (Z.to_nat o) h ++ l ++ skipn (Z.to_nat (o + zlen l)) h.

Lemma splice_decomp : forall A (h l : list A) o, 0 <= o -> o + zlen l <= zlen h ->
  exists a b c, h = a ++ b ++ c /\ zlen a = o /\ zlen b = zlen l /\ splice h o l = a ++ l ++ c.
Proof.
  intros A h l o H1 H2. unfold splice.
  exists (firstn (Z.to_nat o) h), (firstn (Z.to_nat (zlen l)) (skipn (Z.to_nat o) h)),
    (skipn (Z.to_nat (o + zlen l)) h).
  unfold zlen in *. repeat split.
  - replace (Z.to_nat (o + Z.of_nat (List.length l))) with (List.length l + Z.to_nat o)%nat by lia.
    rewrite Nat2Z.id, <- skipn_skipn, firstn_skipn, firstn_skipn. reflexivity.
  - rewrite firstn_length. lia.
  - rewrite firstn_length, skipn_length. lia.
Qed.

Lemma splice_mid : forall A (a b c l : list A) o, o = zlen a -> zlen b = zlen l ->
  splice (a ++ b ++ c) o l = a ++ l ++ c.
Proof.
  intros A a b c l o -> H. unfold splice.
  rewrite firstn_app_exact by (unfold zlen; lia). do 2 f_equal.
  rewrite app_assoc. apply skipn_app_exact. rewrite app_length. unfold zlen in *. lia.
Qed.

Lemma splice_length : forall A (h l : list A) o, 0 <= o -> o + zlen l <= zlen h ->
  zlen (splice h o l) = zlen h.
Proof.
  intros A h l o H1 H2. destruct (splice_decomp A h l o H1 H2) as (a & b & c & -> & E1 & E2 & ->).
  rewrite !zlen_app. lia.
Qed.

Lemma splice_splice : forall A (h l1 l2 : list A) o o2, 0 <= o -> o2 = o + zlen l1 ->
  o2 + zlen l2 <= zlen h -> splice (splice h o l1) o2 l2 = splice h o (l1 ++ l2).
Proof.
  intros A h l1 l2 o o2 H1 -> H2.
  pose proof (zlen_nonneg _ l1). pose proof (zlen_nonneg _ l2).
  destruct (splice_decomp A h (l1 ++ l2) o) as (a & b & c & -> & E1 & E2 & ->);
    [lia|rewrite zlen_app; lia|]. rewrite zlen_app in E2.
  rewrite <- (firstn_skipn (List.length l1) b), <- app_assoc.
  assert (zlen (firstn (List.length l1) b) = zlen l1).
  { unfold zlen in *. rewrite firstn_length. lia. }
  assert (zlen (skipn (List.length l1) b) = zlen l2).
  { unfold zlen in *. rewrite skipn_length. lia. }
  rewrite splice_mid; auto. rewrite app_assoc. rewrite splice_mid; auto.
  - rewrite <- !app_assoc. reflexivity.
  - rewrite zlen_app. lia.
Qed.

Lemma splice_sub : forall A (h l : list A) o, 0 <= o -> o + zlen l <= zlen h ->
  sub (splice h o l) o (o + zlen l) = l.
Proof.
  intros A h l o H1 H2. destruct (splice_decomp A h l o H1 H2) as (a & b & c & -> & E1 & E2 & ->).
  apply sub_mid; lia.
Qed.

Lemma sub_sub : forall A (l : list A) a b c d, 0 <= a -> 0 <= c <= d -> a + d <= b ->
  sub (sub l a b) c d = sub l (a + c) (a + d).
Proof.
  intros A l a b c d H1 H2 H3. unfold sub.
  rewrite skipn_firstn_comm, firstn_firstn, skipn_skipn. f_equal; [lia|f_equal; lia].
Qed.

Lemma sub_app_left : forall A (l m : list A) lo hi, 0 <= lo -> hi <= zlen l ->
  sub (l ++ m) lo hi = sub l lo hi.
Proof.
  intros A l m lo hi H1 H2. unfold sub, zlen in *. rewrite skipn_app, firstn_app, skipn_length.
  destruct (Z.le_gt_cases lo hi).
  - replace (_ - _)%nat with 0%nat by lia. cbn [firstn]. apply app_nil_r.
  - replace (Z.to_nat (hi - lo)) with 0%nat by lia. reflexivity.
Qed.

Lemma sub_app_right : forall A (l m : list A) lo hi, zlen l <= lo -> lo <= hi ->
  sub (l ++ m) lo hi = sub m (lo - zlen l) (hi - zlen l).
Proof.
  intros A l m lo hi H1 H2. unfold sub, zlen in *. rewrite skipn_app.
  rewrite skipn_all2 by lia. cbn [app]. f_equal; [lia|f_equal; lia].
Qed.
