(** Property C127: the curve in every key and the one GetSm2P256V1 returns are the same object (sm2/sm2.go:41-133, 182-187), so that
    a write through any of them is seen by every key. On the memory of Sm2Mem.v. *)
From Coq Require Import ZArith List Lia Bool String.
From Verif Require Import GoBase BeMin GoElliptic FpField Primes Sm2Primes WeiGroup Sm2Group Sm2Order Sm2Spec Sm3 Sm2 Sm2Proofs KeyExchange Sm2Mem PropsSm2Mem Vectors.
Import ListNotations.
Open Scope Z_scope.

(** * Specification *)

(** A key that a constructor of the package returned, from whatever memory: generated, read from bytes, or derived from such a key. *)
Inductive madePriv (g : globals) : privRef -> Prop :=
  | MGenPriv tape h p q t h' : GenerateKeyM g tape h = (Ret (OK (p, q), t), h') -> madePriv g p
  | MRawPriv bs h p h' : RawBytesToPrivateKeyM g bs h = (Ret (OK p), h') -> madePriv g p.
Inductive madePub (g : globals) : pubRef -> Prop :=
  | MGenPub tape h p q t h' : GenerateKeyM g tape h = (Ret (OK (p, q), t), h') -> madePub g q
  | MRawPub bs h q h' : RawBytesToPublicKeyM g bs h = (Ret (OK q), h') -> madePub g q
  | MCalc p h q h' : madePriv g p -> CalculatePubKeyM p h = (Ret q, h') -> madePub g q.
(** The memory after v is stored in the integer at p, as by p.SetInt64(v). *)
Definition after (p : nat) (v : Z) (h : heap) : heap := snd (setInt p v h).

(** * Proofs *)
Lemma bind_inv : forall A B (m : prog A) (k : A -> prog B) h b h', bindp m k h = (Ret b, h') -> exists a h1, m h = (Ret a, h1) /\ k a h1 = (Ret b, h').
Proof. intros A B m k h b h' H. rewrite run_bind in H. destruct (m h) as [[a|e] h1] eqn:E; [exists a, h1; auto|discriminate H]. Qed.
Lemma gen_curve : forall g tape h p q t h', GenerateKeyM g tape h = (Ret (OK (p, q), t), h') -> rDC p = gCurve g /\ rC q = gCurve g.
Proof.
  intros g tape h p q t h' H. unfold GenerateKeyM in H. apply bind_inv in H. destruct H as (n & h1 & _ & H).
  destruct (genkey_scalar n tape) as [[k|e] t']; [|discriminate H]. apply bind_inv in H. destruct H as ([x y] & h2 & _ & H).
  apply bind_inv in H. destruct H as (d & h3 & _ & H). cbn [run retp] in H. injection H as <- <- _ _. split; reflexivity.
Qed.

(** Every key the package makes holds the curve of the package, the one that GetSm2P256V1 hands out. *)
Theorem C127_one_curve : forall g h, GetSm2P256V1 g h = (Ret (gCurve g), h) /\
  (forall p, madePriv g p -> rDC p = gCurve g) /\ (forall q, madePub g q -> rC q = gCurve g).
Proof.
  intros g h. split; [reflexivity|].
  assert (P : forall p, madePriv g p -> rDC p = gCurve g).
  { intros p [tape h0 p' q t h' H|bs h0 p' h' H]; [apply (gen_curve _ _ _ _ _ _ _ H)|].
    unfold RawBytesToPrivateKeyM in H. destruct (negb _); [discriminate H|]. apply bind_inv in H. destruct H as (l & h1 & _ & H).
    apply bind_inv in H. destruct H as (d & h2 & _ & H). cbn [run retp] in H. injection H as <- _. reflexivity. }
  split; [exact P|]. intros q [tape h0 p q' t h' H|bs h0 q' h' H|p h0 q' h' M H].
  - apply (gen_curve _ _ _ _ _ _ _ H).
  - unfold RawBytesToPublicKeyM in H. destruct (negb _); [discriminate H|].
    do 6 (apply bind_inv in H; destruct H as (? & ? & _ & H)). cbn [run retp] in H. injection H as <- _. reflexivity.
  - unfold CalculatePubKeyM in H. apply bind_inv in H. destruct H as (db & h1 & _ & H). apply bind_inv in H. destruct H as ([x y] & h2 & _ & H).
    cbn [run retp] in H. injection H as <- _. cbn [rC]. apply P, M.
Qed.

Lemma after_ints : forall p v h w, int_at h p w -> after p v h = mkHeap (upd (ints h) p v) (bufs h).
Proof.
  intros p v h w H. unfold after, setInt. cbn [run]. assert (L : (p < List.length (ints h))%nat) by (apply nth_error_Some; unfold int_at in H; congruence).
  apply Nat.ltb_lt in L. rewrite L. reflexivity.
Qed.
Lemma nth_upd_same : forall (l : list Z) p v, (p < List.length l)%nat -> nth_error (upd l p v) p = Some v.
Proof. induction l as [|a l IH]; intros p v H; [cbn in H; lia|]. destruct p as [|p]; [reflexivity|]. cbn [upd nth_error]. apply IH. cbn in H. lia. Qed.
Lemma nth_upd_other : forall (l : list Z) p q v, p <> q -> nth_error (upd l p v) q = nth_error l q.
Proof. induction l as [|a l IH]; intros p q v H; [reflexivity|]. destruct p as [|p], q as [|q]; try reflexivity; [contradiction|]. cbn [upd nth_error]. apply IH. lia. Qed.
Lemma after_same : forall p v h w, int_at h p w -> int_at (after p v h) p v.
Proof. intros p v h w H. rewrite (after_ints p v h w H). apply nth_upd_same. apply nth_error_Some. unfold int_at in H. congruence. Qed.
Lemma after_other : forall p v h w q u, int_at h p w -> p <> q -> int_at h q u -> int_at (after p v h) q u.
Proof. intros p v h w q u H N HQ. rewrite (after_ints p v h w H). unfold int_at. cbn [ints]. rewrite nth_upd_other by exact N. exact HQ. Qed.

Lemma get_run : forall A p (k : Z -> prog A) h v, int_at h p v -> bindp (getInt p) k h = k v h.
Proof. intros A p k h v H. unfold getInt. cbn [bindp run]. rewrite H. reflexivity. Qed.
Lemma newOf_run : forall A v (k : nat -> prog A) h, bindp (newOf v) k h = k (List.length (ints h)) (mkHeap (ints h ++ [v]) (bufs h)).
Proof.
  intros A v k h. unfold newOf, newInt, setInt. cbn [bindp run retp ints bufs]. rewrite app_length. cbn [List.length].
  replace (Nat.ltb (List.length (ints h)) (List.length (ints h) + 1)) with true by (symmetry; apply Nat.ltb_lt; lia).
  f_equal. f_equal. generalize (ints h) as l. induction l as [|a l IH]; [reflexivity|]. cbn [app List.length upd]. f_equal. exact IH.
Qed.

(** After the group order was overwritten by 1 or less through the curve of any key c, every key refuses every signature, whatever the numbers. *)
Theorem C127_verify : forall h g c k id idl m ml r s vr vs q n w, madePub g c -> madePub g k -> pub_at h k q -> int_at h (cN (gCurve g)) w -> n <= 1 ->
  id_at h g id idl -> slice_at h m ml -> int_at h r vr -> int_at h s vs ->
  agree eq (fst (VerifyByRSM g k id m r s h)) (VerifyByRS q idl ml vr vs) /\
  fst (VerifyByRSM g k id m r s (after (cN (rC c)) n h)) = Ret false.
Proof.
  intros h g c k id idl m ml r s vr vs q n w HC HK HQ HN LN HI HM HR HS. destruct (C127_one_curve g h) as (_ & _ & P).
  split; [apply (C103_verify h g k q id idl m ml r s vr vs HQ HI HM HR HS)|].
  rewrite (P c HC). set (h1 := after (cN (gCurve g)) n h). pose proof (after_same _ n _ _ HN) as N1. fold h1 in N1.
  assert (T : forall p v, int_at h p v -> exists v', int_at h1 p v').
  { intros p v HP. destruct (Nat.eq_dec (cN (gCurve g)) p) as [E|E]; [rewrite <- E; eauto|exists v; apply (after_other _ _ _ _ _ _ HN E HP)]. }
  destruct (T _ _ HR) as [vr' R1]. destruct (T _ _ HS) as [vs' S1].
  assert (X1 : forall p v, int_at h1 p v -> int_at (mkHeap (ints h1 ++ [1]) (bufs h1)) p v).
  { intros p v HP. unfold int_at in *. cbn [ints]. rewrite nth_error_app1; [exact HP|]. apply nth_error_Some. congruence. }
  unfold VerifyByRSM. rewrite newOf_run. rewrite (get_run _ _ _ _ vr' (X1 _ _ R1)). rewrite (get_run _ _ _ _ vs' (X1 _ _ S1)).
  rewrite (get_run _ _ _ _ 1) by (unfold int_at; cbn [ints]; rewrite nth_error_app2 by apply le_n; rewrite Nat.sub_diag; reflexivity).
  rewrite (P k HK). rewrite (get_run _ _ _ _ n (X1 _ _ N1)).
  destruct (Z.ltb_spec vr' 1); [reflexivity|]. destruct (Z.leb_spec n vr'); [reflexivity|lia].
Qed.

Lemma mult_run : forall A c x y k (f : nat * nat -> prog A) h, int_at h (cP c) curveP -> int_at h x 0 -> int_at h y 0 ->
  bindp (ScalarMultM c x y k) f h = f (List.length (ints h), S (List.length (ints h))) (mkHeap (ints h ++ [0; 0]) (bufs h)).
Proof.
  intros A c x y k f h HP HX HY. rewrite run_bind. unfold ScalarMultM. rewrite (get_run _ _ _ _ _ HP), (get_run _ _ _ _ _ HX), (get_run _ _ _ _ _ HY).
  rewrite curveP_eq, mult_origin. unfold liftp. cbn [bindp]. unfold newPair. rewrite !newOf_run. cbn [run retp ints bufs].
  rewrite app_length. cbn [List.length]. rewrite Nat.add_1_r, <- app_assoc. reflexivity.
Qed.
Lemma gen_zero : forall h g tape, int_at h (cP (gCurve g)) curveP -> int_at h (cN (gCurve g)) curveN -> int_at h (cGx (gCurve g)) 0 -> int_at h (cGy (gCurve g)) 0 ->
  match genkey_scalar curveN tape, GenerateKeyM g tape h with
  | (ERR e, t), (o, h') => o = Ret (ERR e, t) /\ h' = h
  | (OK d, t), (o, h') => exists p q, o = Ret (OK (p, q), t) /\ int_at h' (rD p) (be_dec d) /\ int_at h' (rX q) 0 /\ int_at h' (rY q) 0
  end.
Proof.
  intros h g tape HP HN HX HY. unfold GenerateKeyM. rewrite (get_run _ _ _ _ _ HN). destruct (genkey_scalar curveN tape) as [[d|e] t]; [|split; reflexivity].
  unfold ScalarBaseMultM. rewrite mult_run by assumption. rewrite newOf_run. cbn [run retp ints bufs].
  eexists. eexists. split; [reflexivity|]. cbn [rD rX rY]. unfold int_at. cbn [ints].
  rewrite <- app_assoc, app_length. cbn [List.length app].
  split; [|split]; rewrite nth_error_app2 by lia; [replace (List.length (ints h) + 2 - List.length (ints h))%nat with 2%nat by lia|rewrite Nat.sub_diag|replace (S (List.length (ints h)) - List.length (ints h))%nat with 1%nat by lia]; reflexivity.
Qed.

(** After the base point was overwritten by zeros through the curve GetSm2P256V1 returns, each key generated has the public key (0, 0),
    whatever is drawn, and so has the public key computed from any private key, made before or after. *)
Theorem C127_generate : forall h g c tape, globals_at h g -> NoDup [cP c; cA c; cB c; cN c; cGx c; cGy c] -> GetSm2P256V1 g h = (Ret c, h) ->
  let h1 := after (cGy c) 0 (after (cGx c) 0 h) in
  (forall p q t h2, GenerateKeyM g tape h1 = (Ret (OK (p, q), t), h2) -> 
     int_at h2 (rX q) 0 /\ int_at h2 (rY q) 0 /\ exists d, genkey_scalar curveN tape = (OK d, t) /\ int_at h2 (rD p) (be_dec d)) /\
  (forall p v, madePriv g p -> int_at h1 (rD p) v ->
     exists q h2, CalculatePubKeyM p h1 = (Ret q, h2) /\ int_at h2 (rX q) 0 /\ int_at h2 (rY q) 0).
Proof.
  intros h g c tape ((HP & HA & HB & HN & HX & HY) & _) ND HC h1. destruct (C127_one_curve g h) as (GC & PP & _). rewrite GC in HC. injection HC as <-.
  set (cv := gCurve g) in *.
  assert (D1 : forall (a b : nat) l, NoDup (a :: l) -> In b l -> a <> b) by (intros a b l N I E; inversion N; subst; contradiction).
  assert (N1 : cGx cv <> cP cv) by (apply not_eq_sym; apply (D1 _ _ _ ND); cbn; auto 10).
  assert (N2 : cGy cv <> cP cv) by (apply not_eq_sym; apply (D1 _ _ _ ND); cbn; auto 10).
  inversion_clear ND as [|? ? _ ND1]. inversion_clear ND1 as [|? ? _ ND2]. inversion_clear ND2 as [|? ? _ ND3].
  assert (N3 : cGx cv <> cN cv) by (apply not_eq_sym; apply (D1 _ _ _ ND3); cbn; auto 10).
  assert (N4 : cGy cv <> cN cv) by (apply not_eq_sym; apply (D1 _ _ _ ND3); cbn; auto 10).
  inversion_clear ND3 as [|? ? _ ND4].
  assert (N5 : cGy cv <> cGx cv) by (apply not_eq_sym; apply (D1 _ _ _ ND4); cbn; auto 10).
  assert (Y0 : int_at (after (cGx cv) 0 h) (cGy cv) curveGy) by (apply (after_other _ _ _ _ _ _ HX); [apply not_eq_sym, N5|exact HY]).
  assert (K : forall p v, cGx cv <> p -> cGy cv <> p -> int_at h p v -> int_at h1 p v).
  { intros p v A1 A2 HH. apply (after_other _ _ _ _ _ _ Y0 A2), (after_other _ _ _ _ _ _ HX A1), HH. }
  assert (X1 : int_at h1 (cGx cv) 0) by (apply (after_other _ _ _ _ _ _ Y0 N5), (after_same _ _ _ _ HX)).
  assert (Y1 : int_at h1 (cGy cv) 0) by (apply (after_same _ _ _ _ Y0)).
  pose proof (K _ _ N1 N2 HP) as P1. pose proof (K _ _ N3 N4 HN) as NN1.
  split.
  - intros p q t h2 E. pose proof (gen_zero h1 g tape P1 NN1 X1 Y1) as GZ. rewrite E in GZ. destruct (genkey_scalar curveN tape) as [[d|e] t'].
    + destruct GZ as (p' & q' & E1 & E0 & E2 & E3). injection E1 as <- <- <-. split; [exact E2|]. split; [exact E3|]. exists d. split; [reflexivity|exact E0].
    + destruct GZ as [E1 _]. discriminate E1.
  - intros p v MP HV. unfold CalculatePubKeyM. unfold BytesM. rewrite (PP p MP). fold cv. rewrite run_bind.
    rewrite (get_run _ _ _ _ v HV). cbn [run retp]. unfold ScalarBaseMultM. rewrite mult_run by assumption. cbn [run retp].
    eexists. eexists. split; [reflexivity|]. cbn [rX rY]. unfold int_at. cbn [ints]. split; rewrite nth_error_app2 by lia;
      [rewrite Nat.sub_diag|replace (S (List.length (ints h1)) - List.length (ints h1))%nat with 1%nat by lia]; reflexivity.
Qed.

(** So it is false that what is done to one key leaves the others alone: with the standard's sample signature. [other] is a key that has
    nothing to do with [signer]. *)
Theorem C127_apart_refuted : exists g h other signer msg r s, madePub g other /\ madePub g signer /\ globals_at h g /\
  fst (VerifyByRSM g signer None msg r s h) = Ret true /\
  fst (VerifyByRSM g signer None msg r s (after (cN (rC other)) 1 h)) = Ret false.
Proof.
  pose (g := mkGlobals (mkCurve 1 2 3 4 5 6) 0 (mkSl 0 0 16 16)).
  pose (l0 := [sm2H; curveP; curveA; curveB; curveN; curveGx; curveGy]).
  pose (raw := be_enc 32 (X std_pub) ++ be_enc 32 (Y std_pub)).
  pose (h := mkHeap (l0 ++ [X std_pub; Y std_pub; 2; 3; std_r; std_s]) [sm2SignDefaultUserId; std_msg]).
  assert (G : globals_at h g).
  { split; [repeat (split; [reflexivity|]); reflexivity|]. split; [reflexivity|]. split; [cbn; lia|]. split; [cbn; lia|]. split; [cbn; lia|reflexivity]. }
  assert (MS : madePub g (mkPubRef 7 8 (gCurve g))).
  { apply (MRawPub g (mkSl 0 0 64 64) (mkHeap l0 [raw]) _ (mkHeap (l0 ++ [X std_pub; Y std_pub]) [raw])). vm_compute. reflexivity. }
  assert (MO : madePub g (mkPubRef 9 10 (gCurve g))).
  { apply (MRawPub g (mkSl 0 0 64 64) (mkHeap (l0 ++ [7; 8]) [be_enc 32 2 ++ be_enc 32 3]) _ (mkHeap (l0 ++ [7; 8; 2; 3]) [be_enc 32 2 ++ be_enc 32 3])). vm_compute. reflexivity. }
  set (msg := mkSl 1 0 (List.length std_msg) (List.length std_msg)).
  assert (HM : slice_at h msg std_msg).
  { split; [cbn; lia|]. split; [cbn; lia|]. split; [cbn; lia|]. unfold view, h, msg. cbn [bufs s_buf s_off s_len nth skipn]. apply firstn_all. }
  assert (HP : pub_at h (mkPubRef 7 8 (gCurve g)) std_pub) by (split; [reflexivity|split; [reflexivity|apply G]]).
  assert (HN : int_at h (cN (gCurve g)) curveN) by apply G.
  assert (HI : id_at h g None None) by (split; [exact G|exact I]).
  assert (HR : int_at h 11 std_r) by reflexivity. assert (HS : int_at h 12 std_s) by reflexivity.
  destruct (C127_verify h g (mkPubRef 9 10 (gCurve g)) (mkPubRef 7 8 (gCurve g)) None None msg std_msg 11%nat 12%nat std_r std_s std_pub 1 curveN MO MS HP HN (Z.le_refl 1) HI HM HR HS) as [V1 V2].
  exists g, h, (mkPubRef 9 10 (gCurve g)), (mkPubRef 7 8 (gCurve g)), msg, 11%nat, 12%nat. split; [exact MO|]. split; [exact MS|]. split; [exact G|].
  split; [|exact V2]. rewrite C44_standard_sample in V1. destruct (fst (VerifyByRSM g (mkPubRef 7 8 (gCurve g)) None msg 11 12 h)) as [b|]; [cbn in V1; rewrite V1; reflexivity|destruct V1].
Qed.
(** Hypotheses of C127_generate: the memory after the package's initialisation. *)
Example C127_ex : exists g h, initGlobals (mkHeap [] []) = (Ret g, h) /\ globals_at h g /\
  NoDup [cP (gCurve g); cA (gCurve g); cB (gCurve g); cN (gCurve g); cGx (gCurve g); cGy (gCurve g)] /\
  int_at (after (cGx (gCurve g)) 0 h) (cGx (gCurve g)) 0.
Proof.
  exists (mkGlobals (mkCurve 1 2 3 4 5 6) 0 (mkSl 0 0 16 16)), (mkHeap [sm2H; curveP; curveA; curveB; curveN; curveGx; curveGy] [sm2SignDefaultUserId]).
  split; [reflexivity|]. split.
  { split; [repeat (split; [reflexivity|]); reflexivity|]. split; [reflexivity|]. split; [cbn; lia|]. split; [cbn; lia|]. split; [cbn; lia|reflexivity]. }
  split; [|reflexivity]. cbn. repeat (constructor; [cbn; intuition discriminate|]). constructor.
Qed.
