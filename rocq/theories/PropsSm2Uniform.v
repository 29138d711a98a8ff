(** Property C102: keys, ciphertexts and signatures are exactly as uniform as the random source. *)
From Coq Require Import ZArith List Lia String Bool.
From Verif Require Import GoBase BeMin Sm3Spec Primes Sm2Primes GoElliptic WeiGroup Sm2Group Sm2Order Sm2Spec Sm2 PropsCurve Sm2Proofs Sm2Proofs2 PropsSm2
  PropsSm2Sec Sm2Cyclic PropsSm2Full.
Import ListNotations.
Open Scope Z_scope.

(** All byte strings of a length, each once. *)
Definition all_bytes : list Z := map Z.of_nat (seq 0 256).
Fixpoint strings (n : nat) : list (list Z) :=
  match n with
  | Datatypes.O => [[]]
  | S n => flat_map (fun b => map (cons b) (strings n)) all_bytes
  end.
(** The number of random strings of [n] bytes that lead to the given outcome. *)
Definition chances (n : nat) (outcome : list Z -> bool) : nat := List.length (filter outcome (strings n)).

Lemma all_bytes_in : forall b, In b all_bytes <-> byte b.
Proof.
  intro b. unfold all_bytes, byte. rewrite in_map_iff. split.
  - intros (k & <- & H). apply in_seq in H. lia.
  - intro H. exists (Z.to_nat b). split; [lia|]. apply in_seq. lia.
Qed.
Lemma all_bytes_nodup : NoDup all_bytes.
Proof. unfold all_bytes. apply FinFun.Injective_map_NoDup; [intros a b H; lia|apply seq_NoDup]. Qed.

Lemma strings_in : forall n t, In t (strings n) <-> bytes t /\ List.length t = n.
Proof.
  induction n as [|n IH]; intro t; cbn [strings].
  - split; [intros [<-|[]]; split; [constructor|reflexivity]|]. intros [_ L]. destruct t; [left; reflexivity|discriminate].
  - rewrite in_flat_map. split.
    + intros (b & Hb & H). apply in_map_iff in H. destruct H as (u & <- & Hu). apply IH in Hu. apply all_bytes_in in Hb.
      split; [apply bytes_cons; tauto|cbn; lia].
    + intros [B L]. destruct t as [|b u]; [discriminate|]. apply bytes_cons in B. destruct B as [Bb Bu].
      exists b. split; [apply all_bytes_in; exact Bb|]. apply in_map, IH. split; [exact Bu|]. cbn in L. lia.
Qed.

Lemma nodup_prod : forall (l : list (list Z)) bs, NoDup l -> NoDup bs -> NoDup (flat_map (fun b => map (cons b) l) bs).
Proof.
  intros l bs Hl. induction bs as [|b bs IH]; intro H; [constructor|]. cbn [flat_map]. apply NoDup_cons_iff in H. destruct H as [Nb H].
  assert (A : forall x y, NoDup x -> NoDup y -> (forall t : list Z, In t x -> ~ In t y) -> NoDup (x ++ y)).
  { induction x as [|a x IHx]; intros y Hx Hy D; [exact Hy|]. cbn [app]. apply NoDup_cons_iff in Hx. destruct Hx as [Na Hx]. constructor.
    - rewrite in_app_iff. intros [Q|Q]; [exact (Na Q)|]. apply (D a); [left; reflexivity|exact Q].
    - apply IHx; [exact Hx|exact Hy|]. intros t Ht. apply D. right. exact Ht. }
  apply A; [|apply IH; exact H|].
  - apply FinFun.Injective_map_NoDup; [intros x y E; congruence|exact Hl].
  - intros t Ht Hf. apply in_map_iff in Ht. destruct Ht as (u & <- & _). apply in_flat_map in Hf. destruct Hf as (c & Hc & Hf).
    apply in_map_iff in Hf. destruct Hf as (u' & E & _). apply Nb. congruence.
Qed.
Lemma strings_nodup : forall n, NoDup (strings n).
Proof.
  induction n as [|n IH]; cbn [strings]; [repeat constructor; intros []|]. apply nodup_prod; [exact IH|apply all_bytes_nodup].
Qed.

Lemma chances_le : forall n (P Q : list Z -> bool) f,
  (forall t, bytes t -> bytes (f t) /\ List.length (f t) = List.length t) ->
  (forall t, bytes t -> f (f t) = t) ->
  (forall t, bytes t -> P t = true -> Q (f t) = true) -> (chances n P <= chances n Q)%nat.
Proof.
  intros n P Q f H1 H2 H3. unfold chances. rewrite <- (map_length f (filter P (strings n))). apply NoDup_incl_length.
  - assert (G : forall l, NoDup l -> Forall bytes l -> NoDup (map f l)).
    { induction l as [|a l IH]; intros ND HF; [constructor|]. cbn [map]. apply NoDup_cons_iff in ND. destruct ND as [Na ND].
      apply Forall_cons_iff in HF. destruct HF as [Ba HF]. constructor; [|apply IH; assumption].
      intro Hin. apply in_map_iff in Hin. destruct Hin as (u & E & Hu). apply Na.
      rewrite Forall_forall in HF. rewrite <- (H2 a Ba), <- E, H2 by (apply HF; exact Hu). exact Hu. }
    apply G; [apply NoDup_filter, strings_nodup|]. apply Forall_forall. intros t Ht. apply filter_In in Ht. destruct Ht as [Ht _]. apply strings_in in Ht. tauto.
  - intros t Ht. apply in_map_iff in Ht. destruct Ht as (u & <- & Hu). apply filter_In in Hu. destruct Hu as [Hu HP].
    apply strings_in in Hu. destruct Hu as [Bu Lu]. apply filter_In. destruct (H1 u Bu) as [B1 L1].
    split; [apply strings_in; split; [exact B1|lia]|apply H3; assumption].
Qed.
Lemma chances_eq : forall n (P Q : list Z -> bool) f,
  (forall t, bytes t -> bytes (f t) /\ List.length (f t) = List.length t) ->
  (forall t, bytes t -> f (f t) = t) ->
  (forall t, bytes t -> P t = true -> Q (f t) = true) -> (forall t, bytes t -> Q t = true -> P (f t) = true) -> chances n P = chances n Q.
Proof. intros n P Q f H1 H2 H3 H4. apply Nat.le_antisymm; apply (chances_le n _ _ f); assumption. Qed.

(** * Exchanging two blocks wherever they occur in a tape *)
Definition sw (b1 b2 b : list Z) : list Z :=
  if list_eq_dec Z.eq_dec b b1 then b2 else if list_eq_dec Z.eq_dec b b2 then b1 else b.
Fixpoint swaps_f (f : nat) (b1 b2 t : list Z) : list Z :=
  match f with
  | Datatypes.O => t
  | S f => if Nat.ltb (List.length t) 32 then t else sw b1 b2 (firstn 32 t) ++ swaps_f f b1 b2 (skipn 32 t)
  end.
Definition swaps (b1 b2 t : list Z) : list Z := swaps_f (List.length t) b1 b2 t.

Lemma swaps_fuel : forall f g b1 b2 t, (List.length t <= f)%nat -> (List.length t <= g)%nat -> swaps_f f b1 b2 t = swaps_f g b1 b2 t.
Proof.
  induction f as [|f IH]; intros [|g] b1 b2 t Hf Hg; cbn [swaps_f]; try reflexivity.
  - destruct (Nat.ltb_spec (List.length t) 32); [reflexivity|lia].
  - destruct (Nat.ltb_spec (List.length t) 32); [reflexivity|lia].
  - destruct (Nat.ltb_spec (List.length t) 32); [reflexivity|]. rewrite (IH g) by (rewrite skipn_length; lia). reflexivity.
Qed.
Lemma swaps_short : forall b1 b2 t, (List.length t < 32)%nat -> swaps b1 b2 t = t.
Proof.
  intros b1 b2 t H. unfold swaps. destruct (List.length t) eqn:E; [reflexivity|]. cbn [swaps_f].
  rewrite E. destruct (Nat.ltb_spec (S n) 32); [reflexivity|lia].
Qed.
Lemma swaps_step : forall b1 b2 t, (32 <= List.length t)%nat -> swaps b1 b2 t = sw b1 b2 (firstn 32 t) ++ swaps b1 b2 (skipn 32 t).
Proof.
  intros b1 b2 t H. unfold swaps at 1. destruct (List.length t) eqn:E; [lia|]. cbn [swaps_f].
  rewrite E. destruct (Nat.ltb_spec (S n) 32); [lia|]. unfold swaps.
  rewrite (swaps_fuel n (List.length (skipn 32 t))) by (rewrite ?skipn_length; lia). reflexivity.
Qed.

Lemma tape_ind : forall P : list Z -> Prop, (forall t, (List.length t < 32)%nat -> P t) ->
  (forall t, (32 <= List.length t)%nat -> P (skipn 32 t) -> P t) -> forall t, P t.
Proof.
  intros P H0 H1. assert (G : forall n t, (List.length t <= n)%nat -> P t).
  { induction n as [|n IH]; intros t L; [apply H0; lia|]. destruct (le_lt_dec 32 (List.length t)); [|apply H0; lia].
    apply H1; [assumption|]. apply IH. rewrite skipn_length. lia. }
  intro t. apply (G (List.length t)). apply le_n.
Qed.

Section Swap.
Variables b1 b2 : list Z.
Hypothesis L1 : List.length b1 = 32%nat.
Hypothesis L2 : List.length b2 = 32%nat.
Hypothesis B1 : bytes b1.
Hypothesis B2 : bytes b2.

Lemma sw_len : forall b, List.length b = 32%nat -> List.length (sw b1 b2 b) = 32%nat.
Proof. intros b H. unfold sw. destruct list_eq_dec; [exact L2|]. destruct list_eq_dec; [exact L1|exact H]. Qed.
Lemma sw_bytes : forall b, bytes b -> bytes (sw b1 b2 b).
Proof. intros b H. unfold sw. destruct list_eq_dec; [exact B2|]. destruct list_eq_dec; [exact B1|exact H]. Qed.
Lemma sw_sw : forall b, sw b1 b2 (sw b1 b2 b) = b.
Proof.
  intros b. unfold sw. destruct (list_eq_dec Z.eq_dec b b1) as [E|N].
  - destruct (list_eq_dec Z.eq_dec b2 b1); [congruence|]. destruct (list_eq_dec Z.eq_dec b2 b2); congruence.
  - destruct (list_eq_dec Z.eq_dec b b2) as [E|N'].
    + destruct (list_eq_dec Z.eq_dec b1 b1); congruence.
    + destruct (list_eq_dec Z.eq_dec b b1); [congruence|]. destruct (list_eq_dec Z.eq_dec b b2); congruence.
Qed.
Lemma first_len : forall t : list Z, (32 <= List.length t)%nat -> List.length (firstn 32 t) = 32%nat.
Proof. intros t H. rewrite firstn_length. lia. Qed.
Lemma swaps_ok : forall t, bytes t -> bytes (swaps b1 b2 t) /\ List.length (swaps b1 b2 t) = List.length t.
Proof.
  refine (tape_ind _ _ _); intros t H.
  - intro B. rewrite swaps_short by exact H. split; [exact B|reflexivity].
  - intros IH B. rewrite swaps_step by exact H. destruct (IH (bytes_skipn _ _ B)) as [IB IL]. split.
    + apply bytes_app. split; [apply sw_bytes, bytes_firstn, B|exact IB].
    + rewrite app_length, IL, sw_len, skipn_length by (apply first_len, H). lia.
Qed.
Lemma swaps_parts : forall t, (32 <= List.length t)%nat ->
  firstn 32 (swaps b1 b2 t) = sw b1 b2 (firstn 32 t) /\ skipn 32 (swaps b1 b2 t) = swaps b1 b2 (skipn 32 t).
Proof.
  intros t H. rewrite swaps_step by exact H. pose proof (sw_len _ (first_len t H)) as E. split.
  - rewrite firstn_app, E, Nat.sub_diag, firstn_all2 by lia. cbn [firstn]. apply app_nil_r.
  - rewrite skipn_app, E, Nat.sub_diag, skipn_all2 by lia. reflexivity.
Qed.
Lemma swaps_swaps : forall t, bytes t -> swaps b1 b2 (swaps b1 b2 t) = t.
Proof.
  refine (tape_ind _ _ _); intros t H.
  - intros _. rewrite (swaps_short b1 b2 t) by exact H. apply swaps_short, H.
  - intros IH B. rewrite (swaps_step b1 b2 (swaps b1 b2 t)) by (rewrite (proj2 (swaps_ok t B)); exact H).
    destruct (swaps_parts t H) as [-> ->]. rewrite sw_sw, IH by (apply bytes_skipn, B). apply firstn_skipn.
Qed.
Lemma swaps_block : forall i t, bytes t -> (32 * (i + 1) <= List.length t)%nat ->
  firstn 32 (skipn (32 * i) (swaps b1 b2 t)) = sw b1 b2 (firstn 32 (skipn (32 * i) t)).
Proof.
  induction i as [|i IH]; intros t B H.
  - apply (swaps_parts t). lia.
  - replace (32 * S i)%nat with (32 * i + 32)%nat by lia. rewrite <- !skipn_skipn.
    rewrite (proj2 (swaps_parts t ltac:(lia))). apply IH; [apply bytes_skipn, B|rewrite skipn_length; lia].
Qed.

(** The same exchange on the numbers the blocks stand for. *)
Definition swz (k : Z) : Z := if k =? be_dec b1 then be_dec b2 else if k =? be_dec b2 then be_dec b1 else k.
Lemma sw_dec : forall b, bytes b -> List.length b = 32%nat -> be_dec (sw b1 b2 b) = swz (be_dec b).
Proof.
  intros b B L. unfold sw, swz. destruct (list_eq_dec Z.eq_dec b b1) as [E|N].
  - rewrite E, Z.eqb_refl. reflexivity.
  - destruct (Z.eqb_spec (be_dec b) (be_dec b1)) as [E|_]; [exfalso; apply N, be_dec_inj; congruence|].
    destruct (list_eq_dec Z.eq_dec b b2) as [E|N2]; [rewrite E, Z.eqb_refl; reflexivity|].
    destruct (Z.eqb_spec (be_dec b) (be_dec b2)) as [E|_]; [exfalso; apply N2, be_dec_inj; congruence|reflexivity].
Qed.
Hypothesis R1 : 1 <= be_dec b1 < sm2n.
Hypothesis R2 : 1 <= be_dec b2 < sm2n.
Lemma swz_range : forall k, ((1 <=? swz k) && (swz k <? sm2n)) = ((1 <=? k) && (k <? sm2n)).
Proof.
  intro k. unfold swz. destruct (Z.eqb_spec k (be_dec b1)) as [->|_].
  - transitivity true; [|symmetry]; apply andb_true_intro; split; (apply Z.leb_le || apply Z.ltb_lt); lia.
  - destruct (Z.eqb_spec k (be_dec b2)) as [->|_]; [|reflexivity].
    transitivity true; [|symmetry]; apply andb_true_intro; split; (apply Z.leb_le || apply Z.ltb_lt); lia.
Qed.
Lemma swaps_nonces : forall t, bytes t -> nonces (swaps b1 b2 t) = map (fun kr => (swz (fst kr), swaps b1 b2 (snd kr))) (nonces t).
Proof.
  refine (tape_ind _ _ _); intros t H.
  - intros _. rewrite swaps_short, nonces_short by exact H. reflexivity.
  - intros IH B. rewrite (nonces_step t H). rewrite nonces_step by (rewrite (proj2 (swaps_ok t B)); exact H). cbv zeta.
    destruct (swaps_parts t H) as [-> ->]. rewrite sw_dec, swz_range by (try apply bytes_firstn, B; apply first_len, H).
    rewrite (IH (bytes_skipn _ _ B)). destruct ((1 <=? be_dec (firstn 32 t)) && (be_dec (firstn 32 t) <? sm2n)); reflexivity.
Qed.
End Swap.

(** * Keys *)
Definition gives_key (d : Z) (tape : list Z) : bool :=
  match GenerateKey tape with Ret (OK (priv, _), _) => D priv =? d | _ => false end.

(** GenerateKey flips two bits of the second byte. *)
Definition flip (l : list Z) : list Z := match l with b0 :: b1 :: bs => b0 :: Z.lxor b1 0x42 :: bs | _ => l end.
Lemma flip_flip : forall l, flip (flip l) = l.
Proof.
  intros [|b0 [|b1 bs]]; try reflexivity. cbn [flip]. rewrite Z.lxor_assoc, Z.lxor_nilpotent, Z.lxor_0_r. reflexivity.
Qed.
Lemma flip_len : forall l, List.length (flip l) = List.length l.
Proof. intros [|b0 [|b1 bs]]; reflexivity. Qed.
Lemma flip_bytes : forall l, bytes l -> bytes (flip l).
Proof.
  intros [|b0 [|b1 bs]] H; try exact H. cbn [flip]. apply bytes_cons in H. destruct H as [H0 H]. apply bytes_cons in H. destruct H as [H1 H].
  apply bytes_cons. split; [exact H0|]. apply bytes_cons. split; [apply lxor_byte; [exact H1|unfold byte; lia]|exact H].
Qed.
Lemma key_draw_flip : forall t i, key_draw t i = be_dec (flip (firstn 32 (skipn (32 * i) t))).
Proof. intros t i. unfold key_draw. destruct (firstn 32 (skipn (32 * i) t)) as [|b0 [|b1 bs]]; reflexivity. Qed.

Lemma key_moves : forall d1 d2 t, 0 <= d1 < sm2n -> 0 <= d2 < sm2n -> bytes t ->
  gives_key d1 t = true -> gives_key d2 (swaps (flip (b32 d1)) (flip (b32 d2)) t) = true.
Proof.
  intros d1 d2 t R1 R2 B. set (b1 := flip (b32 d1)). set (b2 := flip (b32 d2)). pose proof sm2n_lt as LT.
  assert (L1 : List.length b1 = 32%nat) by (unfold b1; rewrite flip_len; apply b32_length).
  assert (L2 : List.length b2 = 32%nat) by (unfold b2; rewrite flip_len; apply b32_length).
  assert (B1 : bytes b1) by (apply flip_bytes, b32_bytes). assert (B2 : bytes b2) by (apply flip_bytes, b32_bytes).
  assert (D1 : be_dec (flip b1) = d1) by (unfold b1; rewrite flip_flip; apply b32_dec; lia).
  assert (D2 : be_dec (flip b2) = d2) by (unfold b2; rewrite flip_flip; apply b32_dec; lia).
  destruct (swaps_ok b1 b2 L1 L2 B1 B2 t B) as [BS LS].
  unfold gives_key. destruct (C42_generate_key t B) as [(i & priv & pub & -> & LI & DI & LO & R & _)|(e & _ & -> & _)]; [|discriminate].
  intro E. apply Z.eqb_eq in E. rewrite curveN_eq in *.
  assert (SM : forall j, (j < i)%nat -> key_draw (swaps b1 b2 t) j = key_draw t j).
  { intros j Hj. rewrite !key_draw_flip, (swaps_block b1 b2 L1 L2) by (try exact B; lia). specialize (LO j Hj). rewrite key_draw_flip in LO.
    unfold sw. destruct list_eq_dec as [Q|_]; [rewrite Q, D1 in LO; lia|]. destruct list_eq_dec as [Q|_]; [rewrite Q, D2 in LO; lia|reflexivity]. }
  assert (SI : key_draw (swaps b1 b2 t) i = d2).
  { rewrite key_draw_flip, (swaps_block b1 b2 L1 L2) by (try exact B; lia). unfold sw. destruct list_eq_dec as [_|Q]; [exact D2|]. exfalso. apply Q.
    assert (LB : List.length (firstn 32 (skipn (32 * i) t)) = 32%nat) by (rewrite firstn_length, skipn_length; lia).
    rewrite <- (flip_flip (firstn 32 (skipn (32 * i) t))). unfold b1. f_equal. apply be_dec_inj.
    - apply flip_bytes, bytes_firstn, bytes_skipn, B.
    - apply b32_bytes.
    - rewrite flip_len, LB, b32_length. reflexivity.
    - rewrite <- key_draw_flip, <- DI, E, b32_dec by lia. reflexivity. }
  destruct (C42_generate_key (swaps b1 b2 t) BS) as [(i' & priv' & pub' & -> & LI' & DI' & LO' & R' & _)|(e & _ & _ & LO')]; rewrite curveN_eq in *.
  - apply Z.eqb_eq. rewrite DI'. destruct (Nat.lt_trichotomy i' i) as [Q|[->|Q]]; [|exact SI|].
    + specialize (LO i' Q). rewrite <- SM in LO by exact Q. lia.
    + specialize (LO' i Q). lia.
  - specialize (LO' i ltac:(lia)). lia.
Qed.

(** Every private scalar from 0 to N-1 is the result on the same number of random strings of any given length. *)
Theorem C102_keys : forall n d1 d2, 0 <= d1 < curveN -> 0 <= d2 < curveN -> chances n (gives_key d1) = chances n (gives_key d2).
Proof.
  intros n d1 d2 R1 R2. rewrite curveN_eq in *.
  assert (G : forall a b, 0 <= a < sm2n -> 0 <= b < sm2n -> (chances n (gives_key a) <= chances n (gives_key b))%nat).
  { intros a b Ra Rb. assert (LF : forall x, List.length (flip (b32 x)) = 32%nat) by (intro; rewrite flip_len; apply b32_length).
    assert (BF : forall x, bytes (flip (b32 x))) by (intro; apply flip_bytes, b32_bytes).
    apply (chances_le n _ _ (swaps (flip (b32 a)) (flip (b32 b)))).
    - apply swaps_ok; auto.
    - apply swaps_swaps; auto.
    - intros t B. apply key_moves; assumption. }
  apply Nat.le_antisymm; apply G; assumption.
Qed.

(** * Ciphertexts *)
Definition gives_ciphertext (pub : Sm2.PublicKey) (m : list Z) (t : Z) (c tape : list Z) : bool :=
  match Encrypt pub m t tape with Ret (OK c', _) => if list_eq_dec Z.eq_dec c' c then true else false | _ => false end.

Lemma halves : forall a b c d : list Z, List.length a = List.length c -> a ++ b = c ++ d -> a = c /\ b = d.
Proof.
  induction a as [|x a IH]; intros b [|y c] d L E; try discriminate; [split; [reflexivity|exact E]|].
  cbn in L, E. destruct (IH b c d ltac:(lia) ltac:(congruence)) as [-> ->]. split; [congruence|reflexivity].
Qed.
Lemma nonces_range : forall tape k r, In (k, r) (nonces tape) -> 1 <= k < sm2n.
Proof.
  refine (tape_ind _ _ _); intros t H.
  - intros k r. rewrite nonces_short by exact H. intros [].
  - intros IH k r. rewrite nonces_step by exact H. cbv zeta. destruct ((1 <=? be_dec (firstn 32 t)) && (be_dec (firstn 32 t) <? sm2n)) eqn:E; [|apply IH].
    intros [Q|Q]; [|exact (IH _ _ Q)]. apply pair_equal_spec in Q. destruct Q as [<- _]. apply andb_true_iff in E. rewrite Z.leb_le, Z.ltb_lt in E. exact E.
Qed.
Lemma point_bytes_multiple : forall k k', 1 <= k < sm2n -> 1 <= k' < sm2n -> point_bytes (pmul k G) = point_bytes (pmul k' G) -> k = k'.
Proof.
  intros k k' R R' E. apply multiple_unique; [lia|lia|]. apply enc_inj; [apply pmul_on, G_on|apply pmul_on, G_on|].
  revert E. generalize (pmul k G) (pmul k' G). intros P Q E. unfold point_bytes in E.
  destruct (halves _ _ _ _ (eq_trans (b32_length _) (eq_sym (b32_length _))) E) as [E1 E2]. rewrite !enc_xy.
  rewrite <- (b32_dec (xc P)), <- (b32_dec (yc P)), E1, E2, !b32_dec by (apply xc_range || apply yc_range). reflexivity.
Qed.

Lemma ciphertext_moves : forall pub m t c1 k1 k2 tape, on_curve (dec (X pub) (Y pub)) -> good_msg m -> bytes tape ->
  1 <= k1 < sm2n -> 1 <= k2 < sm2n -> masks (dec (X pub) (Y pub)) m k1 = true -> masks (dec (X pub) (Y pub)) m k2 = true -> (t = 1 \/ t = 2) ->
  c1 = ciphertext (dec (X pub) (Y pub)) m k1 t -> gives_ciphertext pub m t c1 tape = true ->
  gives_ciphertext pub m t (ciphertext (dec (X pub) (Y pub)) m k2 t) (swaps (b32 k1) (b32 k2) tape) = true.
Proof.
  intros pub m t c1 k1 k2 tape On (BM & NM & LM) B R1 R2 M1 M2 HT -> H. pose proof sm2n_lt as LT.
  assert (D1 : be_dec (b32 k1) = k1) by (apply b32_dec; lia). assert (D2 : be_dec (b32 k2) = k2) by (apply b32_dec; lia).
  destruct (swaps_ok (b32 k1) (b32 k2) (b32_length _) (b32_length _) (b32_bytes _) (b32_bytes _) tape B) as [BS LS].
  assert (TT : ((t =? 1) || (t =? 2)) = true) by (destruct HT as [-> | ->]; reflexivity).
  unfold gives_ciphertext in *. pose proof (Encrypt_ok pub m t tape B BM On LM NM) as E.
  pose proof (Encrypt_ok pub m t _ BS BM On LM NM) as E'. rewrite TT in *.
  rewrite (swaps_nonces (b32 k1) (b32 k2)) in E' by (try apply b32_length; try apply b32_bytes; try exact B; rewrite ?D1, ?D2; assumption).
  revert E E' H. generalize (dec (X pub) (Y pub)) M1 M2. intros P M1' M2'.
  assert (F : find (fun kr => masks P m (fst kr)) (map (fun kr => (swz (b32 k1) (b32 k2) (fst kr), swaps (b32 k1) (b32 k2) (snd kr))) (nonces tape)) =
              match find (fun kr => masks P m (fst kr)) (nonces tape) with
              | Some kr => Some (swz (b32 k1) (b32 k2) (fst kr), swaps (b32 k1) (b32 k2) (snd kr)) | None => None end).
  { induction (nonces tape) as [|[k r] l IH]; [reflexivity|]. cbn [map find fst snd].
    assert (Q : masks P m (swz (b32 k1) (b32 k2) k) = masks P m k).
    { unfold swz. rewrite D1, D2. destruct (Z.eqb_spec k k1) as [->|_]; [congruence|]. destruct (Z.eqb_spec k k2) as [->|_]; congruence. }
    rewrite Q. destruct (masks P m k); [reflexivity|exact IH]. }
  rewrite F. destruct (find (fun kr => masks P m (fst kr)) (nonces tape)) as [[k r]|] eqn:FN.
  - cbn [fst snd]. intros E E' H. rewrite E in H. destruct list_eq_dec as [Q|_] in H; [|discriminate].
    assert (k = k1) as ->.
    { apply find_some in FN. destruct FN as [IN _]. apply nonces_range in IN. apply point_bytes_multiple; [exact IN|exact R1|].
      destruct (ciphertext_parts P m k t) as (_ & F1 & _). destruct (ciphertext_parts P m k1 t) as (_ & F2 & _). rewrite Q, F2 in F1. congruence. }
    rewrite E'. unfold swz. rewrite D1, D2, Z.eqb_refl. destruct list_eq_dec; congruence.
  - intros (e & _ & E) _ H. rewrite E in H. discriminate.
Qed.

Theorem C102_ciphertexts : forall n pub m t c1 c2, valid (X pub, Y pub) -> good_msg m ->
  (exists tape rest, bytes tape /\ Encrypt pub m t tape = Ret (OK c1, rest)) ->
  (exists tape rest, bytes tape /\ Encrypt pub m t tape = Ret (OK c2, rest)) ->
  chances n (gives_ciphertext pub m t c1) = chances n (gives_ciphertext pub m t c2).
Proof.
  intros n pub m t c1 c2 V GM. destruct (valid_on _ _ V) as [On _]. pose proof GM as (BM & NM & LM).
  assert (K : forall c, (exists tape rest, bytes tape /\ Encrypt pub m t tape = Ret (OK c, rest)) -> (t = 1 \/ t = 2) /\
    exists k, 1 <= k < sm2n /\ masks (dec (X pub) (Y pub)) m k = true /\ c = ciphertext (dec (X pub) (Y pub)) m k t).
  { intros c (tape & rest & B & E). pose proof (Encrypt_ok pub m t tape B BM On LM NM) as H. 
    destruct (find (fun kr => masks (dec (X pub) (Y pub)) m (fst kr)) (nonces tape)) as [[k r]|] eqn:FN.
    - rewrite H in E. destruct ((t =? 1) || (t =? 2)) eqn:T; [|apply ret_inj in E; discriminate].
      split; [apply orb_true_iff in T; rewrite !Z.eqb_eq in T; exact T|].
      apply find_some in FN. destruct FN as [IN M]. apply nonces_range in IN. exists k. split; [exact IN|]. split; [exact M|]. 
      apply ret_inj in E. congruence.
    - destruct H as (e & _ & H). rewrite H in E. apply ret_inj in E. discriminate. }
  intros H1 H2. destruct (K _ H1) as (T & k1 & R1 & M1 & ->). destruct (K _ H2) as (_ & k2 & R2 & M2 & ->).
  assert (G : forall a b, 1 <= a < sm2n -> 1 <= b < sm2n -> masks (dec (X pub) (Y pub)) m a = true -> masks (dec (X pub) (Y pub)) m b = true ->
    (chances n (gives_ciphertext pub m t (ciphertext (dec (X pub) (Y pub)) m a t)) <= chances n (gives_ciphertext pub m t (ciphertext (dec (X pub) (Y pub)) m b t)))%nat).
  { intros a b Ra Rb Ma Mb. apply (chances_le n _ _ (swaps (b32 a) (b32 b))).
    - apply swaps_ok; (apply b32_length || apply b32_bytes).
    - apply swaps_swaps; (apply b32_length || apply b32_bytes).
    - intros tape B H. exact (ciphertext_moves pub m t _ a b tape On GM B Ra Rb Ma Mb T eq_refl H). }
  apply Nat.le_antisymm; apply G; assumption.
Qed.

(** * Signatures *)
Definition gives_signature (priv : Sm2.PrivateKey) (id : option (list Z)) (m : list Z) (r s : Z) (tape : list Z) : bool :=
  match SignToRS priv id m tape with Ret (OK (r', s'), _) => (r' =? r) && (s' =? s) | _ => false end.

Lemma one_nonce : forall d e k k' r s, 1 <= k < sm2n -> 1 <= k' < sm2n -> signature d e k r s -> signature d e k' r s -> k = k'.
Proof.
  intros d e k k' r s R R' S S'. destruct (signature_linear _ _ _ _ _ R S) as [L1 _]. destruct (signature_linear _ _ _ _ _ R' S') as [L2 _].
  assert (L : (sm2n | k' - k)). { replace (k' - k) with ((d * (r + s) - (k - s)) - (d * (r + s) - (k' - s))) by ring. apply Z.divide_sub_r; assumption. }
  apply modn_small in L; lia.
Qed.
Lemma signature_moves : forall priv id m k1 k2 r1 s1 r2 s2 tape, 0 <= D priv -> good_id id -> good_msg m -> bytes tape ->
  1 <= k1 < sm2n -> 1 <= k2 < sm2n -> signature (D priv) (sig_e (D priv) id m) k1 r1 s1 -> signature (D priv) (sig_e (D priv) id m) k2 r2 s2 ->
  gives_signature priv id m r1 s1 tape = true -> gives_signature priv id m r2 s2 (swaps (b32 k1) (b32 k2) tape) = true.
Proof.
  intros priv id m k1 k2 r1 s1 r2 s2 tape Hd GI GM B R1 R2 S1 S2 H. pose proof sm2n_lt as LT.
  assert (D1 : be_dec (b32 k1) = k1) by (apply b32_dec; lia). assert (D2 : be_dec (b32 k2) = k2) by (apply b32_dec; lia).
  destruct (swaps_ok (b32 k1) (b32 k2) (b32_length _) (b32_length _) (b32_bytes _) (b32_bytes _) tape B) as [BS LS].
  unfold gives_signature in *.
  destruct (SignToRS_ok priv id m tape Hd GI GM B) as [(k & rest & pre & post & r & s & E & S & R & N & F)|(er & _ & E & _)]; rewrite E in H; [|discriminate].
  apply andb_true_iff in H. rewrite !Z.eqb_eq in H. destruct H as [-> ->]. pose proof (one_nonce _ _ _ _ _ _ R R1 S S1) as ->.
  pose proof (swaps_nonces (b32 k1) (b32 k2) (b32_length _) (b32_length _) (b32_bytes _) (b32_bytes _) ltac:(rewrite D1; exact R1) ltac:(rewrite D2; exact R2) tape B) as NS.
  rewrite N, map_app in NS. cbn [map fst snd] in NS.
  assert (Q : swz (b32 k1) (b32 k2) k1 = k2) by (unfold swz; rewrite D1, D2, Z.eqb_refl; reflexivity). rewrite Q in NS.
  rewrite (C45_first_signature priv id m _ _ _ _ _ r2 s2 Hd GI GM BS NS); [rewrite !Z.eqb_refl; reflexivity| |exact S2].
  apply Forall_forall. intros x Hx. apply in_map_iff in Hx. destruct Hx as ([k r] & <- & Hx). rewrite Forall_forall in F. specialize (F _ Hx).
  unfold no_sig in *. cbn [fst] in *. unfold swz. rewrite D1, D2.
  destruct (Z.eqb_spec k k1) as [->|_]; [exfalso; exact (F _ _ S1)|]. destruct (Z.eqb_spec k k2) as [->|_]; [exfalso; exact (F _ _ S2)|exact F].
Qed.

Theorem C102_signatures : forall n priv id m r1 s1 r2 s2, 0 <= D priv -> good_id id -> good_msg m ->
  (exists tape rest, bytes tape /\ SignToRS priv id m tape = Ret (OK (r1, s1), rest)) ->
  (exists tape rest, bytes tape /\ SignToRS priv id m tape = Ret (OK (r2, s2), rest)) ->
  chances n (gives_signature priv id m r1 s1) = chances n (gives_signature priv id m r2 s2).
Proof.
  intros n priv id m r1 s1 r2 s2 Hd GI GM.
  assert (K : forall r s, (exists tape rest, bytes tape /\ SignToRS priv id m tape = Ret (OK (r, s), rest)) ->
    exists k, 1 <= k < sm2n /\ signature (D priv) (sig_e (D priv) id m) k r s).
  { intros r s (tape & rest & B & E).
    destruct (SignToRS_ok priv id m tape Hd GI GM B) as [(k & rest' & pre & post & r' & s' & E' & S & R & N & F)|(er & _ & E' & _)]; rewrite E' in E; apply ret_inj in E; [|discriminate].
    exists k. split; [exact R|]. replace r with r' by congruence. replace s with s' by congruence. exact S. }
  intros H1 H2. destruct (K _ _ H1) as (k1 & R1 & S1). destruct (K _ _ H2) as (k2 & R2 & S2).
  apply Nat.le_antisymm; [apply (chances_le n _ _ (swaps (b32 k1) (b32 k2)))|apply (chances_le n _ _ (swaps (b32 k2) (b32 k1)))];
    try (apply swaps_ok; (apply b32_length || apply b32_bytes)); try (apply swaps_swaps; (apply b32_length || apply b32_bytes));
    intros tape B; apply signature_moves; assumption.
Qed.

(** The numbers are not zero: a string of the given length with the outcome counts. *)
Lemma chances_pos : forall n P t, bytes t -> List.length t = n -> P t = true -> (0 < chances n P)%nat.
Proof.
  intros n P t B L H. unfold chances. assert (I : In t (filter P (strings n))) by (apply filter_In; split; [apply strings_in; auto|exact H]).
  destruct (filter P (strings n)); [destruct I|cbn; lia].
Qed.
Theorem C102_every_key_possible : forall n d, (32 <= n)%nat -> 0 <= d < curveN -> (0 < chances n (gives_key d))%nat.
Proof.
  intros n d L R. rewrite curveN_eq in R. pose proof sm2n_lt as LT.
  assert (LB : List.length (flip (b32 d)) = 32%nat) by (rewrite flip_len; apply b32_length).
  apply (chances_pos n _ (flip (b32 d) ++ repeat 0 (n - 32))).
  - apply bytes_app. split; [apply flip_bytes, b32_bytes|]. apply Forall_forall. intros b H. apply repeat_spec in H. rewrite H. unfold byte. lia.
  - rewrite app_length, LB, repeat_length. lia.
  - set (t := flip (b32 d) ++ repeat 0 (n - 32)). unfold gives_key.
    assert (D0 : key_draw t 0 = d).
    { rewrite key_draw_flip. change (skipn (32 * 0) t) with t. unfold t. rewrite firstn_app, LB, Nat.sub_diag, firstn_all2 by lia. cbn [firstn].
      rewrite app_nil_r, flip_flip. apply b32_dec. lia. }
    assert (LT' : (32 * (0 + 1) <= List.length t)%nat) by (unfold t; rewrite app_length, LB; lia).
    assert (BT : bytes t).
    { apply bytes_app. split; [apply flip_bytes, b32_bytes|]. apply Forall_forall. intros b H. apply repeat_spec in H. rewrite H. unfold byte. lia. }
    destruct (C42_generate_key t BT) as [([|i] & priv & pub & -> & _ & DI & LO & _)|(e & _ & _ & LO)]; rewrite ?curveN_eq in *.
    + apply Z.eqb_eq. congruence.
    + specialize (LO 0%nat ltac:(lia)). lia.
    + specialize (LO 0%nat LT'). lia.
Qed.

(** With 32 random bytes: the key 5 is as likely as the key N-1; two different signatures and two different ciphertexts
    of one message are possible, so equally likely. *)
Definition ex_tape2 : list Z := be_enc 32 2.
Lemma ex_tape2_bytes : bytes ex_tape2. Proof. apply be_enc_bytes. Qed.
Example C102_ex :
  (chances 32 (gives_key 5) = chances 32 (gives_key (curveN - 1)) /\ (0 < chances 32 (gives_key 5))%nat) /\
  (exists r s, (r, s) <> ex_sig /\ (0 < chances 32 (gives_signature ex_priv None ex_msg r s))%nat /\
     chances 32 (gives_signature ex_priv None ex_msg (fst ex_sig) (snd ex_sig)) = chances 32 (gives_signature ex_priv None ex_msg r s)) /\
  (exists c c', c <> c' /\ (0 < chances 32 (gives_ciphertext ex_pub ex_msg 1 c))%nat /\
     chances 32 (gives_ciphertext ex_pub ex_msg 1 c) = chances 32 (gives_ciphertext ex_pub ex_msg 1 c')).
Proof.
  split; [split; [apply C102_keys; rewrite curveN_eq; split; reflexivity || discriminate|apply C102_every_key_possible; [lia|rewrite curveN_eq; split; reflexivity || discriminate]]|]. split.
  - assert (H : (match SignToRS ex_priv None ex_msg ex_tape2 with Ret (OK (r, _), _) => r =? fst ex_sig | _ => true end) = false) by (vm_compute; reflexivity).
    destruct (SignToRS ex_priv None ex_msg ex_tape2) as [[[[r s]|e] rest]|p] eqn:E; [|discriminate H|discriminate H].
    exists r, s. split; [|split].
    + intros Q. rewrite <- Q in H. cbn [fst] in H. rewrite Z.eqb_refl in H. discriminate H.
    + apply (chances_pos 32 _ ex_tape2 ex_tape2_bytes); [reflexivity|]. unfold gives_signature. rewrite E, !Z.eqb_refl. reflexivity.
    + apply C102_signatures; [discriminate|exact I|exact ex_msg_good|exists ex_tape, []|exists ex_tape2, rest].
      * split; [exact ex_tape_bytes|]. rewrite (proj1 C85_ex_sign). destruct ex_sig; reflexivity.
      * split; [exact ex_tape2_bytes|exact E].
  - assert (H : (match Encrypt ex_pub ex_msg 1 ex_tape2, Encrypt ex_pub ex_msg 1 ex_tape with Ret (OK a, _), Ret (OK b, _) => nth 1 a 0 =? nth 1 b 0 | _, _ => true end) = false) by (vm_compute; reflexivity).
    destruct (Encrypt ex_pub ex_msg 1 ex_tape2) as [[[c|e] rest]|p] eqn:E; [|discriminate H|discriminate H].
    destruct C50_ex as (c' & E' & _). exists c, c'. split; [|split].
    + intros Q. rewrite E', Q, Z.eqb_refl in H. discriminate H.
    + apply (chances_pos 32 _ ex_tape2 ex_tape2_bytes); [reflexivity|]. unfold gives_ciphertext. rewrite E. destruct list_eq_dec; congruence.
    + apply C102_ciphertexts; [exact ex_pub_valid|exact ex_msg_good|exists ex_tape2, rest|exists ex_tape, []].
      * split; [exact ex_tape2_bytes|exact E].
      * split; [exact ex_tape_bytes|exact E'].
Qed.
