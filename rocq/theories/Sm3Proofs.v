(** Proofs relating the model of sm3.go to the SM3 standard. *)
From Coq Require Import ZArith List Lia String Bool.
From Verif Require Import GoBase Sm3Spec Sm3.
Import ListNotations.
Open Scope Z_scope.

(** ** Word operations agree with the standard's *)

Definition words (l : list Z) : Prop := Forall is_u32 l.

Lemma is_u32_u32 : forall x, is_u32 (u32 x).
Proof. intros; unfold is_u32, u32; apply Z.mod_pos_bound; lia. Qed.

Lemma is_u32_lxor : forall x y, is_u32 x -> is_u32 y -> is_u32 (Z.lxor x y).
Proof. intros; apply lxor_range; auto; lia. Qed.

Lemma rot_rotl : forall x n, is_u32 x -> 0 <= n <= 32 -> rot x n = rotl n x.
Proof.
  intros x n Hx Hn. unfold rot, rotl, u32, is_u32 in *.
  rewrite Z.shiftl_mul_pow2 by lia. rewrite Z.shiftr_div_pow2 by lia.
  assert (E : (x * 2 ^ n) mod 2 ^ 32 = (x mod 2 ^ (32 - n)) * 2 ^ n).
  { replace (2 ^ 32) with (2 ^ (32 - n) * 2 ^ n) by (rewrite <- Z.pow_add_r by lia; f_equal; lia).
    rewrite Z.mul_mod_distr_r; try reflexivity; apply Z.pow_nonzero; lia. }
  rewrite E. apply lor_disjoint_add; [lia|].
  split; [apply Z.div_pos; [lia|apply Z.pow_pos_nonneg; lia]|].
  apply Z.div_lt_upper_bound; [apply Z.pow_pos_nonneg; lia|].
  rewrite <- Z.pow_add_r by lia. replace (32 - n + n) with 32 by lia. lia.
Qed.

Lemma rotl_u32 : forall n x, is_u32 x -> 0 <= n <= 32 -> is_u32 (rotl n x).
Proof.
  intros n x Hx Hn. rewrite <- rot_rotl by auto. unfold rot, is_u32 in *.
  apply lor_range; [lia|apply is_u32_u32|].
  rewrite Z.shiftr_div_pow2 by lia.
  assert (0 < 2 ^ (32 - n)) by (apply Z.pow_pos_nonneg; lia).
  split; [apply Z.div_pos; lia|].
  apply Z.le_lt_trans with x; [|lia]. apply Z.div_le_upper_bound; [lia|]. nia.
Qed.

Lemma RotateLeft32_rotl : forall x k, is_u32 x -> 0 <= k < 32 -> RotateLeft32 x k = rotl k x.
Proof.
  intros x k Hx Hk. unfold RotateLeft32.
  replace (Z.land k 31) with k.
  - apply rot_rotl; auto; lia.
  - change 31 with (Z.ones 5). rewrite Z.land_ones by lia. symmetry. apply Z.mod_small. lia.
Qed.

Lemma p0_P0 : forall x, is_u32 x -> p0 x = P0 x.
Proof. intros. unfold p0, P0. rewrite !RotateLeft32_rotl by (auto; lia). reflexivity. Qed.

Lemma p1_P1 : forall x, is_u32 x -> p1 x = P1 x.
Proof. intros. unfold p1, P1. rewrite !RotateLeft32_rotl by (auto; lia). reflexivity. Qed.

Lemma P0_u32 : forall x, is_u32 x -> is_u32 (P0 x).
Proof. intros; unfold P0; repeat apply is_u32_lxor; auto; apply rotl_u32; auto; lia. Qed.
Lemma P1_u32 : forall x, is_u32 x -> is_u32 (P1 x).
Proof. intros; unfold P1; repeat apply is_u32_lxor; auto; apply rotl_u32; auto; lia. Qed.

Lemma not_u32 : forall x, is_u32 x -> Z.lxor x 0xFFFFFFFF = 2 ^ 32 - 1 - x.
Proof.
  intros x Hx. change 0xFFFFFFFF with (Z.ones 32).
  assert (E : x + Z.lxor x (Z.ones 32) = Z.lxor x (Z.lxor x (Z.ones 32))).
  { apply Z.add_nocarry_lxor. apply Z.bits_inj'. intros i Hi.
    rewrite Z.land_spec, Z.lxor_spec, Z.bits_0.
    destruct (Z_lt_le_dec i 32).
    - rewrite Z.ones_spec_low by lia. destruct (Z.testbit x i); reflexivity.
    - rewrite (testbit_high x 32 i) by (auto; unfold is_u32 in Hx; lia). reflexivity. }
  rewrite <- Z.lxor_assoc, Z.lxor_nilpotent, Z.lxor_0_l in E.
  change (Z.ones 32) with (2 ^ 32 - 1) in E at 2. change (Z.ones 32) with (2 ^ 32 - 1) in *. lia.
Qed.

Lemma gT_spec : forall j, 0 <= j < 64 -> at_ gT j = rotl (j mod 32) (T j).
Proof.
  intros j Hj. unfold at_.
  assert (H : forallb (fun k => (nth k gT 0 =? rotl (Z.of_nat k mod 32) (T (Z.of_nat k))))
                (seq 0 64) = true) by (vm_compute; reflexivity).
  rewrite forallb_forall in H. specialize (H (Z.to_nat j)).
  rewrite Z2Nat.id in H by lia. apply Z.eqb_eq. apply H. apply in_seq. lia.
Qed.

Lemma T_u32 : forall j, is_u32 (T j).
Proof. intros; unfold T, is_u32; destruct (j <? 16); lia. Qed.

Lemma nth_words : forall l k, words l -> is_u32 (nth k l 0).
Proof.
  intros l k H. destruct (nth_in_or_default k l 0) as [Hi|E].
  - unfold words in H. rewrite Forall_forall in H. auto.
  - rewrite E. unfold is_u32. lia.
Qed.

Lemma u32_add : forall a b, u32 (u32 a + b) = u32 (a + b).
Proof. intros; unfold u32; apply Zplus_mod_idemp_l. Qed.

Lemma u32_add3 : forall a b c, u32 (u32 a + b + c) = u32 (a + b + c).
Proof. intros; rewrite <- !Z.add_assoc; apply u32_add. Qed.

(** ** The compression function *)

Lemma firstn_put : forall l j x, (0 <= j < zlen l) ->
  firstn (Z.to_nat (j + 1)) (put l j x) = firstn (Z.to_nat j) l ++ [x].
Proof.
  intros l j x H. unfold put, zlen in *. rewrite Z2Nat.inj_add by lia.
  rewrite Nat.add_1_r. apply firstn_upd. lia.
Qed.

Lemma put_zlen : forall l j x, zlen (put l j x) = zlen l.
Proof. intros; unfold put, zlen; rewrite upd_length; reflexivity. Qed.

Lemma nth_firstn_lt : forall (l : list Z) n k, (k < n)%nat -> nth k (firstn n l) 0 = nth k l 0.
Proof.
  induction l; intros n k H; [rewrite firstn_nil; reflexivity|].
  destruct n; [lia|]. destruct k; [reflexivity|]. simpl. apply IHl. lia.
Qed.

Lemma fill_loop : forall inw n w0, List.length inw = 16%nat -> zlen w0 = 68 -> (n <= 16)%nat ->
  let w' := for_loop n 0 (fun j wa => put wa j (at_ inw j)) w0 in
  firstn n w' = firstn n inw /\ zlen w' = 68.
Proof.
  intros inw n w0 Hi Hw Hn w'. subst w'. induction n; [split; auto|].
  rewrite for_loop_S. destruct IHn as [IH1 IH2]; [lia|]. rewrite Z.add_0_l.
  split; [|rewrite put_zlen; auto].
  replace (S n) with (Z.to_nat (Z.of_nat n + 1)) by lia.
  rewrite firstn_put by lia. rewrite Nat2Z.id, IH1. unfold at_. rewrite Nat2Z.id.
  replace (Z.to_nat (Z.of_nat n + 1)) with (S n) by lia.
  rewrite <- (firstn_skipn n inw) at 3.
  assert (Hl : List.length (firstn n inw) = n) by (rewrite firstn_length; lia).
  rewrite firstn_app. rewrite firstn_firstn, Nat.min_r by lia. f_equal.
  rewrite Hl. replace (S n - n)%nat with 1%nat by lia.
  destruct (skipn n inw) as [|x t] eqn:E.
  - apply (f_equal (@List.length _)) in E. rewrite skipn_length in E. simpl in E. lia.
  - simpl. f_equal. rewrite <- (firstn_skipn n inw), E. rewrite app_nth2 by lia.
    rewrite Hl, Nat.sub_diag. reflexivity.
Qed.

Lemma W_extend_S : forall n W, W_extend (S n) W = W_extend n W ++ [W_next (W_extend n W)].
Proof.
  induction n; intro W; [reflexivity|].
  transitivity (W_extend (S n) (W ++ [W_next W])); [reflexivity|]. rewrite IHn. reflexivity.
Qed.

Lemma W_extend_length : forall n W, List.length (W_extend n W) = (n + List.length W)%nat.
Proof. induction n; intros; [reflexivity|]. cbn [W_extend]. rewrite IHn, app_length. simpl. lia. Qed.

Ltac u32s :=
  repeat match goal with
  | |- is_u32 (Z.lxor _ _) => apply is_u32_lxor
  | |- is_u32 (P1 _) => apply P1_u32
  | |- is_u32 (P0 _) => apply P0_u32
  | |- is_u32 (rotl _ _) => apply rotl_u32; [|lia]
  | |- is_u32 (nth _ _ 0) => apply nth_words
  | |- is_u32 (u32 _) => apply is_u32_u32
  end.

Lemma W_next_u32 : forall W, words W -> is_u32 (W_next W).
Proof.
  intros W H. unfold W_next. cbv zeta. u32s; auto.
Qed.

Lemma W_extend_words : forall n W, words W -> words (W_extend n W).
Proof.
  induction n; intros W H; [auto|]. cbn [W_extend]. apply IHn.
  unfold words. apply Forall_app. split; auto. constructor; [|constructor]. apply W_next_u32; auto.
Qed.

Lemma expandStep_spec : forall n wa W, words W -> List.length W = (16 + n)%nat ->
  firstn (16 + n) wa = W -> (n < 52)%nat -> zlen wa = 68 ->
  firstn (16 + S n) (expandStep (16 + Z.of_nat n) wa) = W ++ [W_next W] /\
  zlen (expandStep (16 + Z.of_nat n) wa) = 68.
Proof.
  intros n wa W HW HL IH1 Hn IH2.
  assert (A : forall k, 1 <= k <= 16 ->
     at_ wa (16 + Z.of_nat n - k) = nth (List.length W - Z.to_nat k) W 0).
  { intros k Hk. unfold at_.
    replace (Z.to_nat (16 + Z.of_nat n - k)) with (List.length W - Z.to_nat k)%nat by lia.
    rewrite <- (nth_firstn_lt wa (16 + n)) by lia. rewrite IH1. reflexivity. }
  unfold expandStep. cbv zeta.
  rewrite (A 3), (A 13), (A 16), (A 9), (A 6) by lia.
  split; [|rewrite put_zlen; auto].
  replace (16 + S n)%nat with (Z.to_nat (16 + Z.of_nat n + 1)) by lia.
  rewrite firstn_put by lia.
  replace (Z.to_nat (16 + Z.of_nat n)) with (16 + n)%nat by lia.
  rewrite IH1. f_equal. f_equal.
  rewrite !rot_rotl by (try apply nth_words; auto; lia).
  rewrite p1_P1; [reflexivity|]. u32s; auto.
Qed.

Lemma expand_loop : forall n inw w1, List.length inw = 16%nat -> words inw ->
  firstn 16 w1 = inw -> zlen w1 = 68 -> (n <= 52)%nat ->
  firstn (16 + n) (for_loop n 16 expandStep w1) = W_extend n inw /\
  zlen (for_loop n 16 expandStep w1) = 68.
Proof.
  induction n; intros inw w1 Hi Hw Hf Hz Hn; [split; auto|].
  destruct (IHn inw w1) as [IH1 IH2]; auto; [lia|].
  rewrite for_loop_S, W_extend_S. apply expandStep_spec; auto.
  - apply W_extend_words; auto.
  - rewrite W_extend_length. lia.
Qed.

Lemma expand_loop_full : forall n inw w1, List.length inw = 16%nat -> words inw ->
  firstn 16 w1 = inw -> zlen w1 = 68 -> n = 52%nat ->
  for_loop n 16 expandStep w1 = W_extend n inw.
Proof.
  intros n inw w1 Hi Hw Hf Hz Hn.
  destruct (expand_loop n inw w1) as [G1 G2]; auto; [lia|].
  rewrite <- G1. symmetry. apply firstn_all2. unfold zlen in G2. lia.
Qed.

Lemma expandW_expand : forall inw w0, List.length inw = 16%nat -> words inw -> zlen w0 = 68 ->
  expandW inw w0 = expand inw.
Proof.
  intros inw w0 Hi Hw H0.
  destruct (fill_loop inw 16 w0 Hi H0 (le_n 16)) as [Hf1 Hl1].
  refine (expand_loop_full 52 inw _ Hi Hw _ Hl1 eq_refl).
  transitivity (firstn 16 inw); [exact Hf1|]. apply firstn_all2. rewrite Hi. apply le_n.
Qed.

Definition regs_ok (r : regs) : Prop :=
  is_u32 (rA r) /\ is_u32 (rB r) /\ is_u32 (rC r) /\ is_u32 (rD r) /\
  is_u32 (rE r) /\ is_u32 (rF r) /\ is_u32 (rG r) /\ is_u32 (rH r).

Definition to_regs (s : vars) : regs :=
  mk_regs (vA s) (vB s) (vC s) (vD s) (vE s) (vF s) (vG s) (vH s).

Ltac split8 := refine (conj _ (conj _ (conj _ (conj _ (conj _ (conj _ (conj _ _))))))).

Lemma round_ok : forall W j r, words W -> regs_ok r -> regs_ok (round W j r).
Proof.
  intros W j r HW (H1 & H2 & H3 & H4 & H5 & H6 & H7 & H8). unfold round, regs_ok; cbv zeta; cbn [rA rB rC rD rE rF rG rH vA vB vC vD vE vF vG vH].
  split8; try assumption;
    try (apply Z.mod_pos_bound; lia);
    try (apply rotl_u32; [assumption|lia]);
    try (apply P0_u32; apply Z.mod_pos_bound; lia).
Qed.

Lemma rotl_T_u32 : forall j, is_u32 (rotl (j mod 32) (T j)).
Proof.
  intros. apply rotl_u32; [apply T_u32|]. pose proof (Z.mod_pos_bound j 32). lia.
Qed.

Lemma round0_round : forall W j s, 0 <= j < 16 -> words W -> regs_ok (to_regs s) ->
  to_regs (round0 W j s) = round W j (to_regs s).
Proof.
  intros W j s Hj HW (H1 & H2 & H3 & H4 & H5 & H6 & H7 & H8).
  unfold to_regs in *; cbn [rA rB rC rD rE rF rG rH vA vB vC vD vE vF vG vH] in *.
  unfold round0, round; cbv zeta; cbn [rA rB rC rD rE rF rG rH vA vB vC vD vE vF vG vH].
  rewrite !(rot_rotl (vA s)), !(rot_rotl (vB s)), !(rot_rotl (vF s)) by (auto; lia).
  rewrite gT_spec by lia. rewrite !u32_add, !u32_add3.
  rewrite !(rot_rotl (u32 _)) by (try apply is_u32_u32; lia).
  rewrite !p0_P0 by apply is_u32_u32.
  unfold FF, GG, ff0, gg0, u32, at_.
  destruct (Z.ltb_spec j 16); [|lia]. reflexivity.
Qed.

Lemma round1_round : forall W j s, 16 <= j < 64 -> words W -> regs_ok (to_regs s) ->
  to_regs (round1 W j s) = round W j (to_regs s).
Proof.
  intros W j s Hj HW (H1 & H2 & H3 & H4 & H5 & H6 & H7 & H8).
  unfold to_regs in *; cbn [rA rB rC rD rE rF rG rH vA vB vC vD vE vF vG vH] in *.
  unfold round1, round; cbv zeta; cbn [rA rB rC rD rE rF rG rH vA vB vC vD vE vF vG vH].
  rewrite !(rot_rotl (vA s)), !(rot_rotl (vB s)), !(rot_rotl (vF s)) by (auto; lia).
  rewrite gT_spec by lia. rewrite !u32_add, !u32_add3.
  rewrite !(rot_rotl (u32 _)) by (try apply is_u32_u32; lia).
  rewrite !p0_P0 by apply is_u32_u32.
  unfold FF, GG, ff1, gg1, at_. rewrite not_u32 by auto. unfold u32.
  destruct (Z.ltb_spec j 16); [lia|]. reflexivity.
Qed.

Lemma for_loop_add : forall S n m i (f : Z -> S -> S) s,
  for_loop (n + m) i f s = for_loop m (i + Z.of_nat n) f (for_loop n i f s).
Proof.
  intros S n. induction n; intros m i f s.
  - simpl. rewrite Z.add_0_r. reflexivity.
  - cbn [Nat.add for_loop]. rewrite IHn. f_equal. lia.
Qed.

Lemma rounds_loop : forall f W i n s, words W -> regs_ok (to_regs s) ->
  (forall j s', i <= j < i + Z.of_nat n -> regs_ok (to_regs s') ->
     to_regs (f j s') = round W j (to_regs s')) ->
  to_regs (for_loop n i f s) = for_loop n i (round W) (to_regs s) /\
  regs_ok (to_regs (for_loop n i f s)).
Proof.
  intros f W i n s HW Hs Hf. induction n; [split; [reflexivity|exact Hs]|].
  destruct IHn as [IH1 IH2]. { intros; apply Hf; auto; lia. }
  rewrite !for_loop_S. rewrite Hf by (auto; lia). rewrite IH1. split; [reflexivity|].
  apply round_ok; auto. rewrite <- IH1. exact IH2.
Qed.

Lemma rounds_eq : forall W s, words W -> regs_ok (to_regs s) ->
  to_regs (for_loop 48 16 (round1 W) (for_loop 16 0 (round0 W) s)) =
  for_loop 64 0 (round W) (to_regs s).
Proof.
  intros W s HW Hs.
  destruct (rounds_loop (round0 W) W 0 16 s HW Hs) as [E0 R0].
  { intros. apply round0_round; auto; lia. }
  destruct (rounds_loop (round1 W) W 16 48 _ HW R0) as [E1 _].
  { intros. apply round1_round; auto; lia. }
  rewrite E1, E0. symmetry. apply (for_loop_add _ 16 48).
Qed.

(** ** States *)

(** Sizes fixed by the Go array types, and word ranges fixed by the element types. *)
Record wf (d : sm3Digest) : Prop := mkWf {
  wf_v : List.length (v d) = 8%nat;
  wf_vw : words (v d);
  wf_iw : List.length (inWords d) = 16%nat;
  wf_iww : words (inWords d);
  wf_w : zlen (w d) = 68;
  wf_xb : List.length (xBuf d) = 4%nat
}.

Lemma expand_length : forall B, List.length B = 16%nat -> zlen (expand B) = 68.
Proof. intros B H. unfold expand, zlen. rewrite W_extend_length, H. reflexivity. Qed.

Lemma list8 : forall l : list Z, List.length l = 8%nat ->
  exists a b c e f g h i, l = [a; b; c; e; f; g; h; i].
Proof.
  intros l H.
  do 8 (destruct l as [|? l]; [simpl in H; lia|]).
  destruct l; [|simpl in H; lia]. repeat eexists.
Qed.

Lemma processBlock_spec : forall d, wf d ->
  processBlock d = mkDigest (CF (v d) (inWords d)) (inWords d) 0 (expand (inWords d))
                            (xBuf d) (xBufOff d) (byteCount d).
Proof.
  intros d H. unfold processBlock. rewrite expandW_expand by (destruct H; auto).
  f_equal. destruct H as [Hv Hvw Hiw Hiww Hw Hxb].
  destruct (list8 _ Hv) as (a & b & c & e & f & g & h & i & E).
  assert (HW : words (expand (inWords d))) by (apply W_extend_words; auto).
  set (s0 := mkVars _ _ _ _ _ _ _ _).
  assert (R0 : regs_ok (to_regs s0)).
  { unfold regs_ok, to_regs, s0; cbn [rA rB rC rD rE rF rG rH vA vB vC vD vE vF vG vH].
    unfold at_. split8; apply nth_words; auto. }
  pose proof (rounds_eq (expand (inWords d)) s0 HW R0) as E1.
  set (s2 := for_loop 48 16 _ _) in *.
  unfold CF. change (regs_of (v d)) with (to_regs s0). rewrite <- E1.
  rewrite E. unfold at_; cbn -[Z.lxor s2].
  repeat (f_equal; [apply Z.lxor_comm|]). f_equal. apply Z.lxor_comm.
Qed.

Lemma map2_length : forall f l m, List.length l = List.length m ->
  List.length (map2 f l m) = List.length m.
Proof. induction l; intros [|y m] H; simpl in *; auto; try lia. Qed.

Lemma for_loop_inv : forall S (P : S -> Prop) f n i s, P s -> (forall j x, P x -> P (f j x)) ->
  P (for_loop n i f s).
Proof. intros S P f n. induction n; intros; simpl; auto. Qed.

Lemma CF_length : forall V B, List.length V = 8%nat -> List.length (CF V B) = 8%nat.
Proof. intros V B H. unfold CF. rewrite map2_length; auto. Qed.

Lemma CF_words : forall V B, List.length V = 8%nat -> words V -> words B -> words (CF V B).
Proof.
  intros V B HL HV HB. unfold CF.
  assert (R : regs_ok (for_loop 64 0 (round (expand B)) (regs_of V))).
  { apply for_loop_inv.
    - unfold regs_of, regs_ok; cbn -[nth]. split8; apply nth_words; auto.
    - intros. apply round_ok; auto. apply W_extend_words; auto. }
  destruct (for_loop 64 0 _ _) as [a b c e f g h i]. unfold regs_ok in R; cbn in R.
  destruct R as (R1 & R2 & R3 & R4 & R5 & R6 & R7 & R8).
  destruct (list8 _ HL) as (a' & b' & c' & e' & f' & g' & h' & i' & E). subst V.
  unfold words in HV. inversion HV; subst. repeat match goal with
    | H : Forall _ (_ :: _) |- _ => inversion H; clear H; subst end.
  unfold words. cbn. repeat constructor; apply is_u32_lxor; auto.
Qed.

Global Opaque CF expand processBlock for_loop.

Lemma wf_processBlock : forall d, wf d -> wf (processBlock d).
Proof.
  intros d H. rewrite processBlock_spec by auto. destruct H as [H1 H2 H3 H4 H5 H6].
  constructor; cbn; auto.
  - apply CF_length; auto.
  - apply CF_words; auto.
  - apply expand_length; auto.
Qed.

(** ** The abstract machine: chaining value, pending words, pending bytes *)

Definition astate := (list Z * list Z * list Z)%type.

Definition push_word (s : list Z * list Z) (x : Z) : list Z * list Z :=
  let ws := snd s ++ [x] in
  if (List.length ws =? 16)%nat then (CF (fst s) ws, []) else (fst s, ws).

Definition push_byte (s : astate) (b : Z) : astate :=
  let '(V, ws, bs) := s in
  let bs' := bs ++ [b] in
  if (List.length bs' =? 4)%nat then
    let '(V', ws') := push_word (V, ws) (be_dec bs') in (V', ws', [])
  else (V, ws, bs').

Definition absorb (s : astate) (m : list Z) : astate := fold_left push_byte m s.

Lemma absorb_app : forall s m1 m2, absorb s (m1 ++ m2) = absorb (absorb s m1) m2.
Proof. intros; unfold absorb; apply fold_left_app. Qed.

Lemma absorb_word : forall V ws a b c e,
  absorb (V, ws, []) [a; b; c; e] =
  (let '(V', ws') := push_word (V, ws) (be_dec [a; b; c; e]) in (V', ws', [])).
Proof. intros. reflexivity. Qed.

(** What a digest state stands for. *)
Record rep (d : sm3Digest) (s : astate) : Prop := mkRep {
  rep_wf : wf d;
  rep_v : v d = fst (fst s);
  rep_xo : xOff d = zlen (snd (fst s));
  rep_xo16 : (List.length (snd (fst s)) < 16)%nat;
  rep_ws : firstn (List.length (snd (fst s))) (inWords d) = snd (fst s);
  rep_bo : xBufOff d = zlen (snd s);
  rep_bo4 : (List.length (snd s) < 4)%nat;
  rep_bs : firstn (List.length (snd s)) (xBuf d) = snd s;
  rep_bsb : bytes (snd s)
}.

Lemma upd_words : forall l i x, words l -> is_u32 x -> words (upd l i x).
Proof.
  induction l; intros [|i] x Hl Hx; simpl; auto; unfold words in *; inversion Hl; subst;
    constructor; auto.
Qed.

Lemma is_u32_be_dec4 : forall s, bytes s -> zlen s = 4 -> is_u32 (be_dec s).
Proof.
  intros s Hs HL. pose proof (be_dec_bound s Hs) as B. rewrite HL in B.
  change (256 ^ 4) with (2 ^ 32) in B. exact B.
Qed.

(** Storing one word through [inWords]/[xOff], then compressing if the block is full. *)
Lemma store_word : forall d V ws x,
  wf d -> v d = V -> xOff d = zlen ws -> (List.length ws < 16)%nat ->
  firstn (List.length ws) (inWords d) = ws -> is_u32 x ->
  forall d2, d2 = (let d' := mkDigest (v d) (upd (inWords d) (Z.to_nat (xOff d)) x) (xOff d + 1)
                          (w d) (xBuf d) (xBufOff d) (byteCount d) in
            if 16 <=? xOff d' then processBlock d' else d') ->
  let '(V', ws') := push_word (V, ws) x in
  wf d2 /\ v d2 = V' /\ xOff d2 = zlen ws' /\ (List.length ws' < 16)%nat /\
  firstn (List.length ws') (inWords d2) = ws' /\
  xBuf d2 = xBuf d /\ xBufOff d2 = xBufOff d /\ byteCount d2 = byteCount d.
Proof.
  intros d V ws x Hwf Hv Hxo Hws Hfw Hx d2 Hd2.
  assert (Hxn : Z.to_nat (xOff d) = List.length ws) by (rewrite Hxo; unfold zlen; lia).
  rewrite Hxn in Hd2. cbv zeta in Hd2. cbn [xOff] in Hd2.
  set (d1 := mkDigest _ _ _ _ _ _ _) in Hd2.
  assert (Hwf1 : wf d1).
  { destruct Hwf. constructor; cbn; auto; [rewrite upd_length; auto|apply upd_words; auto]. }
  assert (Hfw1 : firstn (S (List.length ws)) (inWords d1) = ws ++ [x]).
  { cbn [inWords d1]. rewrite firstn_upd by (rewrite (wf_iw _ Hwf); auto). rewrite Hfw. reflexivity. }
  unfold push_word. cbn [fst snd]. rewrite app_length. cbn [List.length].
  destruct (Nat.eqb_spec (List.length ws + 1) 16) as [E|E].
  - destruct (Z.leb_spec 16 (xOff d + 1)) as [L|L]; [|rewrite Hxo in L; unfold zlen in L; lia].
    assert (Eiw : inWords d1 = ws ++ [x]).
    { rewrite <- Hfw1. symmetry. apply firstn_all2. rewrite (wf_iw _ Hwf1). lia. }
    rewrite processBlock_spec in Hd2 by auto.
    split; [rewrite Hd2, <- processBlock_spec by auto; apply wf_processBlock; auto|].
    rewrite Hd2; cbn. cbn in Eiw. rewrite Eiw, Hv. repeat split; auto; lia.
  - destruct (Z.leb_spec 16 (xOff d + 1)) as [L|L]; [rewrite Hxo in L; unfold zlen in L; lia|].
    subst d2. split; [auto|]. cbn [v xOff inWords xBuf xBufOff byteCount d1].
    repeat split; auto.
    + rewrite Hxo, zlen_app. reflexivity.
    + rewrite app_length. cbn [List.length]. lia.
    + rewrite app_length. cbn [List.length]. rewrite Nat.add_1_r. exact Hfw1.
Qed.

Lemma i32_small : forall x, - 2 ^ 31 <= x < 2 ^ 31 -> i32 x = x.
Proof. intros; unfold i32; rewrite Z.mod_small; lia. Qed.

Lemma i32_wrap : forall x, 2 ^ 31 <= x < 2 ^ 32 -> i32 x < 0.
Proof.
  intros; unfold i32. replace (x + 2 ^ 31) with (x - 2 ^ 31 + 1 * 2 ^ 32) by lia.
  rewrite Z.mod_add by lia. rewrite Z.mod_small; lia.
Qed.

Lemma processWord_ok : forall d V ws inp off,
  wf d -> v d = V -> xOff d = zlen ws -> (List.length ws < 16)%nat ->
  firstn (List.length ws) (inWords d) = ws ->
  0 <= off -> off + 4 <= zlen inp -> off + 4 < 2 ^ 31 -> bytes inp ->
  exists d2, processWord d inp off = Ret d2 /\
  let '(V', ws') := push_word (V, ws) (be_dec (sub inp off (off + 4))) in
  wf d2 /\ v d2 = V' /\ xOff d2 = zlen ws' /\ (List.length ws' < 16)%nat /\
  firstn (List.length ws') (inWords d2) = ws' /\
  xBuf d2 = xBuf d /\ xBufOff d2 = xBufOff d /\ byteCount d2 = byteCount d.
Proof.
  intros d V ws inp off Hwf Hv Hxo Hws Hfw H0 H1 H2 Hb.
  unfold processWord. rewrite i32_small by lia. rewrite go_slice_ret by lia. cbn [bind].
  rewrite go_set_ret by (rewrite Hxo; unfold zlen; rewrite (wf_iw _ Hwf); lia). cbn [bind].
  set (x := be_dec _). cbv zeta. cbn [xOff].
  assert (Hx : is_u32 x).
  { apply is_u32_be_dec4; [apply sub_bytes; auto|]. rewrite sub_length; lia. }
  pose proof (store_word d V ws x Hwf Hv Hxo Hws Hfw Hx _ eq_refl) as S.
  cbv zeta in S. cbn [xOff] in S.
  destruct (push_word (V, ws) x) as [V' ws'].
  exists (if 16 <=? xOff d + 1
     then processBlock (mkDigest (v d) (upd (inWords d) (Z.to_nat (xOff d)) x) (xOff d + 1)
                          (w d) (xBuf d) (xBufOff d) (byteCount d))
     else mkDigest (v d) (upd (inWords d) (Z.to_nat (xOff d)) x) (xOff d + 1)
                          (w d) (xBuf d) (xBufOff d) (byteCount d)).
  split; [destruct (16 <=? xOff d + 1); reflexivity|]. tauto.
Qed.

Lemma processWord_panic : forall d inp off, 0 <= off < 2 ^ 31 -> 2 ^ 31 <= off + 4 ->
  processWord d inp off = Panic PSlice.
Proof.
  intros d inp off H H1. unfold processWord.
  rewrite go_slice_panic; [reflexivity|]. pose proof (i32_wrap (off + 4)). lia.
Qed.

(** One byte into the word buffer. *)
Lemma tailLoop_ok : forall p d V ws bs, rep d (V, ws, bs) -> bytes p ->
  (List.length bs + List.length p < 4)%nat ->
  exists d2, tailLoop d p = Ret d2 /\ rep d2 (V, ws, bs ++ p) /\ byteCount d2 = byteCount d /\
             absorb (V, ws, bs) p = (V, ws, bs ++ p).
Proof.
  induction p as [|b p IH]; intros d V ws bs R Hp HL.
  - exists d. rewrite app_nil_r. repeat split; auto; apply R.
  - apply bytes_cons in Hp. destruct Hp as [Hb Hp]. cbn [List.length] in HL.
    destruct R as [Hwf Hv Hxo Hxo16 Hws Hbo Hbo4 Hbs Hbsb]. cbn [fst snd] in *.
    cbn [tailLoop]. rewrite go_set_ret by (rewrite Hbo; unfold zlen; rewrite (wf_xb _ Hwf); lia).
    cbn [bind].
    assert (En : Z.to_nat (xBufOff d) = List.length bs) by (rewrite Hbo; unfold zlen; lia).
    rewrite En.
    destruct (IH (mkDigest (v d) (inWords d) (xOff d) (w d) (upd (xBuf d) (List.length bs) b)
                    (xBufOff d + 1) (byteCount d)) V ws (bs ++ [b])) as (d2 & E1 & E2 & E3 & E4).
    + constructor; cbn [fst snd v inWords xOff w xBuf xBufOff byteCount]; auto.
      * destruct Hwf; constructor; cbn; auto. rewrite upd_length; auto.
      * rewrite Hbo, zlen_app. reflexivity.
      * rewrite app_length; cbn [List.length]; lia.
      * rewrite app_length; cbn [List.length]. rewrite Nat.add_1_r.
        rewrite firstn_upd by (rewrite (wf_xb _ Hwf); lia). rewrite Hbs. reflexivity.
      * apply bytes_app; split; auto. constructor; auto.
    + auto.
    + rewrite app_length; cbn [List.length]; lia.
    + exists d2. rewrite <- app_assoc in *. cbn [app] in *. repeat split; auto; try apply E2.
      cbn [absorb fold_left push_byte]. rewrite app_length. cbn [List.length].
      destruct (Nat.eqb_spec (List.length bs + 1) 4); [lia|].
      change (fold_left push_byte p (V, ws, bs ++ [b])) with (absorb (V, ws, bs ++ [b]) p).
      exact E4.
Qed.

(** Completing the word buffer. *)
Lemma fillBuf_ok : forall p d V ws bs, rep d (V, ws, bs) -> bytes p -> bs <> [] ->
  exists d2 rest, fillBuf d p = Ret (d2, rest) /\ byteCount d2 = byteCount d /\
    exists pre, p = pre ++ rest /\ rep d2 (absorb (V, ws, bs) pre) /\
     (List.length pre <= 3)%nat /\
     (rest = [] \/ ((List.length bs + List.length pre)%nat = 4%nat /\ snd (absorb (V, ws, bs) pre) = []))
     /\ ((List.length bs + List.length pre <= 4)%nat).
Proof.
  induction p as [|b p IH]; intros d V ws bs R Hp Hne.
  - exists d, []. split; [reflexivity|]. split; [reflexivity|]. exists [].
    cbn [List.length]. pose proof (rep_bo4 _ _ R) as X. cbn [snd] in X.
    split; [reflexivity|]. split; [exact R|]. split; [lia|]. split; [left; reflexivity|lia].
  - apply bytes_cons in Hp. destruct Hp as [Hb Hp].
    destruct R as [Hwf Hv Hxo Hxo16 Hws Hbo Hbo4 Hbs Hbsb]. cbn [fst snd] in *.
    cbn [fillBuf]. rewrite go_set_ret by (rewrite Hbo; unfold zlen; rewrite (wf_xb _ Hwf); lia).
    cbn [bind xBufOff].
    assert (En : Z.to_nat (xBufOff d) = List.length bs) by (rewrite Hbo; unfold zlen; lia).
    rewrite En.
    set (d1 := mkDigest _ _ _ _ _ _ _).
    assert (Hwf1 : wf d1) by (destruct Hwf; constructor; cbn; auto; rewrite upd_length; auto).
    assert (Hfb : firstn (S (List.length bs)) (xBuf d1) = bs ++ [b]).
    { cbn [xBuf d1]. rewrite firstn_upd by (rewrite (wf_xb _ Hwf); lia). rewrite Hbs. reflexivity. }
    assert (Hlb : (0 < List.length bs)%nat) by (destruct bs; [congruence|simpl; lia]).
    destruct (Z.eqb_spec (xBufOff d + 1) 4) as [E|E].
    + assert (EL : List.length bs = 3%nat) by (rewrite Hbo in E; unfold zlen in E; lia).
      rewrite EL in Hfb.
      assert (Exb : xBuf d1 = bs ++ [b]).
      { rewrite <- Hfb. symmetry. apply firstn_all2. rewrite (wf_xb _ Hwf1). lia. }
      assert (Hbb : bytes (bs ++ [b])) by (apply bytes_app; split; auto; constructor; auto).
      assert (ELL : zlen (bs ++ [b]) = 4) by (unfold zlen; rewrite app_length, EL; reflexivity).
      destruct (processWord_ok d1 V ws (xBuf d1) 0) as (d2 & E2 & P2); auto;
        try lia; try (rewrite Exb; auto; lia).
      rewrite E2. cbn [bind].
      exists (mkDigest (v d2) (inWords d2) (xOff d2) (w d2) (xBuf d2) 0 (byteCount d2)), p.
      rewrite Exb in P2. replace (0 + 4) with (zlen (bs ++ [b])) in P2 by lia.
      rewrite sub_all in P2.
      split; [reflexivity|]. 
      assert (EA : absorb (V, ws, bs) [b] =
        (let '(V', ws') := push_word (V, ws) (be_dec (bs ++ [b])) in (V', ws', []))).
      { cbn [absorb fold_left push_byte]. rewrite app_length, EL. reflexivity. }
      destruct (push_word (V, ws) (be_dec (bs ++ [b]))) as [V' ws'].
      destruct P2 as (Q1 & Q2 & Q3 & Q4 & Q5 & Q6 & Q7 & Q8).
      split; [cbn; rewrite Q8; reflexivity|].
      exists [b]. rewrite EA. split; [reflexivity|]. split; [|split; [cbn; lia|]].
      * constructor; cbn; auto; try lia; [|constructor].
        destruct Q1; constructor; cbn; auto.
      * split; [right|]; cbn [List.length snd]; try split; auto; lia.
    + destruct (IH d1 V ws (bs ++ [b])) as (d2 & rest & E1 & EB & pre & E2 & E3 & E4 & E5 & E6).
      * constructor; cbn [fst snd d1 v inWords xOff w xBuf xBufOff byteCount]; auto.
        -- rewrite Hbo, zlen_app. reflexivity.
        -- rewrite app_length; cbn [List.length]. rewrite Hbo in E; unfold zlen in E; lia.
        -- rewrite app_length; cbn [List.length]. rewrite Nat.add_1_r. exact Hfb.
        -- apply bytes_app; split; auto. constructor; auto.
      * auto.
      * intro X. apply app_eq_nil in X. destruct X; discriminate.
      * assert (EA : absorb (V, ws, bs) (b :: pre) = absorb (V, ws, bs ++ [b]) pre).
        { cbn [absorb fold_left push_byte]. rewrite app_length. cbn [List.length].
          destruct (Nat.eqb_spec (List.length bs + 1) 4) as [X|X]; [|reflexivity].
          rewrite Hbo in E; unfold zlen in E; lia. }
        exists d2, rest. split; [exact E1|]. split; [exact EB|]. exists (b :: pre). rewrite EA, E2.
        rewrite app_length in E5, E6. cbn [List.length] in *.
        split; [reflexivity|]. split; [auto|]. split; [lia|]. split; [|lia].
        destruct E5 as [E5|[E5 E5']]; [left; auto|right; split; [lia|auto]].
Qed.

Lemma sub_split : forall (p : list Z) i j k, 0 <= i <= j -> j <= k -> k <= zlen p ->
  sub p i k = sub p i j ++ sub p j k.
Proof.
  intros p i j k H1 H2 H3. unfold sub, zlen in *.
  replace (Z.to_nat (k - i)) with (Z.to_nat (j - i) + Z.to_nat (k - j))%nat by lia.
  replace (Z.to_nat j) with (Z.to_nat (j - i) + Z.to_nat i)%nat by lia.
  rewrite <- skipn_skipn. generalize (skipn (Z.to_nat i) p) as q. intro q.
  rewrite <- (firstn_skipn (Z.to_nat (j - i)) (firstn _ q)).
  rewrite firstn_firstn, Nat.min_l by lia. f_equal.
  rewrite skipn_firstn_comm. f_equal. lia.
Qed.

Lemma sub4 : forall (p : list Z) i, 0 <= i -> i + 4 <= zlen p ->
  exists a b c e, sub p i (i + 4) = [a; b; c; e].
Proof.
  intros p i H1 H2. pose proof (sub_length _ p i (i + 4)) as L. unfold zlen in L at 2.
  destruct (sub p i (i + 4)) as [|a [|b [|c [|e [|f l]]]]]; cbn [List.length] in L; try lia.
  repeat eexists.
Qed.

(** The loop over whole words. *)
Lemma wordLoop_ok : forall n d V ws p i, rep d (V, ws, []) -> bytes p ->
  0 <= i -> i + 4 * Z.of_nat n <= zlen p -> i + 4 * Z.of_nat n < 2 ^ 31 ->
  exists d2, wordLoop n d p i = Ret d2 /\ byteCount d2 = byteCount d /\
    rep d2 (absorb (V, ws, []) (sub p i (i + 4 * Z.of_nat n))) /\
    snd (absorb (V, ws, []) (sub p i (i + 4 * Z.of_nat n))) = [].
Proof.
  induction n; intros d V ws p i R Hp H0 H1 H2.
  - exists d. replace (i + 4 * Z.of_nat 0) with i by lia.
    unfold sub. rewrite Z.sub_diag. cbn [Z.to_nat firstn absorb fold_left wordLoop snd].
    split; [reflexivity|]. split; [reflexivity|]. split; [exact R|reflexivity].
  - cbn [wordLoop]. rewrite i32_small by lia.
    destruct R as [Hwf Hv Hxo Hxo16 Hws Hbo Hbo4 Hbs Hbsb]. cbn [fst snd] in *.
    destruct (processWord_ok d V ws p i) as (d1 & E1 & P1); auto; try lia.
    rewrite E1. cbn [bind].
    destruct (push_word (V, ws) (be_dec (sub p i (i + 4)))) as [V1 ws1] eqn:EP.
    destruct P1 as (Q1 & Q2 & Q3 & Q4 & Q5 & Q6 & Q7 & Q8).
    destruct (IHn d1 V1 ws1 p (i + 4)) as (d2 & E2 & EB & R2 & S2); auto; try lia.
    { constructor; cbn; auto; try lia. rewrite Q7. exact Hbo. }
    exists d2. split; [exact E2|]. split; [congruence|].
    replace (i + 4 + 4 * Z.of_nat n) with (i + 4 * Z.of_nat (S n)) in * by lia.
    rewrite (sub_split p i (i + 4) (i + 4 * Z.of_nat (S n))) by lia.
    rewrite absorb_app.
    assert (EA : absorb (V, ws, []) (sub p i (i + 4)) = (V1, ws1, [])).
    { destruct (sub4 p i) as (a & b & c & e & E4); [lia|lia|]. rewrite E4 in *.
      rewrite absorb_word, EP. reflexivity. }
    rewrite EA. auto.
Qed.

Lemma wordLoop_panic : forall n d V ws p i, rep d (V, ws, []) -> bytes p ->
  0 <= i < 2 ^ 31 - 4 + 4 -> i + 4 * Z.of_nat n <= zlen p -> 2 ^ 31 <= i + 4 * Z.of_nat n ->
  wordLoop n d p i = Panic PSlice.
Proof.
  induction n; intros d V ws p i R Hp H0 H1 H2; [lia|].
  cbn [wordLoop]. rewrite i32_small by lia.
  destruct (Z_lt_le_dec (i + 4) (2 ^ 31)) as [L|L].
  - destruct R as [Hwf Hv Hxo Hxo16 Hws Hbo Hbo4 Hbs Hbsb]. cbn [fst snd] in *.
    destruct (processWord_ok d V ws p i) as (d1 & E1 & P1); auto; try lia.
    rewrite E1. cbn [bind].
    destruct (push_word (V, ws) (be_dec (sub p i (i + 4)))) as [V1 ws1] eqn:EP.
    destruct P1 as (Q1 & Q2 & Q3 & Q4 & Q5 & Q6 & Q7 & Q8).
    apply (IHn d1 V1 ws1); auto; try lia.
    constructor; cbn; auto; try lia. rewrite Q7. exact Hbo.
  - rewrite processWord_panic by lia. reflexivity.
Qed.

Lemma land_m4 : forall x, 0 <= x -> Z.land x (-4) = 4 * (x / 4).
Proof.
  intros x Hx. change (-4) with (Z.lnot (Z.ones 2)).
  rewrite <- Z.ldiff_land. rewrite Z.ldiff_ones_r by lia.
  rewrite Z.shiftr_div_pow2, Z.shiftl_mul_pow2 by lia. change (2 ^ 2) with 4. lia.
Qed.

(** The number of bytes of the message that Write handles through the word buffer first,
    and the end of the part it handles word by word straight from [p]. *)
Definition lead (nbuf len : Z) : Z := if nbuf =? 0 then 0 else Z.min (4 - nbuf) len.
Definition direct_end (nbuf len : Z) : Z := lead nbuf len + 4 * ((len - lead nbuf len) / 4).

Lemma push_word_len : forall V ws x V' ws', (List.length ws < 16)%nat ->
  push_word (V, ws) x = (V', ws') -> (List.length ws' < 16)%nat.
Proof.
  intros V ws x V' ws' H E. unfold push_word in E. cbn [fst snd] in E.
  rewrite app_length in E. cbn [List.length] in E.
  destruct (Nat.eqb_spec (List.length ws + 1) 16); inversion E; subst; cbn [List.length]; try lia.
  rewrite app_length. cbn [List.length]. lia.
Qed.

Lemma absorb_len : forall m V ws bs V' ws' bs',
  (List.length ws < 16)%nat -> (List.length bs < 4)%nat ->
  absorb (V, ws, bs) m = (V', ws', bs') ->
  (List.length ws' < 16)%nat /\ (List.length bs' < 4)%nat /\
  Z.of_nat (List.length bs') = (Z.of_nat (List.length bs) + zlen m) mod 4.
Proof.
  induction m as [|b m IH]; intros V ws bs V' ws' bs' H1 H2 E.
  - inversion E; subst. rewrite zlen_nil, Z.add_0_r, Z.mod_small by lia. auto.
  - cbn [absorb fold_left push_byte] in E. rewrite app_length in E. cbn [List.length] in E.
    rewrite zlen_cons.
    destruct (Nat.eqb_spec (List.length bs + 1) 4) as [E4|E4].
    + destruct (push_word (V, ws) (be_dec (bs ++ [b]))) as [V1 ws1] eqn:EP.
      apply IH in E; [|eapply push_word_len; eauto|cbn; lia]. destruct E as (A & B & C).
      split; auto. split; auto. rewrite C. cbn [List.length].
      replace (Z.of_nat (List.length bs) + (zlen m + 1)) with (0 + zlen m + 1 * 4) by lia.
      rewrite Z.mod_add by lia. reflexivity.
    + apply IH in E; [|auto|rewrite app_length; cbn; lia]. destruct E as (A & B & C).
      split; auto. split; auto. rewrite C, app_length. cbn [List.length]. f_equal. lia.
Qed.

Lemma Write_ok : forall d s p, rep d s -> bytes p -> p <> [] ->
  direct_end (xBufOff d) (zlen p) < 2 ^ 31 ->
  exists d2, Write d p = Ret (d2, zlen p) /\ rep d2 (absorb s p) /\
             byteCount d2 = i64 (byteCount d + zlen p).
Proof.
  intros d [[V ws] bs] p R Hp Hne HD.
  assert (Hlp : 0 < zlen p) by (destruct p; [congruence|rewrite zlen_cons; pose proof (zlen_nonneg _ p); lia]).
  unfold Write. rewrite (go_index_ret _ p 0 0) by lia. cbn [bind].
  assert (First : exists d1 rest,
     (if xBufOff d =? 0 then Ret (d, p) else fillBuf d p) = Ret (d1, rest) /\
     byteCount d1 = byteCount d /\
     exists pre, p = pre ++ rest /\ rep d1 (absorb (V, ws, bs) pre) /\
       zlen pre = lead (xBufOff d) (zlen p) /\
       (rest = [] \/ snd (absorb (V, ws, bs) pre) = [])).
  { destruct (Z.eqb_spec (xBufOff d) 0) as [E|E].
    - exists d, p. split; [reflexivity|]. split; [reflexivity|]. exists [].
      unfold lead. rewrite E, Z.eqb_refl. repeat split; auto; try apply R.
      right. cbn. pose proof (rep_bo _ _ R) as X. cbn [snd] in X. apply zlen_0_nil. lia.
    - pose proof (rep_bo _ _ R) as X. cbn [snd] in X.
      pose proof (rep_bo4 _ _ R) as X4. cbn [snd] in X4.
      destruct (fillBuf_ok p d V ws bs R Hp) as (d1 & rest & E1 & EB & pre & E2 & E3 & E4 & E5 & E6).
      { intro Y. subst bs. apply E. rewrite X. reflexivity. }
      exists d1, rest. split; [exact E1|]. split; [exact EB|]. exists pre. split; [exact E2|].
      split; [exact E3|]. split.
      + unfold lead. destruct (Z.eqb_spec (xBufOff d) 0); [contradiction|].
        rewrite E2, zlen_app. rewrite X. unfold zlen in *.
        destruct E5 as [E5|[E5 E5']]; [subst rest; cbn [List.length]; lia|lia].
      + destruct E5 as [E5|[E5 E5']]; auto. }
  destruct First as (d1 & rest & E1 & EB & pre & E2 & R1 & E3 & E4).
  rewrite E1. cbn [bind].
  assert (Hi : zlen p - zlen rest = zlen pre) by (rewrite E2, zlen_app; lia).
  rewrite Hi.
  replace (zlen p - zlen pre) with (zlen rest) by lia.
  pose proof (zlen_nonneg _ rest) as Hr0. pose proof (zlen_nonneg _ pre) as Hp0.
  rewrite land_m4 by lia.
  replace (4 * (zlen rest / 4) + zlen pre - zlen pre) with ((zlen rest / 4) * 4) by lia.
  rewrite Z.div_mul by lia.
  set (n := Z.to_nat (zlen rest / 4)).
  assert (Hn : Z.of_nat n = zlen rest / 4) by (unfold n; rewrite Z2Nat.id; auto; apply Z.div_pos; lia).
  assert (HDE : direct_end (xBufOff d) (zlen p) = zlen pre + 4 * Z.of_nat n).
  { unfold direct_end. rewrite <- E3, Hn. replace (zlen p - zlen pre) with (zlen rest) by lia. lia. }
  pose proof (Z.div_mod (zlen rest) 4) as DM. pose proof (Z.mod_pos_bound (zlen rest) 4) as DB.
  destruct (absorb (V, ws, bs) pre) as [[V1 ws1] bs1] eqn:EA1.
  assert (Second : exists d2, wordLoop n d1 p (zlen pre) = Ret d2 /\ byteCount d2 = byteCount d1 /\
     rep d2 (absorb (V1, ws1, bs1) (sub p (zlen pre) (zlen pre + 4 * Z.of_nat n))) /\
     (rest = [] \/ snd (absorb (V1, ws1, bs1) (sub p (zlen pre) (zlen pre + 4 * Z.of_nat n))) = [])).
  { destruct E4 as [E4|E4].
    - assert (n = O) by (unfold n; rewrite E4; reflexivity).
      rewrite H. exists d1. cbn [wordLoop]. split; [reflexivity|]. split; [reflexivity|].
      replace (zlen pre + 4 * Z.of_nat 0) with (zlen pre) by lia.
      unfold sub. rewrite Z.sub_diag. cbn. auto.
    - cbn [snd] in E4. subst bs1.
      destruct (wordLoop_ok n d1 V1 ws1 p (zlen pre)) as (d2 & W1 & W2 & W3 & W4); auto; try lia.
      exists d2. auto. }
  destruct Second as (d2 & E5 & EB2 & R2 & E6). rewrite E5. cbn [bind].
  replace (4 * (zlen rest / 4) + zlen pre) with (zlen pre + 4 * Z.of_nat n) by lia.
  destruct (absorb (V1, ws1, bs1) (sub p (zlen pre) (zlen pre + 4 * Z.of_nat n))) as [[V2 ws2] bs2] eqn:EA2.
  assert (Hsplit : p = pre ++ sub p (zlen pre) (zlen pre + 4 * Z.of_nat n)
                         ++ sub p (zlen pre + 4 * Z.of_nat n) (zlen p)).
  { rewrite <- sub_split by lia. rewrite <- (sub_all _ p) at 1.
    rewrite (sub_split p 0 (zlen pre) (zlen p)) by lia. f_equal.
    rewrite E2. apply sub_app_l. reflexivity. }
  destruct (tailLoop_ok (sub p (zlen pre + 4 * Z.of_nat n) (zlen p)) d2 V2 ws2 bs2) as
    (d3 & T1 & T2 & T3 & T4); auto.
  - apply sub_bytes; auto.
  - assert (SL : Z.of_nat (List.length (sub p (zlen pre + 4 * Z.of_nat n) (zlen p))) =
                 zlen p - (zlen pre + 4 * Z.of_nat n)) by (apply sub_length; lia).
    destruct E6 as [E6|E6].
    + pose proof (rep_bo4 _ _ R2) as X. cbn [snd] in X. 
      assert (zlen rest = 0) by (rewrite E6; reflexivity). lia.
    + cbn [snd] in E6. subst bs2. cbn [List.length]. lia.
  - rewrite T1. cbn [bind]. eexists. split; [reflexivity|]. split.
    + rewrite Hsplit, !absorb_app, EA1, EA2, T4.
      destruct T2 as [[] ? ? ? ? ? ? ? ?]. constructor; cbn in *; auto. constructor; cbn; auto.
    + cbn [byteCount]. congruence.
Qed.

Lemma Write_panic_long : forall d s p, rep d s -> bytes p ->
  2 ^ 31 <= direct_end (xBufOff d) (zlen p) -> Write d p = Panic PSlice.
Proof.
  intros d [[V ws] bs] p R Hp HD.
  assert (Hxb : 0 <= xBufOff d < 4).
  { rewrite (rep_bo _ _ R). pose proof (rep_bo4 _ _ R). unfold zlen. lia. }
  assert (Hlp : 2 ^ 31 <= zlen p).
  { unfold direct_end in HD. pose proof (zlen_nonneg _ p).
    assert (lead (xBufOff d) (zlen p) <= zlen p) by (unfold lead; destruct (xBufOff d =? 0); lia).
    pose proof (Z.mul_div_le (zlen p - lead (xBufOff d) (zlen p)) 4). lia. }
  unfold Write. rewrite (go_index_ret _ p 0 0) by lia. cbn [bind].
  assert (First : exists d1 rest,
     (if xBufOff d =? 0 then Ret (d, p) else fillBuf d p) = Ret (d1, rest) /\
     exists pre, p = pre ++ rest /\ zlen pre = lead (xBufOff d) (zlen p) /\
       exists V1 ws1, rep d1 (V1, ws1, [])).
  { destruct (Z.eqb_spec (xBufOff d) 0) as [E|E].
    - exists d, p. split; [reflexivity|]. exists [].
      unfold lead. rewrite E, Z.eqb_refl. split; [reflexivity|]. split; [reflexivity|].
      exists V, ws. replace (@nil Z) with bs; auto.
      pose proof (rep_bo _ _ R) as X. cbn [snd] in X. apply zlen_0_nil. lia.
    - pose proof (rep_bo _ _ R) as X. cbn [snd] in X.
      destruct (fillBuf_ok p d V ws bs R Hp) as (d1 & rest & E1 & EB & pre & E2 & E3 & E4 & E5 & E6).
      { intro Y. subst bs. apply E. rewrite X. reflexivity. }
      exists d1, rest. split; [exact E1|]. exists pre. split; [exact E2|].
      destruct E5 as [E5|[E5 E5']].
      + subst rest. rewrite app_nil_r in E2. subst pre. unfold zlen in Hlp. lia.
      + split.
        * unfold lead. destruct (Z.eqb_spec (xBufOff d) 0); [contradiction|].
          rewrite E2, zlen_app in *. rewrite X. unfold zlen in *. lia.
        * destruct (absorb (V, ws, bs) pre) as [[V1 ws1] bs1]. cbn in E5'. subst bs1.
          exists V1, ws1. auto. }
  destruct First as (d1 & rest & E1 & pre & E2 & E3 & V1 & ws1 & R1).
  rewrite E1. cbn [bind].
  assert (Hi : zlen p - zlen rest = zlen pre) by (rewrite E2, zlen_app; lia).
  rewrite Hi.
  replace (zlen p - zlen pre) with (zlen rest) by lia.
  pose proof (zlen_nonneg _ rest) as Hr0. pose proof (zlen_nonneg _ pre) as Hp0.
  rewrite land_m4 by lia.
  replace (4 * (zlen rest / 4) + zlen pre - zlen pre) with ((zlen rest / 4) * 4) by lia.
  rewrite Z.div_mul by lia.
  set (n := Z.to_nat (zlen rest / 4)).
  assert (Hn : Z.of_nat n = zlen rest / 4) by (unfold n; rewrite Z2Nat.id; auto; apply Z.div_pos; lia).
  assert (HDE : direct_end (xBufOff d) (zlen p) = zlen pre + 4 * Z.of_nat n).
  { unfold direct_end. rewrite <- E3, Hn. replace (zlen p - zlen pre) with (zlen rest) by lia. lia. }
  pose proof (Z.mul_div_le (zlen rest) 4).
  rewrite (wordLoop_panic n d1 V1 ws1); auto; try lia.
  split; [lia|]. rewrite E3. unfold lead. destruct (xBufOff d =? 0); lia.
Qed.

Lemma Write_empty : forall d, Write d [] = Panic PIndex.
Proof. intros. unfold Write. rewrite go_index_panic by (rewrite zlen_nil; lia). reflexivity. Qed.

(** ** Finalisation *)

Lemma direct_end_1 : forall nb, 0 <= nb < 4 -> direct_end nb 1 < 2 ^ 31.
Proof.
  intros nb H. unfold direct_end, lead.
  destruct (Z.eqb_spec nb 0); [cbn; lia|]. rewrite Z.min_r by lia. cbn. lia.
Qed.

Lemma Write1_ok : forall d s b, rep d s -> byte b ->
  exists d2, Write d [b] = Ret (d2, 1) /\ rep d2 (absorb s [b]) /\
             byteCount d2 = i64 (byteCount d + 1).
Proof.
  intros d s b R Hb.
  destruct (Write_ok d s [b]) as (d2 & E1 & E2 & E3); auto.
  - constructor; auto; constructor.
  - congruence.
  - change (zlen [b]) with 1. apply direct_end_1. rewrite (rep_bo _ _ R).
    pose proof (rep_bo4 _ _ R). unfold zlen. lia.
  - exists d2. auto.
Qed.

(** Zero bytes up to the next word boundary. *)
Definition align (n : Z) : nat := Z.to_nat ((- n) mod 4).

Lemma i64_idem : forall x y, i64 (i64 x + y) = i64 (x + y).
Proof.
  intros. unfold i64. f_equal.
  replace ((x + 2 ^ 63) mod 2 ^ 64 - 2 ^ 63 + y + 2 ^ 63) with ((x + 2 ^ 63) mod 2 ^ 64 + y) by lia.
  rewrite Zplus_mod_idemp_l. f_equal. lia.
Qed.

Lemma padLoop_ok : forall f d V ws bs, rep d (V, ws, bs) ->
  (List.length bs = 0 \/ 4 - List.length bs <= f)%nat ->
  exists d2, padLoop f d = Ret d2 /\
    rep d2 (absorb (V, ws, bs) (repeat 0 (align (zlen bs)))) /\
    byteCount d2 = match align (zlen bs) with O => byteCount d
                   | _ => i64 (byteCount d + Z.of_nat (align (zlen bs))) end.
Proof.
  induction f; intros d V ws bs R H.
  - pose proof (rep_bo4 _ _ R) as H4. cbn [snd] in H4.
    pose proof (rep_bo _ _ R) as Hbo. cbn [snd] in Hbo.
    assert (E : List.length bs = O) by lia. destruct bs; [|discriminate].
    exists d. cbn [padLoop]. rewrite Hbo, zlen_nil. cbn. auto.
  - pose proof (rep_bo4 _ _ R) as H4. cbn [snd] in H4.
    pose proof (rep_bo _ _ R) as Hbo. cbn [snd] in Hbo.
    cbn [padLoop]. destruct (Z.eqb_spec (xBufOff d) 0) as [E|E].
    + assert (E' : zlen bs = 0) by lia. apply zlen_0_nil in E'. subst bs.
      exists d. cbn. auto.
    + destruct (Write1_ok d (V, ws, bs) 0 R) as (d1 & E1 & R1 & B1); [unfold byte; lia|].
      rewrite E1. cbn [bind].
      assert (EA : absorb (V, ws, bs) [0] = push_byte (V, ws, bs) 0) by reflexivity.
      destruct (absorb (V, ws, bs) [0]) as [[V1 ws1] bs1] eqn:EB.
      unfold push_byte in EA. rewrite app_length in EA. cbn [List.length] in EA.
      rewrite Hbo in E. unfold zlen in E.
      assert (Hal : align (zlen bs) = (4 - List.length bs)%nat).
      { unfold align, zlen. assert (C : List.length bs = 1%nat \/ List.length bs = 2%nat \/ List.length bs = 3%nat) by lia.
        destruct C as [C|[C|C]]; rewrite C; reflexivity. }
      destruct (Nat.eqb_spec (List.length bs + 1) 4) as [E4|E4].
      * destruct (push_word (V, ws) (be_dec (bs ++ [0]))) as [V2 ws2]. inversion EA; subst V2 ws2 bs1.
        destruct (IHf d1 V1 ws1 [] R1) as (d2 & F1 & F2 & F3); [left; reflexivity|].
        exists d2. split; [exact F1|]. rewrite Hal. replace (4 - List.length bs)%nat with 1%nat by lia.
        cbn [repeat]. rewrite EB. change (align (zlen [])) with O in F2, F3. cbn [repeat] in F2.
        split; [exact F2|]. rewrite F3, B1. reflexivity.
      * inversion EA; subst V1 ws1 bs1.
        destruct (IHf d1 V ws (bs ++ [0]) R1) as (d2 & F1 & F2 & F3).
        { right. rewrite app_length. cbn [List.length]. lia. }
        exists d2. split; [exact F1|]. rewrite Hal.
        assert (Hal2 : align (zlen (bs ++ [0])) = (3 - List.length bs)%nat).
        { unfold align, zlen. rewrite app_length; cbn [List.length].
          assert (C : List.length bs = 1%nat \/ List.length bs = 2%nat) by lia.
          destruct C as [C|C]; rewrite C; reflexivity. }
        rewrite Hal2 in F2, F3.
        assert (Hk : exists k, (3 - List.length bs)%nat = S k) by (exists (2 - List.length bs)%nat; lia).
        destruct Hk as [k Hk]. replace (4 - List.length bs)%nat with (S (S k)) by lia.
        rewrite Hk in F2, F3. split.
        -- change (repeat 0 (S (S k))) with ([0] ++ repeat 0 (S k)). rewrite absorb_app, EB. exact F2.
        -- rewrite F3, B1, i64_idem. f_equal. lia.
Qed.

(** Pushing words directly (processLength). *)
Definition push_words (s : list Z * list Z) (l : list Z) : list Z * list Z := fold_left push_word l s.

Lemma absorb_words : forall l V ws,
  absorb (V, ws, []) (List.concat (map (be_enc 4) l)) =
  (fst (push_words (V, ws) (map u32 l)), snd (push_words (V, ws) (map u32 l)), []).
Proof.
  induction l as [|x l IH]; intros V ws; [reflexivity|].
  cbn [map List.concat]. rewrite absorb_app.
  assert (E : absorb (V, ws, []) (be_enc 4 x) =
     (let '(V', ws') := push_word (V, ws) (u32 x) in (V', ws', []))).
  { pose proof (be_dec_enc 4 x) as D.
    pose proof (be_enc_length 4 x) as L.
    destruct (be_enc 4 x) as [|a [|b [|c [|e [|f r]]]]]; try discriminate L.
    rewrite absorb_word, D. reflexivity. }
  rewrite E. unfold push_words. cbn [fold_left].
  destruct (push_word (V, ws) (u32 x)) as [V1 ws1]. rewrite IH. reflexivity.
Qed.

(** Relation without the byte buffer, used inside processLength. *)
Record wrep (d : sm3Digest) (V ws : list Z) : Prop := mkWrep {
  wr_wf : wf d;
  wr_v : v d = V;
  wr_xo : xOff d = zlen ws;
  wr_ws : firstn (List.length ws) (inWords d) = ws
}.

Lemma zero_loop : forall n iw k, List.length iw = 16%nat -> words iw -> 0 <= k ->
  k + Z.of_nat n <= 16 ->
  exists iw', for_loop n k (fun j acc => do a <- acc; go_set a j 0) (Ret iw) = Ret iw' /\
    List.length iw' = 16%nat /\ words iw' /\
    firstn (Z.to_nat k + n) iw' = firstn (Z.to_nat k) iw ++ repeat 0 n.
Proof.
  induction n; intros iw k HL HW Hk Hn.
  - exists iw. rewrite Nat.add_0_r, app_nil_r. auto.
  - rewrite for_loop_S. destruct (IHn iw k) as (iw1 & E1 & L1 & W1 & F1); auto; try lia.
    rewrite E1. cbn [bind]. rewrite go_set_ret by (unfold zlen; rewrite L1; lia).
    eexists. split; [reflexivity|]. split; [rewrite upd_length; auto|].
    split; [apply upd_words; auto; unfold is_u32; lia|].
    replace (Z.to_nat (k + Z.of_nat n)) with (Z.to_nat k + n)%nat by lia.
    replace (Z.to_nat k + S n)%nat with (S (Z.to_nat k + n)) by lia.
    rewrite firstn_upd by (rewrite L1; lia). rewrite F1, <- app_assoc.
    cbn [repeat]. rewrite repeat_cons. reflexivity.
Qed.

Lemma push_words_noflush : forall l V ws, (List.length ws + List.length l < 16)%nat ->
  push_words (V, ws) l = (V, ws ++ l).
Proof.
  induction l as [|x l IH]; intros V ws H; cbn [push_words fold_left].
  - rewrite app_nil_r. reflexivity.
  - cbn [List.length] in H. unfold push_word at 2. cbn [fst snd]. rewrite app_length; cbn [List.length].
    destruct (Nat.eqb_spec (List.length ws + 1) 16); [lia|].
    change (fold_left push_word l (V, ws ++ [x])) with (push_words (V, ws ++ [x]) l).
    rewrite IH by (rewrite app_length; cbn [List.length]; lia).
    rewrite <- app_assoc. reflexivity.
Qed.

Lemma push_words_flush : forall l V ws, (List.length ws + List.length l = 16)%nat -> l <> [] ->
  push_words (V, ws) l = (CF V (ws ++ l), []).
Proof.
  intros l V ws H Hne. destruct (exists_last Hne) as (l' & x & E). subst l.
  rewrite app_length in H; cbn [List.length] in H.
  unfold push_words. rewrite fold_left_app. 
  change (fold_left push_word l' (V, ws)) with (push_words (V, ws) l').
  rewrite push_words_noflush by lia. cbn [fold_left]. unfold push_word. cbn [fst snd].
  rewrite !app_length; cbn [List.length].
  destruct (Nat.eqb_spec (List.length ws + List.length l' + 1) 16); [|lia].
  rewrite <- app_assoc. reflexivity.
Qed.

Definition zwords (n : nat) : nat := if (n <=? 14)%nat then (14 - n)%nat else (30 - n)%nat.

Lemma processLength_ok : forall d V ws bs bl,
  rep d (V, ws, bs) ->
  exists d2, processLength d bl = Ret d2 /\ wf d2 /\
   xOff d2 = 16 /\ xBuf d2 = xBuf d /\ xBufOff d2 = xBufOff d /\ byteCount d2 = byteCount d /\
   push_words (V, ws) (repeat 0 (zwords (List.length ws)) ++ [u32 (Z.shiftr bl 32); u32 bl])
     = (CF (v d2) (inWords d2), []).
Proof.
  intros d V ws bs bl R.
  destruct R as [Hwf Hv Hxo Hxo16 Hws Hbo Hbo4 Hbs Hbsb]. cbn [fst snd] in *.
  assert (Main : forall d1 V1 ws1, wrep d1 V1 ws1 -> (List.length ws1 <= 14)%nat ->
     exists d2,
     (do iw1 <- for_loop (Z.to_nat (BlockSize - 2 - xOff d1)) (xOff d1)
             (fun j acc => do a <- acc; go_set a j 0) (Ret (inWords d1));
      let off := Z.max (xOff d1) (BlockSize - 2) in
      do iw2 <- go_set iw1 off (u32 (Z.shiftr bl 32));
      do iw3 <- go_set iw2 (off + 1) (u32 bl);
      Ret (mkDigest (v d1) iw3 (off + 2) (w d1) (xBuf d1) (xBufOff d1) (byteCount d1))) = Ret d2 /\
     wf d2 /\ xOff d2 = 16 /\ xBuf d2 = xBuf d1 /\ xBufOff d2 = xBufOff d1 /\ byteCount d2 = byteCount d1 /\
     push_words (V1, ws1) (repeat 0 (14 - List.length ws1) ++ [u32 (Z.shiftr bl 32); u32 bl])
       = (CF (v d2) (inWords d2), [])).
  { intros d1 V1 ws1 [W1 W2 W3 W4] H14. unfold BlockSize.
    destruct (zero_loop (Z.to_nat (16 - 2 - xOff d1)) (inWords d1) (xOff d1)) as (iw1 & E1 & L1 & U1 & F1);
      try apply W1; try (rewrite W3; unfold zlen; lia).
    rewrite E1. cbn [bind].
    replace (Z.max (xOff d1) (16 - 2)) with 14 by (rewrite W3; unfold zlen; lia).
    cbv zeta. rewrite go_set_ret by (unfold zlen; rewrite L1; lia). cbn [bind].
    rewrite go_set_ret by (unfold zlen; rewrite upd_length, L1; lia). cbn [bind].
    eexists. split; [reflexivity|]. cbn [v inWords xOff xBuf xBufOff byteCount].
    change (14 + 2) with 16.
    change (Z.to_nat 14) with 14%nat. change (Z.to_nat (14 + 1)) with 15%nat.
    assert (EI : upd (upd iw1 14 (u32 (Z.shiftr bl 32))) 15 (u32 bl) =
       ws1 ++ repeat 0 (14 - List.length ws1) ++ [u32 (Z.shiftr bl 32); u32 bl]).
    { assert (F2 : firstn 16 (upd (upd iw1 14 (u32 (Z.shiftr bl 32))) 15 (u32 bl)) =
         firstn 14 iw1 ++ [u32 (Z.shiftr bl 32); u32 bl]).
      { rewrite firstn_upd by (rewrite upd_length, L1; lia).
        rewrite firstn_upd by (rewrite L1; lia). rewrite <- app_assoc. reflexivity. }
      rewrite firstn_all2 in F2 by (rewrite !upd_length, L1; lia).
      replace (Z.to_nat (xOff d1)) with (List.length ws1) in F1 by (rewrite W3; unfold zlen; lia).
      replace (Z.to_nat (16 - 2 - xOff d1)) with (14 - List.length ws1)%nat in F1
        by (rewrite W3; unfold zlen; lia).
      replace (List.length ws1 + (14 - List.length ws1))%nat with 14%nat in F1 by lia.
      rewrite F2, F1, W4, <- app_assoc. reflexivity. }
    split; [|repeat split; auto].
    - destruct W1; constructor; cbn; auto; [rewrite !upd_length; auto|].
      apply upd_words; [apply upd_words; auto|]; apply is_u32_u32.
    - rewrite EI, W2. apply push_words_flush.
      + rewrite app_length, repeat_length. cbn [List.length]. lia.
      + intro X. apply app_eq_nil in X. destruct X; discriminate. }
  unfold processLength. change (BlockSize - 2) with 14 in *.
  destruct (Z.ltb_spec 14 (xOff d)) as [L|L].
  - assert (E15 : List.length ws = 15%nat) by (rewrite Hxo in L; unfold zlen in L; lia).
    rewrite go_set_ret by (rewrite Hxo; unfold zlen; rewrite (wf_iw _ Hwf); lia). cbn [bind].
    pose proof (store_word d V ws 0 Hwf Hv Hxo Hxo16 Hws) as S.
    specialize (S ltac:(unfold is_u32; lia) _ eq_refl). cbv zeta in S. cbn [xOff] in S.
    destruct (Z.leb_spec 16 (xOff d + 1)); [|lia].
    assert (EP : push_word (V, ws) 0 = (CF V (ws ++ [0]), [])).
    { unfold push_word. cbn [fst snd]. rewrite app_length, E15. reflexivity. }
    rewrite EP in S. destruct S as (S1 & S2 & S3 & S4 & S5 & S6 & S7 & S8).
    set (d1 := processBlock _) in *.
    destruct (Main d1 (CF V (ws ++ [0])) []) as (d2 & M1 & M2 & M3 & M4 & M5 & M6 & M7).
    { constructor; auto. } { cbn; lia. }
    exists d2. split; [exact M1|]. split; auto. split; auto. split; [congruence|].
    split; [congruence|]. split; [congruence|].
    unfold zwords. rewrite E15. cbn [Nat.leb Nat.sub repeat app]. cbn [List.length Nat.sub repeat app] in M7.
    unfold push_words in *. cbn [fold_left] in *. rewrite EP. exact M7.
  - cbn [bind].
    destruct (Main d V ws) as (d2 & M1 & M2 & M3 & M4 & M5 & M6 & M7).
    { constructor; auto. } { rewrite Hxo in L; unfold zlen in L; lia. }
    exists d2. split; [exact M1|]. repeat (split; auto).
    unfold zwords. rewrite Hxo in L; unfold zlen in L.
    destruct (Nat.leb_spec (List.length ws) 14); [exact M7|lia].
Qed.

(** What finalisation does to an arbitrary represented state. *)
Definition final_pad (s : astate) (bitlen : Z) : list Z :=
  let s1 := absorb s ([128] ++ repeat 0 (align (zlen (snd s) + 1))) in
  [128] ++ repeat 0 (align (zlen (snd s) + 1)) ++
  List.concat (map (be_enc 4) (repeat 0 (zwords (List.length (snd (fst s1)))) ++
                               [Z.shiftr bitlen 32; bitlen])).

Lemma finish_ok : forall d s, rep d s ->
  exists d2, finish d = Ret d2 /\ rep d2 (v d2, [], []) /\
   absorb s (final_pad s (i64 (Z.shiftl (byteCount d) 3))) = (v d2, [], []) /\
   byteCount d2 = i64 (byteCount d + 1 + Z.of_nat (align (zlen (snd s) + 1))).
Proof.
  intros d s R. unfold finish. set (bl := i64 _).
  destruct (Write1_ok d s 128 R) as (d1 & E1 & R1 & B1); [unfold byte; lia|].
  rewrite E1. cbn [bind].
  destruct s as [[V ws] bs].
  destruct (absorb (V, ws, bs) [128]) as [[V1 ws1] bs1] eqn:EA1.
  pose proof (absorb_len [128] V ws bs V1 ws1 bs1 (rep_xo16 _ _ R) (rep_bo4 _ _ R) EA1) as (AL1 & AL2 & AL3).
  assert (Eal : align (zlen bs1) = align (zlen bs + 1)).
  { unfold align, zlen at 1. rewrite AL3. change (zlen [128]) with 1.
    f_equal. fold (zlen bs). pose proof (zlen_nonneg _ bs).
    pose proof (Z.div_mod (zlen bs + 1) 4). 
    replace (- (zlen bs + 1)) with (- ((zlen bs + 1) mod 4) + (- ((zlen bs + 1) / 4)) * 4) by lia.
    rewrite Z.mod_add by lia. reflexivity. }
  destruct (padLoop_ok 4 d1 V1 ws1 bs1 R1) as (d2 & E2 & R2 & B2); [lia|].
  rewrite E2. cbn [bind]. rewrite Eal in *.
  destruct (absorb (V1, ws1, bs1) (repeat 0 (align (zlen bs + 1)))) as [[V2 ws2] bs2] eqn:EA2.
  assert (Hbs2 : bs2 = []).
  { pose proof (absorb_len _ _ _ _ _ _ _ AL1 AL2 EA2) as (_ & _ & X).
    rewrite zlen_repeat in X.
    assert (Y : (Z.of_nat (List.length bs1) + Z.of_nat (align (zlen bs + 1))) mod 4 = 0).
    { rewrite <- Eal. unfold align, zlen. rewrite Z2Nat.id by (apply Z.mod_pos_bound; lia).
      rewrite Zplus_mod_idemp_r. rewrite Z.add_opp_diag_r. reflexivity. }
    apply zlen_0_nil. unfold zlen. lia. }
  subst bs2.
  destruct (processLength_ok d2 V2 ws2 [] bl R2) as (d3 & E3 & W3 & X3 & Y3 & Z3 & C3 & P3).
  rewrite E3. cbn [bind]. eexists. split; [reflexivity|].
  rewrite processBlock_spec by auto. cbn [v byteCount].
  assert (EF : absorb (V, ws, bs) (final_pad (V, ws, bs) bl) = (CF (v d3) (inWords d3), [], [])).
  { unfold final_pad. cbn [snd fst].
    rewrite !absorb_app. rewrite EA1, EA2. cbn [fst snd].
    rewrite absorb_words. rewrite map_app, map_repeat. cbn [map].
    change (u32 0) with 0. rewrite P3. reflexivity. }
  split; [|split; [exact EF|]].
  - pose proof (wf_processBlock d3 W3) as W4. rewrite processBlock_spec in W4 by auto.
    constructor; cbn [fst snd v xOff inWords xBuf xBufOff byteCount]; auto; try lia.
    + cbn; lia.
    + rewrite Z3. apply R2.
    + constructor.
  - rewrite C3, B2, B1.
    cbn [snd]. destruct (align (zlen bs + 1)) eqn:E0; cbn [Z.of_nat].
    + rewrite Z.add_0_r. reflexivity.
    + rewrite i64_idem. reflexivity.
Qed.

(** ** Link with the standard's block iteration *)

Lemma absorb_block_words : forall ws V, (0 < List.length ws <= 16)%nat -> List.length ws = 16%nat ->
  push_words (V, []) ws = (CF V ws, []).
Proof.
  intros ws V H E. rewrite push_words_flush; auto.
  intro X; subst; discriminate.
Qed.

Lemma chunks4_absorb : forall n l V ws, List.length l = (4 * n)%nat ->
  absorb (V, ws, []) l =
  (fst (push_words (V, ws) (map be_dec (chunks 4 l))), snd (push_words (V, ws) (map be_dec (chunks 4 l))), []).
Proof.
  induction n; intros l V ws H.
  - destruct l; [reflexivity|discriminate].
  - destruct l as [|a [|b [|c [|e l]]]]; try (cbn in H; lia).
    change (a :: b :: c :: e :: l) with ([a; b; c; e] ++ l).
    rewrite chunks_cons by (auto; lia). rewrite absorb_app, absorb_word.
    cbn [map push_words fold_left].
    destruct (push_word (V, ws) (be_dec [a; b; c; e])) as [V1 ws1].
    apply IHn. cbn in H. lia.
Qed.

Lemma chunks_length_exact : forall n k (l : list Z), (0 < k)%nat -> List.length l = (n * k)%nat ->
  List.length (chunks k l) = n.
Proof.
  induction n; intros k l Hk H.
  - destruct l; [reflexivity|discriminate].
  - cbn [Nat.mul] in H. rewrite <- (firstn_skipn k l). rewrite chunks_cons; auto.
    + cbn [List.length]. f_equal. apply IHn; auto. rewrite skipn_length. lia.
    + rewrite firstn_length. lia.
Qed.

Lemma absorb_block : forall l V, List.length l = 64%nat ->
  absorb (V, [], []) l = (CF V (words_of l), [], []).
Proof.
  intros l V H. rewrite (chunks4_absorb 16) by auto.
  assert (HL : List.length (words_of l) = 16%nat).
  { unfold words_of. rewrite map_length. apply chunks_length_exact; auto; lia. }
  fold (words_of l). rewrite absorb_block_words by (auto; lia). reflexivity.
Qed.

Lemma absorb_blocks : forall n l V, List.length l = (n * 64)%nat ->
  absorb (V, [], []) l = (fold_left (fun V blk => CF V (words_of blk)) (chunks 64 l) V, [], []).
Proof.
  induction n; intros l V H.
  - destruct l; [reflexivity|discriminate].
  - cbn [Nat.mul] in H. rewrite <- (firstn_skipn 64 l).
    assert (H64 : List.length (firstn 64 l) = 64%nat) by (rewrite firstn_length; lia).
    rewrite chunks_cons by (auto; lia). rewrite absorb_app, absorb_block by auto.
    cbn [fold_left]. apply IHn. rewrite skipn_length. lia.
Qed.

(** Position inside a block after absorbing a message from scratch. *)
Lemma absorb_pos : forall m V, exists V' ws bs, absorb (V, [], []) m = (V', ws, bs) /\
  Z.of_nat (List.length bs) = zlen m mod 4 /\ Z.of_nat (List.length ws) = (zlen m / 4) mod 16.
Proof.
  induction m as [|b m IH] using rev_ind; intro V.
  - exists V, [], []. auto.
  - destruct (IH V) as (V1 & ws1 & bs1 & E & H1 & H2). rewrite absorb_app, E.
    rewrite zlen_app. change (zlen [b]) with 1. pose proof (zlen_nonneg _ m).
    pose proof (Z.div_mod (zlen m) 4). pose proof (Z.mod_pos_bound (zlen m) 4).
    pose proof (Z.div_mod (zlen m / 4) 16). pose proof (Z.mod_pos_bound (zlen m / 4) 16).
    cbn [absorb fold_left push_byte]. rewrite app_length. cbn [List.length].
    destruct (Nat.eqb_spec (List.length bs1 + 1) 4) as [E4|E4].
    + unfold push_word. cbn [fst snd]. rewrite app_length; cbn [List.length].
      assert (Q : (zlen m + 1) / 4 = zlen m / 4 + 1).
      { symmetry. apply Z.div_unique with 0; lia. }
      assert (Q0 : (zlen m + 1) mod 4 = 0).
      { symmetry. apply Z.mod_unique with (zlen m / 4 + 1); lia. }
      rewrite Q, Q0.
      destruct (Nat.eqb_spec (List.length ws1 + 1) 16) as [E16|E16].
      * eexists _, [], []. split; [reflexivity|]. split; [reflexivity|].
        cbn [List.length Z.of_nat]. apply Z.mod_unique with (zlen m / 4 / 16 + 1); lia.
      * eexists _, (ws1 ++ [be_dec (bs1 ++ [b])]), []. split; [reflexivity|]. split; [reflexivity|].
        rewrite app_length. cbn [List.length]. apply Z.mod_unique with (zlen m / 4 / 16); lia.
    + eexists _, ws1, (bs1 ++ [b]). split; [reflexivity|].
      rewrite app_length. cbn [List.length]. split.
      * apply Z.mod_unique with (zlen m / 4); lia.
      * rewrite H2. f_equal. apply Z.div_unique with (zlen m mod 4 + 1); lia.
Qed.

Lemma concat_zero_words : forall n, List.concat (map (be_enc 4) (repeat 0 n)) = repeat 0 (4 * n).
Proof.
  induction n; [reflexivity|]. cbn [repeat map List.concat]. rewrite IHn.
  replace (4 * S n)%nat with (4 + 4 * n)%nat by lia. rewrite repeat_app. reflexivity.
Qed.

Lemma be_enc_app : forall n m x, be_enc (n + m) x = be_enc n (x / 256 ^ Z.of_nat m) ++ be_enc m x.
Proof.
  intros n m. induction m; intro x.
  - rewrite Nat.add_0_r, app_nil_r. change (256 ^ Z.of_nat 0) with 1. rewrite Z.div_1_r. reflexivity.
  - replace (n + S m)%nat with (S (n + m)) by lia. cbn [be_enc]. rewrite IHm, <- app_assoc.
    f_equal. f_equal. rewrite Z.div_div by (try lia; apply Z.pow_pos_nonneg; lia).
    rewrite Nat2Z.inj_succ, Z.pow_succ_r by lia. reflexivity.
Qed.

Lemma final_pad_spec : forall m, 0 <= 8 * zlen m < 2 ^ 64 -> forall bl, bl mod 2 ^ 64 = 8 * zlen m ->
  m ++ final_pad (absorb (IV, [], []) m) bl = pad m.
Proof.
  intros m Hm bl Hbl. unfold pad. f_equal. unfold final_pad.
  destruct (absorb_pos m IV) as (V1 & ws1 & bs1 & E1 & H1 & H2).
  rewrite E1. cbn [snd].
  destruct (absorb_pos (m ++ [128] ++ repeat 0 (align (zlen bs1 + 1))) IV) as (V2 & ws2 & bs2 & E2 & H3 & H4).
  rewrite absorb_app, E1 in E2. rewrite E2. cbn [fst snd].
  assert (Eal : Z.of_nat (align (zlen bs1 + 1)) = (3 - zlen m) mod 4).
  { unfold align. rewrite Z2Nat.id by (apply Z.mod_pos_bound; lia). unfold zlen at 1. rewrite H1.
    pose proof (Z.div_mod (zlen m) 4).
    replace (- (zlen m mod 4 + 1)) with (3 - zlen m + (zlen m / 4 - 1) * 4) by lia.
    apply Z.mod_add. lia. }
  set (a := align (zlen bs1 + 1)) in *.
  rewrite map_app, concat_app, concat_zero_words. cbn [map List.concat app].
  rewrite app_nil_r. f_equal.
  assert (EL : be_enc 4 (Z.shiftr bl 32) ++ be_enc 4 bl = be_enc 8 (8 * zlen m)).
  { rewrite <- Hbl. change (2 ^ 64) with (256 ^ Z.of_nat 8). rewrite be_enc_mod.
    change 8%nat with (4 + 4)%nat. rewrite be_enc_app. rewrite Z.shiftr_div_pow2 by lia. reflexivity. }
  rewrite EL. rewrite !app_assoc. f_equal. rewrite <- repeat_app. f_equal.
  pose proof (zlen_nonneg _ m).
  rewrite !zlen_app, zlen_repeat in H4. change (zlen [128]) with 1 in H4.
  set (L := zlen m) in *. rewrite Eal in H4. clear - H4 Eal H.
  unfold zwords.
  pose proof (Z.div_mod (3 - L) 4) as D1. pose proof (Z.mod_pos_bound (3 - L) 4) as B1.
  set (q := (3 - L) / 4) in *. set (r := (3 - L) mod 4) in *.
  assert (Q : (L + (1 + r)) / 4 = 1 - q).
  { symmetry. apply Z.div_unique with 0; lia. }
  rewrite Q in H4.
  pose proof (Z.div_mod (1 - q) 16) as D2. pose proof (Z.mod_pos_bound (1 - q) 16) as B2.
  assert (R : (55 - L) mod 64 = r + 4 * Z.of_nat (if (List.length ws2 <=? 14)%nat then (14 - List.length ws2)%nat else (30 - List.length ws2)%nat)).
  { destruct (Nat.leb_spec (List.length ws2) 14).
    - symmetry. apply Z.mod_unique with (- ((1 - q) / 16)); lia.
    - symmetry. apply Z.mod_unique with (- ((1 - q) / 16) - 1); lia. }
  rewrite R. lia.
Qed.

Lemma pad_length : forall m, exists n, List.length (pad m) = (n * 64)%nat.
Proof.
  intro m. exists (Z.to_nat ((zlen m + 9 + (55 - zlen m) mod 64) / 64)).
  unfold pad. rewrite !app_length, repeat_length, be_enc_length. cbn [List.length].
  pose proof (zlen_nonneg _ m). pose proof (Z.mod_pos_bound (55 - zlen m) 64).
  pose proof (Z.div_mod (55 - zlen m) 64).
  assert (E : zlen m + 9 + (55 - zlen m) mod 64 = (1 - (55 - zlen m) / 64) * 64) by lia.
  rewrite E, Z.div_mul by lia. unfold zlen in *. lia.
Qed.

(** ** Final statements used by the property files *)

Definition stands_for (d : sm3Digest) (m : list Z) : Prop :=
  rep d (absorb (IV, [], []) m) /\ byteCount d = i64 (zlen m).

Lemma reset_wf : forall d, List.length (v d) = 8%nat -> List.length (inWords d) = 16%nat ->
  List.length (w d) = 68%nat -> List.length (xBuf d) = 4%nat -> Reset d = New.
Proof.
  intros d Hv Hi Hw Hx. unfold New, Reset.
  destruct d as [v0 iw0 xo0 w0 xb0 xbo0 bc0]. cbn [v inWords w xBuf] in *.
  repeat (destruct v0 as [|? v0]; cbn [List.length] in Hv; [lia|]; try (apply eq_add_S in Hv)).
  all: try (destruct v0; [|discriminate Hv]).
  repeat (destruct iw0 as [|? iw0]; cbn [List.length] in Hi; [lia|]; try (apply eq_add_S in Hi)).
  all: try (destruct iw0; [|discriminate Hi]).
  repeat (destruct xb0 as [|? xb0]; cbn [List.length] in Hx; [lia|]; try (apply eq_add_S in Hx)).
  all: try (destruct xb0; [|discriminate Hx]).
  repeat (destruct w0 as [|? w0]; cbn [List.length] in Hw; [lia|]; try (apply eq_add_S in Hw)).
  all: try (destruct w0; [|discriminate Hw]).
  reflexivity.
Qed.
