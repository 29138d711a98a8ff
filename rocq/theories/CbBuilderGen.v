(** Facts about arbitrary sequences of Builder calls: what they preserve. *)
From Coq Require Import ZArith List Lia Bool String.
From Verif Require Import GoBase BeMin CbString CbStringProofs CbBuilder CbBuilderProofs CbBuilderFixed.
Import ListNotations.
Open Scope Z_scope.

(** Length prefixes have one to four bytes. *)
Fixpoint wf_op (o : op) : Prop :=
  let fix wf_ops (l : list op) : Prop :=
    match l with [] => True | o :: r => wf_op o /\ wf_ops r end in
  match o with
  | OLP _ k l => 1 <= k <= 4 /\ wf_ops l
  | OASN1 _ _ l => wf_ops l
  | _ => True
  end.
Fixpoint wf_ops (l : list op) : Prop :=
  match l with [] => True | o :: r => wf_op o /\ wf_ops r end.

Section OpInd.
  Variable P : op -> Prop.
  Variable Q : list op -> Prop.
  Hypothesis H1 : forall l bs, P (OAdd l bs).
  Hypothesis H2 : forall l e, P (OSetErr l e).
  Hypothesis H3 : forall l k b, Q b -> P (OLP l k b).
  Hypothesis H4 : forall l t b, Q b -> P (OASN1 l t b).
  Hypothesis H5 : forall e, P (OPanicBuild e).
  Hypothesis H6 : forall k, P (OPanic k).
  Hypothesis Hn : Q [].
  Hypothesis Hc : forall o l, P o -> Q l -> Q (o :: l).
  Fixpoint op_ind2 (o : op) : P o :=
    let fix ops_ind2 (l : list op) : Q l :=
      match l with [] => Hn | o :: r => Hc o r (op_ind2 o) (ops_ind2 r) end in
    match o with
    | OAdd l bs => H1 l bs
    | OSetErr l e => H2 l e
    | OLP l k b => H3 l k b (ops_ind2 b)
    | OASN1 l t b => H4 l t b (ops_ind2 b)
    | OPanicBuild e => H5 e
    | OPanic k => H6 k
    end.
  Lemma ops_ind2 : forall l, Q l.
  Proof. induction l; [apply Hn|apply Hc; [apply op_ind2|assumption]]. Qed.
End OpInd.

(** * Preserving an invariant of the state *)

Record closed_inv (I : bstate -> Prop) : Prop := {
  ci_add : forall st k bs, I st -> I (fst (add st k bs));
  ci_err : forall st k f e, I st -> nth_error (frames st) k = Some f -> I (put_frame st k (set_err f e));
  ci_enter : forall st k a f fs, I st -> frames st = f :: fs -> f_err f = None ->
    1 <= k <= 4 -> (a = true -> k = 1) -> I (enter st k a);
  ci_flush : forall st, I st -> I (fst (flush1 st));
  ci_root : forall st e, I st -> I (set_root_err st e)
}.

Lemma flush_inv : forall I, closed_inv I -> forall n st, I st -> I (fst (flush n st)).
Proof.
  intros I C n. induction n as [|n IH]; intros st H; [exact H|]. cbn [flush].
  pose proof (ci_flush I C st H) as F. destruct (flush1 st) as [st' [k|]]; [exact F|apply IH; exact F].
Qed.

Lemma leave_inv : forall I, closed_inv I -> forall d o, I (fst o) -> I (fst (leave d o)).
Proof.
  intros I C d [st [k|]] H; cbn [leave fst] in *.
  - destruct k; try exact H. destruct (Nat.eqb d 1); [|exact H].
    apply flush_inv; auto. apply ci_root; auto.
  - apply flush_inv; auto.
Qed.

Lemma exec_inv_all : forall I, closed_inv I ->
  (forall o, wf_op o -> forall st, I st -> I (fst (exec o st))) /\
  (forall l, wf_ops l -> forall st, I st -> I (fst (execs l st))).
Proof.
  intros I C.
  set (P := fun o => wf_op o -> forall st, I st -> I (fst (exec o st))).
  set (Q := fun l => wf_ops l -> forall st, I st -> I (fst (execs l st))).
  assert (LP : forall lvl k a b, Q b -> wf_ops b -> 1 <= k <= 4 -> (a = true -> k = 1) ->
            forall st, I st -> I (fst (addLP lvl k a b st))).
  { intros lvl k a b IH W Hk Ha st H. unfold addLP.
    destruct (nth_error (frames st) lvl) as [f|] eqn:E; [|exact H].
    destruct (f_err f) eqn:Ee; [exact H|]. destruct lvl as [|lvl]; [|cbn [Nat.eqb negb]; apply ci_add; auto].
    cbn [Nat.eqb negb]. destruct (frames st) as [|f0 fs] eqn:Efr; [discriminate|]. injection E as ->.
    apply leave_inv; auto. apply IH; auto. eapply ci_enter; eauto. }
  assert (H1 : forall l bs, P (OAdd l bs)).
  { intros l bs W st H. cbn [exec]. apply ci_add; auto. }
  assert (H2 : forall l e, P (OSetErr l e)).
  { intros l e W st H. cbn [exec]. destruct (nth_error (frames st) l) as [f|] eqn:E; [|exact H].
    apply ci_err; auto. }
  assert (H3 : forall l k b, Q b -> P (OLP l k b)).
  { intros l k b IH [Hk W] st H. rewrite exec_OLP. apply LP; auto. discriminate. }
  assert (H4 : forall l t b, Q b -> P (OASN1 l t b)).
  { intros l t b IH W st H. rewrite exec_OASN1.
    destruct (nth_error (frames st) l) as [f|] eqn:E; [|exact H].
    destruct (f_err f); [exact H|]. destruct (Z.land t 0x1f =? 0x1f); [apply ci_err; auto|].
    pose proof (ci_add I C st l [t] H) as A. destruct (add st l [t]) as [st1 [k|]]; [exact A|].
    apply LP; auto. lia. }
  assert (H5 : forall e, P (OPanicBuild e)) by (intros e W st H; exact H).
  assert (H6 : forall k, P (OPanic k)) by (intros k W st H; exact H).
  assert (Hn : Q []) by (intros W st H; exact H).
  assert (Hc : forall o l, P o -> Q l -> Q (o :: l)).
  { intros o l IHo IHl [Wo Wl] st H. cbn [execs]. specialize (IHo Wo st H).
    destruct (exec o st) as [st1 [k|]]; [exact IHo|]. apply IHl; auto. }
  split; [intro o; apply (op_ind2 P Q)|intro l; apply (ops_ind2 P Q)]; auto.
Qed.

(** * Updating frames *)

Lemma upd_Forall : forall A (R : A -> Prop) l k x, Forall R l -> R x -> Forall R (upd l k x).
Proof.
  intros A R l. induction l as [|a l IH]; intros k x Hl Hx; [constructor|].
  inversion Hl; subst. destruct k; cbn [upd]; constructor; auto.
Qed.

Lemma nth_error_Forall : forall A (R : A -> Prop) l k x, Forall R l -> nth_error l k = Some x -> R x.
Proof. intros A R l k x Hl H. rewrite Forall_forall in Hl. eauto using nth_error_In. Qed.

Lemma set_root_frames : forall st e fs r, frames st = fs ++ [r] ->
  frames (set_root_err st e) = fs ++ [set_err r e].
Proof.
  intros st e fs r H. unfold set_root_err. rewrite H, rev_unit. cbn [set_frames frames].
  cbn [rev]. rewrite rev_involutive. reflexivity.
Qed.

Lemma snoc_or_nil : forall A (l : list A), l = [] \/ exists fs r, l = fs ++ [r].
Proof.
  intros A l. destruct (rev l) as [|r fs] eqn:E.
  - left. apply (f_equal (@rev A)) in E. rewrite rev_involutive in E. exact E.
  - right. exists (rev fs), r. apply (f_equal (@rev A)) in E. rewrite rev_involutive in E. exact E.
Qed.

Lemma set_root_Forall : forall (R : frame -> Prop) st e, Forall R (frames st) ->
  (forall f, R f -> R (set_err f e)) -> Forall R (frames (set_root_err st e)).
Proof.
  intros R st e H HR. destruct (snoc_or_nil _ (frames st)) as [E|(fs & r & E)].
  - unfold set_root_err. rewrite E. cbn. rewrite E. constructor.
  - rewrite (set_root_frames st e fs r E). rewrite E in H. apply Forall_app in H.
    destruct H as [H1 H2]. inversion H2; subst. apply Forall_app. split; [auto|].
    constructor; auto.
Qed.

(** * A fixed-size builder stays inside its capacity *)

Definition in_cap (cap : Z) (f : frame) : Prop :=
  0 <= f_off f /\ 0 <= f_pll f /\ 0 <= f_len f <= cap.

(** [m0] is the array before the calls. *)
Definition confined (m0 : list Z) (cap : Z) (st : bstate) : Prop :=
  fixed st = true /\ b_cap st = cap /\ 0 <= cap <= zlen m0 /\
  (exists m, mem st = m ++ skipn (Z.to_nat cap) m0 /\ zlen m = cap) /\
  Forall (in_cap cap) (frames st).

Lemma splice_confined : forall (m0 m : list Z) cap o bs, 0 <= cap -> zlen m = cap ->
  0 <= o -> o + zlen bs <= cap ->
  exists m', splice (m ++ skipn (Z.to_nat cap) m0) o bs = m' ++ skipn (Z.to_nat cap) m0 /\ zlen m' = cap.
Proof.
  intros m0 m cap o bs Hc Hm Ho Hb. pose proof (zlen_nonneg _ bs).
  destruct (split_at _ m o ltac:(lia)) as (a & r & -> & Ha). rewrite zlen_app in Hm.
  destruct (split_at _ r (zlen bs) ltac:(lia)) as (b & c & -> & Hb2). rewrite zlen_app in Hm.
  exists (a ++ bs ++ c). split.
  - rewrite <- !app_assoc. apply splice_mid; auto.
  - rewrite !zlen_app. lia.
Qed.

Lemma set_err_in_cap : forall cap f e, in_cap cap f -> in_cap cap (set_err f e).
Proof. intros; exact H. Qed.

Lemma confined_add : forall m0 cap st k bs, confined m0 cap st -> confined m0 cap (fst (add st k bs)).
Proof.
  intros m0 cap st k bs H. pose proof H as (Hf & Hc & Hr & (m & Hm & Lm) & HF). unfold add.
  destruct (nth_error (frames st) k) as [f|] eqn:E; [|exact H].
  pose proof (nth_error_Forall _ _ _ _ _ HF E) as HI. pose proof HI as (I1 & I2 & I3).
  destruct (f_err f); [exact H|]. destruct (negb (Nat.eqb k 0)); [exact H|].
  rewrite Hf, Hc. cbn [andb]. destruct (Z.ltb_spec cap (f_len f + zlen bs)).
  - cbn [fst]. split; [exact Hf|]. split; [exact Hc|]. split; [exact Hr|].
    split; [exists m; auto|]. apply upd_Forall; auto.
  - cbn [fst]. pose proof (zlen_nonneg _ bs).
    destruct (splice_confined m0 m cap (f_len f) bs) as (m' & E' & L'); [lia|lia|lia|lia|].
    split; [exact Hf|]. split; [exact Hc|]. split; [exact Hr|].
    split.
    + exists m'. cbn [put_frame set_frames set_mem mem]. unfold write. rewrite Hf, Hm. auto.
    + apply upd_Forall; auto. split; [exact I1|]. split; [exact I2|]. cbn. lia.
Qed.

Lemma confined_flush1 : forall m0 cap st, confined m0 cap st -> confined m0 cap (fst (flush1 st)).
Proof.
  intros m0 cap st H. pose proof H as (Hf & Hc & Hr & (m & Hm & Lm) & HF). unfold flush1.
  destruct (frames st) as [|c [|b rest]] eqn:Hfr; [exact H|exact H|].
  pose proof (Forall_inv HF) as (C1 & C2 & C3). pose proof (Forall_inv_tail HF) as HF2.
  pose proof (Forall_inv HF2) as HB. pose proof (Forall_inv_tail HF2) as HF3.
  assert (REST : forall b', in_cap cap b' -> Forall (in_cap cap) (b' :: rest)) by (constructor; auto).
  destruct (f_err c) as [e|].
  { split; [exact Hf|]. split; [exact Hc|]. split; [exact Hr|]. split; [exists m; auto|].
    cbn. apply REST. exact HB. }
  destruct (Z.ltb_spec (f_len c - f_pll c - f_off c) 0) as [|HL]; [exact H|].
  set (len := f_len c - f_pll c - f_off c) in *.
  assert (FIN : forall m1 clen off pll n, zlen m1 = cap -> 0 <= off -> 0 <= pll -> clen <= cap ->
     confined m0 cap
       (fst (let st := mkB (m1 ++ skipn (Z.to_nat cap) m0) true cap (c :: b :: rest) in
             if (0 <? pll) && (clen <? off + pll) then (st, Some PIndex) else
             let st := set_mem st (splice (mem st) off (be_enc (Z.to_nat pll) n)) in
             if negb (Z.shiftr n (8 * pll) =? 0) then
               (set_frames st
                 (set_err b "cryptobyte: pending child length exceeds length prefix" :: rest), None)
             else (set_frames st ((if fixed st then b else set_len b clen) :: rest), None)))).
  { intros m1 clen off pll n L1 Ho Hp Hcl. cbv zeta.
    destruct ((0 <? pll) && (clen <? off + pll)) eqn:EB.
    - cbn [fst]. split; [reflexivity|]. split; [reflexivity|]. split; [exact Hr|].
      split; [exists m1; auto|exact HF].
    - assert (HS : exists m2, splice (m1 ++ skipn (Z.to_nat cap) m0) off (be_enc (Z.to_nat pll) n)
                   = m2 ++ skipn (Z.to_nat cap) m0 /\ zlen m2 = cap).
      { destruct (Z.ltb_spec 0 pll) as [P|P]; cbn [andb] in EB.
        - apply splice_confined; [lia|exact L1|lia|]. rewrite zlen_be_enc.
          destruct (Z.ltb_spec clen (off + pll)); [discriminate|lia].
        - replace pll with 0 by lia. change (be_enc (Z.to_nat 0) n) with (@nil Z).
          rewrite splice_nil. eauto. }
      destruct HS as (m2 & E2 & L2). cbn [set_mem mem]. rewrite E2.
      destruct (negb (Z.shiftr n (8 * pll) =? 0)).
      + cbn [fst]. split; [reflexivity|]. split; [reflexivity|]. split; [exact Hr|].
        split; [exists m2; auto|]. apply REST. exact HB.
      + cbn [fst]. split; [reflexivity|]. split; [reflexivity|]. split; [exact Hr|].
        split; [exists m2; auto|]. apply REST. exact HB. }
  destruct (f_asn1 c).
  - destruct (Z.eqb_spec (f_pll c) 1) as [P1|]; cbn [negb]; [|exact H].
    destruct (asn1LenBytes len) as [[[ll lb] n']|] eqn:EA.
    2:{ split; [exact Hf|]. split; [exact Hc|]. split; [exact Hr|]. split; [exists m; auto|].
        cbn. apply REST. exact HB. }
    destruct (Z.leb_spec (f_len c) (f_off c)) as [|HO]; [exact H|].
    destruct (splice_confined m0 m cap (f_off c) [lb]) as (m1 & E1 & L1);
      [lia|exact Lm|lia|change (zlen [lb]) with 1; lia|].
    assert (LL : 1 <= ll).
    { unfold asn1LenBytes in EA.
      repeat match type of EA with (if ?x then _ else _) = _ => destruct x end;
        try discriminate; injection EA as <- _ _; lia. }
    destruct st as [sm sf sc sfr]. cbn [mem fixed b_cap frames] in *. subst sm sf sc sfr.
    cbn [set_mem mem fixed b_cap frames]. rewrite E1.
    destruct (Z.eqb_spec (ll - 1) 0) as [E0|E0]; cbn [negb].
    + apply (FIN m1); lia.
    + cbn [andb].
      destruct (Z.ltb_spec cap (f_len c + (ll - 1))) as [R|R].
      * destruct (Z.ltb_spec (f_len c) (f_off c + f_pll c + (ll - 1))); [exact H|].
        cbn [set_mem mem fixed b_cap frames].
        match goal with |- context [splice _ ?o ?x] =>
          destruct (splice_confined m0 m1 cap o x) as (m2 & E2 & L2) end;
          [lia|exact L1|lia| |].
        { rewrite sub_length; [lia|lia|]. rewrite zlen_app. pose proof (zlen_nonneg _ (skipn (Z.to_nat cap) m0)). lia. }
        rewrite E2. apply (FIN m2); lia.
      * cbn [set_mem mem fixed b_cap frames]. unfold write, set_mem. cbn [mem fixed b_cap frames].
        destruct (splice_confined m0 m1 cap (f_len c) (repeat 0 (Z.to_nat (ll - 1)))) as (m2 & E2 & L2);
          [lia|exact L1|lia|rewrite zlen_repeat; lia|].
        rewrite E2.
        destruct (Z.ltb_spec (f_len c + (ll - 1)) (f_off c + f_pll c + (ll - 1))); [exact H|].
        cbn [set_mem mem fixed b_cap frames].
        match goal with |- context [splice _ ?o ?x] =>
          destruct (splice_confined m0 m2 cap o x) as (m3 & E3 & L3) end;
          [lia|exact L2|lia| |].
        { rewrite sub_length; [lia|lia|]. rewrite zlen_app. pose proof (zlen_nonneg _ (skipn (Z.to_nat cap) m0)). lia. }
        rewrite E3. apply (FIN m3); lia.
  - destruct st as [sm sf sc sfr]. cbn [mem fixed b_cap frames] in *. subst sm sf sc sfr.
    apply (FIN m); lia.
Qed.

Lemma confined_closed : forall m0 cap, closed_inv (confined m0 cap).
Proof.
  intros m0 cap. constructor.
  - intros; apply confined_add; auto.
  - intros st k f e (Hf & Hc & Hr & HM & HF) E.
    split; [exact Hf|]. split; [exact Hc|]. split; [exact Hr|]. split; [exact HM|].
    apply upd_Forall; [exact HF|]. apply (nth_error_Forall _ _ _ _ _ HF E).
  - intros st k a f fs H Hfr _ Hk Ha. unfold enter. rewrite Hfr.
    pose proof H as (_ & _ & _ & _ & HF0). rewrite Hfr in HF0. inversion HF0 as [|? ? (I1 & I2 & I3) _]; subst.
    pose proof (confined_add m0 cap st 0 (repeat 0 (Z.to_nat k)) H) as A.
    destruct (add st 0 (repeat 0 (Z.to_nat k))) as [st1 p]. cbn [fst] in A.
    destruct (frames st1) as [|f1 rest] eqn:R; [exact A|].
    destruct A as (Hf & Hc & Hr & HM & HF). rewrite R in HF.
    split; [exact Hf|]. split; [exact Hc|]. split; [exact Hr|]. split; [exact HM|].
    cbn [set_frames frames]. constructor; [|exact HF].
    inversion HF as [|? ? (J1 & J2 & J3) _]; subst. split; [cbn; lia|]. split; [cbn; lia|]. cbn. lia.
  - intros; apply confined_flush1; auto.
  - intros st e (Hf & Hc & Hr & HM & HF).
    assert (E : mem (set_root_err st e) = mem st /\ fixed (set_root_err st e) = fixed st /\
                b_cap (set_root_err st e) = b_cap st).
    { unfold set_root_err. destruct (rev (frames st)); auto. }
    destruct E as (E1 & E2 & E3). unfold confined. rewrite E1, E2, E3.
    split; [exact Hf|]. split; [exact Hc|]. split; [exact Hr|]. split; [exact HM|].
    apply set_root_Forall; auto.
Qed.

(** * In growing mode flushing never panics *)

Definition tidy_frame (f : frame) : Prop :=
  0 <= f_off f /\ 0 <= f_pll f /\ f_off f + f_pll f <= f_len f /\ (f_asn1 f = true -> f_pll f = 1).
(** A child's slice is at least as long as its parent's. *)
Fixpoint nested (fs : list frame) : Prop :=
  match fs with
  | c :: r => match r with b :: _ => f_len b <= f_len c | [] => True end /\ nested r
  | [] => True
  end.
Definition tidy (st : bstate) : Prop :=
  fixed st = false /\ Forall tidy_frame (frames st) /\ nested (frames st).

Lemma nested_upd : forall fs k f f', nested fs -> nth_error fs k = Some f -> f_len f' = f_len f ->
  nested (upd fs k f').
Proof.
  induction fs as [|a fs IH]; intros k f f' N E L; [exact I|].
  destruct k as [|k]; cbn [nth_error] in E.
  - injection E as ->. cbn [upd nested] in *. destruct N as [N1 N2]. split; [|exact N2].
    destruct fs; [exact I|]. lia.
  - cbn [upd nested] in *. destruct N as [N1 N2]. split; [|eapply IH; eauto].
    destruct fs as [|b r]; [exact I|]. destruct k as [|k]; cbn [upd]; [|exact N1].
    cbn [nth_error] in E. injection E as ->. lia.
Qed.

Lemma tidy_add : forall st k bs, tidy st -> tidy (fst (add st k bs)).
Proof.
  intros st k bs H. pose proof H as (Hf & HF & N). unfold add.
  destruct (nth_error (frames st) k) as [f|] eqn:E; [|exact H].
  pose proof (nth_error_Forall _ _ _ _ _ HF E) as (I1 & I2 & I3 & I4).
  destruct (f_err f); [exact H|]. destruct k as [|k]; cbn [Nat.eqb negb]; [|exact H].
  rewrite Hf. cbn [andb fst]. pose proof (zlen_nonneg _ bs).
  split; [exact Hf|]. split.
  - apply upd_Forall; [exact HF|].
    split; [exact I1|]. split; [exact I2|]. split; [cbn; lia|exact I4].
  - cbn [put_frame set_frames set_mem frames].
    destruct (frames st) as [|f0 fs]; [discriminate|]. injection E as ->. cbn [upd nested] in *.
    destruct N as [N1 N2]. split; [|exact N2]. destruct fs; [exact I|]. cbn. lia.
Qed.

Lemma asn1LenBytes_len : forall n ll lb n', asn1LenBytes n = Some (ll, lb, n') -> 1 <= ll.
Proof.
  intros n ll lb n' EA. unfold asn1LenBytes in EA.
  repeat match type of EA with (if ?x then _ else _) = _ => destruct x end;
    try discriminate; injection EA as <- _ _; lia.
Qed.

Lemma tidy_flush1 : forall st, tidy st -> tidy (fst (flush1 st)) /\ snd (flush1 st) = None.
Proof.
  intros st H. pose proof H as (Hf & HF & N). unfold flush1.
  destruct (frames st) as [|c [|b rest]] eqn:Hfr; [split; [exact H|reflexivity]|split; [exact H|reflexivity]|].
  pose proof (Forall_inv HF) as (C1 & C2 & C3 & C4). pose proof (Forall_inv_tail HF) as HF2.
  pose proof (Forall_inv HF2) as HB. pose proof HB as (B1 & B2 & B3 & B4).
  pose proof (Forall_inv_tail HF2) as HF3. pose proof N as (N1 & N2 & N3).
  assert (BAD : forall m e, tidy (set_frames (mkB m (fixed st) (b_cap st) (frames st)) (set_err b e :: rest))).
  { intros m e. split; [exact Hf|]. split; [constructor; [exact HB|exact HF3]|]. cbn. split; [exact N2|exact N3]. }
  destruct (f_err c) as [e|]; [split; [apply (BAD (mem st))|reflexivity]|].
  destruct (Z.ltb_spec (f_len c - f_pll c - f_off c) 0) as [|HL]; [lia|].
  set (len := f_len c - f_pll c - f_off c) in *.
  assert (FIN : forall m clen off pll n, off + pll <= clen -> f_len c <= clen ->
     let o := (let st := mkB m (fixed st) (b_cap st) (frames st) in
             if (0 <? pll) && (clen <? off + pll) then (st, Some PIndex) else
             let st := set_mem st (splice (mem st) off (be_enc (Z.to_nat pll) n)) in
             if negb (Z.shiftr n (8 * pll) =? 0) then
               (set_frames st
                 (set_err b "cryptobyte: pending child length exceeds length prefix" :: rest), None)
             else (set_frames st ((if fixed st then b else set_len b clen) :: rest), None)) in
     tidy (fst o) /\ snd o = None).
  { intros m clen off pll n L1 L2 o. subst o. cbv zeta.
    destruct (Z.ltb_spec clen (off + pll)); [lia|]. rewrite andb_false_r.
    destruct (negb (Z.shiftr n (8 * pll) =? 0)).
    - split; [apply BAD|reflexivity].
    - cbn [set_mem fixed]. rewrite Hf. split; [|reflexivity].
      split; [reflexivity|]. split.
      + constructor; [|exact HF3]. split; [exact B1|]. split; [exact B2|]. split; [cbn; lia|exact B4].
      + cbn. split; [|exact N3]. destruct rest; [exact I|]. lia. }
  destruct (f_asn1 c).
  - specialize (C4 eq_refl). rewrite C4. cbn [Z.eqb Pos.eqb negb].
    destruct (asn1LenBytes len) as [[[ll lb] n']|] eqn:EA; [|split; [apply (BAD (mem st))|reflexivity]].
    apply asn1LenBytes_len in EA.
    destruct (Z.leb_spec (f_len c) (f_off c)) as [|HO]; [lia|].
    destruct (Z.eqb_spec (ll - 1) 0) as [E0|E0]; cbn [negb].
    + apply (FIN (splice (mem st) (f_off c) [lb])); lia.
    + match goal with |- context [fixed ?s && ?t] =>
        replace (fixed s && t) with false by (cbn [set_mem fixed]; rewrite Hf; reflexivity) end.
      destruct (Z.ltb_spec (f_len c + (ll - 1)) (f_off c + 1 + (ll - 1))); [lia|].
      cbv beta iota.
      match goal with |- context [(set_mem (set_mem (set_mem _ _) _) ?m, Some PIndex)] => apply (FIN m) end; lia.
  - destruct st as [sm sf sc sfr]. cbn [mem fixed b_cap frames] in *. apply (FIN sm); lia.
Qed.

Lemma tidy_closed : closed_inv tidy.
Proof.
  constructor.
  - intros; apply tidy_add; auto.
  - intros st k f e (Hf & HF & N) E. split; [exact Hf|]. split.
    + apply upd_Forall; [exact HF|]. apply (nth_error_Forall _ _ _ _ _ HF E).
    + eapply nested_upd; eauto.
  - intros [sm sf sc sfr] k a f fs H Hfr He Hk Ha. cbn [frames] in Hfr. subst sfr. unfold enter. cbn [frames].
    set (st := mkB sm sf sc (f :: fs)) in *.
    pose proof (tidy_add st 0 (repeat 0 (Z.to_nat k)) H) as A.
    pose proof H as (Hf & HF & N).
    cbn [fixed st] in Hf. subst sf st. unfold add in *. cbn [frames nth_error fixed] in *. rewrite He in *.
    unfold put_frame, set_mem, set_frames in *.
    cbn [Nat.eqb negb andb fst frames upd fixed] in *.
    destruct A as (A1 & A2 & A3). cbn [fixed frames] in *.
    split; [reflexivity|]. split.
    + constructor; [|exact A2]. pose proof (Forall_inv HF) as (I1 & I2 & I3 & I4).
      rewrite zlen_repeat. split; [cbn; lia|]. split; [cbn; lia|]. split; [cbn; lia|exact Ha].
    + cbn [nested]. split; [|exact A3]. cbn. lia.
  - intros; apply tidy_flush1; auto.
  - intros st e (Hf & HF & N).
    split; [unfold set_root_err; destruct (rev (frames st)); exact Hf|].
    split; [apply set_root_Forall; auto|].
    destruct (snoc_or_nil _ (frames st)) as [E|(fs & r & E)].
    + unfold set_root_err. rewrite E. cbn. rewrite E. exact I.
    + rewrite (set_root_frames st e fs r E). rewrite E in N. clear - N.
      induction fs as [|a fs IH]; [cbn in *; auto|]. destruct N as [N1 N2]. specialize (IH N2).
      cbn [app nested]. split; [|exact IH]. destruct fs; exact N1.
Qed.

Lemma tidy_flush : forall n st, tidy st -> tidy (fst (flush n st)) /\ snd (flush n st) = None.
Proof.
  induction n as [|n IH]; intros st H; [split; [exact H|reflexivity]|]. cbn [flush].
  destruct (tidy_flush1 st H) as [A B]. destruct (flush1 st) as [st' o]. cbn [fst snd] in *. subst o.
  apply IH. exact A.
Qed.

(** * Errors stay *)

Definition err_kept (f f' : frame) : Prop := f_err f <> None -> f_err f' <> None.

(** [st'] has the builders of [st], perhaps more below them, and those with an error still have one. *)
Definition keeps (st st' : bstate) : Prop :=
  exists extra fs, frames st' = extra ++ fs /\ Forall2 err_kept (frames st) fs.

Lemma err_kept_refl : forall fs, Forall2 err_kept fs fs.
Proof. induction fs; constructor; auto. intro; auto. Qed.
Lemma err_kept_trans : forall a b c, Forall2 err_kept a b -> Forall2 err_kept b c -> Forall2 err_kept a c.
Proof.
  intros a b c H. revert c. induction H; intros c K; inversion K; subst; constructor; auto.
  unfold err_kept in *. auto.
Qed.
Lemma keeps_refl : forall st, keeps st st.
Proof. intro st. exists [], (frames st). split; [reflexivity|apply err_kept_refl]. Qed.
Lemma keeps_trans : forall a b c, keeps a b -> keeps b c -> keeps a c.
Proof.
  intros a b c (x & fs & E & F) (y & gs & E' & F'). rewrite E in F'.
  apply Forall2_app_inv_l in F'. destruct F' as (g1 & g2 & G1 & G2 & ->).
  exists (y ++ g1), g2. rewrite <- app_assoc. split; [exact E'|]. eapply err_kept_trans; eauto.
Qed.

Lemma upd_kept : forall fs k f f', nth_error fs k = Some f -> err_kept f f' -> Forall2 err_kept fs (upd fs k f').
Proof.
  induction fs as [|a fs IH]; intros k f f' E K; [constructor|].
  destruct k; cbn [upd nth_error] in *.
  - injection E as ->. constructor; [exact K|apply err_kept_refl].
  - constructor; [intro; auto|eauto].
Qed.

Lemma flush1_keep : forall st c b rest, frames st = c :: b :: rest ->
  (exists k, snd (flush1 st) = Some k /\ frames (fst (flush1 st)) = frames st /\ f_err c = None) \/
  (snd (flush1 st) = None /\ exists b', frames (fst (flush1 st)) = b' :: rest /\ err_kept b b' /\
     (f_err c <> None -> f_err b' <> None)).
Proof.
  intros st c b rest Hfr. unfold flush1. rewrite Hfr.
  assert (BAD : forall b', f_err b' <> None -> err_kept b b' /\ (f_err c <> None -> f_err b' <> None)).
  { intros b' Hb. split; [intro|]; auto. }
  destruct (f_err c) as [e|] eqn:Ec.
  { right. split; [reflexivity|]. eexists. split; [reflexivity|]. apply BAD. discriminate. }
  assert (OKB : forall b', f_err b' = f_err b -> err_kept b b' /\ ((None : option string) <> None -> f_err b' <> None)).
  { intros b' Hb. split; [unfold err_kept; rewrite Hb; auto|]. intro X. congruence. }
  destruct (f_len c - f_pll c - f_off c <? 0).
  { left. eexists. split; [reflexivity|]. split; [exact Hfr|reflexivity]. }
  cbv zeta. match goal with |- context [match ?h with inl _ => _ | inr _ => _ end] =>
    assert (HS : (exists k, h = inr k) \/ h = inl None \/
      (exists m clen off pll n, h = inl (Some (set_mem st m, clen, off, pll, n)) \/
                                h = inl (Some (st, clen, off, pll, n)))) end.
  { destruct (f_asn1 c); [|right; right; exists [], (f_len c), (f_off c), (f_pll c); eexists; right; reflexivity].
    destruct (negb (f_pll c =? 1)); [left; eexists; reflexivity|].
    destruct (asn1LenBytes _) as [[[ll lb] n']|]; [|right; left; reflexivity].
    destruct (f_len c <=? f_off c); [left; eexists; reflexivity|].
    destruct (negb (ll - 1 =? 0)).
    2:{ right. right. do 5 eexists. left. reflexivity. }
    match goal with |- context [if ?t then (?a, ?x) else (?b, ?y)] => destruct t end.
    - destruct (f_len c <? f_off c + f_pll c + (ll - 1)); [left; eexists; reflexivity|].
      right. right. do 5 eexists. left. reflexivity.
    - destruct (f_len c + (ll - 1) <? f_off c + f_pll c + (ll - 1)); [left; eexists; reflexivity|].
      right. right. do 5 eexists. left. reflexivity. }
  destruct HS as [(k & ->)|[->|(m & clen & off & pll & n & [-> | ->])]].
  - left. eexists. split; [reflexivity|]. split; [exact Hfr|reflexivity].
  - right. split; [reflexivity|]. eexists. split; [reflexivity|]. apply BAD. discriminate.
  - destruct ((0 <? pll) && (clen <? off + pll)).
    { left. eexists. split; [reflexivity|]. split; [exact Hfr|reflexivity]. }
    destruct (negb _).
    + right. split; [reflexivity|]. eexists. split; [reflexivity|]. apply BAD. discriminate.
    + right. split; [reflexivity|]. eexists. split; [reflexivity|]. apply OKB.
      cbn [set_mem fixed]. destruct (fixed st); reflexivity.
  - destruct ((0 <? pll) && (clen <? off + pll)).
    { left. eexists. split; [reflexivity|]. split; [exact Hfr|reflexivity]. }
    destruct (negb _).
    + right. split; [reflexivity|]. eexists. split; [reflexivity|]. apply BAD. discriminate.
    + right. split; [reflexivity|]. eexists. split; [reflexivity|]. apply OKB.
      cbn [set_mem fixed]. destruct (fixed st); reflexivity.
Qed.

Lemma flush_keep : forall n st, (n < List.length (frames st))%nat ->
  exists extra fs, frames (fst (flush n st)) = extra ++ fs /\
    Forall2 err_kept (skipn n (frames st)) fs /\ (snd (flush n st) = None -> extra = []).
Proof.
  induction n as [|n IH]; intros st Hn.
  - exists [], (frames st). split; [reflexivity|]. split; [apply err_kept_refl|auto].
  - destruct (frames st) as [|c [|b rest]] eqn:Hfr; cbn [List.length] in Hn; try lia.
    cbn [flush]. destruct (flush1_keep st c b rest Hfr) as [(k & E1 & E2 & _)|(E1 & b' & E2 & K1 & K2)].
    + destruct (flush1 st) as [st' o]. cbn [fst snd] in *. subst o. cbn [fst snd].
      exists (firstn (S n) (frames st)), (skipn (S n) (frames st)).
      split; [rewrite firstn_skipn; exact E2|]. rewrite Hfr. split; [apply err_kept_refl|discriminate].
    + destruct (flush1 st) as [st' o]. cbn [fst snd] in *. subst o.
      destruct (IH st') as (ex & fs & X1 & X2 & X3); [rewrite E2; cbn [List.length]; lia|].
      exists ex, fs. split; [exact X1|]. split; [|exact X3]. rewrite E2 in X2.
      destruct n as [|n]; [|exact X2]. cbn [skipn] in *.
      eapply err_kept_trans; [|exact X2]. constructor; [exact K1|apply err_kept_refl].
Qed.

(** An error in the innermost builder reaches the parent. *)
Lemma flush_err : forall n st f fs, (n < List.length (frames st))%nat -> frames st = f :: fs -> f_err f <> None ->
  snd (flush n st) = None /\
  exists f' fs', frames (fst (flush n st)) = f' :: fs' /\ f_err f' <> None.
Proof.
  induction n as [|n IH]; intros st f fs Hn Hfr Hf; [split; [reflexivity|]; exists f, fs; auto|].
  destruct fs as [|b rest]; [rewrite Hfr in Hn; cbn in Hn; lia|].
  cbn [flush]. destruct (flush1_keep st f b rest Hfr) as [(k & _ & _ & E)|(E1 & b' & E2 & _ & K2)];
    [congruence|].
  destruct (flush1 st) as [st' o]. cbn [fst snd] in *. subst o.
  apply (IH st' b' rest); auto. rewrite E2. rewrite Hfr in Hn. cbn [List.length] in *. lia.
Qed.

Lemma put_kept : forall st k f f', nth_error (frames st) k = Some f -> err_kept f f' -> keeps st (put_frame st k f').
Proof. intros st k f f' E K. exists [], (upd (frames st) k f'). split; [reflexivity|]. eapply upd_kept; eauto. Qed.

Lemma length_upd : forall A (l : list A) k x, List.length (upd l k x) = List.length l.
Proof. intros A l. induction l as [|a l IH]; intros [|k] x; cbn; auto. Qed.

Lemma add_keep : forall st k bs, keeps st (fst (add st k bs)) /\
  List.length (frames (fst (add st k bs))) = List.length (frames st).
Proof.
  intros st k bs. unfold add. destruct (nth_error (frames st) k) as [f|] eqn:E; [|split; [apply keeps_refl|reflexivity]].
  destruct (f_err f) eqn:Ee; [split; [apply keeps_refl|reflexivity]|].
  destruct (negb (Nat.eqb k 0)); [split; [apply keeps_refl|reflexivity]|].
  destruct (fixed st && _).
  - split; [|cbn; apply length_upd]. eapply put_kept; [exact E|]. intro; congruence.
  - split; [|cbn; apply length_upd].
    exists [], (upd (frames st) k (set_len f (f_len f + zlen bs))). split; [reflexivity|].
    eapply upd_kept; [exact E|]. intro. exact H.
Qed.

(** Running calls keeps errors, and a run that does not panic ends with as many builders as it began. *)
Definition runs_keep (r : bstate -> outcome) : Prop := forall st,
  keeps st (fst (r st)) /\ (snd (r st) = None -> List.length (frames (fst (r st))) = List.length (frames st)).

Lemma Forall2_length : forall A B (R : A -> B -> Prop) l l', Forall2 R l l' -> List.length l = List.length l'.
Proof. induction 1; cbn; auto. Qed.

Lemma keeps_length : forall a b, keeps a b -> (List.length (frames a) <= List.length (frames b))%nat.
Proof.
  intros a b (x & fs & -> & F). apply Forall2_length in F. rewrite app_length. lia.
Qed.

Lemma enter_keep : forall st k a f fs, frames st = f :: fs ->
  exists c f1, frames (enter st k a) = c :: f1 :: fs /\ err_kept f f1.
Proof.
  intros st k a f fs Hfr. unfold enter. rewrite Hfr.
  assert (E : exists f1, frames (fst (add st 0 (repeat 0 (Z.to_nat k)))) = f1 :: fs /\ err_kept f f1).
  { unfold add. rewrite Hfr. cbn [nth_error]. destruct (f_err f) eqn:E.
    - exists f. split; [exact Hfr|]. intro; auto.
    - cbn [Nat.eqb negb]. destruct (fixed st && _).
      + eexists. unfold put_frame. cbn. rewrite Hfr. split; [reflexivity|]. intro; congruence.
      + eexists. unfold put_frame. cbn. rewrite Hfr. split; [reflexivity|]. intro; congruence. }
  destruct E as (f1 & E & K). destruct (add st 0 (repeat 0 (Z.to_nat k))) as [st1 p]. cbn [fst] in E.
  rewrite E. do 2 eexists. split; [reflexivity|exact K].
Qed.

Lemma skipn_kept : forall extra fs (F : list frame) n c,
  Forall2 err_kept (c :: F) fs -> n = (List.length (extra ++ fs) - List.length F)%nat ->
  Forall2 err_kept F (skipn n (extra ++ fs)).
Proof.
  intros extra fs F n c H ->. pose proof (Forall2_length _ _ _ _ _ H) as L. inversion H as [|x y l l' K H' E1 E2]; subst.
  rewrite app_length in *. cbn [List.length] in *.
  replace (extra ++ y :: l') with ((extra ++ [y]) ++ l') by (rewrite <- app_assoc; reflexivity).
  rewrite skipn_app, app_length. cbn [List.length].
  replace (List.length extra + S (List.length l') - List.length F)%nat with (List.length (extra ++ [y]))
    by (rewrite app_length; cbn [List.length]; lia).
  rewrite skipn_all, app_length. cbn [List.length].
  replace (_ - _)%nat with 0%nat by lia. exact H'.
Qed.

Lemma root_keep : forall st e, keeps st (set_root_err st e) /\
  List.length (frames (set_root_err st e)) = List.length (frames st).
Proof.
  intros st e. destruct (snoc_or_nil _ (frames st)) as [E|(fs & r & E)].
  - unfold set_root_err. rewrite E. cbn [rev]. rewrite E. split; [apply keeps_refl|reflexivity].
  - split; [|rewrite (set_root_frames st e fs r E), E, !app_length; reflexivity].
    exists [], (fs ++ [set_err r e]). split; [apply set_root_frames; exact E|]. rewrite E.
    apply Forall2_app; [apply err_kept_refl|]. constructor; [|constructor]. intros _. discriminate.
Qed.

Lemma exec_keep_all : (forall o, runs_keep (exec o)) /\ (forall l, runs_keep (execs l)).
Proof.
  set (P := fun o => runs_keep (exec o)). set (Q := fun l => runs_keep (execs l)).
  assert (LV : forall F c st o, keeps (set_frames st (c :: F)) (fst o) -> F <> [] ->
     (exists ex fs, frames (fst (leave (List.length F) o)) = ex ++ fs /\ Forall2 err_kept F fs /\
        (snd (leave (List.length F) o) = None -> ex = []))).
  { intros F c st [s p] K HF. cbn [fst] in K.
    assert (GO : forall s, keeps (set_frames st (c :: F)) s ->
       exists ex fs, frames (fst (flush (List.length (frames s) - List.length F) s)) = ex ++ fs /\ Forall2 err_kept F fs /\
        (snd (flush (List.length (frames s) - List.length F) s) = None -> ex = [])).
    { clear s K. intros s K. pose proof (keeps_length _ _ K) as KL. cbn [set_frames frames List.length] in KL.
      destruct (flush_keep (List.length (frames s) - List.length F) s) as (ex & fs & E1 & E2 & E3).
      { destruct F; [congruence|]. cbn [List.length] in *. lia. }
      exists ex, fs. split; [exact E1|]. split; [|exact E3].
      destruct K as (e2 & f2 & K1 & K2). cbn [set_frames frames] in K2. rewrite K1 in E2 at 2.
      eapply err_kept_trans; [|exact E2]. eapply skipn_kept; [exact K2|]. rewrite K1. reflexivity. }
    assert (STOP : forall k, exists ex fs, frames (fst (s, Some k : option panic_kind)) = ex ++ fs /\ Forall2 err_kept F fs /\
        (snd (s, Some k : option panic_kind) = None -> ex = [])).
    { intro k. destruct K as (e2 & f2 & K1 & K2). cbn [set_frames frames] in K2.
      inversion K2 as [|x y l l' K3 K4]; subst. exists (e2 ++ [y]), l'. cbn [fst].
      split; [rewrite <- app_assoc; exact K1|]. split; [exact K4|discriminate]. }
    destruct p as [k|]; cbn [leave].
    - destruct k; try apply STOP. destruct (Nat.eqb (List.length F) 1); [|apply STOP].
      apply GO. eapply keeps_trans; [exact K|apply root_keep].
    - apply GO. exact K. }
  assert (LP : forall lvl k a b, Q b -> runs_keep (addLP lvl k a b)).
  { intros lvl k a b IH st. unfold addLP.
    destruct (nth_error (frames st) lvl) as [f|] eqn:E; [|split; [apply keeps_refl|reflexivity]].
    destruct (f_err f); [split; [apply keeps_refl|reflexivity]|].
    destruct lvl as [|lvl]; cbn [Nat.eqb negb].
    2:{ destruct (add_keep st (S lvl) (repeat 0 (Z.to_nat k))) as [A1 A2]. split; auto. }
    destruct (frames st) as [|f0 fs] eqn:Hfr; [discriminate|]. clear E.
    destruct (enter_keep st k a f0 fs Hfr) as (c & f1 & E & K).
    destruct (IH (enter st k a)) as [B _].
    destruct (LV (f1 :: fs) c (enter st k a) (execs b (enter st k a))) as (ex & gs & L1 & L2 & L3).
    { destruct B as (e2 & f2 & B1 & B2). exists e2, f2. split; [exact B1|]. cbn [set_frames frames].
      rewrite <- E. exact B2. }
    { discriminate. }
    cbn [List.length] in *. split.
    - exists ex, gs. split; [exact L1|]. rewrite Hfr. eapply err_kept_trans; [|exact L2].
      constructor; [exact K|apply err_kept_refl].
    - intro N. specialize (L3 N). subst ex. rewrite L1. cbn [app]. apply Forall2_length in L2. cbn [List.length] in L2. auto. }
  assert (H1 : forall l bs, P (OAdd l bs)).
  { intros l bs st. cbn [exec]. destruct (add_keep st l bs) as [A B]. split; auto. }
  assert (H2 : forall l e, P (OSetErr l e)).
  { intros l e st. cbn [exec]. destruct (nth_error (frames st) l) as [f|] eqn:E; [|split; [apply keeps_refl|reflexivity]].
    split; [|intros _; cbn; apply length_upd]. eapply put_kept; [exact E|]. intros _. discriminate. }
  assert (H3 : forall l k b, Q b -> P (OLP l k b)).
  { intros l k b IH st. rewrite exec_OLP. apply LP. exact IH. }
  assert (H4 : forall l t b, Q b -> P (OASN1 l t b)).
  { intros l t b IH st. rewrite exec_OASN1.
    destruct (nth_error (frames st) l) as [f|] eqn:E; [|split; [apply keeps_refl|reflexivity]].
    destruct (f_err f); [split; [apply keeps_refl|reflexivity]|].
    destruct (Z.land t 0x1f =? 0x1f).
    { split; [|intros _; cbn; apply length_upd]. eapply put_kept; [exact E|]. intros _. discriminate. }
    destruct (add_keep st l [t]) as [A B]. destruct (add st l [t]) as [st1 [k|]]; cbn [fst snd] in *.
    - split; [exact A|discriminate].
    - destruct (LP l 1 true b IH st1) as [C D]. split; [eapply keeps_trans; eauto|].
      intro N. rewrite (D N). exact B. }
  assert (H5 : forall e, P (OPanicBuild e)) by (intros e st; split; [apply keeps_refl|reflexivity]).
  assert (H6 : forall k, P (OPanic k)) by (intros k st; split; [apply keeps_refl|reflexivity]).
  assert (Hn : Q []) by (intros st; split; [apply keeps_refl|reflexivity]).
  assert (Hc : forall o l, P o -> Q l -> Q (o :: l)).
  { intros o l IHo IHl st. cbn [execs]. destruct (IHo st) as [A B].
    destruct (exec o st) as [st1 [k|]]; cbn [fst snd] in *; [split; [exact A|discriminate]|].
    destruct (IHl st1) as [C D]. split; [eapply keeps_trans; eauto|]. intro N. rewrite (D N). auto. }
  split; [intro o; apply (op_ind2 P Q)|intro l; apply (ops_ind2 P Q)]; auto.
Qed.
