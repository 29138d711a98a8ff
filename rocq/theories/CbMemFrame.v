(** What any program with builders (CbMem.v) leaves alone. *)
From Coq Require Import ZArith List Lia Bool String.
From Verif Require Import GoBase CbString CbBuilder CbBuilderProofs CbMem.
Import ListNotations.
Open Scope Z_scope.

Section OpInd.
  Variable P : mop -> Prop.
  Variable Q : list mop -> Prop.
  Hypothesis H1 : forall r l, P (MAdd r l).
  Hypothesis H2 : forall r s, P (MAddBytes r s).
  Hypothesis H3 : forall r e, P (MSetErr r e).
  Hypothesis H4 : forall r k b, Q b -> P (MLP r k b).
  Hypothesis H5 : forall r t b, Q b -> P (MASN1 r t b).
  Hypothesis H6 : forall r, P (MBytes r).
  Hypothesis H7 : forall p, P (MPanic p).
  Hypothesis H8 : forall b, Q b -> P (MRecover b).
  Hypothesis Hn : Q [].
  Hypothesis Hc : forall o l, P o -> Q l -> Q (o :: l).
  Fixpoint mop_ind2 (o : mop) : P o :=
    let fix mops_ind2 (l : list mop) : Q l :=
      match l with [] => Hn | o :: r => Hc o r (mop_ind2 o) (mops_ind2 r) end in
    match o with
    | MAdd r l => H1 r l
    | MAddBytes r s => H2 r s
    | MSetErr r e => H3 r e
    | MLP r k b => H4 r k b (mops_ind2 b)
    | MASN1 r t b => H5 r t b (mops_ind2 b)
    | MBytes r => H6 r
    | MPanic p => H7 p
    | MRecover b => H8 b (mops_ind2 b)
    end.
  Lemma mops_ind2 : forall l, Q l.
  Proof. induction l; [apply Hn|apply Hc; [apply mop_ind2|assumption]]. Qed.
End OpInd.

Section Frame.
Variable grow : Z -> Z -> Z.

(** addLengthPrefixed, by name *)
Definition alpM (b : nat) (lenLen : Z) (isASN1 : bool) (body : list mop) (env : list nat) (h : heap) : mout :=
  match nth_error (objs h) b with
  | None => (h, Some (MP PNil))
  | Some x =>
      match o_err x with
      | Some _ => (h, None)
      | None =>
          match enterM grow h b lenLen isASN1 with
          | (h, None) =>
              let c := (List.length (objs h) - 1)%nat in
              let (h, out) := beginM h b in
              closeM grow b (endM b out (execsM grow body (c :: env) h))
          | r => r
          end
      end
  end.
Lemma execM_MLP : forall r k body env h, execM grow (MLP r k body) env h = alpM (resolve env h r) k false body env h.
Proof. reflexivity. Qed.
Lemma execM_MASN1 : forall r tag body env h, execM grow (MASN1 r tag body) env h =
  match nth_error (objs h) (resolve env h r) with
  | None => (h, Some (MP PNil))
  | Some x =>
      match o_err x with
      | Some _ => (h, None)
      | None =>
          if Z.land tag 0x1f =? 0x1f then
            (putObj h (resolve env h r) (setErr x (Some "cryptobyte: high-tag number identifier octects not supported"%string)), None)
          else match addM grow h (resolve env h r) [tag] with
               | (h', None) => alpM (resolve env h r) 1 true body env h'
               | p => p
               end
      end
  end.
Proof. reflexivity. Qed.
Lemma execM_MRecover : forall body env h, execM grow (MRecover body) env h = (fst (execsM grow body env h), None).
Proof. reflexivity. Qed.
Lemma execsM_cons : forall o l env h, execsM grow (o :: l) env h = match execM grow o env h with (h, None) => execsM grow l env h | r => r end.
Proof. reflexivity. Qed.


(** * The invariant *)
Variable h0 : heap.                          (* before *)
Variable b0 : nat.                           (* the builder in use *)
Variable x0 : obj.
Hypothesis b0_x0 : nth_error (objs h0) b0 = Some x0.
Hypothesis x0_child : o_child x0 = None.
Hypothesis x0_pll : 0 <= o_pll x0.
Let buf := o_res x0.
Hypothesis buf_old : (s_arr buf < narr h0)%nat.
Hypothesis buf_len : 0 <= s_len buf <= s_cap buf.

(** The builder, and those created later. *)
Definition own (n : nat) : Prop := n = b0 \/ (List.length (objs h0) <= n)%nat.
Definition ownFlag (f : nat) : Prop := o_flag x0 = Some f \/ (List.length (flags h0) <= f)%nat.
Definition fine (s : slice) : Prop :=
  (s_arr s = s_arr buf /\ s_off s = s_off buf /\ s_cap s = s_cap buf /\ s_len buf <= s_len s <= s_cap buf) \/
  ((narr h0 <= s_arr s)%nat /\ s_len buf <= s_len s).
Definition fineObj (n : nat) (x : obj) : Prop :=
  fine (o_res x) /\ 0 <= o_pll x /\ (n <> b0 -> s_len buf <= o_off x) /\
  (forall c, o_child x = Some c -> (List.length (objs h0) <= c)%nat) /\ (forall f, o_flag x = Some f -> ownFlag f).
Definition spare (a : nat) (i : Z) : Prop := a = s_arr buf /\ s_off buf + s_len buf <= i < s_off buf + s_cap buf.
Record Inv (h : heap) : Prop := mkInv {
  i_narr : (narr h0 <= narr h)%nat;
  i_cells : forall a i, (a < narr h0)%nat -> ~ spare a i -> cells h a i = cells h0 a i;
  i_nobjs : (List.length (objs h0) <= List.length (objs h))%nat;
  i_objs : forall n, (n < List.length (objs h0))%nat -> n <> b0 -> nth_error (objs h) n = nth_error (objs h0) n;
  i_nflags : (List.length (flags h0) <= List.length (flags h))%nat;
  i_flags : forall f, (f < List.length (flags h0))%nat -> o_flag x0 <> Some f -> nth_error (flags h) f = nth_error (flags h0) f;
  i_own : forall n x, own n -> nth_error (objs h) n = Some x -> fineObj n x }.

Lemma b0_lt : (b0 < List.length (objs h0))%nat.
Proof. apply nth_error_Some. congruence. Qed.
Lemma nth_upd_same : forall A (l : list A) n x y, nth_error (upd l n x) n = Some y -> y = x.
Proof. intros A l. induction l as [|z l IH]; intros [|n] x y H; cbn [upd nth_error] in H; try discriminate; [congruence|eauto]. Qed.
Lemma nth_upd_other : forall A (l : list A) p q x, p <> q -> nth_error (upd l p x) q = nth_error l q.
Proof.
  intros A l. induction l as [|z l IH]; intros p q x H; [destruct p; reflexivity|].
  destruct p as [|p], q as [|q]; cbn [upd nth_error]; try reflexivity; [congruence|]. apply IH. congruence.
Qed.

Lemma Inv_start : Inv h0.
Proof.
  constructor; auto. intros n x [->|L] E; [|apply nth_error_Some in L; [contradiction|congruence] || (exfalso; apply (nth_error_None) in L; congruence)].
  assert (x = x0) by congruence. subst x. split; [left; fold buf; repeat split; lia|]. split; [exact x0_pll|].
  split; [congruence|]. split; [rewrite x0_child; discriminate|]. intros f Hf. left. exact Hf.
Qed.
Lemma Inv_put : forall h n x, Inv h -> own n -> fineObj n x -> Inv (putObj h n x).
Proof.
  intros h n x [I1 I2 I3 I4 I5 I6 I7] O G. constructor; cbn [putObj cells narr objs flags]; auto.
  - rewrite upd_length. exact I3.
  - intros k K1 K2. rewrite nth_upd_other; [apply I4; auto|]. destruct O as [->|O]; [congruence|lia].
  - intros k y O' E. destruct (Nat.eq_dec n k) as [<-|N]; [apply nth_upd_same in E; subst y; exact G|]. rewrite nth_upd_other in E by exact N. eauto.
Qed.
Lemma Inv_store : forall h s o l, Inv h -> fine s -> s_len buf <= o -> o + zlen l <= s_cap s \/ o + zlen l <= s_len s -> Inv (store h (s_arr s) (s_off s + o) l).
Proof.
  intros h s o l [I1 I2 I3 I4 I5 I6 I7] G Ho Hl. constructor; cbn [store cells narr objs flags]; auto.
  intros a i Ha Hi. destruct (Nat.eqb_spec a (s_arr s)) as [->|]; cbn [andb]; [|auto].
  destruct (Z.leb_spec (s_off s + o) i), (Z.ltb_spec i (s_off s + o + zlen l)); cbn [andb]; auto.
  exfalso. destruct G as [(G1 & G2 & G3 & G4)|[G1 _]]; [|lia]. apply Hi. split; [exact G1|]. lia.
Qed.
Lemma Inv_alloc : forall h l, Inv h -> Inv (alloc h l).
Proof.
  intros h l [I1 I2 I3 I4 I5 I6 I7]. constructor; cbn [alloc cells narr objs flags]; auto.
  intros a i Ha Hi. destruct (Nat.eqb_spec a (narr h)); [lia|auto].
Qed.
Lemma Inv_flag : forall h f v, Inv h -> ownFlag f -> Inv (setFlag h f v).
Proof.
  intros h f v [I1 I2 I3 I4 I5 I6 I7] O. constructor; cbn [setFlag cells narr objs flags]; auto.
  - rewrite upd_length. exact I5.
  - intros k K1 K2. rewrite nth_upd_other; [auto|]. destruct O as [O|O]; [congruence|lia].
Qed.
Lemma Inv_newFlag : forall h, Inv h -> Inv (newFlag h).
Proof.
  intros h [I1 I2 I3 I4 I5 I6 I7]. constructor; cbn [newFlag cells narr objs flags]; auto.
  - rewrite app_length. lia.
  - intros f F1 F2. rewrite nth_error_app1 by lia. auto.
Qed.
Lemma Inv_newObj : forall h x, Inv h -> fineObj (List.length (objs h)) x -> Inv (newObj h x).
Proof.
  intros h x [I1 I2 I3 I4 I5 I6 I7] G. constructor; cbn [newObj cells narr objs flags]; auto.
  - rewrite app_length. lia.
  - intros n N1 N2. rewrite nth_error_app1 by lia. auto.
  - intros n y O E. destruct (Nat.lt_ge_cases n (List.length (objs h))) as [L|L]; [rewrite nth_error_app1 in E by exact L; eauto|].
    rewrite nth_error_app2 in E by exact L. destruct (n - List.length (objs h))%nat as [|k] eqn:EK; [|destruct k; discriminate].
    injection E as <-. replace n with (List.length (objs h)) by lia. exact G.
Qed.
Lemma Inv_log : forall h r, Inv h -> Inv (logged h r).
Proof. intros h r [I1 I2 I3 I4 I5 I6 I7]. constructor; auto. Qed.

Lemma fine_len : forall s, fine s -> s_len buf <= s_len s.
Proof. intros s [(_ & _ & _ & H)|(_ & H)]; lia. Qed.
Lemma Inv_add : forall h b l, Inv h -> own b -> Inv (fst (addM grow h b l)).
Proof.
  intros h b l H O. pose proof (zlen_nonneg _ l) as NL. unfold addM. destruct (nth_error (objs h) b) as [x|] eqn:E; [|exact H].
  pose proof (i_own h H b x O E) as (G1 & G2 & G3 & G4 & G5).
  destruct (o_err x); [exact H|]. destruct (o_child x) eqn:Ech; [exact H|]. rewrite <- Ech in G4. destruct (o_fixed x && _).
  - apply Inv_put; [exact H|exact O|exact (i_own h H b x O E)].
  - pose proof (fine_len _ G1) as LS. unfold appendM. destruct (Z.leb_spec (s_len (o_res x) + zlen l) (s_cap (o_res x))) as [C|C].
    + cbn [fst]. apply Inv_put; [apply Inv_store; auto|exact O|]. split; [|split; [exact G2|split; [exact G3|split; [exact G4|exact G5]]]].
      cbn [setRes o_res]. unfold fine, setLen. cbn [s_arr s_off s_len s_cap]. destruct G1 as [(A & B & D & F)|(A & B)]; [left; repeat split; lia|right; split; lia].
    + cbn [fst]. apply Inv_put; [apply Inv_alloc; exact H|exact O|]. split; [|split; [exact G2|split; [exact G3|split; [exact G4|exact G5]]]].
      cbn [setRes o_res]. right. cbn [s_arr s_len]. split; [apply (i_narr h H)|lia].
Qed.
Lemma addM_objs : forall h b l n, n <> b -> nth_error (objs (fst (addM grow h b l))) n = nth_error (objs h) n.
Proof.
  intros h b l n N. unfold addM. destruct (nth_error (objs h) b) as [x|]; [|reflexivity].
  destruct (o_err x); [reflexivity|]. destruct (o_child x); [reflexivity|]. destruct (o_fixed x && _).
  - cbn [fst putObj objs]. apply nth_upd_other. congruence.
  - unfold appendM. destruct (_ <=? _); cbn [fst putObj objs store alloc]; apply nth_upd_other; congruence.
Qed.

Lemma be_len : forall n v, zlen (be_enc n v) = Z.of_nat n.
Proof. exact zlen_be_enc. Qed.
Lemma Inv_flushInto : forall h b c, Inv h -> own b -> (List.length (objs h0) <= c)%nat -> Inv (fst (flushInto grow h b c)).
Proof.
  intros h b c H O C. unfold flushInto. destruct (nth_error (objs h) b) as [x|] eqn:Eb; [|exact H].
  destruct (nth_error (objs h) c) as [y|] eqn:Ec; [|exact H].
  pose proof b0_lt as LB. assert (OC : own c) by (right; exact C). assert (CB : c <> b0) by lia.
  pose proof (i_own h H b x O Eb) as GX. pose proof (i_own h H c y OC Ec) as (Y1 & Y2 & Y3 & Y4 & Y5). specialize (Y3 CB).
  assert (ERR : forall h' e, Inv h' -> Inv (putObj h' b (setErr x e))) by (intros h' e I'; apply Inv_put; [exact I'|exact O|exact GX]).
  destruct (o_err y); [apply ERR; exact H|]. cbv zeta. destruct (_ <? 0); [exact H|].
  assert (FIN : forall h' n, Inv h' -> Inv (fst (match nth_error (objs h') c with
              | None => (h', Some (MP PNil))
              | Some y =>
                  if (0 <? o_pll y) && (s_len (o_res y) <? o_off y + o_pll y) then (h', Some (MP PIndex)) else
                  if negb (Z.shiftr n (8 * o_pll y) =? 0) then
                    (putObj (store h' (s_arr (o_res y)) (s_off (o_res y) + o_off y) (be_enc (Z.to_nat (o_pll y)) n)) b
                       (setErr x (Some "cryptobyte: pending child length exceeds length prefix"%string)), None)
                  else if o_fixed x then (store h' (s_arr (o_res y)) (s_off (o_res y) + o_off y) (be_enc (Z.to_nat (o_pll y)) n), None)
                       else (putObj (store h' (s_arr (o_res y)) (s_off (o_res y) + o_off y) (be_enc (Z.to_nat (o_pll y)) n)) b (setRes x (o_res y)), None)
              end))).
  { intros h' n I'. destruct (nth_error (objs h') c) as [z|] eqn:Ez; [|exact I'].
    pose proof (i_own h' I' c z OC Ez) as (Z1 & Z2 & Z3 & Z4 & Z5). specialize (Z3 CB).
    destruct ((0 <? o_pll z) && (s_len (o_res z) <? o_off z + o_pll z)) eqn:ET; [exact I'|].
    assert (IS : Inv (store h' (s_arr (o_res z)) (s_off (o_res z) + o_off z) (be_enc (Z.to_nat (o_pll z)) n))).
    { destruct (Z.eqb_spec (o_pll z) 0) as [E0|E0].
      - rewrite E0. change (be_enc (Z.to_nat 0) n) with (@nil Z). clear - I'. destruct I' as [I1 I2 I3 I4 I5 I6 I7]. constructor; auto.
        intros a i Ha Hi. cbn [store cells]. change (zlen (@nil Z)) with 0.
        destruct (Z.leb_spec (s_off (o_res z) + o_off z) i), (Z.ltb_spec i (s_off (o_res z) + o_off z + 0)); try lia; rewrite ?andb_false_r; cbn [andb]; auto.
      - apply Inv_store; [exact I'|exact Z1|exact Z3|]. right. rewrite be_len, Z2Nat.id by lia.
        apply andb_false_iff in ET. rewrite Z.ltb_ge, Z.ltb_ge in ET. lia. }
    destruct (negb _); [apply ERR; exact IS|]. destruct (o_fixed x); [exact IS|].
    apply Inv_put; [exact IS|exact O|]. destruct GX as (_ & X2 & X3 & X4 & X5). split; [exact Z1|]. split; [exact X2|]. split; [exact X3|]. split; [exact X4|exact X5]. }
  destruct (o_asn1 y); [|apply FIN; exact H].
  destruct (Z.eqb_spec (o_pll y) 1) as [E1|]; cbn [negb]; [|exact H].
  destruct (asn1LenBytes _) as [[[ll lb] n]|] eqn:EA; [|apply ERR; exact H].
  destruct (Z.leb_spec (s_len (o_res y)) (o_off y)) as [|LO]; [exact H|].
  assert (LL : 1 <= ll <= 5).
  { clear - EA. unfold asn1LenBytes in EA.
    repeat match type of EA with (if ?x then _ else _) = _ => destruct x end; try discriminate; injection EA as <- _ _; lia. }
  assert (IS : Inv (store h (s_arr (o_res y)) (s_off (o_res y) + o_off y) [lb])) by (apply Inv_store; auto; right; change (zlen [lb]) with 1; lia).
  set (h2 := store h _ _ _) in *.
  destruct (Z.eqb_spec (ll - 1) 0) as [E0|E0]; cbn [negb].
  - apply FIN. apply Inv_put; [exact IS|exact OC|]. split; [exact Y1|]. split; [cbn; lia|]. split; [cbn; intros; lia|]. split; [exact Y4|exact Y5].
  - pose proof (Inv_add h2 c (repeat 0 (Z.to_nat (ll - 1))) IS OC) as IA.
    destruct (addM grow h2 c (repeat 0 (Z.to_nat (ll - 1)))) as [h3 [p|]]; [exact IA|]. cbn [fst] in IA.
    destruct (nth_error (objs h3) c) as [z|] eqn:Ez; [|exact IA].
    pose proof (i_own h3 IA c z OC Ez) as (Z1 & Z2 & Z3 & Z4 & Z5). specialize (Z3 CB).
    destruct (Z.ltb_spec (s_len (o_res z)) (o_off z + o_pll z + (ll - 1))) as [|LZ]; [exact IA|].
    apply FIN. apply Inv_put; [|exact OC|].
    + rewrite <- !Z.add_assoc. apply Inv_store; [exact IA|exact Z1|lia|]. right.
      unfold content, zlen. rewrite map_length, seq_length. cbn [s_len]. lia.
    + split; [exact Z1|]. split; [cbn; lia|]. split; [cbn; intros; lia|]. split; [exact Z4|exact Z5].
Qed.
Lemma Inv_flush : forall fuel h b, Inv h -> own b -> Inv (fst (flushM grow fuel h b)).
Proof.
  induction fuel as [|fuel IH]; intros h b H O; cbn [flushM]; (destruct (nth_error (objs h) b) as [x|] eqn:E; [|exact H]); (destruct (o_child x) as [c|] eqn:Ec; [|exact H]); [exact H|].
  pose proof (i_own h H b x O E) as (_ & _ & _ & G4 & _). specialize (IH h c H (or_intror (G4 _ Ec))).
  destruct (flushM grow fuel h c) as [h1 [p|]]; [exact IH|]. cbn [fst] in IH.
  destruct (nth_error (objs h1) b) as [x1|] eqn:E1; [|exact IH]. destruct (o_child x1) as [c1|] eqn:Ec1; [|exact IH].
  pose proof (i_own h1 IH b x1 O E1) as (X1 & X2 & X3 & X4 & X5).
  apply Inv_flushInto; [|exact O|exact (X4 _ Ec1)]. apply Inv_put; [exact IH|exact O|].
  split; [exact X1|]. split; [exact X2|]. split; [exact X3|]. split; [discriminate|exact X5].
Qed.
Lemma Inv_enter : forall h b k a, Inv h -> own b -> 0 <= k -> Inv (fst (enterM grow h b k a)).
Proof.
  intros h b k a H O Hk. unfold enterM. destruct (nth_error (objs h) b) as [x|] eqn:E; [|exact H].
  pose proof (i_own h H b x O E) as (G1 & _). pose proof (fine_len _ G1) as LG.
  pose proof (Inv_add h b (repeat 0 (Z.to_nat k)) H O) as IA. destruct (addM grow h b (repeat 0 (Z.to_nat k))) as [h1 [p|]]; [exact IA|]. cbn [fst] in IA.
  destruct (nth_error (objs h1) b) as [x1|] eqn:E1; [|exact IA]. pose proof (i_own h1 IA b x1 O E1) as (X1 & X2 & X3 & X4 & X5).
  assert (FIN : forall h2 x2, Inv h2 -> objs h2 = objs h1 -> o_res x2 = o_res x1 -> o_pll x2 = o_pll x1 -> o_off x2 = o_off x1 ->
    (forall f, o_flag x2 = Some f -> ownFlag f) ->
    Inv (newObj (putObj h2 b (setChild x2 (Some (List.length (objs h2))))) (mkObj None (o_res x2) (o_fixed x2) None (s_len (o_res x)) k a (o_flag x2)))).
  { intros h2 x2 I2 E2 F1 F2 F3 F4. pose proof (i_nobjs h2 I2) as LN. apply Inv_newObj.
    - apply Inv_put; [exact I2|exact O|]. cbn [setChild]. split; [cbn; rewrite F1; exact X1|]. split; [cbn; rewrite F2; exact X2|]. split; [cbn; rewrite F3; exact X3|].
      split; [cbn; intros c Ec; injection Ec as <-; exact LN|exact F4].
    - split; [cbn; rewrite F1; exact X1|]. split; [exact Hk|]. split; [intros _; exact LG|]. split; [discriminate|exact F4]. }
  destruct (o_flag x1) as [f|] eqn:Ef.
  - apply FIN; auto. intros f0. rewrite Ef. apply X5.
  - cbn [fst]. apply (FIN (newFlag h1) (setFlagPtr x1 (List.length (flags h1)))); auto.
    + apply Inv_newFlag. exact IA.
    + cbn. intros f Hf. injection Hf as <-. right. exact (i_nflags h1 IA).
Qed.
Lemma Inv_begin : forall h b, Inv h -> own b -> Inv (fst (beginM h b)).
Proof.
  intros h b H O. unfold beginM. destruct (nth_error (objs h) b) as [x|] eqn:E; [|exact H]. destruct (o_flag x) as [f|] eqn:Ef; [|exact H].
  destruct (nth_error (flags h) f) as [[|]|]; try exact H. cbn [fst]. apply Inv_flag; [exact H|]. apply (i_own h H b x O E). exact Ef.
Qed.
Lemma Inv_end : forall b out r, Inv (fst r) -> own b -> Inv (fst (endM b out r)).
Proof.
  intros b out [h p] H O. unfold endM. destruct out; [|exact H]. cbn [fst] in H. destruct (nth_error (objs h) b) as [x|] eqn:E; [|exact H].
  pose proof (i_own h H b x O E) as G.
  assert (IF : Inv (match o_flag x with Some f => setFlag h f false | None => h end)).
  { destruct (o_flag x) as [f|] eqn:Ef; [|exact H]. apply Inv_flag; [exact H|]. apply G. exact Ef. }
  assert (IE : forall e, Inv (putObj (match o_flag x with Some f => setFlag h f false | None => h end) b (setErr x e))) by (intro e; apply Inv_put; [exact IF|exact O|exact G]).
  destruct p as [[[]| |]|]; cbn [fst]; first [exact IF|apply IE].
Qed.
Lemma Inv_close : forall b r, Inv (fst r) -> own b -> Inv (fst (closeM grow b r)).
Proof.
  intros b [h [p|]] H O; cbn [closeM fst] in *; [exact H|]. pose proof (Inv_flush (List.length (objs h)) h b H O) as F.
  destruct (flushM grow (List.length (objs h)) h b) as [h1 [p|]]; [exact F|]. cbn [fst] in F. destruct (nth_error (objs h1) b) as [x|]; [|exact F]. destruct (o_child x); exact F.
Qed.

(** Programs that use these builders only, with length prefixes as there are. *)
Definition mineRef (r : ref) : Prop := match r with Lvl _ => True | Obj n => own n end.
Fixpoint mine (o : mop) : Prop :=
  let fix mines (l : list mop) : Prop := match l with [] => True | o :: l => mine o /\ mines l end in
  match o with
  | MAdd r _ | MAddBytes r _ | MSetErr r _ | MBytes r => mineRef r
  | MLP r k body => mineRef r /\ 1 <= k <= 4 /\ mines body
  | MASN1 r _ body => mineRef r /\ mines body
  | MPanic _ => True
  | MRecover body => mines body
  end.
Fixpoint mines (l : list mop) : Prop := match l with [] => True | o :: l => mine o /\ mines l end.

Lemma resolve_own : forall h env r, Inv h -> Forall own env -> mineRef r -> own (resolve env h r).
Proof.
  intros h env [k|n] H F M; cbn [resolve]; [|exact M].
  destruct (nth_in_or_default k env (List.length (objs h))) as [N|N]; [rewrite Forall_forall in F; apply F; exact N|]. rewrite N. right. apply (i_nobjs h H).
Qed.
Lemma Inv_exec_all :
  (forall o, mine o -> forall env h, Forall own env -> Inv h -> Inv (fst (execM grow o env h))) /\
  (forall l, mines l -> forall env h, Forall own env -> Inv h -> Inv (fst (execsM grow l env h))).
Proof.
  set (P := fun o => mine o -> forall env h, Forall own env -> Inv h -> Inv (fst (execM grow o env h))).
  set (Q := fun l => mines l -> forall env h, Forall own env -> Inv h -> Inv (fst (execsM grow l env h))).
  assert (LP : forall b k a body env h, Q body -> mines body -> own b -> 0 <= k -> Forall own env -> Inv h -> Inv (fst (alpM b k a body env h))).
  { intros b k a body env h IH M O Hk F H. unfold alpM. destruct (nth_error (objs h) b) as [x|]; [|exact H]. destruct (o_err x); [exact H|].
    pose proof (Inv_enter h b k a H O Hk) as IE.
    assert (NE : forall h1, enterM grow h b k a = (h1, None) -> own (List.length (objs h1) - 1)).
    { intros h1 E1. right. unfold enterM in E1. destruct (nth_error (objs h) b) as [y|]; [|discriminate].
      pose proof (Inv_add h b (repeat 0 (Z.to_nat k)) H O) as IA. destruct (addM grow h b (repeat 0 (Z.to_nat k))) as [h2 [p|]]; [discriminate|]. cbn [fst] in IA.
      destruct (nth_error (objs h2) b) as [y2|]; [|discriminate]. pose proof (i_nobjs h2 IA) as LN.
      destruct (o_flag y2); injection E1 as <-; cbn [newObj putObj newFlag objs]; rewrite app_length, upd_length; cbn [List.length]; lia. }
    destruct (enterM grow h b k a) as [h1 [p|]]; [exact IE|]. cbn [fst] in IE. specialize (NE h1 eq_refl). cbv zeta.
    pose proof (Inv_begin h1 b IE O) as IB. destruct (beginM h1 b) as [h2 out]. cbn [fst] in IB.
    apply Inv_close; [|exact O]. apply Inv_end; [|exact O]. apply IH; auto. }
  assert (H1 : forall r l, P (MAdd r l)).
  { intros r l M env h F H. apply Inv_add; [exact H|]. apply resolve_own; auto. }
  assert (H2 : forall r s, P (MAddBytes r s)).
  { intros r s M env h F H. apply Inv_add; [exact H|]. apply resolve_own; auto. }
  assert (H3 : forall r e, P (MSetErr r e)).
  { intros r e M env h F H. cbn [execM]. pose proof (resolve_own h env r H F M) as O. destruct (nth_error (objs h) (resolve env h r)) as [x|] eqn:E; [|exact H].
    apply Inv_put; auto. exact (i_own h H _ x O E). }
  assert (H4 : forall r k b, Q b -> P (MLP r k b)).
  { intros r k b IH (M1 & M2 & M3) env h F H. rewrite execM_MLP. apply LP; auto; [apply resolve_own; auto|lia]. }
  assert (H5 : forall r t b, Q b -> P (MASN1 r t b)).
  { intros r t b IH (M1 & M2) env h F H. rewrite execM_MASN1. pose proof (resolve_own h env r H F M1) as O.
    destruct (nth_error (objs h) (resolve env h r)) as [x|] eqn:E; [|exact H]. destruct (o_err x); [exact H|].
    destruct (Z.land t 0x1f =? 0x1f); [apply Inv_put; auto; exact (i_own h H _ x O E)|].
    pose proof (Inv_add h (resolve env h r) [t] H O) as IA. destruct (addM grow h (resolve env h r) [t]) as [h1 [p|]]; [exact IA|].
    apply LP; auto. lia. }
  assert (H6 : forall r, P (MBytes r)).
  { intros r M env h F H. cbn [execM]. destruct (nth_error (objs h) (resolve env h r)); [|exact H]. apply Inv_log. exact H. }
  assert (H7 : forall p, P (MPanic p)) by (intros p M env h F H; exact H).
  assert (H8 : forall b, Q b -> P (MRecover b)).
  { intros b IH M env h F H. rewrite execM_MRecover. cbn [fst]. apply IH; auto. }
  assert (Hn : Q []) by (intros M env h F H; exact H).
  assert (Hc : forall o l, P o -> Q l -> Q (o :: l)).
  { intros o l IHo IHl [M1 M2] env h F H. rewrite execsM_cons. specialize (IHo M1 env h F H). destruct (execM grow o env h) as [h1 [p|]]; [exact IHo|]. apply IHl; auto. }
  split; [intro o; apply (mop_ind2 P Q)|intro l; apply (mops_ind2 P Q)]; auto.
Qed.
End Frame.

(** Builders do not go away. *)
Section Grows.
Variable grow : Z -> Z -> Z.
Definition grows (h h' : heap) : Prop := (List.length (objs h) <= List.length (objs h'))%nat.
Lemma addM_len : forall h b l, List.length (objs (fst (addM grow h b l))) = List.length (objs h).
Proof.
  intros h b l. unfold addM. destruct (nth_error (objs h) b) as [x|]; [|reflexivity]. destruct (o_err x); [reflexivity|]. destruct (o_child x); [reflexivity|].
  destruct (o_fixed x && _); [cbn [fst putObj objs]; apply upd_length|]. unfold appendM. destruct (_ <=? _); cbn [fst putObj objs store alloc]; apply upd_length.
Qed.
Lemma flushInto_len : forall h b c, List.length (objs (fst (flushInto grow h b c))) = List.length (objs h).
Proof.
  intros h b c. unfold flushInto. destruct (nth_error (objs h) b) as [x|]; [|reflexivity]. destruct (nth_error (objs h) c) as [y|]; [|reflexivity].
  destruct (o_err y); [apply upd_length|]. cbv zeta. destruct (_ <? 0); [reflexivity|].
  assert (FIN : forall h' n, List.length (objs h') = List.length (objs h) -> List.length (objs (fst (match nth_error (objs h') c with
              | None => (h', Some (MP PNil))
              | Some y =>
                  if (0 <? o_pll y) && (s_len (o_res y) <? o_off y + o_pll y) then (h', Some (MP PIndex)) else
                  if negb (Z.shiftr n (8 * o_pll y) =? 0) then
                    (putObj (store h' (s_arr (o_res y)) (s_off (o_res y) + o_off y) (be_enc (Z.to_nat (o_pll y)) n)) b
                       (setErr x (Some "cryptobyte: pending child length exceeds length prefix"%string)), None)
                  else if o_fixed x then (store h' (s_arr (o_res y)) (s_off (o_res y) + o_off y) (be_enc (Z.to_nat (o_pll y)) n), None)
                       else (putObj (store h' (s_arr (o_res y)) (s_off (o_res y) + o_off y) (be_enc (Z.to_nat (o_pll y)) n)) b (setRes x (o_res y)), None)
              end))) = List.length (objs h)).
  { intros h' n E. destruct (nth_error (objs h') c) as [z|]; [|exact E]. destruct (_ && _); [exact E|]. destruct (negb _); [cbn [fst putObj store objs]; rewrite upd_length; exact E|].
    destruct (o_fixed x); [exact E|]. cbn [fst putObj store objs]. rewrite upd_length. exact E. }
  destruct (o_asn1 y); [|apply FIN; reflexivity]. destruct (negb _); [reflexivity|]. destruct (asn1LenBytes _) as [[[ll lb] n]|]; [|apply upd_length].
  destruct (_ <=? _); [reflexivity|]. destruct (negb _).
  - pose proof (addM_len (store h (s_arr (o_res y)) (s_off (o_res y) + o_off y) [lb]) c (repeat 0 (Z.to_nat (ll - 1)))) as L.
    destruct (addM grow _ c _) as [h3 [p|]]; [exact L|]. cbn [fst store objs] in L. destruct (nth_error (objs h3) c) as [z|]; [|exact L].
    destruct (_ <? _); [exact L|]. apply FIN. cbn [putObj store objs]. rewrite upd_length. exact L.
  - apply FIN. cbn [putObj store objs]. apply upd_length.
Qed.
Lemma flushM_len : forall fuel h b, List.length (objs (fst (flushM grow fuel h b))) = List.length (objs h).
Proof.
  induction fuel as [|fuel IH]; intros h b; cbn [flushM]; (destruct (nth_error (objs h) b) as [x|]; [|reflexivity]); (destruct (o_child x) as [c|]; [|reflexivity]); [reflexivity|].
  specialize (IH h c). destruct (flushM grow fuel h c) as [h1 [p|]]; [exact IH|]. cbn [fst] in IH.
  destruct (nth_error (objs h1) b) as [x1|]; [|exact IH]. destruct (o_child x1) as [c1|]; [|exact IH].
  rewrite flushInto_len. cbn [putObj objs]. rewrite upd_length. exact IH.
Qed.
Lemma enterM_len : forall h b k a, (List.length (objs h) <= List.length (objs (fst (enterM grow h b k a))))%nat.
Proof.
  intros h b k a. unfold enterM. destruct (nth_error (objs h) b) as [x|]; [|cbn; lia].
  pose proof (addM_len h b (repeat 0 (Z.to_nat k))) as L. destruct (addM grow h b _) as [h1 [p|]]; cbn [fst] in *; [lia|].
  destruct (nth_error (objs h1) b) as [x1|]; [|cbn; lia]. destruct (o_flag x1); cbn [fst newObj putObj newFlag objs]; rewrite app_length, upd_length; lia.
Qed.
Lemma beginM_len : forall h b, objs (fst (beginM h b)) = objs h.
Proof.
  intros h b. unfold beginM. destruct (nth_error (objs h) b) as [x|]; [|reflexivity]. destruct (o_flag x) as [f|]; [|reflexivity].
  destruct (nth_error (flags h) f) as [[|]|]; reflexivity.
Qed.
Lemma endM_len : forall b out r, List.length (objs (fst (endM b out r))) = List.length (objs (fst r)).
Proof.
  intros b out [h p]. unfold endM. destruct out; [|reflexivity]. destruct (nth_error (objs h) b) as [x|]; [|reflexivity].
  assert (E : objs (match o_flag x with Some f => setFlag h f false | None => h end) = objs h) by (destruct (o_flag x); reflexivity).
  destruct p as [[[]| |]|]; cbn [fst putObj objs]; rewrite ?E, ?upd_length; reflexivity.
Qed.
Lemma closeM_len : forall b r, List.length (objs (fst (closeM grow b r))) = List.length (objs (fst r)).
Proof.
  intros b [h [p|]]; cbn [closeM fst]; [reflexivity|]. pose proof (flushM_len (List.length (objs h)) h b) as L.
  destruct (flushM grow (List.length (objs h)) h b) as [h1 [p|]]; [exact L|]. cbn [fst] in L. destruct (nth_error (objs h1) b) as [x|]; [|exact L]. destruct (o_child x); exact L.
Qed.
Lemma grows_exec_all :
  (forall o env h, grows h (fst (execM grow o env h))) /\ (forall l env h, grows h (fst (execsM grow l env h))).
Proof.
  set (P := fun o => forall env h, grows h (fst (execM grow o env h))).
  set (Q := fun l => forall env h, grows h (fst (execsM grow l env h))).
  assert (LP : forall b k a body env h, Q body -> grows h (fst (alpM grow b k a body env h))).
  { intros b k a body env h IH. unfold alpM, grows. destruct (nth_error (objs h) b) as [x|]; [|cbn; lia]. destruct (o_err x); [cbn; lia|].
    pose proof (enterM_len h b k a) as L. destruct (enterM grow h b k a) as [h1 [p|]]; [exact L|]. cbn [fst] in L. cbv zeta.
    pose proof (beginM_len h1 b) as LB. destruct (beginM h1 b) as [h2 out]. cbn [fst] in LB. rewrite closeM_len, endM_len.
    specialize (IH ((List.length (objs h1) - 1)%nat :: env) h2). unfold grows in IH. rewrite LB in IH. lia. }
  assert (H1 : forall r l, P (MAdd r l)) by (intros r l env h; unfold grows; cbn [execM]; rewrite addM_len; lia).
  assert (H2 : forall r s, P (MAddBytes r s)) by (intros r l env h; unfold grows; cbn [execM]; rewrite addM_len; lia).
  assert (H3 : forall r e, P (MSetErr r e)).
  { intros r e env h. unfold grows. cbn [execM]. destruct (nth_error _ _); cbn [fst putObj objs]; rewrite ?upd_length; lia. }
  assert (H4 : forall r k b, Q b -> P (MLP r k b)) by (intros r k b IH env h; rewrite execM_MLP; apply LP; exact IH).
  assert (H5 : forall r t b, Q b -> P (MASN1 r t b)).
  { intros r t b IH env h. rewrite execM_MASN1. unfold grows. destruct (nth_error (objs h) (resolve env h r)) as [x|]; [|cbn; lia]. destruct (o_err x); [cbn; lia|].
    destruct (Z.land t 0x1f =? 0x1f); [cbn [fst putObj objs]; rewrite upd_length; lia|].
    pose proof (addM_len h (resolve env h r) [t]) as L. destruct (addM grow h (resolve env h r) [t]) as [h1 [p|]]; cbn [fst] in *; [lia|].
    pose proof (LP (resolve env h r) 1 true b env h1 IH) as G. unfold grows in G. lia. }
  assert (H6 : forall r, P (MBytes r)) by (intros r env h; unfold grows; cbn [execM]; destruct (nth_error _ _); cbn [fst logged objs]; lia).
  assert (H7 : forall p, P (MPanic p)) by (intros p env h; unfold grows; cbn; lia).
  assert (H8 : forall b, Q b -> P (MRecover b)) by (intros b IH env h; rewrite execM_MRecover; apply IH).
  assert (Hn : Q []) by (intros env h; unfold grows; cbn; lia).
  assert (Hc : forall o l, P o -> Q l -> Q (o :: l)).
  { intros o l IHo IHl env h. rewrite execsM_cons. specialize (IHo env h). destruct (execM grow o env h) as [h1 [p|]]; [exact IHo|]. specialize (IHl env h1). unfold grows in *. cbn [fst] in IHo. lia. }
  split; [intro o; apply (mop_ind2 P Q)|intro l; apply (mops_ind2 P Q)]; auto.
Qed.
End Grows.
