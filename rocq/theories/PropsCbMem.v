(** C113: cryptobyte Builders and the memory behind them. *)
From Coq Require Import ZArith List Lia Bool String.
From Verif Require Import GoBase CbString CbBuilder CbBuilderProofs CbBuilderFixed CbBuilderGen CbMem CbMemFrame CbMemSim PropsCbBuilder.
Import ListNotations.
Open Scope Z_scope.

(** A slice of existing memory. *)
Definition valid (h : heap) (s : slice) : Prop := (s_arr s < narr h)%nat /\ 0 <= s_len s <= s_cap s.
(** A builder that is not in use at the moment: as NewBuilder and NewFixedBuilder return it, or between two calls on it that went well. *)
Definition idle (h : heap) (b : nat) (x : obj) : Prop :=
  nth_error (objs h) b = Some x /\ o_err x = None /\ o_child x = None /\ o_off x = 0 /\ o_pll x = 0 /\ o_asn1 x = false /\
  (forall f, o_flag x = Some f -> nth_error (flags h) f = Some false) /\ valid h (o_res x).
(** All of a buffer, up to its capacity. *)
Definition whole (s : slice) : slice := setLen s (s_cap s).
(** Nothing that was there before has changed, but for the spare capacity of [s]. *)
Definition unchanged (s : slice) (h h' : heap) : Prop := forall a i, (a < narr h)%nat -> ~ spareOf s a i -> cells h' a i = cells h a i.

Theorem C113_new : forall h fx s, valid h s -> exists x, idle (NewM h fx s) (List.length (objs h)) x /\ o_res x = s /\ o_fixed x = fx /\ cells (NewM h fx s) = cells h.
Proof.
  intros h fx s V. exists (mkObj None s fx None 0 0 false None). split; [|split; [reflexivity|split; reflexivity]]. unfold NewM. split; [cbn [newObj objs]; rewrite nth_error_app2, Nat.sub_diag by lia; reflexivity|].
  repeat split; try reflexivity; try apply V. discriminate.
Qed.

Lemma slice_eta : forall s, mkSl (s_arr s) (s_off s) (s_len s) (s_cap s) = s.
Proof. intros []. reflexivity. Qed.
Lemma content_ext : forall h h' s, (forall i, 0 <= i < s_len s -> cells h' (s_arr s) (s_off s + i) = cells h (s_arr s) (s_off s + i)) -> content h' s = content h s.
Proof. intros h h' s H. unfold content. apply map_ext_in. intros i Hi. apply in_seq in Hi. apply H. lia. Qed.

(** The outermost builder starts at the beginning of its slice. *)
Definition hdr (f : frame) : Z * Z * bool := (f_off f, f_pll f, f_asn1 f).
Definition rooted (st : bstate) : Prop := exists l, map hdr (frames st) = l ++ [(0, 0, false)].
Lemma hdr_upd : forall fs k f f', nth_error fs k = Some f -> hdr f' = hdr f -> map hdr (upd fs k f') = map hdr fs.
Proof.
  induction fs as [|g fs IH]; intros [|k] f f' E H; cbn [upd map nth_error] in *; try discriminate.
  - injection E as ->. rewrite H. reflexivity.
  - f_equal. eauto.
Qed.
Lemma flush1_hdr : forall st c b rest, frames st = c :: b :: rest ->
  map hdr (frames (fst (flush1 st))) = map hdr (c :: b :: rest) \/ map hdr (frames (fst (flush1 st))) = map hdr (b :: rest).
Proof.
  intros st c b rest E. destruct st as [m f cp fr]. cbn in E. subst fr. unfold flush1. cbn [frames].
  destruct (f_err c); [right; reflexivity|]. cbv zeta. destruct (_ <? 0); [left; reflexivity|].
  assert (FIN : forall m' clen off pll n, let o := (let st := mkB m' f cp (c :: b :: rest) in
      if (0 <? pll) && (clen <? off + pll) then (st, Some PIndex) else
      let st := set_mem st (splice (mem st) off (be_enc (Z.to_nat pll) n)) in
      if negb (Z.shiftr n (8 * pll) =? 0) then (set_frames st (set_err b "cryptobyte: pending child length exceeds length prefix" :: rest), None)
      else (set_frames st ((if fixed st then b else set_len b clen) :: rest), None)) in
    map hdr (frames (fst o)) = map hdr (c :: b :: rest) \/ map hdr (frames (fst o)) = map hdr (b :: rest)).
  { intros m' clen off pll n. cbv zeta. destruct (_ && _); [left; reflexivity|]. destruct (negb _); [right; reflexivity|]. cbn [fst set_mem set_frames frames fixed]. right.
    destruct f; reflexivity. }
  destruct (f_asn1 c); [|apply FIN]. destruct (negb _); [left; reflexivity|]. destruct (asn1LenBytes _) as [[[ll lb] n]|]; [|right; reflexivity].
  destruct (_ <=? _); [left; reflexivity|]. destruct (negb _); [|apply FIN]. cbn [set_mem fixed b_cap mem frames].
  destruct (f && _); (destruct (_ <? _); [left; reflexivity|]); apply FIN.
Qed.
Lemma rooted_closed : closed_inv rooted.
Proof.
  constructor.
  - intros st k bs [l H]. unfold add. destruct (nth_error (frames st) k) as [f|] eqn:E; [|exists l; exact H]. destruct (f_err f); [exists l; exact H|].
    destruct (negb _); [exists l; exact H|]. destruct (_ && _); exists l; cbn [fst put_frame set_mem set_frames frames]; (rewrite (hdr_upd _ _ f); [exact H|exact E|reflexivity]).
  - intros st k f e [l H] E. exists l. cbn [put_frame set_frames frames]. rewrite (hdr_upd _ _ f); [exact H|exact E|reflexivity].
  - intros st k a f fs [l H] E He Hk Ha. unfold enter. rewrite E.
    assert (A : exists f1, frames (fst (add st 0 (repeat 0 (Z.to_nat k)))) = f1 :: fs /\ hdr f1 = hdr f).
    { unfold add. rewrite E. cbn [nth_error]. rewrite He. cbn [Nat.eqb negb]. destruct (_ && _); cbn [fst put_frame set_mem set_frames frames]; rewrite E; cbn [upd]; eexists; split; reflexivity. }
    destruct (add st 0 _) as [st1 p]. cbn [fst] in A. destruct A as (f1 & A1 & A2). rewrite A1. rewrite E in H. cbn [map] in H.
    exists ((f_len f, k, a) :: l). cbn [set_frames frames map]. rewrite A2. cbn [app]. f_equal. exact H.
  - intros st [l H]. destruct (frames st) as [|c [|b rest]] eqn:E.
    + destruct l; discriminate H.
    + exists l. unfold flush1. rewrite E. cbn [fst]. rewrite E. exact H.
    + destruct (flush1_hdr st c b rest E) as [F|F]; [exists l; rewrite F; exact H|].
      destruct l as [|y l]; [discriminate H|]. exists l. rewrite F. cbn [map app] in *. congruence.
  - intros st e [l H]. exists l. destruct (snoc_or_nil _ (frames st)) as [E|(fs & r & E)].
    + rewrite E in H. destruct l; discriminate H.
    + rewrite (set_root_frames st e fs r E). rewrite E in H. rewrite map_app in *. exact H.
Qed.
Lemma wf_ops_app : forall a b, wf_ops a -> wf_ops b -> wf_ops (a ++ b).
Proof. induction a as [|o a IH]; intros b A B; [exact B|]. destruct A as [A1 A2]. cbn [app wf_ops]. auto. Qed.
Lemma lower_wf : (forall o h s d, plain h s d o -> wf_ops (lower h o)) /\ (forall l h s d, plains h s d l -> wf_ops (lowers h l)).
Proof.
  set (P := fun o => forall h s d, plain h s d o -> wf_ops (lower h o)). set (Q := fun l => forall h s d, plains h s d l -> wf_ops (lowers h l)).
  assert (H1 : forall r l, P (MAdd r l)) by (intros [k|k] l h s d W; cbn; auto).
  assert (H2 : forall r s, P (MAddBytes r s)) by (intros [k|k] l h s d W; cbn; auto).
  assert (H3 : forall r e, P (MSetErr r e)) by (intros [k|k] l h s d W; cbn; auto).
  assert (H4 : forall r k b, Q b -> P (MLP r k b)).
  { intros [k|k] n b IH h s d W; [|contradiction]. destruct W as (W1 & W2 & W3). split; [|exact I]. split; [exact W2|]. exact (IH h s (S d) W3). }
  assert (H5 : forall r t b, Q b -> P (MASN1 r t b)).
  { intros [k|k] n b IH h s d W; [|contradiction]. destruct W as (W1 & W2). split; [|exact I]. exact (IH h s (S d) W2). }
  assert (H6 : forall r, P (MBytes r)) by (intros [k|k] h s d W; cbn; auto).
  assert (H7 : forall p, P (MPanic p)) by (intros [[]| |] h s d W; cbn; auto).
  assert (H8 : forall b, Q b -> P (MRecover b)) by (intros b IH h s d W; contradiction).
  assert (Hn : Q []) by (intros h s d W; exact I).
  assert (Hc : forall o l, P o -> Q l -> Q (o :: l)).
  { intros o l IHo IHl h s d [W1 W2]. rewrite lowers_cons. apply wf_ops_app; [exact (IHo h s d W1)|exact (IHl h s d W2)]. }
  split; [intro o; apply (mop_ind2 P Q)|intro l; apply (mops_ind2 P Q)]; auto.
Qed.

Section Start.
Variables (h : heap) (b : nat) (x : obj).
Hypothesis ID : idle h b x.
Let s := o_res x.
Let st0 := if o_fixed x then NewFixedBuilder (content h (whole s)) (s_len s) (s_cap s) else NewBuilder (content h s).
Let Rs := R (o_fixed x) h (s_arr s) (s_off s) (s_len s) (s_cap s) (content h (whole s)).

Lemma start_R : Rs st0 h [b] false (o_flag x).
Proof.
  destruct ID as (I1 & I2 & I3 & I4 & I5 & I6 & I7 & I8 & I9). fold s in I8, I9.
  assert (LW : zlen (content h (whole s)) = s_cap s) by (rewrite zlen_content; unfold whole, setLen; cbn [s_len]; lia).
  assert (LS : zlen (content h s) = s_len s) by (apply zlen_content; lia).
  unfold st0. constructor.
  - destruct (o_fixed x); reflexivity.
  - intros ->. reflexivity.
  - unfold inv. destruct (o_fixed x).
    + split; [reflexivity|]. split; [reflexivity|]. split; [lia|]. split.
      * exists (content h (whole s)). cbn. split; [|exact LW]. rewrite skipn_all2; [rewrite app_nil_r; reflexivity|]. unfold zlen in LW. lia.
      * repeat constructor; cbn; lia.
    + apply new_tidy.
  - split; [lia|]. auto.
  - unfold flag_ok. destruct (o_flag x) as [f|]; [apply I7|]; reflexivity.
  - destruct (o_fixed x) eqn:EF; cbn [NewFixedBuilder NewBuilder mem frames chain].
    + split; [|split; [constructor|split; exact I]]. exists x. split; [exact I1|]. split; [exact I3|]. split; [repeat split; auto|].
      unfold data. fold s. split; [repeat split; lia|]. split; [exact LW|]. intros i Hi. rewrite get_content by (unfold whole, setLen; cbn [s_len]; lia). reflexivity.
    + split; [|split; [constructor|split; exact I]]. exists x. split; [exact I1|]. split; [exact I3|]. split; [repeat split; auto|].
      unfold data. fold s. split; [left; repeat split; lia|]. split; [lia|]. intros _ i Hi. rewrite get_content by lia. reflexivity.
Qed.
(** At the end of a program. *)
Lemma end_R : forall grow l h' p, plains h s 1 l -> execsM grow l [b] h = (h', p) ->
  let '(st, k) := execs (lowers h l) st0 in p = option_map MP k /\ (k = None -> exists fo, Rs st h' [b] false fo).
Proof.
  intros grow l h' p W E. destruct ID as (I1 & I2 & I3 & I4 & I5 & I6 & I7 & I8 & I9). fold s in I8, I9.
  pose proof (proj2 (exec_sim_all grow (o_fixed x) h (s_arr s) (s_off s) (s_len s) (s_cap s) I8 I9 (content h (whole s))) l st0 h [b] false (o_flag x)) as S.
  rewrite slice_eta in S. specialize (S W eq_refl start_R). rewrite E in S. destruct (execs (lowers h l) st0) as [st k]. destruct S as (S1 & S2 & _). split; [exact S1|exact S2].
Qed.
Lemma end_root : forall l st k f, plains h s 1 l -> execs (lowers h l) st0 = (st, k) -> frames st = [f] -> f_off f = 0 /\ f_pll f = 0 /\ f_asn1 f = false.
Proof.
  intros l st k f W E F. pose proof (proj2 (exec_inv_all rooted rooted_closed) (lowers h l) (proj2 lower_wf l h s 1%nat W) st0) as I. rewrite E in I. cbn [fst] in I.
  destruct I as [r I].
  - exists []. unfold st0. destruct (o_fixed x); reflexivity.
  - rewrite F in I. destruct r as [|y [|z r]]; [|discriminate I|discriminate I]. cbn in I. unfold hdr in I. injection I as -> -> ->. auto.
Qed.
Lemma end_obj : forall st h' fo, Rs st h' [b] false fo -> exists f x', frames st = [f] /\ nth_error (objs h') b = Some x' /\ o_child x' = None /\
  header (o_fixed x) fo f x' /\ data (o_fixed x) h (s_arr s) (s_off s) (s_len s) (s_cap s) h' (mem st) (f_err f) (o_res x').
Proof.
  intros st h' fo H. pose proof (r_chain _ _ _ _ _ _ _ _ _ _ _ _ H) as C. destruct (frames st) as [|f [|g fs]]; [contradiction| |destruct C as (_ & _ & _ & [])].
  destruct C as ((x' & X1 & X2 & X3 & X4) & _). exists f, x'. auto.
Qed.
Lemma finish : forall grow l h' p, plains h s 1 l -> execsM grow l [b] h = (h', p) ->
  let '(st, k) := execs (lowers h l) st0 in p = option_map MP k /\
  (k = None -> exists f x', frames st = [f] /\ f_off f = 0 /\ f_len f = s_len (o_res x') /\ o_err x' = f_err f /\
     nth_error (objs h') b = Some x' /\ o_child x' = None /\ o_fixed x' = o_fixed x /\ o_off x' = 0 /\ o_pll x' = 0 /\ o_asn1 x' = false /\
     (forall g, o_flag x' = Some g -> nth_error (flags h') g = Some false) /\
     data (o_fixed x) h (s_arr s) (s_off s) (s_len s) (s_cap s) h' (mem st) (f_err f) (o_res x') /\ (narr h <= narr h')%nat).
Proof.
  intros grow l h' p W E. pose proof (end_R grow l h' p W E) as S. destruct (execs (lowers h l) st0) as [st k] eqn:Ex. destruct S as [S1 S2]. split; [exact S1|]. intro K.
  destruct (S2 K) as (fo & HR). pose proof (r_flag _ _ _ _ _ _ _ _ _ _ _ _ HR) as FL.
  destruct (end_obj st h' fo HR) as (f & x' & E1 & E2 & E3 & (H1 & H2 & H3 & H4 & H5 & H6 & H7) & D).
  destruct (end_root l st k f W Ex E1) as (Z1 & Z2 & Z3). exists f, x'.
  split; [exact E1|]. split; [exact Z1|]. split; [congruence|]. split; [exact H1|]. split; [exact E2|]. split; [exact E3|]. split; [exact H2|].
  split; [congruence|]. split; [congruence|]. split; [congruence|]. split; [|split; [exact D|exact (proj1 (r_keep _ _ _ _ _ _ _ _ _ _ _ _ HR))]].
  intros g G. rewrite H7 in G. rewrite G in FL. exact FL.
Qed.
End Start.

(** * The same as on one buffer *)
(** What Bytes returns: [v] as the first bytes of the buffer [s] if they fit into it, else in an array of their own. *)
Definition shownAt (h h' : heap) (s : slice) (s' : slice) (v : list Z) : Prop :=
  content h' s' = v /\ s_len s' = zlen v /\
  (zlen v <= s_cap s -> s_arr s' = s_arr s /\ s_off s' = s_off s /\ s_cap s' = s_cap s) /\
  (s_cap s < zlen v -> (narr h <= s_arr s' < narr h')%nat /\ s_off s' = 0 /\ zlen v <= s_cap s').

(** A growing builder, whatever append does: the program panics like the one on a single buffer, or returns, and then Bytes has the same
    bytes or the same error. *)
Theorem C113_same : forall grow h b x l h' p, idle h b x -> o_fixed x = false -> plains h (o_res x) 1 l -> execsM grow l [b] h = (h', p) ->
  let '(st, k) := execs (lowers h l) (NewBuilder (content h (o_res x))) in
  p = option_map MP k /\
  (k = None -> exists x', nth_error (objs h') b = Some x' /\
     match Bytes st with
     | ERR e => BytesM x' = ERR e
     | OK v => exists s', BytesM x' = OK s' /\ shownAt h h' (o_res x) s' v /\ idle h' b x' /\ o_fixed x' = false /\ o_res x' = s'
     end).
Proof.
  intros grow h b x l h' p ID F W E. pose proof (finish h b x ID grow l h' p W E) as S. rewrite F in S.
  destruct (execs (lowers h l) (NewBuilder (content h (o_res x)))) as [st k]. destruct S as [S1 S2]. split; [exact S1|]. intro K.
  destruct (S2 K) as (f & x' & E1 & Z1 & Z2 & Z3 & E2 & E3 & E4 & E5 & E6 & E7 & E8 & D & NA). exists x'. split; [exact E2|].
  unfold Bytes, BytesM. rewrite E1, Z3, E5, Z1. destruct (f_err f) as [e|] eqn:Ef; [reflexivity|].
  destruct ID as (_ & _ & _ & _ & _ & _ & _ & V1 & V2).
  pose proof (fun i => data_get _ _ _ _ _ _ V1 _ _ _ i D) as DG. unfold data in D. destruct D as (D1 & D2 & _). rewrite Z2.
  assert (L0 : 0 <= s_len (o_res x')) by (destruct D1 as [D1|D1]; lia).
  assert (ZV : zlen (sub (mem st) 0 (s_len (o_res x'))) = s_len (o_res x')) by (rewrite sub_length by lia; lia).
  rewrite Z.add_0_r, !Z.sub_0_r, slice_eta. eexists. split; [reflexivity|]. split; [|split; [|split; [exact E4|reflexivity]]].
  - split; [|split; [lia|rewrite ZV; split]].
    + apply get_ext; [rewrite zlen_content by exact L0; lia|]. intros i Hi. rewrite zlen_content in Hi by exact L0. rewrite get_content by exact Hi.
      pose proof (get_sub (mem st) 0 (s_len (o_res x')) i ltac:(lia) Hi ltac:(lia)) as GS. cbn [Z.add] in GS. rewrite GS. apply DG. exact Hi.
    + intro L. destruct D1 as [D1|D1]; [repeat split; apply D1|lia].
    + intro L. destruct D1 as [D1|D1]; [lia|]. destruct D1 as (A & B & C & _). repeat split; lia.
  - split; [exact E2|]. split; [exact Z3|]. split; [exact E3|]. split; [exact E5|]. split; [exact E6|]. split; [exact E7|]. split; [exact E8|].
    split; destruct D1 as [D1|D1]; lia.
Qed.

(** A fixed builder: the same, and the buffer holds, up to its capacity, what the buffer of the model holds. *)
Theorem C113_fixed : forall grow h b x l h' p, idle h b x -> o_fixed x = true -> plains h (o_res x) 1 l -> execsM grow l [b] h = (h', p) ->
  let '(st, k) := execs (lowers h l) (NewFixedBuilder (content h (whole (o_res x))) (s_len (o_res x)) (s_cap (o_res x))) in
  p = option_map MP k /\
  (k = None -> content h' (whole (o_res x)) = mem st /\ exists x', nth_error (objs h') b = Some x' /\
     match Bytes st with
     | ERR e => BytesM x' = ERR e
     | OK v => exists s', BytesM x' = OK s' /\ content h' s' = v /\ s' = setLen (o_res x) (zlen v) /\ idle h' b x' /\ o_fixed x' = true /\ o_res x' = s'
     end).
Proof.
  intros grow h b x l h' p ID F W E. pose proof (finish h b x ID grow l h' p W E) as S. rewrite F in S.
  destruct (execs (lowers h l) _) as [st k]. destruct S as [S1 S2]. split; [exact S1|]. intro K.
  destruct (S2 K) as (f & x' & E1 & Z1 & Z2 & Z3 & E2 & E3 & E4 & E5 & E6 & E7 & E8 & D & NA).
  destruct ID as (_ & _ & _ & _ & _ & _ & _ & V1 & V2).
  unfold data in D. destruct D as ((D1 & D2 & D3 & D4) & D5 & D6). split.
  { apply get_ext; [rewrite zlen_content; unfold whole, setLen; cbn [s_len]; lia|]. intros i Hi. rewrite zlen_content in Hi by (unfold whole, setLen; cbn [s_len]; lia).
    rewrite get_content by exact Hi. apply D6. exact Hi. }
  exists x'. split; [exact E2|]. unfold Bytes, BytesM. rewrite E1, Z3, E5, Z1. destruct (f_err f) as [e|] eqn:Ef; [reflexivity|].
  assert (ZV : zlen (sub (mem st) 0 (s_len (o_res x'))) = s_len (o_res x')) by (rewrite sub_length by lia; lia).
  rewrite Z2, Z.add_0_r, !Z.sub_0_r, slice_eta. eexists. split; [reflexivity|]. split; [|split; [|split; [|split; [exact E4|reflexivity]]]].
  - apply get_ext; [rewrite zlen_content by lia; lia|]. intros i Hi. rewrite zlen_content in Hi by lia. rewrite get_content by exact Hi.
    pose proof (get_sub (mem st) 0 (s_len (o_res x')) i ltac:(lia) Hi ltac:(lia)) as GS. cbn [Z.add] in GS. rewrite GS, D1, D2. apply D6. lia.
  - rewrite ZV. unfold setLen. rewrite <- D1, <- D2, <- D3. rewrite slice_eta. reflexivity.
  - split; [exact E2|]. split; [exact Z3|]. split; [exact E3|]. split; [exact E5|]. split; [exact E6|]. split; [exact E7|]. split; [exact E8|].
    split; lia.
Qed.

(** * What any program leaves alone *)
(** A program may use the builder [b], and the builders created while it runs. It may name children whose continuation has returned, panic and
    recover as it likes. Whatever it does, of the memory that was there only the spare capacity of [b]'s buffer changes, and no other builder. *)
Theorem C113_frame : forall grow h b x l h' p,
  nth_error (objs h) b = Some x -> o_child x = None -> 0 <= o_pll x -> valid h (o_res x) -> mines h b l -> execsM grow l [b] h = (h', p) ->
  unchanged (o_res x) h h' /\
  (forall n, (n < List.length (objs h))%nat -> n <> b -> nth_error (objs h') n = nth_error (objs h) n) /\
  (forall f, (f < List.length (flags h))%nat -> o_flag x <> Some f -> nth_error (flags h') f = nth_error (flags h) f) /\
  (narr h <= narr h')%nat.
Proof.
  intros grow h b x l h' p X C P [V1 V2] M E.
  pose proof (proj2 (Inv_exec_all grow h b x X V1) l M [b] h) as I. rewrite E in I. cbn [fst] in I.
  destruct I as [I1 I2 I3 I4 I5 I6 I7].
  - constructor; [left; reflexivity|constructor].
  - apply Inv_start; auto.
  - split; [exact I2|]. split; [exact I4|]. split; [exact I6|exact I1].
Qed.

(** What Bytes has returned keeps its content, whatever is written to the builder later. *)
Theorem C113_kept : forall grow h b x l h' p s,
  nth_error (objs h) b = Some x -> o_child x = None -> 0 <= o_pll x -> 0 <= o_off x -> valid h (o_res x) -> BytesM x = OK s ->
  mines h b l -> execsM grow l [b] h = (h', p) -> content h' s = content h s.
Proof.
  intros grow h b x l h' p s X C P O V B M E. destruct (C113_frame grow h b x l h' p X C P V M E) as (U & _). destruct V as [V1 V2].
  unfold BytesM in B. destruct (o_err x); [discriminate|]. injection B as <-. apply content_ext. cbn [s_arr s_off s_len]. intros i Hi. apply U; [exact V1|].
  intros [_ H]. lia.
Qed.

(** Two builders whose memory does not overlap do not disturb each other. *)
Theorem C113_apart : forall grow h b x c y l h' p, idle h b x -> idle h c y -> b <> c -> (forall f, o_flag x = Some f -> o_flag y <> Some f) ->
  (forall i, 0 <= i < s_cap (o_res x) -> ~ spareOf (o_res y) (s_arr (o_res x)) (s_off (o_res x) + i)) ->
  mines h c l -> execsM grow l [c] h = (h', p) ->
  idle h' b x /\ content h' (whole (o_res x)) = content h (whole (o_res x)).
Proof.
  intros grow h b x c y l h' p (X1 & X2 & X3 & X4 & X5 & X6 & X7 & X8 & X9) (Y1 & Y2 & Y3 & Y4 & Y5 & Y6 & Y7 & Y8) N F D M E.
  destruct (C113_frame grow h c y l h' p Y1 Y3 ltac:(lia) Y8 M E) as (U1 & U2 & U3 & U4). split.
  - split; [rewrite U2; [exact X1|apply nth_error_Some; congruence|exact N]|]. split; [exact X2|]. split; [exact X3|]. split; [exact X4|]. split; [exact X5|].
    split; [exact X6|]. split; [|split; lia]. intros f Hf. specialize (X7 f Hf). rewrite U3; [exact X7|apply nth_error_Some; congruence|exact (F f Hf)].
  - apply content_ext. unfold whole, setLen. cbn [s_arr s_off s_len]. intros i Hi. apply U1; [exact X8|apply D; exact Hi].
Qed.

(** * Trees of values *)
(** The calls that write an item. *)
Fixpoint mcall (i : item) : mop :=
  match i with
  | IBytes bs => MAdd (Lvl 0) bs
  | ILP k l => MLP (Lvl 0) k (map mcall l)
  | IASN1 t l => MASN1 (Lvl 0) t (map mcall l)
  | IErr e => MSetErr (Lvl 0) e
  end.
Lemma mcall_all : (forall i h, lower h (mcall i) = [call i]) /\ (forall l h, lowers h (map mcall l) = map call l).
Proof.
  set (P := fun i => forall h, lower h (mcall i) = [call i]). set (Q := fun l => forall h, lowers h (map mcall l) = map call l).
  assert (H1 : forall bs, P (IBytes bs)) by (intros bs h; reflexivity).
  assert (H2 : forall k l, Q l -> P (ILP k l)) by (intros k l IH h; change ([OLP 0 k (lowers h (map mcall l))] = [OLP 0 k (map call l)]); rewrite IH; reflexivity).
  assert (H3 : forall t l, Q l -> P (IASN1 t l)) by (intros k l IH h; change ([OASN1 0 k (lowers h (map mcall l))] = [OASN1 0 k (map call l)]); rewrite IH; reflexivity).
  assert (H4 : forall e, P (IErr e)) by (intros e h; reflexivity).
  assert (H5 : Q []) by (intro h; reflexivity).
  assert (H6 : forall i l, P i -> Q l -> Q (i :: l)) by (intros i l A B h; cbn [map]; rewrite lowers_cons, A, B; reflexivity).
  split; [intro i; apply (item_ind2 P Q)|intro l; apply (items_ind2 P Q)]; auto.
Qed.
Lemma mcall_plain : (forall i, wf_item i -> forall h s d, plain h s (S d) (mcall i)) /\ (forall l, wf_items l -> forall h s d, plains h s (S d) (map mcall l)).
Proof.
  set (P := fun i => wf_item i -> forall h s d, plain h s (S d) (mcall i)). set (Q := fun l => wf_items l -> forall h s d, plains h s (S d) (map mcall l)).
  assert (H1 : forall bs, P (IBytes bs)) by (intros bs W h s d; cbn; lia).
  assert (H2 : forall k l, Q l -> P (ILP k l)).
  { intros k l IH W h s d. apply wf_ILP in W. destruct W as [W1 W2]. split; [lia|]. split; [exact W1|]. exact (IH W2 h s (S d)). }
  assert (H3 : forall t l, Q l -> P (IASN1 t l)).
  { intros k l IH W h s d. apply wf_IASN1 in W. split; [lia|]. exact (IH W h s (S d)). }
  assert (H4 : forall e, P (IErr e)) by (intros e W h s d; cbn; lia).
  assert (H5 : Q []) by (intros W h s d; exact I).
  assert (H6 : forall i l, P i -> Q l -> Q (i :: l)) by (intros i l A B [W1 W2] h s d; split; [exact (A W1 h s d)|exact (B W2 h s d)]).
  split; [intro i; apply (item_ind2 P Q)|intro l; apply (items_ind2 P Q)]; auto.
Qed.
Lemma mcall_mine : (forall i, wf_item i -> forall h b, mine h b (mcall i)) /\ (forall l, wf_items l -> forall h b, mines h b (map mcall l)).
Proof.
  set (P := fun i => wf_item i -> forall h b, mine h b (mcall i)). set (Q := fun l => wf_items l -> forall h b, mines h b (map mcall l)).
  assert (H1 : forall bs, P (IBytes bs)) by (intros bs W h b; exact I).
  assert (H2 : forall k l, Q l -> P (ILP k l)).
  { intros k l IH W h b. apply wf_ILP in W. destruct W as [W1 W2]. split; [exact I|]. split; [exact W1|]. exact (IH W2 h b). }
  assert (H3 : forall t l, Q l -> P (IASN1 t l)) by (intros k l IH W h b; apply wf_IASN1 in W; split; [exact I|exact (IH W h b)]).
  assert (H4 : forall e, P (IErr e)) by (intros e W h b; exact I).
  assert (H5 : Q []) by (intros W h b; exact I).
  assert (H6 : forall i l, P i -> Q l -> Q (i :: l)) by (intros i l A B [W1 W2] h b; split; [exact (A W1 h b)|exact (B W2 h b)]).
  split; [intro i; apply (item_ind2 P Q)|intro l; apply (items_ind2 P Q)]; auto.
Qed.

(** Writing a tree to a growing builder: the bytes of the tree come after what was there, in the buffer given if they fit into it and
    else in new memory, and nothing else of the memory changes. If a value has no bytes then Bytes has an error. *)
Theorem C113_items : forall grow h b x is h' p, idle h b x -> o_fixed x = false -> wf_items is -> execsM grow (map mcall is) [b] h = (h', p) ->
  p = None /\ unchanged (o_res x) h h' /\ exists x', nth_error (objs h') b = Some x' /\
  match sers is with
  | Some e => exists s', BytesM x' = OK s' /\ shownAt h h' (o_res x) s' (content h (o_res x) ++ e) /\ idle h' b x' /\ o_fixed x' = false /\ o_res x' = s'
  | None => exists e, BytesM x' = ERR e
  end.
Proof.
  intros grow h b x is h' p ID F W E. pose proof (C113_same grow h b x _ h' p ID F (proj2 mcall_plain is W h (o_res x) 0%nat) E) as S.
  assert (U : unchanged (o_res x) h h').
  { pose proof ID as (X1 & X2 & X3 & X4 & X5 & X6 & X7 & X8). apply (C113_frame grow h b x _ h' p X1 X3 ltac:(lia) X8 (proj2 mcall_mine is W h b) E). }
  rewrite (proj2 mcall_all is h) in S. destruct (sers is) as [e|] eqn:Es.
  - destruct (C26_growing_builder (content h (o_res x)) is e W Es) as (st & E1 & B). rewrite E1 in S. destruct S as [-> S]. split; [reflexivity|]. split; [exact U|].
    destruct (S eq_refl) as (x' & S1 & S2). exists x'. split; [exact S1|]. rewrite B in S2. exact S2.
  - destruct (C27_no_bytes (content h (o_res x)) is W Es) as (st & e & E1 & B). rewrite E1 in S. destruct S as [-> S]. split; [reflexivity|]. split; [exact U|].
    destruct (S eq_refl) as (x' & S1 & S2). exists x'. split; [exact S1|]. rewrite B in S2. exists e. exact S2.
Qed.

(** * Where it goes wrong *)
Definition zeros (n : nat) : heap := mkHeap (fun _ _ => 0) n [] [] [].
Definition nogrow (cap need : Z) : Z := need.
Definition buf8 : slice := mkSl 0 0 0 8.
(** The bytes that builder [b] shows in [h], or its error. *)
Definition shows (h : heap) (b : nat) : option (res (list Z)) :=
  match nth_error (objs h) b with
  | Some x => Some (match BytesM x with OK s => OK (content h s) | ERR e => ERR e end)
  | None => None
  end.

Lemma returned : forall r : mout, snd r = None -> r = (fst r, None).
Proof. intros [h p] E. cbn in *. rewrite E. reflexivity. Qed.

(** Two builders on one buffer: writing to the second changes what the first has written, and none has an error. *)
Theorem C113_shared_refuted : exists h l h1 h2,
  execsM nogrow [MAdd (Lvl 0) [1; 2]] [0%nat] h = (h1, None) /\ shows h1 0 = Some (OK [1; 2]) /\
  mines h1 1 l /\ execsM nogrow l [1%nat] h1 = (h2, None) /\ shows h2 0 = Some (OK [3; 2]) /\ shows h2 1 = Some (OK [3]).
Proof.
  set (h := NewM (NewM (zeros 1) false buf8) false buf8). set (l := [MAdd (Lvl 0) [3]]). set (h1 := fst (execsM nogrow [MAdd (Lvl 0) [1; 2]] [0%nat] h)).
  exists h, l, h1, (fst (execsM nogrow l [1%nat] h1)).
  split; [apply returned; vm_compute; reflexivity|]. split; [vm_compute; reflexivity|]. split; [split; exact I|].
  split; [apply returned; vm_compute; reflexivity|]. split; vm_compute; reflexivity.
Qed.

(** A child kept after its continuation has returned: writing to it overwrites bytes that the parent has written since, without an error. *)
Theorem C113_stale_refuted : exists h h1 h2 x,
  idle h 0 x /\ o_fixed x = false /\ execsM nogrow [MLP (Lvl 0) 1 [MAdd (Lvl 0) [5]]; MAdd (Lvl 0) [9]] [0%nat] h = (h1, None) /\ shows h1 0 = Some (OK [1; 5; 9]) /\
  execsM nogrow [MAdd (Obj 1) [7]] [0%nat] h1 = (h2, None) /\ shows h2 0 = Some (OK [1; 5; 7]).
Proof.
  set (h := NewM (zeros 1) false buf8). set (h1 := fst (execsM nogrow [MLP (Lvl 0) 1 [MAdd (Lvl 0) [5]]; MAdd (Lvl 0) [9]] [0%nat] h)).
  exists h, h1, (fst (execsM nogrow [MAdd (Obj 1) [7]] [0%nat] h1)), (mkObj None buf8 false None 0 0 false None).
  split; [|split; [reflexivity|split; [apply returned; vm_compute; reflexivity|split; [vm_compute; reflexivity|split; [apply returned; vm_compute; reflexivity|vm_compute; reflexivity]]]]].
  split; [reflexivity|]. repeat split; try reflexivity; try discriminate; cbn; lia.
Qed.

(** An error is not for ever: a continuation that panics with a BuildError holding nil takes it away. *)
Theorem C113_error_cleared_refuted : exists h l h', mines h 0 l /\
  execsM nogrow [MLP (Lvl 0) 1 (MSetErr (Lvl 1) "bad"%string :: l)] [0%nat] h = (h', None) /\ shows h' 0 = Some (OK [0]).
Proof.
  set (h := NewM (zeros 1) false buf8). set (l := [MPanic MPBuildNil]). exists h, l, (fst (execsM nogrow [MLP (Lvl 0) 1 (MSetErr (Lvl 1) "bad"%string :: l)] [0%nat] h)).
  split; [split; exact I|]. split; [apply returned; vm_compute; reflexivity|vm_compute; reflexivity].
Qed.
(** Nor is a panic always seen: panic(nil) in a continuation is taken for a return, at the language version of go.mod. *)
Theorem C113_panic_lost_refuted : exists h h', execsM nogrow [MLP (Lvl 0) 1 [MAdd (Lvl 0) [5]; MPanic MPNil; MAdd (Lvl 0) [6]]; MAdd (Lvl 0) [7]] [0%nat] h = (h', None) /\
  shows h' 0 = Some (OK [1; 5; 7]).
Proof.
  set (h := NewM (zeros 1) false buf8). set (l := [MLP _ _ _; _]). exists h, (fst (execsM nogrow l [0%nat] h)).
  split; [apply returned; vm_compute; reflexivity|vm_compute; reflexivity].
Qed.

(** * Examples *)
(** A buffer of two bytes, shown in the middle of other memory; the element of 130 bytes is moved by one byte to make room for its length, and the
    buffer by append. *)
Example C113_sees_growth :
  let h := mkHeap (fun _ i => 100 + i) 1 [] [] [] in
  let r := execsM nogrow (map mcall [IASN1 48 [IBytes (repeat 7 130)]; ILP 2 [IBytes [1]]]) [0%nat] (NewM h false (mkSl 0 3 2 4)) in
  snd r = None /\ shows (fst r) 0 = Some (OK ([103; 104; 48; 129; 130] ++ repeat 7 130 ++ [0; 1; 1])) /\
  map (cells (fst r) 0) [2; 3; 4; 5; 6; 7] = [102; 103; 104; 48; 0; 107].
Proof. vm_compute. repeat split. Qed.
(** In place, in a fixed buffer; a fixed builder loses the bytes of its children (C29), but they have been written. *)
Example C113_sees_fixed :
  let r := execsM nogrow [MASN1 (Lvl 0) 48 [MAdd (Lvl 0) [1; 2]; MLP (Lvl 0) 2 [MAdd (Lvl 0) [3]]]; MBytes (Lvl 0)] [0%nat] (NewM (zeros 1) true (mkSl 0 5 0 10)) in
  snd r = None /\ log (fst r) = [OK (mkSl 0 5 2 10)] /\ map (cells (fst r) 0) [4; 5; 6; 7; 8; 9; 10; 11; 12] = [0; 48; 4; 1; 2; 0; 1; 3; 0].
Proof. vm_compute. repeat split. Qed.
(** After a panic that was recovered outside, the builder still waits for its child: Bytes works, a write panics. *)
Example C113_sees_pending :
  let h := NewM (zeros 1) false buf8 in
  let l := [MAdd (Lvl 0) [9]; MRecover [MLP (Lvl 0) 1 [MAdd (Lvl 0) [5]; MPanic (MP (PUser "no"))]]] in
  mines h 0 l /\ shows (fst (execsM nogrow l [0%nat] h)) 0 = Some (OK [9; 0]) /\
  snd (execsM nogrow (l ++ [MAdd (Lvl 0) [1]]) [0%nat] h) = Some (MP (PUser "attempted write while child is pending")).
Proof. split; [|vm_compute; split; reflexivity]. repeat split; try exact I; cbn; lia. Qed.
(** Bytes, then more: the bytes returned before are still there. *)
Example C113_sees_kept :
  let h := NewM (zeros 1) false buf8 in
  let r := execsM nogrow [MAdd (Lvl 0) [1; 2]; MBytes (Lvl 0); MLP (Lvl 0) 4 [MAdd (Lvl 0) [3]]] [0%nat] h in
  log (fst r) = [OK (mkSl 0 0 2 8)] /\ content (fst r) (mkSl 0 0 2 8) = [1; 2] /\ shows (fst r) 0 = Some (OK [1; 2; 0; 0; 0; 1; 3]).
Proof. vm_compute. repeat split. Qed.
