(** Certificate requests made at the same time from templates that share attributes (C132). *)
From Coq Require Import ZArith List Lia Bool String.
From Verif Require Import GoBase GoAsn1 GoElliptic Sm2 Sm2Der GoText GoPkix CertText Cert CertMem CertConc PropsCertText PropsSm2 PropsCertDN PropsCertNames PropsCert PropsCertReq PropsCertMem.
Import ListNotations.
Open Scope Z_scope.

(** * Alone *)

Lemma loop_find : forall spare h atvs attrs, appendLoop spare h atvs attrs =
  match find takes attrs with
  | None => None
  | Some a => match readO h (t_value a) with
              | [] => None
              | s0 :: _ => let '(h1, s) := appendI spare h s0 atvs in
                  Some (mkHeap (inner h1) (setNth (v_arr (t_value a)) (writeAt (nth (v_arr (t_value a)) (outer h1) []) (v_off (t_value a)) [s]) (outer h1)))
              end
  end.
Proof.
  intros spare h atvs. induction attrs as [|a attrs IH]; [reflexivity|]. cbn [appendLoop find]. unfold takes at 1.
  destruct (oidEqual (t_type a) oidExtensionRequest); cbn [negb orb andb]; [|exact IH].
  destruct (v_len (t_value a) =? 0)%nat; cbn [negb orb]; [exact IH|]. reflexivity.
Qed.
(** A goroutine alone does what CreateCertificateRequest does with the attributes. *)
Theorem C132_alone : forall spare h attrs exts, let '(h', attributes) := attributesM spare h attrs exts in
  sched spare (repeat 0%nat 5) [mkTh attrs exts Scan] h = ([mkTh attrs exts (Made (map (view h') attributes))], h').
Proof.
  intros spare h attrs exts. unfold attributesM. cbv zeta. cbn [repeat sched nth_error]. unfold step at 1. cbn [h_stage h_attrs h_exts]. cbv zeta.
  destruct (0 <? zlen exts); [|reflexivity].
  rewrite loop_find. destruct (find takes attrs) as [a|]; [|reflexivity].
  cbn [sched setNth nth_error]. unfold step at 1. cbn [h_stage h_attrs h_exts].
  match goal with |- context[readO ?x (t_value a)] => destruct (readO x (t_value a)) as [|s0 ss] end; [reflexivity|].
  cbn [sched setNth nth_error]. unfold step at 1. cbn [h_stage h_attrs h_exts].
  destruct (appendI _ _ _ _) as [h1 s1]. reflexivity.
Qed.
(** The whole call, from its goroutine. *)
Theorem C132_request : forall E spare h attrs template pub pri userId tape,
  CreateCertificateRequestM E spare h attrs template pub pri userId tape =
  do (publicKeyBytes, publicKeyAlgorithm) <- marshalPublicKey pub;
  match requestedExtensions E template with
  | ERR e => Ret (ERR e, tape, h)
  | OK exts =>
      match sched spare (repeat 0%nat 5) [mkTh attrs exts Scan] h with
      | ([mkTh _ _ (Made views)], h') =>
          do (r, tape) <- finishRequest E template publicKeyBytes publicKeyAlgorithm views pri userId tape;
          Ret (r, tape, h')
      | _ => Panic PIndex
      end
  end.
Proof.
  intros E spare h attrs template pub pri userId tape. unfold CreateCertificateRequestM.
  destruct (marshalPublicKey pub) as [[kb ka]|k]; [|reflexivity]. cbn [bind]. destruct (requestedExtensions E template) as [exts|e]; [|reflexivity].
  pose proof (C132_alone spare h attrs exts) as H. destruct (attributesM spare h attrs exts) as [h' attributes]. rewrite H. reflexivity.
Qed.

(** * Lists of goroutines *)
Lemma set_in {A} : forall g (x y : A) l, In y (setNth g x l) -> y = x \/ In y l.
Proof.
  induction g as [|g IH]; intros x y [|z l] H; cbn [setNth] in H; try (right; exact H); destruct H as [H|H].
  - left. congruence.
  - right. right. exact H.
  - right. left. exact H.
  - destruct (IH x y l H) as [K|K]; [left; exact K|right; right; exact K].
Qed.
Lemma set_length {A} : forall g (x : A) l, List.length (setNth g x l) = List.length l.
Proof. induction g as [|g IH]; intros x [|z l]; cbn; [reflexivity..|now rewrite IH]. Qed.
Lemma set_get {A} : forall g (x : A) l i, nth_error (setNth g x l) i = if (i =? g)%nat then match nth_error l i with Some _ => Some x | None => None end else nth_error l i.
Proof. induction g as [|g IH]; intros x [|z l] [|i]; cbn; try reflexivity; [destruct (i =? g)%nat; reflexivity|apply IH]. Qed.

Lemma filter_le {A} : forall (f : A -> bool) l, (List.length (filter f l) <= List.length l)%nat.
Proof. intros f. induction l as [|x l IH]; cbn; [lia|]. destruct (f x); cbn; lia. Qed.

(** An invariant of each goroutine and of the memory. *)
Section Steps.
Variable spare : nat -> nat.
Lemma sched_inv : forall (P : list thread -> heap -> Prop),
  (forall ts h g t t' h', P ts h -> nth_error ts g = Some t -> step spare t h = Some (t', h') -> P (setNth g t' ts) h') ->
  forall turns ts h ts' h', P ts h -> sched spare turns ts h = (ts', h') -> P ts' h'.
Proof.
  intros P HP. induction turns as [|g turns IH]; intros ts h ts' h' H E; cbn [sched] in E.
  - assert (ts' = ts /\ h' = h) as [-> ->] by (split; congruence). exact H.
  - destruct (nth_error ts g) as [t|] eqn:EG; [|apply (IH ts h); assumption].
    destruct (step spare t h) as [[t1 h1]|] eqn:ES; [|apply (IH ts h); assumption].
    apply (IH _ _ _ _ (HP _ _ _ _ _ _ H EG ES) E).
Qed.
End Steps.

(** * Templates without a request attribute: nothing is shared *)

(** [h] is [h0] with more arrays. *)
Definition more (h0 h : heap) : Prop := exists x y, inner h = inner h0 ++ x /\ outer h = outer h0 ++ y.
Lemma more_readI : forall h0 h s, more h0 h -> validI h0 s -> readI h s = readI h0 s.
Proof.
  intros h0 h s (x & y & HI & _) [V1 V2]. unfold readI. destruct (s_len s) as [|n] eqn:EL; [reflexivity|]. rewrite <- EL.
  rewrite HI, app_nth1; [reflexivity|]. apply V2. lia.
Qed.
Lemma more_readO : forall h0 h v, more h0 h -> validO h0 v -> readO h v = readO h0 v.
Proof.
  intros h0 h v (x & y & _ & HO) V. unfold readO. destruct (v_len v) as [|n] eqn:EL; [reflexivity|]. rewrite <- EL.
  rewrite HO, app_nth1; [reflexivity|]. apply V. lia.
Qed.
Lemma more_view : forall h0 h attrs, more h0 h -> valid h0 attrs -> map (view h) attrs = map (view h0) attrs.
Proof.
  intros h0 h attrs M V. apply map_ext_in. intros a HA. destruct (V a HA) as [V1 V2]. unfold view. rewrite (more_readO _ _ _ M V1). f_equal.
  apply map_ext_in. intros s HS. apply more_readI; [exact M|apply V2, HS].
Qed.
Lemma more_trans : forall a b c, more a b -> more b c -> more a c.
Proof.
  intros a b c (x & y & H1 & H2) (x' & y' & H3 & H4). exists (x ++ x'), (y ++ y'). rewrite H3, H4, H1, H2, <- !app_assoc. split; reflexivity.
Qed.
Lemma more_refl : forall h, more h h.
Proof. intros h. exists [], []. rewrite !app_nil_r. split; reflexivity. Qed.

(** What a call gives that adds an attribute of its own: the extensions that no attribute has. *)
Definition own (h0 : heap) (attrs : list attr) (exts : list Extension) : list ATVSet :=
  map (view h0) attrs ++
  (if 0 <? zlen exts then [mkATVS oidExtensionRequest [extensionATVs (map (view h0) attrs) exts]] else []).
(** Nothing to append to. *)
Definition no_request (attrs : list attr) : Prop := forall a, In a attrs -> t_type a <> oidExtensionRequest \/ v_len (t_value a) = 0%nat.
Lemma no_takes : forall attrs, no_request attrs -> find takes attrs = None.
Proof.
  intros attrs H. destruct (find takes attrs) as [a|] eqn:EF; [|reflexivity]. apply find_some in EF. destruct EF as [HA HT].
  unfold takes in HT. apply andb_true_iff in HT. destruct HT as [T1 T2]. apply oidEqual_eq in T1. apply negb_true_iff in T2. apply Nat.eqb_neq in T2.
  destruct (H a HA); contradiction.
Qed.
Definition quiet (h0 h : heap) (t : thread) : Prop :=
  valid h0 (h_attrs t) /\ no_request (h_attrs t) /\
  match h_stage t with
  | Scan => True
  | New new => (0 <? zlen (h_exts t)) = true /\ validI h new /\ readI h new = extensionATVs (map (view h0) (h_attrs t)) (h_exts t)
  | Look attributes => valid h attributes /\ map (view h) attributes = own h0 (h_attrs t) (h_exts t)
  | Made views => views = own h0 (h_attrs t) (h_exts t)
  | _ => False
  end.
Lemma more_validI : forall h0 h s, more h0 h -> validI h0 s -> validI h s.
Proof.
  intros h0 h s (x & y & HI & _) [V1 V2]. split; [exact V1|]. intros P. destruct (V2 P) as [V3 V4]. rewrite HI, app_length, app_nth1 by exact V3. split; lia.
Qed.
Lemma more_valid : forall h0 h attrs, more h0 h -> valid h0 attrs -> valid h attrs.
Proof.
  intros h0 h attrs M V a HA. destruct (V a HA) as [V1 V2]. split.
  - destruct M as (x & y & _ & HO). intros P. destruct (V1 P) as [V3 V4]. rewrite HO, app_length, app_nth1 by exact V3. split; lia.
  - intros s HS. rewrite (more_readO _ _ _ M V1) in HS. apply (more_validI h0); [exact M|apply V2, HS].
Qed.
Lemma quiet_more : forall h0 h h' t, more h h' -> quiet h0 h t -> quiet h0 h' t.
Proof.
  intros h0 h h' t M (H1 & H2 & H3). split; [exact H1|]. split; [exact H2|]. destruct (h_stage t); try exact H3.
  - destruct H3 as (A & B & C). split; [exact A|]. split; [apply (more_validI h); assumption|]. rewrite (more_readI h) by assumption. exact C.
  - destruct H3 as (A & B). split; [apply (more_valid h); assumption|]. rewrite (more_view h) by assumption. exact B.
Qed.

Section Quiet.
Variable spare : nat -> nat.
Lemma quiet_step : forall h0 h t t' h', more h0 h -> quiet h0 h t -> step spare t h = Some (t', h') -> more h h' /\ quiet h0 h' t'.
Proof.
  intros h0 h [attrs exts st] t' h' M (H1 & H2 & H3) H. cbn [h_attrs h_exts h_stage] in *. unfold step in H. cbn [h_attrs h_exts h_stage] in H. cbv zeta in H.
  unfold quiet. destruct st as [|a atvs new|a atvs s|a s|new|attributes|views]; try contradiction.
  - rewrite (no_takes _ H2) in H. destruct (0 <? zlen exts) eqn:EZ.
    + rewrite (more_view _ _ _ M H1) in H. assert (exists q, q = extensionATVs (map (view h0) attrs) exts) as [q EQ] by (eexists; reflexivity).
      rewrite <- EQ in H. assert (LQ : (List.length q <= List.length exts)%nat).
      { rewrite EQ. unfold extensionATVs. rewrite map_length. apply filter_le. }
      injection H as <- <-. assert (MM : more h (mkHeap (inner h ++ [q ++ repeat zeroATV (List.length exts - List.length q)]) (outer h))).
      { exists [q ++ repeat zeroATV (List.length exts - List.length q)], []. rewrite app_nil_r. split; reflexivity. }
      split; [exact MM|]. cbn [h_attrs h_exts h_stage]. split; [exact H1|]. split; [exact H2|]. split; [exact EZ|]. split.
      * split; cbn [s_len s_cap s_arr s_off inner]; [exact LQ|]. intros _. rewrite app_length. cbn [List.length].
        rewrite app_nth2 by lia. rewrite Nat.sub_diag. cbn [nth]. rewrite app_length, repeat_length. lia.
      * unfold readI. cbn [s_arr s_off s_len inner]. rewrite app_nth2 by lia. rewrite Nat.sub_diag. cbn [nth]. unfold window. cbn [skipn].
        rewrite firstn_app, Nat.sub_diag, firstn_all. cbn [firstn]. rewrite app_nil_r. exact EQ.
    + injection H as <- <-. split; [apply more_refl|]. cbn [h_attrs h_exts h_stage]. split; [exact H1|]. split; [exact H2|].
      split; [apply (more_valid h0); assumption|]. unfold own. rewrite EZ, app_nil_r. apply more_view; assumption.
  - destruct H3 as (EZ & VN & RN). injection H as <- <-.
    assert (MM : more h (mkHeap (inner h) (outer h ++ [[new]]))) by (exists [], [[new]]; rewrite app_nil_r; split; reflexivity).
    split; [exact MM|]. cbn [h_attrs h_exts h_stage]. split; [exact H1|]. split; [exact H2|].
    assert (RO : readO (mkHeap (inner h) (outer h ++ [[new]])) (mkOS (List.length (outer h)) 0 1) = [new]).
    { unfold readO. cbn [v_arr v_off v_len outer]. rewrite app_nth2 by lia. rewrite Nat.sub_diag. reflexivity. }
    split.
    + intros a HA. apply in_app_or in HA. destruct HA as [HA|[<-|[]]].
      * apply (more_valid h0 _ attrs (more_trans _ _ _ M MM) H1 a HA).
      * cbn [t_value]. split.
        -- intros _. cbn [v_arr v_off v_len outer]. rewrite app_length, app_nth2 by lia. rewrite Nat.sub_diag. cbn. lia.
        -- intros s HS. rewrite RO in HS. destruct HS as [<-|[]]. exact VN.
    + rewrite map_app. unfold own. rewrite EZ. f_equal; [apply more_view; [apply (more_trans _ _ _ M MM)|exact H1]|].
      rewrite <- RN. cbn [map]. unfold view. cbn [t_type t_value]. rewrite RO. reflexivity.
  - destruct H3 as (VA & RA). injection H as <- <-. split; [apply more_refl|]. cbn [h_attrs h_exts h_stage]. split; [exact H1|]. split; [exact H2|exact RA].
  - discriminate H.
Qed.
(** Calls whose templates have no request attribute with a value, or none at all, are safe: whatever the
    schedule, a call that is finished has made of its template what it makes alone, and memory that was
    there is as it was. *)
Theorem C132_quiet : forall h ts turns ts' h', (forall t, In t ts -> h_stage t = Scan /\ valid h (h_attrs t) /\ no_request (h_attrs t)) ->
  sched spare turns ts h = (ts', h') ->
  more h h' /\ forall g t views, nth_error ts' g = Some t -> h_stage t = Made views ->
    exists t0, nth_error ts g = Some t0 /\ views = own h (h_attrs t0) (h_exts t0).
Proof.
  intros h ts turns ts' h' H E.
  pose (P := fun (us : list thread) k => more h k /\ (forall t, In t us -> quiet h k t) /\
     (forall g t, nth_error us g = Some t -> exists t0, nth_error ts g = Some t0 /\ h_attrs t0 = h_attrs t /\ h_exts t0 = h_exts t)).
  assert (I0 : P ts h).
  { split; [apply more_refl|]. split.
    - intros t HT. destruct (H t HT) as (A & B & C). unfold quiet. rewrite A. split; [exact B|]. split; [exact C|exact I].
    - intros g t HG. exists t. split; [exact HG|split; reflexivity]. }
  assert (IS : forall us k g t t' k', P us k -> nth_error us g = Some t -> step spare t k = Some (t', k') -> P (setNth g t' us) k').
  { intros us k g t t' k' (A & B & C) HG HS. pose proof (nth_error_In _ _ HG) as HI. destruct (quiet_step _ _ _ _ _ A (B t HI) HS) as [M Q].
    split; [exact (more_trans _ _ _ A M)|]. split.
    - intros u HU. apply set_in in HU. destruct HU as [->|HU]; [exact Q|]. apply (quiet_more _ k); [exact M|exact (B u HU)].
    - intros i u HU. rewrite set_get in HU. destruct (Nat.eqb_spec i g) as [->|NE]; [|exact (C i u HU)].
      rewrite HG in HU. assert (u = t') as -> by congruence. destruct (C g t HG) as (t0 & T1 & T2 & T3). exists t0. split; [exact T1|].
      assert (KA : h_attrs t' = h_attrs t /\ h_exts t' = h_exts t).
      { clear - HS. unfold step in HS. destruct (h_stage t).
        - destruct (0 <? zlen (h_exts t)); [destruct (find takes (h_attrs t))|]; injection HS as <- _; split; reflexivity.
        - destruct (readO k (t_value a)); injection HS as <- _; split; reflexivity.
        - destruct (appendI spare k s atvs); injection HS as <- _; split; reflexivity.
        - injection HS as <- _; split; reflexivity.
        - injection HS as <- _; split; reflexivity.
        - injection HS as <- _; split; reflexivity.
        - discriminate HS. }
      destruct KA as [-> ->]. split; assumption. }
  destruct (sched_inv spare P IS turns ts h ts' h' I0 E) as (A & B & C). split; [exact A|].
  intros g t views HG HM. destruct (C g t HG) as (t0 & T1 & T2 & T3). exists t0. split; [exact T1|]. rewrite T2, T3.
  destruct (B t (nth_error_In _ _ HG)) as (_ & _ & Q). rewrite HM in Q. exact Q.
Qed.
End Quiet.

(** * One template, any number of goroutines *)

(** Nothing else that is read through the attributes is in the cell of the value that is appended to, or in
    the free cells behind that value. *)
Definition unshared (h : heap) (attrs : list attr) : Prop :=
  forall pre a post s, first_request h pre a post s attrs ->
    (forall b, In b (pre ++ post) -> v_arr (t_value b) = v_arr (t_value a) ->
       ~ (v_off (t_value b) <= v_off (t_value a) < v_off (t_value b) + v_len (t_value b))%nat)
    /\ (forall b r, In b attrs -> In r (readO h (t_value b)) -> s_arr r = s_arr s ->
       (s_off r + s_len r <= s_off s + s_len s \/ s_off s + s_cap s <= s_off r)%nat).
(** The attributes with the extensions [x] appended [k] times to the first value of [a]. *)
Definition times (h : heap) (pre : list attr) (a : attr) (post : list attr) (s : islice) (x : list ATV) (k : nat) : list ATVSet :=
  map (view h) pre ++
  mkATVS (t_type a) ((readI h s ++ List.concat (repeat x k)) :: tl (map (readI h) (readO h (t_value a)))) :: map (view h) post.

Definition before (t : thread) : bool := match h_stage t with Scan | Read _ _ _ | Append _ _ _ => true | _ => false end.
Definition todo (ts : list thread) : nat := List.length (filter before ts).
Lemma todo_set : forall ts g t t', nth_error ts g = Some t ->
  (todo (setNth g t' ts) + (if before t then 1 else 0) = todo ts + (if before t' then 1 else 0))%nat.
Proof.
  unfold todo. induction ts as [|u ts IH]; intros [|g] t t' H; cbn [nth_error] in H; try discriminate H.
  - injection H as ->. cbn [setNth filter]. destruct (before t), (before t'); cbn [List.length]; lia.
  - cbn [setNth filter]. specialize (IH g t t' H). destruct (before u); cbn [List.length]; lia.
Qed.

Lemma nil_or {A} : forall l : list A, l = [] \/ (0 < List.length l)%nat.
Proof. intros [|x l]; [left; reflexivity|right; cbn; lia]. Qed.

Section Copies.
Variable spare : nat -> nat.
Variables (h0 : heap) (attrs pre post : list attr) (a : attr) (s0 : islice) (exts : list Extension).
Hypothesis HV : valid h0 attrs.
Hypothesis HF : first_request h0 pre a post s0 attrs.
Hypothesis HU : unshared h0 attrs.
Hypothesis HE : exts <> [].

Let X : list ATV := extensionATVs (map (view h0) attrs) exts.
Let old : list ATV := readI h0 s0.
Let copies (k : nat) : list ATV := old ++ List.concat (repeat X k).
Let va := v_arr (t_value a).
Let vo := v_off (t_value a).
Let len0 := List.length (inner h0).

Lemma found : find takes attrs = Some a.
Proof.
  destruct HF as (-> & F2 & F3 & F4 & _). clear - F2 F3 F4. induction pre as [|b p IH]; cbn [app find].
  - unfold takes. rewrite F3, oidEqual_refl. destruct (Nat.eqb_spec (v_len (t_value a)) 0) as [K|_]; [lia|]. reflexivity.
  - assert (takes b = false) as ->.
    { unfold takes. destruct (F2 b (or_introl eq_refl)) as [K|K].
      - destruct (oidEqual (t_type b) oidExtensionRequest) eqn:EO; [apply oidEqual_eq in EO; contradiction|reflexivity].
      - rewrite K. cbn. apply andb_false_r. }
    apply IH. intros c HC. apply F2. right. exact HC.
Qed.
Lemma a_in : In a attrs.
Proof. destruct HF as (-> & _). apply in_elt. Qed.
Lemma s0_in : In s0 (readO h0 (t_value a)).
Proof. destruct HF as (_ & _ & _ & F4 & F5). unfold readO. rewrite window_head by exact F4. unfold cellO in F5. rewrite F5. left. reflexivity. Qed.
Lemma s0_valid : validI h0 s0.
Proof. apply (HV a a_in), s0_in. Qed.
Lemma old_length : List.length old = s_len s0.
Proof. apply readI_length, s0_valid. Qed.
Lemma copies_length : forall k, List.length (copies k) = (s_len s0 + k * List.length X)%nat.
Proof.
  intros k. unfold copies. rewrite app_length, old_length. f_equal. induction k as [|k IH]; [reflexivity|]. cbn [repeat List.concat]. rewrite app_length, IH. reflexivity.
Qed.
Lemma concat_repeat_app : forall m k, List.concat (repeat X (m + k)) = List.concat (repeat X m) ++ List.concat (repeat X k).
Proof. intros m k. rewrite repeat_app. apply concat_app. Qed.
Lemma copies_next : forall k, copies k ++ X = copies (S k).
Proof.
  intros k. unfold copies. replace (S k) with (k + 1)%nat by lia. rewrite concat_repeat_app. cbn [repeat List.concat]. rewrite app_nil_r, app_assoc. reflexivity.
Qed.
Lemma copies_cell : forall k k' j, (k < k')%nat -> (j < List.length X)%nat ->
  nth_error (copies k') (s_len s0 + k * List.length X + j) = nth_error X j.
Proof.
  intros k k' j HK HJ.
  assert (E : copies k' = copies k ++ X ++ List.concat (repeat X (k' - k - 1))).
  { rewrite app_assoc, copies_next. unfold copies. rewrite <- app_assoc, <- concat_repeat_app. do 3 f_equal. lia. }
  rewrite E, nth_error_app2 by (rewrite copies_length; lia). rewrite copies_length, nth_error_app1 by lia. f_equal. lia.
Qed.

(** Where a value of the attribute can be. *)
Definition pos (s : islice) : Prop :=
  s_cap s = 0%nat \/ (s_arr s = s_arr s0 /\ s_off s = s_off s0 /\ s_cap s = s_cap s0 /\ (s_arr s0 < len0)%nat) \/ ((len0 <= s_arr s)%nat /\ s_off s = 0%nat).
Definition good (h : heap) (k : nat) (s : islice) : Prop := validI h s /\ pos s /\ readI h s = copies k.
Definition region (j i : nat) : Prop := j = s_arr s0 /\ (s_off s0 + s_len s0 <= i < s_off s0 + s_cap s0)%nat.
Definition kept (h : heap) : Prop :=
  (len0 <= List.length (inner h))%nat /\
  (forall j, (j < len0)%nat -> List.length (nth j (inner h) []) = List.length (nth j (inner h0) [])) /\
  (forall j i, (j < len0)%nat -> ~ region j i -> cellI h j i = cellI h0 j i) /\
  (forall j i, ~ (j = va /\ i = vo) -> cellO h j i = cellO h0 j i).

Lemma good_length : forall h k s, good h k s -> s_len s = (s_len s0 + k * List.length X)%nat.
Proof. intros h k s (V & _ & R). rewrite <- (readI_length h s V), R. apply copies_length. Qed.
Lemma good_first : good h0 0 s0.
Proof.
  split; [exact s0_valid|]. split; [|unfold copies; cbn; rewrite app_nil_r; reflexivity].
  unfold pos. destruct (s_cap s0) as [|n] eqn:EC; [left; reflexivity|]. right. left. rewrite <- EC. repeat split. apply s0_valid. lia.
Qed.
Lemma kept_first : kept h0.
Proof. split; [lia|]. split; [reflexivity|]. split; reflexivity. Qed.

(** A new array. *)
Lemma kept_alloc : forall h x, kept h -> kept (alloc h x).
Proof.
  intros h x (K1 & K2 & K3 & K4). unfold alloc. split; [cbn [inner]; rewrite app_length; lia|]. split; [|split].
  - intros j HJ. cbn [inner]. rewrite nth_new by lia. apply K2, HJ.
  - intros j i HJ HN. unfold cellI. cbn [inner]. rewrite nth_new by lia. apply K3; assumption.
  - exact K4.
Qed.
Lemma good_alloc : forall h x k s, good h k s -> good (alloc h x) k s.
Proof. intros h x k s (V & P & R). split; [apply validI_alloc, V|]. split; [exact P|]. rewrite readI_alloc by exact V. exact R. Qed.

Lemma append_nil : forall h s, validI h s -> appendI spare h s [] = (h, s).
Proof.
  intros h s [V1 V2]. unfold appendI. cbn [List.length]. rewrite Nat.add_0_r. destruct (Nat.leb_spec (s_len s) (s_cap s)); [|lia].
  rewrite writeAt_nil, setNth_same. destruct h as [hi ho], s as [ar o l c]. reflexivity.
Qed.
(** Appending the extensions to a value leaves all the values good. *)
Lemma append_good : forall h k s, kept h -> good h k s ->
  let '(h', s') := appendI spare h s X in
  kept h' /\ outer h' = outer h /\ good h' (S k) s' /\ forall k' r, good h k' r -> good h' k' r.
Proof.
  intros h k s HK HG. pose proof HG as (V & P & R).
  assert (LX : X = [] \/ (0 < List.length X)%nat) by apply nil_or.
  destruct LX as [LX|LX].
  { rewrite LX, append_nil by exact V. split; [exact HK|]. split; [reflexivity|]. split; [|auto].
    split; [exact V|]. split; [exact P|]. rewrite R. rewrite <- copies_next, LX. symmetry. apply app_nil_r. }
  pose proof (good_length h k s HG) as LS. pose proof (stored_slice spare h s X V LX) as SS.
  destruct (appendI spare h s X) as [h' s'] eqn:EA. cbn [fst snd] in SS. rewrite R, copies_next in SS.
  unfold appendI in EA. destruct (Nat.leb_spec (s_len s + List.length X) (s_cap s)) as [L|L].
  - injection EA as <- <-. destruct V as [V1 V2]. destruct V2 as [V2 V3]; [lia|].
    assert (LEN : forall j, List.length (nth j (setNth (s_arr s) (writeAt (nth (s_arr s) (inner h) []) (s_off s + s_len s) X) (inner h)) []) = List.length (nth j (inner h) [])).
    { intros j. rewrite setNth_nth. destruct (Nat.eqb_spec j (s_arr s)) as [->|NE]; [|reflexivity]. destruct (Nat.ltb_spec (s_arr s) (List.length (inner h))); [|reflexivity].
      cbn [andb]. unfold writeAt. rewrite !app_length, firstn_length, skipn_length. lia. }
    assert (CELL : forall j i, nth_error (nth j (setNth (s_arr s) (writeAt (nth (s_arr s) (inner h) []) (s_off s + s_len s) X) (inner h)) []) i =
       if (j =? s_arr s)%nat && ((s_off s + s_len s <=? i)%nat && (i <? s_off s + s_len s + List.length X)%nat) then nth_error X (i - (s_off s + s_len s)) else cellI h j i).
    { intros j i. rewrite setNth_nth. destruct (Nat.eqb_spec j (s_arr s)) as [->|NE]; [|reflexivity]. destruct (Nat.ltb_spec (s_arr s) (List.length (inner h))); [|lia].
      cbn [andb]. rewrite writeAt_cell by lia. reflexivity. }
    split; [|split; [reflexivity|split]].
    + destruct HK as (K1 & K2 & K3 & K4). split; [cbn [inner]; rewrite set_length; exact K1|]. split; [|split; [|exact K4]].
      * intros j HJ. cbn [inner]. rewrite LEN. apply K2, HJ.
      * intros j i HJ HN. unfold cellI at 1. cbn [inner]. rewrite CELL. destruct (Nat.eqb_spec j (s_arr s)) as [->|NE]; [|apply K3; assumption].
        destruct (Nat.leb_spec (s_off s + s_len s) i); [|apply K3; assumption]. destruct (Nat.ltb_spec i (s_off s + s_len s + List.length X)); [|apply K3; assumption].
        exfalso. apply HN. destruct P as [P|[(P1 & P2 & P3 & P4)|(P1 & _)]]; [lia| |lia]. split; [exact P1|]. lia.
    + split; [|split; [|exact SS]].
      * split; cbn [s_len s_cap s_arr s_off inner]; [lia|]. intros _. rewrite set_length, LEN. split; lia.
      * exact P.
    + intros k' r HG'. pose proof (good_length h k' r HG') as LR. destruct HG' as (W & PR & RR). split; [|split; [exact PR|]].
      * destruct W as [W1 W2]. split; [exact W1|]. intros Q. cbn [inner]. rewrite set_length, LEN. apply W2, Q.
      * rewrite <- RR. unfold readI. cbn [inner]. apply window_keeps. intros i HI. rewrite CELL.
        destruct (Nat.eqb_spec (s_arr r) (s_arr s)) as [EA|NE]; [|reflexivity].
        destruct (Nat.leb_spec (s_off s + s_len s) i) as [I1|]; [|reflexivity]. destruct (Nat.ltb_spec i (s_off s + s_len s + List.length X)) as [I2|]; [|reflexivity].
        cbn [andb]. assert (EO : s_off r = s_off s).
        { destruct W as [W1 _]. destruct P as [P|[(P1 & P2 & P3 & P4)|(P1 & P2)]]; [lia| |]; destruct PR as [Q|[(Q1 & Q2 & Q3 & Q4)|(Q1 & Q2)]]; lia. }
        assert (KK : (k < k')%nat). { destruct (Nat.lt_ge_cases k k') as [K|K]; [exact K|]. pose proof (Nat.mul_le_mono_r k' k (List.length X) K). lia. }
        assert (EC : cellI h (s_arr r) i = nth_error (readI h r) (i - s_off r)).
        { unfold readI. rewrite window_cell. destruct (Nat.ltb_spec (i - s_off r) (s_len r)); [|lia]. unfold cellI. f_equal. lia. }
        fold (cellI h (s_arr r) i). rewrite EC, RR. rewrite <- (copies_cell k k' (i - (s_off s + s_len s)) KK) by lia. f_equal. lia.
  - injection EA as <- <-. change (mkHeap (inner h ++ [readI h s ++ X ++ repeat zeroATV (spare (s_len s + List.length X))]) (outer h))
      with (alloc h (readI h s ++ X ++ repeat zeroATV (spare (s_len s + List.length X)))) in *.
    split; [apply kept_alloc, HK|]. split; [reflexivity|]. split; [|intros; apply good_alloc; assumption].
    split; [|split; [|exact SS]].
    + split; cbn [s_len s_cap s_arr s_off]; [lia|]. intros _. unfold alloc. cbn [inner]. rewrite app_length. cbn [List.length]. split; [lia|].
      rewrite app_nth2 by lia. rewrite Nat.sub_diag. cbn [nth]. rewrite !app_length, repeat_length, (readI_length h s V). lia.
    + right. right. cbn [s_arr s_off]. destruct HK as (K1 & _). split; [exact K1|reflexivity].
Qed.

(** What is read of the attributes. *)
Lemma views : forall h k s, kept h -> cellO h va vo = Some s -> good h k s -> map (view h) attrs = times h0 pre a post s0 X k.
Proof.
  intros h k s (K1 & K2 & K3 & K4) HC (V & P & R). destruct (HU pre a post s0 HF) as [U1 U2]. pose proof HF as (EQ & _ & _ & F4 & F5).
  assert (RI : forall b r, In b attrs -> In r (readO h0 (t_value b)) -> readI h r = readI h0 r).
  { intros b r HB HR. destruct (HV b HB) as [_ VB]. destruct (VB r HR) as [W1 W2]. unfold readI. apply window_keeps. intros i HI.
    destruct W2 as [W2 W3]; [lia|]. apply K3; [exact W2|]. intros [E1 E2]. destruct (U2 b r HB HR E1); lia. }
  assert (O : forall b, In b (pre ++ post) -> view h b = view h0 b).
  { intros b HB. assert (HB' : In b attrs). { rewrite EQ. apply in_app_or in HB. apply in_or_app. destruct HB; [left|right; right]; assumption. }
    unfold view. assert (RO : readO h (t_value b) = readO h0 (t_value b)).
    { unfold readO. apply window_keeps. intros i HI. apply K4. intros [E1 E2]. apply (U1 b HB E1). fold vo. lia. }
    rewrite RO. f_equal. apply map_ext_in. intros r HR. exact (RI b r HB' HR). }
  unfold times. rewrite EQ at 1. rewrite map_app. cbn [map]. f_equal; [apply map_ext_in; intros b HB; apply O, in_or_app; left; exact HB|].
  f_equal; [|apply map_ext_in; intros b HB; apply O, in_or_app; right; exact HB].
  unfold view. f_equal.
  assert (RT : forall x, readO x (t_value a) = match cellO x va vo with Some y => y :: window (S vo) (v_len (t_value a) - 1) (nth va (outer x) []) | None => [] end).
  { intros x. unfold readO. apply window_head. exact F4. }
  fold va vo in F5. rewrite (RT h), HC. cbn [map]. rewrite R. fold (copies k).
  pose proof (RT h0) as R0. rewrite F5 in R0. rewrite R0. cbn [map tl]. f_equal.
  assert (WK : window (S vo) (v_len (t_value a) - 1) (nth va (outer h) []) = window (S vo) (v_len (t_value a) - 1) (nth va (outer h0) [])).
  { apply window_keeps. intros i HI. apply K4. lia. }
  rewrite WK. apply map_ext_in. intros r HR. apply (RI a r a_in). rewrite R0. right. exact HR.
Qed.
Lemma times_none : times h0 pre a post s0 X 0 = map (view h0) attrs.
Proof. symmetry. destruct HF as (_ & _ & _ & _ & F5). apply (views h0 0 s0); [exact kept_first|exact F5|exact good_first]. Qed.

(** Once the extensions are there, none is missing. *)
Lemma in_specified : forall y sets, In y (specifiedExtensions sets) <->
  exists b v x, In b sets /\ as_type b = oidExtensionRequest /\ In v (as_value b) /\ In x v /\ y = atv_type x.
Proof.
  intros y sets. unfold specifiedExtensions. rewrite in_concat. split.
  - intros (l & HL & HY). apply in_map_iff in HL. destruct HL as (b & <- & HB). destruct (oidEqual (as_type b) oidExtensionRequest) eqn:EO; [|destruct HY].
    apply in_map_iff in HY. destruct HY as (x & <- & HX). apply in_concat in HX. destruct HX as (v & HV1 & HV2). apply oidEqual_eq in EO.
    exists b, v, x. auto.
  - intros (b & v & x & HB & HT & HV1 & HV2 & ->). eexists. split; [apply in_map_iff; exists b; split; [reflexivity|exact HB]|].
    rewrite HT, oidEqual_refl. apply in_map. apply in_concat. exists v. auto.
Qed.
Lemma existsb_oid : forall y l, existsb (oidEqual y) l = true <-> In y l.
Proof.
  intros y l. rewrite existsb_exists. split.
  - intros (z & HZ & HE1). apply oidEqual_eq in HE1. congruence.
  - intros H. exists y. split; [exact H|apply oidEqual_refl].
Qed.
Lemma none_missing : forall k, (1 <= k)%nat -> extensionATVs (times h0 pre a post s0 X k) exts = [].
Proof.
  intros k HK. unfold extensionATVs. destruct (filter _ exts) as [|e es] eqn:EF; [reflexivity|]. exfalso.
  assert (HI : In e (filter (fun e => negb (existsb (oidEqual (e_id e)) (specifiedExtensions (times h0 pre a post s0 X k)))) exts)) by (rewrite EF; left; reflexivity).
  apply filter_In in HI. destruct HI as [HI HN]. apply negb_true_iff in HN. apply Bool.not_true_iff_false in HN. apply HN. clear HN EF. apply existsb_oid, in_specified.
  pose proof HF as (_ & _ & F3 & _).
  destruct (existsb (oidEqual (e_id e)) (specifiedExtensions (map (view h0) attrs))) eqn:EB.
  - apply existsb_oid in EB. rewrite <- times_none in EB. apply in_specified in EB. destruct EB as (b & v & x & HB & HT & HV1 & HV2 & HY).
    unfold times in HB. apply in_app_or in HB. unfold times. destruct HB as [HB|[HB|HB]].
    + exists b, v, x. split; [apply in_or_app; left; exact HB|auto].
    + subst b. cbn [as_value as_type] in *. destruct HV1 as [HV1|HV1].
      * eexists _, _, x. split; [apply in_elt|]. cbn [as_value as_type]. split; [exact HT|]. split; [left; reflexivity|]. split; [|exact HY].
        subst v. cbn [repeat List.concat] in HV2. rewrite app_nil_r in HV2. apply in_or_app. left. exact HV2.
      * eexists _, v, x. split; [apply in_elt|]. cbn [as_value as_type]. split; [exact HT|]. split; [right; exact HV1|]. split; [exact HV2|exact HY].
    + exists b, v, x. split; [apply in_or_app; right; right; exact HB|auto].
  - assert (HX : In (mkATV (e_id e) (AnyBytes (e_value e))) X).
    { unfold X, extensionATVs. apply in_map_iff. exists e. split; [reflexivity|]. apply filter_In. rewrite EB. split; [exact HI|reflexivity]. }
    eexists _, _, (mkATV (e_id e) (AnyBytes (e_value e))). split; [unfold times; apply in_elt|]. cbn [as_value as_type]. split; [exact F3|]. split; [left; reflexivity|].
    split; [|reflexivity]. apply in_or_app. right. destruct k as [|k]; [lia|]. cbn [repeat List.concat]. apply in_or_app. left. exact HX.
Qed.

(** The invariant. *)
Definition fine (h : heap) (n m k : nat) (t : thread) : Prop :=
  h_attrs t = attrs /\ h_exts t = exts /\
  match h_stage t with
  | Scan => True
  | Read b atvs _ => b = a /\ (atvs = X \/ (atvs = [] /\ (1 <= k)%nat))
  | Append b atvs s => b = a /\ exists j, (j <= m)%nat /\ good h j s /\ (atvs = X \/ (atvs = [] /\ (1 <= j)%nat))
  | Store b s => b = a /\ exists j, (1 <= j <= m)%nat /\ good h j s
  | New _ => False
  | Look l => l = attrs /\ (1 <= k)%nat
  | Made v => exists j, (1 <= j <= n)%nat /\ v = times h0 pre a post s0 X j
  end.
Definition inv (n : nat) (ts : list thread) (h : heap) : Prop :=
  exists m k s, kept h /\ cellO h va vo = Some s /\ good h k s /\ (k <= m)%nat /\ (m + todo ts <= n)%nat /\ forall t, In t ts -> fine h n m k t.
Lemma fine_mono : forall h h' n m m' k k' t, (forall j s, good h j s -> good h' j s) -> (m <= m')%nat -> ((1 <= k)%nat -> (1 <= k')%nat) -> fine h n m k t -> fine h' n m' k' t.
Proof.
  intros h h' n m m' k k' t HG HM HK (A & B & C). split; [exact A|]. split; [exact B|]. destruct (h_stage t) as [|b atvs new|b atvs s|b s|new|l|v]; try exact C.
  - destruct C as (C1 & C2). split; [exact C1|]. destruct C2 as [C2|[C2 C3]]; [left; exact C2|right; auto].
  - destruct C as (C1 & j & C2 & C3 & C4). split; [exact C1|]. exists j. split; [lia|]. split; [apply HG, C3|exact C4].
  - destruct C as (C1 & j & C2 & C3). split; [exact C1|]. exists j. split; [lia|apply HG, C3].
  - destruct C as (C1 & C2). split; auto.
Qed.
Lemma inv_step : forall n ts h g t t' h', inv n ts h -> nth_error ts g = Some t -> step spare t h = Some (t', h') -> inv n (setNth g t' ts) h'.
Proof.
  intros n ts h g [ats es st] t' h' (m & k & s & K & HC & HG & HM & HT & HA) EG ES.
  pose proof (HA _ (nth_error_In _ _ EG)) as (A1 & A2 & A3). cbn [h_attrs h_exts h_stage] in A1, A2, A3. subst ats es.
  pose proof (todo_set ts g _ t' EG) as TD. unfold before in TD at 1. cbn [h_stage] in TD.
  unfold step in ES. cbn [h_attrs h_exts h_stage] in ES. cbv zeta in ES.
  assert (REST : forall h2 m2 k2, (forall j r, good h j r -> good h2 j r) -> (m <= m2)%nat -> ((1 <= k)%nat -> (1 <= k2)%nat) -> fine h2 n m2 k2 t' ->
    forall u, In u (setNth g t' ts) -> fine h2 n m2 k2 u).
  { intros h2 m2 k2 G1 G2 G3 G4 u HU'. apply set_in in HU'. destruct HU' as [->|HU']; [exact G4|]. apply (fine_mono h h2 n m m2 k k2 u G1 G2 G3). apply HA, HU'. }
  destruct st as [|b atvs new|b atvs sl|b sl|new|l|v].
  - rewrite found in ES. destruct (0 <? zlen exts) eqn:EZ.
    2:{ exfalso. destruct (nil_or exts) as [Q|Q]; [exact (HE Q)|]. unfold zlen in EZ. apply Z.ltb_ge in EZ. lia. }
    rewrite (views h k s K HC HG) in ES. injection ES as <- <-.
    match goal with |- context[mkHeap (inner h ++ [?x]) (outer h)] => change (mkHeap (inner h ++ [x]) (outer h)) with (alloc h x); set (y := x) end.
    exists m, k, s. split; [apply kept_alloc, K|]. split; [exact HC|]. split; [apply good_alloc, HG|]. split; [exact HM|]. unfold before in TD. cbn [h_stage] in TD. split; [lia|].
    apply REST; [intros; apply good_alloc; assumption|lia|auto|]. split; [reflexivity|]. split; [reflexivity|]. cbn [h_stage]. split; [reflexivity|].
    destruct k as [|k]; [left; rewrite times_none; reflexivity|]. right. split; [apply none_missing; lia|lia].
  - destruct A3 as (-> & A3).
    assert (RO : readO h (t_value a) = s :: window (S vo) (v_len (t_value a) - 1) (nth va (outer h) [])).
    { pose proof HF as (_ & _ & _ & F4 & _). unfold readO. rewrite window_head by exact F4. unfold cellO, va, vo in HC. rewrite HC. reflexivity. }
    rewrite RO in ES. injection ES as <- <-. exists m, k, s. split; [exact K|]. split; [exact HC|]. split; [exact HG|]. split; [exact HM|]. unfold before in TD. cbn [h_stage] in TD. split; [lia|].
    apply REST; [auto|lia|auto|]. split; [reflexivity|]. split; [reflexivity|]. cbn [h_stage]. split; [reflexivity|]. exists k. split; [exact HM|]. split; [exact HG|exact A3].
  - destruct A3 as (-> & j & J1 & J2 & J3). destruct J3 as [->|[-> J3]].
    + pose proof (append_good h j sl K J2) as AG. destruct (appendI spare h sl X) as [h1 s1]. destruct AG as (AG1 & AG2 & AG3 & AG4). injection ES as <- <-.
      exists (S m), k, s. split; [exact AG1|]. split; [unfold cellO; rewrite AG2; exact HC|]. split; [apply AG4, HG|]. split; [lia|]. unfold before in TD. cbn [h_stage] in TD. split; [lia|].
      apply REST; [exact AG4|lia|auto|]. split; [reflexivity|]. split; [reflexivity|]. cbn [h_stage]. split; [reflexivity|]. exists (S j). split; [lia|exact AG3].
    + rewrite append_nil in ES by apply J2. injection ES as <- <-. exists m, k, s. split; [exact K|]. split; [exact HC|]. split; [exact HG|]. split; [exact HM|]. unfold before in TD. cbn [h_stage] in TD. split; [lia|].
      apply REST; [auto|lia|auto|]. split; [reflexivity|]. split; [reflexivity|]. cbn [h_stage]. split; [reflexivity|]. exists j. split; [lia|exact J2].
  - destruct A3 as (-> & j & J1 & J2). injection ES as <- <-. fold va vo.
    assert (IN : forall x r, good h x r -> good (mkHeap (inner h) (setNth va (writeAt (nth va (outer h) []) vo [sl]) (outer h))) x r) by (intros x r Q; exact Q).
    assert (VL : (va < List.length (outer h))%nat /\ (vo < List.length (nth va (outer h) []))%nat).
    { unfold cellO in HC. assert (Q : nth_error (nth va (outer h) []) vo <> None) by congruence. apply nth_error_Some in Q. split; [|exact Q].
      destruct (Nat.lt_ge_cases va (List.length (outer h))) as [L|L]; [exact L|]. rewrite nth_overflow in Q by exact L. cbn in Q. lia. }
    assert (CE : forall x i, cellO (mkHeap (inner h) (setNth va (writeAt (nth va (outer h) []) vo [sl]) (outer h))) x i = if (x =? va)%nat && (i =? vo)%nat then Some sl else cellO h x i).
    { intros x i. unfold cellO. cbn [outer]. rewrite setNth_nth. destruct (Nat.eqb_spec x va) as [->|NE]; [|reflexivity].
      destruct (Nat.ltb_spec va (List.length (outer h))); [|lia]. cbn [andb]. rewrite writeAt_cell by (cbn; lia). cbn [List.length].
      destruct (Nat.eqb_spec i vo) as [->|NI].
      - destruct (Nat.leb_spec vo vo); [|lia]. destruct (Nat.ltb_spec vo (vo + 1)); [|lia]. cbn [andb]. rewrite Nat.sub_diag. reflexivity.
      - destruct (Nat.leb_spec vo i); [|reflexivity]. destruct (Nat.ltb_spec i (vo + 1)); [lia|reflexivity]. }
    exists m, j, sl. split; [|split; [|split; [exact J2|]]].
    + destruct K as (K1 & K2 & K3 & K4). split; [exact K1|]. split; [exact K2|]. split; [exact K3|]. intros x i NE. rewrite CE.
      destruct (Nat.eqb_spec x va) as [E1|]; [|apply K4, NE]. destruct (Nat.eqb_spec i vo) as [E2|]; [|apply K4, NE]. exfalso. apply NE. split; assumption.
    + rewrite CE, !Nat.eqb_refl. reflexivity.
    + split; [lia|]. unfold before in TD. cbn [h_stage] in TD. split; [lia|].
      apply REST; [exact IN|lia|lia|]. split; [reflexivity|]. split; [reflexivity|]. cbn [h_stage]. split; [reflexivity|lia].
  - destruct A3.
  - destruct A3 as (-> & A3). injection ES as <- <-. exists m, k, s. split; [exact K|]. split; [exact HC|]. split; [exact HG|]. split; [exact HM|]. unfold before in TD. cbn [h_stage] in TD. split; [lia|].
    apply REST; [auto|lia|auto|]. split; [reflexivity|]. split; [reflexivity|]. cbn [h_stage]. exists k. split; [lia|]. exact (views h k s K HC HG).
  - discriminate ES.
Qed.
Lemma inv_start : forall n, inv n (repeat (mkTh attrs exts Scan) n) h0.
Proof.
  intros n. destruct HF as (_ & _ & _ & _ & F5). exists 0%nat, 0%nat, s0. split; [exact kept_first|]. split; [exact F5|]. split; [exact good_first|]. split; [lia|]. split.
  - unfold todo. pose proof (filter_le before (repeat (mkTh attrs exts Scan) n)) as L. rewrite repeat_length in L. lia.
  - intros t HT. apply repeat_spec in HT. subst t. split; [reflexivity|]. split; [reflexivity|]. exact I.
Qed.
End Copies.

(** [n] goroutines that make requests from one template with a request attribute: whatever the schedule, each that
    gets as far as writing its request writes the missing extensions at least once and at most [n] times. *)
Theorem C132_times : forall spare h attrs pre a post s exts n turns ts' h', valid h attrs -> first_request h pre a post s attrs -> unshared h attrs -> exts <> [] ->
  sched spare turns (repeat (mkTh attrs exts Scan) n) h = (ts', h') ->
  forall t views, In t ts' -> h_stage t = Made views ->
  exists k, (1 <= k <= n)%nat /\ views = times h pre a post s (extensionATVs (map (view h) attrs) exts) k.
Proof.
  intros spare h attrs pre a post s exts n turns ts' h' HV HF HU HE E t views HT HM.
  destruct (sched_inv spare (inv h attrs pre post a s exts n) (inv_step spare h attrs pre post a s exts HV HF HU HE n) turns _ _ _ _ (inv_start h attrs pre post a s exts HV HF HU n) E)
    as (m & k & s' & _ & _ & _ & _ & _ & HA).
  destruct (HA t HT) as (_ & _ & Q). rewrite HM in Q. exact Q.
Qed.
(** A template that has all its extensions in the attribute already can be shared. *)
Corollary C132_settled : forall spare h attrs pre a post s exts n turns ts' h', valid h attrs -> first_request h pre a post s attrs -> unshared h attrs -> exts <> [] ->
  extensionATVs (map (view h) attrs) exts = [] ->
  sched spare turns (repeat (mkTh attrs exts Scan) n) h = (ts', h') ->
  forall t views, In t ts' -> h_stage t = Made views -> views = map (view h) attrs.
Proof.
  intros spare h attrs pre a post s exts n turns ts' h' HV HF HU HE HX E t views HT HM.
  destruct (C132_times spare h attrs pre a post s exts n turns ts' h' HV HF HU HE E t views HT HM) as (k & _ & ->).
  pose proof (times_none h attrs pre post a s exts HV HF HU) as TN. rewrite HX in *. rewrite <- TN. unfold times. do 4 f_equal.
  assert (R : forall j, List.concat (repeat (@nil ATV) j) = []) by (induction j as [|j IH]; [reflexivity|exact IH]). rewrite R. reflexivity.
Qed.

(** * Examples *)
Definition conc_h : heap := mkHeap [[mem_atv 3; zeroATV; zeroATV; zeroATV]] [[mkIS 0 0 1 4]].
Definition conc_exts : list Extension := [mkExt [1; 2; 9] false [5]].
Example C132_ex_hyps : valid conc_h mem_attrs /\ first_request conc_h [] (mkAttr oidExtensionRequest (mkOS 0 0 1)) [] (mkIS 0 0 1 4) mem_attrs /\
  unshared conc_h mem_attrs /\ conc_exts <> [] /\ extensionATVs (map (view conc_h) mem_attrs) conc_exts = [mkATV [1; 2; 9] (AnyBytes [5])] /\
  extensionATVs (map (view conc_h) mem_attrs) [mkExt [1; 2; 3] true [6]] = [].
Proof.
  split; [|split; [|split; [|split; [discriminate|split; reflexivity]]]].
  - intros a [<-|[]]. split; [intros _; cbn; lia|]. intros s [<-|[]]. split; [cbn; lia|]. intros _. cbn. lia.
  - split; [reflexivity|]. split; [intros b []|]. split; [reflexivity|]. split; [cbn; lia|reflexivity].
  - intros pre a post s (F1 & F2 & F3 & F4 & F5). unfold mem_attrs in F1. apply mem_one in F1. destruct F1 as (-> & -> & ->).
    cbn in F5. assert (s = mkIS 0 0 1 4) as -> by congruence. split; [intros b []|]. intros b r [<-|[]] [<-|[]] _. left. cbn. lia.
Qed.
Example C132_ex_quiet : forall t, In t [mkTh [] conc_exts Scan; mkTh [mkAttr [1; 2] (mkOS 0 0 1)] conc_exts Scan] ->
  h_stage t = Scan /\ valid conc_h (h_attrs t) /\ no_request (h_attrs t).
Proof.
  intros t [<-|[<-|[]]]; (split; [reflexivity|]).
  - split; [intros a []|intros a []].
  - split.
    + intros a [<-|[]]. split; [intros _; cbn; lia|]. intros s [<-|[]]. split; [cbn; lia|]. intros _. cbn. lia.
    + intros a [<-|[]]. left. discriminate.
Qed.
(** It is false that calls at the same time write what calls one after the other write: two that both look
    for missing extensions before either has stored them ask for each extension twice. The memory of the
    template and the attributes are as in the example above; the requests can be written, and the parser reads the extension twice. *)
Definition conc_made (turns : list nat) : list (option (list ATVSet)) :=
  map (fun t => match h_stage t with Made v => Some v | _ => None end) (fst (sched (fun n => n) turns (repeat (mkTh mem_attrs conc_exts Scan) 2) conc_h)).
Theorem C132_order_refuted : exists turns turns' once twice raws parsed e,
  conc_made turns = [Some once; Some once] /\ conc_made turns' = [Some twice; Some twice] /\
  newRawAttributes twice = OK raws /\ parseCSRExtensions raws = OK parsed /\
  filter (fun x => oidEqual (e_id x) [1; 2; 9]) parsed = [e; e] /\
  (exists raws1 parsed1, newRawAttributes once = OK raws1 /\ parseCSRExtensions raws1 = OK parsed1 /\ filter (fun x => oidEqual (e_id x) [1; 2; 9]) parsed1 = [e]).
Proof.
  exists [0; 0; 0; 0; 0; 1; 1; 1; 1; 1]%nat, [0; 1; 0; 0; 0; 1; 1; 1; 0; 1]%nat. do 5 eexists.
  split; [vm_compute; reflexivity|]. split; [vm_compute; reflexivity|]. split; [vm_compute; reflexivity|]. split; [vm_compute; reflexivity|]. split; [vm_compute; reflexivity|].
  do 2 eexists. split; [vm_compute; reflexivity|]. split; [vm_compute; reflexivity|]. vm_compute. reflexivity.
Qed.
(** Three goroutines, and what a schedule can leave behind: one, two and three copies. *)
Example C132_ex_three : 
  map (fun t => match h_stage t with Made v => map (fun x => map (fun y => List.length y) (as_value x)) v | _ => [] end)
    (fst (sched (fun n => n) [0; 1; 2; 0; 0; 0; 0; 1; 1; 1; 1; 2; 2; 2; 2]%nat (repeat (mkTh mem_attrs conc_exts Scan) 3) conc_h)) = [[[2]]; [[3]]; [[4]]]%nat.
Proof. vm_compute. reflexivity. Qed.
