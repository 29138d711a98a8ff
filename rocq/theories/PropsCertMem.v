(** What creating a certificate request does to the caller's memory (C109). *)
From Coq Require Import ZArith List Lia Bool String.
From Verif Require Import GoBase GoAsn1 GoElliptic Sm2 Sm2Der GoText GoPkix CertText Cert CertMem PropsCertText PropsSm2 PropsCertDN PropsCertNames PropsCert PropsCertReq.
Import ListNotations.
Open Scope Z_scope.

(** * Lists by their cells *)
Lemma cells_eq {A} : forall l m : list A, (forall i, nth_error l i = nth_error m i) -> l = m.
Proof.
  induction l as [|x l IH]; destruct m as [|y m]; intros H; [reflexivity| | |].
  - specialize (H O). discriminate H.
  - specialize (H O). discriminate H.
  - pose proof (H O) as H0. cbn in H0. assert (x = y) as -> by congruence. f_equal. apply IH. intros i. exact (H (S i)).
Qed.
Lemma nth_error_skipn' {A} : forall n i (l : list A), nth_error (skipn n l) i = nth_error l (n + i).
Proof. induction n as [|n IH]; intros i l; [reflexivity|]. destruct l as [|x l]; [now destruct i|]. exact (IH i l). Qed.
Lemma nth_error_firstn' {A} : forall n i (l : list A), nth_error (firstn n l) i = if (i <? n)%nat then nth_error l i else None.
Proof.
  induction n as [|n IH]; intros i l; [now destruct i|]. destruct l as [|x l]; [destruct i as [|i]; [reflexivity|]; cbn [firstn nth_error]; now destruct (S i <? S n)%nat|].
  destruct i as [|i]; [reflexivity|]. cbn [firstn nth_error]. rewrite IH. reflexivity.
Qed.
Lemma window_cell {A} : forall off len i (l : list A), nth_error (window off len l) i = if (i <? len)%nat then nth_error l (off + i) else None.
Proof. intros. unfold window. rewrite nth_error_firstn'. destruct (i <? len)%nat; [apply nth_error_skipn'|reflexivity]. Qed.
Lemma writeAt_cell {A} : forall (l : list A) o xs i, (o + List.length xs <= List.length l)%nat ->
  nth_error (writeAt l o xs) i = if (o <=? i)%nat && (i <? o + List.length xs)%nat then nth_error xs (i - o) else nth_error l i.
Proof.
  intros l o xs i H. unfold writeAt.
  assert (LF : List.length (firstn o l) = o) by (rewrite firstn_length; lia).
  destruct (Nat.leb_spec o i) as [L|L]; cbn [andb].
  - rewrite nth_error_app2 by (rewrite LF; exact L). rewrite LF.
    destruct (Nat.ltb_spec i (o + List.length xs)) as [M|M].
    + apply nth_error_app1. lia.
    + rewrite nth_error_app2 by lia. rewrite nth_error_skipn'. f_equal. lia.
  - rewrite nth_error_app1 by (rewrite LF; exact L). rewrite nth_error_firstn'. destruct (Nat.ltb_spec i o); [reflexivity|lia].
Qed.
Lemma writeAt_length {A} : forall (l : list A) o xs, (o + List.length xs <= List.length l)%nat -> List.length (writeAt l o xs) = List.length l.
Proof. intros l o xs H. unfold writeAt. rewrite !app_length, firstn_length, skipn_length. lia. Qed.
Lemma setNth_length {A} : forall n (x : A) l, List.length (setNth n x l) = List.length l.
Proof. induction n as [|n IH]; destruct l as [|y l]; cbn; [reflexivity|reflexivity|reflexivity|now rewrite IH]. Qed.
Lemma setNth_nth {A} : forall n (x : A) l i d, nth i (setNth n x l) d = if (i =? n)%nat && (i <? List.length l)%nat then x else nth i l d.
Proof.
  induction n as [|n IH]; destruct l as [|y l]; intros i d; cbn [setNth List.length]; destruct i as [|i]; cbn [nth Nat.eqb]; try reflexivity.
  - now rewrite Bool.andb_false_r.
  - rewrite IH. reflexivity.
Qed.
Lemma nth_new {A} : forall (l : list A) x i d, (i < List.length l)%nat -> nth i (l ++ [x]) d = nth i l d.
Proof. intros. now apply app_nth1. Qed.
Lemma window_zero {A} : forall off (l : list A), window off 0 l = [].
Proof. reflexivity. Qed.
Lemma window_keeps {A} : forall off len (l m : list A), (forall i, (off <= i < off + len)%nat -> nth_error l i = nth_error m i) -> window off len l = window off len m.
Proof.
  intros off len l m H. apply cells_eq. intros i. rewrite !window_cell. destruct (Nat.ltb_spec i len); [|reflexivity]. apply H. lia.
Qed.

(** * The specification: memory cells, and who can read them *)
(** Cell [i] of array [a]. *)
Definition cellI (h : heap) (a i : nat) : option ATV := nth_error (nth a (inner h) []) i.
Definition cellO (h : heap) (a i : nat) : option islice := nth_error (nth a (outer h) []) i.
(** Slices lie in arrays that exist; empty ones need not. *)
Definition validI (h : heap) (s : islice) : Prop :=
  (s_len s <= s_cap s)%nat /\ (0 < s_cap s -> s_arr s < List.length (inner h) /\ s_off s + s_cap s <= List.length (nth (s_arr s) (inner h) []))%nat.
Definition validO (h : heap) (v : oslice) : Prop :=
  (0 < v_len v -> v_arr v < List.length (outer h) /\ v_off v + v_len v <= List.length (nth (v_arr v) (outer h) []))%nat.
Definition valid (h : heap) (attrs : list attr) : Prop :=
  forall a, In a attrs -> validO h (t_value a) /\ forall s, In s (readO h (t_value a)) -> validI h s.
(** The first attribute of the type "extension request" that has a value, and its first value. *)
Definition first_request (h : heap) (pre : list attr) (a : attr) (post : list attr) (s : islice) (attrs : list attr) : Prop :=
  attrs = pre ++ a :: post
  /\ (forall b, In b pre -> t_type b <> oidExtensionRequest \/ v_len (t_value b) = O)
  /\ t_type a = oidExtensionRequest /\ (0 < v_len (t_value a))%nat /\ cellO h (v_arr (t_value a)) (v_off (t_value a)) = Some s.
(** No other attribute is read from the cell that this value is in, and nothing that is read is in the
    [k] cells after it. *)
Definition private (h : heap) (attrs : list attr) (k : nat) : Prop :=
  forall pre a post s, first_request h pre a post s attrs -> (0 < k)%nat ->
    (forall b, In b (pre ++ post) -> v_arr (t_value b) = v_arr (t_value a) ->
       ~ (v_off (t_value b) <= v_off (t_value a) < v_off (t_value b) + v_len (t_value b))%nat)
    /\ (forall b r, In b attrs -> In r (readO h (t_value b)) -> s_arr r = s_arr s ->
       (s_off r + s_len r <= s_off s + s_len s \/ s_off s + s_len s + k <= s_off r)%nat).

(** * Reading after writing *)
Lemma window_length {A} : forall off len (l : list A), (off + len <= List.length l)%nat -> List.length (window off len l) = len.
Proof. intros. unfold window. rewrite firstn_length, skipn_length. lia. Qed.
Lemma readI_length : forall h s, validI h s -> List.length (readI h s) = s_len s.
Proof.
  intros h s [H1 H2]. unfold readI. destruct (s_len s) as [|n] eqn:EL; [reflexivity|]. rewrite <- EL. apply window_length.
  destruct H2 as [_ H2]; lia.
Qed.
Lemma window_head {A} : forall off len (l : list A), (0 < len)%nat -> window off len l = match nth_error l off with Some x => x :: window (S off) (len - 1) l | None => [] end.
Proof.
  intros off len l H. destruct (nth_error l off) as [x|] eqn:E.
  - apply cells_eq. intros i. rewrite window_cell. destruct i as [|i]; cbn [nth_error].
    + destruct (Nat.ltb_spec 0 len); [|lia]. now rewrite Nat.add_0_r.
    + rewrite window_cell. destruct (Nat.ltb_spec (S i) len), (Nat.ltb_spec i (len - 1)); try lia; [|reflexivity]. f_equal. lia.
  - apply nth_error_None in E. unfold window. now rewrite skipn_all2, firstn_nil by exact E.
Qed.
Lemma writeAt_nil {A} : forall (l : list A) o, writeAt l o [] = l.
Proof. intros. unfold writeAt. cbn [app List.length]. rewrite Nat.add_0_r. apply firstn_skipn. Qed.
Lemma setNth_same {A} : forall (l : list A) n d, setNth n (nth n l d) l = l.
Proof. induction l as [|x l IH]; destruct n; intros d; cbn; [reflexivity..|now rewrite IH]. Qed.
Lemma writeAt_same {A} : forall (l : list A) o x, nth_error l o = Some x -> writeAt l o [x] = l.
Proof.
  intros l o x H. assert (L : (o < List.length l)%nat) by (apply nth_error_Some; congruence).
  apply cells_eq. intros i. rewrite writeAt_cell by (cbn; lia). cbn [List.length].
  destruct (Nat.leb_spec o i), (Nat.ltb_spec i (o + 1)); cbn [andb]; try reflexivity.
  assert (i = o) as -> by lia. rewrite Nat.sub_diag. now rewrite H.
Qed.
Lemma window_write_after {A} : forall (l xs : list A) off len, (off + len + List.length xs <= List.length l)%nat ->
  window off (len + List.length xs) (writeAt l (off + len) xs) = window off len l ++ xs.
Proof.
  intros l xs off len H. apply cells_eq. intros i. rewrite window_cell, writeAt_cell by lia.
  assert (LW : List.length (window off len l) = len) by (apply window_length; lia).
  destruct (Nat.ltb_spec i len) as [L|L].
  - rewrite nth_error_app1 by lia. rewrite window_cell. destruct (Nat.ltb_spec i len); [|lia]. destruct (Nat.ltb_spec i (len + List.length xs)); [|lia].
    destruct (Nat.leb_spec (off + len) (off + i)); [lia|]. reflexivity.
  - rewrite nth_error_app2 by lia. rewrite LW. destruct (Nat.ltb_spec i (len + List.length xs)) as [M|M].
    + destruct (Nat.leb_spec (off + len) (off + i)); [|lia]. destruct (Nat.ltb_spec (off + i) (off + len + List.length xs)); [|lia]. cbn [andb]. f_equal. lia.
    + symmetry. apply nth_error_None. lia.
Qed.

Section Env.
Variable spare : nat -> nat.

(** Allocating an array of attributes. *)
Definition alloc (h : heap) (x : list ATV) : heap := mkHeap (inner h ++ [x]) (outer h).
Lemma readI_alloc : forall h x s, validI h s -> readI (alloc h x) s = readI h s.
Proof.
  intros h x s [H1 H2]. unfold readI, alloc. cbn [inner]. destruct (s_len s) as [|n] eqn:EL; [reflexivity|]. rewrite <- EL, nth_new; [reflexivity|].
  apply H2. lia.
Qed.
Lemma validI_alloc : forall h x s, validI h s -> validI (alloc h x) s.
Proof.
  intros h x s [H1 H2]. split; [exact H1|]. intros P. destruct (H2 P) as [H3 H4]. unfold alloc. cbn [inner]. rewrite app_length, nth_new by exact H3. cbn. lia.
Qed.
Lemma valid_alloc : forall h x attrs, valid h attrs -> valid (alloc h x) attrs.
Proof. intros h x attrs H a HA. destruct (H a HA) as [H1 H2]. split; [exact H1|]. intros s HS. apply validI_alloc. exact (H2 s HS). Qed.
Lemma view_alloc : forall h x attrs, valid h attrs -> map (view (alloc h x)) attrs = map (view h) attrs.
Proof.
  intros h x attrs H. apply map_ext_in. intros a HA. destruct (H a HA) as [_ H2]. unfold view. f_equal. change (readO (alloc h x) (t_value a)) with (readO h (t_value a)).
  apply map_ext_in. intros s HS. apply readI_alloc. exact (H2 s HS).
Qed.

(** What the loop does, in terms of the first request attribute. *)
Definition stored (h : heap) (a : attr) (s : islice) (atvs : list ATV) : heap :=
  let '(h, s) := appendI spare h s atvs in
  mkHeap (inner h) (setNth (v_arr (t_value a)) (writeAt (nth (v_arr (t_value a)) (outer h) []) (v_off (t_value a)) [s]) (outer h)).
Definition skipped (b : attr) : Prop := t_type b <> oidExtensionRequest \/ v_len (t_value b) = O.
Lemma loop_cases : forall h atvs attrs, valid h attrs ->
  (exists pre a post s, first_request h pre a post s attrs /\ appendLoop spare h atvs attrs = Some (stored h a s atvs))
  \/ (Forall skipped attrs /\ appendLoop spare h atvs attrs = None).
Proof.
  intros h atvs. induction attrs as [|a attrs IH]; intros HV; [right; split; [constructor|reflexivity]|].
  assert (HV' : valid h attrs) by (intros b HB; apply HV; now right).
  cbn [appendLoop].
  destruct (negb (oidEqual (t_type a) oidExtensionRequest) || (v_len (t_value a) =? 0)%nat) eqn:EC.
  - assert (SK : skipped a).
    { apply Bool.orb_true_iff in EC. destruct EC as [EC|EC].
      - left. intros E. rewrite E in EC. vm_compute in EC. discriminate EC.
      - right. now apply Nat.eqb_eq. }
    destruct (IH HV') as [(pre & b & post & s & (F1 & F2 & F3) & F)|(F1 & F)].
    + left. exists (a :: pre), b, post, s. split; [|exact F]. split; [now rewrite F1|]. split; [|exact F3].
      intros c [<-|HC]; [exact SK|now apply F2].
    + right. split; [constructor; assumption|exact F].
  - apply Bool.orb_false_iff in EC. destruct EC as [E1 E2]. apply Bool.negb_false_iff in E1. apply oidEqual_eq in E1. apply Nat.eqb_neq in E2.
    left. destruct (HV a (or_introl eq_refl)) as [V1 V2].
    unfold readO. rewrite window_head by lia. destruct (nth_error (nth (v_arr (t_value a)) (outer h) []) (v_off (t_value a))) as [s|] eqn:EN.
    + exists [], a, attrs, s. split.
      * split; [reflexivity|]. split; [intros b []|]. split; [exact E1|]. split; [lia|exact EN].
      * unfold stored. destruct (appendI spare h s atvs) as [h1 s1]. reflexivity.
    + exfalso. apply nth_error_None in EN. destruct V1; lia.
Qed.

(** Appending nothing changes nothing. *)
Lemma stored_nothing : forall h a s, validI h s -> cellO h (v_arr (t_value a)) (v_off (t_value a)) = Some s -> stored h a s [] = h.
Proof.
  intros h a s [V1 V2] HC. unfold stored, appendI. cbn [List.length]. rewrite Nat.add_0_r.
  destruct (Nat.leb_spec (s_len s) (s_cap s)); [|lia]. cbn [inner outer].
  rewrite writeAt_nil, setNth_same. destruct s as [ar o l c]. cbn [s_arr s_off s_len s_cap] in *.
  unfold cellO in HC. rewrite (writeAt_same _ _ _ HC), setNth_same. now destruct h.
Qed.
(** The slice that is stored. *)
Lemma stored_slice : forall h s atvs, validI h s -> (0 < List.length atvs)%nat ->
  readI (fst (appendI spare h s atvs)) (snd (appendI spare h s atvs)) = readI h s ++ atvs.
Proof.
  intros h s atvs HV P. pose proof (readI_length h s HV) as RL. destruct HV as [V1 V2]. unfold appendI.
  destruct (Nat.leb_spec (s_len s + List.length atvs) (s_cap s)) as [L|L]; cbn [fst snd]; unfold readI; cbn [inner s_arr s_off s_len].
  - destruct V2 as [V2 V3]; [lia|]. rewrite setNth_nth, Nat.eqb_refl. destruct (Nat.ltb_spec (s_arr s) (List.length (inner h))); [|lia]. cbn [andb].
    apply window_write_after. lia.
  - rewrite app_nth2, Nat.sub_diag by lia. cbn [nth]. fold (readI h s).
    unfold window. cbn [skipn]. rewrite app_assoc. rewrite firstn_app, app_length, RL, Nat.sub_diag, firstn_O, app_nil_r. apply firstn_all2. rewrite app_length. lia.
Qed.
(** A slice that does not reach into the cells after [s]. *)
Lemma stored_others : forall h s atvs r, validI h s -> validI h r ->
  (s_arr r = s_arr s -> s_off r + s_len r <= s_off s + s_len s \/ s_off s + s_len s + List.length atvs <= s_off r)%nat ->
  readI (fst (appendI spare h s atvs)) r = readI h r.
Proof.
  intros h s atvs r HS HR D. unfold appendI. destruct (Nat.leb_spec (s_len s + List.length atvs) (s_cap s)) as [L|L]; cbn [fst].
  - unfold readI. cbn [inner]. rewrite setNth_nth. destruct (Nat.eqb_spec (s_arr r) (s_arr s)) as [E|E]; [|reflexivity]. rewrite E.
    destruct (Nat.ltb_spec (s_arr s) (List.length (inner h))) as [M|M]; [|reflexivity]. cbn [andb].
    destruct (s_cap s) as [|c] eqn:EC.
    + assert (atvs = []) as -> by (destruct atvs; [reflexivity|cbn in L; lia]). now rewrite writeAt_nil.
    + destruct HS as [_ HS]. destruct HS as [_ HS]; [lia|]. apply window_keeps. intros i Hi. rewrite writeAt_cell by lia.
      destruct (Nat.leb_spec (s_off s + s_len s) i), (Nat.ltb_spec i (s_off s + s_len s + List.length atvs)); cbn [andb]; try reflexivity.
      destruct (D E); lia.
  - apply (readI_alloc h _ r HR).
Qed.
Lemma appendI_outer : forall h s atvs, outer (fst (appendI spare h s atvs)) = outer h.
Proof. intros. unfold appendI. now destruct (_ <=? _)%nat. Qed.
Lemma stored_eq : forall h a s atvs, stored h a s atvs =
  mkHeap (inner (fst (appendI spare h s atvs)))
         (setNth (v_arr (t_value a)) (writeAt (nth (v_arr (t_value a)) (outer h) []) (v_off (t_value a)) [snd (appendI spare h s atvs)]) (outer h)).
Proof. intros. unfold stored. pose proof (appendI_outer h s atvs) as E. destruct (appendI spare h s atvs) as [h1 s1]. cbn [fst snd] in *. now rewrite E. Qed.

(** Who sees what after the assignment. *)
Lemma stored_view : forall h pre a post s attrs atvs, valid h attrs -> first_request h pre a post s attrs -> private h attrs (List.length atvs) ->
  map (view (stored h a s atvs)) pre = map (view h) pre /\ map (view (stored h a s atvs)) post = map (view h) post
  /\ view (stored h a s atvs) a = mkATVS (t_type a) ((readI h s ++ atvs) :: tl (map (readI h) (readO h (t_value a)))).
Proof.
  intros h pre a post s attrs atvs HV HF HP. destruct HF as (F1 & F2 & F3 & F4 & F5).
  assert (IA : In a attrs) by (rewrite F1; apply in_elt).
  assert (RO : readO h (t_value a) = s :: window (S (v_off (t_value a))) (v_len (t_value a) - 1) (nth (v_arr (t_value a)) (outer h) [])).
  { unfold readO. rewrite window_head by exact F4. unfold cellO in F5. now rewrite F5. }
  destruct (HV a IA) as [VO VI]. assert (VS : validI h s) by (apply VI; rewrite RO; now left).
  destruct atvs as [|x atvs'].
  { rewrite (stored_nothing h a s VS F5). split; [reflexivity|]. split; [reflexivity|]. unfold view. rewrite app_nil_r, RO. reflexivity. }
  set (atvs := x :: atvs') in *. assert (P : (0 < List.length atvs)%nat) by (cbn; lia).
  destruct (HP pre a post s) as [P1 P2]; [repeat split; assumption|exact P|].
  rewrite stored_eq. set (h1 := fst (appendI spare h s atvs)) in *. set (s1 := snd (appendI spare h s atvs)) in *.
  destruct VO as [VO1 VO2]; [exact F4|].
  assert (OLD : forall b r, In b attrs -> In r (readO h (t_value b)) -> readI h1 r = readI h r).
  { intros b r HB HR. apply stored_others; [exact VS|now apply (HV b HB)|]. intros E. now apply (P2 b). }
  assert (OTHER : forall b, In b (pre ++ post) ->
    view (mkHeap (inner h1) (setNth (v_arr (t_value a)) (writeAt (nth (v_arr (t_value a)) (outer h) []) (v_off (t_value a)) [s1]) (outer h))) b = view h b).
  { intros b HB. assert (IB : In b attrs) by (rewrite F1; apply in_app_or in HB; apply in_or_app; destruct HB; [left|right; right]; assumption).
    unfold view. f_equal.
    assert (RB : readO (mkHeap (inner h1) (setNth (v_arr (t_value a)) (writeAt (nth (v_arr (t_value a)) (outer h) []) (v_off (t_value a)) [s1]) (outer h))) (t_value b) = readO h (t_value b)).
    { unfold readO. cbn [outer]. rewrite setNth_nth. destruct (Nat.eqb_spec (v_arr (t_value b)) (v_arr (t_value a))) as [E|E]; [|reflexivity].
      rewrite E. destruct (Nat.ltb_spec (v_arr (t_value a)) (List.length (outer h))); [|reflexivity]. cbn [andb].
      apply window_keeps. intros i Hi. rewrite writeAt_cell by (cbn; lia). cbn [List.length].
      destruct (Nat.leb_spec (v_off (t_value a)) i), (Nat.ltb_spec i (v_off (t_value a) + 1)); cbn [andb]; try reflexivity.
      exfalso. apply (P1 b HB E). lia. }
    rewrite RB. apply map_ext_in. intros r HR. exact (OLD b r IB HR). }
  split; [|split].
  - apply map_ext_in. intros b HB. apply OTHER. apply in_or_app. now left.
  - apply map_ext_in. intros b HB. apply OTHER. apply in_or_app. now right.
  - unfold view. f_equal. unfold readO. cbn [outer]. rewrite setNth_nth, Nat.eqb_refl. destruct (Nat.ltb_spec (v_arr (t_value a)) (List.length (outer h))); [|lia]. cbn [andb].
    rewrite window_head by exact F4. rewrite writeAt_cell by (cbn; lia). cbn [List.length].
    destruct (Nat.leb_spec (v_off (t_value a)) (v_off (t_value a))); [|lia]. destruct (Nat.ltb_spec (v_off (t_value a)) (v_off (t_value a) + 1)); [|lia]. cbn [andb].
    rewrite Nat.sub_diag. cbn [nth_error map]. fold (readO h (t_value a)). rewrite RO. cbn [map tl].
    f_equal; [exact (stored_slice h s atvs VS P)|].
    rewrite (window_keeps (S (v_off (t_value a))) (v_len (t_value a) - 1) _ (nth (v_arr (t_value a)) (outer h) [])).
    + apply map_ext_in. intros r HR. apply (OLD a r IA). rewrite RO. now right.
    + intros i Hi. rewrite writeAt_cell by (cbn; lia). cbn [List.length].
      destruct (Nat.leb_spec (v_off (t_value a)) i), (Nat.ltb_spec i (v_off (t_value a) + 1)); cbn [andb]; try reflexivity. lia.
Qed.

(** The value model's loop, likewise. *)
Lemma value_skipped : forall h b, skipped b -> forall atvs r, appendToAttribute atvs (view h b :: r) = match appendToAttribute atvs r with Some r' => Some (view h b :: r') | None => None end.
Proof.
  intros h b HS atvs r. cbn [appendToAttribute]. destruct (as_value (view h b)) as [|v vs] eqn:EV; [reflexivity|].
  destruct (oidEqual (as_type (view h b)) oidExtensionRequest) eqn:EO; [|reflexivity]. exfalso. apply oidEqual_eq in EO. cbn in EO.
  destruct HS as [HS|HS]; [contradiction|]. unfold view, readO in EV. cbn [as_value] in EV. rewrite HS in EV. discriminate EV.
Qed.
Lemma value_none : forall h atvs attrs, Forall skipped attrs -> appendToAttribute atvs (map (view h) attrs) = None.
Proof. intros h atvs attrs HF. induction HF as [|b attrs HB HF IH]; [reflexivity|]. cbn [map]. now rewrite value_skipped, IH. Qed.
Lemma value_some : forall h pre a post s attrs atvs, first_request h pre a post s attrs ->
  appendToAttribute atvs (map (view h) attrs)
  = Some (map (view h) pre ++ mkATVS (t_type a) ((readI h s ++ atvs) :: tl (map (readI h) (readO h (t_value a)))) :: map (view h) post).
Proof.
  intros h pre a post s attrs atvs (-> & F2 & F3 & F4 & F5). induction pre as [|b pre IH]; cbn [app map].
  - cbn [appendToAttribute]. assert (RO : as_value (view h a) = readI h s :: tl (map (readI h) (readO h (t_value a)))).
    { unfold view. cbn [as_value]. unfold readO. rewrite window_head by exact F4. unfold cellO in F5. now rewrite F5. }
    rewrite RO. change (as_type (view h a)) with (t_type a). destruct (oidEqual (t_type a) oidExtensionRequest) eqn:EO; [reflexivity|].
    rewrite F3 in EO. vm_compute in EO. discriminate EO.
  - rewrite value_skipped by (apply F2; now left). rewrite IH; [reflexivity|]. intros c HC. apply F2. now right.
Qed.

(** The attributes of the request and those of the template afterwards are what the value model says. *)
Lemma attributes_value : forall E h attrs template exts, valid h attrs -> r_Attributes E template = map (view h) attrs ->
  private h attrs (List.length (extensionATVs (map (view h) attrs) exts)) ->
  (map (view (fst (attributesM spare h attrs exts))) (snd (attributesM spare h attrs exts)), map (view (fst (attributesM spare h attrs exts))) attrs)
  = requestAttributes E template exts.
Proof.
  intros E h attrs template exts HV HT HP. unfold attributesM, requestAttributes. rewrite HT.
  destruct (0 <? zlen exts); [|reflexivity]. cbv zeta.
  set (atvs := extensionATVs (map (view h) attrs) exts) in *.
  set (x := atvs ++ repeat zeroATV (List.length exts - List.length atvs)).
  change (mkHeap (inner h ++ [x]) (outer h)) with (alloc h x).
  pose proof (valid_alloc h x attrs HV) as HV1.
  assert (HP1 : private (alloc h x) attrs (List.length atvs)) by exact HP.
  destruct (loop_cases (alloc h x) atvs attrs HV1) as [(pre & a & post & s & HF & ->)|(HF & ->)].
  - cbn [fst snd]. rewrite <- (view_alloc h x attrs HV), (value_some _ _ _ _ _ _ atvs HF).
    destruct (stored_view _ _ _ _ _ _ atvs HV1 HF HP1) as (W1 & W2 & W3). destruct HF as (-> & _).
    assert (W : map (view (stored (alloc h x) a s atvs)) (pre ++ a :: post)
              = map (view (alloc h x)) pre ++ mkATVS (t_type a) ((readI (alloc h x) s ++ atvs) :: tl (map (readI (alloc h x)) (readO (alloc h x) (t_value a)))) :: map (view (alloc h x)) post).
    { rewrite map_app. cbn [map]. now rewrite W1, W2, W3. }
    now rewrite W.
  - cbn [fst snd]. rewrite (value_none h atvs attrs HF).
    assert (W : map (view (mkHeap (inner (alloc h x)) (outer (alloc h x) ++ [[mkIS (List.length (inner h)) 0 (List.length atvs) (List.length exts)]]))) attrs = map (view h) attrs).
    { rewrite <- (view_alloc h x attrs HV). apply map_ext_in. intros b HB. destruct (HV b HB) as [VO _]. unfold view. f_equal.
      unfold readO. cbn [outer alloc]. destruct (v_len (t_value b)) as [|n] eqn:EL; [reflexivity|]. rewrite nth_new; [reflexivity|]. apply VO. lia. }
    rewrite map_app, W. cbn [map]. f_equal. f_equal. f_equal. unfold view, readO. cbn [t_type t_value v_arr v_off v_len outer alloc].
    rewrite app_nth2, Nat.sub_diag by lia. cbn [nth window skipn firstn map]. unfold window. cbn [skipn firstn map].
    unfold readI. cbn [s_arr s_off s_len inner alloc]. rewrite app_nth2, Nat.sub_diag by lia. cbn [nth]. unfold window. cbn [skipn].
    unfold x. rewrite firstn_app, Nat.sub_diag, firstn_O, app_nil_r, firstn_all. reflexivity.
Qed.

(** Which memory is written. *)
Definition written_inner (h : heap) (attrs : list attr) (a i : nat) : Prop :=
  exists pre b post s, first_request h pre b post s attrs /\ a = s_arr s /\ (s_off s + s_len s <= i < s_off s + s_cap s)%nat.
Definition written_outer (h : heap) (attrs : list attr) (a i : nat) : Prop :=
  exists pre b post s, first_request h pre b post s attrs /\ a = v_arr (t_value b) /\ i = v_off (t_value b).
Lemma nth_length {A} : forall (l : list A) i, (i < List.length l)%nat <-> nth_error l i <> None.
Proof. intros. symmetry. apply nth_error_Some. Qed.
Lemma attributes_frame : forall h attrs exts, valid h attrs ->
  (forall a i, (a < List.length (inner h))%nat -> cellI (fst (attributesM spare h attrs exts)) a i <> cellI h a i ->
     written_inner h attrs a i /\ cellI h a i <> None /\ cellI (fst (attributesM spare h attrs exts)) a i <> None)
  /\ (forall a i, (a < List.length (outer h))%nat -> cellO (fst (attributesM spare h attrs exts)) a i <> cellO h a i ->
     written_outer h attrs a i /\ cellO h a i <> None /\ cellO (fst (attributesM spare h attrs exts)) a i <> None).
Proof.
  intros h attrs exts HV. unfold attributesM. destruct (0 <? zlen exts); [|cbn [fst]; split; intros a i _ HN; contradiction].
  cbv zeta. set (atvs := extensionATVs (map (view h) attrs) exts) in *.
  set (x := atvs ++ repeat zeroATV (List.length exts - List.length atvs)).
  change (mkHeap (inner h ++ [x]) (outer h)) with (alloc h x).
  pose proof (valid_alloc h x attrs HV) as HV1.
  assert (AI : forall a i, (a < List.length (inner h))%nat -> cellI (alloc h x) a i = cellI h a i).
  { intros a i L. unfold cellI, alloc. cbn [inner]. now rewrite nth_new. }
  destruct (loop_cases (alloc h x) atvs attrs HV1) as [(pre & b & post & s & HF & ->)|(HF & ->)]; cbn [fst].
  - assert (HF0 : first_request h pre b post s attrs) by exact HF.
    destruct HF as (F1 & F2 & F3 & F4 & F5). assert (IB : In b attrs) by (rewrite F1; apply in_elt).
    destruct (HV1 b IB) as [VO VI]. destruct VO as [VO1 VO2]; [exact F4|].
    assert (VS : validI (alloc h x) s).
    { apply VI. unfold readO. rewrite window_head by exact F4. unfold cellO in F5. rewrite F5. now left. }
    rewrite stored_eq. split; intros a i L HN.
    + rewrite <- (AI a i L) in HN |- *. unfold cellI in HN |- *. cbn [inner] in HN |- *. revert HN. unfold appendI.
      destruct (Nat.leb_spec (s_len s + List.length atvs) (s_cap s)) as [M|M]; cbn [fst inner].
      * rewrite setNth_nth. destruct (Nat.eqb_spec a (s_arr s)) as [->|NE]; [|intros HN; exfalso; apply HN; reflexivity].
        destruct (Nat.ltb_spec (s_arr s) (List.length (inner (alloc h x)))) as [Q|Q]; [|intros HN; exfalso; apply HN; reflexivity]. cbn [andb].
        destruct (Nat.eq_dec (s_cap s) 0) as [Z0|Z0].
        { assert (atvs = []) as -> by (destruct atvs; [reflexivity|cbn in M; lia]). rewrite writeAt_nil. intros HN; exfalso; apply HN; reflexivity. }
        destruct VS as [_ VS]. destruct VS as [_ VS]; [lia|].
        rewrite writeAt_cell by lia.
        destruct (Nat.leb_spec (s_off s + s_len s) i), (Nat.ltb_spec i (s_off s + s_len s + List.length atvs)); cbn [andb]; intros HN; try (exfalso; apply HN; reflexivity).
        split; [|split].
        -- exists pre, b, post, s. split; [exact HF0|]. split; [reflexivity|lia].
        -- apply nth_length. lia.
        -- apply nth_length. lia.
      * cbn [alloc inner]. rewrite nth_new by (rewrite app_length; lia). intros HN; exfalso; apply HN; reflexivity.
    + revert HN. unfold cellO. cbn [outer alloc]. cbn [outer alloc] in VO1, VO2. rewrite setNth_nth. destruct (Nat.eqb_spec a (v_arr (t_value b))) as [->|NE]; [|intros HN; exfalso; apply HN; reflexivity].
      destruct (Nat.ltb_spec (v_arr (t_value b)) (List.length (outer h))) as [Q|Q]; [|intros HN; exfalso; apply HN; reflexivity]. cbn [andb].
      rewrite writeAt_cell by (cbn; lia). cbn [List.length].
      destruct (Nat.leb_spec (v_off (t_value b)) i), (Nat.ltb_spec i (v_off (t_value b) + 1)); cbn [andb]; intros HN; try (exfalso; apply HN; reflexivity).
      assert (i = v_off (t_value b)) as -> by lia. rewrite Nat.sub_diag. cbn [nth_error]. split; [|split].
      * exists pre, b, post, s. split; [exact HF0|]. split; reflexivity.
      * apply nth_length. lia.
      * discriminate.
  - split; intros a i L HN; exfalso; apply HN.
    + exact (AI a i L).
    + unfold cellO. cbn [outer alloc]. now rewrite nth_new.
Qed.
End Env.

(** * The theorems *)
Lemma request_split : forall E template pub pri userId tape,
  CreateCertificateRequest E template pub pri userId tape =
  do (publicKeyBytes, publicKeyAlgorithm) <- marshalPublicKey pub;
  match requestedExtensions E template with
  | ERR e => Ret (ERR e, tape, r_Attributes E template)
  | OK extensions =>
      let '(attributes, after) := requestAttributes E template extensions in
      do (r, tape) <- finishRequest E template publicKeyBytes publicKeyAlgorithm attributes pri userId tape;
      Ret (r, tape, after)
  end.
Proof.
  intros. unfold CreateCertificateRequest. destruct (marshalPublicKey pub) as [[kb ka]|]; cbn [bind]; [|reflexivity].
  destruct (requestedExtensions E template) as [exts|]; [|reflexivity]. destruct (requestAttributes E template exts) as [attributes after].
  unfold finishRequest. cbv zeta. match goal with |- context[match ?e with OK _ => _ | ERR _ => _ end] => destruct e as [[tbs contents]|] end; cbn [bind]; [|reflexivity].
  destruct (Sign pri userId contents tape) as [[[sg|] t]|]; reflexivity.
Qed.
(** If no other attribute shares the value that the extensions are appended to, and no attribute is read
    from the free cells behind it, the memory behaves as values do: same outcome, and what the template's
    attributes then hold is what the value model says. *)
Theorem C109_value : forall E spare h attrs template pub pri userId tape, valid h attrs -> r_Attributes E template = map (view h) attrs ->
  (forall exts, requestedExtensions E template = OK exts -> private h attrs (List.length (extensionATVs (map (view h) attrs) exts))) ->
  CreateCertificateRequest E template pub pri userId tape =
  match CreateCertificateRequestM E spare h attrs template pub pri userId tape with
  | Ret (r, rest, h') => Ret (r, rest, map (view h') attrs)
  | Panic k => Panic k
  end.
Proof.
  intros E spare h attrs template pub pri userId tape HV HT HP. rewrite request_split. unfold CreateCertificateRequestM.
  destruct (marshalPublicKey pub) as [[kb ka]|]; cbn [bind]; [|reflexivity].
  destruct (requestedExtensions E template) as [exts|]; [|now rewrite HT].
  pose proof (attributes_value spare E h attrs template exts HV HT (HP exts eq_refl)) as HA. rewrite <- HA.
  destruct (attributesM spare h attrs exts) as [h' attributes]. cbn [fst snd].
  destruct (finishRequest E template kb ka (map (view h') attributes) pri userId tape) as [[r t]|]; reflexivity.
Qed.
(** Whatever is shared, and whether or not there is an error: of the memory that existed before, only the
    cell of the first value of the first request attribute may change, and the cells behind that value up
    to its capacity. Arrays keep their lengths. *)
Theorem C109_frame : forall E spare h attrs template pub pri userId tape r rest h', valid h attrs ->
  CreateCertificateRequestM E spare h attrs template pub pri userId tape = Ret (r, rest, h') ->
  (forall a i, (a < List.length (inner h))%nat -> cellI h' a i <> cellI h a i ->
     written_inner h attrs a i /\ cellI h a i <> None /\ cellI h' a i <> None)
  /\ (forall a i, (a < List.length (outer h))%nat -> cellO h' a i <> cellO h a i ->
     written_outer h attrs a i /\ cellO h a i <> None /\ cellO h' a i <> None).
Proof.
  intros E spare h attrs template pub pri userId tape r rest h' HV H. unfold CreateCertificateRequestM in H.
  destruct (marshalPublicKey pub) as [[kb ka]|]; cbn [bind] in H; [|discriminate H].
  destruct (requestedExtensions E template) as [exts|].
  - pose proof (attributes_frame spare h attrs exts HV) as HA. destruct (attributesM spare h attrs exts) as [h1 attributes]. cbn [fst] in HA.
    destruct (finishRequest E template kb ka (map (view h1) attributes) pri userId tape) as [[r1 t1]|]; cbn [bind] in H; [|discriminate H].
    assert (h' = h1) as -> by congruence. exact HA.
  - assert (h' = h) as -> by congruence. split; intros a i _ HN; contradiction.
Qed.
(** In particular nothing changes if no attribute is a request with a value. *)
Corollary C109_untouched : forall E spare h attrs template pub pri userId tape r rest h', valid h attrs -> Forall skipped attrs ->
  CreateCertificateRequestM E spare h attrs template pub pri userId tape = Ret (r, rest, h') ->
  (forall a i, (a < List.length (inner h))%nat -> cellI h' a i = cellI h a i) /\ (forall a i, (a < List.length (outer h))%nat -> cellO h' a i = cellO h a i).
Proof.
  intros E spare h attrs template pub pri userId tape r rest h' HV HS H. unfold CreateCertificateRequestM in H.
  destruct (marshalPublicKey pub) as [[kb ka]|]; cbn [bind] in H; [|discriminate H].
  destruct (requestedExtensions E template) as [exts|]; [|assert (h' = h) as -> by congruence; split; reflexivity].
  destruct (attributesM spare h attrs exts) as [h1 attributes] eqn:EA.
  destruct (finishRequest E template kb ka (map (view h1) attributes) pri userId tape) as [[r1 t1]|]; cbn [bind] in H; [|discriminate H].
  assert (h' = h1) as -> by congruence. clear H.
  unfold attributesM in EA. destruct (0 <? zlen exts); [|assert (h1 = h) as -> by congruence; split; reflexivity]. cbv zeta in EA.
  match type of EA with context[mkHeap (inner h ++ [?x]) (outer h)] => change (mkHeap (inner h ++ [x]) (outer h)) with (alloc h x) in EA; set (y := x) in EA end.
  destruct (loop_cases spare (alloc h y) (extensionATVs (map (view h) attrs) exts) attrs (valid_alloc h y attrs HV)) as [(pre & b & post & s & HF & _)|(_ & EL)].
  - exfalso. destruct HF as (-> & _ & G1 & G2 & _). rewrite Forall_forall in HS. destruct (HS b (in_elt _ _ _)); [contradiction|lia].
  - rewrite EL in EA. match type of EA with (?u, _) = _ => assert (h1 = u) as -> by congruence end. clear EA EL. unfold cellI, cellO, alloc. cbn [inner outer].
    split; intros a i L; now rewrite nth_new.
Qed.
(** The free cells are written: if the capacity is enough, the new attributes replace what is behind the
    value, whoever else uses those cells. *)
Theorem C109_overwrites : forall E spare h attrs template pub pri userId tape r rest h' pre b post s exts, valid h attrs ->
  CreateCertificateRequestM E spare h attrs template pub pri userId tape = Ret (r, rest, h') ->
  requestedExtensions E template = OK exts -> first_request h pre b post s attrs ->
  (s_len s + List.length (extensionATVs (map (view h) attrs) exts) <= s_cap s)%nat ->
  forall j, (j < List.length (extensionATVs (map (view h) attrs) exts))%nat ->
    cellI h' (s_arr s) (s_off s + s_len s + j) = nth_error (extensionATVs (map (view h) attrs) exts) j.
Proof.
  intros E spare h attrs template pub pri userId tape r rest h' pre b post s exts HV H HX HF HC j HJ. unfold CreateCertificateRequestM in H.
  destruct (marshalPublicKey pub) as [[kb ka]|]; cbn [bind] in H; [|discriminate H]. rewrite HX in H.
  destruct (attributesM spare h attrs exts) as [h1 attributes] eqn:EA.
  destruct (finishRequest E template kb ka (map (view h1) attributes) pri userId tape) as [[r1 t1]|]; cbn [bind] in H; [|discriminate H].
  assert (h' = h1) as -> by congruence. clear H HX.
  unfold attributesM in EA. destruct (0 <? zlen exts) eqn:EZ.
  2:{ exfalso. destruct exts as [|e exts]; [cbn in HJ; lia|discriminate EZ]. }
  cbv zeta in EA. set (atvs := extensionATVs (map (view h) attrs) exts) in *.
  match type of EA with context[mkHeap (inner h ++ [?x]) (outer h)] => change (mkHeap (inner h ++ [x]) (outer h)) with (alloc h x) in EA; set (y := x) in EA end.
  pose proof (valid_alloc h y attrs HV) as HV1.
  destruct (loop_cases spare (alloc h y) atvs attrs HV1) as [(pre1 & b1 & post1 & s1 & HF1 & EL)|(HS & EL)]; rewrite EL in EA.
  - assert (SAME : s1 = s /\ b1 = b).
    { destruct HF as (D1 & D2 & D3 & D4 & D5), HF1 as (G1 & G2 & G3 & G4 & G5). rewrite D1 in G1. clear - D2 D3 D4 D5 G1 G2 G3 G4 G5.
      revert pre1 G1 G2. induction pre as [|c pre IH]; intros [|c1 pre1] G1 G2; cbn [app] in G1.
      - assert (b = b1) as -> by congruence. change (cellO (alloc h y)) with (cellO h) in G5. split; congruence.
      - assert (b = c1) as -> by congruence. destruct (G2 c1 (or_introl eq_refl)); [contradiction|lia].
      - assert (c = b1) as -> by congruence. destruct (D2 b1 (or_introl eq_refl)); [contradiction|lia].
      - apply (IH (fun q HQ => D2 q (or_intror HQ)) pre1); [congruence|]. intros q HQ. apply G2. now right. }
    destruct SAME as [-> ->]. assert (h1 = stored spare (alloc h y) b s atvs) as -> by congruence. rewrite stored_eq. unfold cellI, appendI.
    destruct (Nat.leb_spec (s_len s + List.length atvs) (s_cap s)); [|lia]. cbn [fst inner].
    destruct HF as (D1 & D2 & D3 & D4 & D5). assert (IB : In b attrs) by (rewrite D1; apply in_elt).
    destruct (HV b IB) as [_ VI]. assert (VS : validI h s).
    { apply VI. unfold readO. rewrite window_head by exact D4. unfold cellO in D5. rewrite D5. now left. }
    destruct VS as [VS1 VS2]. destruct VS2 as [VS2 VS3]; [lia|].
    rewrite setNth_nth, Nat.eqb_refl. destruct (Nat.ltb_spec (s_arr s) (List.length (inner (alloc h y)))) as [Q|Q].
    2:{ exfalso. unfold alloc in Q. cbn [inner] in Q. rewrite app_length in Q. lia. }
    cbn [andb]. unfold alloc. cbn [inner]. rewrite nth_new by exact VS2. rewrite writeAt_cell by lia.
    destruct (Nat.leb_spec (s_off s + s_len s) (s_off s + s_len s + j)); [|lia]. destruct (Nat.ltb_spec (s_off s + s_len s + j) (s_off s + s_len s + List.length atvs)); [|lia].
    cbn [andb]. f_equal. lia.
  - exfalso. destruct HF as (-> & _ & G1 & G2 & _). rewrite Forall_forall in HS. destruct (HS b (in_elt _ _ _)); [contradiction|lia].
Qed.

(** * Examples *)
(** Two lists of attributes in one array of four: a value of the template's (with free cells behind it)
    and one of the caller's in the cells after that. *)
Definition mem_atv (n : Z) : ATV := mkATV [1; 2; n] (AnyBytes [n + 4]).
Definition mem_h : heap := mkHeap [[mem_atv 3; mem_atv 9; mem_atv 10; mem_atv 11]] [[mkIS 0 0 1 4]; [mkIS 0 1 3 3]].
Definition mem_attrs : list attr := [mkAttr oidExtensionRequest (mkOS 0 0 1)].
Definition memOf (x : go (res (list Z) * list Z * heap)) : heap := match x with Ret (_, _, h) => h | _ => mkHeap [] [] end.
Definition mem_after : heap := Eval vm_compute in
  memOf (CreateCertificateRequestM noNet (fun n => n) mem_h mem_attrs (ex_req_template (map (view mem_h) mem_attrs)) ex_pub ex_priv None ex_tape).
Lemma mem_one : forall {A} (x y : A) pre post, [x] = pre ++ y :: post -> pre = [] /\ y = x /\ post = [].
Proof. intros A x y [|a pre] post E; [cbn in E; assert (y = x /\ post = []) by (split; congruence); tauto|]. destruct pre; discriminate E. Qed.
Example C109_ex_hyps : valid mem_h mem_attrs /\ (forall k, private mem_h mem_attrs k) /\
  map (view mem_h) mem_attrs = [mkATVS oidExtensionRequest [[mem_atv 3]]].
Proof.
  split; [|split; [|reflexivity]].
  - intros a [<-|[]]. split; [intros _; cbn; lia|]. intros s [<-|[]]. split; [cbn; lia|]. intros _. cbn. lia.
  - intros k pre a post s (F1 & F2 & F3 & F4 & F5) P. unfold mem_attrs in F1. apply mem_one in F1. destruct F1 as (-> & -> & ->).
    cbn in F5. assert (s = mkIS 0 0 1 4) as -> by congruence. split; [intros b []|]. intros b r [<-|[]] [<-|[]] _. left. cbn. lia.
Qed.
(** The call succeeds; the caller's other list has lost its first element. *)
Example C109_ex_spare :
  CreateCertificateRequestM noNet (fun n => n) mem_h mem_attrs (ex_req_template (map (view mem_h) mem_attrs)) ex_pub ex_priv None ex_tape
    = Ret (OK ex_req2, [], mem_after) /\
  cellI mem_after 0 1 <> cellI mem_h 0 1 /\ readI mem_h (mkIS 0 1 3 3) = [mem_atv 9; mem_atv 10; mem_atv 11] /\
  map atv_type (readI mem_after (mkIS 0 1 3 3)) = [oidExtensionSubjectAltName; [1; 2; 10]; [1; 2; 11]].
Proof. split; [vm_compute; reflexivity|]. split; [vm_compute; discriminate|]. split; reflexivity. Qed.
(** It is not true without the condition: two attributes with one and the same value both get the
    extensions, where copies would not. *)
Definition mem_twice : list attr := mem_attrs ++ mem_attrs.
Theorem C109_shared_refuted : exists E h attrs template exts, valid h attrs /\ r_Attributes E template = map (view h) attrs /\
  requestedExtensions E template = OK exts /\
  forall spare, map (view (fst (attributesM spare h attrs exts))) (snd (attributesM spare h attrs exts)) <> fst (requestAttributes E template exts) /\
    newRawAttributes (map (view (fst (attributesM spare h attrs exts))) (snd (attributesM spare h attrs exts))) <> newRawAttributes (fst (requestAttributes E template exts)) /\
    (exists l, newRawAttributes (map (view (fst (attributesM spare h attrs exts))) (snd (attributesM spare h attrs exts))) = OK l) /\
    (exists l, newRawAttributes (fst (requestAttributes E template exts)) = OK l).
Proof.
  exists noNet, mem_h, mem_twice, (ex_req_template (map (view mem_h) mem_twice)). eexists. split; [|split; [reflexivity|split; [vm_compute; reflexivity|]]].
  - intros a HA. assert (HA' : In a mem_attrs) by (cbn in HA |- *; tauto). exact (proj1 C109_ex_hyps a HA').
  - intros spare. split; [vm_compute; discriminate|]. split; [vm_compute; discriminate|]. split; (eexists; vm_compute; reflexivity).
Qed.
