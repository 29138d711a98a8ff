(** Properties of the text-level checks of sm2/cert/gmx509.go: C63-C66 and C72. *)
From Coq Require Import ZArith List Lia Bool String.
From Verif Require Import GoBase GoAsn1 GoText GoPkix CertText.
Import ListNotations.
Open Scope Z_scope.

(** * C65: 7-bit strings *)

Lemma lor_ge_l : forall x y n, 0 <= x -> 0 <= y -> n <= x -> n <= Z.lor x y.
Proof.
  intros x y n Hx Hy Hn.
  assert (0 <= x <= Z.lor x y); [|lia].
  apply Z.ldiff_le; [apply Z.lor_nonneg; lia|].
  apply Z.bits_inj'. intros i Hi. rewrite Z.ldiff_spec, Z.lor_spec, Z.bits_0.
  destruct (Z.testbit x i); reflexivity.
Qed.
Lemma lor_ge_r : forall x y n, 0 <= x -> 0 <= y -> n <= y -> n <= Z.lor x y.
Proof. intros. rewrite Z.lor_comm. apply lor_ge_l; assumption. Qed.

(** A first byte of 0x80 or more makes a first rune of 0x80 or more. *)
Lemma head_rune : forall b r, 0x80 <= b -> exists c l, runes (b :: r) = c :: l /\ 0x80 <= c.
Proof.
  intros b r Hb. unfold runes.
  assert (Bad : forall l : list (Z * bool), exists c l', map fst ((RuneError, false) :: l) = c :: l' /\ 0x80 <= c)
    by (intros l; exists RuneError, (map fst l); split; [reflexivity|unfold RuneError; lia]).
  assert (Good : forall c (l : list (Z * bool)), 0x80 <= c -> exists c' l', map fst ((c, true) :: l) = c' :: l' /\ 0x80 <= c')
    by (intros c l Hc; exists c, (map fst l); split; [reflexivity|exact Hc]).
  cbn [decodeRunes]. destruct (Z.ltb_spec b 0x80) as [L|L]; [lia|].
  destruct (utf8First b) as [[[n lo] hi]|] eqn:Ef; [|apply Bad].
  destruct r as [|b1 r1]; [apply Bad|].
  destruct (inRange lo hi b1) eqn:E1; cbn [negb]; [|apply Bad].
  assert (L1f : forall x, Z.land x 0x1f = x mod 32) by (intros x; change 0x1f with (Z.ones 5); apply Z.land_ones; lia).
  assert (L3f : forall x, Z.land x 0x3f = x mod 64) by (intros x; change 0x3f with (Z.ones 6); apply Z.land_ones; lia).
  assert (L0f : forall x, Z.land x 0x0f = x mod 16) by (intros x; change 0x0f with (Z.ones 4); apply Z.land_ones; lia).
  assert (L07 : forall x, Z.land x 0x07 = x mod 8) by (intros x; change 0x07 with (Z.ones 3); apply Z.land_ones; lia).
  assert (Hcase : (n = 2 /\ 0xc2 <= b <= 0xdf)
               \/ (n = 3 /\ (b = 0xe0 /\ lo = 0xa0 /\ hi = 0xbf \/ 0xe1 <= b <= 0xef))
               \/ (n = 4 /\ (b = 0xf0 /\ lo = 0x90 /\ hi = 0xbf \/ 0xf1 <= b <= 0xf4))).
  { revert Ef. unfold utf8First.
    repeat match goal with
    | |- (if ?c then _ else _) = _ -> _ => let E := fresh "E" in destruct c eqn:E
    end; intros K; try discriminate K; injection K as <- <- <-;
    repeat match goal with
    | H : _ && _ = true |- _ => apply andb_prop in H; destruct H
    | H : (_ <=? _) = true |- _ => apply Z.leb_le in H
    | H : (_ =? _) = true |- _ => apply Z.eqb_eq in H
    end; lia. }
  unfold inRange in E1. apply andb_prop in E1. destruct E1 as [Elo Ehi]. apply Z.leb_le in Elo, Ehi.
  destruct Hcase as [[-> Hb2]|[[-> Hb3]|[-> Hb4]]]; cbn [Z.eqb Pos.eqb].
  - apply Good. rewrite L1f, L3f.
    apply lor_ge_l; [apply Z.shiftl_nonneg; apply Z.mod_pos_bound; lia|apply Z.mod_pos_bound; lia|].
    rewrite Z.shiftl_mul_pow2 by lia. change (2 ^ 6) with 64.
    replace (b mod 32) with (b - 192) by (apply (Z.mod_unique _ _ 6); lia). lia.
  - destruct r1 as [|b2 r2]; [apply Bad|]. destruct (inRange 128 191 b2); cbn [negb]; [|apply Bad].
    apply Good. rewrite L0f, !L3f.
    pose proof (Z.mod_pos_bound b 16 ltac:(lia)). pose proof (Z.mod_pos_bound b1 64 ltac:(lia)).
    pose proof (Z.mod_pos_bound b2 64 ltac:(lia)).
    rewrite !Z.shiftl_mul_pow2 by lia. change (2 ^ 12) with 4096. change (2 ^ 6) with 64.
    apply lor_ge_l; [apply Z.lor_nonneg; lia|lia|].
    destruct Hb3 as [(-> & -> & ->)|Hb3].
    + apply lor_ge_r; [lia|lia|].
      replace (b1 mod 64) with (b1 - 128) by (apply (Z.mod_unique _ _ 2); lia). lia.
    + apply lor_ge_l; [lia|lia|].
      replace (b mod 16) with (b - 224) by (apply (Z.mod_unique _ _ 14); lia). lia.
  - destruct r1 as [|b2 r2]; [apply Bad|]. destruct (inRange 128 191 b2); cbn [negb]; [|apply Bad].
    destruct r2 as [|b3 r3]; [apply Bad|]. destruct (inRange 128 191 b3); cbn [negb]; [|apply Bad].
    apply Good. rewrite L07, !L3f.
    pose proof (Z.mod_pos_bound b 8 ltac:(lia)). pose proof (Z.mod_pos_bound b1 64 ltac:(lia)).
    pose proof (Z.mod_pos_bound b2 64 ltac:(lia)). pose proof (Z.mod_pos_bound b3 64 ltac:(lia)).
    rewrite !Z.shiftl_mul_pow2 by lia. change (2 ^ 18) with 262144. change (2 ^ 12) with 4096. change (2 ^ 6) with 64.
    apply lor_ge_l; [repeat (apply Z.lor_nonneg; split); lia|lia|].
    apply lor_ge_l; [apply Z.lor_nonneg; lia|lia|].
    destruct Hb4 as [(-> & -> & ->)|Hb4].
    + apply lor_ge_r; [lia|lia|].
      replace (b1 mod 64) with (b1 - 128) by (apply (Z.mod_unique _ _ 2); lia). lia.
    + apply lor_ge_l; [lia|lia|].
      replace (b mod 8) with (b - 240) by (apply (Z.mod_unique _ _ 30); lia). lia.
Qed.

Lemma runes_ascii : forall b r, b < 0x80 -> runes (b :: r) = b :: runes r.
Proof. intros b r H. unfold runes. cbn [decodeRunes]. destruct (Z.ltb_spec b 0x80); [reflexivity|lia]. Qed.

(** A check that refuses every rune from 0x80 on holds of the runes iff it holds of the bytes. *)
Lemma forallb_runes : forall f, (forall c, 0x80 <= c -> f c = false) -> forall s, forallb f (runes s) = forallb f s.
Proof.
  intros f Hf s. induction s as [|b r IH]; [reflexivity|].
  destruct (Z_lt_le_dec b 0x80) as [L|L].
  - rewrite runes_ascii by exact L. cbn [forallb]. rewrite IH. reflexivity.
  - destruct (head_rune b r L) as (c & l & -> & Hc). cbn [forallb]. rewrite (Hf c Hc), (Hf b L). reflexivity.
Qed.

Lemma isIA5String_spec : forall s, isIA5String s = true <-> Forall (fun b => b < 0x80) s.
Proof.
  intros s. unfold isIA5String. rewrite forallb_runes.
  - rewrite forallb_forall, Forall_forall. split; intros H x Hx; specialize (H x Hx).
    + apply negb_true_iff, Z.leb_gt in H. exact H.
    + apply negb_true_iff, Z.leb_gt. exact H.
  - intros c Hc. apply negb_false_iff, Z.leb_le. exact Hc.
Qed.

(** * C64: domain names *)

(** Labels joined with dots. *)
Fixpoint join_dots (labels : list (list Z)) : list Z :=
  match labels with
  | [] => []
  | [l] => l
  | l :: r => l ++ 46 :: join_dots r
  end.
(** A label: some characters 33..126 other than the dot. *)
Definition good_label (l : list Z) : Prop := l <> [] /\ Forall (fun c => 33 <= c <= 126 /\ c <> 46) l.
(** The domain names that are accepted, with their labels: nothing at all, or labels joined with
    dots, with a dot in front or not. *)
Definition domain_labels (d : list Z) (labels : list (list Z)) : Prop :=
  (d = [] /\ labels = []) \/
  (labels <> [] /\ Forall good_label labels /\ (d = join_dots labels \/ d = 46 :: join_dots labels)).

Lemma join_snoc : forall ls l, ls <> [] -> join_dots (ls ++ [l]) = join_dots ls ++ 46 :: l.
Proof.
  induction ls as [|a r IH]; intros l H; [congruence|]. destruct r as [|b r].
  - reflexivity.
  - change (join_dots ((a :: b :: r) ++ [l])) with (a ++ 46 :: join_dots ((b :: r) ++ [l])).
    rewrite IH by discriminate. change (join_dots (a :: b :: r)) with (a ++ 46 :: join_dots (b :: r)).
    rewrite <- app_assoc. reflexivity.
Qed.

Lemma lastIndex_range : forall c s, -1 <= lastIndexByte s c < zlen s.
Proof.
  intros c s; induction s as [|b r IH]; [cbn; lia|].
  cbn [lastIndexByte]. rewrite zlen_cons. pose proof (zlen_nonneg _ r).
  destruct (Z.eqb_spec (lastIndexByte r c) (-1)); [destruct (b =? c); lia|lia].
Qed.
Lemma lastIndex_none : forall c s, lastIndexByte s c = -1 <-> ~ In c s.
Proof.
  intros c s; induction s as [|b r IH]; [cbn; split; [intros _ []|reflexivity]|].
  cbn [lastIndexByte In]. pose proof (lastIndex_range c r).
  destruct (Z.eqb_spec (lastIndexByte r c) (-1)) as [E|E].
  - destruct (Z.eqb_spec b c) as [Eb|Eb].
    + split; [lia|intros K; exfalso; apply K; left; exact Eb].
    + split; [intros _ [K|K]; [congruence|apply IH in E; contradiction]|reflexivity].
  - split; [lia|]. intros K. exfalso. apply E, IH. intros Kr. apply K. right. exact Kr.
Qed.
Lemma lastIndex_split : forall c a l, ~ In c l -> lastIndexByte (a ++ c :: l) c = zlen a.
Proof.
  intros c a l Hl. induction a as [|b a IH].
  - cbn [app lastIndexByte]. apply lastIndex_none in Hl. rewrite Hl. cbn [Z.eqb Pos.eqb]. rewrite Z.eqb_refl. reflexivity.
  - cbn [app lastIndexByte]. rewrite IH, zlen_cons. pose proof (zlen_nonneg _ a).
    destruct (Z.eqb_spec (zlen a) (-1)); [lia|reflexivity].
Qed.
Lemma lastIndex_found : forall (c : Z) s, In c s -> exists a l, s = a ++ c :: l /\ ~ In c l.
Proof.
  intros c s; induction s as [|b r IH]; intros H; [destruct H|].
  destruct (in_dec Z.eq_dec c r) as [K|K].
  - destruct (IH K) as (a & l & -> & Hl). exists (b :: a), l. split; [reflexivity|exact Hl].
  - destruct H as [->|H]; [|contradiction]. exists [], r. split; [reflexivity|exact K].
Qed.

(** What one round of the loop does. *)
Lemma labelLoop_step : forall fuel (a l : list Z) acc, ~ In 46 l ->
  labelLoop (S fuel) (a ++ 46 :: l) acc = labelLoop fuel a (acc ++ [l]).
Proof.
  intros fuel a l acc Hl. cbn [labelLoop].
  destruct (a ++ 46 :: l) eqn:E; [destruct a; discriminate E|]. rewrite <- E. clear E.
  rewrite lastIndex_split by exact Hl.
  pose proof (zlen_nonneg _ a). pose proof (zlen_nonneg _ l).
  destruct (Z.eqb_spec (zlen a) (-1)); [lia|].
  assert (Len : zlen (a ++ 46 :: l) = zlen a + zlen l + 1) by (rewrite zlen_app, zlen_cons; lia).
  unfold go_slice. rewrite Len.
  destruct (Z.leb_spec 0 (zlen a + 1)); [|lia]. destruct (Z.leb_spec (zlen a + 1) (zlen a + zlen l + 1)); [|lia].
  destruct (Z.leb_spec (zlen a + zlen l + 1) (zlen a + zlen l + 1)); [|lia]. cbn [andb bind].
  destruct (Z.leb_spec 0 0); [|lia]. destruct (Z.leb_spec 0 (zlen a)); [|lia].
  destruct (Z.leb_spec (zlen a) (zlen a + zlen l + 1)); [|lia]. cbn [andb bind].
  f_equal.
  - unfold sub. cbn [skipn Z.to_nat]. rewrite Z.sub_0_r. unfold zlen. rewrite Nat2Z.id.
    rewrite firstn_app, Nat.sub_diag, firstn_O, firstn_all, app_nil_r. reflexivity.
  - f_equal. f_equal. unfold sub.
    replace (Z.to_nat (zlen a + 1)) with (S (List.length a)) by (unfold zlen; lia).
    replace (Z.to_nat (zlen a + zlen l + 1 - (zlen a + 1))) with (List.length l) by (unfold zlen; lia).
    replace (a ++ 46 :: l) with ((a ++ [46]) ++ l) by (rewrite <- app_assoc; reflexivity).
    rewrite skipn_app. rewrite skipn_all2 by (rewrite app_length; cbn; lia).
    rewrite app_length. cbn [List.length app]. replace (S (List.length a) - (List.length a + 1))%nat with O by lia.
    cbn [skipn]. apply firstn_all.
Qed.
Lemma labelLoop_last : forall fuel (s : list Z) acc, s <> [] -> ~ In 46 s -> labelLoop (S fuel) s acc = Ret (acc ++ [s]).
Proof.
  intros fuel s acc Hs H. cbn [labelLoop]. destruct s as [|b r]; [congruence|].
  apply lastIndex_none in H. rewrite H. cbn [Z.eqb Pos.eqb]. destruct fuel; reflexivity.
Qed.

(** The loop splits the domain at its dots, except that a dot in front leaves no empty label. *)
Definition splits (d : list Z) (rl : list (list Z)) : Prop :=
  Forall (fun l : list Z => ~ In 46 l) rl /\
  ((d = [] /\ rl = []) \/ (rl <> [] /\ (d = join_dots (rev rl) \/ d = 46 :: join_dots (rev rl)))).
Lemma labelLoop_total : forall n d, (List.length d <= n)%nat ->
  exists rl, splits d rl /\ forall fuel acc, (List.length d < fuel)%nat -> labelLoop fuel d acc = Ret (acc ++ rl).
Proof.
  induction n as [|n IH]; intros d Hn.
  - destruct d; [|cbn in Hn; lia]. exists []. split; [split; [constructor|left; split; reflexivity]|].
    intros fuel acc _. rewrite app_nil_r. destruct fuel; reflexivity.
  - destruct (in_dec Z.eq_dec 46 d) as [K|K].
    + destruct (lastIndex_found 46 d K) as (a & l & -> & Hl).
      rewrite app_length in Hn. cbn [List.length] in Hn.
      destruct (IH a ltac:(lia)) as (rl & (Hdots & Hs) & Hloop).
      exists (l :: rl). split.
      * split; [constructor; [exact Hl|exact Hdots]|]. right. split; [discriminate|]. cbn [rev].
        destruct Hs as [[-> ->]|[Hne Hs]]; [right; reflexivity|].
        assert (rev rl <> []) by (intros E; apply Hne; rewrite <- (rev_involutive rl), E; reflexivity).
        rewrite join_snoc by assumption. destruct Hs as [->| ->]; [left|right]; reflexivity.
      * intros fuel acc Hf. rewrite app_length in Hf. cbn [List.length] in Hf.
        destruct fuel as [|fuel]; [lia|]. rewrite labelLoop_step by exact Hl. rewrite Hloop by lia.
        rewrite <- app_assoc. reflexivity.
    + destruct d as [|b r].
      * exists []. split; [split; [constructor|left; split; reflexivity]|].
        intros fuel acc _. rewrite app_nil_r. destruct fuel; reflexivity.
      * exists [b :: r]. split.
        -- split; [constructor; [exact K|constructor]|]. right. split; [discriminate|]. left. reflexivity.
        -- intros fuel acc Hf. destruct fuel as [|fuel]; [lia|]. apply labelLoop_last; [discriminate|exact K].
Qed.

Lemma good_no_dot : forall l, good_label l -> ~ In 46 l.
Proof. intros l [_ H] K. rewrite Forall_forall in H. apply H in K. lia. Qed.
Lemma labelLoop_join : forall ls, Forall good_label ls -> ls <> [] -> forall d, d = join_dots ls \/ d = 46 :: join_dots ls ->
  forall fuel acc, (List.length d < fuel)%nat -> labelLoop fuel d acc = Ret (acc ++ rev ls).
Proof.
  intros ls. induction ls as [|l ls IH] using rev_ind; intros Hg Hne d Hd fuel acc Hf; [congruence|].
  apply Forall_app in Hg. destruct Hg as [Hg Hl]. inversion Hl as [|? ? Hl0 _]; subst.
  pose proof (good_no_dot l Hl0) as Hdot. destruct Hl0 as [Hlne _].
  destruct fuel as [|fuel]; [lia|]. rewrite rev_app_distr. cbn [rev app].
  destruct ls as [|l0 ls].
  - cbn [app join_dots rev] in *. destruct Hd as [->| ->].
    + apply labelLoop_last; assumption.
    + change (46 :: l) with ([] ++ 46 :: l). rewrite labelLoop_step by exact Hdot. destruct fuel; reflexivity.
  - rewrite join_snoc in Hd by discriminate.
    assert (exists d', (d' = join_dots (l0 :: ls) \/ d' = 46 :: join_dots (l0 :: ls)) /\ d = d' ++ 46 :: l) as (d' & Hd' & ->).
    { destruct Hd as [->| ->]; [exists (join_dots (l0 :: ls))|exists (46 :: join_dots (l0 :: ls))]; split;
        [left; reflexivity|reflexivity|right; reflexivity|reflexivity]. }
    rewrite labelLoop_step by exact Hdot.
    rewrite app_length in Hf. cbn [List.length] in Hf.
    rewrite (IH Hg ltac:(discriminate) d' Hd') by lia. rewrite <- app_assoc. reflexivity.
Qed.

(** The check on the labels. *)
Definition labelOk (label : list Z) : bool :=
  negb (zlen label =? 0) && forallb (fun c => negb ((c <? 33) || (126 <? c))) (runes label).
Lemma labelOk_good : forall l : list Z, ~ In 46 l -> (labelOk l = true <-> good_label l).
Proof.
  intros l Hd. unfold labelOk, good_label. rewrite forallb_runes.
  - rewrite andb_true_iff, negb_true_iff, Z.eqb_neq, forallb_forall, Forall_forall. split; intros [H1 H2]; split.
    + intros ->. apply H1. reflexivity.
    + intros c Hc. specialize (H2 c Hc). apply negb_true_iff, orb_false_iff in H2. destruct H2 as [A B].
      apply Z.ltb_ge in A, B. split; [lia|]. intros ->. contradiction.
    + intros E. apply H1, zlen_0_nil, E.
    + intros c Hc. specialize (H2 c Hc). apply negb_true_iff, orb_false_iff. split; apply Z.ltb_ge; lia.
  - intros c Hc. apply negb_false_iff, orb_true_iff. right. apply Z.ltb_lt. lia.
Qed.

(** The labels are found exactly for the strings above, in reverse order; there is never a panic. *)
Lemma domainToReverseLabels_spec : forall d, exists o,
  domainToReverseLabels d = Ret o /\ forall rl, o = Some rl <-> domain_labels d (rev rl).
Proof.
  intros d. unfold domainToReverseLabels.
  destruct (labelLoop_total (List.length d) d (le_n _)) as (rl & (Hdots & Hs) & Hloop).
  rewrite Hloop by lia. cbn [bind app].
  assert (Huniq : forall rl', domain_labels d (rev rl') -> rl' = rl).
  { intros rl' [[E1 E2]|(Hne & Hg & Hd)].
    - destruct Hs as [[_ ->]|[Hne Hs]].
      + rewrite <- (rev_involutive rl'), E2. reflexivity.
      + subst d. specialize (Hloop 1%nat [] ltac:(cbn; lia)). cbn in Hloop. congruence.
    - pose proof (labelLoop_join (rev rl') Hg Hne d Hd (S (List.length d)) [] ltac:(lia)) as K.
      rewrite Hloop in K by lia. cbn [app] in K. rewrite rev_involutive in K. congruence. }
  change (forallb _ rl) with (forallb labelOk rl).
  assert (Hall : forallb labelOk rl = true <-> Forall good_label rl).
  { rewrite forallb_forall, Forall_forall. rewrite Forall_forall in Hdots.
    split; intros H x Hx; [apply labelOk_good|apply labelOk_good]; auto. }
  destruct (match rl with l0 :: _ => zlen l0 =? 0 | [] => false end) eqn:E0.
  - eexists. split; [reflexivity|]. intros rl'. split; [discriminate|]. intros H. exfalso.
    pose proof (Huniq rl' H). subst rl'. destruct rl as [|l0 rl]; [discriminate E0|].
    destruct H as [[_ H]|(_ & H & _)]; [cbn [rev] in H; destruct (rev rl); discriminate H|].
    cbn [rev] in H. apply Forall_app in H. destruct H as [_ H]. inversion H as [|? ? [H1 _] _]; subst.
    apply H1, zlen_0_nil, Z.eqb_eq, E0.
  - destruct (forallb labelOk rl) eqn:Ea; eexists; (split; [reflexivity|]); intros rl'.
    + split.
      * intros E. injection E as <-. destruct Hs as [[-> ->]|[Hne Hs]]; [left; split; reflexivity|].
        right. split; [|split; [|exact Hs]].
        -- intros E. apply Hne. rewrite <- (rev_involutive rl), E. reflexivity.
        -- apply Forall_rev, Hall. reflexivity.
      * intros H. f_equal. symmetry. apply Huniq, H.
    + split; [discriminate|]. intros H. exfalso. pose proof (Huniq rl' H). subst rl'.
      assert (Forall good_label rl); [|apply Hall in H0; congruence].
      destruct H as [[_ H]|(_ & H & _)].
      * rewrite <- (rev_involutive rl), H. constructor.
      * apply Forall_rev in H. rewrite rev_involutive in H. exact H.
Qed.

Definition valid_domain (d : list Z) : Prop := exists labels, domain_labels d labels.
(** ... as a test. *)
Lemma domain_accepted : forall d, exists o, domainToReverseLabels d = Ret o /\ (o <> None <-> valid_domain d).
Proof.
  intros d. destruct (domainToReverseLabels_spec d) as (o & Ho & H). exists o. split; [exact Ho|]. split.
  - destruct o as [rl|]; [|congruence]. intros _. exists (rev rl). apply H. reflexivity.
  - intros (ls & Hl) ->. rewrite <- (rev_involutive ls) in Hl. apply H in Hl. discriminate Hl.
Qed.
Lemma valid_domain_dec : forall d, {valid_domain d} + {~ valid_domain d}.
Proof.
  intros d. destruct (domainToReverseLabels d) as [[rl|]|k] eqn:E.
  - left. destruct (domain_accepted d) as (o & Ho & H). apply H. congruence.
  - right. destruct (domain_accepted d) as (o & Ho & H). intros K. apply H in K. congruence.
  - exfalso. destruct (domain_accepted d) as (o & Ho & H). congruence.
Qed.

(** * C63: IP masks *)

Definition bits8 (b : Z) : list bool := map (fun i => Z.testbit b i) [7; 6; 5; 4; 3; 2; 1; 0].
(** Ones followed by zeros. *)
Definition prefix_mask (mask : list Z) : Prop :=
  exists k m, List.concat (map bits8 mask) = repeat true k ++ repeat false m.

Fixpoint otz (l : list bool) : bool :=
  match l with [] => true | true :: r => otz r | false :: r => forallb negb r end.
Lemma all_false : forall l, forallb negb l = true <-> exists m, l = repeat false m.
Proof.
  intros l; split.
  - induction l as [|[] r IH]; cbn [forallb negb andb]; intros H; [exists O; reflexivity|discriminate|].
    destruct (IH H) as [m ->]. exists (S m). reflexivity.
  - intros [m ->]. induction m; [reflexivity|exact IHm].
Qed.
Lemma otz_spec : forall l, otz l = true <-> exists k m, l = repeat true k ++ repeat false m.
Proof.
  intros l; split.
  - induction l as [|[] r IH]; cbn [otz]; intros H.
    + exists O, O. reflexivity.
    + destruct (IH H) as (k & m & ->). exists (S k), m. reflexivity.
    + apply all_false in H. destruct H as [m ->]. exists O, (S m). reflexivity.
  - intros (k & m & ->). induction k; [|exact IHk]. destruct m; [reflexivity|].
    cbn [repeat app otz]. apply all_false. exists m. reflexivity.
Qed.

Lemma byte_all : forall (P : Z -> Prop), Forall P (map Z.of_nat (seq 0 256)) -> forall b, byte b -> P b.
Proof.
  intros P H b Hb. rewrite Forall_forall in H. apply H. unfold byte in Hb. rewrite in_map_iff.
  exists (Z.to_nat b). split; [lia|]. apply in_seq. lia.
Qed.
Definition mask8 (b : Z) : bool := existsb (fun x => b =? x) [0x00; 0x80; 0xc0; 0xe0; 0xf0; 0xf8; 0xfc; 0xfe].
Lemma otz_byte : forall b, byte b -> forall l,
  otz (bits8 b ++ l) = if mask8 b then forallb negb l else if b =? 0xff then otz l else false.
Proof.
  apply (byte_all (fun b => forall l, otz (bits8 b ++ l) = if mask8 b then forallb negb l else if b =? 0xff then otz l else false)).
  cbn [map seq Z.of_nat Pos.of_succ_nat Pos.succ]. repeat constructor.
Qed.
Lemma zero_byte : forall b, byte b -> forall l, forallb negb (bits8 b ++ l) = if b =? 0 then forallb negb l else false.
Proof.
  apply (byte_all (fun b => forall l, forallb negb (bits8 b ++ l) = if b =? 0 then forallb negb l else false)).
  cbn [map seq Z.of_nat Pos.of_succ_nat Pos.succ]. repeat constructor.
Qed.

Lemma isValidIPMask_spec : forall mask, bytes mask -> (isValidIPMask mask = true <-> prefix_mask mask).
Proof.
  intros mask Hm. unfold prefix_mask. rewrite <- otz_spec. unfold isValidIPMask.
  assert (Z0 : forall m, bytes m -> maskLoop true m = forallb negb (List.concat (map bits8 m))).
  { induction m as [|b r IH]; intros H; [reflexivity|]. inversion H; subst. cbn [maskLoop map List.concat].
    rewrite zero_byte by assumption. destruct (b =? 0); cbn [negb]; [apply IH; assumption|reflexivity]. }
  assert (E : maskLoop false mask = otz (List.concat (map bits8 mask))); [|rewrite E; reflexivity].
  induction mask as [|b r IH]; [reflexivity|]. inversion Hm; subst. cbn [maskLoop map List.concat].
  rewrite otz_byte by assumption. fold (mask8 b). destruct (mask8 b); [apply Z0; assumption|].
  destruct (b =? 255); [apply IH; assumption|reflexivity].
Qed.

(** * C66: extended key usages *)

Lemma oidEqual_eq : forall a b, oidEqual a b = true <-> a = b.
Proof. intros a b. unfold oidEqual. destruct (list_eq_dec Z.eq_dec a b); split; congruence. Qed.
Lemma oidEqual_refl : forall a, oidEqual a a = true.
Proof. intros a. apply oidEqual_eq. reflexivity. Qed.

Lemma find_fst : forall l, NoDup (map fst l) -> forall u o,
  match find (fun p : Z * list Z => u =? fst p) l with Some p => Some (snd p) | None => None end = Some o <-> In (u, o) l.
Proof.
  induction l as [|[a b] l IH]; intros Hn u o; [cbn; split; [discriminate|intros []]|].
  inversion Hn as [|? ? Hnot Hn']; subst. cbn [find fst In]. destruct (Z.eqb_spec u a) as [->|N]; cbn [snd].
  - split; [intros E; injection E as ->; left; reflexivity|]. intros [E|H]; [injection E as ->; reflexivity|].
    exfalso. apply Hnot. apply (in_map fst) in H. exact H.
  - rewrite IH by exact Hn'. split; [right; assumption|]. intros [E|H]; [congruence|exact H].
Qed.
Lemma find_snd : forall l, NoDup (map snd l) -> forall u o,
  match find (fun p : Z * list Z => oidEqual o (snd p)) l with Some p => Some (fst p) | None => None end = Some u <-> In (u, o) l.
Proof.
  induction l as [|[a b] l IH]; intros Hn u o; [cbn; split; [discriminate|intros []]|].
  inversion Hn as [|? ? Hnot Hn']; subst. cbn [find snd In]. destruct (oidEqual o b) eqn:E; cbn [fst].
  - apply oidEqual_eq in E. subst b. split; [intros E; injection E as ->; left; reflexivity|].
    intros [E|H]; [injection E as ->; reflexivity|]. exfalso. apply Hnot. apply (in_map snd) in H. exact H.
  - rewrite IH by exact Hn'. split; [right; assumption|]. intros [K|H]; [|exact H].
    injection K as -> ->. rewrite oidEqual_refl in E. discriminate E.
Qed.
Fixpoint distinct {A} (dec : forall x y : A, {x = y} + {x <> y}) (l : list A) : bool :=
  match l with [] => true | x :: r => (if in_dec dec x r then false else true) && distinct dec r end.
Lemma NoDup_by_dec : forall A (dec : forall x y : A, {x = y} + {x <> y}) (l : list A), distinct dec l = true -> NoDup l.
Proof.
  intros A dec l. induction l as [|x r IH]; [constructor|]. cbn [distinct].
  destruct (in_dec dec x r); [discriminate|]. cbn [andb]. intros H. constructor; [assumption|apply IH, H].
Qed.

Lemma extKeyUsage_inverse : forall u oid, oidFromExtKeyUsage u = Some oid <-> extKeyUsageFromOID oid = Some u.
Proof.
  intros u oid. unfold oidFromExtKeyUsage, extKeyUsageFromOID.
  rewrite find_fst by (apply (NoDup_by_dec _ Z.eq_dec); vm_compute; reflexivity).
  rewrite find_snd by (apply (NoDup_by_dec _ (list_eq_dec Z.eq_dec)); vm_compute; reflexivity).
  reflexivity.
Qed.
Lemma extKeyUsage_known : forall u, (exists oid, oidFromExtKeyUsage u = Some oid) <-> 0 <= u <= 13.
Proof.
  intros u. unfold oidFromExtKeyUsage. split.
  - intros [oid H]. apply find_fst in H; [|apply (NoDup_by_dec _ Z.eq_dec); vm_compute; reflexivity].
    apply (in_map fst) in H. cbn in H. lia.
  - intros H. assert (In u (map fst extKeyUsageOIDs)) as K by (cbn; lia).
    apply in_map_iff in K. destruct K as ([a b] & <- & K). exists b.
    apply find_fst; [apply (NoDup_by_dec _ Z.eq_dec); vm_compute; reflexivity|exact K].
Qed.

(** * C72: mailboxes *)

(** A quoted local part between its quotes, and an unquoted one, with what they mean. A backslash
    quotes the next character. *)
Inductive quoted : list Z -> list Z -> Prop :=
| quoted_nil : quoted [] []
| quoted_char : forall c w l, (c = 11 \/ c = 12 \/ c = 127 \/ 1 <= c <= 8 \/ 14 <= c <= 33 \/ 35 <= c <= 91 \/ 93 <= c <= 126) ->
    quoted w l -> quoted (c :: w) (c :: l)
| quoted_pair : forall c w l, (1 <= c <= 9 \/ c = 11 \/ c = 12 \/ 14 <= c <= 127) ->
    quoted w l -> quoted (92 :: c :: w) (c :: l).
(** Letters, digits, the dot and !#$%&'*+-/=?^_`{|}~. *)
Definition atom_char (c : Z) : Prop :=
  48 <= c <= 57 \/ 97 <= c <= 122 \/ 65 <= c <= 90 \/ c = 46 \/
  In c [33; 35; 36; 37; 38; 39; 42; 43; 45; 47; 61; 63; 94; 95; 96; 123; 124; 125; 126].
Inductive atoms : list Z -> list Z -> Prop :=
| atoms_nil : atoms [] []
| atoms_char : forall c w l, atom_char c -> atoms w l -> atoms (c :: w) (c :: l)
| atoms_pair : forall c w l, atoms w l -> atoms (92 :: c :: w) (c :: l).
(** No dot first or last and no two dots in a row. *)
Definition dots_ok (l : list Z) : Prop :=
  l <> [] /\ (forall r, l <> 46 :: r) /\ (forall r, l <> r ++ [46]) /\ (forall a b, l <> a ++ 46 :: 46 :: b).
(** The mailboxes: a local part, written quoted or not, an @, and a domain. *)
Definition mailbox (s local domain : list Z) : Prop :=
  (valid_domain domain) /\
  ((exists w, quoted w local /\ s = 34 :: w ++ 34 :: 64 :: domain) \/
   (exists w, atoms w local /\ dots_ok local /\ s = w ++ 64 :: domain)).

Lemma quotedPairOk_spec : forall c, quotedPairOk c = true <-> (1 <= c <= 9 \/ c = 11 \/ c = 12 \/ 14 <= c <= 127).
Proof. intros c. unfold quotedPairOk. rewrite !orb_true_iff, !andb_true_iff, !Z.eqb_eq, !Z.leb_le. lia. Qed.
Lemma qtext_spec : forall c, qtext c = true <->
  (c = 11 \/ c = 12 \/ c = 127 \/ 1 <= c <= 8 \/ 14 <= c <= 33 \/ 35 <= c <= 91 \/ 93 <= c <= 126).
Proof. intros c. unfold qtext. rewrite !orb_true_iff, !andb_true_iff, !Z.eqb_eq, !Z.leb_le. lia. Qed.
Lemma atext_spec : forall c, atext c = true <-> atom_char c.
Proof.
  intros c. unfold atext, atom_char. cbn [existsb In].
  rewrite !orb_true_iff, !andb_true_iff, !Z.eqb_eq, !Z.leb_le. split; intros H.
  - repeat (destruct H as [H|H]; [lia|]). discriminate H || lia.
  - lia.
Qed.

Lemma quotedLoop_spec : forall n inp, (List.length inp <= n)%nat -> forall acc local rest,
  quotedLoop inp acc = Some (local, rest) <-> exists w l, quoted w l /\ inp = w ++ 34 :: rest /\ local = acc ++ l.
Proof.
  induction n as [|n IH]; intros inp Hn acc local rest.
  - destruct inp; [|cbn in Hn; lia]. cbn. split; [discriminate|]. intros (w & l & _ & E & _). destruct w; discriminate E.
  - destruct inp as [|c r].
    + cbn. split; [discriminate|]. intros (w & l & _ & E & _). destruct w; discriminate E.
    + cbn [List.length] in Hn. cbn [quotedLoop].
      destruct (Z.eqb_spec c 34) as [->|N1].
      * split.
        -- intros E. injection E as <- <-. exists [], []. rewrite (app_nil_r acc). repeat split. constructor.
        -- intros (w & l & Hq & E & ->). destruct Hq as [|c w l Hc|c w l Hc].
           ++ injection E as ->. rewrite app_nil_r. reflexivity.
           ++ injection E as <- _. lia.
           ++ discriminate E.
      * destruct (Z.eqb_spec c 92) as [->|N2].
        -- destruct r as [|d r].
           ++ split; [discriminate|]. intros (w & l & Hq & E & ->). destruct Hq as [|c w l Hc|c w l Hc].
              ** discriminate E.
              ** injection E as E _. lia.
              ** injection E as E. destruct w; discriminate E.
           ++ cbn [List.length] in Hn. destruct (quotedPairOk d) eqn:Ed.
              ** rewrite IH by lia. split.
                 --- intros (w & l & Hq & -> & ->). exists (92 :: d :: w), (d :: l).
                     rewrite <- app_assoc. repeat split. constructor; [apply quotedPairOk_spec, Ed|exact Hq].
                 --- intros (w & l & Hq & E & ->). destruct Hq as [|c w l Hc Hq|c w l Hc Hq].
                     +++ discriminate E.
                     +++ injection E as E _. lia.
                     +++ injection E as -> ->. exists w, l. rewrite <- app_assoc. repeat split. exact Hq.
              ** split; [discriminate|]. intros (w & l & Hq & E & ->). destruct Hq as [|c w l Hc Hq|c w l Hc Hq].
                 --- discriminate E.
                 --- injection E as E _. lia.
                 --- injection E as -> ->. apply quotedPairOk_spec in Hc. congruence.
        -- destruct (qtext c) eqn:Ec.
           ++ rewrite IH by lia. split.
              ** intros (w & l & Hq & -> & ->). exists (c :: w), (c :: l).
                 rewrite <- app_assoc. repeat split. constructor; [apply qtext_spec, Ec|exact Hq].
              ** intros (w & l & Hq & E & ->). destruct Hq as [|c' w l Hc Hq|c' w l Hc Hq].
                 --- injection E as E _. congruence.
                 --- injection E as -> ->. exists w, l. rewrite <- app_assoc. repeat split. exact Hq.
                 --- injection E as E _. congruence.
           ++ split; [discriminate|]. intros (w & l & Hq & E & ->). destruct Hq as [|c' w l Hc Hq|c' w l Hc Hq].
              ** injection E as E _. congruence.
              ** injection E as -> ->. apply qtext_spec in Hc. congruence.
              ** injection E as E _. congruence.
Qed.

(** The loop takes as much as it can; an @ stops it. *)
Lemma atomLoop_sound : forall n inp, (List.length inp <= n)%nat -> forall acc local rest,
  atomLoop inp acc = Some (local, rest) -> exists w l, atoms w l /\ inp = w ++ rest /\ local = acc ++ l.
Proof.
  induction n as [|n IH]; intros inp Hn acc local rest.
  - destruct inp; [|cbn in Hn; lia]. cbn. intros E. injection E as <- <-. exists [], []. rewrite (app_nil_r acc). repeat split. constructor.
  - destruct inp as [|c r].
    + cbn. intros E. injection E as <- <-. exists [], []. rewrite (app_nil_r acc). repeat split. constructor.
    + cbn [List.length] in Hn. cbn [atomLoop]. destruct (Z.eqb_spec c 92) as [->|N].
      * destruct r as [|d r]; [discriminate|]. cbn [List.length] in Hn. intros E. apply IH in E; [|lia].
        destruct E as (w & l & Ha & -> & ->). exists (92 :: d :: w), (d :: l). rewrite <- app_assoc. repeat split.
        constructor. exact Ha.
      * destruct (atext c) eqn:Ec.
        -- intros E. apply IH in E; [|lia]. destruct E as (w & l & Ha & -> & ->). exists (c :: w), (c :: l).
           rewrite <- app_assoc. repeat split. constructor; [apply atext_spec, Ec|exact Ha].
        -- intros E. injection E as <- <-. exists [], []. rewrite (app_nil_r acc). repeat split. constructor.
Qed.
Lemma atom_not_92 : forall c, atom_char c -> c <> 92 /\ c <> 34 /\ c <> 64.
Proof. intros c H. unfold atom_char in H. cbn [In] in H. lia. Qed.
Lemma atomLoop_complete : forall w l, atoms w l -> forall acc d, atomLoop (w ++ 64 :: d) acc = Some (acc ++ l, 64 :: d).
Proof.
  induction 1 as [|c w l Hc Ha IH|c w l Ha IH]; intros acc d.
  - cbn. rewrite app_nil_r. reflexivity.
  - cbn [app atomLoop]. pose proof (atom_not_92 c Hc). destruct (Z.eqb_spec c 92); [lia|].
    apply atext_spec in Hc. rewrite Hc, IH, <- app_assoc. reflexivity.
  - cbn [app atomLoop]. cbn [Z.eqb Pos.eqb]. rewrite IH, <- app_assoc. reflexivity.
Qed.

Lemma twoDots_spec : forall l, twoDots l = true <-> exists a b, l = a ++ 46 :: 46 :: b.
Proof.
  induction l as [|x r IH].
  - split; [discriminate|]. intros (a & b & E). destruct a; discriminate E.
  - cbn [twoDots]. destruct r as [|y r'].
    + split; [discriminate|]. intros (a & b & E). destruct a as [|? [|? ?]]; discriminate E.
    + rewrite orb_true_iff, andb_true_iff, !Z.eqb_eq, IH. split.
      * intros [[-> ->]|(a & b & E)]; [exists [], r'; reflexivity|]. exists (x :: a), b. rewrite E. reflexivity.
      * intros (a & b & E). destruct a as [|z a]; [injection E as -> -> ->; left; split; reflexivity|].
        injection E as -> E. right. exists a, b. exact E.
Qed.
Lemma dots_check : forall c l d, dots_ok (c :: l) <->
  (c =? 46) = false /\ (last (c :: l) d =? 46) = false /\ twoDots (c :: l) = false.
Proof.
  intros c l d. unfold dots_ok. rewrite Z.eqb_neq, Z.eqb_neq. split.
  - intros (_ & H1 & H2 & H3). split; [|split].
    + intros ->. apply (H1 l). reflexivity.
    + intros E. apply (H2 (removelast (c :: l))). rewrite <- E. apply app_removelast_last. discriminate.
    + destruct (twoDots (c :: l)) eqn:E; [|reflexivity]. apply twoDots_spec in E. destruct E as (a & b & E).
      exfalso. apply (H3 a b E).
  - intros (H1 & H2 & H3). split; [discriminate|]. split; [|split].
    + intros r E. injection E as E _. contradiction.
    + intros r E. apply H2. rewrite E. apply last_last.
    + intros a b E. assert (twoDots (c :: l) = true) by (apply twoDots_spec; exists a, b; exact E). congruence.
Qed.

Lemma index_last : forall (l : list Z) d, l <> [] -> go_index l (zlen l - 1) = Ret (last l d).
Proof.
  intros l d H. unfold go_index. pose proof (zlen_nonneg _ l).
  assert (0 < zlen l) by (destruct l; [congruence|rewrite zlen_cons; pose proof (zlen_nonneg _ l); lia]).
  destruct (Z.ltb_spec (zlen l - 1) 0); [lia|].
  destruct (exists_last H) as (a & x & ->). rewrite last_last, zlen_app.
  replace (Z.to_nat (zlen a + zlen [x] - 1)) with (List.length a + 0)%nat by (unfold zlen; cbn [List.length]; lia).
  rewrite nth_error_app2 by lia. replace (List.length a + 0 - List.length a)%nat with O by lia. reflexivity.
Qed.
Lemma slice_tl : forall (c : Z) r, go_slice (c :: r) 1 (zlen (c :: r)) = Ret r.
Proof.
  intros c r. unfold go_slice. rewrite zlen_cons. pose proof (zlen_nonneg _ r).
  destruct (Z.leb_spec 0 1); [|lia]. destruct (Z.leb_spec 1 (zlen r + 1)); [|lia].
  destruct (Z.leb_spec (zlen r + 1) (zlen r + 1)); [|lia]. cbn [andb]. f_equal. unfold sub.
  replace (Z.to_nat (zlen r + 1 - 1)) with (List.length r) by (unfold zlen; lia).
  change (Z.to_nat 1) with 1%nat. cbn [skipn]. apply firstn_all.
Qed.

Lemma parseRFC2821Mailbox_spec : forall s, exists o,
  parseRFC2821Mailbox s = Ret o /\ forall local domain, o = Some (local, domain) <-> mailbox s local domain.
Proof.
  intros s. unfold parseRFC2821Mailbox.
  destruct s as [|c r].
  { exists None. split; [reflexivity|]. intros local domain. split; [discriminate|].
    intros (_ & [(w & _ & E)|(w & _ & _ & E)]); [discriminate E|destruct w; discriminate E]. }
  assert (Lz : (zlen (c :: r) =? 0) = false)
    by (apply Z.eqb_neq; rewrite zlen_cons; pose proof (zlen_nonneg _ r); lia).
  rewrite Lz. change (go_index (c :: r) 0) with (@Ret Z c). cbn [bind].
  (* the rest after the local part *)
  assert (Tail : forall local inp : list Z, exists o,
    (if zlen inp =? 0 then Ret None
     else
       do c1 <- go_index inp 0;
       if negb (c1 =? 64) then Ret None
       else
         do inp1 <- go_slice inp 1 (zlen inp);
         do labels <- domainToReverseLabels inp1;
         match labels with
         | None => Ret None
         | Some _ => Ret (Some (local, inp1))
         end) = Ret o /\
    forall local' domain, o = Some (local', domain) <-> local' = local /\ inp = 64 :: domain /\ valid_domain domain).
  { intros local inp. destruct inp as [|c1 inp].
    - exists None. split; [reflexivity|]. intros; split; [discriminate|]. intros (_ & E & _). discriminate E.
    - assert (L1 : (zlen (c1 :: inp) =? 0) = false)
        by (apply Z.eqb_neq; rewrite zlen_cons; pose proof (zlen_nonneg _ inp); lia).
      rewrite L1. change (go_index (c1 :: inp) 0) with (@Ret Z c1). cbn [bind].
      destruct (Z.eqb_spec c1 64) as [->|N]; cbn [negb].
      + rewrite slice_tl. cbn [bind]. destruct (domain_accepted inp) as (o & -> & Ho). cbn [bind].
        destruct o as [ls|]; eexists; (split; [reflexivity|]); intros local' domain.
        * split.
          -- intros E. injection E as <- <-. repeat split. apply Ho. discriminate.
          -- intros (-> & E & _). injection E as ->. reflexivity.
        * split; [discriminate|]. intros (-> & E & V). injection E as ->. apply Ho in V. congruence.
      + exists None. split; [reflexivity|]. intros; split; [discriminate|]. intros (_ & E & _). congruence. }
  destruct (Z.eqb_spec c 34) as [->|N].
  - rewrite slice_tl. cbn [bind]. destruct (quotedLoop r []) as [[local inp]|] eqn:Eq; cbn [bind].
    + destruct (Tail local inp) as (o & Ho & HT). exists o. split; [exact Ho|]. intros local' domain. rewrite HT.
      pose proof (proj1 (quotedLoop_spec _ r (le_n _) [] local inp) Eq) as (w & l & Hq & -> & E0).
      cbn [app] in E0. subst l. unfold mailbox. split.
      * intros (-> & -> & V). split; [exact V|]. left. exists w. split; [exact Hq|reflexivity].
      * intros (V & [(w' & Hq' & E)|(w' & Ha & _ & E)]).
        -- injection E as E.
           assert (Eq' : quotedLoop (w ++ 34 :: inp) [] = Some (local', 64 :: domain)).
           { apply (quotedLoop_spec _ _ (le_n _)). exists w', local'. repeat split; assumption. }
           rewrite Eq in Eq'. injection Eq' as <- <-. repeat split. exact V.
        -- exfalso. destruct Ha as [|c w' l Hc Ha|c w' l Ha].
           ++ discriminate E.
           ++ injection E as <- _. apply atom_not_92 in Hc. lia.
           ++ discriminate E.
    + exists None. split; [reflexivity|]. intros local' domain. split; [discriminate|].
      intros (V & [(w' & Hq' & E)|(w' & Ha & _ & E)]); exfalso.
      * injection E as ->.
        assert (Eq' : quotedLoop (w' ++ 34 :: 64 :: domain) [] = Some (local', 64 :: domain)).
        { apply (quotedLoop_spec _ _ (le_n _)). exists w', local'. repeat split; assumption. }
        congruence.
      * destruct Ha as [|c w' l Hc Ha|c w' l Ha].
        -- discriminate E.
        -- injection E as <- _. apply atom_not_92 in Hc. lia.
        -- discriminate E.
  - assert (Only : forall local' domain, mailbox (c :: r) local' domain <->
               valid_domain domain /\ exists w, atoms w local' /\ dots_ok local' /\ c :: r = w ++ 64 :: domain).
    { intros local' domain. unfold mailbox. split.
      - intros (V & [(w & _ & E)|K]); [injection E as E _; contradiction|]. split; assumption.
      - intros (V & K). split; [exact V|]. right. exact K. }
    assert (Loop : forall local' domain, mailbox (c :: r) local' domain ->
               atomLoop (c :: r) [] = Some (local', 64 :: domain) /\ dots_ok local' /\ valid_domain domain).
    { intros local' domain H. apply Only in H. destruct H as (V & w & Ha & Hd & ->).
      rewrite (atomLoop_complete w local' Ha [] domain). repeat split; assumption || apply Hd. }
    destruct (atomLoop (c :: r) []) as [[local inp]|] eqn:Ea; cbn [bind].
    + pose proof (atomLoop_sound _ _ (le_n _) _ _ _ Ea) as (w & l & Ha & Ew & E0). cbn [app] in E0. subst l.
      destruct local as [|f local0].
      * exists None. split; [reflexivity|]. intros local' domain. split; [discriminate|]. intros H.
        apply Loop in H. destruct H as (E & (Hne & _) & _). injection E as <- _. congruence.
      * assert (Lf : (zlen (f :: local0) =? 0) = false)
          by (apply Z.eqb_neq; rewrite zlen_cons; pose proof (zlen_nonneg _ local0); lia).
        rewrite Lf. change (go_index (f :: local0) 0) with (@Ret Z f). cbn [bind].
        rewrite (index_last (f :: local0) 0) by discriminate. cbn [bind].
        destruct ((f =? 46) || (last (f :: local0) 0 =? 46) || twoDots (f :: local0)) eqn:Ed; cbn [bind].
        -- exists None. split; [reflexivity|]. intros local' domain. split; [discriminate|]. intros H.
           apply Loop in H. destruct H as (E & Hd & _). injection E as <- _.
           apply (dots_check f local0 0) in Hd. destruct Hd as (D1 & D2 & D3). rewrite D1, D2, D3 in Ed. discriminate Ed.
        -- apply orb_false_iff in Ed. destruct Ed as [Ed D3]. apply orb_false_iff in Ed. destruct Ed as [D1 D2].
           destruct (Tail (f :: local0) inp) as (o & Ho & HT). exists o. split; [exact Ho|].
           intros local' domain. rewrite HT. split.
           ++ intros (-> & -> & V). apply Only. split; [exact V|]. exists w. split; [exact Ha|].
              split; [apply (dots_check f local0 0); repeat split; assumption|exact Ew].
           ++ intros H. apply Loop in H. destruct H as (E & _ & V). injection E as <- <-. repeat split. exact V.
    + exists None. split; [reflexivity|]. intros local' domain. split; [discriminate|]. intros H.
      apply Loop in H. destruct H as (E & _). discriminate E.
Qed.

(** * The statements *)

(** C63: a mask passes exactly if its bits are ones followed by zeros. *)
Theorem C63_mask : forall mask, bytes mask ->
  (isValidIPMask mask = true <-> exists k m, List.concat (map bits8 mask) = repeat true k ++ repeat false m).
Proof. exact isValidIPMask_spec. Qed.
Example C63_mask_20 : isValidIPMask [255; 255; 240; 0] = true /\ isValidIPMask [255; 255; 240; 1] = false
  /\ isValidIPMask [255; 0; 255; 0] = false /\ isValidIPMask [255; 253; 0; 0] = false.
Proof. repeat split. Qed.

(** C64: which domain names pass, and the labels that are found. *)
Theorem C64_labels : forall d, exists o,
  domainToReverseLabels d = Ret o /\ forall rl, o = Some rl <-> domain_labels d (rev rl).
Proof. exact domainToReverseLabels_spec. Qed.
(** ... which are unique. *)
Lemma join_dots_inj : forall a b, Forall good_label a -> Forall good_label b -> a <> [] -> b <> [] ->
  join_dots a = join_dots b -> a = b.
Proof.
  intros a b Ha Hb Na Nb H.
  destruct (domainToReverseLabels_spec (join_dots a)) as (o & _ & S).
  assert (A : o = Some (rev a)) by (apply S; rewrite rev_involutive; right; split; [exact Na|]; split; [exact Ha|left; reflexivity]).
  assert (B : o = Some (rev b)) by (apply S; rewrite rev_involutive; right; split; [exact Nb|]; split; [exact Hb|left; exact H]).
  rewrite A in B. injection B as B. apply (f_equal (@rev (list Z))) in B. rewrite !rev_involutive in B. exact B.
Qed.
Theorem C64_labels_unique : forall d a b, domain_labels d a -> domain_labels d b -> a = b.
Proof.
  intros d a b Ha Hb. destruct (domainToReverseLabels_spec d) as (o & _ & S).
  rewrite <- (rev_involutive a) in Ha. apply S in Ha. rewrite <- (rev_involutive b) in Hb. apply S in Hb.
  rewrite Ha in Hb. injection Hb as Hb. apply (f_equal (@rev (list Z))) in Hb. rewrite !rev_involutive in Hb. exact Hb.
Qed.
(** "a.bc", ".a.bc", "a..bc", "a.", "a b". *)
Example C64_abc : domainToReverseLabels [97; 46; 98; 99] = Ret (Some [[98; 99]; [97]])
  /\ domainToReverseLabels [46; 97; 46; 98; 99] = Ret (Some [[98; 99]; [97]])
  /\ domainToReverseLabels [97; 46; 46; 98; 99] = Ret None /\ domainToReverseLabels [97; 46] = Ret None
  /\ domainToReverseLabels [97; 32; 98] = Ret None.
Proof. repeat split. Qed.
(** With a dot in front the name passes, with two it does not. *)
Theorem C64_leading_dot : forall labels, labels <> [] -> Forall good_label labels ->
  domainToReverseLabels (46 :: join_dots labels) = Ret (Some (rev labels)) /\
  domainToReverseLabels (46 :: 46 :: join_dots labels) = Ret None.
Proof.
  intros ls N H. split.
  - destruct (domainToReverseLabels_spec (46 :: join_dots ls)) as (o & -> & S). f_equal. apply S.
    rewrite rev_involutive. right. split; [exact N|]. split; [exact H|right; reflexivity].
  - destruct (domainToReverseLabels_spec (46 :: 46 :: join_dots ls)) as (o & -> & S). f_equal.
    destruct o as [rl|]; [|reflexivity]. exfalso. destruct (proj1 (S rl) eq_refl) as [[D _]|(N' & G & [D|D])]; [discriminate D| |].
    + destruct (rev rl) as [|l0 r]; [congruence|]. inversion G as [|? ? [G0 G1] _]; subst.
      destruct l0 as [|c l0]; [congruence|]. inversion G1 as [|? ? [_ Gc] _]; subst.
      destruct r; cbn [join_dots app] in D; injection D; intros; subst; congruence.
    + injection D as D. destruct (rev rl) as [|l0 r]; [congruence|]. inversion G as [|? ? [G0 G1] _]; subst.
      destruct l0 as [|c l0]; [congruence|]. inversion G1 as [|? ? [_ Gc] _]; subst.
      destruct r; cbn [join_dots app] in D; injection D; intros; subst; congruence.
Qed.

(** C65: IA5 strings are those of 7-bit bytes, whether the string is valid UTF-8 or not. *)
Theorem C65_ia5 : forall s, isIA5String s = true <-> Forall (fun b => b < 0x80) s.
Proof. exact isIA5String_spec. Qed.
Example C65_bytes : isIA5String [97; 127] = true /\ isIA5String [0xc3; 0xa9] = false /\ isIA5String [97; 0x80] = false.
Proof. repeat split. Qed.

(** C66: the known usages and their OIDs. *)
Theorem C66_bijection : forall u oid, oidFromExtKeyUsage u = Some oid <-> extKeyUsageFromOID oid = Some u.
Proof. exact extKeyUsage_inverse. Qed.
Theorem C66_known : forall u, (exists oid, oidFromExtKeyUsage u = Some oid) <-> 0 <= u <= 13.
Proof. exact extKeyUsage_known. Qed.
Example C66_server : oidFromExtKeyUsage 1 = Some [1; 3; 6; 1; 5; 5; 7; 3; 1]
  /\ extKeyUsageFromOID [1; 3; 6; 1; 5; 5; 7; 3; 1] = Some 1 /\ extKeyUsageFromOID [1; 3] = None /\ oidFromExtKeyUsage 14 = None.
Proof. repeat split. Qed.

(** C72: which mailboxes pass, and how they are taken apart. *)
Theorem C72_mailbox : forall s, exists o,
  parseRFC2821Mailbox s = Ret o /\ forall local domain, o = Some (local, domain) <-> mailbox s local domain.
Proof. exact parseRFC2821Mailbox_spec. Qed.
(** The mailboxes a@b, one with a quoted local part, a..b@c, a\@b@c, and one without a closing quote. *)
Example C72_mailboxes : parseRFC2821Mailbox [97; 64; 98] = Ret (Some ([97], [98]))
  /\ parseRFC2821Mailbox [34; 97; 32; 98; 34; 64; 99] = Ret (Some ([97; 32; 98], [99]))
  /\ parseRFC2821Mailbox [97; 46; 46; 98; 64; 99] = Ret None
  /\ parseRFC2821Mailbox [97; 92; 64; 98; 64; 99] = Ret (Some ([97; 64; 98], [99]))
  /\ parseRFC2821Mailbox [34; 97; 64; 98] = Ret None.
Proof. repeat split. Qed.
(** An empty domain passes, too. *)
Theorem C72_empty_domain : forall w local, atoms w local -> dots_ok local ->
  parseRFC2821Mailbox (w ++ [64]) = Ret (Some (local, [])).
Proof.
  intros w local Ha Hd. destruct (parseRFC2821Mailbox_spec (w ++ [64])) as (o & -> & S). f_equal. apply S.
  split; [exists []; left; split; reflexivity|]. right. exists w. split; [exact Ha|]. split; [exact Hd|reflexivity].
Qed.
Example C72_at : parseRFC2821Mailbox [97; 64] = Ret (Some ([97], [])).
Proof. reflexivity. Qed.
