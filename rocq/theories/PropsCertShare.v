(** Property C117: which parts of a parsed certificate or request are windows of the bytes that were
    parsed, and what follows when those bytes change afterwards. *)
From Coq Require Import ZArith List Lia Bool String.
From Verif Require Import GoBase BeMin CbString GoAsn1 GoAsn1Proofs GoText GoPkix Sm2 Sm2Der CbStringProofs Cert PropsCertNames PropsCertBuild PropsCert CertShare.
Import ListNotations.
Open Scope Z_scope.

(** * Windows *)

Definition okW (d : list Z) (w : win) : Prop := 0 <= w_off w /\ 0 <= w_len w /\ w_off w + w_len w <= zlen d.
(** [w] lies in [o], or is empty. *)
Definition inW (o w : win) : Prop :=
  0 <= w_len w /\ (w_len w = 0 \/ w_off o <= w_off w /\ w_off w + w_len w <= w_off o + w_len o).
(** [w'] is an end of [w]. *)
Definition tailW (w w' : win) : Prop := w_off w <= w_off w' /\ 0 <= w_len w' /\ w_off w' + w_len w' = w_off w + w_len w.
(** What lies between the beginning of [w] and the beginning of its end [w']. *)
Definition span (w w' : win) : win := mkW (w_off w) (w_off w' - w_off w).

Lemma rd_len : forall d w, okW d w -> zlen (rd d w) = w_len w.
Proof. intros d w (A & B & C). unfold rd. rewrite sub_length by lia. lia. Qed.
Lemma rd_sub : forall d w a b, okW d w -> 0 <= a <= b -> b <= w_len w -> sub (rd d w) a b = rd d (mkW (w_off w + a) (b - a)).
Proof.
  intros d w a b (A & B & C) H1 H2. unfold rd. rewrite sub_sub by lia. cbn [w_off w_len]. f_equal; lia.
Qed.
Lemma rd_end : forall d w h r, okW d w -> rd d w = h ++ r -> rd d (endW w (zlen r)) = r /\ okW d (endW w (zlen r)) /\ tailW w (endW w (zlen r)).
Proof.
  intros d w h r O H. pose proof (rd_len d w O) as L. rewrite H, zlen_app in L. pose proof (zlen_nonneg _ h). pose proof (zlen_nonneg _ r).
  assert (X : sub (rd d w) (zlen h) (zlen h + zlen r) = r) by (rewrite H; apply sub_app_r; lia).
  rewrite rd_sub in X by (try exact O; lia). destruct O as (A & B & C). split; [|split].
  - rewrite <- X at 2. unfold endW. f_equal. f_equal; lia.
  - unfold okW, endW. cbn [w_off w_len]. lia.
  - unfold tailW, endW. cbn [w_off w_len]. lia.
Qed.
Lemma tail_trans : forall a b c, tailW a b -> tailW b c -> tailW a c.
Proof. unfold tailW. intros. lia. Qed.
Lemma tail_refl : forall w, 0 <= w_len w -> tailW w w.
Proof. unfold tailW. intros. lia. Qed.
Lemma tail_ok : forall d a b, okW d a -> tailW a b -> okW d b.
Proof. unfold tailW, okW. intros. lia. Qed.
Lemma in_trans : forall a b c, inW a b -> inW b c -> inW a c.
Proof. unfold inW. intros. lia. Qed.
Lemma in_refl : forall w, 0 <= w_len w -> inW w w.
Proof. unfold inW. intros. lia. Qed.
Lemma in_nil : forall w, inW w nilW.
Proof. unfold inW. cbn. intros. lia. Qed.
Lemma span_in : forall o a b, tailW o a -> tailW a b -> inW o (span a b).
Proof. unfold inW, tailW, span. cbn [w_off w_len]. intros. lia. Qed.

Section Sim.
Variable d : list Z.
Hypothesis Bd : bytes d.

Lemma rd_bytes : forall w, bytes (rd d w).
Proof. intro w. apply sub_bytes. exact Bd. Qed.

(** * The parsers on windows and on contents do the same *)

(** [R o a b]: the windows of [a] lie in [o], and [a] reads as [b]. *)
Definition mono {A B} (R : win -> A -> B -> Prop) : Prop := forall o o' a b, inW o' o -> R o a b -> R o' a b.
Definition simR {A B} (R : A -> B -> Prop) (x : res A) (y : res B) : Prop :=
  match x, y with OK a, OK b => R a b | ERR m, ERR m' => m = m' | _, _ => False end.
Definition simF {A B} (R : win -> A -> B -> Prop) (w : win) (x : res (A * win)) (y : res (B * list Z)) : Prop :=
  simR (fun p q => R (span w (snd p)) (fst p) (fst q) /\ rd d (snd p) = snd q /\ tailW w (snd p)) x y.
Definition simU {A B} (R : win -> A -> B -> Prop) (uw : utyW A) (u : uty B) : Prop :=
  uw_any _ uw = u_any u /\ uw_tag _ uw = u_tag u /\ uw_comp _ uw = u_comp u /\
  forall utag t f i, okW d f -> okW d i -> inW f i -> simR (R f) (uw_body _ uw utag t f i) (u_body u utag t (rd d f) (rd d i)).

Lemma header_sim : forall w, okW d w ->
  simR (fun p q => fst p = fst q /\ rd d (snd p) = snd q /\ tailW w (snd p) /\ 0 <= tl_length (fst p)) (headerW d w) (parseTagAndLength (rd d w)).
Proof.
  intros w O. unfold headerW. destruct (parseTagAndLength (rd d w)) as [[t r]|m] eqn:E; [|reflexivity].
  cbn [rbind simR fst snd]. destruct (parse_header_inv _ _ _ (rd_bytes w) E) as (_ & L & h & H & _).
  destruct (rd_end d w h r O H) as (X & _ & T). split; [reflexivity|]. split; [exact X|]. split; [exact T|apply L].
Qed.
Lemma rd_nil : forall w, okW d w -> (w_len w =? 0) = match rd d w with [] => true | _ :: _ => false end.
Proof.
  intros w O. pose proof (rd_len d w O) as L. destruct (rd d w) as [|x l]; [cbn in L; rewrite <- L; reflexivity|].
  rewrite zlen_cons in L. pose proof (zlen_nonneg _ l). apply Z.eqb_neq. lia.
Qed.

Lemma simR_bind : forall A B A' B' (R : A -> B -> Prop) (R' : A' -> B' -> Prop) x y f g,
  simR R x y -> (forall a b, R a b -> simR R' (f a) (g b)) -> simR R' (rbind x f) (rbind y g).
Proof. intros A B A' B' R R' [a|m] [b|m'] f g H K; cbn [simR] in H; cbn [rbind]; [apply K, H|contradiction|contradiction|exact H]. Qed.

Lemma field_sim : forall A B (R : win -> A -> B -> Prop) uw u za zb p w, simU R uw u -> (fp_optional p = true -> forall o, R o za zb) -> okW d w ->
  simF R w (parseFieldW d uw za p w) (parseField u zb p (rd d w)).
Proof.
  intros A B R uw u za zb p w (U1 & U2 & U3 & U4) Z0 O.
  assert (Ab : fp_optional p = true -> simF R w (OK (za, w)) (OK (zb, rd d w))).
  { intro Op. unfold simF, simR. cbn [fst snd]. split; [apply (Z0 Op)|]. split; [reflexivity|]. apply tail_refl. apply O. }
  unfold parseFieldW, parseField. rewrite (rd_nil w O). destruct (rd d w) as [|x y] eqn:Ew.
  { destruct (fp_optional p); [exact (Ab eq_refl)|reflexivity]. }
  rewrite <- Ew in *. clear Ew x y.
  apply simR_bind with (1 := header_sim w O). intros [t r] [t' l] (Et & El & T & L). cbn [fst snd] in *. subst t' l.
  pose proof (tail_ok d w r O T) as Or.
  apply simR_bind with (R := fun (h : option (tagAndLength * win)) (h' : option (tagAndLength * list Z)) =>
    match h, h' with
    | Some (t, r), Some (t', l) => t = t' /\ rd d r = l /\ tailW w r /\ 0 <= tl_length t
    | None, None => fp_optional p = true
    | _, _ => False
    end).
  { destruct (fp_explicit p); [|cbn [simR]; auto].
    rewrite (rd_nil r Or). destruct (rd d r) as [|x y] eqn:Er; [reflexivity|]. rewrite <- Er in *. clear Er x y.
    destruct (_ && _); [|destruct (fp_optional p); [reflexivity|reflexivity]].
    rewrite U1. destruct (u_any u); [cbn [simR]; auto|].
    destruct (0 <? tl_length t); [|reflexivity].
    apply simR_bind with (1 := header_sim r Or). intros [t2 r2] [t2' l2] (Et2 & El2 & T2 & L2). cbn [fst snd] in *. subst t2' l2.
    cbn [simR]. split; [reflexivity|]. split; [reflexivity|]. split; [exact (tail_trans _ _ _ T T2)|exact L2]. }
  intros [[t2 r2]|] [[t2' l2]|]; try contradiction; [|exact Ab].
  intros (<- & <- & T2 & L2). rewrite U1, U2, U3.
  pose proof (tail_ok d w r2 O T2) as O2. rewrite (rd_len d r2 O2).
  assert (K : forall anyTag eclass etag,
    simF R w
     (if (negb anyTag && (negb (tl_class t2 =? eclass) || negb (tl_tag t2 =? etag))) || (negb (u_any u) && negb (Bool.eqb (tl_comp t2) (u_comp u)))
      then if fp_optional p then OK (za, w) else ERR "tags don't match"
      else if w_len r2 <? tl_length t2 then ERR "data truncated"
           else rbind (uw_body _ uw (if fp_set p then TagSet else u_tag u t2) t2
                         (mkW (w_off w) (w_off (endW r2 (w_len r2 - tl_length t2)) - w_off w)) (mkW (w_off r2) (tl_length t2)))
                  (fun v => OK (v, endW r2 (w_len r2 - tl_length t2))))
     (if (negb anyTag && (negb (tl_class t2 =? eclass) || negb (tl_tag t2 =? etag))) || (negb (u_any u) && negb (Bool.eqb (tl_comp t2) (u_comp u)))
      then if fp_optional p then OK (zb, rd d w) else ERR "tags don't match"
      else if w_len r2 <? tl_length t2 then ERR "data truncated"
           else rbind (u_body u (if fp_set p then TagSet else u_tag u t2) t2
                         (sub (rd d w) 0 (zlen (rd d w) - zlen (sub (rd d r2) (tl_length t2) (w_len r2)))) (sub (rd d r2) 0 (tl_length t2)))
                  (fun v => OK (v, sub (rd d r2) (tl_length t2) (w_len r2))))).
  { intros anyTag eclass etag. destruct (_ || _); [destruct (fp_optional p); [exact (Ab eq_refl)|reflexivity]|].
    destruct (Z.ltb_spec (w_len r2) (tl_length t2)) as [|Hl]; [reflexivity|].
    set (rest := endW r2 (w_len r2 - tl_length t2)). set (inner := mkW (w_off r2) (tl_length t2)).
    assert (Or2 : tailW r2 rest) by (unfold tailW, rest, endW; cbn [w_off w_len]; destruct O2; lia).
    assert (Orest : okW d rest) by (apply (tail_ok _ _ _ O2 Or2)).
    assert (Tw : tailW w rest) by (apply (tail_trans _ _ _ T2 Or2)).
    assert (E1 : sub (rd d r2) (tl_length t2) (w_len r2) = rd d rest).
    { rewrite rd_sub by (try exact O2; lia). unfold rest, endW. f_equal. f_equal; lia. }
    assert (E2 : sub (rd d r2) 0 (tl_length t2) = rd d inner).
    { rewrite rd_sub by (try exact O2; lia). unfold inner. f_equal. f_equal; lia. }
    assert (E3 : sub (rd d w) 0 (zlen (rd d w) - zlen (rd d rest)) = rd d (span w rest)).
    { rewrite (rd_len d w O), (rd_len d rest Orest). rewrite rd_sub by (try exact O; unfold tailW in Tw; lia).
      unfold span. f_equal. f_equal; unfold tailW in Tw; lia. }
    rewrite E1, E2, E3. change (mkW (w_off w) (w_off rest - w_off w)) with (span w rest).
    assert (Of : okW d (span w rest)) by (unfold okW, span in *; unfold tailW in Tw; cbn [w_off w_len]; lia).
    assert (Oi : okW d inner) by (unfold okW, inner in *; cbn [w_off w_len]; lia).
    assert (Ii : inW (span w rest) inner).
    { unfold inW, span, inner, rest, endW, tailW in *. cbn [w_off w_len] in *. lia. }
    apply simR_bind with (1 := U4 _ t2 _ _ Of Oi Ii). intros a b Hab. cbn [simR fst snd]. auto. }
  destruct (fp_tag p) as [n|]; [destruct (fp_explicit p)|]; apply K.
Qed.

(** Values that are copied. *)
Definition eqR {A} : win -> A -> A -> Prop := fun _ a b => a = b.
Lemma eqR_mono : forall A, mono (@eqR A).
Proof. intros A o o' a b _ H. exact H. Qed.
Lemma copied_sim : forall A (u : uty A), simU eqR (copied d u) u.
Proof.
  intros A u. repeat split. intros utag t f i _ _ _. cbn [copied uw_body]. destruct (u_body u utag t (rd d f) (rd d i)); reflexivity.
Qed.

(** Lists. *)
Lemma count_shape : forall A B (u : uty A) (v : uty B), u_any u = u_any v -> u_tag u = u_tag v -> u_comp u = u_comp v ->
  forall fuel l, countElements fuel u l = countElements fuel v l.
Proof.
  intros A B u v H1 H2 H3. induction fuel as [|fuel IH]; intro l; destruct l; try reflexivity.
  cbn [countElements]. destruct (parseTagAndLength _) as [[t r]|]; [|reflexivity]. cbn [rbind]. rewrite H1, H2, H3, IH. reflexivity.
Qed.
Definition listR {A B} (R : win -> A -> B -> Prop) : win -> list A -> list B -> Prop := fun o => Forall2 (R o).
Lemma listR_mono : forall A B (R : win -> A -> B -> Prop), mono R -> mono (listR R).
Proof. intros A B R M o o' a b I H. induction H; constructor; [eapply M; eauto|assumption]. Qed.
Lemma elements_sim : forall A B (R : win -> A -> B -> Prop) uw u za zb, mono R -> simU R uw u -> (forall o, R o za zb) ->
  forall n o w, okW d w -> okW d o -> tailW o w -> simR (listR R o) (parseElementsW d n uw za w) (parseElements n u zb (rd d w)).
Proof.
  intros A B R uw u za zb M U Z0. induction n as [|n IH]; intros o w O Oo T; [constructor|]. cbn [parseElementsW parseElements].
  apply simR_bind with (1 := field_sim _ _ R uw u za zb noParams w U (fun _ => Z0) O). intros [a w'] [b l] (Hab & El & T'). cbn [fst snd] in *. subst l.
  apply simR_bind with (1 := IH o w' (tail_ok _ _ _ O T') Oo (tail_trans _ _ _ T T')). intros x y H. constructor; [|exact H].
  eapply M; [|exact Hab]. apply span_in; assumption.
Qed.
Lemma sequence_sim : forall A B (R : win -> A -> B -> Prop) uw u za zb w, mono R -> simU R uw u -> (forall o, R o za zb) -> okW d w ->
  simR (listR R w) (parseSequenceOfW d uw za w) (parseSequenceOf u zb (rd d w)).
Proof.
  intros A B R uw u za zb w M U Z0 O. unfold parseSequenceOfW, parseSequenceOf.
  pose proof U as (U1 & U2 & U3 & _). rewrite (count_shape _ _ (shape uw) u U1 U2 U3).
  destruct (countElements _ u (rd d w)) as [n|m]; [|reflexivity]. cbn [rbind].
  apply elements_sim; auto. apply tail_refl. apply O.
Qed.
Lemma list_sim : forall A B (R : win -> A -> B -> Prop) uw u za zb s, mono R -> simU R uw u -> (forall o, R o za zb) ->
  simU (listR R) (uListW d uw za s) (uList u zb s).
Proof.
  intros A B R uw u za zb s M U Z0. repeat split. intros utag t f i Of Oi Ii. unfold uListW, uList. cbn [uw_body u_body].
  pose proof (sequence_sim A B R uw u za zb i M U Z0 Oi) as H.
  destruct (parseSequenceOfW d uw za i), (parseSequenceOf u zb (rd d i)); cbn [simR] in *; auto.
  eapply listR_mono; eauto.
Qed.

(** * The types of the repository *)

Definition winsRaw (r : RawW) : list win := [rw_bytes r; rw_full r].
Definition winsBits (b : BitsW) : list win := [bw_bytes b].
(** A copied bit string or octet string, which does not occur, counts as a window of negative length, which lies nowhere. *)
Definition winsAny (a : anyW) : list win :=
  match a with PlainW (AnyBits _) | PlainW (AnyBytes _) => [mkW 0 (-1)] | PlainW _ => [] | BitsAnyW b => winsBits b | BytesAnyW w => [w] end.
Definition winsATV (a : ATVW) : list win := winsAny (aw_value a).
Definition winsATVSet (a : ATVSetW) : list win := List.concat (map winsATV (List.concat (asw_value a))).
Definition winsAlg (a : AlgW) : list win := winsRaw (algw_params a).
Definition winsPKI (k : PKIW) : list win := pkw_raw k :: winsAlg (pkw_alg k) ++ winsBits (pkw_key k).
Definition winsTbsCSR (t : TbsCSRW) : list win :=
  trw_raw t :: winsRaw (trw_subject t) ++ winsPKI (trw_key t) ++ List.concat (map winsRaw (trw_attrs t)).
Definition winsCsr (c : CsrW) : list win := crw_raw c :: winsTbsCSR (crw_tbs c) ++ winsAlg (crw_alg c) ++ winsBits (crw_sig c).
Definition winsTBS (t : TBSW) : list win :=
  tbw_raw t :: winsAlg (tbw_alg t) ++ winsRaw (tbw_issuer t) ++ winsRaw (tbw_subject t) ++ winsPKI (tbw_key t) ++ winsBits (tbw_uid t) ++ winsBits (tbw_suid t).
Definition winsCert (c : CertW) : list win := ctw_raw c :: winsTBS (ctw_tbs c) ++ winsAlg (ctw_alg c) ++ winsBits (ctw_sig c).

(** Read as, with all windows in [o]. *)
Definition rR {A B} (read : A -> B) (wins : A -> list win) : win -> A -> B -> Prop :=
  fun o a b => b = read a /\ Forall (fun w => inW o w /\ okW d w) (wins a).
Lemma rR_mono : forall A B (read : A -> B) wins, mono (rR read wins).
Proof.
  intros A B read wins o o' a b I [H1 H2]. split; [exact H1|]. eapply Forall_impl; [|exact H2].
  intros w [X Y]. split; [exact (in_trans _ _ _ I X)|exact Y].
Qed.
Lemma rR_list : forall A B (read : A -> B) wins o a b, listR (rR read wins) o a b -> rR (map read) (fun l => List.concat (map wins l)) o a b.
Proof.
  intros A B read wins o a b H. induction H as [|x y l m [H1 H2] _ [H3 H4]]; [split; constructor|].
  split; [cbn [map]; congruence|]. cbn [map List.concat]. apply Forall_app. auto.
Qed.
Lemma simU_weak : forall A B (R R' : win -> A -> B -> Prop) uw u, (forall o a b, R o a b -> R' o a b) -> simU R uw u -> simU R' uw u.
Proof.
  intros A B R R' uw u K (U1 & U2 & U3 & U4). split; [exact U1|]. split; [exact U2|]. split; [exact U3|].
  intros utag t f i Of Oi Ii. specialize (U4 utag t f i Of Oi Ii). destruct (uw_body _ uw utag t f i), (u_body u utag t (rd d f) (rd d i)); cbn [simR] in *; auto.
Qed.
Lemma okW_nil : okW d nilW.
Proof. unfold okW. cbn. pose proof (zlen_nonneg _ d). lia. Qed.
Lemma rd_nilW : rd d nilW = [].
Proof. reflexivity. Qed.
Lemma field_step : forall A B (R : win -> A -> B -> Prop) uw u za zb p f i w, simU R uw u -> mono R -> (forall o, R o za zb) ->
  okW d i -> inW f i -> tailW i w ->
  simR (fun x y => R f (fst x) (fst y) /\ rd d (snd x) = snd y /\ tailW i (snd x)) (parseFieldW d uw za p w) (parseField u zb p (rd d w)).
Proof.
  intros A B R uw u za zb p f i w U M Z0 Oi Ii T. pose proof (field_sim A B R uw u za zb p w U (fun _ => Z0) (tail_ok _ _ _ Oi T)) as H.
  unfold simF in H. destruct (parseFieldW d uw za p w) as [[a w']|], (parseField u zb p (rd d w)) as [[b l]|]; cbn [simR fst snd] in *; try assumption.
  destruct H as (H1 & H2 & H3). split; [|split; [exact H2|exact (tail_trans _ _ _ T H3)]].
  eapply M; [|exact H1]. eapply in_trans; [exact Ii|]. apply span_in; assumption.
Qed.
Ltac fa := repeat (apply Forall_cons; [split; first [assumption|apply in_nil|apply okW_nil]|]); apply Forall_nil.
(** One field of a struct. *)
Ltac fmono := first [apply eqR_mono|apply rR_mono|apply listR_mono; first [apply rR_mono|apply listR_mono, rR_mono]|assumption].
Ltac fzero := intro; first [reflexivity|split; [reflexivity|fa]|constructor].
Ltac field L := eapply simR_bind; [eapply field_step; [apply L|fmono|fzero|eassumption|eassumption|eassumption]
   |let a := fresh "a" in let w := fresh "w" in let b := fresh "b" in let l := fresh "l" in let H := fresh "H" in let X := fresh "X" in let T := fresh "T" in
    intros [a w] [b l] (H & X & T); cbn [fst snd] in H, X, T; subst l].
Ltac start := split; [reflexivity|split; [reflexivity|split; [reflexivity|]]]; intros utag t f i Of Oi Ii;
  unfold structW, uStruct; cbn [uw_body u_body];
  assert (T0 : tailW i i) by (apply tail_refl; apply Oi); assert (If : inW f f) by (apply in_refl; apply Of).

Lemma sim_raw : simU (rR (readRaw d) winsRaw) uRawW uRaw.
Proof. start. cbn [uRawW uRaw uw_body u_body simR]. split; [reflexivity|]. fa. Qed.
Lemma bits_sim : forall f i, okW d i -> inW f i -> simR (rR (readBits d) winsBits f) (parseBitStringW d i) (parseBitString (rd d i)).
Proof.
  intros f i Oi Ii. unfold parseBitStringW. destruct (parseBitString (rd d i)) as [b|m] eqn:Eb; [|reflexivity]. cbn [rbind simR].
  unfold parseBitString in Eb. destruct (rd d i) as [|x l] eqn:El; [discriminate Eb|]. destruct (_ || _ || _); [discriminate Eb|]. injection Eb as <-.
  pose proof (rd_len d i Oi) as L. rewrite El, zlen_cons in L. pose proof (zlen_nonneg _ l).
  replace (w_len i - 1) with (zlen l) by lia. destruct (rd_end d i [x] l Oi El) as (X & O & T).
  split; [unfold readBits; cbn [bw_bytes bw_len bs_len]; rewrite X; reflexivity|]. apply Forall_cons; [|apply Forall_nil]. split; [|exact O].
  cbn [bw_bytes]. unfold inW, tailW in *. destruct Oi. lia.
Qed.
Lemma sim_bits : simU (rR (readBits d) winsBits) (uBitsW d) uBits.
Proof. start. apply bits_sim; assumption. Qed.
Lemma any_sim : forall f i w, okW d i -> inW f i -> tailW i w ->
  simR (fun x y => rR (readAny d) winsAny f (fst x) (fst y) /\ rd d (snd x) = snd y /\ tailW i (snd x)) (parseAnyW d w) (parseAny (rd d w)).
Proof.
  intros f i w Oi Ii T. pose proof (tail_ok _ _ _ Oi T) as O. unfold parseAnyW, parseAny. rewrite (rd_nil w O).
  destruct (rd d w) as [|x y] eqn:Ew; [reflexivity|]. rewrite <- Ew in *. clear Ew x y.
  apply simR_bind with (1 := header_sim w O). intros [t r] [t' l] (Et & El & Tr & L). cbn [fst snd] in *. subst t' l.
  pose proof (tail_ok d w r O Tr) as Or. rewrite (rd_len d r Or).
  destruct (Z.ltb_spec (w_len r) (tl_length t)) as [|Hl]; [reflexivity|].
  set (inner := mkW (w_off r) (tl_length t)). set (rest := endW r (w_len r - tl_length t)).
  assert (E1 : sub (rd d r) (tl_length t) (w_len r) = rd d rest).
  { rewrite rd_sub by (try exact Or; lia). unfold rest, endW. f_equal. f_equal; lia. }
  assert (E2 : sub (rd d r) 0 (tl_length t) = rd d inner).
  { rewrite rd_sub by (try exact Or; lia). unfold inner. f_equal. f_equal; lia. }
  rewrite E1, E2.
  assert (Tw : tailW i rest) by (unfold tailW, rest, endW in *; cbn [w_off w_len]; destruct Or; lia).
  assert (Ow : okW d inner) by (unfold okW, inner in *; cbn [w_off w_len]; lia).
  assert (Iw : inW f inner).
  { eapply in_trans; [exact Ii|]. unfold inW, tailW, inner in *; cbn [w_off w_len]; lia. }
  apply simR_bind with (R := rR (readAny d) winsAny f).
  2:{ intros a b Hab. cbn [simR fst snd]. auto. }
  destruct (_ && _); [|split; [reflexivity|constructor]].
  unfold parseAnyBodyW. clearbody inner. generalize (tl_tag t). intro tag. 
  destruct (Z.eqb_spec tag TagBitString) as [->|N1].
  { change (parseAnyBody TagBitString (rd d inner)) with (try v <- parseBitString (rd d inner); OK (AnyBits v)).
    apply simR_bind with (1 := bits_sim f inner Ow Iw). intros a b [-> H]. split; [reflexivity|exact H]. }
  destruct (Z.eqb_spec tag TagOctetString) as [->|N2].
  { split; [reflexivity|]. fa. }
  unfold parseAnyBody. apply Z.eqb_neq in N1, N2. rewrite N1, N2.
  repeat match goal with |- context [if ?c then _ else _] => destruct c end; try (split; [reflexivity|constructor]); try reflexivity.
  - destruct (parseInt64 _); [split; [reflexivity|constructor]|reflexivity].
  - destruct (parseObjectIdentifier _); [split; [reflexivity|constructor]|reflexivity].
  - destruct (parseUTCTime _); [split; [reflexivity|constructor]|reflexivity].
  - destruct (parseGeneralizedTime _); [split; [reflexivity|constructor]|reflexivity].
Qed.
Lemma sim_ATV : simU (rR (readATV d) winsATV) (uATVW d) uATV.
Proof.
  start. field (copied_sim _ uOID). apply simR_bind with (1 := any_sim f i w Oi Ii T).
  intros [v w'] [b' l] ([H1 H2] & _ & _). cbn [fst snd] in *. split; [|exact H2]. unfold readATV. cbn [aw_type aw_value].
  unfold eqR in H. congruence.
Qed.
Definition rdnR := listR (rR (readATV d) winsATV).
Lemma sim_RDNSequence : simU (listR rdnR) (uRDNSequenceW d) uRDNSequence.
Proof.
  apply list_sim; [apply listR_mono, rR_mono| |intro; constructor].
  apply list_sim; [apply rR_mono|apply sim_ATV|]. intro. split; [reflexivity|constructor].
Qed.
Lemma rdnR_read : forall o a b, listR rdnR o a b -> rR (map (map (readATV d))) (fun l => List.concat (map winsATV (List.concat l))) o a b.
Proof.
  intros o a b H. induction H as [|x y l m H1 _ [H3 H4]]; [split; constructor|]. destruct (rR_list _ _ _ _ _ _ _ H1) as [H5 H6].
  split; [cbn [map]; congruence|]. cbn [List.concat]. rewrite map_app, concat_app. apply Forall_app. auto.
Qed.
Lemma sim_ATVSet : simU (rR (readATVSet d) winsATVSet) (uATVSetW d) uATVSet.
Proof.
  start. field (copied_sim _ uOID).
  assert (L1 : simU rdnR (uListW d (uATVW d) zeroATVW false) (uList uATV zeroATV false)).
  { apply list_sim; [apply rR_mono|apply sim_ATV|]. intro. split; [reflexivity|constructor]. }
  assert (L2 : simU (listR rdnR) (uListW d (uListW d (uATVW d) zeroATVW false) [] false) (uList (uList uATV zeroATV false) [] false)).
  { apply list_sim; [apply listR_mono, rR_mono|exact L1|intro; constructor]. }
  field L2. apply rdnR_read in H0. destruct H0 as [H1 H2]. split; [|exact H2].
  unfold readATVSet. cbn [asw_type asw_value]. unfold eqR in H. congruence.
Qed.
Lemma sim_Alg : simU (rR (readAlg d) winsAlg) (uAlgW d) uAlg.
Proof.
  start. field (copied_sim _ uOID). field sim_raw. destruct H0 as [H1 H2]. split; [|exact H2].
  unfold readAlg. cbn [algw_oid algw_params]. unfold eqR in H. congruence.
Qed.
Definition pkiR (o : win) (a : PKIW) (b : publicKeyInfo) : Prop :=
  rR (readPKI d) winsPKI o a b /\ Forall (inW (pkw_raw a)) (winsPKI a).
Lemma in_of : forall f l, Forall (fun w => inW f w /\ okW d w) l -> Forall (inW f) l.
Proof. intros f l H. eapply Forall_impl; [|exact H]. intros w [X _]. exact X. Qed.
Lemma sim_PKI : simU pkiR (uPKIW d) uPKI.
Proof.
  start. field sim_Alg. field sim_bits. destruct H as [H1 H2], H0 as [H3 H4].
  assert (F : Forall (fun w => inW f w /\ okW d w) (winsPKI (mkPKIW f a a0))).
  { constructor; [split; assumption|]. apply Forall_app. auto. }
  split; [split; [unfold readPKI; cbn [pkw_raw pkw_alg pkw_key]; congruence|exact F]|].
  apply in_of. exact F.
Qed.
Lemma pkiR_mono : mono pkiR.
Proof. intros o o' a b I [H1 H2]. split; [exact (rR_mono _ _ _ _ o o' a b I H1)|exact H2]. Qed.
Lemma pkiR_zero : forall o, pkiR o zeroPKIW zeroPKI.
Proof.
  intro o. split; [split; [reflexivity|]; fa|]. repeat (apply Forall_cons; [apply in_nil|]). apply Forall_nil.
Qed.
(** [a] ends before [b] begins. *)
Definition beforeW (a b : win) : Prop := w_len a = 0 \/ w_len b = 0 \/ w_off a + w_len a <= w_off b.
Lemma before_span : forall i w1 w2 w3 a b, tailW i w1 -> tailW w1 w2 -> tailW w2 w3 -> inW (span i w1) a -> inW (span w2 w3) b -> beforeW a b.
Proof. unfold tailW, inW, span, beforeW. cbn [w_off w_len]. intros. lia. Qed.
(** With the windows of a struct in its Raw. *)
Definition tbsCSRR (o : win) (a : TbsCSRW) (b : tbsCertificateRequest) : Prop :=
  rR (readTbsCSR d) winsTbsCSR o a b /\ Forall (inW (trw_raw a)) (winsTbsCSR a) /\ Forall (inW (pkw_raw (trw_key a))) (winsPKI (trw_key a)).
Lemma tbsCSRR_mono : mono tbsCSRR.
Proof. intros o o' a b I [H1 H2]. split; [exact (rR_mono _ _ _ _ o o' a b I H1)|exact H2]. Qed.
Lemma tbsCSRR_zero : forall o, tbsCSRR o zeroTbsCSRW zeroTbsCSR.
Proof.
  intro o. split; [split; [reflexivity|]; fa|]. split; repeat (apply Forall_cons; [apply in_nil|]); apply Forall_nil.
Qed.
Lemma sim_TbsCSR : simU tbsCSRR (uTbsCSRW d) uTbsCSR.
Proof.
  pose proof pkiR_mono as M. pose proof pkiR_zero as Z0.
  assert (L : simU (listR (rR (readRaw d) winsRaw)) (uListW d uRawW zeroRawW false) (uList uRaw zeroRaw false)).
  { apply list_sim; [apply rR_mono|apply sim_raw|]. intro. split; [reflexivity|fa]. }
  start. field (copied_sim _ uInt). field sim_raw.
  eapply simR_bind; [eapply field_step; [apply sim_PKI|exact M|exact Z0|eassumption|eassumption|eassumption]|].
  intros [k w1] [kb l] (Hk & X & T2). cbn [fst snd] in Hk, X, T2. subst l. field L.
  unfold eqR in H. apply rR_list in H1. destruct H1 as [H6 H7], H0 as [H1 H2], Hk as [[H3 H4] H5].
  assert (F : Forall (fun w => inW f w /\ okW d w) (winsTbsCSR (mkTbsCSRW f a a0 k a1))).
  { constructor; [split; assumption|]. apply Forall_app. split; [exact H2|]. apply Forall_app. split; [exact H4|exact H7]. }
  split; [split; [unfold readTbsCSR; cbn [trw_raw trw_version trw_subject trw_key trw_attrs]; congruence|exact F]|].
  split; [apply in_of; exact F|exact H5].
Qed.
Definition csrR (o : win) (a : CsrW) (b : certificateRequest) : Prop :=
  rR (readCsr d) winsCsr o a b /\ crw_raw a = o /\ beforeW (trw_raw (crw_tbs a)) (bw_bytes (crw_sig a)) /\
  Forall (inW (trw_raw (crw_tbs a))) (winsTbsCSR (crw_tbs a)) /\ Forall (inW (pkw_raw (trw_key (crw_tbs a)))) (winsPKI (trw_key (crw_tbs a))).
Lemma sim_Csr : simU csrR (uCsrW d) uCsr.
Proof.
  start. clear T0. eapply simR_bind; [apply field_sim; [apply sim_TbsCSR|discriminate|exact Oi]|].
  intros [k w1] [kb l] (Hk & X & T1). cbn [fst snd] in Hk, X, T1. subst l. pose proof (tail_ok _ _ _ Oi T1) as O1.
  eapply simR_bind; [apply field_sim; [apply sim_Alg|discriminate|exact O1]|].
  intros [a w2] [b l] (Ha & X & T2). cbn [fst snd] in Ha, X, T2. subst l. pose proof (tail_ok _ _ _ O1 T2) as O2.
  eapply simR_bind; [apply field_sim; [apply sim_bits|discriminate|exact O2]|].
  intros [g w3] [g' l] (Hg & X & T3). cbn [fst snd] in Hg, X, T3. subst l.
  assert (B : beforeW (trw_raw k) (bw_bytes g)).
  { destruct Hk as [[_ K] _]. destruct Hg as [_ G]. inversion K as [|? ? [K1 _] _]. inversion G as [|? ? [G1 _] _].
    exact (before_span _ _ _ _ _ _ T1 T2 T3 K1 G1). }
  assert (I1 : inW f (span i w1)) by (apply (in_trans _ _ _ Ii), span_in; [apply tail_refl; apply Oi|exact T1]).
  assert (I2 : inW f (span w1 w2)) by (apply (in_trans _ _ _ Ii), span_in; assumption).
  assert (I3 : inW f (span w2 w3)) by (apply (in_trans _ _ _ Ii), span_in; [exact (tail_trans _ _ _ T1 T2)|exact T3]).
  apply (tbsCSRR_mono _ _ _ _ I1) in Hk. apply (rR_mono _ _ _ _ _ _ _ _ I2) in Ha. apply (rR_mono _ _ _ _ _ _ _ _ I3) in Hg.
  destruct Hk as [[K1 K2] K3], Ha as [H1 H2], Hg as [H3 H4].
  assert (F : Forall (fun w => inW f w /\ okW d w) (winsCsr (mkCsrW f k a g))).
  { constructor; [split; assumption|]. apply Forall_app. split; [exact K2|]. apply Forall_app. split; [exact H2|exact H4]. }
  split; [split; [unfold readCsr; cbn [crw_raw crw_tbs crw_alg crw_sig]; congruence|exact F]|]. split; [reflexivity|]. split; [exact B|exact K3].
Qed.
Definition tbsR (o : win) (a : TBSW) (b : TBSCertificate) : Prop :=
  rR (readTBS d) winsTBS o a b /\ Forall (inW (tbw_raw a)) (winsTBS a) /\ Forall (inW (pkw_raw (tbw_key a))) (winsPKI (tbw_key a)).
Lemma tbsR_mono : mono tbsR.
Proof. intros o o' a b I [H1 H2]. split; [exact (rR_mono _ _ _ _ o o' a b I H1)|exact H2]. Qed.
Lemma tbsR_zero : forall o, tbsR o zeroTBSW zeroTBS.
Proof.
  intro o. split; [split; [reflexivity|]; fa|]. split; repeat (apply Forall_cons; [apply in_nil|]); apply Forall_nil.
Qed.
Lemma sim_TBS : simU tbsR (uTBSW d) uTBS.
Proof.
  start. field (copied_sim _ uInt). field (copied_sim _ uBigInt). field sim_Alg. field sim_raw. field (copied_sim _ uValidity). field sim_raw.
  eapply simR_bind; [eapply field_step; [apply sim_PKI|exact pkiR_mono|exact pkiR_zero|eassumption|eassumption|eassumption]|].
  intros [k w9] [kb l] (Hk & X & T9). cbn [fst snd] in Hk, X, T9. subst l.
  field sim_bits. field sim_bits. field (copied_sim _ (uSlice uExtension zeroExt false)).
  unfold eqR in *. destruct H1 as [H1 F1], H2 as [H2 F2], H4 as [H4 F4], H5 as [H5 F5], H6 as [H6 F6], Hk as [[K1 K2] K3].
  match goal with |- simR _ (OK ?x) _ => assert (F : Forall (fun w => inW f w /\ okW d w) (winsTBS x)) end.
  { constructor; [split; assumption|]. repeat (apply Forall_app; split; [assumption|]). assumption. }
  split; [split; [unfold readTBS; cbn [tbw_raw tbw_version tbw_serial tbw_alg tbw_issuer tbw_notBefore tbw_notAfter tbw_subject tbw_key tbw_uid tbw_suid tbw_exts]; congruence|exact F]|].
  split; [apply in_of; exact F|exact K3].
Qed.
Definition certR (o : win) (a : CertW) (b : certificate) : Prop :=
  rR (readCert d) winsCert o a b /\ ctw_raw a = o /\ beforeW (tbw_raw (ctw_tbs a)) (bw_bytes (ctw_sig a)) /\
  Forall (inW (tbw_raw (ctw_tbs a))) (winsTBS (ctw_tbs a)) /\ Forall (inW (pkw_raw (tbw_key (ctw_tbs a)))) (winsPKI (tbw_key (ctw_tbs a))).
Lemma sim_Cert : simU certR (uCertW d) uCert.
Proof.
  start. clear T0. eapply simR_bind; [apply field_sim; [apply sim_TBS|discriminate|exact Oi]|].
  intros [k w1] [kb l] (Hk & X & T1). cbn [fst snd] in Hk, X, T1. subst l. pose proof (tail_ok _ _ _ Oi T1) as O1.
  eapply simR_bind; [apply field_sim; [apply sim_Alg|discriminate|exact O1]|].
  intros [a w2] [b l] (Ha & X & T2). cbn [fst snd] in Ha, X, T2. subst l. pose proof (tail_ok _ _ _ O1 T2) as O2.
  eapply simR_bind; [apply field_sim; [apply sim_bits|discriminate|exact O2]|].
  intros [g w3] [g' l] (Hg & X & T3). cbn [fst snd] in Hg, X, T3. subst l.
  assert (B : beforeW (tbw_raw k) (bw_bytes g)).
  { destruct Hk as [[_ K] _]. destruct Hg as [_ G]. inversion K as [|? ? [K1 _] _]. inversion G as [|? ? [G1 _] _].
    exact (before_span _ _ _ _ _ _ T1 T2 T3 K1 G1). }
  assert (I1 : inW f (span i w1)) by (apply (in_trans _ _ _ Ii), span_in; [apply tail_refl; apply Oi|exact T1]).
  assert (I2 : inW f (span w1 w2)) by (apply (in_trans _ _ _ Ii), span_in; assumption).
  assert (I3 : inW f (span w2 w3)) by (apply (in_trans _ _ _ Ii), span_in; [exact (tail_trans _ _ _ T1 T2)|exact T3]).
  apply (tbsR_mono _ _ _ _ I1) in Hk. apply (rR_mono _ _ _ _ _ _ _ _ I2) in Ha. apply (rR_mono _ _ _ _ _ _ _ _ I3) in Hg.
  destruct Hk as [[K1 K2] K3], Ha as [H1 H2], Hg as [H3 H4].
  assert (F : Forall (fun w => inW f w /\ okW d w) (winsCert (mkCertW f k a g))).
  { constructor; [split; assumption|]. apply Forall_app. split; [exact K2|]. apply Forall_app. split; [exact H2|exact H4]. }
  split; [split; [unfold readCert; cbn [ctw_raw ctw_tbs ctw_alg ctw_sig]; congruence|exact F]|]. split; [reflexivity|]. split; [exact B|exact K3].
Qed.

(** * Certificates and requests *)

Definition simG {A B} (R : A -> B -> Prop) (x : go (res A)) (y : go (res B)) : Prop :=
  match x, y with Ret a, Ret b => simR R a b | Panic k, Panic k' => k = k' | _, _ => False end.
Lemma simG_bind : forall A B A' B' (R : A -> B -> Prop) (R' : A' -> B' -> Prop) x y f g,
  simG R x y -> (forall a b, R a b -> simG R' (f a) (g b)) -> simG R' (gbind x f) (gbind y g).
Proof.
  intros A B A' B' R R' [[a|m]|k] [[b|m']|k'] f g H K; cbn [simG simR] in H; unfold gbind; try contradiction; [apply K, H|exact H|exact H].
Qed.
Lemma simG_same : forall A A' B' (R' : A' -> B' -> Prop) (x : go (res A)) f g, (forall a, simG R' (f a) (g a)) -> simG R' (gbind x f) (gbind x g).
Proof. intros A A' B' R' [[a|m]|k] f g K; unfold gbind; [apply K|reflexivity|reflexivity]. Qed.

Lemma names_fill : forall s, n_Names (FillFromRDNSequence zeroName s) = List.concat s.
Proof.
  assert (K1 : forall a n, n_Names (fillATV n a) = n_Names n ++ [a]).
  { intros a n. unfold fillATV. destruct (atv_value a); try reflexivity.
    destruct (atv_type a) as [|a0 [|a1 [|a2 [|a3 [|]]]]]; try reflexivity.
    destruct (_ && _); [|reflexivity]. repeat (match goal with |- context [if ?c then _ else _] => destruct c end; try reflexivity). }
  assert (K2 : forall l n, n_Names (fold_left fillATV l n) = n_Names n ++ l).
  { induction l as [|a l IH]; intro n; [cbn; rewrite app_nil_r; reflexivity|]. cbn [fold_left]. rewrite IH, K1, <- app_assoc. reflexivity. }
  assert (K3 : forall s n, n_Names (fold_left (fun n rdn => fold_left fillATV rdn n) s n) = n_Names n ++ List.concat s).
  { induction s as [|r s IH]; intro n; [cbn; rewrite app_nil_r; reflexivity|]. cbn [fold_left List.concat]. rewrite IH, K2, <- app_assoc. reflexivity. }
  intro s. unfold FillFromRDNSequence. rewrite K3. reflexivity.
Qed.
Lemma fill_view : forall s, withNames (map (readATV d) (List.concat s)) (fillW d s) = FillFromRDNSequence zeroName (map (map (readATV d)) s).
Proof.
  intro s. unfold fillW. pose proof (names_fill (map (map (readATV d)) s)) as H. rewrite concat_map, <- H.
  destruct (FillFromRDNSequence _ _). reflexivity.
Qed.
Lemma align_view : forall b, okW d (bw_bytes b) -> readSharing d (rightAlignW d b) = rightAlign (readBits d b).
Proof.
  intros b O. unfold rightAlignW, rightAlign, readBits. cbn [bs_bytes bs_len]. rewrite (rd_len d _ O). destruct (_ || _); reflexivity.
Qed.
Lemma attrs_sim : forall o l, Forall (fun w => inW o w /\ okW d w) (List.concat (map winsRaw l)) ->
  map (readATVSet d) (parseRawAttributesW d l) = parseRawAttributes (map (readRaw d) l) /\
  Forall (fun w => inW o w /\ okW d w) (List.concat (map winsATVSet (parseRawAttributesW d l))).
Proof.
  intros o. unfold parseRawAttributesW, parseRawAttributes, unmarshalW, unmarshal. induction l as [|r l IH]; intro F; [split; constructor|].
  cbn [map List.concat] in *. apply Forall_app in F. destruct F as [F1 F2]. destruct (IH F2) as [E1 E2].
  inversion F1 as [|? ? _ F3]. inversion F3 as [|? ? [I O] _]. subst.
  change (rv_full (readRaw d r)) with (rd d (rw_full r)).
  pose proof (field_sim _ _ _ _ _ (mkATVSW [] []) (mkATVS [] []) noParams (rw_full r) sim_ATVSet ltac:(discriminate) O) as H.
  unfold simF in H.
  destruct (parseFieldW d (uATVSetW d) (mkATVSW [] []) noParams (rw_full r)) as [[a w']|],
           (parseField uATVSet (mkATVS [] []) noParams (rd d (rw_full r))) as [[b q]|]; cbn [simR fst snd] in H; try contradiction; [|split; assumption].
  destruct H as (H & <- & T). rewrite (rd_nil w' (tail_ok _ _ _ O T)). destruct (rd d w'); [|split; assumption].
  cbn [app map]. rewrite E1. destruct H as [-> H]. split; [reflexivity|]. cbn [map List.concat]. apply Forall_app. split; [|exact E2].
  eapply Forall_impl; [|exact H]. intros w [X Y]. split; [|exact Y]. eapply in_trans; [exact I|]. eapply in_trans; [|exact X].
  apply span_in; [apply tail_refl; apply O|exact T].
Qed.

Lemma unmarshal_sim : forall A B (R : win -> A -> B -> Prop) uw u z z' w, simU R uw u -> okW d w ->
  simR (fun p q => R (span w (snd p)) (fst p) (fst q) /\ rd d (snd p) = snd q /\ tailW w (snd p) /\ w_len (snd p) = zlen (snd q))
    (unmarshalW d uw z w) (unmarshal u z' (rd d w)).
Proof.
  intros A B R uw u z z' w S O. pose proof (field_sim _ _ R uw u z z' noParams w S ltac:(discriminate) O) as H. unfold simF in H.
  unfold unmarshalW, unmarshal. destruct (parseFieldW d uw z noParams w) as [[a w']|], (parseField u z' noParams (rd d w)) as [[b q]|];
    cbn [simR fst snd] in *; try contradiction; [|exact H].
  destruct H as (H1 & H2 & H3). repeat split; try assumption; try apply H3. rewrite <- H2. symmetry. apply rd_len, (tail_ok _ _ _ O H3).
Qed.
Lemma span_all : forall w w', tailW w w' -> w_len w' = 0 -> span w w' = w.
Proof. intros [o l] [o' l'] (A & B & C) Z0. unfold span. cbn [w_off w_len] in *. f_equal. lia. Qed.

Lemma subject_sim : forall w, okW d w ->
  simR (fun p q => w_len (snd p) = zlen (snd q) /\ fst q = map (map (readATV d)) (fst p) /\
                   Forall (fun v => inW w v /\ okW d v) (List.concat (map winsATV (List.concat (fst p)))))
    (unmarshalW d (uRDNSequenceW d) [] w) (unmarshal uRDNSequence [] (rd d w)).
Proof.
  intros w O. pose proof (unmarshal_sim _ _ _ _ _ [] [] w sim_RDNSequence O) as H.
  destruct (unmarshalW d (uRDNSequenceW d) [] w) as [[a w']|], (unmarshal uRDNSequence [] (rd d w)) as [[b q]|]; cbn [simR fst snd] in *; try contradiction; [|exact H].
  destruct H as (H1 & H2 & H3 & H4). apply rdnR_read in H1. destruct H1 as [-> H1]. split; [exact H4|]. split; [reflexivity|].
  eapply Forall_impl; [|exact H1]. intros v [X Y]. split; [|exact Y]. eapply in_trans; [|exact X]. apply span_in; [apply tail_refl; apply O|exact H3].
Qed.
End Sim.

(** * Where the windows of a result lie *)

Definition sharedIn (o tbs : win) (s : sharing) : Prop := match s with Shared v => inW o v /\ beforeW tbs v | Own _ => True end.
Definition requestIn {E} (w : win) (q : RequestW E) : Prop :=
  q_Raw E q = w /\ inW w (q_RawTBS E q) /\ inW (q_RawTBS E q) (q_RawSPKI E q) /\ inW (q_RawTBS E q) (q_RawSubject E q) /\
  sharedIn w (q_RawTBS E q) (q_Signature E q) /\
  Forall (inW (q_RawSubject E q)) (List.concat (map winsATV (q_Names E q))) /\
  Forall (inW (q_RawTBS E q)) (List.concat (map winsATVSet (q_Attributes E q))).
Definition certificateIn {E} (w : win) (k : CertificateW E) : Prop :=
  k_Raw E k = w /\ inW w (k_RawTBS E k) /\ inW (k_RawTBS E k) (k_RawSPKI E k) /\ inW (k_RawTBS E k) (k_RawSubject E k) /\ inW (k_RawTBS E k) (k_RawIssuer E k) /\
  sharedIn w (k_RawTBS E k) (k_Signature E k) /\
  Forall (inW (k_RawIssuer E k)) (List.concat (map winsATV (k_IssuerNames E k))) /\
  Forall (inW (k_RawSubject E k)) (List.concat (map winsATV (k_SubjectNames E k))).

Section Results.
Variables (d : list Z) (Bd : bytes d) (E : netEnv).

Lemma request_sim : forall w, okW d w ->
  simG (fun q r => r = viewRequest d q /\ requestIn w q) (ParseCertificateRequestW d E w) (ParseCertificateRequest E (rd d w)).
Proof.
  intros w O. unfold ParseCertificateRequestW, ParseCertificateRequest.
  eapply simG_bind; [exact (unmarshal_sim d Bd _ _ _ _ _ zeroCsrW zeroCsr w (sim_Csr d Bd) O)|].
  intros [c w'] [r rest] (H & X & T & L). cbn [fst snd] in *. rewrite <- L. destruct (w_len w' =? 0) eqn:Z0; cbn [negb]; [|reflexivity].
  apply Z.eqb_eq in Z0. rewrite (span_all _ _ T Z0) in H. destruct H as ((-> & F) & R & B & F1 & F2).
  unfold parseCertificateRequestW, parseCertificateRequest.
  cbn [readCsr cr_tbs cr_alg cr_sig cr_raw readTbsCSR tr_key tr_subject tr_raw tr_attrs tr_version readAlg alg_oid].
  change (alg_oid (pki_alg (readPKI d (trw_key (crw_tbs c))))) with (algw_oid (pkw_alg (trw_key (crw_tbs c)))).
  destruct (oidEqual _ _); cbn [negb]; [|reflexivity]. destruct (oidEqual _ _); cbn [negb]; [|reflexivity].
  apply simG_same. intro pub.
  rewrite Forall_forall in F, F1. pose proof (F (trw_raw (crw_tbs c)) ltac:(cbn; tauto)) as [F5 _].
  pose proof (F (rw_full (trw_subject (crw_tbs c))) ltac:(cbn; tauto)) as [_ Os].
  pose proof (F (bw_bytes (crw_sig c)) ltac:(unfold winsCsr; right; apply in_or_app; right; cbn; tauto)) as [Ig Og].
  pose proof (F1 (rw_full (trw_subject (crw_tbs c))) ltac:(cbn; tauto)) as Is.
  pose proof (F1 (pkw_raw (trw_key (crw_tbs c))) ltac:(cbn; tauto)) as Ik. rewrite R in *.
  eapply simG_bind; [exact (subject_sim d Bd _ Os)|].
  intros [s ws] [sb l] (L1 & H1 & H2). cbn [fst snd] in L1, H1, H2. rewrite <- L1. destruct (w_len ws =? 0); cbn [negb]; [|reflexivity]. subst sb.
  apply simG_same. intro exts. apply simG_same. intro san. cbn [simG simR].
  assert (FA : Forall (fun w => inW (trw_raw (crw_tbs c)) w /\ okW d w) (List.concat (map winsRaw (trw_attrs (crw_tbs c))))).
  { apply Forall_forall. intros v V.
    assert (V' : In v (winsTbsCSR (crw_tbs c))) by (unfold winsTbsCSR; right; apply in_or_app; right; apply in_or_app; right; exact V).
    split; [exact (F1 v V')|]. apply (F v). right. apply in_or_app. left. exact V'. }
  destruct (attrs_sim d Bd _ _ FA) as [A1 A2].
  split.
  - unfold viewRequest. cbn. rewrite fill_view, align_view, A1 by exact Og. reflexivity.
  - unfold requestIn. cbn [q_Raw q_RawTBS q_RawSPKI q_RawSubject q_Signature q_Names q_Attributes].
    repeat (split; [first [reflexivity|assumption]|]). split; [|split; [exact (in_of d _ _ H2)|exact (in_of d _ _ A2)]].
    unfold sharedIn, rightAlignW. destruct (_ || _); [split; assumption|exact I].
Qed.

Lemma cert_sim : forall w, okW d w ->
  simG (fun k c => c = viewCertificate d k /\ certificateIn w k) (ParseCertificateW d E w) (ParseCertificate E (rd d w)).
Proof.
  intros w O. unfold ParseCertificateW, ParseCertificate.
  eapply simG_bind; [exact (unmarshal_sim d Bd _ _ _ _ _ zeroCertW zeroCert w (sim_Cert d Bd) O)|].
  intros [c w'] [r rest] (H & X & T & L). cbn [fst snd] in *. rewrite <- L. destruct (w_len w' =? 0) eqn:Z0; cbn [negb]; [|reflexivity].
  apply Z.eqb_eq in Z0. rewrite (span_all _ _ T Z0) in H. destruct H as ((-> & F) & R & B & F1 & F2).
  unfold parseCertificateW, parseCertificate.
  cbn [readCert ct_tbs ct_alg ct_sig ct_raw readTBS tb_key tb_subject tb_issuer tb_raw tb_exts tb_serial tb_notBefore tb_notAfter tb_version readAlg alg_oid].
  change (alg_oid (pki_alg (readPKI d (tbw_key (ctw_tbs c))))) with (algw_oid (pkw_alg (tbw_key (ctw_tbs c)))).
  destruct (oidEqual _ _); cbn [negb]; [|reflexivity]. destruct (oidEqual _ _); cbn [negb]; [|reflexivity].
  apply simG_same. intro pub.
  rewrite Forall_forall in F, F1. pose proof (F (tbw_raw (ctw_tbs c)) ltac:(cbn; tauto)) as [F5 _].
  pose proof (F (rw_full (tbw_subject (ctw_tbs c))) ltac:(cbn; tauto)) as [_ Os].
  pose proof (F (rw_full (tbw_issuer (ctw_tbs c))) ltac:(cbn; tauto)) as [_ Oi].
  pose proof (F (bw_bytes (ctw_sig c)) ltac:(unfold winsCert; right; apply in_or_app; right; cbn; tauto)) as [Ig Og].
  pose proof (F1 (rw_full (tbw_subject (ctw_tbs c))) ltac:(cbn; tauto)) as Is.
  pose proof (F1 (rw_full (tbw_issuer (ctw_tbs c))) ltac:(cbn; tauto)) as Ii.
  pose proof (F1 (pkw_raw (tbw_key (ctw_tbs c))) ltac:(cbn; tauto)) as Ik. rewrite R in *.
  unfold unmarshalAll. change (rv_full (readRaw d (tbw_subject (ctw_tbs c)))) with (rd d (rw_full (tbw_subject (ctw_tbs c)))).
  change (rv_full (readRaw d (tbw_issuer (ctw_tbs c)))) with (rd d (rw_full (tbw_issuer (ctw_tbs c)))).
  pose proof (subject_sim d Bd _ Os) as S1. pose proof (subject_sim d Bd _ Oi) as S2.
  destruct (unmarshalW d (uRDNSequenceW d) [] (rw_full (tbw_subject (ctw_tbs c)))) as [[s ws]|],
           (unmarshal uRDNSequence [] (rd d (rw_full (tbw_subject (ctw_tbs c))))) as [[sb l]|]; cbn [simR fst snd rbind] in *; try contradiction; cbn [gbind]; [|exact S1].
  destruct S1 as (L1 & -> & H2). rewrite <- L1. destruct (w_len ws =? 0); cbn [negb gbind rbind]; [|reflexivity].
  destruct (unmarshalW d (uRDNSequenceW d) [] (rw_full (tbw_issuer (ctw_tbs c)))) as [[i wi]|],
           (unmarshal uRDNSequence [] (rd d (rw_full (tbw_issuer (ctw_tbs c))))) as [[ib l']|]; cbn [simR fst snd rbind] in *; try contradiction; cbn [gbind]; [|exact S2].
  destruct S2 as (L2 & -> & H3). rewrite <- L2. destruct (w_len wi =? 0); cbn [negb gbind rbind]; [|reflexivity].
  apply simG_same. intros [fields unh]. cbn [simG simR]. split.
  - unfold viewCertificate. cbn. rewrite !fill_view, align_view by exact Og. reflexivity.
  - unfold certificateIn. cbn [k_Raw k_RawTBS k_RawSPKI k_RawSubject k_RawIssuer k_Signature k_IssuerNames k_SubjectNames].
    repeat (split; [first [reflexivity|assumption]|]). split; [|split; [exact (in_of d _ _ H3)|exact (in_of d _ _ H2)]].
    unfold sharedIn, rightAlignW. destruct (_ || _); [split; assumption|exact I].
Qed.
End Results.

(** * The theorems *)

(** The caller has an array holding [d] and passes the slice [w] of it. Parsing windows gives the same
    outcome as parsing the bytes (Cert.v), and a result shows the same values. *)
Definition same_outcome {A B} (view : A -> B) (x : go (res A)) (y : go (res B)) : Prop :=
  match x, y with
  | Ret (OK a), Ret (OK b) => view a = b
  | Ret (ERR m), Ret (ERR m') => m = m'
  | Panic k, Panic k' => k = k'
  | _, _ => False
  end.
Theorem C117_request : forall E d w, bytes d -> okW d w ->
  same_outcome (viewRequest d) (ParseCertificateRequestW d E w) (ParseCertificateRequest E (rd d w)).
Proof.
  intros E d w B O. pose proof (request_sim d B E w O) as H. unfold same_outcome.
  destruct (ParseCertificateRequestW d E w) as [[q|]|], (ParseCertificateRequest E (rd d w)) as [[r|]|]; cbn [simG simR] in H; try contradiction; try exact H.
  destruct H as [-> _]. reflexivity.
Qed.
Theorem C117_certificate : forall E d w, bytes d -> okW d w ->
  same_outcome (viewCertificate d) (ParseCertificateW d E w) (ParseCertificate E (rd d w)).
Proof.
  intros E d w B O. pose proof (cert_sim d B E w O) as H. unfold same_outcome.
  destruct (ParseCertificateW d E w) as [[q|]|], (ParseCertificate E (rd d w)) as [[r|]|]; cbn [simG simR] in H; try contradiction; try exact H.
  destruct H as [-> _]. reflexivity.
Qed.

(** Where the shared parts lie: all in the slice passed, the signed part before the signature, the key and the names
    in the signed part, the values of Names in the encoded name. *)
Theorem C117_request_windows : forall E d w q, bytes d -> okW d w -> ParseCertificateRequestW d E w = Ret (OK q) -> requestIn w q.
Proof.
  intros E d w q B O H. pose proof (request_sim d B E w O) as S. rewrite H in S.
  destruct (ParseCertificateRequest E (rd d w)) as [[r|]|]; cbn [simG simR] in S; try contradiction. apply S.
Qed.
Theorem C117_certificate_windows : forall E d w k, bytes d -> okW d w -> ParseCertificateW d E w = Ret (OK k) -> certificateIn w k.
Proof.
  intros E d w q B O H. pose proof (cert_sim d B E w O) as S. rewrite H in S.
  destruct (ParseCertificate E (rd d w)) as [[r|]|]; cbn [simG simR] in S; try contradiction. apply S.
Qed.

(** ** After the array has been overwritten *)

(** [a] stands in [l] where [a'] stands in [l']. *)
Definition placed (l l' a a' : list Z) : Prop :=
  exists lo hi, 0 <= lo <= hi /\ hi <= zlen l /\ a = sub l lo hi /\ a' = sub l' lo hi.
(** Attributes with the same types; a value other than a bit string or an octet string is the same, the bytes of those are read
    in the new array where they were in the old. *)
Definition placed_any (l l' : list Z) (v v' : goAny) : Prop :=
  match v, v' with
  | AnyBytes a, AnyBytes a' => placed l l' a a'
  | AnyBits b, AnyBits b' => bs_len b = bs_len b' /\ placed l l' (bs_bytes b) (bs_bytes b')
  | _, _ => v = v'
  end.
Definition placed_atv (l l' : list Z) (a a' : ATV) : Prop := atv_type a = atv_type a' /\ placed_any l l' (atv_value a) (atv_value a').
Definition placed_name (l l' : list Z) (n n' : Name) : Prop :=
  withNames [] n = withNames [] n' /\ Forall2 (placed_atv l l') (n_Names n) (n_Names n').
Definition placed_set (l l' : list Z) (a a' : ATVSet) : Prop :=
  as_type a = as_type a' /\ Forall2 (Forall2 (placed_atv l l')) (as_value a) (as_value a').

(** [r'] is what [r] has become when the bytes [l] it was parsed from have become [l']. *)
Definition request_after {E} (l l' : list Z) (r r' : CertificateRequest E) : Prop :=
  r_Raw E r = l /\ r_Raw E r' = l' /\ placed l l' (r_RawTBS E r) (r_RawTBS E r') /\ placed l l' (r_RawSPKI E r) (r_RawSPKI E r') /\
  placed l l' (r_RawSubject E r) (r_RawSubject E r') /\ placed_name l l' (r_Subject E r) (r_Subject E r') /\
  Forall2 (placed_set l l') (r_Attributes E r) (r_Attributes E r') /\
  r_PublicKey E r' = r_PublicKey E r /\ r_Version E r' = r_Version E r /\ r_Extensions E r' = r_Extensions E r /\
  r_ExtraExtensions E r' = r_ExtraExtensions E r /\ r_SAN E r' = r_SAN E r /\
  r_SignatureAlgorithm E r' = r_SignatureAlgorithm E r /\ r_PublicKeyAlgorithm E r' = r_PublicKeyAlgorithm E r.
Definition certificate_after {E} (l l' : list Z) (c c' : Certificate E) : Prop :=
  c_Raw E c = l /\ c_Raw E c' = l' /\ placed l l' (c_RawTBS E c) (c_RawTBS E c') /\ placed l l' (c_RawSPKI E c) (c_RawSPKI E c') /\
  placed l l' (c_RawSubject E c) (c_RawSubject E c') /\ placed l l' (c_RawIssuer E c) (c_RawIssuer E c') /\
  placed_name l l' (c_Issuer E c) (c_Issuer E c') /\ placed_name l l' (c_Subject E c) (c_Subject E c') /\
  c_PublicKey E c' = c_PublicKey E c /\ c_Version E c' = c_Version E c /\ c_SerialNumber E c' = c_SerialNumber E c /\
  c_NotBefore E c' = c_NotBefore E c /\ c_NotAfter E c' = c_NotAfter E c /\ c_Extensions E c' = c_Extensions E c /\
  c_ExtraExtensions E c' = c_ExtraExtensions E c /\ c_Unhandled E c' = c_Unhandled E c /\ c_fields E c' = c_fields E c /\
  c_SignatureAlgorithm E c' = c_SignatureAlgorithm E c /\ c_PublicKeyAlgorithm E c' = c_PublicKeyAlgorithm E c.

Section After.
Variables (d d' : list Z) (w : win).
Hypotheses (O : okW d w) (L : zlen d' = zlen d).
Lemma ok' : okW d' w.
Proof. unfold okW in *. rewrite L. exact O. Qed.
Lemma in_placed : forall v, inW w v -> placed (rd d w) (rd d' w) (rd d v) (rd d' v).
Proof.
  intros v I. pose proof ok' as O'. destruct I as [N [Z0|I]].
  - exists 0, 0. pose proof (zlen_nonneg _ (rd d w)). split; [lia|]. split; [lia|]. unfold rd at 1 3. rewrite Z0, Z.add_0_r. unfold sub. rewrite !Z.sub_diag. cbn. auto.
  - exists (w_off v - w_off w), (w_off v - w_off w + w_len v). split; [lia|]. rewrite (rd_len _ _ O). split; [lia|].
    rewrite !rd_sub by (assumption || lia). destruct v as [o l]. cbn [w_off w_len] in *. split; unfold rd; cbn [w_off w_len]; f_equal; lia.
Qed.
Lemma atv_placed : forall a, Forall (inW w) (winsATV a) -> placed_atv (rd d w) (rd d' w) (readATV d a) (readATV d' a).
Proof.
  intros [t [v|b|v]] F; (split; [reflexivity|]); unfold winsATV in F; cbn [readATV readAny atv_value aw_value placed_any winsAny] in *.
  - destruct v; try reflexivity; inversion F as [|? ? [N _] _]; cbn [w_len] in N; lia.
  - inversion F. subst. split; [reflexivity|]. apply in_placed. assumption.
  - inversion F. subst. apply in_placed. assumption.
Qed.
Lemma atvs_placed : forall l, Forall (inW w) (List.concat (map winsATV l)) ->
  Forall2 (placed_atv (rd d w) (rd d' w)) (map (readATV d) l) (map (readATV d') l).
Proof.
  induction l as [|a l IH]; intro F; cbn [map List.concat] in *; [constructor|]. apply Forall_app in F. destruct F as [F1 F2].
  constructor; [apply atv_placed, F1|apply IH, F2].
Qed.
Lemma set_placed : forall a, Forall (inW w) (winsATVSet a) -> placed_set (rd d w) (rd d' w) (readATVSet d a) (readATVSet d' a).
Proof.
  intros [t v] F. split; [reflexivity|]. unfold winsATVSet in F. cbn [readATVSet as_value asw_value] in *.
  induction v as [|a v IH]; cbn [map List.concat] in *; [constructor|]. rewrite map_app, concat_app in F. apply Forall_app in F. destruct F as [F1 F2].
  constructor; [apply atvs_placed, F1|apply IH, F2].
Qed.
Lemma sets_placed : forall l, Forall (inW w) (List.concat (map winsATVSet l)) ->
  Forall2 (placed_set (rd d w) (rd d' w)) (map (readATVSet d) l) (map (readATVSet d') l).
Proof.
  induction l as [|a l IH]; intro F; cbn [map List.concat] in *; [constructor|]. apply Forall_app in F. destruct F as [F1 F2].
  constructor; [apply set_placed, F1|apply IH, F2].
Qed.
Lemma all_in : forall o l, inW w o -> Forall (inW o) l -> Forall (inW w) l.
Proof. intros o l I F. eapply Forall_impl; [|exact F]. intros v H. exact (in_trans _ _ _ I H). Qed.
Lemma name_placed : forall n l, Forall (inW w) (List.concat (map winsATV l)) ->
  placed_name (rd d w) (rd d' w) (withNames (map (readATV d) l) n) (withNames (map (readATV d') l) n).
Proof. intros n l F. split; [reflexivity|]. cbn [withNames n_Names]. apply atvs_placed, F. Qed.
End After.

(** The signature is shared unless the bit string that holds it has unused bits. *)
Definition signature_after (l l' : list Z) (b : BitString) (s s' : list Z) : Prop :=
  if (bs_len b mod 8 =? 0) || (zlen (bs_bytes b) =? 0) then s = bs_bytes b /\ placed l l' s s' else s' = s.
Lemma align_after : forall d d' w b, okW d w -> zlen d' = zlen d -> okW d (bw_bytes b) -> inW w (bw_bytes b) ->
  signature_after (rd d w) (rd d' w) (readBits d b) (readSharing d (rightAlignW d b)) (readSharing d' (rightAlignW d b)).
Proof.
  intros d d' w b O L Ob I. unfold signature_after, rightAlignW, readBits. cbn [bs_len bs_bytes].
  rewrite (rd_len _ _ Ob).
  replace (8 - Z.rem (bw_len b) 8 =? 8) with (bw_len b mod 8 =? 0).
  2:{ pose proof (Z.mod_divide (bw_len b) 8 ltac:(lia)) as M. pose proof (Z.rem_divide (bw_len b) 8 ltac:(lia)) as R.
      destruct (Z.eqb_spec (bw_len b mod 8) 0); destruct (Z.eqb_spec (8 - Z.rem (bw_len b) 8) 8); try reflexivity; exfalso; [|apply n; apply M, R; lia].
      apply n. rewrite (proj2 R); [lia|]. apply M. assumption. }
  destruct (_ || _); [split; [reflexivity|apply in_placed; assumption]|reflexivity].
Qed.

Lemma request_sig : forall E d w q, bytes d -> okW d w -> ParseCertificateRequestW d E w = Ret (OK q) ->
  exists c, unmarshal uCsr zeroCsr (rd d w) = OK (readCsr d c, []) /\ q_Signature E q = rightAlignW d (crw_sig c) /\
    okW d (bw_bytes (crw_sig c)) /\ inW w (bw_bytes (crw_sig c)).
Proof.
  intros E d w q B O H. unfold ParseCertificateRequestW in H. apply gbind_ok in H. destruct H as ([c rest] & H1 & H). apply ret_inj in H1.
  pose proof (unmarshal_sim d B _ _ _ _ _ zeroCsrW zeroCsr w (sim_Csr d B) O) as S. rewrite H1 in S.
  destruct (unmarshal uCsr zeroCsr (rd d w)) as [[c' r']|] eqn:U; cbn [simR fst snd] in S; [|contradiction].
  destruct S as (S & <- & T & L). destruct (Z.eqb_spec (w_len rest) 0) as [Z0|]; [|discriminate H]. cbn [negb] in H.
  exists c. rewrite Z0 in L. destruct (rd d rest) as [|x y]; [|rewrite zlen_cons in L; pose proof (zlen_nonneg _ y); lia].
  rewrite (span_all _ _ T Z0) in S. destruct S as ((-> & F) & _). split; [reflexivity|]. split.
  - unfold parseCertificateRequestW in H. destruct (negb _); [discriminate H|]. destruct (negb _); [discriminate H|].
    apply gbind_ok in H. destruct H as (? & _ & H). apply gbind_ok in H. destruct H as ([? ?] & _ & H). destruct (negb _); [discriminate H|].
    apply gbind_ok in H. destruct H as (? & _ & H). apply gbind_ok in H. destruct H as (? & _ & H). apply ret_inj, ok_inj in H. subst q. reflexivity.
  - rewrite Forall_forall in F. pose proof (F (bw_bytes (crw_sig c)) ltac:(unfold winsCsr; right; apply in_or_app; right; cbn; tauto)) as [X Y]. auto.
Qed.
Lemma cert_sig : forall E d w k, bytes d -> okW d w -> ParseCertificateW d E w = Ret (OK k) ->
  exists c, unmarshal uCert zeroCert (rd d w) = OK (readCert d c, []) /\ k_Signature E k = rightAlignW d (ctw_sig c) /\
    okW d (bw_bytes (ctw_sig c)) /\ inW w (bw_bytes (ctw_sig c)).
Proof.
  intros E d w q B O H. unfold ParseCertificateW in H. apply gbind_ok in H. destruct H as ([c rest] & H1 & H). apply ret_inj in H1.
  pose proof (unmarshal_sim d B _ _ _ _ _ zeroCertW zeroCert w (sim_Cert d B) O) as S. rewrite H1 in S.
  destruct (unmarshal uCert zeroCert (rd d w)) as [[c' r']|] eqn:U; cbn [simR fst snd] in S; [|contradiction].
  destruct S as (S & <- & T & L). destruct (Z.eqb_spec (w_len rest) 0) as [Z0|]; [|discriminate H]. cbn [negb] in H.
  exists c. rewrite Z0 in L. destruct (rd d rest) as [|x y]; [|rewrite zlen_cons in L; pose proof (zlen_nonneg _ y); lia].
  rewrite (span_all _ _ T Z0) in S. destruct S as ((-> & F) & _). split; [reflexivity|]. split.
  - unfold parseCertificateW in H. destruct (negb _); [discriminate H|]. destruct (negb _); [discriminate H|].
    apply gbind_ok in H. destruct H as (? & _ & H). apply gbind_ok in H. destruct H as ([? ?] & _ & H). destruct (negb _); [discriminate H|].
    apply gbind_ok in H. destruct H as ([? ?] & _ & H). destruct (negb _); [discriminate H|].
    apply gbind_ok in H. destruct H as ([? ?] & _ & H). apply ret_inj, ok_inj in H. subst q. reflexivity.
  - rewrite Forall_forall in F. pose proof (F (bw_bytes (ctw_sig c)) ltac:(unfold winsCert; right; apply in_or_app; right; cbn; tauto)) as [X Y]. auto.
Qed.

(** A request parsed from the slice [w] of an array holding [d], looked at when the array holds [d']: the Raw parts, the
    signature, and octet and bit strings among Names and Attributes are those of the new bytes at the old places. The public
    key, the names as strings, the extensions and everything else are as parsed. *)
Theorem C117_request_after : forall E d d' w q, bytes d -> okW d w -> zlen d' = zlen d -> ParseCertificateRequestW d E w = Ret (OK q) ->
  request_after (rd d w) (rd d' w) (viewRequest d q) (viewRequest d' q) /\
  exists c, unmarshal uCsr zeroCsr (rd d w) = OK (c, []) /\
    signature_after (rd d w) (rd d' w) (cr_sig c) (r_Signature E (viewRequest d q)) (r_Signature E (viewRequest d' q)).
Proof.
  intros E d d' w q B O L H. pose proof (C117_request_windows E d w q B O H) as (A0 & A1 & A2 & A3 & _ & A5 & A6).
  pose proof (in_trans _ _ _ A1 A2) as A2'. pose proof (in_trans _ _ _ A1 A3) as A3'. split.
  - unfold request_after, viewRequest. cbn [r_Raw r_RawTBS r_RawSPKI r_RawSubject r_Subject r_Attributes r_PublicKey r_Version r_Extensions r_ExtraExtensions r_SAN r_SignatureAlgorithm r_PublicKeyAlgorithm].
    rewrite A0. split; [reflexivity|]. split; [reflexivity|]. do 3 (split; [apply in_placed; assumption|]).
    split; [apply name_placed; try assumption; apply (all_in w _ _ A3' A5)|].
    split; [apply sets_placed; try assumption; apply (all_in w _ _ A1 A6)|]. repeat split.
  - destruct (request_sig E d w q B O H) as (c & U & S & Ob & I). exists (readCsr d c). split; [exact U|].
    unfold viewRequest. cbn [r_Signature]. rewrite S. apply align_after; assumption.
Qed.
Theorem C117_certificate_after : forall E d d' w k, bytes d -> okW d w -> zlen d' = zlen d -> ParseCertificateW d E w = Ret (OK k) ->
  certificate_after (rd d w) (rd d' w) (viewCertificate d k) (viewCertificate d' k) /\
  exists c, unmarshal uCert zeroCert (rd d w) = OK (c, []) /\
    signature_after (rd d w) (rd d' w) (ct_sig c) (c_Signature E (viewCertificate d k)) (c_Signature E (viewCertificate d' k)).
Proof.
  intros E d d' w k B O L H. pose proof (C117_certificate_windows E d w k B O H) as (A0 & A1 & A2 & A3 & A4 & _ & A5 & A6).
  pose proof (in_trans _ _ _ A1 A2) as A2'. pose proof (in_trans _ _ _ A1 A3) as A3'. pose proof (in_trans _ _ _ A1 A4) as A4'. split.
  - unfold certificate_after, viewCertificate.
    cbn [c_Raw c_RawTBS c_RawSPKI c_RawSubject c_RawIssuer c_SignatureAlgorithm c_PublicKeyAlgorithm c_PublicKey c_Version c_SerialNumber c_Issuer c_Subject c_NotBefore c_NotAfter c_Extensions c_ExtraExtensions c_Unhandled c_fields].
    rewrite A0. split; [reflexivity|]. split; [reflexivity|]. do 4 (split; [apply in_placed; assumption|]).
    split; [apply name_placed; try assumption; apply (all_in w _ _ A4' A5)|].
    split; [apply name_placed; try assumption; apply (all_in w _ _ A3' A6)|]. repeat split.
  - destruct (cert_sig E d w k B O H) as (c & U & S & Ob & I). exists (readCert d c). split; [exact U|].
    unfold viewCertificate. cbn [c_Signature]. rewrite S. apply align_after; assumption.
Qed.

(** Bytes outside the slice do not matter: while those inside stay, so does the result. *)
Section Unchanged.
Variables (d d' : list Z) (w : win).
Hypotheses (O : okW d w) (O' : okW d' w) (Q : rd d' w = rd d w).
Lemma rd_same : forall v, inW w v -> rd d' v = rd d v.
Proof.
  intros v [N [Z0|I]].
  - unfold rd. rewrite Z0, Z.add_0_r. unfold sub. rewrite !Z.sub_diag. reflexivity.
  - pose proof (rd_sub d w (w_off v - w_off w) (w_off v - w_off w + w_len v) O ltac:(lia) ltac:(lia)) as H1.
    pose proof (rd_sub d' w (w_off v - w_off w) (w_off v - w_off w + w_len v) O' ltac:(lia) ltac:(lia)) as H2.
    rewrite Q, H1 in H2. unfold rd in *. cbn [w_off w_len] in H2.
    replace (w_off w + (w_off v - w_off w)) with (w_off v) in H2 by lia.
    replace (w_off v + (w_off v - w_off w + w_len v - (w_off v - w_off w))) with (w_off v + w_len v) in H2 by lia. symmetry. exact H2.
Qed.
Lemma atvs_same : forall l, Forall (inW w) (List.concat (map winsATV l)) -> map (readATV d') l = map (readATV d) l.
Proof.
  induction l as [|[t [v|b|v]] l IH]; intro F; cbn [map List.concat] in *; [reflexivity| | |]; apply Forall_app in F; destruct F as [F1 F2]; rewrite (IH F2); f_equal; [|].
    all: unfold winsATV in F1; cbn [winsAny winsBits aw_value] in F1; pose proof (Forall_inv F1) as I; unfold readATV; cbn [readAny aw_value aw_type]; unfold readBits; rewrite (rd_same _ I); reflexivity.
Qed.
Lemma sets_same : forall l, Forall (inW w) (List.concat (map winsATVSet l)) -> map (readATVSet d') l = map (readATVSet d) l.
Proof.
  induction l as [|[t v] l IH]; intro F; cbn [map List.concat] in *; [reflexivity|]. apply Forall_app in F. destruct F as [F1 F2]. rewrite (IH F2). f_equal.
  unfold readATVSet, winsATVSet in *. cbn [asw_value asw_type] in *. f_equal. clear -F1 O O' Q. induction v as [|a v IH]; cbn [map List.concat] in *; [reflexivity|].
  rewrite map_app, concat_app in F1. apply Forall_app in F1. destruct F1 as [F1 F2]. rewrite (atvs_same _ F1), (IH F2). reflexivity.
Qed.
Lemma sharing_same : forall t s, sharedIn w t s -> readSharing d' s = readSharing d s.
Proof. intros t [v|l] H; [|reflexivity]. apply rd_same, H. Qed.
End Unchanged.
Theorem C117_request_unchanged : forall E d d' w q, bytes d -> okW d w -> okW d' w -> rd d' w = rd d w ->
  ParseCertificateRequestW d E w = Ret (OK q) -> viewRequest d' q = viewRequest d q.
Proof.
  intros E d d' w q B O O' Q H. pose proof (C117_request_windows E d w q B O H) as (A0 & A1 & A2 & A3 & A4 & A5 & A6).
  pose proof (in_trans _ _ _ A1 A2) as A2'. pose proof (in_trans _ _ _ A1 A3) as A3'. unfold viewRequest.
  rewrite (atvs_same d d' w O O' Q _ (all_in w _ _ A3' A5)), (sets_same d d' w O O' Q _ (all_in w _ _ A1 A6)), (sharing_same d d' w O O' Q _ _ A4).
  rewrite !(rd_same d d' w O O' Q) by (try assumption; rewrite A0; apply in_refl, O). reflexivity.
Qed.
Theorem C117_certificate_unchanged : forall E d d' w k, bytes d -> okW d w -> okW d' w -> rd d' w = rd d w ->
  ParseCertificateW d E w = Ret (OK k) -> viewCertificate d' k = viewCertificate d k.
Proof.
  intros E d d' w q B O O' Q H. pose proof (C117_certificate_windows E d w q B O H) as (A0 & A1 & A2 & A3 & A4 & A5 & A6 & A7).
  pose proof (in_trans _ _ _ A1 A2) as A2'. pose proof (in_trans _ _ _ A1 A3) as A3'. pose proof (in_trans _ _ _ A1 A4) as A4'. unfold viewCertificate.
  rewrite (atvs_same d d' w O O' Q _ (all_in w _ _ A4' A6)), (atvs_same d d' w O O' Q _ (all_in w _ _ A3' A7)), (sharing_same d d' w O O' Q _ _ A5).
  rewrite !(rd_same d d' w O O' Q) by (try assumption; rewrite A0; apply in_refl, O). reflexivity.
Qed.

(** ** A buffer used again for the next request *)

(** VerifyCSRSign then checks the new bytes against the old key. *)
Theorem C117_verify : forall E d d' w q id, bytes d -> okW d w -> ParseCertificateRequestW d E w = Ret (OK q) ->
  exists pub, r_PublicKey E (viewRequest d q) = KeySM2 pub /\
    VerifyCSRSign E (viewRequest d' q) id = Verify pub id (r_RawTBS E (viewRequest d' q)) (r_Signature E (viewRequest d' q)).
Proof.
  intros E d d' w q id B O H. pose proof (C117_request E d w B O) as S. rewrite H in S. unfold same_outcome in S.
  destruct (ParseCertificateRequest E (rd d w)) as [[r|]|] eqn:P; try contradiction.
  destruct (parsed_request E (rd d w) r P (sub_bytes _ _ _ B)) as (c & pub & more & _ & _ & _ & _ & _ & _ & _ & _ & P1 & _).
  exists pub. rewrite S. split; [exact P1|]. unfold VerifyCSRSign.
  change (r_PublicKey E (viewRequest d' q)) with (r_PublicKey E (viewRequest d q)). rewrite S, P1. reflexivity.
Qed.
(** CreateCertificateInfo takes the key out of the bytes of the request: if the buffer has meanwhile been filled with a second request
    whose key stands at the same place, the certificate is for the second key. *)
Theorem C117_reuse : forall E d d' w q q' t parent info, bytes d' -> okW d' w ->
  ParseCertificateRequestW d E w = Ret (OK q) -> ParseCertificateRequestW d' E w = Ret (OK q') -> q_RawSPKI E q = q_RawSPKI E q' ->
  CreateCertificateInfo E t parent (viewRequest d' q) = Ret (OK info) ->
  CreateCertificateInfo E t parent (viewRequest d' q') = Ret (OK info) /\
  exists pub, r_PublicKey E (viewRequest d' q') = KeySM2 pub /\ parsePublicKey (tb_key info) = OK pub.
Proof.
  intros E d d' w q q' t parent info B O H H' K HI.
  assert (HI' : CreateCertificateInfo E t parent (viewRequest d' q') = Ret (OK info)).
  { rewrite <- HI. unfold CreateCertificateInfo, viewRequest. cbn [r_RawSPKI]. rewrite K. reflexivity. }
  split; [exact HI'|]. pose proof (C117_request E d' w B O) as S. rewrite H' in S. unfold same_outcome in S.
  destruct (ParseCertificateRequest E (rd d' w)) as [[r|]|] eqn:P; try contradiction. rewrite S in *.
  destruct (C73_key E t parent _ _ _ (sub_bytes _ _ _ B) P HI') as (pub & P1 & _ & P2). eauto.
Qed.

(** * Examples *)

(** Requests of one length: one for the key G, the name A and the octet string 1 2, the other for the key -G, the name B and the
    octet string 3 4. They stand at the third byte of an array of which two bytes after them are not theirs. *)
Definition ex_nameW (c : Z) (o : list Z) : list Z :=
  tlv 48 (tlv 49 (tlv 48 ([6; 3; 85; 4; 3] ++ [19; 1; c])) ++ tlv 49 (tlv 48 ([6; 3; 85; 4; 99] ++ tlv 4 o))).
Definition ex_keyW (y : Z) : list Z :=
  tlv 48 (tlv 48 ([6; 7; 42; 134; 72; 206; 61; 2; 1] ++ [6; 8; 42; 129; 28; 207; 85; 1; 130; 45]) ++
          tlv 3 (0 :: 4 :: be_enc 32 curveGx ++ be_enc 32 y)).
Definition ex_arrayW (c : Z) (o : list Z) (y s : Z) : list Z :=
  [7; 7; 7] ++ tlv 48 (tlv 48 ([2; 1; 0] ++ ex_nameW c o ++ ex_keyW y ++ [160; 0]) ++ sm2sm3_alg ++ tlv 3 (0 :: tlv 48 [2; 1; s; 2; 1; s])) ++ [8; 8].
Definition ex_d1 : list Z := Eval vm_compute in ex_arrayW 65 [1; 2] curveGy 1.
Definition ex_d2 : list Z := Eval vm_compute in ex_arrayW 66 [3; 4] (curveP - curveGy) 2.
Definition ex_w : win := Eval vm_compute in mkW 3 (zlen ex_d1 - 5).
Definition okOrNil (x : go (res (RequestW noNet))) : RequestW noNet :=
  match x with Ret (OK q) => q | _ => mkRequestW noNet nilW nilW nilW nilW (Own []) [] [] (mkReq noNet [] [] [] [] [] 0 0 KeyNil 0 zeroName [] [] [] (zeroAlt noNet)) end.
Definition ex_q1 : RequestW noNet := Eval vm_compute in okOrNil (ParseCertificateRequestW ex_d1 noNet ex_w).
Definition ex_q2 : RequestW noNet := Eval vm_compute in okOrNil (ParseCertificateRequestW ex_d2 noNet ex_w).
Example C117_ex_hyps : bytes ex_d1 /\ bytes ex_d2 /\ okW ex_d1 ex_w /\ okW ex_d2 ex_w /\ zlen ex_d2 = zlen ex_d1 /\
  ParseCertificateRequestW ex_d1 noNet ex_w = Ret (OK ex_q1) /\ ParseCertificateRequestW ex_d2 noNet ex_w = Ret (OK ex_q2) /\
  q_RawSPKI noNet ex_q1 = q_RawSPKI noNet ex_q2.
Proof.
  do 2 (split; [apply bytes_forallb; vm_compute; reflexivity|]).
  split; [repeat split; vm_compute; discriminate|]. split; [repeat split; vm_compute; discriminate|].
  repeat (split; [vm_compute; reflexivity|]). vm_compute. reflexivity.
Qed.
(** The windows of the first, and what is left of it when the array holds the second. *)
Example C117_ex_windows : (q_Raw noNet ex_q1, q_RawTBS noNet ex_q1, q_RawSubject noNet ex_q1, q_RawSPKI noNet ex_q1, q_Signature noNet ex_q1) =
    (mkW 3 151, mkW 6 125, mkW 11 27, mkW 38 91, Shared (mkW 146 8)) /\
  map aw_value (q_Names noNet ex_q1) = [PlainW (AnyString [65]); BytesAnyW (mkW 36 2)].
Proof. split; vm_compute; reflexivity. Qed.
Example C117_ex_after : let r := viewRequest ex_d2 ex_q1 in
  r_PublicKey noNet r = KeySM2 (mkPub curveGx curveGy) /\ n_CommonName (r_Subject noNet r) = [65] /\
  map atv_value (n_Names (r_Subject noNet r)) = [AnyString [65]; AnyBytes [3; 4]] /\ r_RawSubject noNet r = ex_nameW 66 [3; 4] /\
  r_Signature noNet r = tlv 48 [2; 1; 2; 2; 1; 2].
Proof. repeat (split; [vm_compute; reflexivity|]). vm_compute. reflexivity. Qed.
(** A certificate. *)
Example C117_ex_certificate : match ParseCertificateW ex_cert noNet (mkW 0 (zlen ex_cert)) with
  | Ret (OK k) => (k_Raw noNet k, k_RawTBS noNet k, k_RawIssuer noNet k, k_RawSubject noNet k, k_RawSPKI noNet k, k_Signature noNet k)
  | _ => (nilW, nilW, nilW, nilW, nilW, Own []) end = (mkW 0 387, mkW 4 298, mkW 28 84, mkW 146 14, mkW 160 91, Shared (mkW 317 70)).
Proof. vm_compute. reflexivity. Qed.

(** It is not so that the certificate made from a request is for the key that the request shows. *)
Theorem C117_reused_refuted : exists E t parent d d' w q info pub pub', bytes d /\ bytes d' /\ okW d w /\ okW d' w /\ zlen d' = zlen d /\
  ParseCertificateRequestW d E w = Ret (OK q) /\ CreateCertificateInfo E t parent (viewRequest d' q) = Ret (OK info) /\
  r_PublicKey E (viewRequest d q) = KeySM2 pub /\ r_PublicKey E (viewRequest d' q) = KeySM2 pub /\
  parsePublicKey (tb_key info) = OK pub' /\ pub' <> pub.
Proof.
  exists noNet, (FillCertificateTemplateByCSR noNet ex_template (viewRequest ex_d1 ex_q1)), ex_parent, ex_d1, ex_d2, ex_w, ex_q1.
  destruct C117_ex_hyps as (H1 & H2 & H3 & H4 & H5 & H6 & _).
  exists (okOr (CreateCertificateInfo noNet (FillCertificateTemplateByCSR noNet ex_template (viewRequest ex_d1 ex_q1)) ex_parent (viewRequest ex_d2 ex_q1)) zeroTBS).
  exists (mkPub curveGx curveGy), (mkPub curveGx (curveP - curveGy)).
  repeat (split; [assumption|]). split; [vm_compute; reflexivity|]. split; [vm_compute; reflexivity|]. split; [vm_compute; reflexivity|].
  split; [vm_compute; reflexivity|]. vm_compute. discriminate.
Qed.
