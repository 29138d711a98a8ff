(** Exactly which bytes the model of encoding/asn1 reads, and as what: the parsers as grammars. *)
From Coq Require Import ZArith List Lia Bool String.
From Verif Require Import GoBase BeMin CbString CbStringProofs CbBuilder CbBuilderProofs CbAsn1Proofs GoAsn1 GoAsn1Proofs GoText GoPkix CertText Cert CertRt CertRt2.
Import ListNotations.
Open Scope Z_scope.

(** * Grammars *)

(** A number in base 128: at most five octets, all but the last with the high bit; leading zero digits are
    allowed. *)
Definition b128 (g : list Z) (v : Z) : Prop :=
  exists p d, g = p ++ [d] /\ Forall (fun x => 128 <= x < 256) p /\ 0 <= d < 128 /\ (List.length p <= 4)%nat /\
    v = fold_left (fun a x => a * 128 + x mod 128) g 0 /\ v < 2 ^ 31.
(** The identifier octets for class c, constructed bit b and tag t. *)
Definition ident_octets (c : Z) (b : bool) (t : Z) (i : list Z) : Prop :=
  0 <= c < 4 /\ ((0 <= t < 31 /\ i = [ident c t b]) \/ (31 <= t /\ exists g, b128 g t /\ i = ident c 31 b :: g)).
(** A header announcing n octets of contents. *)
Definition header (c : Z) (b : bool) (t n : Z) (h : list Z) : Prop :=
  exists i, ident_octets c b t i /\ 0 <= n < 2 ^ 31 /\ h = i ++ der_len n.
(** One element with its contents. *)
Definition item (c : Z) (b : bool) (t : Z) (body e : list Z) : Prop := exists h, header c b t (zlen body) h /\ e = h ++ body.
(** The contents of an object identifier: one base 128 number per component, the first two combined. *)
Definition oid_octets (oid body : list Z) : Prop :=
  exists v0 vs g0 gs, b128 g0 v0 /\ Forall2 b128 gs vs /\ body = g0 ++ List.concat gs /\
    oid = (if v0 <? 80 then v0 / 40 :: v0 mod 40 :: vs else 2 :: v0 - 80 :: vs).

(** * Base 128 *)
Lemma base128Loop_iff : forall l s a v r, bytes l -> 0 <= s <= 5 -> 0 <= a ->
  (base128Loop l s a = OK (v, r) <->
   exists p d, l = p ++ d :: r /\ Forall (fun x => 128 <= x < 256) p /\ 0 <= d < 128 /\ s + zlen p <= 4 /\
     v = fold_left (fun a x => a * 128 + x mod 128) (p ++ [d]) a /\ v < 2 ^ 31).
Proof.
  induction l as [|x l IH]; intros s a v r HB Hs Ha; cbn [base128Loop].
  - split; [discriminate|]. intros (p & d & E & _). destruct p; discriminate E.
  - apply bytes_cons in HB. destruct HB as [Hx HB]. unfold byte in Hx.
    destruct (Z.eqb_spec s 5) as [->|S5].
    { split; [discriminate|]. intros (p & d & _ & _ & _ & L & _). pose proof (zlen_nonneg _ p). lia. }
    cbv zeta. rewrite land_7f, Z.shiftl_mul_pow2 by lia. pose proof (Z.mod_pos_bound x 128 ltac:(lia)) as MX.
    rewrite lor_disjoint_add by lia. change (2 ^ 7) with 128. rewrite land_80 by exact Hx.
    destruct (Z.ltb_spec x 128) as [L|L]; cbn [Z.eqb].
    + destruct (Z.ltb_spec (2 ^ 31 - 1) (a * 128 + x mod 128)) as [B|B].
      * split; [discriminate|]. intros (p & d & E & F & D & _ & V & LV). destruct p as [|y p].
        -- cbn [app] in E. injection E as -> ->. cbn [app fold_left] in V. lia.
        -- cbn [app] in E. injection E as -> ->. inversion F; subst. lia.
      * split.
        -- intro E. injection E as <- <-. exists [], x. split; [reflexivity|]. split; [constructor|]. split; [lia|]. split; [cbn; lia|]. split; [reflexivity|lia].
        -- intros (p & d & E & F & D & _ & V & LV). destruct p as [|y p].
           ++ cbn [app] in E. injection E as -> ->. cbn [app fold_left] in V. rewrite V. reflexivity.
           ++ cbn [app] in E. injection E as -> ->. inversion F; subst. lia.
    + rewrite IH by (assumption || lia). split.
      * intros (p & d & -> & F & D & LP & V & LV). exists (x :: p), d. split; [reflexivity|]. split; [constructor; [lia|exact F]|].
        split; [exact D|]. rewrite zlen_cons. split; [lia|]. split; [exact V|exact LV].
      * intros (p & d & E & F & D & LP & V & LV). destruct p as [|y p].
        -- cbn [app] in E. injection E as -> ->. lia.
        -- cbn [app] in E. injection E as -> ->. inversion F; subst. rewrite zlen_cons in LP. exists p, d.
           split; [reflexivity|]. split; [assumption|]. split; [exact D|]. split; [lia|]. split; [reflexivity|exact LV].
Qed.
Lemma base128_iff : forall l v r, bytes l -> (parseBase128Int l = OK (v, r) <-> exists g, b128 g v /\ l = g ++ r).
Proof.
  intros l v r HB. unfold parseBase128Int. rewrite base128Loop_iff by (assumption || lia). split.
  - intros (p & d & -> & F & D & L & V & LV). exists (p ++ [d]). split; [|rewrite <- app_assoc; reflexivity].
    exists p, d. split; [reflexivity|]. split; [exact F|]. split; [exact D|]. split; [unfold zlen in L; lia|]. split; [exact V|exact LV].
  - intros (g & (p & d & -> & F & D & L & V & LV) & ->). exists p, d. split; [rewrite <- app_assoc; reflexivity|].
    split; [exact F|]. split; [exact D|]. split; [unfold zlen; lia|]. split; [exact V|exact LV].
Qed.
Lemma fold128_nonneg : forall g a, 0 <= a -> 0 <= fold_left (fun a x => a * 128 + x mod 128) g a.
Proof.
  induction g as [|x g IH]; intros a Ha; [exact Ha|]. cbn [fold_left]. apply IH. pose proof (Z.mod_pos_bound x 128 ltac:(lia)). lia.
Qed.
Lemma b128_nonneg : forall g v, b128 g v -> 0 <= v.
Proof. intros g v (p & d & _ & _ & _ & _ & -> & _). apply fold128_nonneg. lia. Qed.
Lemma b128_bytes : forall g v, b128 g v -> bytes g.
Proof.
  intros g v (p & d & -> & F & D & _). apply bytes_app. split; [|apply bytes_cons; split; [unfold byte; lia|apply bytes_nil]].
  revert F. apply Forall_impl. intros x H. unfold byte. lia.
Qed.
Lemma b128_nonempty : forall g v, b128 g v -> (1 <= List.length g)%nat.
Proof. intros g v (p & d & -> & _). rewrite app_length. cbn. lia. Qed.

(** * Object identifiers *)
Lemma oidRest_iff : forall fuel l vs, bytes l -> (List.length l <= fuel)%nat ->
  (oidRest fuel l = OK vs <-> exists gs, Forall2 b128 gs vs /\ l = List.concat gs).
Proof.
  induction fuel as [|fuel IH]; intros l vs HB HL.
  - destruct l; [|cbn in HL; lia]. cbn [oidRest]. split.
    + intro E. apply ok_eq in E. subst vs. exists []. split; [constructor|reflexivity].
    + intros (gs & F & E). destruct F as [|g v gs vs Hg F]; [reflexivity|]. apply b128_nonempty in Hg. destruct g; [cbn in Hg; lia|discriminate E].
  - destruct l as [|x y] eqn:EL.
    { cbn [oidRest]. split.
      - intro E. apply ok_eq in E. subst vs. exists []. split; [constructor|reflexivity].
      - intros (gs & F & E). destruct F as [|g v gs vs Hg F]; [reflexivity|]. apply b128_nonempty in Hg. destruct g; [cbn in Hg; lia|discriminate E]. }
    cbn [oidRest]. assert (NE : l <> []) by (rewrite EL; discriminate). rewrite <- EL in *. clear EL. split.
    + intro H. destruct (parseBase128Int l) as [[v l']|e] eqn:EP; [|discriminate]. cbn [rbind] in H.
      apply base128_iff in EP; [|exact HB]. destruct EP as (g & Hg & El). pose proof (b128_nonempty _ _ Hg) as NG.
      destruct (oidRest fuel l') as [vs'|e] eqn:EO; [|discriminate]. cbn [rbind] in H. apply ok_eq in H. subst vs.
      rewrite El in HB, HL. apply bytes_app in HB. destruct HB as [_ HB]. rewrite app_length in HL.
      apply IH in EO; [|exact HB|lia]. destruct EO as (gs & F & E). exists (g :: gs). split; [constructor; assumption|]. cbn [List.concat]. rewrite <- E. exact El.
    + intros (gs & F & E). destruct F as [|g v gs vs Hg F].
      { contradiction. }
      cbn [List.concat] in E. pose proof (b128_nonempty _ _ Hg) as NG.
      assert (EP : parseBase128Int l = OK (v, List.concat gs)) by (apply base128_iff; [exact HB|]; exists g; split; assumption).
      rewrite EP. cbn [rbind]. rewrite E in HB, HL. apply bytes_app in HB. destruct HB as [_ HB]. rewrite app_length in HL.
      assert (EO : oidRest fuel (List.concat gs) = OK vs) by (apply IH; [exact HB|lia|]; exists gs; split; [exact F|reflexivity]).
      rewrite EO. reflexivity.
Qed.
Lemma oid_iff : forall body oid, bytes body -> (parseObjectIdentifier body = OK oid <-> oid_octets oid body).
Proof.
  intros body oid HB. unfold parseObjectIdentifier. destruct body as [|x y] eqn:EL.
  { split; [discriminate|]. intros (v0 & vs & g0 & gs & H0 & _ & E & _). apply b128_nonempty in H0. destruct g0; [cbn in H0; lia|discriminate E]. }
  rewrite <- EL in *. clear EL x y. split.
  - intro H. destruct (parseBase128Int body) as [[v l]|e] eqn:EP; [|discriminate]. cbn [rbind] in H.
    apply base128_iff in EP; [|exact HB]. destruct EP as (g & Hg & El).
    destruct (oidRest (List.length l) l) as [vs|e] eqn:EO; [|discriminate]. cbn [rbind] in H. apply ok_eq in H. subst oid.
    rewrite El in HB. apply bytes_app in HB. destruct HB as [_ HB]. apply oidRest_iff in EO; [|exact HB|apply le_n]. destruct EO as (gs & F & E).
    exists v, vs, g, gs. split; [exact Hg|]. split; [exact F|]. split; [rewrite <- E; exact El|reflexivity].
  - intros (v0 & vs & g0 & gs & H0 & F & E & ->).
    assert (EP : parseBase128Int body = OK (v0, List.concat gs)) by (apply base128_iff; [exact HB|]; exists g0; split; assumption).
    rewrite EP. cbn [rbind]. rewrite E in HB. apply bytes_app in HB. destruct HB as [_ HB].
    assert (EO : oidRest (List.length (List.concat gs)) (List.concat gs) = OK vs) by (apply oidRest_iff; [exact HB|apply le_n|]; exists gs; split; [exact F|reflexivity]).
    rewrite EO. reflexivity.
Qed.

(** * Headers *)
Definition lenPart (c t : Z) (b : bool) (l : list Z) : res (tagAndLength * list Z) :=
  match l with
  | [] => ERR "truncated tag or length"
  | x :: l =>
      if Z.land x 0x80 =? 0 then OK (mkTL c t (Z.land x 0x7f) b, l)
      else if Z.land x 0x7f =? 0 then ERR "indefinite length found (not DER)"
           else try (length, l) <- lengthLoop (Z.to_nat (Z.land x 0x7f)) l 0;
                if length <? 0x80 then ERR "non-minimal length" else OK (mkTL c t length b, l)
  end.
Lemma lenPart_any : forall c t b c' t' b' l n r, lenPart c t b l = OK (mkTL c t n b, r) -> lenPart c' t' b' l = OK (mkTL c' t' n b', r).
Proof.
  intros c t b c' t' b' l n r H. unfold lenPart in *. destruct l as [|x l]; [discriminate|]. destruct (Z.land x 0x80 =? 0).
  - apply ok_eq in H. assert (E1 : Z.land x 0x7f = n) by congruence. assert (E2 : l = r) by congruence. rewrite E1, E2. reflexivity.
  - destruct (Z.land x 0x7f =? 0); [discriminate|]. destruct (lengthLoop _ l 0) as [[m q]|e]; [|discriminate]. cbn [rbind] in *.
    destruct (m <? 0x80); [discriminate|]. apply ok_eq in H. assert (E1 : m = n) by congruence. assert (E2 : q = r) by congruence. rewrite E1, E2. reflexivity.
Qed.
Lemma lenPart_shape : forall c t b l h r, lenPart c t b l = OK (h, r) -> h = mkTL c t (tl_length h) b.
Proof.
  intros c t b l h r H. unfold lenPart in *. destruct l as [|x l]; [discriminate|]. destruct (Z.land x 0x80 =? 0).
  - apply ok_eq in H. assert (E1 : mkTL c t (Z.land x 0x7f) b = h) by congruence. rewrite <- E1. reflexivity.
  - destruct (Z.land x 0x7f =? 0); [discriminate|]. destruct (lengthLoop _ l 0) as [[m q]|e]; [|discriminate]. cbn [rbind] in *.
    destruct (m <? 0x80); [discriminate|]. apply ok_eq in H. assert (E1 : mkTL c t m b = h) by congruence. rewrite <- E1. reflexivity.
Qed.
Lemma lenPart_zero : forall l, parseTagAndLength (0 :: l) = lenPart 0 0 false l.
Proof. intro l. unfold parseTagAndLength. change (Z.land 0 0x1f =? 0x1f) with false. cbn [rbind]. destruct l; reflexivity. Qed.
Lemma lenPart_iff : forall c t b l n r, bytes l -> (lenPart c t b l = OK (mkTL c t n b, r) <-> 0 <= n < 2 ^ 31 /\ l = der_len n ++ r).
Proof.
  intros c t b l n r HB. split; intro H.
  - apply (lenPart_any c t b 0 0 false) in H. rewrite <- lenPart_zero in H. apply parse_header_inv in H; [|apply bytes_cons; split; [unfold byte; lia|exact HB]].
    cbn [tl_class tl_tag tl_length tl_comp] in H. destruct H as (H1 & H2 & _). split; [exact H2|]. destruct (H1 ltac:(lia)) as [E _].
    change (ident 0 0 false) with 0 in E. apply cons_eq in E. exact (proj2 E).
  - destruct H as [H ->]. pose proof (parse_header 0 0 n false r ltac:(split; lia) H) as P. change (ident 0 0 false) with 0 in P.
    rewrite lenPart_zero in P. exact (lenPart_any _ _ _ c t b _ _ _ P).
Qed.
Lemma byte_ident : forall x, byte x -> exists c b t, 0 <= c < 4 /\ 0 <= t < 32 /\ x = ident c t b /\ Z.shiftr x 6 = c /\ Z.land x 0x1f = t /\ (Z.land x 0x20 =? 0x20) = b.
Proof.
  assert (F : forallb (fun n => let x := Z.of_nat n in (0 <=? Z.shiftr x 6) && (Z.shiftr x 6 <? 4) && (0 <=? Z.land x 0x1f) && (Z.land x 0x1f <? 32) &&
     (ident (Z.shiftr x 6) (Z.land x 0x1f) (Z.land x 0x20 =? 0x20) =? x)) (seq 0 256) = true) by (vm_compute; reflexivity).
  intros x Hx. unfold byte in Hx. rewrite forallb_forall in F. specialize (F (Z.to_nat x)).
  assert (I : In (Z.to_nat x) (seq 0 256)) by (apply in_seq; lia). specialize (F I). cbv zeta in F. rewrite Z2Nat.id in F by lia.
  rewrite !andb_true_iff, !Z.leb_le, !Z.ltb_lt, Z.eqb_eq in F. exists (Z.shiftr x 6), (Z.land x 0x20 =? 0x20), (Z.land x 0x1f).
  split; [lia|]. split; [lia|]. split; [symmetry; apply F|]. repeat split.
Qed.
Lemma ident_parts : forall c t b, 0 <= c < 4 -> 0 <= t < 32 -> Z.shiftr (ident c t b) 6 = c /\ Z.land (ident c t b) 0x1f = t /\ (Z.land (ident c t b) 0x20 =? 0x20) = b.
Proof.
  intros c t b Hc Ht. assert (B : byte (ident c t b)) by (unfold byte, ident; destruct b; lia).
  destruct (byte_ident _ B) as (c' & b' & t' & Hc' & Ht' & E & E1 & E2 & E3). rewrite E1, E2, E3. unfold ident in E.
  destruct b, b'; repeat split; lia.
Qed.
Lemma header_iff : forall l t r, bytes l ->
  (parseTagAndLength l = OK (t, r) <-> exists h, header (tl_class t) (tl_comp t) (tl_tag t) (tl_length t) h /\ l = h ++ r).
Proof.
  intros l t r HB. destruct l as [|x l].
  { split; [discriminate|]. intros (h & (i & (_ & [[_ ->]|(_ & g & _ & ->)]) & _ & ->) & E); discriminate E. }
  apply bytes_cons in HB. destruct HB as [Hx HB].
  destruct (byte_ident x Hx) as (c & b & t0 & Hc & Ht & Ex & E1 & E2 & E3).
  assert (U : parseTagAndLength (x :: l) = if t0 =? 31 then try (tag, l) <- parseBase128Int l; if tag <? 31 then ERR "non-minimal tag" else lenPart c tag b l
                                         else lenPart c t0 b l).
  { unfold parseTagAndLength. rewrite E1, E2, E3. destruct (t0 =? 31); [|cbn [rbind]; destruct l; reflexivity].
    destruct (parseBase128Int l) as [[tag l']|e]; [|reflexivity]. cbn [rbind]. destruct (tag <? 31); [reflexivity|]. cbn [rbind]. destruct l'; reflexivity. }
  rewrite U. clear U. destruct t as [tc tt tn tb]. cbn [tl_class tl_tag tl_length tl_comp].
  destruct (Z.eqb_spec t0 31) as [T31|T31].
  - split.
    + intro H. destruct (parseBase128Int l) as [[tag l']|e] eqn:EP; [|discriminate]. cbn [rbind] in H.
      apply base128_iff in EP; [|exact HB]. destruct EP as (g & Hg & ->). apply bytes_app in HB. destruct HB as [_ HB].
      destruct (Z.ltb_spec tag 31) as [|LT]; [discriminate|]. pose proof (lenPart_shape _ _ _ _ _ _ H) as SH. cbn [tl_length] in SH.
      assert (tc = c) by congruence. assert (tt = tag) by congruence. assert (tb = b) by congruence. subst tc tt tb.
      apply lenPart_iff in H; [|exact HB]. destruct H as [Hn ->].
      exists ((x :: g) ++ der_len tn). split; [|cbn [app]; rewrite <- app_assoc; reflexivity].
      exists (x :: g). split; [split; [exact Hc|]; right; split; [exact LT|]; exists g; split; [exact Hg|rewrite Ex, T31; reflexivity]|]. split; [exact Hn|reflexivity].
    + intros (h & (i & (Hc' & [[HT ->]|(HT & g & Hg & ->)]) & Hn & ->) & E); cbn [app] in E; apply cons_eq in E; destruct E as [EX EL].
      * exfalso. rewrite Ex in EX. destruct (ident_parts c t0 b Hc Ht) as (_ & Q & _). destruct (ident_parts tc tt tb Hc' ltac:(lia)) as (_ & Q' & _). rewrite EX in Q. lia.
      * rewrite Ex, T31 in EX. destruct (ident_parts c 31 b Hc ltac:(lia)) as (Q1 & _ & Q3). destruct (ident_parts tc 31 tb Hc' ltac:(lia)) as (R1 & _ & R3).
        rewrite EX in Q1, Q3. assert (tc = c) by lia. assert (tb = b) by congruence. subst tc tb. rewrite <- app_assoc in EL.
        assert (EP : parseBase128Int l = OK (tt, der_len tn ++ r)) by (apply base128_iff; [exact HB|]; exists g; split; assumption).
        rewrite EP. cbn [rbind]. destruct (Z.ltb_spec tt 31); [lia|]. rewrite EL in HB. apply bytes_app in HB. apply lenPart_iff; [apply HB|]. split; [exact Hn|reflexivity].
  - split.
    + intro H. pose proof (lenPart_shape _ _ _ _ _ _ H) as SH. cbn [tl_length] in SH.
      assert (tc = c) by congruence. assert (tt = t0) by congruence. assert (tb = b) by congruence. subst tc tt tb.
      apply lenPart_iff in H; [|exact HB]. destruct H as [Hn ->].
      exists ([x] ++ der_len tn). split; [|cbn [app]; reflexivity].
      exists [x]. split; [split; [exact Hc|]; left; split; [lia|rewrite Ex; reflexivity]|]. split; [exact Hn|reflexivity].
    + intros (h & (i & (Hc' & [[HT ->]|(HT & g & Hg & ->)]) & Hn & ->) & E); cbn [app] in E; apply cons_eq in E; destruct E as [EX EL].
      * rewrite Ex in EX. destruct (ident_parts c t0 b Hc Ht) as (Q1 & Q & Q3). destruct (ident_parts tc tt tb Hc' ltac:(lia)) as (R1 & R & R3). rewrite EX in Q1, Q, Q3.
        assert (tc = c) by lia. assert (tt = t0) by lia. assert (tb = b) by congruence. subst tc tt tb. apply lenPart_iff; [exact HB|]. split; [exact Hn|exact EL].
      * exfalso. rewrite Ex in EX. destruct (ident_parts c t0 b Hc Ht) as (_ & Q & _). destruct (ident_parts tc 31 tb Hc' ltac:(lia)) as (_ & Q' & _). rewrite EX in Q. lia.
Qed.

(** * Fields *)

(** A Go type with a fixed tag whose contents alone are looked at. *)
Definition simple {A} (u : uty A) (t : Z) (comp : bool) (D : list Z -> res A) : Prop :=
  0 <= t < 31 /\ u_any u = false /\ (forall h, u_tag u h = t) /\ u_comp u = comp /\ forall g h full i, u_body u g h full i = D i.
Lemma simple_bool : simple uBool 1 false parseBool. Proof. split; [lia|]. repeat split. Qed.
Lemma simple_int : simple uInt 2 false parseInt64. Proof. split; [lia|]. repeat split. Qed.
Lemma simple_bits : simple uBits 3 false parseBitString. Proof. split; [lia|]. repeat split. Qed.
Lemma simple_octets : simple uOctets 4 false (fun i => OK (Some i)). Proof. split; [lia|]. repeat split. Qed.
Lemma simple_oid : simple uOID 6 false parseObjectIdentifier. Proof. split; [lia|]. repeat split. Qed.
Lemma simple_list : forall A (u : uty A) zero, simple (uList u zero false) 16 true (parseSequenceOf u zero). Proof. intros. split; [lia|]. repeat split. Qed.
Lemma simple_struct : forall A (body : list Z -> res A), simple (uStruct (fun _ => body)) 16 true body. Proof. intros. split; [lia|]. repeat split. Qed.

Lemma low_header : forall c b t n h, header c b t n h -> t < 31 -> small_header c t /\ h = ident c t b :: der_len n /\ 0 <= n < 2 ^ 31.
Proof.
  intros c b t n h (i & (Hc & [[HT ->]|(HT & g & Hg & ->)]) & Hn & ->) L; [|lia]. split; [split; [exact Hc|exact HT]|]. split; [reflexivity|exact Hn].
Qed.
Lemma header_low : forall c b t n, small_header c t -> 0 <= n < 2 ^ 31 -> header c b t n (ident c t b :: der_len n).
Proof. intros c b t n [Hc Ht] Hn. exists [ident c t b]. split; [split; [exact Hc|]; left; split; [exact Ht|reflexivity]|]. split; [exact Hn|reflexivity]. Qed.
Lemma item_low : forall c b t body e, t < 31 -> (item c b t body e <-> small_header c t /\ zlen body < 2 ^ 31 /\ e = tlv (ident c t b) body).
Proof.
  intros c b t body e L. split.
  - intros (h & H & ->). apply low_header in H; [|exact L]. destruct H as (HS & -> & Hn). split; [exact HS|]. split; [lia|reflexivity].
  - intros (HS & HL & ->). exists (ident c t b :: der_len (zlen body)). split; [apply header_low; [exact HS|pose proof (zlen_nonneg _ body); lia]|reflexivity].
Qed.
Lemma item_parse : forall c b t body e r, bytes (e ++ r) -> item c b t body e -> parseTagAndLength (e ++ r) = OK (mkTL c t (zlen body) b, body ++ r).
Proof.
  intros c b t body e r HB (h & H & ->). apply header_iff; [exact HB|]. exists h. cbn [tl_class tl_tag tl_length tl_comp]. split; [exact H|].
  rewrite <- app_assoc. reflexivity.
Qed.
Lemma item_nonempty : forall c b t body e r, item c b t body e -> e ++ r <> [].
Proof. intros c b t body e r (h & (i & (_ & [[_ ->]|(_ & g & _ & ->)]) & _ & ->) & ->) E; discriminate E. Qed.
Lemma item_length : forall c b t body e, item c b t body e -> (1 <= List.length e)%nat.
Proof. intros c b t body e H. pose proof (item_nonempty _ _ _ _ _ [] H) as N. rewrite app_nil_r in N. destruct e; [congruence|cbn; lia]. Qed.
Lemma header_zlen : forall c b t n h, header c b t n h -> 0 <= n < 2 ^ 31.
Proof. intros c b t n h (i & _ & H & _). exact H. Qed.
Lemma over : forall A (a b : list A), zlen (a ++ b) <? zlen a = false.
Proof. intros. rewrite zlen_app. pose proof (zlen_nonneg _ b). apply Z.ltb_ge. lia. Qed.

(** A RawValue. *)
Definition raw_item (rv : RawValue) : Prop := item (rv_class rv) (rv_comp rv) (rv_tag rv) (rv_bytes rv) (rv_full rv).
Lemma raw_iff : forall z l rv r, bytes l -> (parseField uRaw z noParams l = OK (rv, r) <-> raw_item rv /\ l = rv_full rv ++ r).
Proof.
  intros z l rv r HB. split.
  - intro H. unfold parseField in H. destruct l as [|x y] eqn:E; [discriminate|]. rewrite <- E in *. clear E x y.
    cbn [noParams fp_optional fp_tag fp_explicit fp_set] in H. destruct (parseTagAndLength l) as [[h q]|e] eqn:EP; [|discriminate]. cbn [rbind] in H.
    cbn [uRaw u_any u_tag u_comp u_body negb andb orb] in H. destruct (Z.ltb_spec (zlen q) (tl_length h)) as [|L]; [discriminate|].
    apply header_iff in EP; [|exact HB]. destruct EP as (hd & Hh & El). pose proof (header_zlen _ _ _ _ _ Hh) as Hn.
    destruct (split_at _ q (tl_length h) ltac:(lia)) as (body & rest & -> & Hb).
    rewrite sub_app_l in H by auto. rewrite (zlen_app _ body rest), (sub_app_r _ body rest) in H by lia. rewrite El in H. rewrite app_assoc, sub_all_prefix in H. cbn [rbind] in H.
    apply ok_eq in H. assert (E1 : rv = mkRaw (tl_class h) (tl_tag h) (tl_comp h) body (hd ++ body)) by congruence. assert (E2 : r = rest) by congruence.
    subst rv r. unfold raw_item. cbn [rv_class rv_comp rv_tag rv_bytes rv_full]. split; [exists hd; split; [rewrite Hb; exact Hh|reflexivity]|].
    rewrite <- app_assoc. exact El.
  - intros [HI ->]. unfold parseField. destruct (rv_full rv ++ r) as [|x y] eqn:E; [exfalso; exact (item_nonempty _ _ _ _ _ _ HI E)|]. rewrite <- E in *. clear E x y.
    rewrite (item_parse _ _ _ _ _ _ HB HI). cbn [noParams fp_optional fp_tag fp_explicit fp_set rbind uRaw u_any u_tag u_comp u_body negb andb orb tl_length tl_class tl_tag tl_comp].
    rewrite over. rewrite (sub_app_l _ (rv_bytes rv) r) by reflexivity. rewrite (sub_app_r _ (rv_bytes rv) r) by (rewrite ?zlen_app; lia). rewrite sub_all_prefix. cbn [rbind].
    destruct rv; reflexivity.
Qed.
(** A field that has to be there. *)
Lemma plain_iff : forall A (u : uty A) t comp D z l v r, simple u t comp D -> bytes l ->
  (parseField u z noParams l = OK (v, r) <-> exists body, zlen body < 2 ^ 31 /\ D body = OK v /\ l = tlv (ident 0 t comp) body ++ r).
Proof.
  intros A u t comp D z l v r (Ht & HA & HT & HC & HD) HB. split.
  - intro H. apply (field_inv _ u z t comp) in H; [|exact HB|exact HA|exact HT|lia|exact HC]. destruct H as (body & El & _ & HL & HV).
    rewrite HD in HV. exists body. auto.
  - intros (body & HL & HV & ->). apply elem_parse. exists 0, t, comp, body. split; [reflexivity|]. split; [split; lia|]. split; [exact HL|].
    split; [right; rewrite HT; auto|]. rewrite HD. exact HV.
Qed.
(** An optional field without an explicit tag. *)
Definition other_item (c : Z) (b : bool) (t : Z) (l : list Z) : Prop :=
  l = [] \/ exists c' b' t' n h q, header c' b' t' n h /\ l = h ++ q /\ ~ (c' = c /\ b' = b /\ t' = t).
Lemma opt_iff : forall A (u : uty A) t comp D z p l v r, simple u t comp D -> bytes l ->
  fp_optional p = true -> fp_explicit p = false -> fp_set p = false -> match fp_tag p with Some n => 0 <= n < 31 | None => True end ->
  let c := match fp_tag p with Some _ => 2 | None => 0 end in
  let t' := match fp_tag p with Some n => n | None => t end in
  (parseField u z p l = OK (v, r) <->
   (exists body, zlen body < 2 ^ 31 /\ D body = OK v /\ l = tlv (ident c t' comp) body ++ r) \/
   (v = z /\ r = l /\ other_item c comp t' l)).
Proof.
  intros A u t comp D z p l v r (Ht & HA & HT & HC & HD) HB HO HX HSet HN c t'.
  assert (HS : small_header c t') by (unfold c, t'; destruct (fp_tag p); split; lia).
  destruct l as [|x y] eqn:El.
  { unfold parseField. rewrite HO. split.
    - intro H. apply ok_eq in H. right. assert (v = z) by congruence. assert (r = []) by congruence. split; [assumption|]. split; [assumption|]. left. reflexivity.
    - intros [(body & _ & _ & E)|(-> & -> & _)]; [discriminate E|reflexivity]. }
  rewrite <- El in *. assert (NE : l <> []) by (rewrite El; discriminate). clear El x y.
  assert (U : parseField u z p l =
    try (h, q) <- parseTagAndLength l;
    if negb ((tl_class h =? c) && (tl_tag h =? t') && Bool.eqb (tl_comp h) comp) then OK (z, l)
    else if zlen q <? tl_length h then ERR "data truncated"
         else try v <- D (sub q 0 (tl_length h)); OK (v, sub q (tl_length h) (zlen q))).
  { unfold parseField. destruct l as [|x y] eqn:El; [congruence|]. rewrite <- El. destruct (parseTagAndLength l) as [[h q]|e]; [|reflexivity]. cbn [rbind].
    rewrite HX, HO, HSet. cbn [rbind]. rewrite HT, HA, HC.
    assert (M : (let '(anyTag, eclass, etag) := match fp_tag p with Some n => (false, 2, n) | None => (false, 0, t) end in
      negb anyTag && (negb (tl_class h =? eclass) || negb (tl_tag h =? etag)) || negb false && negb (Bool.eqb (tl_comp h) comp)) =
      negb ((tl_class h =? c) && (tl_tag h =? t') && Bool.eqb (tl_comp h) comp)).
    { unfold c, t'. destruct (fp_tag p) as [n|]; cbn [negb andb]; rewrite !negb_andb; reflexivity. }
    destruct (fp_tag p) as [n|]; rewrite M; destruct (negb _); try reflexivity; destruct (zlen q <? tl_length h); try reflexivity; rewrite HD; reflexivity. }
  rewrite U. clear U. split.
  - intro H. destruct (parseTagAndLength l) as [[h q]|e] eqn:EP; [|discriminate]. cbn [rbind] in H. apply header_iff in EP; [|exact HB]. destruct EP as (hd & Hh & Ell).
    destruct ((tl_class h =? c) && (tl_tag h =? t') && Bool.eqb (tl_comp h) comp) eqn:M; cbn [negb] in H.
    + left. rewrite !andb_true_iff, !Z.eqb_eq in M. destruct M as [[M1 M2] M3]. apply Bool.eqb_prop in M3.
      destruct (Z.ltb_spec (zlen q) (tl_length h)) as [|L]; [discriminate|]. rewrite M1, M2, M3 in Hh. apply low_header in Hh; [|destruct HS; lia]. destruct Hh as (_ & -> & Hn).
      destruct (split_at _ q (tl_length h) ltac:(lia)) as (body & rest & -> & Hb). rewrite sub_app_l in H by auto. rewrite (zlen_app _ body rest), sub_app_r in H by lia.
      destruct (D body) as [w|e] eqn:ED; [|discriminate]. cbn [rbind] in H. apply ok_eq in H. assert (v = w) by congruence. assert (r = rest) by congruence. subst w rest.
      exists body. split; [lia|]. split; [exact ED|]. rewrite Ell. unfold tlv. rewrite Hb. cbn [app]. rewrite <- app_assoc. reflexivity.
    + right. apply ok_eq in H. split; [congruence|]. split; [congruence|]. right. exists (tl_class h), (tl_comp h), (tl_tag h), (tl_length h), hd, q.
      split; [exact Hh|]. split; [exact Ell|]. intros (Q1 & Q2 & Q3). rewrite Q1, Q2, Q3, !Z.eqb_refl, eqb_reflx in M. discriminate M.
  - intros [(body & HL & HV & El)|(-> & -> & [->|(c' & b' & t2 & n & hd & q & Hh & El & N)])].
    + rewrite El. rewrite tlv_parse by assumption. cbn [rbind tl_class tl_tag tl_length tl_comp]. rewrite !Z.eqb_refl, eqb_reflx. cbn [andb negb].
      rewrite over, sub_app_l by reflexivity. rewrite sub_app_r by (rewrite ?zlen_app; lia). rewrite HV. reflexivity.
    + congruence.
    + assert (EP : parseTagAndLength l = OK (mkTL c' t2 n b', q)) by (apply header_iff; [exact HB|]; exists hd; split; assumption).
      rewrite EP. cbn [rbind tl_class tl_tag tl_length tl_comp].
      destruct ((c' =? c) && (t2 =? t') && Bool.eqb b' comp) eqn:M; [|reflexivity].
      rewrite !andb_true_iff, !Z.eqb_eq in M. destruct M as [[M1 M2] M3]. apply Bool.eqb_prop in M3. exfalso. apply N. auto.
Qed.

(** * Lists *)
Lemma raws_iff : forall l vs, bytes l -> (parseSequenceOf uRaw zeroRaw l = OK vs <-> Forall raw_item vs /\ l = List.concat (map rv_full vs)).
Proof.
  assert (C : forall fuel l n vs, bytes l -> (List.length l <= fuel)%nat -> countElements fuel uRaw l = OK n -> parseElements n uRaw zeroRaw l = OK vs ->
    Forall raw_item vs /\ l = List.concat (map rv_full vs)).
  { induction fuel as [|fuel IH]; intros l n vs HB HL HC HP.
    - destruct l; [|cbn in HL; lia]. cbn [countElements] in HC. apply ok_eq in HC. subst n. cbn [parseElements] in HP. apply ok_eq in HP. subst vs. split; [constructor|reflexivity].
    - destruct l as [|x y] eqn:El.
      { cbn [countElements] in HC. apply ok_eq in HC. subst n. cbn [parseElements] in HP. apply ok_eq in HP. subst vs. split; [constructor|reflexivity]. }
      cbn [countElements] in HC. rewrite <- El in *. clear El x y.
      destruct (parseTagAndLength l) as [[h q]|e] eqn:EP; [|discriminate]. cbn [rbind uRaw u_any negb andb] in HC.
      destruct (Z.ltb_spec (zlen q) (tl_length h)) as [|L]; [discriminate|].
      destruct (countElements fuel _ _) as [n'|e] eqn:EC in HC; [|discriminate]. cbn [rbind] in HC. apply ok_eq in HC. subst n.
      cbn [parseElements] in HP. destruct (parseField uRaw zeroRaw noParams l) as [[v l']|e] eqn:EF; [|discriminate]. cbn [rbind] in HP.
      destruct (parseElements n' uRaw zeroRaw l') as [vs'|e] eqn:EE; [|discriminate]. cbn [rbind] in HP. apply ok_eq in HP. subst vs.
      apply raw_iff in EF; [|exact HB]. destruct EF as [HI El]. rewrite El in EP. rewrite El in HB. rewrite (item_parse _ _ _ _ _ _ HB HI) in EP. apply ok_eq in EP.
      assert (Eh : h = mkTL (rv_class v) (rv_tag v) (zlen (rv_bytes v)) (rv_comp v)) by congruence. assert (Eq : q = rv_bytes v ++ l') by congruence.
      rewrite Eh, Eq in EC. cbn [tl_length] in EC. rewrite sub_app_r in EC by (rewrite ?zlen_app; lia).
      pose proof (item_length _ _ _ _ _ HI) as NI. rewrite El, app_length in HL. apply bytes_app in HB. destruct HB as [_ HB].
      destruct (IH l' n' vs' HB ltac:(lia) EC EE) as [F E]. split; [constructor; assumption|]. cbn [map List.concat]. rewrite <- E. exact El. }
  assert (C2 : forall vs fuel, bytes (List.concat (map rv_full vs)) -> Forall raw_item vs -> (List.length (List.concat (map rv_full vs)) <= fuel)%nat ->
    countElements fuel uRaw (List.concat (map rv_full vs)) = OK (List.length vs) /\ parseElements (List.length vs) uRaw zeroRaw (List.concat (map rv_full vs)) = OK vs).
  { induction vs as [|v vs IH]; intros fuel HB HF HL; [destruct fuel; split; reflexivity|]. inversion HF as [|? ? HI HF']; subst. cbn [map List.concat] in *.
    set (rest := List.concat (map rv_full vs)) in *. pose proof (item_length _ _ _ _ _ HI) as NI. rewrite app_length in HL.
    pose proof HB as HB'. apply bytes_app in HB'. destruct HB' as [_ HB'].
    destruct fuel as [|fuel]; [lia|]. destruct (IH fuel HB' HF' ltac:(lia)) as [E1 E2]. cbn [List.length parseElements]. split.
    - cbn [countElements]. destruct (rv_full v ++ rest) as [|x y] eqn:El; [exfalso; exact (item_nonempty _ _ _ _ _ _ HI El)|]. rewrite <- El in *.
      rewrite (item_parse _ _ _ _ _ _ HB HI). cbn [rbind]. cbn [uRaw u_any negb andb tl_length]. fold uRaw. rewrite over. rewrite sub_app_r by (rewrite ?zlen_app; lia). rewrite E1. reflexivity.
    - assert (EF : parseField uRaw zeroRaw noParams (rv_full v ++ rest) = OK (v, rest)) by (apply raw_iff; [exact HB|]; split; [exact HI|reflexivity]).
      rewrite EF. cbn [rbind]. rewrite E2. reflexivity. }
  intros l vs HB. unfold parseSequenceOf. split.
  - intro H. destruct (countElements (List.length l) uRaw l) as [n|e] eqn:EC; [|discriminate]. cbn [rbind] in H. exact (C _ l n vs HB (le_n _) EC H).
  - intros [HF ->]. destruct (C2 vs (List.length (List.concat (map rv_full vs))) HB HF (le_n _)) as [E1 E2]. rewrite E1. exact E2.
Qed.
Lemma list_iff : forall A (u : uty A) t comp D z l vs, simple u t comp D -> bytes l ->
  (parseSequenceOf u z l = OK vs <->
   exists bodies, Forall2 (fun body v => zlen body < 2 ^ 31 /\ D body = OK v) bodies vs /\ l = List.concat (map (tlv (ident 0 t comp)) bodies)).
Proof.
  intros A u t comp D z l vs HS HB0. assert (HS' := HS). destruct HS' as (Ht & HA & HT & HC & HD). split.
  - unfold parseSequenceOf. intro H. destruct (countElements (List.length l) u l) as [n|e] eqn:EC; [|discriminate]. cbn [rbind] in H.
    assert (G : forall fuel l n vs, bytes l -> (List.length l <= fuel)%nat -> countElements fuel u l = OK n -> parseElements n u z l = OK vs ->
      exists bodies, Forall2 (fun body v => zlen body < 2 ^ 31 /\ D body = OK v) bodies vs /\ l = List.concat (map (tlv (ident 0 t comp)) bodies)).
    { clear - HS Ht HA HT HC HD. induction fuel as [|fuel IH]; intros l n vs HB HL HN HP.
      - destruct l; [|cbn in HL; lia]. cbn [countElements] in HN. apply ok_eq in HN. subst n. cbn [parseElements] in HP. apply ok_eq in HP. subst vs. exists []. split; [constructor|reflexivity].
      - destruct l as [|x y] eqn:El.
        { cbn [countElements] in HN. apply ok_eq in HN. subst n. cbn [parseElements] in HP. apply ok_eq in HP. subst vs. exists []. split; [constructor|reflexivity]. }
        cbn [countElements] in HN. rewrite <- El in *. clear El x y.
        destruct (parseTagAndLength l) as [[h q]|e] eqn:EP; [|discriminate]. cbn [rbind] in HN. destruct (_ && _) in HN; [discriminate|].
        destruct (Z.ltb_spec (zlen q) (tl_length h)) as [|L]; [discriminate|].
        destruct (countElements fuel _ _) as [n'|e] eqn:EC in HN; [|discriminate]. cbn [rbind] in HN. apply ok_eq in HN. subst n.
        cbn [parseElements] in HP. destruct (parseField u z noParams l) as [[v l']|e] eqn:EF; [|discriminate]. cbn [rbind] in HP.
        destruct (parseElements n' u z l') as [vs'|e] eqn:EE; [|discriminate]. cbn [rbind] in HP. apply ok_eq in HP. subst vs.
        apply (plain_iff _ _ _ _ _ _ _ _ _ HS HB) in EF. destruct EF as (body & Hb & HV & El). rewrite El in EP, HB, HL.
        rewrite tlv_parse in EP by (assumption || (split; lia)). apply ok_eq in EP.
        assert (Eh : h = mkTL 0 t (zlen body) comp) by congruence. assert (Eq : q = body ++ l') by congruence.
        rewrite Eh, Eq in EC. cbn [tl_length] in EC. rewrite sub_app_r in EC by (rewrite ?zlen_app; lia).
        apply bytes_app in HB. destruct HB as [_ HB]. rewrite app_length in HL. unfold tlv in HL. cbn [List.length] in HL.
        destruct (IH l' n' vs' HB ltac:(lia) EC EE) as (bodies & F & E). exists (body :: bodies). split; [constructor; [split; assumption|exact F]|].
        cbn [map List.concat]. rewrite <- E. exact El. }
    exact (G _ l n vs HB0 (le_n _) EC H).
  - intros (bodies & F & ->). apply parse_sequence. clear - F Ht HA HT HC HD. induction F as [|body v bodies vs [HL HV] F IH]; [constructor|]. cbn [map]. constructor; [|exact IH].
    exists 0, t, comp, body. split; [reflexivity|]. split; [split; lia|]. split; [exact HL|]. split; [right; rewrite HT; auto|]. rewrite HD. exact HV.
Qed.
