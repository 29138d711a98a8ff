(** Which bytes of a certificate end up where when it is parsed, and which play no part (C87). *)
From Coq Require Import ZArith List Lia Bool String.
From Verif Require Import GoBase BeMin CbString CbStringProofs PropsCbString CbBuilder CbBuilderProofs PropsCbBuilder CbAsn1Proofs GoAsn1 GoAsn1Proofs.
From Verif Require Import FpField WeiGroup Sm2Group GoElliptic Sm2Spec Sm2 Sm2Proofs Sm2Proofs2 PropsSm2 Sm2Der PropsSm2Der GoText GoPkix CertText PropsCertText Cert CertRt PropsCertExt PropsCertNames PropsCertSan PropsCertBuild PropsCertTime PropsCertDN CertRt2 PropsCert PropsCertReq PropsCertSafe.
Import ListNotations.
Open Scope Z_scope.

(** * A field is read from its own bytes *)

Lemma base128_local : forall l s a v r, base128Loop l s a = OK (v, r) -> exists h, l = h ++ r /\ forall r', base128Loop (h ++ r') s a = OK (v, r').
Proof.
  induction l as [|b l IH]; intros s a v r H; cbn [base128Loop] in H; [discriminate H|].
  destruct (s =? 5) eqn:E5; [discriminate H|]. destruct (Z.land b 128 =? 0) eqn:EB.
  - destruct (2 ^ 31 - 1 <? _) eqn:EL; [discriminate H|]. apply ok_inj in H. injection H as <- <-. exists [b]. split; [reflexivity|].
    intros r'. cbn [app base128Loop]. rewrite E5, EB, EL. reflexivity.
  - apply IH in H. destruct H as (h & -> & H). exists (b :: h). split; [reflexivity|]. intros r'. cbn [app base128Loop]. rewrite E5, EB. apply H.
Qed.
Lemma lengthLoop_local : forall n l a v r, lengthLoop n l a = OK (v, r) -> exists h, l = h ++ r /\ forall r', lengthLoop n (h ++ r') a = OK (v, r').
Proof.
  induction n as [|n IH]; intros l a v r H; cbn [lengthLoop] in H.
  - apply ok_inj in H. injection H as <- <-. exists []. split; reflexivity.
  - destruct l as [|b l]; [discriminate H|]. destruct (2 ^ 23 <=? a) eqn:E1; [discriminate H|]. destruct (Z.lor _ _ =? 0) eqn:E2; [discriminate H|].
    apply IH in H. destruct H as (h & -> & H). exists (b :: h). split; [reflexivity|]. intros r'. cbn [app lengthLoop]. rewrite E1, E2. apply H.
Qed.
Lemma header_local : forall l t r, parseTagAndLength l = OK (t, r) ->
  exists b h, l = b :: h ++ r /\ forall r', parseTagAndLength (b :: h ++ r') = OK (t, r').
Proof.
  intros l t r H. destruct l as [|b l]; [discriminate H|]. unfold parseTagAndLength in H.
  assert (T : forall tag q, (if Z.land b 31 =? 31 then rbind (parseBase128Int l) (fun '(tag, l) => if tag <? 31 then ERR "non-minimal tag" else OK (tag, l))
    else OK (Z.land b 31, l)) = OK (tag, q) -> exists h, l = h ++ q /\ forall q', (if Z.land b 31 =? 31 then rbind (parseBase128Int (h ++ q')) (fun '(tag, l) => if tag <? 31 then ERR "non-minimal tag" else OK (tag, l))
    else OK (Z.land b 31, h ++ q')) = OK (tag, q')).
  { intros tag q HQ. destruct (Z.land b 31 =? 31).
    - destruct (parseBase128Int l) as [[tg q1]|m] eqn:EB; [|discriminate HQ]. cbn [rbind] in HQ. destruct (tg <? 31) eqn:ET; [discriminate HQ|].
      apply ok_inj in HQ. injection HQ as <- <-. destruct (base128_local _ _ _ _ _ EB) as (h & -> & HB). exists h. split; [reflexivity|].
      intros q'. unfold parseBase128Int. rewrite HB. cbn [rbind]. rewrite ET. reflexivity.
    - apply ok_inj in HQ. injection HQ as <- <-. exists []. split; reflexivity. }
  destruct (if Z.land b 31 =? 31 then _ else _) as [[tag q]|m] eqn:ET; [|discriminate H]. destruct (T tag q eq_refl) as (h & -> & HT). clear T ET.
  cbn [rbind] in H. destruct q as [|b2 q]; [discriminate H|]. destruct (Z.land b2 128 =? 0) eqn:E2.
  - apply ok_inj in H. injection H as <- <-. exists b, (h ++ [b2]). split; [rewrite <- app_assoc; reflexivity|].
    intros r'. unfold parseTagAndLength. rewrite <- app_assoc. cbn [app]. rewrite HT. cbn [rbind]. rewrite E2. reflexivity.
  - destruct (Z.land b2 127 =? 0) eqn:E3; [discriminate H|]. destruct (lengthLoop _ q 0) as [[len q2]|m] eqn:EL; [|discriminate H]. cbn [rbind] in H.
    destruct (len <? 128) eqn:E4; [discriminate H|]. apply ok_inj in H. injection H as <- <-.
    destruct (lengthLoop_local _ _ _ _ _ EL) as (h2 & -> & HL). exists b, (h ++ b2 :: h2). split; [rewrite <- app_assoc; reflexivity|].
    intros r'. unfold parseTagAndLength. rewrite <- app_assoc. cbn [app]. rewrite HT. cbn [rbind]. rewrite E2, E3, HL. cbn [rbind]. rewrite E4. reflexivity.
Qed.
(** What parseField does once the header of the element is known. *)
Definition field_fin {A} (u : uty A) (absent : A) (p : fieldParameters) (l : list Z) (t : tagAndLength) (r : list Z) : res (A * list Z) :=
  let utag := if fp_set p then TagSet else u_tag u t in
  let '(anyTag, eclass, etag) := match fp_tag p with Some n => if fp_explicit p then (u_any u, 0, utag) else (false, 2, n) | None => (u_any u, 0, utag) end in
  if (negb anyTag && (negb (tl_class t =? eclass) || negb (tl_tag t =? etag))) || (negb (u_any u) && negb (Bool.eqb (tl_comp t) (u_comp u)))
  then if fp_optional p then OK (absent, l) else ERR "tags don't match"
  else if zlen r <? tl_length t then ERR "data truncated"
  else rbind (u_body u utag t (sub l 0 (zlen l - zlen (sub r (tl_length t) (zlen r)))) (sub r 0 (tl_length t)))
             (fun v => OK (v, sub r (tl_length t) (zlen r))).
Definition field_start {A} (u : uty A) (p : fieldParameters) (t : tagAndLength) (r : list Z) : res (option (tagAndLength * list Z)) :=
  if fp_explicit p then
    match r with
    | [] => ERR "explicit tag has no child"
    | _ :: _ =>
        if (tl_class t =? 2) && (match fp_tag p with Some n => tl_tag t =? n | None => false end) && ((tl_length t =? 0) || tl_comp t)
        then if u_any u then OK (Some (t, r))
             else if 0 <? tl_length t then rbind (parseTagAndLength r) (fun h => OK (Some h))
             else ERR "zero length explicit tag was not an asn1.Flag"
        else if fp_optional p then OK None else ERR "explicitly tagged member didn't match"
    end
  else OK (Some (t, r)).
Lemma field_steps : forall A (u : uty A) absent p l, l <> [] ->
  parseField u absent p l = rbind (parseTagAndLength l) (fun tr => rbind (field_start u p (fst tr) (snd tr)) (fun h =>
    match h with None => OK (absent, l) | Some (t, r) => field_fin u absent p l t r end)).
Proof. intros A u absent p l N. unfold parseField. destruct l as [|b l]; [contradiction|]. destruct (parseTagAndLength (b :: l)) as [[t r]|m]; reflexivity. Qed.
Lemma fin_local : forall A (u : uty A) absent p pre t q v r, 0 <= tl_length t -> field_fin u absent p (pre ++ q) t q = OK (v, r) ->
  (exists e, q = e ++ r /\ forall r', field_fin u absent p (pre ++ e ++ r') t (e ++ r') = OK (v, r')) \/
  (r = pre ++ q /\ v = absent /\ fp_optional p = true /\ forall l q', field_fin u absent p l t q' = OK (absent, l)).
Proof.
  intros A u absent p pre t q v r HT HF. unfold field_fin in *.
  destruct (match fp_tag p with Some n => _ | None => _ end) as [[anyTag eclass] etag].
  destruct ((_ && _) || _) eqn:EM.
  - destruct (fp_optional p) eqn:EO; [|discriminate HF]. apply ok_inj in HF. injection HF as <- <-. right. repeat split.
  - destruct (Z.ltb_spec (zlen q) (tl_length t)) as [LT|GE]; [discriminate HF|]. left.
    set (e := sub q 0 (tl_length t)) in *. set (rest := sub q (tl_length t) (zlen q)) in *.
    assert (Q : q = e ++ rest).
    { unfold e, rest, sub. rewrite Z.sub_0_r. change (Z.to_nat 0) with 0%nat. cbn [skipn].
      rewrite (firstn_all2 (skipn _ q)) by (rewrite skipn_length; unfold zlen in *; lia). symmetry. apply firstn_skipn. }
    assert (LE : zlen e = tl_length t) by (unfold e; rewrite sub_length; lia).
    clearbody e rest. subst q. destruct (u_body u _ t _ _) as [w|m] eqn:EB; [|discriminate HF]. cbn [rbind] in HF. apply ok_inj in HF. injection HF as -> ->.
    exists e. split; [reflexivity|]. intros r'. rewrite zlen_app. pose proof (zlen_nonneg _ r').
    destruct (Z.ltb_spec (zlen e + zlen r') (tl_length t)) as [LT'|_]; [lia|].
    rewrite (sub_app_r _ e r') by lia. rewrite (sub_app_l _ e r') by lia.
    rewrite app_assoc, sub_all_prefix. rewrite app_assoc, sub_all_prefix in EB. rewrite EB. reflexivity.
Qed.
(** Reading a field uses up its bytes and does not depend on those after them; a field that is absent is
    recognised by the header that stands there instead. *)
Lemma field_local : forall A (u : uty A) absent p l v r, bytes l -> u_any u = false \/ fp_explicit p = false -> parseField u absent p l = OK (v, r) ->
  (exists e, e <> [] /\ l = e ++ r /\ forall r', parseField u absent p (e ++ r') = OK (v, r')) \/
  (r = l /\ v = absent /\ fp_optional p = true /\ (l <> [] -> forall x, parseField u absent p (l ++ x) = OK (absent, l ++ x))).
Proof.
  intros A u absent p l v r HB HA H. destruct (list_eq_dec Z.eq_dec l []) as [->|N].
  { unfold parseField in H. destruct (fp_optional p) eqn:EO; [|discriminate H]. apply ok_inj in H. injection H as <- <-. right. repeat split. intros N. contradiction. }
  rewrite field_steps in H by exact N. destruct (parseTagAndLength l) as [[t q]|m] eqn:ET; [|discriminate H]. cbn [rbind fst snd] in H.
  destruct (parse_header_inv _ _ _ HB ET) as (_ & LT & _). destruct (header_local _ _ _ ET) as (b & h & -> & HH). clear ET N.
  assert (NE : forall x, b :: h ++ x <> []) by discriminate.
  assert (BQ : bytes q). { change (b :: h ++ q) with ((b :: h) ++ q) in HB. apply bytes_app in HB. apply HB. }
  unfold field_start in H. destruct (fp_explicit p) eqn:EX.
  - destruct HA as [HA|HA]; [|discriminate HA]. destruct q as [|q0 q1]; [discriminate H|]. rewrite HA in H.
    destruct (_ && _ && _) eqn:EM.
    + destruct (0 <? tl_length t) eqn:EZ; [|discriminate H]. set (q := q0 :: q1) in *.
      destruct (parseTagAndLength q) as [[t2 q2]|m] eqn:ET2; [|discriminate H]. cbn [rbind] in H.
      destruct (parse_header_inv _ _ _ BQ ET2) as (_ & LT2 & _). destruct (header_local _ _ _ ET2) as (b2 & h2 & HQ & HH2). clear ET2.
      rewrite HQ in H |- *. replace (b :: h ++ b2 :: h2 ++ q2) with ((b :: h ++ b2 :: h2) ++ q2) in H |- * by (cbn [app]; rewrite <- app_assoc; reflexivity).
      destruct (fin_local _ u absent p _ t2 q2 v r (proj1 LT2) H) as [(e & -> & HE)|(-> & -> & EO & HE)].
      * left. exists ((b :: h ++ b2 :: h2) ++ e). split; [discriminate|]. split; [rewrite <- app_assoc; reflexivity|]. intros r'.
        rewrite field_steps by discriminate. rewrite <- app_assoc.
        replace ((b :: h ++ b2 :: h2) ++ e ++ r') with (b :: h ++ (b2 :: h2 ++ e ++ r')) by (cbn [app]; rewrite <- app_assoc; reflexivity).
        rewrite HH. cbn [rbind fst snd]. unfold field_start. rewrite EX, EM, HA, EZ, HH2. cbn [rbind].
        replace (b :: h ++ (b2 :: h2 ++ e ++ r')) with ((b :: h ++ b2 :: h2) ++ e ++ r') by (cbn [app]; rewrite <- app_assoc; reflexivity). apply HE.
      * right. repeat split; [exact EO|]. intros _ x. rewrite field_steps by discriminate. rewrite <- app_assoc.
        replace ((b :: h ++ b2 :: h2) ++ q2 ++ x) with (b :: h ++ (b2 :: h2 ++ q2 ++ x)) by (cbn [app]; rewrite <- app_assoc; reflexivity).
        rewrite HH. cbn [rbind fst snd]. unfold field_start. rewrite EX, EM, HA, EZ, HH2. cbn [rbind]. apply HE.
    + destruct (fp_optional p) eqn:EO; [|discriminate H]. cbn [rbind] in H. apply ok_inj in H. injection H as <- <-. right. repeat split.
      intros _ x. rewrite field_steps by discriminate. change ((b :: h ++ q0 :: q1) ++ x) with (b :: (h ++ q0 :: q1) ++ x). rewrite <- app_assoc.
      rewrite HH. cbn [rbind fst snd app]. unfold field_start. rewrite EX, EM, EO. reflexivity.
  - cbn [rbind] in H. change (b :: h ++ q) with ((b :: h) ++ q) in H |- *.
    destruct (fin_local _ u absent p _ t q v r (proj1 LT) H) as [(e & -> & HE)|(-> & -> & EO & HE)].
    + left. exists ((b :: h) ++ e). split; [discriminate|]. split; [rewrite <- app_assoc; reflexivity|]. intros r'.
      rewrite field_steps by discriminate. rewrite <- app_assoc. cbn [app]. rewrite HH. cbn [rbind fst snd]. unfold field_start. rewrite EX. cbn [rbind]. apply HE.
    + right. repeat split; [exact EO|]. intros _ x. rewrite field_steps by discriminate. rewrite <- app_assoc. cbn [app]. rewrite HH. cbn [rbind fst snd].
      unfold field_start. rewrite EX. cbn [rbind]. apply HE.
Qed.
Lemma field_take : forall A (u : uty A) absent l v r, bytes l -> parseField u absent noParams l = OK (v, r) ->
  exists e, l = e ++ r /\ bytes e /\ bytes r /\ forall r', parseField u absent noParams (e ++ r') = OK (v, r').
Proof.
  intros A u absent l v r HB H. destruct (field_local _ u absent noParams l v r HB (or_intror eq_refl) H) as [(e & _ & -> & HE)|(_ & _ & Q & _)]; [|discriminate Q].
  apply bytes_app in HB. exists e. split; [reflexivity|]. split; [apply HB|]. split; [apply HB|exact HE].
Qed.
Lemma raw_take : forall l v r, bytes l -> parseField uRaw zeroRaw noParams l = OK (v, r) ->
  l = rv_full v ++ r /\ bytes (rv_full v) /\ bytes r /\ forall r', parseField uRaw zeroRaw noParams (rv_full v ++ r') = OK (v, r').
Proof.
  intros l v r HB H. destruct (field_take _ _ _ _ _ _ HB H) as (e & HL & BE & BR & HE).
  assert (rv_full v = e) as ->; [|exact (conj HL (conj BE (conj BR HE)))].
  destruct (list_eq_dec Z.eq_dec l []) as [->|N]; [discriminate H|]. rewrite field_steps in H by exact N.
  destruct (parseTagAndLength l) as [[t q]|m]; [|discriminate H]. cbn [rbind fst snd field_start noParams fp_explicit] in H.
  unfold field_fin in H. cbn [noParams fp_set fp_tag fp_explicit uRaw u_any u_body u_tag negb andb orb] in H.
  destruct (zlen q <? tl_length t); [discriminate H|]. cbn [rbind] in H. apply ok_inj in H. injection H as <- <-. cbn [rv_full].
  rewrite HL. apply sub_all_prefix.
Qed.
Lemma field_grow : forall A (u : uty A) absent p l v r x, bytes l -> u_any u = false -> parseField u absent p l = OK (v, r) -> l <> [] ->
  parseField u absent p (l ++ x) = OK (v, r ++ x).
Proof.
  intros A u absent p l v r x HB HA H N. destruct (field_local _ u absent p l v r HB (or_introl HA) H) as [(e & _ & -> & HE)|(-> & -> & _ & HE)].
  - rewrite <- app_assoc. apply HE.
  - apply HE. exact N.
Qed.
Lemma field_used : forall A (u : uty A) absent p l v r, bytes l -> u_any u = false -> parseField u absent p l = OK (v, r) -> r <> [] -> l <> [].
Proof.
  intros A u absent p l v r HB HA H N. destruct (field_local _ u absent p l v r HB (or_introl HA) H) as [(e & NE & -> & _)|(-> & _)]; [|exact N].
  destruct e; [contradiction|discriminate].
Qed.
(** An explicit tag around an element: the length that it gives is not compared with anything. *)
Lemma explicit_wrap : forall A (u : uty A) absent k t b c r n, u_any u = false -> 0 <= k < 31 -> 0 < n < 2 ^ 31 -> 0 <= t < 31 -> (forall h, u_tag u h = t) ->
  u_comp u = b -> zlen c < 2 ^ 31 ->
  parseField u absent (explicitTag k) (ident 2 k true :: der_len n ++ tlv (ident 0 t b) c ++ r) =
  rbind (u_body u t (mkTL 0 t (zlen c) b) (ident 2 k true :: der_len n ++ tlv (ident 0 t b) c) c) (fun v => OK (v, r)).
Proof.
  intros A u absent k t b c r n HA Hk Hn Ht HT HC LC. rewrite field_steps by discriminate.
  rewrite parse_header by (try split; lia). cbn [rbind fst snd]. unfold field_start. cbn [explicitTag fp_explicit fp_tag tl_class tl_tag tl_length tl_comp].
  destruct (tlv (ident 0 t b) c ++ r) as [|x y] eqn:EX; [discriminate EX|]. rewrite <- EX. clear EX x y.
  rewrite (Z.eqb_refl k), orb_true_r, HA. change (2 =? 2) with true. cbn [andb]. destruct (Z.ltb_spec 0 n) as [_|]; [|lia].
  rewrite tlv_parse by (try split; lia). cbn [rbind].
  unfold field_fin. cbn [explicitTag fp_set fp_tag fp_explicit fp_optional tl_class tl_tag tl_length tl_comp]. rewrite HT, HA, HC, (Z.eqb_refl t), Bool.eqb_reflx. change (0 =? 0) with true. cbn [negb andb orb].
  rewrite zlen_app. pose proof (zlen_nonneg _ r). destruct (Z.ltb_spec (zlen c + zlen r) (zlen c)) as [LT|_]; [lia|].
  rewrite (sub_app_r _ c r) by lia. rewrite (sub_app_l _ c r) by reflexivity.
  replace (ident 2 k true :: der_len n ++ tlv (ident 0 t b) c ++ r) with ((ident 2 k true :: der_len n ++ tlv (ident 0 t b) c) ++ r) by (cbn [app]; rewrite <- app_assoc; reflexivity).
  rewrite sub_all_prefix. reflexivity.
Qed.
Lemma explicit_read : forall A (u : uty A) absent k t b l v r, bytes l -> u_any u = false -> 0 <= k < 31 -> 0 <= t < 31 -> (forall h, u_tag u h = t) -> u_comp u = b ->
  parseField u absent (explicitTag k) l = OK (v, r) ->
  (r = l /\ v = absent) \/
  exists n c, 0 < n < 2 ^ 31 /\ l = ident 2 k true :: der_len n ++ tlv (ident 0 t b) c ++ r /\ zlen c < 2 ^ 31 /\
    u_body u t (mkTL 0 t (zlen c) b) (ident 2 k true :: der_len n ++ tlv (ident 0 t b) c) c = OK v.
Proof.
  intros A u absent k t b l v r HB HA Hk Ht HT HC H. destruct (list_eq_dec Z.eq_dec l []) as [->|N]; [left; cbn in H; apply ok_inj in H; injection H as <- <-; split; reflexivity|].
  pose proof H as H0. rewrite field_steps in H by exact N. destruct (parseTagAndLength l) as [[h q]|m] eqn:ET; [|discriminate H]. cbn [rbind fst snd] in H.
  destruct (parse_header_inv _ _ _ HB ET) as (HL & LN & (hd & HQ & _)). unfold field_start in H. cbn [explicitTag fp_explicit fp_tag fp_optional] in H.
  destruct q as [|q0 q1]; [discriminate H|]. set (q := q0 :: q1) in *. rewrite HA in H.
  destruct ((tl_class h =? 2) && _ && _) eqn:EM.
  2:{ cbn [rbind] in H. apply ok_inj in H. injection H as <- <-. left. split; reflexivity. }
  rewrite !andb_true_iff, !Z.eqb_eq in EM. destruct EM as [[M1 M2] M3]. destruct (Z.ltb_spec 0 (tl_length h)) as [P|]; [|discriminate H].
  rewrite (proj2 (Z.eqb_neq _ 0)) in M3 by lia. cbn [orb] in M3. destruct HL as [HL _]; [lia|]. rewrite M1, M2, M3 in HL.
  assert (BQ : bytes q) by (rewrite HQ in HB; apply bytes_app in HB; apply HB).
  destruct (parseTagAndLength q) as [[h2 q2]|m] eqn:ET2; [|discriminate H]. cbn [rbind] in H.
  unfold field_fin in H. cbn [explicitTag fp_set fp_tag fp_explicit fp_optional] in H. rewrite HT, HA, HC in H.
  destruct ((_ && _) || _) eqn:EM2.
  { apply ok_inj in H. injection H as <- <-. left. split; reflexivity. }
  rewrite orb_false_iff in EM2. destruct EM2 as [M4 M5]. cbn [negb andb] in M4, M5. apply orb_false_iff in M4. destruct M4 as [M4 M6].
  apply negb_false_iff in M4, M5, M6. apply Z.eqb_eq in M4, M6. apply Bool.eqb_prop in M5.
  destruct (parse_header_inv _ _ _ BQ ET2) as (HL2 & LN2 & _). destruct HL2 as [HL2 _]; [lia|]. rewrite M4, M5, M6 in HL2.
  destruct (Z.ltb_spec (zlen q2) (tl_length h2)) as [|GE]; [discriminate H|]. right.
  set (c := sub q2 0 (tl_length h2)). set (rest := sub q2 (tl_length h2) (zlen q2)).
  assert (Q : q2 = c ++ rest).
  { unfold c, rest, sub. rewrite Z.sub_0_r. change (Z.to_nat 0) with 0%nat. cbn [skipn].
    rewrite (firstn_all2 (skipn _ q2)) by (rewrite skipn_length; unfold zlen in *; lia). symmetry. apply firstn_skipn. }
  assert (LC : zlen c = tl_length h2) by (unfold c; rewrite sub_length; lia). clearbody c rest. clear H.
  assert (QE : q = tlv (ident 0 t b) c ++ rest) by (rewrite HL2, Q; unfold tlv; rewrite LC; cbn [app]; rewrite <- app_assoc; reflexivity).
  rewrite QE in HL. rewrite HL in H0. rewrite explicit_wrap in H0; try assumption; try lia.
  destruct (u_body u t _ _ c) as [w|m] eqn:EB; [|discriminate H0]. cbn [rbind] in H0. apply ok_inj in H0. injection H0 as <- <-.
  exists (tl_length h), c. split; [lia|]. split; [exact HL|]. split; [lia|exact EB].
Qed.
(** The version: left out when it is 0, or a tag [0] with any length around an INTEGER. *)
Definition version_field (v : Z) (e : list Z) : Prop :=
  (e = [] /\ v = 0) \/ exists n c, 0 < n < 2 ^ 31 /\ int_der v c /\ - 2 ^ 63 <= v < 2 ^ 63 /\ zlen c < 2 ^ 31 /\ e = 160 :: der_len n ++ tlv 2 c.
Lemma version_parse : forall v e c r, version_field v e -> zlen c < 2 ^ 31 -> c <> [] ->
  parseField uInt 0 (explicitTag 0) (e ++ tlv (ident 0 2 false) c ++ r) = OK (v, tlv (ident 0 2 false) c ++ r).
Proof.
  intros v e c r [[-> ->]|(n & cv & Hn & HI & Hv & LV & ->)] LC NC.
  - apply (field_absent _ uInt 0 (explicitTag 0) 0 2 false c r); try reflexivity; [split; lia|exact LC|left; lia|].
    intros _. split; [discriminate|]. destruct c; [contradiction|discriminate].
  - cbn [app]. rewrite <- app_assoc. change 160 with (ident 2 0 true). change 2 with (ident 0 TagInteger false) at 1.
    rewrite (explicit_wrap _ uInt 0 0 TagInteger false); try reflexivity; try assumption; try (unfold TagInteger; lia).
    cbn [uInt u_body]. rewrite (proj2 (parseInt64_iff cv v (proj1 HI)) (conj HI Hv)). reflexivity.
Qed.
(** The parts of the signed part of a certificate. *)
Lemma tbs_parts : forall t tbs, elem uTBS t tbs -> bytes tbs -> exists ver ser ia val tail n,
  tbs = tlv 48 (ver ++ ser ++ ia ++ rv_full (tb_issuer t) ++ val ++ rv_full (tb_subject t) ++ pki_raw (tb_key t) ++ tail) /\
  tb_raw t = tbs /\ tb_serial t = Some n /\ der_integer n ser /\ elem uAlg (tb_alg t) ia /\ elem uPKI (tb_key t) (pki_raw (tb_key t)) /\
  bits_fit (pki_key (tb_key t)) /\
  version_field (tb_version t) ver /\
  forall ver' ia' a' extra, version_field (tb_version t) ver' -> elem uAlg a' ia' -> (extra = [] \/ tb_exts t <> None) ->
    let body := ver' ++ ser ++ ia' ++ rv_full (tb_issuer t) ++ val ++ rv_full (tb_subject t) ++ pki_raw (tb_key t) ++ tail ++ extra in
    zlen body < 2 ^ 31 ->
    elem uTBS (mkTBS (tlv 48 body) (tb_version t) (tb_serial t) a' (tb_issuer t) (tb_notBefore t) (tb_notAfter t) (tb_subject t) (tb_key t)
                     (tb_uid t) (tb_suid t) (tb_exts t)) (tlv 48 body).
Proof.
  intros t tbs H HB. destruct (elem_seq _ _ _ _ H) as (d & -> & HL & HD). clear H. apply bytes_in_tlv in HB.
  destruct (parseField uInt 0 (explicitTag 0) d) as [[v1 l1]|m] eqn:E1; [|discriminate HD]. cbn [rbind] in HD.
  destruct (parseField uBigInt 0 noParams l1) as [[v2 l2]|m] eqn:E2; [|discriminate HD]. cbn [rbind] in HD.
  destruct (parseField uAlg zeroAlg noParams l2) as [[v3 l3]|m] eqn:E3; [|discriminate HD]. cbn [rbind] in HD.
  destruct (parseField uRaw zeroRaw noParams l3) as [[v4 l4]|m] eqn:E4; [|discriminate HD]. cbn [rbind] in HD.
  destruct (parseField uValidity (zeroTime, zeroTime) noParams l4) as [[v5 l5]|m] eqn:E5; [|discriminate HD]. cbn [rbind] in HD.
  destruct (parseField uRaw zeroRaw noParams l5) as [[v6 l6]|m] eqn:E6; [|discriminate HD]. cbn [rbind] in HD.
  destruct (parseField uPKI zeroPKI noParams l6) as [[v7 l7]|m] eqn:E7; [|discriminate HD]. cbn [rbind] in HD.
  destruct (parseField uBits zeroBits (optTag 1) l7) as [[v8 l8]|m] eqn:E8; [|discriminate HD]. cbn [rbind] in HD.
  destruct (parseField uBits zeroBits (optTag 2) l8) as [[v9 l9]|m] eqn:E9; [|discriminate HD]. cbn [rbind] in HD.
  destruct (parseField (uSlice uExtension zeroExt false) None (explicitTag 3) l9) as [[v10 l10]|m] eqn:E10; [|discriminate HD]. cbn [rbind] in HD.
  apply ok_inj in HD. subst t. cbn [tb_raw tb_version tb_serial tb_alg tb_issuer tb_notBefore tb_notAfter tb_subject tb_key tb_uid tb_suid tb_exts].
  assert (V : exists ver, d = ver ++ l1 /\ bytes l1 /\ version_field v1 ver).
  { destruct (explicit_read _ uInt 0 0 TagInteger false d v1 l1 HB eq_refl ltac:(lia) ltac:(unfold TagInteger; lia) (fun _ => eq_refl) eq_refl E1) as [[-> ->]|(n & c & Hn & Hd & LC & HV)].
    - exists []. split; [reflexivity|]. split; [exact HB|]. left. split; reflexivity.
    - exists (160 :: der_len n ++ tlv 2 c). split; [cbn [app]; rewrite <- app_assoc; exact Hd|]. rewrite Hd in HB.
      apply bytes_cons in HB. destruct HB as [_ HB]. apply bytes_app in HB. destruct HB as [_ HB]. apply bytes_app in HB. destruct HB as [HB1 HB2].
      split; [exact HB2|]. apply bytes_in_tlv in HB1. cbn [uInt u_body] in HV. apply (proj1 (parseInt64_iff c v1 HB1)) in HV.
      right. exists n, c. split; [exact Hn|]. split; [apply HV|]. split; [apply HV|]. split; [exact LC|reflexivity]. }
  destruct V as (ver & -> & B1 & VER).
  destruct (field_inv _ uBigInt 0 TagInteger false l1 v2 l2 B1 eq_refl (fun _ => eq_refl) ltac:(unfold TagInteger; lia) eq_refl E2) as (cs & -> & _ & LCS & HV2).
  apply bytes_app in B1. destruct B1 as [BS B2]. pose proof (bytes_in_tlv _ _ BS) as BC. apply (proj1 (parseBigInt_iff cs v2 BC)) in HV2.
  destruct (unmarshal_elem _ _ _ _ _ _ B2 E3) as (ia & -> & HIA). apply bytes_app in B2. destruct B2 as [_ B3].
  destruct (raw_take _ _ _ B3 E4) as (-> & _ & B4 & P4). destruct (field_take _ _ _ _ _ _ B4 E5) as (val & -> & _ & B5 & P5).
  destruct (raw_take _ _ _ B5 E6) as (-> & _ & B6 & P6). destruct (unmarshal_elem _ _ _ _ _ _ B6 E7) as (ek & -> & HK).
  pose proof (proj1 (field_sat' _ _ _ _ _ _ _ _ pki_sat zeroPKI_fit B6 E7)) as KF.
  assert (pki_raw v7 = ek) as -> by (apply uPKI_raw; exact HK).
  apply bytes_app in B6. destruct B6 as [_ B7].
  exists ver, (tlv (ident 0 2 false) cs), ia, val, l7, v2. split; [reflexivity|]. split; [reflexivity|]. split; [reflexivity|].
  split; [exists cs; split; [exact HV2|reflexivity]|]. split; [exact HIA|]. split; [exact HK|]. split; [exact KF|]. split; [exact VER|].
  intros ver' ia' a' extra HVER HIA' HX LB. change 48 with (ident 0 16 true). apply elem_struct; [exact LB|].
  rewrite (version_parse v1 ver' cs _ HVER LCS (proj1 (proj2 HV2))). cbn [rbind].
  rewrite (elem_parse _ uBigInt v2 (tlv (ident 0 2 false) cs)).
  2:{ exists 0, 2, false, cs. split; [reflexivity|]. split; [split; lia|]. split; [exact LCS|]. split; [right; repeat split|]. apply parseBigInt_iff; assumption. }
  cbn [rbind]. rewrite (elem_parse _ uAlg a' ia' _ _ HIA'). cbn [rbind]. rewrite P4. cbn [rbind]. rewrite P5. cbn [rbind]. rewrite P6. cbn [rbind].
  rewrite (elem_parse _ uPKI v7 ek _ _ HK). cbn [rbind].
  destruct HX as [->|HX].
  - rewrite app_nil_r, E8. cbn [rbind]. rewrite E9. cbn [rbind]. rewrite E10. reflexivity.
  - assert (N9 : l9 <> []) by (intros Q; rewrite Q in E10; cbn in E10; apply ok_inj in E10; apply HX; congruence).
    destruct (field_sat' _ _ _ _ _ _ _ _ (any_sat _ uBits) I B7 E8) as [_ B8]. destruct (field_sat' _ _ _ _ _ _ _ _ (any_sat _ uBits) I B8 E9) as [_ B9].
    pose proof (field_used _ uBits _ _ _ _ _ B8 eq_refl E9 N9) as N8. pose proof (field_used _ uBits _ _ _ _ _ B7 eq_refl E8 N8) as N7.
    rewrite (field_grow _ uBits _ _ _ _ _ extra B7 eq_refl E8 N7). cbn [rbind]. rewrite (field_grow _ uBits _ _ _ _ _ extra B8 eq_refl E9 N8). cbn [rbind].
    rewrite (field_grow _ (uSlice uExtension zeroExt false) _ _ _ _ _ extra B9 eq_refl E10 N9). reflexivity.
Qed.

(** * C87: the certificate *)

Section Env.
Variable E : netEnv.

Lemma cert_parts : forall c e, elem uCert c e -> bytes e ->
  exists tbs ea es more, e = tlv 48 (tbs ++ ea ++ es ++ more) /\ elem uTBS (ct_tbs c) tbs /\ elem uAlg (ct_alg c) ea /\ elem uBits (ct_sig c) es /\
    ct_raw c = e /\ bits_fit (ct_sig c) /\ bytes tbs.
Proof.
  intros c e H HB.
  destruct (elem_seq _ _ _ _ H) as (d & -> & HL & HD). apply bytes_in_tlv in HB.
  apply (struct_step _ _ _ zeroTBS d _ c HB) in HD. destruct HD as (t & et & r & -> & HT & BT & BR & HD). cbv beta iota in HD.
  apply (struct_step _ _ _ zeroAlg r _ c BR) in HD. destruct HD as (a & ea & r2 & -> & HA & BA & BR2 & HD). cbv beta iota in HD.
  destruct (parseField uBits zeroBits noParams r2) as [[s r3]|m] eqn:EP; [|discriminate HD]. cbn [rbind] in HD. apply ok_inj in HD. subst c.
  pose proof (proj1 (field_sat' _ _ _ _ _ _ _ _ bits_sat zeroBits_fit BR2 EP)) as BF.
  destruct (field_inv _ uBits zeroBits TagBitString false r2 s r3 BR2 eq_refl (fun _ => eq_refl) ltac:(unfold TagBitString; lia) eq_refl EP) as (body & -> & SH & LB & HV).
  exists et, ea, (tlv (ident 0 3 false) body), r3. cbn [ct_tbs ct_alg ct_sig ct_raw] in *.
  split; [reflexivity|]. split; [exact HT|]. split; [exact HA|]. split.
  { exists 0, 3, false, body. split; [reflexivity|]. split; [exact SH|]. split; [exact LB|]. split; [right; repeat split|exact HV]. }
  split; [reflexivity|]. split; [exact BF|exact BT].
Qed.
Lemma cert_made : forall t a s tbs ea es more, elem uTBS t tbs -> elem uAlg a ea -> elem uBits s es -> zlen (tbs ++ ea ++ es ++ more) < 2 ^ 31 ->
  elem uCert (mkCert (tlv 48 (tbs ++ ea ++ es ++ more)) t a s) (tlv 48 (tbs ++ ea ++ es ++ more)).
Proof.
  intros t a s tbs ea es more HT HA HS HL. change 48 with (ident 0 16 true). apply elem_struct; [exact HL|].
  rewrite (elem_parse _ uTBS t tbs _ _ HT). cbn [rbind]. rewrite (elem_parse _ uAlg a ea _ _ HA). cbn [rbind].
  rewrite (elem_parse _ uBits s es _ _ HS). reflexivity.
Qed.
(** A certificate value with other Raw and RawTBSCertificate. *)
Definition with_raw (c : Certificate E) (raw rawTBS : list Z) : Certificate E :=
  mkX509 E raw rawTBS (c_RawSPKI E c) (c_RawSubject E c) (c_RawIssuer E c) (c_Signature E c) (c_SignatureAlgorithm E c) (c_PublicKeyAlgorithm E c)
    (c_PublicKey E c) (c_Version E c) (c_SerialNumber E c) (c_Issuer E c) (c_Subject E c) (c_NotBefore E c) (c_NotAfter E c)
    (c_Extensions E c) (c_ExtraExtensions E c) (c_Unhandled E c) (c_fields E c).
Lemma parse_raw : forall raw t a s c raw' rawTBS' a1' a' , parseCertificate E (mkCert raw t a s) = Ret (OK c) -> alg_oid a' = alg_oid a ->
  parseCertificate E (mkCert raw' (mkTBS rawTBS' (tb_version t) (tb_serial t) a1' (tb_issuer t) (tb_notBefore t) (tb_notAfter t) (tb_subject t) (tb_key t)
                     (tb_uid t) (tb_suid t) (tb_exts t)) a' s) = Ret (OK (with_raw c raw' rawTBS')).
Proof.
  intros raw t a s c raw' rawTBS' a1' a' H HO. unfold parseCertificate in *. cbn [ct_raw ct_tbs ct_alg ct_sig tb_raw tb_version tb_serial tb_alg tb_issuer tb_notBefore tb_notAfter tb_subject tb_key tb_uid tb_suid tb_exts] in *.
  rewrite HO. destruct (negb _); [discriminate H|]. destruct (negb _); [discriminate H|].
  destruct (parsePublicKey (tb_key t)) as [pub|m]; [|discriminate H]. cbn [gbind] in *.
  destruct (unmarshalAll uRDNSequence [] (rv_full (tb_subject t))) as [sj|m]; [|discriminate H]. cbn [gbind] in *.
  destruct (unmarshalAll uRDNSequence [] (rv_full (tb_issuer t))) as [is|m]; [|discriminate H]. cbn [gbind] in *.
  destruct (parseExtensions E _ (zeroFields E) []) as [[[f u]|m]|k]; [|discriminate H|discriminate H]. cbn [gbind] in *.
  apply ret_inj in H. apply ok_inj in H. subst c. reflexivity.
Qed.
(** The certificate consists of the parts that the fields Raw... are named after, in this order; the key
    is a point of the curve. The version may be wrapped in a tag with any length, and neither the
    algorithm identifier inside the signed part, nor the parameters of the one outside, nor what follows
    the signature, nor, if there are extensions, what follows them has any influence on the result
    apart from Raw and RawTBSCertificate. *)
Theorem C87_parts : forall der c, bytes der -> ParseCertificate E der = Ret (OK c) ->
  exists ver ser ia val tail ea es more v n pub,
    c_Raw E c = der /\ der = tlv 48 (c_RawTBS E c ++ ea ++ es ++ more) /\
    c_RawTBS E c = tlv 48 (ver ++ ser ++ ia ++ c_RawIssuer E c ++ val ++ c_RawSubject E c ++ c_RawSPKI E c ++ tail) /\
    version_field v ver /\ c_Version E c = i64 (v + 1) /\ c_SerialNumber E c = Some n /\ der_integer n ser /\
    c_PublicKey E c = KeySM2 pub /\ key_ok pub /\
    forall ver' ia' a1' ea' a' more' extra,
      version_field v ver' -> elem uAlg a1' ia' -> elem uAlg a' ea' -> alg_oid a' = oidSignatureSM3WithSM2 -> (extra = [] \/ c_Extensions E c <> []) ->
      forall body' tbs' der',
      body' = ver' ++ ser ++ ia' ++ c_RawIssuer E c ++ val ++ c_RawSubject E c ++ c_RawSPKI E c ++ tail ++ extra ->
      tbs' = tlv 48 body' -> der' = tlv 48 (tbs' ++ ea' ++ es ++ more') -> zlen (tbs' ++ ea' ++ es ++ more') < 2 ^ 31 ->
      ParseCertificate E der' = Ret (OK (with_raw c der' tbs')).
Proof.
  intros der c HB H. unfold ParseCertificate in H. apply gbind_ok in H. destruct H as ([ct rest] & H1 & H).
  apply ret_inj in H1. destruct (unmarshal_elem _ _ _ _ _ _ HB H1) as (e & -> & HE). clear H1.
  destruct rest as [|x rest]; [|rewrite zlen_cons in H; pose proof (zlen_nonneg _ rest);
    rewrite (proj2 (Z.eqb_neq (zlen rest + 1) 0)) in H by lia; discriminate H].
  change (negb (zlen (@nil Z) =? 0)) with false in H. cbv iota in H. rewrite app_nil_r in *.
  destruct (cert_parts ct e HE HB) as (tbs & ea & es & more & HD & HT & HA & HS & HR & BF & BT).
  destruct (tbs_parts _ _ HT BT) as (ver & ser & ia & val & tail & n & HTB & RT & SN & DS & HIA & HK & KF & VF & REST).
  destruct ct as [raw t a s]. cbn [ct_raw ct_tbs ct_alg ct_sig] in *. pose proof H as H0. unfold parseCertificate in H. cbn [ct_raw ct_tbs ct_alg ct_sig] in H.
  destruct (negb (oidEqual oidSignatureSM3WithSM2 _)) eqn:A1; [discriminate H|]. apply oidEqual_sym_eq in A1.
  destruct (negb (oidEqual oidPublicKeyECDSA _)) eqn:A2; [discriminate H|].
  apply gbind_ok in H. destruct H as (pub & H2 & H). apply ret_inj in H2. apply gbind_ok in H. destruct H as (sj & _ & H). apply gbind_ok in H. destruct H as (is & _ & H).
  apply gbind_ok in H. destruct H as ([f u] & HX & H). apply ret_inj in H. apply ok_inj in H.
  exists ver, ser, ia, val, tail, ea, es, more, (tb_version t), n, pub.
  assert (F : c_Raw E c = e /\ c_RawTBS E c = tbs /\ c_RawIssuer E c = rv_full (tb_issuer t) /\ c_RawSubject E c = rv_full (tb_subject t) /\ c_RawSPKI E c = pki_raw (tb_key t) /\
    c_Version E c = i64 (tb_version t + 1) /\ c_SerialNumber E c = Some n /\ c_PublicKey E c = KeySM2 pub /\
    c_Extensions E c = match tb_exts t with Some l => l | None => [] end).
  { subst c. cbn [c_Raw c_RawTBS c_RawIssuer c_RawSubject c_RawSPKI c_Version c_SerialNumber c_PublicKey c_Extensions]. repeat split; assumption. }
  clear H. destruct F as (F1 & F2 & F3 & F4 & F5 & F6 & F7 & F8 & F9). rewrite F1, F2, F3, F4, F5, F6, F7, F8, F9.
  split; [reflexivity|]. split; [exact HD|]. split; [exact HTB|]. split; [exact VF|]. split; [reflexivity|]. split; [reflexivity|]. split; [exact DS|].
  split; [reflexivity|]. split; [exact (parsed_key _ _ KF H2)|].
  intros ver' ia' a1' ea' a' more' extra HV' HIA' HEA' HO HEX body' tbs' der' -> -> -> LD.
  set (body' := ver' ++ _) in *.
  assert (LB : zlen body' < 2 ^ 31) by (rewrite zlen_app in LD; pose proof (zlen_tlv_ge 48 body'); pose proof (zlen_nonneg _ (ea' ++ es ++ more')); lia).
  assert (ET : elem uTBS (mkTBS (tlv 48 body') (tb_version t) (tb_serial t) a1' (tb_issuer t) (tb_notBefore t) (tb_notAfter t) (tb_subject t) (tb_key t)
                     (tb_uid t) (tb_suid t) (tb_exts t)) (tlv 48 body')).
  { apply (REST ver' ia' a1' extra HV' HIA'); [|exact LB]. destruct HEX as [->|HEX]; [left; reflexivity|right]. intros Q. rewrite Q in HEX. apply HEX. reflexivity. }
  unfold ParseCertificate. rewrite <- (app_nil_r (tlv 48 (tlv 48 body' ++ ea' ++ es ++ more'))) at 1.
  rewrite (elem_unmarshal _ uCert _ _ _ _ (cert_made _ _ _ _ _ _ more' ET HEA' HS LD)). cbn [gbind]. change (negb (zlen (@nil Z) =? 0)) with false. cbv iota.
  apply (parse_raw raw t a s c); [exact H0|congruence].
Qed.
End Env.

(** A certificate whose version is wrapped with a wrong length, whose inner algorithm identifier is some
    other, and which has bytes after the extensions and after the signature. *)
Definition ex_odd_cert (ver ia extra ea more : list Z) : list Z :=
  tlv 48 (tlv 48 (ver ++ [2; 1; 77] ++ ia ++ ex_name ++
                  tlv 48 (tlv 23 [50; 54; 48; 49; 48; 49; 48; 48; 48; 48; 48; 48; 90] ++ tlv 23 [50; 55; 48; 49; 48; 49; 48; 48; 48; 48; 48; 48; 90]) ++ ex_name ++ ex_key ++
                  tlv 163 (tlv 48 (tlv 48 ([6; 3; 85; 29; 19] ++ tlv 4 [48; 3; 1; 1; 255]))) ++ extra) ++
          ea ++ tlv 3 [0; 48; 6; 2; 1; 1; 2; 1; 1] ++ more).
Example C87_ex : exists c,
  let plain := ex_odd_cert [160; 3; 2; 1; 2] sm2sm3_alg [] sm2sm3_alg [] in
  let odd := ex_odd_cert [160; 99; 2; 1; 2] [48; 3; 6; 1; 42] [1; 2; 3] (tlv 48 ([6; 8; 42; 129; 28; 207; 85; 1; 131; 117] ++ [5; 0])) [9; 9] in
  ParseCertificate noNet plain = Ret (OK c) /\ c_Version noNet c = 3 /\ f_IsCA noNet (c_fields noNet c) = true /\ c_Extensions noNet c <> [] /\
  exists tbs, ParseCertificate noNet odd = Ret (OK (with_raw noNet c odd tbs)).
Proof. eexists. cbv zeta. split; [vm_compute; reflexivity|]. split; [reflexivity|]. split; [reflexivity|]. split; [discriminate|]. eexists. vm_compute. reflexivity. Qed.
(** If the element tagged [3] does not hold a SEQUENCE, it counts as bytes after the end and the
    certificate has no extensions, although one was critical. *)
Example C87_ex_lost : exists c,
  ParseCertificate noNet (tlv 48 (tlv 48 ([160; 3; 2; 1; 2] ++ [2; 1; 77] ++ sm2sm3_alg ++ ex_name ++
      tlv 48 (tlv 23 [50; 54; 48; 49; 48; 49; 48; 48; 48; 48; 48; 48; 90] ++ tlv 23 [50; 55; 48; 49; 48; 49; 48; 48; 48; 48; 48; 48; 90]) ++ ex_name ++ ex_key ++
      tlv 163 (tlv 49 (tlv 48 ([6; 3; 85; 29; 99] ++ [1; 1; 255] ++ tlv 4 [5; 0])))) ++ sm2sm3_alg ++ tlv 3 [0; 48; 6; 2; 1; 1; 2; 1; 1])) = Ret (OK c) /\
  c_Extensions noNet c = [] /\ c_Unhandled noNet c = [].
Proof. eexists. split; [vm_compute; reflexivity|]. split; reflexivity. Qed.
