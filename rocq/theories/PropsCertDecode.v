(** Exactly which bytes each kind of certificate extension accepts, and what it yields (C92). *)
From Coq Require Import ZArith List Lia Bool String.
From Verif Require Import GoBase BeMin CbString CbStringProofs CbBuilder CbBuilderProofs CbAsn1Proofs GoAsn1 GoAsn1Proofs GoText GoPkix CertText Cert CertRt CertRt2 DerIff.
From Verif Require Import PropsCbString PropsCbAsn1 PropsCertText PropsCertNames PropsCertSan PropsCertBuild PropsCertExt.
Import ListNotations.
Open Scope Z_scope.

(** * The grammar *)

(** What may stand for a value of some type: a relation between contents and value. *)
Definition gram (A : Type) := list Z -> A -> Prop.
(** One element of class c, form b and tag t, whose contents P reads; r is what follows it. *)
Definition elem_of {A} (c : Z) (b : bool) (t : Z) (P : gram A) (l : list Z) (v : A) (r : list Z) : Prop :=
  exists body, zlen body < 2 ^ 31 /\ P body v /\ l = tlv (ident c t b) body ++ r.
(** The same element or nothing; if nothing, what follows starts with the header of another element. *)
Definition opt_of {A} (c : Z) (b : bool) (t : Z) (P : gram A) (z : A) (l : list Z) (v : A) (r : list Z) : Prop :=
  elem_of c b t P l v r \/ (v = z /\ r = l /\ other_item c b t l).
(** Any number of universal elements with tag t. *)
Definition many {A} (b : bool) (t : Z) (P : gram A) : gram (list A) := fun l vs =>
  exists bodies, Forall2 (fun body v => zlen body < 2 ^ 31 /\ P body v) bodies vs /\ l = List.concat (map (tlv (ident 0 t b)) bodies).

Definition g_bool : gram bool := fun l v => l = [if v then 255 else 0].
Definition g_int : gram Z := fun l v => int_der v l /\ - 2 ^ 63 <= v < 2 ^ 63.
(** A bit string: the number of unused bits, which are zero, then the octets. *)
Definition g_bits : gram BitString := fun l v => exists pad, l = pad :: bs_bytes v /\ 0 <= pad <= 7 /\ (bs_bytes v = [] -> pad = 0) /\
  last (bs_bytes v) 0 mod 2 ^ pad = 0 /\ bs_len v = 8 * zlen (bs_bytes v) - pad.
Definition g_octets : gram (list Z) := fun l v => v = l.
Definition g_oid : gram (list Z) := fun l v => oid_octets v l.
(** Any elements at all, one after the other. *)
Definition g_raws : gram (list RawValue) := fun l vs => Forall raw_item vs /\ l = List.concat (map rv_full vs).
(** The value of an attribute: a primitive universal element of a known kind, or anything else, which
    is read as nothing. *)
Definition any_value (rv : RawValue) (v : goAny) : Prop :=
  if negb (rv_comp rv) && (rv_class rv =? 0) then parseAnyBody (rv_tag rv) (rv_bytes rv) = OK v else v = AnyNil.
Definition g_atv : gram ATV := fun l a => exists l1 rv r, elem_of 0 false 6 g_oid l (atv_type a) l1 /\ raw_item rv /\ any_value rv (atv_value a) /\ l1 = rv_full rv ++ r.
Definition g_name : gram (list (list ATV)) := many true 17 (many true 16 g_atv).

(** The contents of the extensions. In each of them what follows the last known field is ignored. *)
Definition g_basic : gram (bool * Z) := fun l v => exists l1 l2, opt_of 0 false 1 g_bool false l (fst v) l1 /\ opt_of 0 false 2 g_int (-1) l1 (snd v) l2.
Definition g_keyid : gram (list Z) := fun l v => exists l1, opt_of 2 false 0 g_octets [] l v l1.
Definition g_policy : gram (list Z) := fun l v => exists l1, elem_of 0 false 6 g_oid l v l1.
Definition g_access : gram (list Z * RawValue) := fun l v => exists l1 r, elem_of 0 false 6 g_oid l (fst v) l1 /\ raw_item (snd v) /\ l1 = rv_full (snd v) ++ r.
Definition g_dpname : gram (list RawValue) := fun l v => exists l1 rel l2, opt_of 2 true 0 g_raws [] l v l1 /\ opt_of 2 true 1 g_name [] l1 rel l2.
Definition g_dp : gram (list RawValue) := fun l v => exists l1 reasons l2 issuer l3,
  opt_of 2 true 0 g_dpname [] l v l1 /\ opt_of 2 false 1 g_bits zeroBits l1 reasons l2 /\
  ((raw_item issuer /\ rv_class issuer = 2 /\ rv_tag issuer = 2 /\ l2 = rv_full issuer ++ l3) \/
   l2 = [] \/ exists c b t n h q, header c b t n h /\ l2 = h ++ q /\ ~ (c = 2 /\ t = 2)).

(** * The parsers follow it *)
Definition reads {A} (u : uty A) (t : Z) (comp : bool) (P : gram A) : Prop :=
  exists D, simple u t comp D /\ forall i v, bytes i -> (D i = OK v <-> P i v).
Lemma tlv_bytes : forall i body r, bytes (tlv i body ++ r) -> bytes body /\ bytes r.
Proof. intros i body r H. apply bytes_app in H. destruct H as [H Hr]. split; [|exact Hr]. unfold tlv in H. change (i :: der_len (zlen body) ++ body) with ([i] ++ der_len (zlen body) ++ body) in H. apply bytes_app in H. destruct H as [_ H]. apply bytes_app in H. apply H. Qed.
Lemma plain_of : forall A (u : uty A) t comp P z l v r, reads u t comp P -> bytes l ->
  (parseField u z noParams l = OK (v, r) <-> elem_of 0 comp t P l v r).
Proof.
  intros A u t comp P z l v r (D & HS & HD) HB. rewrite (plain_iff _ _ _ _ _ _ _ _ _ HS HB). unfold elem_of.
  split; intros (body & HL & HV & E); exists body; (split; [exact HL|]); (split; [|exact E]); rewrite E in HB; apply tlv_bytes in HB; apply HD; tauto.
Qed.
Lemma opt_of_iff : forall A (u : uty A) t comp P z l v r, reads u t comp P -> bytes l ->
  (parseField u z optParams l = OK (v, r) <-> opt_of 0 comp t P z l v r).
Proof.
  intros A u t comp P z l v r (D & HS & HD) HB. rewrite (opt_iff _ _ _ _ _ z optParams l v r HS HB) by (reflexivity || exact I). cbn [fp_tag optParams].
  unfold opt_of, elem_of. split; (intros [(body & HL & HV & E)|H]; [left|right; exact H]); exists body; (split; [exact HL|]); (split; [|exact E]); rewrite E in HB; apply tlv_bytes in HB; apply HD; tauto.
Qed.
Lemma tag_of_iff : forall A (u : uty A) t comp P n z l v r, reads u t comp P -> bytes l -> 0 <= n < 31 ->
  (parseField u z (optTag n) l = OK (v, r) <-> opt_of 2 comp n P z l v r).
Proof.
  intros A u t comp P n z l v r (D & HS & HD) HB Hn. rewrite (opt_iff _ _ _ _ _ z (optTag n) l v r HS HB) by (reflexivity || exact Hn). cbn [fp_tag optTag].
  unfold opt_of, elem_of. split; (intros [(body & HL & HV & E)|H]; [left|right; exact H]); exists body; (split; [exact HL|]); (split; [|exact E]); rewrite E in HB; apply tlv_bytes in HB; apply HD; tauto.
Qed.
Lemma elem_rest : forall A c b t (P : gram A) l v r, bytes l -> elem_of c b t P l v r -> bytes r.
Proof. intros A c b t P l v r HB (body & _ & _ & E). rewrite E in HB. apply tlv_bytes in HB. apply HB. Qed.
Lemma opt_rest : forall A c b t (P : gram A) z l v r, bytes l -> opt_of c b t P z l v r -> bytes r.
Proof. intros A c b t P z l v r HB [H|(_ & -> & _)]; [exact (elem_rest _ _ _ _ _ _ _ _ HB H)|exact HB]. Qed.
Lemma many_iff : forall A (u : uty A) t comp P z l vs, reads u t comp P -> bytes l ->
  (parseSequenceOf u z l = OK vs <-> many comp t P l vs).
Proof.
  intros A u t comp P z l vs (D & HS & HD) HB. rewrite (list_iff _ _ _ _ _ z l vs HS HB). unfold many.
  assert (K : forall bodies, l = List.concat (map (tlv (ident 0 t comp)) bodies) -> Forall bytes bodies).
  { intros bodies E. rewrite E in HB. clear - HB. induction bodies as [|b bodies IH]; [constructor|]. cbn [map List.concat] in HB. apply tlv_bytes in HB.
    constructor; [apply HB|apply IH, HB]. }
  split; intros (bodies & F & E); exists bodies; (split; [|exact E]); apply K in E; clear - F E HD;
    induction F as [|b v bodies vs [HL HV] F IH]; constructor; inversion E; subst; try (apply IH; assumption); (split; [exact HL|]); apply HD; assumption.
Qed.
Lemma reads_list : forall A (u : uty A) t comp P z, reads u t comp P -> reads (uList u z false) 16 true (many comp t P).
Proof. intros A u t comp P z H. exists (parseSequenceOf u z). split; [apply simple_list|]. intros i v HB. apply many_iff; assumption. Qed.
Lemma reads_set : forall A (u : uty A) t comp P z, reads u t comp P -> reads (uList u z true) 17 true (many comp t P).
Proof. intros A u t comp P z H. exists (parseSequenceOf u z). split; [split; [lia|]; repeat split|]. intros i v HB. apply many_iff; assumption. Qed.
Lemma reads_struct : forall A (body : list Z -> res A) (P : gram A), (forall i v, bytes i -> (body i = OK v <-> P i v)) -> reads (uStruct (fun _ => body)) 16 true P.
Proof. intros A body P H. exists body. split; [apply simple_struct|exact H]. Qed.
Lemma reads_bool : reads uBool 1 false g_bool.
Proof.
  exists parseBool. split; [apply simple_bool|]. intros i v HB. unfold g_bool. destruct i as [|b [|c i]]; cbn [parseBool].
  - split; discriminate.
  - destruct (Z.eqb_spec b 0) as [->|N0]; [|destruct (Z.eqb_spec b 255) as [->|N1]]; destruct v; split; congruence.
  - split; discriminate.
Qed.
Lemma reads_int : reads uInt 2 false g_int.
Proof. exists parseInt64. split; [apply simple_int|]. intros i v HB. apply parseInt64_iff, HB. Qed.
Lemma land_ones_mod : forall x p, 0 <= p -> Z.land x (2 ^ p - 1) = x mod 2 ^ p.
Proof. intros x p H. rewrite <- Z.land_ones by exact H. f_equal. rewrite Z.ones_equiv. lia. Qed.
Lemma bits_iff : forall i v, bytes i -> (parseBitString i = OK v <-> g_bits i v).
Proof.
  intros i v HB. unfold g_bits, parseBitString. destruct i as [|p body]; [split; [discriminate|intros (q & E & _); discriminate E]|].
  apply bytes_cons in HB. destruct HB as [Hp HB]. unfold byte in Hp. rewrite land_ones_mod by lia. rewrite zlen_cons.
  assert (L : body <> [] -> last (p :: body) 0 = last body 0) by (destruct body; [congruence|reflexivity]).
  assert (T : (7 <? p) || ((zlen body + 1 =? 1) && (0 <? p)) || negb (last (p :: body) 0 mod 2 ^ p =? 0) = false <->
    0 <= p <= 7 /\ (body = [] -> p = 0) /\ last body 0 mod 2 ^ p = 0).
  { rewrite !orb_false_iff, andb_false_iff, negb_false_iff, Z.eqb_eq, !Z.ltb_ge, Z.eqb_neq. destruct body as [|b body].
    - change (zlen (A:=Z) []) with 0. cbn [last]. split.
      + intros ((H1 & [H2|H2]) & H3); [lia|]. split; [lia|]. split; [lia|]. apply Z.mod_0_l. apply Z.pow_nonzero; lia.
      + intros (H1 & H2 & _). rewrite (H2 eq_refl). cbn. split; [split; [lia|right; lia]|reflexivity].
    - rewrite L by discriminate. rewrite zlen_cons. pose proof (zlen_nonneg _ body). split.
      + intros ((H1 & _) & H3). split; [lia|]. split; [discriminate|exact H3].
      + intros (H1 & _ & H3). split; [split; [lia|left; lia]|exact H3]. }
  destruct (_ || _ || _) eqn:C.
  - split; [discriminate|]. intros (q & E & H1 & H2 & H3 & _). apply cons_eq in E. destruct E as [-> ->]. exfalso. assert (true = false) by (apply T; tauto). discriminate.
  - destruct (proj1 T eq_refl) as (H1 & H2 & H3). split.
    + intro E. apply ok_eq in E. rewrite <- E. cbn [bs_bytes bs_len]. exists p. split; [reflexivity|]. split; [exact H1|]. split; [exact H2|]. split; [exact H3|lia].
    + intros (q & E & _ & _ & _ & EL). apply cons_eq in E. destruct E as [-> E]. destruct v as [vb vl]. cbn [bs_bytes bs_len] in *. rewrite E, EL. f_equal. f_equal. lia.
Qed.
Lemma reads_bits : reads uBits 3 false g_bits.
Proof. exists parseBitString. split; [apply simple_bits|exact bits_iff]. Qed.
Lemma reads_octets : reads uOctets 4 false (fun l v => v = Some l).
Proof. exists (fun i => OK (Some i)). split; [apply simple_octets|]. intros i v _. split; [intro H; apply ok_eq in H; auto|intros ->; reflexivity]. Qed.
Lemma reads_oid : reads uOID 6 false g_oid.
Proof. exists parseObjectIdentifier. split; [apply simple_oid|]. intros i v HB. apply oid_iff, HB. Qed.
Lemma reads_raws : reads (uList uRaw zeroRaw false) 16 true g_raws.
Proof. exists (parseSequenceOf uRaw zeroRaw). split; [apply simple_list|]. intros i v HB. apply raws_iff, HB. Qed.
Lemma any_iff : forall l v r, bytes l -> (parseAny l = OK (v, r) <-> exists rv, raw_item rv /\ any_value rv v /\ l = rv_full rv ++ r).
Proof.
  intros l v r HB. split.
  - intro H. unfold parseAny in H. destruct l as [|x y] eqn:E; [discriminate|]. rewrite <- E in *. clear E x y.
    destruct (parseTagAndLength l) as [[h q]|e] eqn:EP; [|discriminate]. cbn [rbind] in H.
    destruct (Z.ltb_spec (zlen q) (tl_length h)) as [|L]; [discriminate|].
    apply header_iff in EP; [|exact HB]. destruct EP as (hd & Hh & El). pose proof (header_zlen _ _ _ _ _ Hh) as Hn.
    destruct (split_at _ q (tl_length h) ltac:(lia)) as (body & rest & -> & Hb).
    rewrite sub_app_l in H by auto. rewrite (zlen_app _ body rest), (sub_app_r _ body rest) in H by lia.
    exists (mkRaw (tl_class h) (tl_tag h) (tl_comp h) body (hd ++ body)). unfold raw_item, any_value. cbn [rv_class rv_comp rv_tag rv_bytes rv_full].
    destruct (negb (tl_comp h) && (tl_class h =? 0)).
    + destruct (parseAnyBody (tl_tag h) body) as [w|e]; [|discriminate]. cbn [rbind] in H. apply ok_eq in H. assert (v = w) by congruence. assert (r = rest) by congruence. subst w rest.
      split; [exists hd; split; [rewrite Hb; exact Hh|reflexivity]|]. split; [reflexivity|]. rewrite <- app_assoc. exact El.
    + cbn [rbind] in H. apply ok_eq in H. assert (v = AnyNil) by congruence. assert (r = rest) by congruence. subst v rest.
      split; [exists hd; split; [rewrite Hb; exact Hh|reflexivity]|]. split; [reflexivity|]. rewrite <- app_assoc. exact El.
  - intros (rv & HI & HV & ->). unfold parseAny. destruct (rv_full rv ++ r) as [|x y] eqn:E; [exfalso; exact (item_nonempty _ _ _ _ _ _ HI E)|]. rewrite <- E in *. clear E x y.
    rewrite (item_parse _ _ _ _ _ _ HB HI). cbn [rbind tl_length tl_class tl_tag tl_comp].
    rewrite over. rewrite (sub_app_l _ (rv_bytes rv) r) by reflexivity. rewrite (sub_app_r _ (rv_bytes rv) r) by (rewrite ?zlen_app; lia).
    unfold any_value in HV. destruct (negb (rv_comp rv) && (rv_class rv =? 0)); rewrite HV; reflexivity.
Qed.
Lemma reads_atv : reads uATV 16 true g_atv.
Proof.
  apply reads_struct. intros i v HB. unfold g_atv. split.
  - intro H. destruct (parseField uOID [] noParams i) as [[t l1]|e] eqn:E1; [|discriminate]. cbn [rbind] in H. apply (plain_of _ _ _ _ _ _ _ _ _ reads_oid HB) in E1.
    pose proof (elem_rest _ _ _ _ _ _ _ _ HB E1) as HB1. destruct (parseAny l1) as [[w r]|e] eqn:E2; [|discriminate]. cbn [rbind] in H. apply ok_eq in H. subst v.
    apply any_iff in E2; [|exact HB1]. destruct E2 as (rv & H1 & H2 & H3). exists l1, rv, r. cbn [atv_type atv_value]. auto.
  - intros (l1 & rv & r & E1 & H1 & H2 & H3). pose proof (elem_rest _ _ _ _ _ _ _ _ HB E1) as HB1. apply (plain_of _ _ _ _ _ [] _ _ _ reads_oid HB) in E1. rewrite E1. cbn [rbind].
    assert (E2 : parseAny l1 = OK (atv_value v, r)) by (apply any_iff; [exact HB1|]; exists rv; auto). rewrite E2. cbn [rbind]. destruct v; reflexivity.
Qed.
Lemma reads_name : reads uRDNSequence 16 true g_name.
Proof. unfold uRDNSequence, g_name. apply (reads_list _ uRDN 17 true (many true 16 g_atv) []). apply reads_set. apply reads_atv. Qed.

Lemma reads_basic : reads uBasicConstraints 16 true g_basic.
Proof.
  apply reads_struct. intros i [c m] HB. unfold g_basic. cbn [fst snd]. split.
  - intro H. destruct (parseField uBool false optParams i) as [[c' l1]|e] eqn:E1; [|discriminate]. cbn [rbind] in H. apply (opt_of_iff _ _ _ _ _ _ _ _ _ reads_bool HB) in E1.
    pose proof (opt_rest _ _ _ _ _ _ _ _ _ HB E1) as HB1. destruct (parseField uInt (-1) optParams l1) as [[m' l2]|e] eqn:E2; [|discriminate]. cbn [rbind] in H.
    apply (opt_of_iff _ _ _ _ _ _ _ _ _ reads_int HB1) in E2. apply ok_eq in H. assert (c' = c) by congruence. assert (m' = m) by congruence. subst c' m'. exists l1, l2. auto.
  - intros (l1 & l2 & E1 & E2). pose proof (opt_rest _ _ _ _ _ _ _ _ _ HB E1) as HB1. apply (opt_of_iff _ _ _ _ _ _ _ _ _ reads_bool HB) in E1.
    apply (opt_of_iff _ _ _ _ _ _ _ _ _ reads_int HB1) in E2. rewrite E1. cbn [rbind]. rewrite E2. reflexivity.
Qed.
Lemma reads_keyid : reads uAuthKeyId 16 true g_keyid.
Proof.
  apply reads_struct. intros i v HB. unfold g_keyid. split.
  - intro H. destruct (parseField uOctets None (optTag 0) i) as [[c l1]|e] eqn:E1; [|discriminate]. cbn [rbind] in H. apply ok_eq in H.
    apply (tag_of_iff _ _ _ _ _ 0 _ _ _ _ reads_octets HB ltac:(lia)) in E1. exists l1. destruct E1 as [(body & HL & HV & E)|(HV & E)]; subst c.
    + left. exists body. cbn [contents] in H. split; [exact HL|]. split; [symmetry; exact H|exact E].
    + right. cbn [contents] in H. split; [symmetry; exact H|exact E].
  - intros (l1 & H). destruct H as [(body & HL & HV & E)|(HV & E)].
    + assert (E1 : parseField uOctets None (optTag 0) i = OK (Some body, l1)) by (apply (tag_of_iff _ _ _ _ _ 0 _ _ _ _ reads_octets HB ltac:(lia)); left; exists body; auto).
      rewrite E1. cbn [rbind contents]. rewrite HV. reflexivity.
    + assert (E1 : parseField uOctets None (optTag 0) i = OK (None, l1)) by (apply (tag_of_iff _ _ _ _ _ 0 _ _ _ _ reads_octets HB ltac:(lia)); right; auto).
      rewrite E1. cbn [rbind contents]. rewrite HV. reflexivity.
Qed.
Lemma reads_policy : reads uPolicy 16 true g_policy.
Proof.
  apply reads_struct. intros i v HB. unfold g_policy. split.
  - intro H. destruct (parseField uOID [] noParams i) as [[t l1]|e] eqn:E1; [|discriminate]. cbn [rbind] in H. apply ok_eq in H. subst t. exists l1.
    apply (plain_of _ _ _ _ _ _ _ _ _ reads_oid HB) in E1. exact E1.
  - intros (l1 & E1). apply (plain_of _ _ _ _ _ [] _ _ _ reads_oid HB) in E1. rewrite E1. reflexivity.
Qed.
Lemma reads_access : reads uAIA 16 true g_access.
Proof.
  apply reads_struct. intros i [m v] HB. unfold g_access. cbn [fst snd]. split.
  - intro H. destruct (parseField uOID [] noParams i) as [[t l1]|e] eqn:E1; [|discriminate]. cbn [rbind] in H. apply (plain_of _ _ _ _ _ _ _ _ _ reads_oid HB) in E1.
    pose proof (elem_rest _ _ _ _ _ _ _ _ HB E1) as HB1. destruct (parseField uRaw zeroRaw noParams l1) as [[w r]|e] eqn:E2; [|discriminate]. cbn [rbind] in H. apply ok_eq in H.
    apply raw_iff in E2; [|exact HB1]. assert (t = m) by congruence. assert (w = v) by congruence. subst t w. exists l1, r. destruct E2. auto.
  - intros (l1 & r & E1 & H1 & H2). pose proof (elem_rest _ _ _ _ _ _ _ _ HB E1) as HB1. apply (plain_of _ _ _ _ _ [] _ _ _ reads_oid HB) in E1. rewrite E1. cbn [rbind].
    assert (E2 : parseField uRaw zeroRaw noParams l1 = OK (v, r)) by (apply raw_iff; auto). rewrite E2. reflexivity.
Qed.
Lemma reads_dpname : reads uDPName 16 true g_dpname.
Proof.
  apply reads_struct. intros i v HB. unfold g_dpname. split.
  - intro H. destruct (parseField (uList uRaw zeroRaw false) [] (optTag 0) i) as [[t l1]|e] eqn:E1; [|discriminate]. cbn [rbind] in H.
    apply (tag_of_iff _ _ _ _ _ 0 _ _ _ _ reads_raws HB ltac:(lia)) in E1.
    pose proof (opt_rest _ _ _ _ _ _ _ _ _ HB E1) as HB1. destruct (parseField uRDNSequence [] (optTag 1) l1) as [[w r]|e] eqn:E2; [|discriminate]. cbn [rbind] in H. apply ok_eq in H. subst t.
    apply (tag_of_iff _ _ _ _ _ 1 _ _ _ _ reads_name HB1 ltac:(lia)) in E2. exists l1, w, r. auto.
  - intros (l1 & w & r & E1 & E2). pose proof (opt_rest _ _ _ _ _ _ _ _ _ HB E1) as HB1. apply (tag_of_iff _ _ _ _ _ 0 _ _ _ _ reads_raws HB ltac:(lia)) in E1.
    apply (tag_of_iff _ _ _ _ _ 1 _ _ _ _ reads_name HB1 ltac:(lia)) in E2. rewrite E1. cbn [rbind]. rewrite E2. reflexivity.
Qed.
Lemma raw_opt_iff : forall l, bytes l -> (exists p, parseField uRaw zeroRaw (optTag 2) l = OK p) <->
  (exists issuer l3, raw_item issuer /\ rv_class issuer = 2 /\ rv_tag issuer = 2 /\ l = rv_full issuer ++ l3) \/
   l = [] \/ exists c b t n h q, header c b t n h /\ l = h ++ q /\ ~ (c = 2 /\ t = 2).
Proof.
  intros l HB. destruct l as [|x y] eqn:El. { split; [auto|]. intros _. exists (zeroRaw, []). reflexivity. }
  rewrite <- El in *. assert (NE : l <> []) by (rewrite El; discriminate). clear El x y.
  assert (U : parseField uRaw zeroRaw (optTag 2) l =
    try (h, q) <- parseTagAndLength l;
    if negb ((tl_class h =? 2) && (tl_tag h =? 2)) then OK (zeroRaw, l)
    else if zlen q <? tl_length h then ERR "data truncated"
         else OK (mkRaw (tl_class h) (tl_tag h) (tl_comp h) (sub q 0 (tl_length h)) (sub l 0 (zlen l - zlen (sub q (tl_length h) (zlen q)))), sub q (tl_length h) (zlen q))).
  { unfold parseField. destruct l as [|x y] eqn:El; [congruence|]. rewrite <- El. destruct (parseTagAndLength l) as [[h q]|e]; [|reflexivity].
    cbn [rbind optTag fp_explicit fp_optional fp_set fp_tag uRaw u_any u_tag u_comp u_body negb andb orb]. rewrite negb_andb, orb_false_r.
    destruct (_ || _); [reflexivity|]. destruct (_ <? _); reflexivity. }
  rewrite U. clear U. split.
  - intros [p H]. destruct (parseTagAndLength l) as [[h q]|e] eqn:EP; [|discriminate]. cbn [rbind] in H. apply header_iff in EP; [|exact HB]. destruct EP as (hd & Hh & Ell).
    destruct ((tl_class h =? 2) && (tl_tag h =? 2)) eqn:M; cbn [negb] in H.
    + left. rewrite andb_true_iff, !Z.eqb_eq in M. destruct M as [M1 M2]. pose proof (header_zlen _ _ _ _ _ Hh) as Hn.
      destruct (Z.ltb_spec (zlen q) (tl_length h)) as [|L]; [discriminate|]. destruct (split_at _ q (tl_length h) ltac:(lia)) as (body & rest & -> & Hb).
      exists (mkRaw 2 2 (tl_comp h) body (hd ++ body)), rest. unfold raw_item. cbn [rv_class rv_comp rv_tag rv_bytes rv_full]. split.
      * exists hd. rewrite Hb, <- M1, <- M2 at 1. split; [|reflexivity]. rewrite M1 in *. rewrite M2 in *. exact Hh.
      * split; [reflexivity|]. split; [reflexivity|]. rewrite <- app_assoc. exact Ell.
    + right. right. exists (tl_class h), (tl_comp h), (tl_tag h), (tl_length h), hd, q. split; [exact Hh|]. split; [exact Ell|]. intros [Q1 Q2]. rewrite Q1, Q2 in M. discriminate M.
  - intros [(rv & l3 & HI & H1 & H2 & El)|[E|(c & b & t & n & h & q & Hh & El & N)]]; [|congruence|].
    + rewrite El in HB. rewrite El. rewrite (item_parse _ _ _ _ _ _ HB HI). cbn [rbind tl_class tl_tag tl_length tl_comp]. rewrite H1, H2. cbn [Z.eqb Pos.eqb andb negb]. rewrite over. eexists. reflexivity.
    + assert (EP : parseTagAndLength l = OK (mkTL c t n b, q)) by (apply header_iff; [exact HB|]; exists h; split; assumption).
      rewrite EP. cbn [rbind tl_class tl_tag]. destruct ((c =? 2) && (t =? 2)) eqn:M; [|eexists; reflexivity]. rewrite andb_true_iff, !Z.eqb_eq in M. contradiction.
Qed.
Lemma reads_dp : reads uDP 16 true g_dp.
Proof.
  apply reads_struct. intros i v HB. unfold g_dp. split.
  - intro H. destruct (parseField uDPName [] (optTag 0) i) as [[t l1]|e] eqn:E1; [|discriminate]. cbn [rbind] in H. apply (tag_of_iff _ _ _ _ _ 0 _ _ _ _ reads_dpname HB ltac:(lia)) in E1.
    pose proof (opt_rest _ _ _ _ _ _ _ _ _ HB E1) as HB1. destruct (parseField uBits zeroBits (optTag 1) l1) as [[w l2]|e] eqn:E2; [|discriminate]. cbn [rbind] in H.
    apply (tag_of_iff _ _ _ _ _ 1 _ _ _ _ reads_bits HB1 ltac:(lia)) in E2. pose proof (opt_rest _ _ _ _ _ _ _ _ _ HB1 E2) as HB2.
    destruct (parseField uRaw zeroRaw (optTag 2) l2) as [[c l3]|e] eqn:E3; [|discriminate]. cbn [rbind] in H. apply ok_eq in H. subst t.
    assert (K : exists p, parseField uRaw zeroRaw (optTag 2) l2 = OK p) by (exists (c, l3); exact E3). apply (raw_opt_iff l2 HB2) in K.
    destruct K as [(rv & r & K)|K]; [exists l1, w, l2, rv, r|exists l1, w, l2, c, l3]; auto.
  - intros (l1 & w & l2 & rv & r & E1 & E2 & K). pose proof (opt_rest _ _ _ _ _ _ _ _ _ HB E1) as HB1. pose proof (opt_rest _ _ _ _ _ _ _ _ _ HB1 E2) as HB2.
    apply (tag_of_iff _ _ _ _ _ 0 _ _ _ _ reads_dpname HB ltac:(lia)) in E1. apply (tag_of_iff _ _ _ _ _ 1 _ _ _ _ reads_bits HB1 ltac:(lia)) in E2.
    rewrite E1. cbn [rbind]. rewrite E2. cbn [rbind].
    assert (K' : exists p, parseField uRaw zeroRaw (optTag 2) l2 = OK p) by (apply (raw_opt_iff l2 HB2); destruct K as [K|K]; [left; exists rv, r; exact K|right; exact K]).
    destruct K' as [[a b] ->]. reflexivity.
Qed.

(** * A whole value *)
Definition whole {A} (c : Z) (b : bool) (t : Z) (P : gram A) (l : list Z) (v : A) : Prop := elem_of c b t P l v [].
Lemma all_of : forall A (u : uty A) t comp P z l v, reads u t comp P -> bytes l -> (unmarshalAll u z l = OK v <-> whole 0 comp t P l v).
Proof.
  intros A u t comp P z l v H HB. unfold unmarshalAll, whole. rewrite <- (plain_of _ _ _ _ _ z _ _ _ H HB). unfold unmarshal.
  destruct (parseField u z noParams l) as [[w r]|e]; cbn [rbind]; [|split; discriminate]. destruct (Z.eqb_spec (zlen r) 0) as [E|N]; cbn [negb].
  - apply zlen_0_nil in E. subst r. split; intro E; [apply ok_eq in E; congruence|apply ok_eq in E; congruence].
  - split; [discriminate|]. intro E. apply ok_eq in E. assert (r = []) by congruence. subst r. exfalso. apply N. reflexivity.
Qed.

(** * C92: the extensions *)

(** What the key usage says of bit i, counted from the high end of the first octet. *)
Definition bit_of (octets : list Z) (i : Z) : bool := Z.testbit (nth (Z.to_nat (i / 8)) octets 0) (7 - i mod 8).
(** The extended key usages that x509 names, in its order. *)
Definition named_usages : list (list Z) :=
  [[2; 5; 29; 37; 0]; [1; 3; 6; 1; 5; 5; 7; 3; 1]; [1; 3; 6; 1; 5; 5; 7; 3; 2]; [1; 3; 6; 1; 5; 5; 7; 3; 3]; [1; 3; 6; 1; 5; 5; 7; 3; 4];
   [1; 3; 6; 1; 5; 5; 7; 3; 5]; [1; 3; 6; 1; 5; 5; 7; 3; 6]; [1; 3; 6; 1; 5; 5; 7; 3; 7]; [1; 3; 6; 1; 5; 5; 7; 3; 8]; [1; 3; 6; 1; 5; 5; 7; 3; 9];
   [1; 3; 6; 1; 4; 1; 311; 10; 3; 3]; [2; 16; 840; 1; 113730; 4; 1]; [1; 3; 6; 1; 4; 1; 311; 2; 1; 22]; [1; 3; 6; 1; 4; 1; 311; 61; 1; 1]].
(** The identifiers split into named and other ones, both in order. *)
Inductive split_usages : list (list Z) -> list Z -> list (list Z) -> Prop :=
| su_nil : split_usages [] [] []
| su_named : forall o k oids named others, nth_error named_usages k = Some o -> split_usages oids named others ->
    split_usages (o :: oids) (Z.of_nat k :: named) others
| su_other : forall o oids named others, ~ In o named_usages -> split_usages oids named others -> split_usages (o :: oids) named (o :: others).
Lemma from_oid_none : forall o, extKeyUsageFromOID o = None <-> ~ In o named_usages.
Proof.
  intro o. unfold extKeyUsageFromOID. destruct (find (fun p => oidEqual o (snd p)) extKeyUsageOIDs) as [[k p]|] eqn:F.
  - apply find_some in F. destruct F as [I E]. cbn [snd] in E. apply oidEqual_eq in E. subst p. split; [discriminate|]. intro N. exfalso. apply N.
    apply (in_map snd) in I. exact I.
  - split; [|reflexivity]. intros _ I. change named_usages with (map snd extKeyUsageOIDs) in I. apply in_map_iff in I. destruct I as (p & <- & I).
    pose proof (find_none _ _ F p I) as K. cbv beta in K. assert (oidEqual (snd p) (snd p) = true) by (apply oidEqual_eq; reflexivity). congruence.
Qed.
Lemma from_oid_some : forall o k, extKeyUsageFromOID o = Some k <-> exists n, k = Z.of_nat n /\ nth_error named_usages n = Some o.
Proof.
  intros o k. rewrite <- extKeyUsage_inverse. unfold oidFromExtKeyUsage. split.
  - destruct (find (fun p => k =? fst p) extKeyUsageOIDs) as [[k' p]|] eqn:F; [|discriminate]. intro Q. apply find_some in F. destruct F as [I E]. cbn [fst snd] in *. apply Z.eqb_eq in E. subst k'.
    assert (p = o) by congruence. subst p. clear Q. cbn in I.
    repeat (destruct I as [I|I]; [injection I as <- <-; match goal with |- exists n, ?z = _ /\ _ => exists (Z.to_nat z) end; split; reflexivity|]). destruct I.
  - intros (n & -> & H). do 14 (destruct n as [|n]; [cbn in H; injection H as <-; reflexivity|]). destruct n; discriminate H.
Qed.
Lemma split_iff : forall oids named others, split_usages oids named others <-> named = knownUsages oids /\ others = unknownUsages oids.
Proof.
  unfold knownUsages, unknownUsages. intros oids named others. split.
  - intro H. induction H as [|o k oids named others Hk H [-> ->]|o oids named others N H [-> ->]]; [split; reflexivity| |]; cbn [map List.concat filter].
    + assert (K : extKeyUsageFromOID o = Some (Z.of_nat k)) by (apply from_oid_some; exists k; auto). rewrite K. split; reflexivity.
    + apply from_oid_none in N. rewrite N. split; reflexivity.
  - intros [-> ->]. induction oids as [|o oids IH]; [constructor|]. cbn [map List.concat filter]. destruct (extKeyUsageFromOID o) as [k|] eqn:K.
    + apply from_oid_some in K. destruct K as (n & -> & Hn). cbn [app]. constructor; assumption.
    + apply from_oid_none in K. cbn [app]. constructor; assumption.
Qed.

(** The names of one kind, from a list of tagged names. *)
Definition pick (t : Z) (l : list (Z * list Z)) : list (list Z) := map snd (filter (fun p => fst p =? t) l).
Lemma pick_cons : forall t k d l, pick t ((k, d) :: l) = if k =? t then d :: pick t l else pick t l.
Proof. intros t k d l. unfold pick. cbn [filter fst]. destruct (k =? t); reflexivity. Qed.
Definition tagged (rv : RawValue) : Z * list Z := (rv_tag rv, rv_bytes rv).

Section Env.
Variable E : netEnv.

(** Key usage: one BIT STRING and nothing after it; the first nine bits are the usage. *)
Theorem C92_key_usage : forall value critical f g u, bytes value ->
  (parseExtension E (mkExt [2; 5; 29; 15] critical value) f = Ret (OK (g, u)) <->
   u = false /\ exists bits usage, whole 0 false 3 g_bits value bits /\ g = set_KeyUsage E usage f /\ 0 <= usage < 512 /\
     forall i, 0 <= i < 9 -> Z.testbit usage i = bit_of (bs_bytes bits) i).
Proof.
  intros value critical f g u HB. unfold parseExtension. cbn [e_id e_value e_critical]. cbn [Z.eqb Pos.eqb andb].
  assert (K : forall bits, whole 0 false 3 g_bits value bits -> exists usage, usageLoop 9 0 bits 0 = Ret usage /\ 0 <= usage < 512 /\
    forall i, 0 <= i < 9 -> Z.testbit usage i = bit_of (bs_bytes bits) i).
  { intros bits (body & _ & (pad & -> & Hp & Hn & Hl & HL) & Ev).
    assert (HBb : bytes (bs_bytes bits)) by (rewrite Ev in HB; apply tlv_bytes in HB; destruct HB as [HB _]; apply bytes_cons in HB; apply HB).
    assert (FIT : bs_len bits <= zlen (bs_bytes bits) * 8) by lia.
    destruct (usageLoop_ok bits 9 0 0 FIT ltac:(lia)) as (v & EV & Hv). exists v. split; [exact EV|].
    assert (BIT : forall i, 0 <= i < 9 -> bitOf bits i = bit_of (bs_bytes bits) i).
    { intros i Hi. unfold bitOf, bit_of. destruct (Z.ltb_spec i (bs_len bits)) as [L|L]; [reflexivity|]. cbn [andb]. symmetry.
      destruct (Z_lt_le_dec i (8 * zlen (bs_bytes bits))) as [L2|L2].
      - (* one of the unused bits of the last octet *)
        destruct (exists_last (l := bs_bytes bits)) as (pre & x & Ex). { intro Q. rewrite Q in L2. change (zlen (A:=Z) []) with 0 in L2. lia. }
        rewrite Ex in *. rewrite last_last in Hl. rewrite zlen_app in *. change (zlen [x]) with 1 in *.
        assert (D : i / 8 = zlen pre) by (symmetry; apply (Z.div_unique i 8 (zlen pre) (i - 8 * zlen pre)); [left|]; lia).
        assert (R : i mod 8 = i - 8 * zlen pre) by (symmetry; apply (Z.mod_unique i 8 (zlen pre) (i - 8 * zlen pre)); [left|]; lia).
        rewrite D, R. rewrite app_nth2 by (unfold zlen; lia). replace (Z.to_nat (zlen pre) - List.length pre)%nat with O by (unfold zlen; lia). cbn [nth].
        rewrite <- (Z.mod_pow2_bits_low x pad) by lia. rewrite Hl. apply Z.testbit_0_l.
      - rewrite nth_overflow; [apply Z.testbit_0_l|]. unfold zlen in L2. pose proof (Z.div_le_lower_bound i 8 (Z.of_nat (List.length (bs_bytes bits))) ltac:(lia) L2). lia. }
    assert (M : v = v mod 512) by (apply testbit_mod512; intros j Hj; rewrite Hv, Z.testbit_0_l by exact Hj; cbn [orb]; destruct (Z.leb_spec 0 j); [|lia]; change (0 + Z.of_nat 9) with 9; destruct (j <? 9); reflexivity).
    split; [rewrite M; apply Z.mod_pos_bound; lia|]. intros i Hi. rewrite Hv, Z.testbit_0_l by lia. change (0 + Z.of_nat 9) with 9.
    destruct (Z.leb_spec 0 i), (Z.ltb_spec i 9); try lia. apply BIT, Hi. }
  split.
  - intro H. destruct (unmarshalAll uBits zeroBits value) as [bits|e] eqn:EU; [|discriminate]. cbn [gbind] in H. apply (all_of _ _ _ _ _ _ _ _ reads_bits HB) in EU.
    destruct (K bits EU) as (usage & EL & HU & HT). rewrite EL in H. cbn [bind] in H. apply ret_inj, ok_inj in H. assert (g = set_KeyUsage E usage f) by congruence. assert (u = false) by congruence.
    split; [assumption|]. exists bits, usage. auto.
  - intros (-> & bits & usage & HW & -> & HU & HT). destruct (K bits HW) as (usage' & EL & HU' & HT'). apply (all_of _ _ _ _ _ zeroBits _ _ reads_bits HB) in HW. rewrite HW. cbn [gbind].
    rewrite EL. cbn [bind]. replace usage' with usage; [reflexivity|]. apply Z.bits_inj'. intros j Hj.
    destruct (Z_lt_le_dec j 9) as [L|L]; [rewrite HT, HT' by lia; reflexivity|].
    rewrite <- (Z.mod_small usage (2 ^ 9)), <- (Z.mod_small usage' (2 ^ 9)) by (cbn; lia). rewrite !Z.mod_pow2_bits_high by lia. reflexivity.
Qed.

(** Basic constraints: a SEQUENCE with an optional BOOLEAN and an optional INTEGER. *)
Theorem C92_basic_constraints : forall value critical f g u, bytes value ->
  (parseExtension E (mkExt [2; 5; 29; 19] critical value) f = Ret (OK (g, u)) <->
   u = false /\ exists ca n, whole 0 true 16 g_basic value (ca, n) /\ g = set_BasicConstraints E true ca n (n =? 0) f).
Proof.
  intros value critical f g u HB. unfold parseExtension. cbn [e_id e_value e_critical]. cbn [Z.eqb Pos.eqb andb]. split.
  - intro H. destruct (unmarshalAll uBasicConstraints (false, 0) value) as [[ca n]|e] eqn:EU; [|discriminate]. cbn [gbind] in H.
    apply (all_of _ _ _ _ _ _ _ _ reads_basic HB) in EU. apply ret_inj, ok_inj in H. split; [congruence|]. exists ca, n. split; [exact EU|congruence].
  - intros (-> & ca & n & HW & ->). apply (all_of _ _ _ _ _ (false, 0) _ _ reads_basic HB) in HW. rewrite HW. reflexivity.
Qed.
(** Subject key id: an OCTET STRING. *)
Theorem C92_subject_key_id : forall value critical f g u, bytes value ->
  (parseExtension E (mkExt [2; 5; 29; 14] critical value) f = Ret (OK (g, u)) <->
   u = false /\ exists id, whole 0 false 4 g_octets value id /\ g = set_SubjectKeyId E id f).
Proof.
  intros value critical f g u HB. unfold parseExtension. cbn [e_id e_value e_critical]. cbn [Z.eqb Pos.eqb andb]. split.
  - intro H. destruct (unmarshalAll uOctets None value) as [id|e] eqn:EU; [|discriminate]. cbn [gbind] in H.
    apply (all_of _ _ _ _ _ _ _ _ reads_octets HB) in EU. apply ret_inj, ok_inj in H. split; [congruence|]. destruct EU as (body & HL & -> & EV).
    exists body. split; [exists body; split; [exact HL|]; split; [reflexivity|exact EV]|]. cbn [contents] in H. congruence.
  - intros (-> & id & (body & HL & HV & EV) & ->). unfold g_octets in HV. subst id.
    assert (EU : unmarshalAll uOctets None value = OK (Some body)) by (apply (all_of _ _ _ _ _ _ _ _ reads_octets HB); exists body; auto). rewrite EU. reflexivity.
Qed.
(** Authority key id: a SEQUENCE with an optional context-specific element 0, not constructed. *)
Theorem C92_authority_key_id : forall value critical f g u, bytes value ->
  (parseExtension E (mkExt [2; 5; 29; 35] critical value) f = Ret (OK (g, u)) <->
   u = false /\ exists id, whole 0 true 16 g_keyid value id /\ g = set_AuthorityKeyId E id f).
Proof.
  intros value critical f g u HB. unfold parseExtension. cbn [e_id e_value e_critical]. cbn [Z.eqb Pos.eqb andb]. split.
  - intro H. destruct (unmarshalAll uAuthKeyId [] value) as [id|e] eqn:EU; [|discriminate]. cbn [gbind] in H.
    apply (all_of _ _ _ _ _ _ _ _ reads_keyid HB) in EU. apply ret_inj, ok_inj in H. split; [congruence|]. exists id. split; [exact EU|congruence].
  - intros (-> & id & HW & ->). apply (all_of _ _ _ _ _ [] _ _ reads_keyid HB) in HW. rewrite HW. reflexivity.
Qed.
(** Extended key usage: a SEQUENCE of object identifiers. *)
Theorem C92_ext_key_usage : forall value critical f g u, bytes value ->
  (parseExtension E (mkExt [2; 5; 29; 37] critical value) f = Ret (OK (g, u)) <->
   u = false /\ exists oids named others, whole 0 true 16 (many false 6 g_oid) value oids /\ split_usages oids named others /\
     g = set_ExtKeyUsage E (f_ExtKeyUsage E f ++ named) (f_UnknownExtKeyUsage E f ++ others) f).
Proof.
  intros value critical f g u HB. unfold parseExtension. cbn [e_id e_value e_critical]. cbn [Z.eqb Pos.eqb andb].
  pose proof (reads_list _ uOID 6 false g_oid [] reads_oid) as R. split.
  - intro H. destruct (unmarshalAll (uList uOID [] false) [] value) as [oids|e] eqn:EU; [|discriminate]. cbn [gbind] in H.
    apply (all_of _ _ _ _ _ _ _ _ R HB) in EU. apply ret_inj, ok_inj in H. split; [congruence|]. exists oids, (knownUsages oids), (unknownUsages oids).
    split; [exact EU|]. split; [apply split_iff; split; reflexivity|congruence].
  - intros (-> & oids & named & others & HW & HS & ->). apply (all_of _ _ _ _ _ [] _ _ R HB) in HW. rewrite HW. cbn [gbind]. apply split_iff in HS. destruct HS as [-> ->]. reflexivity.
Qed.
(** Policies: a SEQUENCE of SEQUENCEs that start with an object identifier. *)
Theorem C92_policies : forall value critical f g u, bytes value ->
  (parseExtension E (mkExt [2; 5; 29; 32] critical value) f = Ret (OK (g, u)) <->
   u = false /\ exists oids, whole 0 true 16 (many true 16 g_policy) value oids /\ g = set_PolicyIdentifiers E oids f).
Proof.
  intros value critical f g u HB. unfold parseExtension. cbn [e_id e_value e_critical]. cbn [Z.eqb Pos.eqb andb].
  pose proof (reads_list _ uPolicy 16 true g_policy [] reads_policy) as R. split.
  - intro H. destruct (unmarshalAll (uList uPolicy [] false) [] value) as [oids|e] eqn:EU; [|discriminate]. cbn [gbind] in H.
    apply (all_of _ _ _ _ _ _ _ _ R HB) in EU. apply ret_inj, ok_inj in H. split; [congruence|]. exists oids. split; [exact EU|congruence].
  - intros (-> & oids & HW & ->). apply (all_of _ _ _ _ _ [] _ _ R HB) in HW. rewrite HW. reflexivity.
Qed.
(** CRL distribution points: of each point the full names with tag number 6, of any class. *)
Theorem C92_distribution_points : forall value critical f g u, bytes value ->
  (parseExtension E (mkExt [2; 5; 29; 31] critical value) f = Ret (OK (g, u)) <->
   u = false /\ exists points, whole 0 true 16 (many true 16 g_dp) value points /\
     g = set_CRLDistributionPoints E (f_CRLDistributionPoints E f ++ pick 6 (map tagged (List.concat points))) f).
Proof.
  intros value critical f g u HB. unfold parseExtension. cbn [e_id e_value e_critical]. cbn [Z.eqb Pos.eqb andb].
  pose proof (reads_list _ uDP 16 true g_dp [] reads_dp) as R.
  assert (N : forall points, List.concat (map dpNames points) = pick 6 (map tagged (List.concat points))).
  { assert (N1 : forall rvs, dpNames rvs = pick 6 (map tagged rvs)).
    { unfold dpNames, pick. induction rvs as [|rv rvs IH]; [reflexivity|]. cbn [map filter fst tagged]. destruct (rv_tag rv =? 6); cbn [map snd]; rewrite IH; reflexivity. }
    induction points as [|p points IH]; [reflexivity|]. cbn [map List.concat]. rewrite IH, N1. unfold pick. rewrite map_app, filter_app, map_app. reflexivity. }
  split.
  - intro H. destruct (unmarshalAll (uList uDP [] false) [] value) as [points|e] eqn:EU; [|discriminate]. cbn [gbind] in H.
    apply (all_of _ _ _ _ _ _ _ _ R HB) in EU. apply ret_inj, ok_inj in H. split; [congruence|]. exists points. split; [exact EU|]. rewrite <- N. congruence.
  - intros (-> & points & HW & ->). apply (all_of _ _ _ _ _ [] _ _ R HB) in HW. rewrite HW. cbn [gbind]. rewrite N. reflexivity.
Qed.
(** Authority information access: the locations with tag number 6, of any class, by method. *)
Theorem C92_authority_info : forall value critical f g u, bytes value ->
  (parseExtension E (mkExt [1; 3; 6; 1; 5; 5; 7; 1; 1] critical value) f = Ret (OK (g, u)) <->
   u = false /\ exists entries, whole 0 true 16 (many true 16 g_access) value entries /\
     let locations method := pick 6 (map (fun e => tagged (snd e)) (filter (fun e => if list_eq_dec Z.eq_dec (fst e) method then true else false) entries)) in
     g = set_AuthorityInfo E (f_OCSPServer E f ++ locations [1; 3; 6; 1; 5; 5; 7; 48; 1]) (f_IssuingCertificateURL E f ++ locations [1; 3; 6; 1; 5; 5; 7; 48; 2]) f).
Proof.
  intros value critical f g u HB.
  assert (U : parseExtension E (mkExt [1; 3; 6; 1; 5; 5; 7; 1; 1] critical value) f =
    gbind (Ret (unmarshalAll (uList uAIA ([], zeroRaw) false) [] value)) (fun aia =>
      Ret (OK (set_AuthorityInfo E (f_OCSPServer E f ++ aiaNames oidAuthorityInfoAccessOcsp aia) (f_IssuingCertificateURL E f ++ aiaNames oidAuthorityInfoAccessIssuers aia) f, false)))) by reflexivity.
  rewrite U. clear U. pose proof (reads_list _ uAIA 16 true g_access ([], zeroRaw) reads_access) as R.
  assert (N : forall m entries, aiaNames m entries = pick 6 (map (fun e => tagged (snd e)) (filter (fun e => if list_eq_dec Z.eq_dec (fst e) m then true else false) entries))).
  { intros m entries. unfold aiaNames, pick. induction entries as [|[o rv] entries IH]; [reflexivity|]. cbn [filter fst snd].
    destruct (list_eq_dec Z.eq_dec o m) as [->|NE].
    - rewrite (proj2 (oidEqual_eq m m) eq_refl), andb_true_r. cbn [map filter fst snd tagged]. destruct (rv_tag rv =? 6); cbn [map snd]; rewrite IH; reflexivity.
    - destruct (oidEqual o m) eqn:EO; [apply oidEqual_eq in EO; contradiction|]. rewrite andb_false_r. exact IH. }
  split.
  - intro H. destruct (unmarshalAll (uList uAIA ([], zeroRaw) false) [] value) as [entries|e] eqn:EU; [|discriminate]. cbn [gbind] in H.
    apply (all_of _ _ _ _ _ _ _ _ R HB) in EU. apply ret_inj, ok_inj in H. rewrite !N in H. split; [congruence|]. exists entries. split; [exact EU|]. cbv zeta.
    apply (f_equal fst) in H. symmetry. exact H.
  - intros (-> & entries & HW & ->). apply (all_of _ _ _ _ _ [] _ _ R HB) in HW. rewrite HW. cbn [gbind]. rewrite !N. reflexivity.
Qed.

(** * Alternative names *)
Lemma sanLoop_iff : forall fuel l names, bytes l -> (List.length l <= fuel)%nat ->
  (sanLoop fuel l = OK names <-> exists rvs, g_raws l rvs /\ names = map tagged rvs).
Proof.
  unfold g_raws. induction fuel as [|fuel IH]; intros l names HB HL.
  - destruct l; [|cbn in HL; lia]. cbn [sanLoop]. split.
    + intro H. apply ok_eq in H. subst names. exists []. split; [split; [constructor|reflexivity]|reflexivity].
    + intros ([|rv rvs] & [HF E0] & ->); [reflexivity|]. inversion HF as [|? ? HI _]; subst. cbn [map List.concat] in E0. exfalso. exact (item_nonempty _ _ _ _ _ _ HI (eq_sym E0)).
  - destruct l as [|x y] eqn:El.
    { cbn [sanLoop]. split.
      - intro H. apply ok_eq in H. subst names. exists []. split; [split; [constructor|reflexivity]|reflexivity].
      - intros ([|rv rvs] & [HF E0] & ->); [reflexivity|]. inversion HF as [|? ? HI _]; subst. cbn [map List.concat] in E0. exfalso. exact (item_nonempty _ _ _ _ _ _ HI (eq_sym E0)). }
    cbn [sanLoop]. assert (NE : l <> []) by (rewrite El; discriminate). rewrite <- El in *. clear El x y. unfold unmarshal. split.
    + intro H. destruct (parseField uRaw zeroRaw noParams l) as [[rv r]|e] eqn:EP; [|discriminate]. cbn [rbind] in H. apply raw_iff in EP; [|exact HB]. destruct EP as [HI El].
      destruct (sanLoop fuel r) as [more|e] eqn:EM; [|discriminate]. cbn [rbind] in H. apply ok_eq in H. subst names.
      pose proof (item_length _ _ _ _ _ HI) as NI. rewrite El in HB, HL. rewrite app_length in HL. apply bytes_app in HB. apply IH in EM; [|apply HB|lia].
      destruct EM as (rvs & [HF ->] & ->). exists (rv :: rvs). split; [split; [constructor; assumption|exact El]|reflexivity].
    + intros ([|rv rvs] & [HF E0] & ->); [contradiction|]. inversion HF as [|? ? HI HF']; subst rv rvs. cbn [map List.concat] in E0.
      set (rest := List.concat (map rv_full l0)) in *.
      assert (EP : parseField uRaw zeroRaw noParams l = OK (x, rest)) by (apply raw_iff; [exact HB|split; assumption]). rewrite EP. cbn [rbind].
      pose proof (item_length _ _ _ _ _ HI) as NI. rewrite E0 in HB, HL. rewrite app_length in HL. apply bytes_app in HB.
      assert (EM : sanLoop fuel rest = OK (map tagged l0)) by (apply IH; [apply HB|lia|]; exists l0; split; [split; [exact HF'|reflexivity]|reflexivity]).
      rewrite EM. reflexivity.
Qed.
Lemma forEachSAN_iff : forall value names, bytes value -> (forEachSAN value = OK names <-> exists rvs, whole 0 true 16 g_raws value rvs /\ names = map tagged rvs).
Proof.
  intros value names HB. unfold forEachSAN, unmarshal. split.
  - intro H. destruct (parseField uRaw zeroRaw noParams value) as [[seq rest]|e] eqn:EP; [|discriminate]. cbn [rbind] in H. apply raw_iff in EP; [|exact HB]. destruct EP as [HI El].
    destruct (Z.eqb_spec (zlen rest) 0) as [E0|]; [|discriminate]. cbn [negb] in H. apply zlen_0_nil in E0. subst rest.
    destruct (negb (rv_comp seq) || negb (rv_tag seq =? 16) || negb (rv_class seq =? 0)) eqn:C; [discriminate|].
    rewrite !orb_false_iff, !negb_false_iff, !Z.eqb_eq in C. destruct C as [[C1 C2] C3]. unfold raw_item in HI. rewrite C1, C2, C3 in HI. apply item_low in HI; [|lia]. destruct HI as (_ & HL & EF).
    rewrite app_nil_r in El. rewrite EF in El. assert (HBb : bytes (rv_bytes seq)) by (rewrite El in HB; rewrite <- (app_nil_r (tlv _ _)) in HB; apply tlv_bytes in HB; apply HB).
    apply sanLoop_iff in H; [|exact HBb|apply le_n]. destruct H as (rvs & HG & ->). exists rvs. split; [|reflexivity]. exists (rv_bytes seq). rewrite app_nil_r. auto.
  - intros (rvs & (body & HL & HG & Ev) & ->). assert (HBb : bytes body) by (rewrite Ev in HB; apply tlv_bytes in HB; apply HB).
    assert (EP : parseField uRaw zeroRaw noParams value = OK (mkRaw 0 16 true body (tlv (ident 0 16 true) body), [])).
    { apply raw_iff; [exact HB|]. split; [|exact Ev]. apply item_low; [cbn; lia|]. split; [split; cbn; lia|]. split; [exact HL|reflexivity]. }
    rewrite EP. cbn [rbind rv_comp rv_tag rv_class rv_bytes]. change (zlen (A:=Z) [] =? 0) with true. cbn [negb Z.eqb Pos.eqb orb]. apply sanLoop_iff; [exact HBb|apply le_n|]. exists rvs. auto.
Qed.
(** A URI is accepted if its text parses and the host in it is empty or a domain. *)
Definition uri_read (text : list Z) (uri : URL E) : Prop := urlParse E text = Some uri /\ (urlHost E uri = [] \/ valid_domain (urlHost E uri)).
Lemma addSAN_iff : forall a tag data a', addSAN E a tag data = Ret (OK a') <->
  (tag = 7 -> zlen data = 4 \/ zlen data = 16) /\ exists us, Forall2 uri_read (pick 6 [(tag, data)]) us /\
  a' = mkAlt E (an_dns E a ++ pick 2 [(tag, data)]) (an_emails E a ++ pick 1 [(tag, data)]) (an_ips E a ++ pick 7 [(tag, data)]) (an_uris E a ++ us).
Proof.
  intros [dns emails ips uris] tag data a'. cbn [an_dns an_emails an_ips an_uris]. rewrite !pick_cons. unfold addSAN, nameTypeEmail, nameTypeDNS, nameTypeURI, nameTypeIP. change (pick 6 []) with (@nil (list Z)). change (pick 2 []) with (@nil (list Z)). change (pick 1 []) with (@nil (list Z)). change (pick 7 []) with (@nil (list Z)).
  destruct (Z.eqb_spec tag 1) as [->|N1]; [|destruct (Z.eqb_spec tag 2) as [->|N2]; [|destruct (Z.eqb_spec tag 6) as [->|N6]; [|destruct (Z.eqb_spec tag 7) as [->|N7]]]]; cbn [Z.eqb Pos.eqb]; rewrite ?app_nil_r.
  - split; [intro H; apply ret_inj, ok_inj in H; split; [discriminate|]; exists []; rewrite app_nil_r; auto|]. intros (_ & us & HF & ->). inversion HF; subst. rewrite app_nil_r. reflexivity.
  - split; [intro H; apply ret_inj, ok_inj in H; split; [discriminate|]; exists []; rewrite app_nil_r; auto|]. intros (_ & us & HF & ->). inversion HF; subst. rewrite app_nil_r. reflexivity.
  - assert (HD : forall uri, (if 0 <? zlen (urlHost E uri) then do d <- domainToReverseLabels (urlHost E uri); Ret (match d with None => false | Some _ => true end) else Ret true) = Ret true \/
      (if 0 <? zlen (urlHost E uri) then do d <- domainToReverseLabels (urlHost E uri); Ret (match d with None => false | Some _ => true end) else Ret true) = Ret false /\ urlHost E uri <> [] /\ ~ valid_domain (urlHost E uri)).
    { intro uri. destruct (Z.ltb_spec 0 (zlen (urlHost E uri))); [|left; reflexivity]. destruct (domain_cases (urlHost E uri)) as [(rl & -> & _)|[-> N]]; [left; reflexivity|right].
      split; [reflexivity|]. split; [|exact N]. intro Q. rewrite Q in H. change (zlen (A:=Z) []) with 0 in H. lia. }
    assert (HV : forall uri, (if 0 <? zlen (urlHost E uri) then do d <- domainToReverseLabels (urlHost E uri); Ret (match d with None => false | Some _ => true end) else Ret true) = Ret true -> urlHost E uri = [] \/ valid_domain (urlHost E uri)).
    { intros uri H. destruct (Z.ltb_spec 0 (zlen (urlHost E uri))) as [L|L]; [|left; apply zlen_0_nil; pose proof (zlen_nonneg _ (urlHost E uri)); lia].
      destruct (domain_cases (urlHost E uri)) as [(rl & _ & V)|[Q N]]; [right; exact V|]. rewrite Q in H. discriminate H. }
    split.
    + intro H. split; [discriminate|]. destruct (urlParse E data) as [uri|] eqn:EU; [|discriminate]. destruct (HD uri) as [Q|[Q _]]; rewrite Q in H; cbn [bind] in H; [|discriminate].
      apply ret_inj, ok_inj in H. exists [uri]. split; [|auto]. constructor; [|constructor]. split; [exact EU|apply HV, Q].
    + intros (_ & us & HF & ->). inversion HF as [|? uri ? ? [HP HH] HF']; subst. inversion HF'; subst. rewrite HP. destruct (HD uri) as [Q|[_ [Q1 Q2]]]; [rewrite Q; reflexivity|]. destruct HH; contradiction.
  - destruct ((zlen data =? 4) || (zlen data =? 16)) eqn:L.
    + rewrite orb_true_iff, !Z.eqb_eq in L. split; [intro H; apply ret_inj, ok_inj in H; split; [auto|]; exists []; rewrite app_nil_r; auto|]. intros (_ & us & HF & ->). inversion HF; subst. rewrite app_nil_r. reflexivity.
    + rewrite orb_false_iff, !Z.eqb_neq in L. split; [discriminate|]. intros (H & _). specialize (H eq_refl). lia.
  - split; [intro H; apply ret_inj, ok_inj in H; split; [congruence|]; exists []; rewrite app_nil_r; auto|]. intros (_ & us & HF & ->). inversion HF; subst. rewrite app_nil_r. reflexivity.
Qed.
Lemma pick_app1 : forall t q l, pick t (q :: l) = pick t [q] ++ pick t l.
Proof. intros t [k d] l. rewrite !pick_cons. destruct (k =? t); reflexivity. Qed.
Lemma addSANs_iff : forall names a a', addSANs E a names = Ret (OK a') <->
  Forall (fun ip => zlen ip = 4 \/ zlen ip = 16) (pick 7 names) /\ exists us, Forall2 uri_read (pick 6 names) us /\
  a' = mkAlt E (an_dns E a ++ pick 2 names) (an_emails E a ++ pick 1 names) (an_ips E a ++ pick 7 names) (an_uris E a ++ us).
Proof.
  induction names as [|[tag data] names IH]; intros a a'; cbn [addSANs].
  - unfold pick. cbn [filter map]. split.
    + intro H. apply ret_inj, ok_inj in H. split; [constructor|]. exists []. split; [constructor|]. rewrite !app_nil_r. destruct a; symmetry; exact H.
    + intros (_ & us & HF & ->). inversion HF; subst. rewrite !app_nil_r. destruct a; reflexivity.
  - rewrite (pick_app1 7), (pick_app1 6), (pick_app1 2), (pick_app1 1). split.
    + intro H. destruct (addSAN E a tag data) as [[a1|e]|k] eqn:EA; cbn [gbind] in H; try discriminate. apply addSAN_iff in EA. destruct EA as (H7 & us1 & F1 & ->).
      apply IH in H. destruct H as (FI & us2 & F2 & ->). cbn [an_dns an_emails an_ips an_uris]. split.
      * apply Forall_app. split; [|exact FI]. rewrite pick_cons. destruct (Z.eqb_spec tag 7) as [Q|]; constructor; [auto|constructor].
      * exists (us1 ++ us2). split; [apply Forall2_app; assumption|]. rewrite <- !app_assoc. reflexivity.
    + intros (FI & us & F & ->). apply Forall_app in FI. destruct FI as [FI1 FI2]. apply Forall2_app_inv_l in F. destruct F as (us1 & us2 & F1 & F2 & ->).
      assert (EA : addSAN E a tag data = Ret (OK (mkAlt E (an_dns E a ++ pick 2 [(tag, data)]) (an_emails E a ++ pick 1 [(tag, data)]) (an_ips E a ++ pick 7 [(tag, data)]) (an_uris E a ++ us1)))).
      { apply addSAN_iff. split; [|exists us1; auto]. intro Q. rewrite Q in FI1. inversion FI1; subst. assumption. }
      rewrite EA. cbn [gbind]. apply IH. cbn [an_dns an_emails an_ips an_uris]. split; [exact FI2|]. exists us2. split; [exact F2|]. rewrite <- !app_assoc. reflexivity.
Qed.
(** Alternative names: a SEQUENCE of any elements; tag numbers 1, 2, 6 and 7, of any class, are
    addresses, DNS names, URIs and IP addresses, the rest is skipped. The extension counts as not
    handled if nothing is left. *)
Theorem C92_alternative_names : forall value critical f g u, bytes value ->
  (parseExtension E (mkExt [2; 5; 29; 17] critical value) f = Ret (OK (g, u)) <->
   exists rvs uris, whole 0 true 16 g_raws value rvs /\
     let names := map tagged rvs in
     Forall (fun ip => zlen ip = 4 \/ zlen ip = 16) (pick 7 names) /\ Forall2 uri_read (pick 6 names) uris /\
     g = set_SAN E (mkAlt E (pick 2 names) (pick 1 names) (pick 7 names) uris) f /\
     u = if in_dec Z.eq_dec 1 (map rv_tag rvs) then false else if in_dec Z.eq_dec 2 (map rv_tag rvs) then false
         else if in_dec Z.eq_dec 6 (map rv_tag rvs) then false else if in_dec Z.eq_dec 7 (map rv_tag rvs) then false else true).
Proof.
  intros value critical f g u HB. unfold parseExtension. cbn [e_id e_value e_critical]. cbn [Z.eqb Pos.eqb andb]. unfold parseSANExtension.
  assert (PE : forall t rvs, (zlen (pick t (map tagged rvs)) =? 0) = if in_dec Z.eq_dec t (map rv_tag rvs) then false else true).
  { intros t rvs. induction rvs as [|rv rvs IH]; [reflexivity|]. cbn [map]. unfold tagged at 1. rewrite pick_cons. destruct (Z.eqb_spec (rv_tag rv) t) as [Q|Q].
    - rewrite zlen_cons. pose proof (zlen_nonneg _ (pick t (map tagged rvs))). destruct (Z.eqb_spec (zlen (pick t (map tagged rvs)) + 1) 0); [lia|].
      destruct (in_dec Z.eq_dec t (rv_tag rv :: map rv_tag rvs)) as [|N]; [reflexivity|]. exfalso. apply N. left. exact Q.
    - rewrite IH. destruct (in_dec Z.eq_dec t (map rv_tag rvs)) as [I|N], (in_dec Z.eq_dec t (rv_tag rv :: map rv_tag rvs)) as [I'|N']; try reflexivity.
      + exfalso. apply N'. right. exact I.
      + exfalso. destruct I' as [I'|I']; contradiction. }
  assert (EM : forall rvs uris, Forall2 uri_read (pick 6 (map tagged rvs)) uris -> altEmpty E (mkAlt E (pick 2 (map tagged rvs)) (pick 1 (map tagged rvs)) (pick 7 (map tagged rvs)) uris) =
    if in_dec Z.eq_dec 1 (map rv_tag rvs) then false else if in_dec Z.eq_dec 2 (map rv_tag rvs) then false
         else if in_dec Z.eq_dec 6 (map rv_tag rvs) then false else if in_dec Z.eq_dec 7 (map rv_tag rvs) then false else true).
  { intros rvs uris HF. unfold altEmpty. cbn [an_dns an_emails an_ips an_uris]. assert (L : zlen uris = zlen (pick 6 (map tagged rvs))) by (unfold zlen; clear - HF; induction HF; [reflexivity|]; cbn [List.length]; lia).
    rewrite L, !PE. destruct (in_dec Z.eq_dec 1 _), (in_dec Z.eq_dec 2 _), (in_dec Z.eq_dec 6 _), (in_dec Z.eq_dec 7 _); reflexivity. }
  split.
  - intro H. destruct (forEachSAN value) as [names|e] eqn:EF; cbn [gbind] in H; [|discriminate]. apply forEachSAN_iff in EF; [|exact HB]. destruct EF as (rvs & HW & ->).
    destruct (addSANs E (zeroAlt E) (map tagged rvs)) as [[a|e]|k] eqn:EA; cbn [gbind] in H; try discriminate. apply addSANs_iff in EA. destruct EA as (FI & us & FU & ->).
    cbn [zeroAlt an_dns an_emails an_ips an_uris app] in H. exists rvs, us. cbv zeta. rewrite (EM rvs us FU) in H. apply ret_inj, ok_inj in H. split; [exact HW|]. split; [exact FI|]. split; [exact FU|]. split; congruence.
  - intros (rvs & uris & HW & FI & FU & -> & ->). assert (EF : forEachSAN value = OK (map tagged rvs)) by (apply forEachSAN_iff; [exact HB|]; exists rvs; auto).
    rewrite EF. cbn [gbind]. assert (EA : addSANs E (zeroAlt E) (map tagged rvs) = Ret (OK (mkAlt E (pick 2 (map tagged rvs)) (pick 1 (map tagged rvs)) (pick 7 (map tagged rvs)) uris))).
    { apply addSANs_iff. split; [exact FI|]. exists uris. split; [exact FU|]. reflexivity. }
    rewrite EA. cbn [gbind]. rewrite (EM rvs uris FU). reflexivity.
Qed.

(** * Name constraints *)

(** One subtree: a SEQUENCE whose first element is the name; what follows it is ignored. *)
Definition subtree (q : Z * list Z * list Z) : list Z := tlv 48 (tlv (fst (fst q)) (snd (fst q)) ++ snd q).
Definition subtree_ok (q : Z * list Z * list Z) : Prop := low_tag (fst (fst q)) /\ zlen (subtree q) <= 2 ^ 32 - 1.
Definition range_read (v : list Z) (r : IPNet) : Prop := ip_ok v (in_ip r) (in_mask r).
(** The names in a list of subtrees are all acceptable and are the constraints. *)
Definition constraints_read (names : list (Z * list Z)) (c : Constraints) : Prop :=
  Forall dns_ok (pick 0x82 names) /\ Forall email_ok (pick 0x81 names) /\ Forall (uri_ok E) (pick 0x86 names) /\
  exists ranges, Forall2 range_read (pick 0x87 names) ranges /\ c = mkNC (pick 0x82 names) ranges (pick 0x81 names) (pick 0x86 names).
(** The tag of a name that is none of these four. *)
Definition strange (t : Z) : bool := negb ((t =? 0x81) || (t =? 0x82) || (t =? 0x86) || (t =? 0x87)).
Definition extends (c : Constraints) (names : list (Z * list Z)) (c' : Constraints) : Prop :=
  exists d, constraints_read names d /\ c' = mkNC (nc_dns c ++ nc_dns d) (nc_ips c ++ nc_ips d) (nc_emails c ++ nc_emails d) (nc_uris c ++ nc_uris d).
Lemma dns_dec : forall v, dns_ok v \/ ~ dns_ok v.
Proof. intro v. unfold dns_ok. destruct (ia5_iff v) as [[_ A]|[_ A]]; [|tauto]. destruct (domain_cases (trimDot v)) as [(rl & _ & D)|[_ D]]; tauto. Qed.
Lemma email_dec : forall v, email_ok v \/ ~ email_ok v.
Proof.
  intro v. unfold email_ok. destruct (ia5_iff v) as [[_ A]|[_ A]]; [|tauto]. destruct (in_dec Z.eq_dec 64 v) as [I|I].
  - destruct (mailbox_cases v) as [(q & _ & M)|[_ M]]; tauto.
  - destruct (domain_cases (trimDot v)) as [(rl & _ & D)|[_ D]]; tauto.
Qed.
Lemma uri_dec : forall v, uri_ok E v \/ ~ uri_ok E v.
Proof. intro v. unfold uri_ok. destruct (ia5_iff v) as [[_ A]|[_ A]]; [|tauto]. destruct (isIP E v); [right; intros (_ & Q & _); discriminate Q|]. destruct (domain_cases (trimDot v)) as [(rl & _ & D)|[_ D]]; tauto. Qed.
Lemma ip_ok_inj : forall v i m i' m', ip_ok v i m -> ip_ok v i' m' -> i = i' /\ m = m'.
Proof.
  intros v i m i' m' (-> & L & _) (E' & L' & _). assert (HL : zlen i = zlen i') by (apply (f_equal (@zlen Z)) in E'; rewrite !zlen_app in E'; lia).
  apply app_inj_len in E'; [exact E'|unfold zlen in HL; lia].
Qed.
Lemma ip_dec : forall v, bytes v -> (exists i m, ip_ok v i m) \/ (forall i m, ~ ip_ok v i m).
Proof.
  intros v HB. assert (K : forall h, zlen v = 2 * h -> h = 4 \/ h = 16 -> (exists i m, ip_ok v i m) \/ (forall i m, ~ ip_ok v i m)).
  { intros h HL Hh. destruct (split_at _ v h ltac:(lia)) as (i & m & -> & Hi). rewrite zlen_app in HL. pose proof HB as HB'. apply bytes_app in HB'. destruct HB' as [_ HM].
    destruct (isValidIPMask m) eqn:V.
    - left. exists i, m. split; [reflexivity|]. split; [lia|]. split; [lia|]. apply isValidIPMask_spec; assumption.
    - right. intros i' m' (E' & L' & _ & P). assert (HL' : zlen i = zlen i') by (apply (f_equal (@zlen Z)) in E'; rewrite !zlen_app in E'; lia).
      apply app_inj_len in E'; [|unfold zlen in HL'; lia]. destruct E' as [_ <-]. apply isValidIPMask_spec in P; [congruence|exact HM]. }
  destruct (Z.eq_dec (zlen v) 8) as [L|L]; [apply (K 4); lia|]. destruct (Z.eq_dec (zlen v) 32) as [L2|L2]; [apply (K 16); lia|].
  right. intros i m (-> & HL & [H4|H4] & _); rewrite zlen_app in L, L2; lia.
Qed.
Lemma subtree_iff : forall tag v c u c' u', bytes v ->
  (parseSubtree E tag v c u = Ret (OK (c', u')) <-> extends c [(tag, v)] c' /\ u' = (u || strange tag)%bool).
Proof.
  intros tag v [dns ips emails uris] u c' u' HB. unfold extends, constraints_read, strange. cbn [nc_dns nc_ips nc_emails nc_uris]. rewrite !pick_cons.
  change (pick 0x82 []) with (@nil (list Z)). change (pick 0x81 []) with (@nil (list Z)). change (pick 0x86 []) with (@nil (list Z)). change (pick 0x87 []) with (@nil (list Z)).
  destruct (Z.eqb_spec tag 0x82) as [->|N2]; [|destruct (Z.eqb_spec tag 0x81) as [->|N1]; [|destruct (Z.eqb_spec tag 0x86) as [->|N6]; [|destruct (Z.eqb_spec tag 0x87) as [->|N7]]]]; cbn [Z.eqb Pos.eqb orb negb]; rewrite ?orb_false_r.
  - destruct (C64_dns_constraint E v dns ips emails uris u) as [K1 K2]. destruct (dns_dec v) as [D|D].
    + rewrite (K1 D). split.
      * intro H. apply ret_inj, ok_inj in H. split; [|congruence]. exists (mkNC [v] [] [] []). cbn [nc_dns nc_ips nc_emails nc_uris]. rewrite !app_nil_r. split; [|congruence].
        split; [constructor; [exact D|constructor]|]. split; [constructor|]. split; [constructor|]. exists []. split; [constructor|reflexivity].
      * intros [(d & (_ & _ & _ & rs & F & ->) & ->) ->]. inversion F; subst. cbn [nc_dns nc_ips nc_emails nc_uris]. rewrite !app_nil_r. reflexivity.
    + destruct (K2 D) as [msg ->]. split; [discriminate|]. intros [(d & (F & _) & _) _]. inversion F; contradiction.
  - destruct (C72_email_constraint E v dns ips emails uris u) as [K1 K2]. destruct (email_dec v) as [D|D].
    + rewrite (K1 D). split.
      * intro H. apply ret_inj, ok_inj in H. split; [|congruence]. exists (mkNC [] [] [v] []). cbn [nc_dns nc_ips nc_emails nc_uris]. rewrite !app_nil_r. split; [|congruence].
        split; [constructor|]. split; [constructor; [exact D|constructor]|]. split; [constructor|]. exists []. split; [constructor|reflexivity].
      * intros [(d & (_ & _ & _ & rs & F & ->) & ->) ->]. inversion F; subst. cbn [nc_dns nc_ips nc_emails nc_uris]. rewrite !app_nil_r. reflexivity.
    + destruct (K2 D) as [msg ->]. split; [discriminate|]. intros [(d & (_ & F & _) & _) _]. inversion F; contradiction.
  - destruct (C64_uri_constraint E v dns ips emails uris u) as [K1 K2]. destruct (uri_dec v) as [D|D].
    + rewrite (K1 D). split.
      * intro H. apply ret_inj, ok_inj in H. split; [|congruence]. exists (mkNC [] [] [] [v]). cbn [nc_dns nc_ips nc_emails nc_uris]. rewrite !app_nil_r. split; [|congruence].
        split; [constructor|]. split; [constructor|]. split; [constructor; [exact D|constructor]|]. exists []. split; [constructor|reflexivity].
      * intros [(d & (_ & _ & _ & rs & F & ->) & ->) ->]. inversion F; subst. cbn [nc_dns nc_ips nc_emails nc_uris]. rewrite !app_nil_r. reflexivity.
    + destruct (K2 D) as [msg ->]. split; [discriminate|]. intros [(d & (_ & _ & F & _) & _) _]. inversion F; contradiction.
  - destruct (C63_ip_constraint E v dns ips emails uris u HB) as [K1 K2]. destruct (ip_dec v HB) as [(i & m & D)|D].
    + rewrite (K1 i m D). split.
      * intro H. apply ret_inj, ok_inj in H. split; [|congruence]. exists (mkNC [] [mkIPNet i m] [] []). cbn [nc_dns nc_ips nc_emails nc_uris]. rewrite !app_nil_r. split; [|congruence].
        split; [constructor|]. split; [constructor|]. split; [constructor|]. exists [mkIPNet i m]. split; [constructor; [exact D|constructor]|reflexivity].
      * intros [(d & (_ & _ & _ & rs & F & ->) & ->) ->]. inversion F as [|? [i' m'] ? ? R F']; subst. inversion F'; subst. cbn [nc_dns nc_ips nc_emails nc_uris]. rewrite !app_nil_r.
        unfold range_read in R. cbn [in_ip in_mask] in R. destruct (ip_ok_inj _ _ _ _ _ D R) as [-> ->]. reflexivity.
    + destruct (K2 D) as [msg ->]. split; [discriminate|]. intros [(d & (_ & _ & _ & rs & F & _) & _) _]. inversion F as [|? r ? ? R F']; subst. exfalso. exact (D _ _ R).
  - rewrite (C69_other_tags E tag v) by (cbn; lia). rewrite orb_true_r. split.
    + intro H. apply ret_inj, ok_inj in H. split; [|congruence]. exists (mkNC [] [] [] []). cbn [nc_dns nc_ips nc_emails nc_uris]. rewrite !app_nil_r. split; [|congruence].
      split; [constructor|]. split; [constructor|]. split; [constructor|]. exists []. split; [constructor|reflexivity].
    + intros [(d & (_ & _ & _ & rs & F & ->) & ->) ->]. inversion F; subst. cbn [nc_dns nc_ips nc_emails nc_uris]. rewrite !app_nil_r. reflexivity.
Qed.
Lemma extends_cons : forall c q l c', extends c (q :: l) c' <-> exists c1, extends c [q] c1 /\ extends c1 l c'.
Proof.
  intros c q l c'. unfold extends, constraints_read. rewrite (pick_app1 0x82 q l), (pick_app1 0x81 q l), (pick_app1 0x86 q l), (pick_app1 0x87 q l). split.
  - intros (d & (F2 & F1 & F6 & rs & F7 & ->) & ->). apply Forall_app in F2. apply Forall_app in F1. apply Forall_app in F6. apply Forall2_app_inv_l in F7. destruct F7 as (r1 & r2 & G1 & G2 & ->).
    cbn [nc_dns nc_ips nc_emails nc_uris]. eexists. split.
    + exists (mkNC (pick 0x82 [q]) r1 (pick 0x81 [q]) (pick 0x86 [q])). split; [|reflexivity]. split; [apply F2|]. split; [apply F1|]. split; [apply F6|]. exists r1. split; [exact G1|reflexivity].
    + exists (mkNC (pick 0x82 l) r2 (pick 0x81 l) (pick 0x86 l)). cbn [nc_dns nc_ips nc_emails nc_uris]. split; [|rewrite <- !app_assoc; reflexivity].
      split; [apply F2|]. split; [apply F1|]. split; [apply F6|]. exists r2. split; [exact G2|reflexivity].
  - intros (c1 & (d1 & (A2 & A1 & A6 & r1 & G1 & ->) & ->) & (d2 & (B2 & B1 & B6 & r2 & G2 & ->) & ->)). cbn [nc_dns nc_ips nc_emails nc_uris].
    exists (mkNC (pick 0x82 [q] ++ pick 0x82 l) (r1 ++ r2) (pick 0x81 [q] ++ pick 0x81 l) (pick 0x86 [q] ++ pick 0x86 l)). cbn [nc_dns nc_ips nc_emails nc_uris].
    split; [|rewrite <- !app_assoc; reflexivity]. split; [apply Forall_app; auto|]. split; [apply Forall_app; auto|]. split; [apply Forall_app; auto|].
    exists (r1 ++ r2). split; [apply Forall2_app; assumption|reflexivity].
Qed.
Lemma extends_nil : forall c c', extends c [] c' <-> c' = c.
Proof.
  intros [dns ips emails uris] c'. unfold extends, constraints_read, pick. cbn [filter map]. split.
  - intros (d & (_ & _ & _ & rs & F & ->) & ->). inversion F; subst. cbn [nc_dns nc_ips nc_emails nc_uris]. rewrite !app_nil_r. reflexivity.
  - intros ->. exists (mkNC [] [] [] []). cbn [nc_dns nc_ips nc_emails nc_uris]. rewrite !app_nil_r. split; [|reflexivity]. split; [constructor|]. split; [constructor|]. split; [constructor|].
    exists []. split; [constructor|reflexivity].
Qed.
Lemma element_some : forall l t c r, element (Some l) t c r <-> l = tlv t c ++ r /\ low_tag t /\ zlen (tlv t c) <= 2 ^ 32 - 1.
Proof. intros l t c r. unfold element. split; intros (H & K); split; auto; congruence. Qed.
Lemma getValues_iff : forall fuel l c u c' u', bytes l -> (List.length l <= fuel)%nat ->
  (getValues E fuel (Some l) c u = Ret (OK (c', u')) <->
   exists ts, l = List.concat (map subtree ts) /\ Forall subtree_ok ts /\ extends c (map fst ts) c' /\ u' = (u || existsb (fun q => strange (fst (fst q))) ts)%bool).
Proof.
  assert (B : forall c u c' u', Ret (A := res (Constraints * bool)) (OK (c, u)) = Ret (OK (c', u')) <->
    exists ts, [] = List.concat (map subtree ts) /\ Forall subtree_ok ts /\ extends c (map fst ts) c' /\ u' = (u || existsb (fun q => strange (fst (fst q))) ts)%bool).
  { intros c u c' u'. split.
    - intro H. apply ret_inj, ok_inj in H. exists []. cbn [map List.concat existsb]. rewrite orb_false_r. split; [reflexivity|]. split; [constructor|]. split; [apply extends_nil; congruence|congruence].
    - intros ([|q ts] & E0 & _ & HX & ->); [|discriminate E0]. cbn [map existsb] in *. apply extends_nil in HX. subst c'. rewrite orb_false_r. reflexivity. }
  induction fuel as [|fuel IH]; intros l c u c' u' HB HL.
  - destruct l; [|cbn in HL; lia]. cbn [getValues]. change (Empty (Some [])) with true. cbv iota. apply B.
  - destruct l as [|x y] eqn:El. { cbn [getValues]. change (Empty (Some [])) with true. cbv iota. apply B. }
    cbn [getValues]. assert (NE : l <> []) by (rewrite El; discriminate). assert (EM : Empty (Some (x :: y)) = false). { unfold Empty, slen. cbn [contents]. rewrite zlen_cons. pose proof (zlen_nonneg _ y). apply Z.eqb_neq. lia. }
    rewrite EM. rewrite <- El in *. clear El x y EM. unfold SEQUENCE. split.
    + intro H. destruct (element_em (Some l) HB) as [(t & s & r & HE)|N].
      2:{ rewrite (ReadASN1_fail (Some l) None 48 HB N) in H. cbn [bind negb] in H. discriminate H. }
      rewrite (ReadASN1_element (Some l) _ _ _ None 48 HB HE) in H. cbn [bind] in H. destruct (Z.eqb_spec t 48) as [->|]; [|discriminate H]. cbn [negb] in H.
      apply element_some in HE. destruct HE as (El & _ & HS). pose proof HB as HB'. rewrite El in HB'. apply tlv_bytes in HB'. destruct HB' as [HBs HBr].
      destruct (element_em (Some s) HBs) as [(tag & d & more & HE2)|N].
      2:{ destruct (element_dec (Some s) None 0 true HBs) as [Q|[t' Q]]; [contradiction|]. unfold ReadAnyASN1 in H. rewrite Q in H. cbn [bind negb] in H. discriminate H. }
      unfold ReadAnyASN1 in H. rewrite (element_read (Some s) _ _ _ None 0 true HBs HE2) in H. cbn [bind negb asn1_out contents] in H.
      apply element_some in HE2. destruct HE2 as (Es & HT & _). rewrite Es in HBs. apply tlv_bytes in HBs. destruct HBs as [HBd _].
      destruct (parseSubtree E tag d c u) as [[[c1 u1]|e]|k] eqn:EP; cbn [gbind] in H; try discriminate H. apply (subtree_iff _ _ _ _ _ _ HBd) in EP. destruct EP as [X1 ->].
      assert (Hr : (List.length r <= fuel)%nat) by (rewrite El, app_length in HL; unfold tlv in HL; cbn [List.length] in HL; lia).
      apply IH in H; [|exact HBr|exact Hr]. destruct H as (ts & -> & HF & X2 & ->). exists ((tag, d, more) :: ts). cbn [map List.concat existsb fst].
      unfold subtree at 1. cbn [fst snd]. split; [rewrite El, Es; reflexivity|]. split.
      * constructor; [|exact HF]. split; cbn [fst]; [exact HT|]. unfold subtree. cbn [fst snd]. rewrite <- Es. exact HS.
      * split; [apply extends_cons; exists c1; auto|]. rewrite orb_assoc. reflexivity.
    + intros ([|[[tag d] more] ts] & El & HF & HX & ->); [contradiction|]. apply Forall_cons_iff in HF. destruct HF as [[HT HS] HF']. cbn [map List.concat fst snd] in *. unfold subtree at 1 in El. cbn [fst snd] in El, HT, HS.
      set (r := List.concat (map subtree ts)) in *. unfold subtree in HS. cbn [fst snd] in HS.
      assert (HE : element (Some l) 48 (tlv tag d ++ more) r) by (apply element_some; split; [exact El|]; split; [unfold low_tag; discriminate|exact HS]).
      rewrite (ReadASN1_element (Some l) _ _ _ None 48 HB HE). cbn [bind Z.eqb Pos.eqb negb]. pose proof HB as HB'. rewrite El in HB'. apply tlv_bytes in HB'. destruct HB' as [HBs HBr].
      assert (HE2 : element (Some (tlv tag d ++ more)) tag d more).
      { apply element_some. split; [reflexivity|]. split; [exact HT|]. rewrite (zlen_tlv 48) in HS. rewrite zlen_app in HS. pose proof (zlen_nonneg _ more). pose proof (zlen_der_len_pos (zlen (tlv tag d) + zlen more)). lia. }
      unfold ReadAnyASN1. rewrite (element_read (Some (tlv tag d ++ more)) _ _ _ None 0 true HBs HE2). cbn [bind negb asn1_out contents]. apply tlv_bytes in HBs. destruct HBs as [HBd _].
      apply extends_cons in HX. destruct HX as (c1 & X1 & X2).
      assert (EP : parseSubtree E tag d c u = Ret (OK (c1, (u || strange tag)%bool))) by (apply (subtree_iff _ _ _ _ _ _ HBd); auto). rewrite EP. cbn [gbind].
      assert (Hr : (List.length r <= fuel)%nat) by (rewrite El, app_length in HL; unfold tlv in HL; cbn [List.length] in HL; lia).
      apply IH; [exact HBr|exact Hr|]. exists ts. split; [reflexivity|]. split; [exact HF'|]. split; [exact X2|]. cbn [existsb fst]. rewrite orb_assoc. reflexivity.
Qed.

Lemma optional_read : forall l tag, bytes l ->
  (exists c r, element (Some l) tag c r /\ ReadOptionalASN1 (Some l) None tag = Ret (true, Some c, true, Some r)) \/
  ((~ exists r, l = tag :: r) /\ ReadOptionalASN1 (Some l) None tag = Ret (true, None, false, Some l)) \/
  ((~ exists c r, element (Some l) tag c r) /\ (exists r, l = tag :: r) /\ exists o s', ReadOptionalASN1 (Some l) None tag = Ret (false, o, true, s')).
Proof.
  intros l tag HB. destruct (C38_optional (Some l) None tag) as [K1 K2]. unfold next_is in *. cbn [contents] in *.
  assert (D : (exists r, l = tag :: r) \/ ~ exists r, l = tag :: r).
  { destruct l as [|x l]; [right; intros [r Q]; discriminate Q|]. destruct (Z.eq_dec x tag) as [->|N]; [left; exists l; reflexivity|right; intros [r Q]; congruence]. }
  destruct D as [D|D]; [|right; left; split; [exact D|apply K1, D]]. destruct (K2 D) as [K3 _]. destruct (element_em (Some l) HB) as [(t & c & r & HE)|N].
  - pose proof (ReadASN1_element (Some l) t c r None tag HB HE) as HR. apply K3 in HR. destruct (Z.eqb_spec t tag) as [->|NT].
    + left. exists c, r. split; [exact HE|exact HR].
    + exfalso. destruct D as [r' ->]. apply element_some in HE. destruct HE as (Q & _). unfold tlv in Q. cbn [app] in Q. congruence.
  - right. right. split; [intros (c & r & HE); apply N; exists tag, c, r; exact HE|]. split; [exact D|]. pose proof (ReadASN1_fail (Some l) None tag HB N) as HR. apply K3 in HR. eexists. eexists. exact HR.
Qed.
(** The permitted or the excluded names: absent or an element with the given identifier. *)
Definition names_part (t : Z) (l : list Z) (ts : list (Z * list Z * list Z)) : Prop :=
  Forall subtree_ok ts /\ ((l = [] /\ ts = []) \/ l = tlv t (List.concat (map subtree ts))).
Lemma part_none : forall t ts, names_part t [] ts -> ts = [].
Proof. intros t ts [_ [[_ ->]|Q]]; [reflexivity|discriminate Q]. Qed.
Lemma subtrees_nil : forall ts, List.concat (map subtree ts) = [] <-> ts = [].
Proof. intros [|q ts]; split; try reflexivity; intro Q; discriminate Q. Qed.
(** Name constraints: a SEQUENCE of the permitted and the excluded names, either of which may be
    missing but not both be empty, and nothing else. The extension counts as not handled if there is a
    name of a kind that is not known. *)
Theorem C92_name_constraints : forall value critical f g u, bytes value ->
  (parseExtension E (mkExt [2; 5; 29; 30] critical value) f = Ret (OK (g, u)) <->
   exists lp lx pts xts p x, value = tlv 48 (lp ++ lx) /\ zlen value <= 2 ^ 32 - 1 /\
     names_part 0xa0 lp pts /\ names_part 0xa1 lx xts /\ (pts <> [] \/ xts <> []) /\
     constraints_read (map fst pts) p /\ constraints_read (map fst xts) x /\
     g = set_NameConstraints E critical p x f /\ u = existsb (fun q => strange (fst (fst q))) (pts ++ xts)).
Proof.
  intros value critical f g u HB. unfold parseExtension. cbn [e_id e_value e_critical]. cbn [Z.eqb Pos.eqb andb].
  unfold parseNameConstraintsExtension, SEQUENCE. change (constructed (contextSpecific 0)) with 0xa0. change (constructed (contextSpecific 1)) with 0xa1.
  assert (ZX : forall names c, extends zeroConstraints names c <-> constraints_read names c).
  { intros names c. unfold extends, zeroConstraints. cbn [nc_dns nc_ips nc_emails nc_uris app]. split; [intros ([a b d e] & H & ->); exact H|]. intro H. exists c. destruct c. auto. }
  (* what getValues does with a part *)
  assert (GV : forall o c u c' u', bytes (contents o) ->
    (getValues E (List.length (contents o)) o c u = Ret (OK (c', u')) <->
     exists ts, contents o = List.concat (map subtree ts) /\ Forall subtree_ok ts /\ extends c (map fst ts) c' /\ u' = (u || existsb (fun q => strange (fst (fst q))) ts)%bool)).
  { intros [l|] c u0 c' u' Hl; cbn [contents] in *; [apply getValues_iff; [exact Hl|apply le_n]|]. cbn [List.length getValues]. change (Empty None) with true. cbv iota.
    pose proof (getValues_iff 0 [] c u0 c' u' Hl ltac:(cbn; lia)) as Q. cbn [getValues] in Q. change (Empty (Some [])) with true in Q. cbv iota in Q. exact Q. }
  assert (TAIL : forall po xo hp hx, bytes (contents po) -> bytes (contents xo) -> (hp = false -> contents po = []) -> (hx = false -> contents xo = []) ->
    (gbind (if (negb hp && negb hx) || ((slen po =? 0) && (slen xo =? 0)) then Ret (ERR "x509: empty name constraints extension")
      else run (p, unhandled) <- getValues E (List.length (contents po)) po zeroConstraints false;
           run (x, unhandled) <- getValues E (List.length (contents xo)) xo zeroConstraints unhandled;
           Ret (OK (p, x, unhandled))) (fun '(p, x, unhandled) => Ret (OK (set_NameConstraints E critical p x f, unhandled))) = Ret (OK (g, u)) <->
     exists pts xts p x, contents po = List.concat (map subtree pts) /\ contents xo = List.concat (map subtree xts) /\ Forall subtree_ok pts /\ Forall subtree_ok xts /\
       (pts <> [] \/ xts <> []) /\ constraints_read (map fst pts) p /\ constraints_read (map fst xts) x /\
       g = set_NameConstraints E critical p x f /\ u = existsb (fun q => strange (fst (fst q))) (pts ++ xts))).
  { intros po xo hp hx Hp Hx Np Nx.
    assert (C : (negb hp && negb hx) || ((slen po =? 0) && (slen xo =? 0)) = true <-> contents po = [] /\ contents xo = []).
    { rewrite orb_true_iff, !andb_true_iff, !negb_true_iff, !Z.eqb_eq. unfold slen. split.
      - intros [[A1 A2]|[A1 A2]]; [auto|]. split; apply zlen_0_nil; assumption.
      - intros [-> ->]. right. split; reflexivity. }
    destruct ((negb hp && negb hx) || ((slen po =? 0) && (slen xo =? 0))) eqn:EC.
    - destruct (proj1 C eq_refl) as [C1 C2]. cbn [gbind]. split; [discriminate|]. intros (pts & xts & p & x & A1 & A2 & _ & _ & [N|N] & _); exfalso; apply N; apply subtrees_nil; congruence.
    - assert (NE : ~ (contents po = [] /\ contents xo = [])) by (intro Q; apply C in Q; discriminate Q). clear C. split.
      + intro H. destruct (getValues E (List.length (contents po)) po zeroConstraints false) as [[[p u1]|e]|k] eqn:E1; cbn [gbind] in H; try discriminate H.
        apply GV in E1; [|exact Hp]. destruct E1 as (pts & A1 & A2 & A3 & ->).
        destruct (getValues E (List.length (contents xo)) xo zeroConstraints _) as [[[x u2]|e]|k] eqn:E2 in H; cbn [gbind] in H; try discriminate H.
        apply GV in E2; [|exact Hx]. destruct E2 as (xts & B1 & B2 & B3 & ->). apply ret_inj, ok_inj in H. apply ZX in A3. apply ZX in B3.
        exists pts, xts, p, x. split; [exact A1|]. split; [exact B1|]. split; [exact A2|]. split; [exact B2|]. split.
        * destruct pts as [|q pts]; [right|left; discriminate]. intros ->. apply NE. rewrite A1, B1. split; reflexivity.
        * split; [exact A3|]. split; [exact B3|]. split; [congruence|]. rewrite existsb_app. cbn [orb] in H. congruence.
      + intros (pts & xts & p & x & A1 & B1 & A2 & B2 & _ & A3 & B3 & -> & ->). apply ZX in A3. apply ZX in B3.
        assert (E1 : getValues E (List.length (contents po)) po zeroConstraints false = Ret (OK (p, existsb (fun q => strange (fst (fst q))) pts))) by (apply GV; [exact Hp|]; exists pts; auto).
        rewrite E1. cbn [gbind].
        assert (E2 : getValues E (List.length (contents xo)) xo zeroConstraints (existsb (fun q => strange (fst (fst q))) pts) = Ret (OK (x, (existsb (fun q => strange (fst (fst q))) pts || existsb (fun q => strange (fst (fst q))) xts)%bool))) by (apply GV; [exact Hx|]; exists xts; auto).
        rewrite E2. cbn [gbind]. rewrite existsb_app. reflexivity. }
  assert (EMP : forall r : list Z, Empty (Some r) = true <-> r = []).
  { intro r. unfold Empty, slen. cbn [contents]. rewrite Z.eqb_eq. split; [apply zlen_0_nil|intros ->; reflexivity]. }
  (* the outer SEQUENCE *)
  destruct (element_em (Some value) HB) as [(t & body & r & HE)|N].
  2:{ rewrite (ReadASN1_fail (Some value) None 48 HB N). cbn [bind negb orb gbind]. split; [discriminate|]. intros (lp & lx & pts & xts & p & x & -> & HL & _). exfalso. apply N.
      exists 48, (lp ++ lx), []. apply element_some. rewrite app_nil_r. split; [reflexivity|]. split; [unfold low_tag; discriminate|exact HL]. }
  rewrite (ReadASN1_element (Some value) t body r None 48 HB HE). cbn [bind]. pose proof HE as HE'. apply element_some in HE'. destruct HE' as (EV & _ & HL).
  assert (WHOLE : forall b, value = tlv 48 b -> zlen value <= 2 ^ 32 - 1 -> t = 48 /\ r = [] /\ b = body).
  { intros b EB LB. assert (HE2 : element (Some value) 48 b []) by (apply element_some; rewrite app_nil_r; split; [exact EB|]; split; [unfold low_tag; discriminate|rewrite <- EB; exact LB]).
    destruct (element_inj _ _ _ _ _ _ _ HE HE2) as (Q1 & Q2 & Q3). auto. }
  destruct (negb (t =? 48) || negb (Empty (Some r))) eqn:C0.
  { cbn [gbind]. split; [discriminate|]. intros (lp & lx & pts & xts & p & x & EB & LB & _). destruct (WHOLE _ EB LB) as (-> & -> & _). discriminate C0. }
  rewrite orb_false_iff, !negb_false_iff, Z.eqb_eq in C0. destruct C0 as [-> C0]. apply EMP in C0. subst r. rewrite app_nil_r in EV.
  assert (HBb : bytes body) by (rewrite EV in HB; rewrite <- (app_nil_r (tlv _ _)) in HB; apply tlv_bytes in HB; apply HB).
  assert (LV : zlen value <= 2 ^ 32 - 1) by (rewrite EV; exact HL).
  assert (LB : zlen body < 2 ^ 32 - 1) by (rewrite EV, zlen_tlv in LV; pose proof (zlen_der_len_pos (zlen body)); lia).
  (* the two parts *)
  destruct (optional_read body 0xa0 HBb) as [(pc & r1 & HE1 & ->)|[(N1 & ->)|(N1 & (r1 & S1) & o & s1 & ->)]]; cbn [bind negb].
  - apply element_some in HE1. destruct HE1 as (Eb & _ & L1). pose proof HBb as HBp. rewrite Eb in HBp. apply tlv_bytes in HBp. destruct HBp as [HBp HBr].
    destruct (optional_read r1 0xa1 HBr) as [(xc & r2 & HE2 & ->)|[(N2 & ->)|(N2 & (r2 & S2) & o & s2 & ->)]]; cbn [bind negb orb].
    + apply element_some in HE2. destruct HE2 as (Er & _ & L2). pose proof HBr as HBx. rewrite Er in HBx. apply tlv_bytes in HBx. destruct HBx as [HBx _].
      assert (LOC : forall lp lx pts xts, body = lp ++ lx -> names_part 0xa0 lp pts -> names_part 0xa1 lx xts -> pc = List.concat (map subtree pts) /\ r1 = lx /\ xc = List.concat (map subtree xts) /\ r2 = []).
      { intros lp lx pts xts EB [FP KP] [FX KX]. destruct KP as [[-> ->]|KP].
        - exfalso. cbn [app] in EB. rewrite Eb in EB. destruct KX as [[-> _]|KX]; [discriminate EB|]. rewrite KX in EB. unfold tlv in EB. cbn [app] in EB. discriminate EB.
        - assert (Q : 0xa0 = 0xa0 /\ pc = List.concat (map subtree pts) /\ r1 = lx).
          { apply tlv_inj; [rewrite zlen_tlv in L1; pose proof (zlen_der_len_pos (zlen pc)); lia| |rewrite <- Eb, <- KP; exact EB].
            rewrite EB, KP, zlen_app, zlen_tlv in LB. pose proof (zlen_nonneg _ lx). pose proof (zlen_der_len_pos (zlen (List.concat (map subtree pts)))). lia. }
          destruct Q as (_ & Q1 & Q2). split; [exact Q1|]. split; [exact Q2|]. rewrite <- Q2 in KX. destruct KX as [[Q3 _]|KX].
          + rewrite Q3 in Er. discriminate Er.
          + assert (Q : 0xa1 = 0xa1 /\ xc = List.concat (map subtree xts) /\ r2 = []).
            { apply tlv_inj; [rewrite zlen_tlv in L2; pose proof (zlen_der_len_pos (zlen xc)); lia| |rewrite <- Er, app_nil_r, KX; reflexivity].
              rewrite Eb, KX, zlen_app, (zlen_tlv 0xa1) in LB. pose proof (zlen_nonneg _ (tlv 160 pc)). pose proof (zlen_der_len_pos (zlen (List.concat (map subtree xts)))). lia. }
            destruct Q as (_ & Q3 & Q4). auto. }
      destruct (Empty (Some r2)) eqn:ER; cbn [negb].
      * apply EMP in ER. subst r2. rewrite (TAIL (Some pc) (Some xc) true true HBp HBx) by discriminate. cbn [contents]. split.
        -- intros (pts & xts & p & x & A1 & B1 & A2 & B2 & NE & R). exists (tlv 0xa0 pc), (tlv 0xa1 xc), pts, xts, p, x. rewrite app_nil_r in Er.
           split; [rewrite EV, Eb, Er; reflexivity|]. split; [exact LV|]. split; [split; [exact A2|right; rewrite A1; reflexivity]|]. split; [split; [exact B2|right; rewrite B1; reflexivity]|]. split; [exact NE|exact R].
        -- intros (lp & lx & pts & xts & p & x & EB & _ & P1 & P2 & NE & R). destruct (WHOLE _ EB LV) as (_ & _ & EB'). symmetry in EB'.
           destruct (LOC _ _ _ _ EB' P1 P2) as (Q1 & _ & Q3 & _). exists pts, xts, p, x. split; [exact Q1|]. split; [exact Q3|]. split; [apply P1|]. split; [apply P2|]. split; [exact NE|exact R].
      * cbn [gbind]. split; [discriminate|]. intros (lp & lx & pts & xts & p & x & EB & _ & P1 & P2 & _). destruct (WHOLE _ EB LV) as (_ & _ & EB'). symmetry in EB'.
        destruct (LOC _ _ _ _ EB' P1 P2) as (_ & _ & _ & Q). rewrite Q in ER. discriminate ER.
    + (* only the permitted names *)
      assert (LOC : forall lp lx pts xts, body = lp ++ lx -> names_part 0xa0 lp pts -> names_part 0xa1 lx xts -> pc = List.concat (map subtree pts) /\ r1 = [] /\ xts = []).
      { intros lp lx pts xts EB [FP KP] [FX KX]. destruct KP as [[-> ->]|KP].
        - exfalso. cbn [app] in EB. rewrite Eb in EB. destruct KX as [[-> _]|KX]; [discriminate EB|]. rewrite KX in EB. unfold tlv in EB. cbn [app] in EB. discriminate EB.
        - assert (Q : 0xa0 = 0xa0 /\ pc = List.concat (map subtree pts) /\ r1 = lx).
          { apply tlv_inj; [rewrite zlen_tlv in L1; pose proof (zlen_der_len_pos (zlen pc)); lia| |rewrite <- Eb, <- KP; exact EB].
            rewrite EB, KP, zlen_app, zlen_tlv in LB. pose proof (zlen_nonneg _ lx). pose proof (zlen_der_len_pos (zlen (List.concat (map subtree pts)))). lia. }
          destruct Q as (_ & Q1 & Q2). split; [exact Q1|]. rewrite Q2 in N2 |- *. destruct KX as [[-> ->]|KX]; [auto|]. exfalso. apply N2. rewrite KX. unfold tlv. eexists. reflexivity. }
      destruct (Empty (Some r1)) eqn:ER; cbn [negb].
      * apply EMP in ER. subst r1. rewrite (TAIL (Some pc) None true false HBp ltac:(constructor)) by (discriminate || reflexivity). cbn [contents]. split.
        -- intros (pts & xts & p & x & A1 & B1 & A2 & B2 & NE & R). exists (tlv 0xa0 pc), [], pts, xts, p, x. rewrite app_nil_r in *.
           split; [rewrite EV, Eb; reflexivity|]. split; [exact LV|]. split; [split; [exact A2|right; rewrite A1; reflexivity]|]. split; [split; [exact B2|left; split; [reflexivity|apply subtrees_nil; symmetry; exact B1]]|]. split; [exact NE|exact R].
        -- intros (lp & lx & pts & xts & p & x & EB & _ & P1 & P2 & NE & R). destruct (WHOLE _ EB LV) as (_ & _ & EB'). symmetry in EB'.
           destruct (LOC _ _ _ _ EB' P1 P2) as (Q1 & _ & Q3). exists pts, xts, p, x. split; [exact Q1|]. split; [rewrite Q3; reflexivity|]. split; [apply P1|]. split; [apply P2|]. split; [exact NE|exact R].
      * cbn [gbind]. split; [discriminate|]. intros (lp & lx & pts & xts & p & x & EB & _ & P1 & P2 & _). destruct (WHOLE _ EB LV) as (_ & _ & EB'). symmetry in EB'.
        destruct (LOC _ _ _ _ EB' P1 P2) as (_ & Q & _). rewrite Q in ER. discriminate ER.
    + cbn [gbind]. split; [discriminate|]. intros (lp & lx & pts & xts & p & x & EB & _ & [FP KP] & [FX KX] & _). destruct (WHOLE _ EB LV) as (_ & _ & EB'). exfalso.
      destruct KP as [[-> ->]|KP].
      * cbn [app] in EB'. rewrite Eb in EB'. destruct KX as [[-> _]|KX]; [discriminate EB'|]. rewrite KX in EB'. unfold tlv in EB'. cbn [app] in EB'. discriminate EB'.
      * assert (Q : 0xa0 = 0xa0 /\ pc = List.concat (map subtree pts) /\ r1 = lx).
        { apply tlv_inj; [rewrite zlen_tlv in L1; pose proof (zlen_der_len_pos (zlen pc)); lia| |rewrite <- Eb, <- KP; symmetry; exact EB'].
          rewrite <- EB', KP, zlen_app, zlen_tlv in LB. pose proof (zlen_nonneg _ lx). pose proof (zlen_der_len_pos (zlen (List.concat (map subtree pts)))). lia. }
        destruct Q as (_ & _ & Q2). destruct KX as [[Q3 _]|KX]; [rewrite Q2, Q3 in S2; discriminate S2|]. apply N2. exists (List.concat (map subtree xts)), []. apply element_some. rewrite app_nil_r.
        split; [rewrite Q2; exact KX|]. split; [unfold low_tag; discriminate|]. rewrite <- KX, <- Q2. rewrite Eb, zlen_app in LB. pose proof (zlen_nonneg _ (tlv 160 pc)). lia.
  - (* no permitted names *)
    assert (LP : forall lp lx pts xts, body = lp ++ lx -> names_part 0xa0 lp pts -> names_part 0xa1 lx xts -> pts = [] /\ body = lx).
    { intros lp lx pts xts EB [FP KP] _. destruct KP as [[-> ->]|KP]; [auto|]. exfalso. apply N1. rewrite EB, KP. unfold tlv. eexists. reflexivity. }
    destruct (optional_read body 0xa1 HBb) as [(xc & r2 & HE2 & ->)|[(N2 & ->)|(N2 & (r2 & S2) & o & s2 & ->)]]; cbn [bind negb orb].
    + apply element_some in HE2. destruct HE2 as (Eb & _ & L2). pose proof HBb as HBx. rewrite Eb in HBx. apply tlv_bytes in HBx. destruct HBx as [HBx _].
      assert (LOC : forall lp lx pts xts, body = lp ++ lx -> names_part 0xa0 lp pts -> names_part 0xa1 lx xts -> pts = [] /\ xc = List.concat (map subtree xts) /\ r2 = []).
      { intros lp lx pts xts EB P1 P2. destruct (LP _ _ _ _ EB P1 P2) as [-> Q]. split; [reflexivity|]. destruct P2 as [_ [[Q3 _]|KX]]; [rewrite Q3 in Q; rewrite Q in Eb; discriminate Eb|].
        assert (K : 0xa1 = 0xa1 /\ xc = List.concat (map subtree xts) /\ r2 = []).
        { apply tlv_inj; [rewrite zlen_tlv in L2; pose proof (zlen_der_len_pos (zlen xc)); lia| |rewrite <- Eb, app_nil_r, Q, KX; reflexivity].
          rewrite Q, KX, zlen_tlv in LB. pose proof (zlen_der_len_pos (zlen (List.concat (map subtree xts)))). lia. }
        tauto. }
      destruct (Empty (Some r2)) eqn:ER; cbn [negb].
      * apply EMP in ER. subst r2. rewrite (TAIL None (Some xc) false true ltac:(constructor) HBx) by (discriminate || reflexivity). cbn [contents]. split.
        -- intros (pts & xts & p & x & A1 & B1 & A2 & B2 & NE & R). exists [], (tlv 0xa1 xc), pts, xts, p, x. rewrite app_nil_r in *. cbn [app].
           split; [rewrite EV, Eb; reflexivity|]. split; [exact LV|]. split; [split; [exact A2|left; split; [reflexivity|apply subtrees_nil; symmetry; exact A1]]|]. split; [split; [exact B2|right; rewrite B1; reflexivity]|]. split; [exact NE|exact R].
        -- intros (lp & lx & pts & xts & p & x & EB & _ & P1 & P2 & NE & R). destruct (WHOLE _ EB LV) as (_ & _ & EB'). symmetry in EB'.
           destruct (LOC _ _ _ _ EB' P1 P2) as (Q1 & Q3 & _). exists pts, xts, p, x. split; [rewrite Q1; reflexivity|]. split; [exact Q3|]. split; [apply P1|]. split; [apply P2|]. split; [exact NE|exact R].
      * cbn [gbind]. split; [discriminate|]. intros (lp & lx & pts & xts & p & x & EB & _ & P1 & P2 & _). destruct (WHOLE _ EB LV) as (_ & _ & EB'). symmetry in EB'.
        destruct (LOC _ _ _ _ EB' P1 P2) as (_ & _ & Q). rewrite Q in ER. discriminate ER.
    + destruct (negb (Empty (Some body))); cbn [andb orb gbind negb]; (split; [discriminate|]); intros (lp & lx & pts & xts & p & x & EB & _ & P1 & P2 & NE & _); exfalso;
        destruct (WHOLE _ EB LV) as (_ & _ & EB'); symmetry in EB'; destruct (LP _ _ _ _ EB' P1 P2) as [-> Q]; destruct P2 as [_ [[_ ->]|KX]];
        [destruct NE; congruence|apply N2; rewrite Q, KX; unfold tlv; eexists; reflexivity|destruct NE; congruence|apply N2; rewrite Q, KX; unfold tlv; eexists; reflexivity].
    + cbn [gbind]. split; [discriminate|]. intros (lp & lx & pts & xts & p & x & EB & _ & P1 & P2 & _). destruct (WHOLE _ EB LV) as (_ & _ & EB'). symmetry in EB'. exfalso.
      destruct (LP _ _ _ _ EB' P1 P2) as [_ Q]. destruct P2 as [_ [[Q3 _]|KX]]; [rewrite Q, Q3 in S2; discriminate S2|]. apply N2. exists (List.concat (map subtree xts)), []. apply element_some. rewrite app_nil_r.
      split; [rewrite Q; exact KX|]. split; [unfold low_tag; discriminate|]. rewrite <- KX, <- Q. lia.
  - cbn [gbind]. split; [discriminate|]. intros (lp & lx & pts & xts & p & x & EB & _ & [FP KP] & [FX KX] & _). destruct (WHOLE _ EB LV) as (_ & _ & EB'). symmetry in EB'. exfalso.
    destruct KP as [[-> ->]|KP].
    + cbn [app] in EB'. destruct KX as [[-> _]|KX]; [rewrite EB' in S1; discriminate S1|]. rewrite EB', KX in S1. unfold tlv in S1. discriminate S1.
    + apply N1. exists (List.concat (map subtree pts)), lx. apply element_some. split; [rewrite EB', KP; reflexivity|]. split; [unfold low_tag; discriminate|].
      rewrite <- KP. rewrite EB', zlen_app in LB. pose proof (zlen_nonneg _ lx). lia.
Qed.
End Env.

(** Distinguished names: a SEQUENCE of SETs of SEQUENCEs of a type and a value. *)
Theorem C92_name : forall l name, bytes l -> (unmarshalAll uRDNSequence [] l = OK name <-> whole 0 true 16 g_name l name).
Proof. intros l name HB. apply (all_of _ _ _ _ _ _ _ _ reads_name HB). Qed.
(** Object identifiers as such: five octets at most for a component, whose leading ones may be empty. *)
Theorem C92_oid : forall l oid, bytes l -> (unmarshalAll uOID [] l = OK oid <-> whole 0 false 6 g_oid l oid).
Proof. intros l oid HB. apply (all_of _ _ _ _ _ _ _ _ reads_oid HB). Qed.

(** Key usage 1100000 with seven bits; the same with a bit set among the unused ones is refused; and
    with a tenth bit, which is ignored. *)
Example C92_usage_ex : forall E f,
  parseExtension E (mkExt [2; 5; 29; 15] true [3; 2; 1; 0xc0]) f = Ret (OK (set_KeyUsage E 3 f, false)) /\
  parseExtension E (mkExt [2; 5; 29; 15] true [3; 2; 1; 0xc1]) f = Ret (ERR "invalid padding bits in BIT STRING") /\
  parseExtension E (mkExt [2; 5; 29; 15] true [3; 3; 6; 0xc0; 0x40]) f = Ret (OK (set_KeyUsage E 3 f, false)).
Proof. repeat split; reflexivity. Qed.
(** A path length without the BOOLEAN; elements after it; the BOOLEAN after the INTEGER, which is then
    not looked at: this is not a CA. *)
Example C92_basic_ex : forall E f,
  parseExtension E (mkExt [2; 5; 29; 19] true [48; 3; 2; 1; 5]) f = Ret (OK (set_BasicConstraints E true false 5 false f, false)) /\
  parseExtension E (mkExt [2; 5; 29; 19] true [48; 8; 1; 1; 255; 2; 1; 0; 5; 0]) f = Ret (OK (set_BasicConstraints E true true 0 true f, false)) /\
  parseExtension E (mkExt [2; 5; 29; 19] true [48; 6; 2; 1; 0; 1; 1; 255]) f = Ret (OK (set_BasicConstraints E true false 0 true f, false)).
Proof. repeat split; reflexivity. Qed.
Example C92_basic_spec : whole 0 true 16 g_basic [48; 6; 2; 1; 0; 1; 1; 255] (false, 0).
Proof. apply (all_of _ _ _ _ _ (false, 0) _ _ reads_basic); [repeat constructor; unfold byte; lia|reflexivity]. Qed.
Example C92_ids_ex : forall E f,
  parseExtension E (mkExt [2; 5; 29; 14] false [4; 2; 7; 8]) f = Ret (OK (set_SubjectKeyId E [7; 8] f, false)) /\
  parseExtension E (mkExt [2; 5; 29; 35] false [48; 6; 0x80; 2; 7; 8; 0x82; 0]) f = Ret (OK (set_AuthorityKeyId E [7; 8] f, false)) /\
  parseExtension E (mkExt [2; 5; 29; 35] false [48; 3; 0xa0; 1; 7]) f = Ret (OK (set_AuthorityKeyId E [] f, false)).
Proof. repeat split; reflexivity. Qed.
(** clientAuth twice, the second time with an empty leading digit; an unknown usage between them. *)
Example C92_eku_ex : forall E,
  parseExtension E (mkExt [2; 5; 29; 37] false [48; 24; 6; 8; 43; 6; 1; 5; 5; 7; 3; 2; 6; 1; 42; 6; 9; 43; 6; 1; 5; 5; 7; 3; 128; 2]) (zeroFields E) =
  Ret (OK (set_ExtKeyUsage E [2; 2] [[1; 2]] (zeroFields E), false)).
Proof. reflexivity. Qed.
Example C92_eku_spec : split_usages [[1; 3; 6; 1; 5; 5; 7; 3; 2]; [1; 2]; [1; 3; 6; 1; 5; 5; 7; 3; 2]] [2; 2] [[1; 2]].
Proof. apply split_iff. split; reflexivity. Qed.
Example C92_policy_ex : forall E f,
  parseExtension E (mkExt [2; 5; 29; 32] false [48; 12; 48; 5; 6; 1; 42; 48; 0; 48; 3; 6; 1; 43]) f = Ret (OK (set_PolicyIdentifiers E [[1; 2]; [1; 3]] f, false)).
Proof. reflexivity. Qed.
(** A point with a directory name, an URI and an INTEGER 6-tagged by chance: [APPLICATION 6]. *)
Example C92_points_ex : forall E,
  parseExtension E (mkExt [2; 5; 29; 31] false [48; 14; 48; 12; 0xa0; 10; 0xa0; 8; 0xa4; 0; 0x86; 1; 97; 0x46; 1; 98]) (zeroFields E) =
  Ret (OK (set_CRLDistributionPoints E [[97]; [98]] (zeroFields E), false)).
Proof. reflexivity. Qed.
Example C92_aia_ex : forall E,
  parseExtension E (mkExt [1; 3; 6; 1; 5; 5; 7; 1; 1] false [48; 30; 48; 13; 6; 8; 43; 6; 1; 5; 5; 7; 48; 2; 0x86; 1; 97; 48; 13; 6; 8; 43; 6; 1; 5; 5; 7; 48; 1; 0x86; 1; 98]) (zeroFields E) =
  Ret (OK (set_AuthorityInfo E [[98]] [[97]] (zeroFields E), false)).
Proof. reflexivity. Qed.
(** Only a name of another kind: critical, this would be an unhandled extension. *)
Example C92_san_ex : forall E f,
  parseExtension E (mkExt [2; 5; 29; 17] true [48; 2; 0x88; 0]) f = Ret (OK (set_SAN E (mkAlt E [] [] [] []) f, true)) /\
  parseExtension E (mkExt [2; 5; 29; 17] true [48; 5; 0x88; 0; 0x82; 1; 97]) f = Ret (OK (set_SAN E (mkAlt E [[97]] [] [] []) f, false)).
Proof. repeat split; reflexivity. Qed.
(** Permitted: a DNS name, with a minimum after it; excluded: a directory name. Then the same two parts
    in the wrong order. *)
Example C92_constraints_ex : forall E f,
  parseExtension E (mkExt [2; 5; 29; 30] true [48; 16; 0xa0; 8; 48; 6; 0x82; 1; 97; 0x80; 1; 0; 0xa1; 4; 48; 2; 0xa4; 0]) f =
    Ret (OK (set_NameConstraints E true (mkNC [[97]] [] [] []) (mkNC [] [] [] []) f, true)) /\
  parseExtension E (mkExt [2; 5; 29; 30] true [48; 12; 0xa1; 4; 48; 2; 0xa4; 0; 0xa0; 4; 48; 2; 0xa4; 0]) f =
    Ret (ERR "x509: invalid NameConstraints extension").
Proof. repeat split; reflexivity. Qed.
Example C92_name_ex : unmarshalAll uRDNSequence [] [48; 12; 49; 10; 48; 8; 6; 3; 85; 4; 3; 19; 1; 97] = OK [[mkATV [2; 5; 4; 3] (AnyString [97])]].
Proof. reflexivity. Qed.
(** Two encodings of the identifier of the key usage extension. *)
Example C92_oid_ex : unmarshalAll uOID [] [6; 3; 85; 29; 15] = OK [2; 5; 29; 15] /\ unmarshalAll uOID [] [6; 5; 85; 29; 128; 128; 15] = OK [2; 5; 29; 15].
Proof. repeat split; reflexivity. Qed.
