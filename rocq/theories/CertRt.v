(** Round trips through the model of encoding/asn1: an element that a marshalling function wrote is
    read back by the parser of the same type. *)
From Coq Require Import ZArith List Lia Bool String.
From Verif Require Import GoBase BeMin CbString CbStringProofs CbBuilder CbBuilderProofs CbAsn1Proofs GoAsn1 GoAsn1Proofs.
From Verif Require Import Sm2Der PropsSm2Der GoText GoPkix CertText Cert.
Import ListNotations.
Open Scope Z_scope.

(** The largest size that encoding/asn1 reads. *)
Definition small (e : list Z) : Prop := zlen e < 2 ^ 31.

(** [e] is one element, and the parser for [u] makes [v] of it. *)
Definition elem {A} (u : uty A) (v : A) (e : list Z) : Prop :=
  exists c t b body,
    e = tlv (ident c t b) body /\ small_header c t /\ zlen body < 2 ^ 31 /\
    (u_any u = true \/ (c = 0 /\ b = u_comp u /\ t = u_tag u (mkTL c t (zlen body) b))) /\
    u_body u (u_tag u (mkTL c t (zlen body) b)) (mkTL c t (zlen body) b) e body = OK v.

Lemma tlv_nonempty : forall t c r, tlv t c ++ r <> [].
Proof. intros t c r E. discriminate E. Qed.
Lemma elem_nonempty : forall A (u : uty A) v e, elem u v e -> e <> [].
Proof. intros A u v e (c & t & b & body & -> & _) E. discriminate E. Qed.

(** A field without parameters, or an optional one that is there. *)
Lemma elem_field : forall A (u : uty A) v e absent p r, elem u v e ->
  fp_tag p = None -> fp_explicit p = false -> fp_set p = false ->
  parseField u absent p (e ++ r) = OK (v, r).
Proof.
  intros A u v e absent p r (c & t & b & body & -> & HS & HL & HM & HB) HT HX HSet.
  rewrite field_tlv; [|exact HS|exact HL|exact HX| |].
  - rewrite HSet, HB. reflexivity.
  - destruct HM as [H|(_ & H & _)]; [left; exact H|right; exact H].
  - rewrite HT, HSet. destruct HM as [H|(H1 & _ & H2)]; [left; exact H|right; split; assumption].
Qed.
Lemma elem_parse : forall A (u : uty A) v e absent r, elem u v e -> parseField u absent noParams (e ++ r) = OK (v, r).
Proof. intros. apply elem_field; [assumption|reflexivity|reflexivity|reflexivity]. Qed.
Lemma elem_unmarshal : forall A (u : uty A) v e absent r, elem u v e -> unmarshal u absent (e ++ r) = OK (v, r).
Proof. intros. unfold unmarshal. apply elem_parse. assumption. Qed.
Lemma elem_all : forall A (u : uty A) v e zero, elem u v e -> unmarshalAll u zero e = OK v.
Proof.
  intros A u v e zero H. unfold unmarshalAll. rewrite <- (app_nil_r e). rewrite (elem_unmarshal _ _ v e) by exact H. reflexivity.
Qed.

(** A field with an implicit tag: same contents, another header. *)
Lemma elem_tagged : forall A (u : uty A) v absent p n body utag r,
  fp_tag p = Some n -> fp_explicit p = false -> fp_set p = false -> 0 <= n < 31 -> zlen body < 2 ^ 31 ->
  u_tag u (mkTL 2 n (zlen body) (u_comp u)) = utag ->
  u_body u utag (mkTL 2 n (zlen body) (u_comp u)) (tlv (ident 2 n (u_comp u)) body) body = OK v ->
  parseField u absent p (tlv (ident 2 n (u_comp u)) body ++ r) = OK (v, r).
Proof.
  intros A u v absent p n body utag r HT HX HSet Hn HL HU HB.
  rewrite field_tlv; [|split; lia|exact HL|exact HX|right; reflexivity|rewrite HT; split; reflexivity].
  rewrite HSet, HU, HB. reflexivity.
Qed.

(** * Sequences of elements *)

Lemma elem_header : forall A (u : uty A) v e r, elem u v e -> exists t body,
  parseTagAndLength (e ++ r) = OK (t, body ++ r) /\ tl_length t = zlen body /\
  negb (u_any u) && (negb (tl_class t =? 0) || negb (Bool.eqb (tl_comp t) (u_comp u)) || negb (tl_tag t =? u_tag u t)) = false.
Proof.
  intros A u v e r (c & t & b & body & -> & HS & HL & HM & _).
  exists (mkTL c t (zlen body) b), body. rewrite tlv_parse by assumption. split; [reflexivity|]. split; [reflexivity|].
  cbn [tl_class tl_tag tl_comp]. destruct HM as [->|(-> & -> & E)]; [reflexivity|].
  rewrite <- E, !Z.eqb_refl, eqb_reflx. cbn. apply andb_false_r.
Qed.

Lemma elem_len : forall A (u : uty A) v e, elem u v e -> (1 <= List.length e)%nat.
Proof. intros A u v e H. apply elem_nonempty in H. destruct e; [congruence|cbn; lia]. Qed.

Lemma count_elems : forall A (u : uty A) vs es, Forall2 (elem u) vs es -> forall fuel,
  (List.length (List.concat es) <= fuel)%nat -> countElements fuel u (List.concat es) = OK (List.length vs).
Proof.
  intros A u vs es H. induction H as [|v e vs es Hv H IH]; intros fuel Hf.
  - destruct fuel; reflexivity.
  - cbn [List.concat] in *. rewrite app_length in Hf. pose proof (elem_len _ _ _ _ Hv) as Le.
    destruct fuel as [|fuel]; [lia|]. cbn [countElements].
    destruct (e ++ List.concat es) as [|x y] eqn:E; [apply elem_nonempty in Hv; destruct e; [congruence|discriminate E]|].
    rewrite <- E. clear E x y.
    destruct (elem_header _ _ _ _ (List.concat es) Hv) as (t & body & -> & HL & HM). cbn [rbind]. rewrite HM, HL.
    assert (L : zlen (body ++ List.concat es) <? zlen body = false)
      by (rewrite zlen_app; pose proof (zlen_nonneg _ (List.concat es)); apply Z.ltb_ge; lia).
    rewrite L. rewrite (sub_app_r _ body _ _ _ eq_refl (zlen_app _ body _)). rewrite IH by lia. reflexivity.
Qed.
Lemma parse_elems : forall A (u : uty A) zero vs es, Forall2 (elem u) vs es ->
  parseElements (List.length vs) u zero (List.concat es) = OK vs.
Proof.
  intros A u zero vs es H. induction H as [|v e vs es Hv H IH]; [reflexivity|].
  cbn [List.length parseElements List.concat]. rewrite (elem_parse _ _ v) by exact Hv. cbn [rbind]. rewrite IH. reflexivity.
Qed.
Lemma parse_sequence : forall A (u : uty A) zero vs es, Forall2 (elem u) vs es ->
  parseSequenceOf u zero (List.concat es) = OK vs.
Proof.
  intros A u zero vs es H. unfold parseSequenceOf. rewrite (count_elems _ _ _ _ H) by lia. cbn [rbind].
  apply parse_elems. exact H.
Qed.

(** * Marshalling *)

Lemma zlen_tagged : forall c t b body, zlen body <= zlen (tagged c t b body).
Proof. intros. unfold tagged. rewrite zlen_app. pose proof (zlen_nonneg _ (appendTagAndLength (mkTL c t (zlen body) b))). lia. Qed.
Lemma tagged_small : forall c t b body, small_header c t -> small (tagged c t b body) ->
  tagged c t b body = tlv (ident c t b) body /\ zlen body < 2 ^ 31.
Proof.
  intros c t b body HS HL. unfold small in HL. pose proof (zlen_tagged c t b body).
  split; [apply tagged_tlv; [exact HS|lia]|lia].
Qed.

(** makeField with no parameters. *)
Lemma makeField_plain : forall d t b body p e, fp_tag p = None -> fp_set p = false -> fp_optional p && d = false ->
  makeField d t b body p = OK e -> exists body', body = OK body' /\ e = tagged 0 t b body'.
Proof.
  intros d t b body p e HT HSet HO H. unfold makeField in H. rewrite HO, HSet, HT in H. cbn [andb] in H.
  destruct body as [body'|m]; [|discriminate H]. cbn [rbind] in H. injection H as <-. exists body'. split; reflexivity.
Qed.

Lemma makeFields_inv : forall fs c, makeFields fs = OK c -> exists es, fs = map OK es /\ c = List.concat es.
Proof.
  induction fs as [|f fs IH]; intros c H; cbn [makeFields] in H.
  - injection H as <-. exists []. split; reflexivity.
  - destruct f as [a|m]; [|discriminate H]. cbn [rbind] in H.
    destruct (makeFields fs) as [b|m]; [|discriminate H]. cbn [rbind] in H. injection H as <-.
    destruct (IH b eq_refl) as (es & -> & ->). exists (a :: es). split; reflexivity.
Qed.
Lemma makeFields_ok : forall es, makeFields (map OK es) = OK (List.concat es).
Proof. induction es as [|e es IH]; [reflexivity|]. cbn [map makeFields rbind]. rewrite IH. reflexivity. Qed.

Lemma small_concat : forall es e, small (List.concat es) -> In e es -> small e.
Proof.
  unfold small. induction es as [|x es IH]; intros e H Hin; [destruct Hin|].
  cbn [List.concat] in H. rewrite zlen_app in H. pose proof (zlen_nonneg _ x). pose proof (zlen_nonneg _ (List.concat es)).
  destruct Hin as [->|Hin]; [lia|apply IH; [lia|exact Hin]].
Qed.

Lemma map_OK_inv : forall A B (f : A -> res B) l es, map f l = map OK es -> Forall2 (fun x e => f x = OK e) l es.
Proof.
  induction l as [|x l IH]; intros [|e es] H; cbn [map] in H; try discriminate H; constructor.
  - congruence.
  - apply IH. congruence.
Qed.

(** A struct that was written: its contents are the fields' elements one after the other. *)
Lemma marshalStruct_inv : forall fs e, marshalStruct fs = OK e -> small e ->
  exists es, fs = map OK es /\ e = tlv (ident 0 16 true) (List.concat es) /\ small (List.concat es).
Proof.
  intros fs e H HL. unfold marshalStruct in H. apply makeField_plain in H; try reflexivity.
  destruct H as (body & HB & ->). apply makeFields_inv in HB. destruct HB as (es & -> & ->).
  destruct (tagged_small 0 TagSequence true (List.concat es)) as [E L]; [split; unfold TagSequence; lia|exact HL|].
  exists es. split; [reflexivity|]. split; [exact E|exact L].
Qed.
Lemma elem_struct : forall A (body : list Z -> list Z -> res A) c v, zlen c < 2 ^ 31 ->
  body (tlv (ident 0 16 true) c) c = OK v -> elem (uStruct body) v (tlv (ident 0 16 true) c).
Proof.
  intros A body c v HL H. exists 0, 16, true, c. split; [reflexivity|]. split; [split; lia|]. split; [exact HL|].
  split; [right; repeat split|]. exact H.
Qed.

(** A slice that was written. *)
Lemma fieldSlice_inv : forall isSET fs e, fieldSlice isSET fs = OK e -> small e ->
  exists es, fs = map OK es /\ e = tlv (ident 0 (if isSET then 17 else 16) true) (List.concat es) /\ small (List.concat es).
Proof.
  intros isSET fs e H HL. unfold fieldSlice in H. apply makeField_plain in H; try reflexivity.
  destruct H as (body & HB & ->). apply makeFields_inv in HB. destruct HB as (es & -> & ->).
  destruct (tagged_small 0 (if isSET then TagSet else TagSequence) true (List.concat es)) as [E L];
    [split; unfold TagSequence, TagSet; destruct isSET; lia|exact HL|].
  exists es. split; [reflexivity|]. split; [|exact L]. rewrite E. destruct isSET; reflexivity.
Qed.
Lemma elem_list : forall A (u : uty A) zero isSET vs es, Forall2 (elem u) vs es -> small (List.concat es) ->
  elem (uList u zero isSET) vs (tlv (ident 0 (if isSET then 17 else 16) true) (List.concat es)).
Proof.
  intros A u zero isSET vs es H HL. exists 0, (if isSET then 17 else 16), true, (List.concat es).
  split; [reflexivity|]. split; [split; destruct isSET; lia|]. split; [exact HL|]. split.
  - right. split; [reflexivity|]. split; [reflexivity|]. destruct isSET; reflexivity.
  - cbn [u_body uList]. apply parse_sequence. exact H.
Qed.
(** ... by a function that round-trips. *)
Lemma fieldSlice_rt : forall A (u : uty A) zero isSET (f : A -> res (list Z)) vs e,
  (forall v e, In v vs -> f v = OK e -> small e -> elem u v e) ->
  fieldSlice isSET (map f vs) = OK e -> small e -> elem (uList u zero isSET) vs e.
Proof.
  intros A u zero isSET f vs e Hf H HL. apply fieldSlice_inv in H; [|exact HL]. destruct H as (es & HE & -> & HS).
  apply map_OK_inv in HE. apply elem_list; [|exact HS].
  assert (Hs : forall e, In e es -> small e) by (intros; apply (small_concat es); assumption).
  clear HS HL. induction HE as [|v e vs es Hv HE IH]; constructor.
  - apply Hf; [left; reflexivity|exact Hv|apply Hs; left; reflexivity].
  - apply IH; [intros; apply Hf; [right|..]; assumption|intros; apply Hs; right; assumption].
Qed.

(** * Single values *)

Lemma elem_prim : forall A (u : uty A) t body v, u_any u = false -> u_comp u = false -> (forall h, u_tag u h = t) -> 0 <= t < 31 ->
  zlen body < 2 ^ 31 -> (forall h full, u_body u t h full body = OK v) -> elem u v (tlv (ident 0 t false) body).
Proof.
  intros A u t body v HA HC HT Ht HL HB. exists 0, t, false, body. split; [reflexivity|]. split; [split; lia|].
  split; [exact HL|]. split; [right; rewrite HT; repeat split; symmetry; exact HC|]. rewrite HT. apply HB.
Qed.
Lemma fieldOID_rt : forall oid e, fieldOID oid = OK e -> small e -> oid_ok oid -> elem uOID oid e.
Proof.
  intros oid e H HL Hok. apply makeField_plain in H; try reflexivity. destruct H as (body & HB & ->).
  rewrite makeOID_ok in HB by exact Hok. injection HB as <-.
  destruct (tagged_small 0 TagOID false (oid_contents oid)) as [-> L]; [split; unfold TagOID; lia|exact HL|].
  apply elem_prim; try reflexivity; [unfold TagOID; lia|exact L|]. intros. cbn [u_body uOID]. apply parseOID_ok. exact Hok.
Qed.
Lemma fieldOctets_rt : forall b e, fieldOctets b = OK e -> small e -> elem uOctets (Some b) e.
Proof.
  intros b e H HL. apply makeField_plain in H; try reflexivity. destruct H as (body & HB & ->). injection HB as <-.
  destruct (tagged_small 0 TagOctetString false b) as [-> L]; [split; unfold TagOctetString; lia|exact HL|].
  apply elem_prim; try reflexivity; [unfold TagOctetString; lia|exact L].
Qed.
Lemma fieldInt_rt : forall i e, fieldInt i = OK e -> small e -> - 2 ^ 63 <= i < 2 ^ 63 -> elem uInt i e.
Proof.
  intros i e H HL Hi. apply makeField_plain in H; try reflexivity. destruct H as (body & HB & ->). injection HB as <-.
  destruct (tagged_small 0 TagInteger false (int64Bytes i)) as [-> L]; [split; unfold TagInteger; lia|exact HL|].
  apply elem_prim; try reflexivity; [unfold TagInteger; lia|exact L|]. intros. cbn [u_body uInt].
  pose proof (int64Bytes_der i Hi) as D. apply parseInt64_iff; [apply D|]. split; assumption.
Qed.
Lemma fieldBigInt_rt : forall i e, fieldBigInt i = OK e -> small e -> elem uBigInt i e.
Proof.
  intros i e H HL. apply makeField_plain in H; try reflexivity. destruct H as (body & HB & ->). injection HB as <-.
  destruct (tagged_small 0 TagInteger false (makeBigInt i)) as [-> L]; [split; unfold TagInteger; lia|exact HL|].
  apply elem_prim; try reflexivity; [unfold TagInteger; lia|exact L|]. intros. cbn [u_body uBigInt].
  pose proof (makeBigInt_der i) as D. apply parseBigInt_iff; [apply D|exact D].
Qed.
(** A bit string whose unused bits are zero. *)
Definition bits_ok (b : BitString) : Prop :=
  bytes (bs_bytes b) /\
  exists p, 0 <= p < 8 /\ bs_len b = zlen (bs_bytes b) * 8 - p /\ (bs_bytes b = [] -> p = 0) /\
            last (bs_bytes b) 0 mod 2 ^ p = 0.
Lemma pad_of : forall n p, 0 <= n -> 0 <= p < 8 -> 0 <= n * 8 - p -> Z.rem (8 - Z.rem (n * 8 - p) 8) 8 = p.
Proof.
  intros n p Hn Hp H. rewrite (Z.rem_mod_nonneg (n * 8 - p)) by lia.
  assert (E : (n * 8 - p) mod 8 = if p =? 0 then 0 else 8 - p).
  { destruct (Z.eqb_spec p 0) as [->|N].
    - rewrite Z.sub_0_r. apply Z.mod_mul. lia.
    - symmetry. apply (Z.mod_unique _ _ (n - 1)); lia. }
  rewrite E. destruct (Z.eqb_spec p 0) as [->|N]; [reflexivity|].
  rewrite Z.rem_mod_nonneg by lia. replace (8 - (8 - p)) with p by lia. apply Z.mod_small. lia.
Qed.
Lemma parseBitString_ok : forall b, bits_ok b -> parseBitString (makeBitString b) = OK b.
Proof.
  intros [bs n] [HB (p & Hp & Hn & He & Hz)]. cbn [bs_bytes bs_len] in *. unfold makeBitString. cbn [bs_bytes bs_len].
  pose proof (zlen_nonneg _ bs) as N.
  assert (N0 : 0 <= zlen bs * 8 - p).
  { destruct bs as [|x r]; [rewrite (He eq_refl); cbn; lia|rewrite zlen_cons; pose proof (zlen_nonneg _ r); lia]. }
  rewrite Hn, pad_of by assumption. unfold u8. rewrite Z.mod_small by lia.
  unfold parseBitString. destruct (Z.ltb_spec 7 p); [lia|]. rewrite zlen_cons. cbn [orb].
  assert (E1 : (zlen bs + 1 =? 1) && (0 <? p) = false).
  { destruct bs as [|x r]; [rewrite (He eq_refl); reflexivity|].
    rewrite zlen_cons. pose proof (zlen_nonneg _ r). destruct (Z.eqb_spec (zlen r + 1 + 1) 1); [lia|reflexivity]. }
  rewrite E1. cbn [orb].
  assert (E2 : Z.land (last (p :: bs) 0) (2 ^ p - 1) = 0).
  { replace (2 ^ p - 1) with (Z.ones p) by (rewrite Z.ones_equiv; lia). rewrite Z.land_ones by lia.
    destruct bs as [|x r]; [rewrite (He eq_refl); reflexivity|]. exact Hz. }
  rewrite E2. cbn [Z.eqb negb]. f_equal. f_equal. lia.
Qed.
Lemma fieldBits_rt : forall b e, fieldBits b = OK e -> small e -> bits_ok b -> elem uBits b e.
Proof.
  intros b e H HL Hb. apply makeField_plain in H; try reflexivity. destruct H as (body & HB & ->). injection HB as <-.
  destruct (tagged_small 0 TagBitString false (makeBitString b)) as [-> L]; [split; unfold TagBitString; lia|exact HL|].
  apply elem_prim; try reflexivity; [unfold TagBitString; lia|exact L|]. intros. cbn [u_body uBits].
  apply parseBitString_ok, Hb.
Qed.
Lemma bits_ok_whole : forall l, bytes l -> bits_ok (mkBits l (zlen l * 8)).
Proof.
  intros l H. split; [exact H|]. exists 0. cbn [bs_bytes bs_len]. split; [lia|]. split; [lia|]. split; [reflexivity|].
  change (2 ^ 0) with 1. apply Z.mod_1_r.
Qed.
Lemma rightAlign_whole : forall l, rightAlign (mkBits l (zlen l * 8)) = l.
Proof.
  intros l. unfold rightAlign. cbn [bs_bytes bs_len]. pose proof (zlen_nonneg _ l).
  rewrite Z.rem_mod_nonneg by lia. rewrite Z.mod_mul by lia. reflexivity.
Qed.

(** RawValue: any element with a low tag. *)
Lemma elem_raw : forall c t b body, small_header c t -> zlen body < 2 ^ 31 ->
  elem uRaw (mkRaw c t b body (tlv (ident c t b) body)) (tlv (ident c t b) body).
Proof.
  intros c t b body HS HL. exists c, t, b, body. split; [reflexivity|]. split; [exact HS|]. split; [exact HL|].
  split; [left; reflexivity|]. reflexivity.
Qed.
Lemma makeRaw_rt : forall c t b body e, small_header c t -> makeRaw (mkRaw c t b body []) = e -> small e ->
  elem uRaw (mkRaw c t b body e) e.
Proof.
  intros c t b body e HS H HL. unfold makeRaw in H. cbn [rv_full rv_class rv_tag rv_comp rv_bytes] in H. subst e.
  destruct (tagged_small c t b body HS HL) as [-> L]. apply elem_raw; assumption.
Qed.
(** Every element that a type parses can be taken as a RawValue. *)
Lemma elem_is_raw : forall A (u : uty A) v e, elem u v e -> exists rv, elem uRaw rv e /\ rv_full rv = e.
Proof.
  intros A u v e (c & t & b & body & -> & HS & HL & _ & _). eexists. split; [apply elem_raw; assumption|reflexivity].
Qed.
