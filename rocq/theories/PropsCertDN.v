(** Distinguished names and attributes in certificates and requests (C79): what the marshalling of an
    attribute writes is read back unchanged, and a name keeps its fields. *)
From Coq Require Import ZArith List Lia Bool String.
From Verif Require Import GoBase BeMin CbString CbStringProofs CbBuilder CbBuilderProofs PropsCbBuilder CbAsn1Proofs GoAsn1 GoAsn1Proofs Sm2Der PropsSm2Der GoText GoPkix CertText PropsCertText Cert CertRt PropsCertTime.
Import ListNotations.
Open Scope Z_scope.

(** * Runes below 0x80 *)

Lemma range_all : forall lo n (P : Z -> bool), forallb (fun i => P (lo + i)) (upto n) = true ->
  forall b, lo <= b < lo + Z.of_nat n -> P b = true.
Proof.
  intros lo n P H b Hb. pose proof (upto_all n (fun i => P (lo + i)) H (b - lo) ltac:(lia)) as K. cbv beta in K.
  replace (lo + (b - lo)) with b in K by lia. exact K.
Qed.
Lemma lor_ge : forall a b, 0 <= a -> 0 <= b -> a <= Z.lor a b.
Proof.
  intros a b Ha Hb. apply Z.ldiff_le; [apply Z.lor_nonneg; split; assumption|].
  apply Z.bits_inj'. intros i Hi. rewrite Z.ldiff_spec, Z.lor_spec, Z.bits_0. destruct (Z.testbit a i), (Z.testbit b i); reflexivity.
Qed.
Lemma lor_big : forall a b n, 0 <= a -> 0 <= b -> n <= a \/ n <= b -> (Z.lor a b <? n) = false.
Proof.
  intros a b n Ha Hb H. apply Z.ltb_ge. pose proof (lor_ge a b Ha Hb). pose proof (lor_ge b a Hb Ha) as K.
  rewrite Z.lor_comm in K. lia.
Qed.
Lemma shl_nonneg : forall a n, 0 <= a -> 0 <= Z.shiftl a n.
Proof. intros. apply Z.shiftl_nonneg. assumption. Qed.
Lemma land_nn : forall a b, 0 <= b -> 0 <= Z.land a b.
Proof. intros. apply Z.land_nonneg. right. assumption. Qed.

(** Runes below 0x80 come only from single bytes. *)
Lemma ascii_runes : forall n l, (List.length l <= n)%nat -> forallb (fun r => r <? 0x80) (runes l) = true -> runes l = l.
Proof.
  induction n as [|n IH]; intros l Hl H; [destruct l; [reflexivity|cbn in Hl; lia]|].
  destruct l as [|b0 r0]; [reflexivity|]. unfold runes in *. cbn [List.length] in Hl.
  cbn [decodeRunes] in *. destruct (b0 <? 0x80) eqn:E0.
  - cbn [map forallb fst] in *. apply andb_true_iff in H. f_equal. apply IH; [lia|apply H].
  - exfalso.
    assert (R : forall r, forallb (fun r => r <? 0x80) (map fst ((RuneError, false) :: r)) = false) by reflexivity.
    destruct (utf8First b0) as [[[k lo] hi]|] eqn:EF; [|rewrite R in H; discriminate H].
    destruct r0 as [|b1 r1]; [rewrite R in H; discriminate H|].
    destruct (inRange lo hi b1) eqn:E1; cbn [negb] in H; [|rewrite R in H; discriminate H].
    unfold inRange in E1. apply andb_true_iff in E1. destruct E1 as [L1 L2]. apply Z.leb_le in L1, L2.
    assert (F : (k = 2 /\ 2 <= Z.land b0 0x1f) \/
                (k = 3 /\ (1 <= Z.land b0 0x0f \/ (lo = 0xa0 /\ hi = 0xbf))) \/
                (k = 4 /\ (1 <= Z.land b0 0x07 \/ (lo = 0x90 /\ hi = 0xbf)))).
    { clear H R. unfold utf8First in EF.
      destruct ((0xc2 <=? b0) && (b0 <=? 0xdf)) eqn:C1.
      { apply andb_true_iff in C1. rewrite !Z.leb_le in C1. injection EF as <- <- <-. left. split; [reflexivity|].
        apply Z.leb_le. apply (range_all 0xc2 30 (fun b => 2 <=? Z.land b 0x1f)); [vm_compute; reflexivity|lia]. }
      destruct (b0 =? 0xe0); [injection EF as <- <- <-; right; left; split; [reflexivity|right; split; reflexivity]|].
      destruct (b0 =? 0xed) eqn:E9; [apply Z.eqb_eq in E9; injection EF as <- <- <-; rewrite E9; right; left; split; [reflexivity|]; left; cbn; lia|].
      destruct ((0xe1 <=? b0) && (b0 <=? 0xef)) eqn:C2.
      { apply andb_true_iff in C2. rewrite !Z.leb_le in C2. injection EF as <- <- <-. right. left. split; [reflexivity|]. left.
        apply Z.leb_le. apply (range_all 0xe1 15 (fun b => 1 <=? Z.land b 0x0f)); [vm_compute; reflexivity|lia]. }
      destruct (b0 =? 0xf0); [injection EF as <- <- <-; right; right; split; [reflexivity|right; split; reflexivity]|].
      destruct ((0xf1 <=? b0) && (b0 <=? 0xf3)) eqn:C3.
      { apply andb_true_iff in C3. rewrite !Z.leb_le in C3. injection EF as <- <- <-. right. right. split; [reflexivity|]. left.
        apply Z.leb_le. apply (range_all 0xf1 3 (fun b => 1 <=? Z.land b 0x07)); [vm_compute; reflexivity|lia]. }
      destruct (b0 =? 0xf4) eqn:E8; [apply Z.eqb_eq in E8; injection EF as <- <- <-; rewrite E8; right; right; split; [reflexivity|]; left; cbn; lia|discriminate EF]. }
    assert (B1 : lo = 0xa0 /\ hi = 0xbf -> 32 <= Z.land b1 0x3f).
    { intros [-> ->]. apply Z.leb_le. apply (range_all 0xa0 32 (fun b => 32 <=? Z.land b 0x3f)); [vm_compute; reflexivity|lia]. }
    assert (B2 : lo = 0x90 /\ hi = 0xbf -> 16 <= Z.land b1 0x3f).
    { intros [-> ->]. apply Z.leb_le. apply (range_all 0x90 48 (fun b => 16 <=? Z.land b 0x3f)); [vm_compute; reflexivity|lia]. }
    pose proof (land_nn b0 0x1f ltac:(lia)) as N1. pose proof (land_nn b0 0x0f ltac:(lia)) as N2. pose proof (land_nn b0 0x07 ltac:(lia)) as N3.
    pose proof (land_nn b1 0x3f ltac:(lia)) as N4.
    destruct F as [[-> F]|[[-> F]|[-> F]]].
    + cbn [Z.eqb Pos.eqb] in H. cbn [map fst forallb] in H.
      rewrite lor_big in H; [discriminate H|apply shl_nonneg; exact N1|exact N4|].
      left. rewrite Z.shiftl_mul_pow2 by lia. lia.
    + cbn [Z.eqb Pos.eqb] in H. destruct r1 as [|b2 r2]; [rewrite R in H; discriminate H|].
      destruct (inRange 0x80 0xbf b2); cbn [negb] in H; [|rewrite R in H; discriminate H].
      pose proof (land_nn b2 0x3f ltac:(lia)) as N5.
      cbn [map fst forallb] in H. rewrite lor_big in H; [discriminate H| |exact N5|].
      * apply Z.lor_nonneg. split; apply shl_nonneg; assumption.
      * left. apply Z.ltb_ge. apply lor_big; [apply shl_nonneg; assumption|apply shl_nonneg; assumption|].
        rewrite !Z.shiftl_mul_pow2 by lia. destruct F as [F|F]; [left; lia|right; specialize (B1 F); lia].
    + cbn [Z.eqb Pos.eqb] in H. destruct r1 as [|b2 r2]; [rewrite R in H; discriminate H|].
      destruct (inRange 0x80 0xbf b2); cbn [negb] in H; [|rewrite R in H; discriminate H].
      destruct r2 as [|b3 r3]; [rewrite R in H; discriminate H|].
      destruct (inRange 0x80 0xbf b3); cbn [negb] in H; [|rewrite R in H; discriminate H].
      pose proof (land_nn b2 0x3f ltac:(lia)) as N5. pose proof (land_nn b3 0x3f ltac:(lia)) as N6.
      cbn [map fst forallb] in H.
      rewrite lor_big in H; [discriminate H| |exact N6|].
      * apply Z.lor_nonneg. split; [apply Z.lor_nonneg; split; apply shl_nonneg; assumption|apply shl_nonneg; assumption].
      * left. apply Z.ltb_ge. apply lor_big; [apply Z.lor_nonneg; split; apply shl_nonneg; assumption|apply shl_nonneg; assumption|].
        left. apply Z.ltb_ge. apply lor_big; [apply shl_nonneg; assumption|apply shl_nonneg; assumption|].
        rewrite !Z.shiftl_mul_pow2 by lia. destruct F as [F|F]; [left; lia|right; specialize (B2 F); lia].
Qed.

(** * Values of attributes *)

(** The values that come back: everything but nil; numbers of 64 bits; times in UTC without fractions. *)
Definition any_ok (v : goAny) : Prop :=
  match v with
  | AnyNil => False
  | AnyString _ => True
  | AnyInt i => - 2 ^ 63 <= i < 2 ^ 63
  | AnyBits b => bits_ok b
  | AnyOID o => oid_ok o
  | AnyTime t => t_nsec t = 0 /\ t_off t = 0 /\ -62167219200 <= t_unix t < 253402300800
  | AnyBytes _ => True
  end.

Lemma parseAny_tlv : forall t body r v, 0 <= t < 31 -> zlen body < 2 ^ 31 -> parseAnyBody t body = OK v ->
  parseAny (tlv (ident 0 t false) body ++ r) = OK (v, r).
Proof.
  intros t body r v Ht HL HB. unfold parseAny.
  destruct (tlv (ident 0 t false) body ++ r) as [|x y] eqn:E; [discriminate|]. rewrite <- E. clear E x y.
  rewrite tlv_parse; [|split; lia|exact HL]. cbn [rbind tl_class tl_tag tl_length tl_comp negb andb Z.eqb].
  assert (L : zlen (body ++ r) <? zlen body = false).
  { rewrite zlen_app. pose proof (zlen_nonneg _ r). apply Z.ltb_ge. lia. }
  rewrite L, (sub_app_l _ body r _ eq_refl), (sub_app_r _ body r _ _ eq_refl (zlen_app _ body r)), HB. reflexivity.
Qed.
Lemma printable_lenient : forall b, isPrintable false b = true -> isPrintable true b = true.
Proof.
  intros b H. unfold isPrintable in *. cbn [andb] in *. rewrite orb_false_r in H. rewrite H. reflexivity.
Qed.
Lemma stringTag_ok : forall s t, stringTag s = OK t -> (t = TagUTF8String \/ t = TagPrintableString) /\ parseAnyBody t s = OK (AnyString s).
Proof.
  intros s t H. unfold stringTag in H. destruct (existsb _ (runes s)) eqn:E.
  - destruct (ValidString s) eqn:V; [|discriminate H]. injection H as <-. split; [left; reflexivity|].
    unfold parseAnyBody. cbn [Z.eqb Pos.eqb TagUTF8String TagPrintableString TagNumericString TagIA5String TagT61String]. rewrite V. reflexivity.
  - injection H as <-. split; [right; reflexivity|]. unfold parseAnyBody. rewrite Z.eqb_refl.
    assert (A : forall r, In r (runes s) -> r <? 0x80 = true /\ isPrintable false r = true).
    { intros r Hr. assert (K : (0x80 <=? r) || negb (isPrintable false r) = false).
      { destruct ((0x80 <=? r) || negb (isPrintable false r)) eqn:B; [|reflexivity].
        rewrite <- E. symmetry. apply existsb_exists. exists r. split; assumption. }
      apply orb_false_iff in K. destruct K as [K1 K2]. apply Z.leb_gt in K1. apply negb_false_iff in K2.
      split; [apply Z.ltb_lt; exact K1|exact K2]. }
    rewrite (ascii_runes (List.length s) s) in A; [|lia|].
    + replace (forallb (isPrintable true) s) with true; [reflexivity|]. symmetry. apply forallb_forall.
      intros x Hx. apply printable_lenient. apply A. exact Hx.
    + apply forallb_forall. intros r Hr. apply A. exact Hr.
Qed.
Lemma fieldPrim_inv : forall t body e, makeField false t false (OK body) noParams = OK e -> 0 <= t < 31 -> small e ->
  e = tlv (ident 0 t false) body /\ zlen body < 2 ^ 31.
Proof.
  intros t body e H Ht HL. apply makeField_plain in H; try reflexivity. destruct H as (b & HB & ->). injection HB as <-.
  destruct (tagged_small 0 t false body) as [E L]; [split; lia|exact HL|]. split; assumption.
Qed.
Lemma fieldAny_rt : forall v e, fieldAny v = OK e -> small e -> any_ok v -> forall r, parseAny (e ++ r) = OK (v, r).
Proof.
  intros [|s|i|b|o|t|b] e H HL Hok r; cbn [any_ok] in Hok; cbn [fieldAny] in H.
  - destruct Hok.
  - destruct (stringTag s) as [t|m] eqn:ES; [|discriminate H]. cbn [rbind] in H. destruct (stringTag_ok s t ES) as [Ht HB].
    destruct (fieldPrim_inv t s e H) as [-> L]; [destruct Ht as [-> | ->]; unfold TagUTF8String, TagPrintableString; lia|exact HL|].
    apply parseAny_tlv; [destruct Ht as [-> | ->]; unfold TagUTF8String, TagPrintableString; lia|exact L|exact HB].
  - destruct (fieldPrim_inv TagInteger (int64Bytes i) e H) as [-> L]; [unfold TagInteger; lia|exact HL|].
    apply parseAny_tlv; [unfold TagInteger; lia|exact L|]. unfold parseAnyBody.
    cbn [Z.eqb Pos.eqb TagInteger TagUTF8String TagPrintableString TagNumericString TagIA5String TagT61String].
    pose proof (int64Bytes_der i Hok) as D. rewrite (proj2 (parseInt64_iff (int64Bytes i) i (proj1 D))); [reflexivity|]. split; assumption.
  - destruct (fieldPrim_inv TagBitString (makeBitString b) e H) as [-> L]; [unfold TagBitString; lia|exact HL|].
    apply parseAny_tlv; [unfold TagBitString; lia|exact L|]. unfold parseAnyBody.
    cbn [Z.eqb Pos.eqb TagInteger TagBitString TagUTF8String TagPrintableString TagNumericString TagIA5String TagT61String].
    rewrite (parseBitString_ok b Hok). reflexivity.
  - unfold fieldOID in H. rewrite makeOID_ok in H by exact Hok.
    destruct (fieldPrim_inv TagOID (oid_contents o) e H) as [-> L]; [unfold TagOID; lia|exact HL|].
    apply parseAny_tlv; [unfold TagOID; lia|exact L|]. unfold parseAnyBody.
    cbn [Z.eqb Pos.eqb TagInteger TagBitString TagOID TagUTF8String TagPrintableString TagNumericString TagIA5String TagT61String].
    rewrite (parseOID_ok o Hok). reflexivity.
  - destruct t as [u ns off]. cbn [t_nsec t_off t_unix] in Hok. destruct Hok as (-> & -> & Hu).
    destruct (C78_time (mkTime u 0 0) Hu) as (e' & HE & _ & c & tg & bb & body & -> & HS & HLb & HM & HB).
    assert (e = tlv (ident c tg bb) body) as -> by (change (fieldTime (UTC (mkTime u 0 0)) = OK e) in H; congruence).
    clear H HE HL. destruct HM as [HM|(-> & -> & HM)]; [discriminate HM|]. cbn [u_comp uTime].
    unfold uTime in HB, HM. cbn [u_body u_tag tl_class tl_tag Z.eqb andb] in HB, HM. cbn [t_unix] in HB.
    apply parseAny_tlv; [unfold small_header in HS; lia|exact HLb|]. unfold parseAnyBody.
    destruct (tg =? TagGeneralizedTime).
    + subst tg. cbn [Z.eqb Pos.eqb TagUTCTime TagGeneralizedTime TagInteger TagBitString TagOID TagUTF8String TagPrintableString TagNumericString TagIA5String TagT61String] in HB |- *.
      rewrite HB. reflexivity.
    + subst tg. cbn [Z.eqb Pos.eqb TagUTCTime TagGeneralizedTime TagInteger TagBitString TagOID TagUTF8String TagPrintableString TagNumericString TagIA5String TagT61String] in HB |- *.
      rewrite HB. reflexivity.
  - destruct (fieldPrim_inv TagOctetString b e H) as [-> L]; [unfold TagOctetString; lia|exact HL|].
    apply parseAny_tlv; [unfold TagOctetString; lia|exact L|reflexivity].
Qed.

(** * Attributes and names *)

Definition atv_ok (a : ATV) : Prop := oid_ok (atv_type a) /\ any_ok (atv_value a).
Lemma fieldATV_rt : forall a e, fieldATV a = OK e -> small e -> atv_ok a -> elem uATV a e.
Proof.
  intros [t v] e H HL [Ht Hv]. cbn [atv_type atv_value] in *. unfold fieldATV in H. cbn [atv_type atv_value] in H.
  apply marshalStruct_inv in H; [|exact HL]. destruct H as (es & HE & -> & HS).
  destruct es as [|e1 [|e2 [|]]]; try discriminate HE. cbn [map] in HE. injection HE as H1 H2.
  assert (S1 : small e1) by (apply (small_concat [e1; e2]); [exact HS|left; reflexivity]).
  assert (S2 : small e2) by (apply (small_concat [e1; e2]); [exact HS|right; left; reflexivity]).
  apply elem_struct; [exact HS|]. cbn [List.concat].
  rewrite (elem_parse _ uOID t e1) by (apply fieldOID_rt; assumption). cbn [rbind].
  rewrite (fieldAny_rt v e2 H2 S2 Hv). reflexivity.
Qed.
Lemma fieldRDN_rt : forall r e, fieldRDN r = OK e -> small e -> Forall atv_ok r -> elem uRDN r e.
Proof.
  intros r e H HL Hr. unfold uRDN. apply (fieldSlice_rt _ uATV zeroATV true fieldATV r e); [|exact H|exact HL].
  intros v x Hin Hv Hs. apply fieldATV_rt; [exact Hv|exact Hs|]. rewrite Forall_forall in Hr. apply Hr. exact Hin.
Qed.
Theorem C79_rdn_sequence : forall s e, marshalRDNSequence s = OK e -> small e -> Forall (Forall atv_ok) s ->
  elem uRDNSequence s e.
Proof.
  intros s e H HL Hs. unfold uRDNSequence. apply (fieldSlice_rt _ uRDN [] false fieldRDN s e); [|exact H|exact HL].
  intros v x Hin Hv HS. apply fieldRDN_rt; [exact Hv|exact HS|]. rewrite Forall_forall in Hs. apply Hs. exact Hin.
Qed.

(** * Names *)

(** The strings that a list of attributes holds under an OID, in order. *)
Definition oid_eqb (a b : list Z) : bool := if list_eq_dec Z.eq_dec a b then true else false.
Definition strings (oid : list Z) (l : list ATV) : list (list Z) :=
  List.concat (map (fun a => match atv_value a with
                             | AnyString s => if oid_eqb (atv_type a) oid then [s] else []
                             | _ => []
                             end) l).
Definition has_type (oid : list Z) (l : list ATV) : bool := existsb (fun a => oid_eqb (atv_type a) oid) l.

Lemma strings_app : forall oid a b, strings oid (a ++ b) = strings oid a ++ strings oid b.
Proof. intros. unfold strings. rewrite map_app. apply concat_app. Qed.
Lemma strings_cons : forall oid a b, strings oid (a :: b) = strings oid [a] ++ strings oid b.
Proof. intros. apply (strings_app oid [a] b). Qed.

(** An attribute that is none of the nine, or no string, only goes to the list of all. *)
Definition x520 (n : Z) : list Z := [2; 5; 4; n].
Lemma oid_eqb_x520 : forall a0 a1 a2 a3 n, oid_eqb [a0; a1; a2; a3] (x520 n) = (a0 =? 2) && (a1 =? 5) && (a2 =? 4) && (a3 =? n).
Proof.
  intros. unfold oid_eqb, x520. destruct (list_eq_dec Z.eq_dec [a0; a1; a2; a3] [2; 5; 4; n]) as [E|N].
  - injection E as -> -> -> ->. rewrite !Z.eqb_refl. reflexivity.
  - symmetry. apply not_true_iff_false. intros K. apply N. rewrite !andb_true_iff, !Z.eqb_eq in K.
    destruct K as [[[-> ->] ->] ->]. reflexivity.
Qed.
Lemma oid_eqb_len : forall l n, List.length l <> 4%nat -> oid_eqb l (x520 n) = false.
Proof.
  intros l n H. unfold oid_eqb. destruct (list_eq_dec Z.eq_dec l (x520 n)) as [->|]; [|reflexivity]. exfalso. apply H. reflexivity.
Qed.
Lemma fillATV_eq : forall n a, fillATV n a =
  mkName (n_Country n ++ strings (x520 6) [a]) (n_Organization n ++ strings (x520 10) [a])
         (n_OrganizationalUnit n ++ strings (x520 11) [a]) (n_Locality n ++ strings (x520 7) [a])
         (n_Province n ++ strings (x520 8) [a]) (n_StreetAddress n ++ strings (x520 9) [a])
         (n_PostalCode n ++ strings (x520 17) [a])
         (last (strings (x520 5) [a]) (n_SerialNumber n)) (last (strings (x520 3) [a]) (n_CommonName n))
         (n_Names n ++ [a]) (n_ExtraNames n).
Proof.
  intros [c o ou l p st pc sn cn ns en] [t v]. unfold fillATV, strings. cbn [map atv_type atv_value List.concat n_Country n_Organization n_OrganizationalUnit n_Locality n_Province n_StreetAddress n_PostalCode n_SerialNumber n_CommonName n_Names n_ExtraNames].
  destruct v as [|s|i|b|oo|tt|b]; try (cbn [app last]; rewrite !app_nil_r; reflexivity).
  destruct t as [|a0 [|a1 [|a2 [|a3 [|a4 t]]]]]; try (rewrite !oid_eqb_len by (cbn; lia); cbn [app last]; rewrite !app_nil_r; reflexivity).
  rewrite !oid_eqb_x520. destruct ((a0 =? 2) && (a1 =? 5) && (a2 =? 4)); cbn [andb]; [|cbn [app last]; rewrite !app_nil_r; reflexivity].
  destruct (Z.eqb_spec a3 3) as [->|N3]; [cbn [Z.eqb Pos.eqb app last]; rewrite !app_nil_r; reflexivity|].
  destruct (Z.eqb_spec a3 5) as [->|N5]; [cbn [Z.eqb Pos.eqb app last]; rewrite !app_nil_r; reflexivity|].
  destruct (Z.eqb_spec a3 6) as [->|N6]; [cbn [Z.eqb Pos.eqb app last]; rewrite !app_nil_r; reflexivity|].
  destruct (Z.eqb_spec a3 7) as [->|N7]; [cbn [Z.eqb Pos.eqb app last]; rewrite !app_nil_r; reflexivity|].
  destruct (Z.eqb_spec a3 8) as [->|N8]; [cbn [Z.eqb Pos.eqb app last]; rewrite !app_nil_r; reflexivity|].
  destruct (Z.eqb_spec a3 9) as [->|N9]; [cbn [Z.eqb Pos.eqb app last]; rewrite !app_nil_r; reflexivity|].
  destruct (Z.eqb_spec a3 10) as [->|N10]; [cbn [Z.eqb Pos.eqb app last]; rewrite !app_nil_r; reflexivity|].
  destruct (Z.eqb_spec a3 11) as [->|N11]; [cbn [Z.eqb Pos.eqb app last]; rewrite !app_nil_r; reflexivity|].
  destruct (Z.eqb_spec a3 17) as [->|N17]; [cbn [Z.eqb Pos.eqb app last]; rewrite !app_nil_r; reflexivity|].
  cbn [app last]; rewrite !app_nil_r; reflexivity.
Qed.
Lemma last_app_dflt : forall A (a b : list A) d, last (a ++ b) d = last b (last a d).
Proof.
  intros A a b d. induction b as [|x b IH] using rev_ind; [rewrite app_nil_r; reflexivity|].
  rewrite app_assoc, !last_last. reflexivity.
Qed.
Lemma fill_list_eq : forall l n, fold_left fillATV l n =
  mkName (n_Country n ++ strings (x520 6) l) (n_Organization n ++ strings (x520 10) l)
         (n_OrganizationalUnit n ++ strings (x520 11) l) (n_Locality n ++ strings (x520 7) l)
         (n_Province n ++ strings (x520 8) l) (n_StreetAddress n ++ strings (x520 9) l)
         (n_PostalCode n ++ strings (x520 17) l)
         (last (strings (x520 5) l) (n_SerialNumber n)) (last (strings (x520 3) l) (n_CommonName n))
         (n_Names n ++ l) (n_ExtraNames n).
Proof.
  induction l as [|a l IH]; intros n.
  - cbn [fold_left]. destruct n. unfold strings. cbn. rewrite !app_nil_r. reflexivity.
  - cbn [fold_left]. rewrite IH, fillATV_eq.
    cbn [n_Country n_Organization n_OrganizationalUnit n_Locality n_Province n_StreetAddress n_PostalCode n_SerialNumber n_CommonName n_Names n_ExtraNames].
    rewrite !(strings_cons _ a l), !last_app_dflt, <- !app_assoc. reflexivity.
Qed.
(** Reading any sequence of sets of attributes: the nine fields hold the strings of their types, the
    common name and the serial number the last one; all attributes are listed. *)
Theorem C79_fill : forall s, FillFromRDNSequence zeroName s =
  let l := List.concat s in
  mkName (strings (x520 6) l) (strings (x520 10) l) (strings (x520 11) l) (strings (x520 7) l) (strings (x520 8) l)
         (strings (x520 9) l) (strings (x520 17) l) (last (strings (x520 5) l) []) (last (strings (x520 3) l) []) l [].
Proof.
  intros s. cbv zeta. unfold FillFromRDNSequence.
  assert (G : forall s n, fold_left (fun n rdn => fold_left fillATV rdn n) s n = fold_left fillATV (List.concat s) n).
  { induction s0 as [|r s0 IH]; intros n; [reflexivity|]. cbn [fold_left List.concat]. rewrite fold_left_app. apply IH. }
  rewrite G, fill_list_eq. reflexivity.
Qed.

(** What a name's own field or its extra names say about a type: extra names win. *)
Definition own (n : Name) (oid : list Z) (l : list (list Z)) : list (list Z) :=
  if has_type oid (n_ExtraNames n) then strings oid (n_ExtraNames n) else l.
Definition one (s : list Z) : list (list Z) := match s with [] => [] | _ :: _ => [s] end.

Lemma concat_appendRDNs : forall n inp values oid, List.concat (appendRDNs n inp values oid) =
  List.concat inp ++ (if has_type oid (n_ExtraNames n) then [] else map (fun v => mkATV oid (AnyString v)) values).
Proof.
  intros n inp values oid. unfold appendRDNs. change (oidInATVs oid (n_ExtraNames n)) with (has_type oid (n_ExtraNames n)).
  destruct (has_type oid (n_ExtraNames n)); [rewrite orb_true_r, app_nil_r; reflexivity|]. rewrite orb_false_r.
  destruct values as [|v vs]; [cbn; rewrite app_nil_r; reflexivity|].
  rewrite (proj2 (Z.eqb_neq (zlen (v :: vs)) 0)); [|rewrite zlen_cons; pose proof (zlen_nonneg _ vs); lia].
  rewrite concat_app. cbn [List.concat]. rewrite app_nil_r. reflexivity.
Qed.
Lemma appendRDNs_one : forall n inp s oid,
  (if 0 <? zlen s then appendRDNs n inp [s] oid else inp) = appendRDNs n inp (one s) oid.
Proof.
  intros n inp [|x s] oid; [unfold appendRDNs, one; cbn; reflexivity|]. rewrite (proj2 (Z.ltb_lt 0 (zlen (x :: s)))); [reflexivity|].
  rewrite zlen_cons. pose proof (zlen_nonneg _ s). lia.
Qed.
Lemma strings_map : forall oid oid' vs, strings oid (map (fun v => mkATV oid' (AnyString v)) vs) = if oid_eqb oid' oid then vs else [].
Proof.
  intros oid oid' vs. unfold strings. rewrite map_map. cbn [atv_value atv_type].
  destruct (oid_eqb oid' oid); induction vs as [|v vs IH]; [reflexivity|cbn; f_equal; exact IH|reflexivity|cbn; exact IH].
Qed.
Definition all_names (n : Name) : list ATV :=
  let f oid values := if has_type oid (n_ExtraNames n) then [] else map (fun v => mkATV oid (AnyString v)) values in
  f (x520 6) (n_Country n) ++ f (x520 10) (n_Organization n) ++ f (x520 11) (n_OrganizationalUnit n) ++
  f (x520 7) (n_Locality n) ++ f (x520 8) (n_Province n) ++ f (x520 9) (n_StreetAddress n) ++ f (x520 17) (n_PostalCode n) ++
  f (x520 3) (one (n_CommonName n)) ++ f (x520 5) (one (n_SerialNumber n)) ++ n_ExtraNames n.
Lemma concat_ToRDN : forall n, List.concat (ToRDNSequence n) = all_names n.
Proof.
  intros n. unfold ToRDNSequence. cbv zeta. rewrite !appendRDNs_one, concat_app.
  replace (List.concat (map (fun a => [a]) (n_ExtraNames n))) with (n_ExtraNames n).
  2:{ induction (n_ExtraNames n) as [|a l IH]; [reflexivity|]. cbn. f_equal. exact IH. }
  rewrite !concat_appendRDNs. cbn [List.concat app]. unfold all_names. cbv zeta. rewrite <- !app_assoc. reflexivity.
Qed.
Lemma strings_none : forall oid l, has_type oid l = false -> strings oid l = [].
Proof.
  intros oid l. induction l as [|a l IH]; intros H; [reflexivity|]. unfold has_type in H. cbn [existsb] in H.
  apply orb_false_iff in H. destruct H as [H1 H2]. rewrite strings_cons, IH by exact H2. unfold strings. cbn [map List.concat].
  rewrite H1. destruct (atv_value a); reflexivity.
Qed.
Lemma x520_eqb : forall a b, oid_eqb (x520 a) (x520 b) = (a =? b).
Proof. intros a b. unfold x520 at 1. apply oid_eqb_x520. Qed.
Lemma strings_own : forall n oid k vs,
  strings (x520 k) (if has_type (x520 oid) (n_ExtraNames n) then [] else map (fun v => mkATV (x520 oid) (AnyString v)) vs) =
  if oid =? k then (if has_type (x520 k) (n_ExtraNames n) then [] else vs) else [].
Proof.
  intros n oid k vs. destruct (Z.eqb_spec oid k) as [->|N].
  - destruct (has_type (x520 k) (n_ExtraNames n)); [reflexivity|]. rewrite strings_map, x520_eqb, Z.eqb_refl. reflexivity.
  - destruct (has_type (x520 oid) (n_ExtraNames n)); [reflexivity|]. rewrite strings_map, x520_eqb.
    rewrite (proj2 (Z.eqb_neq oid k) N). reflexivity.
Qed.
Lemma own_app : forall n oid vs, (if has_type oid (n_ExtraNames n) then [] else vs) ++ strings oid (n_ExtraNames n) = own n oid vs.
Proof.
  intros n oid vs. unfold own. destruct (has_type oid (n_ExtraNames n)) eqn:E; [reflexivity|]. rewrite strings_none by exact E. apply app_nil_r.
Qed.
Lemma last_one : forall s, last (one s) [] = s.
Proof. intros [|x s]; reflexivity. Qed.

(** A name, written and read: each field holds the name's own values, or those of the extra names if
    they mention its type; all attributes are listed in Names. *)
Definition name_back (n : Name) : Name :=
  mkName (own n (x520 6) (n_Country n)) (own n (x520 10) (n_Organization n)) (own n (x520 11) (n_OrganizationalUnit n))
         (own n (x520 7) (n_Locality n)) (own n (x520 8) (n_Province n)) (own n (x520 9) (n_StreetAddress n))
         (own n (x520 17) (n_PostalCode n)) (last (own n (x520 5) (one (n_SerialNumber n))) [])
         (last (own n (x520 3) (one (n_CommonName n))) []) (all_names n) [].
Lemma fill_ToRDN : forall n, FillFromRDNSequence zeroName (ToRDNSequence n) = name_back n.
Proof.
  intros n. rewrite C79_fill. cbv zeta. rewrite concat_ToRDN. unfold name_back, all_names. cbv zeta.
  rewrite !strings_app, !strings_own. cbn [Z.eqb Pos.eqb app].
  rewrite !own_app. reflexivity.
Qed.
Definition name_ok (n : Name) : Prop := Forall atv_ok (n_ExtraNames n).
Lemma x520_ok : forall k, 0 <= k < 2 ^ 31 -> oid_ok (x520 k).
Proof.
  intros k Hk. unfold oid_ok, x520. repeat first [split | lia | constructor].
Qed.
Lemma ToRDN_ok : forall n, name_ok n -> Forall (Forall atv_ok) (ToRDNSequence n).
Proof.
  intros n H.
  assert (A : forall inp vs k, 0 <= k < 2 ^ 31 -> Forall (Forall atv_ok) inp -> Forall (Forall atv_ok) (appendRDNs n inp vs (x520 k))).
  { intros inp vs k Hk Hi. unfold appendRDNs. destruct (_ || _); [exact Hi|]. apply Forall_app. split; [exact Hi|].
    constructor; [|constructor]. apply Forall_map. apply Forall_forall. intros v _. split; [apply x520_ok; exact Hk|exact I]. }
  unfold ToRDNSequence. cbv zeta. rewrite !appendRDNs_one. apply Forall_app. split.
  - change oidSerialNumber with (x520 5). apply A; [lia|]. change oidCommonName with (x520 3). apply A; [lia|].
    change oidPostalCode with (x520 17). apply A; [lia|]. change oidStreetAddress with (x520 9). apply A; [lia|].
    change oidProvince with (x520 8). apply A; [lia|]. change oidLocality with (x520 7). apply A; [lia|].
    change oidOrganizationalUnit with (x520 11). apply A; [lia|]. change oidOrganization with (x520 10). apply A; [lia|].
    change oidCountry with (x520 6). apply A; [lia|]. constructor.
  - apply Forall_map. unfold name_ok in H. induction H; constructor; [constructor; [assumption|constructor]|assumption].
Qed.
Theorem C79_name : forall n e, name_ok n -> marshalRDNSequence (ToRDNSequence n) = OK e -> small e ->
  exists s, unmarshalAll uRDNSequence [] e = OK s /\ FillFromRDNSequence zeroName s = name_back n.
Proof.
  intros n e Hn H HL. exists (ToRDNSequence n). split; [|apply fill_ToRDN].
  apply elem_all. apply C79_rdn_sequence; [exact H|exact HL|apply ToRDN_ok; exact Hn].
Qed.
(** Without extra names all nine fields come back. *)
Theorem C79_plain_name : forall n e, n_ExtraNames n = [] -> marshalRDNSequence (ToRDNSequence n) = OK e -> small e ->
  exists s ns, unmarshalAll uRDNSequence [] e = OK s /\
  FillFromRDNSequence zeroName s =
    mkName (n_Country n) (n_Organization n) (n_OrganizationalUnit n) (n_Locality n) (n_Province n) (n_StreetAddress n)
           (n_PostalCode n) (n_SerialNumber n) (n_CommonName n) ns [].
Proof.
  intros n e He H HL. destruct (C79_name n e) as (s & HU & HF); [unfold name_ok; rewrite He; constructor|exact H|exact HL|].
  exists s, (all_names n). split; [exact HU|]. rewrite HF. unfold name_back, own. rewrite He. cbn [has_type existsb]. rewrite !last_one. reflexivity.
Qed.
(** A name of UTF-8 strings is always written. *)
Definition written (f : res (list Z)) : Prop := exists e, f = OK e.
Lemma makeFields_written : forall fs, Forall written fs -> written (makeFields fs).
Proof.
  intros fs H. induction H as [|f fs [e ->] H [c IH]]; [exists []; reflexivity|].
  exists (e ++ c). cbn [makeFields rbind]. rewrite IH. reflexivity.
Qed.
Lemma makeField_written : forall t b body, written body -> written (makeField false t b body noParams).
Proof. intros t b body [c ->]. exists (tagged 0 t b c). reflexivity. Qed.
Lemma string_written : forall s, ValidString s = true -> written (fieldAny (AnyString s)).
Proof.
  intros s H. cbn [fieldAny]. unfold stringTag. rewrite H. destruct (existsb _ _); cbn [rbind]; apply makeField_written; eexists; reflexivity.
Qed.
Lemma oid_written : forall oid, oid_ok oid -> written (fieldOID oid).
Proof. intros oid H. apply makeField_written. rewrite makeOID_ok by exact H. eexists; reflexivity. Qed.
Lemma atv_written : forall a, oid_ok (atv_type a) -> written (fieldAny (atv_value a)) -> written (fieldATV a).
Proof.
  intros a H1 H2. apply makeField_written, makeFields_written. constructor; [apply oid_written; exact H1|].
  constructor; [exact H2|constructor].
Qed.
Theorem C79_utf8_written : forall n, n_ExtraNames n = [] ->
  Forall (fun s => ValidString s = true)
    (n_Country n ++ n_Organization n ++ n_OrganizationalUnit n ++ n_Locality n ++ n_Province n ++ n_StreetAddress n ++
     n_PostalCode n ++ [n_SerialNumber n; n_CommonName n]) ->
  exists e, marshalRDNSequence (ToRDNSequence n) = OK e.
Proof.
  intros n He H. rewrite !Forall_app in H. destruct H as (H1 & H2 & H3 & H4 & H5 & H6 & H7 & H8).
  inversion H8 as [|? ? S1 H8']; subst. inversion H8' as [|? ? S2 _]; subst. clear H8 H8'.
  apply makeField_written, makeFields_written, Forall_map.
  assert (A : forall inp vs k, 0 <= k < 2 ^ 31 -> Forall (fun s => ValidString s = true) vs ->
     Forall (fun r => written (fieldRDN r)) inp -> Forall (fun r => written (fieldRDN r)) (appendRDNs n inp vs (x520 k))).
  { intros inp vs k Hk Hv Hi. unfold appendRDNs. destruct (_ || _); [exact Hi|]. apply Forall_app. split; [exact Hi|].
    constructor; [|constructor]. apply makeField_written, makeFields_written, Forall_map, Forall_map.
    eapply Forall_impl; [|exact Hv]. intros s Hs. apply atv_written; [apply x520_ok; exact Hk|apply string_written; exact Hs]. }
  assert (O : forall s, ValidString s = true -> Forall (fun s => ValidString s = true) (one s)).
  { intros [|x s] K; [constructor|]. constructor; [exact K|constructor]. }
  unfold ToRDNSequence. cbv zeta. rewrite !appendRDNs_one, He. cbn [map]. rewrite app_nil_r.
  change oidSerialNumber with (x520 5). apply A; [lia|apply O; exact S1|]. change oidCommonName with (x520 3). apply A; [lia|apply O; exact S2|].
  change oidPostalCode with (x520 17). apply A; [lia|exact H7|]. change oidStreetAddress with (x520 9). apply A; [lia|exact H6|].
  change oidProvince with (x520 8). apply A; [lia|exact H5|]. change oidLocality with (x520 7). apply A; [lia|exact H4|].
  change oidOrganizationalUnit with (x520 11). apply A; [lia|exact H3|]. change oidOrganization with (x520 10). apply A; [lia|exact H2|].
  change oidCountry with (x520 6). apply A; [lia|exact H1|]. constructor.
Qed.

(** A name with two countries, a common name in Chinese and an e-mail address among its extra names,
    and one whose extra names override the common name. *)
Definition C79_a : Name :=
  mkName [[67; 78]; [68; 69]] [[79]] [] [] [] [] [] [49] [230; 181; 139] [] [mkATV [1; 2; 840; 113549; 1; 9; 1] (AnyString [97; 64; 98])].
Definition C79_b : Name := mkName [] [] [] [] [] [] [] [] [65] [] [mkATV (x520 3) (AnyString [66])].
Example C79_names : exists ea eb,
  marshalRDNSequence (ToRDNSequence C79_a) = OK ea /\ zlen ea = 84 /\
  n_Country (name_back C79_a) = [[67; 78]; [68; 69]] /\ n_CommonName (name_back C79_a) = [230; 181; 139] /\
  List.length (n_Names (name_back C79_a)) = 6%nat /\
  marshalRDNSequence (ToRDNSequence C79_b) = OK eb /\ n_CommonName (name_back C79_b) = [66] /\
  marshalRDNSequence (ToRDNSequence (mkName [] [] [] [] [] [] [] [] [255] [] [])) = ERR "asn1: string not valid UTF-8".
Proof.
  eexists. eexists. split; [vm_compute; reflexivity|]. repeat (split; [vm_compute; reflexivity|]). vm_compute. reflexivity.
Qed.
Example C79_oks : name_ok C79_a /\ name_ok C79_b.
Proof.
  split; (constructor; [split; [unfold oid_ok; cbn [atv_type x520]; repeat first [split | lia | constructor]|exact I]|constructor]).
Qed.
