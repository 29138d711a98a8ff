(** Certificate infos without their Raw bytes (C131): TBSCertificate is an exported struct, so a caller can
    copy one, clear Raw and change the other fields, the two unique identifiers among them, before
    CreateCertificate. *)
From Coq Require Import ZArith List Lia Bool String.
From Verif Require Import GoBase BeMin CbString CbStringProofs CbBuilder CbBuilderProofs PropsCbBuilder CbAsn1Proofs GoAsn1 GoAsn1Proofs.
From Verif Require Import Sm2 Sm2Proofs2 PropsSm2 Sm2Der PropsSm2Der GoText GoPkix CertText PropsCertText Cert CertRt PropsCertExt PropsCertNames PropsCertSan PropsCertBuild PropsCertTime PropsCertDN CertRt2 PropsCert.
Import ListNotations.
Open Scope Z_scope.

(** * Spec *)

(** The info with its Raw bytes replaced, and with the unique identifiers replaced. *)
Definition withRaw (i : TBSCertificate) (raw : list Z) : TBSCertificate :=
  mkTBS raw (tb_version i) (tb_serial i) (tb_alg i) (tb_issuer i) (tb_notBefore i) (tb_notAfter i) (tb_subject i) (tb_key i)
        (tb_uid i) (tb_suid i) (tb_exts i).
Definition withIds (i : TBSCertificate) (u v : BitString) : TBSCertificate :=
  mkTBS (tb_raw i) (tb_version i) (tb_serial i) (tb_alg i) (tb_issuer i) (tb_notBefore i) (tb_notAfter i) (tb_subject i) (tb_key i)
        u v (tb_exts i).
(** A unique identifier: the zero BitString, or some bytes of which the last [p] bits are unused and zero.
    (A non-nil empty Bytes with BitLength 0 is left out: Go writes it, the model does not tell it from nil.) *)
Definition id_ok (b : BitString) : Prop := b = zeroBits \/ (bs_bytes b <> [] /\ bits_ok b).
(** The bytes of one: nothing, or a BIT STRING under an implicit context tag. *)
Definition id_bytes (tag : Z) (b : BitString) (w : list Z) : Prop :=
  (b = zeroBits /\ w = []) \/
  (exists p, 0 <= p < 8 /\ bs_len b = zlen (bs_bytes b) * 8 - p /\ w = tlv tag (p :: bs_bytes b)).
(** [c] is what is between the outermost tag and the end of the fields of [i]. *)
Definition fields_of (i : TBSCertificate) (c : list Z) : Prop :=
  exists n version serial alg validity key u v exts, tb_serial i = Some n /\
    version = (if tb_version i =? 0 then [] else tlv 160 (tlv 2 (int64Bytes (tb_version i)))) /\
    elem uBigInt n serial /\ fieldAlg (tb_alg i) = OK alg /\
    marshalStruct [fieldTime (tb_notBefore i); fieldTime (tb_notAfter i)] = OK validity /\
    fieldPKI (tb_key i) = OK key /\
    id_bytes 129 (tb_uid i) u /\ id_bytes 130 (tb_suid i) v /\
    match tb_exts i with
    | None => exts = []
    | Some l => exists xs, Forall2 (fun x y => fieldExtension x = OK y) l xs /\ exts = tlv 163 (tlv 48 (List.concat xs))
    end /\
    c = version ++ serial ++ alg ++ makeRaw (tb_issuer i) ++ validity ++ makeRaw (tb_subject i) ++ key ++ u ++ v ++ exts.

(** * Signing *)

(** Without Raw there is nothing to sign, and signing nothing panics (C48). *)
Theorem C131_issue : forall i ca id tape, tb_raw i = [] -> 0 <= D ca -> good_id id ->
  IssueCertificateBySoftCAKey i ca id tape = Panic PIndex.
Proof.
  intros i ca id tape HR HD Hid. unfold IssueCertificateBySoftCAKey, Sign. rewrite HR, C48_sign_empty_panics by assumption. reflexivity.
Qed.

(** With Raw no other field matters. *)
Theorem C131_raw_wins : forall i j sig, tb_raw i = tb_raw j -> tb_raw i <> [] ->
  CreateCertificate i sig = CreateCertificate j sig /\
  forall ca id tape, IssueCertificateBySoftCAKey i ca id tape = IssueCertificateBySoftCAKey j ca id tape.
Proof.
  intros i j sig HR HN.
  assert (F : fieldTBS i = fieldTBS j).
  { unfold fieldTBS. rewrite <- HR. destruct (tb_raw i) as [|x y]; [congruence|]. reflexivity. }
  assert (C : forall s, CreateCertificate i s = CreateCertificate j s) by (intros s; unfold CreateCertificate, fieldCert; cbn [ct_raw ct_tbs ct_alg ct_sig]; rewrite F; reflexivity).
  split; [apply C|]. intros ca id tape. unfold IssueCertificateBySoftCAKey. rewrite <- HR.
  destruct (Sign ca id (tb_raw i) tape) as [[[s|m] r]|k]; cbn [bind]; [rewrite C|idtac|idtac]; reflexivity.
Qed.

(** * What CreateCertificate writes *)

Lemma zero_bits : forall b, id_ok b -> (isZeroBits b = true /\ b = zeroBits) \/ (isZeroBits b = false /\ bs_bytes b <> [] /\ bits_ok b).
Proof.
  intros b [->|[HN HB]]; [left; split; reflexivity|]. right. split; [|split; assumption]. unfold isZeroBits.
  destruct (bs_bytes b) as [|x y]; [congruence|]. rewrite zlen_cons. pose proof (zlen_nonneg _ y).
  rewrite (proj2 (Z.eqb_neq (zlen y + 1) 0)) by lia. reflexivity.
Qed.
Lemma bits_contents : forall b, bits_ok b -> exists p, 0 <= p < 8 /\ bs_len b = zlen (bs_bytes b) * 8 - p /\ makeBitString b = p :: bs_bytes b.
Proof.
  intros b (_ & p & Hp & HL & HN & _). exists p. split; [exact Hp|]. split; [exact HL|]. unfold makeBitString. rewrite HL.
  pose proof (zlen_nonneg _ (bs_bytes b)). rewrite pad_of; [|lia|exact Hp|].
  - unfold u8. rewrite Z.mod_small by lia. reflexivity.
  - destruct (bs_bytes b) as [|x y]; [rewrite (HN eq_refl); rewrite zlen_nil; lia|]. rewrite zlen_cons in *. pose proof (zlen_nonneg _ y). lia.
Qed.
Lemma id_written : forall n b w, 0 <= n < 31 -> id_ok b ->
  makeField (isZeroBits b) TagBitString false (OK (makeBitString b)) (optTag n) = OK w -> small w ->
  (b = zeroBits /\ w = []) \/
  (bs_bytes b <> [] /\ bits_ok b /\ w = tlv (ident 2 n false) (makeBitString b) /\ zlen (makeBitString b) < 2 ^ 31).
Proof.
  intros n b w Hn Hb H HL. unfold makeField in H. cbn [optTag fp_optional fp_set fp_tag fp_explicit andb] in H.
  destruct (zero_bits b Hb) as [[Z ->]|[Z [N B]]].
  - rewrite Z in H. left. split; [reflexivity|]. apply ok_inj in H. congruence.
  - rewrite Z in H. cbn [rbind] in H. apply ok_inj in H. subst w. right. split; [exact N|]. split; [exact B|].
    apply tagged_small; [split; lia|exact HL].
Qed.

(** The ten elements. *)
Lemma tbs_elements : forall i e, tb_raw i = [] -> id_ok (tb_uid i) -> id_ok (tb_suid i) -> fieldTBS i = OK e -> small e ->
  exists n e1 e2 e3 e5 e7 e8 e9 e10, tb_serial i = Some n /\
    e = tlv 48 (e1 ++ e2 ++ e3 ++ makeRaw (tb_issuer i) ++ e5 ++ makeRaw (tb_subject i) ++ e7 ++ e8 ++ e9 ++ e10) /\
    small (e1 ++ e2 ++ e3 ++ makeRaw (tb_issuer i) ++ e5 ++ makeRaw (tb_subject i) ++ e7 ++ e8 ++ e9 ++ e10) /\
    ((tb_version i = 0 /\ e1 = []) \/
     (tb_version i <> 0 /\ e1 = tlv 160 (tlv 2 (int64Bytes (tb_version i))) /\ zlen (tlv 2 (int64Bytes (tb_version i))) < 2 ^ 31)) /\
    elem uBigInt n e2 /\ fieldAlg (tb_alg i) = OK e3 /\ small e3 /\
    marshalStruct [fieldTime (tb_notBefore i); fieldTime (tb_notAfter i)] = OK e5 /\ small e5 /\
    fieldPKI (tb_key i) = OK e7 /\
    ((tb_uid i = zeroBits /\ e8 = []) \/ (bs_bytes (tb_uid i) <> [] /\ bits_ok (tb_uid i) /\ e8 = tlv 129 (makeBitString (tb_uid i)) /\ zlen (makeBitString (tb_uid i)) < 2 ^ 31)) /\
    ((tb_suid i = zeroBits /\ e9 = []) \/ (bs_bytes (tb_suid i) <> [] /\ bits_ok (tb_suid i) /\ e9 = tlv 130 (makeBitString (tb_suid i)) /\ zlen (makeBitString (tb_suid i)) < 2 ^ 31)) /\
    match tb_exts i with
    | None => e10 = []
    | Some l => exists xs, Forall2 (fun x y => fieldExtension x = OK y) l xs /\ e10 = tlv 163 (tlv 48 (List.concat xs)) /\
                           zlen (tlv 48 (List.concat xs)) < 2 ^ 31 /\ small (List.concat xs)
    end.
Proof.
  intros i e HR HU HV H HL. unfold fieldTBS in H. rewrite HR, rawStruct_nil in H. apply marshalStruct_inv in H; [|exact HL].
  destruct H as (es & HE & -> & HS).
  destruct es as [|e1 [|e2 [|e3 [|e4 [|e5 [|e6 [|e7 [|e8 [|e9 [|e10 [|]]]]]]]]]]]; try discriminate HE. cbn [map] in HE.
  apply cons_eq in HE. destruct HE as [H1 HE]. apply cons_eq in HE. destruct HE as [H2 HE]. apply cons_eq in HE. destruct HE as [H3 HE].
  apply cons_eq in HE. destruct HE as [H4 HE]. apply cons_eq in HE. destruct HE as [H5 HE]. apply cons_eq in HE. destruct HE as [H6 HE].
  apply cons_eq in HE. destruct HE as [H7 HE]. apply cons_eq in HE. destruct HE as [H8 HE]. apply cons_eq in HE. destruct HE as [H9 HE].
  apply cons_eq in HE. destruct HE as [H10 _].
  set (es := [e1; e2; e3; e4; e5; e6; e7; e8; e9; e10]) in *.
  assert (SM : forall x, In x es -> small x) by (intros; apply (small_concat es); assumption).
  apply ok_inj in H4. apply ok_inj in H6. subst e4 e6.
  destruct (tb_serial i) as [n|] eqn:Hn; [|discriminate H2].
  exists n, e1, e2, e3, e5, e7, e8, e9, e10. split; [reflexivity|].
  change (ident 0 16 true) with 48. unfold es in HS |- *. cbn [List.concat] in HS |- *. rewrite app_nil_r in HS |- *. fold es in SM.
  split; [reflexivity|]. split; [exact HS|].
  split.
  { destruct (Z.eqb_spec (tb_version i) 0) as [V|V].
    - left. split; [exact V|]. unfold makeField in H1. cbn [explicitTag fp_optional andb] in H1. apply ok_inj in H1. congruence.
    - right. split; [exact V|]. apply explicit_inv in H1; [|reflexivity|lia|unfold TagInteger; lia|apply SM; left; reflexivity].
      destruct H1 as (b1 & B1 & -> & L1 & _). apply ok_inj in B1. subst b1. split; [reflexivity|exact L1]. }
  split; [apply fieldBigInt_rt; [exact H2|apply SM; right; left; reflexivity]|].
  split; [exact H3|]. split; [apply SM; do 2 right; left; reflexivity|].
  split; [exact H5|]. split; [apply SM; do 4 right; left; reflexivity|].
  split; [exact H7|].
  split; [apply (id_written 1); [lia|exact HU|exact H8|apply SM; do 7 right; left; reflexivity]|].
  split; [apply (id_written 2); [lia|exact HV|exact H9|apply SM; do 8 right; left; reflexivity]|].
  destruct (tb_exts i) as [l|].
  - apply explicit_inv in H10; [|reflexivity|lia|unfold TagSequence; lia|apply SM; do 9 right; left; reflexivity].
    destruct H10 as (b10 & B10 & -> & L10 & L10'). apply makeFields_inv in B10. destruct B10 as (xs & HX & ->). apply map_OK_inv in HX.
    exists xs. split; [exact HX|]. split; [reflexivity|]. split; [exact L10|exact L10'].
  - unfold makeField in H10. cbn [explicitTag fp_optional andb] in H10. apply ok_inj in H10. congruence.
Qed.

Lemma cert_parts : forall i sig e, CreateCertificate i sig = OK e -> small e -> exists raw, fieldTBS i = OK raw /\ small raw /\
  e = tlv 48 (raw ++ sm2sm3_alg ++ tlv 3 (0 :: sig)) /\ small (raw ++ sm2sm3_alg ++ tlv 3 (0 :: sig)) /\
  fieldBits (whole sig) = OK (tlv 3 (0 :: sig)) /\ small (tlv 3 (0 :: sig)).
Proof.
  intros i sig e H HL. unfold CreateCertificate, fieldCert in H. cbn [ct_raw ct_tbs ct_alg ct_sig] in H. rewrite rawStruct_nil in H.
  apply marshalStruct_inv in H; [|exact HL]. destruct H as (es & HE & -> & HS).
  destruct es as [|e1 [|e2 [|e3 [|]]]]; try discriminate HE. cbn [map] in HE.
  apply cons_eq in HE. destruct HE as [H1 HE]. apply cons_eq in HE. destruct HE as [H2 HE]. apply cons_eq in HE. destruct HE as [H3 _].
  assert (S1 : small e1) by (apply (small_concat [e1; e2; e3]); [exact HS|left; reflexivity]).
  assert (S3 : small e3) by (apply (small_concat [e1; e2; e3]); [exact HS|right; right; left; reflexivity]).
  rewrite sigalg_bytes in H2. apply ok_inj in H2. subst e2.
  change (mkBits sig (zlen sig * 8)) with (whole sig) in H3. pose proof H3 as H3'. unfold fieldBits in H3. rewrite whole_bits in H3.
  destruct (fieldPrim_inv TagBitString (0 :: sig) e3 H3) as [E3 _]; [unfold TagBitString; lia|exact S3|].
  change (ident 0 TagBitString false) with 3 in E3. subst e3. cbn [List.concat] in HS |- *. rewrite app_nil_r in HS |- *.
  exists e1. split; [exact H1|]. split; [exact S1|]. split; [reflexivity|]. split; [exact HS|]. split; [exact H3'|exact S3].
Qed.

Lemma tbs_layout : forall i raw, tb_raw i = [] -> id_ok (tb_uid i) -> id_ok (tb_suid i) -> fieldTBS i = OK raw -> small raw ->
  exists c, fields_of i c /\ raw = tlv 48 c.
Proof.
  intros i raw HR HU HV HT SR.
  destruct (tbs_elements i raw HR HU HV HT SR) as (n & e1 & e2 & e3 & e5 & e7 & e8 & e9 & e10 & Hn & -> & _ & V & E2 & E3 & _ & E5 & _ & E7 & U8 & U9 & X).
  eexists. split; [|reflexivity]. exists n, e1, e2, e3, e5, e7, e8, e9, e10.
  assert (ID : forall t b w, (b = zeroBits /\ w = []) \/ (bs_bytes b <> [] /\ bits_ok b /\ w = tlv t (makeBitString b) /\ zlen (makeBitString b) < 2 ^ 31) -> id_bytes t b w).
  { intros t b w [[-> ->]|(_ & B & -> & _)]; [left; split; reflexivity|]. right. destruct (bits_contents b B) as (p & P1 & P2 & ->).
    exists p. split; [exact P1|]. split; [exact P2|reflexivity]. }
  split; [exact Hn|]. split; [destruct V as [[-> ->]|(V & -> & _)]; [reflexivity|rewrite (proj2 (Z.eqb_neq _ 0) V); reflexivity]|].
  split; [exact E2|]. split; [exact E3|]. split; [exact E5|]. split; [exact E7|]. split; [apply ID, U8|]. split; [apply ID, U9|].
  split; [|reflexivity]. destruct (tb_exts i) as [l|]; [|exact X]. destruct X as (xs & X1 & X2 & _). exists xs. split; assumption.
Qed.
(** Without Raw the fields are written in order. *)
Theorem C131_layout : forall i sig e, tb_raw i = [] -> id_ok (tb_uid i) -> id_ok (tb_suid i) -> CreateCertificate i sig = OK e -> small e ->
  exists c, fields_of i c /\ e = tlv 48 (tlv 48 c ++ sm2sm3_alg ++ tlv 3 (0 :: sig)).
Proof.
  intros i sig e HR HU HV H HL. destruct (cert_parts i sig e H HL) as (raw & HT & SR & -> & _ & _ & _).
  destruct (tbs_layout i raw HR HU HV HT SR) as (c & FC & ->). exists c. split; [exact FC|reflexivity].
Qed.

(** An info without a serial number is refused, if it has no Raw either. *)
Theorem C131_serial : forall i sig, tb_raw i = [] -> tb_serial i = None -> forall e, CreateCertificate i sig <> OK e.
Proof.
  intros i sig HR HS e H. unfold CreateCertificate, fieldCert in H. cbn [ct_raw ct_tbs ct_alg ct_sig] in H.
  assert (F : exists m, fieldTBS i = ERR m).
  { unfold fieldTBS. rewrite HR, rawStruct_nil, HS. unfold marshalStruct, makeField. cbn [noParams fp_optional fp_set andb makeFields].
    destruct ((tb_version i =? 0)); cbn [explicitTag fp_optional fp_set fp_tag fp_explicit andb rbind]; eexists; reflexivity. }
  destruct F as [m F]. rewrite F in H. discriminate H.
Qed.

Section Env.
Variable E : netEnv.

(** An info that CreateCertificateInfo made can lose its Raw bytes: they were those of its fields. *)
Theorem C131_same : forall t parent csr info sig, CreateCertificateInfo E t parent csr = Ret (OK info) -> small (tb_raw info) ->
  CreateCertificate (withRaw info []) sig = CreateCertificate info sig.
Proof.
  intros t parent csr info sig H HL. destruct (info_inv E _ _ _ _ H) as (serial & iss & subj & exts & k & _ & _ & _ & _ & _ & raw & HR & ->). cbv zeta in *.
  cbn [tb_raw] in HL. unfold withRaw, CreateCertificate, fieldCert. cbn [ct_raw ct_tbs ct_alg ct_sig tb_version tb_serial tb_alg tb_issuer tb_notBefore tb_notAfter tb_subject tb_key tb_uid tb_suid tb_exts].
  rewrite HR. unfold fieldTBS at 1 in HR. cbn [tb_raw] in HR. rewrite rawStruct_nil in HR.
  apply marshalStruct_inv in HR; [|exact HL]. destruct HR as (es & _ & -> & HS).
  unfold fieldTBS. cbn [tb_raw]. rewrite rawStruct_full by exact HS. reflexivity.
Qed.

(** * Reading back *)

Lemma tag_present : forall n b r, 0 <= n < 31 -> bits_ok b -> zlen (makeBitString b) < 2 ^ 31 ->
  parseField uBits zeroBits (optTag n) (tlv (ident 2 n false) (makeBitString b) ++ r) = OK (b, r).
Proof.
  intros n b r Hn HB HL. apply (elem_tagged _ uBits b zeroBits (optTag n) n (makeBitString b) TagBitString r); try reflexivity; try assumption.
  cbn [u_body uBits]. apply parseBitString_ok, HB.
Qed.

Lemma tbs_ids_rt : forall serial oid pi ri nb na ps rs k ek u v exts e,
  fieldTBS (mkTBS [] 2 (Some serial) (mkAlg oid zeroRaw) (mkRaw 0 0 false [] pi) (UTC nb) (UTC na) (mkRaw 0 0 false [] ps) k u v (Some exts)) = OK e ->
  small e -> oid_ok oid -> elem uRaw ri pi -> elem uRaw rs ps -> elem uPKI k ek -> id_ok u -> id_ok v -> Forall ext_ok exts ->
  elem uTBS (mkTBS e 2 (Some serial) (mkAlg oid zeroRaw) ri (mkTime (t_unix nb) 0 0) (mkTime (t_unix na) 0 0) rs k u v (Some exts)) e.
Proof.
  intros serial oid pi ri nb na ps rs k ek u v exts e H HL Ho Hi Hs Hk HU HV Hx.
  pose proof (fun R U V => tbs_elements _ e R U V H HL) as K. destruct (K eq_refl HU HV) as (n & e1 & e2 & e3 & e5 & e7 & e8 & e9 & e10 & Hn & -> & HS & V & E2 & E3 & S3 & E5 & S5 & E7 & U8 & U9 & X). clear K.
  cbn [tb_version tb_serial tb_alg tb_issuer tb_notBefore tb_notAfter tb_subject tb_key tb_uid tb_suid tb_exts] in *.
  assert (n = serial) as -> by congruence. clear Hn.
  rewrite !makeRaw_full in * by first [apply elem_nonempty in Hi; exact Hi | apply elem_nonempty in Hs; exact Hs].
  rewrite (pki_full k ek Hk) in E7. apply ok_inj in E7. subst e7.
  destruct V as [[V _]|(_ & -> & L1)]; [discriminate V|].
  destruct X as (xs & HX & -> & L10 & L10').
  assert (XS : Forall2 (elem uExtension) exts xs).
  { assert (SX : forall x, In x xs -> small x) by (intros; apply (small_concat xs); assumption).
    clear -HX SX Hx. induction HX as [|x ex exts xs Hf HX IH]; constructor; inversion Hx; subst.
    - apply extension_rt; [exact Hf|apply SX; left; reflexivity|assumption].
    - apply IH; [assumption|intros; apply SX; right; assumption]. }
  change 48 with (ident 0 16 true) at 1 3. apply elem_struct; [exact HS|].
  change (tlv 160 (tlv 2 (int64Bytes 2))) with (tlv (ident 2 0 true) (tlv (ident 0 TagInteger false) (int64Bytes 2))).
  rewrite (explicit_field _ uInt 0 0 TagInteger false (int64Bytes 2) _ 2);
    [|lia|unfold TagInteger; lia|exact L1|reflexivity|reflexivity|reflexivity|reflexivity].
  cbn [rbind].
  rewrite (elem_parse _ uBigInt serial e2 _ _ E2). cbn [rbind].
  rewrite (elem_parse _ uAlg (mkAlg oid zeroRaw) e3) by (apply alg_rt; assumption). cbn [rbind].
  rewrite (elem_parse _ uRaw ri pi _ _ Hi). cbn [rbind].
  rewrite (elem_parse _ uValidity _ e5 _ _ (validity_rt nb na e5 E5 S5)). cbn [rbind fst snd].
  rewrite (elem_parse _ uRaw rs ps _ _ Hs). cbn [rbind].
  rewrite (elem_parse _ uPKI k ek _ _ Hk). cbn [rbind].
  set (X10 := tlv 163 (tlv 48 (List.concat xs))).
  assert (A10 : forall n, n <> 3 -> parseField uBits zeroBits (optTag n) X10 = OK (zeroBits, X10)).
  { intros n Hn. unfold X10. change 163 with (ident 2 3 true). rewrite <- (app_nil_r (tlv (ident 2 3 true) _)).
    apply tag_absent; [split; lia|exact L10|reflexivity|right; congruence]. }
  assert (P9 : parseField uBits zeroBits (optTag 2) (e9 ++ X10) = OK (v, X10)).
  { destruct U9 as [[-> ->]|(_ & B & -> & L)]; [apply A10; lia|]. apply (tag_present 2); [lia|exact B|exact L]. }
  assert (P8 : parseField uBits zeroBits (optTag 1) (e8 ++ e9 ++ X10) = OK (u, e9 ++ X10)).
  { destruct U8 as [[-> ->]|(_ & B & -> & L)]; [|apply (tag_present 1); [lia|exact B|exact L]]. cbn [app].
    destruct U9 as [[-> ->]|(_ & B & -> & L)]; [apply A10; lia|]. change 130 with (ident 2 2 false).
    apply tag_absent; [split; lia|exact L|reflexivity|right; lia]. }
  rewrite P8. cbn [rbind]. rewrite P9. cbn [rbind].
  unfold X10. rewrite <- (app_nil_r (tlv 163 _)). change (tlv 163 (tlv 48 (List.concat xs))) with (tlv (ident 2 3 true) (tlv (ident 0 TagSequence true) (List.concat xs))).
  rewrite (explicit_field _ (uSlice uExtension zeroExt false) None 3 TagSequence true (List.concat xs) [] (Some exts));
    [|lia|unfold TagSequence; lia|exact L10|reflexivity|reflexivity|reflexivity|].
  - reflexivity.
  - intros. cbn [u_body uSlice]. rewrite (parse_sequence _ uExtension zeroExt exts xs) by exact XS. reflexivity.
Qed.

Lemma cert_rt : forall T raw sig, elem uTBS T raw -> small (raw ++ sm2sm3_alg ++ tlv 3 (0 :: sig)) ->
  fieldBits (whole sig) = OK (tlv 3 (0 :: sig)) -> small (tlv 3 (0 :: sig)) -> bytes sig ->
  let e := tlv 48 (raw ++ sm2sm3_alg ++ tlv 3 (0 :: sig)) in
  ParseCertificate E e = parseCertificate E (mkCert e T (mkAlg oidSignatureSM3WithSM2 zeroRaw) (whole sig)).
Proof.
  intros T raw sig ET HS HF S3 BS e. unfold e.
  assert (EC : elem uCert (mkCert (tlv 48 (raw ++ sm2sm3_alg ++ tlv 3 (0 :: sig))) T (mkAlg oidSignatureSM3WithSM2 zeroRaw) (whole sig))
                 (tlv 48 (raw ++ sm2sm3_alg ++ tlv 3 (0 :: sig)))).
  { change 48 with (ident 0 16 true). apply elem_struct; [exact HS|].
    rewrite (elem_parse _ uTBS T raw _ _ ET). cbn [rbind]. rewrite (elem_parse _ uAlg _ _ _ _ sigalg_elem). cbn [rbind].
    assert (PB : parseField uBits zeroBits noParams (tlv 3 (0 :: sig)) = OK (whole sig, [])).
    { rewrite <- (app_nil_r (tlv 3 _)). apply elem_parse. apply fieldBits_rt; [exact HF|exact S3|apply bits_ok_whole; exact BS]. }
    rewrite PB. reflexivity. }
  unfold ParseCertificate. rewrite <- (app_nil_r (tlv 48 _)) at 1. rewrite (elem_unmarshal _ uCert _ _ _ _ EC). reflexivity.
Qed.

(** A parsed certificate with other raw bytes. *)
Definition reraw (e raw : list Z) (o : go (res (Certificate E))) : go (res (Certificate E)) :=
  match o with
  | Ret (OK c) => Ret (OK (mkX509 E e raw (c_RawSPKI E c) (c_RawSubject E c) (c_RawIssuer E c) (c_Signature E c) (c_SignatureAlgorithm E c)
                             (c_PublicKeyAlgorithm E c) (c_PublicKey E c) (c_Version E c) (c_SerialNumber E c) (c_Issuer E c) (c_Subject E c)
                             (c_NotBefore E c) (c_NotAfter E c) (c_Extensions E c) (c_ExtraExtensions E c) (c_Unhandled E c) (c_fields E c)))
  | o => o
  end.

(** Unique identifiers that are put into such an info are in the certificate, and the parser leaves them
    out: it returns what it returns for the info as it was, apart from the raw bytes. *)
Theorem C131_ids : forall t parent csr info ss si pub u v sig e e0,
  CreateCertificateInfo E t parent csr = Ret (OK info) -> subject_is E t ss -> subject_is E parent si -> request_key E csr pub ->
  Forall ext_ok (c_ExtraExtensions E t) -> id_ok u -> id_ok v -> bytes sig ->
  CreateCertificate (withIds (withRaw info []) u v) sig = OK e -> small e -> CreateCertificate info sig = OK e0 -> small e0 ->
  exists raw, fields_of (withIds info u v) raw /\ e = tlv 48 (tlv 48 raw ++ sm2sm3_alg ++ tlv 3 (0 :: sig)) /\
    ParseCertificate E e = reraw e (tlv 48 raw) (ParseCertificate E e0).
Proof.
  intros t parent csr info ss si pub u v sig e e0 HI HSs HSi (k & Hk & Hka & Hkp) HX HU HV HB H HL H0 HL0.
  destruct (info_inv E _ _ _ _ HI) as (serial & iss & subj & exts & k' & S1 & S2 & S3 & S4 & S5 & raw & S6 & ->). cbv zeta in *.
  assert (k' = k) as ->.
  { rewrite <- (app_nil_r (r_RawSPKI E csr)) in S5. rewrite (elem_unmarshal _ uPKI k _ _ _ Hk) in S5. congruence. }
  assert (SX : Forall ext_ok exts).
  { destruct (C67_extensions E t _ _ exts S4) as (gen & -> & _ & _ & G). apply Forall_app. split; [|exact HX].
    apply Forall_forall. intros x Hx. destruct (proj1 (G (e_id x)) (in_map e_id gen x Hx)) as [A _]. apply asked_ok in A. exact A. }
  destruct (cert_parts _ _ _ H HL) as (r1 & T1 & R1 & E1 & Z1 & F1 & G1).
  destruct (cert_parts _ _ _ H0 HL0) as (r0 & T0 & R0 & E0 & Z0 & F0 & G0).
  pose proof (fun R U V => tbs_layout _ r1 R U V T1 R1) as K. destruct (K eq_refl HU HV) as (c & FC & EC). clear K.
  exists c. split; [exact FC|]. split; [rewrite <- EC; exact E1|]. rewrite <- EC.
  unfold withIds, withRaw in T1. cbn [tb_raw tb_version tb_serial tb_alg tb_issuer tb_notBefore tb_notAfter tb_subject tb_key tb_uid tb_suid tb_exts] in T1.
  assert (NI : iss <> []) by (apply (subject_nonempty E parent si); assumption).
  assert (NS : subj <> []) by (apply (subject_nonempty E t ss); assumption).
  assert (NR : raw <> []).
  { unfold fieldTBS in S6. cbn [tb_raw] in S6. rewrite rawStruct_nil in S6. unfold marshalStruct in S6.
    apply makeField_plain in S6; try reflexivity. destruct S6 as (bd & _ & ->). intros K. discriminate K. }
  assert (r0 = raw) as ->.
  { pose proof S6 as S6'. unfold fieldTBS in T0, S6'. cbn [tb_raw] in T0, S6'. rewrite rawStruct_nil in S6'.
    unfold CreateCertificate, fieldCert in H0. cbn [ct_raw ct_tbs ct_alg ct_sig] in H0. unfold fieldTBS at 1 in H0. cbn [tb_raw] in H0.
    destruct (signed_struct _ _ _ _ H0 HL0 NR) as (c' & C1 & _ & _ & SC & LC). rewrite C1 in LC.
    destruct (struct_small _ _ S6' LC) as (c'' & -> & L'' & _). rewrite rawStruct_full in T0 by exact L''. apply ok_inj in T0. symmetry. exact T0. }
  destruct (tbs_parts _ _ _ _ _ _ _ _ _ S6 R0 NI NS) as [Spi Sps].
  pose proof (subject_elem E parent si iss HSi S2 Spi) as Ei. pose proof (subject_elem E t ss subj HSs S3 Sps) as Es.
  destruct (elem_is_raw _ _ _ _ Ei) as (ri & Ri & _). destruct (elem_is_raw _ _ _ _ Es) as (rs & Rs & _).
  pose proof (tbs_ids_rt _ _ _ ri _ _ _ rs _ _ _ _ _ _ T1 R1 sigalg_oid_ok Ri Rs Hk HU HV SX) as ET1.
  pose proof (tbs_ids_rt _ _ _ ri _ _ _ rs _ _ _ _ _ _ S6 R0 sigalg_oid_ok Ri Rs Hk (or_introl eq_refl) (or_introl eq_refl) SX) as ET0.
  rewrite E1, E0. rewrite (cert_rt _ _ _ ET1 Z1 F1 G1 HB), (cert_rt _ _ _ ET0 Z0 F0 G0 HB).
  unfold parseCertificate. cbn [ct_tbs ct_alg ct_raw ct_sig alg_oid tb_key tb_subject tb_issuer tb_exts tb_raw tb_version tb_serial tb_notBefore tb_notAfter].
  rewrite oidEqual_refl. cbn [negb]. rewrite Hka, oidEqual_refl. cbn [negb]. rewrite Hkp. cbn [gbind].
  destruct (unmarshalAll uRDNSequence [] (rv_full rs)); [|reflexivity]. cbn [gbind].
  destruct (unmarshalAll uRDNSequence [] (rv_full ri)); [|reflexivity]. cbn [gbind].
  destruct (parseExtensions E exts (zeroFields E) []) as [[[fl uh]|]|]; reflexivity.
Qed.
End Env.

(** * Examples *)

(** The info of C73 with an issuer identifier of three bits and a subject identifier of two bytes. *)
Definition ex_uid : BitString := mkBits [160] 3.
Definition ex_suid : BitString := mkBits [1; 2] 16.
Example C131_ex_hyps : id_ok ex_uid /\ id_ok ex_suid /\ tb_raw (withIds (withRaw ex_info []) ex_uid ex_suid) = [] /\ small (tb_raw ex_info) /\ tb_raw ex_info <> [].
Proof.
  assert (B : forall l, forallb (fun b => (0 <=? b) && (b <=? 255)) l = true -> bytes l) by exact bytes_forallb.
  split; [right; split; [discriminate|]; split; [apply B; reflexivity|]; exists 5; repeat split; try lia; discriminate|].
  split; [right; split; [discriminate|]; split; [apply B; reflexivity|]; exists 0; repeat split; try lia; discriminate|].
  split; [reflexivity|]. split; [vm_compute; reflexivity|]. vm_compute. discriminate.
Qed.
(** With Raw the identifiers are not written; without it they are, before the extensions: 81 02 05 A0 and
    82 03 00 01 02. *)
Definition has (w l : list Z) : bool := existsb (fun n => oidEqual w (firstn (List.length w) (skipn n l))) (seq 0 (List.length l)).
Definition made (i : TBSCertificate) : list Z := match CreateCertificate i [7] with OK e => e | ERR _ => [] end.
Example C131_ex_written :
  made (withIds ex_info ex_uid ex_suid) = made ex_info /\ made (withRaw ex_info []) = made ex_info /\
  has [129; 2; 5; 160; 130; 3; 0; 1; 2; 163] (made (withIds (withRaw ex_info []) ex_uid ex_suid)) = true /\
  zlen (made (withIds (withRaw ex_info []) ex_uid ex_suid)) = zlen (made ex_info) + 9 /\ 300 < zlen (made ex_info).
Proof. repeat (split; [vm_compute; reflexivity|]). vm_compute. reflexivity. Qed.
(** An identifier is left out only if it has neither bytes nor bits. One with a length that does not fit its bytes is written all the same. *)
Theorem C131_odd_ids : forall b n, (bs_bytes b = [] /\ bs_len b = 0 <-> makeField (isZeroBits b) TagBitString false (OK (makeBitString b)) (optTag n) = OK []).
Proof.
  intros b n. unfold makeField, isZeroBits. cbn [optTag fp_optional fp_set fp_tag fp_explicit andb].
  split.
  - intros [-> ->]. reflexivity.
  - destruct (bs_bytes b) as [|x y] eqn:EB; [destruct (Z.eqb_spec (bs_len b) 0) as [EL|EL]; [auto|]|]; intros H.
    + change (zlen (@nil Z) =? 0) with true in H. cbn [andb] in H. apply (f_equal (fun r => match r with OK l => List.length l | ERR _ => O end)) in H.
      cbn [rbind] in H. unfold tagged in H. rewrite app_length in H. unfold makeBitString in H. cbn [List.length] in H. lia.
    + rewrite zlen_cons in H. pose proof (zlen_nonneg _ y). rewrite (proj2 (Z.eqb_neq (zlen y + 1) 0)) in H by lia. cbn [andb] in H.
      apply (f_equal (fun r => match r with OK l => List.length l | ERR _ => O end)) in H. cbn [rbind] in H. unfold tagged in H. rewrite app_length in H. unfold makeBitString in H. cbn [List.length] in H. lia.
Qed.
Example C131_ex_odd_ids : makeField (isZeroBits (mkBits [] 5)) TagBitString false (OK (makeBitString (mkBits [] 5))) (optTag 1) = OK [0x81; 1; 3] /\
  makeField (isZeroBits (mkBits [0] 0)) TagBitString false (OK (makeBitString (mkBits [0] 0))) (optTag 1) = OK [0x81; 2; 0; 0].
Proof. split; reflexivity. Qed.
(** The hypotheses of C131_ids. *)
Example C131_ex_ids : CreateCertificateInfo noNet ex_filled ex_parent ex_csr = Ret (OK ex_info) /\
  (exists ss, subject_is noNet ex_filled ss) /\ (exists si, subject_is noNet ex_parent si) /\ request_key noNet ex_csr (mkPub curveGx curveGy) /\
  Forall ext_ok (c_ExtraExtensions noNet ex_filled) /\
  CreateCertificate (withIds (withRaw ex_info []) ex_uid ex_suid) [7] = OK (made (withIds (withRaw ex_info []) ex_uid ex_suid)) /\
  CreateCertificate ex_info [7] = OK (made ex_info).
Proof.
  destruct C80_ex_hyps as (H1 & H2 & H3 & _ & _ & H6).
  split; [exact (proj1 C73_ex_info)|]. split; [exact H1|]. split; [exact H2|]. split; [exact H3|]. split; [rewrite H6; constructor|].
  split; vm_compute; reflexivity.
Qed.
