(** Issued certificates (C71, C73, C80): what is signed, what comes back from the parser, and what a
    request can influence. *)
From Coq Require Import ZArith List Lia Bool String.
From Verif Require Import GoBase BeMin CbString CbStringProofs CbBuilder CbBuilderProofs PropsCbBuilder CbAsn1Proofs GoAsn1 GoAsn1Proofs.
From Verif Require Import Sm2 Sm2Proofs2 PropsSm2 Sm2Der PropsSm2Der GoText GoPkix CertText PropsCertText Cert CertRt PropsCertExt PropsCertNames PropsCertSan PropsCertBuild PropsCertTime PropsCertDN CertRt2.
Import ListNotations.
Open Scope Z_scope.

(** * The outer structure *)

(** The identifier of SM2 with SM3, 1.2.156.10197.1.501, as an AlgorithmIdentifier. *)
Definition sm2sm3_alg : list Z := [48; 10; 6; 8; 42; 129; 28; 207; 85; 1; 131; 117].
Lemma sigalg_bytes : fieldAlg (mkAlg oidSignatureSM3WithSM2 zeroRaw) = OK sm2sm3_alg.
Proof. vm_compute. reflexivity. Qed.
Lemma sigalg_oid_ok : oid_ok oidSignatureSM3WithSM2.
Proof. unfold oid_ok, oidSignatureSM3WithSM2. repeat first [split | lia | constructor]. Qed.
Lemma sigalg_elem : elem uAlg (mkAlg oidSignatureSM3WithSM2 zeroRaw) sm2sm3_alg.
Proof. apply alg_rt; [exact sigalg_bytes|reflexivity|exact sigalg_oid_ok]. Qed.

Definition whole (sig : list Z) : BitString := mkBits sig (zlen sig * 8).
Lemma whole_bits : forall sig, makeBitString (whole sig) = 0 :: sig.
Proof.
  intros sig. unfold makeBitString, whole. cbn [bs_bytes bs_len]. pose proof (zlen_nonneg _ sig).
  replace (zlen sig * 8) with (zlen sig * 8 - 0) by lia. rewrite pad_of by lia. reflexivity.
Qed.
(** A struct of three fields, the first of which is kept as it was. *)
Lemma signed_struct : forall raw fs sig e,
  marshalRawStruct [] [marshalRawStruct raw fs; fieldAlg (mkAlg oidSignatureSM3WithSM2 zeroRaw); fieldBits (whole sig)] = OK e ->
  small e -> raw <> [] ->
  exists c, c = stripTagAndLength raw /\ e = tlv 48 (tlv 48 c ++ sm2sm3_alg ++ tlv 3 (0 :: sig)) /\
    small (tlv 48 c ++ sm2sm3_alg ++ tlv 3 (0 :: sig)) /\ small (tlv 48 c) /\ zlen c < 2 ^ 31.
Proof.
  intros raw fs sig e H HL HR. rewrite rawStruct_nil in H. apply marshalStruct_inv in H; [|exact HL]. destruct H as (es & HE & -> & HS).
  destruct es as [|e1 [|e2 [|e3 [|]]]]; try discriminate HE. cbn [map] in HE.
  apply cons_eq in HE. destruct HE as [H1 HE]. apply cons_eq in HE. destruct HE as [H2 HE]. apply cons_eq in HE. destruct HE as [H3 _].
  rewrite sigalg_bytes in H2. apply ok_inj in H2. subst e2.
  assert (S1 : small e1) by (apply (small_concat [e1; sm2sm3_alg; e3]); [exact HS|left; reflexivity]).
  assert (S3 : small e3) by (apply (small_concat [e1; sm2sm3_alg; e3]); [exact HS|right; right; left; reflexivity]).
  unfold fieldBits in H3. rewrite whole_bits in H3.
  destruct (fieldPrim_inv TagBitString (0 :: sig) e3 H3) as [-> L3]; [unfold TagBitString; lia|exact S3|].
  unfold marshalRawStruct in H1. destruct raw as [|x raw]; [congruence|]. apply makeField_plain in H1; try reflexivity.
  destruct H1 as (c & HB & ->). apply ok_inj in HB.
  destruct (tagged_small 0 TagSequence true c) as [E L]; [split; unfold TagSequence; lia|exact S1|].
  rewrite E in *. cbn [List.concat] in *. rewrite app_nil_r in *.
  exists c. split; [symmetry; exact HB|]. split; [reflexivity|]. split; [exact HS|]. split; [exact S1|exact L].
Qed.

(** * C71: the signed bytes are in the certificate *)

Lemma issue_inv : forall cinfo ca id tape e rest, IssueCertificateBySoftCAKey cinfo ca id tape = Ret (OK e, rest) ->
  exists sig, Sign ca id (tb_raw cinfo) tape = Ret (OK sig, rest) /\ CreateCertificate cinfo sig = OK e.
Proof.
  intros cinfo ca id tape e rest H. unfold IssueCertificateBySoftCAKey in H.
  destruct (Sign ca id (tb_raw cinfo) tape) as [[s r]|k]; [|discriminate H]. cbn [bind] in H.
  destruct s as [sig|m]; [|discriminate H]. exists sig. apply ret_inj in H.
  split; [f_equal; f_equal; exact (f_equal snd H)|exact (f_equal fst H)].
Qed.
(** The outer SEQUENCE holds, in this order: the given bytes under the header of a SEQUENCE, the
    algorithm, and the signature as a BIT STRING. *)
Theorem C71_layout : forall cinfo ca id tape e rest c t b body,
  IssueCertificateBySoftCAKey cinfo ca id tape = Ret (OK e, rest) -> small e ->
  tb_raw cinfo = tlv (ident c t b) body -> small_header c t -> zlen body < 2 ^ 31 ->
  exists sig, Sign ca id (tb_raw cinfo) tape = Ret (OK sig, rest) /\
    e = tlv 48 (tlv 48 body ++ sm2sm3_alg ++ tlv 3 (0 :: sig)).
Proof.
  intros cinfo ca id tape e rest c t b body H HL HR HS LB. destruct (issue_inv _ _ _ _ _ _ H) as (sig & H1 & H2). exists sig. split; [exact H1|].
  unfold CreateCertificate, fieldCert in H2. cbn [ct_raw ct_tbs ct_alg ct_sig] in H2. unfold fieldTBS in H2.
  destruct (signed_struct _ _ _ _ H2 HL) as (d & Hd & -> & _ & _ & Ld); [rewrite HR; intros K; discriminate K|].
  rewrite HR, strip_tlv in Hd by assumption. subst d. reflexivity.
Qed.
(** For a SEQUENCE those are exactly the signed bytes, and the signature verifies for them. *)
Lemma bytes_in_tlv : forall t c, bytes (tlv t c) -> bytes c.
Proof. intros t c H. apply (bytes_tlv t c []). rewrite app_nil_r. exact H. Qed.
Theorem C71_issue : forall cinfo ca id tape e rest body pub,
  IssueCertificateBySoftCAKey cinfo ca id tape = Ret (OK e, rest) -> bytes e -> small e ->
  tb_raw cinfo = tlv 48 body -> zlen body < 2 ^ 31 ->
  0 <= D ca -> CalculatePubKey ca = Ret pub -> good_id id -> bytes tape ->
  exists sig, e = tlv 48 (tb_raw cinfo ++ sm2sm3_alg ++ tlv 3 (0 :: sig)) /\ Verify pub id (tb_raw cinfo) sig = Ret true.
Proof.
  intros cinfo ca id tape e rest body pub H HB HL HR LB HD HP Hid Ht.
  destruct (C71_layout cinfo ca id tape e rest 0 16 true body H HL HR) as (sig & HS & HE); [split; lia|exact LB|].
  exists sig. rewrite <- HR in HE. split; [exact HE|].
  apply (C44_sign_then_verify ca pub id (tb_raw cinfo) tape sig rest); try assumption.
  rewrite HE in HB. apply bytes_in_tlv in HB. apply bytes_app in HB. destruct HB as [HB _].
  split; [exact HB|]. split; [rewrite HR; intros K; discriminate K|].
  pose proof HL as HL2. rewrite HE in HL2. unfold small in HL2.
  pose proof (zlen_tlv_ge 48 (tb_raw cinfo ++ sm2sm3_alg ++ tlv 3 (0 :: sig))) as G. rewrite zlen_app in G.
  pose proof (zlen_nonneg _ (sm2sm3_alg ++ tlv 3 (0 :: sig))). lia.
Qed.

(** * The certificate's structures *)

Lemma validity_rt : forall nb na e, marshalStruct [fieldTime (UTC nb); fieldTime (UTC na)] = OK e -> small e ->
  elem uValidity (mkTime (t_unix nb) 0 0, mkTime (t_unix na) 0 0) e.
Proof.
  intros nb na e H HL.
  assert (R : forall t x, fieldTime (UTC t) = OK x -> elem uTime (mkTime (t_unix t) 0 0) x).
  { intros t x Hx. destruct (Z_le_dec (-62167219200) (t_unix t)) as [A|A].
    - destruct (Z_lt_dec (t_unix t) 253402300800) as [B|B].
      + destruct (C78_time t (conj A B)) as (x' & Hx' & _ & Ex). assert (x = x') as -> by congruence. exact Ex.
      + destruct (C78_refused t ltac:(lia)) as [m Hm]. congruence.
    - destruct (C78_refused t ltac:(lia)) as [m Hm]. congruence. }
  apply marshalStruct_inv in H; [|exact HL]. destruct H as (es & HE & -> & HS).
  destruct es as [|e1 [|e2 [|]]]; try discriminate HE. cbn [map] in HE.
  apply cons_eq in HE. destruct HE as [H1 HE]. apply cons_eq in HE. destruct HE as [H2 _].
  apply elem_struct; [exact HS|]. cbn [List.concat].
  rewrite (elem_parse _ uTime _ e1 _ _ (R nb e1 H1)). cbn [rbind].
  rewrite (elem_parse _ uTime _ e2 _ _ (R na e2 H2)). reflexivity.
Qed.

Lemma tbs_rt : forall serial oid pi ri nb na ps rs k ek exts e,
  fieldTBS (mkTBS [] 2 (Some serial) (mkAlg oid zeroRaw) (mkRaw 0 0 false [] pi) (UTC nb) (UTC na) (mkRaw 0 0 false [] ps) k
                  zeroBits zeroBits (Some exts)) = OK e -> small e ->
  oid_ok oid -> elem uRaw ri pi -> elem uRaw rs ps -> elem uPKI k ek -> Forall ext_ok exts ->
  elem uTBS (mkTBS e 2 (Some serial) (mkAlg oid zeroRaw) ri (mkTime (t_unix nb) 0 0) (mkTime (t_unix na) 0 0) rs k
                   zeroBits zeroBits (Some exts)) e /\ Forall (fun x => small (e_value x)) exts.
Proof.
  intros serial oid pi ri nb na ps rs k ek exts e H HL Ho Hi Hs Hk Hx. unfold fieldTBS in H.
  cbn [tb_raw tb_version tb_serial tb_alg tb_issuer tb_notBefore tb_notAfter tb_subject tb_key tb_uid tb_suid tb_exts] in H.
  rewrite rawStruct_nil in H. apply marshalStruct_inv in H; [|exact HL]. destruct H as (es & HE & -> & HS).
  destruct es as [|e1 [|e2 [|e3 [|e4 [|e5 [|e6 [|e7 [|e8 [|e9 [|e10 [|]]]]]]]]]]]; try discriminate HE. cbn [map] in HE.
  apply cons_eq in HE. destruct HE as [H1 HE]. apply cons_eq in HE. destruct HE as [H2 HE]. apply cons_eq in HE. destruct HE as [H3 HE].
  apply cons_eq in HE. destruct HE as [H4 HE]. apply cons_eq in HE. destruct HE as [H5 HE]. apply cons_eq in HE. destruct HE as [H6 HE].
  apply cons_eq in HE. destruct HE as [H7 HE]. apply cons_eq in HE. destruct HE as [H8 HE]. apply cons_eq in HE. destruct HE as [H9 HE].
  apply cons_eq in HE. destruct HE as [H10 _].
  set (es := [e1; e2; e3; e4; e5; e6; e7; e8; e9; e10]) in *.
  assert (SM : forall x, In x es -> small x) by (intros; apply (small_concat es); assumption).
  rewrite makeRaw_full in H4 by (apply elem_nonempty in Hi; exact Hi). apply ok_inj in H4. subst e4.
  rewrite makeRaw_full in H6 by (apply elem_nonempty in Hs; exact Hs). apply ok_inj in H6. subst e6.
  rewrite (pki_full k ek Hk) in H7. apply ok_inj in H7. subst e7.
  change (isZeroBits zeroBits) with true in H8, H9. unfold makeField in H8, H9. cbn [optTag fp_optional andb] in H8, H9.
  apply ok_inj in H8. apply ok_inj in H9. subst e8 e9.
  change (2 =? 0) with false in H1.
  apply explicit_inv in H1; [|reflexivity|lia|unfold TagInteger; lia|apply SM; left; reflexivity].
  destruct H1 as (b1 & B1 & -> & L1 & _). apply ok_inj in B1. subst b1.
  apply explicit_inv in H10; [|reflexivity|lia|unfold TagSequence; lia|apply SM; unfold es; do 9 right; left; reflexivity].
  destruct H10 as (b10 & B10 & -> & L10 & L10').
  apply makeFields_inv in B10. destruct B10 as (xs & HX & ->). apply map_OK_inv in HX.
  assert (XS : Forall2 (elem uExtension) exts xs /\ Forall (fun x => small (e_value x)) exts).
  { assert (SX : forall x, In x xs -> small x) by (intros; apply (small_concat xs); assumption).
    clear -HX SX Hx. induction HX as [|x ex exts xs Hf HX IH]; [split; constructor|].
    inversion Hx as [|? ? Hx1 Hx2]; subst. destruct IH as [I1 I2]; [exact Hx2|intros; apply SX; right; assumption|].
    split; constructor; [|exact I1| |exact I2].
    - apply extension_rt; [exact Hf|apply SX; left; reflexivity|exact Hx1].
    - assert (Sx : small ex) by (apply SX; left; reflexivity). unfold fieldExtension in Hf.
      apply marshalStruct_inv in Hf; [|exact Sx]. destruct Hf as (ys & HY & _ & SY).
      destruct ys as [|y1 [|y2 [|y3 [|]]]]; try discriminate HY. cbn [map] in HY.
      apply cons_eq in HY. destruct HY as [_ HY]. apply cons_eq in HY. destruct HY as [_ HY]. apply cons_eq in HY. destruct HY as [HY _].
      assert (S3 : small y3) by (apply (small_concat [y1; y2; y3]); [exact SY|right; right; left; reflexivity]).
      destruct (fieldPrim_inv TagOctetString (e_value x) y3 HY) as [_ L]; [unfold TagOctetString; lia|exact S3|exact L]. }
  destruct XS as [XS XV]. split; [|exact XV].
  apply elem_struct; [exact HS|]. unfold es. cbn [List.concat app].
  rewrite (explicit_field _ uInt 0 0 TagInteger false (int64Bytes 2) _ 2);
    [|lia|unfold TagInteger; lia|exact L1|reflexivity|reflexivity|reflexivity|reflexivity].
  cbn [rbind].
  rewrite (elem_parse _ uBigInt serial e2) by (apply fieldBigInt_rt; [exact H2|apply SM; right; left; reflexivity]). cbn [rbind].
  rewrite (elem_parse _ uAlg (mkAlg oid zeroRaw) e3) by (apply alg_rt; [exact H3|apply SM; do 2 right; left; reflexivity|exact Ho]). cbn [rbind].
  rewrite (elem_parse _ uRaw ri pi _ _ Hi). cbn [rbind].
  rewrite (elem_parse _ uValidity _ e5 _ _ (validity_rt nb na e5 H5 ltac:(apply SM; do 4 right; left; reflexivity))). cbn [rbind fst snd].
  rewrite (elem_parse _ uRaw rs ps _ _ Hs). cbn [rbind].
  rewrite (elem_parse _ uPKI k ek _ _ Hk). cbn [rbind].
  rewrite (tag_absent _ uBits zeroBits 1 2 3 true); [|split; lia|exact L10|reflexivity|right; lia]. cbn [rbind].
  rewrite (tag_absent _ uBits zeroBits 2 2 3 true); [|split; lia|exact L10|reflexivity|right; lia]. cbn [rbind].
  rewrite (explicit_field _ (uSlice uExtension zeroExt false) None 3 TagSequence true (List.concat xs) [] (Some exts));
    [|lia|unfold TagSequence; lia|exact L10|reflexivity|reflexivity|reflexivity|].
  - reflexivity.
  - intros. cbn [u_body uSlice]. rewrite (parse_sequence _ uExtension zeroExt exts xs) by exact XS. reflexivity.
Qed.

(** * C80: certificates read back *)
Section Env.
Variable E : netEnv.

(** The attributes that the subject of a certificate has: its raw bytes win over its name. *)
Definition subject_is (cert : Certificate E) (s : list (list ATV)) : Prop :=
  match c_RawSubject E cert with
  | [] => name_ok (c_Subject E cert) /\ s = ToRDNSequence (c_Subject E cert)
  | raw => elem uRDNSequence s raw
  end.
Lemma subject_elem : forall cert s b, subject_is cert s -> subjectBytes E cert = OK b -> small b -> elem uRDNSequence s b.
Proof.
  intros cert s b HS HB HL. unfold subject_is in HS. unfold subjectBytes in HB. destruct (c_RawSubject E cert).
  - destruct HS as [HN ->]. apply C79_rdn_sequence; [exact HB|exact HL|apply ToRDN_ok; exact HN].
  - apply ok_inj in HB. subst b. exact HS.
Qed.

Lemma subject_nonempty : forall cert s b, subject_is cert s -> subjectBytes E cert = OK b -> b <> [].
Proof.
  intros cert s b HS HB. unfold subject_is in HS. unfold subjectBytes in HB. destruct (c_RawSubject E cert).
  - unfold marshalRDNSequence, fieldSlice in HB. apply makeField_plain in HB; try reflexivity. destruct HB as (bd & _ & ->). intros K. discriminate K.
  - apply ok_inj in HB. subst b. discriminate.
Qed.
Lemma tbs_parts : forall serial oid pi nb na ps k exts e,
  fieldTBS (mkTBS [] 2 (Some serial) (mkAlg oid zeroRaw) (mkRaw 0 0 false [] pi) nb na (mkRaw 0 0 false [] ps) k
                  zeroBits zeroBits (Some exts)) = OK e -> small e -> pi <> [] -> ps <> [] -> small pi /\ small ps.
Proof.
  intros serial oid pi nb na ps k exts e H HL Hi Hs. unfold fieldTBS in H. cbn [tb_raw tb_issuer tb_subject] in H.
  rewrite !makeRaw_full in H by assumption. rewrite rawStruct_nil in H.
  apply marshalStruct_inv in H; [|exact HL]. destruct H as (es & HE & _ & HS).
  assert (I : forall x, In (OK x) (map OK es) -> small x).
  { intros x Hx. apply in_map_iff in Hx. destruct Hx as (y & Hy & Hin). apply ok_inj in Hy. subst y. apply (small_concat es); assumption. }
  rewrite <- HE in I. split; apply I; [do 3 right; left; reflexivity|do 5 right; left; reflexivity].
Qed.
Lemma asked_ok : forall f akid id, asked E f akid id -> oid_ok id.
Proof.
  intros f akid id H. unfold asked in H.
  assert (K : In id ten_ids) by (unfold ten_ids; cbn [In]; intuition).
  revert K. apply Forall_forall. unfold ten_ids. repeat (constructor; [unfold oid_ok; repeat first [split | lia | constructor]|]). constructor.
Qed.

(** The key that a parsed request carries. *)
Definition request_key (csr : CertificateRequest E) (pub : PublicKey) : Prop :=
  exists k, elem uPKI k (r_RawSPKI E csr) /\ alg_oid (pki_alg k) = oidPublicKeyECDSA /\ parsePublicKey k = OK pub.

Lemma gbind_ok : forall A B (x : go (res A)) (f : A -> go (res B)) b, gbind x f = Ret (OK b) -> exists a, x = Ret (OK a) /\ f a = Ret (OK b).
Proof. intros A B x f b H. destruct x as [[a|m]|k]; try discriminate H. exists a. split; [reflexivity|exact H]. Qed.

Lemma info_inv : forall t parent csr info, CreateCertificateInfo E t parent csr = Ret (OK info) ->
  exists serial iss subj exts k, c_SerialNumber E t = Some serial /\ subjectBytes E parent = OK iss /\ subjectBytes E t = OK subj /\
    buildExtensions E t (oidEqual subj emptyASN1Subject)
      (if negb (oidEqual iss subj) && (0 <? zlen (f_SubjectKeyId E (c_fields E parent)))
       then f_SubjectKeyId E (c_fields E parent) else f_AuthorityKeyId E (c_fields E t)) = Ret (OK exts) /\
    unmarshal uPKI zeroPKI (r_RawSPKI E csr) = OK (k, []) /\
    let c raw := mkTBS raw 2 (Some serial) (mkAlg oidSignatureSM3WithSM2 zeroRaw) (mkRaw 0 0 false [] iss)
                       (UTC (c_NotBefore E t)) (UTC (c_NotAfter E t)) (mkRaw 0 0 false [] subj) k zeroBits zeroBits (Some exts) in
    exists raw, fieldTBS (c []) = OK raw /\ info = c raw.
Proof.
  intros t parent csr info H. unfold CreateCertificateInfo in H.
  destruct (c_SerialNumber E t) as [serial|]; [|discriminate H].
  apply gbind_ok in H. destruct H as (iss & H1 & H). apply gbind_ok in H. destruct H as (subj & H2 & H). cbv zeta in H.
  apply gbind_ok in H. destruct H as (exts & H3 & H). apply gbind_ok in H. destruct H as ([k rest] & H4 & H).
  destruct rest as [|x rest]; [|cbn [negb] in H; rewrite zlen_cons in H; pose proof (zlen_nonneg _ rest);
    rewrite (proj2 (Z.eqb_neq (zlen rest + 1) 0)) in H by lia; discriminate H].
  change (negb (zlen (@nil Z) =? 0)) with false in H. cbv iota in H.
  apply gbind_ok in H. destruct H as (raw & H5 & H). apply ret_inj in H. apply ok_inj in H.
  apply ret_inj in H1. apply ret_inj in H2. apply ret_inj in H4. apply ret_inj in H5.
  exists serial, iss, subj, exts, k. split; [reflexivity|]. split; [exact H1|]. split; [exact H2|]. split; [exact H3|].
  split; [exact H4|]. exists raw. split; [exact H5|symmetry; exact H].
Qed.

(** The serial number, validity in whole seconds, names, key and extensions of the template come back. *)
Theorem C80_certificate : forall t parent csr info ca id tape e rest ss si pub uris' serial,
  CreateCertificateInfo E t parent csr = Ret (OK info) -> IssueCertificateBySoftCAKey info ca id tape = Ret (OK e, rest) ->
  bytes e -> small e -> c_SerialNumber E t = Some serial ->
  subject_is t ss -> subject_is parent si -> request_key csr pub ->
  template_ok E (c_fields E t) uris' -> Forall ext_ok (c_ExtraExtensions E t) ->
  (forall x, In x (c_ExtraExtensions E t) -> ~ In (e_id x) ten_ids) ->
  exists exts iss subj sig,
    subjectBytes E parent = OK iss /\ subjectBytes E t = OK subj /\
    let akid := if negb (oidEqual iss subj) && (0 <? zlen (f_SubjectKeyId E (c_fields E parent)))
                then f_SubjectKeyId E (c_fields E parent) else f_AuthorityKeyId E (c_fields E t) in
    e = tlv 48 (tb_raw info ++ sm2sm3_alg ++ tlv 3 (0 :: sig)) /\ tb_exts info = Some exts /\
    ParseCertificate E e =
    Ret (OK (mkX509 E e (tb_raw info) (r_RawSPKI E csr) subj iss sig 0 0 (KeySM2 pub) 3 (Some serial)
               (FillFromRDNSequence zeroName si) (FillFromRDNSequence zeroName ss)
               (mkTime (t_unix (c_NotBefore E t)) 0 0) (mkTime (t_unix (c_NotAfter E t)) 0 0)
               exts [] (map e_id (filter e_critical (c_ExtraExtensions E t)))
               (read_back E (c_fields E t) akid uris'))).
Proof.
  intros t parent csr info ca id tape e rest ss si pub uris' serial HI HC HB HL HSer HSs HSi (k & Hk & Hka & Hkp) HT HX HXn.
  destruct (info_inv _ _ _ _ HI) as (serial' & iss & subj & exts & k' & S1 & S2 & S3 & S4 & S5 & raw & S6 & ->). cbv zeta in *.
  rewrite HSer in S1. injection S1 as <-.
  assert (HLi : small raw).
  { destruct (issue_inv _ _ _ _ _ _ HC) as (sig & _ & HCC). unfold CreateCertificate, fieldCert in HCC. cbn [ct_raw ct_tbs ct_alg ct_sig] in HCC.
    unfold fieldTBS at 1 in HCC. cbn [tb_raw] in HCC. pose proof S6 as S6'. unfold fieldTBS in S6'. cbn [tb_raw] in S6'. rewrite rawStruct_nil in S6'.
    assert (NE : raw <> []).
    { unfold marshalStruct in S6'. apply makeField_plain in S6'; try reflexivity. destruct S6' as (bd & _ & ->). intros K. discriminate K. }
    destruct (signed_struct _ _ _ _ HCC HL NE) as (c & -> & _ & _ & SC & LC).
    destruct (struct_small _ _ S6' LC) as (c' & -> & _ & EC). rewrite EC in SC. exact SC. }
  assert (k' = k) as ->.
  { rewrite <- (app_nil_r (r_RawSPKI E csr)) in S5. rewrite (elem_unmarshal _ uPKI k _ _ _ Hk) in S5. congruence. }
  destruct (issue_inv _ _ _ _ _ _ HC) as (sig & C1 & C2). cbn [tb_raw] in *.
  unfold CreateCertificate, fieldCert in C2. cbn [ct_raw ct_tbs ct_alg ct_sig] in C2.
  assert (O : oid_ok oidSignatureSM3WithSM2) by exact sigalg_oid_ok.
  assert (SRAW : small raw) by exact HLi.
  assert (SX : Forall ext_ok exts).
  { destruct (C67_extensions E t _ _ exts S4) as (gen & -> & _ & _ & G). apply Forall_app. split; [|exact HX].
    apply Forall_forall. intros x Hx. destruct (proj1 (G (e_id x)) (in_map e_id gen x Hx)) as [A _]. apply asked_ok in A. exact A. }
  assert (ELS : forall pi ps, subjectBytes E parent = OK pi -> subjectBytes E t = OK ps -> small pi -> small ps ->
     elem uRDNSequence si pi /\ elem uRDNSequence ss ps).
  { intros pi ps A B SA SB. split; eapply subject_elem; eassumption. }
  destruct (tbs_parts _ _ _ _ _ _ _ _ _ S6 SRAW) as [Spi Sps]; [apply (subject_nonempty parent si); assumption|apply (subject_nonempty t ss); assumption|].
  destruct (ELS iss subj S2 S3 Spi Sps) as [Ei Es]. clear ELS.
  destruct (elem_is_raw _ _ _ _ Ei) as (ri & Ri & Rif). destruct (elem_is_raw _ _ _ _ Es) as (rs & Rs & Rsf).
  destruct (tbs_rt _ _ _ ri _ _ _ rs _ _ _ _ S6 SRAW O Ri Rs Hk SX) as [ET XV].
  assert (RAW : fieldTBS (mkTBS raw 2 (Some serial) (mkAlg oidSignatureSM3WithSM2 zeroRaw) (mkRaw 0 0 false [] iss)
                       (UTC (c_NotBefore E t)) (UTC (c_NotAfter E t)) (mkRaw 0 0 false [] subj) k zeroBits zeroBits (Some exts)) = OK raw).
  { unfold fieldTBS. cbn [tb_raw]. apply (struct_full _ _ _ _ _ ET). }
  rewrite RAW in C2. rewrite rawStruct_nil in C2.
  apply marshalStruct_inv in C2; [|exact HL]. destruct C2 as (es & HE & -> & HS).
  destruct es as [|e1 [|e2 [|e3 [|]]]]; try discriminate HE. cbn [map] in HE.
  apply cons_eq in HE. destruct HE as [H1 HE]. apply cons_eq in HE. destruct HE as [H2 HE]. apply cons_eq in HE. destruct HE as [H3 _].
  apply ok_inj in H1. subst e1. rewrite sigalg_bytes in H2. apply ok_inj in H2. subst e2.
  assert (S9 : small e3) by (apply (small_concat [raw; sm2sm3_alg; e3]); [exact HS|right; right; left; reflexivity]).
  assert (B3 : e3 = tlv 3 (0 :: sig)).
  { unfold fieldBits in H3. change (mkBits sig (zlen sig * 8)) with (whole sig) in H3. rewrite whole_bits in H3.
    destruct (fieldPrim_inv TagBitString (0 :: sig) e3 H3) as [-> _]; [unfold TagBitString; lia|exact S9|reflexivity]. }
  cbn [List.concat] in HS. rewrite app_nil_r in HS.
  assert (BS : bytes sig).
  { cbn [List.concat] in HB. apply bytes_in_tlv in HB. rewrite B3 in HB. apply bytes_app in HB. destruct HB as [_ HB]. apply bytes_app in HB. destruct HB as [_ HB].
    apply bytes_app in HB. destruct HB as [HB _]. apply bytes_in_tlv in HB. apply bytes_cons in HB. apply HB. }
  exists exts, iss, subj, sig. split; [exact S2|]. split; [exact S3|]. cbv zeta.
  cbn [List.concat]. rewrite app_nil_r. change (ident 0 16 true) with 48. split; [rewrite B3; reflexivity|]. split; [reflexivity|].
  set (T := mkTBS raw 2 (Some serial) _ ri _ _ rs k zeroBits zeroBits (Some exts)) in ET.
  assert (EC : elem uCert (mkCert (tlv 48 (raw ++ sm2sm3_alg ++ e3)) T (mkAlg oidSignatureSM3WithSM2 zeroRaw) (whole sig)) (tlv 48 (raw ++ sm2sm3_alg ++ e3))).
  { change 48 with (ident 0 16 true). apply elem_struct; [exact HS|].
    rewrite (elem_parse _ uTBS T raw _ _ ET). cbn [rbind]. rewrite (elem_parse _ uAlg _ _ _ _ sigalg_elem). cbn [rbind].
    assert (PB : parseField uBits zeroBits noParams e3 = OK (whole sig, [])).
    { rewrite <- (app_nil_r e3). apply elem_parse. apply fieldBits_rt; [exact H3|exact S9|apply bits_ok_whole; exact BS]. }
    rewrite PB. reflexivity. }
  unfold ParseCertificate. rewrite <- (app_nil_r (tlv 48 _)) at 1. rewrite (elem_unmarshal _ uCert _ _ _ _ EC). cbn [gbind].
  change (negb (zlen (@nil Z) =? 0)) with false. cbv iota. unfold parseCertificate. cbn [ct_tbs ct_alg ct_raw ct_sig alg_oid].
  rewrite oidEqual_refl. cbn [negb]. unfold T. cbn [tb_key tb_subject tb_issuer tb_exts tb_raw tb_version tb_serial tb_notBefore tb_notAfter].
  rewrite Hka, oidEqual_refl. cbn [negb]. rewrite Hkp. cbn [gbind].
  rewrite Rsf, (elem_all _ _ _ _ _ Es). cbn [gbind]. rewrite Rif, (elem_all _ _ _ _ _ Ei). cbn [gbind].
  rewrite (C77_extensions E t _ _ exts uris' HT S4 XV HXn). cbn [gbind].
  rewrite (uPKI_raw _ _ Hk). unfold whole at 1. rewrite rightAlign_whole. reflexivity.
Qed.

(** * What the parsers accept *)

Lemma struct_step : forall A (body : list Z -> list Z -> res A) B zero l (f : A * list Z -> res B) (v : B),
  bytes l -> rbind (parseField (uStruct body) zero noParams l) f = OK v ->
  exists a e r, l = e ++ r /\ elem (uStruct body) a e /\ bytes e /\ bytes r /\ f (a, r) = OK v.
Proof.
  intros A body B zero l f v HB H. destruct (parseField (uStruct body) zero noParams l) as [[a r]|m] eqn:EP; [|discriminate H]. cbn [rbind] in H.
  destruct (unmarshal_elem A body zero l a r HB EP) as (e & -> & HE). apply bytes_app in HB.
  exists a, e, r. split; [reflexivity|]. split; [exact HE|]. split; [apply HB|]. split; [apply HB|exact H].
Qed.
(** The signed part of a request is the first element in it. *)
Lemma csr_elem : forall c e, elem uCsr c e -> bytes e ->
  exists more, e = tlv 48 (tr_raw (cr_tbs c) ++ more) /\ cr_raw c = e /\ elem uTbsCSR (cr_tbs c) (tr_raw (cr_tbs c)) /\ bytes (tr_raw (cr_tbs c)).
Proof.
  intros c e H HB. destruct (elem_seq _ _ _ _ H) as (d & -> & HL & HD). apply bytes_in_tlv in HB.
  apply (struct_step _ _ _ zeroTbsCSR d _ c HB) in HD. destruct HD as (t & et & r & -> & HT & BT & BR & HD). cbv beta iota in HD.
  apply (struct_step _ _ _ zeroAlg r _ c BR) in HD. destruct HD as (a & ea & r2 & -> & HA & BA & BR2 & HD). cbv beta iota in HD.
  destruct (parseField uBits zeroBits noParams r2) as [[s r3]|m]; [|discriminate HD]. cbn [rbind] in HD. apply ok_inj in HD. subst c.
  cbn [cr_tbs cr_raw].
  assert (R : tr_raw t = et).
  { destruct (elem_seq _ _ _ _ HT) as (d' & -> & _ & HD'). apply bytes_in_tlv in BT.
    destruct (parseField uInt 0 noParams d') as [[v l1]|m1]; [|discriminate HD']. cbn [rbind] in HD'.
    destruct (parseField uRaw zeroRaw noParams l1) as [[v2 l2]|m2]; [|discriminate HD']. cbn [rbind] in HD'.
    destruct (parseField uPKI zeroPKI noParams l2) as [[v3 l3]|m3]; [|discriminate HD']. cbn [rbind] in HD'.
    destruct (parseField _ [] tag0 l3) as [[v4 l4]|m4]; [|discriminate HD']. cbn [rbind] in HD'. apply ok_inj in HD'. subst t. reflexivity. }
  rewrite R. exists (ea ++ r2). split; [reflexivity|]. split; [reflexivity|]. split; [exact HT|exact BT].
Qed.

(** What a parsed request is made of. *)
Lemma tbsCsr_elem : forall t e, elem uTbsCSR t e -> bytes e ->
  tr_raw t = e /\ elem uPKI (tr_key t) (pki_raw (tr_key t)) /\ bytes (pki_raw (tr_key t)) /\
  bytes (rv_full (tr_subject t)) /\ Forall (fun a => bytes (rv_full a)) (tr_attrs t).
Proof.
  intros t e H HB. destruct (elem_seq _ _ _ _ H) as (d & -> & HL & HD). apply bytes_in_tlv in HB.
  destruct (parseField uInt 0 noParams d) as [[v l1]|m1] eqn:E1; [|discriminate HD]. cbn [rbind] in HD.
  destruct (field_sat' _ _ _ _ _ _ _ _ (any_sat _ uInt) I HB E1) as [_ B1].
  destruct (parseField uRaw zeroRaw noParams l1) as [[v2 l2]|m2] eqn:E2; [|discriminate HD]. cbn [rbind] in HD.
  assert (R0 : bytes (rv_full zeroRaw) /\ bytes (rv_bytes zeroRaw)) by (split; constructor).
  destruct (field_sat' _ _ _ _ _ _ _ _ raw_sat R0 B1 E2) as [[BS _] B2].
  apply (struct_step _ _ _ zeroPKI l2 _ t B2) in HD. destruct HD as (k & ek & l3 & -> & HK & BK & B3 & HD). cbv beta iota in HD.
  destruct (parseField (uList uRaw zeroRaw false) [] tag0 l3) as [[v4 l4]|m4] eqn:E4; [|discriminate HD]. cbn [rbind] in HD. apply ok_inj in HD. subst t.
  destruct (field_sat' _ _ _ _ _ _ _ _ (list_sat _ uRaw _ zeroRaw false raw_sat R0) (Forall_nil _) B3 E4) as [FA _].
  cbn [tr_raw tr_key tr_subject tr_attrs]. rewrite (uPKI_raw _ _ HK).
  split; [reflexivity|]. split; [exact HK|]. split; [exact BK|]. split; [exact BS|].
  revert FA. apply Forall_impl. intros a [Ha _]. exact Ha.
Qed.

Lemma oidEqual_sym_eq : forall a b, negb (oidEqual a b) = false -> b = a.
Proof. intros a b H. apply negb_false_iff in H. symmetry. apply oidEqual_eq. exact H. Qed.
Lemma parsed_request : forall der csr, ParseCertificateRequest E der = Ret (OK csr) -> bytes der ->
  exists c pub more, elem uCsr c der /\ der = tlv 48 (r_RawTBS E csr ++ more) /\ r_Raw E csr = der /\
    r_RawTBS E csr = tr_raw (cr_tbs c) /\ elem uTbsCSR (cr_tbs c) (r_RawTBS E csr) /\ bytes (r_RawTBS E csr) /\
    alg_oid (cr_alg c) = oidSignatureSM3WithSM2 /\
    r_RawSPKI E csr = pki_raw (tr_key (cr_tbs c)) /\ r_PublicKey E csr = KeySM2 pub /\ request_key csr pub /\
    r_Signature E csr = rightAlign (cr_sig c) /\ r_ExtraExtensions E csr = [] /\
    r_PublicKeyAlgorithm E csr = 0 /\ parseCSRExtensions (tr_attrs (cr_tbs c)) = OK (r_Extensions E csr) /\
    requestSANs E (r_Extensions E csr) (zeroAlt E) = Ret (OK (r_SAN E csr)).
Proof.
  intros der csr H HB. unfold ParseCertificateRequest in H. apply gbind_ok in H. destruct H as ([c rest] & H1 & H).
  apply ret_inj in H1. destruct (unmarshal_elem _ _ _ _ _ _ HB H1) as (e & -> & HE).
  destruct rest as [|x rest]; [|cbn [negb] in H; rewrite zlen_cons in H; pose proof (zlen_nonneg _ rest);
    rewrite (proj2 (Z.eqb_neq (zlen rest + 1) 0)) in H by lia; discriminate H].
  change (negb (zlen (@nil Z) =? 0)) with false in H. cbv iota in H. rewrite app_nil_r in *.
  unfold parseCertificateRequest in H.
  destruct (negb (oidEqual oidSignatureSM3WithSM2 _)) eqn:A1; [discriminate H|]. apply oidEqual_sym_eq in A1.
  destruct (negb (oidEqual oidPublicKeyECDSA _)) eqn:A2; [discriminate H|]. apply oidEqual_sym_eq in A2.
  apply gbind_ok in H. destruct H as (pub & H2 & H). apply ret_inj in H2.
  apply gbind_ok in H. destruct H as ([subject rest'] & H3 & H). destruct (negb (zlen rest' =? 0)); [discriminate H|].
  apply gbind_ok in H. destruct H as (exts & H4 & H). apply ret_inj in H4. apply gbind_ok in H. destruct H as (san & H5 & H).
  apply ret_inj in H. apply ok_inj in H. subst csr. cbn [r_Raw r_RawTBS r_RawSPKI r_PublicKey r_Signature r_ExtraExtensions r_PublicKeyAlgorithm r_Extensions r_SAN].
  destruct (csr_elem c e HE HB) as (more & M1 & M2 & M3 & M4). destruct (tbsCsr_elem _ _ M3 M4) as (_ & K1 & _).
  exists c, pub, more. split; [exact HE|]. split; [exact M1|]. split; [exact M2|]. split; [reflexivity|]. split; [exact M3|]. split; [exact M4|].
  split; [exact A1|]. split; [reflexivity|]. split; [reflexivity|].
  split; [exists (tr_key (cr_tbs c)); split; [exact K1|]; split; assumption|]. split; [reflexivity|].
  split; [reflexivity|]. split; [reflexivity|]. split; [exact H4|exact H5].
Qed.

(** * C73: what a request can influence *)

(** Filling changes exactly six of the fields of the template. *)
Theorem C73_fill : forall t csr, let t' := FillCertificateTemplateByCSR E t csr in
  c_Subject E t' = r_Subject E csr /\ c_PublicKey E t' = r_PublicKey E csr /\ c_PublicKeyAlgorithm E t' = r_PublicKeyAlgorithm E csr /\
  f_SAN E (c_fields E t') = r_SAN E csr /\ c_Extensions E t' = r_Extensions E csr /\ c_ExtraExtensions E t' = r_ExtraExtensions E csr /\
  c_Raw E t' = c_Raw E t /\ c_RawTBS E t' = c_RawTBS E t /\ c_RawSPKI E t' = c_RawSPKI E t /\ c_RawSubject E t' = c_RawSubject E t /\
  c_RawIssuer E t' = c_RawIssuer E t /\ c_Signature E t' = c_Signature E t /\ c_SignatureAlgorithm E t' = c_SignatureAlgorithm E t /\
  c_Version E t' = c_Version E t /\ c_SerialNumber E t' = c_SerialNumber E t /\ c_Issuer E t' = c_Issuer E t /\
  c_NotBefore E t' = c_NotBefore E t /\ c_NotAfter E t' = c_NotAfter E t /\ c_Unhandled E t' = c_Unhandled E t /\
  forall san, set_SAN E san (c_fields E t') = set_SAN E san (c_fields E t).
Proof. intros t csr t'. unfold t', FillCertificateTemplateByCSR. cbn. repeat (split; [reflexivity|]). intros san. reflexivity. Qed.

(** The extensions of a certificate made from a filled template are of the kinds that the template
    itself asks for, or subject alternative names: a request cannot bring its own extensions. *)
Theorem C73_only_generated : forall t parent der csr info exts, bytes der -> ParseCertificateRequest E der = Ret (OK csr) ->
  CreateCertificateInfo E (FillCertificateTemplateByCSR E t csr) parent csr = Ret (OK info) -> tb_exts info = Some exts ->
  NoDup (map e_id exts) /\ exists akid, forall id, In id (map e_id exts) <-> asked E (set_SAN E (r_SAN E csr) (c_fields E t)) akid id.
Proof.
  intros t parent der csr info exts HB HP HI HX. destruct (parsed_request der csr HP HB) as (c & pub & more & _ & _ & _ & _ & _ & _ & _ & _ & _ & _ & _ & X & _).
  destruct (info_inv _ _ _ _ HI) as (serial & iss & subj & exts' & k & _ & _ & _ & HE & _ & raw & _ & ->). cbn [tb_exts] in HX. injection HX as ->.
  destruct (C67_extensions E _ _ _ _ HE) as (gen & -> & _ & ND & HG). change (c_ExtraExtensions E (FillCertificateTemplateByCSR E t csr)) with (r_ExtraExtensions E csr) in *.
  rewrite X in *. rewrite app_nil_r. split; [exact ND|]. change (c_fields E (FillCertificateTemplateByCSR E t csr)) with (set_SAN E (r_SAN E csr) (c_fields E t)) in HG.
  eexists. intros id. split; [intros K; apply HG in K; exact (proj1 K)|intros K; apply HG; split; [exact K|intros []]].
Qed.

Lemma gather_filter : forall (p : list Z -> bool) l es, gather l = Ret (OK es) ->
  gather (filter (fun s => p (s_id s)) l) = Ret (OK (filter (fun e => p (e_id e)) es)).
Proof.
  intros p. induction l as [|s r IH]; intros es H; cbn [gather] in H; [injection H as <-; reflexivity|]. cbn [filter].
  destruct (s_cond s) eqn:Ec.
  - apply gbind_ok in H. destruct H as (v & Hv & H). apply gbind_ok in H. destruct H as (es' & He & H). apply ret_inj in H. apply ok_inj in H. subst es.
    cbn [filter e_id]. destruct (p (s_id s)); [|apply IH; exact He]. cbn [gather]. rewrite Ec, Hv. cbn [gbind]. rewrite (IH _ He). reflexivity.
  - destruct (p (s_id s)); [cbn [gather]; rewrite Ec|]; apply IH; exact H.
Qed.
Definition notSAN (id : list Z) : bool := negb (oidEqual id [2; 5; 29; 17]).
(** Two requests for the same subject, put into the same template, give the same certificate
    contents except for the key and the subject alternative names. The subject does not matter if the
    template fixes its raw bytes. *)
Theorem C73_noninterference : forall t parent der1 der2 csr1 csr2 info1 info2, bytes der1 -> bytes der2 ->
  ParseCertificateRequest E der1 = Ret (OK csr1) -> ParseCertificateRequest E der2 = Ret (OK csr2) ->
  (r_Subject E csr1 = r_Subject E csr2 \/ c_RawSubject E t <> []) ->
  CreateCertificateInfo E (FillCertificateTemplateByCSR E t csr1) parent csr1 = Ret (OK info1) ->
  CreateCertificateInfo E (FillCertificateTemplateByCSR E t csr2) parent csr2 = Ret (OK info2) ->
  tb_version info1 = tb_version info2 /\ tb_serial info1 = tb_serial info2 /\ tb_alg info1 = tb_alg info2 /\ tb_issuer info1 = tb_issuer info2 /\
  tb_notBefore info1 = tb_notBefore info2 /\ tb_notAfter info1 = tb_notAfter info2 /\ tb_subject info1 = tb_subject info2 /\
  tb_uid info1 = tb_uid info2 /\ tb_suid info1 = tb_suid info2 /\
  exists exts1 exts2, tb_exts info1 = Some exts1 /\ tb_exts info2 = Some exts2 /\
    filter (fun e => notSAN (e_id e)) exts1 = filter (fun e => notSAN (e_id e)) exts2 /\
    (r_SAN E csr1 = r_SAN E csr2 -> exts1 = exts2).
Proof.
  intros t parent der1 der2 csr1 csr2 info1 info2 HB1 HB2 HP1 HP2 HS HI1 HI2.
  destruct (parsed_request der1 csr1 HP1 HB1) as (_ & _ & _ & _ & _ & _ & _ & _ & _ & _ & _ & _ & _ & _ & X1 & _).
  destruct (parsed_request der2 csr2 HP2 HB2) as (_ & _ & _ & _ & _ & _ & _ & _ & _ & _ & _ & _ & _ & _ & X2 & _).
  destruct (info_inv _ _ _ _ HI1) as (serial & iss & subj & exts & k & S1 & I1 & U1 & E1 & _ & raw & _ & ->).
  destruct (info_inv _ _ _ _ HI2) as (serial2 & iss2 & subj2 & exts2 & k2 & S2 & I2 & U2 & E2 & _ & raw2 & _ & ->).
  cbn [tb_version tb_serial tb_alg tb_issuer tb_notBefore tb_notAfter tb_subject tb_uid tb_suid tb_exts].
  change (c_SerialNumber E t = Some serial) in S1. change (c_SerialNumber E t = Some serial2) in S2. rewrite S1 in S2. injection S2 as <-.
  rewrite I1 in I2. apply ok_inj in I2. subst iss2.
  assert (SE : subj2 = subj).
  { unfold subjectBytes in U1, U2. change (c_RawSubject E (FillCertificateTemplateByCSR E t csr1)) with (c_RawSubject E t) in U1.
    change (c_RawSubject E (FillCertificateTemplateByCSR E t csr2)) with (c_RawSubject E t) in U2.
    change (c_Subject E (FillCertificateTemplateByCSR E t csr1)) with (r_Subject E csr1) in U1.
    change (c_Subject E (FillCertificateTemplateByCSR E t csr2)) with (r_Subject E csr2) in U2.
    destruct (c_RawSubject E t) as [|b raw0]; [|rewrite U1 in U2; apply ok_inj in U2; congruence].
    destruct HS as [HS|HS]; [|congruence]. rewrite HS in U1. rewrite U1 in U2. apply ok_inj in U2. congruence. }
  subst subj2. do 9 (split; [reflexivity|]). exists exts, exts2. split; [reflexivity|]. split; [reflexivity|].
  change (f_AuthorityKeyId E (c_fields E (FillCertificateTemplateByCSR E t csr1))) with (f_AuthorityKeyId E (c_fields E t)) in E1.
  change (f_AuthorityKeyId E (c_fields E (FillCertificateTemplateByCSR E t csr2))) with (f_AuthorityKeyId E (c_fields E t)) in E2.
  set (akid := if negb (oidEqual iss subj) && (0 <? zlen (f_SubjectKeyId E (c_fields E parent))) then _ else _) in E1, E2. set (b := oidEqual subj emptyASN1Subject) in E1, E2.
  rewrite buildExtensions_eq in E1, E2. apply gbind_ok in E1. destruct E1 as (g1 & G1 & E1). apply gbind_ok in E2. destruct E2 as (g2 & G2 & E2).
  apply ret_inj in E1. apply ok_inj in E1. apply ret_inj in E2. apply ok_inj in E2.
  change (c_ExtraExtensions E (FillCertificateTemplateByCSR E t csr1)) with (r_ExtraExtensions E csr1) in E1.
  change (c_ExtraExtensions E (FillCertificateTemplateByCSR E t csr2)) with (r_ExtraExtensions E csr2) in E2.
  rewrite X1, app_nil_r in E1. rewrite X2, app_nil_r in E2. subst g1 g2.
  assert (SL : forall csr, r_ExtraExtensions E csr = [] -> slots E (FillCertificateTemplateByCSR E t csr) b akid =
     slots E (FillCertificateTemplateByCSR E t (mkReq E [] [] [] [] [] 0 0 KeyNil 0 zeroName [] [] [] (r_SAN E csr))) b akid).
  { intros csr X. unfold slots. change (c_ExtraExtensions E (FillCertificateTemplateByCSR E t csr)) with (r_ExtraExtensions E csr). rewrite X. reflexivity. }
  rewrite (SL _ X1) in G1. rewrite (SL _ X2) in G2. split.
  - apply (gather_filter notSAN) in G1. apply (gather_filter notSAN) in G2.
    assert (FE : filter (fun s => notSAN (s_id s)) (slots E (FillCertificateTemplateByCSR E t (mkReq E [] [] [] [] [] 0 0 KeyNil 0 zeroName [] [] [] (r_SAN E csr1))) b akid) =
                 filter (fun s => notSAN (s_id s)) (slots E (FillCertificateTemplateByCSR E t (mkReq E [] [] [] [] [] 0 0 KeyNil 0 zeroName [] [] [] (r_SAN E csr2))) b akid)).
    { unfold slots. cbn [filter s_id]. reflexivity. }
    rewrite FE in G1. rewrite G1 in G2. apply ret_inj in G2. apply ok_inj in G2. exact G2.
  - intros HSAN. rewrite HSAN in G1. rewrite G1 in G2. apply ret_inj in G2. apply ok_inj in G2. exact G2.
Qed.
(** The key in the certificate is the one of the request. *)
Theorem C73_key : forall t parent der csr info, bytes der -> ParseCertificateRequest E der = Ret (OK csr) ->
  CreateCertificateInfo E t parent csr = Ret (OK info) ->
  exists pub, r_PublicKey E csr = KeySM2 pub /\ pki_raw (tb_key info) = r_RawSPKI E csr /\ parsePublicKey (tb_key info) = OK pub.
Proof.
  intros t parent der csr info HB HP HI. destruct (parsed_request der csr HP HB) as (c & pub & more & _ & _ & _ & _ & _ & _ & _ & _ & P1 & (k & Hk & _ & Hp) & _).
  destruct (info_inv _ _ _ _ HI) as (serial & iss & subj & exts' & k' & _ & _ & _ & _ & HU & raw & _ & ->). cbn [tb_key].
  rewrite <- (app_nil_r (r_RawSPKI E csr)) in HU. rewrite (elem_unmarshal _ uPKI _ _ _ _ Hk) in HU. apply ok_inj in HU. injection HU as <-.
  exists pub. split; [exact P1|]. split; [apply (uPKI_raw _ _ Hk)|exact Hp].
Qed.
End Env.

(** * Examples *)

(** A request for the key G and the name A that asks to become a CA and to be called a.b. Its
    signature is (1, 1). *)
Definition ex_key : list Z :=
  tlv 48 (tlv 48 ([6; 7; 42; 134; 72; 206; 61; 2; 1] ++ [6; 8; 42; 129; 28; 207; 85; 1; 130; 45]) ++
          tlv 3 (0 :: 4 :: be_enc 32 curveGx ++ be_enc 32 curveGy)).
Definition ex_name : list Z := tlv 48 (tlv 49 (tlv 48 ([6; 3; 85; 4; 3] ++ [19; 1; 65]))).
Definition ex_exts : list Z :=
  tlv 48 (tlv 48 ([6; 3; 85; 29; 17] ++ tlv 4 (tlv 48 (tlv 130 [97; 46; 98]))) ++
          tlv 48 ([6; 3; 85; 29; 19] ++ [1; 1; 255] ++ tlv 4 (tlv 48 [1; 1; 255]))).
Definition ex_request (attrs more : list Z) : list Z :=
  tlv 48 (tlv 48 ([2; 1; 0] ++ ex_name ++ ex_key ++ tlv 160 attrs) ++ sm2sm3_alg ++ tlv 3 (0 :: tlv 48 [2; 1; 1; 2; 1; 1]) ++ more).
Definition ex_attr : list Z := tlv 48 ([6; 9; 42; 134; 72; 134; 247; 13; 1; 9; 14] ++ tlv 49 ex_exts).
Definition ex_template : Certificate noNet :=
  mkX509 noNet [] [] [] [] [] [] 0 0 KeyNil 0 (Some 77) zeroName zeroName (mkTime 1577836800 5 0) (mkTime 4102444800 0 0) [] []
    [] (set_KeyUsage noNet 5 (zeroFields noNet)).
Definition ex_parent : Certificate noNet :=
  mkX509 noNet [] [] [] [] [] [] 0 0 KeyNil 0 None zeroName C79_a (mkTime 0 0 0) (mkTime 0 0 0) [] []
    [] (set_SubjectKeyId noNet [9; 9] (zeroFields noNet)).
Definition okOr {A} (x : go (res A)) (d : A) : A := match x with Ret (OK a) => a | _ => d end.
Definition ex_csr : CertificateRequest noNet := Eval vm_compute in
  okOr (ParseCertificateRequest noNet (ex_request ex_attr [])) (mkReq noNet [] [] [] [] [] 0 0 KeyNil 0 zeroName [] [] [] (zeroAlt noNet)).
Definition ex_filled : Certificate noNet := FillCertificateTemplateByCSR noNet ex_template ex_csr.
Definition ex_info : TBSCertificate := Eval vm_compute in okOr (CreateCertificateInfo noNet ex_filled ex_parent ex_csr) zeroTBS.
Example C73_ex_parsed : ParseCertificateRequest noNet (ex_request ex_attr []) = Ret (OK ex_csr) /\
  map e_id (r_Extensions noNet ex_csr) = [[2; 5; 29; 17]; [2; 5; 29; 19]] /\ an_dns _ (r_SAN noNet ex_csr) = [[97; 46; 98]] /\
  r_PublicKey noNet ex_csr = KeySM2 (mkPub curveGx curveGy) /\ n_CommonName (r_Subject noNet ex_csr) = [65].
Proof. repeat (split; [vm_compute; reflexivity|]). vm_compute. reflexivity. Qed.
(** The certificate has the requested name but is no CA. *)
Example C73_ex_info : CreateCertificateInfo noNet ex_filled ex_parent ex_csr = Ret (OK ex_info) /\
  match tb_exts ex_info with Some l => map e_id l | None => [] end = [[2; 5; 29; 15]; [2; 5; 29; 35]; [2; 5; 29; 17]].
Proof. split; vm_compute; reflexivity. Qed.
Definition issued (x : go (res (list Z) * list Z)) : list Z := match x with Ret (OK e, _) => e | _ => [] end.
Definition ex_cert : list Z := Eval vm_compute in issued (IssueCertificateBySoftCAKey ex_info ex_priv None ex_tape).
Lemma bytes_forallb : forall l, forallb (fun b => (0 <=? b) && (b <=? 255)) l = true -> bytes l.
Proof.
  intros l H. rewrite forallb_forall in H. apply Forall_forall. intros b Hb. specialize (H b Hb).
  apply andb_true_iff in H. destruct H as [H1 H2]. apply Z.leb_le in H1. apply Z.leb_le in H2. unfold byte. lia.
Qed.
(** The certificate is issued by the key D = 1, whose public key is G; the hypotheses of C71 and C80 hold. *)
Example C71_ex_issued : IssueCertificateBySoftCAKey ex_info ex_priv None ex_tape = Ret (OK ex_cert, []) /\ bytes ex_cert /\ small ex_cert /\
  (exists body, tb_raw ex_info = tlv 48 body /\ zlen body < 2 ^ 31) /\ CalculatePubKey ex_priv = Ret (mkPub curveGx curveGy) /\ small (tb_raw ex_info).
Proof.
  split; [vm_compute; reflexivity|]. split; [apply bytes_forallb; vm_compute; reflexivity|]. split; [vm_compute; reflexivity|].
  split; [|split; vm_compute; reflexivity]. eexists (sub (tb_raw ex_info) 4 (zlen (tb_raw ex_info))). split; vm_compute; reflexivity.
Qed.
Example C80_ex_hyps : (exists ss, subject_is noNet ex_filled ss) /\ (exists si, subject_is noNet ex_parent si) /\
  request_key noNet ex_csr (mkPub curveGx curveGy) /\ template_ok noNet (c_fields noNet ex_filled) [] /\
  c_SerialNumber noNet ex_filled = Some 77 /\ c_ExtraExtensions noNet ex_filled = [].
Proof.
  split.
  { exists (ToRDNSequence (c_Subject noNet ex_filled)). unfold subject_is. change (c_RawSubject noNet ex_filled) with (@nil Z). cbv iota.
    split; [|reflexivity]. unfold name_ok. replace (n_ExtraNames (c_Subject noNet ex_filled)) with (@nil ATV) by (vm_compute; reflexivity). constructor. }
  split; [eexists; split; [exact (proj1 C79_oks)|reflexivity]|].
  split.
  { destruct (parsed_request noNet (ex_request ex_attr []) ex_csr (proj1 C73_ex_parsed)) as (c & pub & more & _ & _ & _ & _ & _ & _ & _ & _ & P & K & _);
      [apply bytes_forallb; vm_compute; reflexivity|].
    destruct C73_ex_parsed as (_ & _ & _ & Q & _). rewrite Q in P. injection P as <-. exact K. }
  split; [|split; vm_compute; reflexivity].
  unfold template_ok. replace (f_SAN noNet (c_fields noNet ex_filled)) with (mkAlt noNet [[97; 46; 98]] [] [] []) by (vm_compute; reflexivity).
  split; [constructor|]. split; [constructor|]. split; [cbn; lia|]. split; [constructor|]. split; [constructor|].
  split; repeat (split; [constructor|]); constructor.
Qed.
(** What comes back: 2020-01-01 to 2100-01-01 (the fraction of a second is gone), serial number 77. *)
Example C80_ex_parsed : exists c, ParseCertificate noNet ex_cert = Ret (OK c) /\ c_SerialNumber noNet c = Some 77 /\
  c_NotBefore noNet c = mkTime 1577836800 0 0 /\ c_NotAfter noNet c = mkTime 4102444800 0 0 /\ n_CommonName (c_Subject noNet c) = [65] /\
  n_Country (c_Issuer noNet c) = [[67; 78]; [68; 69]] /\ f_AuthorityKeyId noNet (c_fields noNet c) = [9; 9] /\ f_KeyUsage noNet (c_fields noNet c) = 5.
Proof. eexists. split; [vm_compute; reflexivity|]. repeat (split; [vm_compute; reflexivity|]). vm_compute. reflexivity. Qed.
