(** From a request to a certificate (C108): a request is made, sent, read, put into a template, issued
    as a certificate and read by the holder. What the holder finds is compared with what was asked. *)
From Coq Require Import ZArith List Lia Bool String.
From Verif Require Import GoBase BeMin CbString CbStringProofs CbBuilder CbBuilderProofs PropsCbBuilder CbAsn1Proofs GoAsn1 GoAsn1Proofs.
From Verif Require Import GoElliptic Sm2 Sm2Proofs2 PropsSm2 Sm2Der PropsSm2Der GoText GoPkix CertText PropsCertText Cert CertRt PropsCertExt PropsCertNames PropsCertSan PropsCertBuild PropsCertTime PropsCertDN CertRt2 PropsCert PropsCertReq.
Import ListNotations.
Open Scope Z_scope.

(** * Names *)

(** The fields of a name, each with the last arc of its attribute type 2.5.4.k. *)
Definition fields_of (n : Name) : list (Z * list (list Z)) :=
  [(6, n_Country n); (10, n_Organization n); (11, n_OrganizationalUnit n); (7, n_Locality n); (8, n_Province n);
   (9, n_StreetAddress n); (17, n_PostalCode n);
   (3, match n_CommonName n with [] => [] | s => [s] end); (5, match n_SerialNumber n with [] => [] | s => [s] end)].
(** The two names agree in the nine fields that have a type of their own. *)
Definition same_fields (n m : Name) : Prop :=
  n_Country n = n_Country m /\ n_Organization n = n_Organization m /\ n_OrganizationalUnit n = n_OrganizationalUnit m /\
  n_Locality n = n_Locality m /\ n_Province n = n_Province m /\ n_StreetAddress n = n_StreetAddress m /\
  n_PostalCode n = n_PostalCode m /\ n_CommonName n = n_CommonName m /\ n_SerialNumber n = n_SerialNumber m.

Lemma name_again : forall n, n_ExtraNames n = [] -> let m := FillFromRDNSequence zeroName (ToRDNSequence n) in
  same_fields m n /\ n_ExtraNames m = [] /\
  n_Names m = List.concat (map (fun f => map (fun v => mkATV [2; 5; 4; fst f] (AnyString v)) (snd f)) (fields_of n)).
Proof.
  intros n He m. unfold m. rewrite fill_ToRDN. unfold name_back, own, all_names. rewrite He. cbn [has_type existsb]. cbv zeta. rewrite !last_one.
  split; [unfold same_fields; cbn [n_Country n_Organization n_OrganizationalUnit n_Locality n_Province n_StreetAddress n_PostalCode n_SerialNumber n_CommonName]; tauto|].
  split; [reflexivity|]. cbn [n_Names]. unfold fields_of. cbn [map List.concat fst snd].
  destruct (n_CommonName n); destruct (n_SerialNumber n); reflexivity.
Qed.

Section Env.
Variable E : netEnv.

(** * What a parsed request has *)

Lemma addSANs_lens : forall names a a', addSANs E a names = Ret (OK a') -> Forall ip_len (an_ips E a) -> Forall ip_len (an_ips E a').
Proof.
  induction names as [|[tag data] r IH]; intros a a' H HA; cbn [addSANs] in H; [apply ret_inj in H; apply ok_inj in H; subst a'; exact HA|].
  apply gbind_ok in H. destruct H as (a1 & H1 & H). apply (IH a1 a' H). clear IH H. destruct a as [d e i u]. cbn [an_ips] in HA. unfold addSAN in H1.
  destruct (tag =? nameTypeEmail); [apply ret_inj in H1; apply ok_inj in H1; subst a1; exact HA|].
  destruct (tag =? nameTypeDNS); [apply ret_inj in H1; apply ok_inj in H1; subst a1; exact HA|].
  destruct (tag =? nameTypeURI).
  { destruct (urlParse E data) as [uri|]; [|discriminate H1]. match type of H1 with bind ?X _ = _ => destruct X as [ok|k] end; [|discriminate H1].
    cbn [bind] in H1. destruct ok; [|discriminate H1]. apply ret_inj in H1. apply ok_inj in H1. subst a1. exact HA. }
  destruct (tag =? nameTypeIP); [|apply ret_inj in H1; apply ok_inj in H1; subst a1; exact HA].
  destruct ((zlen data =? 4) || (zlen data =? 16)) eqn:EL; [|discriminate H1]. apply ret_inj in H1. apply ok_inj in H1. subst a1. cbn [an_ips].
  apply Forall_app. split; [exact HA|]. constructor; [|constructor]. apply orb_true_iff in EL. rewrite !Z.eqb_eq in EL. exact EL.
Qed.
Lemma requestSANs_lens : forall exts a a', requestSANs E exts a = Ret (OK a') -> Forall ip_len (an_ips E a) -> Forall ip_len (an_ips E a').
Proof.
  induction exts as [|x r IH]; intros a a' H HA; cbn [requestSANs] in H; [apply ret_inj in H; apply ok_inj in H; subst a'; exact HA|].
  destruct (oidEqual (e_id x) oidExtensionSubjectAltName); [|apply (IH a a' H HA)].
  apply gbind_ok in H. destruct H as (a1 & H1 & H). apply (IH a1 a' H). unfold parseSANExtension in H1. apply gbind_ok in H1. destruct H1 as (names & _ & H1).
  apply (addSANs_lens _ _ _ H1). constructor.
Qed.
Lemma parsed_subject : forall der csr, ParseCertificateRequest E der = Ret (OK csr) -> exists s, r_Subject E csr = FillFromRDNSequence zeroName s.
Proof.
  intros der csr H. unfold ParseCertificateRequest in H. apply gbind_ok in H. destruct H as ([c rest] & _ & H).
  destruct (negb (zlen rest =? 0)); [discriminate H|]. unfold parseCertificateRequest in H.
  destruct (negb _); [discriminate H|]. destruct (negb _); [discriminate H|].
  apply gbind_ok in H. destruct H as (pub & _ & H). apply gbind_ok in H. destruct H as ([subject rest'] & _ & H).
  destruct (negb (zlen rest' =? 0)); [discriminate H|]. apply gbind_ok in H. destruct H as (exts & _ & H). apply gbind_ok in H. destruct H as (san & _ & H).
  apply ret_inj in H. apply ok_inj in H. subst csr. exists subject. reflexivity.
Qed.
Lemma filled_extra : forall s, n_ExtraNames (FillFromRDNSequence zeroName s) = [].
Proof. intros s. rewrite C79_fill. reflexivity. Qed.

(** The bytes that are issued. *)
Lemma issued_layout : forall t parent csr info ca id tape e rest, CreateCertificateInfo E t parent csr = Ret (OK info) ->
  IssueCertificateBySoftCAKey info ca id tape = Ret (OK e, rest) -> small e ->
  exists sig body, Sign ca id (tb_raw info) tape = Ret (OK sig, rest) /\ e = tlv 48 (tb_raw info ++ sm2sm3_alg ++ tlv 3 (0 :: sig)) /\
    tb_raw info = tlv 48 body /\ zlen body < 2 ^ 31.
Proof.
  intros t parent csr info ca id tape e rest HI HC HL.
  destruct (info_inv _ _ _ _ _ HI) as (serial' & iss & subj & exts & k' & S1 & S2 & S3 & S4 & S5 & raw & S6 & ->). cbv zeta in *.
  destruct (issue_inv _ _ _ _ _ _ HC) as (sig & C1 & HCC). cbn [tb_raw] in *. exists sig.
  unfold CreateCertificate, fieldCert in HCC. cbn [ct_raw ct_tbs ct_alg ct_sig] in HCC.
  unfold fieldTBS at 1 in HCC. cbn [tb_raw] in HCC. unfold fieldTBS in S6. cbn [tb_raw] in S6. rewrite rawStruct_nil in S6.
  assert (NE : raw <> []).
  { unfold marshalStruct in S6. apply makeField_plain in S6; try reflexivity. destruct S6 as (bd & _ & ->). intros K. discriminate K. }
  destruct (signed_struct _ _ _ _ HCC HL NE) as (c & -> & HE & _ & SC & LC).
  destruct (struct_small _ _ S6 LC) as (c' & HR & LC' & EC). rewrite EC in HE. exists c'.
  split; [exact C1|]. change (ident 0 16 true) with 48 in HR. split; [rewrite HR; exact HE|]. split; assumption.
Qed.

(** What the template itself has to fulfil for its extensions to be read back. *)
Definition fields_ok (f : certFields E) : Prop :=
  Forall oid_ok (f_UnknownExtKeyUsage E f) /\ Forall oid_ok (f_PolicyIdentifiers E f) /\ - 2 ^ 63 <= f_MaxPathLen E f < 2 ^ 63 /\
  constraints_ok E (f_Permitted E f) /\ constraints_ok E (f_Excluded E f).

(** * C108: the certificate for a request *)

(** For any request that is read, put into any template without raw subject bytes and issued: the
    certificate is readable and has the key of the request, bit for bit, the nine fields of its subject,
    and its alternative names; the other attributes of its subject and its other extensions are gone, and so are
    the extra extensions of the template. Everything else is the template's and the issuer's. *)
Theorem C108_certificate : forall t parent der csr info ca id tape e rest si uris' serial,
  bytes der -> ParseCertificateRequest E der = Ret (OK csr) ->
  c_RawSubject E t = [] -> c_SerialNumber E t = Some serial -> fields_ok (c_fields E t) -> subject_is E parent si ->
  Forall2 (uri_back E) (an_uris E (r_SAN E csr)) uris' ->
  CreateCertificateInfo E (FillCertificateTemplateByCSR E t csr) parent csr = Ret (OK info) ->
  IssueCertificateBySoftCAKey info ca id tape = Ret (OK e, rest) -> bytes e -> small e ->
  exists cert akid, ParseCertificate E e = Ret (OK cert) /\
    c_PublicKey E cert = r_PublicKey E csr /\ c_RawSPKI E cert = r_RawSPKI E csr /\
    same_fields (c_Subject E cert) (r_Subject E csr) /\
    n_Names (c_Subject E cert) = List.concat (map (fun f => map (fun v => mkATV [2; 5; 4; fst f] (AnyString v)) (snd f)) (fields_of (r_Subject E csr))) /\
    an_dns E (f_SAN E (c_fields E cert)) = an_dns E (r_SAN E csr) /\ an_emails E (f_SAN E (c_fields E cert)) = an_emails E (r_SAN E csr) /\
    an_ips E (f_SAN E (c_fields E cert)) = map ipBytes (an_ips E (r_SAN E csr)) /\ an_uris E (f_SAN E (c_fields E cert)) = uris' /\
    (forall x, In x (map e_id (c_Extensions E cert)) <-> asked E (set_SAN E (r_SAN E csr) (c_fields E t)) akid x) /\
    NoDup (map e_id (c_Extensions E cert)) /\ c_Unhandled E cert = [] /\
    c_SerialNumber E cert = Some serial /\ c_Issuer E cert = FillFromRDNSequence zeroName si /\
    t_unix (c_NotBefore E cert) = t_unix (c_NotBefore E t) /\ t_unix (c_NotAfter E cert) = t_unix (c_NotAfter E t) /\
    c_RawTBS E cert = tb_raw info /\ Sign ca id (c_RawTBS E cert) tape = Ret (OK (c_Signature E cert), rest).
Proof.
  intros t parent der csr info ca id tape e rest si uris' serial HBd HP HR HSer (F1 & F2 & F3 & F4 & F5) HSi HU HI HC HB HL.
  destruct (parsed_request E der csr HP HBd) as (c & pub & more & _ & _ & _ & _ & _ & _ & _ & _ & P1 & RK & _ & PX & _ & _ & PS).
  destruct (parsed_subject der csr HP) as [s0 HS0].
  assert (XN : n_ExtraNames (r_Subject E csr) = []) by (rewrite HS0; apply filled_extra).
  set (t' := FillCertificateTemplateByCSR E t csr) in *.
  assert (HSs : subject_is E t' (ToRDNSequence (r_Subject E csr))).
  { unfold subject_is. change (c_RawSubject E t') with (c_RawSubject E t). rewrite HR. change (c_Subject E t') with (r_Subject E csr).
    split; [unfold PropsCertDN.name_ok; rewrite XN; constructor|reflexivity]. }
  assert (HT : template_ok E (c_fields E t') uris').
  { change (c_fields E t') with (set_SAN E (r_SAN E csr) (c_fields E t)). unfold template_ok.
    repeat match goal with |- context [?f E (set_SAN E ?a ?b)] => first [change (f E (set_SAN E a b)) with (f E b) | change (f E (set_SAN E a b)) with a] end.
    split; [exact F1|]. split; [exact F2|]. split; [exact F3|]. split; [apply (requestSANs_lens _ _ _ PS); constructor|]. split; [exact HU|]. split; assumption. }
  assert (HX : c_ExtraExtensions E t' = []) by exact PX.
  assert (SER : c_SerialNumber E t' = Some serial) by exact HSer.
  destruct (C80_certificate E t' parent csr info ca id tape e rest _ si pub uris' serial HI HC HB HL SER HSs HSi RK HT) as (exts & iss & subj & sig & S1 & S2 & S3).
  { rewrite HX. constructor. }
  { rewrite HX. intros x []. }
  cbv zeta in S3. destruct S3 as (EL & EX & PC).
  destruct (C73_only_generated E t parent der csr info exts HBd HP HI EX) as (ND & akid & GEN).
  eexists. exists akid. split; [exact PC|].
  cbn [c_PublicKey c_RawSPKI c_Subject c_fields c_Extensions c_Unhandled c_SerialNumber c_Issuer c_NotBefore c_NotAfter c_RawTBS c_Signature].
  destruct (name_again _ XN) as (N1 & _ & N3).
  split; [symmetry; exact P1|]. split; [reflexivity|]. split; [exact N1|]. split; [exact N3|].
  unfold read_back. cbn [f_SAN an_dns an_emails an_ips an_uris].
  change (f_SAN E (c_fields E t')) with (r_SAN E csr).
  split; [reflexivity|]. split; [reflexivity|]. split; [reflexivity|]. split; [reflexivity|]. split; [exact GEN|]. split; [exact ND|].
  split; [rewrite HX; reflexivity|]. split; [reflexivity|]. split; [reflexivity|]. split; [reflexivity|]. split; [reflexivity|].
  destruct (issued_layout _ _ _ _ _ _ _ _ _ HI HC HL) as (sig' & body & C1 & C2 & C3 & C4). split; [reflexivity|].
  assert (SG : sig = sig'); [|rewrite SG; exact C1]. rewrite C2, C3 in EL. rewrite <- (app_nil_r (tlv 48 _)) in EL. symmetry in EL. rewrite <- (app_nil_r (tlv 48 _)) in EL.
  assert (Z1 : zlen (tlv 48 body ++ sm2sm3_alg ++ tlv 3 (0 :: sig')) < 2 ^ 31).
  { rewrite C2, C3 in HL. exact (zlen_tlv_small _ _ HL). }
  apply tlv_inj in EL; [|rewrite C2, C3 in HL|lia].
  2:{ pose proof (zlen_tlv_ge 48 (tlv 48 body ++ sm2sm3_alg ++ tlv 3 (0 :: sig))) as G. rewrite !app_nil_r in EL.
      rewrite EL in G. unfold small in HL. lia. }
  destruct EL as (_ & EL & _). apply app_inv_head in EL. apply app_inv_head in EL.
  assert (Z3 : forall x : list Z, zlen (0 :: x) = zlen x + 1) by (intros; apply zlen_cons).
  assert (LS : tlv 3 (0 :: sig) = tlv 3 (0 :: sig')) by exact EL.
  rewrite !zlen_app in Z1. pose proof (zlen_tlv_ge 3 (0 :: sig')) as G1. pose proof (zlen_tlv_ge 3 (0 :: sig)) as G2. rewrite LS in G2.
  pose proof (zlen_nonneg _ (tlv 48 body)). pose proof (zlen_nonneg _ sm2sm3_alg).
  rewrite <- (app_nil_r (tlv 3 (0 :: sig))), <- (app_nil_r (tlv 3 (0 :: sig'))) in LS. apply tlv_inj in LS; [|lia|lia].
  destruct LS as (_ & LS & _). injection LS as ->. reflexivity.
Qed.

(** Names of addresses that went through the parser once do not change any more. *)
Lemma ipBytes_again : forall ip, ipBytes (ipBytes ip) = ipBytes ip.
Proof.
  intros ip. unfold ipBytes at 2. unfold ipBytes at 2. destruct (To4 ip) as [v|] eqn:K; [|unfold ipBytes; rewrite K; reflexivity].
  unfold ipBytes, To4. unfold To4 in K. destruct (Z.eqb_spec (zlen ip) 4) as [L|L]; [injection K as <-; rewrite L; reflexivity|].
  destruct ((zlen ip =? 16) && oidEqual (firstn 12 ip) v4InV6Prefix) eqn:C; [|discriminate K]. assert (v = skipn 12 ip) as -> by congruence.
  apply andb_true_iff in C. destruct C as [C _]. apply Z.eqb_eq in C. unfold zlen in *. rewrite skipn_length.
  replace (Z.of_nat (List.length ip - 12)) with 4 by lia. reflexivity.
Qed.

(** The whole way: the request verifies for the authority, and the holder reads a certificate for their
    key, with the subject and the alternative names of the request's template, that the authority's key
    verifies. Other extensions that were asked for are there only if the authority's template has them. *)
Theorem C108_pipeline : forall rt pub pri id tape1 der rest1 after ss san t parent csr info ca capub caid tape2 e rest2 si uris' serial,
  CreateCertificateRequest E rt pub pri id tape1 = Ret (OK der, rest1, after) -> bytes der -> small der ->
  key_ok pub -> req_subject_is E rt ss -> r_Attributes E rt = [] -> Forall ext_ok (r_ExtraExtensions E rt) ->
  (forall x, In x (r_ExtraExtensions E rt) -> e_id x <> oidExtensionSubjectAltName) -> req_sans E rt san ->
  0 <= D pri -> CalculatePubKey pri = Ret pub -> good_id id -> bytes tape1 ->
  ParseCertificateRequest E der = Ret (OK csr) ->
  c_RawSubject E t = [] -> c_SerialNumber E t = Some serial -> fields_ok (c_fields E t) -> subject_is E parent si ->
  Forall2 (uri_back E) (an_uris E san) uris' ->
  CreateCertificateInfo E (FillCertificateTemplateByCSR E t csr) parent csr = Ret (OK info) ->
  IssueCertificateBySoftCAKey info ca caid tape2 = Ret (OK e, rest2) -> bytes e -> small e ->
  0 <= D ca -> CalculatePubKey ca = Ret capub -> good_id caid -> bytes tape2 ->
  VerifyDERCSRSign E der id = Ret (OK true) /\
  exists cert akid, ParseCertificate E e = Ret (OK cert) /\
    Verify capub caid (c_RawTBS E cert) (c_Signature E cert) = Ret true /\
    c_PublicKey E cert = KeySM2 pub /\ c_RawSPKI E cert = spki pub /\
    same_fields (c_Subject E cert) (FillFromRDNSequence zeroName ss) /\
    (r_RawSubject E rt = [] -> n_ExtraNames (r_Subject E rt) = [] -> same_fields (c_Subject E cert) (r_Subject E rt)) /\
    an_dns E (f_SAN E (c_fields E cert)) = an_dns E (r_SAN E rt) /\ an_emails E (f_SAN E (c_fields E cert)) = an_emails E (r_SAN E rt) /\
    an_ips E (f_SAN E (c_fields E cert)) = map ipBytes (an_ips E (r_SAN E rt)) /\ an_uris E (f_SAN E (c_fields E cert)) = uris' /\
    (forall x, In (e_id x) (map e_id (c_Extensions E cert)) -> In x (r_ExtraExtensions E rt) -> asked E (c_fields E t) akid (e_id x)) /\
    c_SerialNumber E cert = Some serial /\ c_Issuer E cert = FillFromRDNSequence zeroName si.
Proof.
  intros rt pub pri id tape1 der rest1 after ss san t parent csr info ca capub caid tape2 e rest2 si uris' serial
    H1 B1 L1 HK HSub HA HX HN HSan HD HPub HId HT1 HP HR HSer HF HSi HU HI HC B2 L2 HDc HPc HIc HT2.
  destruct (C81_read_back E rt pub pri id tape1 der rest1 after ss san H1 B1 L1 HK HSub HA HX HN HSan)
    as (csr' & more & P1 & _ & _ & P2 & P3 & P4 & P5 & _). rewrite HP in P1. apply ret_inj in P1. apply ok_inj in P1. subst csr'.
  split.
  { apply (C81_signature E rt pub pri id tape1 der rest1 after ss H1 B1 L1 HK HSub) with (csr := csr); try assumption. rewrite HA. constructor. }
  rewrite <- P5 in HU.
  destruct (C108_certificate t parent der csr info ca caid tape2 e rest2 si uris' serial B1 HP HR HSer HF HSi HU HI HC B2 L2)
    as (cert & akid & Q1 & Q2 & Q3 & Q4 & _ & Q5 & Q6 & Q7 & Q8 & Q9 & _ & _ & Q10 & Q11 & _ & _ & Q12 & Q13).
  destruct HSan as (I1 & I2 & I3 & I4 & I5).
  exists cert, akid. split; [exact Q1|]. split.
  { destruct (issued_layout _ _ _ _ _ _ _ _ _ HI HC L2) as (sig' & body & C1 & C2 & C3 & C4).
    apply (C44_sign_then_verify ca capub caid (c_RawTBS E cert) tape2 (c_Signature E cert) rest2); try assumption. rewrite Q12.
    rewrite C2 in B2. apply bytes_in_tlv in B2. apply bytes_app in B2. split; [apply B2|]. split; [rewrite C3; discriminate|].
    rewrite C2 in L2. apply zlen_tlv_small in L2. rewrite zlen_app in L2. pose proof (zlen_nonneg _ (sm2sm3_alg ++ tlv 3 (0 :: sig'))). lia. }
  split; [congruence|]. split; [congruence|]. rewrite P4 in Q4. split; [exact Q4|]. split.
  { intros R1 R2. unfold req_subject_is in HSub. rewrite R1 in HSub. destruct HSub as [_ ->]. destruct (name_again _ R2) as (N & _).
    unfold same_fields in *. intuition congruence. }
  rewrite P5 in *. split; [congruence|]. split; [congruence|]. split; [rewrite Q7, I4, map_map; apply map_ext; intros; apply ipBytes_again|]. split; [exact Q8|].
  split; [|split; assumption]. intros x Hx Hin. apply Q9 in Hx. specialize (HN x Hin). revert Hx. unfold asked.
  change (f_SAN E (set_SAN E san (c_fields E t))) with san.
  repeat match goal with |- context [?f E (set_SAN E ?a ?b)] => change (f E (set_SAN E a b)) with (f E b) end. tauto.
Qed.
End Env.

(** * Examples *)

(** The request of C81: two countries, a common name and an e-mail address among the extra names, alternative names
    and a critical extension 1.2.3. The authority's template has an extra extension of its own, 1.2.4. *)
Definition flow_csr : CertificateRequest noNet := Eval vm_compute in
  okOr (ParseCertificateRequest noNet ex_req) (mkReq noNet [] [] [] [] [] 0 0 KeyNil 0 zeroName [] [] [] (zeroAlt noNet)).
Definition flow_template : Certificate noNet :=
  mkX509 noNet [] [] [] [] [] [] 0 0 KeyNil 0 (Some 77) zeroName zeroName (mkTime 1577836800 5 0) (mkTime 4102444800 0 0) [] [mkExt [1; 2; 4] true [5; 0]]
    [] (set_KeyUsage noNet 5 (zeroFields noNet)).
Definition flow_filled : Certificate noNet := FillCertificateTemplateByCSR noNet flow_template flow_csr.
Definition flow_info : TBSCertificate := Eval vm_compute in okOr (CreateCertificateInfo noNet flow_filled ex_parent flow_csr) zeroTBS.
Definition flow_cert : list Z := Eval vm_compute in issued (IssueCertificateBySoftCAKey flow_info ex_priv None ex_tape).
Example C108_ex_hyps : ParseCertificateRequest noNet ex_req = Ret (OK flow_csr) /\ c_RawSubject noNet flow_template = [] /\
  fields_ok noNet (c_fields noNet flow_template) /\ subject_is noNet ex_parent (ToRDNSequence C79_a) /\
  Forall2 (uri_back noNet) (an_uris noNet (r_SAN noNet flow_csr)) [] /\
  CreateCertificateInfo noNet flow_filled ex_parent flow_csr = Ret (OK flow_info) /\
  IssueCertificateBySoftCAKey flow_info ex_priv None ex_tape = Ret (OK flow_cert, []) /\ bytes flow_cert /\ small flow_cert /\
  CalculatePubKey ex_priv = Ret ex_pub /\ 0 <= D ex_priv /\ good_id None /\ bytes ex_tape.
Proof.
  split; [vm_compute; reflexivity|]. split; [reflexivity|].
  split; [split; [constructor|]; split; [constructor|]; split; [cbn; lia|]; split; repeat (split; [constructor|]); constructor|].
  split; [split; [exact (proj1 C79_oks)|reflexivity]|]. split; [constructor|].
  split; [vm_compute; reflexivity|]. split; [vm_compute; reflexivity|].
  split; [apply bytes_forallb; vm_compute; reflexivity|]. split; [vm_compute; reflexivity|].
  split; [vm_compute; reflexivity|]. split; [cbn; lia|]. split; [exact I|]. apply bytes_forallb; vm_compute; reflexivity.
Qed.
(** The certificate: six attributes were in the request's subject, the five named ones are left; of the extensions only the key
    usage, the authority's identifier and the alternative names are there. *)
Example C108_ex_read : exists c, ParseCertificate noNet flow_cert = Ret (OK c) /\
  List.length (n_Names (r_Subject noNet flow_csr)) = 6%nat /\ List.length (n_Names (c_Subject noNet c)) = 5%nat /\
  map e_id (r_Extensions noNet flow_csr) = [[2; 5; 29; 17]; [1; 2; 3]] /\
  map e_id (c_Extensions noNet c) = [[2; 5; 29; 15]; [2; 5; 29; 35]; [2; 5; 29; 17]] /\
  an_ips noNet (f_SAN noNet (c_fields noNet c)) = [[127; 0; 0; 1]] /\ c_PublicKey noNet c = KeySM2 ex_pub.
Proof. eexists. split; [vm_compute; reflexivity|]. repeat (split; [vm_compute; reflexivity|]). vm_compute. reflexivity. Qed.
