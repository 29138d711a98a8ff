(** Certificate requests (C81, C82): what a request made from a template contains, that it reads back,
    that its signature verifies, and what the verification accepts. *)
From Coq Require Import ZArith List Lia Bool String.
From Verif Require Import GoBase BeMin CbString CbStringProofs CbBuilder CbBuilderProofs PropsCbBuilder CbAsn1Proofs GoAsn1 GoAsn1Proofs.
From Verif Require Import GoElliptic Sm2 Sm2Proofs2 PropsSm2 Sm2Der PropsSm2Der GoText GoPkix CertText PropsCertText Cert CertRt PropsCertExt PropsCertNames PropsCertSan PropsCertBuild PropsCertTime PropsCertDN CertRt2 PropsCert.
Import ListNotations.
Open Scope Z_scope.

(** * Attributes *)

Lemma set_list : forall A (u : uty A) zero absent vs es r, Forall2 (elem u) vs es -> small (List.concat es) ->
  parseField (uList u zero false) absent setParams (tlv (ident 0 17 true) (List.concat es) ++ r) = OK (vs, r).
Proof.
  intros A u zero absent vs es r H HL. rewrite field_tlv; [|split; lia|exact HL|reflexivity|right; reflexivity|right; split; reflexivity].
  cbn [setParams fp_set uList u_body]. rewrite (parse_sequence _ u zero vs es H). reflexivity.
Qed.
Lemma set_inv : forall fs e, makeField false TagSequence true (makeFields fs) setParams = OK e -> small e ->
  exists es, fs = map OK es /\ e = tlv (ident 0 17 true) (List.concat es) /\ small (List.concat es).
Proof.
  intros fs e H HL. unfold makeField in H. cbn [setParams fp_optional fp_set fp_tag andb] in H.
  change (negb (TagSequence =? TagSequence)) with false in H. cbv iota in H.
  destruct (makeFields fs) as [c|m] eqn:EF; [|discriminate H]. cbn [rbind] in H. apply ok_eq in H.
  destruct (makeFields_inv _ _ EF) as (es & -> & ->). subst e.
  destruct (tagged_small 0 TagSet true (List.concat es)) as [E L]; [split; unfold TagSet; lia|exact HL|].
  exists es. split; [reflexivity|]. split; [exact E|exact L].
Qed.
(** The bytes of an attribute. *)
Lemma atvset_inv : forall a e, fieldATVSet a = OK e -> small e ->
  exists eo es, fieldOID (as_type a) = OK eo /\ map (fun s => fieldSlice false (map fieldATV s)) (as_value a) = map OK es /\
    e = tlv (ident 0 16 true) (eo ++ tlv (ident 0 17 true) (List.concat es)) /\ small (eo ++ tlv (ident 0 17 true) (List.concat es)) /\
    small eo /\ small (List.concat es).
Proof.
  intros a e H HL. unfold fieldATVSet in H. apply marshalStruct_inv in H; [|exact HL]. destruct H as (es & HE & -> & HS).
  destruct es as [|e1 [|e2 [|]]]; try discriminate HE. cbn [map] in HE. apply cons_eq in HE. destruct HE as [H1 HE]. apply cons_eq in HE. destruct HE as [H2 _].
  assert (S1 : small e1) by (apply (small_concat [e1; e2]); [exact HS|left; reflexivity]).
  assert (S2 : small e2) by (apply (small_concat [e1; e2]); [exact HS|right; left; reflexivity]).
  destruct (set_inv _ _ H2 S2) as (es & E1 & -> & E3). cbn [List.concat] in *. rewrite app_nil_r in *.
  exists e1, es. split; [exact H1|]. split; [exact E1|]. split; [reflexivity|]. split; [exact HS|]. split; [exact S1|exact E3].
Qed.

(** An attribute that can be read back: all its values are of types that the library reads, and the
    extensions in an extension request are byte strings. *)
Definition any_bytes (v : goAny) : Prop := match v with AnyBytes _ => True | _ => False end.
Definition attr_ok (a : ATVSet) : Prop :=
  oid_ok (as_type a) /\ Forall (Forall atv_ok) (as_value a) /\
  (as_type a = oidExtensionRequest -> Forall (fun x => any_bytes (atv_value x)) (hd [] (as_value a))).

Lemma atvset_rt : forall a e, fieldATVSet a = OK e -> small e -> attr_ok a -> elem uATVSet a e.
Proof.
  intros [ty vs] e H HL (Ho & Hv & _). cbn [as_type as_value] in *.
  destruct (atvset_inv _ _ H HL) as (eo & es & E1 & E2 & -> & S0 & S1 & S2). cbn [as_type as_value] in *.
  apply elem_struct; [exact S0|]. rewrite (elem_parse _ uOID ty eo) by (apply fieldOID_rt; assumption). cbn [rbind].
  rewrite <- (app_nil_r (tlv (ident 0 17 true) _)), (set_list _ (uList uATV zeroATV false) [] [] vs es []); [reflexivity| |exact S2].
  apply map_OK_inv in E2.
  assert (Hs : forall e, In e es -> small e) by (intros; apply (small_concat es); assumption).
  clear - E2 Hs Hv. induction E2 as [|v e vs es He E2 IH]; constructor.
  - apply (fieldSlice_rt _ uATV zeroATV false fieldATV v e); [|exact He|apply Hs; left; reflexivity].
    intros x ex Hin Hx HSx. apply fieldATV_rt; [exact Hx|exact HSx|]. inversion Hv; subst. rewrite Forall_forall in *. auto.
  - apply IH; [inversion Hv; assumption|intros; apply Hs; right; assumption].
Qed.

(** Read as an extension, an attribute with a byte string is not critical. *)
Definition as_extension (a : ATV) : Extension := mkExt (atv_type a) false (match atv_value a with AnyBytes b => b | _ => [] end).
Lemma atv_extension : forall a e, fieldATV a = OK e -> small e -> oid_ok (atv_type a) -> any_bytes (atv_value a) -> elem uExtension (as_extension a) e.
Proof.
  intros [ty v] e H HL Ho Hv. cbn [atv_type atv_value] in *. destruct v; try destruct Hv.
  apply extension_rt; [|exact HL|exact Ho].
  unfold fieldATV in H. cbn [atv_type atv_value fieldAny] in H. unfold fieldExtension, as_extension. cbn [e_id e_critical e_value atv_type atv_value].
  change (fieldBool false) with (@OK (list Z) []). unfold marshalStruct in *. cbn [makeFields] in *.
  destruct (fieldOID ty) as [x|m]; [|exact H]. cbn [rbind] in *. destruct (fieldOctets b) as [y|m]; [|exact H]. cbn [rbind app] in *. exact H.
Qed.

(** The extensions that a list of attributes requests. *)
Definition requested (attrs : list ATVSet) : list Extension :=
  List.concat (map (fun a => if oidEqual (as_type a) oidExtensionRequest then map as_extension (hd [] (as_value a)) else []) attrs).

(** The attribute, kept as a raw value. *)
Definition attr_raw (a : ATVSet) (rv : RawValue) : Prop :=
  fieldATVSet a = OK (rv_full rv) /\ elem uRaw rv (rv_full rv) /\ small (rv_full rv).

Lemma raws_of : forall es, small (List.concat es) -> (forall e, In e es -> exists rv, elem uRaw rv e) ->
  exists rvs, Forall2 (elem uRaw) rvs es /\ map rv_full rvs = es.
Proof.
  induction es as [|e es IH]; intros HS H; [exists []; split; [constructor|reflexivity]|].
  destruct (H e (or_introl eq_refl)) as [rv Hrv].
  destruct IH as (rvs & F & M).
  { unfold small in *. cbn [List.concat] in HS. rewrite zlen_app in HS. pose proof (zlen_nonneg _ e). lia. }
  { intros e' He'. apply H. right. exact He'. }
  exists (rv :: rvs). split; [constructor; assumption|]. cbn [map]. rewrite M, (elem_raw_full _ _ Hrv). reflexivity.
Qed.
Lemma newRaw_inv : forall attrs raws, newRawAttributes attrs = OK raws -> Forall2 attr_raw attrs raws.
Proof.
  intros attrs raws H. unfold newRawAttributes in H.
  destruct (fieldSlice false (map fieldATVSet attrs)) as [b|m] eqn:HB; [|discriminate H]. cbn [rbind] in H.
  unfold fieldSlice in HB. apply makeField_plain in HB; try reflexivity. destruct HB as (cb & HE & ->).
  change (if false then TagSet else TagSequence) with 16 in H. change TagSequence with 16 in H.
  assert (HS : small cb).
  { destruct (unmarshal (uList uRaw zeroRaw false) [] (tagged 0 16 true cb)) as [[vs rr]|m] eqn:EU; [|discriminate H].
    exact (slice_parsed_small _ _ _ _ _ _ EU). }
  rewrite tagged_tlv in H by (try split; unfold small in HS; lia).
  destruct (makeFields_inv _ _ HE) as (es & HM & ->). clear HE. rename HM into HE. apply map_OK_inv in HE.
  assert (Hs : forall e, In e es -> small e) by (intros; apply (small_concat es); assumption).
  destruct (raws_of es HS) as (rvs & F & M).
  { intros e Hin. assert (X : exists a, fieldATVSet a = OK e).
    { clear - HE Hin. induction HE as [|a e' attrs es Ha HE IH]; [destruct Hin|]. destruct Hin as [<- | Hin]; [exists a; exact Ha|apply IH; exact Hin]. }
    destruct X as [a Ha]. destruct (atvset_inv a e Ha (Hs e Hin)) as (eo & es' & _ & _ & -> & S & _). eexists. apply elem_raw; [split; lia|exact S]. }
  rewrite <- (app_nil_r (tlv _ _)) in H.
  rewrite (elem_unmarshal _ (uList uRaw zeroRaw false) rvs) in H by (apply (elem_list _ uRaw zeroRaw false); assumption).
  cbn [rbind] in H. change (negb (zlen (@nil Z) =? 0)) with false in H. cbv iota in H. apply ok_eq in H. subst raws.
  clear - HE F M Hs. revert rvs F M. induction HE as [|a e attrs es Ha HE IH]; intros rvs F M; inversion F as [|rv ? rvs' ? Hr F']; subst; [constructor|].
  constructor.
  - unfold attr_raw. rewrite (elem_raw_full _ _ Hr). split; [exact Ha|]. split; [exact Hr|]. apply Hs. left. reflexivity.
  - apply IH; [intros; apply Hs; right; assumption|exact F'|]. cbn [map] in M. apply cons_eq in M. apply M.
Qed.

Lemma raw_attributes_back : forall attrs raws, Forall2 attr_raw attrs raws -> Forall attr_ok attrs -> parseRawAttributes raws = attrs.
Proof.
  intros attrs raws H. induction H as [|a rv attrs raws (H1 & H2 & H3) H IH]; intros HO; [reflexivity|]. inversion HO as [|? ? O1 O2]; subst.
  unfold parseRawAttributes in *. cbn [map List.concat].
  rewrite <- (app_nil_r (rv_full rv)), (elem_unmarshal _ uATVSet a) by (apply atvset_rt; assumption). cbn [app]. f_equal. apply IH. exact O2.
Qed.
Lemma extensions_back : forall attrs raws, Forall2 attr_raw attrs raws -> Forall attr_ok attrs -> parseCSRExtensions raws = OK (requested attrs).
Proof.
  intros attrs raws H. induction H as [|a rv attrs raws (H1 & H2 & H3) H IH]; intros HO; [reflexivity|]. inversion HO as [|? ? (Oo & Ov & Ox) O2]; subst.
  specialize (IH O2). unfold requested in *. cbn [map List.concat parseCSRExtensions].
  destruct (atvset_inv _ _ H1 H3) as (eo & es & E1 & E2 & E3 & S0 & S1 & S2). apply map_OK_inv in E2.
  assert (Hs : forall e, In e es -> small e) by (intros; apply (small_concat es); assumption).
  destruct (raws_of es S2) as (rvs & F & M).
  { intros e Hin. assert (X : exists s, fieldSlice false (map fieldATV s) = OK e).
    { clear - E2 Hin. induction E2 as [|x e' xs es Ha HE IH]; [destruct Hin|]. destruct Hin as [<- | Hin]; [exists x; exact Ha|apply IH; exact Hin]. }
    destruct X as [s Hx]. destruct (fieldSlice_inv _ _ _ Hx (Hs e Hin)) as (es' & _ & -> & S). eexists. apply elem_raw; [split; lia|exact S]. }
  assert (EA : elem uPkcs10Attribute (as_type a, rvs) (rv_full rv)).
  { rewrite E3. apply elem_struct; [exact S0|]. rewrite (elem_parse _ uOID (as_type a) eo) by (apply fieldOID_rt; assumption). cbn [rbind].
    rewrite <- (app_nil_r (tlv (ident 0 17 true) _)), (set_list _ uRaw zeroRaw [] rvs es []); [reflexivity|exact F|exact S2]. }
  rewrite <- (app_nil_r (rv_full rv)), (elem_unmarshal _ uPkcs10Attribute _ _ _ _ EA).
  clear M. inversion E2 as [Ev Ee|v0 e0 vs es' Hv0 E2' Ev Ee]; subst es.
  - inversion F; subst rvs. rewrite <- Ev in *. cbn [hd map]. destruct (oidEqual (as_type a) oidExtensionRequest); exact IH.
  - inversion F as [|r0 ? rs ? Hr0 F']; subst rvs. destruct (oidEqual (as_type a) oidExtensionRequest) eqn:EO; cbn [negb]; [|exact IH].
    apply oidEqual_eq in EO. rewrite <- Ev in *. cbn [hd] in *. specialize (Ox EO). inversion Ov as [|? ? Ov1 Ov2]; subst.
    rewrite (elem_raw_full _ _ Hr0).
    assert (EL : elem (uList uExtension zeroExt false) (map as_extension v0) e0).
    { destruct (fieldSlice_inv _ _ _ Hv0 (Hs e0 (or_introl eq_refl))) as (xs & HX & -> & SX). apply (elem_list _ uExtension zeroExt false); [|exact SX].
      apply map_OK_inv in HX. assert (Hss : forall e, In e xs -> small e) by (intros; apply (small_concat xs); assumption).
      clear - HX Hss Ox Ov1. induction HX as [|x e v0 xs Hx HX IH]; [constructor|]. inversion Ox; subst. inversion Ov1 as [|? ? A1 A2]; subst. cbn [map]. constructor.
      - apply atv_extension; [exact Hx|apply Hss; left; reflexivity|apply A1|assumption].
      - apply IH; [assumption|assumption|intros; apply Hss; right; assumption]. }
    rewrite <- (app_nil_r e0), (elem_unmarshal _ (uList uExtension zeroExt false) _ _ _ _ EL). cbn [rbind]. rewrite IH. reflexivity.
Qed.

(** The values of the extensions are no longer than the request. *)
Lemma atv_small : forall a e, fieldATV a = OK e -> small e -> small (e_value (as_extension a)).
Proof.
  intros [ty v] e H HL. unfold as_extension. cbn [e_value atv_value]. destruct v; try (unfold small, zlen; cbn; lia).
  unfold fieldATV in H. cbn [atv_type atv_value fieldAny] in H. apply marshalStruct_inv in H; [|exact HL]. destruct H as (es & HE & -> & HS).
  destruct es as [|e1 [|e2 [|]]]; try discriminate HE. cbn [map] in HE. apply cons_eq in HE. destruct HE as [_ HE]. apply cons_eq in HE. destruct HE as [H2 _].
  assert (S2 : small e2) by (apply (small_concat [e1; e2]); [exact HS|right; left; reflexivity]).
  destruct (fieldPrim_inv TagOctetString b e2 H2) as [_ L]; [unfold TagOctetString; lia|exact S2|exact L].
Qed.
Lemma requested_small : forall attrs raws, Forall2 attr_raw attrs raws -> Forall (fun x => small (e_value x)) (requested attrs).
Proof.
  intros attrs raws H. unfold requested. induction H as [|a rv attrs raws (H1 & _ & H3) H IH]; [constructor|]. cbn [map List.concat].
  apply Forall_app. split; [|exact IH]. destruct (oidEqual (as_type a) oidExtensionRequest); [|constructor].
  destruct (atvset_inv _ _ H1 H3) as (eo & es & E1 & E2 & E3 & S0 & S1 & S2). apply map_OK_inv in E2.
  destruct E2 as [|v0 e0 vs es' Hv0 E2']; [constructor|]. cbn [hd].
  destruct (fieldSlice_inv _ _ _ Hv0 (small_concat _ _ S2 (or_introl eq_refl))) as (xs & HX & _ & SX). apply map_OK_inv in HX.
  assert (Hss : forall e, In e xs -> small e) by (intros; apply (small_concat xs); assumption).
  clear - HX Hss. induction HX as [|x e v0 xs Hx HX IH]; [constructor|]. cbn [map]. constructor.
  - apply (atv_small x e); [exact Hx|apply Hss; left; reflexivity].
  - apply IH. intros; apply Hss; right; assumption.
Qed.

(** * Keys *)

(** A public key that is a point of the curve. *)
Definition key_ok (pub : PublicKey) : Prop :=
  0 <= X pub < curveP /\ 0 <= Y pub < curveP /\ IsOnCurve curveP curveB (X pub) (Y pub) = true.
Definition key_bytes (pub : PublicKey) : list Z := 4 :: be_enc 32 (X pub) ++ be_enc 32 (Y pub).
Lemma curveP_lt : curveP < 2 ^ 256.
Proof. vm_compute. reflexivity. Qed.
Lemma key_written : forall pub, key_ok pub -> GetUnCompressBytes pub = Ret (key_bytes pub).
Proof.
  intros [x y] (Hx & Hy & _). cbn [X Y] in *. pose proof curveP_lt. apply C41_public_key_encoding; lia.
Qed.
Lemma key_length : forall pub, zlen (key_bytes pub) = 65.
Proof. intros pub. unfold key_bytes. rewrite zlen_cons, zlen_app, !zlen_be_enc. reflexivity. Qed.
Lemma key_read : forall pub, key_ok pub -> Unmarshal curveP curveB (key_bytes pub) = Some (X pub, Y pub).
Proof.
  intros [x y] (Hx & Hy & HC). pose proof curveP_lt. pose proof (key_length (mkPub x y)) as L. cbn [X Y] in *. unfold Unmarshal.
  rewrite L. change (negb (65 =? 65)) with false. cbv iota. unfold key_bytes in *. cbn [X Y] in *.
  change (negb (nth 0 (4 :: be_enc 32 x ++ be_enc 32 y) 0 =? 4)) with false. cbv iota zeta.
  assert (A : sub (4 :: be_enc 32 x ++ be_enc 32 y) 1 33 = be_enc 32 x).
  { change (4 :: be_enc 32 x ++ be_enc 32 y) with ([4] ++ (be_enc 32 x ++ be_enc 32 y)). rewrite sub_app_right by (try (change (zlen [4]) with 1); lia).
    change (1 - zlen [4]) with 0. change (33 - zlen [4]) with 32. apply sub_app_l. rewrite zlen_be_enc. reflexivity. }
  assert (B : sub (4 :: be_enc 32 x ++ be_enc 32 y) 33 65 = be_enc 32 y).
  { change (4 :: be_enc 32 x ++ be_enc 32 y) with (([4] ++ be_enc 32 x) ++ be_enc 32 y). apply sub_app_r; rewrite ?zlen_app, ?zlen_be_enc; reflexivity. }
  rewrite A, B, !be_dec_enc_small by (change (256 ^ Z.of_nat 32) with (2 ^ 256); lia).
  destruct (Z.leb_spec curveP x); [lia|]. destruct (Z.leb_spec curveP y); [lia|]. cbn [orb]. rewrite HC. reflexivity.
Qed.

(** The algorithm identifier of an SM2 key: id-ecPublicKey with the OID of the curve. *)
Definition curve_oid_bytes : list Z := [6; 8; 42; 129; 28; 207; 85; 1; 130; 45].
Definition key_alg_bytes : list Z := tlv 48 ([6; 7; 42; 134; 72; 206; 61; 2; 1] ++ curve_oid_bytes).
Definition spki (pub : PublicKey) : list Z := tlv 48 (key_alg_bytes ++ tlv 3 (0 :: key_bytes pub)).
Definition curve_param : RawValue := mkRaw 0 6 false [42; 129; 28; 207; 85; 1; 130; 45] curve_oid_bytes.
Definition key_info (pub : PublicKey) : publicKeyInfo :=
  mkPKI (spki pub) (mkAlg oidPublicKeyECDSA curve_param) (whole (key_bytes pub)).
Lemma curve_oid_written : fieldOID oidSM2P256V1 = OK curve_oid_bytes.
Proof. vm_compute. reflexivity. Qed.
Lemma ecdsa_oid_ok : oid_ok oidPublicKeyECDSA.
Proof. unfold oid_ok, oidPublicKeyECDSA. repeat first [split | lia | constructor]. Qed.
Lemma curve_oid_elem : elem uOID oidSM2P256V1 curve_oid_bytes.
Proof. apply fieldOID_rt; [exact curve_oid_written|reflexivity|]. unfold oid_ok, oidSM2P256V1. repeat first [split | lia | constructor]. Qed.
Lemma key_bytes_bytes : forall pub, bytes (key_bytes pub).
Proof.
  intros pub. unfold key_bytes. apply bytes_cons. split; [unfold byte; lia|]. apply bytes_app. split; apply be_enc_bytes.
Qed.
Lemma fieldPKI_key : forall pub, fieldPKI (mkPKI [] (mkAlg oidPublicKeyECDSA (mkRaw 0 0 false [] curve_oid_bytes)) (whole (key_bytes pub))) = OK (spki pub).
Proof.
  intros pub. unfold fieldPKI. cbn [pki_raw pki_alg pki_key]. rewrite rawStruct_nil.
  replace (fieldAlg (mkAlg oidPublicKeyECDSA (mkRaw 0 0 false [] curve_oid_bytes))) with (@OK (list Z) key_alg_bytes) by (vm_compute; reflexivity).
  unfold fieldBits. rewrite whole_bits. unfold marshalStruct. pose proof (key_length pub) as L.
  assert (E : makeField false TagBitString false (OK (0 :: key_bytes pub)) noParams = OK (tlv 3 (0 :: key_bytes pub))).
  { unfold makeField. cbn [noParams fp_optional fp_set fp_tag andb rbind]. rewrite tagged_tlv; [reflexivity|split; unfold TagBitString; lia|rewrite zlen_cons; lia]. }
  rewrite E. cbn [makeFields rbind]. rewrite app_nil_r. unfold makeField. cbn [noParams fp_optional fp_set fp_tag andb rbind].
  rewrite tagged_tlv; [reflexivity|split; unfold TagSequence; lia|].
  rewrite zlen_app. pose proof (zlen_tlv_le 3 (0 :: key_bytes pub)) as Q. rewrite zlen_cons in Q.
  change (zlen key_alg_bytes) with 21. lia.
Qed.
Lemma key_elem : forall pub, elem uPKI (key_info pub) (spki pub).
Proof.
  intros pub. unfold key_info. apply (pki_rt (mkAlg oidPublicKeyECDSA (mkRaw 0 0 false [] curve_oid_bytes)) _ key_alg_bytes).
  - apply fieldPKI_key.
  - unfold small, spki. pose proof (zlen_tlv_le 3 (0 :: key_bytes pub)) as Q1. rewrite zlen_cons, key_length in Q1.
    pose proof (zlen_tlv_le 48 (key_alg_bytes ++ tlv 3 (0 :: key_bytes pub))) as Q. rewrite zlen_app in Q. change (zlen key_alg_bytes) with 21 in Q. lia.
  - vm_compute. reflexivity.
  - intros S. apply (alg_params_rt _ _ curve_oid_bytes); [vm_compute; reflexivity|exact S|exact ecdsa_oid_ok|].
    apply (elem_raw 0 6 false [42; 129; 28; 207; 85; 1; 130; 45]); [split; lia|reflexivity].
  - apply bits_ok_whole. apply key_bytes_bytes.
Qed.
Lemma key_parsed : forall pub, key_ok pub -> parsePublicKey (key_info pub) = OK pub.
Proof.
  intros pub H. unfold parsePublicKey, key_info. cbn [pki_alg pki_key alg_params]. change (rv_full curve_param) with curve_oid_bytes.
  rewrite <- (app_nil_r curve_oid_bytes), (elem_unmarshal _ uOID _ _ _ _ curve_oid_elem). cbn [rbind].
  change (negb (zlen (@nil Z) =? 0)) with false. cbv iota. rewrite oidEqual_refl. cbn [negb]. unfold whole. rewrite rightAlign_whole, (key_read _ H).
  destruct pub. reflexivity.
Qed.

(** * C81: requests read back *)
Section Env.
Variable E : netEnv.

(** The attributes that a template's subject has. *)
Definition req_subject_is (t : CertificateRequest E) (s : list (list ATV)) : Prop :=
  match r_RawSubject E t with
  | [] => name_ok (r_Subject E t) /\ s = ToRDNSequence (r_Subject E t)
  | raw => elem uRDNSequence s raw
  end.

Lemma zlen_tlv_small : forall t c, small (tlv t c) -> zlen c < 2 ^ 31.
Proof. intros t c H. unfold small in H. pose proof (zlen_tlv_ge t c). lia. Qed.

(** The extensions and attributes of a request can be read back if those of its template can. *)
Lemma san_oid_ok : oid_ok oidExtensionSubjectAltName.
Proof. unfold oid_ok, oidExtensionSubjectAltName. repeat first [split | lia | constructor]. Qed.
Lemma request_oid_ok : oid_ok oidExtensionRequest.
Proof. unfold oid_ok, oidExtensionRequest. repeat first [split | lia | constructor]. Qed.
Lemma requestedExtensions_ok : forall t exts, requestedExtensions E t = OK exts -> Forall ext_ok (r_ExtraExtensions E t) -> Forall ext_ok exts.
Proof.
  intros t exts H HX. unfold requestedExtensions in H.
  destruct (_ && _).
  - destruct (marshalSANs E (r_SAN E t)) as [b|m]; [|discriminate H]. cbn [rbind app] in H. apply ok_inj in H. subst exts.
    constructor; [exact san_oid_ok|exact HX].
  - cbn [rbind app] in H. apply ok_inj in H. subst exts. exact HX.
Qed.
Lemma extensionATVs_ok : forall attrs exts, Forall ext_ok exts ->
  Forall atv_ok (extensionATVs attrs exts) /\ Forall (fun x => any_bytes (atv_value x)) (extensionATVs attrs exts).
Proof.
  intros attrs exts H. unfold extensionATVs. rewrite !Forall_map. split; apply Forall_forall; intros x Hx; apply filter_In in Hx.
  - rewrite Forall_forall in H. split; [apply H, Hx|exact I].
  - exact I.
Qed.
Lemma appendToAttribute_ok : forall atvs attrs attrs', appendToAttribute atvs attrs = Some attrs' -> Forall attr_ok attrs ->
  Forall atv_ok atvs -> Forall (fun x => any_bytes (atv_value x)) atvs -> Forall attr_ok attrs'.
Proof.
  intros atvs. induction attrs as [|a attrs IH]; intros attrs' H HA H1 H2; [discriminate H|]. cbn [appendToAttribute] in H.
  inversion HA as [|? ? (O1 & O2 & O3) HA']; subst.
  assert (REC : forall r, match appendToAttribute atvs attrs with Some r' => Some (a :: r') | None => None end = Some r -> Forall attr_ok r).
  { intros r Hr. destruct (appendToAttribute atvs attrs) as [r'|]; [|discriminate Hr]. injection Hr as <-.
    constructor; [split; [exact O1|split; assumption]|apply IH; auto]. }
  destruct (as_value a) as [|v0 vs] eqn:EV; [apply REC; exact H|]. destruct (oidEqual (as_type a) oidExtensionRequest) eqn:EO; [|apply REC; exact H].
  injection H as <-. constructor; [|exact HA']. apply oidEqual_eq in EO. specialize (O3 EO). cbn [hd] in O3. inversion O2; subst.
  split; [exact O1|]. cbn [as_type as_value hd]. split; [constructor; [apply Forall_app; split; assumption|assumption]|].
  intros _. apply Forall_app. split; assumption.
Qed.
Lemma requestAttributes_ok : forall t exts, Forall attr_ok (r_Attributes E t) -> Forall ext_ok exts ->
  Forall attr_ok (fst (requestAttributes E t exts)).
Proof.
  intros t exts HA HX. unfold requestAttributes. destruct (0 <? zlen exts); [|exact HA].
  destruct (extensionATVs_ok (r_Attributes E t) exts HX) as [H1 H2].
  destruct (appendToAttribute (extensionATVs (r_Attributes E t) exts) (r_Attributes E t)) as [attrs'|] eqn:EA; cbn [fst].
  - eapply appendToAttribute_ok; eassumption.
  - apply Forall_app. split; [exact HA|]. constructor; [|constructor]. split; [exact request_oid_ok|]. cbn [as_value as_type hd].
    split; [constructor; [exact H1|constructor]|]. intros _. exact H2.
Qed.

(** The bytes of a request and what is in it. *)
Theorem C81_request : forall t pub pri id tape e rest after ss,
  CreateCertificateRequest E t pub pri id tape = Ret (OK e, rest, after) -> bytes e -> small e ->
  key_ok pub -> req_subject_is t ss -> Forall attr_ok (r_Attributes E t) -> Forall ext_ok (r_ExtraExtensions E t) ->
  exists exts subj tbs sig, let attrs := fst (requestAttributes E t exts) in
    requestedExtensions E t = OK exts /\ after = snd (requestAttributes E t exts) /\
    Sign pri id tbs tape = Ret (OK sig, rest) /\
    e = tlv 48 (tbs ++ sm2sm3_alg ++ tlv 3 (0 :: sig)) /\ tbs <> [] /\ Forall (fun x => small (e_value x)) (requested attrs) /\
    ParseCertificateRequest E e =
      gbind (requestSANs E (requested attrs) (zeroAlt E)) (fun san =>
        Ret (OK (mkReq E e tbs (spki pub) subj sig 0 0 (KeySM2 pub) 0 (FillFromRDNSequence zeroName ss) attrs (requested attrs) [] san))).
Proof.
  intros t pub pri id tape e rest after ss H HB HL HK HSub HA HXE. unfold CreateCertificateRequest in H. unfold marshalPublicKey in H.
  rewrite (key_written pub HK) in H. cbn [bind] in H. rewrite curve_oid_written in H.
  destruct (requestedExtensions E t) as [exts|m] eqn:EX; [|discriminate H].
  destruct (requestAttributes E t exts) as [attrs aft] eqn:EA.
  apply (requestAttributes_ok t exts) in HA; [|apply (requestedExtensions_ok t exts EX HXE)]. rewrite EA in HA. cbn [fst] in HA.
  match type of H with match ?X with OK _ => _ | ERR _ => _ end = _ => destruct X as [[tbsCSR raw]|m] eqn:ET end; [|discriminate H].
  destruct (Sign pri id raw tape) as [[[sig|m] tape']|k] eqn:ES; cbn [bind] in H; try discriminate H.
  assert (H1 : fieldCsr (mkCsr [] (mkTbsCSR raw (tr_version tbsCSR) (tr_subject tbsCSR) (tr_key tbsCSR) (tr_attrs tbsCSR))
                 (mkAlg oidSignatureSM3WithSM2 zeroRaw) (mkBits sig (zlen sig * 8))) = OK e /\ tape' = rest /\ aft = after).
  { apply ret_inj in H. split; [exact (f_equal (fun x => fst (fst x)) H)|]. split; [exact (f_equal (fun x => snd (fst x)) H)|exact (f_equal snd H)]. }
  clear H. destruct H1 as (H & -> & ->).
  match type of ET with rbind ?X _ = _ => destruct X as [subj|m] eqn:EU end; [|discriminate ET]. cbn [rbind] in ET.
  destruct (newRawAttributes attrs) as [raws|m] eqn:EN; [|discriminate ET]. cbn [rbind] in ET.
  match type of ET with rbind (fieldTbsCSR ?X) _ = _ => set (T0 := X) in ET; destruct (fieldTbsCSR T0) as [raw'|m] eqn:EF end; [|discriminate ET].
  cbn [rbind] in ET. apply ok_inj in ET. apply pair_equal_spec in ET. destruct ET as [<- ->].
  (* sizes *)
  unfold fieldCsr in H. cbn [cr_raw cr_tbs cr_alg cr_sig] in H. unfold fieldTbsCSR at 1 in H. cbn [tr_raw] in H.
  pose proof EF as EF'. unfold fieldTbsCSR in EF'. change (tr_raw T0) with (@nil Z) in EF'. rewrite rawStruct_nil in EF'.
  assert (NE : raw <> []).
  { unfold marshalStruct in EF'. apply makeField_plain in EF'; try reflexivity. destruct EF' as (bd & _ & ->). intros K. discriminate K. }
  destruct (signed_struct _ _ _ _ H HL NE) as (c & Hc & He & SE & SC & LC). rewrite Hc in LC.
  destruct (struct_small _ _ EF' LC) as (c' & Hraw & LC' & Hc'). rewrite Hc' in Hc. subst c'. change (ident 0 16 true) with 48 in Hraw. rewrite <- Hraw in *.
  (* the parts of the signed bytes *)
  apply marshalStruct_inv in EF'; [|exact SC]. destruct EF' as (es & HE & HR & SP).
  destruct es as [|e1 [|e2 [|e3 [|e4 [|]]]]]; try discriminate HE. cbn [map] in HE.
  apply cons_eq in HE. destruct HE as [P1 HE]. apply cons_eq in HE. destruct HE as [P2 HE]. apply cons_eq in HE. destruct HE as [P3 HE]. apply cons_eq in HE. destruct HE as [P4 _].
  assert (SS : small e1 /\ small e2 /\ small e3 /\ small e4).
  { split; [|split; [|split]]; apply (small_concat [e1; e2; e3; e4]); try exact SP; cbn [In]; tauto. }
  destruct SS as (S1 & S2 & S3 & S4).
  unfold T0 in P1, P2, P3, P4. cbn [tr_version tr_subject tr_key tr_attrs] in P1, P2, P3, P4.
  change (mkBits (key_bytes pub) (zlen (key_bytes pub) * 8)) with (whole (key_bytes pub)) in P3. rewrite fieldPKI_key in P3. apply ok_inj in P3. subst e3.
  assert (NS : subj <> []).
  { unfold req_subject_is in HSub. destruct (r_RawSubject E t) as [|x0 y0]; [|apply ok_inj in EU; rewrite <- EU; discriminate].
    unfold marshalRDNSequence, fieldSlice in EU. apply makeField_plain in EU; try reflexivity. destruct EU as (bd & _ & ->). intros K. discriminate K. }
  rewrite makeRaw_full in P2 by exact NS. apply ok_inj in P2. subst e2.
  assert (ESub : elem uRDNSequence ss subj).
  { unfold req_subject_is in HSub. destruct (r_RawSubject E t) as [|x0 y0].
    - destruct HSub as [HN ->]. apply C79_rdn_sequence; [exact EU|exact S2|apply ToRDN_ok; exact HN].
    - apply ok_inj in EU. subst subj. exact HSub. }
  (* the attributes *)
  pose proof (newRaw_inv _ _ EN) as RA.
  assert (EAt : parseField (uList uRaw zeroRaw false) [] tag0 e4 = OK (raws, [])).
  { unfold makeField in P4. cbn [tag0 fp_optional fp_set fp_tag fp_explicit andb] in P4.
    destruct (makeFields (map (fun a => OK (makeRaw a)) raws)) as [cb|m] eqn:EM; [|discriminate P4]. cbn [rbind] in P4. apply ok_inj in P4.
    rewrite <- P4 in S4 |- *. destruct (tagged_small 2 0 true cb) as [EQ L]; [split; lia|exact S4|]. rewrite EQ.
    rewrite <- (app_nil_r (tlv _ cb)). apply (elem_tagged _ (uList uRaw zeroRaw false) raws [] tag0 0 cb 16 []); try reflexivity; [lia|exact L|].
    cbn [u_body uList]. destruct (makeFields_inv _ _ EM) as (xs & HX & ->). apply parse_sequence.
    clear - RA HX. revert xs HX. induction RA as [|a rv attrs raws (_ & Hr & _) RA IH]; intros xs HX; destruct xs as [|x xs]; try discriminate HX; [constructor|].
    cbn [map] in HX. apply cons_eq in HX. destruct HX as [HX1 HX]. constructor; [|apply IH; exact HX].
    apply ok_inj in HX1. unfold makeRaw in HX1. pose proof (elem_nonempty _ _ _ _ Hr) as N. destruct (rv_full rv) as [|z zs]; [congruence|]. rewrite <- HX1. exact Hr. }
  assert (EV : elem uInt 0 e1) by (apply fieldInt_rt; [exact P1|exact S1|lia]).
  destruct (elem_is_raw _ _ _ _ ESub) as (rs & ERs & FRs).
  set (T := mkTbsCSR raw 0 rs (key_info pub) raws).
  assert (ETb : elem uTbsCSR T raw).
  { rewrite HR. apply elem_struct; [exact SP|]. cbn [List.concat].
    rewrite (elem_parse _ uInt 0 e1) by exact EV. cbn [rbind]. rewrite (elem_parse _ uRaw rs subj) by exact ERs. cbn [rbind].
    rewrite (elem_parse _ uPKI (key_info pub)) by apply key_elem. cbn [rbind]. rewrite (app_nil_r e4), EAt. cbn [rbind]. unfold T. rewrite HR. cbn [List.concat]. rewrite (app_nil_r e4). reflexivity. }
  assert (BS : bytes sig).
  { rewrite He in HB. apply bytes_in_tlv in HB. apply bytes_app in HB. destruct HB as [_ HB]. apply bytes_app in HB. destruct HB as [_ HB].
    apply bytes_in_tlv in HB. apply bytes_cons in HB. apply HB. }
  exists exts, subj, raw, sig. cbv zeta. rewrite EA. cbn [fst]. split; [reflexivity|]. split; [reflexivity|]. split; [exact ES|]. split; [exact He|]. split; [exact NE|]. split; [exact (requested_small _ _ RA)|].
  assert (EC : elem uCsr (mkCsr e T (mkAlg oidSignatureSM3WithSM2 zeroRaw) (whole sig)) e).
  { rewrite He. change 48 with (ident 0 16 true). apply elem_struct; [exact SE|].
    rewrite (elem_parse _ uTbsCSR T raw _ _ ETb). cbn [rbind]. rewrite (elem_parse _ uAlg _ _ _ _ sigalg_elem). cbn [rbind].
    assert (PB : parseField uBits zeroBits noParams (tlv 3 (0 :: sig)) = OK (whole sig, [])).
    { rewrite <- (app_nil_r (tlv 3 _)). apply elem_parse. apply fieldBits_rt; [|apply (small_concat [raw; sm2sm3_alg; tlv 3 (0 :: sig)]); [cbn [List.concat]; rewrite app_nil_r; exact SE|cbn [In]; tauto]|apply bits_ok_whole; exact BS].
      unfold fieldBits. rewrite whole_bits. unfold makeField. cbn [noParams fp_optional fp_set fp_tag andb rbind]. unfold small in SE. rewrite !zlen_app in SE.
      pose proof (zlen_nonneg _ raw). pose proof (zlen_nonneg _ sm2sm3_alg). pose proof (zlen_tlv_ge 3 (0 :: sig)).
      rewrite tagged_tlv; [reflexivity|split; unfold TagBitString; lia|lia]. }
    rewrite PB. reflexivity. }
  unfold ParseCertificateRequest. rewrite <- (app_nil_r e) at 1. rewrite (elem_unmarshal _ uCsr _ _ _ _ EC). cbn [gbind].
  change (negb (zlen (@nil Z) =? 0)) with false. cbv iota. unfold parseCertificateRequest. cbn [cr_tbs cr_alg cr_raw cr_sig alg_oid].
  rewrite oidEqual_refl. cbn [negb]. unfold T. cbn [tr_key tr_subject tr_attrs tr_raw tr_version].
  change (alg_oid (pki_alg (key_info pub))) with oidPublicKeyECDSA. rewrite oidEqual_refl. cbn [negb]. rewrite (key_parsed pub HK). cbn [gbind].
  rewrite FRs. rewrite <- (app_nil_r subj) at 1. rewrite (elem_unmarshal _ uRDNSequence _ _ _ _ ESub). cbn [gbind].
  change (negb (zlen (@nil Z) =? 0)) with false. cbv iota. rewrite (extensions_back _ _ RA HA), (raw_attributes_back _ _ RA HA). cbn [gbind].
  unfold whole. rewrite rightAlign_whole. reflexivity.
Qed.

(** The signature verifies with the key in the request, if that is the public key of the signer. *)
Theorem C81_signature : forall t pub pri id tape e rest after ss,
  CreateCertificateRequest E t pub pri id tape = Ret (OK e, rest, after) -> bytes e -> small e ->
  key_ok pub -> req_subject_is t ss -> Forall attr_ok (r_Attributes E t) -> Forall ext_ok (r_ExtraExtensions E t) ->
  0 <= D pri -> CalculatePubKey pri = Ret pub -> good_id id -> bytes tape ->
  forall csr, ParseCertificateRequest E e = Ret (OK csr) ->
  r_PublicKey E csr = KeySM2 pub /\ VerifyCSRSign E csr id = Ret true /\ VerifyDERCSRSign E e id = Ret (OK true).
Proof.
  intros t pub pri id tape e rest after ss H HB HL HK HSub HA HX HD HP HI HT csr HC.
  destruct (C81_request _ _ _ _ _ _ _ _ _ H HB HL HK HSub HA HX) as (exts & subj & tbs & sig & _ & _ & HS & He & NE & _ & HPr).
  unfold VerifyDERCSRSign. rewrite HC. rewrite HC in HPr. cbn [gbind].
  destruct (requestSANs E _ (zeroAlt E)) as [[san|m]|k]; try discriminate HPr. cbn [gbind] in HPr. apply ret_inj in HPr. apply ok_inj in HPr. subst csr.
  unfold VerifyCSRSign. cbn [r_PublicKey r_RawTBS r_Signature]. split; [reflexivity|].
  assert (HM : good_msg tbs).
  { rewrite He in HB. apply bytes_in_tlv in HB. apply bytes_app in HB. split; [apply HB|]. split; [exact NE|].
    unfold small in HL. rewrite He in HL. pose proof (zlen_tlv_ge 48 (tbs ++ sm2sm3_alg ++ tlv 3 (0 :: sig))) as Q. rewrite zlen_app in Q.
    pose proof (zlen_nonneg _ (sm2sm3_alg ++ tlv 3 (0 :: sig))). lia. }
  rewrite (C44_sign_then_verify pri pub id tbs tape sig rest) by assumption. split; reflexivity.
Qed.

(** * What is requested *)

(** An extension as requests have it: never critical. *)
Definition uncritical (x : Extension) : Extension := mkExt (e_id x) false (e_value x).
(** The template's attributes do not specify the extension. *)
Definition unspecified (attrs : list ATVSet) (x : Extension) : Prop := ~ In (e_id x) (specifiedExtensions attrs).

Lemma oid_dec : forall a b : list Z, {a = b} + {a <> b}.
Proof. apply list_eq_dec. exact Z.eq_dec. Qed.
Lemma existsb_oid : forall i l, existsb (oidEqual i) l = true <-> In i l.
Proof.
  intros i l. rewrite existsb_exists. split.
  - intros (x & Hx & He). apply oidEqual_eq in He. subst x. exact Hx.
  - intros Hi. exists i. split; [exact Hi|apply oidEqual_refl].
Qed.
(** A template without attributes: exactly its extensions are requested, in this order. *)
Theorem C81_plain : forall t exts, r_Attributes E t = [] ->
  requested (fst (requestAttributes E t exts)) = map uncritical exts /\ snd (requestAttributes E t exts) = [].
Proof.
  intros t exts HA. unfold requestAttributes. rewrite HA. destruct (Z.ltb_spec 0 (zlen exts)) as [L|L].
  - cbn [appendToAttribute fst snd app]. split; [|reflexivity]. unfold requested. cbn [map List.concat as_type as_value hd].
    rewrite oidEqual_refl, app_nil_r. unfold extensionATVs, specifiedExtensions. cbn [map List.concat existsb negb].
    rewrite map_map. replace (filter (fun _ : Extension => true) exts) with exts; [reflexivity|].
    clear. induction exts as [|x l IH]; [reflexivity|]. cbn [filter]. rewrite <- IH. reflexivity.
  - assert (exts = []) as -> by (destruct exts as [|x l]; [reflexivity|rewrite zlen_cons in L; pose proof (zlen_nonneg _ l); lia]).
    split; reflexivity.
Qed.

Lemma as_extension_new : forall attrs exts, map as_extension (extensionATVs attrs exts) =
  map uncritical (filter (fun e => negb (existsb (oidEqual (e_id e)) (specifiedExtensions attrs))) exts).
Proof. intros. unfold extensionATVs. rewrite map_map. reflexivity. Qed.
Lemma requested_app : forall a b, requested (a ++ b) = requested a ++ requested b.
Proof. intros. unfold requested. rewrite map_app, concat_app. reflexivity. Qed.
Lemma requested_cons : forall a l, requested (a :: l) =
  (if oidEqual (as_type a) oidExtensionRequest then map as_extension (hd [] (as_value a)) else []) ++ requested l.
Proof. reflexivity. Qed.
Lemma append_requested : forall atvs attrs attrs', appendToAttribute atvs attrs = Some attrs' ->
  forall y, In y (requested attrs') <-> In y (requested attrs) \/ In y (map as_extension atvs).
Proof.
  intros atvs. induction attrs as [|a attrs IH]; intros attrs' H y; [discriminate H|]. cbn [appendToAttribute] in H.
  assert (REC : match appendToAttribute atvs attrs with Some r' => Some (a :: r') | None => None end = Some attrs' ->
            In y (requested attrs') <-> In y (requested (a :: attrs)) \/ In y (map as_extension atvs)).
  { intros Hr. destruct (appendToAttribute atvs attrs) as [r'|]; [|discriminate Hr]. injection Hr as <-.
    rewrite !requested_cons, !in_app_iff, (IH r' eq_refl y). tauto. }
  destruct (as_value a) as [|v0 vs] eqn:EV; [apply REC; exact H|]. destruct (oidEqual (as_type a) oidExtensionRequest) eqn:EO; [|apply REC; exact H].
  injection H as <-. rewrite !requested_cons. cbn [as_type as_value hd]. rewrite EO, EV. cbn [hd]. rewrite map_app, !in_app_iff. tauto.
Qed.
(** In general: what the attributes request already, and the extensions that they do not specify. *)
Theorem C81_requested : forall t exts y,
  In y (requested (fst (requestAttributes E t exts))) <->
  In y (requested (r_Attributes E t)) \/ exists x, In x exts /\ unspecified (r_Attributes E t) x /\ y = uncritical x.
Proof.
  intros t exts y.
  assert (NEW : In y (map as_extension (extensionATVs (r_Attributes E t) exts)) <->
                exists x, In x exts /\ unspecified (r_Attributes E t) x /\ y = uncritical x).
  { rewrite as_extension_new, in_map_iff. split.
    - intros (x & <- & Hx). apply filter_In in Hx. destruct Hx as [Hx Hn]. exists x. split; [exact Hx|]. split; [|reflexivity].
      unfold unspecified. rewrite <- existsb_oid. destruct (existsb _ _); [discriminate Hn|discriminate].
    - intros (x & Hx & Hn & ->). exists x. split; [reflexivity|]. apply filter_In. split; [exact Hx|].
      unfold unspecified in Hn. rewrite <- existsb_oid in Hn. destruct (existsb _ _); [congruence|reflexivity]. }
  rewrite <- NEW. unfold requestAttributes. destruct (Z.ltb_spec 0 (zlen exts)) as [L|L].
  - destruct (appendToAttribute _ _) as [attrs'|] eqn:EA; cbn [fst].
    + apply append_requested. exact EA.
    + rewrite requested_app, in_app_iff, requested_cons. cbn [as_type as_value hd]. rewrite oidEqual_refl, app_nil_r. reflexivity.
  - assert (exts = []) as -> by (destruct exts as [|x l]; [reflexivity|rewrite zlen_cons in L; pose proof (zlen_nonneg _ l); lia]).
    unfold extensionATVs. cbn [fst filter map In]. tauto.
Qed.

(** The template, whose attributes the call may have changed, gives the same request again. *)
Definition with_attributes (t : CertificateRequest E) (attrs : list ATVSet) : CertificateRequest E :=
  mkReq E (r_Raw E t) (r_RawTBS E t) (r_RawSPKI E t) (r_RawSubject E t) (r_Signature E t) (r_SignatureAlgorithm E t) (r_PublicKeyAlgorithm E t)
    (r_PublicKey E t) (r_Version E t) (r_Subject E t) attrs (r_Extensions E t) (r_ExtraExtensions E t) (r_SAN E t).
Lemma specified_cons : forall a l, specifiedExtensions (a :: l) =
  (if oidEqual (as_type a) oidExtensionRequest then map atv_type (List.concat (as_value a)) else []) ++ specifiedExtensions l.
Proof. reflexivity. Qed.
Lemma append_specified : forall atvs attrs attrs', appendToAttribute atvs attrs = Some attrs' ->
  forall i, In i (specifiedExtensions attrs') <-> In i (specifiedExtensions attrs) \/ In i (map atv_type atvs).
Proof.
  intros atvs. induction attrs as [|a attrs IH]; intros attrs' H i; [discriminate H|]. cbn [appendToAttribute] in H.
  assert (REC : match appendToAttribute atvs attrs with Some r' => Some (a :: r') | None => None end = Some attrs' ->
            In i (specifiedExtensions attrs') <-> In i (specifiedExtensions (a :: attrs)) \/ In i (map atv_type atvs)).
  { intros Hr. destruct (appendToAttribute atvs attrs) as [r'|]; [|discriminate Hr]. injection Hr as <-.
    rewrite !specified_cons, !in_app_iff, (IH r' eq_refl i). tauto. }
  destruct (as_value a) as [|v0 vs] eqn:EV; [apply REC; exact H|]. destruct (oidEqual (as_type a) oidExtensionRequest) eqn:EO; [|apply REC; exact H].
  injection H as <-. rewrite !specified_cons. cbn [as_type as_value]. rewrite EO, EV. cbn [List.concat]. rewrite !map_app, !in_app_iff. tauto.
Qed.
Lemma append_nothing : forall atvs attrs attrs', appendToAttribute atvs attrs = Some attrs' -> appendToAttribute [] attrs' = Some attrs'.
Proof.
  intros atvs. induction attrs as [|a attrs IH]; intros attrs' H; [discriminate H|]. cbn [appendToAttribute] in H.
  assert (REC : forall r', appendToAttribute atvs attrs = Some r' ->
    match appendToAttribute [] r' with Some r'' => Some (a :: r'') | None => None end = Some (a :: r')).
  { intros r' Hr. rewrite (IH r' Hr). reflexivity. }
  destruct (as_value a) as [|v0 vs] eqn:EV.
  - destruct (appendToAttribute atvs attrs) as [r'|] eqn:ER; [|discriminate H]. injection H as <-. cbn [appendToAttribute]. rewrite EV. apply REC. reflexivity.
  - destruct (oidEqual (as_type a) oidExtensionRequest) eqn:EO.
    + injection H as <-. cbn [appendToAttribute as_type as_value]. rewrite EO, app_nil_r. reflexivity.
    + destruct (appendToAttribute atvs attrs) as [r'|] eqn:ER; [|discriminate H]. injection H as <-. cbn [appendToAttribute]. rewrite EV, EO. apply REC. reflexivity.
Qed.
Theorem C81_again : forall t exts, let '(attrs, after) := requestAttributes E t exts in
  requestAttributes E (with_attributes t after) exts = (attrs, after).
Proof.
  intros t exts. unfold requestAttributes. cbn [with_attributes r_Attributes]. destruct (0 <? zlen exts) eqn:EL; [|reflexivity].
  destruct (appendToAttribute (extensionATVs (r_Attributes E t) exts) (r_Attributes E t)) as [attrs'|] eqn:EA.
  - cbn [with_attributes r_Attributes].
    assert (N : extensionATVs attrs' exts = []).
    { unfold extensionATVs. replace (filter _ exts) with (@nil Extension); [reflexivity|]. symmetry.
      assert (F : forall x, In x exts -> negb (existsb (oidEqual (e_id x)) (specifiedExtensions attrs')) = false).
      { intros x Hx. apply negb_false_iff. apply existsb_oid. apply (append_specified _ _ _ EA).
        destruct (existsb (oidEqual (e_id x)) (specifiedExtensions (r_Attributes E t))) eqn:EX; [left; apply existsb_oid; exact EX|right].
        unfold extensionATVs. rewrite map_map. cbn [atv_type]. apply in_map. apply filter_In. split; [exact Hx|]. rewrite EX. reflexivity. }
      revert F. generalize (specifiedExtensions attrs'). clear. intros sp F. induction exts as [|x l IH]; [reflexivity|]. cbn [filter].
      rewrite (F x (or_introl eq_refl)). apply IH. intros y Hy. apply F. right. exact Hy. }
    rewrite N, (append_nothing _ _ _ EA). reflexivity.
  - cbn [with_attributes r_Attributes]. rewrite EA. reflexivity.
Qed.
Corollary C81_repeatable : forall t pub pri id tape e rest after, CreateCertificateRequest E t pub pri id tape = Ret (OK e, rest, after) ->
  CreateCertificateRequest E (with_attributes t after) pub pri id tape = Ret (OK e, rest, after).
Proof.
  intros t pub pri id tape e rest after H. rewrite <- H. unfold CreateCertificateRequest in *.
  destruct (marshalPublicKey pub) as [[pb pa]|k]; [|reflexivity]. cbn [bind] in *.
  change (requestedExtensions E (with_attributes t after)) with (requestedExtensions E t).
  change (r_RawSubject E (with_attributes t after)) with (r_RawSubject E t). change (r_Subject E (with_attributes t after)) with (r_Subject E t).
  destruct (requestedExtensions E t) as [exts|m]; [|discriminate H].
  pose proof (C81_again t exts) as A. destruct (requestAttributes E t exts) as [attrs aft] eqn:EA.
  assert (aft = after) as <-; [|rewrite A; reflexivity].
  match type of H with match ?X with OK _ => _ | ERR _ => _ end = _ => destruct X as [[tbsCSR raw]|m] end; [|discriminate H].
  destruct (Sign pri id raw tape) as [[[sig|m] tape']|k]; cbn [bind] in H; try discriminate H.
  apply ret_inj in H. exact (f_equal snd H).
Qed.

(** * A request from a template without attributes of its own *)

(** The names that the template gives, in the form in which they are read back. *)
Definition req_sans (t : CertificateRequest E) (a : AltNames E) : Prop :=
  Forall ip_len (an_ips E (r_SAN E t)) /\
  an_dns E a = an_dns E (r_SAN E t) /\ an_emails E a = an_emails E (r_SAN E t) /\
  an_ips E a = map ipBytes (an_ips E (r_SAN E t)) /\ Forall2 (uri_back E) (an_uris E (r_SAN E t)) (an_uris E a).
Lemma no_san : forall l a, (forall x, In x l -> e_id x <> oidExtensionSubjectAltName) -> requestSANs E (map uncritical l) a = Ret (OK a).
Proof.
  induction l as [|x l IH]; intros a H; [reflexivity|]. cbn [map requestSANs uncritical e_id].
  destruct (oidEqual (e_id x) oidExtensionSubjectAltName) eqn:EO; [apply oidEqual_eq in EO; exfalso; apply (H x); [left; reflexivity|exact EO]|].
  apply IH. intros y Hy. apply H. right. exact Hy.
Qed.
Theorem C81_read_back : forall t pub pri id tape e rest after ss san,
  CreateCertificateRequest E t pub pri id tape = Ret (OK e, rest, after) -> bytes e -> small e ->
  key_ok pub -> req_subject_is t ss -> r_Attributes E t = [] -> Forall ext_ok (r_ExtraExtensions E t) ->
  (forall x, In x (r_ExtraExtensions E t) -> e_id x <> oidExtensionSubjectAltName) -> req_sans t san ->
  exists csr more, ParseCertificateRequest E e = Ret (OK csr) /\
    r_Raw E csr = e /\ e = tlv 48 (r_RawTBS E csr ++ more) /\ r_PublicKey E csr = KeySM2 pub /\ r_RawSPKI E csr = spki pub /\
    r_Subject E csr = FillFromRDNSequence zeroName ss /\ r_SAN E csr = san /\ r_Version E csr = 0 /\
    (forall x, In x (r_Extensions E csr) <->
       (exists y, In y (r_ExtraExtensions E t) /\ x = uncritical y) \/
       (altEmpty E (r_SAN E t) = false /\ e_id x = oidExtensionSubjectAltName /\ e_critical x = false /\ marshalSANs E (r_SAN E t) = OK (e_value x))) /\
    after = [].
Proof.
  intros t pub pri id tape e rest after ss san H HB HL HK HSub HA HX HN (I1 & I2 & I3 & I4 & I5).
  destruct (C81_request _ _ _ _ _ _ _ _ _ H HB HL HK HSub) as (exts & subj & tbs & sig & EX & HAf & HS & He & NE & SM & HP); [rewrite HA; constructor|exact HX|].
  destruct (C81_plain t exts HA) as [P1 P2]. rewrite P1 in *. rewrite P2 in HAf.
  assert (NI : oidInExtensions oidExtensionSubjectAltName (r_ExtraExtensions E t) = false).
  { destruct (oidInExtensions _ _) eqn:EI; [|reflexivity]. exfalso. unfold oidInExtensions in EI. apply existsb_exists in EI. destruct EI as (x & Hx & EO).
    apply oidEqual_eq in EO. apply (HN x Hx). congruence. }
  unfold requestedExtensions in EX. rewrite NI in EX. cbn [negb] in EX. rewrite andb_true_r in EX.
  destruct (altEmpty E (r_SAN E t)) eqn:EE; cbn [negb] in EX.
  - cbn [rbind app] in EX. apply ok_inj in EX. subst exts. rewrite (no_san _ _ HN) in HP. cbn [gbind] in HP.
    eexists. exists (sm2sm3_alg ++ tlv 3 (0 :: sig)). split; [exact HP|]. cbn [r_Raw r_RawTBS r_PublicKey r_RawSPKI r_Subject r_SAN r_Version r_Extensions].
    split; [reflexivity|]. split; [exact He|]. split; [reflexivity|]. split; [reflexivity|]. split; [reflexivity|]. split; [|split; [reflexivity|split; [|exact HAf]]].
    + destruct (r_SAN E t) as [d em ip ur] eqn:ER. cbn [an_dns an_emails an_ips an_uris] in *. unfold altEmpty in EE. cbn [an_dns an_emails an_ips an_uris] in EE.
      destruct d; [|discriminate EE]. destruct em; [|discriminate EE]. destruct ip; [|discriminate EE]. destruct ur; [|discriminate EE].
      destruct san as [d' em' ip' ur']. cbn [an_dns an_emails an_ips an_uris] in *. inversion I5. subst. reflexivity.
    + intros x. rewrite in_map_iff. split; [intros (y & <- & Hy); left; exists y; split; [exact Hy|reflexivity]|].
      intros [(y & Hy & ->)|(K & _)]; [exists y; split; [reflexivity|exact Hy]|discriminate K].
  - destruct (marshalSANs E (r_SAN E t)) as [b|m] eqn:EM; [|discriminate EX]. cbn [rbind app] in EX. apply ok_inj in EX. subst exts.
    cbn [map requestSANs uncritical e_id] in HP. rewrite oidEqual_refl in HP. cbn [e_value] in HP. inversion SM as [|? ? S1 _]; subst. cbn [e_value uncritical] in S1.
    assert (SP : parseSANExtension E b = Ret (OK san)).
    { destruct san as [d' em' ip' ur']. cbn [an_dns an_emails an_ips an_uris] in *. subst d' em' ip'.
      destruct (r_SAN E t) as [d em ip ur] eqn:ER. cbn [an_dns an_emails an_ips an_uris] in *. apply (C70_san E d em ip ur ur'); assumption. }
    cbn [uncritical e_value] in HP. rewrite SP in HP. cbn [gbind] in HP. rewrite (no_san _ _ HN) in HP. cbn [gbind] in HP.
    eexists. exists (sm2sm3_alg ++ tlv 3 (0 :: sig)). split; [exact HP|]. cbn [r_Raw r_RawTBS r_PublicKey r_RawSPKI r_Subject r_SAN r_Version r_Extensions].
    split; [reflexivity|]. split; [reflexivity|]. split; [reflexivity|]. split; [reflexivity|]. split; [reflexivity|]. split; [reflexivity|]. split; [reflexivity|]. split; [|reflexivity].
    intros x. cbn [In]. rewrite in_map_iff. split.
    + intros [<- |(y & <- & Hy)]; [right; cbn [e_id e_critical e_value]; repeat split; reflexivity|left; exists y; split; [exact Hy|reflexivity]].
    + intros [(y & Hy & ->)|(_ & K1 & K2 & K3)]; [right; exists y; split; [reflexivity|exact Hy]|left].
      destruct x as [i c v]. cbn [e_id e_critical e_value] in *. apply ok_inj in K3. subst. reflexivity.
Qed.
End Env.

(** * Examples *)

(** A template for a name with an extra attribute, two DNS names, an address and a mail address, and
    one critical extension. *)
Definition ex_req_template (attrs : list ATVSet) : CertificateRequest noNet :=
  mkReq noNet [] [] [] [] [] 0 0 KeyNil 0 C79_a attrs [] [mkExt [1; 2; 3] true [5; 0]]
    (mkAlt noNet [[97; 46; 98]; [99]] [[109; 64; 97]] [[127; 0; 0; 1]] []).
Definition ex_pub : PublicKey := mkPub curveGx curveGy.
Definition reqOf (x : go (res (list Z) * list Z * list ATVSet)) : list Z := match x with Ret (OK e, _, _) => e | _ => [] end.
Definition afterOf (x : go (res (list Z) * list Z * list ATVSet)) : list ATVSet := match x with Ret (_, _, a) => a | _ => [] end.
Definition ex_req : list Z := Eval vm_compute in reqOf (CreateCertificateRequest noNet (ex_req_template []) ex_pub ex_priv None ex_tape).
(** An attribute that asks for an extension already; the call adds to it, in the template as well. *)
Definition ex_req_attr : ATVSet := mkATVS oidExtensionRequest [[mkATV [1; 2; 3] (AnyBytes [7])]].
Definition ex_req2 : list Z := Eval vm_compute in reqOf (CreateCertificateRequest noNet (ex_req_template [ex_req_attr]) ex_pub ex_priv None ex_tape).
Definition ex_after : list ATVSet := Eval vm_compute in afterOf (CreateCertificateRequest noNet (ex_req_template [ex_req_attr]) ex_pub ex_priv None ex_tape).
Example C81_ex_made : CreateCertificateRequest noNet (ex_req_template []) ex_pub ex_priv None ex_tape = Ret (OK ex_req, [], []) /\
  bytes ex_req /\ small ex_req /\
  CreateCertificateRequest noNet (ex_req_template [ex_req_attr]) ex_pub ex_priv None ex_tape = Ret (OK ex_req2, [], ex_after) /\
  bytes ex_req2 /\ small ex_req2 /\ ex_after <> [ex_req_attr].
Proof.
  split; [vm_compute; reflexivity|]. split; [apply bytes_forallb; vm_compute; reflexivity|]. split; [vm_compute; reflexivity|].
  split; [vm_compute; reflexivity|]. split; [apply bytes_forallb; vm_compute; reflexivity|]. split; [vm_compute; reflexivity|].
  vm_compute. discriminate.
Qed.
Lemma ex_req_oid : oid_ok [1; 2; 3].
Proof. unfold oid_ok. repeat first [split | lia | constructor]. Qed.
Example C81_ex_hyps : key_ok ex_pub /\ (forall attrs, req_subject_is noNet (ex_req_template attrs) (ToRDNSequence C79_a)) /\
  Forall attr_ok [ex_req_attr] /\ Forall ext_ok (r_ExtraExtensions noNet (ex_req_template [])) /\
  (forall x, In x (r_ExtraExtensions noNet (ex_req_template [])) -> e_id x <> oidExtensionSubjectAltName) /\
  req_sans noNet (ex_req_template []) (mkAlt noNet [[97; 46; 98]; [99]] [[109; 64; 97]] [[127; 0; 0; 1]] []) /\
  CalculatePubKey ex_priv = Ret ex_pub /\ 0 <= D ex_priv.
Proof.
  split; [split; [|split]; [unfold ex_pub; cbn [X]; vm_compute; split; [discriminate|reflexivity]|
    unfold ex_pub; cbn [Y]; vm_compute; split; [discriminate|reflexivity]|vm_compute; reflexivity]|].
  split; [intros attrs; split; [exact (proj1 C79_oks)|reflexivity]|].
  split.
  { constructor; [|constructor]. split; [exact request_oid_ok|]. split.
    - constructor; [|constructor]. constructor; [|constructor]. split; [exact ex_req_oid|exact I].
    - intros _. constructor; [exact I|constructor]. }
  split; [constructor; [exact ex_req_oid|constructor]|].
  split; [intros x [<-|[]]; discriminate|].
  split; [split; [constructor; [left; reflexivity|constructor]|repeat split; constructor]|].
  split; [vm_compute; reflexivity|]. cbn. lia.
Qed.
(** The extension was critical in the template and is not in the request; where the attribute has the
    extension already, its value there wins. *)
Example C81_ex_parsed :
  (exists csr, ParseCertificateRequest noNet ex_req = Ret (OK csr) /\ n_Country (r_Subject noNet csr) = [[67; 78]; [68; 69]] /\
     In (mkExt [1; 2; 3] false [5; 0]) (r_Extensions noNet csr) /\ an_dns noNet (r_SAN noNet csr) = [[97; 46; 98]; [99]]) /\
  (exists csr, ParseCertificateRequest noNet ex_req2 = Ret (OK csr) /\ In (mkExt [1; 2; 3] false [7]) (r_Extensions noNet csr) /\
     List.length (r_Extensions noNet csr) = 2%nat /\ an_emails noNet (r_SAN noNet csr) = [[109; 64; 97]]).
Proof.
  split; (eexists; split; [vm_compute; reflexivity|]).
  - split; [vm_compute; reflexivity|]. split; [vm_compute; tauto|vm_compute; reflexivity].
  - split; [vm_compute; tauto|]. split; vm_compute; reflexivity.
Qed.
