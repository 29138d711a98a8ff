(** Property C130: making requests and certificates with nil pointers (sm2/cert/gmx509.go): which of them are never looked at, which give an error, which a panic. *)
From Coq Require Import ZArith List Lia Bool String.
From Verif Require Import GoBase BeMin CbString CbStringProofs CbBuilder CbBuilderProofs PropsCbBuilder CbAsn1Proofs GoAsn1 GoAsn1Proofs.
From Verif Require Import GoElliptic Sm2 Sm2Proofs2 PropsSm2 Sm2Der PropsSm2Der GoText GoPkix CertText PropsCertText Cert CertRt PropsCertExt PropsCertNames PropsCertSan PropsCertBuild PropsCertTime PropsCertDN CertRt2 PropsCert PropsCertReq.
From Verif Require Import PropsCertWhen Sm2Nil PropsSm2Nil CertNil.
Import ListNotations.
Open Scope Z_scope.

(** * Builder calls with a nil range *)

(** The pointers that are not nil. *)
Definition present {A} (l : list (option A)) : list A := flat_map (fun o => match o with Some a => [a] | None => [] end) l.

Lemma first_nil : forall A (l : list (option A)), In None l -> exists a r, l = map Some a ++ None :: r.
Proof.
  induction l as [|[x|] l IH]; intros H; [destruct H| |exists [], l; reflexivity].
  destruct H as [H|H]; [discriminate H|]. destruct (IH H) as (a & r & ->). exists (x :: a), r. reflexivity.
Qed.
Lemma present_app : forall A (a b : list (option A)), present (a ++ b) = present a ++ present b.
Proof. intros A a b. unfold present. apply flat_map_app. Qed.
Lemma present_some : forall A (l : list A), present (map Some l) = l.
Proof. induction l as [|x l IH]; [reflexivity|]. cbn [map present flat_map app]. f_equal. exact IH. Qed.

Lemma nil_range_panics : forall st f rest l, fixed st = false -> frames st = f :: rest -> f_err f = None -> shows st f l ->
  exists st', exec (rangeSubtree None) st = (st', Some PNil).
Proof.
  intros st f rest l Hf Hfr He HS. cbn [rangeSubtree]. rewrite exec_OASN1, Hfr. cbn [nth_error]. rewrite He.
  change (Z.land SEQUENCE 31 =? 31) with false. cbv iota.
  destruct (add_grow st f rest l [SEQUENCE] Hf Hfr He HS) as (st1 & f1 & -> & F1 & R1 & _ & X1 & S1).
  unfold addLP. rewrite R1. cbn [nth_error]. rewrite X1. cbn [Nat.eqb negb].
  destruct (enter_grow st1 f1 rest _ 1 true F1 R1 X1 S1 ltac:(lia)) as (st2 & f2 & c & -> & F2 & R2 & _ & _ & Xc & _ & _ & _ & S2).
  cbn [execs]. rewrite exec_OASN1, R2. cbn [nth_error]. rewrite Xc. change (Z.land (contextSpecific 7) 31 =? 31) with false. cbv iota.
  destruct (add_grow st2 c (f2 :: rest) _ [contextSpecific 7] F2 R2 Xc S2) as (st3 & f3 & -> & F3 & R3 & _ & X3 & S3).
  unfold addLP. rewrite R3. cbn [nth_error]. rewrite X3. cbn [Nat.eqb negb]. cbn [execs exec leave]. eexists. reflexivity.
Qed.
Lemma range_inert : forall o st f rest, frames st = f :: rest -> f_err f <> None -> exec (rangeSubtree o) st = (st, None).
Proof.
  intros o st f rest Hfr He. destruct (f_err f) as [m|] eqn:X; [|contradiction].
  destruct o as [i|]; cbn [rangeSubtree]; unfold subtree; rewrite exec_OASN1, Hfr; cbn [nth_error]; rewrite X; reflexivity.
Qed.
Lemma ranges_inert : forall l st f rest, frames st = f :: rest -> f_err f <> None -> execs (map rangeSubtree l) st = (st, None).
Proof.
  induction l as [|o l IH]; intros st f rest Hfr He; [reflexivity|]. cbn [map execs]. rewrite (range_inert o st f rest Hfr He).
  exact (IH st f rest Hfr He).
Qed.
Lemma ranges_items : forall l, map rangeSubtree (map Some l) = map call (map nc_item (map (fun i => (7, ipAndMask i)) l)).
Proof. intros l. rewrite !map_map. reflexivity. Qed.
Lemma items_grown : forall vs, grown (sers (map nc_item vs)) (mkFrame None 0 0 0 false) [] [] (execs (map call (map nc_item vs)) (NewBuilder [])).
Proof.
  intros vs. destruct grow_all as [_ G]. exact (G _ (nc_items_wf vs) (NewBuilder []) _ [] [] eq_refl eq_refl eq_refl (new_shows [])).
Qed.
Lemma ascii_dec : forall l, Forall ascii7 l \/ ~ Forall ascii7 l.
Proof.
  induction l as [|x l [IH|IH]]; [left; constructor| |right; intros K; inversion K; contradiction].
  destruct (ia5_iff x) as [[_ A]|[_ A]]; [left; constructor; assumption|right; intros K; inversion K; contradiction].
Qed.

(** With all ranges there it is the function of Cert.v. *)
Lemma serialise_whole : forall c, serialiseConstraintsN c (map Some (nc_ips c)) = serialiseConstraints c.
Proof.
  intros c. unfold serialiseConstraintsN, serialiseConstraints.
  destruct (ascii_dec (nc_dns c)) as [H1|H1]; [|destruct (proj2 (ia5Subtrees_eq 2 _ eq_refl) H1) as [m ->]; reflexivity].
  rewrite (proj1 (ia5Subtrees_eq 2 _ eq_refl) H1). cbn [gbind].
  rewrite ranges_items, <- !map_app. destruct (items_grown (map (fun n => (2, n)) (nc_dns c) ++ map (fun i => (7, ipAndMask i)) (nc_ips c))) as (st & f & Ex & _).
  rewrite !map_app in Ex |- *. rewrite Ex. cbv zeta. rewrite !map_map. reflexivity.
Qed.

(** The size of the DNS names and ranges. *)
Definition range_size (c : Constraints) (ips : list (option IPNet)) : Z := constraint_size (mkNC (nc_dns c) (present ips) [] []).

Lemma serialise_nil : forall c ips, In None ips ->
  (~ Forall ascii7 (nc_dns c) -> exists m, serialiseConstraintsN c ips = Ret (ERR m)) /\
  (serialiseConstraintsN c ips = Panic PNil \/ exists m, serialiseConstraintsN c ips = Ret (ERR m)) /\
  (Forall ascii7 (nc_dns c) -> range_size c ips < 2 ^ 31 -> serialiseConstraintsN c ips = Panic PNil).
Proof.
  intros c ips HN. destruct (first_nil _ _ HN) as (a & r & ->). unfold serialiseConstraintsN.
  destruct (ascii_dec (nc_dns c)) as [H1|H1].
  2: { destruct (proj2 (ia5Subtrees_eq 2 _ eq_refl) H1) as [m ->]. cbn [gbind].
       split; [intros _; exists m; reflexivity|]. split; [right; exists m; reflexivity|intros H; contradiction]. }
  split; [intros H; contradiction|].
  rewrite (proj1 (ia5Subtrees_eq 2 _ eq_refl) H1). cbn [gbind]. cbv zeta.
  rewrite (map_app rangeSubtree), ranges_items. cbn [map].
  set (vs := map (fun n => (2, n)) (nc_dns c) ++ map (fun i => (7, ipAndMask i)) a).
  assert (EP : map call (map nc_item (map (fun n => (2, n)) (nc_dns c))) ++ map call (map nc_item (map (fun i => (7, ipAndMask i)) a)) = map call (map nc_item vs))
    by (unfold vs; rewrite !map_app; reflexivity).
  set (tl := rangeSubtree None :: map rangeSubtree r).
  assert (EQ : forall more, map call (map nc_item (map (fun n => (2, n)) (nc_dns c))) ++ (map call (map nc_item (map (fun i => (7, ipAndMask i)) a)) ++ tl) ++ more
               = map call (map nc_item vs) ++ tl ++ more) by (intros more; rewrite <- EP, !app_assoc; reflexivity).
  pose proof (EQ []) as EQ0. rewrite !app_nil_r in EQ0. rewrite EQ0. rewrite execs_app.
  destruct (items_grown vs) as (st & f & Ex & Ff & Fr & _ & X). rewrite Ex.
  destruct (sers (map nc_item vs)) as [e|] eqn:ES.
  - destruct X as [Xe Xs]. unfold tl. cbn [execs]. destruct (nil_range_panics st f [] _ Ff Fr Xe Xs) as [st' ->].
    split; [left; reflexivity|reflexivity].
  - assert (IN : execs tl st = (st, None)) by (exact (ranges_inert (None :: r) st f [] Fr X)). rewrite IN.
    split.
    + right. destruct (ascii_dec (nc_emails c)) as [H2|H2]; [|destruct (proj2 (ia5Subtrees_eq 1 _ eq_refl) H2) as [m ->]; exists m; reflexivity].
      rewrite (proj1 (ia5Subtrees_eq 1 _ eq_refl) H2). cbn [gbind].
      destruct (ascii_dec (nc_uris c)) as [H3|H3]; [|destruct (proj2 (ia5Subtrees_eq 6 _ eq_refl) H3) as [m ->]; exists m; reflexivity].
      rewrite (proj1 (ia5Subtrees_eq 6 _ eq_refl) H3). cbn [gbind]. rewrite EQ. unfold runBuilder. rewrite execs_app, Ex, execs_app, IN, <- !map_app.
      match goal with |- context [execs (map call ?l) st] => destruct (errs_inert l st f [] Fr X) as (st2 & f2 & -> & _ & _ & R2 & _ & X2) end.
      unfold Bytes. rewrite R2. destruct (f_err f2) as [m|]; [exists m; reflexivity|contradiction].
    + intros _ SZ. exfalso.
      assert (T : Forall (fun p => 0 <= fst p < 31) vs).
      { apply Forall_forall. intros p Hp. apply in_app_or in Hp. destruct Hp as [Hp|Hp]; apply in_map_iff in Hp; destruct Hp as (x & <- & _); cbn; lia. }
      enough (S : sum (map (fun p => zlen (snd p) + 20) vs) < 2 ^ 31) by (destruct (sers_values vs T S) as [K _]; congruence).
      unfold range_size in SZ. rewrite present_app, present_some in SZ.
      pose proof (size_values (mkNC (nc_dns c) (a ++ present (None :: r)) [] [])) as SV. unfold nc_values in SV.
      cbn [nc_dns nc_ips nc_emails nc_uris map] in SV. rewrite !app_nil_r, !map_app, !sum_app in SV. unfold vs. rewrite map_app, sum_app.
      assert (P : forall l : list (Z * list Z), 0 <= sum (map (fun p => zlen (snd p) + 20) l)).
      { induction l as [|q l IHq]; [reflexivity|]. cbn [map sum fold_right]. unfold sum in IHq. pose proof (zlen_nonneg _ (snd q)). lia. }
      pose proof (P (map (fun i => (7, ipAndMask i)) (present (None :: r)))) as P0. lia.
Qed.

Lemma marshal_whole : forall p x, marshalNameConstraintsN p (map Some (nc_ips p)) x (map Some (nc_ips x)) = marshalNameConstraints p x.
Proof. intros p x. unfold marshalNameConstraintsN. rewrite !serialise_whole. reflexivity. Qed.

(** * The list of extensions *)
Lemma gather_app : forall a b, gather (a ++ b) = run x <- gather a; run y <- gather b; Ret (OK (x ++ y)).
Proof.
  induction a as [|s a IH]; intros b; cbn [app gather].
  - cbn [gbind]. destruct (gather b) as [[y|m]|k]; reflexivity.
  - destruct (s_cond s); [|apply IH]. destruct (s_value s) as [[v|m]|k]; [|reflexivity|reflexivity]. cbn [gbind]. rewrite IH.
    destruct (gather a) as [[x|m]|k]; [|reflexivity|reflexivity]. cbn [gbind]. destruct (gather b) as [[y|m]|k]; reflexivity.
Qed.
(** A block that fails, after blocks that do not. *)
Lemma gather_stops : forall a s b, s_cond s = true ->
  (s_value s = Panic PNil -> (forall x, gather (a ++ s :: b) <> Ret (OK x)) /\ (forall x, gather a = Ret (OK x) -> gather (a ++ s :: b) = Panic PNil)) /\
  (forall m, s_value s = Ret (ERR m) -> (forall x, gather (a ++ s :: b) <> Ret (OK x)) /\ (forall x, gather a = Ret (OK x) -> gather (a ++ s :: b) = Ret (ERR m))).
Proof.
  intros a s b HC. split; [intros HV|intros m HV]; rewrite gather_app; cbn [gather]; rewrite HC, HV; cbn [gbind];
    (split; [intros x; destruct (gather a) as [[y|m']|k]; discriminate|intros x ->; reflexivity]).
Qed.

Section Env.
Variable E : netEnv.
Notation nCert := (nCert E).
Notation nReq := (nReq E).
Notation Info := (CreateCertificateInfoN E).
Notation Request := (CreateCertificateRequestN E).

(** * Specification *)

(** A certificate or request all of whose pointers are there. *)
Definition whole (c : Certificate E) : nCert :=
  mkNCert E c (map Some (an_uris E (f_SAN E (c_fields E c)))) (map Some (nc_ips (f_Permitted E (c_fields E c)))) (map Some (nc_ips (f_Excluded E (c_fields E c)))).
Definition whole_key (k : anyKey) : reqKey := match k with KeySM2 pub => ReqSM2 (madePub pub) | _ => ReqOther end.
Definition whole_req (r : CertificateRequest E) : nReq := mkNReq E r (map Some (an_uris E (r_SAN E r))) (whole_key (r_PublicKey E r)).

(** The template with the alternative names and everything that is written after them removed, and with the name constraints and
    everything after them removed. *)
Definition with_fields (c : Certificate E) (f : certFields E) : Certificate E :=
  mkX509 E (c_Raw E c) (c_RawTBS E c) (c_RawSPKI E c) (c_RawSubject E c) (c_RawIssuer E c) (c_Signature E c) (c_SignatureAlgorithm E c)
    (c_PublicKeyAlgorithm E c) (c_PublicKey E c) (c_Version E c) (c_SerialNumber E c) (c_Issuer E c) (c_Subject E c) (c_NotBefore E c)
    (c_NotAfter E c) (c_Extensions E c) (c_ExtraExtensions E c) (c_Unhandled E c) f.
Definition no_constraints (f : certFields E) : certFields E :=
  set_NameConstraints E false zeroConstraints zeroConstraints (set_CRLDistributionPoints E [] f).
Definition upto_constraints (t : nCert) : nCert :=
  mkNCert E (with_fields (n_cert E t) (no_constraints (c_fields E (n_cert E t)))) (n_URIs E t) [] [].
Definition upto_names (t : nCert) : nCert :=
  mkNCert E (with_fields (n_cert E t) (set_SAN E (zeroAlt E) (set_PolicyIdentifiers E [] (no_constraints (c_fields E (n_cert E t)))))) [] [] [].
(** An extension that the caller supplies takes the place of the one that would be made. *)
Definition replaced (oid : list Z) (t : nCert) : Prop := In oid (map e_id (c_ExtraExtensions E (n_cert E t))).
Definition names_oid : list Z := [2; 5; 29; 17].
Definition constraints_oid : list Z := [2; 5; 29; 30].

(** * Proofs *)
Definition slotsN (template : nCert) (subjectIsEmpty : bool) (authorityKeyId : list Z) : list slot :=
  let t := c_fields E (n_cert E template) in
  let fresh oid := negb (oidInExtensions oid (c_ExtraExtensions E (n_cert E template))) in
  let p := f_Permitted E t in
  let x := f_Excluded E t in
  firstn 6 (slots E (n_cert E template) subjectIsEmpty authorityKeyId) ++
  [ mkSlot (negb (altEmptyN E (f_SAN E t) (n_URIs E template)) && fresh oidExtensionSubjectAltName) oidExtensionSubjectAltName subjectIsEmpty
      (marshalSANsN E (f_SAN E t) (n_URIs E template));
    mkSlot ((0 <? zlen (f_PolicyIdentifiers E t)) && fresh oidExtensionCertificatePolicies) oidExtensionCertificatePolicies false
           (Ret (fieldSlice false (map (fun p => marshalStruct [fieldOID p]) (f_PolicyIdentifiers E t))));
    mkSlot (((0 <? zlen (nc_dns p)) || (0 <? zlen (nc_dns x)) || (0 <? zlen (n_Permitted E template)) || (0 <? zlen (n_Excluded E template)) ||
             (0 <? zlen (nc_emails p)) || (0 <? zlen (nc_emails x)) || (0 <? zlen (nc_uris p)) || (0 <? zlen (nc_uris x)))
            && fresh oidExtensionNameConstraints) oidExtensionNameConstraints (f_ConstraintsCritical E t)
           (marshalNameConstraintsN p (n_Permitted E template) x (n_Excluded E template));
    mkSlot ((0 <? zlen (f_CRLDistributionPoints E t)) && fresh oidExtensionCRLDistributionPoints) oidExtensionCRLDistributionPoints false
           (Ret (fieldSlice false (map (fun name => fieldDP (rawURI name)) (f_CRLDistributionPoints E t)))) ].
Lemma buildExtensionsN_eq : forall t b k,
  buildExtensionsN E t b k = gbind (gather (slotsN t b k)) (fun es => Ret (OK (es ++ c_ExtraExtensions E (n_cert E t)))).
Proof.
  intros t b k.
  transitivity (runBlocks (slotsN t b k) (fun st => let '(ret, n) := st in do ret <- go_slice ret 0 n; Ret (OK (ret ++ c_ExtraExtensions E (n_cert E t))))
                  (repeat zeroExt 10, 0)); [reflexivity|].
  pose proof (runBlocks_gather (slotsN t b k) (fun st => let '(ret, n) := st in do ret <- go_slice ret 0 n; Ret (OK (ret ++ c_ExtraExtensions E (n_cert E t))))
                [] (repeat zeroExt 10) ltac:(cbn; lia)) as H.
  cbn [app] in H. change (zlen (@nil Extension)) with 0 in H. rewrite H. clear H.
  destruct (gather (slotsN t b k)) as [[es|m]|kk] eqn:EG; [|reflexivity|reflexivity]. cbn [gbind].
  pose proof (gather_length _ _ EG) as L. change (List.length (slotsN t b k)) with 10%nat in L.
  unfold go_slice. pose proof (zlen_nonneg _ es). rewrite zlen_app. pose proof (zlen_nonneg _ (skipn (List.length es) (repeat zeroExt 10))).
  rewrite (proj2 (Z.leb_le 0 (zlen es))) by lia. rewrite (proj2 (Z.leb_le (zlen es) _)) by lia. cbn [Z.leb Z.compare andb].
  cbn [bind]. f_equal. f_equal. f_equal. unfold sub. rewrite Z.sub_0_r. unfold zlen. rewrite Nat2Z.id. change (Z.to_nat 0) with 0%nat. cbn [skipn].
  rewrite firstn_app, firstn_all, Nat.sub_diag. cbn [firstn]. apply app_nil_r.
Qed.

Lemma strings_some : forall l, uriStrings E (map Some l) = Ret (map (urlString E) l).
Proof. induction l as [|u l IH]; [reflexivity|]. cbn [map uriStrings deref bind]. rewrite IH. reflexivity. Qed.
Lemma strings_nil : forall l, In None l -> uriStrings E l = Panic PNil.
Proof.
  intros l H. destruct (first_nil _ _ H) as (a & r & ->). clear H. induction a as [|u a IH]; [reflexivity|].
  cbn [map app uriStrings deref bind]. rewrite IH. reflexivity.
Qed.
Lemma sans_whole : forall a, marshalSANsN E a (map Some (an_uris E a)) = Ret (marshalSANs E a).
Proof. intros a. unfold marshalSANsN. rewrite strings_some. cbn [bind]. rewrite map_map. reflexivity. Qed.
Lemma sans_nil : forall a uris, In None uris -> marshalSANsN E a uris = Panic PNil /\ altEmptyN E a uris = false.
Proof.
  intros a uris H. split; [unfold marshalSANsN; rewrite (strings_nil _ H); reflexivity|].
  unfold altEmptyN. destruct uris as [|u r]; [destruct H|]. rewrite zlen_cons. pose proof (zlen_nonneg _ r).
  rewrite (proj2 (Z.eqb_neq (zlen r + 1) 0)) by lia. apply andb_false_r.
Qed.
Lemma zlen_map : forall A B (f : A -> B) l, zlen (map f l) = zlen l.
Proof. intros A B f l. unfold zlen. rewrite map_length. reflexivity. Qed.
Lemma empty_whole : forall a, altEmptyN E a (map Some (an_uris E a)) = altEmpty E a.
Proof. intros a. unfold altEmptyN, altEmpty. rewrite zlen_map. reflexivity. Qed.
Lemma slots_whole : forall c b k, slotsN (whole c) b k = slots E c b k.
Proof.
  intros c b k. unfold slotsN, whole. cbn [n_cert n_URIs n_Permitted n_Excluded]. rewrite sans_whole, empty_whole, marshal_whole, !zlen_map. reflexivity.
Qed.
Lemma build_whole : forall c b k, buildExtensionsN E (whole c) b k = buildExtensions E c b k.
Proof. intros c b k. rewrite buildExtensionsN_eq, buildExtensions_eq, slots_whole. reflexivity. Qed.

(** What happens before and after the extensions. *)
Definition parentId (p : nCert) : list Z := f_SubjectKeyId E (c_fields E (n_cert E p)).
Lemma info_cases : forall t p,
  (exists m, forall t' q', c_SerialNumber E (n_cert E t') = c_SerialNumber E (n_cert E t) -> subjectBytes E (n_cert E t') = subjectBytes E (n_cert E t) ->
             Info (Some t') (Some p) q' = Ret (ERR m)) \/
  (exists b k, (forall t' q', c_SerialNumber E (n_cert E t') = c_SerialNumber E (n_cert E t) -> subjectBytes E (n_cert E t') = subjectBytes E (n_cert E t) ->
                f_AuthorityKeyId E (c_fields E (n_cert E t')) = f_AuthorityKeyId E (c_fields E (n_cert E t)) ->
                (forall i, Info (Some t') (Some p) q' = Ret (OK i) -> exists es, buildExtensionsN E t' b k = Ret (OK es)) /\
                (forall kk, buildExtensionsN E t' b k = Panic kk -> Info (Some t') (Some p) q' = Panic kk) /\
                (forall m, buildExtensionsN E t' b k = Ret (ERR m) -> Info (Some t') (Some p) q' = Ret (ERR m))) /\
    (forall es, buildExtensionsN E t b k = Ret (OK es) -> Info (Some t) (Some p) None = Panic PNil)).
Proof.
  intros t p. destruct (c_SerialNumber E (n_cert E t)) as [serial|] eqn:ES.
  2: { left. eexists. intros t' q' H _. unfold CreateCertificateInfoN. cbn [deref bind]. rewrite H. reflexivity. }
  destruct (subjectBytes E (n_cert E p)) as [iss|m] eqn:EI.
  2: { left. exists m. intros t' q' H _. unfold CreateCertificateInfoN. cbn [deref bind]. rewrite H, EI. reflexivity. }
  destruct (subjectBytes E (n_cert E t)) as [sub|m] eqn:EU.
  2: { left. exists m. intros t' q' H H2. unfold CreateCertificateInfoN. cbn [deref bind]. rewrite H, EI. cbn [gbind]. rewrite H2. reflexivity. }
  right. exists (oidEqual sub emptyASN1Subject),
    (if negb (oidEqual iss sub) && (0 <? zlen (parentId p)) then parentId p else f_AuthorityKeyId E (c_fields E (n_cert E t))).
  split.
  - intros t' q' H1 H2 H3. unfold CreateCertificateInfoN. cbn [deref bind]. rewrite H1, EI. cbn [gbind]. rewrite H2. cbn [gbind]. rewrite H3.
    fold (parentId p). set (B := buildExtensionsN E t' _ _). split; [|split].
    + intros i H. destruct B as [[es|m]|kk]; [exists es; reflexivity|discriminate H|discriminate H].
    + intros kk ->. reflexivity.
    + intros m ->. reflexivity.
  - intros es H. unfold CreateCertificateInfoN. cbn [deref bind]. rewrite ES, EI. cbn [gbind]. rewrite EU. cbn [gbind]. fold (parentId p). rewrite H. reflexivity.
Qed.

(** * Theorems *)

(** With every pointer there, the functions are those of the other claims. *)
Theorem C130_whole : forall t p q pub pri id tape,
  Info (Some (whole t)) (Some (whole p)) (Some (whole_req q)) = CreateCertificateInfo E t p q /\
  Request (Some (whole_req q)) (madePub pub) (madePriv pri) id tape = CreateCertificateRequest E q pub pri id tape /\
  VerifyCSRSignN E (Some (whole_req q)) id = VerifyCSRSign E q id /\
  FillCertificateTemplateByCSRN E (Some (whole t)) (Some (whole_req q)) = Ret (whole (FillCertificateTemplateByCSR E t q)) /\
  forall i, IssueCertificateBySoftCAKeyN (Some i) (madePriv pri) id tape = IssueCertificateBySoftCAKey i pri id tape.
Proof.
  intros t p q pub pri id tape. destruct (C126_made pub pri) as (_ & HV & HP & _ & HS & _). split; [|split; [|split; [|split]]].
  - unfold CreateCertificateInfoN, CreateCertificateInfo. cbn [deref bind n_cert n_req whole whole_req].
    destruct (c_SerialNumber E t); [|reflexivity]. destruct (subjectBytes E p); [|reflexivity]. destruct (subjectBytes E t); [|reflexivity].
    cbn [gbind]. rewrite build_whole. reflexivity.
  - unfold CreateCertificateRequestN, CreateCertificateRequest, marshalPublicKey.
    assert (HB : GetUnCompressBytesN (madePub pub) = GetUnCompressBytes pub) by (destruct pub as [x y]; exact (proj1 (proj1 (C126_bytes (madePub (mkPub x y)) None)))).
    rewrite HB.
    destruct (GetUnCompressBytes pub) as [b|k]; [|reflexivity]. cbn [bind deref n_req whole_req].
    assert (HR : requestedExtensionsN E (whole_req q) = Ret (requestedExtensions E q)).
    { unfold requestedExtensionsN, requestedExtensions. cbn [n_req nr_URIs whole_req]. rewrite empty_whole, sans_whole.
      destruct (negb (altEmpty E (r_SAN E q)) && _); [|reflexivity]. destruct (marshalSANs E (r_SAN E q)); reflexivity. }
    rewrite HR. cbn [bind]. destruct (requestedExtensions E q) as [exts|m]; [|reflexivity].
    destruct (requestAttributes E q exts) as [attrs after].
    match goal with |- match ?x with _ => _ end = _ => destruct x as [[tbs contents]|m]; [|reflexivity] end.
    rewrite C126_sign_der, HS. reflexivity.
  - unfold VerifyCSRSignN, VerifyCSRSign. cbn [deref bind n_req whole_req nr_Key]. destruct (r_PublicKey E q) as [|k|]; [reflexivity| |reflexivity].
    cbn [whole_key]. apply C126_refuses. apply (C126_made k pri).
  - reflexivity.
  - intros i. unfold IssueCertificateBySoftCAKeyN, IssueCertificateBySoftCAKey. cbn [deref bind]. rewrite C126_sign_der, HS.
    destruct (Sign pri id (tb_raw i) tape) as [[[sg|m] tape']|k]; reflexivity.
Qed.

(** A certificate: the template is needed, then its serial number, then the parent. *)
Theorem C130_order :
  (forall p q, Info None p q = Panic PNil) /\
  (forall t p q, c_SerialNumber E (n_cert E t) = None -> exists m, Info (Some t) p q = Ret (ERR m)) /\
  (forall t q, c_SerialNumber E (n_cert E t) <> None -> Info (Some t) None q = Panic PNil).
Proof.
  split; [reflexivity|]. split.
  - intros t p q H. unfold CreateCertificateInfoN. cbn [deref bind]. rewrite H. eexists. reflexivity.
  - intros t q H. unfold CreateCertificateInfoN. cbn [deref bind]. destruct (c_SerialNumber E (n_cert E t)); [reflexivity|contradiction].
Qed.

(** The request is looked at last: without one the call fails as it would with any, or else panics. *)
Theorem C130_csr : forall t p,
  ((exists o, (forall q, Info (Some t) (Some p) q = o) /\ forall i, o <> Ret (OK i)) \/ Info (Some t) (Some p) None = Panic PNil) /\
  (forall q i, Info (Some t) (Some p) q = Ret (OK i) -> Info (Some t) (Some p) None = Panic PNil).
Proof.
  intros t p.
  assert (A : (exists o, (forall q, Info (Some t) (Some p) q = o) /\ forall i, o <> Ret (OK i)) \/ Info (Some t) (Some p) None = Panic PNil).
  { destruct (info_cases t p) as [[m H]|(b & k & H & HN)].
    - left. exists (Ret (ERR m)). split; [intros q; apply H; reflexivity|discriminate].
    - destruct (buildExtensionsN E t b k) as [[es|m]|kk] eqn:EB; [right; exact (HN es eq_refl)| |].
      + left. exists (Ret (ERR m)). split; [|discriminate]. intros q. apply (H t q eq_refl eq_refl eq_refl). exact EB.
      + left. exists (Panic kk). split; [|discriminate]. intros q. apply (H t q eq_refl eq_refl eq_refl). exact EB. }
  split; [exact A|]. intros q i H. destruct A as [(o & Ho & Hn)|A]; [|exact A]. exfalso. apply (Hn i). rewrite <- (Ho q). exact H.
Qed.

Lemma upto_names_gather : forall t b k, gather (slotsN (upto_names t) b k) = gather (firstn 6 (slots E (n_cert E t) b k)).
Proof.
  intros t b k. unfold slotsN at 1. rewrite gather_app.
  match goal with |- gbind _ (fun x => gbind (gather ?l) _) = _ => assert (T : gather l = Ret (OK [])) by reflexivity end. rewrite T. cbn [gbind].
  change (firstn 6 (slots E (n_cert E (upto_names t)) b k)) with (firstn 6 (slots E (n_cert E t) b k)).
  destruct (gather (firstn 6 (slots E (n_cert E t) b k))) as [[x|m]|kk]; [|reflexivity|reflexivity]. cbn [gbind]. rewrite app_nil_r. reflexivity.
Qed.
Lemma fresh_of : forall oid t, ~ replaced oid t -> negb (oidInExtensions oid (c_ExtraExtensions E (n_cert E t))) = true.
Proof. intros oid t H. apply fresh_iff. exact H. Qed.

(** A nil URI, unless the names are replaced: no certificate is made; if all that is written before the names can be written, it panics. *)
Theorem C130_uri : forall t p, In None (n_URIs E t) -> ~ replaced names_oid t ->
  (forall q i, Info (Some t) (Some p) q <> Ret (OK i)) /\
  (forall q q' i, Info (Some (upto_names t)) (Some p) q = Ret (OK i) -> Info (Some t) (Some p) q' = Panic PNil).
Proof.
  intros t p HN HR. destruct (info_cases t p) as [[m H]|(b & k & H & _)].
  { split; [intros q i; rewrite (H t q eq_refl eq_refl); discriminate|]. intros q q' i HI. rewrite (H (upto_names t) q eq_refl eq_refl) in HI. discriminate HI. }
  destruct (sans_nil (f_SAN E (c_fields E (n_cert E t))) _ HN) as [HV HC].
  assert (G : (forall x, gather (slotsN t b k) <> Ret (OK x)) /\
              (forall x, gather (firstn 6 (slots E (n_cert E t) b k)) = Ret (OK x) -> gather (slotsN t b k) = Panic PNil)).
  { unfold slotsN. cbv zeta. match goal with |- context [gather (?a ++ ?s :: ?r)] => destruct (gather_stops a s r) as [K _] end.
    - cbn [s_cond]. rewrite HC, (fresh_of oidExtensionSubjectAltName t HR). reflexivity.
    - exact (K HV). }
  destruct G as [G1 G2]. split.
  - intros q i HI. destruct (H t q eq_refl eq_refl eq_refl) as [H1 _]. destruct (H1 i HI) as [es HB]. rewrite buildExtensionsN_eq in HB.
    destruct (gather (slotsN t b k)) as [[x|m]|kk]; [apply (G1 x); reflexivity|discriminate HB|discriminate HB].
  - intros q q' i HI. destruct (H (upto_names t) q eq_refl eq_refl eq_refl) as [H1 _]. destruct (H1 i HI) as [es HB].
    rewrite buildExtensionsN_eq, upto_names_gather in HB. destruct (gather (firstn 6 (slots E (n_cert E t) b k))) as [[x|m]|kk] eqn:EG; [|discriminate HB|discriminate HB].
    destruct (H t q' eq_refl eq_refl eq_refl) as (_ & H2 & _). apply H2. rewrite buildExtensionsN_eq, (G2 x eq_refl). reflexivity.
Qed.

Lemma upto_constraints_gather : forall t b k, gather (slotsN (upto_constraints t) b k) = gather (firstn 8 (slotsN t b k)).
Proof.
  intros t b k. transitivity (gather (firstn 8 (slotsN (upto_constraints t) b k) ++ skipn 8 (slotsN (upto_constraints t) b k))); [rewrite firstn_skipn; reflexivity|].
  rewrite gather_app. assert (T : gather (skipn 8 (slotsN (upto_constraints t) b k)) = Ret (OK [])) by reflexivity. rewrite T. cbn [gbind].
  change (firstn 8 (slotsN (upto_constraints t) b k)) with (firstn 8 (slotsN t b k)).
  destruct (gather (firstn 8 (slotsN t b k))) as [[x|m]|kk]; [|reflexivity|reflexivity]. cbn [gbind]. rewrite app_nil_r. reflexivity.
Qed.
(** The outcome of the name constraints decides, if they are written. *)
Lemma constraints_decide : forall t p, In None (n_Permitted E t ++ n_Excluded E t) -> ~ replaced constraints_oid t ->
  let f := c_fields E (n_cert E t) in
  let v := marshalNameConstraintsN (f_Permitted E f) (n_Permitted E t) (f_Excluded E f) (n_Excluded E t) in
  (v = Panic PNil \/ exists m, v = Ret (ERR m)) ->
  (forall q i, Info (Some t) (Some p) q <> Ret (OK i)) /\
  (forall q q' i, Info (Some (upto_constraints t)) (Some p) q = Ret (OK i) ->
     (v = Panic PNil -> Info (Some t) (Some p) q' = Panic PNil) /\ (forall m, v = Ret (ERR m) -> Info (Some t) (Some p) q' = Ret (ERR m))).
Proof.
  intros t p HN HR f v HV. destruct (info_cases t p) as [[m H]|(b & k & H & _)].
  { split; [intros q i; rewrite (H t q eq_refl eq_refl); discriminate|]. intros q q' i HI. rewrite (H (upto_constraints t) q eq_refl eq_refl) in HI. discriminate HI. }
  assert (HC : (0 <? zlen (n_Permitted E t)) || (0 <? zlen (n_Excluded E t)) = true).
  { apply orb_true_iff. rewrite !nonempty_iff. apply in_app_or in HN. destruct HN as [HN|HN]; [left|right]; intros K; rewrite K in HN; destruct HN. }
  assert (G : (forall x, gather (slotsN t b k) <> Ret (OK x)) /\
              (forall x, gather (firstn 8 (slotsN t b k)) = Ret (OK x) ->
                (v = Panic PNil -> gather (slotsN t b k) = Panic PNil) /\ (forall m, v = Ret (ERR m) -> gather (slotsN t b k) = Ret (ERR m)))).
  { pose proof (eq_sym (firstn_skipn 8 (slotsN t b k))) as EA. set (a := firstn 8 (slotsN t b k)) in *. clearbody a.
    match eval cbn [skipn slotsN slots firstn app] in (skipn 8 (slotsN t b k)) with ?s :: ?r =>
      change (skipn 8 (slotsN t b k)) with (s :: r) in EA; rewrite EA; destruct (gather_stops a s r) as [K1 K2] end.
    - cbn [s_cond]. fold f. rewrite (fresh_of oidExtensionNameConstraints t HR), andb_true_r.
      apply orb_true_iff in HC. rewrite !orb_true_iff. tauto.
    - cbn [s_value] in K1, K2. fold f in K1, K2. fold v in K1, K2. split.
      + destruct HV as [HV|[m HV]]; [exact (proj1 (K1 HV))|exact (proj1 (K2 m HV))].
      + intros x HX. split; [intros HP; exact (proj2 (K1 HP) x HX)|intros m HM; exact (proj2 (K2 m HM) x HX)]. }
  destruct G as [G1 G2]. split.
  - intros q i HI. destruct (H t q eq_refl eq_refl eq_refl) as [H1 _]. destruct (H1 i HI) as [es HB]. rewrite buildExtensionsN_eq in HB.
    destruct (gather (slotsN t b k)) as [[x|m]|kk]; [apply (G1 x); reflexivity|discriminate HB|discriminate HB].
  - intros q q' i HI. destruct (H (upto_constraints t) q eq_refl eq_refl eq_refl) as [H1 _]. destruct (H1 i HI) as [es HB].
    rewrite buildExtensionsN_eq, upto_constraints_gather in HB. destruct (gather (firstn 8 (slotsN t b k))) as [[x|m]|kk] eqn:EG; [|discriminate HB|discriminate HB].
    destruct (H t q' eq_refl eq_refl eq_refl) as (_ & H2 & H3). destruct (G2 x eq_refl) as [GP GE].
    split; [intros HP; apply H2|intros m HM; apply H3]; rewrite buildExtensionsN_eq; [rewrite (GP HP)|rewrite (GE m HM)]; reflexivity.
Qed.

Definition with_ranges (c : Constraints) (l : list IPNet) : Constraints := mkNC (nc_dns c) l (nc_emails c) (nc_uris c).
Lemma no_nil : forall A (l : list (option A)), ~ In None l -> l = map Some (present l).
Proof.
  induction l as [|[x|] l IH]; intros H; [reflexivity| |destruct H; left; reflexivity].
  cbn [present flat_map app map]. fold (present l). rewrite <- IH; [reflexivity|]. intros K. apply H. right. exact K.
Qed.
Lemma nil_dec : forall A (l : list (option A)), In None l \/ ~ In None l.
Proof. induction l as [|[x|] l [IH|IH]]; [right; intros []|left; right; exact IH| |left; left; reflexivity|left; left; reflexivity]. right. intros [K|K]; [discriminate K|contradiction]. Qed.
Lemma serialise_present : forall c ips, ~ In None ips -> serialiseConstraintsN c ips = serialiseConstraints (with_ranges c (present ips)).
Proof. intros c ips H. rewrite (no_nil _ ips H) at 1. exact (serialise_whole (with_ranges c (present ips))). Qed.
Lemma serialise_returns : forall c, exists r, serialiseConstraints c = Ret r.
Proof.
  intros c. destruct (ascii_dec (nc_dns c)) as [H1|H1]; [destruct (ascii_dec (nc_emails c)) as [H2|H2]; [destruct (ascii_dec (nc_uris c)) as [H3|H3]|]|].
  - rewrite (serialise_eq c H1 H2 H3). destruct (runBuilder_items _ (nc_items_wf (nc_values c))) as [K _]. eexists. exact K.
  - destruct (C65_not_written c) as [m H]; [tauto|]. eexists. exact H.
  - destruct (C65_not_written c) as [m H]; [tauto|]. eexists. exact H.
  - destruct (C65_not_written c) as [m H]; [tauto|]. eexists. exact H.
Qed.
Lemma marshal_nil : forall p ps x xs, In None (ps ++ xs) ->
  let v := marshalNameConstraintsN p ps x xs in
  (v = Panic PNil \/ exists m, v = Ret (ERR m)) /\
  (In None ps -> (~ Forall ascii7 (nc_dns p) -> exists m, v = Ret (ERR m)) /\ (Forall ascii7 (nc_dns p) -> range_size p ps < 2 ^ 31 -> v = Panic PNil)) /\
  (~ In None ps -> (~ (seven_bit p /\ Forall ascii7 (nc_dns x)) -> exists m, v = Ret (ERR m)) /\
     (seven_bit p -> constraint_size (with_ranges p (present ps)) < 2 ^ 31 -> Forall ascii7 (nc_dns x) -> range_size x xs < 2 ^ 31 -> v = Panic PNil)).
Proof.
  intros p ps x xs HN v. unfold v, marshalNameConstraintsN. clear v. destruct (nil_dec _ ps) as [HP|HP].
  - destruct (serialise_nil p ps HP) as (H1 & H2 & H3). split; [|split; [|intros K; contradiction]].
    + destruct H2 as [->|[m ->]]; [left; reflexivity|right; exists m; reflexivity].
    + intros _. split; [intros K; destruct (H1 K) as [m ->]; exists m; reflexivity|intros K1 K2; rewrite (H3 K1 K2); reflexivity].
  - assert (HX : In None xs) by (apply in_app_or in HN; destruct HN; [contradiction|assumption]).
    destruct (serialise_nil x xs HX) as (H1 & H2 & H3). rewrite (serialise_present p ps HP).
    assert (S : (exists m, serialiseConstraints (with_ranges p (present ps)) = Ret (ERR m)) \/
                (seven_bit p /\ exists e, serialiseConstraints (with_ranges p (present ps)) = Ret (OK e))).
    { destruct (serialise_returns (with_ranges p (present ps))) as [[e|m] K]; [right|left; exists m; exact K].
      split; [|exists e; exact K]. destruct (serialise_inv _ _ K) as (A & B & C & _). repeat split; assumption. }
    split; [|split; [intros K; contradiction|intros _; split]].
    + destruct S as [[m ->]|[_ [e ->]]]; [right; exists m; reflexivity|]. cbn [gbind]. destruct H2 as [->|[m ->]]; [left; reflexivity|right; exists m; reflexivity].
    + intros K. destruct S as [[m ->]|[SB [e ->]]]; [exists m; reflexivity|]. cbn [gbind].
      destruct H1 as [m ->]; [tauto|]. exists m. reflexivity.
    + intros SB SZ AX RX. destruct (serialise_makes (with_ranges p (present ps)) SB SZ) as (e & -> & _). cbn [gbind]. rewrite (H3 AX RX). reflexivity.
Qed.

(** A nil IP range, unless the name constraints are replaced: no certificate is made; if everything before the constraints can be written,
    it panics, except that a DNS name that is not ASCII (or, for an excluded range, a permitted name of any kind) is refused first. *)
Theorem C130_range : forall t p, ~ replaced constraints_oid t ->
  let f := c_fields E (n_cert E t) in
  let ps := n_Permitted E t in
  let xs := n_Excluded E t in
  (In None (ps ++ xs) -> forall q i, Info (Some t) (Some p) q <> Ret (OK i)) /\
  forall q i q', Info (Some (upto_constraints t)) (Some p) q = Ret (OK i) ->
  (In None ps ->
     (~ Forall ascii7 (nc_dns (f_Permitted E f)) -> exists m, Info (Some t) (Some p) q' = Ret (ERR m)) /\
     (Forall ascii7 (nc_dns (f_Permitted E f)) -> range_size (f_Permitted E f) ps < 2 ^ 31 -> Info (Some t) (Some p) q' = Panic PNil)) /\
  (~ In None ps -> In None xs ->
     (~ (seven_bit (f_Permitted E f) /\ Forall ascii7 (nc_dns (f_Excluded E f))) -> exists m, Info (Some t) (Some p) q' = Ret (ERR m)) /\
     (seven_bit (f_Permitted E f) -> constraint_size (with_ranges (f_Permitted E f) (present ps)) < 2 ^ 31 ->
      Forall ascii7 (nc_dns (f_Excluded E f)) -> range_size (f_Excluded E f) xs < 2 ^ 31 -> Info (Some t) (Some p) q' = Panic PNil)).
Proof.
  intros t p HR f ps xs.
  assert (D : In None (ps ++ xs) -> let v := marshalNameConstraintsN (f_Permitted E f) ps (f_Excluded E f) xs in
     (forall q i, Info (Some t) (Some p) q <> Ret (OK i)) /\
     (forall q q' i, Info (Some (upto_constraints t)) (Some p) q = Ret (OK i) ->
       (v = Panic PNil -> Info (Some t) (Some p) q' = Panic PNil) /\ (forall m, v = Ret (ERR m) -> Info (Some t) (Some p) q' = Ret (ERR m)))).
  { intros HN v. apply (constraints_decide t p HN HR). exact (proj1 (marshal_nil (f_Permitted E f) ps (f_Excluded E f) xs HN)). }
  split; [intros HN; exact (proj1 (D HN))|]. intros q i q' HI. split.
  - intros HP. assert (HN : In None (ps ++ xs)) by (apply in_or_app; left; exact HP).
    destruct (proj2 (D HN) q q' i HI) as [D1 D2]. destruct (marshal_nil (f_Permitted E f) ps (f_Excluded E f) xs HN) as (_ & M & _). destruct (M HP) as [M1 M2].
    split; [intros K; destruct (M1 K) as [m Hm]; exists m; exact (D2 m Hm)|intros K1 K2; exact (D1 (M2 K1 K2))].
  - intros HP HX. assert (HN : In None (ps ++ xs)) by (apply in_or_app; right; exact HX).
    destruct (proj2 (D HN) q q' i HI) as [D1 D2]. destruct (marshal_nil (f_Permitted E f) ps (f_Excluded E f) xs HN) as (_ & _ & M). destruct (M HP) as [M1 M2].
    split; [intros K; destruct (M1 K) as [m Hm]; exists m; exact (D2 m Hm)|intros K1 K2 K3 K4; exact (D1 (M2 K1 K2 K3 K4))].
Qed.

(** Where the caller supplies the extension, the pointers it would be made from are not looked at. *)
Definition with_URIs (t : nCert) (u : list (option (URL E))) : nCert := mkNCert E (n_cert E t) u (n_Permitted E t) (n_Excluded E t).
Definition with_IPs (t : nCert) (ps xs : list (option IPNet)) : nCert := mkNCert E (n_cert E t) (n_URIs E t) ps xs.
Theorem C130_replaced : forall t p q,
  (replaced names_oid t -> forall u, Info (Some (with_URIs t u)) p q = Info (Some t) p q) /\
  (replaced constraints_oid t -> forall ps xs, Info (Some (with_IPs t ps xs)) p q = Info (Some t) p q).
Proof.
  intros t p q.
  assert (R : forall t', n_cert E t' = n_cert E t -> (forall b k, buildExtensionsN E t' b k = buildExtensionsN E t b k) -> Info (Some t') p q = Info (Some t) p q).
  { intros t' HT HB. unfold CreateCertificateInfoN. cbn [deref bind]. rewrite HT. destruct (c_SerialNumber E (n_cert E t)); [|reflexivity].
    destruct p as [p|]; [|reflexivity]. cbn [deref bind]. destruct (subjectBytes E (n_cert E p)); [|reflexivity]. cbn [gbind].
    destruct (subjectBytes E (n_cert E t)); [|reflexivity]. cbn [gbind]. rewrite HB. reflexivity. }
  assert (F : forall oid, replaced oid t -> negb (oidInExtensions oid (c_ExtraExtensions E (n_cert E t))) = false).
  { intros oid H. destruct (negb (oidInExtensions oid (c_ExtraExtensions E (n_cert E t)))) eqn:X; [|reflexivity]. apply fresh_iff in X. contradiction. }
  split.
  - intros H u. apply R; [reflexivity|]. intros b k. rewrite !buildExtensionsN_eq. unfold slotsN. rewrite !gather_app. cbn [n_cert with_URIs].
    cbn [gather s_cond n_URIs n_Permitted n_Excluded with_URIs]. rewrite (F oidExtensionSubjectAltName H), !andb_false_r. reflexivity.
  - intros H ps xs. apply R; [reflexivity|]. intros b k. rewrite !buildExtensionsN_eq. unfold slotsN. rewrite !gather_app. cbn [n_cert with_IPs].
    cbn [gather s_cond n_URIs n_Permitted n_Excluded with_IPs]. rewrite (F oidExtensionNameConstraints H), !andb_false_r. reflexivity.
Qed.

(** A request: the point of the public key is needed first, then the template, then the URIs (unless replaced), and last the private
    key: without a usable one the call fails as with every other key, or panics. *)
Theorem C130_request : forall pub id tape,
  (point pub = None -> forall t pri, panics (Request t pub pri id tape)) /\
  (forall k b, point pub = Some k -> GetUnCompressBytes k = Ret b ->
     (forall pri, Request None pub pri id tape = Panic PNil) /\
     (forall t pri, In None (nr_URIs E t) -> ~ In names_oid (map e_id (r_ExtraExtensions E (n_req E t))) -> Request (Some t) pub pri id tape = Panic PNil)) /\
  (forall t pri, forSign pri = None ->
     (exists k, forall pri' tape', Request t pub pri' id tape' = Panic k) \/
     (exists e after, forall pri' tape', Request t pub pri' id tape' = Ret (ERR e, tape', after)) \/
     Request t pub pri id tape = Panic PNil) /\
  (forall t pri pri' tape' r tape2 after, forSign pri = None -> Request t pub pri' id tape' = Ret (OK r, tape2, after) -> Request t pub pri id tape = Panic PNil).
Proof.
  intros pub id tape. pose proof (proj1 (C126_bytes pub None)) as HB.
  assert (A : forall t pri, forSign pri = None ->
     (exists k, forall pri' tape', Request t pub pri' id tape' = Panic k) \/
     (exists e after, forall pri' tape', Request t pub pri' id tape' = Ret (ERR e, tape', after)) \/
     Request t pub pri id tape = Panic PNil).
  { intros t pri HS. unfold CreateCertificateRequestN. destruct (GetUnCompressBytesN pub) as [b|k]; [|left; exists k; reflexivity]. cbn [bind].
    destruct t as [t|]; [|left; exists PNil; reflexivity]. cbn [deref bind].
    destruct (requestedExtensionsN E t) as [[exts|m]|k]; cbn [bind]; [|right; left; eexists _, _; reflexivity|left; exists k; reflexivity].
    destruct (requestAttributes E (n_req E t) exts) as [attrs after].
    match goal with |- context [match ?x with OK _ => _ | ERR _ => _ end] => destruct x as [[tbs contents]|m]; [|right; left; eexists _, _; reflexivity] end.
    right. right. rewrite C126_sign_der, HS. reflexivity. }
  split; [|split; [|split]].
  - intros HP t pri. rewrite HP in HB. destruct HB as [[k HB] _]. exists k. unfold CreateCertificateRequestN. rewrite HB. reflexivity.
  - intros k b HP HK. rewrite HP in HB. destruct HB as [HB _]. rewrite HK in HB. unfold CreateCertificateRequestN. rewrite HB. cbn [bind].
    split; [reflexivity|]. intros t pri HN HF. cbn [deref bind]. unfold requestedExtensionsN.
    destruct (sans_nil (r_SAN E (n_req E t)) _ HN) as [HV HC]. rewrite HC, HV.
    change oidExtensionSubjectAltName with names_oid. rewrite (proj2 (fresh_iff names_oid _) HF). reflexivity.
  - exact A.
  - intros t pri pri' tape' r tape2 after HS HO. destruct (A t pri HS) as [[k K]|[(e & af & K)|K]]; [|  |exact K]; rewrite K in HO; discriminate HO.
Qed.

(** Verifying a request: it is needed, and its key has to be an *sm2.PublicKey; that may be nil or incomplete if the signature is refused
    before it is used. A request that verifies has a complete key. *)
Theorem C130_verify : forall id,
  VerifyCSRSignN E None id = Panic PNil /\
  (forall q, nr_Key E q = ReqOther -> panics (VerifyCSRSignN E (Some q) id)) /\
  (forall q pub, nr_Key E q = ReqSM2 pub ->
     ((forall r s, UnmarshalSign (r_Signature E (n_req E q)) = OK (r, s) -> r < 1) -> VerifyCSRSignN E (Some q) id = Ret false)) /\
  (forall q, VerifyCSRSignN E (Some q) id = Ret true ->
     exists pub k, nr_Key E q = ReqSM2 pub /\ forVerify pub = Some k /\ Verify k id (r_RawTBS E (n_req E q)) (r_Signature E (n_req E q)) = Ret true).
Proof.
  intros id. split; [reflexivity|]. split; [|split].
  - intros q H. unfold VerifyCSRSignN. cbn [deref bind]. rewrite H. eexists. reflexivity.
  - intros q pub H HS. unfold VerifyCSRSignN. cbn [deref bind]. rewrite H.
    destruct (C126_refuses pub id (r_RawTBS E (n_req E q)) (r_Signature E (n_req E q))) as (H1 & H2 & _).
    destruct (UnmarshalSign (r_Signature E (n_req E q))) as [[r s]|m] eqn:EU; [exact (H2 r s eq_refl (HS r s eq_refl))|exact (H1 m eq_refl)].
  - intros q H. unfold VerifyCSRSignN in H. cbn [deref bind] in H. destruct (nr_Key E q) as [pub|]; [|discriminate H]. exists pub.
    unfold VerifyN in H. unfold Verify. destruct (UnmarshalSign (r_Signature E (n_req E q))) as [[r s]|m]; [|discriminate H].
    destruct (C126_accepts pub id (r_RawTBS E (n_req E q)) (Some r) (Some s) H) as (k & rv & sv & HF & HR & HS & HV).
    exists k. split; [reflexivity|]. split; [exact HF|]. congruence.
Qed.

(** Issuing needs the info and a complete key; filling in a template needs both structs and hands on nil URIs. *)
Theorem C130_issue : forall id tape sig,
  (forall pri, IssueCertificateBySoftCAKeyN None pri id tape = Panic PNil) /\
  (forall i pri, forSign pri = None -> IssueCertificateBySoftCAKeyN i pri id tape = Panic PNil) /\
  CreateCertificateN None sig = Panic PNil.
Proof.
  intros id tape sig. split; [reflexivity|]. split; [|reflexivity]. intros [i|] pri H; [|reflexivity].
  unfold IssueCertificateBySoftCAKeyN. cbn [deref bind]. rewrite C126_sign_der, H. reflexivity.
Qed.
Theorem C130_fill :
  (forall t, FillCertificateTemplateByCSRN E t None = Panic PNil) /\ (forall q, FillCertificateTemplateByCSRN E None q = Panic PNil) /\
  (forall t q, exists t', FillCertificateTemplateByCSRN E (Some t) (Some q) = Ret t' /\
     (In None (nr_URIs E q) -> ~ In names_oid (map e_id (r_ExtraExtensions E (n_req E q))) -> forall p q' i, Info (Some t') (Some p) q' <> Ret (OK i))).
Proof.
  split; [reflexivity|]. split; [intros [q|]; reflexivity|]. intros t q. eexists. split; [reflexivity|]. intros HN HF p q' i.
  match goal with |- Info (Some ?t') _ _ <> _ => destruct (C130_uri t' p HN HF) as [K _] end. apply K.
Qed.
End Env.

(** * Examples *)

(** A template with a nil URI; the same with an extension for the names; one with a nil range, with and without a name that is no ASCII. *)
Definition ex_nil_uri : nCert noNet := mkNCert noNet ex_filled [Some tt; None] [] [].
Definition ex_replaced : nCert noNet := mkNCert noNet (ex_when [] [] [mkExt names_oid false [48; 0]]) [None] [] [].
Definition ex_nil_range (dns : list Z) : nCert noNet :=
  mkNCert noNet (with_fields noNet ex_filled (set_NameConstraints noNet true (mkNC [dns] [] [] []) zeroConstraints (c_fields noNet ex_filled)))
    [] [Some (mkIPNet [10; 0; 0; 0] [255; 0; 0; 0]); None] [].
Example C130_ex_info : let p := Some (whole noNet ex_parent) in let q := Some (whole_req noNet ex_csr) in
  makes (CreateCertificateInfoN noNet (Some (upto_names noNet ex_nil_uri)) p q) /\
  CreateCertificateInfoN noNet (Some ex_nil_uri) p q = Panic PNil /\
  makes (CreateCertificateInfoN noNet (Some ex_replaced) p q) /\
  makes (CreateCertificateInfoN noNet (Some (upto_constraints noNet (ex_nil_range [97]))) p q) /\
  CreateCertificateInfoN noNet (Some (ex_nil_range [97])) p q = Panic PNil /\
  CreateCertificateInfoN noNet (Some (ex_nil_range [200])) p q = Ret (ERR "x509: cannot be encoded as an IA5String") /\
  makes (CreateCertificateInfoN noNet (Some (whole noNet ex_filled)) p q) /\
  CreateCertificateInfoN noNet (Some (whole noNet ex_filled)) p None = Panic PNil /\
  CreateCertificateInfoN noNet (Some (whole noNet ex_parent)) None None = Ret (ERR "x509: no SerialNumber given").
Proof.
  cbv zeta. split; [eexists; vm_compute; reflexivity|]. split; [vm_compute; reflexivity|]. split; [eexists; vm_compute; reflexivity|].
  split; [eexists; vm_compute; reflexivity|]. split; [vm_compute; reflexivity|]. split; [vm_compute; reflexivity|].
  split; [eexists; vm_compute; reflexivity|]. split; vm_compute; reflexivity.
Qed.
Example C130_ex_hyps : In None (n_URIs noNet ex_nil_uri) /\ ~ replaced noNet names_oid ex_nil_uri /\ replaced noNet names_oid ex_replaced /\
  ~ replaced noNet constraints_oid (ex_nil_range [97]) /\ range_size (mkNC [[97]] [] [] []) (n_Permitted noNet (ex_nil_range [97])) < 2 ^ 31 /\
  Forall ascii7 [[97]] /\ ~ Forall ascii7 [[200]].
Proof.
  split; [right; left; reflexivity|]. split; [intros []|]. split; [left; reflexivity|]. split; [intros []|]. split; [vm_compute; reflexivity|].
  split; [repeat constructor|]. intros K. inversion K as [|? ? H]; subst. inversion H as [|? ? H']; subst. lia.
Qed.
(** Requests: without a template, with a nil URI, and with the key &PrivateKey{D: 1}, which has no curve; a nil key in a request whose
    signature is no DER. *)
Example C130_ex_request : let pub := madePub ex_pub in let t := Some (whole_req noNet (ex_req_template [])) in
  CreateCertificateRequestN noNet None pub (madePriv ex_priv) None ex_tape = Panic PNil /\
  CreateCertificateRequestN noNet (Some (mkNReq noNet (ex_req_template []) [None] ReqOther)) pub (madePriv ex_priv) None ex_tape = Panic PNil /\
  CreateCertificateRequestN noNet t pub (madePriv ex_priv) None ex_tape = Ret (OK ex_req, [], []) /\
  CreateCertificateRequestN noNet t pub (Some (mkNPriv (Some 1) (mkCurve false false))) None ex_tape = Panic PNil /\
  VerifyCSRSignN noNet (Some (mkNReq noNet (ex_req_template []) [] (ReqSM2 None))) None = Ret false.
Proof.
  cbv zeta. split; [vm_compute; reflexivity|]. split; [vm_compute; reflexivity|]. split.
  { destruct (C130_whole noNet ex_template ex_parent (ex_req_template []) ex_pub ex_priv None ex_tape) as (_ & H & _). rewrite H. exact (proj1 C81_ex_made). }
  split; vm_compute; reflexivity.
Qed.
