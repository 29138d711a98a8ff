(** The extensions of a certificate: which ones are put in (C67), and that the whole list is read back
    as the template's values (C77). *)
From Coq Require Import ZArith List Lia Bool String.
From Verif Require Import GoBase BeMin CbString CbStringProofs CbBuilder CbBuilderProofs PropsCbBuilder CbAsn1Proofs GoAsn1 GoAsn1Proofs.
From Verif Require Import Sm2Der PropsSm2Der GoText GoPkix CertText PropsCertText Cert CertRt PropsCertExt PropsCertNames PropsCertSan.
Import ListNotations.
Open Scope Z_scope.

(** * The list of blocks *)
Record slot : Type := mkSlot { s_cond : bool; s_id : list Z; s_crit : bool; s_value : go (res (list Z)) }.
Fixpoint runBlocks (l : list slot) (k : list Extension * Z -> go (res (list Extension))) (st : list Extension * Z) : go (res (list Extension)) :=
  match l with
  | [] => k st
  | s :: r => gbind (block (s_cond s) st (s_id s) (s_crit s) (s_value s)) (runBlocks r k)
  end.
(** The extensions of the blocks that are not skipped. *)
Fixpoint gather (l : list slot) : go (res (list Extension)) :=
  match l with
  | [] => Ret (OK [])
  | s :: r => if s_cond s then run v <- s_value s; run es <- gather r; Ret (OK (mkExt (s_id s) (s_crit s) v :: es)) else gather r
  end.
Lemma gather_length : forall l es, gather l = Ret (OK es) -> (List.length es <= List.length l)%nat.
Proof.
  induction l as [|s r IH]; intros es H; cbn [gather] in H; [injection H as <-; cbn; lia|]. cbn [List.length].
  destruct (s_cond s); [|specialize (IH _ H); lia]. destruct (s_value s) as [[v|m]|k]; try discriminate H. cbn [gbind] in H.
  destruct (gather r) as [[es'|m]|k]; try discriminate H. cbn [gbind] in H. injection H as <-. specialize (IH _ eq_refl). cbn [List.length]. lia.
Qed.
Lemma upd_at : forall (done rest : list Extension) x e, upd (done ++ x :: rest) (List.length done) e = done ++ e :: rest.
Proof. induction done as [|y done IH]; intros rest x e; [reflexivity|]. cbn [app List.length upd]. rewrite IH. reflexivity. Qed.
Lemma set_at : forall (done rest : list Extension) x e, go_set (done ++ x :: rest) (zlen done) e = Ret (done ++ e :: rest).
Proof.
  intros done rest x e. unfold go_set. pose proof (zlen_nonneg _ done) as P. rewrite zlen_app, zlen_cons. pose proof (zlen_nonneg _ rest) as Q.
  rewrite (proj2 (Z.ltb_ge (zlen done) 0)) by lia. rewrite (proj2 (Z.leb_gt _ (zlen done))) by lia. cbn [orb].
  unfold zlen. rewrite Nat2Z.id, upd_at. reflexivity.
Qed.
Lemma index_at : forall (done rest : list Extension) x, exists y, go_index (done ++ x :: rest) (zlen done) = Ret y.
Proof.
  intros done rest x. unfold go_index. pose proof (zlen_nonneg _ done) as P.
  rewrite (proj2 (Z.ltb_ge (zlen done) 0)) by lia.
  unfold zlen. rewrite Nat2Z.id. rewrite nth_error_app2 by lia. rewrite Nat.sub_diag. exists x. reflexivity.
Qed.
(** The blocks fill the buffer from the left, as long as it has room. *)
Lemma runBlocks_gather : forall l k done rest, (List.length l <= List.length rest)%nat ->
  runBlocks l k (done ++ rest, zlen done) =
  gbind (gather l) (fun es => k (done ++ es ++ skipn (List.length es) rest, zlen (done ++ es))).
Proof.
  induction l as [|s r IH]; intros k done rest HL; cbn [runBlocks gather].
  - cbn [gbind]. cbn [List.length skipn app]. rewrite app_nil_r. reflexivity.
  - destruct rest as [|x rest]; [cbn in HL; lia|]. unfold block. destruct (s_cond s).
    + cbn [fst snd]. destruct (index_at done rest x) as [y ->]. cbn [bind]. destruct (s_value s) as [[v|m]|kk]; [|reflexivity|reflexivity].
      cbn [gbind]. unfold putExt. rewrite set_at. cbn [bind gbind].
      replace (done ++ mkExt (s_id s) (s_crit s) v :: rest) with ((done ++ [mkExt (s_id s) (s_crit s) v]) ++ rest) by (rewrite <- app_assoc; reflexivity).
      replace (zlen done + 1) with (zlen (done ++ [mkExt (s_id s) (s_crit s) v])) by (rewrite zlen_app; reflexivity).
      rewrite IH by (cbn in HL; lia). destruct (gather r) as [[es|m]|kk]; [|reflexivity|reflexivity]. cbn [gbind].
      cbn [List.length]. rewrite <- !app_assoc. reflexivity.
    + cbn [gbind]. rewrite IH by (cbn in HL |- *; lia). reflexivity.
Qed.

Section Env.
Variable E : netEnv.

Definition slots (template : Certificate E) (subjectIsEmpty : bool) (authorityKeyId : list Z) : list slot :=
  let t := c_fields E template in
  let extra := c_ExtraExtensions E template in
  let fresh oid := negb (oidInExtensions oid extra) in
  let p := f_Permitted E t in
  let x := f_Excluded E t in
  [ mkSlot (negb (f_KeyUsage E t =? 0) && fresh oidExtensionKeyUsage) oidExtensionKeyUsage true (Ret (marshalKeyUsage (f_KeyUsage E t)));
    mkSlot (((0 <? zlen (f_ExtKeyUsage E t)) || (0 <? zlen (f_UnknownExtKeyUsage E t))) && fresh oidExtensionExtendedKeyUsage)
           oidExtensionExtendedKeyUsage false
           (do oids <- extKeyUsageToOIDs (f_ExtKeyUsage E t); Ret (fieldSlice false (map fieldOID (oids ++ f_UnknownExtKeyUsage E t))));
    mkSlot (f_BasicConstraintsValid E t && fresh oidExtensionBasicConstraints) oidExtensionBasicConstraints true
           (let maxPathLen := if (f_MaxPathLen E t =? 0) && negb (f_MaxPathLenZero E t) then -1 else f_MaxPathLen E t in
            Ret (marshalBasicConstraints (f_IsCA E t) maxPathLen));
    mkSlot ((0 <? zlen (f_SubjectKeyId E t)) && fresh oidExtensionSubjectKeyId) oidExtensionSubjectKeyId false (Ret (fieldOctets (f_SubjectKeyId E t)));
    mkSlot ((0 <? zlen authorityKeyId) && fresh oidExtensionAuthorityKeyId) oidExtensionAuthorityKeyId false (Ret (marshalAuthKeyId authorityKeyId));
    mkSlot (((0 <? zlen (f_OCSPServer E t)) || (0 <? zlen (f_IssuingCertificateURL E t))) && fresh oidExtensionAuthorityInfoAccess)
           oidExtensionAuthorityInfoAccess false
           (Ret (fieldSlice false (map (fun name => fieldAIA oidAuthorityInfoAccessOcsp (rawURI name)) (f_OCSPServer E t) ++
                                   map (fun name => fieldAIA oidAuthorityInfoAccessIssuers (rawURI name)) (f_IssuingCertificateURL E t))));
    mkSlot (negb (altEmpty E (f_SAN E t)) && fresh oidExtensionSubjectAltName) oidExtensionSubjectAltName subjectIsEmpty (Ret (marshalSANs E (f_SAN E t)));
    mkSlot ((0 <? zlen (f_PolicyIdentifiers E t)) && fresh oidExtensionCertificatePolicies) oidExtensionCertificatePolicies false
           (Ret (fieldSlice false (map (fun p => marshalStruct [fieldOID p]) (f_PolicyIdentifiers E t))));
    mkSlot (((0 <? zlen (nc_dns p)) || (0 <? zlen (nc_dns x)) || (0 <? zlen (nc_ips p)) || (0 <? zlen (nc_ips x)) ||
             (0 <? zlen (nc_emails p)) || (0 <? zlen (nc_emails x)) || (0 <? zlen (nc_uris p)) || (0 <? zlen (nc_uris x)))
            && fresh oidExtensionNameConstraints) oidExtensionNameConstraints (f_ConstraintsCritical E t) (marshalNameConstraints p x);
    mkSlot ((0 <? zlen (f_CRLDistributionPoints E t)) && fresh oidExtensionCRLDistributionPoints) oidExtensionCRLDistributionPoints false
           (Ret (fieldSlice false (map (fun name => fieldDP (rawURI name)) (f_CRLDistributionPoints E t)))) ].

Lemma buildExtensions_eq : forall t b k,
  buildExtensions E t b k = gbind (gather (slots t b k)) (fun es => Ret (OK (es ++ c_ExtraExtensions E t))).
Proof.
  intros t b k.
  transitivity (runBlocks (slots t b k) (fun st => let '(ret, n) := st in do ret <- go_slice ret 0 n; Ret (OK (ret ++ c_ExtraExtensions E t)))
                  (repeat zeroExt 10, 0)); [reflexivity|].
  pose proof (runBlocks_gather (slots t b k) (fun st => let '(ret, n) := st in do ret <- go_slice ret 0 n; Ret (OK (ret ++ c_ExtraExtensions E t)))
                [] (repeat zeroExt 10) ltac:(cbn; lia)) as H.
  cbn [app] in H. change (zlen (@nil Extension)) with 0 in H. rewrite H. clear H.
  destruct (gather (slots t b k)) as [[es|m]|kk] eqn:EG; [|reflexivity|reflexivity]. cbn [gbind].
  pose proof (gather_length _ _ EG) as L. change (List.length (slots t b k)) with 10%nat in L.
  unfold go_slice. pose proof (zlen_nonneg _ es). rewrite zlen_app. pose proof (zlen_nonneg _ (skipn (List.length es) (repeat zeroExt 10))).
  rewrite (proj2 (Z.leb_le 0 (zlen es))) by lia. rewrite (proj2 (Z.leb_le (zlen es) _)) by lia. cbn [Z.leb Z.compare andb].
  cbn [bind]. f_equal. f_equal. f_equal. unfold sub. rewrite Z.sub_0_r. unfold zlen. rewrite Nat2Z.id. change (Z.to_nat 0) with 0%nat. cbn [skipn].
  rewrite firstn_app, firstn_all, Nat.sub_diag. cbn [firstn]. apply app_nil_r.
Qed.

(** * C67 *)

Lemma gather_ids : forall l es, gather l = Ret (OK es) ->
  map (fun e => (e_id e, e_critical e)) es = map (fun s => (s_id s, s_crit s)) (filter s_cond l).
Proof.
  induction l as [|s r IH]; intros es H; cbn [gather] in H; [injection H as <-; reflexivity|]. cbn [filter].
  destruct (s_cond s); [|apply IH; exact H]. destruct (s_value s) as [[v|m]|k]; try discriminate H. cbn [gbind] in H.
  destruct (gather r) as [[es'|m]|k]; try discriminate H. cbn [gbind] in H. injection H as <-. cbn [map e_id e_critical].
  rewrite (IH _ eq_refl). reflexivity.
Qed.
Lemma NoDup_map_filter : forall A B (f : A -> B) (p : A -> bool) l, NoDup (map f l) -> NoDup (map f (filter p l)).
Proof.
  induction l as [|a l IH]; intros H; [constructor|]. cbn [map] in H. inversion H as [|? ? N H']; subst. cbn [filter].
  destruct (p a); [|apply IH; exact H']. cbn [map]. constructor; [|apply IH; exact H'].
  intros K. apply N. apply in_map_iff in K. destruct K as (y & <- & Hy). apply filter_In in Hy. apply in_map, Hy.
Qed.
Lemma nonempty_iff : forall A (l : list A), (0 <? zlen l) = true <-> l <> [].
Proof.
  intros A [|y l]; [split; [discriminate|congruence]|]. split; [discriminate|]. intros _. rewrite zlen_cons.
  pose proof (zlen_nonneg _ l). apply Z.ltb_lt. lia.
Qed.
Lemma fresh_iff : forall oid extra, negb (oidInExtensions oid extra) = true <-> ~ In oid (map e_id extra).
Proof.
  intros oid extra. rewrite negb_true_iff. unfold oidInExtensions. split.
  - intros H K. apply in_map_iff in K. destruct K as (e & <- & He).
    assert (C : existsb (fun e0 => oidEqual (e_id e0) (e_id e)) extra = true) by (apply existsb_exists; exists e; split; [exact He|apply oidEqual_refl]).
    congruence.
  - intros H. destruct (existsb (fun e => oidEqual (e_id e) oid) extra) eqn:X; [|reflexivity].
    apply existsb_exists in X. destruct X as (e & He & K). apply oidEqual_eq in K. subst oid. exfalso. apply H. apply in_map. exact He.
Qed.

(** What a template asks for; [akid] is the authority key id, that of the issuer or the template's. *)
Definition no_names (a : AltNames E) : Prop := an_dns E a = [] /\ an_emails E a = [] /\ an_ips E a = [] /\ an_uris E a = [].
Definition asked (t : certFields E) (akid : list Z) (id : list Z) : Prop :=
  (id = [2; 5; 29; 15] /\ f_KeyUsage E t <> 0) \/
  (id = [2; 5; 29; 37] /\ (f_ExtKeyUsage E t <> [] \/ f_UnknownExtKeyUsage E t <> [])) \/
  (id = [2; 5; 29; 19] /\ f_BasicConstraintsValid E t = true) \/
  (id = [2; 5; 29; 14] /\ f_SubjectKeyId E t <> []) \/
  (id = [2; 5; 29; 35] /\ akid <> []) \/
  (id = [1; 3; 6; 1; 5; 5; 7; 1; 1] /\ (f_OCSPServer E t <> [] \/ f_IssuingCertificateURL E t <> [])) \/
  (id = [2; 5; 29; 17] /\ ~ no_names (f_SAN E t)) \/
  (id = [2; 5; 29; 32] /\ f_PolicyIdentifiers E t <> []) \/
  (id = [2; 5; 29; 30] /\ (f_Permitted E t <> zeroConstraints \/ f_Excluded E t <> zeroConstraints)) \/
  (id = [2; 5; 29; 31] /\ f_CRLDistributionPoints E t <> []).

Lemma altEmpty_iff : forall a, negb (altEmpty E a) = true <-> ~ no_names a.
Proof.
  intros [d e i u]. unfold altEmpty, no_names. cbn [an_dns an_emails an_ips an_uris].
  assert (Q : forall A (l : list A), (zlen l =? 0) = true <-> l = []).
  { intros A [|y l]; [split; reflexivity|]. split; [|discriminate]. rewrite zlen_cons. pose proof (zlen_nonneg _ l). rewrite Z.eqb_eq. lia. }
  rewrite negb_true_iff, <- not_true_iff_false, !andb_true_iff, !Q. tauto.
Qed.
Lemma constraints_iff : forall p x,
  ((0 <? zlen (nc_dns p)) || (0 <? zlen (nc_dns x)) || (0 <? zlen (nc_ips p)) || (0 <? zlen (nc_ips x)) ||
   (0 <? zlen (nc_emails p)) || (0 <? zlen (nc_emails x)) || (0 <? zlen (nc_uris p)) || (0 <? zlen (nc_uris x))) = true <->
  p <> zeroConstraints \/ x <> zeroConstraints.
Proof.
  intros [d i e u] [d' i' e' u']. cbn [nc_dns nc_ips nc_emails nc_uris]. rewrite !orb_true_iff, !nonempty_iff. unfold zeroConstraints. split.
  - intros H. assert (C : (d <> [] \/ i <> [] \/ e <> [] \/ u <> []) \/ (d' <> [] \/ i' <> [] \/ e' <> [] \/ u' <> [])) by tauto.
    destruct C as [C|C]; [left|right]; intros K; injection K as -> -> -> ->; tauto.
  - assert (N : forall A (l : list A), l = [] \/ l <> []) by (intros A [|y l]; [left; reflexivity|right; discriminate]).
    intros H. destruct (N _ d); [|tauto]. destruct (N _ d'); [|tauto]. destruct (N _ i); [|tauto]. destruct (N _ i'); [|tauto].
    destruct (N _ e); [|tauto]. destruct (N _ e'); [|tauto]. destruct (N _ u); [|tauto]. destruct (N _ u'); [|tauto].
    subst. destruct H as [H|H]; congruence.
Qed.

Lemma slots_ids : forall t b k, NoDup (map s_id (slots t b k)).
Proof.
  intros t b k. cbn [slots map s_id]. apply (NoDup_by_dec _ (list_eq_dec Z.eq_dec)). vm_compute. reflexivity.
Qed.

(** C67: what is generated, and that explicit extensions win. *)
Theorem C67_extensions : forall t b akid l, buildExtensions E t b akid = Ret (OK l) ->
  exists generated, l = generated ++ c_ExtraExtensions E t /\ (List.length generated <= 10)%nat /\ NoDup (map e_id generated) /\
  (forall id, In id (map e_id generated) <-> asked (c_fields E t) akid id /\ ~ In id (map e_id (c_ExtraExtensions E t))).
Proof.
  intros t b akid l H. rewrite buildExtensions_eq in H. destruct (gather (slots t b akid)) as [[es|m]|k] eqn:EG; try discriminate H.
  cbn [gbind] in H. injection H as <-. exists es. split; [reflexivity|].
  assert (IDs : map e_id es = map s_id (filter s_cond (slots t b akid))).
  { pose proof (f_equal (map fst) (gather_ids _ _ EG)) as K. rewrite !map_map in K. exact K. }
  split; [apply (gather_length _ _ EG)|]. rewrite IDs. split; [apply NoDup_map_filter, slots_ids|].
  intros id. rewrite in_map_iff.
  assert (F : (exists s, s_id s = id /\ In s (filter s_cond (slots t b akid))) <-> (exists s, In s (slots t b akid) /\ s_cond s = true /\ s_id s = id)).
  { split; intros (s & K).
    - destruct K as [K1 K2]. apply filter_In in K2. exists s. tauto.
    - exists s. rewrite filter_In. tauto. }
  rewrite F. clear F IDs EG. unfold asked.
  set (extra := c_ExtraExtensions E t). set (f := c_fields E t).
  assert (S : forall s ss (P : Prop), ((exists s', In s' (s :: ss) /\ s_cond s' = true /\ s_id s' = id) <->
     (s_cond s = true /\ s_id s = id) \/ (exists s', In s' ss /\ s_cond s' = true /\ s_id s' = id))).
  { intros s ss _. split.
    - intros (s' & [<- | K] & Hc); [left; exact Hc|right; exists s'; split; [exact K|exact Hc]].
    - intros [K|(s' & K1 & K2)]; [exists s; split; [left; reflexivity|exact K]|exists s'; split; [right; exact K1|exact K2]]. }
  unfold slots. rewrite !(S _ _ True). clear S. cbn [s_cond s_id]. fold extra. fold f.
  rewrite !andb_true_iff, !fresh_iff, !orb_true_iff, !nonempty_iff, altEmpty_iff, negb_true_iff, Z.eqb_neq.
  assert (NC : forall p x, (((((((nc_dns p <> [] \/ nc_dns x <> []) \/ nc_ips p <> []) \/ nc_ips x <> []) \/ nc_emails p <> []) \/ nc_emails x <> []) \/
     nc_uris p <> []) \/ nc_uris x <> []) <-> (p <> zeroConstraints \/ x <> zeroConstraints)).
  { intros p x. rewrite <- constraints_iff, !orb_true_iff, !nonempty_iff. tauto. }
  rewrite (NC (f_Permitted E f) (f_Excluded E f)). clear NC.
  assert (Z0 : (exists s' : slot, In s' [] /\ s_cond s' = true /\ s_id s' = id) <-> False) by (split; [intros (s' & [] & _)|tauto]).
  rewrite Z0. clear Z0.
  change oidExtensionKeyUsage with [2; 5; 29; 15]. change oidExtensionExtendedKeyUsage with [2; 5; 29; 37].
  change oidExtensionBasicConstraints with [2; 5; 29; 19]. change oidExtensionSubjectKeyId with [2; 5; 29; 14].
  change oidExtensionAuthorityKeyId with [2; 5; 29; 35]. change oidExtensionAuthorityInfoAccess with [1; 3; 6; 1; 5; 5; 7; 1; 1].
  change oidExtensionSubjectAltName with [2; 5; 29; 17]. change oidExtensionCertificatePolicies with [2; 5; 29; 32].
  change oidExtensionNameConstraints with [2; 5; 29; 30]. change oidExtensionCRLDistributionPoints with [2; 5; 29; 31].
  set (X := fun i => ~ In i (map e_id extra)).
  assert (Q : forall (A : Prop) i, (A /\ ~ In i (map e_id extra)) /\ i = id <-> ((id = i /\ A) /\ X id)).
  { intros A i. unfold X. split; [intros ((HA & HX) & ->)|intros ((-> & HA) & HX)]; tauto. }
  rewrite !Q. fold (X id). tauto.
Qed.

(** Their critical flags. *)
Theorem C67_critical : forall t b akid l, buildExtensions E t b akid = Ret (OK l) ->
  exists generated, l = generated ++ c_ExtraExtensions E t /\ forall e, In e generated ->
  (e_critical e = true <-> e_id e = [2; 5; 29; 15] \/ e_id e = [2; 5; 29; 19] \/
                           (e_id e = [2; 5; 29; 17] /\ b = true) \/
                           (e_id e = [2; 5; 29; 30] /\ f_ConstraintsCritical E (c_fields E t) = true)).
Proof.
  intros t b akid l H. rewrite buildExtensions_eq in H. destruct (gather (slots t b akid)) as [[es|m]|k] eqn:EG; try discriminate H.
  cbn [gbind] in H. injection H as <-. exists es. split; [reflexivity|]. intros e He.
  pose proof (in_map (fun e => (e_id e, e_critical e)) es e He) as K. rewrite (gather_ids _ _ EG) in K. apply in_map_iff in K.
  destruct K as (s & Ks & Hs). apply filter_In in Hs. destruct Hs as [Hs _]. injection Ks as <- <-.
  unfold slots in Hs. cbn [In] in Hs.
  repeat (destruct Hs as [<- | Hs]; [cbn [s_id s_crit]; split; [intros Hc; try discriminate Hc; tauto|intros [Hc|[Hc|[[Hc Hd]|[Hc Hd]]]]; try discriminate Hc; reflexivity || exact Hd]|]).
  destruct Hs.
Qed.

(** The ten values: only extended key usages can panic. *)
Lemma runBuilder_no_panic : forall is k, wf_items is -> runBuilder (map call is) <> Panic k.
Proof.
  intros is k W H. destruct (runBuilder_items is W) as [K _]. rewrite K in H. discriminate H.
Qed.
Lemma serialise_no_panic : forall c k, serialiseConstraints c <> Panic k.
Proof.
  intros c k.
  assert (D : forall l, Forall ascii7 l \/ ~ Forall ascii7 l).
  { induction l as [|x l [IH|IH]]; [left; constructor| |right; intros K; inversion K; contradiction].
    destruct (ia5_iff x) as [[_ A]|[_ A]]; [left; constructor; assumption|right; intros K; inversion K; contradiction]. }
  assert (C : (Forall ascii7 (nc_dns c) /\ Forall ascii7 (nc_emails c) /\ Forall ascii7 (nc_uris c)) \/
              ~ (Forall ascii7 (nc_dns c) /\ Forall ascii7 (nc_emails c) /\ Forall ascii7 (nc_uris c))).
  { destruct (D (nc_dns c)); destruct (D (nc_emails c)); destruct (D (nc_uris c)); tauto. }
  destruct C as [(C1 & C2 & C3)|C].
  - rewrite serialise_eq by assumption. apply runBuilder_no_panic, nc_items_wf.
  - destruct (C65_not_written c C) as [m ->]. discriminate.
Qed.
Lemma marshalNC_no_panic : forall p x k, marshalNameConstraints p x <> Panic k.
Proof.
  intros p x k H. unfold marshalNameConstraints in H.
  destruct (serialiseConstraints p) as [[ep|m]|k'] eqn:EP; [|discriminate H|exact (serialise_no_panic _ _ EP)]. cbn [gbind] in H.
  destruct (serialiseConstraints x) as [[ex|m]|k'] eqn:EX; [|discriminate H|exact (serialise_no_panic _ _ EX)]. cbn [gbind] in H.
  set (is := [IASN1 48 ((if 0 <? zlen ep then [IASN1 0xa0 [IBytes ep]] else []) ++
                        (if 0 <? zlen ex then [IASN1 0xa1 [IBytes ex]] else []))]).
  apply (runBuilder_no_panic is k).
  - unfold is. cbn [wf_items]. split; [|exact I]. rewrite wf_IASN1. destruct (0 <? zlen ep), (0 <? zlen ex); cbn; repeat split.
  - rewrite <- H. unfold is. f_equal. cbn [map call]. f_equal. f_equal. rewrite map_app. unfold AddBytes.
    destruct (0 <? zlen ep), (0 <? zlen ex); reflexivity.
Qed.
Lemma gather_panic : forall l k, gather l = Panic k -> exists s, In s l /\ s_cond s = true /\ s_value s = Panic k.
Proof.
  induction l as [|s r IH]; intros k H; cbn [gather] in H; [discriminate H|]. destruct (s_cond s) eqn:C.
  - destruct (s_value s) as [[v|m]|k'] eqn:V; [|discriminate H|].
    + cbn [gbind] in H. destruct (gather r) as [[es|m]|k'] eqn:G; [discriminate H|discriminate H|]. cbn [gbind] in H. injection H as ->.
      destruct (IH k eq_refl) as (s' & H1 & H2). exists s'. split; [right; exact H1|exact H2].
    + cbn [gbind] in H. injection H as ->. exists s. split; [left; reflexivity|]. split; assumption.
  - destruct (IH k H) as (s' & H1 & H2). exists s'. split; [right; exact H1|exact H2].
Qed.
(** Building the extensions panics exactly if an extended key usage is to be written that is not one
    of the 14 known ones. *)
Theorem C67_panics : forall t b akid k, buildExtensions E t b akid = Panic k <->
  k = PUser "internal error" /\ ~ Forall (fun u => 0 <= u <= 13) (f_ExtKeyUsage E (c_fields E t)) /\
  ~ In [2; 5; 29; 37] (map e_id (c_ExtraExtensions E t)).
Proof.
  intros t b akid k. rewrite buildExtensions_eq. split.
  - intros H. destruct (gather (slots t b akid)) as [[es|m]|k'] eqn:EG; [discriminate H|discriminate H|]. cbn [gbind] in H. injection H as ->.
    destruct (gather_panic _ _ EG) as (s & Hs & Hc & Hv). unfold slots in Hs. cbn [In] in Hs.
    destruct Hs as [<- |[<- |[<- |[<- |[<- |[<- |[<- |[<- |[<- |[<- |[]]]]]]]]]]]; cbn [s_value s_cond] in Hv, Hc; try discriminate Hv.
    + apply andb_true_iff in Hc. destruct Hc as [_ Hf]. apply fresh_iff in Hf.
      destruct (C66_unknown_usage_panics (f_ExtKeyUsage E (c_fields E t))) as [U1 U2].
      assert (N : ~ Forall (fun u => 0 <= u <= 13) (f_ExtKeyUsage E (c_fields E t))).
      { intros F. destruct (U1 F) as [oids K]. rewrite K in Hv. discriminate Hv. }
      rewrite (U2 N) in Hv. injection Hv as <-. split; [reflexivity|]. split; assumption.
    + exfalso. exact (marshalNC_no_panic _ _ _ Hv).
  - intros (-> & HN & HF). unfold slots.
    assert (P : forall c r, gather (mkSlot (((0 <? zlen (f_ExtKeyUsage E (c_fields E t))) || (0 <? zlen (f_UnknownExtKeyUsage E (c_fields E t))))
                               && negb (oidInExtensions oidExtensionExtendedKeyUsage (c_ExtraExtensions E t)))
              oidExtensionExtendedKeyUsage c
              (do oids <- extKeyUsageToOIDs (f_ExtKeyUsage E (c_fields E t)); Ret (fieldSlice false (map fieldOID (oids ++ f_UnknownExtKeyUsage E (c_fields E t))))) :: r)
              = Panic (PUser "internal error")).
    { intros c r. cbn [gather s_cond s_value]. change oidExtensionExtendedKeyUsage with [2; 5; 29; 37]. rewrite (proj2 (fresh_iff _ _) HF).
      rewrite (proj2 (nonempty_iff _ (f_ExtKeyUsage E (c_fields E t)))) by (intros K; apply HN; rewrite K; constructor). cbn [orb andb].
      rewrite (proj2 (C66_unknown_usage_panics _) HN). reflexivity. }
    cbn [gather s_cond s_value s_id s_crit].
    destruct (negb (f_KeyUsage E (c_fields E t) =? 0) && negb (oidInExtensions oidExtensionKeyUsage (c_ExtraExtensions E t))).
    + destruct (C62_key_usage E (f_KeyUsage E (c_fields E t)) (zeroFields E) true) as (v & -> & _). cbn [gbind].
      match goal with |- gbind (gbind ?g _) _ = _ => pose proof (P false (skipn 2 (slots t b akid))) as P'; replace g with (Panic (PUser "internal error") : go (res (list Extension))) by (symmetry; exact P') end.
      reflexivity.
    + match goal with |- gbind ?g _ = _ => pose proof (P false (skipn 2 (slots t b akid))) as P'; replace g with (Panic (PUser "internal error") : go (res (list Extension))) by (symmetry; exact P') end.
      reflexivity.
Qed.

(** * C77: the extensions, read back together *)

(** A template whose values can be read back. *)
Definition template_ok (t : certFields E) (uris' : list (URL E)) : Prop :=
  Forall oid_ok (f_UnknownExtKeyUsage E t) /\ Forall oid_ok (f_PolicyIdentifiers E t) /\
  - 2 ^ 63 <= f_MaxPathLen E t < 2 ^ 63 /\ Forall ip_len (an_ips E (f_SAN E t)) /\ Forall2 (uri_back E) (an_uris E (f_SAN E t)) uris' /\
  constraints_ok E (f_Permitted E t) /\ constraints_ok E (f_Excluded E t).
(** The path length of a template that has [0] in it without saying that it is meant. *)
Definition pathLen (t : certFields E) : Z := if (f_MaxPathLen E t =? 0) && negb (f_MaxPathLenZero E t) then -1 else f_MaxPathLen E t.
Definition has_constraints (t : certFields E) : bool :=
  let p := f_Permitted E t in let x := f_Excluded E t in
  (0 <? zlen (nc_dns p)) || (0 <? zlen (nc_dns x)) || (0 <? zlen (nc_ips p)) || (0 <? zlen (nc_ips x)) ||
  (0 <? zlen (nc_emails p)) || (0 <? zlen (nc_emails x)) || (0 <? zlen (nc_uris p)) || (0 <? zlen (nc_uris x)).
Definition read_back (t : certFields E) (akid : list Z) (uris' : list (URL E)) : certFields E :=
  mkFields E (f_KeyUsage E t mod 512)
    (f_ExtKeyUsage E t ++ knownUsages (f_UnknownExtKeyUsage E t)) (unknownUsages (f_UnknownExtKeyUsage E t))
    (f_BasicConstraintsValid E t)
    (f_BasicConstraintsValid E t && f_IsCA E t)
    (if f_BasicConstraintsValid E t then pathLen t else 0)
    (f_BasicConstraintsValid E t && (pathLen t =? 0))
    (f_SubjectKeyId E t) akid (f_OCSPServer E t) (f_IssuingCertificateURL E t)
    (mkAlt E (an_dns E (f_SAN E t)) (an_emails E (f_SAN E t)) (map ipBytes (an_ips E (f_SAN E t))) uris')
    (has_constraints t && f_ConstraintsCritical E t) (masked_all (f_Permitted E t)) (masked_all (f_Excluded E t))
    (f_CRLDistributionPoints E t) (f_PolicyIdentifiers E t).

(** A block and what reading its extension does to the fields. *)
Definition slot_reads (s : slot) (set : certFields E -> certFields E) : Prop :=
  s_cond s = true -> forall v, s_value s = Ret (OK v) -> small v -> forall f,
  parseExtension E (mkExt (s_id s) (s_crit s) v) f = Ret (OK (set f, false)).
Lemma gather_reads : forall l sets, Forall2 slot_reads l sets -> forall es, gather l = Ret (OK es) -> Forall (fun e => small (e_value e)) es ->
  forall r f u, parseExtensions E (es ++ r) f u =
  parseExtensions E r (fold_left (fun f q => if s_cond (fst q) then snd q f else f) (combine l sets) f) u.
Proof.
  intros l sets H. induction H as [|s set l sets HS HR IH]; intros es HG HV r f u; cbn [gather] in HG.
  - injection HG as <-. reflexivity.
  - cbn [combine fold_left fst snd]. destruct (s_cond s) eqn:C; [|apply IH; assumption].
    destruct (s_value s) as [[v|m]|k] eqn:V; try discriminate HG. cbn [gbind] in HG.
    destruct (gather l) as [[es'|m]|k]; try discriminate HG. cbn [gbind] in HG. injection HG as <-.
    inversion HV as [|? ? Hv HV']; subst. cbn [e_value] in Hv. cbn [app parseExtensions].
    rewrite (HS C v V Hv). cbn [gbind]. rewrite andb_false_r. apply IH; [reflexivity|exact HV'].
Qed.

Definition sets (t : certFields E) (akid : list Z) (uris' : list (URL E)) : list (certFields E -> certFields E) :=
  [ set_KeyUsage E (f_KeyUsage E t mod 512);
    (fun f => set_ExtKeyUsage E (f_ExtKeyUsage E f ++ f_ExtKeyUsage E t ++ knownUsages (f_UnknownExtKeyUsage E t))
                              (f_UnknownExtKeyUsage E f ++ unknownUsages (f_UnknownExtKeyUsage E t)) f);
    set_BasicConstraints E true (f_IsCA E t) (pathLen t) (pathLen t =? 0);
    set_SubjectKeyId E (f_SubjectKeyId E t);
    set_AuthorityKeyId E akid;
    (fun f => set_AuthorityInfo E (f_OCSPServer E f ++ f_OCSPServer E t) (f_IssuingCertificateURL E f ++ f_IssuingCertificateURL E t) f);
    set_SAN E (mkAlt E (an_dns E (f_SAN E t)) (an_emails E (f_SAN E t)) (map ipBytes (an_ips E (f_SAN E t))) uris');
    set_PolicyIdentifiers E (f_PolicyIdentifiers E t);
    set_NameConstraints E (f_ConstraintsCritical E t) (masked_all (f_Permitted E t)) (masked_all (f_Excluded E t));
    (fun f => set_CRLDistributionPoints E (f_CRLDistributionPoints E f ++ f_CRLDistributionPoints E t) f) ].
Lemma ret_inj : forall A (a b : A), Ret a = Ret b -> a = b.
Proof. intros A a b H. injection H as H. exact H. Qed.
Lemma ok_inj : forall A (a b : A), OK a = OK b -> a = b.
Proof. intros A a b H. injection H as H. exact H. Qed.
Lemma slots_read : forall t b akid uris', template_ok (c_fields E t) uris' ->
  Forall2 slot_reads (slots t b akid) (sets (c_fields E t) akid uris').
Proof.
  intros t b akid uris' (H1 & H2 & H3 & H4 & H5 & H6 & H7). set (f := c_fields E t) in *. unfold slots, sets. fold f.
  constructor; [|constructor; [|constructor; [|constructor; [|constructor; [|constructor; [|constructor; [|constructor; [|constructor; [|constructor; [|constructor]]]]]]]]]];
    intros Hc v Hv Hs g; cbn [s_cond s_id s_crit s_value] in *.
  - apply ret_inj in Hv. destruct (C62_key_usage E (f_KeyUsage E f) g true) as (v' & K1 & K2). rewrite K1 in Hv. apply ok_inj in Hv. subst v'. exact K2.
  - destruct (extKeyUsageToOIDs (f_ExtKeyUsage E f)) as [oids|k] eqn:EO; [|discriminate Hv]. cbn [bind] in Hv. apply ret_inj in Hv.
    apply (C66_extension E _ _ oids v); assumption.
  - apply ret_inj in Hv. fold (pathLen f) in Hv. assert (R : - 2 ^ 63 <= pathLen f < 2 ^ 63).
    { unfold pathLen. destruct ((f_MaxPathLen E f =? 0) && negb (f_MaxPathLenZero E f)); lia. }
    destruct (C68_basic_constraints E (f_IsCA E f) (pathLen f) true g R) as (v' & K1 & K2). rewrite K1 in Hv. apply ok_inj in Hv. subst v'. exact K2.
  - apply ret_inj in Hv. apply C76_subject_key_id; assumption.
  - apply ret_inj in Hv. apply C76_authority_key_id; assumption.
  - apply ret_inj in Hv. apply C76_authority_info; assumption.
  - apply ret_inj in Hv. apply andb_true_iff in Hc. destruct Hc as [Hc _]. apply altEmpty_iff in Hc.
    destruct (f_SAN E f) as [dns emails ips uris] eqn:ES. cbn [an_dns an_emails an_ips an_uris] in *.
    apply (C70_extension E dns emails ips uris); try assumption.
    unfold no_names in Hc. cbn [an_dns an_emails an_ips an_uris] in Hc.
    assert (N : forall A (l : list A), l = [] \/ l <> []) by (intros A [|y l]; [left; reflexivity|right; discriminate]).
    destruct (N _ dns); [|tauto]. destruct (N _ emails); [|tauto]. destruct (N _ ips); [|tauto]. destruct (N _ uris); [|tauto]. tauto.
  - apply ret_inj in Hv. apply C76_policies; assumption.
  - apply andb_true_iff in Hc. destruct Hc as [Hc _]. apply constraints_iff in Hc. apply C69_name_constraints; assumption.
  - apply ret_inj in Hv. apply C76_distribution_points; assumption.
Qed.

(** The extensions that the parser knows, and the others. *)
Definition ten_ids : list (list Z) :=
  [[2; 5; 29; 15]; [2; 5; 29; 37]; [2; 5; 29; 19]; [2; 5; 29; 14]; [2; 5; 29; 35]; [1; 3; 6; 1; 5; 5; 7; 1; 1];
   [2; 5; 29; 17]; [2; 5; 29; 32]; [2; 5; 29; 30]; [2; 5; 29; 31]].
Lemma unknown_extension : forall e f, ~ In (e_id e) ten_ids -> parseExtension E e f = Ret (OK (f, true)).
Proof.
  intros [id c v] f H. cbn [e_id] in H. unfold parseExtension. cbn [e_id].
  assert (A : oidEqual id oidExtensionAuthorityInfoAccess = false).
  { destruct (oidEqual id oidExtensionAuthorityInfoAccess) eqn:K; [|reflexivity]. apply oidEqual_eq in K. subst id. exfalso. apply H. cbn; tauto. }
  destruct (match id with [a; b; c; n] => if (a =? 2) && (b =? 5) && (c =? 29) then Some n else None | _ => None end) as [n|] eqn:M.
  - assert (Hn : id = [2; 5; 29; n]).
    { destruct id as [|a [|b [|d [|n' [|? ?]]]]]; try discriminate M.
      destruct ((a =? 2) && (b =? 5) && (d =? 29)) eqn:K; [|discriminate M]. injection M as ->.
      apply andb_true_iff in K. destruct K as [K K3]. apply andb_true_iff in K. destruct K as [K1 K2].
      apply Z.eqb_eq in K1. apply Z.eqb_eq in K2. apply Z.eqb_eq in K3. subst. reflexivity. }
    subst id. clear M A.
    repeat match goal with |- context [n =? ?k] => destruct (Z.eqb_spec n k) as [-> |_]; [exfalso; apply H; cbn; tauto|] end.
    reflexivity.
  - rewrite A. reflexivity.
Qed.
Lemma unknown_extensions : forall l f u, (forall e, In e l -> ~ In (e_id e) ten_ids) ->
  parseExtensions E l f u = Ret (OK (f, u ++ map e_id (filter e_critical l))).
Proof.
  induction l as [|e r IH]; intros f u H; cbn [parseExtensions filter].
  - cbn [map]. rewrite app_nil_r. reflexivity.
  - rewrite unknown_extension by (apply H; left; reflexivity). cbn [gbind]. rewrite andb_true_r.
    rewrite IH by (intros e' He'; apply H; right; exact He'). destruct (e_critical e); [|reflexivity].
    cbn [map]. rewrite <- app_assoc. reflexivity.
Qed.

Ltac red_fields :=
  cbv beta iota delta [set_KeyUsage set_ExtKeyUsage set_BasicConstraints set_SubjectKeyId set_AuthorityKeyId set_AuthorityInfo set_SAN set_PolicyIdentifiers set_NameConstraints set_CRLDistributionPoints];
  cbn [f_KeyUsage f_ExtKeyUsage f_UnknownExtKeyUsage f_BasicConstraintsValid f_IsCA f_MaxPathLen f_MaxPathLenZero f_SubjectKeyId f_AuthorityKeyId
       f_OCSPServer f_IssuingCertificateURL f_SAN f_ConstraintsCritical f_Permitted f_Excluded f_CRLDistributionPoints f_PolicyIdentifiers].
(** C77: all extensions of a template come back at once. Extra extensions of other kinds leave the
    fields alone and are reported as unhandled if critical. *)
Theorem C77_extensions : forall t b akid l uris', template_ok (c_fields E t) uris' ->
  buildExtensions E t b akid = Ret (OK l) -> Forall (fun e => small (e_value e)) l ->
  (forall e, In e (c_ExtraExtensions E t) -> ~ In (e_id e) ten_ids) ->
  parseExtensions E l (zeroFields E) [] =
  Ret (OK (read_back (c_fields E t) akid uris', map e_id (filter e_critical (c_ExtraExtensions E t)))).
Proof.
  intros t b akid l uris' HT H HS HX. rewrite buildExtensions_eq in H.
  destruct (gather (slots t b akid)) as [[es|m]|k] eqn:EG; try discriminate H. cbn [gbind] in H. injection H as <-.
  apply Forall_app in HS. destruct HS as [HS _].
  rewrite (gather_reads _ _ (slots_read t b akid uris' HT) es EG HS).
  rewrite unknown_extensions by exact HX. f_equal. f_equal. cbn [app]. f_equal. clear EG HS.
  assert (FR : forall id, In id ten_ids -> negb (oidInExtensions id (c_ExtraExtensions E t)) = true).
  { intros id Hid. apply fresh_iff. intros K. apply in_map_iff in K. destruct K as (e & <- & He). exact (HX e He Hid). }
  destruct HT as (_ & _ & _ & _ & HU & _ & _).
  set (f := c_fields E t) in *. unfold slots, sets. fold f.
  assert (M1 : forall (c : bool) v g, (if c then set_KeyUsage E v g else g) = set_KeyUsage E (if c then v else f_KeyUsage E g) g) by (intros [] v []; reflexivity).
  assert (M2 : forall (c : bool) v w g, (if c then set_ExtKeyUsage E (f_ExtKeyUsage E g ++ v) (f_UnknownExtKeyUsage E g ++ w) g else g) =
     set_ExtKeyUsage E (if c then f_ExtKeyUsage E g ++ v else f_ExtKeyUsage E g) (if c then f_UnknownExtKeyUsage E g ++ w else f_UnknownExtKeyUsage E g) g) by (intros [] v w []; reflexivity).
  assert (M3 : forall (c : bool) v1 v2 v3 v4 g, (if c then set_BasicConstraints E v1 v2 v3 v4 g else g) =
     set_BasicConstraints E (if c then v1 else f_BasicConstraintsValid E g) (if c then v2 else f_IsCA E g) (if c then v3 else f_MaxPathLen E g) (if c then v4 else f_MaxPathLenZero E g) g) by (intros [] v1 v2 v3 v4 []; reflexivity).
  assert (M4 : forall (c : bool) v g, (if c then set_SubjectKeyId E v g else g) = set_SubjectKeyId E (if c then v else f_SubjectKeyId E g) g) by (intros [] v []; reflexivity).
  assert (M5 : forall (c : bool) v g, (if c then set_AuthorityKeyId E v g else g) = set_AuthorityKeyId E (if c then v else f_AuthorityKeyId E g) g) by (intros [] v []; reflexivity).
  assert (M6 : forall (c : bool) v w g, (if c then set_AuthorityInfo E (f_OCSPServer E g ++ v) (f_IssuingCertificateURL E g ++ w) g else g) =
     set_AuthorityInfo E (if c then f_OCSPServer E g ++ v else f_OCSPServer E g) (if c then f_IssuingCertificateURL E g ++ w else f_IssuingCertificateURL E g) g) by (intros [] v w []; reflexivity).
  assert (M7 : forall (c : bool) v g, (if c then set_SAN E v g else g) = set_SAN E (if c then v else f_SAN E g) g) by (intros [] v []; reflexivity).
  assert (M8 : forall (c : bool) v g, (if c then set_PolicyIdentifiers E v g else g) = set_PolicyIdentifiers E (if c then v else f_PolicyIdentifiers E g) g) by (intros [] v []; reflexivity).
  assert (M9 : forall (c : bool) v1 v2 v3 g, (if c then set_NameConstraints E v1 v2 v3 g else g) =
     set_NameConstraints E (if c then v1 else f_ConstraintsCritical E g) (if c then v2 else f_Permitted E g) (if c then v3 else f_Excluded E g) g) by (intros [] v1 v2 v3 []; reflexivity).
  assert (M10 : forall (c : bool) v g, (if c then set_CRLDistributionPoints E (f_CRLDistributionPoints E g ++ v) g else g) =
     set_CRLDistributionPoints E (if c then f_CRLDistributionPoints E g ++ v else f_CRLDistributionPoints E g) g) by (intros [] v []; reflexivity).
  assert (ST : forall s0 set0 l (g g' : certFields E), (if s_cond s0 then set0 g else g) = g' ->
     fold_left (fun f q => if s_cond (fst q) then snd q f else f) ((s0, set0) :: l) g =
     fold_left (fun f q => if s_cond (fst q) then snd q f else f) l g') by (intros s0 set0 l g g' <-; reflexivity).
  cbn [combine]. unfold zeroFields.
  erewrite ST; [|cbn [s_cond]; rewrite (FR oidExtensionKeyUsage) by (cbn; tauto); rewrite andb_true_r; cbv beta; rewrite M1; red_fields; reflexivity].
  erewrite ST; [|cbn [s_cond]; rewrite (FR oidExtensionExtendedKeyUsage) by (cbn; tauto); rewrite andb_true_r; cbv beta; rewrite M2; red_fields; reflexivity].
  erewrite ST; [|cbn [s_cond]; rewrite (FR oidExtensionBasicConstraints) by (cbn; tauto); rewrite andb_true_r; cbv beta; rewrite M3; red_fields; reflexivity].
  erewrite ST; [|cbn [s_cond]; rewrite (FR oidExtensionSubjectKeyId) by (cbn; tauto); rewrite andb_true_r; cbv beta; rewrite M4; red_fields; reflexivity].
  erewrite ST; [|cbn [s_cond]; rewrite (FR oidExtensionAuthorityKeyId) by (cbn; tauto); rewrite andb_true_r; cbv beta; rewrite M5; red_fields; reflexivity].
  erewrite ST; [|cbn [s_cond]; rewrite (FR oidExtensionAuthorityInfoAccess) by (cbn; tauto); rewrite andb_true_r; cbv beta; rewrite M6; red_fields; reflexivity].
  erewrite ST; [|cbn [s_cond]; rewrite (FR oidExtensionSubjectAltName) by (cbn; tauto); rewrite andb_true_r; cbv beta; rewrite M7; red_fields; reflexivity].
  erewrite ST; [|cbn [s_cond]; rewrite (FR oidExtensionCertificatePolicies) by (cbn; tauto); rewrite andb_true_r; cbv beta; rewrite M8; red_fields; reflexivity].
  erewrite ST; [|cbn [s_cond]; rewrite (FR oidExtensionNameConstraints) by (cbn; tauto); rewrite andb_true_r; cbv beta; rewrite M9; red_fields; reflexivity].
  erewrite ST; [|cbn [s_cond]; rewrite (FR oidExtensionCRLDistributionPoints) by (cbn; tauto); rewrite andb_true_r; cbv beta; rewrite M10; red_fields; reflexivity].
  cbn [fold_left]. fold (has_constraints f). clear M1 M2 M3 M4 M5 M6 M7 M8 M9 M10 ST FR HX. clearbody f.
  cbn [app].
  assert (K1 : forall A (l : list A), (if 0 <? zlen l then l else []) = l) by (intros A [|y l]; reflexivity).
  assert (K2 : forall A B (l : list A) (m : list B), (if (0 <? zlen l) || (0 <? zlen m) then l else []) = l).
  { intros A B [|y l] m; [destruct ((0 <? zlen (@nil A)) || (0 <? zlen m)); reflexivity|reflexivity]. }
  assert (K3 : forall A B (l : list A) (m : list B), (if (0 <? zlen l) || (0 <? zlen m) then m else []) = m).
  { intros A B l [|y m]; [destruct ((0 <? zlen l) || (0 <? zlen (@nil B))); reflexivity|]. cbn [zlen List.length]. rewrite orb_true_r. reflexivity. }
  rewrite !K1, !K2. rewrite !K3.
  assert (K4 : (if (0 <? zlen (f_ExtKeyUsage E f)) || (0 <? zlen (f_UnknownExtKeyUsage E f))
                then f_ExtKeyUsage E f ++ knownUsages (f_UnknownExtKeyUsage E f) else []) =
               f_ExtKeyUsage E f ++ knownUsages (f_UnknownExtKeyUsage E f)).
  { destruct (f_ExtKeyUsage E f), (f_UnknownExtKeyUsage E f); reflexivity. }
  rewrite K4.
  assert (K5 : (if (0 <? zlen (f_ExtKeyUsage E f)) || (0 <? zlen (f_UnknownExtKeyUsage E f))
                then unknownUsages (f_UnknownExtKeyUsage E f) else []) = unknownUsages (f_UnknownExtKeyUsage E f)).
  { destruct (f_ExtKeyUsage E f), (f_UnknownExtKeyUsage E f); reflexivity. }
  rewrite K5.
  assert (K6 : (if negb (f_KeyUsage E f =? 0) then f_KeyUsage E f mod 512 else 0) = f_KeyUsage E f mod 512).
  { destruct (Z.eqb_spec (f_KeyUsage E f) 0) as [-> |_]; reflexivity. }
  rewrite K6.
  assert (K7 : forall c, c = f_Permitted E f \/ c = f_Excluded E f -> (if has_constraints f then masked_all c else zeroConstraints) = masked_all c).
  { intros c Hc. destruct (has_constraints f) eqn:HC; [reflexivity|].
    assert (Z0 : c = zeroConstraints).
    { assert (D : forall c : Constraints, c = zeroConstraints \/ c <> zeroConstraints).
      { intros [[|? ?] [|? ?] [|? ?] [|? ?]]; try (right; discriminate). left; reflexivity. }
      destruct (D c) as [K|K]; [exact K|]. exfalso.
      assert (C : has_constraints f = true) by (apply constraints_iff; destruct Hc as [<- | <-]; tauto). congruence. }
    rewrite Z0. reflexivity. }
  rewrite (K7 _ (or_introl eq_refl)), (K7 _ (or_intror eq_refl)).
  assert (K9 : (if negb (altEmpty E (f_SAN E f)) then mkAlt E (an_dns E (f_SAN E f)) (an_emails E (f_SAN E f)) (map ipBytes (an_ips E (f_SAN E f))) uris' else zeroAlt E) =
               mkAlt E (an_dns E (f_SAN E f)) (an_emails E (f_SAN E f)) (map ipBytes (an_ips E (f_SAN E f))) uris').
  { destruct (negb (altEmpty E (f_SAN E f))) eqn:NA; [reflexivity|].
    assert (NN : no_names (f_SAN E f)).
    { assert (D : no_names (f_SAN E f) \/ ~ no_names (f_SAN E f)).
      { unfold no_names. assert (N : forall A (l : list A), l = [] \/ l <> []) by (intros A [|y l]; [left; reflexivity|right; discriminate]).
        destruct (N _ (an_dns E (f_SAN E f))); [|tauto]. destruct (N _ (an_emails E (f_SAN E f))); [|tauto].
        destruct (N _ (an_ips E (f_SAN E f))); [|tauto]. destruct (N _ (an_uris E (f_SAN E f))); tauto. }
      destruct D as [D|D]; [exact D|]. apply altEmpty_iff in D. congruence. }
    destruct NN as (-> & -> & -> & NU). rewrite NU in HU. inversion HU; subst. reflexivity. }
  rewrite K9. replace (if f_BasicConstraintsValid E f then true else false) with (f_BasicConstraintsValid E f) by (destruct (f_BasicConstraintsValid E f); reflexivity).
  reflexivity.
Qed.
End Env.

(** A template with six kinds of extensions, one of them given explicitly, and a foreign one. *)
Definition C67_fields : certFields noNet :=
  mkFields noNet 5 [1; 2] [[1; 2; 3]] true true 0 true [7; 8] [] [] [] (mkAlt noNet [[97; 46; 98]] [] [[10; 0; 0; 1]] [])
    true (mkNC [[98]] [] [] []) zeroConstraints [[117]] [].
Definition C67_template (extra : list Extension) : Certificate noNet :=
  mkX509 noNet [] [] [] [] [] [] 0 0 KeyNil 0 (Some 1) zeroName zeroName (mkTime 0 0 0) (mkTime 0 0 0) [] extra [] C67_fields.
Example C67_list : buildExtensions noNet (C67_template [mkExt [2; 5; 29; 14] false [4; 1; 9]; mkExt [1; 2; 3] true [5; 0]]) false [66] = Ret (OK
  [mkExt [2; 5; 29; 15] true [3; 2; 5; 160];
   mkExt [2; 5; 29; 37] false [48; 24; 6; 8; 43; 6; 1; 5; 5; 7; 3; 1; 6; 8; 43; 6; 1; 5; 5; 7; 3; 2; 6; 2; 42; 3];
   mkExt [2; 5; 29; 19] true [48; 6; 1; 1; 255; 2; 1; 0];
   mkExt [2; 5; 29; 35] false [48; 3; 128; 1; 66];
   mkExt [2; 5; 29; 17] false [48; 11; 130; 3; 97; 46; 98; 135; 4; 10; 0; 0; 1];
   mkExt [2; 5; 29; 30] true [48; 7; 160; 5; 48; 3; 130; 1; 98];
   mkExt [2; 5; 29; 31] false [48; 9; 48; 7; 160; 5; 160; 3; 134; 1; 117];
   mkExt [2; 5; 29; 14] false [4; 1; 9]; mkExt [1; 2; 3] true [5; 0]]).
Proof. vm_compute. reflexivity. Qed.
Example C77_values : exists l, buildExtensions noNet (C67_template [mkExt [1; 2; 3] true [5; 0]]) false [66] = Ret (OK l) /\
  parseExtensions noNet l (zeroFields noNet) [] = Ret (OK (mkFields noNet 5 [1; 2] [[1; 2; 3]] true true 0 true [7; 8] [66] [] []
    (mkAlt noNet [[97; 46; 98]] [] [[10; 0; 0; 1]] []) true (mkNC [[98]] [] [] []) zeroConstraints [[117]] [], [[1; 2; 3]])).
Proof. eexists. split; [vm_compute; reflexivity|]. vm_compute. reflexivity. Qed.
Example C77_ok : template_ok noNet C67_fields [].
Proof.
  unfold template_ok, C67_fields. cbn [f_UnknownExtKeyUsage f_PolicyIdentifiers f_MaxPathLen f_SAN an_ips an_uris f_Permitted f_Excluded].
  split; [constructor; [|constructor]|]. { cbn. repeat split; try lia. repeat constructor; lia. }
  split; [constructor|]. split; [lia|]. split; [constructor; [left; reflexivity|constructor]|]. split; [constructor|].
  split; [|repeat split; constructor].
  split; [|repeat split; constructor]. constructor; [|constructor]. split; [repeat constructor; lia|].
  destruct (domain_accepted [98]) as (o & K & V). apply V. intros ->. discriminate K.
Qed.
Example C67_unknown_usage : buildExtensions noNet
  (mkX509 noNet [] [] [] [] [] [] 0 0 KeyNil 0 (Some 1) zeroName zeroName (mkTime 0 0 0) (mkTime 0 0 0) [] [] [] (set_ExtKeyUsage noNet [99] [] C67_fields)) false [] =
  Panic (PUser "internal error").
Proof. vm_compute. reflexivity. Qed.
