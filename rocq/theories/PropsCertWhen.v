(** Exactly when a certificate and a request can be made (C107): which templates are written, which are
    refused with an error, and which make the library panic. *)
From Coq Require Import ZArith List Lia Bool String.
From Verif Require Import GoBase BeMin CbString CbStringProofs CbBuilder CbBuilderProofs PropsCbBuilder CbAsn1Proofs GoAsn1 GoAsn1Proofs.
From Verif Require Import GoElliptic Sm2 Sm2Proofs2 PropsSm2 Sm2Der PropsSm2Der GoText GoPkix CertText PropsCertText Cert CertRt PropsCertExt PropsCertNames PropsCertSan PropsCertBuild PropsCertTime PropsCertDN CertRt2 PropsCert PropsCertReq.
From Verif Require Import DerIff PropsCertDecode PropsCertAttr PropsCertGrammar.
Import ListNotations.
Open Scope Z_scope.

(** * What can be written *)

(** An object identifier: at least two arcs; the first is at most 2, and under 0 and 1 the second is
    below 40. *)
Definition good_oid (oid : list Z) : Prop := exists a b r, oid = a :: b :: r /\ a <= 2 /\ (a < 2 -> b < 40).
(** A local time in the years 0 to 9999. *)
Definition good_time (t : Time) : Prop := -62167219200 <= t_unix t + t_off t < 253402300800.
(** The value of an attribute. *)
Definition good_value (v : goAny) : Prop :=
  match v with
  | AnyNil => False
  | AnyString s => unicode s
  | AnyOID o => good_oid o
  | AnyTime t => good_time t
  | AnyInt _ | AnyBits _ | AnyBytes _ => True
  end.
Definition good_attribute (a : ATV) : Prop := good_oid (atv_type a) /\ good_value (atv_value a).
(** A name: its strings are text, except those that an extra name replaces, and its extra names are good. *)
Definition good_name (n : Name) : Prop :=
  (forall k vs, In (k, vs) [(6, n_Country n); (10, n_Organization n); (11, n_OrganizationalUnit n); (7, n_Locality n); (8, n_Province n);
                            (9, n_StreetAddress n); (17, n_PostalCode n); (3, [n_CommonName n]); (5, [n_SerialNumber n])] ->
                ~ In [2; 5; 4; k] (map atv_type (n_ExtraNames n)) -> Forall unicode vs) /\
  Forall good_attribute (n_ExtraNames n).
(** Strings of bytes (Go's strings always are). *)
Definition value_bytes (v : goAny) : Prop := match v with AnyString s => bytes s | _ => True end.
Definition name_bytes (n : Name) : Prop :=
  Forall bytes (n_Country n ++ n_Organization n ++ n_OrganizationalUnit n ++ n_Locality n ++ n_Province n ++ n_StreetAddress n ++
                n_PostalCode n ++ [n_SerialNumber n; n_CommonName n]) /\
  Forall (fun a => value_bytes (atv_value a)) (n_ExtraNames n).

Lemma makeFields_iff : forall fs, written (makeFields fs) <-> Forall written fs.
Proof.
  intros fs. split; [|apply makeFields_written]. intros [c H]. destruct (makeFields_inv _ _ H) as (es & -> & _).
  apply Forall_map, Forall_forall. intros e _. exists e. reflexivity.
Qed.
Lemma makeField_iff : forall t b body, written (makeField false t b body noParams) <-> written body.
Proof.
  intros t b body. split; [|apply makeField_written]. intros [c H]. unfold makeField in H. cbn [noParams fp_optional fp_set fp_tag andb] in H.
  destruct body as [x|m]; [exists x; reflexivity|discriminate H].
Qed.
Lemma slice_iff : forall s fs, written (fieldSlice s fs) <-> Forall written fs.
Proof. intros s fs. unfold fieldSlice. rewrite makeField_iff. apply makeFields_iff. Qed.
Lemma struct_iff : forall fs, written (marshalStruct fs) <-> Forall written fs.
Proof. intros fs. unfold marshalStruct. rewrite makeField_iff. apply makeFields_iff. Qed.
Lemma written_OK : forall e : list Z, written (OK e). Proof. intros e. exists e. reflexivity. Qed.
Lemma oid_iff : forall oid, written (fieldOID oid) <-> good_oid oid.
Proof.
  intros oid. unfold fieldOID. rewrite makeField_iff. unfold good_oid, makeObjectIdentifier. destruct oid as [|a [|b r]].
  - split; [intros [e H]; discriminate H|intros (a & b & r & H & _); discriminate H].
  - split; [intros [e H]; discriminate H|intros (a' & b & r & H & _); discriminate H].
  - destruct ((2 <? a) || ((a <? 2) && (40 <=? b))) eqn:C.
    + split; [intros [e H]; discriminate H|]. intros (a' & b' & r' & H & H1 & H2).
      assert (a' = a) by congruence. assert (b' = b) by congruence. subst a' b'.
      apply orb_true_iff in C. rewrite andb_true_iff, !Z.ltb_lt, Z.leb_le in C. destruct C as [C|[C1 C2]]; [lia|]. specialize (H2 C1). lia.
    + split; [|intros _; apply written_OK]. intros _. exists a, b, r. split; [reflexivity|].
      apply orb_false_iff in C. rewrite andb_false_iff, !Z.ltb_ge, Z.leb_gt in C. lia.
Qed.
Lemma time_year : forall t, yearOf t = yearOf (UTC (mkTime (t_unix t + t_off t) 0 0)).
Proof. intros t. unfold yearOf, Date, UTC. cbn [t_unix t_off]. rewrite Z.add_0_r. reflexivity. Qed.
Lemma makeTime_iff : forall t, written (makeTime t) <-> 0 <= yearOf t <= 9999.
Proof.
  intros t. unfold makeTime, outsideUTCRange. destruct ((yearOf t <? 1950) || (2050 <=? yearOf t)) eqn:O.
  - destruct ((yearOf t <? 0) || (9999 <? yearOf t)) eqn:P.
    + split; [intros [e H]; discriminate H|]. intros R. apply orb_true_iff in P. rewrite !Z.ltb_lt in P. lia.
    + split; [|intros _; apply written_OK]. intros _. apply orb_false_iff in P. rewrite !Z.ltb_ge in P. lia.
  - split; [|intros _; apply written_OK]. intros _. apply orb_false_iff in O. rewrite Z.ltb_ge, Z.leb_gt in O. lia.
Qed.
Lemma time_iff_good : forall t, written (makeTime t) <-> good_time t.
Proof.
  intros t. rewrite makeTime_iff, time_year. unfold good_time. set (u := mkTime (t_unix t + t_off t) 0 0).
  change (t_unix t + t_off t) with (t_unix u). clearbody u. rewrite <- makeTime_iff.
  assert (F : written (makeTime (UTC u)) <-> written (fieldTime (UTC u))) by (unfold fieldTime; symmetry; apply makeField_iff).
  rewrite F. split.
  - intros [e H]. destruct (Z_le_dec (-62167219200) (t_unix u)) as [A|A]; [destruct (Z_lt_dec (t_unix u) 253402300800) as [B|B]; [lia|]|];
      (destruct (C78_refused u) as [m K]; [lia|rewrite K in H; discriminate H]).
  - intros R. destruct (C78_time u R) as (e & H & _). exists e. exact H.
Qed.
Lemma printable_dec : forall b, {printable b} + {~ printable b}.
Proof.
  intros b. destruct (isPrintable false b) eqn:P; [left; apply printable_iff; exact P|right; intros K; apply printable_iff in K; congruence].
Qed.
Lemma printable_unicode : forall s, Forall printable s -> unicode s.
Proof.
  intros s H. exists s. induction H as [|b s Hb H [IH1 IH2]]; [split; [constructor|reflexivity]|].
  assert (R : 0 <= b < 128) by (unfold printable in Hb; cbn [In] in Hb; lia). split.
  - constructor; [unfold scalar; lia|exact IH1].
  - cbn [map List.concat]. unfold utf8 at 1. rewrite (proj2 (Z.ltb_lt b 0x80)) by lia. cbn [app]. rewrite <- IH2. reflexivity.
Qed.
Lemma string_iff : forall s, bytes s -> (written (fieldAny (AnyString s)) <-> unicode s).
Proof.
  intros s HB. cbn [fieldAny]. pose proof (fun t => stringTag_iff s t HB) as T.
  destruct (stringTag s) as [t|m] eqn:ES; cbn [rbind].
  - rewrite makeField_iff. split; [|intros _; apply written_OK]. intros _. destruct (proj1 (T t) eq_refl) as [(_ & P)|(_ & _ & U)]; [|exact U].
    apply printable_unicode. exact P.
  - split; [intros [e H]; discriminate H|]. intros U. exfalso.
    destruct (Forall_dec printable printable_dec s) as [P|P].
    + pose proof (proj2 (T TagPrintableString) (or_introl (conj eq_refl P))) as K. discriminate K.
    + pose proof (proj2 (T TagUTF8String) (or_intror (conj eq_refl (conj P U)))) as K. discriminate K.
Qed.

Lemma value_iff : forall v, value_bytes v -> (written (fieldAny v) <-> good_value v).
Proof.
  intros [|s|i|b|o|t|b] HB; cbn [good_value value_bytes] in *.
  - cbn [fieldAny]. split; [intros [e H]; discriminate H|intros []].
  - apply string_iff. exact HB.
  - split; [intros _; exact I|intros _; cbn [fieldAny]; apply makeField_iff, written_OK].
  - split; [intros _; exact I|intros _; cbn [fieldAny]; apply makeField_iff, written_OK].
  - cbn [fieldAny]. apply oid_iff.
  - cbn [fieldAny]. rewrite makeField_iff. apply time_iff_good.
  - split; [intros _; exact I|intros _; cbn [fieldAny]; apply makeField_iff, written_OK].
Qed.
Lemma atv_iff : forall a, value_bytes (atv_value a) -> (written (fieldATV a) <-> good_attribute a).
Proof.
  intros a HB. unfold fieldATV. rewrite struct_iff, !Forall_cons_iff, oid_iff, (value_iff _ HB). unfold good_attribute. intuition.
Qed.
Lemma rdn_iff : forall r, Forall (fun a => value_bytes (atv_value a)) r -> (written (fieldRDN r) <-> Forall good_attribute r).
Proof.
  intros r HB. unfold fieldRDN. rewrite slice_iff, Forall_map. rewrite !Forall_forall in *. split; intros H a Ha; [apply atv_iff|apply atv_iff]; auto.
Qed.
(** The lists of attributes of a name. *)
Lemma appended_iff : forall n inp vs k, Forall bytes vs ->
  (Forall (fun r => written (fieldRDN r)) (appendRDNs n inp vs (x520 k)) <->
   Forall (fun r => written (fieldRDN r)) inp /\ (~ In [2; 5; 4; k] (map atv_type (n_ExtraNames n)) -> Forall unicode vs)).
Proof.
  intros n inp vs k HB. unfold appendRDNs.
  assert (X : oidInATVs (x520 k) (n_ExtraNames n) = true <-> In [2; 5; 4; k] (map atv_type (n_ExtraNames n))).
  { unfold oidInATVs. rewrite existsb_exists, in_map_iff. split; intros (a & H1 & H2).
    - exists a. apply oidEqual_eq in H2. split; [exact H2|exact H1].
    - exists a. split; [exact H2|]. rewrite H1. apply oidEqual_refl. }
  destruct (Z.eqb_spec (zlen vs) 0) as [Z0|Z0]; cbn [orb].
  - apply zlen_0_nil in Z0. subst vs. intuition.
  - destruct (oidInATVs (x520 k) (n_ExtraNames n)) eqn:EX.
    + assert (In [2; 5; 4; k] (map atv_type (n_ExtraNames n))) by (apply X; reflexivity). intuition.
    + assert (N : ~ In [2; 5; 4; k] (map atv_type (n_ExtraNames n))) by (intros K; apply X in K; discriminate K).
      rewrite Forall_app, Forall_cons_iff, rdn_iff, Forall_map.
      * assert (M : Forall (fun x => good_attribute (mkATV (x520 k) (AnyString x))) vs <-> Forall unicode vs).
        { rewrite !Forall_forall. unfold good_attribute. cbn [atv_type atv_value good_value]. split; intros H x Hx; [apply H, Hx|].
          split; [|apply H, Hx]. exists 2, 5, [4; k]. split; [reflexivity|]. lia. }
        rewrite M. intuition.
      * apply Forall_map. eapply Forall_impl; [|exact HB]. intros x Hx. exact Hx.
Qed.
Lemma name_iff : forall n, name_bytes n -> (written (marshalRDNSequence (ToRDNSequence n)) <-> good_name n).
Proof.
  intros n [HB HX]. rewrite !Forall_app in HB. destruct HB as (B1 & B2 & B3 & B4 & B5 & B6 & B7 & B8).
  inversion B8 as [|? ? BS B8']; subst. inversion B8' as [|? ? BC _]; subst. clear B8 B8'.
  unfold marshalRDNSequence. rewrite slice_iff, Forall_map. unfold ToRDNSequence. cbv zeta. rewrite !appendRDNs_one.
  assert (O : forall s, bytes s -> Forall bytes (one s)) by (intros [|x s] K; [constructor|constructor; [exact K|constructor]]).
  assert (U : forall s, Forall unicode (one s) <-> Forall unicode [s]).
  { intros [|x s]; [|reflexivity]. split; [|constructor]. intros _. constructor; [|constructor]. exists []. split; [constructor|reflexivity]. }
  rewrite Forall_app.
  change oidSerialNumber with (x520 5). rewrite (appended_iff n _ _ 5 (O _ BS)).
  change oidCommonName with (x520 3). rewrite (appended_iff n _ _ 3 (O _ BC)).
  change oidPostalCode with (x520 17). rewrite (appended_iff n _ _ 17 B7).
  change oidStreetAddress with (x520 9). rewrite (appended_iff n _ _ 9 B6).
  change oidProvince with (x520 8). rewrite (appended_iff n _ _ 8 B5).
  change oidLocality with (x520 7). rewrite (appended_iff n _ _ 7 B4).
  change oidOrganizationalUnit with (x520 11). rewrite (appended_iff n _ _ 11 B3).
  change oidOrganization with (x520 10). rewrite (appended_iff n _ _ 10 B2).
  change oidCountry with (x520 6). rewrite (appended_iff n _ _ 6 B1). rewrite !U.
  assert (X : Forall (fun r => written (fieldRDN r)) (map (fun a => [a]) (n_ExtraNames n)) <-> Forall good_attribute (n_ExtraNames n)).
  { rewrite Forall_map. rewrite !Forall_forall in *. split; intros H a Ha.
    - specialize (H a Ha). rewrite rdn_iff in H by (constructor; [apply HX, Ha|constructor]). inversion H; assumption.
    - rewrite rdn_iff by (constructor; [apply HX, Ha|constructor]). constructor; [apply H, Ha|constructor]. }
  rewrite X. unfold good_name. split.
  - intros H. split; [|apply H]. intros k vs Hin N. cbn [In] in Hin.
    repeat (destruct Hin as [Hin|Hin]; [assert (6 = 6) by reflexivity; pose proof (f_equal fst Hin) as K1; pose proof (f_equal snd Hin) as K2; cbn [fst snd] in K1, K2; subst k vs; intuition|]).
    destruct Hin.
  - intros [H HG]. split; [|exact HG].
    repeat match goal with |- _ /\ _ => split end; try exact (Forall_nil _); apply H; cbn [In]; tauto.
Qed.

(** * Extensions *)

Definition sum (l : list Z) : Z := fold_right Z.add 0 l.
(** A bound for the length of the names in a name constraint, as written. *)
Definition constraint_size (c : Constraints) : Z :=
  sum (map (fun n => zlen n + 20) (nc_dns c ++ nc_emails c ++ nc_uris c)) + sum (map (fun i => 2 * zlen (in_mask i) + 20) (nc_ips c)).
Definition seven_bit (c : Constraints) : Prop := Forall ascii7 (nc_dns c) /\ Forall ascii7 (nc_emails c) /\ Forall ascii7 (nc_uris c).

Lemma sum_app : forall a b, sum (a ++ b) = sum a + sum b.
Proof. induction a as [|x a IH]; intros b; [reflexivity|]. cbn [app sum fold_right]. unfold sum in *. rewrite IH. lia. Qed.
Lemma mask_length : forall ip mask, zlen (maskIP ip mask) <= zlen mask.
Proof.
  intros ip mask. unfold maskIP. cbv zeta.
  set (m := if _ && _ && forallb _ _ then skipn 12 mask else mask).
  assert (L : zlen m <= zlen mask) by (unfold m; destruct (_ && _ && _); [unfold zlen; rewrite skipn_length; lia|lia]).
  clearbody m. set (i := if _ && _ && _ then _ else ip). clearbody i.
  destruct (negb (zlen i =? zlen m)); [pose proof (zlen_nonneg _ mask); unfold zlen at 1; cbn [List.length]; lia|].
  unfold zlen in *. rewrite map_length, combine_length. lia.
Qed.
Lemma size_values : forall c, sum (map (fun p => zlen (snd p) + 20) (nc_values c)) <= constraint_size c.
Proof.
  intros c. unfold nc_values, constraint_size. rewrite !map_app, !sum_app, !map_map. cbn [snd].
  assert (I : forall l, sum (map (fun i => zlen (ipAndMask i) + 20) l) <= sum (map (fun i => 2 * zlen (in_mask i) + 20) l)).
  { induction l as [|i l IH]; [reflexivity|]. cbn [map sum fold_right]. unfold sum in IH. unfold ipAndMask in *. rewrite zlen_app.
    pose proof (mask_length (in_ip i) (in_mask i)). lia. }
  specialize (I (nc_ips c)). lia.
Qed.
Lemma sers_app_some : forall a b ea eb, sers a = Some ea -> sers b = Some eb -> sers (a ++ b) = Some (ea ++ eb).
Proof.
  induction a as [|i a IH]; intros b ea eb Ha Hb; [cbn in Ha; injection Ha as <-; exact Hb|]. cbn [app sers] in *.
  destruct (ser i) as [ei|]; [|discriminate Ha]. destruct (sers a) as [ea'|]; [|discriminate Ha]. injection Ha as <-.
  rewrite (IH b ea' eb eq_refl Hb). rewrite app_assoc. reflexivity.
Qed.
Lemma sers_values : forall l, Forall (fun p => 0 <= fst p < 31) l -> sum (map (fun p => zlen (snd p) + 20) l) < 2 ^ 31 ->
  sers (map nc_item l) = Some (List.concat (map nc_elem l)) /\ zlen (List.concat (map nc_elem l)) <= sum (map (fun p => zlen (snd p) + 20) l).
Proof.
  induction l as [|p l IH]; intros HT HS; [split; reflexivity|]. inversion HT as [|? ? Hp HT']; subst.
  cbn [map sum fold_right] in HS. fold (sum (map (fun p => zlen (snd p) + 20) l)) in HS.
  assert (P : forall l, 0 <= sum (map (fun p : Z * list Z => zlen (snd p) + 20) l)).
  { induction l0 as [|q l0 IHq]; [reflexivity|]. cbn [map sum fold_right]. unfold sum in IHq. pose proof (zlen_nonneg _ (snd q)). lia. }
  pose proof (P l) as P0. pose proof (zlen_nonneg _ (snd p)) as P1.
  destruct (IH HT') as [I1 I2]; [lia|]. cbn [map sers List.concat]. rewrite I1.
  pose proof (zlen_tlv_le (128 + fst p) (snd p) ltac:(lia)) as T1.
  pose proof (zlen_tlv_le 48 (tlv (128 + fst p) (snd p)) ltac:(lia)) as T2.
  unfold nc_item. rewrite ser_IASN1. change (48 mod 32 =? 31) with false. cbv iota. cbn [sers]. rewrite ser_IASN1. cbn [sers ser]. rewrite !app_nil_r.
  assert (M : (128 + fst p) mod 32 =? 31 = false).
  { apply Z.eqb_neq. replace (128 + fst p) with (fst p + 4 * 32) by lia. rewrite Z.mod_add by lia. rewrite Z.mod_small; lia. }
  rewrite M. rewrite (proj2 (Z.leb_le (zlen (snd p)) (2 ^ 32 - 2))) by lia. rewrite app_nil_r.
  rewrite (proj2 (Z.leb_le (zlen (tlv (128 + fst p) (snd p))) (2 ^ 32 - 2))) by lia.
  split; [reflexivity|]. cbn [map sum fold_right]. fold (sum (map (fun p => zlen (snd p) + 20) l)). unfold nc_elem at 1. rewrite zlen_app. lia.
Qed.
(** A Go computation that yields a value and no error. *)
Definition makes {A} (g : go (res A)) : Prop := exists v, g = Ret (OK v).
Lemma builder_makes : forall is, wf_items is -> sers is <> None -> makes (runBuilder (map call is)).
Proof.
  intros is W N. destruct (runBuilder_items is W) as [K _]. destruct (sers is) as [e|]; [exists e; exact K|destruct N; reflexivity].
Qed.
Lemma serialise_makes : forall c, seven_bit c -> constraint_size c < 2 ^ 31 ->
  exists e, serialiseConstraints c = Ret (OK e) /\ zlen e <= constraint_size c.
Proof.
  intros c (H1 & H2 & H3) HS. pose proof (size_values c) as SV.
  destruct (sers_values (nc_values c) (nc_values_tags c)) as [S1 S2]; [lia|].
  exists (List.concat (map nc_elem (nc_values c))). rewrite serialise_eq by assumption.
  destruct (runBuilder_items (map nc_item (nc_values c)) (nc_items_wf _)) as [K _]. rewrite S1 in K. split; [exact K|lia].
Qed.
Lemma constraints_iff : forall p x, constraint_size p + constraint_size x < 2 ^ 31 ->
  (makes (marshalNameConstraints p x) <-> seven_bit p /\ seven_bit x).
Proof.
  intros p x HS. split.
  - intros [v H]. unfold marshalNameConstraints in H.
    destruct (serialiseConstraints p) as [[ep|m]|k] eqn:EP; try discriminate H. cbn [gbind] in H.
    destruct (serialiseConstraints x) as [[ex|m]|k] eqn:EX; try discriminate H.
    destruct (serialise_inv p ep EP) as (P1 & P2 & P3 & _). destruct (serialise_inv x ex EX) as (X1 & X2 & X3 & _). unfold seven_bit. auto.
  - intros [HP HX].
    assert (N : forall c, 0 <= constraint_size c).
    { intros c. unfold constraint_size.
      assert (N1 : forall l : list (list Z), 0 <= sum (map (fun n => zlen n + 20) l)) by (induction l as [|y l IH]; [reflexivity|]; cbn [map sum fold_right]; unfold sum in IH; pose proof (zlen_nonneg _ y); lia).
      assert (N2 : forall l, 0 <= sum (map (fun i => 2 * zlen (in_mask i) + 20) l)) by (induction l as [|y l IH]; [reflexivity|]; cbn [map sum fold_right]; unfold sum in IH; pose proof (zlen_nonneg _ (in_mask y)); lia).
      specialize (N1 (nc_dns c ++ nc_emails c ++ nc_uris c)). specialize (N2 (nc_ips c)). lia. }
    pose proof (N p). pose proof (N x).
    destruct (serialise_makes p HP ltac:(lia)) as (ep & EP & LP). destruct (serialise_makes x HX ltac:(lia)) as (ex & EX & LX).
    unfold marshalNameConstraints. rewrite EP. cbn [gbind]. rewrite EX. cbn [gbind].
    set (is := [IASN1 48 ((if 0 <? zlen ep then [IASN1 0xa0 [IBytes ep]] else []) ++ (if 0 <? zlen ex then [IASN1 0xa1 [IBytes ex]] else []))]).
    assert (B : makes (runBuilder (map call is))).
    { apply builder_makes.
      - unfold is. cbn [wf_items]. split; [|exact I]. rewrite wf_IASN1. destruct (0 <? zlen ep), (0 <? zlen ex); cbn; repeat split.
      - unfold is. cbn [sers]. rewrite ser_IASN1. change (48 mod 32 =? 31) with false. cbv iota.
        pose proof (zlen_tlv_le 160 ep ltac:(lia)) as T1. pose proof (zlen_tlv_le 161 ex ltac:(lia)) as T2.
        assert (SP : forall tag l, tag mod 32 =? 31 = false -> zlen l < 2 ^ 31 ->
                  sers (if 0 <? zlen l then [IASN1 tag [IBytes l]] else []) = Some (if 0 <? zlen l then tlv tag l else [])).
        { intros tag l Ht Hl. destruct (0 <? zlen l); [|reflexivity]. cbn [sers]. rewrite ser_IASN1, Ht. cbn [sers ser]. rewrite !app_nil_r.
          rewrite (proj2 (Z.leb_le (zlen l) (2 ^ 32 - 2))) by lia. rewrite app_nil_r. reflexivity. }
        rewrite (sers_app_some _ _ _ _ (SP 160 ep eq_refl ltac:(lia)) (SP 161 ex eq_refl ltac:(lia))).
        match goal with |- context [zlen ?z <=? 2 ^ 32 - 2] => assert (L : zlen z <= 2 ^ 32 - 2) end.
        { rewrite zlen_app. change (zlen (@nil Z)) with 0 in *. destruct (0 <? zlen ep), (0 <? zlen ex); cbn [zlen List.length Z.of_nat]; try lia;
            change (zlen (@nil Z)) with 0; lia. }
        rewrite (proj2 (Z.leb_le _ _) L). discriminate. }
    destruct B as [v Hv]. exists v. rewrite <- Hv. unfold is. f_equal. cbn [map call]. f_equal. f_equal. rewrite map_app. unfold AddBytes.
    destruct (0 <? zlen ep), (0 <? zlen ex); reflexivity.
Qed.

Lemma gather_makes : forall l, makes (gather l) <-> Forall (fun s => s_cond s = true -> makes (s_value s)) l.
Proof.
  induction l as [|s l IH]; [split; [constructor|intros _; exists []; reflexivity]|]. rewrite Forall_cons_iff, <- IH. cbn [gather]. destruct (s_cond s).
  - split.
    + intros [v H]. destruct (s_value s) as [[x|m]|k]; try discriminate H. cbn [gbind] in H. destruct (gather l) as [[y|m]|k]; try discriminate H.
      split; [intros _; exists x; reflexivity|exists y; reflexivity].
    + intros [H [y Hy]]. destruct (H eq_refl) as [x Hx]. rewrite Hx, Hy. cbn [gbind]. eexists. reflexivity.
  - split; [intros H; split; [intros K; discriminate K|exact H]|intros [_ H]; exact H].
Qed.
Lemma makes_ret : forall r : res (list Z), makes (Ret r) <-> written r.
Proof. intros r. split; intros [e H]; exists e; [apply ret_inj in H; exact H|rewrite H; reflexivity]. Qed.

Section Env.
Variable E : netEnv.

(** The values of a template that can be written; those that an extra extension replaces do not matter. *)
Definition good_extensions (t : Certificate E) : Prop :=
  let f := c_fields E t in
  let extra := map e_id (c_ExtraExtensions E t) in
  (~ In [2; 5; 29; 37] extra -> Forall (fun u => 0 <= u <= 13) (f_ExtKeyUsage E f) /\ Forall good_oid (f_UnknownExtKeyUsage E f)) /\
  (~ In [2; 5; 29; 32] extra -> Forall good_oid (f_PolicyIdentifiers E f)) /\
  (~ In [2; 5; 29; 30] extra -> seven_bit (f_Permitted E f) /\ seven_bit (f_Excluded E f)).

Lemma usages_iff : forall known unknown,
  makes (do oids <- extKeyUsageToOIDs known; Ret (fieldSlice false (map fieldOID (oids ++ unknown)))) <->
  Forall (fun u => 0 <= u <= 13) known /\ Forall good_oid unknown.
Proof.
  intros known unknown. destruct (C66_unknown_usage_panics known) as [U1 U2]. destruct (Forall_dec (fun u => 0 <= u <= 13)
    (fun u => match Z_le_dec 0 u, Z_le_dec u 13 with left a, left b => left (conj a b) | right a, _ => right (fun k => a (proj1 k)) | _, right b => right (fun k => b (proj2 k)) end) known) as [K|K].
  - destruct (U1 K) as [oids EO]. rewrite EO. cbn [bind]. rewrite makes_ret, slice_iff, map_app, Forall_app, !Forall_map.
    assert (G : Forall (fun x => written (fieldOID x)) oids).
    { clear - EO. revert oids EO. induction known as [|u known IH]; intros oids EO; [cbn in EO; apply ret_inj in EO; subst oids; constructor|].
      cbn [extKeyUsageToOIDs] in EO. destruct (oidFromExtKeyUsage u) as [o|] eqn:EU; [|discriminate EO].
      destruct (extKeyUsageToOIDs known) as [os|k]; [|discriminate EO]. cbn [bind] in EO. apply ret_inj in EO. subst oids. constructor; [|apply IH; reflexivity].
      apply oid_written. exact (table_ok u o EU). }
    assert (M : Forall (fun x => written (fieldOID x)) unknown <-> Forall good_oid unknown).
    { rewrite !Forall_forall. split; intros H x Hx; apply oid_iff, H, Hx. }
    rewrite M. intuition.
  - rewrite (U2 K). split; [intros [e H]; discriminate H|intros [H _]; contradiction].
Qed.
Lemma extensions_iff : forall t b akid,
  constraint_size (f_Permitted E (c_fields E t)) + constraint_size (f_Excluded E (c_fields E t)) < 2 ^ 31 ->
  (makes (buildExtensions E t b akid) <-> good_extensions t).
Proof.
  intros t b akid HS. rewrite buildExtensions_eq.
  assert (G : makes (gbind (gather (slots E t b akid)) (fun es => Ret (OK (es ++ c_ExtraExtensions E t)))) <-> makes (gather (slots E t b akid))).
  { split; intros [v H].
    - destruct (gather (slots E t b akid)) as [[es|m]|k]; try discriminate H. exists es. reflexivity.
    - rewrite H. eexists. reflexivity. }
  rewrite G, gather_makes. clear G. unfold slots. cbv zeta.
  assert (W : forall c (v : res (list Z)), written v -> (c = true -> makes (Ret v))) by (intros c v Hv _; apply makes_ret; exact Hv).
  assert (A : forall o name, oid_ok o -> written (fieldAIA o (rawURI name))).
  { intros o name Ho. apply struct_iff. constructor; [apply oid_written; exact Ho|constructor; [apply written_OK|constructor]]. }
  unfold good_extensions. cbv zeta. set (f := c_fields E t) in *. set (extra := c_ExtraExtensions E t).
  split.
  - intros H. inversion H as [|? ? _ H1]; subst. inversion H1 as [|? ? K1 H2]; subst. clear H H1.
    do 5 (inversion H2 as [|? ? _ H3]; subst; clear H2; rename H3 into H2).
    inversion H2 as [|? ? K2 H3]; subst. inversion H3 as [|? ? K3 _]; subst. clear H2 H3. cbn [s_cond s_value] in K1, K2, K3.
    split; [|split]; intros N.
    + apply fresh_iff in N. change oidExtensionExtendedKeyUsage with [2; 5; 29; 37] in K1. rewrite N, andb_true_r in K1.
      destruct (f_ExtKeyUsage E f) as [|u l] eqn:E1; [destruct (f_UnknownExtKeyUsage E f) as [|o ol] eqn:E2; [split; constructor|]|];
        (apply usages_iff, K1; apply orb_true_iff; rewrite !nonempty_iff; solve [left; discriminate|right; discriminate]).
    + apply fresh_iff in N. change oidExtensionCertificatePolicies with [2; 5; 29; 32] in K2. rewrite N, andb_true_r in K2.
      destruct (f_PolicyIdentifiers E f) as [|o l] eqn:E1; [constructor|]. rewrite nonempty_iff in K2. specialize (K2 ltac:(discriminate)).
      apply makes_ret, slice_iff in K2. rewrite Forall_map in K2. rewrite Forall_forall in *. intros x Hx. specialize (K2 x Hx). apply struct_iff in K2.
      inversion K2. apply oid_iff. assumption.
    + apply fresh_iff in N. change oidExtensionNameConstraints with [2; 5; 29; 30] in K3. rewrite N, andb_true_r in K3.
      destruct (_ || _) eqn:C in K3; [apply constraints_iff; [exact HS|apply K3; reflexivity]|].
      clear K3. rewrite !orb_false_iff in C.
      assert (Z0 : forall A (l : list A), (0 <? zlen l) = false -> l = []) by (intros A0 [|y l] K; [reflexivity|rewrite (proj2 (nonempty_iff _ (y :: l))) in K by discriminate; discriminate K]).
      destruct C as (((((((C1 & C2) & C3) & C4) & C5) & C6) & C7) & C8).
      apply Z0 in C1, C2, C5, C6, C7, C8. unfold seven_bit. rewrite C1, C2, C5, C6, C7, C8. repeat split; constructor.
  - intros (H1 & H2 & H3). repeat (apply Forall_cons; [cbn [s_cond s_value]|]); try exact (Forall_nil _).
    + apply W. destruct (C62_key_usage E (f_KeyUsage E f) (zeroFields E) true) as (v & -> & _). apply written_OK.
    + rewrite andb_true_iff, fresh_iff. intros [_ N]. apply usages_iff, H1, N.
    + apply W. apply struct_iff. constructor; [destruct (f_IsCA E f); apply written_OK|]. constructor; [|constructor].
      unfold makeField. cbn [optParams fp_optional fp_set fp_tag andb rbind]. destruct (_ =? -1); apply written_OK.
    + apply W. apply makeField_iff, written_OK.
    + apply W. apply struct_iff. constructor; [apply written_OK|constructor].
    + apply W. apply slice_iff, Forall_app. split; apply Forall_map, Forall_forall; intros x _; apply A; unfold oid_ok, oidAuthorityInfoAccessOcsp, oidAuthorityInfoAccessIssuers; repeat first [split | lia | constructor].
    + apply W. apply slice_iff. rewrite !Forall_app, !Forall_map. repeat split; apply Forall_forall; intros; apply written_OK.
    + rewrite andb_true_iff, fresh_iff. intros [_ N]. apply makes_ret, slice_iff, Forall_map. eapply Forall_impl; [|exact (H2 N)].
      intros o Ho. apply struct_iff. constructor; [apply oid_iff; exact Ho|constructor].
    + rewrite andb_true_iff, fresh_iff. intros [_ N]. apply constraints_iff; [exact HS|exact (H3 N)].
    + apply W. apply slice_iff, Forall_map, Forall_forall. intros x _. apply struct_iff. constructor; [apply written_OK|constructor].
Qed.

(** * Certificates *)

(** A subject: given as bytes, or a name that can be written. *)
Definition good_subject (raw : list Z) (n : Name) : Prop := raw <> [] \/ good_name n.
(** A time in the years 0 to 9999 UTC. *)
Definition in_range (t : Time) : Prop := -62167219200 <= t_unix t < 253402300800.
(** What is needed for a certificate: a serial number, subjects of issuer and holder, extensions, a key in
    the request, and two times. *)
Definition good_template (t parent : Certificate E) (csr : CertificateRequest E) : Prop :=
  c_SerialNumber E t <> None /\
  good_subject (c_RawSubject E parent) (c_Subject E parent) /\ good_subject (c_RawSubject E t) (c_Subject E t) /\
  good_extensions t /\ Forall good_oid (map e_id (c_ExtraExtensions E t)) /\
  (exists k, whole 0 true 16 g_spki (r_RawSPKI E csr) k) /\
  in_range (c_NotBefore E t) /\ in_range (c_NotAfter E t).

Lemma subject_iff : forall t, name_bytes (c_Subject E t) -> (written (subjectBytes E t) <-> good_subject (c_RawSubject E t) (c_Subject E t)).
Proof.
  intros t HB. unfold subjectBytes, good_subject. destruct (c_RawSubject E t) as [|x l].
  - rewrite (name_iff _ HB). split; [intros H; right; exact H|intros [H|H]; [destruct H; reflexivity|exact H]].
  - split; [intros _; left; discriminate|intros _; apply written_OK].
Qed.
Lemma field_iff : forall d tag comp body p, fp_set p = false -> fp_optional p && d = false -> (written (makeField d tag comp body p) <-> written body).
Proof.
  intros d tag comp body p H1 H2. unfold makeField. rewrite H1, H2. cbn [andb]. destruct body as [c|m]; cbn [rbind]; split; intros H; try apply written_OK; exact H.
Qed.
Lemma UTC_time_iff : forall t, written (fieldTime (UTC t)) <-> in_range t.
Proof.
  intros t. unfold fieldTime. rewrite makeField_iff, time_iff_good. unfold good_time, in_range, UTC. cbn [t_unix t_off]. rewrite Z.add_0_r. reflexivity.
Qed.
Lemma sigalg_written : written (fieldAlg (mkAlg oidSignatureSM3WithSM2 zeroRaw)).
Proof. rewrite sigalg_bytes. apply written_OK. Qed.
Lemma spki_iff : forall l, bytes l -> ((exists k, unmarshal uPKI zeroPKI l = OK (k, [])) <-> exists k, whole 0 true 16 g_spki l k).
Proof.
  intros l HB. pose proof (fun k => proj1 (spki_field zeroPKI l k [] HB)) as F. unfold whole, unmarshal.
  split; intros [k K]; exists k; apply F; exact K.
Qed.
Lemma spki_raw : forall l k, bytes l -> unmarshal uPKI zeroPKI l = OK (k, []) -> pki_raw k <> [].
Proof.
  intros l k HB H. apply (spki_field zeroPKI l k [] HB) in H. destruct H as (body & _ & HP & _).
  destruct HP as (a & l1 & _ & key & l2 & _ & HY). unfold yields in HY. subst k. cbn [pki_raw]. discriminate.
Qed.
Lemma tbs_written : forall serial iss subj nb na k exts, pki_raw k <> [] ->
  (written (fieldTBS (mkTBS [] 2 (Some serial) (mkAlg oidSignatureSM3WithSM2 zeroRaw) (mkRaw 0 0 false [] iss) (UTC nb) (UTC na)
                        (mkRaw 0 0 false [] subj) k zeroBits zeroBits (Some exts))) <->
   in_range nb /\ in_range na /\ Forall good_oid (map e_id exts)).
Proof.
  intros serial iss subj nb na k exts HK. unfold fieldTBS.
  cbn [tb_raw tb_version tb_serial tb_alg tb_issuer tb_notBefore tb_notAfter tb_subject tb_key tb_uid tb_suid tb_exts].
  rewrite rawStruct_nil, struct_iff. rewrite !Forall_cons_iff.
  assert (S : written (fieldBigInt serial)) by (apply makeField_iff, written_OK).
  assert (V : written (marshalStruct [fieldTime (UTC nb); fieldTime (UTC na)]) <-> in_range nb /\ in_range na).
  { rewrite struct_iff, !Forall_cons_iff, !UTC_time_iff. intuition. }
  assert (P : written (fieldPKI k)).
  { unfold fieldPKI, marshalRawStruct. apply makeField_iff. destruct (pki_raw k); [destruct HK; reflexivity|apply written_OK]. }
  assert (X : written (makeField false TagSequence true (makeFields (map fieldExtension exts)) (explicitTag 3)) <-> Forall good_oid (map e_id exts)).
  { rewrite field_iff by reflexivity. rewrite makeFields_iff, !Forall_map.
    assert (FE : forall e, written (fieldExtension e) <-> good_oid (e_id e)).
    { intros e. unfold fieldExtension. rewrite struct_iff, !Forall_cons_iff, oid_iff. split; [intros H; apply H|]. intros H. split; [exact H|].
      split; [destruct (e_critical e); apply written_OK|]. split; [apply makeField_iff, written_OK|constructor]. }
    rewrite !Forall_forall. split; intros H x Hx; apply FE, H, Hx. }
  rewrite V, X.
  assert (U : written (makeField (isZeroBits zeroBits) TagBitString false (OK (makeBitString zeroBits)) (optTag 1)) /\
              written (makeField (isZeroBits zeroBits) TagBitString false (OK (makeBitString zeroBits)) (optTag 2))) by (split; apply written_OK).
  split; [intros H; decompose [and] H; auto|]. intros (H1 & H2 & H3).
  repeat match goal with |- _ /\ _ => split end; try assumption; try apply written_OK; try apply U; try exact sigalg_written. constructor.
Qed.

Lemma oid_ok_good : forall o, oid_ok o -> good_oid o.
Proof. intros o H. apply oid_iff, oid_written, H. Qed.

(** The contents of a certificate can be made exactly for good templates. *)
Theorem C107_contents : forall t parent csr, name_bytes (c_Subject E t) -> name_bytes (c_Subject E parent) -> bytes (r_RawSPKI E csr) ->
  constraint_size (f_Permitted E (c_fields E t)) + constraint_size (f_Excluded E (c_fields E t)) < 2 ^ 31 ->
  ((exists info, CreateCertificateInfo E t parent csr = Ret (OK info)) <-> good_template t parent csr).
Proof.
  intros t parent csr HB1 HB2 HBK HS. split.
  - intros [info H]. destruct (info_inv _ _ _ _ _ H) as (serial & iss & subj & exts & k & S1 & S2 & S3 & S4 & S5 & S6). cbv zeta in S6. destruct S6 as (raw & S6 & _).
    pose proof (proj1 (tbs_written serial iss subj (c_NotBefore E t) (c_NotAfter E t) k exts (spki_raw _ _ HBK S5)) (ex_intro _ raw S6)) as (T1 & T2 & T3).
    unfold good_template. rewrite S1. split; [discriminate|].
    split; [apply (subject_iff parent HB2); exists iss; exact S2|]. split; [apply (subject_iff t HB1); exists subj; exact S3|].
    split; [eapply extensions_iff; [exact HS|]; exists exts; exact S4|].
    destruct (C67_extensions E t _ _ exts S4) as (gen & -> & _). rewrite map_app, Forall_app in T3. split; [apply T3|].
    split; [apply spki_iff; [exact HBK|]; exists k; exact S5|]. split; assumption.
  - intros (G1 & G2 & G3 & G4 & G5 & G6 & G7 & G8). unfold CreateCertificateInfo.
    destruct (c_SerialNumber E t) as [serial|]; [|destruct G1; reflexivity].
    apply (subject_iff parent HB2) in G2. destruct G2 as [iss G2]. rewrite G2. cbn [gbind].
    apply (subject_iff t HB1) in G3. destruct G3 as [subj G3]. rewrite G3. cbn [gbind]. cbv zeta.
    match goal with |- context [buildExtensions E t ?b ?a] => pose proof (proj2 (extensions_iff t b a HS) G4) as [exts EX]; rewrite EX; cbn [gbind] end.
    apply (spki_iff _ HBK) in G6. destruct G6 as [k G6]. rewrite G6. cbn [gbind]. change (negb (zlen (@nil Z) =? 0)) with false. cbv iota.
    assert (T : Forall good_oid (map e_id exts)).
    { destruct (C67_extensions E t _ _ exts EX) as (gen & -> & _ & _ & G). rewrite map_app, Forall_app. split; [|exact G5].
      apply Forall_forall. intros x Hx. destruct (proj1 (G x) Hx) as [A _]. apply asked_ok in A. apply oid_ok_good. exact A. }
    destruct (proj2 (tbs_written serial iss subj (c_NotBefore E t) (c_NotAfter E t) k exts (spki_raw _ _ HBK G6)) (conj G7 (conj G8 T))) as [raw R].
    rewrite R. cbn [gbind]. eexists. reflexivity.
Qed.

(** It panics exactly if an unknown usage is to be written in a certificate whose serial number and
    subjects are there; in all remaining cases there is an error. *)
Theorem C107_panics : forall t parent csr k, name_bytes (c_Subject E t) -> name_bytes (c_Subject E parent) ->
  (CreateCertificateInfo E t parent csr = Panic k <->
   k = PUser "internal error" /\ c_SerialNumber E t <> None /\
   good_subject (c_RawSubject E parent) (c_Subject E parent) /\ good_subject (c_RawSubject E t) (c_Subject E t) /\
   ~ Forall (fun u => 0 <= u <= 13) (f_ExtKeyUsage E (c_fields E t)) /\ ~ In [2; 5; 29; 37] (map e_id (c_ExtraExtensions E t))).
Proof.
  intros t parent csr k HB1 HB2. rewrite <- (subject_iff parent HB2), <- (subject_iff t HB1). unfold CreateCertificateInfo.
  destruct (c_SerialNumber E t) as [serial|]; [|split; [discriminate|intros (_ & K & _); destruct K; reflexivity]].
  destruct (subjectBytes E parent) as [iss|m]; cbn [gbind]; [|split; [discriminate|intros (_ & _ & [e K] & _); discriminate K]].
  destruct (subjectBytes E t) as [subj|m]; cbn [gbind]; [|split; [discriminate|intros (_ & _ & _ & [e K] & _); discriminate K]]. cbv zeta.
  match goal with |- context [buildExtensions E t ?b ?a] => pose proof (C67_panics E t b a) as CP; destruct (buildExtensions E t b a) as [[exts|m]|k'] eqn:EB end; cbn [gbind].
  - split.
    + intros H. exfalso. destruct (unmarshal uPKI zeroPKI (r_RawSPKI E csr)) as [[kk rest]|m]; cbn [gbind] in H; [|discriminate H].
      destruct (negb (zlen rest =? 0)); [discriminate H|].
      destruct (fieldTBS (mkTBS [] 2 (Some serial) (mkAlg oidSignatureSM3WithSM2 zeroRaw) (mkRaw 0 0 false [] iss)
                       (UTC (c_NotBefore E t)) (UTC (c_NotAfter E t)) (mkRaw 0 0 false [] subj) kk zeroBits zeroBits (Some exts))) as [raw|m]; discriminate H.
    + intros (HK & _ & _ & _ & HN). destruct (CP k) as [_ CP2]. specialize (CP2 (conj HK HN)). discriminate CP2.
  - split; [discriminate|]. intros (HK & _ & _ & _ & HN). destruct (CP k) as [_ CP2]. specialize (CP2 (conj HK HN)). discriminate CP2.
  - split.
    + intros H. pose proof (proj1 (CP k') eq_refl) as [-> HN]. assert (k = PUser "internal error") by congruence. subst k.
      split; [reflexivity|]. split; [discriminate|]. split; [apply written_OK|]. split; [apply written_OK|exact HN].
    + intros (HK & _ & _ & _ & HN). pose proof (proj2 (CP k) (conj HK HN)) as K. assert (k' = k) by congruence. subst k'. reflexivity.
Qed.

(** Issuing a certificate for contents that were made fails only if signing does. *)
Theorem C107_issue : forall t parent csr info ca id tape, CreateCertificateInfo E t parent csr = Ret (OK info) -> 
  match Sign ca id (tb_raw info) tape with
  | Panic k => IssueCertificateBySoftCAKey info ca id tape = Panic k
  | Ret (ERR m, rest) => IssueCertificateBySoftCAKey info ca id tape = Ret (ERR m, rest)
  | Ret (OK _, rest) => exists e, IssueCertificateBySoftCAKey info ca id tape = Ret (OK e, rest)
  end.
Proof.
  intros t parent csr info ca id tape H. unfold IssueCertificateBySoftCAKey.
  destruct (Sign ca id (tb_raw info) tape) as [[[sig|m] rest]|k]; cbn [bind]; [|reflexivity|reflexivity].
  assert (W : written (CreateCertificate info sig)); [|destruct W as [e W]; exists e; rewrite W; reflexivity].
  destruct (info_inv _ _ _ _ _ H) as (serial & iss & subj & exts & k & _ & _ & _ & _ & _ & S6). cbv zeta in S6. destruct S6 as (raw & S6 & ->).
  assert (NE : raw <> []).
  { unfold fieldTBS in S6. cbn [tb_raw] in S6. rewrite rawStruct_nil in S6. unfold marshalStruct in S6. apply makeField_plain in S6; try reflexivity.
    destruct S6 as (bd & _ & ->). intros K. discriminate K. }
  unfold CreateCertificate, fieldCert. cbn [ct_raw ct_tbs ct_alg ct_sig]. rewrite rawStruct_nil, struct_iff, !Forall_cons_iff.
  split; [|split; [exact sigalg_written|split; [apply makeField_iff, written_OK|constructor]]].
  unfold fieldTBS. cbn [tb_raw]. unfold marshalRawStruct. apply makeField_iff. destruct raw; [destruct NE; reflexivity|apply written_OK].
Qed.

(** * Requests *)

Definition good_attribute_set (a : ATVSet) : Prop := good_oid (as_type a) /\ Forall (Forall good_attribute) (as_value a).
Definition set_bytes (a : ATVSet) : Prop := Forall (Forall (fun x => value_bytes (atv_value x))) (as_value a).
(** What is needed for a request: a subject, attributes, and identifiers of the extensions. *)
Definition good_request (t : CertificateRequest E) : Prop :=
  good_subject (r_RawSubject E t) (r_Subject E t) /\ Forall good_attribute_set (r_Attributes E t) /\
  Forall good_oid (map e_id (r_ExtraExtensions E t)).

Lemma set_iff : forall a, set_bytes a -> (written (fieldATVSet a) <-> good_attribute_set a).
Proof.
  intros a HB. unfold fieldATVSet. rewrite struct_iff, !Forall_cons_iff, oid_iff.
  assert (S : written (makeField false TagSequence true (makeFields (map (fun s => fieldSlice false (map fieldATV s)) (as_value a))) setParams) <->
              Forall (Forall good_attribute) (as_value a)).
  { assert (M : forall body, written (makeField false TagSequence true body setParams) <-> written body).
    { intros body. unfold makeField. cbn [setParams fp_optional fp_set fp_tag andb]. change (negb (TagSequence =? TagSequence)) with false. cbv iota.
      destruct body as [c|m]; cbn [rbind]; split; intros H; try apply written_OK; exact H. }
    rewrite M, makeFields_iff, Forall_map. unfold set_bytes in HB.
    induction (as_value a) as [|v vs IH]; [split; constructor|]. inversion HB as [|? ? B1 B2]; subst. rewrite !Forall_cons_iff, (IH B2), slice_iff, Forall_map.
    assert (K : Forall (fun x => written (fieldATV x)) v <-> Forall good_attribute v); [|rewrite K; reflexivity].
    rewrite !Forall_forall in *. split; intros H x Hx; apply atv_iff; auto. }
  rewrite S. unfold good_attribute_set. intuition.
Qed.
(** The attributes as bytes. *)
Definition attribute_bytes (attrs : list ATVSet) (b : list Z) : Prop := fieldSlice false (map fieldATVSet attrs) = OK b.
Lemma newRaw_written : forall attrs, Forall good_attribute_set attrs -> Forall set_bytes attrs -> (forall b, attribute_bytes attrs b -> zlen b < 2 ^ 31) ->
  exists raws, newRawAttributes attrs = OK raws.
Proof.
  intros attrs HG HB HS. unfold newRawAttributes.
  assert (W : written (fieldSlice false (map fieldATVSet attrs))).
  { apply slice_iff, Forall_map. rewrite Forall_forall in *. intros x Hx. apply set_iff; auto. }
  destruct W as [b W]. specialize (HS b W). rewrite W. cbn [rbind].
  destruct (fieldSlice_inv _ _ _ W HS) as (es & HE & -> & S). apply map_OK_inv in HE.
  assert (Hs : forall e, In e es -> small e) by (intros; apply (small_concat es); assumption).
  destruct (raws_of es S) as (rvs & F & M).
  { intros e Hin. assert (X : exists a, fieldATVSet a = OK e).
    { clear - HE Hin. induction HE as [|a e' attrs es Ha HE IH]; [destruct Hin|]. destruct Hin as [<- | Hin]; [exists a; exact Ha|apply IH; exact Hin]. }
    destruct X as [a Ha]. destruct (atvset_inv a e Ha (Hs e Hin)) as (eo & es' & _ & _ & -> & S' & _). eexists. apply elem_raw; [split; lia|exact S']. }
  change (ident 0 (if false then 17 else 16) true) with (ident 0 16 true). rewrite <- (app_nil_r (tlv _ _)).
  rewrite (elem_unmarshal _ (uList uRaw zeroRaw false) rvs) by (apply (elem_list _ uRaw zeroRaw false); assumption).
  cbn [rbind]. change (negb (zlen (@nil Z) =? 0)) with false. cbv iota. eexists. reflexivity.
Qed.
Lemma newRaw_refused : forall attrs, Forall set_bytes attrs -> ~ Forall good_attribute_set attrs -> exists m, newRawAttributes attrs = ERR m.
Proof.
  intros attrs HB HN. unfold newRawAttributes. destruct (fieldSlice false (map fieldATVSet attrs)) as [b|m] eqn:W; [|exists m; reflexivity].
  exfalso. apply HN. assert (K : written (fieldSlice false (map fieldATVSet attrs))) by (exists b; exact W). apply slice_iff in K. rewrite Forall_map in K.
  rewrite Forall_forall in *. intros x Hx. apply set_iff; auto.
Qed.
(** The attributes of the request are good exactly if those of the template and the extra extensions are. *)
Lemma specified_good : forall attrs id, Forall good_attribute_set attrs -> existsb (oidEqual id) (specifiedExtensions attrs) = true -> good_oid id.
Proof.
  intros attrs id HG H. apply existsb_exists in H. destruct H as (x & Hx & Hq). apply oidEqual_eq in Hq. subst x.
  unfold specifiedExtensions in Hx. apply in_concat in Hx. destruct Hx as (l & Hl & Hx). apply in_map_iff in Hl. destruct Hl as (s & <- & Hs).
  destruct (oidEqual (as_type s) oidExtensionRequest); [|destruct Hx]. apply in_map_iff in Hx. destruct Hx as (a & <- & Ha).
  apply in_concat in Ha. destruct Ha as (v & Hv & Ha). rewrite Forall_forall in HG. destruct (HG s Hs) as [_ G].
  rewrite Forall_forall in G. specialize (G v Hv). rewrite Forall_forall in G. apply (G a Ha).
Qed.
Lemma atvs_good : forall attrs exts, Forall good_attribute_set attrs ->
  (Forall good_attribute (extensionATVs attrs exts) <-> Forall good_oid (map e_id exts)).
Proof.
  intros attrs exts HG. unfold extensionATVs. rewrite !Forall_map. rewrite !Forall_forall. unfold good_attribute. cbn [atv_type atv_value good_value]. split.
  - intros H e He. destruct (existsb (oidEqual (e_id e)) (specifiedExtensions attrs)) eqn:X; [exact (specified_good attrs _ HG X)|].
    apply (H e). apply filter_In. rewrite X. split; [exact He|reflexivity].
  - intros H e He. apply filter_In in He. split; [apply H, He|exact I].
Qed.
Lemma appended_good : forall atvs attrs attrs', appendToAttribute atvs attrs = Some attrs' ->
  (Forall good_attribute_set attrs' <-> Forall good_attribute_set attrs /\ Forall good_attribute atvs).
Proof.
  intros atvs. induction attrs as [|a attrs IH]; intros attrs' H; [discriminate H|]. cbn [appendToAttribute] in H.
  assert (REC : forall r, match appendToAttribute atvs attrs with Some r' => Some (a :: r') | None => None end = Some r ->
     (Forall good_attribute_set r <-> Forall good_attribute_set (a :: attrs) /\ Forall good_attribute atvs)).
  { intros r Hr. destruct (appendToAttribute atvs attrs) as [r'|]; [|discriminate Hr]. injection Hr as <-. rewrite !Forall_cons_iff, (IH r' eq_refl). intuition. }
  destruct (as_value a) as [|v0 vs] eqn:EV; [apply REC; exact H|]. destruct (oidEqual (as_type a) oidExtensionRequest) eqn:EO; [|apply REC; exact H].
  injection H as <-. rewrite !Forall_cons_iff. unfold good_attribute_set at 1 3. cbn [as_type as_value]. rewrite EV, !Forall_cons_iff, Forall_app. intuition.
Qed.
Lemma attributes_good : forall t exts,
  Forall good_attribute_set (fst (requestAttributes E t exts)) <-> Forall good_attribute_set (r_Attributes E t) /\ Forall good_oid (map e_id exts).
Proof.
  intros t exts. unfold requestAttributes. destruct (0 <? zlen exts) eqn:Z0.
  - set (atvs := extensionATVs (r_Attributes E t) exts).
    assert (K : forall attrs, (Forall good_attribute_set attrs <-> Forall good_attribute_set (r_Attributes E t) /\ Forall good_attribute atvs) ->
       (Forall good_attribute_set attrs <-> Forall good_attribute_set (r_Attributes E t) /\ Forall good_oid (map e_id exts))).
    { intros attrs ->. pose proof (atvs_good (r_Attributes E t) exts) as A. fold atvs in A. intuition. }
    apply K. destruct (appendToAttribute atvs (r_Attributes E t)) as [attrs'|] eqn:EA; cbn [fst]; [exact (appended_good _ _ _ EA)|].
    rewrite Forall_app, Forall_cons_iff. unfold good_attribute_set at 2. cbn [as_type as_value]. rewrite Forall_cons_iff.
    pose proof (oid_ok_good _ request_oid_ok). intuition.
  - cbn [fst]. destruct exts as [|e exts]; [|rewrite (proj2 (nonempty_iff _ (e :: exts))) in Z0 by discriminate; discriminate Z0].
    cbn [map]. intuition.
Qed.
Lemma appended_bytes : forall atvs attrs attrs', appendToAttribute atvs attrs = Some attrs' -> Forall (fun x => value_bytes (atv_value x)) atvs ->
  Forall set_bytes attrs -> Forall set_bytes attrs'.
Proof.
  intros atvs. induction attrs as [|a attrs IH]; intros attrs' H HV HB; [discriminate H|]. cbn [appendToAttribute] in H. inversion HB as [|? ? B1 B2]; subst.
  assert (REC : forall r, match appendToAttribute atvs attrs with Some r' => Some (a :: r') | None => None end = Some r -> Forall set_bytes r).
  { intros r Hr. destruct (appendToAttribute atvs attrs) as [r'|]; [|discriminate Hr]. injection Hr as <-. constructor; [exact B1|apply IH; auto]. }
  destruct (as_value a) as [|v0 vs] eqn:EV; [apply REC; exact H|]. destruct (oidEqual (as_type a) oidExtensionRequest) eqn:EO; [|apply REC; exact H].
  injection H as <-. constructor; [|exact B2]. unfold set_bytes in *. cbn [as_value]. rewrite EV in B1. inversion B1; subst. constructor; [apply Forall_app; split; assumption|assumption].
Qed.
Lemma attributes_bytes : forall t exts, Forall set_bytes (r_Attributes E t) -> Forall set_bytes (fst (requestAttributes E t exts)).
Proof.
  intros t exts HB. unfold requestAttributes. destruct (0 <? zlen exts); [|exact HB].
  assert (V : Forall (fun x => value_bytes (atv_value x)) (extensionATVs (r_Attributes E t) exts)).
  { unfold extensionATVs. apply Forall_map, Forall_forall. intros x _. exact I. }
  destruct (appendToAttribute _ (r_Attributes E t)) as [attrs'|] eqn:EA; cbn [fst]; [exact (appended_bytes _ _ _ EA V HB)|].
  apply Forall_app. split; [exact HB|]. constructor; [constructor; [exact V|constructor]|constructor].
Qed.
Lemma requested_made : forall t, exists exts, requestedExtensions E t = OK exts /\
  (Forall good_oid (map e_id exts) <-> Forall good_oid (map e_id (r_ExtraExtensions E t))).
Proof.
  intros t. unfold requestedExtensions. destruct (_ && _).
  - assert (W : written (marshalSANs E (r_SAN E t))) by (apply slice_iff; rewrite !Forall_app, !Forall_map; repeat split; apply Forall_forall; intros; apply written_OK).
    destruct W as [b ->]. cbn [rbind app]. eexists. split; [reflexivity|]. cbn [map e_id]. rewrite Forall_cons_iff.
    pose proof (oid_ok_good _ san_oid_ok). intuition.
  - cbn [rbind app]. eexists. split; reflexivity.
Qed.

(** A request is refused exactly if its template is not good, before anything is drawn from the random
    source; otherwise it fails only if signing does. The attributes have to stay below 2^31 bytes. *)
Theorem C107_request : forall t pub pri id tape, key_ok pub -> name_bytes (r_Subject E t) -> Forall set_bytes (r_Attributes E t) ->
  (forall exts b, attribute_bytes (fst (requestAttributes E t exts)) b -> requestedExtensions E t = OK exts -> zlen b < 2 ^ 31) ->
  (~ good_request t -> exists m after, CreateCertificateRequest E t pub pri id tape = Ret (ERR m, tape, after)) /\
  (good_request t -> exists tbs, match Sign pri id tbs tape with
    | Panic k => CreateCertificateRequest E t pub pri id tape = Panic k
    | Ret (ERR m, rest) => exists after, CreateCertificateRequest E t pub pri id tape = Ret (ERR m, rest, after)
    | Ret (OK _, rest) => exists e after, CreateCertificateRequest E t pub pri id tape = Ret (OK e, rest, after)
    end).
Proof.
  intros t pub pri id tape HK HB HA HS. unfold CreateCertificateRequest, marshalPublicKey. rewrite (key_written pub HK). cbn [bind]. rewrite curve_oid_written.
  destruct (requested_made t) as (exts & EX & GX). rewrite EX. specialize (fun b K => HS exts b K EX).
  pose proof (attributes_good t exts) as AG. pose proof (attributes_bytes t exts HA) as AB.
  destruct (requestAttributes E t exts) as [attrs after] eqn:EA. cbn [fst] in *.
  set (subj := match r_RawSubject E t with [] => marshalRDNSequence (ToRDNSequence (r_Subject E t)) | _ :: _ => OK (r_RawSubject E t) end).
  assert (SW : written subj <-> good_subject (r_RawSubject E t) (r_Subject E t)).
  { unfold subj, good_subject. destruct (r_RawSubject E t) as [|x l].
    - rewrite (name_iff _ HB). split; [intros H; right; exact H|intros [H|H]; [destruct H; reflexivity|exact H]].
    - split; [intros _; left; discriminate|intros _; apply written_OK]. }
  match goal with |- context [rbind ?X _] => replace X with subj by (unfold subj; destruct (r_RawSubject E t); reflexivity) end. clearbody subj.
  split.
  - intros HN. destruct subj as [s|m]; cbn [rbind]; [|eexists; eexists; reflexivity].
    assert (N : ~ Forall good_attribute_set attrs).
    { intros K. apply HN. apply AG in K. destruct K as [K1 K2]. split; [apply SW, written_OK|]. split; [exact K1|apply GX, K2]. }
    destruct (newRaw_refused attrs AB N) as [m ->]. cbn [rbind]. eexists. eexists. reflexivity.
  - intros (G1 & G2 & G3). apply SW in G1. destruct G1 as [s ->]. cbn [rbind].
    destruct (newRaw_written attrs) as [raws ->]; [apply AG; split; [exact G2|apply GX, G3]|exact AB|exact HS|]. cbn [rbind].
    match goal with |- context [fieldTbsCSR ?T] => set (tbs := T); assert (W : written (fieldTbsCSR tbs)) end.
    { unfold tbs, fieldTbsCSR. cbn [tr_raw tr_version tr_subject tr_key tr_attrs]. rewrite rawStruct_nil, struct_iff, !Forall_cons_iff.
      split; [apply makeField_iff, written_OK|]. split; [apply written_OK|]. split.
      - unfold fieldPKI. cbn [pki_raw pki_alg pki_key]. rewrite rawStruct_nil, struct_iff, !Forall_cons_iff.
        split; [|split; [apply makeField_iff, written_OK|constructor]]. apply struct_iff. constructor; [|constructor; [apply written_OK|constructor]].
        apply oid_iff. exists 1, 2, (skipn 2 oidPublicKeyECDSA). split; [reflexivity|lia].
      - split; [|constructor]. apply field_iff; [reflexivity|reflexivity|]. apply makeFields_iff, Forall_map, Forall_forall. intros; apply written_OK. }
    destruct W as [raw W]. rewrite W. cbn [rbind]. exists raw.
    destruct (Sign pri id raw tape) as [[[sig|m] rest]|k]; cbn [bind]; [|eexists; reflexivity|reflexivity].
    assert (NE : raw <> []).
    { unfold tbs, fieldTbsCSR in W. cbn [tr_raw] in W. rewrite rawStruct_nil in W. unfold marshalStruct in W. apply makeField_plain in W; try reflexivity.
      destruct W as (bd & _ & ->). intros K. discriminate K. }
    match goal with |- context [fieldCsr ?C] => assert (F : written (fieldCsr C)) end.
    { unfold fieldCsr. cbn [cr_raw cr_tbs cr_alg cr_sig]. rewrite rawStruct_nil, struct_iff, !Forall_cons_iff.
      split; [|split; [exact sigalg_written|split; [apply makeField_iff, written_OK|constructor]]].
      unfold fieldTbsCSR. cbn [tr_raw]. unfold marshalRawStruct. apply makeField_iff. destruct raw; [destruct NE; reflexivity|apply written_OK]. }
    destruct F as [e F]. exists e, after. rewrite F. reflexivity.
Qed.
End Env.

(** * Examples *)

Lemma name_is_bytes : forall n, forallb (forallb (fun b => (0 <=? b) && (b <=? 255)))
  (n_Country n ++ n_Organization n ++ n_OrganizationalUnit n ++ n_Locality n ++ n_Province n ++ n_StreetAddress n ++
   n_PostalCode n ++ [n_SerialNumber n; n_CommonName n]) = true -> Forall (fun a => value_bytes (atv_value a)) (n_ExtraNames n) -> name_bytes n.
Proof.
  intros n H HX. split; [|exact HX]. apply Forall_forall. intros x Hx. rewrite forallb_forall in H. apply bytes_forallb, H, Hx.
Qed.
(** The certificate of C80 meets the conditions. *)
Example C107_ex_hyps : name_bytes (c_Subject noNet ex_filled) /\ name_bytes (c_Subject noNet ex_parent) /\ bytes (r_RawSPKI noNet ex_csr) /\
  constraint_size (f_Permitted noNet (c_fields noNet ex_filled)) + constraint_size (f_Excluded noNet (c_fields noNet ex_filled)) < 2 ^ 31.
Proof.
  split; [apply name_is_bytes; [vm_compute; reflexivity|vm_compute; repeat constructor; discriminate]|].
  split; [apply name_is_bytes; [vm_compute; reflexivity|vm_compute; repeat constructor; discriminate]|].
  split; [apply bytes_forallb; vm_compute; reflexivity|vm_compute; reflexivity].
Qed.
Example C107_ex_good : good_template noNet ex_filled ex_parent ex_csr.
Proof.
  destruct C107_ex_hyps as (H1 & H2 & H3 & H4). apply (C107_contents noNet ex_filled ex_parent ex_csr H1 H2 H3 H4). exists ex_info. exact (proj1 C73_ex_info).
Qed.
(** The same with policy 1.40 and usage 99 in the fields and the given extra extensions. *)
Definition ex_when (usages : list Z) (policies : list (list Z)) (extra : list Extension) : Certificate noNet :=
  mkX509 noNet [] [] [] [] [] [] 0 0 KeyNil 0 (Some 77) zeroName C79_a (mkTime 1577836800 5 0) (mkTime 4102444800 0 0) [] extra
    [] (set_PolicyIdentifiers noNet policies (set_ExtKeyUsage noNet usages [] (zeroFields noNet))).
Example C107_ex_cases :
  (exists info, CreateCertificateInfo noNet (ex_when [13] [[1; 39]] []) ex_parent ex_csr = Ret (OK info)) /\
  CreateCertificateInfo noNet (ex_when [13] [[1; 40]] []) ex_parent ex_csr = Ret (ERR "invalid object identifier") /\
  CreateCertificateInfo noNet (ex_when [14] [] []) ex_parent ex_csr = Panic (PUser "internal error") /\
  (exists info, CreateCertificateInfo noNet (ex_when [14] [[1; 40]] [mkExt [2; 5; 29; 37] false []; mkExt [2; 5; 29; 32] false []]) ex_parent ex_csr = Ret (OK info)) /\
  CreateCertificateInfo noNet (ex_when [] [] [mkExt [3; 1] false []]) ex_parent ex_csr = Ret (ERR "invalid object identifier").
Proof.
  split; [eexists; vm_compute; reflexivity|]. split; [vm_compute; reflexivity|]. split; [vm_compute; reflexivity|].
  split; [eexists; vm_compute; reflexivity|]. vm_compute. reflexivity.
Qed.
(** The request of C81 meets the conditions; one for a name in Latin-1 is refused. *)
Definition ex_latin : CertificateRequest noNet :=
  mkReq noNet [] [] [] [] [] 0 0 KeyNil 0 (mkName [] [] [] [] [] [] [] [] [0xe4] [] []) [] [] [] (zeroAlt noNet).
Example C107_ex_request : key_ok ex_pub /\ name_bytes (r_Subject noNet (ex_req_template [])) /\
  (forall exts b, attribute_bytes (fst (requestAttributes noNet (ex_req_template []) exts)) b -> requestedExtensions noNet (ex_req_template []) = OK exts -> zlen b < 2 ^ 31) /\
  good_request noNet (ex_req_template []) /\ ~ good_request noNet ex_latin /\
  CreateCertificateRequest noNet ex_latin ex_pub ex_priv None ex_tape = Ret (ERR "asn1: string not valid UTF-8", ex_tape, []).
Proof.
  assert (K : key_ok ex_pub) by exact (proj1 C81_ex_hyps).
  assert (B : name_bytes (r_Subject noNet (ex_req_template []))) by (apply name_is_bytes; [vm_compute; reflexivity|vm_compute; repeat constructor; discriminate]).
  assert (S : forall exts b, attribute_bytes (fst (requestAttributes noNet (ex_req_template []) exts)) b -> requestedExtensions noNet (ex_req_template []) = OK exts -> zlen b < 2 ^ 31).
  { intros exts b H H1. vm_compute in H1. apply ok_inj in H1. subst exts. vm_compute in H. apply ok_inj in H. subst b. vm_compute. reflexivity. }
  assert (BL : name_bytes (r_Subject noNet ex_latin)) by (apply name_is_bytes; [vm_compute; reflexivity|constructor]).
  assert (NL : ~ good_request noNet ex_latin).
  { intros ([H|H] & _); [apply H; reflexivity|]. apply (name_iff _ BL) in H. destruct H as [e H]. vm_compute in H. discriminate H. }
  split; [exact K|]. split; [exact B|]. split; [exact S|]. split.
  - split; [right; apply (name_iff _ B); eexists; vm_compute; reflexivity|]. split; [constructor|]. constructor; [|constructor].
    exists 1, 2, [3]. split; [reflexivity|lia].
  - split; [exact NL|vm_compute; reflexivity].
Qed.

(** * Which extensions of a certificate are critical *)
Lemma marshalled_empty : forall l, marshalRDNSequence l = OK [48; 0] -> l = [].
Proof.
  intros l H. unfold marshalRDNSequence, fieldSlice in H. apply makeField_plain in H; try reflexivity. destruct H as (b & HF & HE).
  apply makeFields_inv in HF. destruct HF as (es & EQ & ->).
  destruct (tagged_small 0 TagSequence true (List.concat es)) as [T L]; [split; unfold TagSequence; lia|rewrite <- HE; vm_compute; reflexivity|].
  rewrite T in HE. change [48; 0] with (tlv 48 []) in HE. apply (f_equal (fun x => x ++ [])) in HE.
  apply tlv_inj in HE; [|cbn; lia|lia]. destruct HE as (_ & HC & _). destruct l as [|r l]; [reflexivity|]. destruct es as [|e es]; [discriminate EQ|].
  cbn [map] in EQ. injection EQ as H1 _. unfold fieldRDN, fieldSlice in H1. apply makeField_plain in H1; try reflexivity. destruct H1 as (b' & _ & ->).
  discriminate HC.
Qed.
(** Key usage and basic constraints always, the alternative names if and only if the subject is empty, name constraints if the
    template says so, and no other of the extensions that the function makes. *)
Theorem C67_info : forall E t parent csr info, CreateCertificateInfo E t parent csr = Ret (OK info) ->
  exists generated, tb_exts info = Some (generated ++ c_ExtraExtensions E t) /\
  (forall e, In e generated -> (e_critical e = true <-> e_id e = [2; 5; 29; 15] \/ e_id e = [2; 5; 29; 19] \/
                           (e_id e = [2; 5; 29; 17] /\ rv_full (tb_subject info) = [48; 0]) \/
                           (e_id e = [2; 5; 29; 30] /\ f_ConstraintsCritical E (c_fields E t) = true))) /\
  (rv_full (tb_subject info) = [48; 0] <-> c_RawSubject E t = [48; 0] \/ (c_RawSubject E t = [] /\ ToRDNSequence (c_Subject E t) = [])).
Proof.
  intros E t parent csr info H. destruct (info_inv _ _ _ _ _ H) as (serial & iss & subj & exts & k & _ & _ & HS & HX & _ & S6).
  cbv zeta in S6. destruct S6 as (raw & _ & ->). cbn [tb_exts tb_subject rv_full].
  destruct (C67_critical E _ _ _ _ HX) as (gen & -> & C). exists gen. split; [reflexivity|]. split.
  - intros e He. rewrite (C e He). rewrite oidEqual_eq. unfold emptyASN1Subject. reflexivity.
  - unfold subjectBytes in HS. destruct (c_RawSubject E t) as [|x r].
    + split; [intros ->; right; split; [reflexivity|apply marshalled_empty, HS]|]. intros [Q|[_ Q]]; [discriminate Q|]. rewrite Q in HS. vm_compute in HS. congruence.
    + apply ok_inj in HS. subst subj. split; [left; assumption|]. intros [Q|[Q _]]; [exact Q|discriminate Q].
Qed.
(** The template of C80 has a subject; with an empty one its alternative names are critical. *)
Definition ex_unnamed : Certificate noNet := mkX509 noNet [] [] [] [] [] [] 0 0 KeyNil 0 (Some 77) zeroName zeroName (mkTime 1577836800 5 0) (mkTime 4102444800 0 0) [] []
    [] (c_fields noNet ex_filled).
Definition criticals (t : Certificate noNet) : list bool :=
  match CreateCertificateInfo noNet t ex_parent ex_csr with Ret (OK i) => match tb_exts i with Some l => map e_critical l | None => [] end | _ => [] end.
Example C67_ex_info : criticals ex_filled = [true; false; false] /\ criticals ex_unnamed = [true; false; true].
Proof. split; vm_compute; reflexivity. Qed.
