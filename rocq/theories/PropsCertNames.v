(** Properties of the names in certificates, sm2/cert/gmx509.go: name constraints and subject
    alternative names. C63-C65, C72 for the parser of name constraints; C69, C70. *)
From Coq Require Import ZArith List Lia Bool String.
From Verif Require Import GoBase BeMin CbString CbStringProofs CbBuilder CbBuilderProofs PropsCbBuilder CbAsn1Proofs GoAsn1 GoAsn1Proofs.
From Verif Require Import Sm2Der PropsSm2Der GoText GoPkix CertText PropsCertText Cert CertRt.
From Verif Require Sm3Proofs.
Import ListNotations.
Open Scope Z_scope.

Definition ascii7 (s : list Z) : Prop := Forall (fun b => b < 0x80) s.
Lemma ia5_iff : forall s, (isIA5String s = true /\ ascii7 s) \/ (isIA5String s = false /\ ~ ascii7 s).
Proof.
  intros s. pose proof (isIA5String_spec s) as H. destruct (isIA5String s).
  - left. split; [reflexivity|]. apply H. reflexivity.
  - right. split; [reflexivity|]. intros K. apply H in K. discriminate K.
Qed.
Lemma domain_cases : forall d, (exists rl, domainToReverseLabels d = Ret (Some rl) /\ valid_domain d) \/
  (domainToReverseLabels d = Ret None /\ ~ valid_domain d).
Proof.
  intros d. destruct (domain_accepted d) as (o & -> & H). destruct o as [rl|].
  - left. exists rl. split; [reflexivity|]. apply H. discriminate.
  - right. split; [reflexivity|]. intros K. apply H in K. congruence.
Qed.
Definition valid_mailbox (s : list Z) : Prop := exists local domain, mailbox s local domain.
Lemma mailbox_cases : forall s, (exists p, parseRFC2821Mailbox s = Ret (Some p) /\ valid_mailbox s) \/
  (parseRFC2821Mailbox s = Ret None /\ ~ valid_mailbox s).
Proof.
  intros s. destruct (parseRFC2821Mailbox_spec s) as (o & -> & H). destruct o as [[l d]|].
  - left. exists (l, d). split; [reflexivity|]. exists l, d. apply H. reflexivity.
  - right. split; [reflexivity|]. intros (l & d & K). apply H in K. discriminate K.
Qed.

(** A name with one leading dot taken off, if there is one. *)
Lemma trimDot_eq : forall d, (exists r, d = 46 :: r /\ trimDot d = r) \/ ((forall r, d <> 46 :: r) /\ trimDot d = d).
Proof.
  intros [|c r]; [right; split; [discriminate|reflexivity]|]. cbn [trimDot]. destruct (Z.eqb_spec c 46) as [->|N].
  - left. exists r. split; reflexivity.
  - right. split; [intros r' K; injection K; intros; contradiction|reflexivity].
Qed.

(** What is accepted in a name constraint. *)
Definition dns_ok (v : list Z) : Prop := ascii7 v /\ valid_domain (trimDot v).
Definition email_ok (v : list Z) : Prop :=
  ascii7 v /\ ((In 64 v /\ valid_mailbox v) \/ (~ In 64 v /\ valid_domain (trimDot v))).
Definition ip_ok (v ip mask : list Z) : Prop :=
  v = ip ++ mask /\ zlen ip = zlen mask /\ (zlen mask = 4 \/ zlen mask = 16) /\ prefix_mask mask.

Section Env.
Variable E : netEnv.
Definition uri_ok (v : list Z) : Prop := ascii7 v /\ isIP E v = false /\ valid_domain (trimDot v).

(** C64, C65: a DNS name is accepted exactly if it is 7-bit and, a leading dot taken off, a domain. *)
Theorem C64_dns_constraint : forall v dns ips emails uris u,
  (dns_ok v -> parseSubtree E 0x82 v (mkNC dns ips emails uris) u = Ret (OK (mkNC (dns ++ [v]) ips emails uris, u))) /\
  (~ dns_ok v -> exists msg, parseSubtree E 0x82 v (mkNC dns ips emails uris) u = Ret (ERR msg)).
Proof.
  intros v dns ips emails uris u. unfold parseSubtree. change (0x82 =? contextSpecific 2) with true. cbv iota.
  destruct (ia5_iff v) as [[-> A]|[-> A]]; cbn [negb].
  - destruct (domain_cases (trimDot v)) as [(rl & -> & D)|[-> D]]; cbn [bind].
    + split; [reflexivity|]. intros K. destruct K. split; assumption.
    + split; [intros [_ K]; contradiction|]. intros _. eexists. reflexivity.
  - split; [intros [K _]; contradiction|]. intros _. eexists. reflexivity.
Qed.
(** C65: a name with an 8-bit byte is refused in every kind of constraint. *)
Theorem C65_refused : forall tag v c u, In tag [0x81; 0x82; 0x86] -> ~ ascii7 v ->
  exists msg, parseSubtree E tag v c u = Ret (ERR msg).
Proof.
  intros tag v [dns ips emails uris] u Ht A. destruct (ia5_iff v) as [[_ A']|[I _]]; [contradiction|].
  unfold parseSubtree. rewrite I. cbn in Ht. destruct Ht as [<-|[<-|[<-|[]]]]; eexists; reflexivity.
Qed.
(** C72: mailboxes. *)
Theorem C72_email_constraint : forall v dns ips emails uris u,
  (email_ok v -> parseSubtree E 0x81 v (mkNC dns ips emails uris) u = Ret (OK (mkNC dns ips (emails ++ [v]) uris, u))) /\
  (~ email_ok v -> exists msg, parseSubtree E 0x81 v (mkNC dns ips emails uris) u = Ret (ERR msg)).
Proof.
  intros v dns ips emails uris u. unfold parseSubtree.
  change (0x81 =? contextSpecific 2) with false. change (0x81 =? contextSpecific 7) with false.
  change (0x81 =? contextSpecific 1) with true. cbv iota.
  destruct (ia5_iff v) as [[-> A]|[-> A]]; cbn [negb].
  - destruct (existsb (fun c => c =? 64) v) eqn:X.
    + assert (I : In 64 v) by (apply existsb_exists in X; destruct X as (x & Hx & Hq); apply Z.eqb_eq in Hq; subst; exact Hx).
      destruct (mailbox_cases v) as [(p & -> & M)|[-> M]]; cbn [bind negb].
      * split; [reflexivity|]. intros K. destruct K. split; [exact A|left; split; assumption].
      * split; [intros [_ [[_ K]|[K _]]]; contradiction|]. intros _. eexists. reflexivity.
    + assert (I : ~ In 64 v)
        by (intros I; assert (existsb (fun c => c =? 64) v = true) by (apply existsb_exists; exists 64; split; [exact I|reflexivity]); congruence).
      destruct (domain_cases (trimDot v)) as [(rl & -> & D)|[-> D]]; cbn [bind negb].
      * split; [reflexivity|]. intros K. destruct K. split; [exact A|right; split; assumption].
      * split; [intros [_ [[K _]|[_ K]]]; contradiction|]. intros _. eexists. reflexivity.
  - split; [intros [K _]; contradiction|]. intros _. eexists. reflexivity.
Qed.
(** C64 for the domain of a URI constraint. *)
Theorem C64_uri_constraint : forall v dns ips emails uris u,
  (uri_ok v -> parseSubtree E 0x86 v (mkNC dns ips emails uris) u = Ret (OK (mkNC dns ips emails (uris ++ [v]), u))) /\
  (~ uri_ok v -> exists msg, parseSubtree E 0x86 v (mkNC dns ips emails uris) u = Ret (ERR msg)).
Proof.
  intros v dns ips emails uris u. unfold parseSubtree.
  change (0x86 =? contextSpecific 2) with false. change (0x86 =? contextSpecific 7) with false.
  change (0x86 =? contextSpecific 1) with false. change (0x86 =? contextSpecific 6) with true. cbv iota.
  destruct (ia5_iff v) as [[-> A]|[-> A]]; cbn [negb].
  - destruct (isIP E v) eqn:I.
    + split; [intros (_ & K & _); congruence|]. intros _. eexists. reflexivity.
    + destruct (domain_cases (trimDot v)) as [(rl & -> & D)|[-> D]]; cbn [bind].
      * split; [reflexivity|]. intros K. destruct K. split; [assumption|]. split; assumption.
      * split; [intros (_ & _ & K); contradiction|]. intros _. eexists. reflexivity.
  - split; [intros [K _]; contradiction|]. intros _. eexists. reflexivity.
Qed.
(** C63: an IP range is an address and a mask of the same length 4 or 16, the mask ones and then zeros. *)
Theorem C63_ip_constraint : forall v dns ips emails uris u, bytes v ->
  (forall ip mask, ip_ok v ip mask ->
     parseSubtree E 0x87 v (mkNC dns ips emails uris) u = Ret (OK (mkNC dns (ips ++ [mkIPNet ip mask]) emails uris, u))) /\
  ((forall ip mask, ~ ip_ok v ip mask) -> exists msg, parseSubtree E 0x87 v (mkNC dns ips emails uris) u = Ret (ERR msg)).
Proof.
  intros v dns ips emails uris u HB. unfold parseSubtree.
  change (0x87 =? contextSpecific 2) with false. change (0x87 =? contextSpecific 7) with true. cbv iota.
  split.
  - intros ip mask (-> & HL & H4 & HP). rewrite zlen_app, HL. apply bytes_app in HB. destruct HB as [_ HB].
    assert (M : isValidIPMask mask = true) by (apply isValidIPMask_spec; assumption).
    assert (Z0 : zlen (ip ++ mask) = zlen mask + zlen mask) by (rewrite zlen_app; lia).
    destruct H4 as [H4|H4]; rewrite H4; cbn [Z.add Z.eqb Pos.eqb Pos.add Pos.succ];
      (rewrite go_slice_ret; [|lia|rewrite Z0; lia]); cbn [bind];
      (rewrite go_slice_ret; [|lia|rewrite Z0; lia]); cbn [bind];
      rewrite sub_app_l by lia; rewrite sub_app_r by lia; rewrite M; reflexivity.
  - intros H. destruct (Z.eqb_spec (zlen v) 8) as [L|L]; [|destruct (Z.eqb_spec (zlen v) 32) as [L2|L2]].
    + rewrite !go_slice_ret by lia. cbn [bind]. destruct (isValidIPMask (sub v 4 (zlen v))) eqn:M; [|eexists; reflexivity].
      exfalso. apply (H (sub v 0 4) (sub v 4 (zlen v))). unfold ip_ok.
      assert (S : v = sub v 0 4 ++ sub v 4 (zlen v)) by (rewrite <- (Sm3Proofs.sub_split v 0 4 (zlen v)) by lia; symmetry; apply sub_all).
      split; [exact S|]. pose proof (sub_length _ v 0 4 ltac:(lia) ltac:(lia)). pose proof (sub_length _ v 4 (zlen v) ltac:(lia) ltac:(lia)).
      split; [lia|]. split; [left; lia|]. apply isValidIPMask_spec; [apply sub_bytes; exact HB|exact M].
    + rewrite !go_slice_ret by lia. cbn [bind]. destruct (isValidIPMask (sub v 16 (zlen v))) eqn:M; [|eexists; reflexivity].
      exfalso. apply (H (sub v 0 16) (sub v 16 (zlen v))). unfold ip_ok.
      assert (S : v = sub v 0 16 ++ sub v 16 (zlen v)) by (rewrite <- (Sm3Proofs.sub_split v 0 16 (zlen v)) by lia; symmetry; apply sub_all).
      split; [exact S|]. pose proof (sub_length _ v 0 16 ltac:(lia) ltac:(lia)). pose proof (sub_length _ v 16 (zlen v) ltac:(lia) ltac:(lia)).
      split; [lia|]. split; [right; lia|]. apply isValidIPMask_spec; [apply sub_bytes; exact HB|exact M].
    + eexists. reflexivity.
Qed.
(** Any other tag is skipped and remembered. *)
Theorem C69_other_tags : forall tag v c u, ~ In tag [0x81; 0x82; 0x86; 0x87] -> parseSubtree E tag v c u = Ret (OK (c, true)).
Proof.
  intros tag v [dns ips emails uris] u H. unfold parseSubtree. cbn in H.
  change (contextSpecific 2) with 0x82. change (contextSpecific 7) with 0x87. change (contextSpecific 1) with 0x81. change (contextSpecific 6) with 0x86.
  destruct (Z.eqb_spec tag 0x82); [lia|]. destruct (Z.eqb_spec tag 0x87); [lia|]. destruct (Z.eqb_spec tag 0x81); [lia|].
  destruct (Z.eqb_spec tag 0x86); [lia|]. reflexivity.
Qed.
End Env.

(** * C69: name constraints *)

Lemma runBuilder_items : forall is, wf_items is ->
  runBuilder (map call is) = Ret (match sers is with Some e => OK e | None => match runBuilder (map call is) with Ret x => x | Panic _ => ERR "" end end) /\
  match sers is with Some e => True | None => exists msg, runBuilder (map call is) = Ret (ERR msg) end.
Proof.
  intros is W. unfold runBuilder. destruct (sers is) as [e|] eqn:HS.
  - destruct (C26_growing_builder [] is e W HS) as (st & -> & B). rewrite B. split; [reflexivity|exact I].
  - destruct (C27_no_bytes [] is W HS) as (st & m & -> & B). rewrite B. split; [reflexivity|]. exists m. reflexivity.
Qed.
Lemma runBuilder_some : forall is e, wf_items is -> runBuilder (map call is) = Ret (OK e) -> sers is = Some e.
Proof.
  intros is e W H. unfold runBuilder in H. destruct (sers is) as [e'|] eqn:HS.
  - destruct (C26_growing_builder [] is e' W HS) as (st & Ex & B). rewrite Ex, B in H. injection H as <-. reflexivity.
  - destruct (C27_no_bytes [] is W HS) as (st & m & Ex & B). rewrite Ex, B in H. discriminate H.
Qed.

(** The subtrees of a set of constraints, in the order they are written: tag number and contents. *)
Definition nc_values (c : Constraints) : list (Z * list Z) :=
  map (fun n => (2, n)) (nc_dns c) ++ map (fun i => (7, ipAndMask i)) (nc_ips c) ++
  map (fun n => (1, n)) (nc_emails c) ++ map (fun n => (6, n)) (nc_uris c).
Definition nc_item (p : Z * list Z) : item := IASN1 48 [IASN1 (128 + fst p) [IBytes (snd p)]].
Definition nc_elem (p : Z * list Z) : list Z := tlv 48 (tlv (128 + fst p) (snd p)).

Lemma ia5Subtrees_eq : forall tag l, contextSpecific tag = 128 + tag ->
  (Forall ascii7 l -> ia5Subtrees tag l = OK (map call (map nc_item (map (fun n => (tag, n)) l)))) /\
  (~ Forall ascii7 l -> exists msg, ia5Subtrees tag l = ERR msg).
Proof.
  intros tag l Ht. induction l as [|n l [IH1 IH2]]; [split; [reflexivity|intros H; destruct H; constructor]|].
  cbn [ia5Subtrees]. destruct (ia5_iff n) as [[-> A]|[-> A]].
  - split.
    + intros H. inversion H as [|? ? _ H']; subst. rewrite (IH1 H'). cbn [rbind map call nc_item fst snd]. unfold subtree, AddBytes. rewrite Ht. reflexivity.
    + intros H. destruct IH2 as [msg ->]; [intros H'; apply H; constructor; assumption|]. exists msg. reflexivity.
  - split; [intros H; inversion H; subst; contradiction|]. intros _. eexists. reflexivity.
Qed.
Lemma nc_items_wf : forall l, wf_items (map nc_item l).
Proof. induction l as [|p l IH]; [exact I|]. cbn [map wf_items]. split; [cbn; repeat split|exact IH]. Qed.
Lemma nc_sers : forall l e, Forall (fun p => 0 <= fst p < 31) l -> sers (map nc_item l) = Some e ->
  e = List.concat (map nc_elem l) /\ Forall (fun p => zlen (tlv (128 + fst p) (snd p)) <= 2 ^ 32 - 2) l.
Proof.
  induction l as [|p l IH]; intros e HT H; [cbn in H; injection H as <-; split; [reflexivity|constructor]|].
  inversion HT as [|? ? Hp HT']; subst. cbn [map sers] in H. unfold nc_item at 1 in H. rewrite ser_IASN1 in H. change (48 mod 32 =? 31) with false in H. cbv iota in H.
  cbn [sers] in H. rewrite ser_IASN1 in H. cbn [sers ser] in H. rewrite !app_nil_r in H.
  assert (M : (128 + fst p) mod 32 =? 31 = false).
  { apply Z.eqb_neq. replace (128 + fst p) with (fst p + 4 * 32) by lia. rewrite Z.mod_add by lia. rewrite Z.mod_small; lia. }
  rewrite M in H. destruct (Z.leb_spec (zlen (snd p)) (2 ^ 32 - 2)); [|discriminate H]. rewrite app_nil_r in H.
  destruct (Z.leb_spec (zlen (tlv (128 + fst p) (snd p))) (2 ^ 32 - 2)); [|discriminate H].
  destruct (sers (map nc_item l)) as [b|]; [|discriminate H]. injection H as <-.
  destruct (IH b HT' eq_refl) as [-> F]. split; [reflexivity|]. constructor; assumption.
Qed.
Lemma nc_values_tags : forall c, Forall (fun p => 0 <= fst p < 31) (nc_values c).
Proof.
  intros c. apply Forall_forall. intros p Hp. unfold nc_values in Hp.
  repeat (apply in_app_or in Hp; destruct Hp as [Hp|Hp]); apply in_map_iff in Hp; destruct Hp as (x & <- & _); cbn; lia.
Qed.

Lemma serialise_eq : forall c,
  Forall ascii7 (nc_dns c) -> Forall ascii7 (nc_emails c) -> Forall ascii7 (nc_uris c) ->
  serialiseConstraints c = runBuilder (map call (map nc_item (nc_values c))).
Proof.
  intros c H1 H2 H3. unfold serialiseConstraints.
  rewrite (proj1 (ia5Subtrees_eq 2 _ eq_refl) H1). cbn [gbind].
  rewrite (proj1 (ia5Subtrees_eq 1 _ eq_refl) H2). cbn [gbind].
  rewrite (proj1 (ia5Subtrees_eq 6 _ eq_refl) H3). cbn [gbind].
  f_equal. unfold nc_values. rewrite !map_app. f_equal. f_equal. rewrite !map_map. reflexivity.
Qed.
(** A name that is not 7-bit makes it fail. *)
Theorem C65_not_written : forall c, ~ (Forall ascii7 (nc_dns c) /\ Forall ascii7 (nc_emails c) /\ Forall ascii7 (nc_uris c)) ->
  exists msg, serialiseConstraints c = Ret (ERR msg).
Proof.
  intros c H. unfold serialiseConstraints.
  assert (D : forall l, Forall ascii7 l \/ ~ Forall ascii7 l).
  { induction l as [|x l [IH|IH]]; [left; constructor| |right; intros K; inversion K; contradiction].
    destruct (ia5_iff x) as [[_ A]|[_ A]]; [left; constructor; assumption|right; intros K; inversion K; contradiction]. }
  destruct (D (nc_dns c)) as [H1|H1]; [|destruct (proj2 (ia5Subtrees_eq 2 _ eq_refl) H1) as [m ->]; exists m; reflexivity].
  rewrite (proj1 (ia5Subtrees_eq 2 _ eq_refl) H1). cbn [gbind].
  destruct (D (nc_emails c)) as [H2|H2]; [|destruct (proj2 (ia5Subtrees_eq 1 _ eq_refl) H2) as [m ->]; exists m; reflexivity].
  rewrite (proj1 (ia5Subtrees_eq 1 _ eq_refl) H2). cbn [gbind].
  destruct (D (nc_uris c)) as [H3|H3]; [|destruct (proj2 (ia5Subtrees_eq 6 _ eq_refl) H3) as [m ->]; exists m; reflexivity].
  exfalso. apply H. split; [exact H1|]. split; assumption.
Qed.
Lemma serialise_inv : forall c e, serialiseConstraints c = Ret (OK e) ->
  Forall ascii7 (nc_dns c) /\ Forall ascii7 (nc_emails c) /\ Forall ascii7 (nc_uris c) /\
  e = List.concat (map nc_elem (nc_values c)) /\ Forall (fun p => zlen (tlv (128 + fst p) (snd p)) <= 2 ^ 32 - 2) (nc_values c).
Proof.
  intros c e H.
  assert (D : forall l, Forall ascii7 l \/ ~ Forall ascii7 l).
  { induction l as [|x l [IH|IH]]; [left; constructor| |right; intros K; inversion K; contradiction].
    destruct (ia5_iff x) as [[_ A]|[_ A]]; [left; constructor; assumption|right; intros K; inversion K; contradiction]. }
  destruct (D (nc_dns c)) as [H1|H1]; [|destruct (C65_not_written c) as [m K]; [intros (K & _); contradiction|rewrite K in H; discriminate H]].
  destruct (D (nc_emails c)) as [H2|H2]; [|destruct (C65_not_written c) as [m K]; [intros (_ & K & _); contradiction|rewrite K in H; discriminate H]].
  destruct (D (nc_uris c)) as [H3|H3]; [|destruct (C65_not_written c) as [m K]; [intros (_ & _ & K); contradiction|rewrite K in H; discriminate H]].
  split; [exact H1|]. split; [exact H2|]. split; [exact H3|].
  rewrite serialise_eq in H by assumption. apply runBuilder_some in H; [|apply nc_items_wf].
  apply nc_sers; [apply nc_values_tags|exact H].
Qed.

(** Masking an address. *)
Definition masked (i : IPNet) : IPNet := mkIPNet (maskIP (in_ip i) (in_mask i)) (in_mask i).
Definition range_ok (i : IPNet) : Prop :=
  bytes (in_ip i) /\ bytes (in_mask i) /\ prefix_mask (in_mask i) /\ (zlen (in_mask i) = 4 \/ zlen (in_mask i) = 16) /\
  (zlen (in_ip i) = zlen (in_mask i) \/ (zlen (in_mask i) = 4 /\ zlen (in_ip i) = 16 /\ firstn 12 (in_ip i) = v4InV6Prefix)).
Lemma land_byte : forall a b, byte a -> byte b -> byte (Z.land a b).
Proof.
  intros a b [A0 A1] [B0 B1]. assert (0 <= Z.land a b) by (apply Z.land_nonneg; lia). split; [assumption|].
  assert (Z.land a b <= b); [|lia]. apply Z.ldiff_le; [lia|]. apply Z.bits_inj'. intros n Hn.
  rewrite Z.ldiff_spec, Z.land_spec, Z.bits_0. destruct (Z.testbit a n), (Z.testbit b n); reflexivity.
Qed.
Lemma combine_land : forall a b, bytes a -> bytes b -> List.length a = List.length b ->
  bytes (map (fun p => Z.land (fst p) (snd p)) (combine a b)) /\
  zlen (map (fun p => Z.land (fst p) (snd p)) (combine a b)) = zlen b.
Proof.
  induction a as [|x a IH]; intros [|y b] Ha Hb L; try discriminate L; [split; [apply bytes_nil|reflexivity]|].
  apply bytes_cons in Ha. apply bytes_cons in Hb. destruct Ha as [Hx Ha]. destruct Hb as [Hy Hb].
  injection L as L. destruct (IH b Ha Hb L) as [I1 I2]. cbn [combine map fst snd]. split.
  - apply bytes_cons. split; [apply land_byte; assumption|exact I1].
  - rewrite !zlen_cons, I2. reflexivity.
Qed.
Lemma masked_ok : forall i, range_ok i ->
  bytes (ipAndMask i) /\ ip_ok (ipAndMask i) (in_ip (masked i)) (in_mask (masked i)).
Proof.
  intros [ip mask] (Hip & Hm & HP & H4 & HL). cbn [in_ip in_mask] in *. unfold ipAndMask, masked, ip_ok. cbn [in_ip in_mask].
  assert (K : bytes (maskIP ip mask) /\ zlen (maskIP ip mask) = zlen mask).
  { unfold maskIP.
    assert (N : ~ (zlen mask = 16 /\ zlen ip = 4)) by lia.
    assert (E0 : (zlen mask =? 16) && (zlen ip =? 4) = false)
      by (destruct (Z.eqb_spec (zlen mask) 16), (Z.eqb_spec (zlen ip) 4); try reflexivity; exfalso; apply N; split; assumption).
    rewrite E0. cbn [andb].
    destruct HL as [HL|(HL1 & HL2 & HL3)].
    - assert (E1 : (zlen mask =? 4) && (zlen ip =? 16) = false)
        by (destruct (Z.eqb_spec (zlen mask) 4), (Z.eqb_spec (zlen ip) 16); try reflexivity; lia).
      rewrite E1. cbn [andb]. rewrite HL, Z.eqb_refl. cbn [negb]. apply combine_land; try assumption. unfold zlen in HL. lia.
    - rewrite HL1, HL2, HL3, oidEqual_refl. cbn [Z.eqb Pos.eqb andb].
      assert (L : zlen (skipn 12 ip) = 4) by (unfold zlen in *; rewrite skipn_length; lia).
      rewrite L. cbn [Z.eqb Pos.eqb negb]. rewrite <- HL1. apply combine_land; [|exact Hm|unfold zlen in *; lia].
      clear - Hip. rewrite <- (firstn_skipn 12 ip) in Hip. apply bytes_app in Hip. apply Hip. }
  destruct K as [K1 K2]. split; [apply bytes_app; split; assumption|].
  split; [reflexivity|]. split; [exact K2|]. split; [exact H4|exact HP].
Qed.

(** C69: what net.IP.Mask makes of an address and a mask: bitwise and for equal lengths; an IPv4 address
    in 16 bytes with a mask of 4 and an address of 4 bytes with a mask of 16 that starts with 12 bytes
    ff are taken as IPv4; nothing at all otherwise. *)
Definition bits_and (a m : list Z) : list Z := map (fun p => Z.land (fst p) (snd p)) (combine a m).
Theorem C69_mask : forall ip mask,
  (zlen ip = zlen mask -> maskIP ip mask = bits_and ip mask) /\
  (zlen ip = 4 -> zlen mask = 4 -> maskIP ([0; 0; 0; 0; 0; 0; 0; 0; 0; 0; 255; 255] ++ ip) mask = bits_and ip mask /\
                                   maskIP ip (repeat 255 12 ++ mask) = bits_and ip mask) /\
  (zlen ip <> zlen mask -> ~ (zlen mask = 4 /\ exists a, zlen a = 4 /\ ip = [0; 0; 0; 0; 0; 0; 0; 0; 0; 0; 255; 255] ++ a) ->
   ~ (zlen ip = 4 /\ exists m, zlen m = 4 /\ mask = repeat 255 12 ++ m) -> maskIP ip mask = []).
Proof.
  intros ip mask. unfold maskIP, bits_and. split; [|split].
  - intros L. rewrite <- L.
    replace ((zlen ip =? 16) && (zlen ip =? 4)) with false by (destruct (Z.eqb_spec (zlen ip) 16), (Z.eqb_spec (zlen ip) 4); try reflexivity; lia).
    cbn [andb]. rewrite <- L.
    replace ((zlen ip =? 4) && (zlen ip =? 16)) with false by (destruct (Z.eqb_spec (zlen ip) 16), (Z.eqb_spec (zlen ip) 4); try reflexivity; lia).
    cbn [andb]. rewrite L, Z.eqb_refl. reflexivity.
  - intros L1 L2. rewrite !zlen_app, L1, L2. change (zlen [0; 0; 0; 0; 0; 0; 0; 0; 0; 0; 255; 255]) with 12. change (zlen (repeat 255 12)) with 12.
    cbn [Z.add Pos.add Pos.succ Z.eqb Pos.eqb andb]. split.
    + rewrite L2. cbn [Z.eqb Pos.eqb andb app firstn skipn repeat]. change (oidEqual _ v4InV6Prefix) with true. cbv iota. rewrite L1. reflexivity.
    + cbn [app firstn skipn repeat forallb]. cbn [Z.eqb Pos.eqb andb]. rewrite L2. cbn [Z.eqb Pos.eqb andb]. rewrite L1. reflexivity.
  - intros NL N1 N2.
    assert (C1 : (zlen mask =? 16) && (zlen ip =? 4) && forallb (fun b => b =? 0xff) (firstn 12 mask) = false).
    { destruct (Z.eqb_spec (zlen mask) 16) as [A|]; [|reflexivity]. destruct (Z.eqb_spec (zlen ip) 4) as [B|]; [|reflexivity]. cbn [andb].
      destruct (forallb _ _) eqn:F; [|reflexivity]. exfalso. apply N2. split; [exact B|]. exists (skipn 12 mask). split; [unfold zlen in *; rewrite skipn_length; lia|].
      rewrite <- (firstn_skipn 12 mask) at 1. f_equal. assert (FL : List.length (firstn 12 mask) = 12%nat) by (rewrite firstn_length; unfold zlen in A; lia).
      revert F FL. generalize (firstn 12 mask). intros l F FL. rewrite <- FL. clear -F. induction l as [|x l IH]; [reflexivity|].
      cbn [forallb] in F. apply andb_true_iff in F. destruct F as [F1 F2]. apply Z.eqb_eq in F1. subst x. cbn [List.length repeat]. f_equal. exact (IH F2). }
    rewrite C1. cbv zeta.
    assert (C2 : (zlen mask =? 4) && (zlen ip =? 16) && oidEqual (firstn 12 ip) v4InV6Prefix = false).
    { destruct (Z.eqb_spec (zlen mask) 4) as [A|]; [|reflexivity]. destruct (Z.eqb_spec (zlen ip) 16) as [B|]; [|reflexivity]. cbn [andb].
      destruct (oidEqual (firstn 12 ip) v4InV6Prefix) eqn:F; [|reflexivity]. exfalso. apply N1. split; [exact A|]. apply oidEqual_eq in F. exists (skipn 12 ip).
      split; [unfold zlen in *; rewrite skipn_length; lia|]. rewrite <- (firstn_skipn 12 ip) at 1. rewrite F. reflexivity. }
    rewrite C2. rewrite (proj2 (Z.eqb_neq _ _) NL). reflexivity.
Qed.
Example C69_mask_ex : maskIP [10; 1; 2; 3] [255; 255; 255; 255; 255; 255; 255; 255; 255; 255; 255; 255; 255; 255; 0; 0] = [10; 1; 0; 0] /\
  maskIP [10; 1; 2; 3] [255; 255; 255; 255; 255; 255; 0; 0; 0; 0; 0; 0; 0; 0; 0; 0] = [].
Proof. split; reflexivity. Qed.

Section Env3.
Variable E : netEnv.

(** Constraints that come back. *)
Definition constraints_ok (c : Constraints) : Prop :=
  Forall dns_ok (nc_dns c) /\ Forall range_ok (nc_ips c) /\ Forall email_ok (nc_emails c) /\ Forall (uri_ok E) (nc_uris c).
Definition masked_all (c : Constraints) : Constraints := mkNC (nc_dns c) (map masked (nc_ips c)) (nc_emails c) (nc_uris c).

Lemma readASN1_elem : forall t c r, byte t -> low_tag t -> zlen (tlv t c) <= 2 ^ 32 - 1 ->
  ReadASN1 (Some (tlv t c ++ r)) None t = Ret (true, Some c, Some r).
Proof.
  intros t c r Ht Hl HL. unfold ReadASN1, ReadAnyASN1. rewrite readASN1_tlv by assumption. cbn [bind]. rewrite Z.eqb_refl. reflexivity.
Qed.
Lemma nonempty_cstr : forall t c r, Empty (Some (tlv t c ++ r)) = false.
Proof.
  intros. unfold Empty, slen. cbn [contents]. apply Z.eqb_neq. rewrite zlen_app, zlen_tlv.
  pose proof (zlen_nonneg _ (der_len (zlen c))). pose proof (zlen_nonneg _ c). pose proof (zlen_nonneg _ r). lia.
Qed.
(** One subtree. *)
Lemma getValues_step : forall fuel p r c u c' u', 0 <= fst p < 31 -> zlen (nc_elem p) <= 2 ^ 32 - 1 ->
  parseSubtree E (128 + fst p) (snd p) c u = Ret (OK (c', u')) ->
  getValues E (S fuel) (Some (nc_elem p ++ r)) c u = getValues E fuel (Some r) c' u'.
Proof.
  intros fuel [t v] r c u c' u' Ht HL HP. cbn [fst snd] in *. unfold nc_elem in *. cbn [fst snd] in *. cbn [getValues].
  rewrite nonempty_cstr. rewrite readASN1_elem; [|unfold byte, SEQUENCE; lia|discriminate|exact HL]. cbn [bind negb].
  assert (HL' : zlen (tlv (128 + t) v) <= 2 ^ 32 - 1).
  { rewrite zlen_tlv in HL. pose proof (zlen_nonneg _ (der_len (zlen (tlv (128 + t) v)))). lia. }
  unfold ReadAnyASN1. rewrite <- (app_nil_r (tlv (128 + t) v)).
  rewrite readASN1_tlv; [|unfold byte; lia| |exact HL'].
  - cbn [bind negb asn1_out contents]. rewrite HP. reflexivity.
  - unfold low_tag. replace (128 + t) with (t + 4 * 32) by lia. rewrite Z.mod_add by lia. rewrite Z.mod_small; lia.
Qed.
(** Several subtrees of one kind. *)
Lemma getValues_kind : forall A (f : A -> Z * list Z) (add : Constraints -> A -> Constraints) l fuel r c u,
  (forall x, In x l -> 0 <= fst (f x) < 31 /\ zlen (nc_elem (f x)) <= 2 ^ 32 - 1) ->
  (forall x c, In x l -> parseSubtree E (128 + fst (f x)) (snd (f x)) c u = Ret (OK (add c x, u))) ->
  getValues E (List.length l + fuel) (Some (List.concat (map nc_elem (map f l)) ++ r)) c u =
  getValues E fuel (Some r) (fold_left add l c) u.
Proof.
  intros A f add l fuel r. induction l as [|x l IH]; intros c u H1 H2; [reflexivity|].
  cbn [List.length Nat.add map List.concat fold_left]. rewrite <- app_assoc.
  destruct (H1 x (or_introl eq_refl)) as [T L].
  rewrite (getValues_step _ _ _ c u (add c x) u T L (H2 x c (or_introl eq_refl))).
  apply IH; intros; [apply H1|apply H2]; right; assumption.
Qed.
Lemma getValues_more : forall n m s c u x, getValues E n s c u = Ret x -> getValues E (n + m) s c u = Ret x.
Proof.
  induction n as [|n IH]; intros m s c u x H; cbn [Nat.add].
  - cbn [getValues] in H. destruct m; cbn [getValues]; destruct (Empty s); try exact H; discriminate H.
  - cbn [getValues] in *. destruct (Empty s); [exact H|].
    destruct (ReadASN1 s None SEQUENCE) as [[[ok q] s']|k]; [|discriminate H]. cbn [bind] in *. destruct (negb ok); [exact H|].
    destruct (ReadAnyASN1 q None 0) as [[[[ok' v] t] q']|k]; [|discriminate H]. cbn [bind] in *. destruct (negb ok'); [exact H|].
    destruct (parseSubtree E t (contents v) c u) as [[[c' u']|m']|k]; cbn [gbind] in *; [apply IH; exact H|exact H|discriminate H].
Qed.

Lemma fold_dns : forall l c, fold_left (fun c n => mkNC (nc_dns c ++ [n]) (nc_ips c) (nc_emails c) (nc_uris c)) l c =
  mkNC (nc_dns c ++ l) (nc_ips c) (nc_emails c) (nc_uris c).
Proof.
  induction l as [|n l IH]; intros [d i e u]; cbn [fold_left nc_dns nc_ips nc_emails nc_uris]; [rewrite app_nil_r; reflexivity|].
  rewrite IH. cbn [nc_dns nc_ips nc_emails nc_uris]. rewrite <- app_assoc. reflexivity.
Qed.
Lemma fold_ips : forall l c, fold_left (fun c i => mkNC (nc_dns c) (nc_ips c ++ [masked i]) (nc_emails c) (nc_uris c)) l c =
  mkNC (nc_dns c) (nc_ips c ++ map masked l) (nc_emails c) (nc_uris c).
Proof.
  induction l as [|n l IH]; intros [d i e u]; cbn [fold_left map nc_dns nc_ips nc_emails nc_uris]; [rewrite app_nil_r; reflexivity|].
  rewrite IH. cbn [nc_dns nc_ips nc_emails nc_uris]. rewrite <- app_assoc. reflexivity.
Qed.
Lemma fold_emails : forall l c, fold_left (fun c n => mkNC (nc_dns c) (nc_ips c) (nc_emails c ++ [n]) (nc_uris c)) l c =
  mkNC (nc_dns c) (nc_ips c) (nc_emails c ++ l) (nc_uris c).
Proof.
  induction l as [|n l IH]; intros [d i e u]; cbn [fold_left nc_dns nc_ips nc_emails nc_uris]; [rewrite app_nil_r; reflexivity|].
  rewrite IH. cbn [nc_dns nc_ips nc_emails nc_uris]. rewrite <- app_assoc. reflexivity.
Qed.
Lemma fold_uris : forall l c, fold_left (fun c n => mkNC (nc_dns c) (nc_ips c) (nc_emails c) (nc_uris c ++ [n])) l c =
  mkNC (nc_dns c) (nc_ips c) (nc_emails c) (nc_uris c ++ l).
Proof.
  induction l as [|n l IH]; intros [d i e u]; cbn [fold_left nc_dns nc_ips nc_emails nc_uris]; [rewrite app_nil_r; reflexivity|].
  rewrite IH. cbn [nc_dns nc_ips nc_emails nc_uris]. rewrite <- app_assoc. reflexivity.
Qed.

Lemma nc_concat_len : forall l, (List.length l <= List.length (List.concat (map nc_elem l)))%nat.
Proof.
  induction l as [|p l IH]; [apply le_n|]. cbn [map List.concat List.length]. rewrite app_length.
  assert (1 <= List.length (nc_elem p))%nat by (unfold nc_elem, tlv; cbn; lia). lia.
Qed.
Lemma getValues_all : forall c u, constraints_ok c -> small (List.concat (map nc_elem (nc_values c))) ->
  getValues E (List.length (List.concat (map nc_elem (nc_values c)))) (Some (List.concat (map nc_elem (nc_values c)))) zeroConstraints u =
  Ret (OK (masked_all c, u)).
Proof.
  intros c u (HD & HI & HM & HU) HS.
  assert (SZ : forall p, In p (nc_values c) -> 0 <= fst p < 31 /\ zlen (nc_elem p) <= 2 ^ 32 - 1).
  { intros p Hp. split; [pose proof (nc_values_tags c) as T; rewrite Forall_forall in T; apply T; exact Hp|].
    assert (small (nc_elem p)) as S by (apply (small_concat (map nc_elem (nc_values c))); [exact HS|apply in_map; exact Hp]).
    unfold small in S. lia. }
  replace (List.length (List.concat (map nc_elem (nc_values c))))
    with (List.length (nc_values c) + (List.length (List.concat (map nc_elem (nc_values c))) - List.length (nc_values c)))%nat
    by (pose proof (nc_concat_len (nc_values c)); lia).
  apply getValues_more.
  rewrite <- (app_nil_r (List.concat (map nc_elem (nc_values c)))).
  replace (List.length (nc_values c)) with (List.length (nc_dns c) + (List.length (nc_ips c) + (List.length (nc_emails c) + (List.length (nc_uris c) + 0))))%nat
    by (unfold nc_values; rewrite !app_length, !map_length; lia).
  unfold nc_values in *. rewrite !map_app, !concat_app, <- !app_assoc.
  assert (In1 : forall x, In x (nc_dns c) -> In (2, x) (nc_values c)) by (intros; apply in_or_app; left; apply in_map; assumption).
  assert (In2 : forall x, In x (nc_ips c) -> In (7, ipAndMask x) (nc_values c))
    by (intros x Hx; apply in_or_app; right; apply in_or_app; left; apply (in_map (fun i => (7, ipAndMask i)) _ x Hx)).
  assert (In3 : forall x, In x (nc_emails c) -> In (1, x) (nc_values c))
    by (intros; apply in_or_app; right; apply in_or_app; right; apply in_or_app; left; apply in_map; assumption).
  assert (In4 : forall x, In x (nc_uris c) -> In (6, x) (nc_values c))
    by (intros; apply in_or_app; right; apply in_or_app; right; apply in_or_app; right; apply in_map; assumption).
  rewrite Forall_forall in HD, HI, HM, HU.
  rewrite (getValues_kind _ (fun n => (2, n)) (fun c n => mkNC (nc_dns c ++ [n]) (nc_ips c) (nc_emails c) (nc_uris c)));
    [|intros; apply SZ, In1; assumption|intros x [? ? ? ?] Hx; cbn [fst snd]; apply (C64_dns_constraint E); apply HD; exact Hx].
  rewrite (getValues_kind _ (fun i => (7, ipAndMask i)) (fun c i => mkNC (nc_dns c) (nc_ips c ++ [masked i]) (nc_emails c) (nc_uris c)));
    [|intros; apply SZ, In2; assumption|].
  2: { intros x [? ? ? ?] Hx. cbn [fst snd]. destruct (masked_ok x (HI x Hx)) as [B K].
       apply (C63_ip_constraint E); [exact B|]. destruct x; exact K. }
  rewrite (getValues_kind _ (fun n => (1, n)) (fun c n => mkNC (nc_dns c) (nc_ips c) (nc_emails c ++ [n]) (nc_uris c)));
    [|intros; apply SZ, In3; assumption|intros x [? ? ? ?] Hx; cbn [fst snd]; apply (C72_email_constraint E); apply HM; exact Hx].
  rewrite (getValues_kind _ (fun n => (6, n)) (fun c n => mkNC (nc_dns c) (nc_ips c) (nc_emails c) (nc_uris c ++ [n])));
    [|intros; apply SZ, In4; assumption|intros x [? ? ? ?] Hx; cbn [fst snd]; apply (C64_uri_constraint E); apply HU; exact Hx].
  rewrite fold_dns, fold_ips, fold_emails, fold_uris. reflexivity.
Qed.
(** What marshalNameConstraints writes. *)
Definition nc_part (tag : Z) (l : list Z) : list Z := match l with [] => [] | _ :: _ => tlv tag l end.
Lemma marshalNC_inv : forall p x value, marshalNameConstraints p x = Ret (OK value) ->
  let lp := List.concat (map nc_elem (nc_values p)) in
  let lx := List.concat (map nc_elem (nc_values x)) in
  value = tlv 48 (nc_part 0xa0 lp ++ nc_part 0xa1 lx) /\
  serialiseConstraints p = Ret (OK lp) /\ serialiseConstraints x = Ret (OK lx).
Proof.
  intros p x value H lp lx. unfold marshalNameConstraints in H.
  destruct (serialiseConstraints p) as [[ep|m]|k] eqn:EP; try discriminate H. cbn [gbind] in H.
  destruct (serialiseConstraints x) as [[ex|m]|k] eqn:EX; try discriminate H. cbn [gbind] in H.
  destruct (serialise_inv p ep EP) as (_ & _ & _ & -> & _). destruct (serialise_inv x ex EX) as (_ & _ & _ & -> & _).
  fold lp in H. fold lx in H. split; [|split; reflexivity].
  set (is := [IASN1 48 ((match lp with [] => [] | _ :: _ => [IASN1 0xa0 [IBytes lp]] end) ++
                        (match lx with [] => [] | _ :: _ => [IASN1 0xa1 [IBytes lx]] end))]).
  assert (C : runBuilder (map call is) = Ret (OK value)).
  { rewrite <- H. unfold is. f_equal. cbn [map call]. f_equal. f_equal. rewrite map_app.
    assert (P : forall l : list Z, match l with [] => false | _ :: _ => true end = (0 <? zlen l)).
    { intros [|y l]; [reflexivity|]. rewrite zlen_cons. pose proof (zlen_nonneg _ l). symmetry. apply Z.ltb_lt. lia. }
    rewrite <- !P. unfold AddBytes. destruct lp; destruct lx; reflexivity. }
  clear H. apply runBuilder_some in C.
  - unfold is in C. cbn [sers] in C. rewrite ser_IASN1 in C. change (48 mod 32 =? 31) with false in C. cbv iota in C.
    assert (SP : forall tag l r, tag mod 32 =? 31 = false ->
              sers ((match l with [] => [] | _ :: _ => [IASN1 tag [IBytes l]] end) ++ r) =
              match sers r with
              | Some b => if zlen l <=? 2 ^ 32 - 2 then Some (nc_part tag l ++ b) else match l with [] => Some b | _ :: _ => None end
              | None => None end).
    { intros tag l r Ht. destruct l as [|y l]; [cbn [app nc_part]; destruct (sers r); reflexivity|].
      cbn [app sers]. rewrite ser_IASN1, Ht. cbn [sers ser]. rewrite !app_nil_r. cbn [nc_part].
      destruct (zlen (y :: l) <=? 2 ^ 32 - 2); destruct (sers r); reflexivity. }
    rewrite <- (app_nil_r (match lx with [] => [] | _ :: _ => [IASN1 161 [IBytes lx]] end)) in C.
    rewrite (SP 160), (SP 161) in C by reflexivity. cbn [sers] in C.
    assert (N : forall l : list Z, zlen l <=? 2 ^ 32 - 2 = false -> l <> []) by (intros l K ->; discriminate K).
    destruct (zlen lx <=? 2 ^ 32 - 2) eqn:Lx; [|destruct lx; [discriminate Lx|discriminate C]].
    destruct (zlen lp <=? 2 ^ 32 - 2) eqn:Lp; [|destruct lp; [discriminate Lp|discriminate C]].
    rewrite app_nil_r in C. destruct (zlen (nc_part 160 lp ++ nc_part 161 lx) <=? 2 ^ 32 - 2); [|discriminate C].
    rewrite app_nil_r in C. injection C as <-. reflexivity.
  - unfold is. cbn [wf_items]. split; [|exact I]. rewrite wf_IASN1. destruct lp, lx; cbn; repeat split.
Qed.

Lemma nc_empty : forall c, List.concat (map nc_elem (nc_values c)) = [] -> c = zeroConstraints.
Proof.
  intros [d i e u] H. unfold nc_values in H. cbn [nc_dns nc_ips nc_emails nc_uris] in H.
  destruct d; [|discriminate H]. destruct i; [|discriminate H]. destruct e; [|discriminate H]. destruct u; [|discriminate H]. reflexivity.
Qed.
Lemma peek_tlv : forall t c r tag, PeekASN1Tag (Some (tlv t c ++ r)) tag = Ret (t =? tag).
Proof.
  intros. unfold PeekASN1Tag. pose proof (nonempty_cstr t c r) as N. unfold Empty in N. rewrite N. reflexivity.
Qed.
Lemma optional_present : forall t c r, byte t -> low_tag t -> zlen (tlv t c) <= 2 ^ 32 - 1 ->
  ReadOptionalASN1 (Some (tlv t c ++ r)) None t = Ret (true, Some c, true, Some r).
Proof.
  intros t c r H1 H2 H3. unfold ReadOptionalASN1. rewrite peek_tlv, Z.eqb_refl. cbn [bind]. rewrite readASN1_elem by assumption. reflexivity.
Qed.
Lemma optional_other : forall t c r tag, t <> tag ->
  ReadOptionalASN1 (Some (tlv t c ++ r)) None tag = Ret (true, None, false, Some (tlv t c ++ r)).
Proof.
  intros t c r tag H. unfold ReadOptionalASN1. rewrite peek_tlv. destruct (Z.eqb_spec t tag); [contradiction|]. reflexivity.
Qed.

(** C69: the constraints come back with the addresses masked. *)
Theorem C69_name_constraints : forall p x value critical f,
  constraints_ok p -> constraints_ok x -> p <> zeroConstraints \/ x <> zeroConstraints ->
  marshalNameConstraints p x = Ret (OK value) -> small value ->
  parseExtension E (mkExt oidExtensionNameConstraints critical value) f =
  Ret (OK (set_NameConstraints E critical (masked_all p) (masked_all x) f, false)).
Proof.
  intros p x value critical f HP HX HN H HS.
  destruct (marshalNC_inv p x value H) as (-> & _ & _).
  set (lp := List.concat (map nc_elem (nc_values p))) in *. set (lx := List.concat (map nc_elem (nc_values x))) in *.
  assert (NE : lp <> [] \/ lx <> []).
  { destruct HN as [N|N]; [left|right]; intros K; apply N; apply nc_empty; exact K. }
  assert (PL : forall tag l, zlen l <= zlen (nc_part tag l)).
  { intros tag [|y l]; [cbn; lia|]. unfold nc_part. rewrite zlen_tlv. pose proof (zlen_nonneg _ (der_len (zlen (y :: l)))). lia. }
  assert (SB : zlen (nc_part 160 lp) + zlen (nc_part 161 lx) < 2 ^ 31).
  { unfold small in HS. rewrite zlen_tlv, zlen_app in HS. pose proof (zlen_nonneg _ (der_len (zlen (nc_part 160 lp) + zlen (nc_part 161 lx)))). lia. }
  pose proof (PL 160 lp) as P1. pose proof (PL 161 lx) as P2. pose proof (zlen_nonneg _ lp) as P3. pose proof (zlen_nonneg _ lx) as P4.
  assert (Sp : small lp) by (unfold small; lia). assert (Sx : small lx) by (unfold small; lia).
  unfold parseExtension. cbn [e_id oidExtensionNameConstraints e_value e_critical]. cbn [Z.eqb Pos.eqb andb].
  assert (K : parseNameConstraintsExtension E (tlv 48 (nc_part 160 lp ++ nc_part 161 lx)) = Ret (OK (masked_all p, masked_all x, false))).
  { unfold parseNameConstraintsExtension.
    change SEQUENCE with 48. rewrite <- (app_nil_r (tlv 48 _)). rewrite readASN1_elem; [|unfold byte; lia|discriminate|unfold small in HS; lia].
    cbn [bind negb orb]. change (Empty (Some [])) with true. cbv iota. cbn [negb].
    change (constructed (contextSpecific 0)) with 160. change (constructed (contextSpecific 1)) with 161.
    assert (R1 : ReadOptionalASN1 (Some (nc_part 160 lp ++ nc_part 161 lx)) None 160 =
                 Ret (true, match lp with [] => None | _ :: _ => Some lp end, match lp with [] => false | _ :: _ => true end, Some (nc_part 161 lx))).
    { unfold nc_part at 1. destruct lp as [|y l] eqn:El.
      - cbn [app]. unfold nc_part. destruct lx as [|y l]; [destruct NE; congruence|]. rewrite <- (app_nil_r (tlv 161 (y :: l))).
        rewrite optional_other by discriminate. reflexivity.
      - apply optional_present; [unfold byte; lia|discriminate|]. pose proof (zlen_nonneg _ (nc_part 161 lx)). unfold nc_part at 1 in SB. lia. }
    rewrite R1. cbn [bind negb].
    assert (R2 : ReadOptionalASN1 (Some (nc_part 161 lx)) None 161 =
                 Ret (true, match lx with [] => None | _ :: _ => Some lx end, match lx with [] => false | _ :: _ => true end, Some [])).
    { unfold nc_part. destruct lx as [|y l] eqn:El; [reflexivity|].
      rewrite <- (app_nil_r (tlv 161 (y :: l))). apply optional_present; [unfold byte; lia|discriminate|]. unfold nc_part in SB.
      pose proof (zlen_nonneg _ (match lp with [] => [] | _ :: _ => tlv 160 lp end)). lia. }
    rewrite R2. cbn [bind negb orb]. change (Empty (Some [])) with true. cbv iota. cbn [negb].
    assert (Q : forall l : list Z, (slen match l with [] => None | _ :: _ => Some l end =? 0) = match l with [] => true | _ :: _ => false end).
    { intros [|y l]; [reflexivity|]. unfold slen. cbn [contents]. rewrite zlen_cons. pose proof (zlen_nonneg _ l). apply Z.eqb_neq. lia. }
    rewrite !Q.
    match goal with |- (if ?c then _ else _) = _ => replace c with false by (clear - NE; destruct lp, lx; try reflexivity; destruct NE; congruence) end.
    cbv iota.
    assert (G : forall c u, constraints_ok c -> small (List.concat (map nc_elem (nc_values c))) ->
              let l := List.concat (map nc_elem (nc_values c)) in
              getValues E (List.length (contents match l with [] => None | _ :: _ => Some l end))
                match l with [] => None | _ :: _ => Some l end zeroConstraints u = Ret (OK (masked_all c, u))).
    { intros c u Hc Hs l. destruct l as [|y r] eqn:El.
      - rewrite (nc_empty c El). reflexivity.
      - rewrite <- El. cbn [contents]. apply getValues_all; assumption. }
    pose proof (G p false HP Sp) as G1. cbv zeta in G1. fold lp in G1.
    pose proof (G x false HX Sx) as G2. cbv zeta in G2. fold lx in G2.
    match goal with |- gbind ?a _ = _ => replace a with (Ret (OK (masked_all p, false))) by (symmetry; exact G1) end. cbn [gbind].
    match goal with |- gbind ?a _ = _ => replace a with (Ret (OK (masked_all x, false))) by (symmetry; exact G2) end. reflexivity. }
  rewrite K. reflexivity.
Qed.
End Env3.

(** Permitted ".a.b" (DNS) and 10.1.2.3/8, excluded a@b (email). *)
Definition C69_p : Constraints := mkNC [[46; 97; 46; 98]] [mkIPNet [10; 1; 2; 3] [255; 0; 0; 0]] [] [].
Definition C69_x : Constraints := mkNC [] [] [[97; 64; 98]] [].
Definition noNet : netEnv := mkEnv unit (fun _ => None) (fun _ => []) (fun _ => []) (fun _ => false).
Example C69_bytes : marshalNameConstraints C69_p C69_x = Ret (OK
  [48; 31; 160; 20; 48; 6; 130; 4; 46; 97; 46; 98; 48; 10; 135; 8; 10; 0; 0; 0; 255; 0; 0; 0; 161; 7; 48; 5; 129; 3; 97; 64; 98]).
Proof. reflexivity. Qed.
Example C69_comes_back : parseNameConstraintsExtension noNet
  [48; 31; 160; 20; 48; 6; 130; 4; 46; 97; 46; 98; 48; 10; 135; 8; 10; 0; 0; 0; 255; 0; 0; 0; 161; 7; 48; 5; 129; 3; 97; 64; 98] =
  Ret (OK (mkNC [[46; 97; 46; 98]] [mkIPNet [10; 0; 0; 0] [255; 0; 0; 0]] [] [], C69_x, false)).
Proof. reflexivity. Qed.
Example C69_ok : constraints_ok noNet C69_p /\ constraints_ok noNet C69_x.
Proof.
  split; unfold constraints_ok; cbn [C69_p C69_x nc_dns nc_ips nc_emails nc_uris].
  - split; [|split; [|split; constructor]].
    + constructor; [|constructor]. split; [repeat constructor; lia|].
      destruct (domain_accepted [97; 46; 98]) as (o & K & V). apply V. intros ->. discriminate K.
    + constructor; [|constructor]. split; [repeat constructor; cbn; lia|]. split; [repeat constructor; cbn; lia|].
      split; [exists 8%nat, 24%nat; reflexivity|]. split; left; reflexivity.
  - split; [constructor|]. split; [constructor|]. split; [|constructor].
    constructor; [|constructor]. split; [repeat constructor; lia|]. left. split; [right; left; reflexivity|].
    destruct (mailbox_cases [97; 64; 98]) as [(q & _ & V)|(K & _)]; [exact V|discriminate K].
Qed.
(** A range with a 4-byte address and a 16-byte mask, as net.IPNet allows, is written with 20 bytes,
    which are refused when they are read. *)
Theorem C69_mixed_range_refuted : exists r value, bytes (in_ip r) /\ bytes (in_mask r) /\ prefix_mask (in_mask r) /\
  zlen (in_ip r) = 4 /\ zlen (in_mask r) = 16 /\
  marshalNameConstraints (mkNC [] [r] [] []) zeroConstraints = Ret (OK value) /\
  forall E, parseNameConstraintsExtension E value = Ret (ERR "x509: IP constraint contained value of wrong length").
Proof.
  exists (mkIPNet [10; 1; 2; 3] (repeat 255 13 ++ [0; 0; 0])).
  exists ([48; 26; 160; 24; 48; 22; 135; 20; 10; 0; 0; 0] ++ repeat 255 13 ++ [0; 0; 0]). split; [|split; [|split; [|split; [|split; [|split]]]]].
  - repeat constructor; cbn; lia.
  - repeat constructor; cbn; lia.
  - exists 104%nat, 24%nat. reflexivity.
  - reflexivity.
  - reflexivity.
  - vm_compute. reflexivity.
  - intros E. vm_compute. reflexivity.
Qed.
