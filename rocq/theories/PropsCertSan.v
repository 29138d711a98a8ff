(** Subject alternative names: what is written is read back (C70). *)
From Coq Require Import ZArith List Lia Bool String.
From Verif Require Import GoBase BeMin CbString CbStringProofs CbBuilder CbBuilderProofs PropsCbBuilder CbAsn1Proofs GoAsn1 GoAsn1Proofs.
From Verif Require Import Sm2Der PropsSm2Der GoText GoPkix CertText PropsCertText Cert CertRt PropsCertNames.
Import ListNotations.
Open Scope Z_scope.

(** The name of kind [tag] with contents [data]: one DER element with the context-specific tag. *)
Definition general_name (p : Z * list Z) : list Z := tlv (0x80 + fst p) (snd p).

Lemma general_name_raw : forall tag data, (tag = 1 \/ tag = 2 \/ tag = 6 \/ tag = 7) -> zlen data < 2 ^ 31 ->
  elem uRaw (mkRaw 2 tag false data (general_name (tag, data))) (general_name (tag, data)).
Proof.
  intros tag data Ht HL. unfold general_name. cbn [fst snd].
  replace (0x80 + tag) with (ident 2 tag false) by (destruct Ht as [-> | [-> | [-> | ->]]]; reflexivity).
  apply elem_raw; [split; lia|exact HL].
Qed.
Lemma sanLoop_names : forall l fuel, (List.length l <= fuel)%nat ->
  Forall (fun p => exists rv, elem uRaw rv (general_name p) /\ rv_tag rv = fst p /\ rv_bytes rv = snd p) l ->
  sanLoop fuel (List.concat (map general_name l)) = OK l.
Proof.
  induction l as [|[tag data] r IH]; intros fuel HF H; [destruct fuel; reflexivity|].
  inversion H as [|? ? (rv & HE & HT & HB) HR]; subst. cbn [map List.concat]. destruct fuel as [|fuel]; [cbn in HF; lia|].
  cbn [fst snd] in HT, HB.
  assert (N : general_name (tag, data) ++ List.concat (map general_name r) <> []) by apply tlv_nonempty.
  cbn [sanLoop]. destruct (general_name (tag, data) ++ List.concat (map general_name r)) eqn:EE; [congruence|]. rewrite <- EE.
  rewrite (elem_unmarshal _ _ rv _ _ _ HE). cbn [rbind]. rewrite IH; [|cbn in HF; lia|exact HR]. cbn [rbind]. rewrite HT, HB. reflexivity.
Qed.
Lemma names_length : forall l, (List.length l <= List.length (List.concat (map general_name l)))%nat.
Proof.
  induction l as [|p r IH]; [cbn; lia|]. cbn [map List.concat List.length]. rewrite app_length.
  unfold general_name at 1, tlv. cbn [List.length app]. lia.
Qed.

Section Env.
Variable E : netEnv.

(** The names of [a], in the order in which they are written: as (kind, contents). *)
Definition san_names (a : AltNames E) : list (Z * list Z) :=
  map (fun n => (2, n)) (an_dns E a) ++ map (fun n => (1, n)) (an_emails E a) ++
  map (fun n => (7, ipBytes n)) (an_ips E a) ++ map (fun u => (6, urlString E u)) (an_uris E a).

Lemma makeRaw_name : forall tag data, (tag = 1 \/ tag = 2 \/ tag = 6 \/ tag = 7) -> small (makeRaw (mkRaw 2 tag false data [])) ->
  makeRaw (mkRaw 2 tag false data []) = general_name (tag, data) /\ zlen data < 2 ^ 31.
Proof.
  intros tag data Ht HS. unfold makeRaw in *. cbn [rv_full rv_class rv_tag rv_comp rv_bytes] in *.
  destruct (tagged_small 2 tag false data) as [-> L]; [split; lia|exact HS|]. split; [|exact L].
  unfold general_name. cbn [fst snd]. destruct Ht as [-> | [-> | [-> | ->]]]; reflexivity.
Qed.

Definition name_ok (p : Z * list Z) : Prop := (fst p = 1 \/ fst p = 2 \/ fst p = 6 \/ fst p = 7) /\ zlen (snd p) < 2 ^ 31.
Lemma marshalSANs_inv : forall a value, marshalSANs E a = OK value -> small value ->
  value = tlv 48 (List.concat (map general_name (san_names a))) /\ small (List.concat (map general_name (san_names a))) /\
  Forall name_ok (san_names a).
Proof.
  intros a value H HS.
  assert (M : marshalSANs E a = fieldSlice false (map OK (map (fun p => makeRaw (mkRaw 2 (fst p) false (snd p) [])) (san_names a)))).
  { unfold marshalSANs, san_names. rewrite !map_app, !map_map. reflexivity. }
  rewrite M in H. clear M. apply fieldSlice_inv in H; [|exact HS]. destruct H as (es & HE & -> & SC).
  assert (HE' : es = map (fun p => makeRaw (mkRaw 2 (fst p) false (snd p) [])) (san_names a)).
  { apply map_OK_inv in HE. clear -HE. revert HE. generalize (map (fun p : Z * list Z => makeRaw (mkRaw 2 (fst p) false (snd p) [])) (san_names a)).
    intros l HE. induction HE as [|x y l l' Hxy HR IH]; [reflexivity|]. injection Hxy as ->. rewrite IH. reflexivity. }
  clear HE. subst es. change (ident 0 16 true) with 48.
  assert (K : Forall (fun p => fst p = 1 \/ fst p = 2 \/ fst p = 6 \/ fst p = 7) (san_names a)).
  { unfold san_names. rewrite !Forall_app, !Forall_map. repeat split; apply Forall_forall; intros y _; cbn [fst]; lia. }
  revert SC K. generalize (san_names a) as l. intros l SC K.
  assert (P : map (fun p => makeRaw (mkRaw 2 (fst p) false (snd p) [])) l = map general_name l /\ Forall name_ok l).
  { assert (Hs : forall p, In p l -> small (makeRaw (mkRaw 2 (fst p) false (snd p) []))).
    { intros p Hp. refine (small_concat _ _ SC _). apply (in_map (fun p => makeRaw (mkRaw 2 (fst p) false (snd p) [])) l p Hp). }
    clear SC. induction K as [|[tag data] r Ht HR IH]; [split; [reflexivity|constructor]|].
    destruct (IH (fun p Hp => Hs p (or_intror Hp))) as [E1 E2]. cbn [fst snd] in *.
    destruct (makeRaw_name tag data Ht (Hs (tag, data) (or_introl eq_refl))) as [E3 E4]. split.
    - cbn [map fst snd]. rewrite E1, E3. reflexivity.
    - constructor; [split; [exact Ht|exact E4]|exact E2]. }
  destruct P as [P1 P2]. rewrite P1 in SC. rewrite P1. split; [reflexivity|]. split; assumption.
Qed.
Lemma forEachSAN_names : forall l, Forall name_ok l -> small (List.concat (map general_name l)) ->
  forEachSAN (tlv 48 (List.concat (map general_name l))) = OK l.
Proof.
  intros l HN HS. unfold forEachSAN.
  pose proof (elem_raw 0 16 true (List.concat (map general_name l)) ltac:(split; lia) HS) as ER. change (ident 0 16 true) with 48 in ER.
  rewrite <- (app_nil_r (tlv 48 _)). rewrite (elem_unmarshal _ _ _ _ _ _ ER). cbn [rbind]. change (zlen (@nil Z) =? 0) with true.
  cbn [negb rv_comp rv_tag rv_class rv_bytes Z.eqb Pos.eqb orb]. apply sanLoop_names; [apply names_length|].
  apply (Forall_impl _ (P := name_ok)); [|exact HN]. intros [tag data] [Ht HL]. cbn [fst snd] in *.
  eexists. split; [apply general_name_raw; assumption|]. split; reflexivity.
Qed.

(** The uniform resource identifier [u] is read back as [u']: its text parses as [u'] and the host is
    empty or a domain. *)
Definition uri_back (u u' : URL E) : Prop :=
  urlParse E (urlString E u) = Some u' /\ (urlHost E u' = [] \/ valid_domain (urlHost E u')).
Definition ip_len (ip : list Z) : Prop := zlen ip = 4 \/ zlen ip = 16.

Lemma addSANs_app : forall l r a, addSANs E a (l ++ r) = gbind (addSANs E a l) (fun a => addSANs E a r).
Proof.
  induction l as [|[tag data] l IH]; intros r a; [reflexivity|]. cbn [app addSANs].
  destruct (addSAN E a tag data) as [[a'|m]|k]; cbn [gbind]; [apply IH|reflexivity|reflexivity].
Qed.
Lemma addSANs_dns : forall l dns emails ips uris, addSANs E (mkAlt E dns emails ips uris) (map (fun n => (2, n)) l) = Ret (OK (mkAlt E (dns ++ l) emails ips uris)).
Proof.
  induction l as [|n l IH]; intros; cbn [map addSANs]; [rewrite app_nil_r; reflexivity|].
  unfold addSAN. change (2 =? nameTypeEmail) with false. change (2 =? nameTypeDNS) with true. cbn [gbind]. rewrite IH, <- app_assoc. reflexivity.
Qed.
Lemma addSANs_emails : forall l dns emails ips uris, addSANs E (mkAlt E dns emails ips uris) (map (fun n => (1, n)) l) = Ret (OK (mkAlt E dns (emails ++ l) ips uris)).
Proof.
  induction l as [|n l IH]; intros; cbn [map addSANs]; [rewrite app_nil_r; reflexivity|].
  unfold addSAN. change (1 =? nameTypeEmail) with true. cbn [gbind]. rewrite IH, <- app_assoc. reflexivity.
Qed.
Lemma ipBytes_len : forall ip, ip_len ip -> ip_len (ipBytes ip).
Proof.
  intros ip H. unfold ipBytes, To4. destruct (zlen ip =? 4) eqn:E4; [exact H|].
  destruct ((zlen ip =? 16) && oidEqual (firstn 12 ip) v4InV6Prefix) eqn:E16; [|exact H].
  left. destruct H as [H|H]; [rewrite H in E4; discriminate E4|]. unfold zlen in *. rewrite skipn_length. lia.
Qed.
Lemma addSANs_ips : forall l dns emails ips uris, Forall ip_len l ->
  addSANs E (mkAlt E dns emails ips uris) (map (fun n => (7, ipBytes n)) l) = Ret (OK (mkAlt E dns emails (ips ++ map ipBytes l) uris)).
Proof.
  induction l as [|n l IH]; intros dns emails ips uris H; cbn [map addSANs]; [rewrite app_nil_r; reflexivity|].
  inversion H as [|? ? Hn Hl]; subst. unfold addSAN. change (7 =? nameTypeEmail) with false. change (7 =? nameTypeDNS) with false.
  change (7 =? nameTypeURI) with false. change (7 =? nameTypeIP) with true. cbv iota.
  assert (L : (zlen (ipBytes n) =? 4) || (zlen (ipBytes n) =? 16) = true).
  { apply orb_true_iff. rewrite !Z.eqb_eq. apply ipBytes_len. exact Hn. }
  rewrite L. cbn [gbind]. rewrite IH by exact Hl. rewrite <- app_assoc. reflexivity.
Qed.
Lemma addSANs_uris : forall l l', Forall2 uri_back l l' -> forall dns emails ips uris,
  addSANs E (mkAlt E dns emails ips uris) (map (fun u => (6, urlString E u)) l) = Ret (OK (mkAlt E dns emails ips (uris ++ l'))).
Proof.
  intros l l' H. induction H as [|u u' l l' (HP & HH) HR IH]; intros; cbn [map addSANs]; [rewrite app_nil_r; reflexivity|].
  unfold addSAN. change (6 =? nameTypeEmail) with false. change (6 =? nameTypeDNS) with false. change (6 =? nameTypeURI) with true. cbv iota.
  rewrite HP.
  assert (K : (if 0 <? zlen (urlHost E u') then do d <- domainToReverseLabels (urlHost E u'); Ret (match d with None => false | Some _ => true end) else Ret true) = Ret true).
  { destruct HH as [-> | V]; [reflexivity|]. destruct (0 <? zlen (urlHost E u')); [|reflexivity].
    destruct (domain_accepted (urlHost E u')) as (o & -> & HO). cbn [bind]. destruct o; [reflexivity|]. exfalso. apply HO; [exact V|reflexivity]. }
  rewrite K. cbn [bind gbind]. rewrite IH, <- app_assoc. reflexivity.
Qed.

(** C70: the alternative names come back, each list in its order. *)
Theorem C70_san : forall dns emails ips uris uris' value,
  Forall ip_len ips -> Forall2 uri_back uris uris' ->
  marshalSANs E (mkAlt E dns emails ips uris) = OK value -> small value ->
  parseSANExtension E value = Ret (OK (mkAlt E dns emails (map ipBytes ips) uris')).
Proof.
  intros dns emails ips uris uris' value HI HU H HS. destruct (marshalSANs_inv _ _ H HS) as (-> & SC & HN).
  unfold parseSANExtension. rewrite forEachSAN_names by assumption. cbn [gbind]. unfold san_names, zeroAlt.
  cbn [an_dns an_emails an_ips an_uris]. rewrite !addSANs_app, addSANs_dns. cbn [gbind]. rewrite addSANs_app, addSANs_emails. cbn [gbind].
  rewrite addSANs_app, addSANs_ips by exact HI. cbn [gbind]. rewrite (addSANs_uris uris uris') by exact HU. reflexivity.
Qed.

(** ... and as the extension of a certificate. *)
Theorem C70_extension : forall dns emails ips uris uris' value critical f,
  Forall ip_len ips -> Forall2 uri_back uris uris' -> dns <> [] \/ emails <> [] \/ ips <> [] \/ uris <> [] ->
  marshalSANs E (mkAlt E dns emails ips uris) = OK value -> small value ->
  parseExtension E (mkExt oidExtensionSubjectAltName critical value) f =
  Ret (OK (set_SAN E (mkAlt E dns emails (map ipBytes ips) uris') f, false)).
Proof.
  intros dns emails ips uris uris' value critical f HI HU HN H HS.
  unfold parseExtension. cbn [e_id oidExtensionSubjectAltName e_value e_critical]. cbn [Z.eqb Pos.eqb andb].
  rewrite (C70_san dns emails ips uris uris') by assumption. cbn [gbind].
  assert (N : altEmpty E (mkAlt E dns emails (map ipBytes ips) uris') = false).
  { unfold altEmpty. cbn [an_dns an_emails an_ips an_uris].
    assert (Q : forall A (l : list A), l <> [] -> zlen l =? 0 = false).
    { intros A [|y l] K; [congruence|]. rewrite zlen_cons. pose proof (zlen_nonneg _ l). apply Z.eqb_neq. lia. }
    destruct HN as [K|[K|[K|K]]].
    - rewrite (Q _ _ K). reflexivity.
    - rewrite (Q _ _ K), andb_false_r. reflexivity.
    - rewrite (Q _ (map ipBytes ips)), andb_false_r; [reflexivity|]. destruct ips; [congruence|discriminate].
    - rewrite (Q _ uris'), andb_false_r; [reflexivity|]. destruct HU; [congruence|discriminate]. }
  rewrite N. reflexivity.
Qed.

(** An address of any other length is written and then refused. *)
Theorem C70_bad_ip : forall dns emails ips1 ip ips2 uris value,
  Forall ip_len ips1 -> ~ ip_len ip ->
  marshalSANs E (mkAlt E dns emails (ips1 ++ ip :: ips2) uris) = OK value -> small value ->
  parseSANExtension E value = Ret (ERR "x509: cannot parse IP address of wrong length").
Proof.
  intros dns emails ips1 ip ips2 uris value HI HB H HS. destruct (marshalSANs_inv _ _ H HS) as (-> & SC & HN).
  unfold parseSANExtension. rewrite forEachSAN_names by assumption. cbn [gbind]. unfold san_names, zeroAlt.
  cbn [an_dns an_emails an_ips an_uris]. rewrite !addSANs_app, addSANs_dns. cbn [gbind]. rewrite addSANs_app, addSANs_emails. cbn [gbind].
  rewrite map_app. cbn [map]. rewrite <- !app_assoc. rewrite addSANs_app, addSANs_ips by exact HI. cbn [gbind app addSANs].
  assert (BL : (zlen (ipBytes ip) =? 4) || (zlen (ipBytes ip) =? 16) = false).
  { assert (IB : ipBytes ip = ip).
    { unfold ipBytes, To4. unfold ip_len in HB. destruct (Z.eqb_spec (zlen ip) 4); [reflexivity|].
      destruct (Z.eqb_spec (zlen ip) 16); [exfalso; apply HB; right; assumption|]. reflexivity. }
    rewrite IB. apply orb_false_iff. rewrite !Z.eqb_neq. unfold ip_len in HB. lia. }
  unfold addSAN at 1. change (7 =? nameTypeEmail) with false. change (7 =? nameTypeDNS) with false.
  change (7 =? nameTypeURI) with false. change (7 =? nameTypeIP) with true. cbv iota. rewrite BL. reflexivity.
Qed.
(** Names of other kinds are skipped. *)
Theorem C70_other_kinds : forall tag data a, tag <> 1 -> tag <> 2 -> tag <> 6 -> tag <> 7 -> addSAN E a tag data = Ret (OK a).
Proof.
  intros tag data [d e i u] H1 H2 H6 H7. unfold addSAN.
  rewrite (proj2 (Z.eqb_neq tag nameTypeEmail) H1), (proj2 (Z.eqb_neq tag nameTypeDNS) H2),
    (proj2 (Z.eqb_neq tag nameTypeURI) H6), (proj2 (Z.eqb_neq tag nameTypeIP) H7). reflexivity.
Qed.
End Env.

(** The class of a name and whether it is constructed are not looked at: a name is taken for a DNS
    name, say, whenever its tag number is 2, also an INTEGER. *)
Definition any_name (q : Z * bool * (Z * list Z)) : list Z := tlv (ident (fst (fst q)) (fst (snd q)) (snd (fst q))) (snd (snd q)).
Theorem C70_class_ignored : forall l, Forall (fun q => small_header (fst (fst q)) (fst (snd q)) /\ zlen (snd (snd q)) < 2 ^ 31) l ->
  small (List.concat (map any_name l)) -> forEachSAN (tlv 48 (List.concat (map any_name l))) = OK (map snd l).
Proof.
  intros l HN HS. unfold forEachSAN.
  pose proof (elem_raw 0 16 true (List.concat (map any_name l)) ltac:(split; lia) HS) as ER. change (ident 0 16 true) with 48 in ER.
  rewrite <- (app_nil_r (tlv 48 _)). rewrite (elem_unmarshal _ _ _ _ _ _ ER). cbn [rbind]. change (zlen (@nil Z) =? 0) with true.
  cbn [negb rv_comp rv_tag rv_class rv_bytes Z.eqb Pos.eqb orb].
  assert (HF : (List.length l <= List.length (List.concat (map any_name l)))%nat).
  { clear. induction l as [|p r IH]; [cbn; lia|]. cbn [map List.concat List.length]. rewrite app_length.
    unfold any_name at 1, tlv. cbn [List.length app]. lia. }
  revert HF. generalize (List.length (List.concat (map any_name l))) as fuel. clear HS ER.
  induction HN as [|[[c b] [tag data]] r [H1 H2] HR IH]; intros fuel HF; [destruct fuel; reflexivity|].
  cbn [fst snd] in H1, H2. destruct fuel as [|fuel]; [cbn in HF; lia|]. cbn [map List.concat].
  assert (N : any_name (c, b, (tag, data)) ++ List.concat (map any_name r) <> []) by apply tlv_nonempty.
  cbn [sanLoop]. destruct (any_name (c, b, (tag, data)) ++ List.concat (map any_name r)) eqn:EE; [congruence|]. rewrite <- EE.
  rewrite (elem_unmarshal _ _ _ _ _ _ (elem_raw c tag b data H1 H2 : elem uRaw _ (any_name (c, b, (tag, data))))). cbn [rbind].
  rewrite IH by (cbn in HF; lia). reflexivity.
Qed.
Example C70_integer_as_dns : parseSANExtension noNet [48; 3; 2; 1; 97] = Ret (OK (mkAlt noNet [[97]] [] [] [])).
Proof. reflexivity. Qed.

(** DNS name "a.b", mailbox "m@b", 10.1.2.3 in its 16-byte form, the address ::1 and the URI "u", with
    a toy URL parser. *)
Definition toyNet : netEnv := mkEnv (list Z) (fun s => Some s) (fun _ => [97; 46; 98]) (fun u => u) (fun _ => false).
Definition C70_names : AltNames toyNet := mkAlt toyNet [[97; 46; 98]] [[109; 64; 98]]
  [[0; 0; 0; 0; 0; 0; 0; 0; 0; 0; 255; 255; 10; 1; 2; 3]; [0; 0; 0; 0; 0; 0; 0; 0; 0; 0; 0; 0; 0; 0; 0; 1]] [[117] : URL toyNet].
Definition C70_value : list Z :=
  [48; 37; 130; 3; 97; 46; 98; 129; 3; 109; 64; 98; 135; 4; 10; 1; 2; 3; 135; 16; 0; 0; 0; 0; 0; 0; 0; 0; 0; 0; 0; 0; 0; 0; 0; 1; 134; 1; 117].
Example C70_bytes : marshalSANs toyNet C70_names = OK C70_value.
Proof. vm_compute. reflexivity. Qed.
Example C70_back : parseSANExtension toyNet C70_value = Ret (OK (mkAlt toyNet [[97; 46; 98]] [[109; 64; 98]]
  [[10; 1; 2; 3]; [0; 0; 0; 0; 0; 0; 0; 0; 0; 0; 0; 0; 0; 0; 0; 1]] [[117] : URL toyNet])).
Proof.
  apply (C70_san toyNet [[97; 46; 98]] [[109; 64; 98]] (an_ips _ C70_names) [[117] : URL toyNet]).
  - constructor; [right; reflexivity|]. constructor; [right; reflexivity|constructor].
  - constructor; [|constructor]. split; [reflexivity|]. right.
    destruct (domain_accepted [97; 46; 98]) as (o & K & V). apply V. intros ->. discriminate K.
  - exact C70_bytes.
  - reflexivity.
Qed.
Example C70_five_bytes : marshalSANs toyNet (mkAlt toyNet [] [] [[1; 2; 3; 4; 5]] []) = OK [48; 7; 135; 5; 1; 2; 3; 4; 5] /\
  parseSANExtension toyNet [48; 7; 135; 5; 1; 2; 3; 4; 5] = Ret (ERR "x509: cannot parse IP address of wrong length").
Proof. split; reflexivity. Qed.
