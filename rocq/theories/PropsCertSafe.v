(** What the parsers of requests and certificates do with arbitrary bytes (C82, C83): they never
    panic, and exactly which part of a request its signature covers. *)
From Coq Require Import ZArith List Lia Bool String.
From Verif Require Import GoBase BeMin CbString CbStringProofs PropsCbString CbBuilder CbBuilderProofs PropsCbBuilder CbAsn1Proofs GoAsn1 GoAsn1Proofs.
From Verif Require Import FpField WeiGroup Sm2Group GoElliptic Sm2Spec Sm2 Sm2Proofs Sm2Proofs2 PropsSm2 Sm2Der PropsSm2Der GoText GoPkix CertText PropsCertText Cert CertRt PropsCertExt PropsCertNames PropsCertSan PropsCertBuild PropsCertTime PropsCertDN CertRt2 PropsCert PropsCertReq.
Import ListNotations.
Open Scope Z_scope.

(** Ends without a panic. *)
Definition ends {A} (x : go A) : Prop := exists v, x = Ret v.
Lemma ends_ret : forall A (v : A), ends (Ret v).
Proof. intros A v. exists v. reflexivity. Qed.
Lemma ends_bind : forall A B (x : go A) (f : A -> go B), ends x -> (forall v, x = Ret v -> ends (f v)) -> ends (bind x f).
Proof. intros A B x f [v ->] H. cbn [bind]. apply H. reflexivity. Qed.
Lemma ends_gbind : forall A B (x : go (res A)) (f : A -> go (res B)), ends x -> (forall v, x = Ret (OK v) -> ends (f v)) -> ends (gbind x f).
Proof. intros A B x f [[v|m] ->] H; cbn [gbind]; [apply H; reflexivity|apply ends_ret]. Qed.

(** * Bit strings *)

Lemma lor_byte : forall a b, byte a -> byte b -> byte (Z.lor a b).
Proof. intros a b Ha Hb. unfold byte in *. pose proof (lor_range 8 a b ltac:(lia)) as H. change (2 ^ 8) with 256 in H. lia. Qed.
Lemma shiftr_byte : forall b n, byte b -> 0 <= n -> byte (Z.shiftr b n).
Proof.
  intros b n Hb Hn. unfold byte in *. rewrite Z.shiftr_div_pow2 by exact Hn. assert (0 < 2 ^ n) by (apply Z.pow_pos_nonneg; lia).
  split; [apply Z.div_pos; lia|]. pose proof (Z.div_le_upper_bound b (2 ^ n) 255 ltac:(lia)). nia.
Qed.
Lemma u8_byte : forall x, byte (u8 x).
Proof. intros x. unfold u8, byte. pose proof (Z.mod_pos_bound x 256 ltac:(lia)). lia. Qed.
Lemma align_bytes : forall shift l prev, 0 <= shift -> bytes l -> bytes (alignLoop shift prev l).
Proof.
  intros shift l. induction l as [|b l IH]; intros prev Hs HB; [constructor|]. apply bytes_cons in HB. cbn [alignLoop]. apply bytes_cons. split.
  - apply lor_byte; [apply u8_byte|apply shiftr_byte; [apply HB|exact Hs]].
  - apply IH; [exact Hs|apply HB].
Qed.
Lemma rightAlign_bytes : forall b, bytes (bs_bytes b) -> bytes (rightAlign b).
Proof.
  intros b H. unfold rightAlign. destruct (_ || _); [exact H|]. apply align_bytes; [|exact H].
  destruct (Z_le_dec 0 (bs_len b)) as [L|L]; [pose proof (Z.rem_bound_pos (bs_len b) 8); lia|].
  pose proof (Z.rem_nonpos (bs_len b) 8 ltac:(lia) ltac:(lia)). lia.
Qed.
(** Each key bit is looked up in the bytes that are there. *)
Lemma usageLoop_ends : forall n i b u, 0 <= i -> bits_fit b -> ends (usageLoop n i b u).
Proof.
  induction n as [|n IH]; intros i b u Hi [HB HL]; cbn [usageLoop]; [apply ends_ret|]. apply ends_bind.
  - unfold bitsAt. destruct ((i <? 0) || (bs_len b <=? i)) eqn:EI; [apply ends_ret|]. apply orb_false_iff in EI. destruct EI as [_ EI]. apply Z.leb_gt in EI.
    assert (0 <= i / 8 < zlen (bs_bytes b)) as K.
    { split; [apply Z.div_pos; lia|]. apply Z.div_lt_upper_bound; lia. }
    rewrite (go_index_ret _ (bs_bytes b) (i / 8) 0 K). apply ends_ret.
  - intros v _. apply IH; [lia|split; assumption].
Qed.

(** * Name constraints *)

Lemma read_ends : forall s tag, bytes (contents s) -> exists ok out s', ReadASN1 s None tag = Ret (ok, out, s') /\
  (ok = true -> bytes (contents out) /\ bytes (contents s') /\ (List.length (contents s') < List.length (contents s))%nat).
Proof.
  intros s tag HB. destruct (element_em s HB) as [(t & c & r & HE)|HE].
  - rewrite (proj1 (C24_read_asn1 s None tag HB) t c r HE). do 3 eexists. split; [reflexivity|]. intros _. cbn [contents].
    destruct HE as (-> & _). cbn [contents] in *. apply bytes_app in HB. destruct HB as [B1 B2]. split; [exact (bytes_in_tlv _ _ B1)|]. split; [exact B2|].
    rewrite app_length. unfold tlv. cbn [List.length]. lia.
  - rewrite (proj2 (C24_read_asn1 s None tag HB) HE). do 3 eexists. split; [reflexivity|]. intros K. discriminate K.
Qed.
Lemma domain_ends : forall d, ends (domainToReverseLabels d).
Proof. intros d. destruct (domain_accepted d) as (o & H & _). exists o. exact H. Qed.
Lemma mailbox_ends : forall d, ends (parseRFC2821Mailbox d).
Proof. intros d. destruct (parseRFC2821Mailbox_spec d) as (o & H & _). exists o. exact H. Qed.

Section Env.
Variable E : netEnv.

Lemma parseSubtree_ends : forall tag value c u, ends (parseSubtree E tag value c u).
Proof.
  intros tag value [dns ips emails uris] u. unfold parseSubtree.
  destruct (tag =? contextSpecific 2).
  { destruct (negb _); [apply ends_ret|]. apply ends_bind; [apply domain_ends|]. intros [x|] _; apply ends_ret. }
  destruct (tag =? contextSpecific 7).
  { cbv zeta. apply ends_bind.
    - destruct (Z.eqb_spec (zlen value) 8) as [L|_]; [|destruct (Z.eqb_spec (zlen value) 32) as [L|_]; [|apply ends_ret]];
        rewrite L, !go_slice_ret by lia; apply ends_ret.
    - intros [[ip mask]|] _; [destruct (negb _)|]; apply ends_ret. }
  destruct (tag =? contextSpecific 1).
  { destruct (negb _); [apply ends_ret|]. apply ends_bind.
    - destruct (existsb _ _); apply ends_bind; try apply mailbox_ends; try apply domain_ends; intros; apply ends_ret.
    - intros ok _. destruct (negb ok); apply ends_ret. }
  destruct (tag =? contextSpecific 6); [|apply ends_ret].
  destruct (negb _); [apply ends_ret|]. destruct (isIP E value); [apply ends_ret|].
  apply ends_bind; [apply domain_ends|]. intros [x|] _; apply ends_ret.
Qed.
Lemma getValues_ends : forall fuel s c u, bytes (contents s) -> (List.length (contents s) <= fuel)%nat -> ends (getValues E fuel s c u).
Proof.
  induction fuel as [|fuel IH]; intros s c u HB HF.
  - destruct s as [[|x l]|]; cbn [contents List.length] in HF; try lia; apply ends_ret.
  - cbn [getValues]. destruct (Empty s); [apply ends_ret|].
    destruct (read_ends s SEQUENCE HB) as (ok & out & s' & HR & HO). rewrite HR. cbn [bind]. destruct ok; cbn [negb]; [|apply ends_ret].
    destruct (HO eq_refl) as (B1 & B2 & L). unfold ReadAnyASN1.
    destruct (C22_never_panics out None 0 true B1) as (ok' & v & t & s'' & HA & _). rewrite HA. cbn [bind]. destruct ok'; cbn [negb]; [|apply ends_ret].
    apply ends_gbind; [apply parseSubtree_ends|]. intros [c' u'] _. apply IH; [exact B2|lia].
Qed.
Lemma optional_ends : forall s tag, bytes (contents s) -> exists ok out have s', ReadOptionalASN1 s None tag = Ret (ok, out, have, s') /\
  (ok = true -> bytes (contents out) /\ bytes (contents s')).
Proof.
  intros s tag HB. unfold ReadOptionalASN1. rewrite C24_peek. cbn [bind]. destruct (match contents s with [] => false | t :: _ => t =? tag end).
  - destruct (read_ends s tag HB) as (ok & out & s' & HR & HO). rewrite HR. cbn [bind]. do 4 eexists. split; [reflexivity|].
    intros K. destruct (HO K) as (B1 & B2 & _). split; assumption.
  - do 4 eexists. split; [reflexivity|]. intros _. split; [constructor|exact HB].
Qed.
Lemma parseNC_ends : forall value, bytes value -> ends (parseNameConstraintsExtension E value).
Proof.
  intros value HB. unfold parseNameConstraintsExtension.
  destruct (read_ends (Some value) SEQUENCE HB) as (ok & top & outer & HR & HO). rewrite HR. cbn [bind].
  destruct ok; cbn [negb orb]; [|apply ends_ret]. destruct (HO eq_refl) as (B1 & _ & _). destruct (Empty outer); cbn [negb]; [|apply ends_ret].
  destruct (optional_ends top (constructed (contextSpecific 0)) B1) as (ok & pm & hp & top2 & H1 & O1). rewrite H1. cbn [bind].
  destruct ok; cbn [negb orb]; [|apply ends_ret]. destruct (O1 eq_refl) as (Bp & Bt).
  destruct (optional_ends top2 (constructed (contextSpecific 1)) Bt) as (ok & ex & hx & top3 & H2 & O2). rewrite H2. cbn [bind].
  destruct ok; cbn [negb orb]; [|apply ends_ret]. destruct (O2 eq_refl) as (Bx & _). destruct (Empty top3); cbn [negb]; [|apply ends_ret].
  destruct (_ || _); [apply ends_ret|].
  apply ends_gbind; [apply getValues_ends; [exact Bp|lia]|]. intros [p u] _.
  apply ends_gbind; [apply getValues_ends; [exact Bx|lia]|]. intros [x u'] _. apply ends_ret.
Qed.

(** * Subject alternative names *)

Lemma addSANs_ends : forall l a, ends (addSANs E a l).
Proof.
  induction l as [|[tag data] l IH]; intros a; cbn [addSANs]; [apply ends_ret|]. apply ends_gbind; [|intros; apply IH].
  destruct a as [dns emails ips uris]. unfold addSAN.
  destruct (tag =? nameTypeEmail); [apply ends_ret|]. destruct (tag =? nameTypeDNS); [apply ends_ret|].
  destruct (tag =? nameTypeURI).
  - destruct (urlParse E data) as [u|]; [|apply ends_ret]. apply ends_bind.
    + destruct (0 <? _); [|apply ends_ret]. apply ends_bind; [apply domain_ends|]. intros; apply ends_ret.
    + intros [|] _; apply ends_ret.
  - destruct (tag =? nameTypeIP); [|apply ends_ret]. destruct (_ || _); apply ends_ret.
Qed.
Lemma parseSAN_ends : forall value, ends (parseSANExtension E value).
Proof. intros value. unfold parseSANExtension. apply ends_gbind; [apply ends_ret|]. intros; apply addSANs_ends. Qed.
Lemma requestSANs_ends : forall l a, ends (requestSANs E l a).
Proof.
  induction l as [|e l IH]; intros a; cbn [requestSANs]; [apply ends_ret|]. destruct (oidEqual _ _); [|apply IH].
  apply ends_gbind; [apply parseSAN_ends|]. intros; apply IH.
Qed.

(** * C83: arbitrary bytes *)

(** Reading a request never panics, whatever the bytes are. *)
Theorem C83_request : forall der, ends (ParseCertificateRequest E der).
Proof.
  intros der. unfold ParseCertificateRequest. apply ends_gbind; [apply ends_ret|]. intros [c rest] _. destruct (negb _); [apply ends_ret|].
  unfold parseCertificateRequest. destruct (negb _); [apply ends_ret|]. destruct (negb _); [apply ends_ret|].
  apply ends_gbind; [apply ends_ret|]. intros pub _. apply ends_gbind; [apply ends_ret|]. intros [s r] _. destruct (negb _); [apply ends_ret|].
  apply ends_gbind; [apply ends_ret|]. intros exts _. apply ends_gbind; [apply requestSANs_ends|]. intros san _. apply ends_ret.
Qed.

Lemma unmarshalAll_sat : forall A (u : uty A) P zero l v, upred u P -> P zero -> bytes l -> unmarshalAll u zero l = OK v -> P v.
Proof.
  intros A u P zero l v HU HZ HB H. unfold unmarshalAll in H. destruct (unmarshal u zero l) as [[v' r]|m] eqn:EU; [|discriminate H]. cbn [rbind] in H.
  destruct (negb _); [discriminate H|]. apply ok_inj in H. subst v'. unfold unmarshal in EU. exact (proj1 (field_sat _ _ _ _ _ _ _ _ HU HZ HB EU)).
Qed.
Lemma parseExtension_ends : forall e f, bytes (e_value e) -> ends (parseExtension E e f).
Proof.
  intros e f HB. unfold parseExtension.
  match goal with |- ends (match ?X with Some _ => _ | None => _ end) => destruct X as [n|] end.
  - destruct (n =? 15).
    { apply ends_gbind; [apply ends_ret|]. intros b Hb. apply ret_inj in Hb. apply ends_bind; [|intros; apply ends_ret]. apply usageLoop_ends; [lia|].
      apply (unmarshalAll_sat _ uBits bits_fit zeroBits (e_value e) b); [exact bits_sat| |exact HB|exact Hb]. split; [constructor|unfold zeroBits, zlen; cbn; lia]. }
    destruct (n =? 19). { apply ends_gbind; [apply ends_ret|]. intros [a b] _. apply ends_ret. }
    destruct (n =? 17). { apply ends_gbind; [apply parseSAN_ends|]. intros a _. apply ends_ret. }
    destruct (n =? 30). { apply ends_gbind; [apply parseNC_ends; exact HB|]. intros [[p x] u] _. apply ends_ret. }
    destruct (n =? 31). { apply ends_gbind; [apply ends_ret|]. intros a _. apply ends_ret. }
    destruct (n =? 35). { apply ends_gbind; [apply ends_ret|]. intros a _. apply ends_ret. }
    destruct (n =? 37). { apply ends_gbind; [apply ends_ret|]. intros a _. apply ends_ret. }
    destruct (n =? 14). { apply ends_gbind; [apply ends_ret|]. intros a _. apply ends_ret. }
    destruct (n =? 32); [|apply ends_ret]. apply ends_gbind; [apply ends_ret|]. intros a _. apply ends_ret.
  - destruct (oidEqual _ _); [|apply ends_ret]. apply ends_gbind; [apply ends_ret|]. intros a _. apply ends_ret.
Qed.
Lemma parseExtensions_ends : forall l f u, Forall (fun e => bytes (e_value e)) l -> ends (parseExtensions E l f u).
Proof.
  induction l as [|e l IH]; intros f u H; cbn [parseExtensions]; [apply ends_ret|]. inversion H; subst.
  apply ends_gbind; [apply parseExtension_ends; assumption|]. intros [f' u'] _. apply IH. assumption.
Qed.

Definition tbs_bytes (t : TBSCertificate) : Prop :=
  bytes (tb_raw t) /\ bytes (rv_full (tb_subject t)) /\ bytes (rv_full (tb_issuer t)) /\ bits_fit (pki_key (tb_key t)) /\
  match tb_exts t with Some l => Forall (fun e => bytes (e_value e)) l | None => True end.
Lemma zeroBits_fit : bits_fit zeroBits.
Proof. split; [constructor|unfold zeroBits, zlen; cbn; lia]. Qed.
Lemma zeroPKI_fit : bits_fit (pki_key zeroPKI).
Proof. exact zeroBits_fit. Qed.
Lemma pki_sat : upred uPKI (fun k => bits_fit (pki_key k)).
Proof.
  intros utag h full body v HF HB H. cbn [uPKI uStruct u_body] in H.
  destruct (parseField uAlg zeroAlg noParams body) as [[a l1]|m] eqn:E1; [|discriminate H]. cbn [rbind] in H.
  destruct (field_sat' _ _ _ _ _ _ _ _ (any_sat _ uAlg) I HB E1) as [_ B1].
  destruct (parseField uBits zeroBits noParams l1) as [[k l2]|m] eqn:E2; [|discriminate H]. cbn [rbind] in H. apply ok_inj in H. subst v.
  exact (proj1 (field_sat' _ _ _ _ _ _ _ _ bits_sat zeroBits_fit B1 E2)).
Qed.
Lemma raw_zero : bytes (rv_full zeroRaw) /\ bytes (rv_bytes zeroRaw).
Proof. split; constructor. Qed.
Lemma tbs_sat : upred uTBS tbs_bytes.
Proof.
  intros utag h full body v HF HB H. cbn [uTBS uStruct u_body] in H.
  destruct (parseField uInt 0 (explicitTag 0) body) as [[v1 l1]|m] eqn:E1; [|discriminate H]. cbn [rbind] in H.
  destruct (field_sat' _ _ _ _ _ _ _ _ (any_sat _ uInt) I HB E1) as [_ B1].
  destruct (parseField uBigInt 0 noParams l1) as [[v2 l2]|m] eqn:E2; [|discriminate H]. cbn [rbind] in H.
  destruct (field_sat' _ _ _ _ _ _ _ _ (any_sat _ uBigInt) I B1 E2) as [_ B2].
  destruct (parseField uAlg zeroAlg noParams l2) as [[v3 l3]|m] eqn:E3; [|discriminate H]. cbn [rbind] in H.
  destruct (field_sat' _ _ _ _ _ _ _ _ (any_sat _ uAlg) I B2 E3) as [_ B3].
  destruct (parseField uRaw zeroRaw noParams l3) as [[v4 l4]|m] eqn:E4; [|discriminate H]. cbn [rbind] in H.
  destruct (field_sat' _ _ _ _ _ _ _ _ raw_sat raw_zero B3 E4) as [[Bi _] B4].
  destruct (parseField uValidity (zeroTime, zeroTime) noParams l4) as [[v5 l5]|m] eqn:E5; [|discriminate H]. cbn [rbind] in H.
  destruct (field_sat' _ _ _ _ _ _ _ _ (any_sat _ uValidity) I B4 E5) as [_ B5].
  destruct (parseField uRaw zeroRaw noParams l5) as [[v6 l6]|m] eqn:E6; [|discriminate H]. cbn [rbind] in H.
  destruct (field_sat' _ _ _ _ _ _ _ _ raw_sat raw_zero B5 E6) as [[Bs _] B6].
  destruct (parseField uPKI zeroPKI noParams l6) as [[v7 l7]|m] eqn:E7; [|discriminate H]. cbn [rbind] in H.
  destruct (field_sat' _ _ _ _ _ _ _ _ pki_sat zeroPKI_fit B6 E7) as [Bk B7].
  destruct (parseField uBits zeroBits (optTag 1) l7) as [[v8 l8]|m] eqn:E8; [|discriminate H]. cbn [rbind] in H.
  destruct (field_sat' _ _ _ _ _ _ _ _ (any_sat _ uBits) I B7 E8) as [_ B8].
  destruct (parseField uBits zeroBits (optTag 2) l8) as [[v9 l9]|m] eqn:E9; [|discriminate H]. cbn [rbind] in H.
  destruct (field_sat' _ _ _ _ _ _ _ _ (any_sat _ uBits) I B8 E9) as [_ B9].
  destruct (parseField (uSlice uExtension zeroExt false) None (explicitTag 3) l9) as [[v10 l10]|m] eqn:E10; [|discriminate H]. cbn [rbind] in H.
  apply ok_inj in H. subst v. unfold tbs_bytes. cbn [tb_raw tb_subject tb_issuer tb_key tb_exts].
  split; [exact HF|]. split; [exact Bs|]. split; [exact Bi|]. split; [exact Bk|].
  exact (proj1 (field_sat' _ _ _ None _ _ _ _ (slice_sat _ uExtension (fun e => bytes (e_value e)) zeroExt false extension_sat (Forall_nil _)) I B9 E10)).
Qed.
Lemma zero_tbs_bytes : tbs_bytes zeroTBS.
Proof. split; [constructor|]. split; [constructor|]. split; [constructor|]. split; [exact zeroBits_fit|exact I]. Qed.
Lemma cert_sat : upred uCert (fun c => tbs_bytes (ct_tbs c) /\ bits_fit (ct_sig c)).
Proof.
  intros utag h full body v HF HB H. cbn [uCert uStruct u_body] in H.
  destruct (parseField uTBS zeroTBS noParams body) as [[v1 l1]|m] eqn:E1; [|discriminate H]. cbn [rbind] in H.
  destruct (field_sat' _ _ _ _ _ _ _ _ tbs_sat zero_tbs_bytes HB E1) as [B0 B1].
  destruct (parseField uAlg zeroAlg noParams l1) as [[v2 l2]|m] eqn:E2; [|discriminate H]. cbn [rbind] in H.
  destruct (field_sat' _ _ _ _ _ _ _ _ (any_sat _ uAlg) I B1 E2) as [_ B2].
  destruct (parseField uBits zeroBits noParams l2) as [[v3 l3]|m] eqn:E3; [|discriminate H]. cbn [rbind] in H.
  apply ok_inj in H. subst v. split; [exact B0|]. exact (proj1 (field_sat' _ _ _ _ _ _ _ _ bits_sat zeroBits_fit B2 E3)).
Qed.
Lemma zero_cert_bytes : tbs_bytes (ct_tbs zeroCert) /\ bits_fit (ct_sig zeroCert).
Proof. exact (conj zero_tbs_bytes zeroBits_fit). Qed.
(** Nor does reading a certificate. *)
Theorem C83_certificate : forall der, bytes der -> ends (ParseCertificate E der).
Proof.
  intros der HB. unfold ParseCertificate. apply ends_gbind; [apply ends_ret|]. intros [c rest] Hc. apply ret_inj in Hc.
  assert (HT : tbs_bytes (ct_tbs c)).
  { unfold unmarshal in Hc. exact (proj1 (proj1 (field_sat _ _ _ _ _ _ _ _ cert_sat zero_cert_bytes HB Hc))). }
  destruct (negb _); [apply ends_ret|].
  unfold parseCertificate. destruct (negb _); [apply ends_ret|]. destruct (negb _); [apply ends_ret|].
  apply ends_gbind; [apply ends_ret|]. intros pub _. apply ends_gbind; [apply ends_ret|]. intros s _. apply ends_gbind; [apply ends_ret|]. intros i _.
  apply ends_gbind; [|intros [f u] _; apply ends_ret]. apply parseExtensions_ends.
  destruct HT as (_ & _ & _ & _ & HX). destruct (tb_exts (ct_tbs c)); [exact HX|constructor].
Qed.

(** * Verification of a request *)

Lemma Unmarshal_key : forall data x y, bytes data -> Unmarshal curveP curveB data = Some (x, y) -> key_ok (mkPub x y).
Proof.
  intros data x y HB H. unfold Unmarshal in H. destruct (negb _); [discriminate H|]. destruct (negb _); [discriminate H|]. cbv zeta in H.
  destruct (_ || _) eqn:EL; [discriminate H|]. apply orb_false_iff in EL. destruct EL as [L1 L2]. apply Z.leb_gt in L1. apply Z.leb_gt in L2.
  destruct (negb (IsOnCurve _ _ _ _)) eqn:EC; [discriminate H|]. apply negb_false_iff in EC.
  pose proof (be_dec_bound _ (bytes_sub data 1 33 HB)). pose proof (be_dec_bound _ (bytes_sub data 33 65 HB)).
  assert (x = be_dec (sub data 1 33) /\ y = be_dec (sub data 33 65)) as [-> ->] by (split; congruence).
  unfold key_ok. cbn [X Y]. split; [lia|]. split; [lia|exact EC].
Qed.
Lemma parsed_key : forall k pub, bits_fit (pki_key k) -> parsePublicKey k = OK pub -> key_ok pub.
Proof.
  intros k pub [HB _] H. unfold parsePublicKey in H. destruct (unmarshal uOID [] _) as [[o r]|m]; [|discriminate H]. cbn [rbind] in H.
  destruct (negb _); [discriminate H|]. destruct (negb _); [discriminate H|].
  destruct (Unmarshal _ _ _) as [[x y]|] eqn:EU; [|discriminate H]. apply ok_inj in H. subst pub.
  apply (Unmarshal_key (rightAlign (pki_key k))); [apply rightAlign_bytes; exact HB|exact EU].
Qed.
(** The key in a request that is read is a point of the curve. *)
Theorem C82_key_on_curve : forall der csr pub, bytes der -> ParseCertificateRequest E der = Ret (OK csr) -> r_PublicKey E csr = KeySM2 pub -> key_ok pub.
Proof.
  intros der csr pub HB H HP. destruct (parsed_request E der csr H HB) as (c & pub' & more & _ & _ & _ & _ & HT & BT & _ & _ & HP' & K & _).
  rewrite HP in HP'. injection HP' as <-. destruct K as (k & Hk & _ & Hp).
  destruct (tbsCsr_elem _ _ HT BT) as (_ & Hk' & Bk & _).
  destruct (elem_seq _ _ _ _ Hk) as (d & Hd & _ & HD).
  assert (BS : bytes (r_RawSPKI E csr)).
  { destruct (parsed_request E der csr H HB) as (c2 & _ & _ & _ & _ & _ & _ & T2 & B2 & _ & R2 & _). destruct (tbsCsr_elem _ _ T2 B2) as (_ & _ & BB & _). rewrite R2. exact BB. }
  rewrite Hd in BS. pose proof (bytes_in_tlv _ _ BS) as BD.
  apply (parsed_key k pub); [|exact Hp]. exact (pki_sat 0 (mkTL 0 0 0 false) _ _ _ BS BD (eq_trans (f_equal (fun x => u_body uPKI 0 (mkTL 0 0 0 false) x d) (eq_sym Hd)) HD)).
Qed.

Lemma tlv_same : forall a d, tlv 48 a = tlv 48 d -> zlen d < 2 ^ 31 -> a = d.
Proof.
  intros a d H L. pose proof (zlen_tlv_ge 48 a) as G. rewrite H in G. pose proof (zlen_tlv_le 48 d ltac:(lia)).
  rewrite <- (app_nil_r (tlv 48 a)), <- (app_nil_r (tlv 48 d)) in H. apply tlv_inj in H; [apply H|lia|lia].
Qed.
(** The elements of a request: the signed part, the algorithm and the signature; the rest is ignored. *)
Lemma csr_parts : forall c e, elem uCsr c e -> bytes e ->
  exists tbs ea es more, e = tlv 48 (tbs ++ ea ++ es ++ more) /\ elem uTbsCSR (cr_tbs c) tbs /\ elem uAlg (cr_alg c) ea /\ elem uBits (cr_sig c) es /\
    cr_raw c = e /\ tr_raw (cr_tbs c) = tbs /\ bits_fit (cr_sig c) /\ bytes tbs.
Proof.
  intros c e H HB. destruct (csr_elem c e H HB) as (_ & _ & CR & _ & _).
  destruct (elem_seq _ _ _ _ H) as (d & -> & HL & HD). apply bytes_in_tlv in HB.
  apply (struct_step _ _ _ zeroTbsCSR d _ c HB) in HD. destruct HD as (t & et & r & -> & HT & BT & BR & HD). cbv beta iota in HD.
  apply (struct_step _ _ _ zeroAlg r _ c BR) in HD. destruct HD as (a & ea & r2 & -> & HA & BA & BR2 & HD). cbv beta iota in HD.
  destruct (parseField uBits zeroBits noParams r2) as [[s r3]|m] eqn:EP; [|discriminate HD]. cbn [rbind] in HD. apply ok_inj in HD. subst c.
  pose proof (proj1 (field_sat' _ _ _ _ _ _ _ _ bits_sat zeroBits_fit BR2 EP)) as BF.
  destruct (field_inv _ uBits zeroBits TagBitString false r2 s r3 BR2 eq_refl (fun _ => eq_refl) ltac:(unfold TagBitString; lia) eq_refl EP) as (body & -> & SH & LB & HV).
  exists et, ea, (tlv (ident 0 3 false) body), r3. cbn [cr_tbs cr_alg cr_sig cr_raw] in *.
  split; [reflexivity|]. split; [exact HT|]. split; [exact HA|]. split.
  { exists 0, 3, false, body. split; [reflexivity|]. split; [exact SH|]. split; [exact LB|]. split; [right; repeat split|exact HV]. }
  split; [exact CR|]. split; [exact (proj1 (tbsCsr_elem _ _ HT BT))|]. split; [exact BF|exact BT].
Qed.
Lemma csr_made : forall t a s tbs ea es more, elem uTbsCSR t tbs -> elem uAlg a ea -> elem uBits s es -> zlen (tbs ++ ea ++ es ++ more) < 2 ^ 31 ->
  elem uCsr (mkCsr (tlv 48 (tbs ++ ea ++ es ++ more)) t a s) (tlv 48 (tbs ++ ea ++ es ++ more)).
Proof.
  intros t a s tbs ea es more HT HA HS HL. change 48 with (ident 0 16 true). apply elem_struct; [exact HL|].
  rewrite (elem_parse _ uTbsCSR t tbs _ _ HT). cbn [rbind]. rewrite (elem_parse _ uAlg a ea _ _ HA). cbn [rbind].
  rewrite (elem_parse _ uBits s es _ _ HS). reflexivity.
Qed.
Lemma verify_made : forall c e id, elem uCsr c e ->
  VerifyDERCSRSign E e id = gbind (parseCertificateRequest E c) (fun csr => bind (VerifyCSRSign E csr id) (fun b => Ret (OK b))).
Proof.
  intros c e id H. unfold VerifyDERCSRSign, ParseCertificateRequest. rewrite <- (app_nil_r e) at 1. rewrite (elem_unmarshal _ uCsr _ _ _ _ H). reflexivity.
Qed.
Lemma unsigned_parts : forall raw raw' t a a' s s' id, alg_oid a = alg_oid a' -> rightAlign s = rightAlign s' ->
  gbind (parseCertificateRequest E (mkCsr raw t a s)) (fun csr => bind (VerifyCSRSign E csr id) (fun b => Ret (OK b))) =
  gbind (parseCertificateRequest E (mkCsr raw' t a' s')) (fun csr => bind (VerifyCSRSign E csr id) (fun b => Ret (OK b))).
Proof.
  intros raw raw' t a a' s s' id HA HS. unfold parseCertificateRequest. cbn [cr_raw cr_tbs cr_alg cr_sig]. rewrite HA, HS.
  destruct (negb _); [reflexivity|]. destruct (negb _); [reflexivity|].
  destruct (parsePublicKey (tr_key t)) as [pub|m]; [|reflexivity]. cbn [gbind].
  destruct (unmarshal uRDNSequence [] (rv_full (tr_subject t))) as [[sj r]|m]; [|reflexivity]. cbn [gbind]. destruct (negb _); [reflexivity|].
  destruct (parseCSRExtensions (tr_attrs t)) as [x|m]; [|reflexivity]. cbn [gbind].
  destruct (requestSANs E x (zeroAlt E)) as [[san|m]|k]; reflexivity.
Qed.
(** The verdict depends only on the signed part, the OID of the algorithm and the signature's bits:
    parameters of the algorithm and whatever follows the signature are not looked at. *)
Theorem C82_unsigned : forall t a a' s tbs ea ea' es more more' id,
  elem uTbsCSR t tbs -> elem uAlg a ea -> elem uAlg a' ea' -> elem uBits s es -> alg_oid a = alg_oid a' ->
  zlen (tbs ++ ea ++ es ++ more) < 2 ^ 31 -> zlen (tbs ++ ea' ++ es ++ more') < 2 ^ 31 ->
  VerifyDERCSRSign E (tlv 48 (tbs ++ ea ++ es ++ more)) id = VerifyDERCSRSign E (tlv 48 (tbs ++ ea' ++ es ++ more')) id.
Proof.
  intros t a a' s tbs ea ea' es more more' id HT HA HA' HS HO L L'.
  rewrite (verify_made _ _ id (csr_made t a s tbs ea es more HT HA HS L)), (verify_made _ _ id (csr_made t a' s tbs ea' es more' HT HA' HS L')).
  apply unsigned_parts; [exact HO|reflexivity].
Qed.
(** A request that verifies can be extended by bytes that are not signed. *)
Theorem C82_malleable : forall der id body more, bytes der -> VerifyDERCSRSign E der id = Ret (OK true) -> der = tlv 48 body ->
  zlen (body ++ more) < 2 ^ 31 -> VerifyDERCSRSign E (tlv 48 (body ++ more)) id = Ret (OK true).
Proof.
  intros der id body more HB HV HD HL. rewrite <- HV. unfold VerifyDERCSRSign in HV. apply gbind_ok in HV. destruct HV as (csr & HP & _).
  destruct (parsed_request E der csr HP HB) as (c & _ & _ & HC & _).
  destruct (csr_parts c der HC HB) as (tbs & ea & es & more0 & HE & HT & HA & HS & _).
  assert (body = tbs ++ ea ++ es ++ more0) as ->.
  { destruct (elem_seq _ _ _ _ HC) as (d & Hd & Ld & _). change (ident 0 16 true) with 48 in Hd. rewrite Hd in HD, HE. symmetry in HD, HE.
    rewrite (tlv_same _ _ HD Ld), (tlv_same _ _ HE Ld). reflexivity. }
  rewrite HE. rewrite <- !app_assoc in *. symmetry. apply (C82_unsigned (cr_tbs c) (cr_alg c) (cr_alg c) (cr_sig c)); try assumption; [reflexivity|].
  rewrite !zlen_app in *. pose proof (zlen_nonneg _ more). lia.
Qed.

(** Verification never panics. It fails when the request cannot be read; else it accepts exactly when
    the signature is made of two integers that satisfy the verification equation for the key in the
    request and for the bytes of the first element. *)
Theorem C82_verify : forall der id, bytes der -> good_id id ->
  (exists m, ParseCertificateRequest E der = Ret (ERR m) /\ VerifyDERCSRSign E der id = Ret (ERR m)) \/
  exists csr tbs more pub b, ParseCertificateRequest E der = Ret (OK csr) /\ der = tlv 48 (tbs ++ more) /\ r_RawTBS E csr = tbs /\
    r_PublicKey E csr = KeySM2 pub /\ key_ok pub /\ VerifyDERCSRSign E der id = Ret (OK b) /\
    (b = true <-> exists r s er es inside after, r_Signature E csr = tlv 48 (er ++ es ++ inside) ++ after /\ der_integer r er /\ der_integer s es /\
       zlen (er ++ es ++ inside) < 2 ^ 31 /\ verifies (A (kf (X pub)) (kf (Y pub))) (msg_e (effective_id id) (X pub) (Y pub) tbs) r s).
Proof.
  intros der id HB HI. destruct (C83_request der) as [[csr|m] HP].
  2:{ left. exists m. split; [exact HP|]. unfold VerifyDERCSRSign. rewrite HP. reflexivity. }
  right. destruct (parsed_request E der csr HP HB) as (c & pub & more & HC & HD & _ & _ & HT & BT & _ & _ & PK & _ & SG & _).
  pose proof (C82_key_on_curve der csr pub HB HP PK) as KO. pose proof KO as (Kx & Ky & KC). pose proof curveP_lt as CP.
  destruct (csr_parts c der HC HB) as (_ & _ & _ & _ & _ & _ & _ & _ & _ & _ & [SF _] & _).
  assert (BS : bytes (r_Signature E csr)) by (rewrite SG; apply rightAlign_bytes; exact SF).
  assert (GM : good_msg (r_RawTBS E csr)).
  { split; [exact BT|]. split; [exact (elem_nonempty _ _ _ _ HT)|]. destruct (elem_seq _ _ _ _ HC) as (d & Hd & Ld & _).
    change (ident 0 16 true) with 48 in Hd. rewrite HD in Hd. apply tlv_same in Hd; [|exact Ld]. subst d. rewrite zlen_app in Ld. pose proof (zlen_nonneg _ more). lia. }
  assert (V : exists b, Verify pub id (r_RawTBS E csr) (r_Signature E csr) = Ret b /\
    (b = true <-> exists r s er es inside after, r_Signature E csr = tlv 48 (er ++ es ++ inside) ++ after /\ der_integer r er /\ der_integer s es /\
       zlen (er ++ es ++ inside) < 2 ^ 31 /\ verifies (A (kf (X pub)) (kf (Y pub))) (msg_e (effective_id id) (X pub) (Y pub) (r_RawTBS E csr)) r s)).
  { unfold Verify. destruct (UnmarshalSign (r_Signature E csr)) as [[r s]|m] eqn:EU.
    - destruct (C46_verify_iff_equation pub id (r_RawTBS E csr) r s ltac:(lia) ltac:(lia) KC HI GM) as (b & Hb & Hi).
      exists b. split; [exact Hb|]. rewrite Hi. split.
      + intros HV. apply C55_unmarshal_accepts in EU; [|exact BS]. destruct EU as (er & es & inside & after & D1 & D2 & D3 & D4).
        exists r, s, er, es, inside, after. auto.
      + intros (r' & s' & er & es & inside & after & D3 & D1 & D2 & D4 & HV).
        assert (EU' : UnmarshalSign (r_Signature E csr) = OK (r', s')) by (apply C55_unmarshal_accepts; [exact BS|]; exists er, es, inside, after; auto).
        rewrite EU in EU'. injection EU' as <- <-. exact HV.
    - exists false. split; [reflexivity|]. split; [discriminate|]. intros (r' & s' & er & es & inside & after & D3 & D1 & D2 & D4 & HV).
      assert (EU' : UnmarshalSign (r_Signature E csr) = OK (r', s')) by (apply C55_unmarshal_accepts; [exact BS|]; exists er, es, inside, after; auto).
      congruence. }
  destruct V as (b & V1 & V2). exists csr, (r_RawTBS E csr), more, pub, b.
  split; [exact HP|]. split; [exact HD|]. split; [reflexivity|]. split; [exact PK|]. split; [exact KO|]. split; [|exact V2].
  unfold VerifyDERCSRSign. rewrite HP. cbn [gbind]. unfold VerifyCSRSign. rewrite PK, V1. reflexivity.
Qed.
(** With a request that has no SM2 key, which only the caller can make, it panics. *)
Theorem C82_no_key_panics : forall csr id, (forall pub, r_PublicKey E csr <> KeySM2 pub) -> VerifyCSRSign E csr id = Panic (PUser "interface conversion").
Proof. intros csr id H. unfold VerifyCSRSign. destruct (r_PublicKey E csr) as [|pub|] eqn:EK; [reflexivity|exfalso; exact (H pub eq_refl)|reflexivity]. Qed.
End Env.

(** * The fuel of the loops suffices *)

(** Reading an element uses up at least two bytes. *)
Lemma consumes : forall A (u : uty A) absent l v r, bytes l -> unmarshal u absent l = OK (v, r) -> (List.length r < List.length l)%nat /\ bytes r.
Proof.
  intros A u absent l v r HB H. destruct (field_sat' _ _ _ _ _ _ _ _ (any_sat _ u) I HB H) as [_ BR]. split; [|exact BR].
  unfold unmarshal, parseField in H. destruct l as [|x y] eqn:El; [discriminate H|]. rewrite <- El in *. clear El x y.
  destruct (parseTagAndLength l) as [[t q]|m] eqn:E1; [|discriminate H]. cbn [rbind noParams fp_optional fp_tag fp_explicit fp_set] in H.
  destruct (parse_header_inv l t q HB E1) as (_ & Lt & h1 & -> & Lh). destruct (_ || _); [discriminate H|].
  destruct (Z.ltb_spec (zlen q) (tl_length t)); [discriminate H|].
  destruct (u_body u _ _ _ _) as [v'|m]; [|discriminate H]. cbn [rbind] in H. apply ok_inj in H. apply pair_equal_spec in H. destruct H as [_ <-].
  destruct (sub_rest q (tl_length t) ltac:(lia)) as (h & E3). rewrite app_length. apply (f_equal (@List.length Z)) in E3. rewrite app_length in E3.
  unfold zlen in *. lia.
Qed.
Lemma sanLoop_fuel : forall n l m, bytes l -> (List.length l <= n)%nat -> (List.length l <= m)%nat -> sanLoop n l = sanLoop m l.
Proof.
  induction n as [|n IH]; intros l m HB Hn Hm; destruct l as [|x l]; cbn [List.length] in *; try lia; try (destruct m; reflexivity).
  destruct m as [|m]; [lia|]. cbn [sanLoop]. destruct (unmarshal uRaw zeroRaw (x :: l)) as [[v r]|e] eqn:EU; [|reflexivity]. cbn [rbind].
  destruct (consumes _ _ _ _ _ _ HB EU) as [L BR]. cbn [List.length] in L. rewrite (IH r m BR) by lia. reflexivity.
Qed.
Lemma count_fuel : forall A (u : uty A) n l m, bytes l -> (List.length l <= n)%nat -> (List.length l <= m)%nat -> countElements n u l = countElements m u l.
Proof.
  intros A u. induction n as [|n IH]; intros l m HB Hn Hm; destruct l as [|x l]; cbn [List.length] in *; try lia; try (destruct m; reflexivity).
  destruct m as [|m]; [lia|]. cbn [countElements]. destruct (parseTagAndLength (x :: l)) as [[t q]|e] eqn:E1; [|reflexivity]. cbn [rbind].
  destruct (parse_header_inv _ t q HB E1) as (_ & Lt & h1 & El & Lh). destruct (negb _ && _); [reflexivity|].
  destruct (Z.ltb_spec (zlen q) (tl_length t)); [reflexivity|].
  assert (BQ : bytes q) by (rewrite El in HB; apply bytes_app in HB; apply HB).
  assert (L : (List.length (sub q (tl_length t) (zlen q)) < S (List.length l))%nat).
  { destruct (sub_rest q (tl_length t) ltac:(lia)) as (h & E3). apply (f_equal (@List.length Z)) in E3. rewrite app_length in E3.
    apply (f_equal (@List.length Z)) in El. rewrite app_length in El. cbn [List.length] in El. unfold zlen in *. lia. }
  rewrite (IH _ m (bytes_sub _ _ _ BQ)) by lia. reflexivity.
Qed.
Lemma base128_consumes : forall l k acc v r, base128Loop l k acc = OK (v, r) -> (List.length r < List.length l)%nat.
Proof.
  induction l as [|b l IH]; intros k acc v r H; cbn [base128Loop] in H; [discriminate H|]. cbn [List.length].
  destruct (k =? 5); [discriminate H|]. cbv zeta in H. destruct (Z.land b 128 =? 0).
  - destruct (_ <? _); [discriminate H|]. apply ok_inj in H. apply pair_equal_spec in H. destruct H as [_ <-]. lia.
  - apply IH in H. lia.
Qed.
Lemma oidRest_fuel : forall n l m, (List.length l <= n)%nat -> (List.length l <= m)%nat -> oidRest n l = oidRest m l.
Proof.
  induction n as [|n IH]; intros l m Hn Hm; destruct l as [|x l]; cbn [List.length] in *; try lia; try (destruct m; reflexivity).
  destruct m as [|m]; [lia|]. cbn [oidRest]. destruct (parseBase128Int (x :: l)) as [[v r]|e] eqn:EU; [|reflexivity]. cbn [rbind].
  apply base128_consumes in EU. cbn [List.length] in EU. rewrite (IH r m) by lia. reflexivity.
Qed.
(** The errors that stand for missing fuel in the model do not come from it: more fuel changes nothing. *)
Theorem C83_fuel : forall A (u : uty A) l, bytes l ->
  (forall n, (List.length l <= n)%nat -> countElements n u l = countElements (List.length l) u l) /\
  (forall n, (List.length l <= n)%nat -> sanLoop n l = sanLoop (List.length l) l) /\
  (forall n, (List.length l <= n)%nat -> oidRest n l = oidRest (List.length l) l).
Proof. intros A u l HB. split; [|split]; intros n Hn; [apply count_fuel|apply sanLoop_fuel|apply oidRest_fuel]; try exact HB; lia. Qed.

(** * Examples *)

(** The request of C73 is read; its signature (1, 1) has the right form. With bytes appended inside
    the sequence, and with other algorithm parameters, it is read as well. *)
Example C82_ex_hyps : bytes (ex_request ex_attr []) /\ good_id None /\
  (exists csr, ParseCertificateRequest noNet (ex_request ex_attr []) = Ret (OK csr) /\ r_Signature noNet csr = tlv 48 ([2; 1; 1] ++ [2; 1; 1] ++ []) ++ []) /\
  (exists csr, ParseCertificateRequest noNet (ex_request ex_attr [1; 2; 3]) = Ret (OK csr) /\ r_PublicKey noNet csr = KeySM2 (mkPub curveGx curveGy)).
Proof.
  split; [apply bytes_forallb; vm_compute; reflexivity|]. split; [exact I|].
  split; eexists; (split; [vm_compute; reflexivity|vm_compute; reflexivity]).
Qed.
Example C82_ex_unsigned : exists a a', elem uAlg a sm2sm3_alg /\ elem uAlg a' (tlv 48 ([6; 8; 42; 129; 28; 207; 85; 1; 131; 117] ++ [5; 0])) /\ alg_oid a = alg_oid a'.
Proof.
  eexists (mkAlg oidSignatureSM3WithSM2 zeroRaw), (mkAlg oidSignatureSM3WithSM2 (mkRaw 0 5 false [] [5; 0])).
  split; [change sm2sm3_alg with (tlv (ident 0 16 true) [6; 8; 42; 129; 28; 207; 85; 1; 131; 117])|
    split; [|reflexivity]; match goal with |- elem _ _ (tlv 48 ?x) => change (tlv 48 x) with (tlv (ident 0 16 true) x) end]; apply elem_struct; vm_compute; reflexivity.
Qed.
(** Empty input, a wrong tag and an extension whose value cannot be read are refused with errors. *)
Example C83_ex_errors :
  (exists m, ParseCertificateRequest noNet [] = Ret (ERR m)) /\ (exists m, ParseCertificate noNet [49; 0] = Ret (ERR m)) /\
  (exists m, ParseCertificateRequest noNet (ex_request (tlv 48 ([6; 9; 42; 134; 72; 134; 247; 13; 1; 9; 14] ++
     tlv 49 (tlv 48 (tlv 48 ([6; 3; 85; 29; 17] ++ tlv 4 [48; 200]))))) []) = Ret (ERR m)) /\
  bytes ex_cert /\ (exists c, ParseCertificate noNet ex_cert = Ret (OK c)).
Proof.
  repeat (split; [first [eexists; vm_compute; reflexivity | apply bytes_forallb; vm_compute; reflexivity]|]). eexists. vm_compute. reflexivity.
Qed.
Example C83_ex_fuel : sanLoop 9 [130; 1; 97; 129; 2; 98; 99] = OK [(2, [97]); (1, [98; 99])].
Proof. vm_compute. reflexivity. Qed.
(** The request of C81 verifies, so C82_malleable applies to it. *)
Example C82_ex_verifies : bytes ex_req /\ VerifyDERCSRSign noNet ex_req None = Ret (OK true) /\ exists body, ex_req = tlv 48 body /\ zlen (body ++ [1; 2]) < 2 ^ 31.
Proof.
  destruct C81_ex_made as (M1 & M2 & M3 & _). destruct C81_ex_hyps as (H1 & H2 & _ & H4 & _ & _ & H7 & H8).
  destruct C81_ex_parsed as ((csr & P & _) & _).
  split; [exact M2|]. split.
  - exact (proj2 (proj2 (C81_signature noNet _ _ _ _ _ _ _ _ _ M1 M2 M3 H1 (H2 []) (Forall_nil _) H4 H8 H7 I ex_tape_bytes csr P))).
  - exists (sub ex_req 4 (zlen ex_req)). split; vm_compute; reflexivity.
Qed.
