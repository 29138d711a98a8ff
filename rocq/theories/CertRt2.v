(** Round trips of the structures of requests and certificates through the model of encoding/asn1. *)
From Coq Require Import ZArith List Lia Bool String.
From Verif Require Import GoBase BeMin CbString CbStringProofs CbBuilder CbBuilderProofs PropsCbBuilder CbAsn1Proofs GoAsn1 GoAsn1Proofs Sm2Der PropsSm2Der GoText GoPkix CertText PropsCertText Cert CertRt PropsCertTime PropsCertDN.
Import ListNotations.
Open Scope Z_scope.

(** [injection] would compute. *)
Lemma ok_eq : forall A (a b : A), OK a = OK b -> a = b.
Proof. intros A a b H. injection H as H. exact H. Qed.
Lemma cons_eq : forall A (a b : A) l m, a :: l = b :: m -> a = b /\ l = m.
Proof. intros A a b l m H. injection H as H1 H2. split; assumption. Qed.

(** * Structures with RawContent *)

Lemma rawStruct_nil : forall fs, marshalRawStruct [] fs = marshalStruct fs.
Proof. reflexivity. Qed.
Lemma strip_tlv : forall c t b body, small_header c t -> zlen body < 2 ^ 31 -> stripTagAndLength (tlv (ident c t b) body) = body.
Proof.
  intros c t b body HS HL. unfold stripTagAndLength. rewrite <- (app_nil_r (tlv _ _)). rewrite tlv_parse by assumption. apply app_nil_r.
Qed.
(** RawContent that is a SEQUENCE is written as it is. *)
Lemma rawStruct_full : forall c fs, zlen c < 2 ^ 31 -> marshalRawStruct (tlv (ident 0 16 true) c) fs = OK (tlv (ident 0 16 true) c).
Proof.
  intros c fs HL. unfold marshalRawStruct. destruct (tlv (ident 0 16 true) c) as [|x y] eqn:E; [discriminate|]. rewrite <- E. clear E x y.
  rewrite strip_tlv; [|split; lia|exact HL]. unfold makeField. cbn [noParams fp_optional fp_set fp_tag andb rbind].
  rewrite tagged_tlv; [reflexivity|split; unfold TagSequence; lia|lia].
Qed.
Lemma elem_seq : forall A (body : list Z -> list Z -> res A) v e, elem (uStruct body) v e ->
  exists c, e = tlv (ident 0 16 true) c /\ zlen c < 2 ^ 31 /\ body e c = OK v.
Proof.
  intros A body v e (c & t & b & bd & -> & HS & HL & HM & HB). destruct HM as [HM|(-> & -> & HM)]; [discriminate HM|].
  cbn [u_tag uStruct] in HM. subst t. exists bd. split; [reflexivity|]. split; [exact HL|]. exact HB.
Qed.
Lemma struct_full : forall A (body : list Z -> list Z -> res A) v e fs, elem (uStruct body) v e -> marshalRawStruct e fs = OK e.
Proof. intros A body v e fs H. destruct (elem_seq _ _ _ _ H) as (c & -> & HL & _). apply rawStruct_full. exact HL. Qed.
Lemma elem_small : forall A (u : uty A) v e, elem u v e -> zlen e < 2 ^ 62.
Proof.
  intros A u v e (c & t & b & body & -> & HS & HL & _ & _). pose proof (zlen_tlv_le (ident c t b) body ltac:(lia)). lia.
Qed.

(** * RawValue fields *)

(** A RawValue that is written as the element [p]. *)
Lemma raw_field : forall rv p r absent, elem uRaw rv p -> parseField uRaw absent noParams (p ++ r) = OK (rv, r).
Proof. intros. apply elem_parse. assumption. Qed.
Lemma elem_raw_full : forall rv p, elem uRaw rv p -> rv_full rv = p.
Proof. intros rv p (c & t & b & body & -> & HS & HL & _ & HB). cbn [uRaw u_body u_tag] in HB. injection HB as <-. reflexivity. Qed.
Lemma makeRaw_full : forall p, p <> [] -> makeRaw (mkRaw 0 0 false [] p) = p.
Proof. intros [|x y] H; [congruence|reflexivity]. Qed.
Lemma makeRaw_self : forall rv p, elem uRaw rv p -> makeRaw rv = p.
Proof.
  intros rv p H. pose proof (elem_raw_full _ _ H) as E. apply elem_nonempty in H. unfold makeRaw. rewrite E. destruct p; [congruence|reflexivity].
Qed.

(** * AlgorithmIdentifier *)

Lemma alg_rt : forall oid e, fieldAlg (mkAlg oid zeroRaw) = OK e -> small e -> oid_ok oid -> elem uAlg (mkAlg oid zeroRaw) e.
Proof.
  intros oid e H HL Ho. unfold fieldAlg in H. cbn [alg_oid alg_params] in H.
  apply marshalStruct_inv in H; [|exact HL]. destruct H as (es & HE & -> & HS).
  destruct es as [|e1 [|e2 [|]]]; try discriminate HE. cbn [map] in HE. apply cons_eq in HE. destruct HE as [H1 HE]. apply cons_eq in HE. destruct HE as [H2 _]. injection H2 as <-.
  assert (S1 : small e1) by (apply (small_concat [e1; []]); [exact HS|left; reflexivity]).
  apply elem_struct; [exact HS|]. cbn [List.concat].
  rewrite (elem_parse _ uOID oid e1) by (apply fieldOID_rt; assumption). cbn [rbind app].
  rewrite field_end by reflexivity. reflexivity.
Qed.
Lemma alg_params_rt : forall oid rv p e, fieldAlg (mkAlg oid (mkRaw 0 0 false [] p)) = OK e -> small e -> oid_ok oid -> elem uRaw rv p ->
  elem uAlg (mkAlg oid rv) e.
Proof.
  intros oid rv p e H HL Ho Hp. unfold fieldAlg in H. cbn [alg_oid alg_params] in H.
  assert (N : isZeroRaw (mkRaw 0 0 false [] p) = false).
  { unfold isZeroRaw. cbn. apply elem_nonempty in Hp. destruct p as [|x y]; [congruence|]. rewrite zlen_cons. pose proof (zlen_nonneg _ y). apply Z.eqb_neq. lia. }
  rewrite N in H. rewrite makeRaw_full in H by (apply elem_nonempty in Hp; exact Hp).
  apply marshalStruct_inv in H; [|exact HL]. destruct H as (es & HE & -> & HS).
  destruct es as [|e1 [|e2 [|]]]; try discriminate HE. cbn [map] in HE. apply cons_eq in HE. destruct HE as [H1 HE]. apply cons_eq in HE. destruct HE as [H2 _]. injection H2 as <-.
  assert (S1 : small e1) by (apply (small_concat [e1; p]); [exact HS|left; reflexivity]).
  apply elem_struct; [exact HS|]. cbn [List.concat].
  rewrite (elem_parse _ uOID oid e1) by (apply fieldOID_rt; assumption). cbn [rbind].
  rewrite (elem_field _ uRaw rv p) by (exact Hp || reflexivity). reflexivity.
Qed.

(** * SubjectPublicKeyInfo *)

Lemma pki_rt : forall alg alg' ea k e, fieldPKI (mkPKI [] alg k) = OK e -> small e -> fieldAlg alg = OK ea ->
  (small ea -> elem uAlg alg' ea) -> bits_ok k -> elem uPKI (mkPKI e alg' k) e.
Proof.
  intros alg alg' ea k e H HL HA Ha Hk. unfold fieldPKI in H. cbn [pki_raw pki_alg pki_key] in H. rewrite rawStruct_nil in H.
  apply marshalStruct_inv in H; [|exact HL]. destruct H as (es & HE & -> & HS).
  destruct es as [|e1 [|e2 [|]]]; try discriminate HE. cbn [map] in HE. apply cons_eq in HE. destruct HE as [H1 HE]. apply cons_eq in HE. destruct HE as [H2 _].
  assert (S1 : small e1) by (apply (small_concat [e1; e2]); [exact HS|left; reflexivity]).
  assert (S2 : small e2) by (apply (small_concat [e1; e2]); [exact HS|right; left; reflexivity]).
  assert (e1 = ea) as -> by congruence.
  apply elem_struct; [exact HS|]. cbn [List.concat].
  rewrite (elem_parse _ uAlg alg' ea) by (apply Ha; exact S1). cbn [rbind].
  rewrite (elem_parse _ uBits k e2) by (apply fieldBits_rt; assumption). reflexivity.
Qed.
(** A key that was read is written as it was. *)
Lemma uPKI_raw : forall k e, elem uPKI k e -> pki_raw k = e.
Proof.
  intros k e H. destruct (elem_seq _ _ _ _ H) as (c & -> & HL & HB).
  destruct (parseField uAlg zeroAlg noParams c) as [[a l]|m]; [|discriminate HB]. cbn [rbind] in HB.
  destruct (parseField uBits zeroBits noParams l) as [[b l']|m]; [|discriminate HB]. cbn [rbind] in HB. injection HB as <-. reflexivity.
Qed.
Lemma pki_full : forall k e, elem uPKI k e -> fieldPKI k = OK e.
Proof.
  intros k e H. unfold fieldPKI. rewrite (uPKI_raw k e H). apply (struct_full _ _ _ _ _ H).
Qed.
(** Whatever struct parses is an element. *)
Lemma unmarshal_elem : forall A (body : list Z -> list Z -> res A) zero l v r, bytes l ->
  unmarshal (uStruct body) zero l = OK (v, r) -> exists e, l = e ++ r /\ elem (uStruct body) v e.
Proof.
  intros A body zero l v r HB H. unfold unmarshal in H.
  destruct (field_inv A (uStruct body) zero TagSequence true l v r HB eq_refl (fun _ => eq_refl) ltac:(unfold TagSequence; lia) eq_refl H)
    as (c & -> & _ & HL & HV).
  exists (tlv (ident 0 16 true) c). split; [reflexivity|]. apply elem_struct; [exact HL|]. exact HV.
Qed.

(** * Extensions *)

Definition ext_ok (e : Extension) : Prop := oid_ok (e_id e).
Lemma extension_rt : forall x e, fieldExtension x = OK e -> small e -> ext_ok x -> elem uExtension x e.
Proof.
  intros [id crit v] e H HL Ho. unfold ext_ok in Ho. cbn [e_id] in Ho. unfold fieldExtension in H. cbn [e_id e_critical e_value] in H.
  apply marshalStruct_inv in H; [|exact HL]. destruct H as (es & HE & -> & HS).
  destruct es as [|e1 [|e2 [|e3 [|]]]]; try discriminate HE. cbn [map] in HE. apply cons_eq in HE. destruct HE as [H1 HE]. apply cons_eq in HE. destruct HE as [H2 HE]. apply cons_eq in HE. destruct HE as [H3 _].
  assert (S1 : small e1) by (apply (small_concat [e1; e2; e3]); [exact HS|left; reflexivity]).
  assert (S3 : small e3) by (apply (small_concat [e1; e2; e3]); [exact HS|right; right; left; reflexivity]).
  apply elem_struct; [exact HS|]. cbn [List.concat]. rewrite app_nil_r.
  rewrite (elem_parse _ uOID id e1) by (apply fieldOID_rt; assumption). cbn [rbind].
  pose proof (fieldOctets_rt v e3 H3 S3) as Q.
  assert (B : parseField uBool false optParams (e2 ++ e3) = OK (crit, e3)).
  { unfold fieldBool in H2. destruct crit; cbn [negb] in H2.
    - unfold makeField in H2. cbn [optParams fp_optional fp_set fp_tag andb rbind] in H2. injection H2 as <-.
      rewrite tagged_tlv; [|split; unfold TagBoolean; lia|reflexivity].
      rewrite field_tlv; [|split; unfold TagBoolean; lia|reflexivity|reflexivity|right; reflexivity|right; split; reflexivity]. reflexivity.
    - unfold makeField in H2. cbn [optParams fp_optional andb] in H2. injection H2 as <-. cbn [app].
      destruct Q as (c & t & b & body & -> & QS & QL & QM & _). destruct QM as [QM|(-> & -> & QM)]; [discriminate QM|].
      cbn [u_tag uOctets] in QM. subst t.
      rewrite <- (app_nil_r (tlv _ _)). apply field_absent; [exact QS|exact QL|reflexivity|reflexivity|reflexivity| |].
      + right. cbn. unfold TagOctetString, TagBoolean. lia.
      + intros K. discriminate K. }
  rewrite B. cbn [rbind]. rewrite <- (app_nil_r e3). rewrite (elem_parse _ uOctets (Some v) e3) by exact Q. reflexivity.
Qed.

(** * Explicit tags *)

Lemma explicit_field : forall A (u : uty A) absent n t b body r v,
  0 <= n < 31 -> 0 <= t < 31 -> zlen (tlv (ident 0 t b) body) < 2 ^ 31 -> u_any u = false -> b = u_comp u -> (forall h, u_tag u h = t) ->
  (forall h full, u_body u t h full body = OK v) ->
  parseField u absent (explicitTag n) (tlv (ident 2 n true) (tlv (ident 0 t b) body) ++ r) = OK (v, r).
Proof.
  intros A u absent n t b body r v Hn Ht HL HA HC HT HB.
  rewrite field_explicit; [|split; lia|split; lia|exact HL|reflexivity|reflexivity|reflexivity|exact HA|exact HC|symmetry; apply HT].
  rewrite HB. reflexivity.
Qed.
Lemma explicit_inv : forall d n t b body e, makeField d t b body (explicitTag n) = OK e -> d = false -> 0 <= n < 31 -> 0 <= t < 31 -> small e ->
  exists body', body = OK body' /\ e = tlv (ident 2 n true) (tlv (ident 0 t b) body') /\ zlen (tlv (ident 0 t b) body') < 2 ^ 31 /\ zlen body' < 2 ^ 31.
Proof.
  intros d n t b body e H -> Hn Ht HL. unfold makeField in H. cbn [explicitTag fp_optional fp_set fp_tag fp_explicit andb] in H.
  destruct body as [body'|m]; [|discriminate H]. cbn [rbind] in H. injection H as <-. exists body'. split; [reflexivity|].
  destruct (tagged_small 2 n true (tagged 0 t b body')) as [E1 L1]; [split; lia|exact HL|].
  destruct (tagged_small 0 t b body') as [E2 L2]; [split; lia|exact L1|]. rewrite E1, E2. split; [reflexivity|]. split; [rewrite <- E2; exact L1|exact L2].
Qed.
(** An optional field with a tag is absent when the next element has another one, or nothing is left. *)
Lemma tag_absent : forall A (u : uty A) absent n c t b body r, small_header c t -> zlen body < 2 ^ 31 -> u_any u = false -> c <> 2 \/ t <> n ->
  parseField u absent (optTag n) (tlv (ident c t b) body ++ r) = OK (absent, tlv (ident c t b) body ++ r).
Proof.
  intros A u absent n c t b body r HS HL HA HT. apply field_absent; [exact HS|exact HL|reflexivity|reflexivity|exact HA|exact HT|].
  intros K. discriminate K.
Qed.

(** * What holds of everything that is parsed *)

Definition upred {A} (u : uty A) (P : A -> Prop) : Prop :=
  forall utag h full body v, bytes full -> bytes body -> u_body u utag h full body = OK v -> P v.

Lemma bytes_sub : forall l a b, bytes l -> bytes (sub l a b).
Proof.
  intros l a b H. unfold sub. unfold bytes in *. rewrite Forall_forall in *. intros x Hx. apply H.
  rewrite <- (firstn_skipn (Z.to_nat a) l). apply in_or_app. right.
  rewrite <- (firstn_skipn (Z.to_nat (b - a)) (skipn (Z.to_nat a) l)). apply in_or_app. left. exact Hx.
Qed.
Lemma sub_rest : forall (r : list Z) n, 0 <= n <= zlen r -> exists h, r = h ++ sub r n (zlen r).
Proof.
  intros r n Hn. destruct (split_at _ r n Hn) as (a & b & -> & Ha). exists a. rewrite zlen_app, sub_app_r by lia. reflexivity.
Qed.
Lemma field_sat : forall A (u : uty A) P absent p l v r, upred u P -> P absent -> bytes l ->
  parseField u absent p l = OK (v, r) -> P v /\ exists h, l = h ++ r.
Proof.
  intros A u P absent p l v r HU HA HB H. unfold parseField in H.
  destruct l as [|x y] eqn:El.
  { destruct (fp_optional p); [|discriminate H]. injection H as <- <-. split; [exact HA|]. exists []. reflexivity. }
  rewrite <- El in *. clear El x y.
  destruct (parseTagAndLength l) as [[t q]|m] eqn:E1; [|discriminate H]. cbn [rbind] in H.
  destruct (parse_header_inv l t q HB E1) as (_ & Lt & h1 & Hl & _).
  assert (Bq : bytes q) by (rewrite Hl in HB; apply bytes_app in HB; apply HB).
  match type of H with rbind ?X _ = _ => set (H0 := X) in H; assert (HH : match H0 with OK (Some (t', q')) => 0 <= tl_length t' /\ bytes q' /\ exists h, l = h ++ q' | _ => True end) end.
  { unfold H0. clear H H0. destruct (fp_explicit p); [|split; [apply Lt|]; split; [exact Bq|exists h1; exact Hl]].
    destruct q as [|x y] eqn:Eq; [exact I|]. rewrite <- Eq in *. clear Eq x y.
    destruct (_ && _); [|destruct (fp_optional p); exact I].
    destruct (u_any u); [split; [apply Lt|]; split; [exact Bq|exists h1; exact Hl]|].
    destruct (0 <? tl_length t); [|exact I].
    destruct (parseTagAndLength q) as [[t2 q2]|m2] eqn:E2; [|exact I]. cbn [rbind].
    destruct (parse_header_inv q t2 q2 Bq E2) as (_ & Lt2 & h2 & Hq & _).
    split; [apply Lt2|]. split; [rewrite Hq in Bq; apply bytes_app in Bq; apply Bq|]. exists (h1 ++ h2). rewrite Hl, Hq, app_assoc. reflexivity. }
  destruct H0 as [[[t2 q2]|]|m]; [| |discriminate H]; cbn [rbind] in H.
  2:{ injection H as <- <-. split; [exact HA|]. exists []. reflexivity. }
  destruct HH as (L2 & B2 & h2 & Hl2).
  assert (K : forall anyTag eclass etag,
    (if (negb anyTag && (negb (tl_class t2 =? eclass) || negb (tl_tag t2 =? etag))) || (negb (u_any u) && negb (Bool.eqb (tl_comp t2) (u_comp u)))
     then if fp_optional p then OK (absent, l) else ERR "tags don't match"
     else if zlen q2 <? tl_length t2 then ERR "data truncated"
          else rbind (u_body u (if fp_set p then TagSet else u_tag u t2) t2
                        (sub l 0 (zlen l - zlen (sub q2 (tl_length t2) (zlen q2)))) (sub q2 0 (tl_length t2)))
                 (fun v => OK (v, sub q2 (tl_length t2) (zlen q2)))) = OK (v, r) -> P v /\ exists h, l = h ++ r).
  { clear H. intros anyTag eclass etag H. destruct (_ || _).
    - destruct (fp_optional p); [|discriminate H]. injection H as <- <-. split; [exact HA|]. exists []. reflexivity.
    - destruct (Z.ltb_spec (zlen q2) (tl_length t2)); [discriminate H|].
      destruct (u_body u _ _ _ _) as [v'|m] eqn:EB; [|discriminate H]. cbn [rbind] in H. injection H as <- <-.
      split; [apply (HU _ _ _ _ _ (bytes_sub _ _ _ HB) (bytes_sub _ _ _ B2) EB)|].
      destruct (sub_rest q2 (tl_length t2) ltac:(lia)) as (h3 & E3). exists (h2 ++ h3).
      rewrite <- app_assoc, <- E3. exact Hl2. }
  destruct (fp_tag p) as [n|]; [destruct (fp_explicit p)|]; apply (K _ _ _ H).
Qed.
Lemma field_sat' : forall A (u : uty A) P absent p l v r, upred u P -> P absent -> bytes l ->
  parseField u absent p l = OK (v, r) -> P v /\ bytes r.
Proof.
  intros A u P absent p l v r HU HA HB H. destruct (field_sat A u P absent p l v r HU HA HB H) as (HP & h & ->).
  split; [exact HP|]. apply bytes_app in HB. apply HB.
Qed.
Lemma elements_sat : forall A (u : uty A) P zero n l vs, upred u P -> P zero -> bytes l ->
  parseElements n u zero l = OK vs -> Forall P vs.
Proof.
  intros A u P zero n. induction n as [|n IH]; intros l vs HU HZ HB H; cbn [parseElements] in H.
  - apply ok_eq in H. subst vs. constructor.
  - destruct (parseField u zero noParams l) as [[v r]|m] eqn:EP; [|discriminate H]. cbn [rbind] in H.
    destruct (field_sat' _ _ P _ _ _ _ _ HU HZ HB EP) as [HV HR].
    destruct (parseElements n u zero r) as [vs'|m] eqn:EE; [|discriminate H]. cbn [rbind] in H. apply ok_eq in H. subst vs.
    constructor; [exact HV|]. apply (IH r); assumption.
Qed.
Lemma sequence_sat : forall A (u : uty A) P zero l vs, upred u P -> P zero -> bytes l ->
  parseSequenceOf u zero l = OK vs -> Forall P vs.
Proof.
  intros A u P zero l vs HU HZ HB H. unfold parseSequenceOf in H. destruct (countElements _ _ _) as [n|m]; [|discriminate H]. cbn [rbind] in H.
  apply (elements_sat _ u P zero n l); assumption.
Qed.
Lemma list_sat : forall A (u : uty A) P zero isSET, upred u P -> P zero -> upred (uList u zero isSET) (Forall P).
Proof. intros A u P zero isSET HU HZ utag h full body v HF HB H. apply (sequence_sat _ u P zero body); assumption. Qed.
Lemma slice_sat : forall A (u : uty A) P zero isSET, upred u P -> P zero ->
  upred (uSlice u zero isSET) (fun o => match o with Some l => Forall P l | None => True end).
Proof.
  intros A u P zero isSET HU HZ utag h full body v HF HB H. cbn [uSlice u_body] in H.
  destruct (parseSequenceOf u zero body) as [vs|m] eqn:ES; [|discriminate H]. cbn [rbind] in H. apply ok_eq in H. subst v.
  apply (sequence_sat _ u P zero body); assumption.
Qed.
Lemma any_sat : forall A (u : uty A), upred u (fun _ => True).
Proof. intros A u utag h full body v _ _ _. exact I. Qed.
Lemma octets_sat : upred uOctets (fun o => bytes (contents o)).
Proof. intros utag h full body v HF HB H. cbn in H. injection H as <-. exact HB. Qed.
Lemma raw_sat : upred uRaw (fun v => bytes (rv_full v) /\ bytes (rv_bytes v)).
Proof. intros utag h full body v HF HB H. cbn in H. injection H as <-. split; assumption. Qed.
(** A bit string has as many bytes as it needs. *)
Definition bits_fit (b : BitString) : Prop := bytes (bs_bytes b) /\ bs_len b <= 8 * zlen (bs_bytes b).
Lemma bits_sat : upred uBits bits_fit.
Proof.
  intros utag h full body v HF HB H. cbn [uBits u_body] in H. unfold parseBitString in H. destruct body as [|p l]; [discriminate H|].
  apply bytes_cons in HB. destruct HB as [Bp Bl].
  destruct ((7 <? p) || _ || _); [discriminate H|]. apply ok_eq in H. subst v. split; cbn [bs_bytes bs_len]; [exact Bl|].
  rewrite zlen_cons. unfold byte in Bp. lia.
Qed.
Lemma extension_sat : upred uExtension (fun e => bytes (e_value e)).
Proof.
  intros utag h full body v HF HB H. cbn [uExtension uStruct u_body] in H.
  destruct (parseField uOID [] noParams body) as [[i l1]|m] eqn:E1; [|discriminate H]. cbn [rbind] in H.
  destruct (field_sat' _ _ _ _ _ _ _ _ (any_sat _ uOID) I HB E1) as [_ B1].
  destruct (parseField uBool false optParams l1) as [[c l2]|m] eqn:E2; [|discriminate H]. cbn [rbind] in H.
  destruct (field_sat' _ _ _ _ _ _ _ _ (any_sat _ uBool) I B1 E2) as [_ B2].
  destruct (parseField uOctets None noParams l2) as [[w l3]|m] eqn:E3; [|discriminate H]. cbn [rbind] in H.
  destruct (field_sat' _ _ _ _ _ _ _ _ octets_sat (Forall_nil _ : bytes (contents None)) B2 E3) as [BV _].
  injection H as <-. exact BV.
Qed.

(** * What is too long cannot be read *)

Lemma lor_ge : forall a b, 0 <= a -> 0 <= b -> a <= Z.lor a b.
Proof.
  intros a b Ha Hb.
  assert (E : Z.lor a b = a + Z.ldiff b a).
  { rewrite Z.add_nocarry_lxor by (apply Z.bits_inj'; intros n Hn; rewrite Z.bits_0, Z.land_spec, Z.ldiff_spec; destruct (Z.testbit b n), (Z.testbit a n); reflexivity).
    apply Z.bits_inj'. intros n Hn. rewrite Z.lor_spec, Z.lxor_spec, Z.ldiff_spec. destruct (Z.testbit b n), (Z.testbit a n); reflexivity. }
  rewrite E. assert (0 <= Z.ldiff b a) by (apply Z.ldiff_nonneg; left; exact Hb). lia.
Qed.
Lemma loop_big : forall k n l acc, Forall (fun b => 0 <= b) l -> 0 <= acc -> 2 ^ 23 <= acc * 256 ^ Z.of_nat k -> (k < n)%nat ->
  exists m, lengthLoop n l acc = ERR m.
Proof.
  induction k as [|k IH]; intros n l acc HF Ha HB HN; (destruct n as [|n]; [lia|]); cbn [lengthLoop]; (destruct l as [|b l]; [eexists; reflexivity|]).
  - change (256 ^ Z.of_nat 0) with 1 in HB. destruct (Z.leb_spec (2 ^ 23) acc) as [L|L]; [eexists; reflexivity|]. lia.
  - destruct (2 ^ 23 <=? acc); [eexists; reflexivity|]. inversion HF as [|? ? H1 H2]; subst.
    assert (G : acc * 256 <= Z.lor (Z.shiftl acc 8) b).
    { rewrite Z.shiftl_mul_pow2 by lia. change (2 ^ 8) with 256. apply lor_ge; lia. }
    destruct (_ =? 0); [eexists; reflexivity|]. apply IH; [exact H2|lia| |lia].
    rewrite Nat2Z.inj_succ, Z.pow_succ_r in HB by lia. pose proof (Z.pow_pos_nonneg 256 (Z.of_nat k) ltac:(lia) ltac:(lia)). nia.
Qed.
Lemma lengthBytes_nonneg : forall n i, Forall (fun b => 0 <= b) (lengthBytes n i).
Proof. induction n as [|n IH]; intros i; cbn [lengthBytes]; constructor; [unfold u8; apply Z.mod_pos_bound; lia|apply IH]. Qed.
Lemma lengthBytes_length : forall n i, List.length (lengthBytes n i) = n.
Proof. induction n as [|n IH]; intros i; cbn [lengthBytes List.length]; [reflexivity|rewrite IH; reflexivity]. Qed.
Lemma loop_prefix : forall n l r acc, (n <= List.length l)%nat -> forall m, lengthLoop n l acc = ERR m -> exists m', lengthLoop n (l ++ r) acc = ERR m'.
Proof.
  induction n as [|n IH]; intros l r acc HL m H; [discriminate H|]. destruct l as [|b l]; [cbn in HL; lia|]. cbn [lengthLoop app] in *.
  destruct (2 ^ 23 <=? acc); [eexists; reflexivity|]. destruct (_ =? 0); [eexists; reflexivity|]. apply (IH l r _ ltac:(cbn in HL; lia) m H).
Qed.
Lemma lengthLength_ge : forall i, 2 ^ 32 <= i -> (5 <= lengthLength 8 i <= 9)%nat.
Proof.
  intros i Hi. cbn [lengthLength]. rewrite !Z.shiftr_shiftr by lia. cbn [Z.add Pos.add Pos.succ Pos.add_carry].
  assert (G : forall k, 0 <= k <= 24 -> (255 <? Z.shiftr i k) = true).
  { intros k Hk. rewrite Z.shiftr_div_pow2 by lia. apply Z.ltb_lt. pose proof (Z.pow_pos_nonneg 2 k ltac:(lia) ltac:(lia)).
    assert (2 ^ k <= 2 ^ 24) by (apply Z.pow_le_mono_r; lia). enough (256 <= i / 2 ^ k) by lia. apply Z.div_le_lower_bound; [lia|].
    change (2 ^ 32) with (2 ^ 24 * 256) in Hi. nia. }
  pose proof (G 0 ltac:(lia)) as G0. rewrite Z.shiftr_0_r in G0. rewrite G0, !G by lia.
  repeat match goal with |- context [if ?c then _ else _] => destruct c end; lia.
Qed.
Lemma big_loop : forall i r, 2 ^ 31 <= i -> exists m, lengthLoop (lengthLength 8 i) (lengthBytes (lengthLength 8 i) i ++ r) 0 = ERR m.
Proof.
  intros i r Hi.
  assert (K : exists m, lengthLoop (lengthLength 8 i) (lengthBytes (lengthLength 8 i) i) 0 = ERR m).
  { destruct (Z_lt_dec i (2 ^ 32)) as [L|L].
    - assert (E : lengthLength 8 i = 4%nat).
      { cbn [lengthLength]. rewrite !Z.shiftr_shiftr by lia. cbn [Z.add Pos.add Pos.succ Pos.add_carry].
        assert (G : forall k, 0 <= k <= 16 -> (255 <? Z.shiftr i k) = true).
        { intros k Hk. rewrite Z.shiftr_div_pow2 by lia. apply Z.ltb_lt. pose proof (Z.pow_pos_nonneg 2 k ltac:(lia) ltac:(lia)).
          assert (2 ^ k <= 2 ^ 16) by (apply Z.pow_le_mono_r; lia). enough (256 <= i / 2 ^ k) by lia. apply Z.div_le_lower_bound; [lia|].
          change (2 ^ 31) with (2 ^ 16 * 2 ^ 15) in Hi. change (2 ^ 15) with 32768 in Hi. nia. }
        pose proof (G 0 ltac:(lia)) as G0. rewrite Z.shiftr_0_r in G0. rewrite G0, !G by lia.
        assert (G3 : (255 <? Z.shiftr i 24) = false).
        { rewrite Z.shiftr_div_pow2 by lia. apply Z.ltb_ge. change 255 with (2 ^ 32 / 2 ^ 24 - 1).
          assert (i / 2 ^ 24 < 2 ^ 8) by (apply Z.div_lt_upper_bound; lia). change (2 ^ 32 / 2 ^ 24 - 1) with 255. lia. }
        rewrite G3. reflexivity. }
      rewrite E. change (lengthBytes 4 i) with (u8 (Z.shiftr i 24) :: lengthBytes 3 i).
      assert (ST : forall n b l acc, lengthLoop (S n) (b :: l) acc = if 2 ^ 23 <=? acc then ERR "length too large" else
        let length := Z.lor (Z.shiftl acc 8) b in if length =? 0 then ERR "superfluous leading zeros in length" else lengthLoop n l length) by reflexivity.
      rewrite ST. cbv zeta. change (2 ^ 23 <=? 0) with false. cbv iota.
      rewrite Z.shiftl_0_l, Z.lor_0_l. rewrite Z.shiftr_div_pow2 by lia.
      assert (B1 : 128 <= i / 2 ^ 24) by (apply Z.div_le_lower_bound; lia). assert (B2 : i / 2 ^ 24 < 256) by (apply Z.div_lt_upper_bound; lia).
      assert (U : u8 (i / 2 ^ 24) = i / 2 ^ 24) by (unfold u8; apply Z.mod_small; lia). rewrite U. rewrite (proj2 (Z.eqb_neq _ 0)) by lia.
      apply (loop_big 2 3); [apply (lengthBytes_nonneg 3 i)|lia| |lia]. change (256 ^ Z.of_nat 2) with 65536. lia.
    - pose proof (lengthLength_ge i ltac:(lia)) as B. pose proof (lengthBytes_nonneg (lengthLength 8 i) i) as NN.
      destruct (lengthLength 8 i) as [|n]; [lia|]. cbn [lengthBytes lengthLoop] in *. change (2 ^ 23 <=? 0) with false. cbv iota.
      rewrite Z.shiftl_0_l, Z.lor_0_l. inversion NN as [|? ? N1 N2]; subst. destruct (Z.eqb_spec (u8 (Z.shiftr i (8 * Z.of_nat n))) 0) as [Q|Q]; [eexists; reflexivity|].
      change (0 <= u8 (Z.shiftr i (8 * Z.of_nat n))) in N1. apply (loop_big 3 n); [exact N2|exact N1| |lia]. change (256 ^ Z.of_nat 3) with 16777216. lia. }
  destruct K as [m K]. apply (loop_prefix (lengthLength 8 i) (lengthBytes (lengthLength 8 i) i) r 0) with m; [rewrite lengthBytes_length; lia|exact K].
Qed.
(** An element of 2^31 bytes or more has no header that the package reads. *)
Lemma big_header : forall b body r, 2 ^ 31 <= zlen body -> exists m, parseTagAndLength (tagged 0 16 b body ++ r) = ERR m.
Proof.
  intros b body r H. unfold tagged, appendTagAndLength. cbn [tl_class tl_comp tl_tag tl_length]. change (31 <=? 16) with false.
  destruct (Z.leb_spec 128 (zlen body)); [|lia]. cbv zeta iota.
  destruct (big_loop (zlen body) (body ++ r) H) as [m K].
  assert (LL : (1 <= lengthLength 8 (zlen body) <= 9)%nat).
  { generalize (zlen body). intros i. cbn [lengthLength]. repeat match goal with |- context [if ?c then _ else _] => destruct c end; lia. }
  destruct (lengthLength 8 (zlen body)) as [|n]; [lia|].
  assert (P : forall x, x = Z.lor (if b then Z.lor (u8 (Z.shiftl 0 6)) 0x20 else u8 (Z.shiftl 0 6)) (u8 16) -> Z.land x 0x1f =? 0x1f = false).
  { intros x ->. destruct b; vm_compute; reflexivity. }
  rewrite <- !app_assoc. cbn [app]. unfold parseTagAndLength. cbv zeta. rewrite (P _ eq_refl). cbn [rbind].
  assert (N : Z.land (Z.lor 128 (Z.of_nat (S n))) 0x80 =? 0 = false /\ Z.land (Z.lor 128 (Z.of_nat (S n))) 0x7f = Z.of_nat (S n)).
  { assert (C : In n [0; 1; 2; 3; 4; 5; 6; 7; 8]%nat) by (cbn [In]; lia). cbn [In] in C.
    repeat (destruct C as [<- | C]; [split; vm_compute; reflexivity|]). destruct C. }
  destruct N as [N1 N2]. rewrite N1, N2. rewrite (proj2 (Z.eqb_neq _ 0)) by lia. rewrite Nat2Z.id.
  rewrite K. eexists. reflexivity.
Qed.
Lemma slice_parsed_small : forall A (u : uty A) zero c v r, unmarshal (uList u zero false) [] (tagged 0 16 true c) = OK (v, r) -> zlen c < 2 ^ 31.
Proof.
  intros A u zero c v r H. destruct (Z_lt_dec (zlen c) (2 ^ 31)) as [L|L]; [exact L|]. exfalso.
  destruct (big_header true c [] ltac:(lia)) as [m K]. rewrite app_nil_r in K. unfold unmarshal, parseField in H.
  destruct (tagged 0 16 true c) as [|x y]; [discriminate H|]. rewrite K in H. discriminate H.
Qed.
Lemma stripped_small : forall c, zlen (stripTagAndLength (tagged 0 16 true c)) < 2 ^ 31 -> zlen c < 2 ^ 31.
Proof.
  intros c H. destruct (Z_lt_dec (zlen c) (2 ^ 31)) as [L|L]; [exact L|]. exfalso.
  destruct (big_header true c [] ltac:(lia)) as [m K]. rewrite app_nil_r in K. unfold stripTagAndLength in H. rewrite K in H.
  pose proof (zlen_tagged 0 16 true c). lia.
Qed.
Lemma struct_small : forall fs raw, marshalStruct fs = OK raw -> zlen (stripTagAndLength raw) < 2 ^ 31 ->
  exists c, raw = tlv (ident 0 16 true) c /\ zlen c < 2 ^ 31 /\ stripTagAndLength raw = c.
Proof.
  intros fs raw H HL. unfold marshalStruct in H. apply makeField_plain in H; try reflexivity. destruct H as (body & _ & ->).
  apply stripped_small in HL. exists body. change TagSequence with 16. rewrite tagged_tlv by (try split; lia).
  split; [reflexivity|]. split; [exact HL|]. apply strip_tlv; [split; lia|exact HL].
Qed.
