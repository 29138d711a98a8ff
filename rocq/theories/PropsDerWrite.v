(** Property C119: what cryptobyte's Builder writes for a value and what encoding/asn1 writes for it
    (cryptobyte/asn1.go:22-205). *)
From Coq Require Import ZArith List Lia Bool String.
From Verif Require Import GoBase BeMin CbString CbStringProofs CbBuilder CbBuilderProofs PropsCbString PropsCbBuilder CbAsn1Proofs PropsCbAsn1 GoAsn1 GoAsn1Proofs GoText PropsCertTime PropsCbTime PropsCbTags GoPkix.
Import ListNotations.
Open Scope Z_scope.

(** * Model *)

(** asn1.go:192-205 on the builder at level k; m is what encoding/asn1.Marshal returned. It is not called when there is
    an error already, which makes no difference. *)
Definition MarshalASN1 (k : nat) (m : res (list Z)) (st : bstate) : outcome :=
  match nth_error (frames st) k with
  | None => (st, Some PNil)
  | Some f =>
      match f_err f with
      | Some _ => (st, None)
      | None => match m with
                | ERR e => (put_frame st k (set_err f e), None)
                | OK bs => add st k bs
                end
      end
  end.
(** builder.go:64-69, for the root builder: panic(b.err). *)
Definition BytesOrPanic (st : bstate) : go (list Z) :=
  match Bytes st with OK bs => Ret bs | ERR e => Panic (PUser e) end.

(** encoding/asn1.Marshal of an int, a *big.Int, a []byte, a BitString, a bool and a time.Time; of an
    ObjectIdentifier it is [fieldOID]. *)
Definition marshalInt (v : Z) : res (list Z) := makeField false TagInteger false (OK (int64Bytes v)) noParams.
Definition marshalBig (v : Z) : res (list Z) := makeField false TagInteger false (OK (makeBigInt v)) noParams.
Definition marshalOctets (d : list Z) : res (list Z) := makeField false TagOctetString false (OK d) noParams.
Definition marshalBits (b : BitString) : res (list Z) := makeField false TagBitString false (OK (makeBitString b)) noParams.
Definition marshalBool (b : bool) : res (list Z) := makeField false TagBoolean false (OK [if b then 255 else 0]) noParams.
Definition marshalTime (t : Time) : res (list Z) := makeField false (timeTag t) false (makeTime t) noParams.

(** * Agreement *)

(** The method of Builder and MarshalASN1 with the same value leave the same bytes, those of Marshal, or both an error. *)
Definition same (o : op) (m : res (list Z)) : Prop := forall buf,
  exists st st', execs [o] (NewBuilder buf) = (st, None) /\ MarshalASN1 0 m (NewBuilder buf) = (st', None) /\
  match m with
  | OK bs => Bytes st = OK (buf ++ bs) /\ Bytes st' = OK (buf ++ bs)
  | ERR e => Bytes st' = ERR e /\ exists e', Bytes st = ERR e'
  end.
Lemma marshal_ok : forall bs buf, exists st, MarshalASN1 0 (OK bs) (NewBuilder buf) = (st, None) /\ Bytes st = OK (buf ++ bs).
Proof.
  intros bs buf. unfold MarshalASN1, NewBuilder, add. cbn [frames nth_error f_err fixed Nat.eqb negb andb f_len].
  eexists. split; [reflexivity|]. unfold put_frame, set_mem, set_frames, set_len, write, Bytes. cbn [upd frames f_err f_off f_len mem fixed].
  f_equal. pose proof (zlen_nonneg _ buf). pose proof (zlen_nonneg _ bs). replace (firstn (Z.to_nat (zlen buf)) buf) with buf by (unfold zlen; rewrite Nat2Z.id, firstn_all; reflexivity).
  replace (zlen buf + zlen bs) with (zlen (buf ++ bs)) by apply zlen_app. apply sub_all.
Qed.
Lemma same_ok : forall o bs m, m = OK bs -> writes o bs -> same o m.
Proof.
  intros o bs m -> W buf. destruct (W buf) as (st & E & B). destruct (marshal_ok bs buf) as (st' & E' & B'). exists st, st'. auto.
Qed.
Lemma same_err : forall o m, (exists e, m = ERR e) -> (forall buf, exists st e, execs [o] (NewBuilder buf) = (st, None) /\ Bytes st = ERR e) -> same o m.
Proof. intros o m [e ->] W buf. destruct (W buf) as (st & e' & E & B). exists st. eexists. split; [exact E|]. split; [reflexivity|]. split; [reflexivity|eauto]. Qed.
Lemma field_plain : forall t c, 0 <= t < 31 -> zlen c < 2 ^ 63 -> makeField false t false (OK c) noParams = OK (tlv t c).
Proof.
  intros t c T L. unfold makeField, noParams. cbn [fp_optional fp_set fp_tag andb rbind]. f_equal. rewrite tagged_tlv; [|split; lia|exact L]. reflexivity.
Qed.

Theorem C119_int64 : forall v, - 2 ^ 63 <= v < 2 ^ 63 -> same (AddASN1Int64 v) (marshalInt v).
Proof.
  intros v H. pose proof (int64Bytes_der v H) as D. apply (same_ok _ (tlv 2 (int64Bytes v))).
  - apply field_plain; [unfold TagInteger; lia|]. unfold int64Bytes. rewrite lengthBytes_enc. unfold zlen. rewrite be_enc_length.
    pose proof (signedLen_octets 10 v ltac:(unfold fits; cbn; lia)) as [_ [_ _]].
    assert (Q : forall fuel y, (signedLen fuel y <= S fuel)%nat).
    { clear. induction fuel as [|fuel IH]; intro y; [cbn; lia|]. cbn [signedLen]. destruct (_ || _); [apply le_n_S, IH|lia]. }
    specialize (Q 10%nat v). lia.
  - apply (proj1 (C33_write_signed v _ H D)).
Qed.
Theorem C119_big : forall v, v <> -1 -> zlen (makeBigInt v) <= 2 ^ 32 - 2 -> same (AddASN1BigInt v) (marshalBig v).
Proof.
  intros v N L. apply (same_ok _ (tlv 2 (makeBigInt v))); [apply field_plain; [unfold TagInteger; lia|lia]|]. apply C32_write; [exact N|apply makeBigInt_der|exact L].
Qed.
Theorem C119_uint64 : forall v, 0 <= v < 2 ^ 64 -> same (AddASN1Uint64 v) (marshalBig v).
Proof.
  intros v H. pose proof (makeBigInt_der v) as D. apply (same_ok _ (tlv 2 (makeBigInt v))); [apply field_plain; [unfold TagInteger; lia|]|apply C33_write_unsigned; assumption].
  pose proof (int_der_octets _ _ D) as O. assert (F : fits 9 v) by (unfold fits; cbn; lia). pose proof (octets_le v _ 9 O ltac:(lia) F). lia.
Qed.
Theorem C119_strings : forall d,
  (zlen d <= 2 ^ 32 - 2 -> same (AddASN1OctetString d) (marshalOctets d)) /\
  (zlen d <= 2 ^ 32 - 3 -> same (AddASN1BitString d) (marshalBits (mkBits d (8 * zlen d)))).
Proof.
  intro d. pose proof (C116_write_strings d) as [W1 W2]. split; intro L.
  - apply (same_ok _ (tlv 4 d)); [apply field_plain; [unfold TagOctetString; lia|lia]|exact (W1 L)].
  - apply (same_ok _ (tlv 3 (0 :: d))); [|exact (W2 L)]. unfold marshalBits, makeBitString. cbn [bs_len bs_bytes]. pose proof (zlen_nonneg _ d).
    replace (Z.rem (8 * zlen d) 8) with 0 by (rewrite Z.rem_mod_nonneg by lia; rewrite Z.mul_comm, Z_mod_mult; reflexivity).
    change (u8 (Z.rem (8 - 0) 8)) with 0. apply field_plain; [unfold TagBitString; lia|rewrite zlen_cons; lia].
Qed.
Theorem C119_boolean : forall b, same (AddASN1Boolean b) (marshalBool b).
Proof. intro b. apply (same_ok _ [1; 1; if b then 255 else 0]); [destruct b; reflexivity|apply (proj1 (C116_write_short b))]. Qed.

(** Object identifiers with no negative arc: also when they are refused, and when the first octets overflow an int. *)
Lemma group_10 : forall x, zlen (group x) <= 10.
Proof.
  intro x. unfold group, zlen. rewrite octs_length.
  assert (Q : forall fuel y, (base128Len fuel y <= fuel)%nat).
  { clear. induction fuel as [|fuel IH]; intro y; [cbn; lia|]. cbn [base128Len]. destruct (0 <? y); [apply le_n_S, IH|lia]. }
  specialize (Q 10%nat x). destruct (x =? 0); lia.
Qed.
Theorem C119_oid : forall oid, Forall (fun x => 0 <= x) oid -> 10 * zlen oid <= 2 ^ 32 - 2 -> same (AddASN1ObjectIdentifier oid) (fieldOID oid).
Proof.
  intros oid F L. assert (D : forall l, (exists e, makeObjectIdentifier l = ERR e) -> exists e, fieldOID l = ERR e).
  { intros l [e H]. exists e. unfold fieldOID, makeField. rewrite H. reflexivity. }
  destruct oid as [|a [|b r]]; [apply same_err; [apply D; eexists; reflexivity|intro buf; apply C35_invalid_refused; left; cbn; lia] ..|].
  destruct ((2 <? a) || ((a <=? 1) && (40 <=? b))) eqn:C.
  { apply same_err.
    - apply D. cbn [makeObjectIdentifier]. replace (a <? 2) with (a <=? 1) by (destruct (Z.leb_spec a 1), (Z.ltb_spec a 2); lia). rewrite C. eexists. reflexivity.
    - intro buf. apply C35_invalid_refused. right. intros (Ha & Hb & Hab & _). apply orb_true_iff in C. rewrite andb_true_iff, Z.ltb_lt, !Z.leb_le in C. lia. }
  set (l := group (i64 (i64 (a * 40) + b)) ++ List.concat (map group r)).
  apply (same_ok _ (tlv 6 l)).
  - unfold fieldOID. cbn [makeObjectIdentifier]. replace (a <? 2) with (a <=? 1) by (destruct (Z.leb_spec a 1), (Z.ltb_spec a 2); lia). rewrite C.
    rewrite appendBase128Int_group, (map_ext _ _ appendBase128Int_group). fold l. apply field_plain; [unfold TagOID; lia|].
    unfold l. rewrite zlen_app. pose proof (group_10 (i64 (i64 (a * 40) + b))). pose proof (concat_len 10 r (fun x _ => group_10 x)). rewrite !zlen_cons in L. pose proof (zlen_nonneg _ r). lia.
  - unfold AddASN1ObjectIdentifier.
    assert (V : isValidOID (a :: b :: r) = true).
    { cbn [isValidOID]. rewrite C. apply forallb_forall. rewrite Forall_forall in F. intros x X. apply Z.leb_le, F, X. }
    rewrite V. cbn [negb].
    replace (OASN1 0 OBJECT_IDENTIFIER (addBase128Int (i64 (i64 (a * 40) + b)) ++ List.concat (map addBase128Int r))) with (call (IASN1 OBJECT_IDENTIFIER (map one_byte l))).
    2:{ change (call (IASN1 OBJECT_IDENTIFIER (map one_byte l))) with (OASN1 0 OBJECT_IDENTIFIER (map call (map one_byte l))). f_equal. unfold l.
        rewrite !map_app, addBase128Int_call. f_equal. clear. induction r as [|x r IH]; [reflexivity|]. cbn [map List.concat]. rewrite !map_app, IH, addBase128Int_call. reflexivity. }
    apply elem_writes; auto using wf_bytes, sers_bytes; [discriminate|].
    unfold l. rewrite zlen_app. pose proof (group_10 (i64 (i64 (a * 40) + b))). pose proof (concat_len 10 r (fun x _ => group_10 x)). rewrite !zlen_cons in L. lia.
Qed.

(** Times outside 1950 to 2049 whose zone is an offset of 0 or at least a minute, less than a hundred hours. *)
Lemma common_format : forall t, t_off t = 0 \/ 60 <= Z.abs (t_off t) < 360000 -> fourDigits (yearOf t) ++ appendTimeCommon t = formatTime t.
Proof.
  intros t H. unfold formatTime, appendTimeCommon, yearOf. destruct (Date t) as [[y m] d]. destruct (Clock t) as [[hh mm] ss]. cbn [fst].
  do 6 f_equal. unfold formatZone. pose proof (Z.quot_rem' (t_off t) 60) as Q. pose proof (Z.rem_bound_abs (t_off t) 60 ltac:(lia)) as R.
  assert (SG : 0 <= t_off t -> 0 <= Z.rem (t_off t) 60) by (intro; apply Z.rem_nonneg; lia). assert (SN : t_off t <= 0 -> Z.rem (t_off t) 60 <= 0) by (intro; apply Z.rem_nonpos; lia).
  destruct (Z.eqb_spec (t_off t) 0) as [->|N]; [reflexivity|].
  destruct (Z.eqb_spec (Z.quot (t_off t) 60) 0) as [E|NE]; [exfalso; lia|].
  replace (0 <? t_off t) with (negb (Z.quot (t_off t) 60 <? 0)) by (destruct (Z.ltb_spec (Z.quot (t_off t) 60) 0), (Z.ltb_spec 0 (t_off t)); cbn; lia).
  unfold width2. rewrite (proj2 (Z.ltb_lt _ 100)) by (apply Z.div_lt_upper_bound; lia). destruct (_ <? 0); reflexivity.
Qed.
Theorem C119_time : forall t, t_off t = 0 \/ 60 <= Z.abs (t_off t) < 360000 -> ~ 1950 <= yearOf t < 2050 -> same (AddASN1GeneralizedTime t) (marshalTime t).
Proof.
  intros t HZ HY. assert (O : outsideUTCRange t = true). { unfold outsideUTCRange. apply orb_true_iff. rewrite Z.ltb_lt, Z.leb_le. lia. }
  unfold marshalTime, timeTag, makeTime. rewrite O. destruct ((yearOf t <? 0) || (9999 <? yearOf t)) eqn:C.
  - apply same_err; [eexists; reflexivity|]. intro buf. apply C84_refused. apply orb_true_iff in C. rewrite !Z.ltb_lt in C. lia.
  - apply orb_false_iff in C. rewrite !Z.ltb_ge in C. rewrite common_format by exact HZ. apply (same_ok _ (tlv 24 (formatTime t))).
    + apply field_plain; [unfold TagGeneralizedTime; lia|]. pose proof (formatTime_length t). unfold zlen. lia.
    + apply C116_write_time. lia.
Qed.

(** * MarshalASN1, AddValue and BytesOrPanic on any Builder *)

(** MarshalASN1 is AddBytes of the encoding; an error of Marshal is recorded unless there is one already. (The error that a
    MarshalingValue returns to AddValue replaces the earlier one.) *)
Theorem C119_marshal : forall k st,
  (forall bs, MarshalASN1 k (OK bs) st = exec (OAdd k bs) st) /\
  (forall f e, nth_error (frames st) k = Some f -> f_err f = None -> MarshalASN1 k (ERR e) st = exec (OSetErr k e) st) /\
  (forall f m, nth_error (frames st) k = Some f -> f_err f <> None -> MarshalASN1 k m st = (st, None)).
Proof.
  intros k st. unfold MarshalASN1. cbn [exec]. split; [|split].
  - intro bs. unfold add. destruct (nth_error (frames st) k) as [f|]; [|reflexivity]. destruct (f_err f) eqn:E; [reflexivity|]. reflexivity.
  - intros f e H E. rewrite H, E. reflexivity.
  - intros f m H E. rewrite H. destruct (f_err f); [reflexivity|congruence].
Qed.
Theorem C119_last_error : forall st f e e', frames st = [f] -> Bytes (fst (execs [OSetErr 0 e; OSetErr 0 e'] st)) = ERR e' /\
  (forall m, Bytes (fst (MarshalASN1 0 m (fst (exec (OSetErr 0 e) st)))) = ERR e).
Proof.
  intros [m0 fx cp fs] f e e' H. cbn [frames] in H. subst fs. split; [reflexivity|]. intro m. reflexivity.
Qed.
Theorem C119_bytes_or_panic : forall st,
  (forall bs, BytesOrPanic st = Ret bs <-> Bytes st = OK bs) /\ (forall e, BytesOrPanic st = Panic (PUser e) <-> Bytes st = ERR e).
Proof. intro st. unfold BytesOrPanic. destruct (Bytes st); split; intro x; split; intro H; congruence. Qed.

(** * Where the two differ *)

(** The integer -1: the Builder panics. *)
Theorem C119_minus_one : forall buf, snd (execs [AddASN1BigInt (-1)] (NewBuilder buf)) = Some PIndex /\ marshalBig (-1) = OK [2; 1; 255].
Proof. intro buf. split; [apply C32_minus_one_panics|reflexivity]. Qed.
(** Negative arcs: the Builder refuses every one of them, Marshal refuses none after the first two and then writes another identifier. *)
Theorem C119_negative_arc : forall oid, Exists (fun x => x < 0) oid -> forall buf, exists st e, execs [AddASN1ObjectIdentifier oid] (NewBuilder buf) = (st, None) /\ Bytes st = ERR e.
Proof.
  intros oid H buf. apply C35_invalid_refused. right. intro K. destruct oid as [|a [|b r]]; try contradiction K. destruct K as (K1 & K2 & K3 & K4).
  rewrite Forall_forall in K4. apply Exists_exists in H. destruct H as (x & [<-|[<-|I]] & Hx); [lia|lia|]. specialize (K4 x I). lia.
Qed.
Theorem C119_negative_arc_refuted : exists oid bs, Exists (fun x => x < 0) oid /\ fieldOID oid = OK bs /\ fieldOID [1; 2; 5] = OK bs.
Proof. exists [1; 2; -7; 5], [6; 2; 42; 5]. split; [right; right; left; lia|split; reflexivity]. Qed.
(** Times of the years 1950 to 2049: GeneralizedTime against UTCTime. *)
Theorem C119_time_tag : forall t, 1950 <= yearOf t < 2050 ->
  (exists c, writes (AddASN1GeneralizedTime t) (24 :: c)) /\ exists c, marshalTime t = OK (23 :: c).
Proof.
  intros t H. split; [eexists; apply (C116_write_time t); lia|]. unfold marshalTime, timeTag, makeTime.
  assert (O : outsideUTCRange t = false). { unfold outsideUTCRange. apply orb_false_iff. rewrite Z.ltb_ge, Z.leb_gt. lia. }
  rewrite O. unfold makeField, noParams, TagUTCTime. cbn [fp_optional fp_set fp_tag andb rbind]. eexists. unfold tagged, appendTagAndLength. cbn [tl_class tl_tag tl_comp Z.leb Z.compare]. reflexivity.
Qed.
(** A zone less than a minute from UTC. *)
Theorem C119_zone_refuted : exists t, ~ 1950 <= yearOf t < 2050 /\ t_off t <> 0 /\ ~ same (AddASN1GeneralizedTime t) (marshalTime t).
Proof.
  exists (mkTime 4102444800 0 1). split; [vm_compute; intros [_ H]; discriminate H|]. split; [discriminate|]. intro S. destruct (S []) as (st & st' & E & _ & B). revert B.
  vm_compute in E. assert (Q : fst (execs [AddASN1GeneralizedTime (mkTime 4102444800 0 1)] (NewBuilder [])) = st) by (vm_compute; congruence). rewrite <- Q.
  vm_compute. intros [B _]. discriminate B.
Qed.

(** * Examples *)
Definition written (o : op) : res (list Z) := Bytes (fst (execs [o] (NewBuilder [99]))).
Example C119_ex_int : written (AddASN1Int64 (-129)) = OK [99; 2; 2; 255; 127] /\ marshalInt (-129) = OK [2; 2; 255; 127].
Proof. split; vm_compute; reflexivity. Qed.
Example C119_ex_big : written (AddASN1BigInt (2 ^ 64)) = OK [99; 2; 9; 1; 0; 0; 0; 0; 0; 0; 0; 0] /\ marshalBig (2 ^ 64) = OK [2; 9; 1; 0; 0; 0; 0; 0; 0; 0; 0] /\ zlen (makeBigInt (2 ^ 64)) <= 2 ^ 32 - 2.
Proof. split; [vm_compute; reflexivity|]. split; [vm_compute; reflexivity|vm_compute; discriminate]. Qed.
Example C119_ex_uint : written (AddASN1Uint64 (2 ^ 63)) = OK [99; 2; 9; 0; 128; 0; 0; 0; 0; 0; 0; 0] /\ marshalBig (2 ^ 63) = OK [2; 9; 0; 128; 0; 0; 0; 0; 0; 0; 0].
Proof. split; vm_compute; reflexivity. Qed.
Example C119_ex_strings : written (AddASN1OctetString [7; 8]) = OK [99; 4; 2; 7; 8] /\ marshalOctets [7; 8] = OK [4; 2; 7; 8]
  /\ written (AddASN1BitString [7]) = OK [99; 3; 2; 0; 7] /\ marshalBits (mkBits [7] 8) = OK [3; 2; 0; 7].
Proof. repeat split; vm_compute; reflexivity. Qed.
Example C119_ex_oid : written (AddASN1ObjectIdentifier [1; 2; 840; 2 ^ 40]) = OK [99; 6; 9; 42; 134; 72; 160; 128; 128; 128; 128; 0] /\
  fieldOID [1; 2; 840; 2 ^ 40] = OK [6; 9; 42; 134; 72; 160; 128; 128; 128; 128; 0] /\ (exists e, written (AddASN1ObjectIdentifier [1; 40]) = ERR e) /\ (exists e, fieldOID [1; 40] = ERR e)
  /\ written (AddASN1ObjectIdentifier [2; 2 ^ 63 - 1; 5]) = OK [99; 6; 1; 5] /\ fieldOID [2; 2 ^ 63 - 1; 5] = OK [6; 1; 5].
Proof. repeat split; try eexists; vm_compute; reflexivity. Qed.
Example C119_ex_time : let t := mkTime 4102444800 0 (-28800 + 36000 * 2) in ~ 1950 <= yearOf t < 2050 /\ marshalTime t = OK ([24; 19] ++ formatTime t) /\
  written (AddASN1GeneralizedTime t) = OK ([99; 24; 19] ++ formatTime t).
Proof. split; [vm_compute; intros [_ H]; discriminate H|]. split; vm_compute; reflexivity. Qed.
Example C119_ex_marshal : Bytes (fst (MarshalASN1 0 (marshalInt 5) (NewBuilder [9]))) = OK [9; 2; 1; 5] /\ BytesOrPanic (fst (MarshalASN1 0 (fieldOID []) (NewBuilder [9]))) = Panic (PUser "invalid object identifier").
Proof. split; vm_compute; reflexivity. Qed.
