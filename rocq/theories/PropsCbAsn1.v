(** Properties C32-C38: ASN.1 values in cryptobyte. *)
From Coq Require Import ZArith List Lia Bool String.
From Verif Require Import GoBase BeMin CbString CbStringProofs PropsCbString.
From Verif Require Import CbBuilder CbBuilderProofs CbBuilderFixed CbBuilderGen PropsCbBuilder CbAsn1Proofs.
Import ListNotations.
Open Scope Z_scope.

(** Writing an element whose contents are a tree. *)
Lemma elem_writes : forall t is c, wf_items is -> sers is = Some c -> t mod 32 <> 31 -> zlen c <= 2 ^ 32 - 2 ->
  writes (call (IASN1 t is)) (tlv t c).
Proof.
  intros t is c W S Ht Hc buf.
  destruct (C26_growing_builder buf [IASN1 t is] (tlv t c)) as (st & E & B); [cbn; auto| |eauto].
  cbn [sers]. rewrite ser_IASN1, S. destruct (Z.eqb_spec (t mod 32) 31); [contradiction|].
  destruct (Z.leb_spec (zlen c) (2 ^ 32 - 2)); [|lia]. rewrite app_nil_r. reflexivity.
Qed.

Lemma tlv_element : forall t c r, t mod 32 <> 31 -> zlen c <= 2 ^ 32 - 8 -> element (Some (tlv t c ++ r)) t c r.
Proof.
  intros t c r Ht Hc. pose proof (zlen_nonneg _ c). split; [reflexivity|]. split; [exact Ht|].
  rewrite zlen_tlv. pose proof (zlen_der_len_le (zlen c) ltac:(lia)). lia.
Qed.

Lemma tlv_bytes : forall t c r, byte t -> bytes c -> bytes r -> zlen c <= 2 ^ 32 - 2 -> bytes (tlv t c ++ r).
Proof.
  intros t c r Ht Bc Br Hc. pose proof (zlen_nonneg _ c). unfold tlv. cbn [app]. apply bytes_cons. split; [exact Ht|].
  rewrite <- app_assoc. apply bytes_app. split; [apply der_len_bytes; lia|]. apply bytes_app. auto.
Qed.

Lemma element_bytes : forall s t c r, bytes (contents s) -> element s t c r -> bytes c /\ bytes r.
Proof.
  intros s t c r HB (-> & _ & _). cbn [contents] in HB. unfold tlv in HB. cbn [app] in HB.
  apply bytes_cons in HB. destruct HB as [_ HB]. rewrite <- app_assoc in HB. apply bytes_app in HB.
  destruct HB as [_ HB]. apply bytes_app in HB. exact HB.
Qed.

Lemma element_unique : forall s t c r t' c' r', element s t c r -> element s t' c' r' ->
  t = t' /\ c = c' /\ r = r'.
Proof.
  intros s t c r t' c' r' (E & _ & L) (E' & _ & L'). rewrite E in E'. apply (f_equal contents) in E'.
  cbn [contents] in E'. rewrite zlen_tlv in L, L'. pose proof (zlen_der_len_pos (zlen c)).
  pose proof (zlen_der_len_pos (zlen c')). apply tlv_inj in E'; [exact E'|lia|lia].
Qed.

Lemma low_tags : forall t, In t [1; 2; 3; 4; 5; 6; 10; 48] -> t mod 32 <> 31 /\ byte t.
Proof. intros t H. cbn in H. unfold byte. repeat (destruct H as [<-|H]; [split; [discriminate|lia]|]). contradiction. Qed.

(** * C32: INTEGER, big integers *)

Theorem C32_write : forall n c, n <> -1 -> int_der n c -> zlen c <= 2 ^ 32 - 2 ->
  writes (AddASN1BigInt n) (tlv INTEGER c).
Proof.
  intros n c Hn D Hc. rewrite big_call by exact Hn. destruct (big_sers n Hn) as (W & c' & S & D').
  rewrite <- (int_der_unique n c c' D D') in S. apply elem_writes; auto. discriminate.
Qed.

Theorem C32_int_der_total : forall n, exists c, int_der n c /\ forall c', int_der n c' -> c' = c.
Proof.
  intro n. destruct (int_der_exists n) as [c H]. exists c. split; [exact H|].
  intros c' H'. eapply int_der_unique; eauto.
Qed.

Theorem C32_roundtrip : forall n c buf rest, n <> -1 -> int_der n c -> zlen c <= 2 ^ 32 - 8 -> bytes rest ->
  exists st bs, execs [AddASN1BigInt n] (NewBuilder buf) = (st, None) /\ Bytes st = OK (buf ++ bs) /\
    ReadASN1Integer (Some (bs ++ rest)) KBig = Ret (Some n, Some rest).
Proof.
  intros n c buf rest Hn D Hc Br. destruct (C32_write n c Hn D ltac:(lia) buf) as (st & E & B).
  exists st, (tlv INTEGER c). split; [exact E|]. split; [exact B|]. cbn [ReadASN1Integer].
  pose proof D as (Bc & _). destruct (int_der_check n c D) as [C V].
  rewrite (readASN1BigInt_elem _ INTEGER c rest); [rewrite C, V; reflexivity| |apply tlv_element; [discriminate|exact Hc]|exact Bc].
  cbn [contents]. apply tlv_bytes; auto; [unfold byte, INTEGER; lia|lia].
Qed.

Example C32_witness : int_der (-129) [255; 127] /\ int_der 128 [0; 128] /\ int_der 0 [0].
Proof.
  assert (H : forall v c, forallb byteb c = true -> c <> [] -> tc_val c = v -> checkASN1Integer c = true -> int_der v c).
  { intros v c B N E C. rewrite <- E. apply check_int_der; auto. apply bytes_forallb. exact B. }
  split; [|split]; apply H; try reflexivity; discriminate.
Qed.

(** The one integer it cannot write. *)
Theorem C32_minus_one_panics : forall buf, snd (execs [AddASN1BigInt (-1)] (NewBuilder buf)) = Some PIndex.
Proof. intro buf. vm_compute. reflexivity. Qed.

(** * C33, C34: INTEGER, machine integers and decoding *)

Theorem C33_write_signed : forall v c, - 2 ^ 63 <= v < 2 ^ 63 -> int_der v c ->
  writes (AddASN1Int64 v) (tlv INTEGER c) /\ writes (AddASN1Enum v) (tlv ENUM c).
Proof.
  intros v c Hv D.
  assert (O : octets v (Z.of_nat (signedLen 10 v))).
  { apply signedLen_octets. unfold fits. cbn. lia. }
  pose proof (octets_enc v _ O) as D'. rewrite (int_der_unique v c _ D D').
  assert (L : zlen (be_enc (signedLen 10 v) v) <= 2 ^ 32 - 2).
  { rewrite zlen_be_enc. pose proof (octets_le v _ 8 O ltac:(lia) ltac:(unfold fits; cbn; lia)). lia. }
  assert (G : forall t, t mod 32 <> 31 -> writes (addASN1Signed t v) (tlv t (be_enc (signedLen 10 v) v))).
  { intros t Ht. unfold addASN1Signed. rewrite addOctets_call.
    apply (elem_writes t (map one_byte (be_enc (signedLen 10 v) v))); auto using wf_bytes, sers_bytes. }
  split; apply G; discriminate.
Qed.

Theorem C33_write_unsigned : forall v c, 0 <= v < 2 ^ 64 -> int_der v c ->
  writes (AddASN1Uint64 v) (tlv INTEGER c).
Proof.
  intros v c Hv D. unfold AddASN1Uint64. rewrite unsignedLen_signed by lia.
  assert (O : octets v (Z.of_nat (signedLen 10 v))).
  { apply signedLen_octets. unfold fits. cbn. lia. }
  pose proof (octets_enc v _ O) as D'. rewrite (int_der_unique v c _ D D'). rewrite addOctets_call.
  apply (elem_writes INTEGER (map one_byte (be_enc (signedLen 10 v) v))); auto using wf_bytes, sers_bytes; [discriminate|].
  rewrite zlen_be_enc. pose proof (octets_le v _ 9 O ltac:(lia) ltac:(unfold fits; cbn; lia)). lia.
Qed.

(** The values of the type behind ReadASN1Integer's argument. *)
Definition in_kind (k : ikind) (v : Z) : Prop :=
  match k with
  | KInt bits => - 2 ^ (bits - 1) <= v < 2 ^ (bits - 1)
  | KUint bits => 0 <= v < 2 ^ bits
  | KBig => True
  | _ => False
  end.
Definition int_kind (k : ikind) : Prop :=
  match k with KInt bits | KUint bits => 1 <= bits <= 64 | KBig => True | _ => False end.

Lemma overflowInt_spec : forall bits v, 1 <= bits <= 64 -> - 2 ^ 63 <= v < 2 ^ 63 ->
  overflowInt bits v = negb ((- 2 ^ (bits - 1) <=? v) && (v <? 2 ^ (bits - 1))).
Proof.
  intros bits v Hb Hv. unfold overflowInt. f_equal.
  rewrite Z.shiftl_mul_pow2, Z.shiftr_div_pow2 by lia. set (s := 2 ^ (64 - bits)).
  assert (Ps : 0 < s) by (apply Z.pow_pos_nonneg; lia).
  assert (HS : 2 ^ (bits - 1) * s = 2 ^ 63) by (unfold s; rewrite <- Z.pow_add_r by lia; f_equal; lia).
  set (h := 2 ^ (bits - 1)) in *.
  destruct (Z.leb_spec (- h) v) as [L1|L1]; cbn [andb]; [destruct (Z.ltb_spec v h) as [L2|L2]|].
  - rewrite i64_id by nia. rewrite Z.div_mul by lia. apply Z.eqb_refl.
  - apply Z.eqb_neq. intro E. pose proof (i64_range (v * s)) as R.
    pose proof (Z.div_lt_upper_bound (i64 (v * s)) s h ltac:(lia)). lia.
  - apply Z.eqb_neq. intro E. pose proof (i64_range (v * s)) as R.
    pose proof (Z.div_le_lower_bound (i64 (v * s)) s (- h) ltac:(lia)). lia.
Qed.

Lemma overflowUint_spec : forall bits v, 1 <= bits <= 64 -> 0 <= v < 2 ^ 64 ->
  overflowUint bits v = negb (v <? 2 ^ bits).
Proof.
  intros bits v Hb Hv. unfold overflowUint. f_equal.
  rewrite Z.shiftl_mul_pow2, Z.shiftr_div_pow2 by lia. set (s := 2 ^ (64 - bits)).
  assert (Ps : 0 < s) by (apply Z.pow_pos_nonneg; lia).
  assert (HS : 2 ^ bits * s = 2 ^ 64) by (unfold s; rewrite <- Z.pow_add_r by lia; f_equal; lia).
  set (h := 2 ^ bits) in *. unfold u64. destruct (Z.ltb_spec v h) as [L|L].
  - rewrite Z.mod_small by nia. rewrite Z.div_mul by lia. apply Z.eqb_refl.
  - apply Z.eqb_neq. intro E. pose proof (Z.mod_pos_bound (v * s) (2 ^ 64) ltac:(lia)) as R.
    pose proof (Z.div_lt_upper_bound ((v * s) mod 2 ^ 64) s h ltac:(lia)). lia.
Qed.

(** What ReadASN1Integer does with a well-formed element of any tag. *)
Lemma read_int_elem : forall s t c r k, bytes (contents s) -> element s t c r -> int_kind k ->
  exists o, ReadASN1Integer s k = Ret (o, Some r) /\
    forall v, o = Some v <-> t = INTEGER /\ int_der v c /\ in_kind k v.
Proof.
  intros s t c r k HB HE HK. destruct (element_bytes _ _ _ _ HB HE) as [Bc Br].
  assert (ND : (t =? INTEGER) && checkASN1Integer c = false -> forall v, None = Some v <-> t = INTEGER /\ int_der v c /\ in_kind k v).
  { intros F v. split; [discriminate|]. intros (-> & D & _). destruct (int_der_check v c D) as [C _].
    rewrite Z.eqb_refl, C in F. discriminate. }
  assert (DV : checkASN1Integer c = true -> forall v, int_der v c <-> v = tc_val c).
  { intros C v. assert (N : c <> []) by (intros ->; discriminate). split.
    - intros (_ & _ & E & _). auto.
    - intros ->. apply check_int_der; auto. }
  destruct k as [bits|bits| | |]; cbn [int_kind] in HK; try contradiction; cbn [ReadASN1Integer].
  - unfold readASN1Int64. rewrite (ReadASN1_element _ _ _ _ _ _ HB HE). cbn [bind contents].
    destruct ((t =? INTEGER) && checkASN1Integer c) eqn:F.
    2:{ replace (negb (t =? INTEGER) || negb (checkASN1Integer c)) with true.
        2:{ rewrite <- negb_andb, F. reflexivity. }
        cbn [bind]. eexists. split; [reflexivity|]. apply ND; first [exact F | reflexivity]. }
    apply andb_true_iff in F. destruct F as [F1 F2]. rewrite F1, F2. cbn [negb orb bind].
    apply Z.eqb_eq in F1. assert (N : c <> []) by (intros ->; discriminate).
    rewrite asn1Signed_val by auto. pose proof (tc_range c Bc N) as TR.
    destruct (Z.ltb_spec 8 (zlen c)) as [L8|L8].
    + eexists. split; [reflexivity|]. intro v. split; [discriminate|]. intros (_ & D & K).
      exfalso. cbn [in_kind] in K. apply int_der_octets in D.
      assert (zlen c <= 8); [|lia]. eapply octets_le; [exact D|lia|]. unfold fits.
      assert (2 ^ (bits - 1) <= 2 ^ (8 * 8 - 1)) by (apply Z.pow_le_mono_r; lia). lia.
    + pose proof (zlen_pos _ c N).
      assert (R : - 2 ^ 63 <= tc_val c < 2 ^ 63).
      { apply (fits_mono (zlen c) 8); [lia|exact TR]. }
      rewrite overflowInt_spec by (auto; lia). cbn [in_kind].
      destruct (Z.leb_spec (- 2 ^ (bits - 1)) (tc_val c)) as [A1|A1]; cbn [andb negb];
        [destruct (Z.ltb_spec (tc_val c) (2 ^ (bits - 1))) as [A2|A2]; cbn [negb]|];
        (eexists; split; [reflexivity|]; intro v; rewrite (DV F2)).
      * split; [intro X; injection X as <-; auto|intros (_ & -> & _); reflexivity].
      * split; [discriminate|]. intros (_ & -> & K). lia.
      * split; [discriminate|]. intros (_ & -> & K). lia.
  - unfold readASN1Uint64. rewrite (ReadASN1_element _ _ _ _ _ _ HB HE). cbn [bind contents].
    destruct ((t =? INTEGER) && checkASN1Integer c) eqn:F.
    2:{ replace (negb (t =? INTEGER) || negb (checkASN1Integer c)) with true.
        2:{ rewrite <- negb_andb, F. reflexivity. }
        cbn [bind]. eexists. split; [reflexivity|]. apply ND; first [exact F | reflexivity]. }
    apply andb_true_iff in F. destruct F as [F1 F2]. rewrite F1, F2. cbn [negb orb bind].
    apply Z.eqb_eq in F1. rewrite asn1Unsigned_val by auto. cbn [bind in_kind].
    assert (2 ^ bits <= 2 ^ 64) by (apply Z.pow_le_mono_r; lia).
    destruct (Z.leb_spec 0 (tc_val c)) as [A1|A1]; cbn [andb];
      [destruct (Z.ltb_spec (tc_val c) (2 ^ 64)) as [A2|A2]|].
    + rewrite overflowUint_spec by (auto; lia).
      destruct (Z.ltb_spec (tc_val c) (2 ^ bits)) as [A3|A3]; cbn [negb];
        (eexists; split; [reflexivity|]; intro v; rewrite (DV F2)).
      * split; [intro X; injection X as <-; auto|intros (_ & -> & _); reflexivity].
      * split; [discriminate|]. intros (_ & -> & K). lia.
    + eexists; split; [reflexivity|]; intro v; rewrite (DV F2).
      split; [discriminate|]. intros (_ & -> & K). lia.
    + eexists; split; [reflexivity|]; intro v; rewrite (DV F2).
      split; [discriminate|]. intros (_ & -> & K). lia.
  - rewrite (readASN1BigInt_elem s t c r HB HE Bc).
    destruct ((t =? INTEGER) && checkASN1Integer c) eqn:F.
    + eexists. split; [reflexivity|]. intro v. apply andb_true_iff in F. destruct F as [F1 F2].
      apply Z.eqb_eq in F1. rewrite (DV F2). cbn [in_kind].
      split; [intro X; injection X as <-; auto|intros (_ & -> & _); reflexivity].
    + eexists. split; [reflexivity|]. apply ND; first [exact F | reflexivity].
Qed.

Lemma read_int_none : forall s k, bytes (contents s) -> int_kind k -> (~ exists t c r, element s t c r) ->
  ReadASN1Integer s k = Ret (None, s).
Proof.
  intros s k HB HK HN. destruct k as [bits|bits| | |]; cbn [int_kind] in HK; try contradiction;
    cbn [ReadASN1Integer]; unfold readASN1Int64, readASN1Uint64, readASN1BigInt;
    rewrite (ReadASN1_fail _ _ _ HB HN); reflexivity.
Qed.

(** ReadASN1Integer succeeds with [v] exactly when the input begins with an INTEGER element whose
    contents are the minimal encoding of [v] and [v] is a value of the target type. *)
Theorem C33_read_integer : forall s k v s', bytes (contents s) -> int_kind k ->
  (ReadASN1Integer s k = Ret (Some v, s') <->
   exists c r, element s INTEGER c r /\ int_der v c /\ in_kind k v /\ s' = Some r).
Proof.
  intros s k v s' HB HK. destruct (element_em s HB) as [(t & c & r & HE)|HN].
  - destruct (read_int_elem s t c r k HB HE HK) as (o & -> & O). split.
    + intro H. injection H as -> <-. destruct (proj1 (O v) eq_refl) as (-> & D & K). exists c, r. auto.
    + intros (c' & r' & HE' & D & K & ->). destruct (element_unique _ _ _ _ _ _ _ HE HE') as (-> & -> & ->).
      rewrite (proj2 (O v)); auto.
  - rewrite (read_int_none s k HB HK HN). split; [discriminate|].
    intros (c & r & HE & _). exfalso. apply HN. eauto.
Qed.

Theorem C33_read_never_panics : forall s k, bytes (contents s) -> int_kind k ->
  exists o s', ReadASN1Integer s k = Ret (o, s').
Proof.
  intros s k HB HK. destruct (element_em s HB) as [(t & c & r & HE)|HN].
  - destruct (read_int_elem s t c r k HB HE HK) as (o & -> & _). eauto.
  - rewrite (read_int_none s k HB HK HN). eauto.
Qed.

Theorem C33_roundtrip : forall v k buf rest, bytes rest -> int_kind k -> in_kind k v ->
  (- 2 ^ 63 <= v < 2 ^ 63 -> exists st bs, execs [AddASN1Int64 v] (NewBuilder buf) = (st, None) /\
     Bytes st = OK (buf ++ bs) /\ ReadASN1Integer (Some (bs ++ rest)) k = Ret (Some v, Some rest)) /\
  (0 <= v < 2 ^ 64 -> exists st bs, execs [AddASN1Uint64 v] (NewBuilder buf) = (st, None) /\
     Bytes st = OK (buf ++ bs) /\ ReadASN1Integer (Some (bs ++ rest)) k = Ret (Some v, Some rest)).
Proof.
  intros v k buf rest Br HK K. destruct (int_der_exists v) as [c D].
  pose proof D as (Bc & _). pose proof (int_der_octets v c D) as O.
  assert (R : zlen c <= 9 -> ReadASN1Integer (Some (tlv INTEGER c ++ rest)) k = Ret (Some v, Some rest)).
  { intro L. apply C33_read_integer; [apply tlv_bytes; auto; [unfold byte, INTEGER; lia|lia]|exact HK|].
    exists c, rest. split; [apply tlv_element; [discriminate|lia]|]. auto. }
  split; intro Hv.
  - destruct (C33_write_signed v c Hv D) as [W _]. destruct (W buf) as (st & E & B).
    exists st, (tlv INTEGER c). split; [exact E|]. split; [exact B|]. apply R.
    pose proof (octets_le v _ 8 O ltac:(lia) ltac:(unfold fits; cbn; lia)). lia.
  - destruct (C33_write_unsigned v c Hv D buf) as (st & E & B).
    exists st, (tlv INTEGER c). split; [exact E|]. split; [exact B|]. apply R.
    apply (octets_le v _ 9 O ltac:(lia) ltac:(unfold fits; cbn; lia)).
Qed.

Example C33_witness :
  (exists st, execs [AddASN1Int64 (-32769)] (NewBuilder []) = (st, None) /\ Bytes st = OK [2; 3; 255; 127; 255]) /\
  (exists st, execs [AddASN1Uint64 (2 ^ 64 - 1)] (NewBuilder []) = (st, None) /\
     Bytes st = OK [2; 9; 0; 255; 255; 255; 255; 255; 255; 255; 255]) /\
  ReadASN1Integer (Some [2; 2; 1; 0]) (KUint 8) = Ret (None, Some []).
Proof. split; [eexists; split; vm_compute; reflexivity|]. split; [eexists; split; vm_compute; reflexivity|reflexivity]. Qed.

(** ReadASN1Enum: the same with the ENUMERATED tag and 64 bits. *)
Theorem C33_read_enum : forall s v s', bytes (contents s) ->
  (ReadASN1Enum s = Ret (Some v, s') <->
   exists c r, element s ENUM c r /\ int_der v c /\ - 2 ^ 63 <= v < 2 ^ 63 /\ s' = Some r).
Proof.
  intros s v s' HB. unfold ReadASN1Enum. destruct (element_em s HB) as [(t & c & r & HE)|HN].
  - rewrite (ReadASN1_element _ _ _ _ _ _ HB HE). cbn [bind contents].
    destruct (element_bytes _ _ _ _ HB HE) as [Bc Br].
    destruct ((t =? ENUM) && checkASN1Integer c) eqn:F.
    + apply andb_true_iff in F. destruct F as [F1 F2]. rewrite F1, F2. cbn [negb orb].
      apply Z.eqb_eq in F1. subst t. assert (N : c <> []) by (intros ->; discriminate).
      rewrite asn1Signed_val by auto. destruct (Z.ltb_spec 8 (zlen c)) as [L|L].
      * split; [discriminate|]. intros (c' & r' & HE' & D & K & _).
        destruct (element_unique _ _ _ _ _ _ _ HE HE') as (_ & <- & _). apply int_der_octets in D.
        pose proof (octets_le v _ 8 D ltac:(lia) ltac:(unfold fits; cbn; lia)). lia.
      * pose proof (zlen_pos _ c N).
        assert (R : - 2 ^ 63 <= tc_val c < 2 ^ 63).
        { apply (fits_mono (zlen c) 8); [lia|]. apply tc_range; auto. }
        rewrite i64_id, Z.eqb_refl by exact R. cbn [negb]. split.
        -- intro X. injection X as <- <-. exists c, r. split; [exact HE|]. split; [apply check_int_der; auto|]. auto.
        -- intros (c' & r' & HE' & (_ & _ & E & _) & K & ->).
           destruct (element_unique _ _ _ _ _ _ _ HE HE') as (_ & <- & <-). rewrite E. reflexivity.
    + replace (negb (t =? ENUM) || negb (checkASN1Integer c)) with true by (rewrite <- negb_andb, F; reflexivity).
      split; [discriminate|]. intros (c' & r' & HE' & D & K & _).
      destruct (element_unique _ _ _ _ _ _ _ HE HE') as (-> & <- & _).
      destruct (int_der_check v c D) as [C _]. rewrite Z.eqb_refl, C in F. discriminate.
  - rewrite (ReadASN1_fail _ _ _ HB HN). cbn [bind negb orb]. split; [discriminate|].
    intros (c & r & HE & _). exfalso. apply HN. eauto.
Qed.

(** Decoding into a big integer accepts exactly the minimal contents, and is injective. *)
Theorem C34_canonical : forall s c r v, bytes (contents s) -> element s INTEGER c r ->
  (ReadASN1Integer s KBig = Ret (Some v, Some r) <-> int_der v c).
Proof.
  intros s c r v HB HE. rewrite (C33_read_integer s KBig v (Some r) HB I). split.
  - intros (c' & r' & HE' & D & _ & _). destruct (element_unique _ _ _ _ _ _ _ HE HE') as (_ & <- & _). exact D.
  - intro D. exists c, r. cbn [in_kind]. auto.
Qed.

Theorem C34_injective : forall c1 c2 r1 r2 v, bytes c1 -> bytes c2 -> bytes r1 -> bytes r2 ->
  zlen c1 <= 2 ^ 32 - 8 -> zlen c2 <= 2 ^ 32 - 8 ->
  ReadASN1Integer (Some (tlv INTEGER c1 ++ r1)) KBig = Ret (Some v, Some r1) ->
  ReadASN1Integer (Some (tlv INTEGER c2 ++ r2)) KBig = Ret (Some v, Some r2) -> c1 = c2.
Proof.
  intros c1 c2 r1 r2 v B1 B2 B3 B4 L1 L2 H1 H2.
  assert (bi : byte INTEGER) by (unfold byte, INTEGER; lia).
  apply (C34_canonical _ c1) in H1; [|apply tlv_bytes; auto; lia|apply tlv_element; [discriminate|exact L1]].
  apply (C34_canonical _ c2) in H2; [|apply tlv_bytes; auto; lia|apply tlv_element; [discriminate|exact L2]].
  eapply int_der_unique; eauto.
Qed.

Example C34_witness : ReadASN1Integer (Some [2; 2; 0; 127]) KBig = Ret (None, Some []) /\
  ReadASN1Integer (Some [2; 2; 0; 128]) KBig = Ret (Some 128, Some []).
Proof. split; reflexivity. Qed.

(** * C36: BIT STRING and OCTET STRING *)

Theorem C36_octet_string : forall d buf rest out, zlen d <= 2 ^ 32 - 8 -> bytes d -> bytes rest ->
  exists st bs, execs [AddASN1OctetString d] (NewBuilder buf) = (st, None) /\ Bytes st = OK (buf ++ bs) /\
    ReadASN1Bytes (Some (bs ++ rest)) out OCTET_STRING = Ret (true, Some d, Some rest).
Proof.
  intros d buf rest out L Bd Br. apply (C31_element_roundtrip OCTET_STRING d buf rest out); auto; [unfold byte, OCTET_STRING; lia|discriminate].
Qed.

(** BIT STRING contents: number of unused bits, then the bits, with unused bits zero. *)
Theorem C36_read_bit_string : forall s d n s', bytes (contents s) ->
  (ReadASN1BitString s = Ret (Some (d, n), s') <->
   exists u r, element s BIT_STRING (u :: d) r /\ s' = Some r /\ n = 8 * zlen d - u /\
     0 <= u <= 7 /\ (d = [] -> u = 0) /\ (last d 0) mod 2 ^ u = 0).
Proof.
  intros s d n s' HB. unfold ReadASN1BitString. destruct (element_em s HB) as [(t & c & r & HE)|HN].
  2:{ rewrite (ReadASN1_fail _ _ _ HB HN). cbn [bind negb orb]. split; [discriminate|].
      intros (u & r & HE & _). exfalso. apply HN. eauto. }
  rewrite (ReadASN1_element _ _ _ _ _ _ HB HE). cbn [bind]. unfold slen. cbn [contents].
  destruct (element_bytes _ _ _ _ HB HE) as [Bc Br].
  assert (U : forall u d r', element s BIT_STRING (u :: d) r' -> t = BIT_STRING /\ c = u :: d /\ r = r').
  { intros u d' r' HE'. apply (element_unique _ _ _ _ _ _ _ HE HE'). }
  destruct (Z.eqb_spec t BIT_STRING) as [->|Ht]; cbn [negb orb].
  2:{ split; [discriminate|]. intros (u & r' & HE' & _). apply U in HE'. tauto. }
  destruct c as [|u c].
  { cbn [zlen List.length Z.of_nat Z.eqb]. split; [discriminate|].
    intros (u & r' & HE' & _). apply U in HE'. destruct HE' as (_ & X & _). discriminate. }
  pose proof (zlen_nonneg _ c) as Nc. rewrite zlen_cons.
  destruct (Z.eqb_spec (zlen c + 1) 0) as [|_]; [lia|].
  change (go_index (u :: c) 0) with (Ret u). cbn [bind].
  rewrite go_slice_ret by (rewrite ?zlen_cons; lia). cbn [bind].
  assert (S1 : sub (u :: c) 1 (zlen c + 1) = c).
  { change (u :: c) with ([u] ++ c). rewrite sub_app_r; [reflexivity|reflexivity|change (zlen [u]) with 1; lia]. }
  rewrite S1. clear S1. apply bytes_cons in Bc. destruct Bc as [Bu Bc]. unfold byte in Bu.
  destruct (Z.ltb_spec 7 u) as [L7|L7].
  { split; [discriminate|]. intros (u' & r' & HE' & _ & _ & K & _). apply U in HE'.
    destruct HE' as (_ & X & _). injection X as <- _. lia. }
  destruct c as [|b c'].
  - cbn [zlen List.length Z.of_nat Z.eqb andb]. destruct (Z.eqb_spec u 0) as [->|Hu]; cbn [negb].
    + cbn [Z.ltb Z.compare bind]. split.
      * intro X. injection X as <- <- <-. exists 0, r. split; [exact HE|]. split; [reflexivity|].
        split; [reflexivity|]. split; [lia|]. split; [reflexivity|reflexivity].
      * intros (u' & r' & HE' & -> & -> & _). apply U in HE'. destruct HE' as (_ & X & ->). injection X as <- <-. reflexivity.
    + split; [discriminate|]. intros (u' & r' & HE' & _ & _ & _ & K & _). apply U in HE'.
      destruct HE' as (_ & X & _). injection X as <- <-. specialize (K eq_refl). lia.
  - set (c := b :: c') in *. assert (NC : c <> []) by discriminate.
    assert (Lc : 1 <= zlen c) by (apply zlen_pos; discriminate). clearbody c.
    destruct (Z.eqb_spec (zlen c) 0); [lia|]. cbn [andb].
    destruct (Z.ltb_spec 0 (zlen c)); [|lia].
    rewrite (go_index_ret _ c (zlen c - 1) 0) by lia. cbn [bind].
    replace (nth (Z.to_nat (zlen c - 1)) c 0) with (last c 0).
    2:{ destruct (snoc_or_nil _ c) as [->|(fs & x & E)]; [reflexivity|]. rewrite E, last_last.
        rewrite app_nth2; rewrite zlen_app; change (zlen [x]) with 1; unfold zlen; [|lia].
        replace (Z.to_nat _ - _)%nat with 0%nat by lia. reflexivity. }
    replace (Z.shiftl 1 u - 1) with (Z.ones u) by (unfold Z.ones; rewrite Z.shiftl_1_l; lia).
    rewrite Z.land_ones by lia.
    destruct (Z.eqb_spec (last c 0 mod 2 ^ u) 0) as [E0|E0]; cbn [negb].
    + split.
      * intro X. injection X as <- <- <-. exists u, r. split; [exact HE|]. split; [reflexivity|].
        split; [lia|]. split; [lia|]. split; [contradiction|exact E0].
      * intros (u' & r' & HE' & -> & -> & _). apply U in HE'. destruct HE' as (_ & X & ->).
        pose proof (f_equal (hd 0) X) as X1. cbn [hd] in X1. pose proof (f_equal (@tl Z) X) as X2. cbn [tl] in X2.
        subst u' d. replace (zlen c * 8 - u) with (8 * zlen c - u) by lia. reflexivity.
    + split; [discriminate|]. intros (u' & r' & HE' & _ & _ & _ & _ & K). apply U in HE'.
      destruct HE' as (_ & X & _).
      pose proof (f_equal (hd 0) X) as X1. cbn [hd] in X1. pose proof (f_equal (@tl Z) X) as X2. cbn [tl] in X2.
      subst u' d. contradiction.
Qed.

Theorem C36_read_bit_string_as_bytes : forall s d s', bytes (contents s) ->
  (ReadASN1BitStringAsBytes s = Ret (Some d, s') <->
   exists r, element s BIT_STRING (0 :: d) r /\ s' = Some r).
Proof.
  intros s d s' HB. unfold ReadASN1BitStringAsBytes. destruct (element_em s HB) as [(t & c & r & HE)|HN].
  2:{ rewrite (ReadASN1_fail _ _ _ HB HN). cbn [bind negb orb]. split; [discriminate|].
      intros (r & HE & _). exfalso. apply HN. eauto. }
  rewrite (ReadASN1_element _ _ _ _ _ _ HB HE). cbn [bind]. unfold slen. cbn [contents].
  assert (U : forall u d r', element s BIT_STRING (u :: d) r' -> t = BIT_STRING /\ c = u :: d /\ r = r').
  { intros u d' r' HE'. apply (element_unique _ _ _ _ _ _ _ HE HE'). }
  destruct (Z.eqb_spec t BIT_STRING) as [->|Ht]; cbn [negb orb].
  2:{ split; [discriminate|]. intros (r' & HE' & _). apply U in HE'. tauto. }
  destruct c as [|u c].
  { cbn [zlen List.length Z.of_nat Z.eqb]. split; [discriminate|].
    intros (r' & HE' & _). apply U in HE'. destruct HE' as (_ & X & _). discriminate. }
  pose proof (zlen_nonneg _ c) as Nc. rewrite zlen_cons.
  destruct (Z.eqb_spec (zlen c + 1) 0) as [|_]; [lia|].
  change (go_index (u :: c) 0) with (Ret u). cbn [bind].
  rewrite go_slice_ret by (rewrite ?zlen_cons; lia). cbn [bind].
  assert (S1 : sub (u :: c) 1 (zlen c + 1) = c).
  { change (u :: c) with ([u] ++ c). rewrite sub_app_r; [reflexivity|reflexivity|change (zlen [u]) with 1; lia]. }
  rewrite S1. destruct (Z.eqb_spec u 0) as [->|Hu]; cbn [negb].
  - split; [intro X; injection X as <- <-; eauto|].
    intros (r' & HE' & ->). apply U in HE'. destruct HE' as (_ & X & ->).
    apply (f_equal (@tl Z)) in X. cbn [tl] in X. subst. reflexivity.
  - split; [discriminate|]. intros (r' & HE' & _). apply U in HE'. destruct HE' as (_ & X & _).
    apply (f_equal (hd 0)) in X. cbn [hd] in X. contradiction.
Qed.

Theorem C36_bit_string_roundtrip : forall d buf rest, zlen d <= 2 ^ 32 - 9 -> bytes d -> bytes rest ->
  exists st bs, execs [AddASN1BitString d] (NewBuilder buf) = (st, None) /\ Bytes st = OK (buf ++ bs) /\
    ReadASN1BitStringAsBytes (Some (bs ++ rest)) = Ret (Some d, Some rest) /\
    ReadASN1BitString (Some (bs ++ rest)) = Ret (Some (d, 8 * zlen d), Some rest).
Proof.
  intros d buf rest L Bd Br.
  assert (L1 : zlen (0 :: d) <= 2 ^ 32 - 8) by (rewrite zlen_cons; lia).
  assert (B0 : bytes (0 :: d)) by (apply bytes_cons; split; [unfold byte; lia|exact Bd]).
  destruct (elem_writes BIT_STRING [IBytes [0]; IBytes d] (0 :: d)) with (buf := buf) as (st & E & B);
    [cbn; auto|cbn; rewrite app_nil_r; reflexivity|discriminate|lia|].
  assert (BB : bytes (contents (Some (tlv BIT_STRING (0 :: d) ++ rest)))).
  { cbn [contents]. apply tlv_bytes; auto; [unfold byte, BIT_STRING; lia|lia]. }
  exists st, (tlv BIT_STRING (0 :: d)). split; [exact E|]. split; [exact B|]. split.
  - apply C36_read_bit_string_as_bytes; [exact BB|]. exists rest. split; [|reflexivity].
    apply tlv_element; [discriminate|exact L1].
  - apply C36_read_bit_string; [exact BB|]. exists 0, rest.
    split; [apply tlv_element; [discriminate|exact L1]|]. split; [reflexivity|]. split; [lia|]. split; [lia|].
    split; [reflexivity|]. apply Z.mod_1_r.
Qed.

Example C36_witness : ReadASN1BitString (Some [3; 2; 3; 8; 99]) = Ret (Some ([8], 5), Some [99]) /\
  ReadASN1BitString (Some [3; 2; 3; 4]) = Ret (None, Some []).
Proof. split; reflexivity. Qed.

(** * C37: BOOLEAN *)

Theorem C37_read_boolean : forall s v s', bytes (contents s) ->
  (ReadASN1Boolean s = Ret (Some v, s') <->
   exists r, element s INTEGER [if v then 255 else 0] r /\ s' = Some r).
Proof.
  intros s v s' HB. unfold ReadASN1Boolean. destruct (element_em s HB) as [(t & c & r & HE)|HN].
  2:{ rewrite (ReadASN1_fail _ _ _ HB HN). cbn [bind negb orb]. split; [discriminate|].
      intros (r & HE & _). exfalso. apply HN. eauto. }
  rewrite (ReadASN1_element _ _ _ _ _ _ HB HE). cbn [bind]. unfold slen. cbn [contents].
  assert (U : forall x r', element s INTEGER [x] r' -> t = INTEGER /\ c = [x] /\ r = r').
  { intros x r' HE'. apply (element_unique _ _ _ _ _ _ _ HE HE'). }
  destruct (Z.eqb_spec t INTEGER) as [->|Ht]; cbn [negb orb].
  2:{ split; [discriminate|]. intros (r' & HE' & _). apply U in HE'. tauto. }
  destruct (Z.eqb_spec (zlen c) 1) as [L|L]; cbn [negb].
  2:{ split; [discriminate|]. intros (r' & HE' & _). apply U in HE'. destruct HE' as (_ & -> & _). contradiction. }
  destruct (list1 _ c L) as [x ->]. change (go_index [x] 0) with (Ret x). cbn [bind].
  destruct (Z.eqb_spec x 0) as [->|X0]; [|destruct (Z.eqb_spec x 255) as [->|X1]].
  - split; [intro X; injection X as <- <-; eauto|].
    intros (r' & HE' & ->). apply U in HE'. destruct HE' as (_ & X & ->). destruct v; [discriminate|reflexivity].
  - split; [intro X; injection X as <- <-; eauto|].
    intros (r' & HE' & ->). apply U in HE'. destruct HE' as (_ & X & ->). destruct v; [reflexivity|discriminate].
  - split; [discriminate|]. intros (r' & HE' & _). apply U in HE'. destruct HE' as (_ & X & _).
    injection X as ->. destruct v; contradiction.
Qed.

Theorem C37_no_roundtrip : forall v buf rest, bytes rest ->
  exists st bs, execs [AddASN1Boolean v] (NewBuilder buf) = (st, None) /\ Bytes st = OK (buf ++ bs) /\
    bs = [1; 1; if v then 255 else 0] /\ ReadASN1Boolean (Some (bs ++ rest)) = Ret (None, Some rest).
Proof.
  intros v buf rest Br. set (x := if v then 255 else 0).
  destruct (elem_writes BOOLEAN [IBytes [x]] [x]) with (buf := buf) as (st & E & B);
    [cbn; auto|reflexivity|discriminate|change (zlen [x]) with 1; lia|].
  exists st, (tlv BOOLEAN [x]). split.
  { rewrite <- E. unfold AddASN1Boolean, x. destruct v; reflexivity. }
  split; [exact B|]. split; [reflexivity|].
  unfold ReadASN1Boolean.
  assert (Bx : byte x) by (unfold x, byte; destruct v; lia).
  rewrite (ReadASN1_element (Some (tlv BOOLEAN [x] ++ rest)) BOOLEAN [x] rest).
  - reflexivity.
  - cbn [contents]. apply tlv_bytes; auto; [unfold byte, BOOLEAN; lia|apply bytes_cons; split; [exact Bx|apply bytes_nil]|change (zlen [x]) with 1; lia].
  - apply tlv_element; [discriminate|change (zlen [x]) with 1; lia].
Qed.

Theorem C37_optional_boolean : forall s c r d, bytes (contents s) -> element s BOOLEAN c r ->
  ReadOptionalASN1Boolean s d = ReadASN1Boolean (Some r).
Proof.
  intros s c r d HB HE. unfold ReadOptionalASN1Boolean, ReadOptionalASN1, PeekASN1Tag.
  pose proof HE as (-> & _ & _). unfold slen. cbn [contents].
  unfold tlv at 1 2. cbn [app]. rewrite zlen_cons. pose proof (zlen_nonneg _ ((der_len (zlen c) ++ c) ++ r)).
  destruct (Z.eqb_spec (zlen ((der_len (zlen c) ++ c) ++ r) + 1) 0); [lia|].
  change (go_index (BOOLEAN :: (der_len (zlen c) ++ c) ++ r) 0) with (Ret BOOLEAN). cbn [bind]. rewrite Z.eqb_refl.
  rewrite (ReadASN1_element _ _ _ _ _ _ HB HE). cbn [bind]. rewrite Z.eqb_refl. reflexivity.
Qed.

Example C37_witness : ReadOptionalASN1Boolean (Some [1; 1; 255; 2; 1; 0]) true = Ret (Some false, Some []).
Proof. reflexivity. Qed.

(** * C38: optional elements *)

(** The next octet is [tag]. *)
Definition next_is (s : cstr) (tag : Z) : Prop := exists r, contents s = tag :: r.

Lemma peek_spec : forall s tag, exists b, PeekASN1Tag s tag = Ret b /\ (b = true <-> next_is s tag).
Proof.
  intros s tag. unfold PeekASN1Tag, slen, next_is. destruct (contents s) as [|x l].
  - exists false. split; [reflexivity|]. split; [discriminate|intros [r H]; discriminate].
  - rewrite zlen_cons. pose proof (zlen_nonneg _ l). destruct (Z.eqb_spec (zlen l + 1) 0); [lia|].
    exists (x =? tag). split; [reflexivity|]. rewrite Z.eqb_eq.
    split; [intros ->; eauto|intros [r H']; congruence].
Qed.

Theorem C38_optional : forall s out tag,
  (~ next_is s tag -> ReadOptionalASN1 s out tag = Ret (true, out, false, s) /\ SkipOptionalASN1 s tag = Ret (true, s)) /\
  (next_is s tag ->
     (forall ok o s', ReadASN1 s out tag = Ret (ok, o, s') -> ReadOptionalASN1 s out tag = Ret (ok, o, true, s')) /\
     SkipOptionalASN1 s tag = SkipASN1 s tag).
Proof.
  intros s out tag. unfold ReadOptionalASN1, SkipOptionalASN1.
  destruct (peek_spec s tag) as (b & -> & HB). cbn [bind]. split; intro H.
  - destruct b; [exfalso; apply H; apply HB; reflexivity|]. split; reflexivity.
  - rewrite (proj2 HB H). cbn [negb]. split; [|reflexivity].
    intros ok o s' E. rewrite E. reflexivity.
Qed.

Lemma element_next : forall s t c r, element s t c r -> next_is s t.
Proof. intros s t c r (-> & _). eexists. cbn [contents]. unfold tlv. reflexivity. Qed.

Theorem C38_optional_integer_absent : forall s k tag d, int_kind k -> ~ next_is s tag ->
  ReadOptionalASN1Integer s k tag d = Ret (Some d, s).
Proof.
  intros s k tag d HK H. unfold ReadOptionalASN1Integer.
  rewrite (proj1 (proj1 (C38_optional s None tag) H)).
  destruct k; cbn [int_kind] in HK; try contradiction; reflexivity.
Qed.

Theorem C38_optional_integer_present : forall s k tag d v s', bytes (contents s) -> int_kind k -> next_is s tag ->
  (ReadOptionalASN1Integer s k tag d = Ret (Some v, s') <->
   exists ci r, element s tag (tlv INTEGER ci) r /\ zlen (tlv INTEGER ci) <= 2 ^ 32 - 1 /\
     int_der v ci /\ in_kind k v /\ s' = Some r).
Proof.
  intros s k tag d v s' HB HK HX.
  assert (UNF : ReadOptionalASN1Integer s k tag d =
    do (ok, i, s0) <- ReadASN1 s None tag;
    if negb ok then Ret (None, s0)
    else do (v, i) <- ReadASN1Integer i k;
         match v with
         | None => Ret (None, s0)
         | Some v => if negb (Empty i) then Ret (None, s0) else Ret (Some v, s0)
         end).
  { unfold ReadOptionalASN1Integer, ReadOptionalASN1. destruct (peek_spec s tag) as (b & -> & HP).
    rewrite (proj2 HP HX). cbn [bind].
    destruct k; cbn [int_kind] in HK; try contradiction;
      (destruct (ReadASN1 s None tag) as [[[ok o] s0]|]; reflexivity). }
  rewrite UNF. clear UNF. destruct (element_em s HB) as [(t & c & r & HE)|HN].
  2:{ rewrite (ReadASN1_fail _ _ _ HB HN). cbn [bind negb]. split; [discriminate|].
      intros (ci & r & HE & _). exfalso. apply HN. eauto. }
  rewrite (ReadASN1_element _ _ _ _ _ _ HB HE). cbn [bind].
  destruct (element_bytes _ _ _ _ HB HE) as [Bc Br].
  assert (t = tag) as ->.
  { destruct (element_next _ _ _ _ HE) as [r1 E1]. destruct HX as [r2 E2]. congruence. }
  rewrite Z.eqb_refl. cbn [negb].
  assert (U : forall c' r', element s tag c' r' -> c = c' /\ r = r').
  { intros c' r' HE'. apply (element_unique _ _ _ _ _ _ _ HE HE'). }
  destruct (element_em (Some c) Bc) as [(t2 & c2 & r2 & HE2)|HN2].
  - destruct (read_int_elem (Some c) _ _ _ k Bc HE2 HK) as (o & -> & O). cbn [bind].
    destruct o as [x|].
    + destruct (proj1 (O x) eq_refl) as (-> & D & K). unfold Empty, slen. cbn [contents].
      destruct (Z.eqb_spec (zlen r2) 0) as [Z0|Z0]; cbn [negb].
      * apply zlen_0_nil in Z0. subst r2. destruct HE2 as (E2 & _ & L2).
        apply (f_equal contents) in E2. cbn [contents] in E2. rewrite app_nil_r in E2. subst c. split.
        -- intro X. injection X as <- <-. exists c2, r. auto.
        -- intros (ci & r' & HE' & L & D' & K' & ->). apply U in HE'. destruct HE' as [E' ->].
           rewrite <- (app_nil_r (tlv INTEGER c2)), <- (app_nil_r (tlv INTEGER ci)) in E'.
           pose proof (zlen_der_len_pos (zlen ci)). pose proof (zlen_der_len_pos (zlen c2)).
           rewrite zlen_tlv in L, L2. apply tlv_inj in E'; [|lia|lia]. destruct E' as (_ & <- & _).
           destruct D as (_ & _ & D & _). destruct D' as (_ & _ & D' & _). do 3 f_equal. lia.
      * split; [discriminate|]. intros (ci & r' & HE' & L & D' & K' & ->). apply U in HE'. destruct HE' as [E' ->].
        destruct HE2 as (E2 & _ & L2). apply (f_equal contents) in E2. cbn [contents] in E2.
        rewrite E' in E2. rewrite <- (app_nil_r (tlv INTEGER ci)) in E2.
        pose proof (zlen_der_len_pos (zlen ci)). pose proof (zlen_der_len_pos (zlen c2)).
        rewrite zlen_tlv in L, L2. apply tlv_inj in E2; [|lia|lia]. destruct E2 as (_ & _ & <-). cbn in Z0. lia.
    + split; [discriminate|]. intros (ci & r' & HE' & L & D' & K' & ->). apply U in HE'. destruct HE' as [E' ->].
      assert (HE3 : element (Some c) INTEGER ci []).
      { split; [rewrite app_nil_r; congruence|]. split; [discriminate|exact L]. }
      destruct (element_unique _ _ _ _ _ _ _ HE2 HE3) as (-> & -> & ->).
      assert (X : None = Some v) by (apply O; auto). discriminate.
  - rewrite (read_int_none (Some c) k Bc HK HN2). cbn [bind]. split; [discriminate|].
    intros (ci & r' & HE' & L & D' & K' & ->). apply U in HE'. destruct HE' as [E' ->].
    exfalso. apply HN2. exists INTEGER, ci, []. split; [rewrite app_nil_r; congruence|]. split; [discriminate|exact L].
Qed.

Example C38_witness :
  ReadOptionalASN1Integer (Some [160; 3; 2; 1; 5; 9]) KBig 160 7 = Ret (Some 5, Some [9]) /\
  ReadOptionalASN1Integer (Some [161; 3; 2; 1; 5; 9]) KBig 160 7 = Ret (Some 7, Some [161; 3; 2; 1; 5; 9]) /\
  ReadOptionalASN1Integer (Some [160; 4; 2; 1; 5; 9]) KBig 160 7 = Ret (None, Some []).
Proof. repeat split; reflexivity. Qed.

Theorem C38_optional_octet_string : forall s tag, bytes (contents s) ->
  (~ next_is s tag -> ReadOptionalASN1OctetString s tag = Ret (Some (None, false), s)) /\
  (next_is s tag -> forall o p s',
     (ReadOptionalASN1OctetString s tag = Ret (Some (o, p), s') <->
      exists d r, element s tag (tlv OCTET_STRING d) r /\ zlen (tlv OCTET_STRING d) <= 2 ^ 32 - 1 /\
        o = Some d /\ p = true /\ s' = Some r)).
Proof.
  intros s tag HB. unfold ReadOptionalASN1OctetString. split.
  - intro H. rewrite (proj1 (proj1 (C38_optional s None tag) H)). reflexivity.
  - intros HX o p s'. unfold ReadOptionalASN1. destruct (peek_spec s tag) as (b & -> & HP).
    rewrite (proj2 HP HX). cbn [bind]. destruct (element_em s HB) as [(t & c & r & HE)|HN].
    2:{ rewrite (ReadASN1_fail _ _ _ HB HN). cbn [bind negb]. split; [discriminate|].
        intros (ci & r & HE & _). exfalso. apply HN. eauto. }
    rewrite (ReadASN1_element _ _ _ _ _ _ HB HE). cbn [bind].
    destruct (element_bytes _ _ _ _ HB HE) as [Bc Br].
    assert (t = tag) as ->.
    { destruct (element_next _ _ _ _ HE) as [r1 E1]. destruct HX as [r2 E2]. congruence. }
    rewrite Z.eqb_refl. cbn [negb].
    assert (U : forall c' r', element s tag c' r' -> c = c' /\ r = r').
    { intros c' r' HE'. apply (element_unique _ _ _ _ _ _ _ HE HE'). }
    destruct (element_em (Some c) Bc) as [(t2 & c2 & r2 & HE2)|HN2].
    + rewrite (ReadASN1_element (Some c) t2 c2 r2 None OCTET_STRING Bc HE2). cbn [bind].
      unfold Empty, slen. cbn [contents].
      assert (V : forall d r', element s tag (tlv OCTET_STRING d) r' -> zlen (tlv OCTET_STRING d) <= 2 ^ 32 - 1 ->
                t2 = OCTET_STRING /\ c2 = d /\ r2 = []).
      { intros d r' HE' L. apply U in HE'. destruct HE' as [E' _].
        assert (HE3 : element (Some c) OCTET_STRING d []).
        { split; [rewrite app_nil_r; congruence|]. split; [discriminate|exact L]. }
        apply (element_unique _ _ _ _ _ _ _ HE2 HE3). }
      destruct (Z.eqb_spec t2 OCTET_STRING) as [->|Ht]; cbn [negb orb].
      2:{ split; [discriminate|]. intros (d & r' & HE' & L & _). destruct (V d r' HE' L). contradiction. }
      destruct (Z.eqb_spec (zlen r2) 0) as [Z0|Z0]; cbn [negb].
      * apply zlen_0_nil in Z0. subst r2. split.
        -- intro X. injection X as <- <- <-. destruct HE2 as (E2 & _ & L2).
           apply (f_equal contents) in E2. cbn [contents] in E2. rewrite app_nil_r in E2. subst c.
           exists c2, r. auto.
        -- intros (d & r' & HE' & L & -> & -> & ->). destruct (V d r' HE' L) as (_ & -> & _).
           apply U in HE'. destruct HE' as [_ ->]. reflexivity.
      * split; [discriminate|]. intros (d & r' & HE' & L & _). destruct (V d r' HE' L) as (_ & _ & ->). cbn in Z0. lia.
    + rewrite (ReadASN1_fail (Some c) None OCTET_STRING Bc HN2). cbn [bind negb orb]. split; [discriminate|].
      intros (d & r' & HE' & L & _). apply U in HE'. destruct HE' as [E' _].
      exfalso. apply HN2. exists OCTET_STRING, d, []. split; [rewrite app_nil_r; congruence|]. split; [discriminate|exact L].
Qed.

(** * C35: OBJECT IDENTIFIER *)

(** The value of big-endian base-128 digits. *)
Definition val128 (ds : list Z) : Z := fold_left (fun a d => a * 128 + d) ds 0.

(** [g] is the minimal base-128 group of [n]: continuation octets have the top bit set, the last does
    not, and the first digit is not zero unless it is the only one. *)
Definition b128 (n : Z) (g : list Z) : Prop :=
  exists hi lo, g = map (Z.add 128) hi ++ [lo] /\ Forall (fun d => 0 <= d < 128) (hi ++ [lo]) /\
    val128 (hi ++ [lo]) = n /\ hd 1 hi <> 0.

(** DER contents of an OID. *)
Definition oid_der (oid c : list Z) : Prop :=
  match oid with
  | a :: b :: r => exists gs, Forall2 b128 (40 * a + b :: r) gs /\ c = List.concat gs
  | _ => False
  end.

(** X.660: at least two arcs, the first 0, 1 or 2, the second below 40 under 0 and 1. *)
Definition oid_ok (oid : list Z) : Prop :=
  match oid with
  | a :: b :: r => 0 <= a <= 2 /\ 0 <= b /\ (a <= 1 -> b < 40) /\ Forall (fun x => 0 <= x) r
  | _ => False
  end.
(** The base-128 groups of an OID are below [m]. *)
Definition groups_below (m : Z) (oid : list Z) : Prop :=
  match oid with
  | a :: b :: r => 40 * a + b < m /\ Forall (fun x => x < m) r
  | _ => True
  end.

Fixpoint digs (k : nat) (n : Z) : list Z :=
  match k with O => [] | S i => (n / 128 ^ Z.of_nat i) mod 128 :: digs i n end.

Lemma octs_digs : forall k n, octs (S k) n = map (Z.add 128) (digs k (n / 128)) ++ [n mod 128].
Proof.
  induction k as [|k IH]; intro n.
  - cbn [octs digs map app Nat.eqb]. change (128 ^ Z.of_nat 0) with 1. rewrite Z.div_1_r, Z.add_0_r. reflexivity.
  - change (octs (S (S k)) n) with (((n / 128 ^ Z.of_nat (S k)) mod 128 + 128) :: octs (S k) n).
    rewrite IH. cbn [digs map app]. f_equal. rewrite (Nat2Z.inj_succ k), Z.pow_succ_r by lia.
    rewrite Z.div_div by (try apply Z.pow_pos_nonneg; lia). apply Z.add_comm.
Qed.

Lemma fold128 : forall l a, fold_left (fun a d => a * 128 + d) l a = a * 128 ^ zlen l + val128 l.
Proof.
  unfold val128. induction l as [|x l IH]; intro a; [cbn [fold_left]; change (zlen (@nil Z)) with 0; lia|].
  cbn [fold_left]. rewrite IH, (IH (0 * 128 + x)), zlen_cons, Z.pow_add_r by (try apply zlen_nonneg; lia). lia.
Qed.

Lemma val_digs : forall k n, 0 <= n < 128 ^ Z.of_nat k -> val128 (digs k n) = n.
Proof.
  assert (L : forall k n, zlen (digs k n) = Z.of_nat k).
  { induction k as [|k IH]; intro n; [reflexivity|]. cbn [digs]. rewrite zlen_cons, IH. lia. }
  assert (G : forall k n, val128 (digs k n) = n mod 128 ^ Z.of_nat k).
  { induction k as [|k IH]; intro n; [cbn; rewrite Z.mod_1_r; reflexivity|].
    cbn [digs]. unfold val128. cbn [fold_left]. rewrite fold128, L, IH.
    rewrite Nat2Z.inj_succ, Z.pow_succ_r by lia. set (P := 128 ^ Z.of_nat k).
    assert (0 < P) by (apply Z.pow_pos_nonneg; lia). rewrite (Z.mul_comm 128 P), (Z.rem_mul_r n P 128) by lia. lia. }
  intros k n H. rewrite G. apply Z.mod_small. exact H.
Qed.

Lemma digs_range : forall k n, Forall (fun d => 0 <= d < 128) (digs k n).
Proof.
  induction k as [|k IH]; intro n; [constructor|]. cbn [digs]. constructor; [apply Z.mod_pos_bound; lia|apply IH].
Qed.

Lemma base128Len_lower : forall fuel n k, base128Len fuel n = S k -> 128 ^ Z.of_nat k <= n.
Proof.
  induction fuel as [|fuel IH]; intros n k H; [discriminate|]. cbn [base128Len] in H.
  destruct (Z.ltb_spec 0 n) as [L|L]; [|discriminate]. injection H as H.
  destruct k as [|k]; [cbn; lia|]. apply IH in H. rewrite Z.shiftr_div_pow2 in H by lia. change (2 ^ 7) with 128 in H.
  rewrite Nat2Z.inj_succ, Z.pow_succ_r by lia. pose proof (Z.mul_div_le n 128 ltac:(lia)). lia.
Qed.

Lemma group_b128 : forall n, 0 <= n < 2 ^ 63 -> b128 n (group n).
Proof.
  intros n H. unfold group. destruct (Z.eqb_spec n 0) as [->|N].
  - exists [], 0. split; [reflexivity|]. split; [constructor; [lia|constructor]|]. split; [reflexivity|cbn; lia].
  - pose proof (base128Len_low 10 n ltac:(lia) ltac:(lia)) as LL.
    pose proof (base128Len_bound 10 n ltac:(cbn; lia)) as B.
    destruct (base128Len 10 n) as [|k] eqn:EK; [lia|]. apply base128Len_lower in EK.
    rewrite octs_digs. exists (digs k (n / 128)), (n mod 128). split; [reflexivity|].
    pose proof (Z.mod_pos_bound n 128 ltac:(lia)) as M. pose proof (Z.div_mod n 128 ltac:(lia)) as DM.
    rewrite Nat2Z.inj_succ, Z.pow_succ_r in B by lia.
    assert (R : 0 <= n / 128 < 128 ^ Z.of_nat k).
    { split; [apply Z.div_pos; lia|apply Z.div_lt_upper_bound; lia]. }
    split; [apply Forall_app; split; [apply digs_range|constructor; [lia|constructor]]|]. split.
    + unfold val128. rewrite fold_left_app. cbn [fold_left].
      change (fold_left _ (digs k (n / 128)) 0) with (val128 (digs k (n / 128))). rewrite val_digs by exact R. lia.
    + destruct k as [|k]; [cbn; lia|]. cbn [digs hd].
      rewrite Nat2Z.inj_succ, Z.pow_succ_r in EK, R by lia.
      assert (PP : 0 < 128 ^ Z.of_nat k) by (apply Z.pow_pos_nonneg; lia).
      assert (1 <= n / 128 / 128 ^ Z.of_nat k < 128).
      { split; [apply Z.div_le_lower_bound; [lia|]; rewrite Z.mul_1_r; apply Z.div_le_lower_bound; lia
               |apply Z.div_lt_upper_bound; lia]. }
      rewrite Z.mod_small; lia.
Qed.

Lemma oidLoop_ok : forall r fuel pre rem, Forall (fun x => 0 <= x < 2 ^ 28) r ->
  (List.length (List.concat (map group r)) <= fuel)%nat -> zlen r <= zlen rem ->
  exists rem', oidLoop fuel (List.concat (map group r)) (zlen pre) (pre ++ rem)
    = Ret (Some (pre ++ r ++ rem', zlen pre + zlen r)).
Proof.
  induction r as [|x r IH]; intros fuel pre rem HF Hfuel HL.
  - exists rem. change (zlen (@nil Z)) with 0. rewrite Z.add_0_r. cbn [map List.concat]. destruct fuel; reflexivity.
  - pose proof (Forall_inv HF) as Hx. cbn beta in Hx. pose proof (Forall_inv_tail HF) as Hr.
    pose proof (group_len x ltac:(lia)) as GL. cbn [map List.concat] in *.
    rewrite app_length in Hfuel. rewrite zlen_cons in *. pose proof (zlen_nonneg _ r).
    destruct fuel as [|fuel]; [unfold zlen in GL; lia|].
    assert (E : forall l, l <> [] -> oidLoop (S fuel) l (zlen pre) (pre ++ rem) =
       match readBase128Int l with
       | (None, _) => Ret None
       | (Some v, l) => do components <- go_set (pre ++ rem) (zlen pre) v; oidLoop fuel l (zlen pre + 1) components
       end).
    { intros [|y l] Hl; [contradiction|reflexivity]. }
    rewrite E.
    2:{ intro C. apply app_eq_nil in C. destruct C as [C _]. rewrite C in GL. cbn in GL. lia. }
    rewrite read_group by exact Hx. destruct rem as [|y rem]; [change (zlen (@nil Z)) with 0 in HL; lia|].
    pose proof (zlen_nonneg _ pre). rewrite zlen_cons in HL.
    rewrite go_set_ret by (rewrite zlen_app, zlen_cons; pose proof (zlen_nonneg _ rem); lia). cbn [bind].
    replace (upd (pre ++ y :: rem) (Z.to_nat (zlen pre)) x) with ((pre ++ [x]) ++ rem).
    2:{ unfold zlen. rewrite Nat2Z.id. clear. induction pre as [|p pre IH]; [reflexivity|].
        cbn [app List.length upd]. f_equal. exact IH. }
    replace (zlen pre + 1) with (zlen (pre ++ [x])) by (rewrite zlen_app; reflexivity).
    destruct (IH fuel (pre ++ [x]) rem Hr) as [rem' R].
    { unfold zlen in GL. lia. }
    { lia. }
    exists rem'. rewrite R. rewrite <- app_assoc, zlen_app. change (zlen [x]) with 1. cbn [app].
    replace (zlen pre + 1 + zlen r) with (zlen pre + (zlen r + 1)) by lia. reflexivity.
Qed.

(** One group too large stops the reader. *)
Lemma oidLoop_big : forall r fuel i comps, Forall (fun x => 0 <= x < 2 ^ 63) r -> Exists (fun x => 2 ^ 28 <= x) r ->
  (List.length (List.concat (map group r)) <= fuel)%nat -> 0 <= i -> i + zlen r <= zlen comps ->
  oidLoop fuel (List.concat (map group r)) i comps = Ret None.
Proof.
  induction r as [|x r IH]; intros fuel i comps HF HE Hfuel Hi HL; [inversion HE|].
  pose proof (Forall_inv HF) as Hx. cbn beta in Hx. pose proof (Forall_inv_tail HF) as Hr.
  pose proof (group_len x Hx) as GL. cbn [map List.concat] in *.
  rewrite app_length in Hfuel. rewrite zlen_cons in *. pose proof (zlen_nonneg _ r).
  destruct fuel as [|fuel]; [unfold zlen in GL; lia|].
  assert (E : forall l, l <> [] -> oidLoop (S fuel) l i comps =
     match readBase128Int l with
     | (None, _) => Ret None
     | (Some v, l) => do components <- go_set comps i v; oidLoop fuel l (i + 1) components
     end).
  { intros [|y l] Hl; [contradiction|reflexivity]. }
  rewrite E.
  2:{ intro C. apply app_eq_nil in C. destruct C as [C _]. rewrite C in GL. cbn in GL. lia. }
  destruct (Z.le_gt_cases (2 ^ 28) x) as [B|B].
  - pose proof (read_group_big x (List.concat (map group r)) ltac:(lia)) as R.
    destruct (readBase128Int (group x ++ List.concat (map group r))) as [o l]. cbn [fst] in R. subst o. reflexivity.
  - rewrite read_group by lia. rewrite go_set_ret by lia. cbn [bind]. apply IH; auto.
    + inversion HE; subst; [lia|assumption].
    + unfold zlen in GL. lia.
    + lia.
    + replace (zlen (upd comps (Z.to_nat i) x)) with (zlen comps) by (unfold zlen; rewrite upd_length; reflexivity). lia.
Qed.

Lemma concat_len : forall m r, (forall x, In x r -> zlen (group x) <= m) -> zlen (List.concat (map group r)) <= m * zlen r.
Proof.
  intros m r. induction r as [|x r IH]; intro H; [cbn; lia|]. cbn [map List.concat]. rewrite zlen_app, zlen_cons.
  pose proof (H x (or_introl eq_refl)). specialize (IH (fun y Hy => H y (or_intror Hy))). lia.
Qed.

Lemma concat_bytes : forall r, bytes (List.concat (map group r)).
Proof. induction r as [|x r IH]; [apply bytes_nil|]. cbn [map List.concat]. apply bytes_app. split; [apply group_bytes|exact IH]. Qed.

Lemma concat_count : forall r, Forall (fun x => 0 <= x < 2 ^ 63) r -> zlen r <= zlen (List.concat (map group r)).
Proof.
  induction r as [|x r IH]; intro H; [cbn; lia|]. cbn [map List.concat]. rewrite zlen_app, zlen_cons.
  pose proof (group_len x (Forall_inv H)). specialize (IH (Forall_inv_tail H)). lia.
Qed.

(** The contents the writer produces. *)
Definition oid_contents (a b : Z) (r : list Z) : list Z := List.concat (map group (40 * a + b :: r)).

Lemma oid_write : forall a b r, oid_ok (a :: b :: r) -> groups_below (2 ^ 63) (a :: b :: r) ->
  zlen (oid_contents a b r) <= 2 ^ 32 - 2 ->
  writes (AddASN1ObjectIdentifier (a :: b :: r)) (tlv OBJECT_IDENTIFIER (oid_contents a b r)).
Proof.
  intros a b r (Ha & Hb & Hab & Hr) (G1 & G2) HL. unfold AddASN1ObjectIdentifier.
  assert (V : isValidOID (a :: b :: r) = true).
  { cbn [isValidOID]. destruct (Z.ltb_spec 2 a); [lia|]. cbn [orb].
    replace ((a <=? 1) && (40 <=? b)) with false.
    2:{ symmetry. apply andb_false_iff. destruct (Z.leb_spec a 1); [right; apply Z.leb_gt; lia|left; reflexivity]. }
    apply forallb_forall. intros x [<-|[<-|X]]; apply Z.leb_le; try lia.
    rewrite Forall_forall in Hr. apply Hr. exact X. }
  rewrite V. cbn [negb]. rewrite (i64_id (a * 40)) by lia. rewrite i64_id by lia. rewrite (Z.mul_comm a 40).
  replace (OASN1 0 OBJECT_IDENTIFIER (addBase128Int (40 * a + b) ++ List.concat (map addBase128Int r)))
    with (call (IASN1 OBJECT_IDENTIFIER (map one_byte (oid_contents a b r)))).
  2:{ change (call (IASN1 OBJECT_IDENTIFIER (map one_byte (oid_contents a b r))))
        with (OASN1 0 OBJECT_IDENTIFIER (map call (map one_byte (oid_contents a b r)))). f_equal.
      unfold oid_contents. cbn [map List.concat]. rewrite !map_app, addBase128Int_call. f_equal.
      clear. induction r as [|x r IH]; [reflexivity|]. cbn [map List.concat]. rewrite !map_app, IH, addBase128Int_call. reflexivity. }
  apply elem_writes; auto using wf_bytes, sers_bytes. discriminate.
Qed.

Lemma oid_contents_der : forall a b r, oid_ok (a :: b :: r) -> groups_below (2 ^ 63) (a :: b :: r) ->
  oid_der (a :: b :: r) (oid_contents a b r).
Proof.
  intros a b r (Ha & Hb & Hab & Hr) (G1 & G2). exists (map group (40 * a + b :: r)). split; [|reflexivity].
  cbn [map]. constructor; [apply group_b128; lia|].
  induction r as [|x r IH]; [constructor|]. cbn [map].
  pose proof (Forall_inv Hr) as Hx. pose proof (Forall_inv G2) as Gx. cbn beta in Hx, Gx.
  constructor; [apply group_b128; lia|]. apply IH; eapply Forall_inv_tail; eassumption.
Qed.

Lemma oid_read : forall a b r rest, oid_ok (a :: b :: r) -> groups_below (2 ^ 28) (a :: b :: r) ->
  zlen (oid_contents a b r) <= 2 ^ 32 - 8 -> bytes rest ->
  ReadASN1ObjectIdentifier (Some (tlv OBJECT_IDENTIFIER (oid_contents a b r) ++ rest))
  = Ret (Some (a :: b :: r), Some rest).
Proof.
  intros a b r rest (Ha & Hb & Hab & Hr) (G1 & G2) HL Br. unfold ReadASN1ObjectIdentifier.
  rewrite (ReadASN1_element _ OBJECT_IDENTIFIER (oid_contents a b r) rest).
  2:{ cbn [contents]. apply tlv_bytes; auto; [unfold byte, OBJECT_IDENTIFIER; lia|apply concat_bytes|lia]. }
  2:{ apply tlv_element; [discriminate|exact HL]. }
  cbn [bind]. rewrite Z.eqb_refl. cbn [negb orb]. unfold slen. cbn [contents].
  assert (Fr : Forall (fun x => 0 <= x < 2 ^ 28) r).
  { rewrite Forall_forall in *. intros x X. split; [apply Hr; exact X|apply G2; exact X]. }
  assert (CL : zlen (oid_contents a b r) = zlen (group (40 * a + b)) + zlen (List.concat (map group r))).
  { unfold oid_contents. cbn [map List.concat]. apply zlen_app. }
  pose proof (group_len (40 * a + b) ltac:(lia)) as GL.
  assert (CC : zlen r <= zlen (List.concat (map group r))).
  { apply concat_count. eapply Forall_impl; [|exact Fr]. cbn beta. intros; lia. }
  pose proof (zlen_nonneg _ r).
  destruct (Z.eqb_spec (zlen (oid_contents a b r)) 0); [lia|].
  unfold go_make. destruct (Z.ltb_spec (zlen (oid_contents a b r) + 1) 0); [lia|]. cbn [bind].
  set (N := Z.to_nat (zlen (oid_contents a b r) + 1)).
  unfold oid_contents at 1. cbn [map List.concat]. rewrite read_group by lia.
  assert (HN : exists m, N = S (S m) /\ zlen r <= Z.of_nat m).
  { pose proof (zlen_nonneg _ r). exists (N - 2)%nat. unfold N. lia. }
  destruct HN as (m & -> & Hm). cbn [repeat].
  assert (HC : (if 40 * a + b <? 80
      then do c <- go_set (0 :: 0 :: repeat 0 m) 0 (Z.quot (40 * a + b) 40); go_set c 1 (Z.rem (40 * a + b) 40)
      else do c <- go_set (0 :: 0 :: repeat 0 m) 0 2; go_set c 1 (40 * a + b - 80)) = Ret ([a; b] ++ repeat 0 m)).
  { assert (Q : forall x y, (do c <- go_set (0 :: 0 :: repeat 0 m) 0 x; go_set c 1 y) = Ret (x :: y :: repeat 0 m)).
    { intros x y. rewrite go_set_ret by (rewrite !zlen_cons; pose proof (zlen_nonneg _ (repeat 0 m)); lia).
      cbn [bind]. change (upd (0 :: 0 :: repeat 0 m) (Z.to_nat 0) x) with (x :: 0 :: repeat 0 m).
      rewrite go_set_ret by (rewrite !zlen_cons; pose proof (zlen_nonneg _ (repeat 0 m)); lia). reflexivity. }
    rewrite !Q. cbn [app]. destruct (Z.ltb_spec (40 * a + b) 80) as [L|L].
    - rewrite Z.quot_div_nonneg, Z.rem_mod_nonneg by lia.
      assert (a <= 1) by lia. rewrite (Z.mul_comm 40 a), Z.div_add_l, Z.div_small by lia.
      rewrite Z.add_0_r, (Z.add_comm (a * 40) b), Z_mod_plus_full, Z.mod_small by lia. reflexivity.
    - replace a with 2 by lia. replace (40 * 2 + b - 80) with b by lia. reflexivity. }
  rewrite HC. cbn [bind]. change 2 with (zlen [a; b]) at 1.
  destruct (oidLoop_ok r (List.length (List.concat (map group r))) [a; b] (repeat 0 m) Fr) as [rem' R];
    [lia|unfold zlen at 2; rewrite repeat_length; exact Hm|].
  rewrite R. cbn [bind]. change (zlen [a; b]) with 2. pose proof (zlen_nonneg _ r).
  rewrite go_slice_ret.
  2:{ lia. }
  2:{ rewrite !zlen_app. change (zlen [a; b]) with 2. pose proof (zlen_nonneg _ rem'). lia. }
  cbn [bind]. rewrite app_assoc, sub_app_l; [reflexivity|rewrite zlen_app; reflexivity].
Qed.

Theorem C35_roundtrip : forall oid buf rest, oid_ok oid -> groups_below (2 ^ 28) oid ->
  4 * zlen oid <= 2 ^ 32 - 8 -> bytes rest ->
  exists st c, execs [AddASN1ObjectIdentifier oid] (NewBuilder buf) = (st, None) /\
    Bytes st = OK (buf ++ tlv OBJECT_IDENTIFIER c) /\ oid_der oid c /\
    ReadASN1ObjectIdentifier (Some (tlv OBJECT_IDENTIFIER c ++ rest)) = Ret (Some oid, Some rest).
Proof.
  intros [|a [|b r]] buf rest HO HG HL Br; try contradiction.
  assert (HG' : groups_below (2 ^ 63) (a :: b :: r)).
  { destruct HG as [G1 G2]. split; [lia|]. eapply Forall_impl; [|exact G2]. cbn beta. intros; lia. }
  assert (L : zlen (oid_contents a b r) <= 2 ^ 32 - 8).
  { destruct HO as (Ha & Hb & _ & Hr). destruct HG as [G1 G2].
    pose proof (concat_len 4 (40 * a + b :: r)) as CL. rewrite zlen_cons in CL.
    unfold oid_contents. rewrite !zlen_cons in HL. rewrite Forall_forall in *.
    assert (zlen (List.concat (map group (40 * a + b :: r))) <= 4 * (zlen r + 1)); [|lia].
    apply CL. intros x [<-|X]; apply group_len_le; [lia|]. split; [apply Hr; exact X|apply G2; exact X]. }
  destruct (oid_write a b r HO HG' ltac:(lia) buf) as (st & E & B).
  exists st, (oid_contents a b r). split; [exact E|]. split; [exact B|].
  split; [apply oid_contents_der; assumption|apply oid_read; assumption].
Qed.

Example C35_witness : oid_ok [2; 999; 268435455; 0] /\ groups_below (2 ^ 28) [2; 999; 268435455; 0] /\
  exists st, execs [AddASN1ObjectIdentifier [2; 999; 268435455; 0]] (NewBuilder []) = (st, None) /\
    Bytes st = OK [6; 7; 136; 55; 255; 255; 255; 127; 0].
Proof.
  split; [cbn; repeat split; try lia; repeat constructor; lia|]. split; [cbn; repeat split; repeat constructor; lia|].
  eexists. split; vm_compute; reflexivity.
Qed.

(** The bound is sharp: with any group of 2^28 or more (and no machine-integer wrap) the OID is
    written, and the reader then fails. *)
Theorem C35_bound_sharp : forall oid buf rest, oid_ok oid -> groups_below (2 ^ 63) oid -> ~ groups_below (2 ^ 28) oid ->
  10 * zlen oid <= 2 ^ 32 - 8 -> bytes rest ->
  exists st c, execs [AddASN1ObjectIdentifier oid] (NewBuilder buf) = (st, None) /\
    Bytes st = OK (buf ++ tlv OBJECT_IDENTIFIER c) /\ oid_der oid c /\
    ReadASN1ObjectIdentifier (Some (tlv OBJECT_IDENTIFIER c ++ rest)) = Ret (None, Some rest).
Proof.
  intros [|a [|b r]] buf rest HO HG HN HL Br; try contradiction.
  assert (L : zlen (oid_contents a b r) <= 2 ^ 32 - 8).
  { pose proof (concat_len 10 (40 * a + b :: r)) as CL. rewrite zlen_cons in CL.
    unfold oid_contents. rewrite !zlen_cons in HL.
    assert (zlen (List.concat (map group (40 * a + b :: r))) <= 10 * (zlen r + 1)); [|lia].
    apply CL. intros x _. unfold group, zlen. rewrite octs_length.
    assert (base128Len 10 x <= 10)%nat; [|destruct (Z.eqb_spec x 0); lia].
    assert (Q : forall fuel y, (base128Len fuel y <= fuel)%nat).
    { clear. induction fuel as [|fuel IH]; intro y; [cbn; lia|]. cbn [base128Len].
      destruct (0 <? y); [apply le_n_S, IH|lia]. }
    apply Q. }
  destruct (oid_write a b r HO HG ltac:(lia) buf) as (st & E & B).
  exists st, (oid_contents a b r). split; [exact E|]. split; [exact B|].
  split; [apply oid_contents_der; assumption|]. unfold ReadASN1ObjectIdentifier.
  rewrite (ReadASN1_element _ OBJECT_IDENTIFIER (oid_contents a b r) rest).
  2:{ cbn [contents]. apply tlv_bytes; auto; [unfold byte, OBJECT_IDENTIFIER; lia|apply concat_bytes|lia]. }
  2:{ apply tlv_element; [discriminate|exact L]. }
  cbn [bind]. rewrite Z.eqb_refl. cbn [negb orb]. unfold slen. cbn [contents].
  destruct HO as (Ha & Hb & Hab & Hr). destruct HG as [G1 G2].
  assert (Fr : Forall (fun x => 0 <= x < 2 ^ 63) r).
  { rewrite Forall_forall in *. intros x X. split; [apply Hr; exact X|apply G2; exact X]. }
  assert (CL : zlen (oid_contents a b r) = zlen (group (40 * a + b)) + zlen (List.concat (map group r))).
  { unfold oid_contents. cbn [map List.concat]. apply zlen_app. }
  pose proof (group_len (40 * a + b) ltac:(lia)) as GL.
  pose proof (concat_count r Fr) as CC. pose proof (zlen_nonneg _ r).
  destruct (Z.eqb_spec (zlen (oid_contents a b r)) 0); [lia|].
  unfold go_make. destruct (Z.ltb_spec (zlen (oid_contents a b r) + 1) 0); [lia|]. cbn [bind].
  set (N := Z.to_nat (zlen (oid_contents a b r) + 1)).
  unfold oid_contents at 1. cbn [map List.concat].
  destruct (Z.le_gt_cases (2 ^ 28) (40 * a + b)) as [BB|BB].
  - pose proof (read_group_big (40 * a + b) (List.concat (map group r)) ltac:(lia)) as R.
    destruct (readBase128Int (group (40 * a + b) ++ List.concat (map group r))) as [o l]. cbn [fst] in R. subst o. reflexivity.
  - rewrite read_group by lia.
    assert (EX : Exists (fun x => 2 ^ 28 <= x) r).
    {
      destruct (Exists_dec (fun x => 2 ^ 28 <= x) r) as [X|X]; [intro x; apply Z_le_dec|exact X|].
      exfalso. apply HN. split; [exact BB|]. rewrite <- Forall_Exists_neg in X.
      eapply Forall_impl; [|exact X]. cbn beta. intros; lia. }
    assert (HC : forall x y, exists comps, (do c <- go_set (repeat 0 N) 0 x; go_set c 1 y) = Ret comps /\ zlen comps = Z.of_nat N).
    { intros x y. assert (LN : zlen (repeat 0 N) = Z.of_nat N) by (unfold zlen; rewrite repeat_length; reflexivity).
      assert (2 <= Z.of_nat N) by (unfold N; lia).
      rewrite go_set_ret by lia. cbn [bind]. eexists.
      assert (LU : forall (l : list Z) i z, zlen (upd l i z) = zlen l) by (intros; unfold zlen; rewrite upd_length; reflexivity).
      rewrite go_set_ret by (rewrite LU; lia). split; [reflexivity|]. rewrite !LU. exact LN. }
    assert (HC2 : exists comps, (if 40 * a + b <? 80
      then do c <- go_set (repeat 0 N) 0 (Z.quot (40 * a + b) 40); go_set c 1 (Z.rem (40 * a + b) 40)
      else do c <- go_set (repeat 0 N) 0 2; go_set c 1 (40 * a + b - 80)) = Ret comps /\ zlen comps = Z.of_nat N).
    { destruct (40 * a + b <? 80); apply HC. }
    destruct HC2 as (comps & -> & LC). cbn [bind].
    rewrite oidLoop_big; [reflexivity|exact Fr|exact EX|lia|lia|]. rewrite LC. unfold N. lia.
Qed.

(** Anything else is refused by the writer. *)
Theorem C35_invalid_refused : forall oid buf, (zlen oid < 2 \/ ~ oid_ok oid) ->
  exists st e, execs [AddASN1ObjectIdentifier oid] (NewBuilder buf) = (st, None) /\ Bytes st = ERR e.
Proof.
  intros oid buf H.
  assert (E : AddASN1ObjectIdentifier oid = call (IASN1 OBJECT_IDENTIFIER [IErr "cryptobyte: invalid OID"])).
  { unfold AddASN1ObjectIdentifier. destruct oid as [|a [|b r]]; try reflexivity.
    assert (V : isValidOID (a :: b :: r) = false).
    { destruct (isValidOID (a :: b :: r)) eqn:V; [|reflexivity]. exfalso. destruct H as [H|H].
      - rewrite !zlen_cons in H. pose proof (zlen_nonneg _ r). lia.
      - apply H. cbn [isValidOID] in V. destruct ((2 <? a) || ((a <=? 1) && (40 <=? b))) eqn:C; [discriminate|].
        apply orb_false_iff in C. destruct C as [C1 C2]. apply Z.ltb_ge in C1.
        rewrite forallb_forall in V.
        assert (V' : forall x, In x (a :: b :: r) -> 0 <= x) by (intros x X; apply Z.leb_le, V; exact X).
        pose proof (V' a (or_introl eq_refl)). pose proof (V' b (or_intror (or_introl eq_refl))).
        split; [lia|]. split; [lia|]. split.
        + intro A. apply andb_false_iff in C2. destruct C2 as [C2|C2]; apply Z.leb_gt in C2; lia.
        + apply Forall_forall. intros x X. apply V'. right. right. exact X. }
    rewrite V. reflexivity. }
  destruct (C27_no_bytes buf [IASN1 OBJECT_IDENTIFIER [IErr "cryptobyte: invalid OID"]]) as (st & e & X & B);
    [cbn; auto|reflexivity|]. exists st, e. rewrite E. auto.
Qed.

(** The first group is computed in a machine integer: past 2^63 it wraps to a negative number, for
    which no octet is written, and the element then denotes a different OID. *)
Theorem C35_wrap_refuted : exists oid st bs other, oid_ok oid /\ Forall (fun x => x < 2 ^ 63) oid /\
  execs [AddASN1ObjectIdentifier oid] (NewBuilder []) = (st, None) /\ Bytes st = OK bs /\
  ReadASN1ObjectIdentifier (Some bs) = Ret (Some other, Some []) /\ other <> oid.
Proof.
  exists [2; 2 ^ 63 - 1; 1; 5]. eexists. exists [6; 2; 1; 5]. exists [0; 1; 5].
  split; [cbn; repeat split; try lia; repeat constructor; lia|]. split; [repeat constructor; lia|].
  split; [vm_compute; reflexivity|]. split; [vm_compute; reflexivity|]. split; [reflexivity|discriminate].
Qed.

(** The reader accepts two different encodings of one OID. *)
Theorem C35_not_canonical_refuted : exists bs1 bs2 oid, bs1 <> bs2 /\
  ReadASN1ObjectIdentifier (Some bs1) = Ret (Some oid, Some []) /\
  ReadASN1ObjectIdentifier (Some bs2) = Ret (Some oid, Some []).
Proof. exists [6; 2; 42; 3], [6; 3; 42; 128; 3], [1; 2; 3]. split; [discriminate|split; reflexivity]. Qed.
