(** Property C118: the readers of cryptobyte and those of encoding/asn1, both of which gmx509.go uses on
    one certificate, accept the same elements and read the same values. *)
From Coq Require Import ZArith List Lia Bool String.
From Verif Require Import GoBase BeMin CbString CbStringProofs CbAsn1Proofs PropsCbString PropsCbAsn1 GoAsn1 GoAsn1Proofs GoText PropsCbTime DerIff PropsCertAttr.
Import ListNotations.
Open Scope Z_scope.

(** Either reader, given the same bytes: a value and what is left, or not. *)
Definition agree {A} (cb : go (option A * cstr)) (u : res (A * list Z)) : Prop :=
  forall v r, cb = Ret (Some v, Some r) <-> u = OK (v, r).

(** * Elements *)

Lemma element_iff : forall l t c r, zlen l < 2 ^ 31 -> t mod 32 <> 31 ->
  (element (Some l) t c r <-> l = tlv t c ++ r).
Proof.
  intros l t c r L T. unfold element, low_tag. split; [intros (H & _); congruence|]. intros ->.
  split; [reflexivity|]. split; [exact T|]. rewrite zlen_app in L. pose proof (zlen_nonneg _ r). lia.
Qed.
Lemma tlv_short : forall l t c r, zlen l < 2 ^ 31 -> l = tlv t c ++ r -> zlen c < 2 ^ 31.
Proof.
  intros l t c r L ->. unfold tlv in L. rewrite zlen_app, zlen_cons, zlen_app in L.
  pose proof (zlen_nonneg _ r). pose proof (zlen_nonneg _ (der_len (zlen c))). lia.
Qed.

(** A reader that finds the element with tag t and reads its contents as F says. *)
Definition by_contents {A} (cb : cstr -> go (option A * cstr)) (t : Z) (F : list Z -> A -> Prop) : Prop :=
  forall s v s', bytes (contents s) -> (cb s = Ret (Some v, s') <-> exists c r, element s t c r /\ F c v /\ s' = Some r).
Lemma agree_contents : forall A (cb : cstr -> go (option A * cstr)) (u : uty A) t D F z l,
  simple u t false D -> by_contents cb t F -> (forall c v, bytes c -> (F c v <-> D c = OK v)) ->
  bytes l -> zlen l < 2 ^ 31 -> agree (cb (Some l)) (unmarshal u z l).
Proof.
  intros A cb u t D F z l S C FD B L v r. pose proof S as (Ht & _).
  assert (I0 : ident 0 t false = t) by (unfold ident; lia).
  assert (T : t mod 32 <> 31) by (rewrite Z.mod_small by lia; lia).
  rewrite (C (Some l) v (Some r) B). unfold unmarshal. rewrite (plain_iff A u t false D z l v r S B). rewrite I0. split.
  - intros (c & r' & H & HF & E). injection E as <-. pose proof (element_bytes (Some l) _ _ _ B H) as [Bc _].
    apply (element_iff l t c r L T) in H. exists c. split; [exact (tlv_short _ _ _ _ L H)|]. split; [apply FD; assumption|exact H].
  - intros (c & Hc & HD & E). assert (H : element (Some l) t c r) by (apply element_iff; assumption).
    pose proof (element_bytes (Some l) _ _ _ B H) as [Bc _]. exists c, r. split; [exact H|]. split; [apply FD; assumption|reflexivity].
Qed.

(** Any element: the tag byte that cryptobyte returns is class, constructed bit and tag number of the RawValue. Only
    encoding/asn1 reads tag numbers above 30. *)
Theorem C118_element : forall l out t0 t e r, bytes l -> zlen l < 2 ^ 31 ->
  (ReadAnyASN1Element (Some l) out t0 = Ret (true, Some e, t, Some r) <->
   exists rv, unmarshal uRaw zeroRaw l = OK (rv, r) /\ rv_full rv = e /\ rv_tag rv < 31 /\
     t = rv_class rv * 64 + (if rv_comp rv then 32 else 0) + rv_tag rv).
Proof.
  intros l out t0 t e r B L. rewrite C22_read_any_element by exact B. unfold unmarshal. split.
  - intros (c & r' & H & E1 & E2). injection E1 as ->. injection E2 as <-.
    pose proof (element_byte (Some l) _ _ _ B H) as Bt. destruct (byte_ident t Bt) as (cl & b & n & Hc & Hn & E & _).
    assert (N : n < 31). { destruct H as (_ & T & _). unfold low_tag in T. destruct (Z.eq_dec n 31) as [->|]; [|lia]. exfalso. apply T. rewrite E. unfold ident.
      destruct b; [replace (cl * 64 + 32 + 31) with (31 + (cl * 2 + 1) * 32) by lia|replace (cl * 64 + 0 + 31) with (31 + (cl * 2) * 32) by lia]; rewrite Z_mod_plus_full; reflexivity. }
    exists (mkRaw cl n b c (tlv t c)). cbn [rv_full rv_tag rv_class rv_comp].
    split; [|split; [reflexivity|split; [exact N|exact E]]]. apply raw_iff; [exact B|]. destruct H as (El & _). injection El as El. cbn [rv_full].
    split; [|exact El]. unfold raw_item. cbn [rv_class rv_comp rv_tag rv_bytes rv_full]. apply item_low; [exact N|].
    split; [split; [exact Hc|lia]|]. split; [exact (tlv_short _ _ _ _ L El)|rewrite <- E; reflexivity].
  - intros (rv & H & <- & N & ->). apply raw_iff in H; [|exact B]. destruct H as [H E]. unfold raw_item in H. apply item_low in H; [|exact N].
    destruct H as ([Hc Ht] & Hl & Ef). exists (rv_bytes rv), r. fold (ident (rv_class rv) (rv_tag rv) (rv_comp rv)). rewrite <- Ef.
    split; [|split; reflexivity]. apply element_iff; [exact L| |rewrite E, Ef; reflexivity].
    unfold ident. destruct (rv_comp rv).
    + replace (rv_class rv * 64 + 32 + rv_tag rv) with (rv_tag rv + (rv_class rv * 2 + 1) * 32) by lia. rewrite Z_mod_plus_full, Z.mod_small; lia.
    + replace (rv_class rv * 64 + 0 + rv_tag rv) with (rv_tag rv + (rv_class rv * 2) * 32) by lia. rewrite Z_mod_plus_full, Z.mod_small; lia.
Qed.

(** * Values *)

Lemma simple_big : simple uBigInt 2 false parseBigInt. Proof. split; [lia|]. repeat split. Qed.
(** INTEGER, as a big integer and as an int64. *)
Theorem C118_integer : forall l z, bytes l -> zlen l < 2 ^ 31 -> agree (ReadASN1Integer (Some l) KBig) (unmarshal uBigInt z l).
Proof.
  intros l z. refine (agree_contents _ (fun s => ReadASN1Integer s KBig) uBigInt 2 parseBigInt (fun c v => int_der v c) z l simple_big _ _).
  - intros s v s' HB. rewrite C33_read_integer; [|exact HB|exact I]. split; [intros (c & r & H1 & H2 & _ & H3); eauto|intros (c & r & H1 & H2 & H3); exists c, r; split; [exact H1|split; [exact H2|split; [exact I|exact H3]]]].
  - intros c v Bc. symmetry. apply parseBigInt_iff. exact Bc.
Qed.
Theorem C118_int64 : forall l z, bytes l -> zlen l < 2 ^ 31 -> agree (ReadASN1Integer (Some l) (KInt 64)) (unmarshal uInt z l).
Proof.
  intros l z. refine (agree_contents _ (fun s => ReadASN1Integer s (KInt 64)) uInt 2 parseInt64 (fun c v => int_der v c /\ - 2 ^ 63 <= v < 2 ^ 63) z l simple_int _ _).
  - intros s v s' HB. rewrite C33_read_integer; [|exact HB|cbn; lia]. cbn [in_kind]. change (64 - 1) with 63. split; intros (c & r & H1 & H2); exists c, r; tauto.
  - intros c v Bc. symmetry. apply parseInt64_iff. exact Bc.
Qed.
(** BIT STRING. *)
Lemma low_bits : forall x u, 0 <= u -> Z.land x (2 ^ u - 1) = x mod 2 ^ u.
Proof. intros x u H. rewrite <- Z.land_ones by exact H. f_equal. rewrite Z.ones_equiv. lia. Qed.
Theorem C118_bits : forall l z, bytes l -> zlen l < 2 ^ 31 ->
  forall d n r, ReadASN1BitString (Some l) = Ret (Some (d, n), Some r) <-> unmarshal uBits z l = OK (mkBits d n, r).
Proof.
  intros l z B L d n r. unfold unmarshal. rewrite C36_read_bit_string by exact B. rewrite (plain_iff _ uBits 3 false parseBitString z l _ r simple_bits B).
  change (ident 0 3 false) with 3. split.
  - intros (u & r' & H & E & -> & Hu & H0 & HL). injection E as <-. destruct H as (El & _). injection El as El. exists (u :: d). split; [exact (tlv_short _ _ _ _ L El)|].
    split; [|exact El]. unfold parseBitString. rewrite (proj2 (Z.ltb_ge 7 u)) by lia. rewrite zlen_cons.
    replace ((zlen d + 1 =? 1) && (0 <? u)) with false.
    2:{ destruct (Z.eqb_spec (zlen d + 1) 1) as [Z1|]; [|reflexivity]. destruct d as [|x d]; [rewrite H0 by reflexivity; reflexivity|]. rewrite zlen_cons in Z1. pose proof (zlen_nonneg _ d). lia. }
    rewrite low_bits by lia. replace (last (u :: d) 0 mod 2 ^ u) with 0.
    2:{ destruct d as [|x d]; [rewrite H0 by reflexivity; reflexivity|]. symmetry. exact HL. }
    cbn [orb negb Z.eqb]. f_equal. f_equal. lia.
  - intros (c & Hc & HD & El). destruct c as [|u body]; [discriminate HD|]. unfold parseBitString in HD.
    assert (Bu : byte u).
    { rewrite El in B. unfold tlv in B. cbn [app] in B. apply bytes_cons in B. destruct B as [_ B]. rewrite <- app_assoc in B. apply bytes_app in B. destruct B as [_ B]. apply bytes_cons in B. apply B. }
    destruct (Z.ltb_spec 7 u) as [|H7]; [discriminate HD|]. rewrite zlen_cons in HD.
    destruct ((zlen body + 1 =? 1) && (0 <? u)) eqn:E1; [discriminate HD|]. unfold byte in Bu. rewrite low_bits in HD by lia.
    destruct (Z.eqb_spec (last (u :: body) 0 mod 2 ^ u) 0) as [E2|]; [|discriminate HD]. cbn [orb negb] in HD.
    assert (body = d) as -> by congruence. assert (n = (zlen d + 1 - 1) * 8 - u) as -> by congruence.
    exists u, r. split; [apply element_iff; [exact L|discriminate|exact El]|]. split; [reflexivity|]. split; [lia|]. split; [lia|].
    destruct d as [|x d]; [|split; [discriminate|exact E2]].
    assert (u = 0) as ->. { change (zlen (@nil Z)) with 0 in E1. cbn in E1. apply Z.ltb_ge in E1. lia. }
    split; [reflexivity|]. reflexivity.
Qed.
(** OCTET STRING. *)
Theorem C118_octets : forall l z out d r, bytes l -> zlen l < 2 ^ 31 ->
  (ReadASN1Bytes (Some l) out OCTET_STRING = Ret (true, Some d, Some r) <-> unmarshal uOctets z l = OK (Some d, r)).
Proof.
  intros l z out d r B L. unfold unmarshal. rewrite (plain_iff _ uOctets 4 false _ z l _ r simple_octets B). change (ident 0 4 false) with 4.
  unfold ReadASN1Bytes. destruct (C24_read_asn1 (Some l) out OCTET_STRING B) as [H1 H2]. split.
  - intro H. destruct (element_em (Some l) B) as [(t & c & r' & HE)|HN]; [|rewrite (H2 HN) in H; discriminate H].
    rewrite (H1 _ _ _ HE) in H. injection H as T -> ->. apply Z.eqb_eq in T. subst t. destruct HE as (El & _). injection El as El.
    exists d. split; [exact (tlv_short _ _ _ _ L El)|]. split; [reflexivity|exact El].
  - intros (c & Hc & E & El). injection E as ->. apply (H1 4 d r). apply element_iff; [exact L|discriminate|exact El].
Qed.
(** GeneralizedTime. encoding/asn1 reads a UTCTime in the same place, cryptobyte does not. *)
Theorem C118_time : forall x z, bytes (24 :: x) -> zlen (24 :: x) < 2 ^ 31 ->
  agree (ReadASN1GeneralizedTime (Some (24 :: x))) (unmarshal uTime z (24 :: x)).
Proof.
  intros x z B L v r. unfold unmarshal. rewrite time_cases.
  assert (S : simple uGeneral 24 false parseGeneralizedTime) by (split; [lia|]; repeat split).
  assert (U : parseField uUTC z noParams (24 :: x) = OK (v, r) <-> False).
  { rewrite (plain_iff _ uUTC 23 false parseUTCTime z _ v r); [|split; [lia|]; repeat split|exact B]. split; [|tauto]. intros (c & _ & _ & E). discriminate E. }
  rewrite U. assert (X : forall P : Prop, (False \/ P) <-> P) by tauto. rewrite X. clear X U. revert v r.
  apply (agree_contents _ ReadASN1GeneralizedTime uGeneral 24 parseGeneralizedTime (fun c v => parseGeneralizedTime c = OK v) z (24 :: x) S); [|intros; reflexivity|exact B|exact L].
  intros s v s' HB. unfold ReadASN1GeneralizedTime. change GeneralizedTime with 24. destruct (element_em s HB) as [(tg & c & r & HE)|HN].
  2:{ rewrite (ReadASN1_fail _ _ _ HB HN). cbn [bind negb]. split; [discriminate|]. intros (c & r & HE & _). exfalso. apply HN. eauto. }
  rewrite (ReadASN1_element _ _ _ _ _ _ HB HE). cbn [bind contents]. split.
  - intros H. destruct (Z.eqb_spec tg 24) as [->|]; cbn [negb] in H; [|discriminate H]. exists c, r. split; [exact HE|].
    destruct (parseGeneralizedTime c) as [t'|m]; [|discriminate H]. injection H as <- <-. auto.
  - intros (c' & r' & HE' & HP & ->). destruct (element_unique _ _ _ _ _ _ _ HE HE') as (-> & -> & ->). rewrite Z.eqb_refl, HP. reflexivity.
Qed.

(** BOOLEAN: cryptobyte looks for the tag of INTEGER. What it reads after the wrong tag is what encoding/asn1 reads after the right one. *)
Theorem C118_boolean : forall x z v r, bytes x -> zlen x < 2 ^ 30 ->
  (ReadASN1Boolean (Some (2 :: x)) = Ret (Some v, Some r) <-> unmarshal uBool z (1 :: x) = OK (v, r)) /\
  ReadASN1Boolean (Some (1 :: x)) <> Ret (Some v, Some r) /\ unmarshal uBool z (2 :: x) <> OK (v, r).
Proof.
  intros x z v r B L. assert (B1 : bytes (1 :: x)) by (apply bytes_cons; split; [unfold byte; lia|exact B]).
  assert (B2 : bytes (2 :: x)) by (apply bytes_cons; split; [unfold byte; lia|exact B]).
  assert (L1 : zlen (1 :: x) < 2 ^ 31) by (rewrite zlen_cons; lia). assert (L2 : zlen (2 :: x) < 2 ^ 31) by (rewrite zlen_cons; lia).
  unfold unmarshal. rewrite !C37_read_boolean by assumption. rewrite !(plain_iff _ uBool 1 false parseBool z _ _ _ simple_bool) by assumption. change (ident 0 1 false) with 1.
  split; [|split].
  - split.
    + intros (r' & (El & _) & E). injection E as <-. injection El as El. exists [if v then 255 else 0]. split; [reflexivity|]. split; [destruct v; reflexivity|].
      unfold tlv. cbn [app]. rewrite El. reflexivity.
    + intros (c & Hc & HD & E). unfold tlv in E. cbn [app] in E. injection E as E. exists r. split; [|reflexivity]. apply element_iff; [exact L2|discriminate|].
      unfold parseBool in HD. destruct c as [|y [|]]; try discriminate HD. unfold tlv. cbn [app]. rewrite E. f_equal. f_equal. f_equal.
      destruct (Z.eqb_spec y 0) as [->|]; [injection HD as <-; reflexivity|]. destruct (Z.eqb_spec y 0xff) as [->|]; [injection HD as <-; reflexivity|discriminate HD].
  - intros (r' & (El & _) & _). discriminate El.
  - intros (c & _ & _ & E). discriminate E.
Qed.

(** OBJECT IDENTIFIER: cryptobyte takes at most four octets for a component, encoding/asn1 five. *)
Definition four_in_a_row (c : list Z) : Prop := exists i, forall j, (j < 4)%nat -> 128 <= nth (i + j) c 0.
Lemma row_app : forall p d r, zlen p <= 3 -> d < 128 -> (four_in_a_row (p ++ d :: r) <-> four_in_a_row r).
Proof.
  intros p d r L D. unfold zlen in L. split; intros [i H].
  - destruct (Nat.le_gt_cases i (List.length p)) as [G|G].
    + exfalso. specialize (H (List.length p - i)%nat ltac:(lia)). replace (i + (List.length p - i))%nat with (List.length p) in H by lia.
      rewrite app_nth2, Nat.sub_diag in H by lia. cbn [nth] in H. lia.
    + exists (i - List.length p - 1)%nat. intros j J. specialize (H j J). rewrite app_nth2 in H by lia.
      replace (i + j - List.length p)%nat with (S (i - List.length p - 1 + j)) in H by lia. exact H.
  - exists (List.length p + 1 + i)%nat. intros j J. specialize (H j J). rewrite app_nth2 by lia.
    replace (List.length p + 1 + i + j - List.length p)%nat with (S (i + j)) by lia. exact H.
Qed.
Lemma row_nil : ~ four_in_a_row [].
Proof. intros [i H]. specialize (H 0%nat ltac:(lia)). destruct (i + 0)%nat; cbn in H; lia. Qed.

Lemma base_sim : forall l i ret, bytes l -> 0 <= i <= 4 -> 0 <= ret < 128 ^ i ->
  match readBase128Loop l i ret with
  | (Some v, r) => base128Loop l i ret = OK (v, r) /\ exists p d, l = p ++ d :: r /\ i + zlen p <= 3 /\ d < 128
  | (None, _) => forall v r, base128Loop l i ret = OK (v, r) -> exists p q, l = p ++ q /\ i + zlen p = 4 /\ Forall (fun x => 128 <= x) p
  end.
Proof.
  induction l as [|b l IH]; intros i ret B Hi Hr; [cbn; intros v r H; discriminate H|].
  apply bytes_cons in B. destruct B as [Bb B]. cbn [readBase128Loop base128Loop].
  destruct (Z.eqb_spec i 4) as [->|N4].
  { intros v r _. exists [], (b :: l). split; [reflexivity|]. split; [reflexivity|constructor]. }
  rewrite (proj2 (Z.eqb_neq i 5)) by lia.
  assert (P : 128 ^ i <= 128 ^ 3) by (apply Z.pow_le_mono_r; lia). change (128 ^ 3) with 2097152 in P.
  assert (E : i64 (Z.shiftl ret 7) = Z.shiftl ret 7).
  { rewrite Z.shiftl_mul_pow2 by lia. apply i64_id. change (2 ^ 7) with 128. lia. }
  rewrite E. assert (EV : Z.lor (Z.shiftl ret 7) (Z.land b 127) = ret * 128 + b mod 128).
  { pose proof (Z.mod_pos_bound b 128 ltac:(lia)). rewrite land_7f, Z.shiftl_mul_pow2 by lia. rewrite lor_disjoint_add by lia. reflexivity. }
  rewrite EV. pose proof (Z.mod_pos_bound b 128 ltac:(lia)) as Mb.
  replace (Z.land b 128 =? 0) with (b <? 128).
  2:{ rewrite land_80 by exact Bb. destruct (b <? 128); reflexivity. }
  destruct (Z.ltb_spec b 128) as [Lb|Lb].
  - rewrite (proj2 (Z.ltb_ge (2 ^ 31 - 1) _)) by lia. split; [reflexivity|]. exists [], b. split; [reflexivity|]. split; [change (zlen (@nil Z)) with 0; lia|exact Lb].
  - specialize (IH (i + 1) (ret * 128 + b mod 128) B ltac:(lia)).
    assert (R : 0 <= ret * 128 + b mod 128 < 128 ^ (i + 1)) by (rewrite Z.pow_add_r by lia; change (128 ^ 1) with 128; lia). specialize (IH R).
    destruct (readBase128Loop l (i + 1) (ret * 128 + b mod 128)) as [[v|] r].
    + destruct IH as (H & p & d & -> & Hp & Hd). split; [exact H|]. exists (b :: p), d. split; [reflexivity|]. rewrite zlen_cons. split; [lia|exact Hd].
    + intros v r' H. destruct (IH v r' H) as (p & q & -> & Hp & F). exists (b :: p), q. split; [reflexivity|]. rewrite zlen_cons. split; [lia|]. constructor; assumption.
Qed.

(** The components after the first, read as cryptobyte does. *)
Fixpoint cbRest (fuel : nat) (l : list Z) : option (list Z) :=
  match l with
  | [] => Some []
  | _ :: _ =>
      match fuel with
      | O => None
      | S fuel => match readBase128Int l with
                  | (None, _) => None
                  | (Some v, l) => match cbRest fuel l with None => None | Some vs => Some (v :: vs) end
                  end
      end
  end.
Lemma base_len : forall l v r, bytes l -> readBase128Int l = (Some v, r) -> (List.length r < List.length l)%nat /\ bytes r.
Proof.
  intros l v r B H. pose proof (base_sim l 0 0 B ltac:(lia) ltac:(lia)) as S. fold (readBase128Int l) in S. rewrite H in S.
  destruct S as (_ & p & d & -> & _). rewrite app_length. cbn [List.length]. split; [lia|]. apply bytes_app in B. destruct B as [_ B]. apply bytes_cons in B. apply B.
Qed.
Lemma rest_len : forall fuel l vs, bytes l -> cbRest fuel l = Some vs -> zlen vs <= zlen l.
Proof.
  induction fuel as [|fuel IH]; intros [|x l] vs B H; cbn [cbRest] in H; try discriminate H; try (injection H as <-; cbn; lia).
  destruct (readBase128Int (x :: l)) as [[v|] r] eqn:R; [|discriminate H]. destruct (base_len _ _ _ B R) as [L Br].
  destruct (cbRest fuel r) as [ws|] eqn:C; [|discriminate H]. injection H as <-. pose proof (IH _ _ Br C). rewrite zlen_cons. unfold zlen in *. lia.
Qed.
Lemma loop_rest : forall fuel l pre rem, bytes l -> (List.length l <= fuel)%nat -> zlen l <= zlen rem ->
  match cbRest fuel l with
  | Some vs => exists rem', oidLoop fuel l (zlen pre) (pre ++ rem) = Ret (Some (pre ++ vs ++ rem', zlen pre + zlen vs))
  | None => oidLoop fuel l (zlen pre) (pre ++ rem) = Ret None
  end.
Proof.
  induction fuel as [|fuel IH]; intros [|x l] pre rem B F L; cbn [cbRest oidLoop]; try (exists rem; change (zlen (@nil Z)) with 0; rewrite Z.add_0_r; reflexivity); [cbn in F; lia|].
  destruct (readBase128Int (x :: l)) as [[v|] r] eqn:R; [|reflexivity]. destruct (base_len _ _ _ B R) as [Ln Br]. cbn [List.length] in *.
  destruct rem as [|y rem]; [rewrite zlen_cons in L; change (zlen (@nil Z)) with 0 in L; pose proof (zlen_nonneg _ l); lia|].
  pose proof (zlen_nonneg _ pre). rewrite !zlen_cons in L.
  rewrite go_set_ret by (rewrite zlen_app, zlen_cons; pose proof (zlen_nonneg _ rem); lia). cbn [bind].
  replace (upd (pre ++ y :: rem) (Z.to_nat (zlen pre)) v) with ((pre ++ [v]) ++ rem).
  2:{ unfold zlen. rewrite Nat2Z.id. clear. induction pre as [|p pre IH]; [reflexivity|]. cbn [app List.length upd]. f_equal. exact IH. }
  replace (zlen pre + 1) with (zlen (pre ++ [v])) by (rewrite zlen_app; reflexivity).
  specialize (IH r (pre ++ [v]) rem Br ltac:(lia) ltac:(unfold zlen in *; lia)). destruct (cbRest fuel r) as [vs|]; [|exact IH].
  destruct IH as [rem' IH]. exists rem'. rewrite IH, <- app_assoc. replace (zlen (pre ++ [v]) + zlen vs) with (zlen pre + zlen (v :: vs)); [reflexivity|].
  rewrite zlen_app, !zlen_cons. change (zlen (@nil Z)) with 0. lia.
Qed.
Lemma read_iff : forall l v r, bytes l ->
  (readBase128Int l = (Some v, r) <-> parseBase128Int l = OK (v, r) /\ exists p d, l = p ++ d :: r /\ zlen p <= 3 /\ d < 128).
Proof.
  intros l v r B. pose proof (base_sim l 0 0 B ltac:(lia) ltac:(lia)) as S. unfold readBase128Int, parseBase128Int. destruct (readBase128Loop l 0 0) as [[v'|] r'].
  - destruct S as (S & p & d & E & L & D). rewrite S. split.
    + intro H. injection H as <- <-. split; [reflexivity|]. exists p, d. split; [exact E|split; [lia|exact D]].
    + intros [H _]. congruence.
  - split; [discriminate|]. intros (H & p & d & -> & L & D). destruct (S _ _ H) as (p' & q & E & L' & F). exfalso.
    assert (K : nth (List.length p) (p ++ d :: r) 0 = d) by (rewrite app_nth2, Nat.sub_diag by lia; reflexivity). rewrite E in K.
    rewrite app_nth1 in K by (unfold zlen in *; lia). rewrite Forall_forall in F. specialize (F d). assert (In d p'); [|specialize (F H0); lia].
    rewrite <- K. apply nth_In. unfold zlen in *. lia.
Qed.
Lemma split_row : forall l v r, bytes l -> parseBase128Int l = OK (v, r) ->
  (~ four_in_a_row l <-> (readBase128Int l = (Some v, r) /\ ~ four_in_a_row r)).
Proof.
  intros l v r B H. split.
  - intro N. assert (R : readBase128Int l = (Some v, r)).
    { apply read_iff; [exact B|]. split; [exact H|]. pose proof (base128_iff l v r B) as [K _]. destruct (K H) as (g & (p & d & -> & F & D & Lp & _) & ->).
      rewrite <- app_assoc in *. cbn [app] in *. exists p, d. split; [reflexivity|]. split; [|lia].
      destruct (Nat.le_gt_cases (List.length p) 3); [unfold zlen; lia|]. exfalso. apply N. exists 0%nat. intros j J. rewrite app_nth1 by lia.
      rewrite Forall_forall in F. apply F. apply nth_In. lia. }
    split; [exact R|]. apply read_iff in R; [|exact B]. destruct R as (_ & p & d & -> & L & D). rewrite (row_app p d r L D) in N. exact N.
  - intros [R N]. apply read_iff in R; [|exact B]. destruct R as (_ & p & d & -> & L & D). rewrite (row_app p d r L D). exact N.
Qed.
Lemma rest_iff : forall fuel l vs, bytes l -> (cbRest fuel l = Some vs <-> oidRest fuel l = OK vs /\ ~ four_in_a_row l).
Proof.
  induction fuel as [|fuel IH]; intros [|x l] vs B; cbn [cbRest oidRest].
  - split; [intro H; injection H as <-; split; [reflexivity|exact row_nil]|intros [H _]; congruence].
  - split; [discriminate|intros [H _]; discriminate H].
  - split; [intro H; injection H as <-; split; [reflexivity|exact row_nil]|intros [H _]; congruence].
  - split.
    + intro H. destruct (readBase128Int (x :: l)) as [[v|] r] eqn:R; [|discriminate H]. destruct (base_len _ _ _ B R) as [_ Br].
      destruct (cbRest fuel r) as [ws|] eqn:C; [|discriminate H]. injection H as <-. apply IH in C; [|exact Br]. destruct C as [C1 C2].
      pose proof R as R'. apply read_iff in R'; [|exact B]. destruct R' as [R1 _]. rewrite R1. cbn [rbind]. rewrite C1. split; [reflexivity|].
      apply (split_row _ _ _ B R1). auto.
    + intros [H N]. destruct (parseBase128Int (x :: l)) as [[v r]|] eqn:P; [|discriminate H]. cbn [rbind] in H.
      destruct (proj1 (split_row _ _ _ B P) N) as [R N']. rewrite R. destruct (base_len _ _ _ B R) as [_ Br].
      destruct (oidRest fuel r) as [ws|] eqn:C; [|discriminate H]. cbn [rbind] in H. injection H as <-. rewrite (proj2 (IH r ws Br)) by auto. reflexivity.
Qed.
Lemma oid_contents_iff : by_contents ReadASN1ObjectIdentifier 6 (fun c oid => parseObjectIdentifier c = OK oid /\ ~ four_in_a_row c).
Proof.
  intros s oid s' HB. unfold ReadASN1ObjectIdentifier. change OBJECT_IDENTIFIER with 6. destruct (element_em s HB) as [(tg & c & r & HE)|HN].
  2:{ rewrite (ReadASN1_fail _ _ _ HB HN). cbn [bind negb orb]. split; [discriminate|]. intros (c & r & HE & _). exfalso. apply HN. eauto. }
  rewrite (ReadASN1_element _ _ _ _ _ _ HB HE). cbn [bind contents]. destruct (element_bytes _ _ _ _ HB HE) as [Bc _].
  assert (G : forall x, (if (negb (tg =? 6)) || (slen (Some c) =? 0) then Ret (None, Some r) else x) = Ret (Some oid, s') <-> tg = 6 /\ c <> [] /\ x = Ret (Some oid, s')).
  { intro x. destruct (Z.eqb_spec tg 6) as [->|N]; cbn [negb orb]; [|split; [discriminate|tauto]]. unfold slen. cbn [contents].
    destruct c as [|y c]; [split; [discriminate|tauto]|]. rewrite (proj2 (Z.eqb_neq (zlen (y :: c)) 0)) by (rewrite zlen_cons; pose proof (zlen_nonneg _ c); lia).
    split; [intro H; repeat split; [discriminate|exact H]|tauto]. }
  rewrite G. clear G.
  assert (K : go_make (slen (Some c) + 1) = Ret (repeat 0 (Z.to_nat (zlen c + 1)))).
  { unfold go_make, slen. cbn [contents]. pose proof (zlen_nonneg _ c). rewrite (proj2 (Z.ltb_ge (zlen c + 1) 0)) by lia. reflexivity. }
  assert (M : c <> [] -> ((do components <- go_make (slen (Some c) + 1);
    match readBase128Int c with
    | (None, _) => Ret (None, Some r)
    | (Some v, l) =>
      do components <-
        (if v <? 80 then
           do c <- go_set components 0 (Z.quot v 40); go_set c 1 (Z.rem v 40)
         else
           do c <- go_set components 0 2; go_set c 1 (v - 80));
      do r0 <- oidLoop (List.length l) l 2 components;
      match r0 with
      | None => Ret (None, Some r)
      | Some (components, i) => do out <- go_slice components 0 i; Ret (Some out, Some r)
      end
    end : go (option (list Z) * cstr)) = match (match readBase128Int c with
          | (None, _) => None
          | (Some v, l) => match cbRest (List.length l) l with None => None | Some vs => Some (if v <? 80 then v / 40 :: v mod 40 :: vs else 2 :: v - 80 :: vs) end
          end) with None => Ret (None, Some r) | Some o => Ret (Some o, Some r) end)).
  { intro N. rewrite K. cbn [bind]. destruct c as [|y c]; [congruence|].
    destruct (readBase128Int (y :: c)) as [[v|] l] eqn:R; [|reflexivity]. destruct (base_len _ _ _ Bc R) as [Ll Bl].
    assert (V : 0 <= v). { apply read_iff in R; [|exact Bc]. destruct R as [R _]. apply base128_iff in R; [|exact Bc]. destruct R as (g & R & _). exact (b128_nonneg _ _ R). }
    rewrite zlen_cons. replace (Z.to_nat (zlen c + 1 + 1)) with (S (S (List.length c))) by (unfold zlen; lia). cbn [repeat].
    assert (X : forall a b, (do c0 <- go_set (0 :: 0 :: repeat 0 (List.length c)) 0 a; go_set c0 1 b) = Ret ([a; b] ++ repeat 0 (List.length c))).
    { intros a b. rewrite go_set_ret by (rewrite !zlen_cons; pose proof (zlen_nonneg _ (repeat 0 (List.length c))); lia). cbn [bind]. cbn [upd Z.to_nat].
      rewrite go_set_ret by (rewrite !zlen_cons; pose proof (zlen_nonneg _ (repeat 0 (List.length c))); lia). reflexivity. }
    rewrite !X. clear X.
    assert (Y : forall a b, (do r0 <- oidLoop (List.length l) l 2 ([a; b] ++ repeat 0 (List.length c));
      match r0 with None => Ret (None, Some r) | Some (components, i) => do out <- go_slice components 0 i; Ret (Some out, Some r) end)
      = match cbRest (List.length l) l with None => Ret (None, Some r) | Some vs => Ret (Some (a :: b :: vs), Some r) end).
    { intros a b. cbn [List.length] in Ll. pose proof (loop_rest (List.length l) l [a; b] (repeat 0 (List.length c)) Bl (le_n _) ltac:(unfold zlen; rewrite repeat_length; lia)) as LR.
      change (zlen [a; b]) with 2 in LR. destruct (cbRest (List.length l) l) as [vs|]; [|rewrite LR; reflexivity]. destruct LR as [rem' LR]. rewrite LR. cbn [bind].
      unfold go_slice. pose proof (zlen_nonneg _ vs). pose proof (zlen_nonneg _ rem'). rewrite (proj2 (Z.leb_le 0 (2 + zlen vs))) by lia.
      rewrite (proj2 (Z.leb_le (2 + zlen vs) _)) by (rewrite !zlen_app; change (zlen [a; b]) with 2; lia). cbn [andb Z.leb Z.compare bind].
      rewrite app_assoc. rewrite sub_app_l by (rewrite zlen_app; reflexivity). reflexivity. }
    destruct (v <? 80); cbn [bind]; rewrite Y; destruct (cbRest (List.length l) l); try reflexivity.
    rewrite Z.quot_div_nonneg, Z.rem_mod_nonneg by lia. reflexivity. }
  assert (W : c <> [] -> (match readBase128Int c with
          | (None, _) => None
          | (Some v, l) => match cbRest (List.length l) l with None => None | Some vs => Some (if v <? 80 then v / 40 :: v mod 40 :: vs else 2 :: v - 80 :: vs) end
          end = Some oid <-> parseObjectIdentifier c = OK oid /\ ~ four_in_a_row c)).
  { intro N. destruct c as [|y c]; [congruence|]. unfold parseObjectIdentifier. split.
    - intro H. destruct (readBase128Int (y :: c)) as [[v|] l] eqn:R; [|discriminate H]. destruct (base_len _ _ _ Bc R) as [_ Bl].
      destruct (cbRest (List.length l) l) as [vs|] eqn:C; [|discriminate H]. injection H as <-. apply rest_iff in C; [|exact Bl]. destruct C as [C1 C2].
      pose proof R as R'. apply read_iff in R'; [|exact Bc]. destruct R' as [R1 _]. rewrite R1. cbn [rbind]. rewrite C1. split; [reflexivity|]. apply (split_row _ _ _ Bc R1). auto.
    - intros [H NR]. destruct (parseBase128Int (y :: c)) as [[v l]|] eqn:P; [|discriminate H]. cbn [rbind] in H. destruct (proj1 (split_row _ _ _ Bc P) NR) as [R N'].
      rewrite R. destruct (base_len _ _ _ Bc R) as [_ Bl]. destruct (oidRest (List.length l) l) as [ws|] eqn:C; [|discriminate H]. cbn [rbind] in H.
      rewrite (proj2 (rest_iff _ l ws Bl)) by auto. congruence. }
  split.
  - intros (-> & N & H). apply (eq_trans (eq_sym (M N))) in H. destruct (match readBase128Int c with (None, _) => None | _ => _ end) as [o|] eqn:Q; [|discriminate H].
    injection H as <- <-. exists c, r. split; [exact HE|]. split; [apply (W N); reflexivity|reflexivity].
  - intros (c' & r' & HE' & H & ->). destruct (element_unique _ _ _ _ _ _ _ HE HE') as (-> & -> & ->). split; [reflexivity|].
    assert (N : c' <> []) by (intros ->; destruct H as [H _]; discriminate H). split; [exact N|]. refine (eq_trans (M N) _). apply (W N) in H. rewrite H. reflexivity.
Qed.
Theorem C118_oid : forall l z oid r, bytes l -> zlen l < 2 ^ 31 ->
  (ReadASN1ObjectIdentifier (Some l) = Ret (Some oid, Some r) <->
   unmarshal uOID z l = OK (oid, r) /\ forall c, l = tlv 6 c ++ r -> ~ four_in_a_row c).
Proof.
  intros l z oid r B L. rewrite (oid_contents_iff (Some l) oid (Some r) B). unfold unmarshal. rewrite (plain_iff _ uOID 6 false parseObjectIdentifier z l oid r simple_oid B).
  change (ident 0 6 false) with 6. split.
  - intros (c & r' & H & [HP N] & E). injection E as <-. destruct H as (El & H). injection El as El. split; [exists c; split; [exact (tlv_short _ _ _ _ L El)|auto]|].
    intros c' E'. assert (K : element (Some l) 6 c' r) by (apply element_iff; [exact L|discriminate|exact E']).
    assert (K0 : element (Some l) 6 c r) by (apply element_iff; [exact L|discriminate|exact El]). destruct (element_unique _ _ _ _ _ _ _ K0 K) as (_ & <- & _). exact N.
  - intros ((c & Hc & HP & El) & N). exists c, r. split; [apply element_iff; [exact L|discriminate|exact El]|]. split; [split; [exact HP|apply N, El]|reflexivity].
Qed.

(** The condition in C118_oid is needed: one identifier that encoding/asn1 reads and cryptobyte does not. *)
Theorem C118_oid_agree_refuted : exists l z, bytes l /\ zlen l < 2 ^ 31 /\ ~ agree (ReadASN1ObjectIdentifier (Some l)) (unmarshal uOID z l).
Proof.
  exists [6; 6; 42; 0x87; 0xff; 0xff; 0xff; 0x7f], []. split; [repeat constructor; unfold byte; lia|]. split; [reflexivity|].
  intro H. specialize (H [1; 2; 2147483647] []). destruct H as [_ H]. specialize (H ltac:(reflexivity)). vm_compute in H. discriminate H.
Qed.
(** Likewise the bound on the tag number in C118_element. *)
Theorem C118_element_high_tag_refuted : exists l rv, bytes l /\ zlen l < 2 ^ 31 /\ unmarshal uRaw zeroRaw l = OK (rv, []) /\
  forall out t0 t e s, ReadAnyASN1Element (Some l) out t0 <> Ret (true, e, t, s).
Proof.
  exists [0x9f; 31; 1; 7], (mkRaw 2 31 false [7] [0x9f; 31; 1; 7]). split; [repeat constructor; unfold byte; lia|]. split; [reflexivity|]. split; [reflexivity|].
  intros out t0 t e s H. vm_compute in H. discriminate H.
Qed.
(** And the tag in C118_time. *)
Theorem C118_time_utc_refuted : exists l z, bytes l /\ zlen l < 2 ^ 31 /\ ~ agree (ReadASN1GeneralizedTime (Some l)) (unmarshal uTime z l).
Proof.
  exists [23; 13; 49; 57; 48; 49; 48; 50; 48; 51; 48; 52; 48; 53; 90], zeroTime. split; [repeat constructor; unfold byte; lia|]. split; [reflexivity|].
  intro H. specialize (H (mkTime 1546398245 0 0) []). destruct H as [_ H]. specialize (H ltac:(reflexivity)). vm_compute in H. discriminate H.
Qed.

Example C118_ex_element : ReadAnyASN1Element (Some [0xa3; 2; 5; 0; 9]) None 0 = Ret (true, Some [0xa3; 2; 5; 0], 0xa3, Some [9])
  /\ unmarshal uRaw zeroRaw [0xa3; 2; 5; 0; 9] = OK (mkRaw 2 3 true [5; 0] [0xa3; 2; 5; 0], [9]).
Proof. split; reflexivity. Qed.
Example C118_ex_integer : ReadASN1Integer (Some [2; 2; 0xff; 0x7f; 9]) KBig = Ret (Some (-129), Some [9])
  /\ unmarshal uBigInt 0 [2; 2; 0xff; 0x7f; 9] = OK (-129, [9])
  /\ ReadASN1Integer (Some [2; 2; 0xff; 0x80]) KBig <> Ret (Some (-128), Some []) /\ unmarshal uBigInt 0 [2; 2; 0xff; 0x80] = ERR "integer not minimally-encoded".
Proof. repeat split; vm_compute; try reflexivity; discriminate. Qed.
Example C118_ex_int64 : ReadASN1Integer (Some [2; 8; 128; 0; 0; 0; 0; 0; 0; 0]) (KInt 64) = Ret (Some (- 2 ^ 63), Some [])
  /\ unmarshal uInt 0 [2; 8; 128; 0; 0; 0; 0; 0; 0; 0] = OK (- 2 ^ 63, []).
Proof. split; vm_compute; reflexivity. Qed.
Example C118_ex_bits : ReadASN1BitString (Some [3; 2; 4; 0xf0; 9]) = Ret (Some ([0xf0], 4), Some [9]) /\ unmarshal uBits zeroBits [3; 2; 4; 0xf0; 9] = OK (mkBits [0xf0] 4, [9]).
Proof. split; reflexivity. Qed.
Example C118_ex_octets : ReadASN1Bytes (Some [4; 1; 7; 9]) None OCTET_STRING = Ret (true, Some [7], Some [9]) /\ unmarshal uOctets None [4; 1; 7; 9] = OK (Some [7], [9]).
Proof. split; reflexivity. Qed.
Example C118_ex_time : let l := [24; 15; 50; 48; 49; 57; 48; 49; 48; 50; 48; 51; 48; 52; 48; 53; 90] in
  ReadASN1GeneralizedTime (Some l) = Ret (Some (mkTime 1546398245 0 0), Some []) /\ unmarshal uTime zeroTime l = OK (mkTime 1546398245 0 0, []).
Proof. split; vm_compute; reflexivity. Qed.
Example C118_ex_boolean : ReadASN1Boolean (Some [2; 1; 255; 9]) = Ret (Some true, Some [9]) /\ unmarshal uBool false [1; 1; 255; 9] = OK (true, [9]).
Proof. split; reflexivity. Qed.
Example C118_ex_oid : ReadASN1ObjectIdentifier (Some [6; 3; 0x2a; 0x86; 0x48; 9]) = Ret (Some [1; 2; 840], Some [9])
  /\ unmarshal uOID [] [6; 3; 0x2a; 0x86; 0x48; 9] = OK ([1; 2; 840], [9]) /\ ~ four_in_a_row [0x2a; 0x86; 0x48].
Proof.
  split; [reflexivity|]. split; [reflexivity|]. intros [i H]. specialize (H 3%nat ltac:(lia)). rewrite nth_overflow in H by (cbn; lia). lia.
Qed.
