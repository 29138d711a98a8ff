(** Properties C44 (DER half) and C55-C57: DER signatures and ciphertexts. *)
From Coq Require Import ZArith List Lia Bool String.
From Verif Require Import GoBase BeMin CbString CbStringProofs CbBuilderProofs CbAsn1Proofs GoAsn1 GoAsn1Proofs.
From Verif Require Import GoElliptic Sm3 Sm2Spec Sm2 Sm2Group Sm2Order Sm2Proofs Sm2Proofs2 PropsCurve PropsSm2 Sm2Der.
Import ListNotations.
Open Scope Z_scope.

(** * Fields *)

Lemma field_bigint : forall v c r, int_der v c -> zlen c < 2 ^ 31 -> parseField uBigInt 0 noParams (tlv 2 c ++ r) = OK (v, r).
Proof.
  intros v c r H L. change (tlv 2 c) with (tlv (ident 0 2 false) c).
  rewrite field_tlv; try reflexivity; try assumption; [|split; lia|right; reflexivity|right; split; reflexivity].
  cbn [u_body uBigInt]. rewrite (proj2 (parseBigInt_iff c v (proj1 H)) H). reflexivity.
Qed.
Lemma field_bigint_inv : forall l v r, bytes l -> parseField uBigInt 0 noParams l = OK (v, r) ->
  exists c, l = tlv 2 c ++ r /\ int_der v c /\ zlen c < 2 ^ 31.
Proof.
  intros l v r HB H. destruct (field_inv _ uBigInt 0 2 false l v r HB eq_refl (fun _ => eq_refl) ltac:(lia) eq_refl H) as (c & E & _ & L & B).
  exists c. split; [exact E|]. split; [|exact L]. apply parseBigInt_iff; [|exact B].
  rewrite E in HB. apply bytes_app in HB. destruct HB as [HB _]. rewrite tlv_split in HB. apply bytes_app in HB. tauto.
Qed.
Lemma field_octets : forall c r, zlen c < 2 ^ 31 -> parseField uOctets None noParams (tlv 4 c ++ r) = OK (Some c, r).
Proof.
  intros c r L. change (tlv 4 c) with (tlv (ident 0 4 false) c).
  rewrite field_tlv; try reflexivity; try assumption; [split; lia|right; reflexivity|right; split; reflexivity].
Qed.
Lemma field_octets_inv : forall l v r, bytes l -> parseField uOctets None noParams l = OK (v, r) ->
  exists c, l = tlv 4 c ++ r /\ v = Some c /\ zlen c < 2 ^ 31.
Proof.
  intros l v r HB H. destruct (field_inv _ uOctets None 4 false l v r HB eq_refl (fun _ => eq_refl) ltac:(lia) eq_refl H) as (c & E & _ & L & B).
  exists c. split; [exact E|]. split; [|exact L]. cbn [u_body uOctets] in B. congruence.
Qed.
Lemma struct_ok : forall A (body : list Z -> list Z -> res A) zero c r v, zlen c < 2 ^ 31 -> body (tlv 48 c) c = OK v ->
  unmarshal (uStruct body) zero (tlv 48 c ++ r) = OK (v, r).
Proof.
  intros A body zero c r v L H. unfold unmarshal. change (tlv 48 c) with (tlv (ident 0 16 true) c) in *.
  rewrite field_tlv; try reflexivity; try assumption; [|split; lia|right; reflexivity|right; split; reflexivity].
  cbn [u_body uStruct]. rewrite H. reflexivity.
Qed.
Lemma struct_inv : forall A (body : list Z -> list Z -> res A) zero l r v, bytes l ->
  unmarshal (uStruct body) zero l = OK (v, r) ->
  exists c, l = tlv 48 c ++ r /\ zlen c < 2 ^ 31 /\ body (tlv 48 c) c = OK v /\ bytes c.
Proof.
  intros A body zero l r v HB H. destruct (field_inv _ (uStruct body) zero 16 true l v r HB eq_refl (fun _ => eq_refl) ltac:(lia) eq_refl H) as (c & E & _ & L & B).
  exists c. split; [exact E|]. split; [exact L|]. split; [exact B|].
  rewrite E in HB. apply bytes_app in HB. destruct HB as [HB _]. rewrite tlv_split in HB. apply bytes_app in HB. tauto.
Qed.

Lemma bytes_tlv : forall t c r, bytes (tlv t c ++ r) -> bytes c /\ bytes r.
Proof. intros t c r H. apply bytes_app in H. destruct H as [H R]. rewrite tlv_split in H. apply bytes_app in H. tauto. Qed.

Lemma zlen_tlv_ge : forall t c, zlen c <= zlen (tlv t c).
Proof. intros t c. rewrite zlen_tlv. pose proof (zlen_der_len_pos (zlen c)). lia. Qed.

Lemma zlen_tlv_le : forall t c, zlen c < 2 ^ 62 -> zlen (tlv t c) <= zlen c + 10.
Proof.
  intros t c L. rewrite zlen_tlv. pose proof (zlen_nonneg _ c). unfold der_len. destruct (zlen c <? 128).
  - rewrite zlen_cons, zlen_nil. lia.
  - rewrite zlen_cons. assert (B : 256 ^ 8 = 2 ^ 64) by reflexivity. pose proof (be_min_len_le (zlen c) 8). lia.
Qed.

Lemma fieldBigInt_tlv : forall n, zlen (makeBigInt n) < 2 ^ 63 -> fieldBigInt n = OK (tlv 2 (makeBigInt n)).
Proof.
  intros n L. unfold fieldBigInt, makeField. cbn [noParams fp_optional fp_set fp_tag andb rbind].
  rewrite tagged_tlv; [reflexivity|unfold small_header, TagInteger, TagOctetString, TagSequence; lia|exact L].
Qed.
Lemma fieldOctets_tlv : forall b, zlen b < 2 ^ 63 -> fieldOctets b = OK (tlv 4 b).
Proof.
  intros n L. unfold fieldOctets, makeField. cbn [noParams fp_optional fp_set fp_tag andb rbind].
  rewrite tagged_tlv; [reflexivity|unfold small_header, TagInteger, TagOctetString, TagSequence; lia|exact L].
Qed.
Lemma marshalStruct_tlv : forall fs c, makeFields fs = OK c -> zlen c < 2 ^ 63 -> marshalStruct fs = OK (tlv 48 c).
Proof.
  intros fs c E L. unfold marshalStruct, makeField. cbn [noParams fp_optional fp_set fp_tag andb]. rewrite E. cbn [rbind].
  rewrite tagged_tlv; [reflexivity|unfold small_header, TagInteger, TagOctetString, TagSequence; lia|exact L].
Qed.

(** * C55: signatures *)

(** The DER of the INTEGER [v]: identifier 2, length, minimal two's complement. *)
Definition der_integer (v : Z) (e : list Z) : Prop := exists c, int_der v c /\ e = tlv 2 c.

Lemma der_integer_of : forall v, der_integer v (tlv 2 (makeBigInt v)).
Proof. intro v. exists (makeBigInt v). split; [apply makeBigInt_der|reflexivity]. Qed.
Lemma der_integer_unique : forall v e e', der_integer v e -> der_integer v e' -> e = e'.
Proof. intros v e e' (c & H & ->) (c' & H' & ->). rewrite (int_der_unique v c c' H H'). reflexivity. Qed.
Lemma der_integer_exists : forall v, exists e, der_integer v e.
Proof. intro v. exists (tlv 2 (makeBigInt v)). apply der_integer_of. Qed.

(** MarshalSign gives the DER SEQUENCE of the two INTEGERs. *)
Theorem C55_marshal_is_der : forall r s er es, der_integer r er -> der_integer s es -> zlen (er ++ es) < 2 ^ 63 ->
  MarshalSign r s = OK (tlv 48 (er ++ es)).
Proof.
  intros r s er es Hr Hs L. rewrite (der_integer_unique _ _ _ Hr (der_integer_of r)) in *.
  rewrite (der_integer_unique _ _ _ Hs (der_integer_of s)) in *. clear Hr Hs. rewrite zlen_app in L.
  pose proof (zlen_nonneg _ (tlv 2 (makeBigInt r))). pose proof (zlen_nonneg _ (tlv 2 (makeBigInt s))).
  pose proof (zlen_tlv_ge 2 (makeBigInt r)). pose proof (zlen_tlv_ge 2 (makeBigInt s)).
  unfold MarshalSign. apply marshalStruct_tlv.
  - cbn [makeFields]. rewrite !fieldBigInt_tlv by lia. cbn [rbind]. rewrite app_nil_r. reflexivity.
  - rewrite zlen_app. lia.
Qed.

(** Exactly which byte strings UnmarshalSign accepts, and what it makes of them. *)
Theorem C55_unmarshal_accepts : forall sig r s, bytes sig ->
  (UnmarshalSign sig = OK (r, s) <->
   exists er es inside after, der_integer r er /\ der_integer s es /\
     sig = tlv 48 (er ++ es ++ inside) ++ after /\ zlen (er ++ es ++ inside) < 2 ^ 31).
Proof.
  intros sig r s HB. unfold UnmarshalSign. split.
  - intro H. destruct (unmarshal uSm2Signature (0, 0) sig) as [[[r' s'] after]|e] eqn:E; [|discriminate].
    cbn [rbind] in H. injection H as -> ->.
    apply struct_inv in E; [|exact HB]. destruct E as (c & E & L & B & Bc).
    destruct (parseField uBigInt 0 noParams c) as [[r1 l1]|e] eqn:E1; [|discriminate]. cbn [rbind] in B.
    destruct (parseField uBigInt 0 noParams l1) as [[s1 l2]|e] eqn:E2; [|discriminate]. cbn [rbind] in B.
    injection B as -> ->.
    apply field_bigint_inv in E1; [|exact Bc]. destruct E1 as (cr & -> & Hr & Lr).
    apply bytes_tlv in Bc. destruct Bc as [_ Bl].
    apply field_bigint_inv in E2; [|exact Bl]. destruct E2 as (cs & -> & Hs & Ls).
    exists (tlv 2 cr), (tlv 2 cs), l2, after. split; [exists cr; auto|]. split; [exists cs; auto|]. auto.
  - intros (er & es & inside & after & (cr & Hr & ->) & (cs & Hs & ->) & -> & L).
    rewrite !zlen_app in L. pose proof (zlen_tlv_ge 2 cr). pose proof (zlen_tlv_ge 2 cs).
    pose proof (zlen_nonneg _ (tlv 2 cr)). pose proof (zlen_nonneg _ (tlv 2 cs)). pose proof (zlen_nonneg _ inside).
    unfold uSm2Signature. rewrite (struct_ok _ _ _ _ _ (r, s)).
    + reflexivity.
    + rewrite !zlen_app. lia.
    + cbv beta. rewrite (field_bigint r) by (auto; lia). cbn [rbind]. rewrite (field_bigint s) by (auto; lia). reflexivity.
Qed.

Lemma tlv_bytes : forall t c, byte t -> bytes c -> zlen c < 2 ^ 32 -> bytes (tlv t c).
Proof.
  intros t c Ht Hc L. rewrite tlv_split. apply bytes_app. split; [|exact Hc]. apply bytes_cons. split; [exact Ht|].
  apply der_len_bytes. pose proof (zlen_nonneg _ c). lia.
Qed.
Lemma der_integer_bytes : forall v e, der_integer v e -> zlen e < 2 ^ 32 -> bytes e.
Proof.
  intros v e (c & (B & _) & ->) L. pose proof (zlen_tlv_ge 2 c). apply tlv_bytes; [unfold byte; lia|exact B|lia].
Qed.

(** Round trip, and the accepted encodings of one signature are as many as there are byte strings. *)
Theorem C55_roundtrip : forall r s er es, der_integer r er -> der_integer s es -> zlen (er ++ es) < 2 ^ 31 ->
  exists sig, MarshalSign r s = OK sig /\ UnmarshalSign sig = OK (r, s).
Proof.
  intros r s er es Hr Hs L. exists (tlv 48 (er ++ es)). split; [apply C55_marshal_is_der; auto; lia|].
  rewrite zlen_app in L. pose proof (zlen_nonneg _ er). pose proof (zlen_nonneg _ es).
  apply C55_unmarshal_accepts.
  - apply tlv_bytes; [unfold byte; lia| |rewrite zlen_app; lia].
    apply bytes_app. split; [apply (der_integer_bytes r)|apply (der_integer_bytes s)]; auto; lia.
  - exists er, es, [], []. rewrite !app_nil_r, zlen_app. auto.
Qed.

Theorem C55_trailing_data_ignored : forall r s er es inside after, der_integer r er -> der_integer s es ->
  bytes inside -> bytes after -> zlen (er ++ es ++ inside) < 2 ^ 31 ->
  UnmarshalSign (tlv 48 (er ++ es ++ inside) ++ after) = OK (r, s) /\
  (forall pub id src, Verify pub id src (tlv 48 (er ++ es ++ inside) ++ after) = VerifyByRS pub id src r s).
Proof.
  intros r s er es inside after Hr Hs Bi Ba L.
  assert (E : UnmarshalSign (tlv 48 (er ++ es ++ inside) ++ after) = OK (r, s)).
  { apply C55_unmarshal_accepts; [|exists er, es, inside, after; auto].
    pose proof L as L2. rewrite !zlen_app in L2. pose proof (zlen_nonneg _ er). pose proof (zlen_nonneg _ es). pose proof (zlen_nonneg _ inside).
    apply bytes_app. split; [|exact Ba]. apply tlv_bytes; [unfold byte; lia| |lia].
    apply bytes_app. split; [apply (der_integer_bytes r); auto; lia|].
    apply bytes_app. split; [apply (der_integer_bytes s); auto; lia|exact Bi]. }
  split; [exact E|]. intros. unfold Verify. rewrite E. reflexivity.
Qed.

(** Verify is total and decides: decode, then VerifyByRS; nothing else is accepted. *)
Theorem C55_verify_accepts_only : forall pub id src sig, bytes sig -> Verify pub id src sig = Ret true ->
  exists r s er es inside after, der_integer r er /\ der_integer s es /\
    sig = tlv 48 (er ++ es ++ inside) ++ after /\ VerifyByRS pub id src r s = Ret true.
Proof.
  intros pub id src sig HB H. unfold Verify in H. destruct (UnmarshalSign sig) as [[r s]|e] eqn:E; [|discriminate].
  apply C55_unmarshal_accepts in E; [|exact HB]. destruct E as (er & es & i & a & Hr & Hs & E & _).
  exists r, s, er, es, i, a. auto.
Qed.

(** The numbers of a signature are below N, so its DER is short. *)
Lemma der_integer_small : forall v e, 0 <= v < 2 ^ 256 -> der_integer v e -> zlen e <= 35.
Proof.
  intros v e Hv (c & Hc & ->). pose proof (int_der_octets _ _ Hc) as O.
  assert (L : zlen c <= 33).
  { apply (octets_le v _ 33 O); [lia|]. unfold fits. change (8 * 33 - 1) with 263.
    assert (2 ^ 256 < 2 ^ 263) by (apply Z.pow_lt_mono_r; lia). lia. }
  rewrite zlen_tlv, der_len_short by lia. rewrite zlen_cons, zlen_nil. lia.
Qed.

Theorem C44_sign_then_verify : forall priv pub id m tape sig rest,
  0 <= D priv -> good_id id -> good_msg m -> bytes tape -> CalculatePubKey priv = Ret pub ->
  Sign priv id m tape = Ret (OK sig, rest) -> Verify pub id m sig = Ret true.
Proof.
  intros priv pub id m tape sig rest Hd Hid Hm HB HP E. unfold Sign in E.
  destruct (SignToRS priv id m tape) as [[[[r s]|e] rest']|p] eqn:ES; cbn [bind] in E; try discriminate.
  apply (f_equal (fun x => match x with Ret (OK q, _) => q | _ => [] end)) in E as E1. cbv beta iota in E1.
  destruct (der_integer_exists r) as [er Hr]. destruct (der_integer_exists s) as [es Hs].
  destruct (C45_signature_equations priv id m tape r s rest' Hd Hid Hm HB ES) as (k & _ & _ & R1 & R2).
  assert (Nn : curveN < 2 ^ 256) by (vm_compute; reflexivity).
  pose proof (der_integer_small r er ltac:(lia) Hr). pose proof (der_integer_small s es ltac:(lia) Hs).
  assert (EM : MarshalSign r s = OK (tlv 48 (er ++ es))) by (apply C55_marshal_is_der; auto; rewrite zlen_app; lia).
  rewrite EM in E, E1. subst sig.
  destruct (C55_trailing_data_ignored r s er es [] [] Hr Hs bytes_nil bytes_nil) as [_ V].
  { rewrite !zlen_app, zlen_nil. lia. }
  rewrite !app_nil_r in V. rewrite V. apply (C44_signatures_verify priv pub id m tape r s rest'); assumption.
Qed.

(** * C56, C57: ciphertexts *)

(** [inp] starts with a DER SEQUENCE of INTEGERs x, y and OCTET STRINGs a, b (and anything after them). *)
Definition cipher_der (inp : list Z) (x y : Z) (a b : list Z) : Prop :=
  exists ex ey inside after, der_integer x ex /\ der_integer y ey /\
    inp = tlv 48 (ex ++ ey ++ tlv 4 a ++ tlv 4 b ++ inside) ++ after /\
    zlen (ex ++ ey ++ tlv 4 a ++ tlv 4 b ++ inside) < 2 ^ 31.

Lemma cipher_parse : forall inp x y a b, cipher_der inp x y a b -> exists after, unmarshal uSm2Cipher (0, 0, [], []) inp = OK (x, y, a, b, after).
Proof.
  intros inp x y a b (ex & ey & inside & after & (cx & Hx & ->) & (cy & Hy & ->) & -> & L). exists after.
  unfold uSm2Cipher. apply struct_ok; [exact L|]. rewrite !zlen_app in L.
  pose proof (zlen_tlv_ge 2 cx). pose proof (zlen_tlv_ge 2 cy). pose proof (zlen_tlv_ge 4 a). pose proof (zlen_tlv_ge 4 b).
  pose proof (zlen_nonneg _ (tlv 2 cx)). pose proof (zlen_nonneg _ (tlv 2 cy)). pose proof (zlen_nonneg _ inside).
  pose proof (zlen_nonneg _ (tlv 4 a)). pose proof (zlen_nonneg _ (tlv 4 b)).
  rewrite (field_bigint x) by (auto; lia). cbn [rbind]. rewrite (field_bigint y) by (auto; lia). cbn [rbind].
  rewrite (field_octets a) by lia. cbn [rbind]. rewrite (field_octets b) by lia. reflexivity.
Qed.
Lemma cipher_parse_inv : forall inp x y a b after, bytes inp -> unmarshal uSm2Cipher (0, 0, [], []) inp = OK (x, y, a, b, after) -> cipher_der inp x y a b.
Proof.
  intros inp x y a b after HB H. apply struct_inv in H; [|exact HB]. destruct H as (c & -> & L & B & Bc).
  destruct (parseField uBigInt 0 noParams c) as [[x1 l1]|e] eqn:E1; [|discriminate]. cbn [rbind] in B.
  destruct (parseField uBigInt 0 noParams l1) as [[y1 l2]|e] eqn:E2; [|discriminate]. cbn [rbind] in B.
  destruct (parseField uOctets None noParams l2) as [[a1 l3]|e] eqn:E3; [|discriminate]. cbn [rbind] in B.
  destruct (parseField uOctets None noParams l3) as [[b1 l4]|e] eqn:E4; [|discriminate]. cbn [rbind] in B.
  apply field_bigint_inv in E1; [|exact Bc]. destruct E1 as (cx & -> & Hx & _). apply bytes_tlv in Bc. destruct Bc as [_ Bc].
  apply field_bigint_inv in E2; [|exact Bc]. destruct E2 as (cy & -> & Hy & _). apply bytes_tlv in Bc. destruct Bc as [_ Bc].
  apply field_octets_inv in E3; [|exact Bc]. destruct E3 as (a2 & -> & -> & _). apply bytes_tlv in Bc. destruct Bc as [_ Bc].
  apply field_octets_inv in E4; [|exact Bc]. destruct E4 as (b2 & -> & -> & _).
  cbn [contents] in B. injection B as -> -> -> ->.
  exists (tlv 2 cx), (tlv 2 cy), l4, after. split; [exists cx; auto|]. split; [exists cy; auto|]. auto.
Qed.

(** What UnmarshalCipher does with every input. *)
Theorem C57_unmarshal_cipher : forall inp t, bytes inp -> t = 1 \/ t = 2 ->
  (forall x y a b, cipher_der inp x y a b ->
     UnmarshalCipher inp t = if (Z.abs x <? 2 ^ 256) && (Z.abs y <? 2 ^ 256)
                             then Ret (OK (4 :: be_enc 32 (Z.abs x) ++ be_enc 32 (Z.abs y) ++ a ++ b)) else Panic PMake) /\
  ((forall x y a b, ~ cipher_der inp x y a b) -> exists e, UnmarshalCipher inp t = Ret (ERR e)).
Proof.
  intros inp t HB T. unfold UnmarshalCipher.
  replace ((t =? C1C2C3) || (t =? C1C3C2)) with true by (destruct T; subst t; reflexivity). split.
  - intros x y a b H. apply cipher_parse in H. destruct H as [after ->].
    destruct (Z.ltb_spec (Z.abs x) (2 ^ 256)) as [Lx|Lx]; cbn [andb]; [|rewrite to32_panic by exact Lx; reflexivity].
    rewrite to32_abs by exact Lx. cbn [bind].
    destruct (Z.ltb_spec (Z.abs y) (2 ^ 256)) as [Ly|Ly]; [|rewrite to32_panic by exact Ly; reflexivity].
    rewrite to32_abs by exact Ly. reflexivity.
  - intro H. destruct (unmarshal uSm2Cipher (0, 0, [], []) inp) as [[[[[x y] a] b] after]|e] eqn:E; [|eauto].
    exfalso. apply (H x y a b). apply (cipher_parse_inv _ _ _ _ _ after HB E).
Qed.
Theorem C57_oversized_coordinate_panics : forall inp t x y a b, bytes inp -> t = 1 \/ t = 2 -> cipher_der inp x y a b ->
  (UnmarshalCipher inp t = Panic PMake <-> 2 ^ 256 <= Z.abs x \/ 2 ^ 256 <= Z.abs y).
Proof.
  intros inp t x y a b HB T H. rewrite (proj1 (C57_unmarshal_cipher inp t HB T) x y a b H).
  destruct (Z.ltb_spec (Z.abs x) (2 ^ 256)); destruct (Z.ltb_spec (Z.abs y) (2 ^ 256)); cbn [andb];
    (split; [intro E; try discriminate E; lia|intro E; try reflexivity; exfalso; lia]).
Qed.
(** A negative coordinate is read as its absolute value. *)
Theorem C57_sign_of_coordinate_ignored : forall inp inp' t x y a b, bytes inp -> bytes inp' -> t = 1 \/ t = 2 ->
  cipher_der inp x y a b -> cipher_der inp' (- x) y a b -> UnmarshalCipher inp t = UnmarshalCipher inp' t.
Proof.
  intros inp inp' t x y a b HB HB' T H H'. rewrite (proj1 (C57_unmarshal_cipher inp t HB T) x y a b H).
  rewrite (proj1 (C57_unmarshal_cipher inp' t HB' T) (- x) y a b H'), Z.abs_opp. reflexivity.
Qed.

(** MarshalCipher: the pieces of a raw ciphertext. *)
Lemma split97 : forall c : list Z, 97 <= zlen c -> exists (b : Z) (x y r : list Z), c = b :: x ++ y ++ r /\ List.length x = 32%nat /\ List.length y = 32%nat /\ 32 <= zlen r.
Proof.
  intros c L. destruct c as [|b c]; [rewrite zlen_nil in L; lia|]. rewrite zlen_cons in L.
  exists b, (firstn 32 c), (firstn 32 (skipn 32 c)), (skipn 32 (skipn 32 c)).
  rewrite !firstn_skipn. split; [reflexivity|]. unfold zlen in *. rewrite !firstn_length, !skipn_length. lia.
Qed.

Theorem C56_short_panics : forall c t, zlen c < 97 -> MarshalCipher c t = Panic PMake.
Proof.
  intros c t L. unfold MarshalCipher. change (Z.shiftr (curveBitSize + 7) 3) with 32. change DigestLength with 32.
  change (go_make 32) with (Ret (repeat 0 32)). cbn [bind]. unfold go_make at 1.
  replace (zlen c - (1 + 32 * 2) - 32 <? 0) with true by (symmetry; apply Z.ltb_lt; lia). reflexivity.
Qed.

Lemma slice_mid : forall A (l m r : list A) lo hi, lo = zlen l -> hi = zlen l + zlen m -> go_slice (l ++ m ++ r) lo hi = Ret m.
Proof.
  intros A l m r lo hi -> ->. pose proof (zlen_nonneg _ l). pose proof (zlen_nonneg _ m). pose proof (zlen_nonneg _ r).
  rewrite go_slice_ret by (rewrite ?zlen_app; lia). rewrite (sub_mid _ l m r) by reflexivity. reflexivity.
Qed.

Lemma MarshalCipher_eval : forall b x y p q t, List.length x = 32%nat -> List.length y = 32%nat ->
  (t = 1 /\ zlen q = 32 \/ t = 2 /\ zlen p = 32 \/ t <> 1 /\ t <> 2 /\ zlen q = 32) ->
  MarshalCipher (b :: x ++ y ++ p ++ q) t =
    Ret (if (t =? 1) || (t =? 2) then marshalStruct [fieldBigInt (be_dec x); fieldBigInt (be_dec y); fieldOctets p; fieldOctets q]
         else ERR (unknownType t)).
Proof.
  intros b x y p q t Lx Ly T. unfold MarshalCipher. change (Z.shiftr (curveBitSize + 7) 3) with 32. change DigestLength with 32.
  change (go_make 32) with (Ret (repeat 0 32)). cbn [bind].
  pose proof (zlen_nonneg _ p). pose proof (zlen_nonneg _ q).
  assert (Zx : zlen x = 32) by (unfold zlen; lia). assert (Zy : zlen y = 32) by (unfold zlen; lia).
  set (c := b :: x ++ y ++ p ++ q).
  assert (Lc : zlen c = 65 + zlen p + zlen q) by (unfold c; rewrite zlen_cons, !zlen_app; lia).
  assert (Lp : t = 2 /\ zlen p = 32 \/ t <> 2 /\ zlen q = 32) by lia.
  unfold go_make at 1. rewrite (proj2 (Z.ltb_ge (zlen c - (1 + 32 * 2) - 32) 0)) by lia. cbn [bind].
  change (1 + 32) with 33. change (33 + 32) with 65.
  assert (S1 : go_slice c 1 33 = Ret x).
  { unfold c. change (b :: x ++ y ++ p ++ q) with ([b] ++ x ++ (y ++ p ++ q)). apply slice_mid; [reflexivity|].
    rewrite zlen_cons, zlen_nil, Zx. reflexivity. }
  assert (S2 : go_slice c 33 65 = Ret y).
  { unfold c. change (b :: x ++ y ++ p ++ q) with ((b :: x) ++ y ++ (p ++ q)). apply slice_mid; rewrite zlen_cons; lia. }
  assert (S3 : go_slice c 65 (65 + zlen p) = Ret p).
  { unfold c. replace (b :: x ++ y ++ p ++ q) with ((b :: x ++ y) ++ p ++ q) by (cbn [app]; rewrite <- app_assoc; reflexivity).
    apply slice_mid; rewrite zlen_cons, zlen_app; lia. }
  assert (S4 : go_slice c (65 + zlen p) (65 + zlen p + zlen q) = Ret q).
  { unfold c. replace (b :: x ++ y ++ p ++ q) with ((b :: x ++ y ++ p) ++ q ++ []) by (rewrite app_nil_r; cbn [app]; rewrite <- !app_assoc; reflexivity).
    apply slice_mid; rewrite zlen_cons, !zlen_app; lia. }
  rewrite S1, S2. cbn [bind]. rewrite Lc. change C1C2C3 with 1. change C1C3C2 with 2.
  replace (65 + zlen p + zlen q - (1 + 32 * 2) - 32) with (zlen p + zlen q - 32) by lia.
  destruct (Z.eqb_spec t 1) as [-> |N1]; cbn [orb].
  - destruct Lp as [[? ?]|[_ Lq]]; [lia|]. replace (zlen p + zlen q - 32) with (zlen p) by lia. rewrite S3. cbn [bind].
    rewrite Lq in S4. rewrite S4. reflexivity.
  - destruct (Z.eqb_spec t 2) as [-> |N2]; [|reflexivity]. destruct Lp as [[_ Lq]|[? _]]; [|lia].
    replace (zlen p + zlen q - 32) with (zlen q) by lia. rewrite Lq in S3, S4. rewrite S3. cbn [bind]. rewrite S4. reflexivity.
Qed.

(** The result of MarshalCipher: C1's coordinates as INTEGERs, then C2 and C3 in the given order; the first byte is not looked at. *)
Theorem C56_marshal_cipher : forall b x y p q t ex ey, bytes x -> bytes y -> List.length x = 32%nat -> List.length y = 32%nat ->
  (t = 1 /\ zlen q = 32 \/ t = 2 /\ zlen p = 32) -> zlen p + zlen q < 2 ^ 62 ->
  der_integer (be_dec x) ex -> der_integer (be_dec y) ey ->
  MarshalCipher (b :: x ++ y ++ p ++ q) t = Ret (OK (tlv 48 (ex ++ ey ++ tlv 4 p ++ tlv 4 q))).
Proof.
  intros b x y p q t ex ey Bx By Lx Ly T L Hx Hy. rewrite MarshalCipher_eval by (auto; tauto).
  replace ((t =? 1) || (t =? 2)) with true by (destruct T as [[-> _]|[-> _]]; reflexivity).
  pose proof (der_integer_small _ _ (be_dec_range32 x Bx Lx) Hx). pose proof (der_integer_small _ _ (be_dec_range32 y By Ly) Hy).
  rewrite (der_integer_unique _ _ _ Hx (der_integer_of (be_dec x))) in *.
  rewrite (der_integer_unique _ _ _ Hy (der_integer_of (be_dec y))) in *.
  pose proof (zlen_tlv_ge 2 (makeBigInt (be_dec x))). pose proof (zlen_tlv_ge 2 (makeBigInt (be_dec y))).
  pose proof (zlen_nonneg _ p). pose proof (zlen_nonneg _ q).
  pose proof (zlen_tlv_le 4 p ltac:(lia)). pose proof (zlen_tlv_le 4 q ltac:(lia)).
  rewrite (marshalStruct_tlv _ (tlv 2 (makeBigInt (be_dec x)) ++ tlv 2 (makeBigInt (be_dec y)) ++ tlv 4 p ++ tlv 4 q)); [reflexivity| |].
  - cbn [makeFields]. rewrite !fieldBigInt_tlv by lia. rewrite !fieldOctets_tlv by lia. cbn [rbind]. rewrite app_nil_r. reflexivity.
  - rewrite !zlen_app. lia.
Qed.
Theorem C56_unknown_order : forall c t, t <> 1 -> t <> 2 -> 97 <= zlen c ->
  (exists e, MarshalCipher c t = Ret (ERR e)) /\ (forall inp, exists e, UnmarshalCipher inp t = Ret (ERR e)).
Proof.
  intros c t N1 N2 L. apply Z.eqb_neq in N1 as E1. apply Z.eqb_neq in N2 as E2. split.
  - destruct (split97 c L) as (b & x & y & r & -> & Lx & Ly & Lr).
    rewrite <- (firstn_skipn (List.length r - 32) r).
    rewrite MarshalCipher_eval; [rewrite E1, E2; cbn [orb]; eauto|exact Lx|exact Ly|].
    right. right. split; [exact N1|]. split; [exact N2|]. unfold zlen in Lr |- *. rewrite skipn_length. lia.
  - intro inp. unfold UnmarshalCipher. change C1C2C3 with 1. change C1C3C2 with 2. rewrite E1, E2. cbn [orb]. eauto.
Qed.

(** Round trip: only the first byte is normalised. *)
Theorem C56_roundtrip : forall c t, bytes c -> 97 <= zlen c < 2 ^ 31 - 100 -> t = 1 \/ t = 2 ->
  exists der, MarshalCipher c t = Ret (OK der) /\ UnmarshalCipher der t = Ret (OK (4 :: tl c)).
Proof.
  intros c t HB [L U] T. destruct (split97 c L) as (b & x & y & r & -> & Lx & Ly & Lr).
  apply bytes_cons in HB. destruct HB as [Bb HB]. apply bytes_app in HB. destruct HB as [Bx HB]. apply bytes_app in HB. destruct HB as [By Br].
  rewrite zlen_cons, !zlen_app in U. assert (Zx : zlen x = 32) by (unfold zlen; lia). assert (Zy : zlen y = 32) by (unfold zlen; lia).
  assert (SP : exists p q, r = p ++ q /\ (t = 1 /\ zlen q = 32 \/ t = 2 /\ zlen p = 32)).
  { destruct T as [-> | ->].
    - exists (firstn (List.length r - 32) r), (skipn (List.length r - 32) r). rewrite firstn_skipn. split; [reflexivity|].
      left. unfold zlen in Lr |- *. rewrite skipn_length. lia.
    - exists (firstn 32 r), (skipn 32 r). rewrite firstn_skipn. split; [reflexivity|].
      right. unfold zlen in Lr |- *. rewrite firstn_length. lia. }
  destruct SP as (p & q & -> & SP). rewrite zlen_app in U. pose proof (zlen_nonneg _ p). pose proof (zlen_nonneg _ q).
  destruct (der_integer_exists (be_dec x)) as [ex Hx]. destruct (der_integer_exists (be_dec y)) as [ey Hy].
  exists (tlv 48 (ex ++ ey ++ tlv 4 p ++ tlv 4 q)). split; [apply C56_marshal_cipher; auto; lia|].
  pose proof (be_dec_range32 x Bx Lx) as Rx. pose proof (be_dec_range32 y By Ly) as Ry.
  pose proof (der_integer_small _ _ Rx Hx). pose proof (der_integer_small _ _ Ry Hy).
  pose proof (zlen_tlv_le 4 p ltac:(lia)). pose proof (zlen_tlv_le 4 q ltac:(lia)).
  pose proof (zlen_nonneg _ ex). pose proof (zlen_nonneg _ ey).
  apply bytes_app in Br. destruct Br as [Bp Bq].
  assert (BE : bytes (tlv 48 (ex ++ ey ++ tlv 4 p ++ tlv 4 q))).
  { apply tlv_bytes; [unfold byte; lia| |rewrite !zlen_app; lia]. apply bytes_app. split; [apply (der_integer_bytes _ _ Hx); lia|].
    apply bytes_app. split; [apply (der_integer_bytes _ _ Hy); lia|].
    apply bytes_app. split; apply tlv_bytes; auto; unfold byte; lia. }
  rewrite (proj1 (C57_unmarshal_cipher _ t BE T) (be_dec x) (be_dec y) p q).
  - rewrite !Z.abs_eq by lia. rewrite (proj2 (Z.ltb_lt (be_dec x) _)), (proj2 (Z.ltb_lt (be_dec y) _)) by lia. cbn [andb].
    change (be_enc 32) with b32. rewrite (b32_of_dec x Bx Lx), (b32_of_dec y By Ly). reflexivity.
  - exists ex, ey, [], []. rewrite !app_nil_r, !zlen_app. split; [exact Hx|]. split; [exact Hy|]. split; [reflexivity|lia].
Qed.

(** * Examples *)

Example C55_ex : MarshalSign 128 (-1) = OK [48; 7; 2; 2; 0; 128; 2; 1; 255] /\
  UnmarshalSign [48; 7; 2; 2; 0; 128; 2; 1; 255] = OK (128, -1) /\
  UnmarshalSign [48; 9; 2; 2; 0; 128; 2; 1; 255; 66; 66; 1; 2; 3] = OK (128, -1) /\
  (exists e, UnmarshalSign [48; 7; 2; 2; 0; 127; 2; 1; 255] = ERR e).
Proof. split; [vm_compute; reflexivity|]. split; [vm_compute; reflexivity|]. split; [vm_compute; reflexivity|]. eexists. vm_compute. reflexivity. Qed.
Example C55_ex_hyps : der_integer 128 [2; 2; 0; 128].
Proof. exact (der_integer_of 128). Qed.

Example C44_der_ex : exists sig rest, Sign ex_priv None ex_msg ex_tape = Ret (OK sig, rest) /\ Verify (mkPub curveGx curveGy) None ex_msg sig = Ret true.
Proof.
  destruct C44_ex as (r & s & ES & _).
  destruct (C45_signature_equations ex_priv None ex_msg ex_tape r s [] ltac:(cbn [D ex_priv]; lia) I ex_msg_good ex_tape_bytes ES) as (k & _ & _ & R1 & R2).
  assert (Nn : curveN < 2 ^ 256) by (vm_compute; reflexivity).
  destruct (der_integer_exists r) as [er Hr]. destruct (der_integer_exists s) as [es Hs].
  pose proof (der_integer_small r er ltac:(lia) Hr). pose proof (der_integer_small s es ltac:(lia) Hs).
  assert (EM : MarshalSign r s = OK (tlv 48 (er ++ es))) by (apply C55_marshal_is_der; auto; rewrite zlen_app; lia).
  assert (E : Sign ex_priv None ex_msg ex_tape = Ret (OK (tlv 48 (er ++ es)), [])).
  { unfold Sign. rewrite ES. cbn [bind]. rewrite EM. reflexivity. }
  exists (tlv 48 (er ++ es)), []. split; [exact E|].
  apply (C44_sign_then_verify ex_priv (mkPub curveGx curveGy) None ex_msg ex_tape _ []).
  - cbn [D ex_priv]. lia.
  - exact I.
  - exact ex_msg_good.
  - exact ex_tape_bytes.
  - vm_compute. reflexivity.
  - exact E.
Qed.

Example C56_ex : MarshalCipher (9 :: repeat 0 31 ++ [128] ++ repeat 0 31 ++ [1] ++ [7] ++ repeat 1 32) 1 =
    Ret (OK (48 :: 44 :: [2; 2; 0; 128] ++ [2; 1; 1] ++ [4; 1; 7] ++ [4; 32] ++ repeat 1 32)) /\
  UnmarshalCipher (48 :: 44 :: [2; 2; 0; 128] ++ [2; 1; 1] ++ [4; 1; 7] ++ [4; 32] ++ repeat 1 32) 1 =
    Ret (OK (4 :: repeat 0 31 ++ [128] ++ repeat 0 31 ++ [1] ++ [7] ++ repeat 1 32)).
Proof. split; vm_compute; reflexivity. Qed.

Example C57_ex : cipher_der (48 :: 42 :: tlv 2 (1 :: repeat 0 32) ++ [2; 1; 251] ++ [4; 0] ++ [4; 0]) (2 ^ 256) (-5) [] [] /\
  UnmarshalCipher (48 :: 42 :: tlv 2 (1 :: repeat 0 32) ++ [2; 1; 251] ++ [4; 0] ++ [4; 0]) 2 = Panic PMake /\
  UnmarshalCipher (48 :: 10 :: [2; 1; 3] ++ [2; 1; 251] ++ [4; 0] ++ [4; 0]) 2 =
    Ret (OK (4 :: repeat 0 31 ++ [3] ++ repeat 0 31 ++ [5])).
Proof.
  split; [|split; vm_compute; reflexivity].
  exists (tlv 2 (1 :: repeat 0 32)), [2; 1; 251], [], []. split; [exact (der_integer_of (2 ^ 256))|].
  split; [exact (der_integer_of (-5))|]. split; [reflexivity|]. vm_compute. reflexivity.
Qed.
