(** Lemmas about the model of encoding/asn1. *)
From Coq Require Import ZArith List Lia Bool String.
From Verif Require Import GoBase BeMin CbString CbStringProofs CbBuilder CbBuilderProofs CbAsn1Proofs GoAsn1.
Import ListNotations.
Open Scope Z_scope.

(** * Headers *)

(** The identifier octet of a low tag (X.690 8.1.2.4). *)
Definition ident (class tag : Z) (comp : bool) : Z := class * 64 + (if comp then 32 else 0) + tag.

Definition small_header (class tag : Z) : Prop := 0 <= class < 4 /\ 0 <= tag < 31.

Lemma ident_byte : forall c t b, small_header c t -> byte (ident c t b).
Proof. intros c t b [H1 H2]. unfold byte, ident. destruct b; lia. Qed.

Definition ident_checks (c t : Z) (b : bool) : bool :=
  (Z.lor (let x := u8 (Z.shiftl c 6) in if b then Z.lor x 0x20 else x) (u8 t) =? ident c t b) &&
  (Z.shiftr (ident c t b) 6 =? c) && (Z.land (ident c t b) 0x1f =? t) &&
  Bool.eqb (Z.land (ident c t b) 0x20 =? 0x20) b.
Lemma ident_checks_ok : forall c t b, small_header c t -> ident_checks c t b = true.
Proof.
  assert (F : forallb (fun c => forallb (fun t => ident_checks (Z.of_nat c) (Z.of_nat t) true
              && ident_checks (Z.of_nat c) (Z.of_nat t) false) (seq 0 31)) (seq 0 4) = true)
    by (vm_compute; reflexivity).
  intros c t b [Hc Ht]. rewrite forallb_forall in F. specialize (F (Z.to_nat c)).
  assert (I : In (Z.to_nat c) (seq 0 4)) by (apply in_seq; lia). specialize (F I). clear I.
  rewrite forallb_forall in F. specialize (F (Z.to_nat t)).
  assert (I : In (Z.to_nat t) (seq 0 31)) by (apply in_seq; lia). specialize (F I).
  rewrite !Z2Nat.id in F by lia. apply andb_true_iff in F. destruct b; tauto.
Qed.

Lemma lengthBytes_enc : forall n i, lengthBytes n i = be_enc n i.
Proof.
  induction n as [|n IH]; intro i; [reflexivity|]. rewrite be_enc_head. cbn [lengthBytes]. rewrite IH. f_equal.
  unfold u8. rewrite Z.shiftr_div_pow2 by lia. f_equal. f_equal. rewrite Z.pow_mul_r by lia. reflexivity.
Qed.

Lemma lengthLength_spec : forall fuel i, 0 < i < 256 ^ (Z.of_nat fuel + 1) ->
  256 ^ (Z.of_nat (lengthLength fuel i) - 1) <= i < 256 ^ Z.of_nat (lengthLength fuel i) /\ (1 <= lengthLength fuel i)%nat.
Proof.
  induction fuel as [|fuel IH]; intros i H.
  - cbn [lengthLength]. change (256 ^ (Z.of_nat 0 + 1)) with 256 in H. cbn. lia.
  - cbn [lengthLength]. destruct (Z.ltb_spec 255 i) as [L|L]; [|cbn; lia].
    rewrite Nat2Z.inj_succ in *. rewrite Z.shiftr_div_pow2 by lia. change (2 ^ 8) with 256.
    assert (D : 0 < i / 256 < 256 ^ (Z.of_nat fuel + 1)).
    { split; [apply Z.div_str_pos; lia|]. apply Z.div_lt_upper_bound; [lia|].
      replace (Z.succ (Z.of_nat fuel) + 1) with (Z.succ (Z.of_nat fuel + 1)) in H by lia.
      rewrite Z.pow_succ_r in H by lia. lia. }
    destruct (IH _ D) as [[A B] C]. split; [|lia].
    set (k := Z.of_nat (lengthLength fuel (i / 256))) in *.
    rewrite Z.pow_succ_r by lia. replace (Z.succ k - 1) with (Z.succ (k - 1)) by lia.
    rewrite Z.pow_succ_r by lia.
    pose proof (Z.div_mod i 256 ltac:(lia)). pose proof (Z.mod_pos_bound i 256 ltac:(lia)). lia.
Qed.

Lemma length_be_min : forall i, 0 < i < 2 ^ 63 ->
  lengthBytes (lengthLength 8 i) i = be_min i /\ Z.of_nat (lengthLength 8 i) = zlen (be_min i) /\ zlen (be_min i) <= 8.
Proof.
  intros i H. destruct (lengthLength_spec 8 i) as [A B].
  { split; [lia|]. change (Z.of_nat 8 + 1) with 9. assert (2 ^ 63 < 256 ^ 9) by reflexivity. lia. }
  set (k := Z.of_nat (lengthLength 8 i)) in *.
  assert (L : zlen (be_min i) = k - 1 + 1).
  { apply (zlen_be_min_iff i (k - 1)); [lia|]. replace (k - 1 + 1) with k by lia. exact A. }
  split; [|split; [lia|]].
  - rewrite lengthBytes_enc, (be_min_pos i) by lia. f_equal.
    rewrite zlen_be_min in L by lia. unfold k in L. lia.
  - apply be_min_len_le; [|lia]. assert (2 ^ 63 < 256 ^ 8) by reflexivity. lia.
Qed.

Lemma header_bytes : forall c t n b, small_header c t -> 0 <= n < 2 ^ 63 ->
  appendTagAndLength (mkTL c t n b) = ident c t b :: der_len n.
Proof.
  intros c t n b HS Hn. pose proof (ident_checks_ok c t b HS) as F. unfold ident_checks in F.
  rewrite !andb_true_iff in F. destruct F as [[[F _] _] _]. apply Z.eqb_eq in F.
  unfold appendTagAndLength. cbn [tl_class tl_tag tl_comp tl_length].
  destruct HS as [Hc Ht]. destruct (Z.leb_spec 31 t); [lia|]. cbv zeta in F |- *. rewrite F. cbn [app]. f_equal.
  unfold der_len. destruct (Z.leb_spec 128 n) as [L|L].
  - destruct (Z.ltb_spec n 128); [lia|]. destruct (length_be_min n ltac:(lia)) as (E1 & E2 & E3).
    rewrite E1, E2. f_equal. pose proof (zlen_nonneg _ (be_min n)).
    change 128 with (1 * 2 ^ 7). rewrite lor_disjoint_add by lia. reflexivity.
  - destruct (Z.ltb_spec n 128); [|lia]. reflexivity.
Qed.

Lemma tagged_tlv : forall c t b body, small_header c t -> zlen body < 2 ^ 63 ->
  tagged c t b body = tlv (ident c t b) body.
Proof.
  intros c t b body HS Hn. unfold tagged. pose proof (zlen_nonneg _ body).
  rewrite header_bytes by (auto; lia). reflexivity.
Qed.

(** Reading the length octets. *)
Lemma lengthLoop_ok : forall l acc r, bytes l -> 0 <= acc -> (acc = 0 -> hd 0 l <> 0 \/ l = []) ->
  acc * 256 ^ zlen l + be_dec l < 2 ^ 31 ->
  lengthLoop (List.length l) (l ++ r) acc = OK (acc * 256 ^ zlen l + be_dec l, r).
Proof.
  induction l as [|b l IH]; intros acc r HB Ha H0 HL.
  - cbn [List.length app lengthLoop]. do 2 f_equal. change (zlen (@nil Z)) with 0. change (be_dec []) with 0. lia.
  - apply bytes_cons in HB. destruct HB as [Hb HB]. rewrite be_dec_cons, zlen_cons in *.
    pose proof (zlen_nonneg _ l) as N. rewrite Z.pow_add_r in * by lia. change (256 ^ 1) with 256 in *.
    assert (P : 0 < 256 ^ zlen l) by (apply Z.pow_pos_nonneg; lia).
    pose proof (be_dec_bound l HB) as D. unfold byte in Hb.
    cbn [List.length app lengthLoop]. destruct (Z.leb_spec (2 ^ 23) acc) as [L|L]; [nia|].
    rewrite Z.shiftl_mul_pow2 by lia. change (2 ^ 8) with 256. rewrite lor_low by (unfold byte; lia). cbv zeta.
    destruct (Z.eqb_spec (acc * 256 + b) 0) as [E|E].
    + exfalso. assert (acc = 0) by lia. specialize (H0 H). cbn [hd] in H0. destruct H0 as [H0|H0]; [lia|discriminate].
    + rewrite IH; [do 2 f_equal; lia|exact HB|lia|lia|lia].
Qed.

Lemma parse_header : forall c t n b r, small_header c t -> 0 <= n < 2 ^ 31 ->
  parseTagAndLength (ident c t b :: der_len n ++ r) = OK (mkTL c t n b, r).
Proof.
  intros c t n b r HS Hn. pose proof (ident_checks_ok c t b HS) as F. unfold ident_checks in F.
  rewrite !andb_true_iff in F. destruct F as [[[_ F1] F2] F3].
  apply Z.eqb_eq in F1. apply Z.eqb_eq in F2. apply Bool.eqb_prop in F3.
  unfold parseTagAndLength. cbv zeta. rewrite F1, F2, F3.
  destruct HS as [Hc Ht]. destruct (Z.eqb_spec t 31); [lia|]. cbn [rbind].
  destruct (Z.ltb_spec n 128) as [L|L].
  - rewrite der_len_short by exact L. cbn [app]. rewrite land_80 by (unfold byte; lia).
    destruct (Z.ltb_spec n 128); [|lia]. cbn [Z.eqb]. rewrite land_7f, Z.mod_small by lia. reflexivity.
  - rewrite der_len_long by exact L. cbn [app]. set (k := zlen (be_min n)).
    assert (K : 1 <= k <= 4).
    { split; [apply be_min_zlen_ge1; lia|apply be_min_len_le; [change (256 ^ 4) with (2 ^ 32); lia|lia]]. }
    rewrite land_80 by (unfold byte; lia). destruct (Z.ltb_spec (128 + k) 128); [lia|]. cbn [Z.eqb].
    rewrite land_7f. replace ((128 + k) mod 128) with k by (replace (128 + k) with (k + 1 * 128) by lia; rewrite Z_mod_plus_full, Z.mod_small; lia).
    destruct (Z.eqb_spec k 0); [lia|].
    replace (Z.to_nat k) with (List.length (be_min n)) by (unfold k, zlen; lia).
    rewrite lengthLoop_ok.
    + rewrite be_dec_min by lia. cbn [rbind]. rewrite Z.mul_0_l, Z.add_0_l.
      destruct (Z.ltb_spec n 128); [lia|]. reflexivity.
    + apply be_min_bytes.
    + lia.
    + intros _. left. destruct (be_min_cons n ltac:(lia)) as (x & y & -> & Hx & _). cbn [hd]. lia.
    + rewrite be_dec_min by lia. lia.
Qed.

(** Conversely, what parseTagAndLength accepts is a minimal header. *)
Lemma lengthLoop_inv : forall n l acc v r, bytes l -> 0 <= acc < 2 ^ 31 -> lengthLoop n l acc = OK (v, r) ->
  exists p, l = p ++ r /\ List.length p = n /\ v = acc * 256 ^ zlen p + be_dec p /\ v < 2 ^ 31 /\
            (acc = 0 -> forall b q, p = b :: q -> b <> 0).
Proof.
  induction n as [|n IH]; intros l acc v r HB Ha H.
  - cbn [lengthLoop] in H. injection H as <- <-. exists []. repeat split; try (cbn; lia). intros _ b q E. discriminate E.
  - cbn [lengthLoop] in H. destruct l as [|b l]; [discriminate|].
    apply bytes_cons in HB. destruct HB as [Hb HB].
    destruct (Z.leb_spec (2 ^ 23) acc) as [L|L]; [discriminate|].
    rewrite Z.shiftl_mul_pow2 in H by lia. change (2 ^ 8) with 256 in H. rewrite lor_low in H by exact Hb. cbv zeta in H.
    unfold byte in Hb. destruct (Z.eqb_spec (acc * 256 + b) 0) as [E|E]; [discriminate|].
    apply IH in H; [|exact HB|lia]. destruct H as (p & -> & Hn & Hv & Hlt & H0).
    exists (b :: p). split; [reflexivity|]. split; [cbn; lia|].
    pose proof (zlen_nonneg _ p). rewrite be_dec_cons, zlen_cons, Z.pow_add_r by lia. change (256 ^ 1) with 256.
    split; [rewrite Hv; lia|]. split; [exact Hlt|]. intros E0 b' q Eq. injection Eq as <- <-. lia.
Qed.

Lemma ident_of_byte : forall b, byte b -> Z.land b 0x1f <> 0x1f ->
  small_header (Z.shiftr b 6) (Z.land b 0x1f) /\ ident (Z.shiftr b 6) (Z.land b 0x1f) (Z.land b 0x20 =? 0x20) = b.
Proof.
  assert (F : forallb (fun n => let b := Z.of_nat n in
     (Z.land b 0x1f =? 0x1f) ||
     ((0 <=? Z.shiftr b 6) && (Z.shiftr b 6 <? 4) && (0 <=? Z.land b 0x1f) && (Z.land b 0x1f <? 31) &&
      (ident (Z.shiftr b 6) (Z.land b 0x1f) (Z.land b 0x20 =? 0x20) =? b))) (seq 0 256) = true) by (vm_compute; reflexivity).
  intros b Hb N. unfold byte in Hb. rewrite forallb_forall in F. specialize (F (Z.to_nat b)).
  assert (I : In (Z.to_nat b) (seq 0 256)) by (apply in_seq; lia). specialize (F I). cbv zeta in F.
  rewrite Z2Nat.id in F by lia. apply orb_true_iff in F. destruct F as [F|F]; [apply Z.eqb_eq in F; contradiction|].
  rewrite !andb_true_iff, !Z.leb_le, !Z.ltb_lt, Z.eqb_eq in F. unfold small_header. intuition lia.
Qed.

(** A byte string that starts with a minimal header with a low tag. *)
Lemma parse_header_inv : forall l t r, bytes l -> parseTagAndLength l = OK (t, r) ->
  (tl_tag t < 31 -> l = ident (tl_class t) (tl_tag t) (tl_comp t) :: der_len (tl_length t) ++ r /\
                    small_header (tl_class t) (tl_tag t)) /\
  0 <= tl_length t < 2 ^ 31 /\ (exists h, l = h ++ r /\ 2 <= zlen h).
Proof.
  intros l t r HB H. unfold parseTagAndLength in H. destruct l as [|b l]; [discriminate|].
  apply bytes_cons in HB. destruct HB as [Hb HB]. cbv zeta in H.
  set (T := if Z.land b 31 =? 31 then _ else _) in H.
  assert (HT : forall tag l', T = OK (tag, l') ->
    (exists h, l = h ++ l') /\ bytes l' /\ (tag < 31 -> l' = l /\ tag = Z.land b 31 /\ Z.land b 31 <> 31)).
  { intros tag l' E. unfold T in E. destruct (Z.eqb_spec (Z.land b 31) 31) as [E31|E31].
    - assert (S : forall l s a tag l', bytes l -> base128Loop l s a = OK (tag, l') -> (exists h, l = h ++ l') /\ bytes l').
      { clear. induction l as [|x l IH]; intros s a tag l' HB H; [discriminate|]. cbn [base128Loop] in H.
        apply bytes_cons in HB. destruct HB as [Hx HB].
        destruct (s =? 5); [discriminate|]. cbv zeta in H. destruct (Z.land x 128 =? 0).
        - destruct (_ <? _) in H; [discriminate|]. injection H as <- <-. split; [exists [x]; reflexivity|exact HB].
        - apply IH in H; [|exact HB]. destruct H as [[h ->] H]. split; [exists (x :: h); reflexivity|exact H]. }
      destruct (parseBase128Int l) as [[tg l2]|e] eqn:E2; [|discriminate]. cbn [rbind] in E.
      destruct (Z.ltb_spec tg 31) as [L|L]; [discriminate|]. injection E as <- <-.
      destruct (S _ _ _ _ _ HB E2) as [H1 H2]. split; [exact H1|]. split; [exact H2|]. intro; lia.
    - injection E as <- <-. split; [exists []; reflexivity|]. split; [exact HB|]. intros _. tauto. }
  destruct T as [[tag l']|e] eqn:ET; [|discriminate]. clear ET T. cbn [rbind] in H.
  destruct (HT tag l' eq_refl) as ([h Eh] & HB' & LOW). clear HT.
  destruct l' as [|b2 l2]; [discriminate|]. apply bytes_cons in HB'. destruct HB' as [Hb2 HB2].
  pose proof (land_80 b2 Hb2) as L80. unfold byte in Hb2.
  destruct (Z.ltb_spec b2 128) as [L|L]; rewrite L80 in H; cbn [Z.eqb] in H.
  - injection H as <- <-. cbn [tl_class tl_tag tl_length tl_comp]. rewrite land_7f, Z.mod_small by lia.
    split; [|split; [lia|]].
    + intro LT. destruct (LOW LT) as (E1 & E2 & E3). rewrite E2. destruct (ident_of_byte b Hb E3) as [S I].
      split; [|exact S]. rewrite I, der_len_short by exact L. rewrite <- E1. reflexivity.
    + exists (b :: h ++ [b2]). split; [cbn [app]; rewrite <- app_assoc, Eh; reflexivity|].
      rewrite zlen_cons, zlen_app, zlen_cons, zlen_nil. pose proof (zlen_nonneg _ h). lia.
  - destruct (Z.eqb_spec (Z.land b2 127) 0) as [|N0]; [discriminate|]. rewrite land_7f in *.
    destruct (lengthLoop (Z.to_nat (b2 mod 128)) l2 0) as [[len l3]|e] eqn:EL; [|discriminate]. cbn [rbind] in H.
    destruct (Z.ltb_spec len 128) as [|GE]; [discriminate|]. injection H as <- <-.
    cbn [tl_class tl_tag tl_length tl_comp].
    apply lengthLoop_inv in EL; [|exact HB2|lia]. destruct EL as (p & -> & Hn & Hv & Hlt & H0).
    rewrite Z.mul_0_l, Z.add_0_l in Hv.
    split; [|split; [lia|]].
    + intro LT. destruct (LOW LT) as (E1 & E2 & E3). rewrite E2. destruct (ident_of_byte b Hb E3) as [S I].
      split; [|exact S]. rewrite I, der_len_long by exact GE.
      apply bytes_app in HB2. assert (EP : be_min len = p).
      { rewrite Hv. apply be_min_unique; [tauto|exact (H0 eq_refl)]. }
      rewrite EP. cbn [app]. rewrite <- E1. f_equal. f_equal.
      pose proof (Z.mod_eq b2 128 ltac:(lia)). assert (b2 / 128 = 1) by (symmetry; apply (Z.div_unique b2 128 1 (b2 - 128)); lia).
      unfold zlen. lia.
    + exists (b :: h ++ b2 :: p). split; [cbn [app]; rewrite <- app_assoc, Eh; reflexivity|].
      rewrite zlen_cons, zlen_app, zlen_cons. pose proof (zlen_nonneg _ h). pose proof (zlen_nonneg _ p). lia.
Qed.

(** * Fields *)

Lemma sub_all_prefix : forall A (a b : list A), sub (a ++ b) 0 (zlen (a ++ b) - zlen b) = a.
Proof. intros. rewrite zlen_app. replace (zlen a + zlen b - zlen b) with (zlen a) by lia. apply sub_app_l. reflexivity. Qed.

Lemma tlv_parse : forall c t b body r, small_header c t -> zlen body < 2 ^ 31 ->
  parseTagAndLength (tlv (ident c t b) body ++ r) = OK (mkTL c t (zlen body) b, body ++ r).
Proof.
  intros. unfold tlv. cbn [app]. rewrite <- app_assoc. pose proof (zlen_nonneg _ body).
  apply parse_header; [assumption|lia].
Qed.

(** An untagged field whose element is there. *)
Lemma field_tlv : forall A (u : uty A) absent p c t b body r,
  small_header c t -> zlen body < 2 ^ 31 -> fp_explicit p = false ->
  (u_any u = true \/ b = u_comp u) ->
  match fp_tag p with
  | Some n => c = 2 /\ t = n
  | None => u_any u = true \/ (c = 0 /\ t = if fp_set p then TagSet else u_tag u (mkTL c t (zlen body) b))
  end ->
  parseField u absent p (tlv (ident c t b) body ++ r) =
  rbind (u_body u (if fp_set p then TagSet else u_tag u (mkTL c t (zlen body) b)) (mkTL c t (zlen body) b)
                (tlv (ident c t b) body) body)
        (fun v => OK (v, r)).
Proof.
  intros A u absent p c t b body r HS HL HX HC HT. unfold parseField.
  destruct (tlv (ident c t b) body ++ r) as [|x y] eqn:E; [discriminate|]. rewrite <- E.
  rewrite tlv_parse by assumption. rewrite HX. cbn [rbind]. cbn [tl_class tl_tag tl_length tl_comp].
  set (utag := if fp_set p then TagSet else _).
  assert (C : negb (u_any u) && negb (Bool.eqb b (u_comp u)) = false).
  { destruct HC as [-> | ->]; [reflexivity|]. rewrite eqb_reflx. apply andb_false_r. }
  assert (M : (let '(anyTag, eclass, etag) :=
     match fp_tag p with Some n => (false, 2, n) | None => (u_any u, 0, utag) end in
     negb anyTag && (negb (c =? eclass) || negb (t =? etag)) || negb (u_any u) && negb (Bool.eqb b (u_comp u))) = false).
  { destruct (fp_tag p) as [n|].
    - destruct HT as [-> ->]. rewrite C, !Z.eqb_refl. reflexivity.
    - rewrite C. destruct HT as [->|[E1 E2]]; [reflexivity|].
      destruct (Z.eqb_spec c 0); [|lia]. destruct (Z.eqb_spec t utag); [|contradiction].
      cbn [negb orb andb]. rewrite andb_false_r. reflexivity. }
  assert (L : zlen (body ++ r) <? zlen body = false).
  { rewrite zlen_app. pose proof (zlen_nonneg _ r). apply Z.ltb_ge. lia. }
  destruct (fp_tag p) as [n|].
  - rewrite M, L. rewrite (sub_app_l _ body r _ eq_refl), (sub_app_r _ body r _ _ eq_refl (zlen_app _ body r)), sub_all_prefix. reflexivity.
  - rewrite M, L. rewrite (sub_app_l _ body r _ eq_refl), (sub_app_r _ body r _ _ eq_refl (zlen_app _ body r)), sub_all_prefix. reflexivity.
Qed.

(** A field with an explicit tag. *)
Lemma field_explicit : forall A (u : uty A) absent p n t b body r,
  small_header 2 n -> small_header 0 t -> zlen (tlv (ident 0 t b) body) < 2 ^ 31 ->
  fp_explicit p = true -> fp_tag p = Some n -> fp_set p = false -> u_any u = false -> b = u_comp u ->
  t = u_tag u (mkTL 0 t (zlen body) b) ->
  parseField u absent p (tlv (ident 2 n true) (tlv (ident 0 t b) body) ++ r) =
  rbind (u_body u t (mkTL 0 t (zlen body) b) (tlv (ident 2 n true) (tlv (ident 0 t b) body)) body)
        (fun v => OK (v, r)).
Proof.
  intros A u absent p n t b body r HS HS2 HL HX HT HSet HA HC HU. unfold parseField.
  destruct (tlv (ident 2 n true) (tlv (ident 0 t b) body) ++ r) as [|x y] eqn:E; [discriminate|]. rewrite <- E. clear E x y.
  rewrite tlv_parse by assumption. rewrite HX, HT, HSet, HA. cbn [rbind tl_class tl_tag tl_length tl_comp].
  destruct (tlv (ident 0 t b) body ++ r) as [|x y] eqn:E; [discriminate|]. rewrite <- E. clear E x y.
  rewrite !Z.eqb_refl, orb_true_r. cbn [andb].
  assert (P : 0 < zlen (tlv (ident 0 t b) body)).
  { rewrite zlen_tlv. pose proof (zlen_der_len_pos (zlen body)). pose proof (zlen_nonneg _ body). lia. }
  destruct (Z.ltb_spec 0 (zlen (tlv (ident 0 t b) body))); [|lia].
  assert (LB : zlen body < 2 ^ 31).
  { rewrite zlen_tlv in HL. pose proof (zlen_der_len_pos (zlen body)). lia. }
  rewrite tlv_parse by assumption. cbn [rbind tl_class tl_tag tl_length tl_comp].
  rewrite <- HU. rewrite !Z.eqb_refl. replace (Bool.eqb b (u_comp u)) with true by (rewrite HC; symmetry; apply eqb_reflx). cbn [negb orb andb].
  assert (L : zlen (body ++ r) <? zlen body = false).
  { rewrite zlen_app. pose proof (zlen_nonneg _ r). apply Z.ltb_ge. lia. }
  rewrite L. rewrite (sub_app_l _ body r _ eq_refl), (sub_app_r _ body r _ _ eq_refl (zlen_app _ body r)), sub_all_prefix. reflexivity.
Qed.

(** An optional field whose element is not there: the next element has another identifier. *)
Lemma field_absent : forall A (u : uty A) absent p c t b body r,
  small_header c t -> zlen body < 2 ^ 31 -> fp_optional p = true -> fp_set p = false -> u_any u = false ->
  match fp_tag p with
  | Some n => c <> 2 \/ t <> n
  | None => c <> 0 \/ t <> u_tag u (mkTL c t (zlen body) b)
  end -> (fp_explicit p = true -> fp_tag p <> None /\ body ++ r <> []) ->
  parseField u absent p (tlv (ident c t b) body ++ r) = OK (absent, tlv (ident c t b) body ++ r).
Proof.
  intros A u absent p c t b body r HS HL HO HSet HA HT HX. unfold parseField.
  destruct (tlv (ident c t b) body ++ r) as [|x y] eqn:E; [discriminate|]. rewrite <- E. clear E x y.
  rewrite tlv_parse by assumption. rewrite HO, HSet, HA. cbn [rbind tl_class tl_tag tl_length tl_comp].
  destruct (fp_explicit p).
  - destruct (HX eq_refl) as [NT NR]. destruct (fp_tag p) as [n|]; [|contradiction].
    destruct (body ++ r) as [|x y]; [contradiction|].
    assert (M : (c =? 2) && (t =? n) = false).
    { destruct (Z.eqb_spec c 2), (Z.eqb_spec t n); try reflexivity. intuition. }
    rewrite M. reflexivity.
  - cbn [rbind]. destruct (fp_tag p) as [n|]; cbn [negb andb tl_class tl_tag tl_length tl_comp].
    + assert (M : negb (c =? 2) || negb (t =? n) = true).
      { destruct (Z.eqb_spec c 2), (Z.eqb_spec t n); try reflexivity. intuition. }
      rewrite M. reflexivity.
    + set (ut := u_tag u _) in *. assert (M : negb (c =? 0) || negb (t =? ut) = true).
      { destruct (Z.eqb_spec c 0), (Z.eqb_spec t ut); try reflexivity. intuition. }
      rewrite M. reflexivity.
Qed.

Lemma field_end : forall A (u : uty A) absent p, fp_optional p = true -> parseField u absent p [] = OK (absent, []).
Proof. intros. unfold parseField. rewrite H. reflexivity. Qed.

(** What a field without parameters and with a fixed tag accepts. *)
Lemma field_inv : forall A (u : uty A) absent t comp l v r, bytes l -> u_any u = false ->
  (forall h, u_tag u h = t) -> t < 31 -> u_comp u = comp ->
  parseField u absent noParams l = OK (v, r) ->
  exists body, l = tlv (ident 0 t comp) body ++ r /\ small_header 0 t /\ zlen body < 2 ^ 31 /\
    u_body u t (mkTL 0 t (zlen body) comp) (tlv (ident 0 t comp) body) body = OK v.
Proof.
  intros A u absent t comp l v r HB HA HT LT HC H. unfold parseField in H.
  destruct l as [|x y] eqn:E; [discriminate|]. rewrite <- E in *. clear E x y.
  cbn [noParams fp_optional fp_tag fp_explicit fp_set] in H.
  destruct (parseTagAndLength l) as [[h q]|e] eqn:EP; [|discriminate]. cbn [rbind] in H.
  rewrite HT, HA, HC in H. cbn [negb andb] in H.
  destruct ((negb (tl_class h =? 0) || negb (tl_tag h =? t)) || negb (Bool.eqb (tl_comp h) comp)) eqn:M; [discriminate|].
  apply orb_false_iff in M. destruct M as [M1 M3]. apply orb_false_iff in M1. destruct M1 as [M1 M2].
  apply negb_false_iff in M1, M2, M3. apply Z.eqb_eq in M1, M2. apply Bool.eqb_prop in M3.
  destruct (Z.ltb_spec (zlen q) (tl_length h)) as [|L]; [discriminate|].
  destruct (parse_header_inv l h q HB EP) as (P1 & P2 & _).
  destruct (P1 ltac:(lia)) as [El HS]. rewrite M1, M2, M3 in *.
  destruct h as [hc ht hn hcomp]. cbn [tl_class tl_tag tl_length tl_comp] in *. subst hc ht hcomp.
  destruct (split_at _ q hn ltac:(lia)) as (body & rest & -> & Hb).
  rewrite sub_app_l in H by auto. rewrite (zlen_app _ body rest), sub_app_r in H by lia.
  subst hn. assert (El2 : l = tlv (ident 0 t comp) body ++ rest).
  { rewrite El. unfold tlv. cbn [app]. rewrite <- app_assoc. reflexivity. }
  rewrite El2 in H. rewrite sub_all_prefix in H.
  destruct (u_body u t _ _ body) as [v'|e] eqn:EB; [|discriminate]. cbn [rbind] in H. injection H as <- <-.
  exists body. repeat split; auto; try lia; apply HS.
Qed.

(** * Values *)

Lemma makeBigInt_der : forall n, int_der n (makeBigInt n).
Proof.
  intro n. destruct (Z.eq_dec n (-1)) as [->|N].
  { change (makeBigInt (-1)) with (be_enc (Z.to_nat 1) (-1)).
    apply int_der_enc; [lia|unfold fits; cbn; lia|left; reflexivity]. }
  destruct (big_sers n N) as (_ & c & Hc & HD). replace (makeBigInt n) with c; [exact HD|].
  enough (E : sers (big_items n) = Some (makeBigInt n)) by congruence. clear Hc HD.
  unfold big_items, makeBigInt. destruct (Z.ltb_spec n 0) as [L|L].
  - destruct (be_min_cons (- n - 1) ltac:(lia)) as (b & r & E & _ & _). rewrite E. cbv zeta. cbn [map hd].
    destruct (Z.land (Z.lxor b 255) 128 =? 0); cbn [app sers ser]; rewrite app_nil_r; reflexivity.
  - destruct (Z.eqb_spec n 0); [reflexivity|].
    destruct (be_min_cons n ltac:(lia)) as (b & r & E & _ & _). rewrite E. cbv zeta. cbn [hd].
    destruct (negb (Z.land b 128 =? 0)); cbn [app sers ser]; rewrite app_nil_r; reflexivity.
Qed.

Lemma parseBigInt_iff : forall c v, bytes c -> (parseBigInt c = OK v <-> int_der v c).
Proof.
  intros c v HB. destruct c as [|b0 c].
  - split; [discriminate|]. intros (_ & N & _). contradiction.
  - unfold parseBigInt. assert (TC : (if Z.land b0 128 =? 128 then - (be_dec (map (fun b => 255 - b) (b0 :: c)) + 1) else be_dec (b0 :: c)) = tc_val (b0 :: c)).
    { unfold tc_val. cbn [hd]. pose proof HB as HB'. apply bytes_cons in HB'. destruct HB' as [Hb0 _].
      rewrite land_80_eq by exact Hb0. destruct (128 <=? b0); [rewrite flip_be by exact HB; lia|lia]. }
    pose proof (check_int_der (b0 :: c) HB ltac:(discriminate)) as CI.
    destruct (checkASN1Integer (b0 :: c)) eqn:C; cbn [negb].
    + replace (if Z.land b0 128 =? 128 then OK _ else OK _) with (OK (tc_val (b0 :: c))) by (rewrite <- TC; destruct (Z.land b0 128 =? 128); reflexivity).
      split; intro H.
      * injection H as <-. apply CI. reflexivity.
      * f_equal. apply int_der_check in H. tauto.
    + split; [discriminate|]. intro H. apply int_der_check in H. destruct H. congruence.
Qed.

Lemma int64Bytes_der : forall v, - 2 ^ 63 <= v < 2 ^ 63 -> int_der v (int64Bytes v).
Proof.
  intros v H. unfold int64Bytes. rewrite lengthBytes_enc. apply octets_enc. apply signedLen_octets.
  apply (fits_mono 8); [cbn; lia|]. unfold fits. cbn. lia.
Qed.

Lemma parseInt64_iff : forall c v, bytes c -> (parseInt64 c = OK v <-> int_der v c /\ - 2 ^ 63 <= v < 2 ^ 63).
Proof.
  intros c v HB. destruct c as [|b0 c].
  - split; [discriminate|]. intros [(_ & N & _) _]. contradiction.
  - unfold parseInt64. pose proof (check_int_der (b0 :: c) HB ltac:(discriminate)) as CI.
    rewrite asn1Signed_val by (auto; discriminate).
    destruct (checkASN1Integer (b0 :: c)) eqn:C; cbn [negb].
    + assert (D : int_der (tc_val (b0 :: c)) (b0 :: c)) by (apply CI; reflexivity).
      pose proof (int_der_octets _ _ D) as O.
      destruct (Z.ltb_spec 8 (zlen (b0 :: c))) as [L|L].
      * split; [discriminate|]. intros [H R]. exfalso. pose proof (int_der_octets _ _ H) as O2.
        assert (F8 : fits 8 v) by (unfold fits; cbn; lia).
        pose proof (octets_le v _ 8 O2 ltac:(lia) F8). lia.
      * split; intro H.
        -- injection H as <-. split; [exact D|]. destruct O as (O1 & O2 & _).
           pose proof (fits_mono (zlen (b0 :: c)) 8 _ (conj O1 L) O2) as F. unfold fits in F. change (2 ^ (8 * 8 - 1)) with (2 ^ 63) in F. lia.
        -- f_equal. destruct H as [H _]. apply int_der_check in H. tauto.
    + split; [discriminate|]. intros [H _]. apply int_der_check in H. destruct H. congruence.
Qed.

Lemma base128Bytes_octs : forall k n, base128Bytes k n = octs k n.
Proof.
  induction k as [|k IH]; intro n; [reflexivity|]. cbn [base128Bytes octs]. rewrite IH. f_equal.
  rewrite land_7f, Z.shiftr_div_pow2 by lia.
  replace (2 ^ (7 * Z.of_nat k)) with (128 ^ Z.of_nat k) by (rewrite Z.pow_mul_r by lia; reflexivity).
  pose proof (Z.mod_pos_bound (n / 128 ^ Z.of_nat k) 128 ltac:(lia)).
  destruct (Nat.eqb k 0); [lia|]. apply lor_80. assumption.
Qed.
Lemma appendBase128Int_group : forall n, appendBase128Int n = group n.
Proof. intro n. apply base128Bytes_octs. Qed.

Lemma base128Loop_ok : forall k n rest i ret, i + Z.of_nat k <= 4 -> 0 <= i -> 0 <= ret < 128 ^ i ->
  ret * 128 ^ Z.of_nat (S k) + n mod 128 ^ Z.of_nat (S k) < 2 ^ 31 ->
  base128Loop (octs (S k) n ++ rest) i ret
  = OK (ret * 128 ^ Z.of_nat (S k) + n mod 128 ^ Z.of_nat (S k), rest).
Proof.
  induction k as [|k IH]; intros n rest i ret Hi Hi0 Hr HV.
  - cbn [octs app base128Loop Nat.eqb]. change (128 ^ Z.of_nat 0) with 1. change (128 ^ Z.of_nat 1) with 128 in *.
    rewrite Z.div_1_r, Z.add_0_r. destruct (Z.eqb_spec i 5); [lia|].
    pose proof (Z.mod_pos_bound n 128 ltac:(lia)) as M.
    rewrite land_7f, Zmod_mod. rewrite land_80 by (unfold byte; lia).
    destruct (Z.ltb_spec (n mod 128) 128); [|lia]. cbn [Z.eqb]. rewrite Z.shiftl_mul_pow2 by lia.
    cbv zeta. rewrite lor_disjoint_add by lia. change (2 ^ 7) with 128.
    destruct (Z.ltb_spec (2 ^ 31 - 1) (ret * 128 + n mod 128)); [lia|reflexivity].
  - change (octs (S (S k)) n) with (((n / 128 ^ Z.of_nat (S k)) mod 128 + 128) :: octs (S k) n).
    cbn [app base128Loop]. destruct (Z.eqb_spec i 5); [lia|].
    set (d := (n / 128 ^ Z.of_nat (S k)) mod 128).
    assert (M : 0 <= d < 128) by (apply Z.mod_pos_bound; lia).
    rewrite land_7f. replace ((d + 128) mod 128) with d by (rewrite <- (Z.mul_1_l 128) at 1; rewrite Z_mod_plus_full, Z.mod_small; lia).
    rewrite land_80 by (unfold byte; lia).
    destruct (Z.ltb_spec (d + 128) 128); [lia|]. cbn [Z.eqb]. rewrite Z.shiftl_mul_pow2 by lia.
    cbv zeta. rewrite lor_disjoint_add by lia. change (2 ^ 7) with 128.
    rewrite (Nat2Z.inj_succ (S k)), Z.pow_succ_r in HV by lia.
    set (P := 128 ^ Z.of_nat (S k)) in *. assert (0 < P) by (apply Z.pow_pos_nonneg; lia).
    rewrite (Z.mul_comm 128 P), (Z.rem_mul_r n P 128) in HV by lia. fold d in HV.
    rewrite IH; [|lia|lia|rewrite Z.pow_add_r by lia; change (128 ^ 1) with 128; lia|fold P; lia].
    fold P. do 2 f_equal. rewrite (Nat2Z.inj_succ (S k)), Z.pow_succ_r by lia. fold P.
    rewrite (Z.mul_comm 128 P). rewrite (Z.rem_mul_r n P 128) by lia. fold d. lia.
Qed.

Lemma group_31 : forall n, 0 <= n < 2 ^ 31 -> exists k, group n = octs (S k) n /\ (k <= 4)%nat /\ n < 128 ^ Z.of_nat (S k).
Proof.
  intros n H. unfold group. destruct (Z.eqb_spec n 0) as [->|N].
  - exists 0%nat. split; [reflexivity|]. split; [lia|cbn; lia].
  - pose proof (base128Len_low 10 n ltac:(lia) ltac:(lia)) as L.
    pose proof (base128Len_le 10 n 5 ltac:(cbn; lia)) as U.
    pose proof (base128Len_bound 10 n ltac:(cbn; lia)) as B.
    destruct (base128Len 10 n) as [|k]; [lia|]. exists k. split; [reflexivity|]. split; [lia|exact B].
Qed.

Lemma parse_group : forall n rest, 0 <= n < 2 ^ 31 -> parseBase128Int (group n ++ rest) = OK (n, rest).
Proof.
  intros n rest H. destruct (group_31 n H) as (k & -> & Hk & B). unfold parseBase128Int.
  assert (n mod 128 ^ Z.of_nat (S k) = n) by (apply Z.mod_small; lia).
  rewrite base128Loop_ok by (cbn; lia). rewrite Z.mul_0_l, Z.add_0_l. rewrite H0. reflexivity.
Qed.

(** Object identifiers. *)
Definition oid_ok (oid : list Z) : Prop :=
  match oid with
  | a :: b :: r => 0 <= a <= 2 /\ 0 <= b /\ (a < 2 -> b < 40) /\ a * 40 + b < 2 ^ 31 /\ Forall (fun x => 0 <= x < 2 ^ 31) r
  | _ => False
  end.
Definition oid_contents (oid : list Z) : list Z :=
  match oid with a :: b :: r => group (a * 40 + b) ++ List.concat (map group r) | _ => [] end.

Lemma makeOID_ok : forall oid, oid_ok oid -> makeObjectIdentifier oid = OK (oid_contents oid).
Proof.
  intros [|a [|b r]] H; try contradiction. destruct H as (H1 & H2 & H3 & H4 & H5).
  unfold makeObjectIdentifier, oid_contents. destruct (Z.ltb_spec 2 a); [lia|]. cbn [orb].
  assert (E : (a <? 2) && (40 <=? b) = false).
  { destruct (Z.ltb_spec a 2); [|reflexivity]. cbn [andb]. apply Z.leb_gt. lia. }
  rewrite E. assert (W : forall x, - 2 ^ 63 <= x < 2 ^ 63 -> i64 x = x) by (intros x Hx; unfold i64; rewrite Z.mod_small by lia; lia).
  rewrite (W (a * 40)), (W (a * 40 + b)) by lia. rewrite appendBase128Int_group. do 3 f_equal. apply map_ext. intro. apply appendBase128Int_group.
Qed.

Lemma oidRest_ok : forall r fuel, Forall (fun x => 0 <= x < 2 ^ 31) r -> (List.length (List.concat (map group r)) <= fuel)%nat ->
  oidRest fuel (List.concat (map group r)) = OK r.
Proof.
  induction r as [|x r IH]; intros fuel HF HL.
  - destruct fuel; reflexivity.
  - inversion HF as [|? ? Hx HF']; subst. cbn [map List.concat] in *.
    rewrite app_length in HL.
    assert (G : (1 <= List.length (group x))%nat) by (pose proof (group_len x ltac:(lia)) as G; unfold zlen in G; lia).
    destruct (group x ++ List.concat (map group r)) as [|y z] eqn:E.
    { destruct (group x); [cbn in G; lia|discriminate]. }
    destruct fuel as [|fuel]; [lia|]. cbn [oidRest]. rewrite <- E.
    rewrite parse_group by exact Hx. cbn [rbind]. rewrite IH; [reflexivity|exact HF'|lia].
Qed.

Lemma parseOID_ok : forall oid, oid_ok oid -> parseObjectIdentifier (oid_contents oid) = OK oid.
Proof.
  intros [|a [|b r]] H; try contradiction. destruct H as (H1 & H2 & H3 & H4 & H5).
  unfold parseObjectIdentifier, oid_contents. set (l := group (a * 40 + b) ++ List.concat (map group r)).
  destruct l as [|y z] eqn:E.
  { exfalso. unfold l in E. pose proof (group_len (a * 40 + b) ltac:(lia)) as G. destruct (group (a * 40 + b)); [cbn in G; lia|discriminate]. }
  rewrite <- E. unfold l. rewrite parse_group by lia. cbn [rbind].
  rewrite oidRest_ok by (auto; lia). cbn [rbind]. f_equal.
  destruct (Z.ltb_spec (a * 40 + b) 80) as [L|L].
  - assert (a < 2) by lia. specialize (H3 H).
    replace ((a * 40 + b) / 40) with a by (rewrite Z.div_add_l by lia; rewrite (Z.div_small b 40) by lia; lia).
    replace ((a * 40 + b) mod 40) with b by (rewrite Z.add_comm, Z_mod_plus_full, Z.mod_small; lia). reflexivity.
  - assert (a = 2) by lia. subst a. do 2 f_equal. lia.
Qed.

Lemma oid_contents_bytes : forall oid, bytes (oid_contents oid).
Proof.
  intros [|a [|b r]]; try apply bytes_nil. unfold oid_contents. apply bytes_app. split; [apply group_bytes|].
  induction r as [|x r IH]; [apply bytes_nil|]. cbn [map List.concat]. apply bytes_app. split; [apply group_bytes|exact IH].
Qed.
