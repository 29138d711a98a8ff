(** Lemmas about the model of cryptobyte's String. *)
From Coq Require Import ZArith List Lia Bool String.
From Verif Require Import GoBase BeMin CbString.
Import ListNotations.
Open Scope Z_scope.

(** * The DER grammar, independent of the model *)

(** The identifier octet [t] has a tag number below 31. *)
Definition low_tag (t : Z) : Prop := t mod 32 <> 31.

(** The DER (minimal) length octets of [n]. *)
Definition der_len (n : Z) : list Z :=
  if n <? 128 then [n] else 128 + zlen (be_min n) :: be_min n.

(** A DER element: identifier, minimal length, contents. *)
Definition tlv (t : Z) (c : list Z) : list Z := t :: der_len (zlen c) ++ c.

(** * Bit tests as arithmetic *)

Lemma land_7f : forall b, Z.land b 0x7f = b mod 128.
Proof. intros. change 0x7f with (Z.ones 7). rewrite Z.land_ones by lia. reflexivity. Qed.

Lemma land_1f : forall b, Z.land b 0x1f = b mod 32.
Proof. intros. change 0x1f with (Z.ones 5). rewrite Z.land_ones by lia. reflexivity. Qed.

Lemma land_80 : forall b, byte b -> Z.land b 0x80 = if b <? 128 then 0 else 128.
Proof.
  intros b H. unfold byte in H.
  assert (F : forallb (fun n => Z.land (Z.of_nat n) 0x80 =? if Z.of_nat n <? 128 then 0 else 128)
                      (seq 0 256) = true) by (vm_compute; reflexivity).
  rewrite forallb_forall in F. specialize (F (Z.to_nat b)).
  rewrite Z2Nat.id in F by lia. apply Z.eqb_eq, F, in_seq. lia.
Qed.

(** * read *)

Lemma read_short : forall s n, slen s < n -> read s n = Ret (None, s).
Proof. intros s n H. unfold read. destruct (Z.ltb_spec (slen s) n); [reflexivity|lia]. Qed.

Lemma read_nil : forall n, 0 <= n -> read None n = Ret (None, None).
Proof.
  intros n H. unfold read. destruct (Z.ltb_spec (slen None) n); [reflexivity|].
  destruct (Z.ltb_spec n 0); [lia|reflexivity].
Qed.

Lemma read_app : forall a b n, n = zlen a -> read (Some (a ++ b)) n = Ret (Some a, Some b).
Proof.
  intros a b n ->. unfold read, slen. cbn [contents]. rewrite zlen_app.
  pose proof (zlen_nonneg _ a). pose proof (zlen_nonneg _ b).
  destruct (Z.ltb_spec (zlen a + zlen b) (zlen a)); [lia|].
  destruct (Z.ltb_spec (zlen a) 0); [lia|].
  rewrite firstn_app_exact, skipn_app_exact by (unfold zlen; lia). reflexivity.
Qed.

Lemma read_all : forall a n, n = zlen a -> read (Some a) n = Ret (Some a, Some []).
Proof. intros. rewrite <- (app_nil_r a) at 1. apply read_app. auto. Qed.

Lemma read_neg : forall s n, n < 0 -> read s n = Panic PSlice.
Proof.
  intros s n H. unfold read. pose proof (zlen_nonneg _ (contents s)). unfold slen.
  destruct (Z.ltb_spec (zlen (contents s)) n); [lia|].
  destruct (Z.ltb_spec n 0); [reflexivity|lia].
Qed.

Lemma split_at : forall A (l : list A) n, 0 <= n <= zlen l -> exists a b, l = a ++ b /\ zlen a = n.
Proof.
  intros A l n H. exists (firstn (Z.to_nat n) l), (skipn (Z.to_nat n) l).
  rewrite firstn_skipn. split; [reflexivity|]. rewrite zlen_firstn; unfold zlen in *; lia.
Qed.

(** Every call of [read] with a non-negative count: three cases. *)
Lemma read_cases : forall s n, 0 <= n ->
  (read s n = Ret (None, s) /\ (slen s < n \/ s = None)) \/
  (exists a b, s = Some (a ++ b) /\ zlen a = n /\ read s n = Ret (Some a, Some b)).
Proof.
  intros [l|] n H.
  - destruct (Z_lt_le_dec (zlen l) n).
    + left. split; [apply read_short; auto|left; auto].
    + right. destruct (split_at _ l n ltac:(lia)) as (a & b & -> & E).
      exists a, b. split; [reflexivity|]. split; [auto|]. apply read_app. auto.
  - left. split; [apply read_nil; auto|right; reflexivity].
Qed.

Lemma app_inj_len : forall A (a b c d : list A), List.length a = List.length c ->
  a ++ b = c ++ d -> a = c /\ b = d.
Proof.
  induction a as [|x a IH]; intros b [|y c] d HL E; cbn in *; try discriminate; auto.
  injection E as -> E. apply IH in E; [|lia]. destruct E as [-> ->]. auto.
Qed.

(** * Unsigned accumulation *)

Lemma acc32_gen : forall l a, bytes l -> 0 <= a -> (a + 1) * 256 ^ zlen l <= 2 ^ 32 ->
  fold_left (fun r b => Z.lor (u32 (Z.shiftl r 8)) b) l a = a * 256 ^ zlen l + be_dec l.
Proof.
  induction l as [|b l IH]; intros a H Ha HB.
  - cbn. lia.
  - apply bytes_cons in H. destruct H as [Hb Hl]. unfold byte in Hb.
    rewrite zlen_cons in HB. pose proof (zlen_nonneg _ l) as N.
    rewrite Z.pow_add_r in HB by lia. change (256 ^ 1) with 256 in HB.
    pose proof (pow256_pos (zlen l) N) as P.
    cbn [fold_left]. rewrite be_dec_cons, zlen_cons, Z.pow_add_r by lia.
    change (256 ^ 1) with 256.
    assert (E : Z.lor (u32 (Z.shiftl a 8)) b = a * 256 + b).
    { unfold u32. rewrite Z.shiftl_mul_pow2 by lia. rewrite Z.mod_small by nia.
      rewrite lor_disjoint_add by lia. reflexivity. }
    rewrite E, IH; [ring|auto|lia|nia].
Qed.

Lemma acc32_be : forall l, bytes l -> zlen l <= 4 -> acc32 l = be_dec l.
Proof.
  intros l H HL. unfold acc32. rewrite acc32_gen; [ring|exact H|lia|].
  rewrite Z.mul_1_l. change (2 ^ 32) with (256 ^ 4). apply Z.pow_le_mono_r; lia.
Qed.

(** * ReadUintN *)

Lemma list1 : forall A (l : list A), zlen l = 1 -> exists a, l = [a].
Proof. intros A [|a [|b l]] H; rewrite ?zlen_cons in H; cbn in H; [lia|eauto|]. unfold zlen in H; lia. Qed.
Lemma list_cons : forall A (l : list A) n, zlen l = n + 1 -> 0 <= n ->
  exists a r, l = a :: r /\ zlen r = n.
Proof.
  intros A [|a l] n H Hn; [cbn in H; lia|]. rewrite zlen_cons in H. exists a, l. split; auto. lia.
Qed.

Lemma be2 : forall a b, byte a -> byte b -> Z.lor (u16 (Z.shiftl a 8)) b = be_dec [a; b].
Proof.
  intros a b Ha Hb. unfold byte in *. unfold u16. rewrite Z.shiftl_mul_pow2 by lia.
  rewrite Z.mod_small by (change (2 ^ 16) with (256 * 2 ^ 8); nia).
  rewrite lor_disjoint_add by lia. cbn. lia.
Qed.

Lemma u32_small : forall x, 0 <= x < 2 ^ 32 -> u32 x = x.
Proof. intros. apply Z.mod_small. auto. Qed.

Lemma be3 : forall a b c, byte a -> byte b -> byte c ->
  Z.lor (Z.lor (u32 (Z.shiftl a 16)) (u32 (Z.shiftl b 8))) c = be_dec [a; b; c].
Proof.
  intros a b c Ha Hb Hc. unfold byte in *. rewrite !Z.shiftl_mul_pow2 by lia.
  rewrite !u32_small by lia.
  rewrite lor_disjoint_add by lia.
  replace (a * 2 ^ 16 + b * 2 ^ 8) with ((a * 2 ^ 8 + b) * 2 ^ 8) by ring.
  rewrite lor_disjoint_add by lia. cbn. lia.
Qed.

Lemma be4 : forall a b c d, byte a -> byte b -> byte c -> byte d ->
  Z.lor (Z.lor (Z.lor (u32 (Z.shiftl a 24)) (u32 (Z.shiftl b 16))) (u32 (Z.shiftl c 8))) d
  = be_dec [a; b; c; d].
Proof.
  intros a b c d Ha Hb Hc Hd. unfold byte in *. rewrite !Z.shiftl_mul_pow2 by lia.
  rewrite !u32_small by lia.
  rewrite lor_disjoint_add by lia.
  replace (a * 2 ^ 24 + b * 2 ^ 16) with ((a * 2 ^ 8 + b) * 2 ^ 16) by ring.
  rewrite lor_disjoint_add by lia.
  replace ((a * 2 ^ 8 + b) * 2 ^ 16 + c * 2 ^ 8) with (((a * 2 ^ 8 + b) * 2 ^ 8 + c) * 2 ^ 8) by ring.
  rewrite lor_disjoint_add by lia. cbn. lia.
Qed.

(** Reading an unsigned number of [k] bytes from the front of a byte string. *)
Definition uint_reader (k : Z) (f : cstr -> go (option Z * cstr)) : Prop :=
  (forall s, slen s < k -> f s = Ret (None, s)) /\
  (forall v r, zlen v = k -> bytes v -> f (Some (v ++ r)) = Ret (Some (be_dec v), Some r)).

Lemma ReadUint8_spec : uint_reader 1 ReadUint8.
Proof.
  split; intros.
  - unfold ReadUint8. rewrite read_short by auto. reflexivity.
  - unfold ReadUint8. rewrite read_app by auto. cbn [bind].
    destruct (list1 _ v H) as [a ->]. reflexivity.
Qed.

Lemma ReadUint16_spec : uint_reader 2 ReadUint16.
Proof.
  split; intros.
  - unfold ReadUint16. rewrite read_short by auto. reflexivity.
  - unfold ReadUint16. rewrite read_app by auto. cbn [bind].
    destruct (list_cons _ v 1 H ltac:(lia)) as (a & v1 & -> & H1).
    destruct (list1 _ v1 H1) as [b ->].
    rewrite !bytes_cons in H0. destruct H0 as (Ba & Bb & _).
    rewrite <- be2 by auto. reflexivity.
Qed.

Lemma ReadUint24_spec : uint_reader 3 ReadUint24.
Proof.
  split; intros.
  - unfold ReadUint24. rewrite read_short by auto. reflexivity.
  - unfold ReadUint24. rewrite read_app by auto. cbn [bind].
    destruct (list_cons _ v 2 H ltac:(lia)) as (a & v1 & -> & H1).
    destruct (list_cons _ v1 1 H1 ltac:(lia)) as (b & v2 & -> & H2).
    destruct (list1 _ v2 H2) as [c ->].
    rewrite !bytes_cons in H0. destruct H0 as (Ba & Bb & Bc & _).
    rewrite <- be3 by auto. reflexivity.
Qed.

Lemma ReadUint32_spec : uint_reader 4 ReadUint32.
Proof.
  split; intros.
  - unfold ReadUint32. rewrite read_short by auto. reflexivity.
  - unfold ReadUint32. rewrite read_app by auto. cbn [bind].
    destruct (list_cons _ v 3 H ltac:(lia)) as (a & v1 & -> & H1).
    destruct (list_cons _ v1 2 H1 ltac:(lia)) as (b & v2 & -> & H2).
    destruct (list_cons _ v2 1 H2 ltac:(lia)) as (c & v3 & -> & H3).
    destruct (list1 _ v3 H3) as [d ->].
    rewrite !bytes_cons in H0. destruct H0 as (Ba & Bb & Bc & Bd & _).
    rewrite <- be4 by auto. reflexivity.
Qed.

(** * Length-prefixed reads *)

Lemma rlp_ok : forall k p c r, 1 <= k <= 4 -> bytes p -> zlen p = k -> be_dec p = zlen c ->
  readLengthPrefixed (Some (p ++ c ++ r)) k = Ret (Some c, Some r).
Proof.
  intros k p c r Hk Hp HL HD. unfold readLengthPrefixed. rewrite read_app by auto. cbn [bind].
  rewrite acc32_be by (auto; lia). rewrite read_app by auto. reflexivity.
Qed.

Lemma rlp_short_prefix : forall k s, slen s < k -> readLengthPrefixed s k = Ret (None, s).
Proof. intros. unfold readLengthPrefixed. rewrite read_short by auto. reflexivity. Qed.

Lemma rlp_short_body : forall k p c, 1 <= k <= 4 -> bytes p -> zlen p = k -> zlen c < be_dec p ->
  readLengthPrefixed (Some (p ++ c)) k = Ret (None, Some c).
Proof.
  intros k p c Hk Hp HL HD. unfold readLengthPrefixed. rewrite read_app by auto. cbn [bind].
  rewrite acc32_be by (auto; lia). rewrite read_short by (unfold slen; auto). reflexivity.
Qed.

(** * Elements *)

Lemma der_len_short : forall n, n < 128 -> der_len n = [n].
Proof. intros. unfold der_len. destruct (Z.ltb_spec n 128); [reflexivity|lia]. Qed.

Lemma der_len_long : forall n, 128 <= n -> der_len n = 128 + zlen (be_min n) :: be_min n.
Proof. intros. unfold der_len. destruct (Z.ltb_spec n 128); [lia|reflexivity]. Qed.

Lemma be_min_zlen_ge1 : forall n, 0 < n -> 1 <= zlen (be_min n).
Proof.
  intros n H. destruct (be_min_cons n H) as (b & r & -> & _). rewrite zlen_cons.
  pose proof (zlen_nonneg _ r). lia.
Qed.

Lemma zlen_der_len_pos : forall n, 1 <= zlen (der_len n).
Proof.
  intros. unfold der_len. destruct (n <? 128); [cbn; lia|]. rewrite zlen_cons.
  pose proof (zlen_nonneg _ (be_min n)). lia.
Qed.

Lemma zlen_der_len_le : forall n, 0 <= n < 2 ^ 32 -> zlen (der_len n) <= 5.
Proof.
  intros n H. unfold der_len. destruct (n <? 128); [cbn; lia|]. rewrite zlen_cons.
  pose proof (be_min_len_le n 4). change (256 ^ 4) with (2 ^ 32) in *. lia.
Qed.

Lemma der_len_bytes : forall n, 0 <= n < 2 ^ 32 -> bytes (der_len n).
Proof.
  intros n H. unfold der_len. destruct (Z.ltb_spec n 128).
  - apply bytes_cons. split; [unfold byte; lia|apply bytes_nil].
  - apply bytes_cons. split; [|apply be_min_bytes].
    pose proof (be_min_len_le n 4). change (256 ^ 4) with (2 ^ 32) in *.
    pose proof (zlen_nonneg _ (be_min n)). unfold byte. lia.
Qed.

Lemma tlv_split : forall t c, tlv t c = (t :: der_len (zlen c)) ++ c.
Proof. reflexivity. Qed.

Lemma zlen_tlv : forall t c, zlen (tlv t c) = 1 + zlen (der_len (zlen c)) + zlen c.
Proof. intros. rewrite tlv_split, zlen_app, zlen_cons. lia. Qed.

(** What [readASN1] returns on a well-formed element. *)
Definition asn1_out (skip : bool) (t : Z) (c : list Z) : list Z := if skip then c else tlv t c.

Lemma finish_asn1 : forall (t : Z) (c r : list Z) (out : cstr) (skip : bool) (n h : Z),
  n = zlen (tlv t c) -> h = 1 + zlen (der_len (zlen c)) ->
  (do (v, s) <- ReadBytes (Some (tlv t c ++ r)) n;
   match v with
   | None => Ret (false, out, t, s)
   | Some v =>
       if skip then
         do (ok, out) <- Skip (Some v) h;
         if ok then Ret (true, out, t, s) else Panic (PUser "cryptobyte: internal error")
       else Ret (true, Some v, t, s)
   end) = Ret (true, Some (asn1_out skip t c), t, Some r).
Proof.
  intros t c r out skip n h Hn Hh. unfold ReadBytes. rewrite read_app by auto. cbn [bind].
  destruct skip; cbn [asn1_out]; [|reflexivity].
  unfold Skip. rewrite tlv_split, read_app by (rewrite zlen_cons; lia). reflexivity.
Qed.

Lemma readASN1_tlv : forall t c r out t0 skip,
  byte t -> low_tag t -> zlen (tlv t c) <= 2 ^ 32 - 1 ->
  readASN1 (Some (tlv t c ++ r)) out t0 skip
  = Ret (true, Some (asn1_out skip t c), t, Some r).
Proof.
  intros t c r out t0 skip Ht Hlow Hlen.
  pose proof (zlen_nonneg _ c) as Nc. pose proof (zlen_nonneg _ r) as Nr.
  pose proof (zlen_der_len_pos (zlen c)) as Pd. rewrite zlen_tlv in Hlen.
  unfold readASN1.
  destruct (Z.ltb_spec (slen (Some (tlv t c ++ r))) 2) as [L|L].
  { unfold slen in L. cbn [contents] in L. rewrite zlen_app, zlen_tlv in L. lia. }
  assert (Hc : contents (Some (tlv t c ++ r)) = t :: der_len (zlen c) ++ c ++ r).
  { cbn [contents]. unfold tlv. cbn [app]. rewrite <- app_assoc. reflexivity. }
  rewrite Hc.
  change (go_index (t :: der_len (zlen c) ++ c ++ r) 0) with (@Ret Z t). cbn [bind].
  rewrite land_1f. destruct (Z.eqb_spec (t mod 32) 0x1f) as [E|_]; [contradiction|].
  destruct (Z_lt_le_dec (zlen c) 128) as [S|S].
  - rewrite der_len_short in * by auto. cbn [app].
    change (go_index (t :: zlen c :: c ++ r) 1) with (@Ret Z (zlen c)). cbn [bind].
    rewrite land_80 by (unfold byte; lia).
    destruct (Z.ltb_spec (zlen c) 128) as [_|]; [|lia]. change (0 =? 0) with true.
    cbv iota. cbn [bind].
    apply finish_asn1.
    + rewrite zlen_tlv, der_len_short by auto. rewrite u32_small by lia. rewrite zlen_cons, zlen_nil. lia.
    + rewrite der_len_short by auto. reflexivity.
  - rewrite der_len_long in * by auto. set (k := zlen (be_min (zlen c))) in *.
    assert (K1 : 1 <= k) by (apply be_min_zlen_ge1; lia).
    assert (K4 : k <= 4).
    { apply be_min_len_le; [|lia]. change (256 ^ 4) with (2 ^ 32). lia. }
    cbn [app]. change (go_index (t :: (128 + k) :: be_min (zlen c) ++ c ++ r) 1)
      with (@Ret Z (128 + k)). cbn [bind].
    rewrite land_80 by (unfold byte; lia).
    destruct (Z.ltb_spec (128 + k) 128) as [|_]; [lia|]. change (128 =? 0) with false.
    cbv iota. rewrite land_7f.
    replace ((128 + k) mod 128) with k
      by (rewrite <- Zplus_mod_idemp_l, Z_mod_same_full, Z.mod_small; lia).
    destruct (Z.eqb_spec k 0) as [|_]; [lia|]. destruct (Z.ltb_spec 4 k) as [|_]; [lia|].
    destruct (Z.ltb_spec (slen (Some (tlv t c ++ r))) (2 + k)) as [L2|_].
    { exfalso. unfold slen in L2. rewrite Hc in L2. rewrite zlen_cons, !zlen_app, zlen_cons in L2.
      fold k in L2. lia. }
    cbn [orb].
    assert (Hsl : go_slice (t :: (128 + k) :: be_min (zlen c) ++ c ++ r) 2 (2 + k)
                  = Ret (be_min (zlen c))).
    { rewrite go_slice_ret; [|lia|rewrite !zlen_cons, zlen_app; fold k; pose proof (zlen_nonneg _ (c ++ r)); lia].
      f_equal. change (t :: (128 + k) :: be_min (zlen c) ++ c ++ r)
        with ([t; 128 + k] ++ be_min (zlen c) ++ c ++ r).
      apply sub_mid; reflexivity. }
    rewrite Hsl. cbn [bind]. unfold readUnsigned.
    rewrite read_all by reflexivity. cbn [bind].
    rewrite acc32_be by (auto using be_min_bytes). rewrite be_dec_min by lia.
    destruct (Z.ltb_spec (zlen c) 128) as [|_]; [lia|].
    assert (Hsz : 256 ^ (k - 1) <= zlen c).
    { pose proof (be_min_size (zlen c) ltac:(lia)). unfold k. rewrite zlen_be_min by lia.
      replace (Z.log2 (zlen c) / 8 + 1 - 1) with (Z.log2 (zlen c) / 8) by lia. lia. }
    destruct (Z.eqb_spec (Z.shiftr (zlen c) ((k - 1) * 8)) 0) as [E|_].
    { exfalso. rewrite Z.shiftr_div_pow2 in E by lia.
      rewrite pow256 in Hsz by lia. replace ((k - 1) * 8) with (8 * (k - 1)) in E by lia.
      pose proof (Z.pow_pos_nonneg 2 (8 * (k - 1)) ltac:(lia) ltac:(lia)) as P.
      pose proof (Z.div_le_mono (2 ^ (8 * (k - 1))) (zlen c) (2 ^ (8 * (k - 1))) P Hsz) as D.
      rewrite Z_div_same_full in D by lia. lia. }
    rewrite zlen_cons in Hlen. fold k in Hlen.
    rewrite !u32_small by (rewrite ?u32_small; lia).
    destruct (Z.ltb_spec (2 + k + zlen c) (zlen c)) as [|_]; [lia|].
    cbn [bind]. apply finish_asn1.
    + rewrite zlen_tlv, der_len_long, zlen_cons by auto. fold k. lia.
    + rewrite der_len_long, zlen_cons by auto. fold k. lia.
Qed.

Lemma readASN1_cases : forall s out t0 skip, bytes (contents s) ->
  (exists t c r, s = Some (tlv t c ++ r) /\ byte t /\ low_tag t /\ zlen (tlv t c) <= 2 ^ 32 - 1)
  \/ (exists t', readASN1 s out t0 skip = Ret (false, out, t', s)).
Proof.
  intros s out t0 skip HB. unfold readASN1.
  destruct (Z.ltb_spec (slen s) 2) as [L|L]; [right; eauto|].
  destruct s as [l|]; [|cbn in L; lia]. unfold slen in L. cbn [contents] in *.
  destruct l as [|t [|b l]]; [cbn in L; lia|cbn in L; lia|].
  apply bytes_cons in HB. destruct HB as [Ht HB]. apply bytes_cons in HB. destruct HB as [Hb HB].
  change (go_index (t :: b :: l) 0) with (@Ret Z t).
  change (go_index (t :: b :: l) 1) with (@Ret Z b). cbn [bind].
  rewrite land_1f. destruct (Z.eqb_spec (t mod 32) 0x1f) as [E|Hlow]; [right; eauto|].
  rewrite land_80 by auto. unfold byte in Hb.
  pose proof (zlen_nonneg _ l) as Nl.
  destruct (Z.ltb_spec b 128) as [S|S].
  - change (0 =? 0) with true. cbn [bind]. rewrite u32_small by lia.
    destruct (Z_lt_le_dec (zlen l) b) as [F|F].
    + right. exists t. unfold ReadBytes. rewrite read_short; [reflexivity|].
      unfold slen. cbn [contents]. rewrite !zlen_cons. lia.
    + left. destruct (split_at _ l b ltac:(lia)) as (c & r & -> & Hc).
      exists t, c, r. unfold tlv. rewrite Hc, der_len_short by lia.
      split; [reflexivity|]. split; [exact Ht|]. split; [exact Hlow|]. rewrite zlen_cons, zlen_app, zlen_cons, zlen_nil, Hc. lia.
  - change (128 =? 0) with false. cbn [bind]. rewrite land_7f.
    assert (Hk : exists k, b = 128 + k) by (exists (b - 128); lia). destruct Hk as [k ->].
    replace ((128 + k) mod 128) with k
      by (rewrite <- Zplus_mod_idemp_l, Z_mod_same_full, Z.mod_small; lia).
    destruct (Z.eqb_spec k 0) as [|K0]; [right; eexists; reflexivity|].
    destruct (Z.ltb_spec 4 k) as [|K4]; [right; eexists; reflexivity|].
    destruct (Z.ltb_spec (slen (Some (t :: 128 + k :: l))) (2 + k)) as [|K]; [right; eexists; reflexivity|].
    cbn [orb]. unfold slen in K. cbn [contents] in K. rewrite !zlen_cons in K.
    destruct (split_at _ l k ltac:(lia)) as (lb & rest & -> & Hlb).
    apply bytes_app in HB. destruct HB as [Blb Brest].
    assert (Hsl : go_slice (t :: (128 + k) :: lb ++ rest) 2 (2 + k) = Ret lb).
    { rewrite go_slice_ret; [|lia|rewrite !zlen_cons; lia].
      f_equal. change (t :: (128 + k) :: lb ++ rest) with ([t; 128 + k] ++ lb ++ rest).
      apply sub_mid; rewrite ?Hlb; reflexivity. }
    rewrite Hsl. cbn [bind]. unfold readUnsigned.
    rewrite read_all by auto. cbn [bind].
    rewrite acc32_be by (auto; lia).
    pose proof (be_dec_bound lb Blb) as Hbd. rewrite Hlb in Hbd.
    destruct (Z.ltb_spec (be_dec lb) 128) as [|G]; [right; eexists; reflexivity|].
    destruct (Z.eqb_spec (Z.shiftr (be_dec lb) ((k - 1) * 8)) 0) as [|Hlead];
      [right; eexists; reflexivity|].
    assert (Hmin : be_min (be_dec lb) = lb).
    { apply be_min_unique; auto. intros b0 r0 Eb ->. apply Hlead. subst lb.
      apply bytes_cons in Blb. destruct Blb as [_ Br]. rewrite zlen_cons in Hlb.
      pose proof (be_dec_bound r0 Br). rewrite be_dec_cons, Z.shiftr_div_pow2 by lia.
      replace ((k - 1) * 8) with (8 * (k - 1)) by lia. rewrite <- pow256 by lia.
      apply Z.div_small. replace (k - 1) with (zlen r0) by lia. lia. }
    assert (H32 : 256 ^ k <= 2 ^ 32) by (change (2 ^ 32) with (256 ^ 4); apply Z.pow_le_mono_r; lia).
    rewrite (u32_small (2 + k)) by lia.
    destruct (Z.ltb_spec (u32 (2 + k + be_dec lb)) (be_dec lb)) as [|V]; [right; eexists; reflexivity|].
    assert (V2 : 2 + k + be_dec lb <= 2 ^ 32 - 1).
    { destruct (Z_lt_le_dec (2 + k + be_dec lb) (2 ^ 32)); [lia|]. exfalso.
      unfold u32 in V. replace (2 + k + be_dec lb) with (2 + k + be_dec lb - 2 ^ 32 + 1 * 2 ^ 32) in V by lia.
      rewrite Z_mod_plus_full, Z.mod_small in V; lia. }
    rewrite u32_small by lia. cbn [bind].
    destruct (Z_lt_le_dec (zlen rest) (be_dec lb)) as [F|F].
    + right. exists t. unfold ReadBytes. rewrite read_short; [reflexivity|].
      unfold slen. cbn [contents]. rewrite !zlen_cons, zlen_app. lia.
    + left. destruct (split_at _ rest (be_dec lb) ltac:(lia)) as (c & r & -> & Hc).
      exists t, c, r. unfold tlv. rewrite Hc, der_len_long, Hmin, Hlb by lia.
      split; [cbn [app]; rewrite <- app_assoc; reflexivity|]. split; [auto|]. split; [auto|].
      rewrite zlen_cons, zlen_app, zlen_cons. lia.
Qed.

(** The decomposition into an element and a rest is unique. *)
Lemma der_len_inj : forall m n r1 r2, 0 <= m < 2 ^ 32 -> 0 <= n < 2 ^ 32 ->
  der_len m ++ r1 = der_len n ++ r2 -> m = n /\ r1 = r2.
Proof.
  intros m n r1 r2 Hm Hn E.
  assert (B4 : forall x, 0 <= x < 2 ^ 32 -> zlen (be_min x) <= 4).
  { intros. apply be_min_len_le; [|lia]. exact H. }
  pose proof (B4 m Hm). pose proof (B4 n Hn).
  pose proof (zlen_nonneg _ (be_min m)). pose proof (zlen_nonneg _ (be_min n)).
  unfold der_len in E. destruct (Z.ltb_spec m 128), (Z.ltb_spec n 128); cbn [app] in E.
  - injection E as -> ->. auto.
  - pose proof (f_equal (hd 0) E) as E1. pose proof (f_equal (@tl Z) E) as E2. cbn [hd tl] in E1, E2. lia.
  - pose proof (f_equal (hd 0) E) as E1. pose proof (f_equal (@tl Z) E) as E2. cbn [hd tl] in E1, E2. lia.
  - pose proof (f_equal (hd 0) E) as E1. pose proof (f_equal (@tl Z) E) as E2. cbn [hd tl] in E1, E2. assert (L : zlen (be_min m) = zlen (be_min n)) by lia.
    apply app_inj_len in E2; [|unfold zlen in L; lia]. destruct E2 as [E2 ->]. split; [|reflexivity].
    rewrite <- (be_dec_min m), <- (be_dec_min n), E2 by lia. reflexivity.
Qed.

Lemma tlv_inj : forall t1 c1 r1 t2 c2 r2, zlen c1 < 2 ^ 32 -> zlen c2 < 2 ^ 32 ->
  tlv t1 c1 ++ r1 = tlv t2 c2 ++ r2 -> t1 = t2 /\ c1 = c2 /\ r1 = r2.
Proof.
  intros t1 c1 r1 t2 c2 r2 H1 H2 E. unfold tlv in E. cbn [app] in E. injection E as -> E.
  rewrite <- !app_assoc in E. pose proof (zlen_nonneg _ c1). pose proof (zlen_nonneg _ c2).
  apply der_len_inj in E; [|lia|lia]. destruct E as [EL E].
  apply app_inj_len in E; [|unfold zlen in EL; lia]. tauto.
Qed.
