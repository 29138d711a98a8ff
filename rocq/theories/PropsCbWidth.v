(** * C115: where int has 32 bits, a four-byte length makes the DER readers and ParseCertificate panic *)
From Coq Require Import ZArith List Lia Bool String.
From Verif Require Import GoBase BeMin CbString CbStringProofs PropsCbString CbBuilder CbBuilderProofs PropsCbBuilder CbAsn1Proofs GoAsn1 GoAsn1Proofs.
From Verif Require Import FpField WeiGroup Sm2Group GoElliptic Sm2Spec Sm2 Sm2Proofs Sm2Proofs2 PropsSm2 Sm2Der PropsSm2Der GoText GoPkix CertText PropsCertText Cert CertRt PropsCertExt PropsCertNames PropsCertSan PropsCertBuild PropsCertTime PropsCertDN CertRt2 PropsCert PropsCertReq.
From Verif Require Import CbStrMemSim PropsCertSafe CbWidth.
Import ListNotations.
Open Scope Z_scope.

(** A byte string that fits the memory of a 32-bit platform. *)
Definition low (s : cstr) : Prop := bytes (contents s) /\ slen s < 2 ^ 31.
(** The string starts with a one-byte tag and a four-byte length, and header and contents together are
    said to have 2^31 bytes or more, but fewer than 2^32. *)
Definition huge (l : list Z) : Prop := exists t b1 b2 b3 b4 r,
  l = t :: 132 :: b1 :: b2 :: b3 :: b4 :: r /\ t mod 32 <> 31 /\ 2 ^ 31 <= 6 + be_dec [b1; b2; b3; b4] < 2 ^ 32.
Definition hugeb (l : list Z) : bool :=
  match l with
  | t :: 132 :: b1 :: b2 :: b3 :: b4 :: r =>
      negb (t mod 32 =? 31) && (2 ^ 31 <=? 6 + be_dec [b1; b2; b3; b4]) && (6 + be_dec [b1; b2; b3; b4] <? 2 ^ 32)
  | _ => false
  end.
Lemma hugeb_iff : forall l, hugeb l = true <-> huge l.
Proof.
  intros l. split.
  - intros H. destruct l as [|t [|b [|b1 [|b2 [|b3 [|b4 r]]]]]]; try discriminate H; cbn in H;
      repeat (match type of H with context[match ?x with _ => _ end] => is_var x; destruct x; try discriminate H end).
    apply andb_true_iff in H. destruct H as [H H3]. apply andb_true_iff in H. destruct H as [H1 H2].
    apply Z.leb_le in H2. apply Z.ltb_lt in H3. apply negb_true_iff, Z.eqb_neq in H1.
    do 6 eexists. split; [reflexivity|]. split; [exact H1|]. split; [exact H2|exact H3].
  - intros (t & b1 & b2 & b3 & b4 & r & -> & H1 & H2 & H3). unfold hugeb.
    apply andb_true_iff. split; [apply andb_true_iff; split|]; [apply negb_true_iff, Z.eqb_neq; exact H1|apply Z.leb_le; exact H2|apply Z.ltb_lt; exact H3].
Qed.
Lemma huge_dec : forall l, huge l \/ ~ huge l.
Proof. intros l. destruct (hugeb l) eqn:H; [left|right]; rewrite <- hugeb_iff, H; [reflexivity|discriminate]. Qed.

(** * The header, and what follows it *)

Definition finish (toInt : Z -> Z) (s out : cstr) (tag : Z) (sk : bool) (hdr : option (Z * Z)) : go (bool * cstr * Z * cstr) :=
  match hdr with
  | None => Ret (false, out, tag, s)
  | Some (length, headerLen) =>
      if negb (u32 (toInt length) =? length) then Ret (false, out, tag, s) else
      do (v, s) <- ReadBytes s (toInt length);
      match v with
      | None => Ret (false, out, tag, s)
      | Some v =>
          if sk then
            do (ok, out) <- Skip (Some v) (toInt headerLen);
            if ok then Ret (true, out, tag, s) else Panic (PUser "cryptobyte: internal error")
          else Ret (true, Some v, tag, s)
      end
  end.
Definition exactly (toInt : Z -> Z) : Prop := forall x, 0 <= x < 2 ^ 31 -> toInt x = x.
Lemma i64_small : forall x, - 2 ^ 63 <= x < 2 ^ 63 -> i64 x = x.
Proof. intros x H. unfold i64. rewrite Z.mod_small by lia. lia. Qed.
Lemma i32_small : forall x, - 2 ^ 31 <= x < 2 ^ 31 -> i32 x = x.
Proof. intros x H. unfold i32. rewrite Z.mod_small by lia. lia. Qed.
Lemma i32_neg : forall x, 2 ^ 31 <= x < 2 ^ 32 -> i32 x = x - 2 ^ 32.
Proof. intros x H. unfold i32. replace (x + 2 ^ 31) with (x - 2 ^ 31 + 1 * 2 ^ 32) by lia. rewrite Z_mod_plus_full, Z.mod_small by lia. lia. Qed.
Lemma i32_range : forall x, - 2 ^ 31 <= i32 x < 2 ^ 31.
Proof. intros x. unfold i32. pose proof (Z.mod_pos_bound (x + 2 ^ 31) (2 ^ 32) ltac:(lia)). lia. Qed.
Lemma i32_id : forall x, i32 x = x -> - 2 ^ 31 <= x < 2 ^ 31.
Proof. intros x H. rewrite <- H. apply i32_range. Qed.
Lemma u32_i32 : forall x, 0 <= x < 2 ^ 32 -> u32 (i32 x) = x.
Proof.
  intros x H. destruct (Z_lt_le_dec x (2 ^ 31)) as [L|L].
  - rewrite i32_small by lia. apply u32_small. lia.
  - rewrite i32_neg by lia. unfold u32. replace (x - 2 ^ 32) with (x + (-1) * 2 ^ 32) by lia. rewrite Z_mod_plus_full. apply Z.mod_small. lia.
Qed.
Lemma land7 : forall b, 0 <= Z.land b 0x7f < 128.
Proof. intros b. change 0x7f with (Z.ones 7). rewrite Z.land_ones by lia. apply Z.mod_pos_bound. lia. Qed.
Lemma readASN1W_hdr : forall toInt s out outTag sk, exactly toInt -> readASN1W toInt s out outTag sk =
  if slen s <? 2 then Ret (false, out, outTag, s) else
  do tag <- go_index (contents s) 0;
  do lenByte <- go_index (contents s) 1;
  if Z.land tag 0x1f =? 0x1f then Ret (false, out, outTag, s) else
  do hdr <- hdrV (contents s) lenByte;
  finish toInt s out tag sk hdr.
Proof.
  intros toInt s out outTag sk X. unfold readASN1W, hdrV. destruct (slen s <? 2); [reflexivity|].
  destruct (go_index (contents s) 0) as [tag|k]; cbn [bind]; [|reflexivity].
  destruct (go_index (contents s) 1) as [b|k]; cbn [bind]; [|reflexivity].
  destruct (Z.land tag 31 =? 31); [reflexivity|]. pose proof (land7 b) as L. rewrite !X by lia. reflexivity.
Qed.
Lemma exactly64 : exactly i64. Proof. intros x H. apply i64_small. lia. Qed.
Lemma exactly32 : exactly i32. Proof. intros x H. apply i32_small. lia. Qed.

(** A header that is found has at most six bytes, and the whole is below 2^32. *)
Lemma hdrV_range : forall l b n h, hdrV l b = Ret (Some (n, h)) -> 0 <= n < 2 ^ 32 /\ 0 <= h <= 6.
Proof.
  intros l b n h. unfold hdrV. assert (U : forall x, 0 <= u32 x < 2 ^ 32) by (intros; unfold u32; apply Z.mod_pos_bound; lia).
  pose proof (land7 b) as L. destruct (Z.land b 128 =? 0).
  { intros H. injection H as <- <-. split; [apply U|lia]. }
  destruct (_ || _) eqn:O; [discriminate|]. apply orb_false_iff in O. destruct O as [O _]. apply orb_false_iff in O. destruct O as [O1 O2].
  apply Z.eqb_neq in O1. apply Z.ltb_ge in O2.
  destruct (go_slice l 2 (2 + Z.land b 127)) as [lb|k]; cbn [bind]; [|discriminate].
  destruct (readUnsigned (Some lb) (Z.land b 127)) as [[[v|] w]|k]; cbn [bind]; try discriminate.
  destruct (v <? 128); [discriminate|]. destruct (_ =? 0); [discriminate|]. destruct (_ <? v); [discriminate|].
  assert (Hh : 0 <= u32 (2 + Z.land b 127) <= 6) by (rewrite u32_small by lia; lia). pose proof (U (u32 (2 + Z.land b 127) + v)) as Hn.
  revert Hh Hn. generalize (u32 (u32 (2 + Z.land b 127) + v)) (u32 (2 + Z.land b 127)). intros n0 h0 Hh Hn H. injection H as <- <-. split; assumption.
Qed.
(** With 64 bits the test of line 724 never fires. *)
Lemma finish64 : forall s out tag sk l b hdr, hdrV l b = Ret hdr -> finish i64 s out tag sk hdr =
  match hdr with
  | None => Ret (false, out, tag, s)
  | Some (length, headerLen) =>
      do (v, s) <- ReadBytes s length;
      match v with
      | None => Ret (false, out, tag, s)
      | Some v =>
          if sk then
            do (ok, out) <- Skip (Some v) headerLen;
            if ok then Ret (true, out, tag, s) else Panic (PUser "cryptobyte: internal error")
          else Ret (true, Some v, tag, s)
      end
  end.
Proof.
  intros s out tag sk l b [[n h]|] H; [|reflexivity]. apply hdrV_range in H. unfold finish. rewrite !i64_small by lia. rewrite u32_small by lia. rewrite Z.eqb_refl. reflexivity.
Qed.
Lemma readASN1W_64 : forall s out outTag sk, readASN1W i64 s out outTag sk = readASN1 s out outTag sk.
Proof.
  intros s out outTag sk. rewrite readASN1W_hdr by exact exactly64. rewrite readASN1_hdr.
  destruct (slen s <? 2); [reflexivity|]. destruct (go_index (contents s) 0) as [tag|k]; cbn [bind]; [|reflexivity].
  destruct (go_index (contents s) 1) as [b|k]; cbn [bind]; [|reflexivity]. destruct (Z.land tag 31 =? 31); [reflexivity|].
  destruct (hdrV (contents s) b) as [hdr|k] eqn:H; cbn [bind]; [|reflexivity]. exact (finish64 _ _ _ _ _ _ _ H).
Qed.

(** The header says 2^31 bytes or more exactly if the string is huge. *)
Lemma be4 : forall a b c d, be_dec [a; b; c; d] = ((a * 256 + b) * 256 + c) * 256 + d.
Proof. intros. cbn. ring. Qed.
Lemma hdrV_huge : forall t b l, bytes (t :: b :: l) -> t mod 32 <> 31 ->
  match hdrV (t :: b :: l) b with
  | Ret (Some (n, _)) => 2 ^ 31 <= n <-> huge (t :: b :: l)
  | Ret None => ~ huge (t :: b :: l)
  | Panic _ => False
  end.
Proof.
  intros t b l HB HT. apply bytes_cons in HB. destruct HB as [Ht HB]. apply bytes_cons in HB. destruct HB as [Hb HB].
  unfold hdrV. rewrite land_80 by auto. unfold byte in Hb. pose proof (zlen_nonneg _ l) as Nl.
  assert (NO : b <> 132 -> ~ huge (t :: b :: l)) by (intros N (t' & b1 & b2 & b3 & b4 & r & EQ & _); injection EQ as _ E _; contradiction).
  destruct (Z.ltb_spec b 128) as [S|S].
  { change (0 =? 0) with true. rewrite u32_small by lia. split; [lia|]. intros K. exfalso. apply NO in K; [exact K|lia]. }
  change (128 =? 0) with false. cbv beta zeta iota. rewrite land_7f.
  assert (Hk : exists k, b = 128 + k) by (exists (b - 128); lia). destruct Hk as [k ->].
  replace ((128 + k) mod 128) with k by (rewrite <- Zplus_mod_idemp_l, Z_mod_same_full, Z.mod_small; lia).
  destruct (Z.eqb_spec k 0) as [|K0]; [cbn [orb]; apply NO; lia|].
  destruct (Z.ltb_spec 4 k) as [|K4]; [cbn [orb]; apply NO; lia|].
  destruct (Z.ltb_spec (zlen (t :: 128 + k :: l)) (2 + k)) as [LL|K]; cbn [orb].
  { intros (t' & b1 & b2 & b3 & b4 & r & EQ & _). injection EQ as _ E ->. rewrite !zlen_cons in LL. pose proof (zlen_nonneg _ r). lia. }
  rewrite !zlen_cons in K.
  destruct (split_at _ l k ltac:(lia)) as (lb & rest & -> & Hlb). apply bytes_app in HB. destruct HB as [Blb Brest].
  assert (Hsl : go_slice (t :: (128 + k) :: lb ++ rest) 2 (2 + k) = Ret lb).
  { rewrite go_slice_ret; [|lia|rewrite !zlen_cons; lia].
    f_equal. change (t :: (128 + k) :: lb ++ rest) with ([t; 128 + k] ++ lb ++ rest). apply sub_mid; rewrite ?Hlb; reflexivity. }
  rewrite Hsl. cbn [bind]. unfold readUnsigned. rewrite read_all by auto. cbn [bind]. rewrite acc32_be by (auto; lia).
  pose proof (be_dec_bound lb Blb) as Hbd. rewrite Hlb in Hbd.
  assert (Hsm : k < 4 -> be_dec lb < 2 ^ 24).
  { intros L. assert (256 ^ k <= 256 ^ 3) by (apply Z.pow_le_mono_r; lia). change (256 ^ 3) with (2 ^ 24) in *. lia. }
  assert (H4 : k = 4 -> exists b1 b2 b3 b4, lb = [b1; b2; b3; b4]).
  { intros ->. destruct lb as [|b1 [|b2 [|b3 [|b4 [|b5 lb]]]]]; try (cbn in Hlb; lia). do 4 eexists. reflexivity. }
  assert (HH : forall n, n = 6 + be_dec lb -> huge (t :: 128 + k :: lb ++ rest) -> k = 4 /\ 2 ^ 31 <= n < 2 ^ 32).
  { intros n -> (t' & b1 & b2 & b3 & b4 & r & EQ & _ & R). pose proof (f_equal (fun l => nth 1 l 0) EQ) as E. apply (f_equal (skipn 2)) in EQ. cbn [nth skipn] in E, EQ. assert (k = 4) by lia. destruct (H4 ltac:(lia)) as (c1 & c2 & c3 & c4 & ->).
    cbn [app] in EQ. injection EQ as -> -> -> -> _. split; [lia|exact R]. }
  destruct (Z.ltb_spec (be_dec lb) 128) as [|G]; [intros K'; apply (HH _ eq_refl) in K'; lia|].
  destruct (Z.eqb_spec (Z.shiftr (be_dec lb) ((k - 1) * 8)) 0) as [Hs|Hlead].
  { intros K'. apply (HH _ eq_refl) in K'. destruct K' as [-> R]. rewrite Z.shiftr_div_pow2 in Hs by lia. apply Z.div_small_iff in Hs; [|lia]. change ((4 - 1) * 8) with 24 in Hs. lia. }
  assert (BD : be_dec lb < 2 ^ 32).
  { assert (256 ^ k <= 256 ^ 4) by (apply Z.pow_le_mono_r; lia). change (256 ^ 4) with (2 ^ 32) in *. lia. }
  rewrite (u32_small (2 + k)) by lia.
  destruct (Z_lt_le_dec (2 + k + be_dec lb) (2 ^ 32)) as [O|O].
  2:{ unfold u32. replace (2 + k + be_dec lb) with (2 + k + be_dec lb - 2 ^ 32 + 1 * 2 ^ 32) by lia. rewrite Z_mod_plus_full, Z.mod_small by lia.
      destruct (Z.ltb_spec (2 + k + be_dec lb - 2 ^ 32) (be_dec lb)); [|lia]. intros K'. apply (HH _ eq_refl) in K'. lia. }
  rewrite u32_small by lia. destruct (Z.ltb_spec (2 + k + be_dec lb) (be_dec lb)); [lia|].
  split.
  - intros G'. assert (K5 : k = 4) by (destruct (Z.eq_dec k 4); [assumption|pose proof (Hsm ltac:(lia)); lia]). rewrite K5 in *.
    destruct (H4 eq_refl) as (b1 & b2 & b3 & b4 & ->). exists t, b1, b2, b3, b4, rest. split; [reflexivity|]. split; [exact HT|]. lia.
  - intros K'. apply (HH _ eq_refl) in K'. lia.
Qed.

(** * The readers *)

Lemma readASN1W_32 : forall s out t sk, low s ->
  (huge (contents s) -> readASN1W i32 s out t sk = Panic PSlice /\ exists t', readASN1 s out t sk = Ret (false, out, t', s)) /\
  (~ huge (contents s) -> readASN1W i32 s out t sk = readASN1 s out t sk).
Proof.
  intros s out t0 sk [HB HL]. rewrite readASN1W_hdr by exact exactly32. rewrite <- readASN1W_64, readASN1W_hdr by exact exactly64.
  destruct (Z.ltb_spec (slen s) 2) as [L|L].
  { split; [|reflexivity]. intros (t & b1 & b2 & b3 & b4 & r & E & _). exfalso. unfold slen in L. rewrite E, !zlen_cons in L. pose proof (zlen_nonneg _ r). lia. }
  destruct s as [l|]; [|cbn in L; lia]. unfold slen in *. cbn [contents] in *.
  destruct l as [|t [|b l]]; [cbn in L; lia|cbn in L; lia|].
  change (go_index (t :: b :: l) 0) with (@Ret Z t). change (go_index (t :: b :: l) 1) with (@Ret Z b). cbn [bind].
  rewrite land_1f. destruct (Z.eqb_spec (t mod 32) 0x1f) as [E|Hlow].
  { split; [|reflexivity]. intros (t' & b1 & b2 & b3 & b4 & r & EQ & K & _). injection EQ as <- _ _. contradiction. }
  pose proof (hdrV_huge t b l HB Hlow) as H. destruct (hdrV (t :: b :: l) b) as [[[n h]|]|k] eqn:HH; cbn [bind]; [| |contradiction].
  2:{ split; [intros K; contradiction|reflexivity]. }
  pose proof (hdrV_range _ _ _ _ HH) as [Rn Rh]. unfold finish. rewrite u32_i32 by exact Rn. rewrite (i64_small n), u32_small by lia. rewrite Z.eqb_refl. cbn [negb].
  rewrite (i64_small h), (i32_small h) by lia. split.
  - intros K. apply (proj2 H) in K. rewrite i32_neg by lia. unfold ReadBytes, read. pose proof (zlen_nonneg _ (t :: b :: l)). unfold slen. cbn [contents].
    destruct (Z.ltb_spec (zlen (t :: b :: l)) (n - 2 ^ 32)); [lia|]. destruct (Z.ltb_spec (n - 2 ^ 32) 0); [|lia]. cbn [bind]. split; [reflexivity|].
    destruct (Z.ltb_spec (zlen (t :: b :: l)) n); [|lia]. cbn [bind]. eexists. reflexivity.
  - intros K. assert (n < 2 ^ 31) by (apply Z.nle_gt; intros G; apply K, H; exact G). rewrite i32_small by lia. reflexivity.
Qed.
Lemma any_64 : forall s out t, ReadAnyASN1W i64 s out t = ReadAnyASN1 s out t.
Proof. intros. apply readASN1W_64. Qed.
Lemma any_el_64 : forall s out t, ReadAnyASN1ElementW i64 s out t = ReadAnyASN1Element s out t.
Proof. intros. apply readASN1W_64. Qed.
Lemma asn1_64 : forall s out t, ReadASN1W i64 s out t = ReadASN1 s out t.
Proof. intros. unfold ReadASN1W. rewrite any_64. reflexivity. Qed.
Lemma i64_idem : forall x, i64 (i64 x) = i64 x.
Proof. intros x. apply i64_small. unfold i64. pose proof (Z.mod_pos_bound (x + 2 ^ 63) (2 ^ 64) ltac:(lia)). lia. Qed.
Lemma enum_64 : forall s, ReadASN1EnumW i64 s = ReadASN1Enum s.
Proof.
  intros s. unfold ReadASN1EnumW, ReadASN1Enum. rewrite asn1_64. destruct (ReadASN1 s None ENUM) as [[[ok o] s']|k]; cbn [bind]; [|reflexivity].
  destruct (_ || _); [reflexivity|]. destruct (asn1Signed (contents o)) as [i|]; [|reflexivity]. rewrite i64_idem. destruct (Z.eqb_spec (i64 i) i) as [E|E]; [rewrite E|]; reflexivity.
Qed.
Lemma integer_64 : forall s k, ReadASN1IntegerW i64 s k = ReadASN1Integer s k.
Proof. intros s k. destruct k; try reflexivity; unfold ReadASN1IntegerW, ReadASN1Integer, readASN1Int64W, readASN1Uint64W, readASN1BigIntW; rewrite asn1_64; reflexivity. Qed.
Lemma optional_64 : forall s out t, ReadOptionalASN1W i64 s out t = ReadOptionalASN1 s out t.
Proof. intros. unfold ReadOptionalASN1W, ReadOptionalASN1. destruct (PeekASN1Tag s t) as [[|]|k]; cbn [bind]; rewrite ?asn1_64; reflexivity. Qed.

(** What a successful ReadASN1 leaves is shorter. *)
Lemma read_parts : forall s out tag out' s', bytes (contents s) -> ReadASN1 s out tag = Ret (true, out', s') ->
  bytes (contents out') /\ bytes (contents s') /\ slen out' < slen s /\ slen s' < slen s /\ slen out' + slen s' < slen s.
Proof.
  intros s out tag out' s' HB H. destruct (element_em s HB) as [(t & c & r & HE)|HE].
  - rewrite (proj1 (C24_read_asn1 s out tag HB) t c r HE) in H. injection H as _ <- <-. destruct HE as (-> & _). unfold slen. cbn [contents] in *.
    apply bytes_app in HB. destruct HB as [B1 B2]. split; [exact (bytes_in_tlv _ _ B1)|]. split; [exact B2|].
    rewrite zlen_app. unfold tlv. rewrite zlen_cons, zlen_app. pose proof (zlen_nonneg _ c). pose proof (zlen_nonneg _ r). pose proof (zlen_nonneg _ (der_len (zlen c))). lia.
  - rewrite (proj2 (C24_read_asn1 s out tag HB) HE) in H. discriminate H.
Qed.
Lemma low_parts : forall s out tag out' s', low s -> ReadASN1 s out tag = Ret (true, out', s') -> low out' /\ low s' /\ slen out' + slen s' < slen s.
Proof. intros s out tag out' s' [HB HL] H. destruct (read_parts _ _ _ _ _ HB H) as (B1 & B2 & L1 & L2 & L3). repeat split; try assumption; lia. Qed.
Lemma asn1_32 : forall s out tag, low s ->
  (huge (contents s) -> ReadASN1W i32 s out tag = Panic PSlice /\ ReadASN1 s out tag = Ret (false, out, s)) /\
  (~ huge (contents s) -> ReadASN1W i32 s out tag = ReadASN1 s out tag).
Proof.
  intros s out tag L. unfold ReadASN1W, ReadASN1, ReadAnyASN1W, ReadAnyASN1. destruct (readASN1W_32 s out 0 true L) as [H1 H2]. split; intros K.
  - destruct (H1 K) as (-> & t' & ->). split; reflexivity.
  - rewrite (H2 K). reflexivity.
Qed.

(** * C115 *)

(** With 64 bits the functions of CbWidth.v are those of CbString.v, whatever the string. *)
Theorem C115_wide : forall s out tag k d b,
  ReadAnyASN1W i64 s out tag = ReadAnyASN1 s out tag /\ ReadAnyASN1ElementW i64 s out tag = ReadAnyASN1Element s out tag /\
  ReadASN1W i64 s out tag = ReadASN1 s out tag /\ ReadASN1ElementW i64 s out tag = ReadASN1Element s out tag /\
  SkipASN1W i64 s tag = SkipASN1 s tag /\ ReadASN1BooleanW i64 s = ReadASN1Boolean s /\
  ReadASN1IntegerW i64 s k = ReadASN1Integer s k /\ ReadASN1EnumW i64 s = ReadASN1Enum s /\
  ReadASN1ObjectIdentifierW i64 s = ReadASN1ObjectIdentifier s /\
  ReadASN1BitStringAsBytesW i64 s = ReadASN1BitStringAsBytes s /\
  ReadOptionalASN1W i64 s out tag = ReadOptionalASN1 s out tag /\ SkipOptionalASN1W i64 s tag = SkipOptionalASN1 s tag /\
  ReadOptionalASN1IntegerW i64 s k tag d = ReadOptionalASN1Integer s k tag d /\
  ReadOptionalASN1OctetStringW i64 s tag = ReadOptionalASN1OctetString s tag /\
  ReadOptionalASN1BooleanW i64 s b = ReadOptionalASN1Boolean s b /\
  (bytes (contents s) -> slen s < 2 ^ 59 -> ReadASN1BitStringW i64 s = ReadASN1BitString s).
Proof.
  intros s out tag k d b.
  split; [apply any_64|]. split; [apply any_el_64|]. split; [apply asn1_64|]. split; [unfold ReadASN1ElementW; rewrite any_el_64; reflexivity|].
  split; [unfold SkipASN1W; rewrite asn1_64; reflexivity|]. split; [unfold ReadASN1BooleanW; rewrite asn1_64; reflexivity|].
  split; [apply integer_64|]. split; [apply enum_64|]. split; [unfold ReadASN1ObjectIdentifierW; rewrite asn1_64; reflexivity|].
  split; [unfold ReadASN1BitStringAsBytesW; rewrite asn1_64; reflexivity|]. split; [apply optional_64|].
  split; [unfold SkipOptionalASN1W; rewrite asn1_64; reflexivity|].
  split.
  { unfold ReadOptionalASN1IntegerW, ReadOptionalASN1Integer. rewrite optional_64. destruct k; try reflexivity;
      destruct (ReadOptionalASN1 s None tag) as [[[[ok i] p] s']|e]; cbn [bind]; try reflexivity; rewrite integer_64; reflexivity. }
  split.
  { unfold ReadOptionalASN1OctetStringW, ReadOptionalASN1OctetString. rewrite optional_64. destruct (ReadOptionalASN1 s None tag) as [[[[ok i] p] s']|e]; cbn [bind]; [|reflexivity].
    rewrite asn1_64. reflexivity. }
  split.
  { unfold ReadOptionalASN1BooleanW, ReadOptionalASN1Boolean. rewrite optional_64. destruct (ReadOptionalASN1 s None BOOLEAN) as [[[[ok i] p] s']|e]; cbn [bind]; [|reflexivity].
    unfold ReadASN1BooleanW. rewrite asn1_64. reflexivity. }
  intros HB HL. unfold ReadASN1BitStringW, ReadASN1BitString. rewrite asn1_64. destruct (ReadASN1 s None BIT_STRING) as [[[ok bs] s']|e] eqn:HR; cbn [bind]; [|reflexivity].
  destruct ok; cbn [negb orb]; [|reflexivity]. destruct (read_parts _ _ _ _ _ HB HR) as (B1 & _ & L1 & _).
  destruct (slen bs =? 0); [reflexivity|]. destruct (go_index (contents bs) 0) as [p|e] eqn:HP; cbn [bind]; [|reflexivity].
  destruct (go_slice (contents bs) 1 (slen bs)) as [r|e] eqn:HS; cbn [bind]; [|reflexivity]. destruct (Z.ltb_spec 7 p) as [G|G]; [reflexivity|].
  destruct (_ && _); [reflexivity|]. destruct (0 <? zlen r); [destruct (go_index r (zlen r - 1)) as [x|e]; cbn [bind]; [|reflexivity]|cbn [bind]].
  all: assert (HZ : 0 <= zlen r <= slen bs) by
      (split; [apply zlen_nonneg|]; unfold go_slice in HS; destruct (_ && _); [|discriminate HS]; injection HS as <-; unfold sub; unfold zlen; rewrite firstn_length, skipn_length; unfold slen, zlen; lia).
  all: assert (HQ : 0 <= p < 256) by
      (destruct (contents bs) as [|y ys]; [discriminate HP|]; cbn in HP; injection HP as <-; apply bytes_cons in B1; exact (proj1 B1)).
  all: rewrite (i64_small (zlen r * 8)) by lia; rewrite i64_small by lia; reflexivity.
Qed.

(** With 32 bits: a string that starts with a huge element makes the slice expression of String.read
    panic, although on 64 bits the readers report failure and leave everything alone; on every other
    string that fits the memory of a 32-bit platform the results are the same. *)
Theorem C115_exact : forall s out t skip, low s ->
  (huge (contents s) -> readASN1W i32 s out t skip = Panic PSlice /\ exists t', readASN1 s out t skip = Ret (false, out, t', s)) /\
  (~ huge (contents s) -> readASN1W i32 s out t skip = readASN1 s out t skip).
Proof. exact readASN1W_32. Qed.

(** So it is for the readers built on it. *)
Definition panics {A} (x : go A) : Prop := x = Panic PSlice.
Theorem C115_readers_panic : forall s out tag k, low s -> huge (contents s) -> (k = KBig \/ exists bits, k = KInt bits \/ k = KUint bits) ->
  panics (ReadASN1W i32 s out tag) /\ panics (ReadASN1ElementW i32 s out tag) /\ panics (SkipASN1W i32 s tag) /\
  panics (ReadASN1BooleanW i32 s) /\ panics (ReadASN1IntegerW i32 s k) /\ panics (ReadASN1EnumW i32 s) /\
  panics (ReadASN1ObjectIdentifierW i32 s) /\ panics (ReadASN1BitStringW i32 s) /\ panics (ReadASN1BitStringAsBytesW i32 s) /\
  (forall t r, contents s = t :: r -> panics (ReadOptionalASN1W i32 s out t) /\ panics (SkipOptionalASN1W i32 s t)).
Proof.
  intros s out tag k L K Hk. assert (P : forall o t, ReadASN1W i32 s o t = Panic PSlice) by (intros o t; apply (proj1 (asn1_32 s o t L)); exact K).
  split; [apply P|]. split; [unfold ReadASN1ElementW, ReadAnyASN1ElementW; rewrite (proj1 (proj1 (readASN1W_32 s out 0 false L) K)); reflexivity|].
  split; [unfold SkipASN1W; rewrite P; reflexivity|]. split; [unfold ReadASN1BooleanW; rewrite P; reflexivity|].
  split.
  { destruct Hk as [->|(bits & [->| ->])]; unfold ReadASN1IntegerW, readASN1BigIntW, readASN1Int64W, readASN1Uint64W; rewrite P; reflexivity. }
  split; [unfold ReadASN1EnumW; rewrite P; reflexivity|]. split; [unfold ReadASN1ObjectIdentifierW; rewrite P; reflexivity|].
  split; [unfold ReadASN1BitStringW; rewrite P; reflexivity|]. split; [unfold ReadASN1BitStringAsBytesW; rewrite P; reflexivity|].
  intros t r E. unfold ReadOptionalASN1W, SkipOptionalASN1W. rewrite C24_peek, E, Z.eqb_refl. cbn [bind negb]. rewrite !P. split; reflexivity.
Qed.
(** The two readers with a result of type int: ReadASN1Enum refuses a value that does not fit, and the
    length of a bit string of 2^28 bytes or more wraps around. *)
Definition enum32 (x : go (option Z * cstr)) : go (option Z * cstr) :=
  match x with
  | Ret (Some v, s) => Ret (if (- 2 ^ 31 <=? v) && (v <? 2 ^ 31) then Some v else None, s)
  | _ => x
  end.
Definition bits32 (x : go (option (list Z * Z) * cstr)) : go (option (list Z * Z) * cstr) :=
  match x with
  | Ret (Some (l, n), s) => Ret (Some (l, i32 n), s)
  | _ => x
  end.
Lemma i32_idem_sub : forall x y, i32 (i32 x - y) = i32 (x - y).
Proof.
  intros x y. unfold i32. f_equal. replace ((x + 2 ^ 31) mod 2 ^ 32 - 2 ^ 31 - y + 2 ^ 31) with ((x + 2 ^ 31) mod 2 ^ 32 - y) by lia.
  rewrite Zminus_mod_idemp_l. f_equal. lia.
Qed.
Lemma i32_check : forall i, - 2 ^ 63 <= i < 2 ^ 63 -> (i64 (i32 i) =? i) = ((- 2 ^ 31 <=? i) && (i <? 2 ^ 31)).
Proof.
  intros i H. pose proof (i32_range i) as R. rewrite i64_small by lia. apply eq_true_iff_eq. rewrite Z.eqb_eq, andb_true_iff, Z.leb_le, Z.ltb_lt. split.
  - intros E. rewrite <- E. lia.
  - intros [A B]. apply i32_small. lia.
Qed.
Lemma signed_range : forall l i, asn1Signed l = Some i -> - 2 ^ 63 <= i < 2 ^ 63.
Proof.
  intros l i HI. unfold asn1Signed in HI. destruct (Z.ltb_spec 8 (zlen l)) as [|G]; [discriminate HI|]. pose proof (zlen_nonneg _ l) as G0. revert HI. generalize (fold_left (fun out b => Z.lor (i64 (Z.shiftl out 8)) b) l 0).
      intros z HI. assert (HE : i = Z.shiftr (i64 (Z.shiftl z (64 - zlen l * 8))) (64 - zlen l * 8)) by congruence. rewrite HE.
      rewrite Z.shiftr_div_pow2 by lia. set (q := i64 _). assert (Q : - 2 ^ 63 <= q < 2 ^ 63) by (unfold q, i64; match goal with |- context[?a mod ?b] => pose proof (Z.mod_pos_bound a b ltac:(lia)) end; lia).
      set (w := 2 ^ (64 - zlen l * 8)). assert (W : 0 < w) by (apply Z.pow_pos_nonneg; lia). split; [apply Z.div_le_lower_bound; nia|apply Z.div_lt_upper_bound; nia].
Qed.
Theorem C115_readers_same : forall s out tag k, low s -> ~ huge (contents s) ->
  ReadASN1W i32 s out tag = ReadASN1 s out tag /\ ReadASN1ElementW i32 s out tag = ReadASN1Element s out tag /\
  SkipASN1W i32 s tag = SkipASN1 s tag /\ ReadASN1BooleanW i32 s = ReadASN1Boolean s /\
  ReadASN1IntegerW i32 s k = ReadASN1Integer s k /\ ReadASN1EnumW i32 s = enum32 (ReadASN1Enum s) /\
  ReadASN1ObjectIdentifierW i32 s = ReadASN1ObjectIdentifier s /\
  ReadASN1BitStringW i32 s = bits32 (ReadASN1BitString s) /\ ReadASN1BitStringAsBytesW i32 s = ReadASN1BitStringAsBytes s /\
  ReadOptionalASN1W i32 s out tag = ReadOptionalASN1 s out tag /\ SkipOptionalASN1W i32 s tag = SkipOptionalASN1 s tag.
Proof.
  intros s out tag k L K. assert (P : forall o t, ReadASN1W i32 s o t = ReadASN1 s o t) by (intros o t; apply (proj2 (asn1_32 s o t L)); exact K).
  split; [apply P|]. split; [unfold ReadASN1ElementW, ReadAnyASN1ElementW; rewrite (proj2 (readASN1W_32 s out 0 false L) K); reflexivity|].
  split; [unfold SkipASN1W; rewrite P; reflexivity|]. split; [unfold ReadASN1BooleanW; rewrite P; reflexivity|].
  split; [destruct k; unfold ReadASN1IntegerW, readASN1BigIntW, readASN1Int64W, readASN1Uint64W; rewrite ?P; reflexivity|].
  split.
  { unfold ReadASN1EnumW, ReadASN1Enum. rewrite P. destruct (ReadASN1 s None ENUM) as [[[ok o] s']|e]; cbn [bind]; [|reflexivity].
    destruct (_ || _); [reflexivity|]. destruct (asn1Signed (contents o)) as [i|] eqn:HI; [|reflexivity].
    pose proof (signed_range _ _ HI) as R.
    rewrite i32_check by exact R. rewrite (i64_small i) by exact R. rewrite Z.eqb_refl. cbn [negb enum32].
    destruct (Z.leb_spec (- 2 ^ 31) i) as [A|A]; cbn [andb negb]; [|reflexivity]. destruct (Z.ltb_spec i (2 ^ 31)) as [B|B]; cbn [negb]; [|reflexivity].
    rewrite i32_small by lia. reflexivity. }
  split; [unfold ReadASN1ObjectIdentifierW; rewrite P; reflexivity|].
  split.
  { unfold ReadASN1BitStringW, ReadASN1BitString. rewrite P. destruct (ReadASN1 s None BIT_STRING) as [[[ok o] s']|e]; cbn [bind]; [|reflexivity].
    destruct (_ || _); [reflexivity|]. destruct (go_index (contents o) 0) as [p|e]; cbn [bind]; [|reflexivity].
    destruct (go_slice (contents o) 1 (slen o)) as [r|e]; cbn [bind]; [|reflexivity]. destruct (7 <? p); [reflexivity|]. destruct (_ && _); [reflexivity|].
    match goal with |- context[do bad <- ?x; _] => destruct x as [[|]|e] end; cbn [bind bits32]; try reflexivity. rewrite i32_idem_sub. reflexivity. }
  split; [unfold ReadASN1BitStringAsBytesW; rewrite P; reflexivity|].
  unfold ReadOptionalASN1W, SkipOptionalASN1W, ReadOptionalASN1, SkipOptionalASN1. rewrite C24_peek. cbn [bind]. rewrite !P. split; reflexivity.
Qed.

(** The readers of an element inside an optional element: either the call panics, and then it would have
    failed on 64 bits, or the result is the same. *)
Definition agreesV {A} (x32 x64 : go (option A * cstr)) : Prop := (panics x32 /\ exists s', x64 = Ret (None, s')) \/ x32 = x64.
Lemma integer_agrees : forall s k, low s -> (k = KBig \/ exists bits, k = KInt bits \/ k = KUint bits) -> agreesV (ReadASN1IntegerW i32 s k) (ReadASN1Integer s k).
Proof.
  intros s k L Hk. destruct (huge_dec (contents s)) as [K|K].
  - left. split; [apply (C115_readers_panic s None 0 k L K Hk)|].
    destruct Hk as [->|(bits & [->| ->])]; unfold ReadASN1Integer, readASN1BigInt, readASN1Int64, readASN1Uint64;
      rewrite (proj2 (proj1 (asn1_32 s None INTEGER L) K)); cbn [bind negb orb]; eexists; reflexivity.
  - right. apply (C115_readers_same s None 0 k L K).
Qed.
Lemma optional_32 : forall s out tag, low s ->
  (ReadOptionalASN1W i32 s out tag = Panic PSlice /\ exists t' s', ReadOptionalASN1 s out tag = Ret (false, t', true, s')) \/
  (ReadOptionalASN1W i32 s out tag = ReadOptionalASN1 s out tag /\
   (forall ok o p s', low out -> ReadOptionalASN1 s out tag = Ret (ok, o, p, s') -> ok = true -> low o /\ low s')).
Proof.
  intros s out tag L. unfold ReadOptionalASN1W, ReadOptionalASN1. rewrite C24_peek. cbn [bind].
  destruct (match contents s with [] => false | t :: _ => t =? tag end).
  2:{ right. split; [reflexivity|]. intros ok o p s' LO E _. injection E as _ <- _ <-. split; assumption. }
  destruct (asn1_32 s out tag L) as [H1 H2]. destruct (huge_dec (contents s)) as [K|K].
  - left. destruct (H1 K) as [-> ->]. cbn [bind]. split; [reflexivity|]. do 2 eexists. reflexivity.
  - right. rewrite (H2 K). split; [reflexivity|]. intros ok o p s' LO E ->. destruct (ReadASN1 s out tag) as [[[ok' o'] s'']|e] eqn:HR; [|discriminate E]. cbn [bind] in E.
    injection E as -> <- _ <-. destruct (low_parts _ _ _ _ _ L HR) as (A & B & _). split; assumption.
Qed.
Lemma low_none : low None. Proof. split; [constructor|reflexivity]. Qed.
Theorem C115_optional : forall s tag k d b, low s -> (k = KBig \/ exists bits, k = KInt bits \/ k = KUint bits) ->
  agreesV (ReadOptionalASN1IntegerW i32 s k tag d) (ReadOptionalASN1Integer s k tag d) /\
  agreesV (ReadOptionalASN1OctetStringW i32 s tag) (ReadOptionalASN1OctetString s tag) /\
  agreesV (ReadOptionalASN1BooleanW i32 s b) (ReadOptionalASN1Boolean s b).
Proof.
  intros s tag k d b L Hk. split; [|split].
  - unfold ReadOptionalASN1IntegerW, ReadOptionalASN1Integer.
    destruct (optional_32 s None tag L) as [(E & t' & s' & E')|[E LO]].
    { rewrite E, E'. left. destruct Hk as [->|(bits & [->| ->])]; cbn [bind negb]; split; try reflexivity; eexists; reflexivity. }
    rewrite E. destruct (ReadOptionalASN1 s None tag) as [[[[ok i] p] s']|e] eqn:HR; [|destruct Hk as [->|(bits & [->| ->])]; right; reflexivity].
    destruct ok; [|destruct Hk as [->|(bits & [->| ->])]; right; reflexivity]. destruct (LO true i p s' low_none eq_refl eq_refl) as [LI _].
    destruct p; [|destruct Hk as [->|(bits & [->| ->])]; right; reflexivity].
    destruct (integer_agrees i k LI Hk) as [[P (i' & Q)]|Q].
    + left. unfold panics in P. destruct Hk as [->|(bits & [->| ->])]; cbn [bind negb]; rewrite P, Q; cbn [bind]; (split; [reflexivity|eexists; reflexivity]).
    + right. destruct Hk as [->|(bits & [->| ->])]; cbn [bind negb]; rewrite Q; reflexivity.
  - unfold ReadOptionalASN1OctetStringW, ReadOptionalASN1OctetString.
    destruct (optional_32 s None tag L) as [(E & t' & s' & E')|[E LO]].
    { rewrite E, E'. left. cbn [bind negb]. split; [reflexivity|eexists; reflexivity]. }
    rewrite E. destruct (ReadOptionalASN1 s None tag) as [[[[ok i] p] s']|e] eqn:HR; [|right; reflexivity]. cbn [bind].
    destruct ok; cbn [negb]; [|right; reflexivity]. destruct (LO true i p s' low_none eq_refl eq_refl) as [LI _]. destruct p; [|right; reflexivity].
    destruct (asn1_32 i None OCTET_STRING LI) as [H1 H2]. destruct (huge_dec (contents i)) as [K|K].
    + left. destruct (H1 K) as [-> ->]. cbn [bind negb orb]. split; [reflexivity|eexists; reflexivity].
    + right. rewrite (H2 K). reflexivity.
  - unfold ReadOptionalASN1BooleanW, ReadOptionalASN1Boolean.
    destruct (optional_32 s None BOOLEAN L) as [(E & t' & s' & E')|[E LO]].
    { rewrite E, E'. left. cbn [bind negb]. split; [reflexivity|eexists; reflexivity]. }
    rewrite E. destruct (ReadOptionalASN1 s None BOOLEAN) as [[[[ok i] p] s']|e] eqn:HR; [|right; reflexivity]. cbn [bind].
    destruct ok; cbn [negb]; [|right; reflexivity]. destruct (LO true i p s' low_none eq_refl eq_refl) as [_ LS]. destruct p; cbn [negb]; [|right; reflexivity].
    destruct (huge_dec (contents s')) as [K|K].
    + left. split; [apply (C115_readers_panic s' None 0 KBig LS K); left; reflexivity|]. unfold ReadASN1Boolean. rewrite (proj2 (proj1 (asn1_32 s' None INTEGER LS) K)). cbn [bind negb orb]. eexists. reflexivity.
    + right. apply (C115_readers_same s' None 0 KBig LS K).
Qed.

(** * Certificates *)

Section Cert32.
Variable E : netEnv.
(** Either the same result, or a panic where 64 bits give an error. *)
Definition agrees {A} (x32 x64 : go (res A)) : Prop := (panics x32 /\ exists m, x64 = Ret (ERR m)) \/ x32 = x64.

Lemma getValues_agrees : forall fuel s c u, low s -> agrees (getValuesW i32 E fuel s c u) (getValues E fuel s c u).
Proof.
  induction fuel as [|fuel IH]; intros s c u L; cbn [getValuesW getValues]; (destruct (Empty s); [right; reflexivity|]); [right; reflexivity|].
  destruct (asn1_32 s None SEQUENCE L) as [H1 H2]. destruct (huge_dec (contents s)) as [K|K].
  { left. destruct (H1 K) as [-> ->]. cbn [bind negb]. split; [reflexivity|eexists; reflexivity]. }
  rewrite (H2 K). destruct (ReadASN1 s None SEQUENCE) as [[[ok q] s']|e] eqn:HR; [|right; reflexivity]. cbn [bind]. destruct ok; cbn [negb]; [|right; reflexivity].
  destruct (low_parts _ _ _ _ _ L HR) as (LQ & LS & _). unfold ReadAnyASN1W, ReadAnyASN1.
  destruct (readASN1W_32 q None 0 true LQ) as [G1 G2]. destruct (huge_dec (contents q)) as [K'|K'].
  { left. destruct (G1 K') as (-> & t' & ->). cbn [bind negb]. split; [reflexivity|eexists; reflexivity]. }
  rewrite (G2 K'). destruct (readASN1 q None 0 true) as [[[[ok v] t] q']|e]; [|right; reflexivity]. cbn [bind]. destruct ok; cbn [negb]; [|right; reflexivity].
  destruct (parseSubtree E t (contents v) c u) as [[[c' u']|m]|e]; cbn [gbind]; try (right; reflexivity). apply IH. exact LS.
Qed.
Lemma agrees_bind : forall A B (x32 x64 : go (res A)) (f32 f64 : A -> go (res B)), agrees x32 x64 ->
  (forall a, x64 = Ret (OK a) -> agrees (f32 a) (f64 a)) -> agrees (gbind x32 f32) (gbind x64 f64).
Proof.
  intros A B x32 x64 f32 f64 [[P (m & Q)]|Q] H.
  - left. unfold panics in *. rewrite P, Q. split; [reflexivity|eexists; reflexivity].
  - rewrite Q. destruct x64 as [[a|m]|k]; cbn [gbind]; [apply H; reflexivity|right; reflexivity|right; reflexivity].
Qed.
Theorem C115_name_constraints : forall v, bytes v -> zlen v < 2 ^ 31 ->
  agrees (parseNameConstraintsExtensionW i32 E v) (parseNameConstraintsExtension E v) /\
  (huge v -> panics (parseNameConstraintsExtensionW i32 E v)).
Proof.
  intros v HB HL. assert (L : low (Some v)) by (split; assumption).
  split; [|intros K; unfold parseNameConstraintsExtensionW, panics; rewrite (proj1 (proj1 (asn1_32 (Some v) None SEQUENCE L) K)); reflexivity].
  unfold parseNameConstraintsExtensionW, parseNameConstraintsExtension.
  destruct (asn1_32 (Some v) None SEQUENCE L) as [H1 H2]. destruct (huge_dec v) as [K|K].
  { left. destruct (H1 K) as [-> ->]. cbn [bind negb orb]. split; [reflexivity|eexists; reflexivity]. }
  rewrite (H2 K). destruct (ReadASN1 (Some v) None SEQUENCE) as [[[ok top] outer]|e] eqn:HR; [|right; reflexivity]. cbn [bind].
  destruct ok; cbn [negb orb]; [|right; reflexivity]. destruct (Empty outer); cbn [negb]; [|right; reflexivity].
  destruct (low_parts _ _ _ _ _ L HR) as (LT & _ & _).
  destruct (optional_32 top None (constructed (contextSpecific 0)) LT) as [(X & t' & s' & X')|[X LO]].
  { rewrite X, X'. left. cbn [bind negb orb]. split; [reflexivity|eexists; reflexivity]. }
  rewrite X. destruct (ReadOptionalASN1 top None (constructed (contextSpecific 0))) as [[[[ok pm] hp] top2]|e] eqn:HP; [|right; reflexivity]. cbn [bind].
  destruct ok; cbn [negb orb]; [|right; reflexivity]. destruct (LO true pm hp top2 low_none eq_refl eq_refl) as [LP LT2].
  destruct (optional_32 top2 None (constructed (contextSpecific 1)) LT2) as [(Y & t' & s' & Y')|[Y LO2]].
  { rewrite Y, Y'. left. cbn [bind negb orb]. split; [reflexivity|eexists; reflexivity]. }
  rewrite Y. destruct (ReadOptionalASN1 top2 None (constructed (contextSpecific 1))) as [[[[ok ex] hx] top3]|e] eqn:HX; [|right; reflexivity]. cbn [bind].
  destruct ok; cbn [negb orb]; [|right; reflexivity]. destruct (LO2 true ex hx top3 low_none eq_refl eq_refl) as [LX _]. destruct (Empty top3); cbn [negb]; [|right; reflexivity].
  destruct (_ || _); [right; reflexivity|].
  apply agrees_bind; [apply getValues_agrees; exact LP|]. intros [p u] _. apply agrees_bind; [apply getValues_agrees; exact LX|]. intros [x u2] _. right. reflexivity.
Qed.

(** ** encoding/asn1 with an int of 32 bits accepts less, and reads the same *)
Definition narrower {A} (u w : uty A) : Prop :=
  u_any u = u_any w /\ u_comp u = u_comp w /\ (forall t, u_tag u t = u_tag w t) /\
  forall g t full i v, u_body u g t full i = OK v -> u_body w g t full i = OK v.
Lemma narrower_field : forall A (u w : uty A) a p l v, narrower u w -> parseField u a p l = OK v -> parseField w a p l = OK v.
Proof.
  intros A u w a p l v (HA & HC & HT & HBd). unfold parseField. destruct l as [|b l]; [trivial|].
  destruct (parseTagAndLength (b :: l)) as [[t r]|m]; cbn [rbind]; [|trivial]. rewrite HA.
  match goal with |- context[rbind (if fp_explicit p then ?x else ?y)] => destruct (if fp_explicit p then x else y) as [[[t' r']|]|m] end; cbn [rbind]; try trivial.
  rewrite HC, HT. destruct (match fp_tag p with Some n => _ | None => _ end) as [[at' ec] et].
  destruct (_ || _); [trivial|]. destruct (_ <? _); [trivial|].
  match goal with |- context[u_body u ?g ?t ?f ?i] => specialize (HBd g t f i); destruct (u_body u g t f i) as [x|m] end; cbn [rbind]; [|discriminate].
  rewrite (HBd x eq_refl). cbn [rbind]. trivial.
Qed.
Lemma narrower_refl : forall A (u : uty A), narrower u u.
Proof. intros A u. repeat split; trivial. Qed.
Lemma narrower_int : narrower (uIntW i32) uInt.
Proof.
  repeat split. intros g t full i v. cbn [u_body uIntW uInt]. unfold parseIntW. destruct (parseInt64 i) as [x|m]; cbn [rbind]; [|discriminate]. destruct (negb _); [discriminate|trivial].
Qed.
Lemma narrower_struct : forall A (f g : list Z -> list Z -> res A), (forall full l v, f full l = OK v -> g full l = OK v) -> narrower (uStruct f) (uStruct g).
Proof. intros A f g H. repeat split. intros x t full i v. cbn [u_body uStruct]. apply H. Qed.
Lemma narrower_tbs : narrower (uTBSW i32) uTBS.
Proof.
  apply narrower_struct. intros full l v H. destruct (parseField (uIntW i32) 0 (explicitTag 0) l) as [[n l']|m] eqn:F; [|discriminate H].
  rewrite (narrower_field _ _ _ _ _ _ _ narrower_int F). exact H.
Qed.
Lemma narrower_cert : narrower (uCertW i32) uCert.
Proof.
  apply narrower_struct. intros full l v H. destruct (parseField (uTBSW i32) zeroTBS noParams l) as [[n l']|m] eqn:F; [|discriminate H].
  rewrite (narrower_field _ _ _ _ _ _ _ narrower_tbs F). exact H.
Qed.
Lemma narrower_bc : narrower (uBasicConstraintsW i32) uBasicConstraints.
Proof.
  apply narrower_struct. intros full l v H. destruct (parseField uBool false optParams l) as [[n l']|m]; [|discriminate H]. cbn [rbind] in *.
  destruct (parseField (uIntW i32) (-1) optParams l') as [[n2 l2]|m] eqn:F; [|discriminate H]. rewrite (narrower_field _ _ _ _ _ _ _ narrower_int F). exact H.
Qed.
Lemma narrower_all : forall A (u w : uty A) z l v, narrower u w -> unmarshalAll u z l = OK v -> unmarshalAll w z l = OK v.
Proof.
  intros A u w z l v N H. unfold unmarshalAll, unmarshal in *. destruct (parseField u z noParams l) as [[x r]|m] eqn:F; [|discriminate H].
  rewrite (narrower_field _ _ _ _ _ _ _ N F). exact H.
Qed.

(** ** The values of the extensions are no longer than the certificate *)
Definition shortP {A} (n : Z) (u : uty A) (P : A -> Prop) : Prop :=
  forall utag h full body v, bytes full -> bytes body -> zlen body <= n -> u_body u utag h full body = OK v -> P v.
Lemma zlen_sub_le : forall (l : list Z) a b, zlen (sub l a b) <= zlen l.
Proof. intros l a b. unfold sub, zlen. rewrite firstn_length, skipn_length. lia. Qed.
Lemma field_short : forall A (u : uty A) P n absent p l v r, shortP n u P -> P absent -> bytes l -> zlen l <= n ->
  parseField u absent p l = OK (v, r) -> P v /\ bytes r /\ zlen r <= n.
Proof.
  intros A u P n absent p l v r HU HA HB HN H. split.
  2:{ destruct (field_sat _ _ _ _ _ _ _ _ (any_sat _ u) I HB H) as (_ & h & ->). apply bytes_app in HB. rewrite zlen_app in HN. pose proof (zlen_nonneg _ h). split; [apply HB|lia]. }
  unfold parseField in H. destruct l as [|x y] eqn:El.
  { destruct (fp_optional p); [|discriminate H]. injection H as <- <-. exact HA. }
  rewrite <- El in *. clear El x y.
  destruct (parseTagAndLength l) as [[t q]|m] eqn:E1; [|discriminate H]. cbn [rbind] in H.
  destruct (parse_header_inv l t q HB E1) as (_ & _ & h1 & Hl & _).
  assert (Bq : bytes q /\ zlen q <= n) by (rewrite Hl in HB, HN; apply bytes_app in HB; rewrite zlen_app in HN; pose proof (zlen_nonneg _ h1); split; [apply HB|lia]).
  match type of H with rbind ?X _ = _ => set (H0 := X) in H; assert (HH : match H0 with OK (Some (t', q')) => bytes q' /\ zlen q' <= n | _ => True end) end.
  { unfold H0. clear H H0. destruct (fp_explicit p); [|exact Bq]. destruct q as [|x y] eqn:Eq; [exact I|]. rewrite <- Eq in *. clear Eq x y.
    destruct (_ && _); [|destruct (fp_optional p); exact I]. destruct (u_any u); [exact Bq|]. destruct (0 <? tl_length t); [|exact I].
    destruct (parseTagAndLength q) as [[t2 q2]|m2] eqn:E2; [|exact I]. cbn [rbind]. destruct Bq as [Bq Nq].
    destruct (parse_header_inv q t2 q2 Bq E2) as (_ & _ & h2 & Hq & _). rewrite Hq in Bq, Nq. apply bytes_app in Bq. rewrite zlen_app in Nq. pose proof (zlen_nonneg _ h2). split; [apply Bq|lia]. }
  destruct H0 as [[[t2 q2]|]|m]; [| |discriminate H]; cbn [rbind] in H; [|injection H as <- <-; exact HA]. destruct HH as [B2 N2].
  destruct (match fp_tag p with Some n => _ | None => _ end) as [[at' ec] et]. destruct (_ || _); [destruct (fp_optional p); [|discriminate H]; injection H as <- <-; exact HA|].
  destruct (_ <? _); [discriminate H|]. destruct (u_body u _ _ _ _) as [v'|m] eqn:EB; [|discriminate H]. cbn [rbind] in H. injection H as <- <-.
  apply (HU _ _ _ _ _ (bytes_sub _ _ _ HB) (bytes_sub _ _ _ B2)) in EB; [exact EB|]. pose proof (zlen_sub_le q2 0 (tl_length t2)). lia.
Qed.
Lemma any_short : forall A n (u : uty A), shortP n u (fun _ => True).
Proof. intros A n u utag h full body v _ _ _ _. exact I. Qed.
Lemma slice_short : forall A n (u : uty A) P zero isSET, shortP n u P -> P zero -> shortP n (uSlice u zero isSET) (fun o => match o with Some l => Forall P l | None => True end).
Proof.
  intros A n u P zero isSET HU HZ utag h full body v HF HB HN H. cbn [uSlice u_body] in H.
  destruct (parseSequenceOf u zero body) as [vs|m] eqn:ES; [|discriminate H]. cbn [rbind] in H. apply ok_eq in H. subst v.
  unfold parseSequenceOf in ES. destruct (countElements _ _ _) as [k|m]; [|discriminate ES]. cbn [rbind] in ES.
  revert body HB HN vs ES. induction k as [|k IH]; intros l HB HN vs ES; cbn [parseElements] in ES; [apply ok_eq in ES; subst vs; constructor|].
  destruct (parseField u zero noParams l) as [[v r]|m] eqn:EP; [|discriminate ES]. cbn [rbind] in ES.
  destruct (field_short _ _ P n _ _ _ _ _ HU HZ HB HN EP) as (HV & HR & HL).
  destruct (parseElements k u zero r) as [vs'|m] eqn:EE; [|discriminate ES]. cbn [rbind] in ES. apply ok_eq in ES. subst vs.
  constructor; [exact HV|]. apply (IH r); assumption.
Qed.
Definition ext_low (n : Z) (e : Extension) : Prop := bytes (e_value e) /\ zlen (e_value e) <= n.
Ltac step H B N := match type of H with rbind (parseField ?u ?a ?p ?l) _ = OK _ => let v := fresh "v" in let l' := fresh "l" in let Q := fresh "Q" in let Bn := fresh "B" in let Nn := fresh "N" in
  destruct (parseField u a p l) as [[v l']|m] eqn:Q; [|discriminate H]; cbn [rbind] in H;
  destruct (field_short _ u _ _ _ _ _ _ _ (any_short _ _ u) I B N Q) as (_ & Bn & Nn) end.
Lemma extension_short : forall n, 0 <= n -> shortP n uExtension (ext_low n).
Proof.
  intros n Hn utag h full body v HF HB HN H. cbn [uExtension uStruct u_body] in H. step H HB HN. step H B N.
  match type of H with rbind (parseField uOctets None noParams ?l) _ = _ => destruct (parseField uOctets None noParams l) as [[w l3]|m] eqn:E3; [|discriminate H] end. cbn [rbind] in H.
  apply (field_short _ uOctets (fun o => bytes (contents o) /\ zlen (contents o) <= n) n) in E3; try assumption.
  - injection H as <-. exact (proj1 E3).
  - intros ut hh fl bd w' _ Bb Nb EQ. cbn in EQ. injection EQ as <-. split; assumption.
  - split; [constructor|exact Hn].
Qed.
Definition exts_low (n : Z) (t : TBSCertificate) : Prop := match tb_exts t with Some l => Forall (ext_low n) l | None => True end.
Lemma tbs_short : forall n, 0 <= n -> shortP n uTBS (exts_low n).
Proof.
  intros n Hn utag h full body v HF HB HN H. cbn [uTBS uStruct u_body] in H.
  step H HB HN. step H B N. step H B0 N0. step H B1 N1. step H B2 N2. step H B3 N3. step H B4 N4. step H B5 N5. step H B6 N6.
  match type of H with rbind (parseField ?u None ?p ?l) _ = _ => destruct (parseField u None p l) as [[w lz]|m] eqn:E3; [|discriminate H] end. cbn [rbind] in H.
  apply ok_inj in H. subst v. unfold exts_low. cbn [tb_exts].
  exact (proj1 (field_short _ _ _ n None _ _ _ _ (slice_short _ n uExtension (ext_low n) zeroExt false (extension_short n Hn) (conj (Forall_nil _) Hn)) I B7 N7 E3)).
Qed.
Lemma cert_short : forall n, 0 <= n -> shortP n uCert (fun c => exts_low n (ct_tbs c)).
Proof.
  intros n Hn utag h full body v HF HB HN H. cbn [uCert uStruct u_body] in H.
  destruct (parseField uTBS zeroTBS noParams body) as [[t l1]|m] eqn:E1; [|discriminate H]. cbn [rbind] in H.
  destruct (field_short _ _ _ n _ _ _ _ _ (tbs_short n Hn) (I : exts_low n zeroTBS) HB HN E1) as (HT & B & N). step H B N. step H B0 N0. apply ok_inj in H. subst v. exact HT.
Qed.

(** ** The extensions *)
Lemma idCe_19 : forall e f, idCe e = Some 19 -> parseExtension E e f =
  gbind (Ret (unmarshalAll uBasicConstraints (false, 0) (e_value e))) (fun '(isCA, m) => Ret (OK (set_BasicConstraints E true isCA m (m =? 0) f, false))).
Proof. intros e f H. unfold parseExtension. fold (idCe e). rewrite H. reflexivity. Qed.
Lemma idCe_30 : forall e f, idCe e = Some 30 -> parseExtension E e f =
  gbind (parseNameConstraintsExtension E (e_value e)) (fun '(p, x, u) => Ret (OK (set_NameConstraints E (e_critical e) p x f, u))).
Proof. intros e f H. unfold parseExtension. fold (idCe e). rewrite H. reflexivity. Qed.
(** Either they agree, or the 32-bit code gives up. *)
Definition follows {A} (x32 x64 : go (res A)) : Prop := agrees x32 x64 \/ exists m, x32 = Ret (ERR m).
Definition fits32 (e : Extension) : Prop :=
  idCe e = Some 19 -> forall b m, unmarshalAll uBasicConstraints (false, 0) (e_value e) = OK (b, m) -> - 2 ^ 31 <= m < 2 ^ 31.

Lemma agrees_refl : forall A (x : go (res A)), agrees x x.
Proof. intros A x. right. reflexivity. Qed.
Lemma follows_bind : forall A B (x32 x64 : go (res A)) (f32 f64 : A -> go (res B)), follows x32 x64 ->
  (forall a, x64 = Ret (OK a) -> follows (f32 a) (f64 a)) -> follows (gbind x32 f32) (gbind x64 f64).
Proof.
  intros A B x32 x64 f32 f64 [[[P (m & Q)]|Q]|(m & Q)] H.
  - left. left. unfold panics in *. rewrite P, Q. split; [reflexivity|eexists; reflexivity].
  - rewrite Q. destruct x64 as [[a|m]|k]; cbn [gbind]; [apply H; reflexivity|left; apply agrees_refl|left; apply agrees_refl].
  - right. rewrite Q. exists m. reflexivity.
Qed.

(** Conversely what fits is read. *)
Definition widerIf {A} (u w : uty A) (P : A -> Prop) : Prop :=
  u_any u = u_any w /\ u_comp u = u_comp w /\ (forall t, u_tag u t = u_tag w t) /\
  forall g t full i v, u_body w g t full i = OK v -> P v -> u_body u g t full i = OK v.
Lemma wider_field : forall A (u w : uty A) P a p l v r, widerIf u w P -> parseField w a p l = OK (v, r) -> P v -> parseField u a p l = OK (v, r).
Proof.
  intros A u w P a p l v r (HA & HC & HT & HBd). unfold parseField. destruct l as [|b l]; [trivial|].
  destruct (parseTagAndLength (b :: l)) as [[t q]|m]; cbn [rbind]; [|discriminate]. rewrite HA.
  match goal with |- context[rbind (if fp_explicit p then ?x else ?y)] => destruct (if fp_explicit p then x else y) as [[[t' r']|]|m] end; cbn [rbind]; try trivial.
  rewrite HC, HT. destruct (match fp_tag p with Some n => _ | None => _ end) as [[at' ec] et].
  destruct (_ || _); [trivial|]. destruct (_ <? _); [trivial|].
  match goal with |- context[u_body w ?g ?t ?f ?i] => specialize (HBd g t f i); destruct (u_body w g t f i) as [x|m] end; cbn [rbind]; [|discriminate].
  intros H HP. injection H as <- <-. rewrite (HBd x eq_refl HP). reflexivity.
Qed.
Definition int32 (v : Z) : Prop := - 2 ^ 31 <= v < 2 ^ 31.
Lemma wider_int : widerIf (uIntW i32) uInt int32.
Proof.
  repeat split. intros g t full i v. cbn [u_body uIntW uInt]. unfold parseIntW. intros -> R. cbn [rbind]. rewrite i32_small by exact R. rewrite Z.eqb_refl. reflexivity.
Qed.
Lemma wider_struct : forall A (f g : list Z -> list Z -> res A) (P : A -> Prop), (forall full l v, g full l = OK v -> P v -> f full l = OK v) -> widerIf (uStruct f) (uStruct g) P.
Proof. intros A f g P H. repeat split. intros x t full i v. cbn [u_body uStruct]. apply H. Qed.
Lemma wider_tbs : widerIf (uTBSW i32) uTBS (fun t => int32 (tb_version t)).
Proof.
  apply wider_struct. intros full l v H R. destruct (parseField uInt 0 (explicitTag 0) l) as [[n l']|m] eqn:F; [|discriminate H].
  assert (N : n = tb_version v).
  { cbn [rbind] in H. repeat (match type of H with rbind ?x _ = OK _ => destruct x as [[? ?]|]; [|discriminate H]; cbn [rbind] in H end). apply ok_inj in H. subst v. reflexivity. }
  rewrite (wider_field _ _ _ _ _ _ _ _ _ wider_int F) by (rewrite N; exact R). exact H.
Qed.
Lemma wider_cert : widerIf (uCertW i32) uCert (fun c => int32 (tb_version (ct_tbs c))).
Proof.
  apply wider_struct. intros full l v H R. destruct (parseField uTBS zeroTBS noParams l) as [[n l']|m] eqn:F; [|discriminate H].
  assert (N : n = ct_tbs v).
  { cbn [rbind] in H. repeat (match type of H with rbind ?x _ = OK _ => destruct x as [[? ?]|]; [|discriminate H]; cbn [rbind] in H end). apply ok_inj in H. subst v. reflexivity. }
  rewrite (wider_field _ _ _ _ _ _ _ _ _ wider_tbs F) by (rewrite N; exact R). exact H.
Qed.
Lemma wider_bc : widerIf (uBasicConstraintsW i32) uBasicConstraints (fun x => int32 (snd x)).
Proof.
  apply wider_struct. intros full l v H R. destruct (parseField uBool false optParams l) as [[c l']|m]; [|discriminate H]. cbn [rbind] in *.
  destruct (parseField uInt (-1) optParams l') as [[n l2]|m] eqn:F; [|discriminate H]. cbn [rbind] in H. injection H as <-.
  rewrite (wider_field _ _ _ _ _ _ _ _ _ wider_int F R). reflexivity.
Qed.

Lemma extension_follows : forall n e f, n < 2 ^ 31 -> ext_low n e -> follows (parseExtensionW i32 E e f) (parseExtension E e f) /\
  (fits32 e -> agrees (parseExtensionW i32 E e f) (parseExtension E e f) \/ exists m m', parseExtensionW i32 E e f = Ret (ERR m) /\ parseExtension E e f = Ret (ERR m')).
Proof.
  intros n e f HN [HB HL]. unfold parseExtensionW. destruct (idCe e) as [k|] eqn:HI; [|split; [left|intros _; left]; apply agrees_refl].
  destruct (Z.eqb_spec k 19) as [->|N19].
  { rewrite idCe_19 by exact HI. destruct (unmarshalAll (uBasicConstraintsW i32) (false, 0) (e_value e)) as [[b m]|m] eqn:HU.
    - rewrite (narrower_all _ _ _ _ _ _ narrower_bc HU). split; [left|intros _; left]; apply agrees_refl.
    - cbn [gbind]. split; [right; eexists; reflexivity|]. intros FT. right. specialize (FT HI).
      destruct (unmarshalAll uBasicConstraints (false, 0) (e_value e)) as [[b m1]|m1] eqn:HV.
      2:{ cbn [gbind]. do 2 eexists. split; reflexivity. }
      exfalso. specialize (FT b m1 eq_refl). unfold unmarshalAll, unmarshal in HU, HV. destruct (parseField uBasicConstraints (false, 0) noParams (e_value e)) as [[x r]|m2] eqn:F; [|discriminate HV].
      cbn [rbind] in HV. destruct (negb (zlen r =? 0)) eqn:Z0; [discriminate HV|]. apply ok_inj in HV. subst x.
      rewrite (wider_field _ _ _ _ _ _ _ _ _ wider_bc F FT) in HU. cbn [rbind] in HU. rewrite Z0 in HU. discriminate HU. }
  destruct (Z.eqb_spec k 30) as [->|N30].
  { rewrite idCe_30 by exact HI.
    assert (A : agrees (gbind (parseNameConstraintsExtensionW i32 E (e_value e)) (fun '(p, x, u) => Ret (OK (set_NameConstraints E (e_critical e) p x f, u))))
                       (gbind (parseNameConstraintsExtension E (e_value e)) (fun '(p, x, u) => Ret (OK (set_NameConstraints E (e_critical e) p x f, u))))).
    { apply agrees_bind; [apply C115_name_constraints; [exact HB|lia]|]. intros [[p x] u] _. apply agrees_refl. }
    split; [left|intros _; left]; exact A. }
  split; [left|intros _; left]; apply agrees_refl.
Qed.
(** The 64-bit code succeeds only where the 32-bit code does, if the integers fit. *)
Definition keeps {A} (x32 x64 : go (res A)) : Prop := forall a, x64 = Ret (OK a) -> x32 = Ret (OK a).
Lemma extensions_follow : forall n l f u, n < 2 ^ 31 -> Forall (ext_low n) l -> follows (parseExtensionsW i32 E l f u) (parseExtensions E l f u) /\
  (Forall fits32 l -> keeps (parseExtensionsW i32 E l f u) (parseExtensions E l f u)).
Proof.
  intros n l f u HN. revert f u. induction l as [|e l IH]; intros f u HF; cbn [parseExtensionsW parseExtensions].
  { split; [left; apply agrees_refl|]. intros _ a H. exact H. }
  inversion HF as [|? ? He Hl]; subst. destruct (extension_follows n e f HN He) as [F K]. split.
  - apply follows_bind; [exact F|]. intros [f' u'] _. apply IH. exact Hl.
  - intros HX a H. inversion HX as [|? ? Xe Xl]; subst. destruct (K Xe) as [[[P (m & Q)]|Q]|(m & m' & P & Q)].
    + rewrite Q in H. discriminate H.
    + rewrite Q. destruct (parseExtension E e f) as [[[f' u']|m]|k]; cbn [gbind] in *; try discriminate H. apply (IH f' _ Hl); assumption.
    + rewrite Q in H. discriminate H.
Qed.
Definition int64v (t : TBSCertificate) : Prop := - 2 ^ 63 <= tb_version t < 2 ^ 63.
Lemma int_short : forall n, shortP n uInt (fun v => - 2 ^ 63 <= v < 2 ^ 63).
Proof.
  intros n utag h full body v _ _ _ H. cbn [uInt u_body] in H. unfold parseInt64 in H. destruct body as [|b l]; [discriminate H|]. destruct (negb _); [discriminate H|].
  destruct (asn1Signed (b :: l)) as [i|] eqn:HI; [|discriminate H]. apply ok_inj in H. subst v. exact (signed_range _ _ HI).
Qed.
Lemma tbs_version : forall n, shortP n uTBS int64v.
Proof.
  intros n utag h full body v HF HB HN H. cbn [uTBS uStruct u_body] in H.
  destruct (parseField uInt 0 (explicitTag 0) body) as [[w l1]|m] eqn:E1; [|discriminate H]. cbn [rbind] in H.
  assert (Z0 : - 2 ^ 63 <= 0 < 2 ^ 63) by lia. apply (field_short _ uInt _ n _ _ _ _ _ (int_short n) Z0 HB HN) in E1. destruct E1 as (R & _ & _).
  repeat (match type of H with rbind ?x _ = OK _ => destruct x as [[? ?]|]; [|discriminate H]; cbn [rbind] in H end). apply ok_inj in H. subst v. exact R.
Qed.
Lemma cert_version : forall n, shortP n uCert (fun c => int64v (ct_tbs c)).
Proof.
  intros n utag h full body v HF HB HN H. cbn [uCert uStruct u_body] in H.
  destruct (parseField uTBS zeroTBS noParams body) as [[t l1]|m] eqn:E1; [|discriminate H]. cbn [rbind] in H.
  assert (Z0 : int64v zeroTBS) by (unfold int64v; cbn; lia). apply (field_short _ uTBS _ n _ _ _ _ _ (tbs_version n) Z0 HB HN) in E1. destruct E1 as (R & _ & _).
  repeat (match type of H with rbind ?x _ = OK _ => destruct x as [[? ?]|]; [|discriminate H]; cbn [rbind] in H end). apply ok_inj in H. subst v. exact R.
Qed.
(** The certificate with another version number. *)
Definition withVersion (c : Certificate E) (v : Z) : Certificate E :=
  mkX509 E (c_Raw E c) (c_RawTBS E c) (c_RawSPKI E c) (c_RawSubject E c) (c_RawIssuer E c) (c_Signature E c) (c_SignatureAlgorithm E c) (c_PublicKeyAlgorithm E c) (c_PublicKey E c)
    v (c_SerialNumber E c) (c_Issuer E c) (c_Subject E c) (c_NotBefore E c) (c_NotAfter E c) (c_Extensions E c) (c_ExtraExtensions E c) (c_Unhandled E c) (c_fields E c).

Lemma i32_i64 : forall x, i32 (i64 x) = i32 x.
Proof.
  intros x. unfold i32, i64. f_equal. set (y := (x + 2 ^ 63) mod 2 ^ 64). 
  assert (Y : y = x + 2 ^ 63 - 2 ^ 64 * ((x + 2 ^ 63) / 2 ^ 64)) by (unfold y; pose proof (Z.div_mod (x + 2 ^ 63) (2 ^ 64) ltac:(lia)); lia).
  rewrite Y. set (q := (x + 2 ^ 63) / 2 ^ 64). replace (x + 2 ^ 63 - 2 ^ 64 * q - 2 ^ 63 + 2 ^ 31) with (x + 2 ^ 31 + (- (2 ^ 32 * q)) * 2 ^ 32) by (change (2 ^ 64) with (2 ^ 32 * 2 ^ 32); ring).
  apply Z_mod_plus_full.
Qed.
Theorem C115_certificate : forall der, bytes der -> zlen der < 2 ^ 31 ->
  (forall k, ParseCertificateW i32 E der = Panic k -> k = PSlice /\ exists m, ParseCertificate E der = Ret (ERR m)) /\
  (forall c, ParseCertificateW i32 E der = Ret (OK c) -> exists c', ParseCertificate E der = Ret (OK c') /\ c = withVersion c' (i32 (c_Version E c'))) /\
  (forall c, ParseCertificate E der = Ret (OK c) -> - 2 ^ 31 < c_Version E c < 2 ^ 31 -> Forall fits32 (c_Extensions E c) -> ParseCertificateW i32 E der = Ret (OK c)).
Proof.
  intros der HB HL. unfold ParseCertificateW, ParseCertificate, unmarshal.
  pose proof (zlen_nonneg _ der) as HN0.
  destruct (parseField uCert zeroCert noParams der) as [[c0 r0]|m0] eqn:F64.
  2:{ destruct (parseField (uCertW i32) zeroCert noParams der) as [x|m] eqn:F32; [rewrite (narrower_field _ _ _ _ _ _ _ narrower_cert F32) in F64; discriminate F64|].
      cbn [gbind]. split; [discriminate|]. split; discriminate. }
  destruct (field_short _ _ _ _ _ _ _ _ _ (cert_short (zlen der) HN0) (I : exts_low (zlen der) (ct_tbs zeroCert)) HB (Z.le_refl _) F64) as (HX & _ & _).
  assert (XL : Forall (ext_low (zlen der)) (match tb_exts (ct_tbs c0) with Some l => l | None => [] end)).
  { unfold exts_low in HX. destruct (tb_exts (ct_tbs c0)); [exact HX|constructor]. }
  assert (EXT : forall f u, follows (parseExtensionsW i32 E (match tb_exts (ct_tbs c0) with Some l => l | None => [] end) f u) (parseExtensions E (match tb_exts (ct_tbs c0) with Some l => l | None => [] end) f u) /\
     (Forall fits32 (match tb_exts (ct_tbs c0) with Some l => l | None => [] end) -> keeps (parseExtensionsW i32 E (match tb_exts (ct_tbs c0) with Some l => l | None => [] end) f u) (parseExtensions E (match tb_exts (ct_tbs c0) with Some l => l | None => [] end) f u))).
  { intros f u. apply (extensions_follow (zlen der)); assumption. }
  assert (ENDS : forall f u, ends (parseExtensions E (match tb_exts (ct_tbs c0) with Some l => l | None => [] end) f u)).
  { intros f u. apply parseExtensions_ends. revert XL. apply Forall_impl. intros e [Be _]. exact Be. }
  assert (MAIN : parseField (uCertW i32) zeroCert noParams der = OK (c0, r0) \/ exists m, parseField (uCertW i32) zeroCert noParams der = ERR m).
  { destruct (parseField (uCertW i32) zeroCert noParams der) as [x|m] eqn:F32; [left|right; eexists; reflexivity].
    rewrite (narrower_field _ _ _ _ _ _ _ narrower_cert F32) in F64. rewrite F64. reflexivity. }
  assert (VR : - 2 ^ 31 < i64 (tb_version (ct_tbs c0) + 1) < 2 ^ 31 -> - 2 ^ 31 < tb_version (ct_tbs c0) + 1 < 2 ^ 31).
  { assert (Z0 : int64v (ct_tbs zeroCert)) by (unfold int64v; cbn; lia). destruct (field_short _ _ _ _ _ _ _ _ _ (cert_version (zlen der)) Z0 HB (Z.le_refl _) F64) as (HV & _ & _). unfold int64v in HV.
    destruct (Z.eq_dec (tb_version (ct_tbs c0)) (2 ^ 63 - 1)) as [E1|E1]; [rewrite E1; cbn; lia|]. rewrite i64_small by lia. trivial. }
  cbn [gbind].
  assert (FITS : forall c, (if negb (zlen r0 =? 0) then Ret (ERR "trailing data") else parseCertificate E c0) = Ret (OK c) ->
    c_Version E c = i64 (tb_version (ct_tbs c0) + 1) /\ c_Extensions E c = match tb_exts (ct_tbs c0) with Some l => l | None => [] end).
  { intros c H. destruct (negb (zlen r0 =? 0)); [discriminate H|]. unfold parseCertificate in H. destruct (negb _); [discriminate H|]. destruct (negb _); [discriminate H|].
    destruct (parsePublicKey _) as [pub|m]; [|discriminate H]. cbn [gbind] in H. destruct (unmarshalAll _ _ (rv_full (tb_subject _))) as [sj|m]; [|discriminate H]. cbn [gbind] in H.
    destruct (unmarshalAll _ _ (rv_full (tb_issuer _))) as [is|m]; [|discriminate H]. cbn [gbind] in H.
    destruct (parseExtensions E _ _ _) as [[[fl un]|m]|k]; [|discriminate H|discriminate H]. cbn [gbind] in H. apply ret_inj, ok_inj in H. subst c. split; reflexivity. }
  destruct MAIN as [F32|(m & F32)]; rewrite F32; cbn [gbind].
  2:{ split; [discriminate|]. split; [discriminate|]. intros c H RV FX. exfalso. destruct (FITS c H) as [HV _]. rewrite HV in RV.
      apply VR in RV. assert (R : int32 (tb_version (ct_tbs c0))) by (unfold int32; lia).
      rewrite (wider_field _ _ _ _ _ _ _ _ _ wider_cert F64 R) in F32. discriminate F32. }
  destruct (negb (zlen r0 =? 0)); [split; [discriminate|]; split; discriminate|].
  unfold parseCertificateW, parseCertificate in *. destruct (negb _); [split; [discriminate|]; split; discriminate|]. destruct (negb _); [split; [discriminate|]; split; discriminate|].
  destruct (parsePublicKey _) as [pub|m]; cbn [gbind] in *; [|split; [discriminate|]; split; discriminate].
  destruct (unmarshalAll _ _ (rv_full (tb_subject _))) as [sj|m]; cbn [gbind] in *; [|split; [discriminate|]; split; discriminate].
  destruct (unmarshalAll _ _ (rv_full (tb_issuer _))) as [is|m]; cbn [gbind] in *; [|split; [discriminate|]; split; discriminate].
  destruct (EXT (zeroFields E) []) as [FO KE]. destruct (ENDS (zeroFields E) []) as [x HE]. rewrite HE in *.
  split; [|split].
  - intros k H. destruct FO as [[[P (m & Q)]|Q]|(m & Q)].
    + unfold panics in P. rewrite P in H. injection H as <-. split; [reflexivity|]. injection Q as ->. exists m. reflexivity.
    + rewrite Q in H. destruct x as [[fl un]|m]; discriminate H.
    + rewrite Q in H. discriminate H.
  - intros c H. destruct FO as [[[P _]|Q]|(m & Q)]; [unfold panics in P; rewrite P in H; discriminate H| |rewrite Q in H; discriminate H].
    rewrite Q in H. destruct x as [[fl un]|m]; [|discriminate H]. cbn [gbind] in *. eexists. split; [reflexivity|]. apply ret_inj, ok_inj in H. rewrite <- H. unfold withVersion.
    cbn [c_Raw c_RawTBS c_RawSPKI c_RawSubject c_RawIssuer c_Signature c_SignatureAlgorithm c_PublicKeyAlgorithm c_PublicKey c_Version c_SerialNumber c_Issuer c_Subject c_NotBefore c_NotAfter c_Extensions c_ExtraExtensions c_Unhandled c_fields].
    rewrite i32_i64. reflexivity.
  - intros c H RV FX. destruct x as [[fl un]|m]; [|discriminate H]. destruct (FITS c H) as [HV HX2]. rewrite HX2 in FX. rewrite (KE FX (fl, un) eq_refl). cbn [gbind] in *.
    apply ret_inj, ok_inj in H. rewrite <- H in *. cbn [c_Version] in RV, HV. 
    apply VR in RV. rewrite i32_small, i64_small by lia. reflexivity.
Qed.

(** A name-constraints extension with a huge value is enough, whatever follows it. *)
Theorem C115_attack : forall pre e post f u f' u', parseExtensionsW i32 E pre f u = Ret (OK (f', u')) ->
  e_id e = [2; 5; 29; 30] -> bytes (e_value e) -> zlen (e_value e) < 2 ^ 31 -> huge (e_value e) -> panics (parseExtensionsW i32 E (pre ++ e :: post) f u).
Proof.
  induction pre as [|x pre IH]; intros e post f u f' u' H HI HB HL K; cbn [app parseExtensionsW] in *.
  - unfold parseExtensionW, idCe. rewrite HI. cbn [andb Z.eqb Pos.eqb]. unfold panics. rewrite (proj2 (C115_name_constraints (e_value e) HB HL) K). reflexivity.
  - destruct (parseExtensionW i32 E x f) as [[[f1 u1]|m]|k]; [|discriminate H|discriminate H]. cbn [gbind] in *. apply (IH e post _ _ _ _ H); assumption.
Qed.

(** With 64 bits the parser of CbWidth.v is that of Cert.v. *)
Lemma parseIntW_64 : forall i, parseIntW i64 i = parseInt64 i.
Proof.
  intros i. unfold parseIntW. destruct (parseInt64 i) as [v|m] eqn:H; cbn [rbind]; [|reflexivity]. unfold parseInt64 in H. destruct i as [|b l]; [discriminate H|]. destruct (negb _); [discriminate H|].
  destruct (asn1Signed (b :: l)) as [x|] eqn:HS; [|discriminate H]. apply ok_inj in H. subst x. rewrite i64_small by exact (signed_range _ _ HS). rewrite Z.eqb_refl. reflexivity.
Qed.
Definition same {A} (u w : uty A) : Prop :=
  u_any u = u_any w /\ u_comp u = u_comp w /\ (forall t, u_tag u t = u_tag w t) /\ forall g t full i, u_body u g t full i = u_body w g t full i.
Lemma same_field : forall A (u w : uty A) a p l, same u w -> parseField u a p l = parseField w a p l.
Proof.
  intros A u w a p l (HA & HC & HT & HBd). unfold parseField. destruct l as [|b l]; [reflexivity|].
  destruct (parseTagAndLength (b :: l)) as [[t r]|m]; cbn [rbind]; [|reflexivity]. rewrite HA.
  match goal with |- context[rbind (if fp_explicit p then ?x else ?y)] => destruct (if fp_explicit p then x else y) as [[[t' r']|]|m] end; cbn [rbind]; try reflexivity.
  rewrite HC, HT. destruct (match fp_tag p with Some n => _ | None => _ end) as [[at' ec] et]. destruct (_ || _); [reflexivity|]. destruct (_ <? _); [reflexivity|]. rewrite HBd. reflexivity.
Qed.
Lemma same_int : same (uIntW i64) uInt.
Proof. repeat split. intros g t full i. apply parseIntW_64. Qed.
Lemma same_struct : forall A (f g : list Z -> list Z -> res A), (forall full l, f full l = g full l) -> same (uStruct f) (uStruct g).
Proof. intros A f g H. repeat split. intros x t full i. apply H. Qed.
Lemma same_tbs : same (uTBSW i64) uTBS.
Proof. apply same_struct. intros full l. rewrite (same_field _ _ _ _ _ _ same_int). reflexivity. Qed.
Lemma same_cert : same (uCertW i64) uCert.
Proof. apply same_struct. intros full l. rewrite (same_field _ _ _ _ _ _ same_tbs). reflexivity. Qed.
Lemma same_bc : same (uBasicConstraintsW i64) uBasicConstraints.
Proof.
  apply same_struct. intros full l. destruct (parseField uBool false optParams l) as [[c l']|m]; cbn [rbind]; [|reflexivity]. rewrite (same_field _ _ _ _ _ _ same_int). reflexivity.
Qed.
Lemma getValues_64 : forall fuel s c u, getValuesW i64 E fuel s c u = getValues E fuel s c u.
Proof.
  induction fuel as [|fuel IH]; intros s c u; cbn [getValuesW getValues]; (destruct (Empty s); [reflexivity|]); [reflexivity|].
  rewrite asn1_64. destruct (ReadASN1 s None SEQUENCE) as [[[ok q] s']|e]; cbn [bind]; [|reflexivity]. destruct (negb ok); [reflexivity|].
  rewrite any_64. destruct (ReadAnyASN1 q None 0) as [[[[ok' v] t] q']|e]; cbn [bind]; [|reflexivity]. destruct (negb ok'); [reflexivity|].
  destruct (parseSubtree E t (contents v) c u) as [[[c' u']|m]|e]; cbn [gbind]; try reflexivity. apply IH.
Qed.
Lemma nameConstraints_64 : forall v, parseNameConstraintsExtensionW i64 E v = parseNameConstraintsExtension E v.
Proof.
  intros v. unfold parseNameConstraintsExtensionW, parseNameConstraintsExtension. rewrite asn1_64. destruct (ReadASN1 (Some v) None SEQUENCE) as [[[ok top] outer]|e]; cbn [bind]; [|reflexivity].
  destruct (_ || _); [reflexivity|]. rewrite optional_64. destruct (ReadOptionalASN1 top None (constructed (contextSpecific 0))) as [[[[ok1 pm] hp] top2]|e]; cbn [bind]; [|reflexivity].
  destruct (negb ok1); [reflexivity|]. rewrite optional_64. destruct (ReadOptionalASN1 top2 None (constructed (contextSpecific 1))) as [[[[ok2 ex] hx] top3]|e]; cbn [bind]; [|reflexivity].
  destruct (_ || _); [reflexivity|]. destruct (_ || _); [reflexivity|]. rewrite getValues_64.
  destruct (getValues E _ pm _ _) as [[[p u]|m]|e]; cbn [gbind]; try reflexivity. rewrite getValues_64. reflexivity.
Qed.
Lemma extension_64 : forall e f, parseExtensionW i64 E e f = parseExtension E e f.
Proof.
  intros e f. unfold parseExtensionW. destruct (idCe e) as [k|] eqn:HI; [|reflexivity].
  destruct (Z.eqb_spec k 19) as [->|]; [rewrite idCe_19 by exact HI; unfold unmarshalAll, unmarshal; rewrite (same_field _ _ _ _ _ _ same_bc); reflexivity|].
  destruct (Z.eqb_spec k 30) as [->|]; [rewrite idCe_30 by exact HI; rewrite nameConstraints_64; reflexivity|reflexivity].
Qed.
Lemma extensions_64 : forall l f u, parseExtensionsW i64 E l f u = parseExtensions E l f u.
Proof.
  induction l as [|e l IH]; intros f u; cbn [parseExtensionsW parseExtensions]; [reflexivity|]. rewrite extension_64.
  destruct (parseExtension E e f) as [[[f' u']|m]|k]; cbn [gbind]; try reflexivity. apply IH.
Qed.
Theorem C115_wide_certificate : forall der, ParseCertificateW i64 E der = ParseCertificate E der.
Proof.
  intros der. unfold ParseCertificateW, ParseCertificate, unmarshal. rewrite (same_field _ _ _ _ _ _ same_cert).
  destruct (parseField uCert zeroCert noParams der) as [[c r]|m]; cbn [gbind]; [|reflexivity]. destruct (negb _); [reflexivity|]. unfold parseCertificateW, parseCertificate.
  destruct (negb _); [reflexivity|]. destruct (negb _); [reflexivity|]. destruct (parsePublicKey _) as [pub|m]; cbn [gbind]; [|reflexivity].
  destruct (unmarshalAll _ _ _) as [sj|m]; cbn [gbind]; [|reflexivity]. destruct (unmarshalAll _ _ _) as [is|m]; cbn [gbind]; [|reflexivity]. rewrite extensions_64. reflexivity.
Qed.
End Cert32.

(** * Examples *)

(** Six bytes are enough for the readers; in a certificate they are the value of an extension. *)
Definition bomb : list Z := [48; 132; 128; 0; 0; 0].
Example C115_ex_huge : huge bomb /\ bytes bomb /\ zlen bomb < 2 ^ 31.
Proof. split; [apply hugeb_iff; vm_compute; reflexivity|]. split; [apply bytes_forallb; vm_compute; reflexivity|reflexivity]. Qed.
Definition ex_tbs_with (version key exts : list Z) : list Z :=
  tlv 48 (tlv 48 (tlv 160 version ++ [2; 1; 77] ++ sm2sm3_alg ++ ex_name ++
      tlv 48 (tlv 23 [50; 54; 48; 49; 48; 49; 48; 48; 48; 48; 48; 48; 90] ++ tlv 23 [50; 55; 48; 49; 48; 49; 48; 48; 48; 48; 48; 48; 90]) ++ ex_name ++ key ++ exts) ++
      sm2sm3_alg ++ tlv 3 [0; 48; 6; 2; 1; 1; 2; 1; 1]).
Definition ex_exts_with (oid v : list Z) : list Z := tlv 163 (tlv 48 (tlv 48 (tlv 6 oid ++ tlv 4 v))).
Definition ex_bomb : list Z := ex_tbs_with [2; 1; 2] ex_key (ex_exts_with [85; 29; 30] bomb).
(** No panic whatever the bytes: C83 says so for 64 bits, and with 32 bits it is false. *)
Theorem C115_total_refuted : exists der, bytes der /\ zlen der < 2 ^ 31 /\
  ParseCertificateW i32 noNet der = Panic PSlice /\ ParseCertificate noNet der = Ret (ERR "x509: invalid NameConstraints extension").
Proof.
  exists ex_bomb. split; [apply bytes_forallb; vm_compute; reflexivity|]. split; [vm_compute; reflexivity|]. split; vm_compute; reflexivity.
Qed.
(** The version 2^31 - 1 is read as such with 64 bits, and as a negative number plus one with 32; 2^31 and
    a path length of 2^31 are errors with 32 bits only. *)
Definition ex_version : list Z := ex_tbs_with [2; 4; 127; 255; 255; 255] ex_key [].
Definition okCert {A} (x : go (res A)) : bool := match x with Ret (OK _) => true | _ => false end.
Definition versionOf (x : go (res (Certificate noNet))) : option Z := match x with Ret (OK c) => Some (c_Version noNet c) | _ => None end.
Example C115_ex_version : versionOf (ParseCertificateW i32 noNet ex_version) = Some (- 2 ^ 31) /\ versionOf (ParseCertificate noNet ex_version) = Some (2 ^ 31).
Proof. split; vm_compute; reflexivity. Qed.
Definition ex_version2 : list Z := ex_tbs_with [2; 5; 0; 128; 0; 0; 0] ex_key [].
Definition ex_pathlen : list Z := ex_tbs_with [2; 1; 2] ex_key (ex_exts_with [85; 29; 19] (tlv 48 [1; 1; 255; 2; 5; 0; 128; 0; 0; 0])).
Example C115_ex_refused :
  ParseCertificateW i32 noNet ex_version2 = Ret (ERR "integer too large") /\ ParseCertificateW i32 noNet ex_pathlen = Ret (ERR "integer too large") /\
  okCert (ParseCertificate noNet ex_version2) = true /\ okCert (ParseCertificate noNet ex_pathlen) = true.
Proof. split; [vm_compute; reflexivity|]. split; [vm_compute; reflexivity|]. split; vm_compute; reflexivity. Qed.
(** The hypotheses of the third part of C115_certificate: an ordinary certificate. *)
Definition ex_ordinary : list Z := ex_tbs_with [2; 1; 2] ex_key (ex_exts_with [85; 29; 19] (tlv 48 [1; 1; 255])).
Definition extsOf (x : go (res (Certificate noNet))) : list Extension := match x with Ret (OK c) => c_Extensions noNet c | _ => [] end.
Example C115_ex_ordinary : exists c, ParseCertificate noNet ex_ordinary = Ret (OK c) /\
  - 2 ^ 31 < c_Version noNet c < 2 ^ 31 /\ Forall fits32 (c_Extensions noNet c) /\ c_Extensions noNet c <> [].
Proof.
  assert (V : versionOf (ParseCertificate noNet ex_ordinary) = Some 3) by (vm_compute; reflexivity).
  assert (X : extsOf (ParseCertificate noNet ex_ordinary) = [mkExt [2; 5; 29; 19] false (tlv 48 [1; 1; 255])]) by (vm_compute; reflexivity).
  destruct (ParseCertificate noNet ex_ordinary) as [[c|m]|k]; try discriminate V. cbn [versionOf extsOf] in *. exists c. split; [reflexivity|]. injection V as V. rewrite V, X.
  split; [split; reflexivity|]. split; [|discriminate]. constructor; [|constructor]. intros _ b m H. cbn [e_value] in H. 
  assert (Y : match unmarshalAll uBasicConstraints (false, 0) (tlv 48 [1; 1; 255]) with OK (_, z) => z | ERR _ => 0 end = -1) by (vm_compute; reflexivity).
  rewrite H in Y. rewrite Y. split; [discriminate|reflexivity].
Qed.
(** The readers: an enumeration beyond 2^31 fails; an integer of type int64 is read. *)
Example C115_ex_enum : ReadASN1EnumW i32 (Some [10; 5; 0; 128; 0; 0; 0]) = Ret (None, Some []) /\ ReadASN1Enum (Some [10; 5; 0; 128; 0; 0; 0]) = Ret (Some (2 ^ 31), Some []) /\
  ReadASN1IntegerW i32 (Some [2; 5; 0; 128; 0; 0; 0]) (KInt 64) = Ret (Some (2 ^ 31), Some []).
Proof. repeat split. Qed.
(** An optional element with a huge element inside. *)
Example C115_ex_optional : panics (ReadOptionalASN1IntegerW i32 (Some (tlv 160 [2; 132; 255; 255; 255; 0])) (KInt 64) 160 0) /\
  ReadOptionalASN1Integer (Some (tlv 160 [2; 132; 255; 255; 255; 0])) (KInt 64) 160 0 = Ret (None, Some []).
Proof. split; reflexivity. Qed.
