(** Properties of the extensions of sm2/cert/gmx509.go: what buildExtensions writes for a template is
    what parseCertificate reads back. C62, C66, C68 and the other plain extensions. *)
From Coq Require Import ZArith List Lia Bool String.
From Verif Require Import GoBase BeMin CbString CbStringProofs CbBuilder CbBuilderProofs CbAsn1Proofs GoAsn1 GoAsn1Proofs.
From Verif Require Import Sm2Der PropsSm2Der GoText GoPkix CertText PropsCertText Cert CertRt.
Import ListNotations.
Open Scope Z_scope.

(** * C62: key usage *)

Lemma land1_testbit : forall b i, 0 <= i -> (Z.land (Z.shiftr b i) 1 =? 1) = Z.testbit b i.
Proof.
  intros b i Hi. change 1 with (Z.ones 1) at 1. rewrite Z.land_ones by lia.
  replace (Z.testbit b i) with (Z.testbit (Z.shiftr b i) 0) by (rewrite Z.shiftr_spec by lia; reflexivity).
  rewrite Z.bit0_odd, Zodd_mod. change (2 ^ 1) with 2. destruct (Zeq_bool _ _) eqn:E; [apply Zeq_bool_eq in E|apply Zeq_bool_neq in E].
  - rewrite E. reflexivity.
  - apply Z.eqb_neq. exact E.
Qed.

Lemma bitLoop_spec : forall k b i n, 0 <= i ->
  match bitLoop k b i n with
  | inl m => exists j, 0 <= j < Z.of_nat k /\ m = n - j /\ Z.testbit b (i + j) = true /\
                       forall t, 0 <= t < j -> Z.testbit b (i + t) = false
  | inr m => m = n - Z.of_nat k /\ forall t, 0 <= t < Z.of_nat k -> Z.testbit b (i + t) = false
  end.
Proof.
  induction k as [|k IH]; intros b i n Hi; cbn [bitLoop].
  - split; [lia|]. intros. lia.
  - rewrite land1_testbit by exact Hi. destruct (Z.testbit b i) eqn:B.
    + exists 0. split; [lia|]. split; [lia|]. rewrite Z.add_0_r. split; [exact B|]. intros. lia.
    + specialize (IH b (i + 1) (n - 1) ltac:(lia)). destruct (bitLoop k b (i + 1) (n - 1)) as [m|m].
      * destruct IH as (j & Hj & -> & Hb & Hz). exists (j + 1). split; [lia|]. split; [lia|].
        replace (i + (j + 1)) with (i + 1 + j) by lia. split; [exact Hb|]. intros t Ht.
        destruct (Z.eq_dec t 0) as [->|N]; [rewrite Z.add_0_r; exact B|].
        replace (i + t) with (i + 1 + (t - 1)) by lia. apply Hz. lia.
      * destruct IH as [-> Hz]. split; [lia|]. intros t Ht.
        destruct (Z.eq_dec t 0) as [->|N]; [rewrite Z.add_0_r; exact B|].
        replace (i + t) with (i + 1 + (t - 1)) by lia. apply Hz. lia.
Qed.

Lemma byte_testbit_high : forall b i, byte b -> 8 <= i -> Z.testbit b i = false.
Proof.
  intros b i [H0 H1] Hi. destruct (Z.eq_dec b 0) as [->|N]; [apply Z.testbit_0_l|].
  apply Z.bits_above_log2; [lia|]. apply Z.log2_lt_pow2; [lia|].
  apply Z.lt_le_trans with (2 ^ 8); [change (2 ^ 8) with 256; lia|]. apply Z.pow_le_mono_r; lia.
Qed.
Lemma byte_bits_zero : forall b, byte b -> (forall t, 0 <= t < 8 -> Z.testbit b t = false) -> b = 0.
Proof.
  intros b Hb H. apply Z.bits_inj'. intros t Ht. rewrite Z.testbit_0_l.
  destruct (Z_lt_le_dec t 8); [apply H; lia|apply byte_testbit_high; assumption].
Qed.
(** The length leaves out exactly the zero bits at the end. *)
Lemma bitLength_last : forall l b, byte b -> b <> 0 -> exists j, 0 <= j < 8 /\
  asn1BitLength (l ++ [b]) = zlen (l ++ [b]) * 8 - j /\ Z.testbit b j = true /\
  forall t, 0 <= t < j -> Z.testbit b t = false.
Proof.
  intros l b Hb N. unfold asn1BitLength. rewrite rev_app_distr. cbn [rev app bitLengthLoop].
  pose proof (bitLoop_spec 8 b 0 (zlen (l ++ [b]) * 8) ltac:(lia)) as H.
  destruct (bitLoop 8 b 0 (zlen (l ++ [b]) * 8)) as [m|m].
  - destruct H as (j & Hj & -> & Ht & Hz). exists j. split; [lia|]. split; [reflexivity|]. split; [exact Ht|]. exact Hz.
  - destruct H as [_ H]. exfalso. apply N. apply byte_bits_zero; [exact Hb|]. intros t Ht. apply (H t). lia.
Qed.

Lemma reverse_bits : forall b, byte b -> byte (reverseBitsInAByte b) /\
  forall i, 0 <= i < 8 -> Z.testbit (reverseBitsInAByte b) i = Z.testbit b (7 - i).
Proof.
  assert (F : forallb (fun b => (0 <=? reverseBitsInAByte b) && (reverseBitsInAByte b <? 256) &&
                forallb (fun i => Bool.eqb (Z.testbit (reverseBitsInAByte b) i) (Z.testbit b (7 - i)))
                        [0; 1; 2; 3; 4; 5; 6; 7]) (map Z.of_nat (seq 0 256)) = true) by (vm_compute; reflexivity).
  intros b Hb. pose proof (byte_all (fun b => byte (reverseBitsInAByte b) /\
    forall i, 0 <= i < 8 -> Z.testbit (reverseBitsInAByte b) i = Z.testbit b (7 - i))) as K. apply K; [|exact Hb].
  apply Forall_forall. intros x Hx. rewrite forallb_forall in F. apply F in Hx. apply andb_prop in Hx. destruct Hx as [Hx Hy].
  apply andb_prop in Hx. destruct Hx as [H1 H2]. apply Z.leb_le in H1. apply Z.ltb_lt in H2. split; [split; assumption|].
  intros i Hi. rewrite forallb_forall in Hy. apply eqb_prop. apply Hy. cbn. lia.
Qed.

Lemma mod_pow_zero : forall b j, 0 <= j -> (forall t, 0 <= t < j -> Z.testbit b t = false) -> b mod 2 ^ j = 0.
Proof.
  intros b j Hj H. apply Z.bits_inj'. intros t Ht. rewrite Z.testbit_0_l.
  destruct (Z_lt_le_dec t j); [rewrite Z.mod_pow2_bits_low by lia; apply H; lia|apply Z.mod_pow2_bits_high; lia].
Qed.
Lemma bits_ok_length : forall l b, bytes l -> byte b -> b <> 0 -> bits_ok (mkBits (l ++ [b]) (asn1BitLength (l ++ [b]))).
Proof.
  intros l b Hl Hb N. destruct (bitLength_last l b Hb N) as (j & Hj & E & _ & Hz). split.
  - cbn [bs_bytes]. apply Forall_app. split; [exact Hl|]. constructor; [exact Hb|constructor].
  - exists j. cbn [bs_bytes bs_len]. split; [exact Hj|]. split; [exact E|]. split.
    + intros K. apply app_eq_nil in K. destruct K as [_ K]. discriminate K.
    + rewrite last_last. apply mod_pow_zero; [lia|exact Hz].
Qed.

(** The bits of a bit string, counted from the front. *)
Definition bitOf (b : BitString) (i : Z) : bool :=
  (i <? bs_len b) && Z.testbit (nth (Z.to_nat (i / 8)) (bs_bytes b) 0) (7 - i mod 8).
Lemma bitsAt_ok : forall b i, bs_len b <= zlen (bs_bytes b) * 8 -> 0 <= i ->
  bitsAt b i = Ret (if bitOf b i then 1 else 0).
Proof.
  intros b i HL Hi. unfold bitsAt, bitOf. destruct (Z.ltb_spec i 0); [lia|]. cbn [orb].
  destruct (Z.leb_spec (bs_len b) i) as [L|L]; destruct (Z.ltb_spec i (bs_len b)) as [L'|L']; try lia; [reflexivity|].
  cbn [andb]. assert (0 <= i / 8 < zlen (bs_bytes b)) by (split; [apply Z.div_pos; lia|apply Z.div_lt_upper_bound; lia]).
  rewrite (go_index_ret _ _ _ 0) by assumption. cbn [bind].
  pose proof (Z.mod_pos_bound i 8 ltac:(lia)).
  rewrite <- land1_testbit by lia.
  change 1 with (Z.ones 1) at 1 2. rewrite Z.land_ones by lia. change (2 ^ 1) with 2.
  pose proof (Z.mod_pos_bound (Z.shiftr (nth (Z.to_nat (i / 8)) (bs_bytes b) 0) (7 - i mod 8)) 2 ltac:(lia)).
  destruct (Z.eqb_spec (Z.shiftr (nth (Z.to_nat (i / 8)) (bs_bytes b) 0) (7 - i mod 8) mod 2) 1) as [->|]; [reflexivity|].
  f_equal. lia.
Qed.
Lemma usageLoop_ok : forall b n i usage, bs_len b <= zlen (bs_bytes b) * 8 -> 0 <= i -> exists v,
  usageLoop n i b usage = Ret v /\
  forall j, 0 <= j -> Z.testbit v j = Z.testbit usage j || ((i <=? j) && (j <? i + Z.of_nat n) && bitOf b j).
Proof.
  intros b n. induction n as [|n IH]; intros i usage HL Hi; cbn [usageLoop].
  - exists usage. split; [reflexivity|]. intros j Hj. destruct (Z.leb_spec i j), (Z.ltb_spec j (i + Z.of_nat 0)); try lia;
      rewrite ?orb_false_r; reflexivity.
  - rewrite bitsAt_ok by assumption. cbn [bind].
    destruct (IH (i + 1) (if negb ((if bitOf b i then 1 else 0) =? 0) then Z.lor usage (Z.shiftl 1 i) else usage) HL ltac:(lia))
      as (v & -> & Hv). exists v. split; [reflexivity|]. intros j Hj. rewrite Hv by exact Hj.
    destruct (Z.eq_dec j i) as [->|N].
    + destruct (Z.leb_spec (i + 1) i), (Z.leb_spec i i), (Z.ltb_spec i (i + Z.of_nat (S n))); try lia. cbn [andb].
      destruct (bitOf b i); cbn [Z.eqb negb]; rewrite ?orb_false_r; [|reflexivity].
      rewrite Z.lor_spec, Z.shiftl_spec, Z.sub_diag by lia. cbn. reflexivity.
    + assert (E : Z.testbit (if negb ((if bitOf b i then 1 else 0) =? 0) then Z.lor usage (Z.shiftl 1 i) else usage) j = Z.testbit usage j).
      { destruct (bitOf b i); cbn [Z.eqb negb]; [|reflexivity].
        rewrite Z.lor_spec, Z.shiftl_spec by lia.
        destruct (Z_lt_le_dec j i); [rewrite (Z.testbit_neg_r 1) by lia; apply orb_false_r|].
        change 1 with (2 ^ 0). rewrite Z.pow2_bits_false by lia. apply orb_false_r. }
      rewrite E. f_equal. f_equal.
      destruct (Z.leb_spec (i + 1) j), (Z.leb_spec i j), (Z.ltb_spec j (i + 1 + Z.of_nat n)), (Z.ltb_spec j (i + Z.of_nat (S n)));
        try lia; reflexivity.
Qed.

Lemma u8_byte : forall x, byte (u8 x).
Proof. intros x. unfold u8, byte. apply Z.mod_pos_bound. lia. Qed.
Lemma u8_testbit : forall x i, 0 <= i < 8 -> Z.testbit (u8 x) i = Z.testbit x i.
Proof. intros x i H. unfold u8. change 256 with (2 ^ 8). apply Z.mod_pow2_bits_low. lia. Qed.

(** The bit string that is written for a key usage. *)
Definition usageBytes (u : Z) : list Z :=
  let a0 := reverseBitsInAByte (u8 u) in
  let a1 := reverseBitsInAByte (u8 (Z.shiftr u 8)) in
  if negb (a1 =? 0) then [a0; a1] else [a0].
Lemma bit_high : forall u i, 8 <= i < 16 -> Z.testbit (reverseBitsInAByte (u8 (Z.shiftr u 8))) (15 - i) = Z.testbit u i.
Proof.
  intros u i Hi. destruct (reverse_bits (u8 (Z.shiftr u 8)) (u8_byte _)) as [_ R]. rewrite R by lia.
  rewrite u8_testbit by lia. rewrite Z.shiftr_spec by lia. f_equal. lia.
Qed.
Lemma bit_low : forall u i, 0 <= i < 8 -> Z.testbit (reverseBitsInAByte (u8 u)) (7 - i) = Z.testbit u i.
Proof.
  intros u i Hi. destruct (reverse_bits (u8 u) (u8_byte _)) as [_ R]. rewrite R by lia.
  rewrite u8_testbit by lia. f_equal. lia.
Qed.
Lemma usageBytes_bits : forall u i, 0 <= i < 9 ->
  bitOf (mkBits (usageBytes u) (asn1BitLength (usageBytes u))) i = Z.testbit u i.
Proof.
  intros u i Hi. unfold usageBytes. pose proof (bit_high u) as Hh. pose proof (bit_low u) as Hl.
  destruct (reverse_bits (u8 u) (u8_byte _)) as [B0 _]. destruct (reverse_bits (u8 (Z.shiftr u 8)) (u8_byte _)) as [B1 _].
  set (a0 := reverseBitsInAByte (u8 u)) in *. set (a1 := reverseBitsInAByte (u8 (Z.shiftr u 8))) in *. clearbody a0 a1.
  destruct (Z.eqb_spec a1 0) as [E1|N1]; cbn [negb].
  - assert (H8 : Z.testbit u 8 = false) by (rewrite <- Hh by lia; rewrite E1; apply Z.testbit_0_l).
    destruct (Z.eq_dec a0 0) as [E0|N0].
    + rewrite E0. unfold bitOf. change (asn1BitLength [0]) with 0. cbn [bs_len]. destruct (Z.ltb_spec i 0); [lia|]. cbn [andb].
      destruct (Z.eq_dec i 8) as [->|N]; [symmetry; exact H8|]. rewrite <- Hl by lia. rewrite E0, Z.testbit_0_l. reflexivity.
    + destruct (bitLength_last [] a0 B0 N0) as (j & Hj & E & Ht & Hz). cbn [app] in E. unfold bitOf. rewrite E. cbn [bs_len bs_bytes].
      change (zlen [a0] * 8) with 8.
      destruct (Z.eq_dec i 8) as [->|N].
      * destruct (Z.ltb_spec 8 (8 - j)); [lia|]. symmetry. exact H8.
      * rewrite (Z.div_small i 8), (Z.mod_small i 8) by lia. cbn [Z.to_nat nth]. rewrite Hl by lia.
        destruct (Z.ltb_spec i (8 - j)); [reflexivity|]. cbn [andb]. rewrite <- Hl by lia. symmetry. apply Hz. lia.
  - destruct (bitLength_last [a0] a1 B1 N1) as (j & Hj & E & Ht & Hz). cbn [app] in E. unfold bitOf. rewrite E. cbn [bs_len bs_bytes].
    change (zlen [a0; a1] * 8) with 16.
    destruct (Z.eq_dec i 8) as [->|N].
    + change (8 / 8) with 1. change (8 mod 8) with 0. change (nth (Z.to_nat 1) [a0; a1] 0) with a1.
      rewrite <- Hh by lia. change (15 - 8) with 7. change (7 - 0) with 7.
      destruct (Z.ltb_spec 8 (16 - j)); [reflexivity|]. cbn [andb]. symmetry. apply Hz. lia.
    + rewrite (Z.div_small i 8), (Z.mod_small i 8) by lia. cbn [Z.to_nat nth]. rewrite Hl by lia.
      destruct (Z.ltb_spec i (16 - j)); [reflexivity|]. lia.
Qed.
Lemma marshalKeyUsage_eq : forall u, marshalKeyUsage u = fieldBits (mkBits (usageBytes u) (asn1BitLength (usageBytes u))).
Proof. reflexivity. Qed.
Lemma usageBytes_short : forall u, 1 <= zlen (usageBytes u) <= 2.
Proof. intros u. unfold usageBytes. destruct (negb _); cbn; lia. Qed.
Lemma usageBytes_bytes : forall u, bytes (usageBytes u).
Proof.
  intros u. unfold usageBytes. destruct (reverse_bits (u8 u) (u8_byte _)) as [B0 _].
  destruct (reverse_bits (u8 (Z.shiftr u 8)) (u8_byte _)) as [B1 _].
  destruct (negb _); repeat constructor; try apply B0; apply B1.
Qed.
Lemma testbit_mod512 : forall u v, (forall j, 0 <= j -> Z.testbit v j = (j <? 9) && Z.testbit u j) -> v = u mod 512.
Proof.
  intros u v H. apply Z.bits_inj'. intros j Hj. rewrite H by exact Hj. change 512 with (2 ^ 9).
  destruct (Z.ltb_spec j 9); [rewrite Z.mod_pow2_bits_low by lia|rewrite Z.mod_pow2_bits_high by lia]; reflexivity.
Qed.

(** The low sixteen bits are written, without zero bits at the end. *)
Lemma usageBytes_last : forall u, (usageBytes u = [0] /\ u mod 65536 = 0) \/
  exists l b, usageBytes u = l ++ [b] /\ bytes l /\ byte b /\ b <> 0.
Proof.
  intros u. unfold usageBytes. destruct (reverse_bits (u8 u) (u8_byte _)) as [B0 _].
  destruct (reverse_bits (u8 (Z.shiftr u 8)) (u8_byte _)) as [B1 _].
  pose proof (bit_high u) as Hh. pose proof (bit_low u) as Hl.
  set (a0 := reverseBitsInAByte (u8 u)) in *. set (a1 := reverseBitsInAByte (u8 (Z.shiftr u 8))) in *. clearbody a0 a1.
  destruct (Z.eqb_spec a1 0) as [E1|N1]; cbn [negb].
  - destruct (Z.eq_dec a0 0) as [E0|N0].
    + left. split; [rewrite E0; reflexivity|]. change 65536 with (2 ^ 16). apply mod_pow_zero; [lia|]. intros t Ht.
      destruct (Z_lt_le_dec t 8); [rewrite <- Hl by lia; rewrite E0|rewrite <- Hh by lia; rewrite E1]; apply Z.testbit_0_l.
    + right. exists [], a0. repeat split; try assumption; try apply B0. constructor.
  - right. exists [a0], a1. repeat split; try assumption; try apply B1. constructor; [exact B0|constructor].
Qed.

Section Env.
Variable E : netEnv.

Theorem C62_key_usage : forall u f critical, exists value,
  marshalKeyUsage u = OK value /\
  parseExtension E (mkExt oidExtensionKeyUsage critical value) f = Ret (OK (set_KeyUsage E (u mod 512) f, false)).
Proof.
  intros u f critical. rewrite marshalKeyUsage_eq.
  set (bs := mkBits (usageBytes u) (asn1BitLength (usageBytes u))).
  assert (S : zlen (makeBitString bs) < 100)
    by (unfold makeBitString; rewrite zlen_cons; cbn [bs_bytes bs]; pose proof (usageBytes_short u); lia).
  exists (tlv (ident 0 3 false) (makeBitString bs)). split.
  - unfold fieldBits, makeField. cbn [andb fp_optional fp_set fp_tag noParams rbind].
    rewrite tagged_tlv by (try (split; unfold TagBitString; lia); lia). reflexivity.
  - assert (K : exists b, unmarshalAll uBits zeroBits (tlv (ident 0 3 false) (makeBitString bs)) = OK b /\
                bs_len b <= zlen (bs_bytes b) * 8 /\ forall i, 0 <= i < 9 -> bitOf b i = Z.testbit u i).
    { destruct (usageBytes_last u) as [[E0 Hu]|(l & b & El & Hl & Hb & Nb)].
      - exists (mkBits [0] 8). split; [|split; [cbn; lia|]].
        + apply elem_all. apply elem_prim; try reflexivity; try lia. intros. unfold bs. rewrite E0. reflexivity.
        + intros i Hi. pose proof (Z.mod_pow2_bits_low u 16 i ltac:(lia)) as M. change (2 ^ 16) with 65536 in M.
          rewrite Hu, Z.testbit_0_l in M. rewrite <- M. unfold bitOf. cbn [bs_len bs_bytes].
          destruct (Z.ltb_spec i 8); [|reflexivity]. rewrite Z.div_small by lia. cbn [Z.to_nat nth andb]. apply Z.testbit_0_l.
      - assert (OKb : bits_ok bs) by (unfold bs; rewrite El; apply bits_ok_length; assumption).
        exists bs. split; [|split].
        + apply elem_all. apply elem_prim; try reflexivity; try lia. intros. cbn [u_body uBits]. apply parseBitString_ok, OKb.
        + destruct OKb as [_ (p & Hp & -> & _)]. lia.
        + intros i Hi. apply usageBytes_bits. exact Hi. }
    destruct K as (b & HU & HL & HB). unfold parseExtension. cbn [e_id oidExtensionKeyUsage e_value].
    cbn [Z.eqb Pos.eqb andb]. rewrite HU. cbn [gbind].
    destruct (usageLoop_ok b 9 0 0 HL ltac:(lia)) as (v & -> & Hv). cbn [bind].
    rewrite (testbit_mod512 u v); [reflexivity|]. intros j Hj. rewrite Hv by exact Hj. rewrite Z.testbit_0_l. cbn [orb].
    destruct (Z.leb_spec 0 j); [|lia]. change (0 + Z.of_nat 9) with 9. destruct (Z.ltb_spec j 9); [|reflexivity].
    cbn [andb]. apply HB. lia.
Qed.
(** Nothing is lost for the nine usages that x509 defines. *)
Corollary C62_defined_usages : forall u f critical, 0 <= u < 512 -> exists value,
  marshalKeyUsage u = OK value /\
  parseExtension E (mkExt oidExtensionKeyUsage critical value) f = Ret (OK (set_KeyUsage E u f, false)).
Proof.
  intros u f critical Hu. destruct (C62_key_usage u f critical) as (v & H1 & H2). exists v.
  rewrite Z.mod_small in H2 by exact Hu. split; assumption.
Qed.
(** The BIT STRING: the bits of the usage, the last one a one; hence DER. *)
Theorem C62_no_trailing_zeros : forall u, u mod 65536 <> 0 -> exists bits n,
  marshalKeyUsage u = OK (tlv 3 (8 * zlen bits - n :: bits)) /\ 0 <= 8 * zlen bits - n < 8 /\
  (forall i, 0 <= i < 9 -> i < n -> Z.testbit (nth (Z.to_nat (i / 8)) bits 0) (7 - i mod 8) = Z.testbit u i) /\
  (forall i, n <= i < 9 -> Z.testbit u i = false) /\
  Z.testbit (nth (Z.to_nat ((n - 1) / 8)) bits 0) (7 - (n - 1) mod 8) = true.
Proof.
  intros u Hu. rewrite marshalKeyUsage_eq.
  pose proof (usageBytes_bits u) as UB. pose proof (usageBytes_short u) as Sh.
  destruct (usageBytes_last u) as [[_ K]|(l & b & El & Hl & Hb & Nb)]; [contradiction|]. rewrite El in *.
  destruct (bitLength_last l b Hb Nb) as (j & Hj & EL & Ht & Hz). rewrite EL in *.
  exists (l ++ [b]), (zlen (l ++ [b]) * 8 - j).
  assert (N0 : 0 <= zlen (l ++ [b])) by apply zlen_nonneg.
  split; [|split; [lia|split; [|split]]].
  - unfold fieldBits, makeField, makeBitString. cbn [andb fp_optional fp_set fp_tag noParams rbind bs_len bs_bytes].
    rewrite pad_of by lia. unfold u8. rewrite Z.mod_small by lia.
    rewrite tagged_tlv by (try (split; unfold TagBitString; lia); rewrite zlen_cons; lia).
    replace (8 * zlen (l ++ [b]) - (zlen (l ++ [b]) * 8 - j)) with j by lia. reflexivity.
  - intros i Hi Hn. rewrite <- UB by lia. unfold bitOf. cbn [bs_len bs_bytes].
    destruct (Z.ltb_spec i (zlen (l ++ [b]) * 8 - j)); [reflexivity|lia].
  - intros i Hi. rewrite <- UB by lia. unfold bitOf. cbn [bs_len bs_bytes].
    destruct (Z.ltb_spec i (zlen (l ++ [b]) * 8 - j)); [lia|reflexivity].
  - rewrite zlen_app. change (zlen [b]) with 1.
    assert (D : ((zlen l + 1) * 8 - j - 1) / 8 = zlen l) by (symmetry; apply (Z.div_unique _ _ _ (7 - j)); lia).
    assert (M : ((zlen l + 1) * 8 - j - 1) mod 8 = 7 - j) by (symmetry; apply (Z.mod_unique _ _ (zlen l)); lia).
    rewrite D, M. unfold zlen. rewrite Nat2Z.id, nth_middle. replace (7 - (7 - j)) with j by lia. exact Ht.
Qed.
End Env.
(** digitalSignature and keyCertSign (bits 0 and 5), then decipherOnly (bit 8) as well. *)
Example C62_values : marshalKeyUsage 33 = OK [3; 2; 2; 0x84] /\ marshalKeyUsage 289 = OK [3; 3; 7; 0x84; 0x80].
Proof. split; reflexivity. Qed.

(** * The other plain extensions *)

Lemma elem_app_parse : forall A (u : uty A) v e zero r, elem u v e -> parseField u zero noParams (e ++ r) = OK (v, r).
Proof. intros. apply elem_parse. assumption. Qed.

(** Written elements of a list, one by one. *)
Lemma rawURI_rt : forall n e, makeRaw (rawURI n) = e -> small e -> elem uRaw (mkRaw 2 6 false n e) e.
Proof. intros n e H HL. apply makeRaw_rt; [split; lia|exact H|exact HL]. Qed.
Lemma AIA_rt : forall m n e, oid_ok m -> fieldAIA m (rawURI n) = OK e -> small e ->
  elem uAIA (m, mkRaw 2 6 false n (makeRaw (rawURI n))) e.
Proof.
  intros m n e Hm H HL. apply marshalStruct_inv in H; [|exact HL]. destruct H as (es & HE & -> & HS).
  destruct es as [|e1 [|e2 [|? ?]]]; cbn [map] in HE; try discriminate HE. injection HE as H1 H2. subst e2.
  apply elem_struct; [exact HS|]. cbn [List.concat].
  assert (S1 : small e1) by (apply (small_concat [e1; makeRaw (rawURI n)]); [exact HS|left; reflexivity]).
  assert (S2 : small (makeRaw (rawURI n))) by (apply (small_concat [e1; makeRaw (rawURI n)]); [exact HS|right; left; reflexivity]).
  rewrite (elem_parse _ _ m) by (apply fieldOID_rt; assumption). cbn [rbind].
  rewrite (elem_parse _ _ (mkRaw 2 6 false n (makeRaw (rawURI n)))) by (apply rawURI_rt; [reflexivity|exact S2]). reflexivity.
Qed.
Lemma policy_rt : forall o e, oid_ok o -> marshalStruct [fieldOID o] = OK e -> small e -> elem uPolicy o e.
Proof.
  intros o e Ho H HL. apply marshalStruct_inv in H; [|exact HL]. destruct H as (es & HE & -> & HS).
  destruct es as [|e1 [|? ?]]; cbn [map] in HE; try discriminate HE. injection HE as H1.
  apply elem_struct; [exact HS|]. cbn [List.concat] in *. rewrite app_nil_r in HS.
  rewrite (elem_parse _ _ o) by (apply fieldOID_rt; assumption). reflexivity.
Qed.
Lemma DP_rt : forall n e, fieldDP (rawURI n) = OK e -> small e -> elem uDP [mkRaw 2 6 false n (makeRaw (rawURI n))] e.
Proof.
  intros n e H HL. apply marshalStruct_inv in H; [|exact HL]. destruct H as (es & HE & -> & HS).
  destruct es as [|e1 [|? ?]]; cbn [map] in HE; try discriminate HE. apply (f_equal (hd (OK []))) in HE. cbn [hd] in HE. rename HE into H1.
  apply elem_struct; [exact HS|]. cbn [List.concat] in *. rewrite app_nil_r in *.
  unfold makeField in H1. cbn [optTag fp_optional fp_set fp_tag fp_explicit andb makeFields rbind] in H1. apply (f_equal (fun x => match x with OK y => y | ERR _ => [] end)) in H1. subst e1.
  rewrite !app_nil_r in *. set (r := makeRaw (rawURI n)) in *.
  destruct (tagged_small 2 0 true (tagged 2 0 true r)) as [E1 L1]; [split; lia|exact HS|].
  destruct (tagged_small 2 0 true r) as [E2 L2]; [split; lia|exact L1|].
  assert (ER : elem uRaw (mkRaw 2 6 false n r) r) by (apply rawURI_rt; [reflexivity|exact L2]).
  rewrite E1, E2 in *. rewrite <- (app_nil_r (tlv (ident 2 0 true) (tlv (ident 2 0 true) r))).
  rewrite (elem_tagged _ uDPName [mkRaw 2 6 false n r] [] (optTag 0) 0 _ 16 []); [|reflexivity|reflexivity|reflexivity|lia|exact L1|reflexivity|].
  - reflexivity.
  - cbn [u_body uDPName uStruct]. rewrite <- (app_nil_r (tlv (ident 2 0 true) r)).
    rewrite (elem_tagged _ (uList uRaw zeroRaw false) [mkRaw 2 6 false n r] [] (optTag 0) 0 _ 16 []);
      [reflexivity|reflexivity|reflexivity|reflexivity|lia|exact L2|reflexivity|].
    cbn [u_body uList]. replace r with (List.concat [r]) at 1 by apply app_nil_r.
    apply parse_sequence. constructor; [exact ER|constructor].
Qed.

Lemma elem_slice_rt : forall A B (u : uty B) zero (f : A -> res (list Z)) (g : A -> B) l e,
  (forall x e, In x l -> f x = OK e -> small e -> elem u (g x) e) ->
  fieldSlice false (map f l) = OK e -> small e -> elem (uList u zero false) (map g l) e.
Proof.
  intros A B u zero f g l e Hf H HL. apply fieldSlice_inv in H; [|exact HL]. destruct H as (es & HE & -> & HS).
  apply map_OK_inv in HE. apply (elem_list _ u zero false); [|exact HS].
  assert (Hs : forall e, In e es -> small e) by (intros; apply (small_concat es); assumption).
  clear HS HL. induction HE as [|v e vs es Hv HE IH]; cbn [map]; constructor.
  - apply Hf; [left; reflexivity|exact Hv|apply Hs; left; reflexivity].
  - apply IH; [intros; apply Hf; [right|..]; assumption|intros; apply Hs; right; assumption].
Qed.

Definition uri_raw (n : list Z) : RawValue := mkRaw 2 6 false n (makeRaw (rawURI n)).
Lemma dpNames_uris : forall l, List.concat (map dpNames (map (fun n => [uri_raw n]) l)) = l.
Proof. induction l as [|n l IH]; [reflexivity|]. cbn [map List.concat]. rewrite IH. reflexivity. Qed.
Lemma aiaNames_app : forall m a b, aiaNames m (a ++ b) = aiaNames m a ++ aiaNames m b.
Proof. intros. unfold aiaNames. rewrite filter_app, map_app. reflexivity. Qed.
Lemma aiaNames_same : forall m l, aiaNames m (map (fun n => (m, uri_raw n)) l) = l.
Proof.
  intros m l. unfold aiaNames. induction l as [|n l IH]; [reflexivity|]. cbn [map filter]. cbn [snd fst uri_raw rv_tag].
  rewrite oidEqual_refl. cbn [Z.eqb Pos.eqb andb map]. rewrite IH. reflexivity.
Qed.
Lemma aiaNames_other : forall m m' l, oidEqual m' m = false -> aiaNames m (map (fun n => (m', uri_raw n)) l) = [].
Proof.
  intros m m' l H. unfold aiaNames. induction l as [|n l IH]; [reflexivity|]. cbn [map filter snd fst]. rewrite H, andb_false_r. exact IH.
Qed.

Lemma table_ok : forall u oid, oidFromExtKeyUsage u = Some oid -> oid_ok oid.
Proof.
  intros u oid H. unfold oidFromExtKeyUsage in H. destruct (find _ _) as [p|] eqn:F; [|discriminate H]. injection H as <-.
  apply find_some in F. destruct F as [F _].
  assert (A : Forall (fun p => oid_ok (snd p)) extKeyUsageOIDs) by (repeat constructor; cbn; lia).
  rewrite Forall_forall in A. apply A. exact F.
Qed.
Lemma toOIDs_inv : forall l oids, extKeyUsageToOIDs l = Ret oids -> Forall2 (fun u o => oidFromExtKeyUsage u = Some o) l oids.
Proof.
  induction l as [|u l IH]; intros oids H; cbn [extKeyUsageToOIDs] in H; [injection H as <-; constructor|].
  destruct (oidFromExtKeyUsage u) as [o|] eqn:O; [|discriminate H].
  destruct (extKeyUsageToOIDs l) as [os|k]; [|discriminate H]. cbn [bind] in H. injection H as <-. constructor; [exact O|].
  apply IH. reflexivity.
Qed.
Lemma known_app : forall a b, knownUsages (a ++ b) = knownUsages a ++ knownUsages b.
Proof. intros. unfold knownUsages. rewrite map_app, concat_app. reflexivity. Qed.
Lemma unknown_app : forall a b, unknownUsages (a ++ b) = unknownUsages a ++ unknownUsages b.
Proof. intros. apply filter_app. Qed.
Lemma known_table : forall l oids, Forall2 (fun u o => oidFromExtKeyUsage u = Some o) l oids ->
  knownUsages oids = l /\ unknownUsages oids = [].
Proof.
  intros l oids H. induction H as [|u o l oids Ho H [IH1 IH2]]; [split; reflexivity|]. apply extKeyUsage_inverse in Ho.
  unfold knownUsages, unknownUsages in *. cbn [map List.concat filter]. rewrite Ho. rewrite IH1, IH2. split; reflexivity.
Qed.

Section Env2.
Variable E : netEnv.

(** C66: the extended key usages come back, an unknown OID that is in the table as a known usage. *)
Theorem C66_extension : forall known unknown oids value critical f, extKeyUsageToOIDs known = Ret oids ->
  fieldSlice false (map fieldOID (oids ++ unknown)) = OK value -> small value -> Forall oid_ok unknown ->
  parseExtension E (mkExt oidExtensionExtendedKeyUsage critical value) f =
  Ret (OK (set_ExtKeyUsage E (f_ExtKeyUsage E f ++ known ++ knownUsages unknown)
                           (f_UnknownExtKeyUsage E f ++ unknownUsages unknown) f, false)).
Proof.
  intros known unknown oids value critical f HO HV HS HU. apply toOIDs_inv in HO.
  assert (HU' : forall o, In o (oids ++ unknown) -> oid_ok o).
  { intros o Ho. apply in_app_or in Ho. destruct Ho as [Ho|Ho]; [|rewrite Forall_forall in HU; apply HU; exact Ho].
    clear - HO Ho. induction HO as [|u o' l os Hu HO IH]; [destruct Ho|]. destruct Ho as [->|Ho]; [apply (table_ok u); exact Hu|apply IH; exact Ho]. }
  unfold parseExtension. cbn [e_id oidExtensionExtendedKeyUsage e_value]. cbn [Z.eqb Pos.eqb andb].
  rewrite (elem_all _ (uList uOID [] false) (oids ++ unknown) value).
  - cbn [gbind]. rewrite known_app, unknown_app. destruct (known_table _ _ HO) as [-> ->]. reflexivity.
  - apply (fieldSlice_rt _ uOID [] false fieldOID); [|exact HV|exact HS]. intros o e Ho He Hs. apply fieldOID_rt; [exact He|exact Hs|apply HU'; exact Ho].
Qed.
(** Only an unknown usage makes the OIDs fail, by a panic. *)
Theorem C66_unknown_usage_panics : forall l,
  (Forall (fun u => 0 <= u <= 13) l -> exists oids, extKeyUsageToOIDs l = Ret oids) /\
  (~ Forall (fun u => 0 <= u <= 13) l -> extKeyUsageToOIDs l = Panic (PUser "internal error")).
Proof.
  induction l as [|u l [IH1 IH2]]; [split; [exists []; reflexivity|intros H; destruct H; constructor]|].
  pose proof (extKeyUsage_known u) as K. cbn [extKeyUsageToOIDs]. destruct (oidFromExtKeyUsage u) as [o|] eqn:O.
  - assert (U : 0 <= u <= 13) by (apply K; exists o; reflexivity). split.
    + intros H. inversion H as [|? ? _ H']; subst. destruct (IH1 H') as [oids ->]. exists (o :: oids). reflexivity.
    + intros H. rewrite IH2; [reflexivity|]. intros H'. apply H. constructor; assumption.
  - split; [|reflexivity]. intros H. inversion H as [|? ? U _]; subst. apply K in U. destruct U as [o U]. discriminate U.
Qed.

(** C68: basic constraints. *)
Lemma fieldBool_eq : forall b, fieldBool b = OK (if b then tlv 1 [255] else []).
Proof. destruct b; reflexivity. Qed.
Lemma int64_short : forall i, - 2 ^ 63 <= i < 2 ^ 63 -> zlen (int64Bytes i) <= 11.
Proof.
  intros i _. unfold int64Bytes.
  assert (L : forall n i, zlen (lengthBytes n i) = Z.of_nat n).
  { induction n as [|n IH]; intros j; [reflexivity|]. cbn [lengthBytes]. rewrite zlen_cons, IH. lia. }
  rewrite L. assert (S : forall f j, (signedLen f j <= S f)%nat).
  { induction f as [|f IH]; intros j; cbn [signedLen]; [lia|]. destruct (_ || _); [|lia]. specialize (IH (Z.shiftr j 8)). lia. }
  specialize (S 10%nat i). lia.
Qed.
Lemma basic_elem : forall isCA m, - 2 ^ 63 <= m < 2 ^ 63 -> exists e,
  marshalBasicConstraints isCA m = OK e /\ elem uBasicConstraints (isCA, m) e.
Proof.
  intros isCA m Hm. set (i := tlv (ident 0 2 false) (int64Bytes m)).
  pose proof (int64_short m Hm) as L. pose proof (zlen_nonneg _ (int64Bytes m)) as L0.
  assert (EI : elem uInt m i).
  { apply elem_prim; try reflexivity; try lia. intros. cbn [u_body uInt].
    pose proof (int64Bytes_der m Hm) as D. apply parseInt64_iff; [apply D|]. split; assumption. }
  assert (Li : zlen i <= 17) by (unfold i; rewrite zlen_tlv; pose proof (zlen_der_len_le (zlen (int64Bytes m)) ltac:(lia)); lia).
  assert (F : makeField (m =? -1) TagInteger false (OK (int64Bytes m)) optParams = OK (if m =? -1 then [] else i)).
  { unfold makeField. cbn [fp_optional optParams andb fp_set fp_tag rbind]. destruct (m =? -1); [reflexivity|].
    f_equal. apply tagged_tlv; [split; unfold TagInteger; lia|lia]. }
  assert (EB : elem uBool true (tlv 1 [255])).
  { change (tlv 1 [255]) with (tlv (ident 0 1 false) [255]). apply elem_prim; try reflexivity; cbn; lia. }
  set (c := List.concat [if isCA then tlv 1 [255] else []; if m =? -1 then [] else i]).
  assert (Lc : zlen c < 100).
  { unfold c. cbn [List.concat]. rewrite !zlen_app. change (zlen (@nil Z)) with 0.
    assert (zlen (if isCA then tlv 1 [255] else []) <= 3) by (destruct isCA; cbn; lia).
    assert (zlen (if m =? -1 then [] else i) <= 17) by (destruct (m =? -1); [cbn; lia|exact Li]). lia. }
  exists (tlv (ident 0 16 true) c). split.
  - unfold marshalBasicConstraints, marshalStruct. rewrite F, fieldBool_eq.
    change [OK (if isCA then tlv 1 [255] else []); OK (if m =? -1 then [] else i)]
      with (map OK [if isCA then tlv 1 [255] else []; if m =? -1 then [] else i]).
    rewrite makeFields_ok. fold c. unfold makeField. cbn [andb fp_optional fp_set fp_tag noParams rbind].
    f_equal. apply tagged_tlv; [split; unfold TagSequence; lia|lia].
  - apply elem_struct; [lia|]. unfold c. cbn [List.concat]. rewrite app_nil_r.
    assert (B : parseField uBool false optParams ((if isCA then tlv 1 [255] else []) ++ (if m =? -1 then [] else i))
                = OK (isCA, if m =? -1 then [] else i)).
    { destruct isCA.
      - apply elem_field; try reflexivity. exact EB.
      - cbn [app]. destruct (m =? -1); [reflexivity|]. rewrite <- (app_nil_r i) at 1. unfold i.
        rewrite field_absent; [rewrite app_nil_r; reflexivity|split; lia|lia|reflexivity|reflexivity|reflexivity|right; discriminate|discriminate]. }
    rewrite B. cbn [rbind]. destruct (Z.eqb_spec m (-1)) as [->|N]; [reflexivity|].
    rewrite <- (app_nil_r i). rewrite (elem_field _ uInt m); try reflexivity. exact EI.
Qed.
Theorem C68_basic_constraints : forall isCA maxPathLen critical f, - 2 ^ 63 <= maxPathLen < 2 ^ 63 -> exists value,
  marshalBasicConstraints isCA maxPathLen = OK value /\
  parseExtension E (mkExt oidExtensionBasicConstraints critical value) f =
  Ret (OK (set_BasicConstraints E true isCA maxPathLen (maxPathLen =? 0) f, false)).
Proof.
  intros isCA m critical f Hm. destruct (basic_elem isCA m Hm) as (e & HM & HE). exists e. split; [exact HM|].
  unfold parseExtension. cbn [e_id oidExtensionBasicConstraints e_value]. cbn [Z.eqb Pos.eqb andb].
  rewrite (elem_all _ _ _ _ _ HE). reflexivity.
Qed.

(** The key identifiers, authority information, policies and CRL distribution points. *)
Theorem C76_subject_key_id : forall id value critical f, fieldOctets id = OK value -> small value ->
  parseExtension E (mkExt oidExtensionSubjectKeyId critical value) f = Ret (OK (set_SubjectKeyId E id f, false)).
Proof.
  intros id value critical f H HS. unfold parseExtension. cbn [e_id oidExtensionSubjectKeyId e_value]. cbn [Z.eqb Pos.eqb andb].
  rewrite (elem_all _ uOctets (Some id) value) by (apply fieldOctets_rt; assumption). reflexivity.
Qed.
Theorem C76_authority_key_id : forall id value critical f, marshalAuthKeyId id = OK value -> small value ->
  parseExtension E (mkExt oidExtensionAuthorityKeyId critical value) f = Ret (OK (set_AuthorityKeyId E id f, false)).
Proof.
  intros id value critical f H HS. apply marshalStruct_inv in H; [|exact HS]. destruct H as (es & HE & -> & HL).
  destruct es as [|e1 [|? ?]]; cbn [map] in HE; try discriminate HE.
  apply (f_equal (hd (OK []))) in HE. cbn [hd] in HE. unfold makeField in HE. cbn [optTag fp_optional fp_set fp_tag fp_explicit andb rbind] in HE.
  apply (f_equal (fun x => match x with OK y => y | ERR _ => [] end)) in HE. subst e1. cbn [List.concat] in *. rewrite app_nil_r in *.
  destruct (tagged_small 2 0 false id) as [E1 L1]; [split; lia|exact HL|]. rewrite E1 in *.
  unfold parseExtension. cbn [e_id oidExtensionAuthorityKeyId e_value]. cbn [Z.eqb Pos.eqb andb].
  rewrite (elem_all _ uAuthKeyId id); [reflexivity|].
  apply elem_struct; [exact HL|]. rewrite <- (app_nil_r (tlv (ident 2 0 false) id)).
  assert (P : parseField uOctets None (optTag 0) (tlv (ident 2 0 false) id ++ []) = OK (Some id, []))
    by (apply (elem_tagged _ uOctets (Some id) None (optTag 0) 0 id 4 []); try reflexivity; [lia|exact L1]).
  rewrite P. reflexivity.
Qed.
Theorem C76_authority_info : forall ocsp issuers value critical f,
  fieldSlice false (map (fun n => fieldAIA oidAuthorityInfoAccessOcsp (rawURI n)) ocsp ++
                    map (fun n => fieldAIA oidAuthorityInfoAccessIssuers (rawURI n)) issuers) = OK value -> small value ->
  parseExtension E (mkExt oidExtensionAuthorityInfoAccess critical value) f =
  Ret (OK (set_AuthorityInfo E (f_OCSPServer E f ++ ocsp) (f_IssuingCertificateURL E f ++ issuers) f, false)).
Proof.
  intros ocsp issuers value critical f H HS.
  set (l := map (fun n => (oidAuthorityInfoAccessOcsp, n)) ocsp ++ map (fun n => (oidAuthorityInfoAccessIssuers, n)) issuers).
  assert (EL : map (fun n => fieldAIA oidAuthorityInfoAccessOcsp (rawURI n)) ocsp ++
               map (fun n => fieldAIA oidAuthorityInfoAccessIssuers (rawURI n)) issuers =
               map (fun p => fieldAIA (fst p) (rawURI (snd p))) l)
    by (unfold l; rewrite map_app, !map_map; reflexivity).
  rewrite EL in H.
  unfold parseExtension. cbn [e_id e_value]. rewrite (oidEqual_refl oidExtensionAuthorityInfoAccess). change oidExtensionAuthorityInfoAccess with [1; 3; 6; 1; 5; 5; 7; 1; 1]. cbv iota beta.
  rewrite (elem_all _ (uList uAIA ([], zeroRaw) false) (map (fun p => (fst p, uri_raw (snd p))) l) value).
  - cbn [gbind]. unfold l. rewrite map_app, !map_map, !aiaNames_app. cbn [fst snd].
    rewrite !aiaNames_same, !aiaNames_other by reflexivity. rewrite app_nil_r. reflexivity.
  - apply (elem_slice_rt _ _ uAIA ([], zeroRaw) (fun p => fieldAIA (fst p) (rawURI (snd p))) (fun p => (fst p, uri_raw (snd p))));
      [|exact H|exact HS]. intros [m n] e Hin He Hs. apply AIA_rt; [|exact He|exact Hs]. cbn [fst].
    unfold l in Hin. apply in_app_or in Hin. destruct Hin as [Hin|Hin]; apply in_map_iff in Hin; destruct Hin as (x & Hx & _);
      injection Hx as <- _; cbn; repeat split; try lia; repeat constructor; lia.
Qed.
Theorem C76_policies : forall policies value critical f, Forall oid_ok policies ->
  fieldSlice false (map (fun p => marshalStruct [fieldOID p]) policies) = OK value -> small value ->
  parseExtension E (mkExt oidExtensionCertificatePolicies critical value) f = Ret (OK (set_PolicyIdentifiers E policies f, false)).
Proof.
  intros ps value critical f HO H HS. unfold parseExtension. cbn [e_id oidExtensionCertificatePolicies e_value]. cbn [Z.eqb Pos.eqb andb].
  rewrite (elem_all _ (uList uPolicy [] false) ps value); [reflexivity|].
  apply (fieldSlice_rt _ uPolicy [] false (fun p => marshalStruct [fieldOID p])); [|exact H|exact HS].
  intros o e Ho He Hs. rewrite Forall_forall in HO. apply policy_rt; [apply HO; exact Ho|exact He|exact Hs].
Qed.
Theorem C76_distribution_points : forall urls value critical f,
  fieldSlice false (map (fun n => fieldDP (rawURI n)) urls) = OK value -> small value ->
  parseExtension E (mkExt oidExtensionCRLDistributionPoints critical value) f =
  Ret (OK (set_CRLDistributionPoints E (f_CRLDistributionPoints E f ++ urls) f, false)).
Proof.
  intros urls value critical f H HS. unfold parseExtension. cbn [e_id oidExtensionCRLDistributionPoints e_value]. cbn [Z.eqb Pos.eqb andb].
  rewrite (elem_all _ (uList uDP [] false) (map (fun n => [uri_raw n]) urls) value).
  - cbn [gbind]. rewrite dpNames_uris. reflexivity.
  - apply (elem_slice_rt _ _ uDP [] (fun n => fieldDP (rawURI n)) (fun n => [uri_raw n])); [|exact H|exact HS].
    intros n e _ He Hs. apply DP_rt; assumption.
Qed.
End Env2.

(** serverAuth and 1.2.3. *)
Example C66_bytes : fieldSlice false (map fieldOID [[1; 3; 6; 1; 5; 5; 7; 3; 1]; [1; 2; 3]])
  = OK [48; 14; 6; 8; 43; 6; 1; 5; 5; 7; 3; 1; 6; 2; 42; 3].
Proof. reflexivity. Qed.
Example C68_bytes : marshalBasicConstraints true 3 = OK [48; 6; 1; 1; 255; 2; 1; 3] /\ marshalBasicConstraints false (-1) = OK [48; 0].
Proof. split; reflexivity. Qed.
Example C76_bytes : marshalAuthKeyId [1; 2; 3] = OK [48; 5; 128; 3; 1; 2; 3]
  /\ fieldSlice false [fieldAIA oidAuthorityInfoAccessOcsp (rawURI [104])] = OK [48; 15; 48; 13; 6; 8; 43; 6; 1; 5; 5; 7; 48; 1; 134; 1; 104]
  /\ fieldSlice false [fieldDP (rawURI [104])] = OK [48; 9; 48; 7; 160; 5; 160; 3; 134; 1; 104].
Proof. repeat split; reflexivity. Qed.
