(** Attribute values in distinguished names (C93): which bytes are read as which value, and how strings
    and times are written. *)
From Coq Require Import ZArith List Lia Bool String.
From Verif Require Import GoBase BeMin CbString CbStringProofs CbBuilder CbBuilderProofs CbAsn1Proofs GoAsn1 GoAsn1Proofs GoText GoPkix CertText Cert CertRt CertRt2 DerIff.
From Verif Require Import PropsCbString PropsCbAsn1 PropsCertText PropsCertTime PropsCbTime PropsCertDN PropsCertDecode.
Import ListNotations.
Open Scope Z_scope.

(** * UTF-8 (RFC 3629) *)
Definition scalar (c : Z) : Prop := 0 <= c <= 0x10ffff /\ ~ (0xd800 <= c <= 0xdfff).
Definition utf8 (c : Z) : list Z :=
  if c <? 0x80 then [c]
  else if c <? 0x800 then [0xc0 + c / 64; 0x80 + c mod 64]
  else if c <? 0x10000 then [0xe0 + c / 4096; 0x80 + c / 64 mod 64; 0x80 + c mod 64]
  else [0xf0 + c / 262144; 0x80 + c / 4096 mod 64; 0x80 + c / 64 mod 64; 0x80 + c mod 64].

Lemma lor6 : forall n k a b, k = 2 ^ n -> 0 <= n -> 0 <= b < k -> Z.lor (a * k) b = a * k + b.
Proof. intros n k a b -> Hn H. apply lor_disjoint_add; assumption. Qed.
Lemma rune2 : forall x y, Z.lor (Z.shiftl (Z.land x 0x1f) 6) (Z.land y 0x3f) = x mod 32 * 64 + y mod 64.
Proof.
  intros x y. change 0x1f with (Z.ones 5). change 0x3f with (Z.ones 6). rewrite !Z.land_ones, Z.shiftl_mul_pow2 by lia.
  change (2 ^ 5) with 32. change (2 ^ 6) with 64. apply (lor6 6); [reflexivity|lia|apply Z.mod_pos_bound; lia].
Qed.
Lemma rune3 : forall x y z, Z.lor (Z.lor (Z.shiftl (Z.land x 0x0f) 12) (Z.shiftl (Z.land y 0x3f) 6)) (Z.land z 0x3f) = x mod 16 * 4096 + y mod 64 * 64 + z mod 64.
Proof.
  intros x y z. change 0x0f with (Z.ones 4). change 0x3f with (Z.ones 6). rewrite !Z.land_ones, !Z.shiftl_mul_pow2 by lia.
  change (2 ^ 4) with 16. change (2 ^ 6) with 64. change (2 ^ 12) with 4096.
  pose proof (Z.mod_pos_bound y 64 ltac:(lia)). pose proof (Z.mod_pos_bound z 64 ltac:(lia)).
  rewrite (lor6 12) by (reflexivity || lia). replace (x mod 16 * 4096 + y mod 64 * 64) with ((x mod 16 * 64 + y mod 64) * 64) by lia.
  apply (lor6 6); [reflexivity|lia|lia].
Qed.
Lemma rune4 : forall x y z w, Z.lor (Z.lor (Z.lor (Z.shiftl (Z.land x 0x07) 18) (Z.shiftl (Z.land y 0x3f) 12)) (Z.shiftl (Z.land z 0x3f) 6)) (Z.land w 0x3f) =
  x mod 8 * 262144 + y mod 64 * 4096 + z mod 64 * 64 + w mod 64.
Proof.
  intros x y z w. change 0x07 with (Z.ones 3). change 0x3f with (Z.ones 6). rewrite !Z.land_ones, !Z.shiftl_mul_pow2 by lia.
  change (2 ^ 3) with 8. change (2 ^ 6) with 64. change (2 ^ 12) with 4096. change (2 ^ 18) with 262144.
  pose proof (Z.mod_pos_bound y 64 ltac:(lia)). pose proof (Z.mod_pos_bound z 64 ltac:(lia)). pose proof (Z.mod_pos_bound w 64 ltac:(lia)).
  rewrite (lor6 18) by (reflexivity || lia). replace (x mod 8 * 262144 + y mod 64 * 4096) with ((x mod 8 * 64 + y mod 64) * 4096) by lia.
  rewrite (lor6 12) by (reflexivity || lia). replace ((x mod 8 * 64 + y mod 64) * 4096 + z mod 64 * 64) with (((x mod 8 * 64 + y mod 64) * 64 + z mod 64) * 64) by lia.
  rewrite (lor6 6) by (reflexivity || lia). lia.
Qed.
Lemma mod_lead : forall q k v, 0 <= v < k -> (q * k + v) mod k = v.
Proof. intros q k v H. rewrite Z.add_comm, Z.mod_add by lia. apply Z.mod_small. exact H. Qed.
Lemma cont : forall v, 0 <= v < 64 -> (0x80 + v) mod 64 = v.
Proof. intros v H. exact (mod_lead 2 64 v H). Qed.
Lemma inRange_true : forall lo hi b, lo <= b <= hi -> inRange lo hi b = true.
Proof. intros lo hi b H. unfold inRange. apply andb_true_iff. rewrite !Z.leb_le. exact H. Qed.
Lemma inRange_inv : forall lo hi b, inRange lo hi b = true -> lo <= b <= hi.
Proof. intros lo hi b H. unfold inRange in H. apply andb_true_iff in H. rewrite !Z.leb_le in H. exact H. Qed.

(** The first byte and the range of the second, as numbers. *)
Lemma first2 : forall b, 0xc2 <= b <= 0xdf -> utf8First b = Some (2, 0x80, 0xbf).
Proof. intros b H. unfold utf8First. rewrite (proj2 (Z.leb_le 0xc2 b)), (proj2 (Z.leb_le b 0xdf)) by lia. reflexivity. Qed.
Lemma first_cases : forall b, 0x80 <= b ->
  match utf8First b with
  | None => b < 0xc2 \/ 0xf4 < b
  | Some (n, lo, hi) =>
      (n = 2 /\ 0xc2 <= b <= 0xdf /\ lo = 0x80 /\ hi = 0xbf) \/
      (n = 3 /\ 0xe0 <= b <= 0xef /\ lo = (if b =? 0xe0 then 0xa0 else 0x80) /\ hi = (if b =? 0xed then 0x9f else 0xbf)) \/
      (n = 4 /\ 0xf0 <= b <= 0xf4 /\ lo = (if b =? 0xf0 then 0x90 else 0x80) /\ hi = (if b =? 0xf4 then 0x8f else 0xbf))
  end.
Proof.
  intros b H. unfold utf8First.
  destruct (Z.leb_spec 0xc2 b) as [A|A]; cbn [andb].
  2:{ rewrite (proj2 (Z.eqb_neq b 0xe0)), (proj2 (Z.eqb_neq b 0xed)), (proj2 (Z.leb_gt 0xe1 b)), (proj2 (Z.eqb_neq b 0xf0)), (proj2 (Z.leb_gt 0xf1 b)), (proj2 (Z.eqb_neq b 0xf4)) by lia. cbn [andb]. lia. }
  destruct (Z.leb_spec b 0xdf) as [B|B]; [left; auto|].
  destruct (Z.eqb_spec b 0xe0) as [->|N1]; [right; left; cbn; auto with zarith|].
  destruct (Z.eqb_spec b 0xed) as [->|N2]; [right; left; cbn; auto with zarith|].
  destruct (Z.leb_spec 0xe1 b) as [C|C]; [|lia]. cbn [andb]. destruct (Z.leb_spec b 0xef) as [D|D]; [right; left; repeat split; lia|].
  destruct (Z.eqb_spec b 0xf0) as [->|N3]; [right; right; cbn; auto with zarith|].
  destruct (Z.leb_spec 0xf1 b) as [F|F]; [|lia]. cbn [andb]. destruct (Z.leb_spec b 0xf3) as [G|G].
  - right; right. rewrite (proj2 (Z.eqb_neq b 0xf4)) by lia. repeat split; lia.
  - destruct (Z.eqb_spec b 0xf4) as [->|N4]; [right; right; cbn; auto with zarith|lia].
Qed.
Lemma decode_utf8 : forall c r, scalar c -> decodeRunes (utf8 c ++ r) = (c, true) :: decodeRunes r.
Proof.
  intros c r [H1 H2]. unfold utf8. destruct (Z.ltb_spec c 0x80) as [A|A].
  { cbn [app decodeRunes]. rewrite (proj2 (Z.ltb_lt c 0x80)) by lia. reflexivity. }
  pose proof (Z.div_mod c 64 ltac:(lia)) as D1. pose proof (Z.mod_pos_bound c 64 ltac:(lia)) as M1.
  assert (Q2 : c / 4096 = c / 64 / 64) by (rewrite Z.div_div by lia; reflexivity).
  assert (Q3 : c / 262144 = c / 4096 / 64) by (rewrite Z.div_div by lia; reflexivity).
  pose proof (Z.div_mod (c / 64) 64 ltac:(lia)) as D2. pose proof (Z.mod_pos_bound (c / 64) 64 ltac:(lia)) as M2. rewrite <- Q2 in D2.
  pose proof (Z.div_mod (c / 4096) 64 ltac:(lia)) as D3. pose proof (Z.mod_pos_bound (c / 4096) 64 ltac:(lia)) as M3. rewrite <- Q3 in D3.
  set (w0 := c mod 64) in *. set (w1 := c / 64 mod 64) in *. set (w2 := c / 4096 mod 64) in *.
  destruct (Z.ltb_spec c 0x800) as [B|B].
  { assert (2 <= c / 64 < 32) by lia. cbn [app decodeRunes]. rewrite (proj2 (Z.ltb_ge (0xc0 + c / 64) 0x80)) by lia. rewrite first2 by lia.
    rewrite inRange_true by lia. cbn [negb Z.eqb Pos.eqb]. rewrite rune2, (cont w0 M1). replace ((0xc0 + c / 64) mod 32) with (c / 64) by (symmetry; apply (mod_lead 6 32); lia). f_equal. f_equal. lia. }
  destruct (Z.ltb_spec c 0x10000) as [C|C].
  { set (q := c / 4096) in *. assert (0 <= q < 16) by lia. cbn [app decodeRunes]. rewrite (proj2 (Z.ltb_ge (0xe0 + q) 0x80)) by lia.
    pose proof (first_cases (0xe0 + q) ltac:(lia)) as FC. destruct (utf8First (0xe0 + q)) as [[[n lo] hi]|]; [|lia].
    destruct FC as [FC|[(-> & _ & -> & ->)|FC]]; [lia| |lia].
    rewrite inRange_true by (destruct (Z.eqb_spec (0xe0 + q) 0xe0); destruct (Z.eqb_spec (0xe0 + q) 0xed); lia).
    cbn [negb Z.eqb Pos.eqb]. rewrite inRange_true by lia. cbn [negb]. rewrite rune3, (cont w0 M1), (cont w1 M2). replace ((0xe0 + q) mod 16) with q by (symmetry; apply (mod_lead 14 16); lia). f_equal. f_equal. lia. }
  set (q := c / 262144) in *. assert (0 <= q <= 4) by lia. cbn [app decodeRunes]. rewrite (proj2 (Z.ltb_ge (0xf0 + q) 0x80)) by lia.
  pose proof (first_cases (0xf0 + q) ltac:(lia)) as FC. destruct (utf8First (0xf0 + q)) as [[[n lo] hi]|]; [|lia].
  destruct FC as [FC|[FC|(-> & _ & -> & ->)]]; [lia|lia|].
  rewrite inRange_true by (destruct (Z.eqb_spec (0xf0 + q) 0xf0); destruct (Z.eqb_spec (0xf0 + q) 0xf4); lia).
  cbn [negb Z.eqb Pos.eqb]. rewrite !inRange_true by lia. cbn [negb]. rewrite rune4, (cont w0 M1), (cont w1 M2), (cont w2 M3). replace ((0xf0 + q) mod 8) with q by (symmetry; apply (mod_lead 30 8); lia). f_equal. f_equal. lia.
Qed.
Lemma valid_step : forall l c ds, bytes l -> decodeRunes l = (c, true) :: ds -> exists r, l = utf8 c ++ r /\ scalar c /\ ds = decodeRunes r.
Proof.
  intros [|b0 r0] c ds HB H; [discriminate H|]. cbn [decodeRunes] in H. apply Forall_cons_iff in HB. destruct HB as [B0 HB]. unfold byte in B0.
  destruct (Z.ltb_spec b0 0x80) as [A|A].
  { assert (c = b0) by congruence. assert (ds = decodeRunes r0) by congruence. subst. exists r0. unfold utf8. rewrite (proj2 (Z.ltb_lt b0 0x80)) by lia. unfold scalar. split; [reflexivity|split; [lia|reflexivity]]. }
  pose proof (first_cases b0 A) as FC. destruct (utf8First b0) as [[[n lo] hi]|]; [|discriminate H].
  destruct r0 as [|b1 r1]; [discriminate H|]. apply Forall_cons_iff in HB. destruct HB as [B1 HB]. unfold byte in B1.
  destruct (inRange lo hi b1) eqn:R1; [|discriminate H]. cbn [negb] in H. apply inRange_inv in R1.
  destruct FC as [(-> & F1 & -> & ->)|[(-> & F1 & F2 & F3)|(-> & F1 & F2 & F3)]].
  - cbn [Z.eqb Pos.eqb] in H. rewrite rune2 in H.
    replace (b0 mod 32) with (b0 - 0xc0) in H by (apply (Z.mod_unique b0 32 6); lia).
    replace (b1 mod 64) with (b1 - 0x80) in H by (apply (Z.mod_unique b1 64 2); lia).
    set (q := (b0 - 0xc0) * 64 + (b1 - 0x80)) in *. assert (c = q) by congruence. assert (ds = decodeRunes r1) by congruence. subst c ds. exists r1.
    unfold scalar, utf8. rewrite (proj2 (Z.ltb_ge q 0x80)), (proj2 (Z.ltb_lt q 0x800)) by (unfold q; lia).
    replace (q / 64) with (b0 - 0xc0) by (apply (Z.div_unique q 64 (b0 - 0xc0) (b1 - 0x80)); unfold q; lia).
    replace (q mod 64) with (b1 - 0x80) by (apply (Z.mod_unique q 64 (b0 - 0xc0)); unfold q; lia).
    split; [cbn [app]; f_equal; [lia|f_equal; lia]|]. split; [unfold q; lia|reflexivity].
  - cbn [Z.eqb Pos.eqb] in H. destruct r1 as [|b2 r2]; [discriminate H|]. apply Forall_cons_iff in HB. destruct HB as [B2 HB]. unfold byte in B2.
    destruct (inRange 0x80 0xbf b2) eqn:R2; [|discriminate H]. cbn [negb] in H. apply inRange_inv in R2. rewrite rune3 in H.
    assert (L1 : 0x80 <= b1 <= 0xbf) by (destruct (b0 =? 0xe0); destruct (b0 =? 0xed); lia).
    replace (b0 mod 16) with (b0 - 0xe0) in H by (apply (Z.mod_unique b0 16 14); lia).
    replace (b1 mod 64) with (b1 - 0x80) in H by (apply (Z.mod_unique b1 64 2); lia).
    replace (b2 mod 64) with (b2 - 0x80) in H by (apply (Z.mod_unique b2 64 2); lia).
    set (q := (b0 - 0xe0) * 4096 + (b1 - 0x80) * 64 + (b2 - 0x80)) in *. assert (c = q) by congruence. assert (ds = decodeRunes r2) by congruence. subst c ds. exists r2.
    assert (QL : 0x800 <= q < 0x10000 /\ ~ (0xd800 <= q <= 0xdfff)) by (unfold q; destruct (Z.eqb_spec b0 0xe0); destruct (Z.eqb_spec b0 0xed); lia).
    assert (E1 : (b0 - 0xe0) * 64 + (b1 - 0x80) = q / 64) by (apply (Z.div_unique q 64 _ (b2 - 0x80)); unfold q; lia).
    unfold scalar, utf8. rewrite (proj2 (Z.ltb_ge q 0x80)), (proj2 (Z.ltb_ge q 0x800)), (proj2 (Z.ltb_lt q 0x10000)) by lia.
    replace (q / 4096) with (b0 - 0xe0) by (apply (Z.div_unique q 4096 _ ((b1 - 0x80) * 64 + (b2 - 0x80))); unfold q; lia).
    rewrite <- E1. replace (((b0 - 0xe0) * 64 + (b1 - 0x80)) mod 64) with (b1 - 0x80) by (symmetry; apply mod_lead; lia).
    replace (q mod 64) with (b2 - 0x80) by (apply (Z.mod_unique q 64 ((b0 - 0xe0) * 64 + (b1 - 0x80))); unfold q; lia).
    split; [cbn [app]; f_equal; [lia|f_equal; [lia|f_equal; lia]]|]. split; [lia|reflexivity].
  - cbn [Z.eqb Pos.eqb] in H. destruct r1 as [|b2 r2]; [discriminate H|]. apply Forall_cons_iff in HB. destruct HB as [B2 HB]. unfold byte in B2.
    destruct (inRange 0x80 0xbf b2) eqn:R2; [|discriminate H]. cbn [negb] in H. apply inRange_inv in R2.
    destruct r2 as [|b3 r3]; [discriminate H|]. apply Forall_cons_iff in HB. destruct HB as [B3 HB]. unfold byte in B3.
    destruct (inRange 0x80 0xbf b3) eqn:R3; [|discriminate H]. cbn [negb] in H. apply inRange_inv in R3. rewrite rune4 in H.
    assert (L1 : 0x80 <= b1 <= 0xbf) by (destruct (b0 =? 0xf0); destruct (b0 =? 0xf4); lia).
    replace (b0 mod 8) with (b0 - 0xf0) in H by (apply (Z.mod_unique b0 8 30); lia).
    replace (b1 mod 64) with (b1 - 0x80) in H by (apply (Z.mod_unique b1 64 2); lia).
    replace (b2 mod 64) with (b2 - 0x80) in H by (apply (Z.mod_unique b2 64 2); lia).
    replace (b3 mod 64) with (b3 - 0x80) in H by (apply (Z.mod_unique b3 64 2); lia).
    set (q := (b0 - 0xf0) * 262144 + (b1 - 0x80) * 4096 + (b2 - 0x80) * 64 + (b3 - 0x80)) in *. assert (c = q) by congruence. assert (ds = decodeRunes r3) by congruence. subst c ds. exists r3.
    assert (QL : 0x10000 <= q <= 0x10ffff) by (unfold q; destruct (Z.eqb_spec b0 0xf0); destruct (Z.eqb_spec b0 0xf4); lia).
    assert (E1 : ((b0 - 0xf0) * 64 + (b1 - 0x80)) * 64 + (b2 - 0x80) = q / 64) by (apply (Z.div_unique q 64 _ (b3 - 0x80)); unfold q; lia).
    assert (E2 : (b0 - 0xf0) * 64 + (b1 - 0x80) = q / 4096) by (apply (Z.div_unique q 4096 _ ((b2 - 0x80) * 64 + (b3 - 0x80))); unfold q; lia).
    unfold scalar, utf8. rewrite (proj2 (Z.ltb_ge q 0x80)), (proj2 (Z.ltb_ge q 0x800)), (proj2 (Z.ltb_ge q 0x10000)) by lia.
    replace (q / 262144) with (b0 - 0xf0) by (apply (Z.div_unique q 262144 _ ((b1 - 0x80) * 4096 + (b2 - 0x80) * 64 + (b3 - 0x80))); unfold q; lia).
    rewrite <- E1, <- E2. rewrite !mod_lead by lia.
    replace (q mod 64) with (b3 - 0x80) by (apply (Z.mod_unique q 64 (((b0 - 0xf0) * 64 + (b1 - 0x80)) * 64 + (b2 - 0x80))); unfold q; lia).
    split; [cbn [app]; f_equal; [lia|f_equal; [lia|f_equal; [lia|f_equal; lia]]]|]. split; [lia|reflexivity].
Qed.
(** C93: the strings that count as UTF-8 are the encodings of sequences of Unicode scalar values in the
    shortest form, and ranging over such a string yields these values. *)
Theorem C93_utf8 : forall l cs, bytes l -> (ValidString l = true /\ runes l = cs <-> Forall scalar cs /\ l = List.concat (map utf8 cs)).
Proof.
  intros l cs HB. unfold ValidString, runes. split.
  - intros [HV HR]. remember (List.length l) as n eqn:Hn. assert (Hle : (List.length l <= n)%nat) by lia. clear Hn.
    revert l cs HB HV HR Hle. induction n as [|n IH]; intros l cs HB HV HR Hle.
    + destruct l; [|cbn in Hle; lia]. cbn in HR. subst cs. split; [constructor|reflexivity].
    + destruct (decodeRunes l) as [|[c ok] ds] eqn:ED.
      * cbn in HR. subst cs. destruct l as [|b l]; [split; [constructor|reflexivity]|].
        exfalso. clear -ED. cbn [decodeRunes] in ED. destruct (b <? 0x80); [discriminate ED|]. destruct (utf8First b) as [[[n lo] hi]|]; [|discriminate ED].
        destruct l as [|b1 l]; [discriminate ED|]. destruct (negb _); [discriminate ED|]. destruct (n =? 2); [discriminate ED|].
        destruct l as [|b2 l]; [discriminate ED|]. destruct (negb _); [discriminate ED|]. destruct (n =? 3); [discriminate ED|].
        destruct l as [|b3 l]; [discriminate ED|]. destruct (negb _); discriminate ED.
      * cbn [forallb snd map fst] in *. apply andb_true_iff in HV. destruct HV as [-> HV].
        destruct (valid_step l c ds HB ED) as (r & -> & HS & ->). destruct cs as [|c' cs]; [discriminate HR|].
        assert (c = c') by congruence. assert (HR' : map fst (decodeRunes r) = cs) by congruence. subst c'.
        apply bytes_app in HB. destruct HB as [_ HB].
        assert (0 < List.length (utf8 c))%nat by (unfold utf8; destruct (c <? 0x80); [|destruct (c <? 0x800); [|destruct (c <? 0x10000)]]; cbn; lia).
        rewrite app_length in Hle. destruct (IH r cs HB HV HR' ltac:(lia)) as [I1 I2]. split; [constructor; assumption|]. cbn [map List.concat]. f_equal. exact I2.
  - intros [HS ->]. clear HB. induction HS as [|c cs Hc HS IH]; [split; reflexivity|]. cbn [map List.concat]. rewrite (decode_utf8 _ _ Hc). cbn [forallb snd map fst].
    destruct IH as [-> ->]. split; reflexivity.
Qed.
(** The empty string, two letters with an umlaut, the euro sign and an emoji; then an overlong slash, a
    surrogate, a value past the end and a truncated sequence. *)
Example C93_utf8_ex : ValidString [] = true /\ runes [0xc3; 0xa4; 0xe2; 0x82; 0xac; 0xf0; 0x9f; 0x98; 0x80] = [228; 8364; 128512] /\
  List.concat (map utf8 [228; 8364; 128512]) = [0xc3; 0xa4; 0xe2; 0x82; 0xac; 0xf0; 0x9f; 0x98; 0x80] /\
  map ValidString [[0xc0; 0xaf]; [0xed; 0xa0; 0x80]; [0xf4; 0x90; 0x80; 0x80]; [0xe2; 0x82]] = [false; false; false; false].
Proof. repeat split. Qed.

(** * Strings *)

(** The characters of a PrintableString (X.680): letters, digits, and space ' ( ) + , - . / : = ?. *)
Definition printable (b : Z) : Prop :=
  65 <= b <= 90 \/ 97 <= b <= 122 \/ 48 <= b <= 57 \/ In b [32; 39; 40; 41; 43; 44; 45; 46; 47; 58; 61; 63].
Lemma printable_iff : forall b, isPrintable false b = true <-> printable b.
Proof.
  intros b. unfold isPrintable, printable. cbn [andb In]. rewrite !orb_true_iff, !andb_true_iff, !Z.leb_le, !Z.eqb_eq. split; [|lia].
  intros H. destruct (Z.eq_dec b 32); destruct (Z.eq_dec b 58); destruct (Z.eq_dec b 61); destruct (Z.eq_dec b 63); lia.
Qed.
Lemma lenient_iff : forall b, isPrintable true b = true <-> printable b \/ b = 42 \/ b = 38.
Proof.
  intros b. rewrite <- printable_iff. unfold isPrintable. cbn [andb]. rewrite orb_false_r, orb_true_iff. rewrite (orb_true_iff (b =? 42)), !Z.eqb_eq. tauto.
Qed.
Lemma numeric_iff : forall b, isNumeric b = true <-> 48 <= b <= 57 \/ b = 32.
Proof. intros b. unfold isNumeric. rewrite orb_true_iff, andb_true_iff, !Z.leb_le, Z.eqb_eq. tauto. Qed.
Lemma all_iff : forall (f : Z -> bool) (P : Z -> Prop), (forall b, f b = true <-> P b) -> forall l, forallb f l = true <-> Forall P l.
Proof. intros f P H l. rewrite forallb_forall, Forall_forall. split; intros K x Hx; apply H, K, Hx. Qed.
Definition unicode (l : list Z) : Prop := exists cs, Forall scalar cs /\ l = List.concat (map utf8 cs).
Lemma valid_iff : forall l, bytes l -> (ValidString l = true <-> unicode l).
Proof.
  intros l HB. split.
  - intros H. exists (runes l). apply C93_utf8; auto.
  - intros (cs & H). apply (C93_utf8 l cs HB) in H. apply H.
Qed.
Lemma stringTag_iff : forall s t, bytes s -> (stringTag s = OK t <-> (t = 19 /\ Forall printable s) \/ (t = 12 /\ ~ Forall printable s /\ unicode s)).
Proof.
  intros s t HB. unfold stringTag.
  assert (K : existsb (fun r => (0x80 <=? r) || negb (isPrintable false r)) (runes s) = negb (forallb (isPrintable false) s)).
  { rewrite <- (forallb_runes (isPrintable false)).
    - induction (runes s) as [|r l IH]; [reflexivity|]. cbn [existsb forallb]. rewrite IH, negb_andb. f_equal.
      destruct (Z.leb_spec 0x80 r) as [L|L]; [|reflexivity]. cbn [orb]. symmetry. apply negb_true_iff.
      destruct (isPrintable false r) eqn:E; [|reflexivity]. apply printable_iff in E. unfold printable in E. cbn [In] in E. lia.
    - intros c Hc. destruct (isPrintable false c) eqn:E; [|reflexivity]. apply printable_iff in E. unfold printable in E. cbn [In] in E. lia. }
  rewrite K. pose proof (all_iff _ _ printable_iff s) as A. pose proof (valid_iff s HB) as V.
  destruct (forallb (isPrintable false) s); cbn [negb].
  - assert (Forall printable s) by (apply A; reflexivity). split.
    + intros H1. assert (t = TagPrintableString) by congruence. left. split; assumption.
    + intros [[-> _]|(_ & N & _)]; [reflexivity|contradiction].
  - assert (N : ~ Forall printable s) by (intros C; apply A in C; discriminate C). destruct (ValidString s).
    + assert (U : unicode s) by (apply V; reflexivity). split.
      * intros H1. assert (t = TagUTF8String) by congruence. right. auto.
      * intros [[_ C]|(-> & _)]; [contradiction|reflexivity].
    + split; [discriminate|]. intros [[_ C]|(_ & _ & C)]; [contradiction|apply V in C; discriminate C].
Qed.
(** C93: a string is written as a PrintableString if it can be, else as a UTF8String, and not at all if
    it is no UTF-8. *)
Theorem C93_string_written : forall s e, bytes s -> zlen s < 2 ^ 31 ->
  (fieldAny (AnyString s) = OK e <->
   (Forall printable s /\ e = tlv 19 s) \/ (~ Forall printable s /\ unicode s /\ e = tlv 12 s)).
Proof.
  intros s e HB HL. cbn [fieldAny].
  assert (M : forall t, t = 19 \/ t = 12 -> makeField false t false (OK s) noParams = OK (tlv t s)).
  { intros t Ht. unfold makeField. cbn [noParams fp_optional fp_set fp_tag andb rbind]. rewrite tagged_tlv; [|split; lia|lia].
    destruct Ht as [->| ->]; reflexivity. }
  pose proof (fun t => stringTag_iff s t HB) as T. split.
  - intros H. destruct (stringTag s) as [t|m] eqn:E; [|discriminate H]. cbn [rbind] in H. pose proof (proj1 (T t) eq_refl) as E'.
    destruct E' as [(-> & P)|(-> & P & U)]; (rewrite M in H by auto); apply ok_eq in H; [left|right]; auto.
  - intros [(P & ->)|(P & U & ->)].
    + rewrite (proj2 (T 19)) by auto. apply M; auto.
    + rewrite (proj2 (T 12)) by auto. apply M; auto.
Qed.
(** An at sign makes a UTF8String; latin-1 text cannot be written. *)
Example C93_string_ex : fieldAny (AnyString [66; 61; 63]) = OK [19; 3; 66; 61; 63] /\ fieldAny (AnyString [97; 64]) = OK [12; 2; 97; 64] /\
  fieldAny (AnyString [42]) = OK [12; 1; 42] /\ fieldAny (AnyString [0xe4]) = ERR "asn1: string not valid UTF-8".
Proof. repeat split. Qed.

(** * Times *)

(** YYMMDDhhmm, the seconds, which may be left out if they are zero, and the zone: Z, or + or - with four
    digits. *)
Definition utc_form (t : Time) (l : list Z) : Prop :=
  t_nsec t = 0 /\ zone_ok (t_off t) /\
  exists y m d h mi s, Date t = (y, m, d) /\ Clock t = (h, mi, s) /\ 1950 <= y <= 2049 /\
    (l = twoDigits (y mod 100) ++ twoDigits m ++ twoDigits d ++ twoDigits h ++ twoDigits mi ++ twoDigits s ++ formatZone (t_off t) \/
     (s = 0 /\ l = twoDigits (y mod 100) ++ twoDigits m ++ twoDigits d ++ twoDigits h ++ twoDigits mi ++ formatZone (t_off t))).
(** YYYYMMDDhhmmss and the zone. *)
Definition general_form (t : Time) (l : list Z) : Prop :=
  t_nsec t = 0 /\ zone_ok (t_off t) /\ 0 <= yearOf t <= 9999 /\ l = formatTime t.
Lemma general_iff : forall l t, parseGeneralizedTime l = OK t <-> general_form t l.
Proof.
  intros l t. unfold general_form. split.
  - intros H. destruct (GT_inv _ _ H) as (-> & H1 & H2 & H3). auto.
  - intros (HN & HZ & HY & ->). rewrite (formatTime_read t HY), (formatZone_back _ HZ).
    replace (t_unix t + t_off t - t_off t) with (t_unix t) by lia. destruct t as [u n o]. cbn [t_unix t_off t_nsec] in *. subst n. reflexivity.
Qed.
Lemma dateTime_inv : forall y w l t, parseDateTime y w l = Some t -> exists m d h mi s, t_nsec t = 0 /\ zone_ok (t_off t) /\
  Date t = (y, m, d) /\ Clock t = (h, mi, s) /\ (w = false -> s = 0) /\
  l = twoDigits m ++ twoDigits d ++ twoDigits h ++ twoDigits mi ++ (if w then twoDigits s else []) ++ formatZone (t_off t).
Proof.
  intros y w l t H. unfold parseDateTime in H.
  destruct (two l) as [[m l3]|] eqn:F1; [|discriminate H]. destruct (two l3) as [[d l4]|] eqn:F2; [|discriminate H].
  destruct (two l4) as [[h l5]|] eqn:F3; [|discriminate H]. destruct (two l5) as [[mi l6]|] eqn:F4; [|discriminate H].
  destruct (if w then two l6 else Some (0, l6)) as [[s l7]|] eqn:F5; [|discriminate H]. destruct (parseZone l7) as [off|] eqn:F6; [|discriminate H].
  destruct (two_inv _ _ _ F1) as [-> G1]. destruct (two_inv _ _ _ F2) as [-> G2]. destruct (two_inv _ _ _ F3) as [-> G3].
  destruct (two_inv _ _ _ F4) as [-> G4]. destruct (zone_inv _ _ F6) as [ZO ->].
  assert (G5 : 0 <= s < 100 /\ (w = false -> s = 0) /\ l6 = (if w then twoDigits s else []) ++ formatZone off).
  { destruct w; [destruct (two_inv _ _ _ F5) as [-> G5]; split; [lia|]; split; [discriminate|reflexivity]|].
    assert (s = 0) by congruence. assert (l6 = formatZone off) by congruence. subst. split; [lia|]. split; reflexivity. }
  destruct G5 as (G5 & G6 & ->).
  match type of H with (if ?c then _ else _) = _ => destruct c eqn:C; [discriminate H|] end.
  rewrite !orb_false_iff, !Z.ltb_ge in C. destruct C as ((((((C1 & C2) & C3) & C4) & C5) & C6) & C7).
  assert (E : t = mkTime (days y m d * 86400 + h * 3600 + mi * 60 + s - off) 0 off) by congruence. subst t. clear H.
  cbn [t_nsec t_off]. exists m, d, h, mi, s. split; [reflexivity|]. split; [exact ZO|].
  set (u := days y m d * 86400 + h * 3600 + mi * 60 + s - off).
  assert (U : u + off = h * 3600 + mi * 60 + s + days y m d * 86400) by (unfold u; lia).
  split; [|split; [|split; [exact G6|reflexivity]]].
  - unfold Date. cbn [t_unix t_off]. rewrite U, Z.div_add by lia. rewrite Z.div_small by lia. rewrite Z.add_0_l. apply C78_unique; lia.
  - unfold Clock. cbn [t_unix t_off]. rewrite U, Z.mod_add by lia. rewrite (Z.mod_small (h * 3600 + mi * 60 + s)) by lia. cbv zeta.
    replace ((h * 3600 + mi * 60 + s) / 3600) with h by (apply (Z.div_unique _ 3600 h (mi * 60 + s)); lia).
    replace ((h * 3600 + mi * 60 + s) mod 3600) with (mi * 60 + s) by (apply (Z.mod_unique _ 3600 h (mi * 60 + s)); lia).
    replace ((mi * 60 + s) / 60) with mi by (apply (Z.div_unique _ 60 mi s); lia).
    replace ((h * 3600 + mi * 60 + s) mod 60) with s by (apply (Z.mod_unique _ 60 (h * 60 + mi) s); lia).
    reflexivity.
Qed.
Lemma dateTime_short : forall t y m d h mi z off, Date t = (y, m, d) -> Clock t = (h, mi, 0) -> parseZone z = Some off ->
  parseDateTime y false (twoDigits m ++ twoDigits d ++ twoDigits h ++ twoDigits mi ++ z) = Some (mkTime (t_unix t + t_off t - off) 0 off).
Proof.
  intros t y m d h mi z off HD HC HZ. unfold Date in HD. unfold Clock in HC. cbv zeta in HC.
  destruct (C78_calendar _ _ _ _ HD) as (Hm & Hd & HE).
  pose proof (Z.div_mod (t_unix t + t_off t) 86400 ltac:(lia)) as DM. pose proof (Z.mod_pos_bound (t_unix t + t_off t) 86400 ltac:(lia)) as MB.
  set (w := (t_unix t + t_off t) mod 86400) in *. destruct (clock_spec w MB) as (H1 & H2 & H3 & H4).
  injection HC as E1 E2 E3. rewrite E1, E2, E3 in *.
  assert (D31 : daysIn y m <= 31) by (unfold daysIn; destruct (m =? 2); [destruct (isLeap y)|destruct ((m =? 4) || (m =? 6) || (m =? 9) || (m =? 11))]; lia).
  unfold parseDateTime. do 4 rewrite two_twoDigits by lia. rewrite HZ.
  rewrite (proj2 (Z.ltb_ge m 1)) by lia. rewrite (proj2 (Z.ltb_ge 12 m)) by lia. rewrite (proj2 (Z.ltb_ge d 1)) by lia.
  rewrite (proj2 (Z.ltb_ge (daysIn y m) d)) by lia. rewrite (proj2 (Z.ltb_ge 23 _)) by lia. rewrite (proj2 (Z.ltb_ge 59 _)) by lia. cbn [orb Z.ltb Z.compare].
  f_equal. f_equal. lia.
Qed.
Lemma zone_not_digits : forall v z, 0 <= v < 100 -> parseZone (twoDigits v ++ z) = None.
Proof.
  intros v z Hv. unfold twoDigits. cbn [app]. set (a := 48 + (v / 10) mod 10). rewrite zone_cons by discriminate.
  assert (48 <= a) by (unfold a; pose proof (Z.mod_pos_bound (v / 10) 10 ltac:(lia)); lia).
  destruct (two _) as [[hh r]|]; [|reflexivity]. destruct (two r) as [[mm [|? ?]]|]; try reflexivity. cbv zeta.
  destruct (_ || _); [reflexivity|]. rewrite (proj2 (Z.eqb_neq a 43)) by lia. rewrite (proj2 (Z.eqb_neq a 45)) by lia. reflexivity.
Qed.
Lemma short_fails : forall y m d h mi s z, 0 <= m < 100 -> 0 <= d < 100 -> 0 <= h < 100 -> 0 <= mi < 100 -> 0 <= s < 100 ->
  parseDateTime y false (twoDigits m ++ twoDigits d ++ twoDigits h ++ twoDigits mi ++ twoDigits s ++ z) = None.
Proof. intros. unfold parseDateTime. do 4 rewrite two_twoDigits by lia. rewrite zone_not_digits by lia. reflexivity. Qed.
Lemma utcYear_iff : forall y, 1950 <= y <= 2049 -> utcYear (y mod 100) = y.
Proof.
  intros y Hy. unfold utcYear. pose proof (Z.div_mod y 100 ltac:(lia)) as D. pose proof (Z.mod_pos_bound y 100 ltac:(lia)) as M.
  assert (K : y / 100 = 19 \/ y / 100 = 20) by lia.
  destruct (Z.leb_spec 69 (y mod 100)); cbv zeta;
    [destruct (Z.leb_spec 2050 (y mod 100 + 1900))|destruct (Z.leb_spec 2050 (y mod 100 + 2000))]; lia.
Qed.
Lemma utcYear_range : forall v, 0 <= v < 100 -> 1950 <= utcYear v <= 2049 /\ utcYear v mod 100 = v.
Proof.
  intros v Hv. unfold utcYear. cbv zeta. destruct (Z.leb_spec 69 v).
  - rewrite (proj2 (Z.leb_gt 2050 _)) by lia. split; [lia|]. symmetry. apply (Z.mod_unique _ 100 19); lia.
  - destruct (Z.leb_spec 2050 (v + 2000)); (split; [lia|]); symmetry; [apply (Z.mod_unique _ 100 19); lia|apply (Z.mod_unique _ 100 20); lia].
Qed.
Lemma date_small : forall t y m d h mi s, Date t = (y, m, d) -> Clock t = (h, mi, s) ->
  1 <= m <= 12 /\ 1 <= d <= 31 /\ 0 <= h <= 23 /\ 0 <= mi <= 59 /\ 0 <= s <= 59.
Proof.
  intros t y m d h mi s HD HC. unfold Date in HD. unfold Clock in HC. cbv zeta in HC. destruct (C78_calendar _ _ _ _ HD) as (Hm & Hd & HE).
  pose proof (Z.mod_pos_bound (t_unix t + t_off t) 86400 ltac:(lia)) as MB.
  destruct (clock_spec _ MB) as (H1 & H2 & H3 & H4). injection HC as E1 E2 E3.
  assert (D31 : daysIn y m <= 31) by (unfold daysIn; destruct (m =? 2); [destruct (isLeap y)|destruct ((m =? 4) || (m =? 6) || (m =? 9) || (m =? 11))]; lia).
  lia.
Qed.
Lemma utc_iff : forall l t, parseUTCTime l = OK t <-> utc_form t l.
Proof.
  intros l t. unfold utc_form. split.
  - intros H. unfold parseUTCTime in H. destruct (two l) as [[yy l1]|] eqn:E1; [|discriminate H]. destruct (two_inv _ _ _ E1) as [-> H1].
    destruct (utcYear_range yy H1) as [H2 H3].
    destruct (parseDateTime (utcYear yy) false l1) as [t'|] eqn:E2.
    + assert (t' = t) by congruence. subst t'. destruct (dateTime_inv _ _ _ _ E2) as (m & d & h & mi & s & A1 & A2 & A3 & A4 & A5 & ->).
      split; [exact A1|]. split; [exact A2|]. exists (utcYear yy), m, d, h, mi, s. rewrite H3. split; [exact A3|]. split; [exact A4|]. split; [exact H2|].
      right. split; [apply A5; reflexivity|reflexivity].
    + destruct (parseDateTime (utcYear yy) true l1) as [t'|] eqn:E3; [|discriminate H].
      assert (t' = t) by congruence. subst t'. destruct (dateTime_inv _ _ _ _ E3) as (m & d & h & mi & s & A1 & A2 & A3 & A4 & A5 & ->).
      split; [exact A1|]. split; [exact A2|]. exists (utcYear yy), m, d, h, mi, s. rewrite H3. split; [exact A3|]. split; [exact A4|]. split; [exact H2|].
      left. reflexivity.
  - intros (HN & HZ & y & m & d & h & mi & s & HD & HC & HY & HL). destruct (date_small _ _ _ _ _ _ _ HD HC) as (K1 & K2 & K3 & K4 & K5).
    pose proof (Z.mod_pos_bound y 100 ltac:(lia)) as MB.
    assert (T : t = mkTime (t_unix t + t_off t - t_off t) 0 (t_off t)) by (destruct t as [u n o]; cbn [t_unix t_off t_nsec] in *; subst n; f_equal; lia).
    unfold parseUTCTime. destruct HL as [-> |(-> & ->)]; rewrite (two_twoDigits (y mod 100)) by lia; rewrite (utcYear_iff y HY).
    + rewrite short_fails by lia. rewrite (dateTime_zone t y m d h mi s _ HD HC), (formatZone_back _ HZ). rewrite <- T. reflexivity.
    + rewrite (dateTime_short t y m d h mi _ _ HD HC (formatZone_back _ HZ)). rewrite <- T. reflexivity.
Qed.
(** A UTCTime or a GeneralizedTime; r is what follows it. *)
Definition time_of (l : list Z) (t : Time) (r : list Z) : Prop :=
  elem_of 0 false 23 (fun b t => utc_form t b) l t r \/ elem_of 0 false 24 (fun b t => general_form t b) l t r.
Definition uUTC : uty Time := mkU false (fun _ => 23) false (fun _ _ _ i => parseUTCTime i).
Definition uGeneral : uty Time := mkU false (fun _ => 24) false (fun _ _ _ i => parseGeneralizedTime i).
Lemma time_cases : forall z l v r, parseField uTime z noParams l = OK (v, r) <-> parseField uUTC z noParams l = OK (v, r) \/ parseField uGeneral z noParams l = OK (v, r).
Proof.
  intros z l v r. unfold parseField. destruct l as [|x y] eqn:E; [intuition discriminate|]. rewrite <- E. clear E x y.
  destruct (parseTagAndLength l) as [[h q]|e]; cbn [rbind]; [|intuition discriminate].
  cbn [noParams fp_explicit fp_set fp_tag fp_optional rbind uTime uUTC uGeneral u_any u_tag u_comp u_body negb andb].
  destruct (Z.eqb_spec (tl_class h) 0) as [C|C]; cbn [andb negb orb]; [|intuition discriminate].
  destruct (Z.eqb_spec (tl_tag h) TagGeneralizedTime) as [T|T].
  - rewrite T. cbn [TagGeneralizedTime TagUTCTime Z.eqb Pos.eqb negb orb]. intuition discriminate.
  - rewrite (proj2 (Z.eqb_neq (tl_tag h) 24)) by exact T. cbn [TagUTCTime TagGeneralizedTime Z.eqb Pos.eqb negb orb]. intuition discriminate.
Qed.
Lemma time_iff : forall z l v r, bytes l -> (parseField uTime z noParams l = OK (v, r) <-> time_of l v r).
Proof.
  intros z l v r HB. rewrite time_cases. unfold time_of.
  rewrite (plain_of _ uUTC 23 false (fun b t => utc_form t b) z l v r); [|exists parseUTCTime; split; [|intros; apply utc_iff]; unfold simple; repeat split; auto; lia|exact HB].
  rewrite (plain_of _ uGeneral 24 false (fun b t => general_form t b) z l v r); [|exists parseGeneralizedTime; split; [|intros; apply general_iff]; unfold simple; repeat split; auto; lia|exact HB].
  tauto.
Qed.
(** C93: the times that are read, and from which bytes. *)
Theorem C93_time : forall l t, bytes l -> (unmarshalAll uTime zeroTime l = OK t <-> time_of l t []).
Proof.
  intros l t HB. rewrite <- (time_iff zeroTime l t [] HB). unfold unmarshalAll, unmarshal.
  destruct (parseField uTime zeroTime noParams l) as [[w r]|e]; cbn [rbind]; [|split; discriminate]. destruct (Z.eqb_spec (zlen r) 0) as [E|N]; cbn [negb].
  - apply zlen_0_nil in E. subst r. split; intro E; apply ok_eq in E; congruence.
  - split; [discriminate|]. intro E. apply ok_eq in E. assert (r = []) by congruence. subst r. exfalso. apply N. reflexivity.
Qed.
(** 2020-02-29 12:00 without seconds and 1950-01-01 00:00:00 +0130; the 29th of February 2021, a zero
    offset with digits, and a leap second are refused. *)
Example C93_time_ex :
  unmarshalAll uTime zeroTime [23; 11; 50; 48; 48; 50; 50; 57; 49; 50; 48; 48; 90] = OK (mkTime 1582977600 0 0) /\
  unmarshalAll uTime zeroTime [23; 17; 53; 48; 48; 49; 48; 49; 48; 48; 48; 48; 48; 48; 43; 48; 49; 51; 48] = OK (mkTime (-631157400) 0 5400) /\
  unmarshalAll uTime zeroTime [23; 11; 50; 49; 48; 50; 50; 57; 49; 50; 48; 48; 90] = ERR "parsing time" /\
  unmarshalAll uTime zeroTime [23; 15; 50; 48; 48; 50; 50; 57; 49; 50; 48; 48; 43; 48; 48; 48; 48] = ERR "parsing time" /\
  unmarshalAll uTime zeroTime [23; 13; 50; 48; 48; 50; 50; 57; 49; 50; 48; 48; 54; 48; 90] = ERR "parsing time".
Proof. repeat split. Qed.

(** * Attribute values *)

(** What a primitive universal element with a given tag and contents is read as; nothing, without looking
    at the contents, if the tag is not one of those. *)
Inductive attribute : Z -> list Z -> goAny -> Prop :=
| at_printable s : Forall (fun b => printable b \/ b = 42 \/ b = 38) s -> attribute 19 s (AnyString s)
| at_numeric s : Forall (fun b => 48 <= b <= 57 \/ b = 32) s -> attribute 18 s (AnyString s)
| at_ia5 s : Forall (fun b => b < 128) s -> attribute 22 s (AnyString s)
| at_t61 s : attribute 20 s (AnyString s)
| at_utf8 s : unicode s -> attribute 12 s (AnyString s)
| at_int l v : g_int l v -> attribute 2 l (AnyInt v)
| at_bits l v : g_bits l v -> attribute 3 l (AnyBits v)
| at_oid l v : g_oid l v -> attribute 6 l (AnyOID v)
| at_utc l t : utc_form t l -> attribute 23 l (AnyTime t)
| at_general l t : general_form t l -> attribute 24 l (AnyTime t)
| at_octets l : attribute 4 l (AnyBytes l)
| at_other tag l : ~ In tag [2; 3; 4; 6; 12; 18; 19; 20; 22; 23; 24] -> attribute tag l AnyNil.
Lemma body_iff : forall tag l v, bytes l -> (parseAnyBody tag l = OK v <-> attribute tag l v).
Proof.
  intros tag l v HB. unfold parseAnyBody, TagPrintableString, TagNumericString, TagIA5String, TagT61String, TagUTF8String, TagInteger, TagBitString, TagOID, TagUTCTime, TagGeneralizedTime, TagOctetString.
  assert (OTHER : forall t w, attribute t l w -> In t [2; 3; 4; 6; 12; 18; 19; 20; 22; 23; 24] -> w <> AnyNil) by (intros t w HA HI; destruct HA; try discriminate; contradiction).
  assert (STR : forall (b : bool) (P : Prop) t m, (b = true <-> P) -> (forall s w, attribute t s w -> w = AnyString s /\ (s = l -> P)) -> (P -> attribute t l (AnyString l)) ->
    ((if b then OK (AnyString l) else ERR m) = OK v <-> attribute t l v)).
  { intros b P t m HP HI HC. destruct b.
    - split; intro H; [apply ok_eq in H; subst v; apply HC, HP; reflexivity|]. apply HI in H. destruct H as [-> _]. reflexivity.
    - split; intro H; [discriminate H|]. apply HI in H. destruct H as [_ H]. specialize (proj2 HP (H eq_refl)). discriminate. }
  assert (VAL : forall A (D : res A) (C : A -> goAny) (P : A -> Prop) t, (forall w, D = OK w <-> P w) -> (forall a b, C a = C b -> a = b) ->
    (forall s w, attribute t s w -> s = l -> exists a, w = C a /\ P a) -> (forall a, P a -> attribute t l (C a)) ->
    ((try w <- D; OK (C w)) = OK v <-> attribute t l v)).
  { intros A D C P t HD HI HA HC. destruct D as [w|e]; cbn [rbind].
    - split; intro H; [apply ok_eq in H; subst v; apply HC, HD; reflexivity|]. destruct (HA _ _ H eq_refl) as (a & -> & Pa). apply HD in Pa. f_equal. f_equal. apply ok_eq in Pa. congruence.
    - split; intro H; [discriminate H|]. destruct (HA _ _ H eq_refl) as (a & -> & Pa). apply HD in Pa. discriminate Pa. }
  destruct (Z.eqb_spec tag 19) as [->|N19].
  { apply (STR _ (Forall (fun b => printable b \/ b = 42 \/ b = 38) l)); [apply all_iff, lenient_iff| |apply at_printable].
    intros s w H. inversion H; subst; [split; [reflexivity|intros ->; assumption]|]. cbn [In] in *. exfalso; tauto. }
  destruct (Z.eqb_spec tag 18) as [->|N18].
  { apply (STR _ (Forall (fun b => 48 <= b <= 57 \/ b = 32) l)); [apply all_iff, numeric_iff| |apply at_numeric].
    intros s w H. inversion H; subst; [split; [reflexivity|intros ->; assumption]|]. cbn [In] in *. exfalso; tauto. }
  destruct (Z.eqb_spec tag 22) as [->|N22].
  { apply (STR _ (Forall (fun b => b < 128) l)); [apply all_iff; intros b; apply Z.ltb_lt| |apply at_ia5].
    intros s w H. inversion H; subst; [split; [reflexivity|intros ->; assumption]|]. cbn [In] in *. exfalso; tauto. }
  destruct (Z.eqb_spec tag 20) as [->|N20].
  { split; intro H; [apply ok_eq in H; subst v; apply at_t61|]. inversion H; subst; [reflexivity|]. cbn [In] in *. exfalso; tauto. }
  destruct (Z.eqb_spec tag 12) as [->|N12].
  { apply (STR _ (unicode l)); [apply valid_iff, HB| |apply at_utf8].
    intros s w H. inversion H; subst; [split; [reflexivity|intros ->; assumption]|]. cbn [In] in *. exfalso; tauto. }
  destruct (Z.eqb_spec tag 2) as [->|N2].
  { apply (VAL _ _ AnyInt (g_int l)); [intros w; apply parseInt64_iff, HB|congruence| |apply at_int].
    intros s w H E. inversion H; subst; [eexists; split; [reflexivity|assumption]|]. cbn [In] in *. exfalso; tauto. }
  destruct (Z.eqb_spec tag 3) as [->|N3].
  { apply (VAL _ _ AnyBits (g_bits l)); [intros w; apply bits_iff, HB|congruence| |apply at_bits].
    intros s w H E. inversion H; subst; [eexists; split; [reflexivity|assumption]|]. cbn [In] in *. exfalso; tauto. }
  destruct (Z.eqb_spec tag 6) as [->|N6].
  { apply (VAL _ _ AnyOID (g_oid l)); [intros w; apply oid_iff, HB|congruence| |apply at_oid].
    intros s w H E. inversion H; subst; [eexists; split; [reflexivity|assumption]|]. cbn [In] in *. exfalso; tauto. }
  destruct (Z.eqb_spec tag 23) as [->|N23].
  { apply (VAL _ _ AnyTime (fun t => utc_form t l)); [intros w; apply utc_iff|congruence| |intros a; apply at_utc].
    intros s w H E. inversion H; subst; [eexists; split; [reflexivity|assumption]|]. cbn [In] in *. exfalso; tauto. }
  destruct (Z.eqb_spec tag 24) as [->|N24].
  { apply (VAL _ _ AnyTime (fun t => general_form t l)); [intros w; apply general_iff|congruence| |intros a; apply at_general].
    intros s w H E. inversion H; subst; [eexists; split; [reflexivity|assumption]|]. cbn [In] in *. exfalso; tauto. }
  destruct (Z.eqb_spec tag 4) as [->|N4].
  { split; intro H; [apply ok_eq in H; subst v; apply at_octets|]. inversion H; subst; [reflexivity|]. cbn [In] in *. exfalso; tauto. }
  split; intro H.
  - apply ok_eq in H. subst v. apply at_other. cbn [In]. intuition congruence.
  - destruct H; congruence.
Qed.
(** What an element is read as. *)
Definition attribute_of (rv : RawValue) (v : goAny) : Prop :=
  if negb (rv_comp rv) && (rv_class rv =? 0) then attribute (rv_tag rv) (rv_bytes rv) v else v = AnyNil.
(** C93: this is what the grammar of names of C92 means by the value of an attribute. *)
Theorem C93_table : forall rv v, bytes (rv_bytes rv) -> (any_value rv v <-> attribute_of rv v).
Proof. intros rv v HB. unfold any_value, attribute_of. destruct (negb (rv_comp rv) && (rv_class rv =? 0)); [|tauto]. apply body_iff, HB. Qed.
(** C93: what is read for the value of an attribute. *)
Theorem C93_value : forall l v r, bytes l ->
  (parseAny l = OK (v, r) <-> exists rv, raw_item rv /\ l = rv_full rv ++ r /\ attribute_of rv v).
Proof.
  intros l v r HB. rewrite (any_iff l v r HB).
  assert (K : forall rv, raw_item rv -> l = rv_full rv ++ r -> bytes (rv_bytes rv)).
  { intros rv (hd & _ & E') E. rewrite E, E' in HB. apply bytes_app in HB. destruct HB as [HB _]. apply bytes_app in HB. apply HB. }
  split; intros (rv & H1 & H2 & H3); exists rv; (split; [exact H1|]).
  - split; [exact H3|]. apply (C93_table rv v (K rv H1 H3)), H2.
  - split; [|exact H2]. apply (C93_table rv v (K rv H1 H2)), H3.
Qed.
(** A PrintableString with an ampersand, a BMPString and a SEQUENCE, both read as nothing, and a
    PrintableString with an at sign, which is refused. *)
Example C93_value_ex : parseAny [19; 3; 65; 38; 66] = OK (AnyString [65; 38; 66], []) /\ parseAny [30; 2; 0; 65; 7] = OK (AnyNil, [7]) /\
  parseAny [48; 0] = OK (AnyNil, []) /\ parseAny [19; 1; 64] = ERR "PrintableString contains invalid character" /\
  parseAny [12; 2; 0xc0; 0xaf] = ERR "asn1: invalid UTF-8 string" /\ parseAny [2; 2; 1; 0] = OK (AnyInt 256, []).
Proof. repeat split. Qed.
Example C93_table_ex : attribute 30 [0; 65] AnyNil /\ attribute 19 [65; 38; 66] (AnyString [65; 38; 66]).
Proof. split; [apply at_other; cbn [In]; intuition discriminate|]. apply at_printable. repeat constructor; unfold printable; cbn [In]; lia. Qed.
