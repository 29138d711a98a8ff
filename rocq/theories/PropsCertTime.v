(** Times in certificates (C78): the calendar, and that a time written in DER is read back to the
    second. *)
From Coq Require Import ZArith List Lia Bool String.
From Verif Require Import GoBase BeMin CbString CbStringProofs CbBuilder CbBuilderProofs PropsCbBuilder CbAsn1Proofs GoAsn1 GoAsn1Proofs Sm2Der PropsSm2Der GoText GoPkix CertText Cert CertRt.
Import ListNotations.
Open Scope Z_scope.

(** * The calendar *)

(** The first day of the [y]-th year of an era of 400 years; years begin in March. *)
Definition start (y : Z) : Z := 365 * y + y / 4 - y / 100.
Definition last_day (y : Z) : Z := if y =? 399 then 146096 else start (y + 1) - 1.
Definition yearIndex (doe : Z) : Z := (doe - doe / 1460 + doe / 36524 - doe / 146096) / 365.

Definition upto (n : nat) : list Z := map Z.of_nat (seq 0 n).
Lemma upto_all : forall n (P : Z -> bool), forallb P (upto n) = true -> forall i, 0 <= i < Z.of_nat n -> P i = true.
Proof.
  intros n P H i Hi. rewrite forallb_forall in H. apply H. apply in_map_iff. exists (Z.to_nat i). split; [lia|]. apply in_seq. lia.
Qed.
Lemma year_bounds : forall y, 0 <= y < 400 -> yearIndex (start y) = y /\ yearIndex (last_day y) = y /\
  (if isLeap (y + 1) then last_day y - start y = 365 else last_day y - start y = 364).
Proof.
  intros y Hy.
  assert (H : (yearIndex (start y) =? y) && (yearIndex (last_day y) =? y) && (last_day y - start y =? (if isLeap (y + 1) then 365 else 364)) = true).
  { apply (upto_all 400 (fun y => (yearIndex (start y) =? y) && (yearIndex (last_day y) =? y) && (last_day y - start y =? (if isLeap (y + 1) then 365 else 364)))); [vm_compute; reflexivity|lia]. }
  apply andb_true_iff in H. destruct H as [H H3]. apply andb_true_iff in H. destruct H as [H1 H2].
  apply Z.eqb_eq in H1. apply Z.eqb_eq in H2. apply Z.eqb_eq in H3. split; [exact H1|]. split; [exact H2|]. destruct (isLeap (y + 1)); exact H3.
Qed.
Lemma yearIndex_mono : forall a b, 0 <= a <= b -> yearIndex a <= yearIndex b.
Proof.
  intros a b H. unfold yearIndex. apply Z.div_le_mono; [lia|].
  assert (K : forall d, 0 <= d -> d / 146096 = d / 36524 / 4) by (intros d Hd; rewrite Z.div_div by lia; reflexivity).
  rewrite !K by lia.
  assert (M1 : a - a / 1460 <= b - b / 1460) by (pose proof (Z.div_mod a 1460 ltac:(lia)); pose proof (Z.div_mod b 1460 ltac:(lia));
    pose proof (Z.mod_pos_bound a 1460 ltac:(lia)); pose proof (Z.mod_pos_bound b 1460 ltac:(lia)); lia).
  assert (M2 : a / 36524 <= b / 36524) by (apply Z.div_le_mono; lia).
  set (p := a / 36524) in *. set (q := b / 36524) in *.
  assert (M3 : p - p / 4 <= q - q / 4) by (pose proof (Z.div_mod p 4 ltac:(lia)); pose proof (Z.div_mod q 4 ltac:(lia));
    pose proof (Z.mod_pos_bound p 4 ltac:(lia)); pose proof (Z.mod_pos_bound q 4 ltac:(lia)); lia).
  lia.
Qed.
Lemma year_exists : forall n doe, (n <= 400)%nat -> 0 <= doe <= last_day (Z.of_nat n - 1) -> exists y, 0 <= y < Z.of_nat n /\ start y <= doe <= last_day y.
Proof.
  induction n as [|n IH]; intros doe Hn H; [cbn in H; lia|].
  replace (Z.of_nat (S n) - 1) with (Z.of_nat n) in H by lia.
  destruct (Z_le_gt_dec (start (Z.of_nat n)) doe) as [K|K]; [exists (Z.of_nat n); lia|].
  destruct n as [|n']; [cbn in K; lia|].
  destruct (IH doe) as (y & Hy & Hd); [lia| |exists y; split; [lia|exact Hd]].
  split; [lia|]. unfold last_day. replace (Z.of_nat (S n') - 1 =? 399) with false by (symmetry; apply Z.eqb_neq; lia).
  replace (Z.of_nat (S n') - 1 + 1) with (Z.of_nat (S n')) by lia. lia.
Qed.
Lemma yearIndex_spec : forall doe, 0 <= doe < 146097 -> 0 <= yearIndex doe < 400 /\ start (yearIndex doe) <= doe <= last_day (yearIndex doe).
Proof.
  intros doe H. destruct (year_exists 400 doe ltac:(lia)) as (y & Hy & Hd); [cbn; lia|]. change (Z.of_nat 400) with 400 in Hy.
  destruct (year_bounds y Hy) as (B1 & B2 & _).
  assert (P : 0 <= start y) by (unfold start; pose proof (Z.div_le_lower_bound y 4 0 ltac:(lia) ltac:(lia)); pose proof (Z.div_le_upper_bound y 100 y ltac:(lia) ltac:(lia)); lia).
  assert (E : yearIndex doe = y).
  { pose proof (yearIndex_mono (start y) doe ltac:(lia)). pose proof (yearIndex_mono doe (last_day y) ltac:(lia)). lia. }
  rewrite E. split; [exact Hy|exact Hd].
Qed.

(** Month and day from the day of the year. *)
Definition monthIndex (doy : Z) : Z := (5 * doy + 2) / 153.
Definition monthOf (doy : Z) : Z := if monthIndex doy <? 10 then monthIndex doy + 3 else monthIndex doy - 9.
Definition dayOf (doy : Z) : Z := doy - (153 * monthIndex doy + 2) / 5 + 1.
Lemma month_spec : forall doy, 0 <= doy < 366 ->
  1 <= monthOf doy <= 12 /\ 1 <= dayOf doy <= daysIn 2000 (monthOf doy) /\
  (153 * (if 2 <? monthOf doy then monthOf doy - 3 else monthOf doy + 9) + 2) / 5 + dayOf doy - 1 = doy /\
  (doy < 365 -> dayOf doy <= daysIn 2001 (monthOf doy)) /\ (monthOf doy <= 2 <-> 306 <= doy).
Proof.
  intros doy H.
  assert (K : (1 <=? monthOf doy) && (monthOf doy <=? 12) && (1 <=? dayOf doy) && (dayOf doy <=? daysIn 2000 (monthOf doy)) &&
    ((153 * (if 2 <? monthOf doy then monthOf doy - 3 else monthOf doy + 9) + 2) / 5 + dayOf doy - 1 =? doy) &&
    ((365 <=? doy) || (dayOf doy <=? daysIn 2001 (monthOf doy))) && Bool.eqb (monthOf doy <=? 2) (306 <=? doy) = true).
  { apply (upto_all 366 (fun doy => (1 <=? monthOf doy) && (monthOf doy <=? 12) && (1 <=? dayOf doy) && (dayOf doy <=? daysIn 2000 (monthOf doy)) &&
    ((153 * (if 2 <? monthOf doy then monthOf doy - 3 else monthOf doy + 9) + 2) / 5 + dayOf doy - 1 =? doy) &&
    ((365 <=? doy) || (dayOf doy <=? daysIn 2001 (monthOf doy))) && Bool.eqb (monthOf doy <=? 2) (306 <=? doy))); [vm_compute; reflexivity|lia]. }
  rewrite !andb_true_iff, orb_true_iff, !Z.leb_le, Z.eqb_eq, eqb_true_iff in K. destruct K as ((((((K1 & K2) & K3) & K4) & K5) & K6) & K7).
  split; [lia|]. split; [lia|]. split; [exact K5|]. split; [lia|].
  destruct (Z.leb_spec (monthOf doy) 2), (Z.leb_spec 306 doy); try discriminate K7; lia.
Qed.
Lemma isLeap_period : forall y era, isLeap (y + era * 400) = isLeap y.
Proof.
  intros y era. unfold isLeap.
  replace ((y + era * 400) mod 4) with (y mod 4) by (replace (y + era * 400) with (y + (era * 100) * 4) by lia; rewrite Z.mod_add by lia; reflexivity).
  replace ((y + era * 400) mod 100) with (y mod 100) by (replace (y + era * 400) with (y + (era * 4) * 100) by lia; rewrite Z.mod_add by lia; reflexivity).
  rewrite Z.mod_add by lia. reflexivity.
Qed.
Lemma daysIn_leap : forall y y' m, isLeap y = isLeap y' -> daysIn y m = daysIn y' m.
Proof. intros y y' m H. unfold daysIn. rewrite H. reflexivity. Qed.

(** Every day has a date, which is a valid one and belongs to that day. *)
Theorem C78_calendar : forall d y m dd, civil d = (y, m, dd) ->
  1 <= m <= 12 /\ 1 <= dd <= daysIn y m /\ days y m dd = d.
Proof.
  intros d y m dd H. unfold civil in H. cbv zeta in H.
  set (z := d + 719468) in *. pose proof (Z.mod_pos_bound z 146097 ltac:(lia)) as HD. pose proof (Z.div_mod z 146097 ltac:(lia)) as HM.
  set (era := z / 146097) in *. set (doe := z mod 146097) in *.
  change ((doe - doe / 1460 + doe / 36524 - doe / 146096) / 365) with (yearIndex doe) in H.
  destruct (yearIndex_spec doe HD) as (HY & HS1 & HS2). set (yoe := yearIndex doe) in *.
  change (365 * yoe + yoe / 4 - yoe / 100) with (start yoe) in H. set (doy := doe - start yoe) in *.
  change ((5 * doy + 2) / 153) with (monthIndex doy) in H.
  change (if monthIndex doy <? 10 then monthIndex doy + 3 else monthIndex doy - 9) with (monthOf doy) in H.
  change (doy - (153 * monthIndex doy + 2) / 5 + 1) with (dayOf doy) in H.
  destruct (year_bounds yoe HY) as (_ & _ & HB).
  assert (HDY : 0 <= doy < 366) by (unfold doy; destruct (isLeap (yoe + 1)); lia).
  destruct (month_spec doy HDY) as (M1 & M2 & M3 & M4 & M5).
  injection H as H1 H2 H3. rewrite H2 in *. rewrite H3 in *. subst y.
  split; [exact M1|]. split.
  - split; [lia|]. destruct (Z_lt_le_dec doy 365) as [L|L].
    + apply Z.le_trans with (daysIn 2001 m); [apply M4; exact L|]. unfold daysIn. destruct (m =? 2); [|lia].
      change (isLeap 2001) with false. cbv iota. destruct (isLeap (yoe + era * 400 + (if m <=? 2 then 1 else 0))); lia.
    + assert (LL : isLeap (yoe + 1) = true) by (destruct (isLeap (yoe + 1)); [reflexivity|unfold doy in L; lia]).
      assert (L2 : m <= 2) by (apply M5; lia). destruct (Z.leb_spec m 2) as [_|]; [|lia].
      rewrite (daysIn_leap _ 2000); [lia|]. replace (yoe + era * 400 + 1) with (yoe + 1 + era * 400) by lia. rewrite isLeap_period, LL. reflexivity.
  - unfold days.
    replace (if m <=? 2 then yoe + era * 400 + (if m <=? 2 then 1 else 0) - 1 else yoe + era * 400 + (if m <=? 2 then 1 else 0)) with (yoe + era * 400)
      by (destruct (m <=? 2); lia).
    replace ((yoe + era * 400) / 400) with era by (rewrite Z.div_add by lia; rewrite Z.div_small by lia; lia).
    replace ((yoe + era * 400) mod 400) with yoe by (rewrite Z.mod_add by lia; rewrite Z.mod_small by lia; reflexivity).
    replace (yoe * 365 + yoe / 4 - yoe / 100) with (start yoe) by (unfold start; lia). unfold z in HM. unfold doy in M3. lia.
Qed.

(** The years 0 to 9999 are these days. *)
Lemma civil_year : forall d, let y := fst (fst (civil d)) in
  (0 <= y <-> - 719528 <= d) /\ (y <= 9999 <-> d < 2932897).
Proof.
  intros d. destruct (civil d) as [[y m] dd] eqn:E. cbn [fst]. destruct (C78_calendar d y m dd E) as (Hm & Hd & <-).
  unfold days. assert (D31 : daysIn y m <= 31) by (unfold daysIn; destruct (m =? 2); [destruct (isLeap y)|destruct ((m =? 4) || (m =? 6) || (m =? 9) || (m =? 11))]; lia).
  set (y' := if m <=? 2 then y - 1 else y).
  pose proof (Z.div_mod y' 400 ltac:(lia)) as DM. pose proof (Z.mod_pos_bound y' 400 ltac:(lia)) as MB.
  set (era := y' / 400) in *. set (yoe := y' mod 400) in *.
  pose proof (Z.div_mod yoe 4 ltac:(lia)) as Q4. pose proof (Z.mod_pos_bound yoe 4 ltac:(lia)) as R4.
  pose proof (Z.div_mod yoe 100 ltac:(lia)) as Q100. pose proof (Z.mod_pos_bound yoe 100 ltac:(lia)) as R100.
  set (a := yoe / 4) in *. set (b := yoe / 100) in *.
  assert (MI : exists k, (153 * (if 2 <? m then m - 3 else m + 9) + 2) / 5 = k /\
     ((3 <= m /\ 0 <= k <= 275) \/ (m = 1 /\ k = 306) \/ (m = 2 /\ k = 337))).
  { assert (C : m = 1 \/ m = 2 \/ m = 3 \/ m = 4 \/ m = 5 \/ m = 6 \/ m = 7 \/ m = 8 \/ m = 9 \/ m = 10 \/ m = 11 \/ m = 12) by lia.
    repeat (destruct C as [-> | C]; [eexists; split; [reflexivity|cbn; lia]|]). subst m. eexists. split; [reflexivity|cbn; lia]. }
  destruct MI as (k & -> & MK). unfold y' in DM. destruct (Z.leb_spec m 2).
  - split; split; intros; nia.
  - split; split; intros; nia.
Qed.

(** * Times in DER *)

Lemma digit_of : forall v, 0 <= v < 10 -> digit (48 + v) = true.
Proof. intros v H. unfold digit. apply andb_true_iff. rewrite !Z.leb_le. lia. Qed.
Lemma two_twoDigits : forall v r, 0 <= v < 100 -> two (twoDigits v ++ r) = Some (v, r).
Proof.
  intros v r H. unfold twoDigits. cbn [app two].
  pose proof (Z.div_mod v 10 ltac:(lia)) as D. pose proof (Z.mod_pos_bound v 10 ltac:(lia)) as M.
  rewrite (Z.mod_small (v / 10)) by lia. rewrite !digit_of by lia. cbn [andb]. f_equal. f_equal. lia.
Qed.
Lemma fourDigits_two : forall v, 0 <= v < 10000 -> fourDigits v = twoDigits (v / 100) ++ twoDigits (v mod 100).
Proof.
  intros v H. unfold fourDigits, twoDigits. cbn [app].
  assert (A : v / 1000 = v / 100 / 10) by (rewrite Z.div_div by lia; reflexivity).
  assert (B : (v mod 100 / 10) mod 10 = (v / 10) mod 10).
  { pose proof (Z.div_mod v 100 ltac:(lia)) as D. pose proof (Z.mod_pos_bound v 100 ltac:(lia)) as M.
    replace (v / 10) with (v mod 100 / 10 + (v / 100) * 10); [rewrite Z.mod_add by lia; reflexivity|].
    rewrite <- Z.div_add by lia. f_equal. lia. }
  assert (C : (v mod 100) mod 10 = v mod 10).
  { pose proof (Z.div_mod v 100 ltac:(lia)) as D. replace (v mod 10) with ((v mod 100 + (v / 100 * 10) * 10) mod 10) by (f_equal; lia).
    rewrite Z.mod_add by lia. reflexivity. }
  rewrite A, B, C. reflexivity.
Qed.

(** The seconds of a UTC time within its day, as hours, minutes and seconds. *)
Lemma clock_spec : forall s, 0 <= s < 86400 -> 0 <= s / 3600 < 24 /\ 0 <= s mod 3600 / 60 < 60 /\ 0 <= s mod 60 < 60 /\
  s / 3600 * 3600 + s mod 3600 / 60 * 60 + s mod 60 = s.
Proof.
  intros s H. pose proof (Z.div_mod s 3600 ltac:(lia)) as D. pose proof (Z.mod_pos_bound s 3600 ltac:(lia)) as M.
  set (q := s mod 3600) in *. pose proof (Z.div_mod q 60 ltac:(lia)) as D2. pose proof (Z.mod_pos_bound q 60 ltac:(lia)) as M2.
  assert (E : s mod 60 = q mod 60).
  { replace s with (q + (s / 3600 * 60) * 60) by lia. rewrite Z.mod_add by lia. reflexivity. }
  rewrite E. split; [lia|]. split; [lia|]. split; [lia|]. lia.
Qed.
Lemma zone_digits : forall a b, parseZone [a; b; 90] = None.
Proof.
  intros a b. unfold parseZone. cbn [two]. change (digit 90) with false. rewrite andb_false_r.
  destruct a as [|p|p]; try reflexivity. do 7 (try (destruct p as [p|p|]; try reflexivity)).
Qed.
Lemma dateTime_back : forall t y m d, Date (UTC t) = (y, m, d) -> 
  parseDateTime y true (appendTimeCommon (UTC t)) = Some (mkTime (t_unix t) 0 0) /\
  parseDateTime y false (appendTimeCommon (UTC t)) = None.
Proof.
  intros t y m d HD. unfold appendTimeCommon. rewrite HD. unfold Date, UTC in HD. cbn [t_unix t_off] in HD. rewrite Z.add_0_r in HD.
  destruct (C78_calendar _ _ _ _ HD) as (Hm & Hd & HE). unfold Clock, UTC. cbn [t_unix t_off]. rewrite Z.add_0_r. cbv zeta.
  pose proof (Z.div_mod (t_unix t) 86400 ltac:(lia)) as DM. pose proof (Z.mod_pos_bound (t_unix t) 86400 ltac:(lia)) as MB.
  set (s := t_unix t mod 86400) in *. destruct (clock_spec s MB) as (H1 & H2 & H3 & H4).
  change (Z.quot 0 60 =? 0) with true. cbv iota.
  assert (D31 : daysIn y m <= 31) by (unfold daysIn; destruct (m =? 2); [destruct (isLeap y)|destruct ((m =? 4) || (m =? 6) || (m =? 9) || (m =? 11))]; lia).
  unfold parseDateTime. rewrite two_twoDigits by lia. rewrite two_twoDigits by lia. rewrite two_twoDigits by lia. rewrite two_twoDigits by lia.
  split.
  - rewrite two_twoDigits by lia. change (parseZone [90]) with (Some 0).
    rewrite (proj2 (Z.ltb_ge m 1)) by lia. rewrite (proj2 (Z.ltb_ge 12 m)) by lia. rewrite (proj2 (Z.ltb_ge d 1)) by lia.
    rewrite (proj2 (Z.ltb_ge (daysIn y m) d)) by lia. rewrite (proj2 (Z.ltb_ge 23 _)) by lia. rewrite !(proj2 (Z.ltb_ge 59 _)) by lia. cbn [orb].
    f_equal. f_equal. lia.
  - unfold twoDigits. cbn [app]. rewrite zone_digits. reflexivity.
Qed.

(** C78: a time is written exactly if it is in the years 0 to 9999, UTC; it is read back to the second. *)
Theorem C78_time : forall t, -62167219200 <= t_unix t < 253402300800 -> exists e,
  fieldTime (UTC t) = OK e /\ zlen e <= 17 /\ elem uTime (mkTime (t_unix t) 0 0) e.
Proof.
  intros t Ht. destruct (Date (UTC t)) as [[y m] d] eqn:HD.
  assert (HY : 0 <= y <= 9999).
  { pose proof (civil_year (t_unix t / 86400)) as K. cbv zeta in K. unfold Date, UTC in HD. cbn [t_unix t_off] in HD. rewrite Z.add_0_r in HD.
    rewrite HD in K. cbn [fst] in K. destruct K as [K1 K2].
    pose proof (Z.div_mod (t_unix t) 86400 ltac:(lia)) as DM. pose proof (Z.mod_pos_bound (t_unix t) 86400 ltac:(lia)) as MB. split; [apply K1|apply K2]; lia. }
  destruct (dateTime_back t y m d HD) as [P1 P2].
  assert (LA : zlen (appendTimeCommon (UTC t)) = 11).
  { unfold appendTimeCommon. rewrite HD. destruct (Clock (UTC t)) as [[h mi] se]. reflexivity. }
  unfold fieldTime, timeTag, makeTime. unfold yearOf, outsideUTCRange, yearOf. rewrite HD. cbn [fst].
  destruct ((y <? 1950) || (2050 <=? y)) eqn:O.
  - rewrite (proj2 (Z.ltb_ge y 0)) by lia. rewrite (proj2 (Z.ltb_ge 9999 y)) by lia. cbn [orb].
    set (body := fourDigits y ++ appendTimeCommon (UTC t)).
    assert (LB : zlen body = 15) by (unfold body; rewrite zlen_app, LA; reflexivity).
    exists (tlv (ident 0 TagGeneralizedTime false) body). split.
    + unfold makeField. cbn [noParams fp_optional fp_set fp_tag fp_explicit andb rbind]. rewrite tagged_tlv; [reflexivity|split; unfold TagGeneralizedTime; lia|lia].
    + split; [rewrite zlen_tlv, LB; cbn; lia|].
      exists 0, TagGeneralizedTime, false, body. split; [reflexivity|]. split; [split; unfold TagGeneralizedTime; lia|]. split; [lia|].
      split; [right; split; [reflexivity|split; [reflexivity|reflexivity]]|].
      unfold uTime. cbn [u_body u_tag tl_class tl_tag]. change ((0 =? 0) && (TagGeneralizedTime =? TagGeneralizedTime)) with true. cbv iota.
      change (TagGeneralizedTime =? TagUTCTime) with false. cbv iota. unfold parseGeneralizedTime, body.
      rewrite fourDigits_two by lia. rewrite <- app_assoc.
      pose proof (Z.div_mod y 100 ltac:(lia)) as DM. pose proof (Z.mod_pos_bound y 100 ltac:(lia)) as MB.
      rewrite two_twoDigits by lia. rewrite two_twoDigits by lia. replace (y / 100 * 100 + y mod 100) with y by lia. rewrite P1. reflexivity.
  - apply orb_false_iff in O. destruct O as [O1 O2]. apply Z.ltb_ge in O1. apply Z.leb_gt in O2.
    set (yy := if y <? 2000 then y - 1900 else y - 2000).
    assert (YY : 0 <= yy < 100 /\ utcYear yy = y).
    { unfold yy, utcYear. destruct (Z.ltb_spec y 2000).
      - destruct (Z.leb_spec 69 (y - 1900)).
        + destruct (Z.leb_spec 2050 (y - 1900 + 1900)); lia.
        + destruct (Z.leb_spec 2050 (y - 1900 + 2000)); lia.
      - destruct (Z.leb_spec 69 (y - 2000)); [lia|]. destruct (Z.leb_spec 2050 (y - 2000 + 2000)); lia. }
    destruct YY as [YY1 YY2].
    set (body := twoDigits yy ++ appendTimeCommon (UTC t)).
    assert (LB : zlen body = 13) by (unfold body; rewrite zlen_app, LA; reflexivity).
    exists (tlv (ident 0 TagUTCTime false) body). split.
    + unfold makeField. cbn [noParams fp_optional fp_set fp_tag fp_explicit andb rbind]. rewrite tagged_tlv; [reflexivity|split; unfold TagUTCTime; lia|lia].
    + split; [rewrite zlen_tlv, LB; cbn; lia|].
      exists 0, TagUTCTime, false, body. split; [reflexivity|]. split; [split; unfold TagUTCTime; lia|]. split; [lia|].
      split; [right; split; [reflexivity|split; [reflexivity|reflexivity]]|].
      unfold uTime. cbn [u_body u_tag tl_class tl_tag]. change ((0 =? 0) && (TagUTCTime =? TagGeneralizedTime)) with false. cbv iota.
      change (TagUTCTime =? TagUTCTime) with true. cbv iota. unfold parseUTCTime, body.
      rewrite two_twoDigits by lia. rewrite YY2, P2, P1. reflexivity.
Qed.
Theorem C78_refused : forall t, ~ (-62167219200 <= t_unix t < 253402300800) -> exists msg, fieldTime (UTC t) = ERR msg.
Proof.
  intros t Ht. destruct (Date (UTC t)) as [[y m] d] eqn:HD.
  assert (HY : y < 0 \/ 9999 < y).
  { pose proof (civil_year (t_unix t / 86400)) as K. cbv zeta in K. unfold Date, UTC in HD. cbn [t_unix t_off] in HD. rewrite Z.add_0_r in HD.
    rewrite HD in K. cbn [fst] in K. destruct K as [K1 K2].
    pose proof (Z.div_mod (t_unix t) 86400 ltac:(lia)) as DM. pose proof (Z.mod_pos_bound (t_unix t) 86400 ltac:(lia)) as MB.
    assert (C : t_unix t / 86400 < -719528 \/ 2932897 <= t_unix t / 86400) by lia. lia. }
  unfold fieldTime, makeTime, yearOf, outsideUTCRange, yearOf. rewrite HD. cbn [fst].
  replace ((y <? 1950) || (2050 <=? y)) with true by (symmetry; apply orb_true_iff; rewrite Z.ltb_lt, Z.leb_le; lia).
  replace ((y <? 0) || (9999 <? y)) with true by (symmetry; apply orb_true_iff; rewrite !Z.ltb_lt; lia).
  eexists. reflexivity.
Qed.

(** 2019-07-01 12:34:56.5 UTC; 1949-12-31 and 2050-01-01; the first and the last second. *)
Example C78_values :
  fieldTime (UTC (mkTime 1561984496 500000000 28800)) = OK [23; 13; 49; 57; 48; 55; 48; 49; 49; 50; 51; 52; 53; 54; 90] /\
  fieldTime (UTC (mkTime (-631152001) 0 0)) = OK [24; 15; 49; 57; 52; 57; 49; 50; 51; 49; 50; 51; 53; 57; 53; 57; 90] /\
  fieldTime (UTC (mkTime 2524608000 0 0)) = OK [24; 15; 50; 48; 53; 48; 48; 49; 48; 49; 48; 48; 48; 48; 48; 48; 90] /\
  fieldTime (UTC (mkTime (-62167219200) 0 0)) = OK [24; 15; 48; 48; 48; 48; 48; 49; 48; 49; 48; 48; 48; 48; 48; 48; 90] /\
  fieldTime (UTC (mkTime 253402300799 0 0)) = OK [24; 15; 57; 57; 57; 57; 49; 50; 51; 49; 50; 51; 53; 57; 53; 57; 90].
Proof. vm_compute. repeat split. Qed.
(** A time that was never set is midnight at the start of year 1: a template without a validity gets
    00010101000000Z for both of its times, and they are read back as unset times. *)
Example C78_unset : fieldTime zeroTime = OK ([24; 15] ++ [48; 48; 48; 49; 48; 49; 48; 49; 48; 48; 48; 48; 48; 48; 90]) /\
  unmarshalAll uTime (mkTime 7 0 0) ([24; 15] ++ [48; 48; 48; 49; 48; 49; 48; 49; 48; 48; 48; 48; 48; 48; 90]) = OK zeroTime.
Proof. split; vm_compute; reflexivity. Qed.
