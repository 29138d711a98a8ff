(** GeneralizedTime in cryptobyte (C84): cryptobyte/asn1.go AddASN1GeneralizedTime and
    ReadASN1GeneralizedTime; and the calendar has no second date for a day (C78). *)
From Coq Require Import ZArith List Lia Bool String.
From Verif Require Import GoBase BeMin CbString CbStringProofs CbBuilder CbBuilderProofs PropsCbString PropsCbBuilder CbAsn1Proofs PropsCbAsn1 GoAsn1 GoText PropsCertTime.
Import ListNotations.
Open Scope Z_scope.

(** * Model *)

(** cryptobyte/asn1/asn1.go:44. *)
Definition GeneralizedTime : Z := 24.
(** appendInt of package time with width 2, for numbers that are not negative. *)
Fixpoint decimal (fuel : nat) (v : Z) : list Z :=
  match fuel with
  | O => []
  | S fuel => (if v <? 10 then [] else decimal fuel (v / 10)) ++ [48 + v mod 10]
  end.
Definition width2 (v : Z) : list Z := if v <? 100 then twoDigits v else decimal 64 v.
(** Time.Format with the layout 20060102150405Z0700 (asn1.go:99), for the years 0 to 9999: the date and
    the clock in the zone of the time, then Z or the sign, hours and minutes of its offset. The sign
    is that of the offset in whole minutes. *)
Definition formatZone (off : Z) : list Z :=
  if off =? 0 then [90]
  else
    let zone := Z.quot off 60 in
    (if zone <? 0 then 45 else 43) :: width2 (Z.abs zone / 60) ++ twoDigits (Z.abs zone mod 60).
Definition formatTime (t : Time) : list Z :=
  let '(year, month, day) := Date t in
  let '(hour, min, sec) := Clock t in
  fourDigits year ++ twoDigits month ++ twoDigits day ++ twoDigits hour ++ twoDigits min ++ twoDigits sec ++ formatZone (t_off t).
(** asn1.go:104-112. *)
Definition AddASN1GeneralizedTime (t : Time) : op :=
  if (yearOf t <? 0) || (9999 <? yearOf t) then OSetErr 0 "cryptobyte: cannot represent as a GeneralizedTime"
  else OASN1 0 GeneralizedTime [AddBytes (formatTime t)].
(** asn1.go:435-450. time.Parse followed by the comparison with Format is what parseGeneralizedTime of
    encoding/asn1 does, with the same layout. *)
Definition ReadASN1GeneralizedTime (s : cstr) : go (option Time * cstr) :=
  do (ok, bs, s) <- ReadASN1 s None GeneralizedTime;
  if negb ok then Ret (None, s)
  else Ret (match parseGeneralizedTime (contents bs) with OK t => Some t | ERR _ => None end, s).

(** * The calendar *)

Lemma month_back : forall y m d, 1 <= m <= 12 -> 1 <= d <= daysIn y m ->
  let doy := (153 * (if 2 <? m then m - 3 else m + 9) + 2) / 5 + d - 1 in
  0 <= doy < 366 /\ monthOf doy = m /\ dayOf doy = d /\ (doy = 365 -> m = 2 /\ isLeap y = true).
Proof.
  intros y m d Hm Hd doy.
  assert (H : forallb (fun m => forallb (fun d =>
      let doy := (153 * (if 2 <? m then m - 3 else m + 9) + 2) / 5 + d - 1 in
      implb ((1 <=? m) && (1 <=? d) && (d <=? daysIn 2000 m))
        ((0 <=? doy) && (doy <? 366) && (monthOf doy =? m) && (dayOf doy =? d) && (negb (doy =? 365) || ((m =? 2) && (d =? 29))))) (upto 32)) (upto 13) = true)
    by (vm_compute; reflexivity).
  assert (D : d <= daysIn 2000 m /\ (m = 2 -> d = 29 -> isLeap y = true)).
  { unfold daysIn in *. destruct (Z.eqb_spec m 2); [|split; [lia|intros; lia]]. change (isLeap 2000) with true. cbv iota.
    destruct (isLeap y); [split; [lia|reflexivity]|split; [lia|intros; lia]]. }
  assert (D31 : daysIn y m <= 31) by (unfold daysIn; destruct (m =? 2); [destruct (isLeap y)|destruct ((m =? 4) || (m =? 6) || (m =? 9) || (m =? 11))]; lia).
  pose proof (upto_all 13 _ H m ltac:(lia)) as H1. cbv beta in H1. pose proof (upto_all 32 _ H1 d ltac:(lia)) as H2. cbv beta zeta in H2. fold doy in H2.
  rewrite (proj2 (Z.leb_le 1 m)), (proj2 (Z.leb_le 1 d)), (proj2 (Z.leb_le d (daysIn 2000 m))) in H2 by lia. cbn [andb implb] in H2.
  rewrite !andb_true_iff, orb_true_iff, andb_true_iff, negb_true_iff, Z.leb_le, Z.ltb_lt, !Z.eqb_eq, Z.eqb_neq in H2.
  destruct H2 as ((((H2 & H3) & H4) & H5) & H6). split; [lia|]. split; [exact H4|]. split; [exact H5|].
  intros E. destruct H6 as [H6|[H6 H7]]; [lia|]. split; [exact H6|apply D; assumption].
Qed.
(** C78: a valid date is that of its day. *)
Theorem C78_unique : forall y m d, 1 <= m <= 12 -> 1 <= d <= daysIn y m -> civil (days y m d) = (y, m, d).
Proof.
  intros y m d Hm Hd. pose proof (month_back y m d Hm Hd) as MBK. cbv zeta in MBK. destruct MBK as (B & HM & HD & HL).
  unfold days. set (y' := if m <=? 2 then y - 1 else y). set (doy := (153 * (if 2 <? m then m - 3 else m + 9) + 2) / 5 + d - 1) in *.
  pose proof (Z.div_mod y' 400 ltac:(lia)) as DM. pose proof (Z.mod_pos_bound y' 400 ltac:(lia)) as MB.
  set (era := y' / 400) in *. set (yoe := y' mod 400) in *.
  replace (yoe * 365 + yoe / 4 - yoe / 100 + doy) with (start yoe + doy) by (unfold start; lia).
  destruct (year_bounds yoe MB) as (Y1 & Y2 & Y3).
  assert (IN : start yoe <= start yoe + doy <= last_day yoe).
  { split; [lia|]. destruct (isLeap (yoe + 1)) eqn:EL; [lia|]. destruct (Z.eq_dec doy 365) as [E|NE]; [|lia].
    destruct (HL E) as [M2 LP]. exfalso. rewrite <- (isLeap_period (yoe + 1) era) in EL. replace (yoe + 1 + era * 400) with y in EL; [congruence|].
    unfold y' in DM. rewrite (proj2 (Z.leb_le m 2)) in DM by lia. lia. }
  assert (S0 : 0 <= start yoe).
  { unfold start. pose proof (Z.div_le_lower_bound yoe 4 0 ltac:(lia) ltac:(lia)). pose proof (Z.div_le_upper_bound yoe 100 yoe ltac:(lia) ltac:(lia)). lia. }
  assert (L0 : last_day yoe <= 146096).
  { unfold last_day. destruct (Z.eqb_spec yoe 399); [lia|]. unfold start.
    pose proof (Z.div_mod (yoe + 1) 4 ltac:(lia)). pose proof (Z.mod_pos_bound (yoe + 1) 4 ltac:(lia)).
    pose proof (Z.div_mod (yoe + 1) 100 ltac:(lia)). pose proof (Z.mod_pos_bound (yoe + 1) 100 ltac:(lia)). lia. }
  assert (YI : yearIndex (start yoe + doy) = yoe).
  { pose proof (yearIndex_mono (start yoe) (start yoe + doy) ltac:(lia)). pose proof (yearIndex_mono (start yoe + doy) (last_day yoe) ltac:(lia)). lia. }
  unfold civil. cbv zeta.
  replace (era * 146097 + (start yoe + doy) - 719468 + 719468) with (start yoe + doy + era * 146097) by lia.
  rewrite Z.div_add, Z.mod_add by lia. rewrite (Z.div_small (start yoe + doy)), (Z.mod_small (start yoe + doy)) by lia. rewrite Z.add_0_l.
  set (doe := start yoe + doy) in *. change ((doe - doe / 1460 + doe / 36524 - doe / 146096) / 365) with (yearIndex doe). rewrite YI.
  replace (doe - (365 * yoe + yoe / 4 - yoe / 100)) with doy by (unfold doe, start; lia).
  change ((5 * doy + 2) / 153) with (monthIndex doy).
  change (if monthIndex doy <? 10 then monthIndex doy + 3 else monthIndex doy - 9) with (monthOf doy).
  change (doy - (153 * monthIndex doy + 2) / 5 + 1) with (dayOf doy). rewrite HM, HD. f_equal. f_equal.
  unfold y' in DM. destruct (m <=? 2); lia.
Qed.

(** * Writing and reading times *)

Lemma two_inv : forall l v r, two l = Some (v, r) -> l = twoDigits v ++ r /\ 0 <= v < 100.
Proof.
  intros [|a [|b l]] v r H; try discriminate H. cbn [two] in H. destruct (digit a && digit b) eqn:E; [|discriminate H].
  injection H as <- <-. apply andb_true_iff in E. unfold digit in E. destruct E as [E1 E2]. rewrite !andb_true_iff, !Z.leb_le in *.
  split; [|lia]. unfold twoDigits. cbn [app].
  replace (((a - 48) * 10 + (b - 48)) / 10) with (a - 48) by (rewrite Z.add_comm, Z.div_add by lia; rewrite Z.div_small by lia; lia).
  replace (((a - 48) * 10 + (b - 48)) mod 10) with (b - 48) by (rewrite Z.add_comm, Z.mod_add by lia; rewrite Z.mod_small by lia; lia).
  rewrite Z.mod_small by lia. replace (48 + (a - 48)) with a by lia. replace (48 + (b - 48)) with b by lia. reflexivity.
Qed.
Lemma zone_cons : forall s l, l <> [] -> parseZone (s :: l) =
  match two l with
  | Some (hh, r) =>
      match two r with
      | Some (mm, []) =>
          let off := (hh * 60 + mm) * 60 in
          if (60 <=? mm) || (off =? 0) then None else if s =? 43 then Some off else if s =? 45 then Some (- off) else None
      | _ => None
      end
  | None => None
  end.
Proof.
  intros s l H. unfold parseZone. destruct l as [|x l]; [congruence|].
  destruct s as [|p|p]; try reflexivity. do 7 (try (destruct p as [p|p|]; try reflexivity)).
Qed.
Lemma zone_one : forall s, parseZone [s] = if s =? 90 then Some 0 else None.
Proof. intros s. unfold parseZone. destruct s as [|p|p]; try reflexivity. do 7 (try (destruct p as [p|p|]; try reflexivity)). Qed.

(** The zone offsets that can be written: whole minutes, less than a hundred hours. *)
Definition zone_ok (off : Z) : Prop := Z.abs off < 360000 /\ off mod 60 = 0.
Lemma quot_60 : forall k, Z.quot (k * 60) 60 = k.
Proof. intros k. apply Z.quot_mul. lia. Qed.
Lemma twoDigits_ne : forall v l, twoDigits v ++ l <> [].
Proof. discriminate. Qed.
Lemma formatZone_back : forall off, zone_ok off -> parseZone (formatZone off) = Some off.
Proof.
  intros off [HA HM]. unfold formatZone. destruct (Z.eqb_spec off 0) as [->|NZ]; [reflexivity|]. cbv zeta.
  pose proof (Z.div_mod off 60 ltac:(lia)) as D. rewrite HM in D. set (k := off / 60) in *. replace off with (k * 60) in * by lia. rewrite quot_60.
  pose proof (Z.div_mod (Z.abs k) 60 ltac:(lia)) as D2. pose proof (Z.mod_pos_bound (Z.abs k) 60 ltac:(lia)) as M2.
  set (hh := Z.abs k / 60) in *. set (mm := Z.abs k mod 60) in *.
  unfold width2. rewrite (proj2 (Z.ltb_lt hh 100)) by lia.
  rewrite zone_cons by discriminate. rewrite two_twoDigits by lia. rewrite <- (app_nil_r (twoDigits mm)). rewrite two_twoDigits by lia. cbv zeta.
  rewrite (proj2 (Z.leb_gt 60 mm)) by lia. rewrite (proj2 (Z.eqb_neq ((hh * 60 + mm) * 60) 0)) by lia. cbn [orb].
  destruct (Z.ltb_spec k 0).
  - change (45 =? 43) with false. change (45 =? 45) with true. cbv iota. f_equal. lia.
  - change (43 =? 43) with true. cbv iota. f_equal. lia.
Qed.
Lemma zone_inv : forall l off, parseZone l = Some off -> zone_ok off /\ l = formatZone off.
Proof.
  intros [|s [|x l]] off H; [discriminate H| |].
  - rewrite zone_one in H. destruct (Z.eqb_spec s 90) as [->|]; [|discriminate H]. injection H as <-. split; [split; [cbn; lia|reflexivity]|reflexivity].
  - rewrite zone_cons in H by discriminate. destruct (two (x :: l)) as [[hh r]|] eqn:E1; [|discriminate H].
    destruct (two r) as [[mm [|y q]]|] eqn:E2; [|discriminate H|discriminate H]. cbv zeta in H.
    destruct (two_inv _ _ _ E1) as [-> H1]. destruct (two_inv _ _ _ E2) as [-> H2]. rewrite app_nil_r.
    destruct ((60 <=? mm) || ((hh * 60 + mm) * 60 =? 0)) eqn:C; [discriminate H|]. apply orb_false_iff in C. destruct C as [C1 C2].
    apply Z.leb_gt in C1. apply Z.eqb_neq in C2.
    assert (Q1 : (hh * 60 + mm) / 60 = hh) by (rewrite Z.add_comm, Z.div_add by lia; rewrite Z.div_small by lia; lia).
    assert (Q2 : (hh * 60 + mm) mod 60 = mm) by (rewrite Z.add_comm, Z.mod_add by lia; rewrite Z.mod_small by lia; lia).
    destruct (Z.eqb_spec s 43) as [->|N1].
    + injection H as <-. split; [split; [lia|apply Z.mod_mul; lia]|]. unfold formatZone. rewrite (proj2 (Z.eqb_neq _ 0)) by lia. cbv zeta.
      rewrite quot_60. rewrite (proj2 (Z.ltb_ge _ 0)) by lia. rewrite Z.abs_eq, Q1, Q2 by lia. unfold width2. rewrite (proj2 (Z.ltb_lt hh 100)) by lia. reflexivity.
    + destruct (Z.eqb_spec s 45) as [->|]; [|discriminate H]. injection H as <-.
      replace (- ((hh * 60 + mm) * 60)) with (- (hh * 60 + mm) * 60) by lia. split; [split; [lia|apply Z.mod_mul; lia]|].
      unfold formatZone. rewrite (proj2 (Z.eqb_neq _ 0)) by lia. cbv zeta.
      rewrite quot_60. rewrite (proj2 (Z.ltb_lt _ 0)) by lia. rewrite Z.abs_neq by lia. replace (- - (hh * 60 + mm)) with (hh * 60 + mm) by lia.
      rewrite Q1, Q2. unfold width2. rewrite (proj2 (Z.ltb_lt hh 100)) by lia. reflexivity.
Qed.

(** What is read from a written time with zone digits [z]: the local time with the zone that z says. *)
Lemma dateTime_zone : forall t y m d h mi s z, Date t = (y, m, d) -> Clock t = (h, mi, s) ->
  parseDateTime y true (twoDigits m ++ twoDigits d ++ twoDigits h ++ twoDigits mi ++ twoDigits s ++ z) =
  match parseZone z with Some off => Some (mkTime (t_unix t + t_off t - off) 0 off) | None => None end.
Proof.
  intros t y m d h mi s z HD HC. unfold Date in HD. unfold Clock in HC. cbv zeta in HC.
  destruct (C78_calendar _ _ _ _ HD) as (Hm & Hd & HE).
  pose proof (Z.div_mod (t_unix t + t_off t) 86400 ltac:(lia)) as DM. pose proof (Z.mod_pos_bound (t_unix t + t_off t) 86400 ltac:(lia)) as MB.
  set (w := (t_unix t + t_off t) mod 86400) in *. destruct (clock_spec w MB) as (H1 & H2 & H3 & H4).
  injection HC as E1 E2 E3. rewrite E1, E2, E3 in *.
  assert (D31 : daysIn y m <= 31) by (unfold daysIn; destruct (m =? 2); [destruct (isLeap y)|destruct ((m =? 4) || (m =? 6) || (m =? 9) || (m =? 11))]; lia).
  unfold parseDateTime. do 5 rewrite two_twoDigits by lia. destruct (parseZone z) as [off|]; [|reflexivity].
  rewrite (proj2 (Z.ltb_ge m 1)) by lia. rewrite (proj2 (Z.ltb_ge 12 m)) by lia. rewrite (proj2 (Z.ltb_ge d 1)) by lia.
  rewrite (proj2 (Z.ltb_ge (daysIn y m) d)) by lia. rewrite (proj2 (Z.ltb_ge 23 _)) by lia. rewrite !(proj2 (Z.ltb_ge 59 _)) by lia. cbn [orb].
  f_equal. f_equal. lia.
Qed.
Lemma formatTime_read : forall t, 0 <= yearOf t <= 9999 ->
  parseGeneralizedTime (formatTime t) =
  match parseZone (formatZone (t_off t)) with Some off => OK (mkTime (t_unix t + t_off t - off) 0 off) | None => ERR "parsing time" end.
Proof.
  intros t HY. unfold formatTime, yearOf in *. destruct (Date t) as [[y m] d] eqn:HD. destruct (Clock t) as [[h mi] s] eqn:HC. cbn [fst] in HY.
  unfold parseGeneralizedTime. rewrite fourDigits_two by lia. rewrite <- app_assoc.
  pose proof (Z.div_mod y 100 ltac:(lia)) as DM. pose proof (Z.mod_pos_bound y 100 ltac:(lia)) as MB.
  rewrite two_twoDigits by lia. rewrite two_twoDigits by lia. replace (y / 100 * 100 + y mod 100) with y by lia.
  rewrite (dateTime_zone t y m d h mi s _ HD HC). destruct (parseZone _); reflexivity.
Qed.
Lemma GT_inv : forall l t, parseGeneralizedTime l = OK t ->
  l = formatTime t /\ 0 <= yearOf t <= 9999 /\ t_nsec t = 0 /\ zone_ok (t_off t).
Proof.
  intros l t H. unfold parseGeneralizedTime in H. destruct (two l) as [[hi l1]|] eqn:E1; [|discriminate H]. destruct (two l1) as [[lo l2]|] eqn:E2; [|discriminate H].
  destruct (parseDateTime _ true l2) as [t'|] eqn:E3; [|discriminate H]. injection H as ->.
  destruct (two_inv _ _ _ E1) as [-> H1]. destruct (two_inv _ _ _ E2) as [-> H2]. unfold parseDateTime in E3.
  destruct (two l2) as [[m l3]|] eqn:F1; [|discriminate E3]. destruct (two l3) as [[d l4]|] eqn:F2; [|discriminate E3].
  destruct (two l4) as [[h l5]|] eqn:F3; [|discriminate E3]. destruct (two l5) as [[mi l6]|] eqn:F4; [|discriminate E3].
  destruct (two l6) as [[s l7]|] eqn:F5; [|discriminate E3]. destruct (parseZone l7) as [off|] eqn:F6; [|discriminate E3].
  destruct (two_inv _ _ _ F1) as [-> G1]. destruct (two_inv _ _ _ F2) as [-> G2]. destruct (two_inv _ _ _ F3) as [-> G3].
  destruct (two_inv _ _ _ F4) as [-> G4]. destruct (two_inv _ _ _ F5) as [-> G5]. destruct (zone_inv _ _ F6) as [ZO ->].
  set (y := hi * 100 + lo) in *.
  match type of E3 with (if ?c then _ else _) = _ => destruct c eqn:C; [discriminate E3|] end.
  rewrite !orb_false_iff, !Z.ltb_ge in C. destruct C as ((((((C1 & C2) & C3) & C4) & C5) & C6) & C7).
  injection E3 as <-. cbn [t_nsec t_off t_unix].
  set (u := days y m d * 86400 + h * 3600 + mi * 60 + s - off).
  assert (U : u + off = h * 3600 + mi * 60 + s + days y m d * 86400) by (unfold u; lia).
  assert (HD : Date (mkTime u 0 off) = (y, m, d)).
  { unfold Date. cbn [t_unix t_off]. rewrite U, Z.div_add by lia. rewrite Z.div_small by lia. rewrite Z.add_0_l. apply C78_unique; lia. }
  assert (HC : Clock (mkTime u 0 off) = (h, mi, s)).
  { unfold Clock. cbn [t_unix t_off]. rewrite U, Z.mod_add by lia. rewrite (Z.mod_small (h * 3600 + mi * 60 + s)) by lia. cbv zeta.
    replace ((h * 3600 + mi * 60 + s) / 3600) with h by (apply (Z.div_unique _ 3600 h (mi * 60 + s)); lia).
    replace ((h * 3600 + mi * 60 + s) mod 3600) with (mi * 60 + s) by (apply (Z.mod_unique _ 3600 h (mi * 60 + s)); lia).
    replace ((mi * 60 + s) / 60) with mi by (apply (Z.div_unique _ 60 mi s); lia).
    replace ((h * 3600 + mi * 60 + s) mod 60) with s by (apply (Z.mod_unique _ 60 (h * 60 + mi) s); lia).
    reflexivity. }
  split; [|split; [|split; [reflexivity|exact ZO]]].
  - unfold formatTime. rewrite HD, HC. cbn [t_off]. rewrite fourDigits_two by (unfold y; lia).
    replace (y / 100) with hi by (unfold y; rewrite Z.add_comm, Z.div_add by lia; rewrite Z.div_small by lia; lia).
    replace (y mod 100) with lo by (unfold y; rewrite Z.add_comm, Z.mod_add by lia; rewrite Z.mod_small by lia; lia).
    rewrite <- app_assoc. reflexivity.
  - unfold yearOf. rewrite HD. cbn [fst]. unfold y. lia.
Qed.

(** C84: reading accepts exactly the one form of each time of the years 0 to 9999 whose zone is made of
    whole minutes. *)
Theorem C84_read : forall s t s', bytes (contents s) ->
  (ReadASN1GeneralizedTime s = Ret (Some t, s') <->
   exists r, element s GeneralizedTime (formatTime t) r /\ s' = Some r /\ 0 <= yearOf t <= 9999 /\ t_nsec t = 0 /\ zone_ok (t_off t)).
Proof.
  intros s t s' HB. unfold ReadASN1GeneralizedTime. destruct (element_em s HB) as [(tg & c & r & HE)|HN].
  2:{ rewrite (ReadASN1_fail _ _ _ HB HN). cbn [bind negb]. split; [discriminate|]. intros (r & HE & _). exfalso. apply HN. eauto. }
  rewrite (ReadASN1_element _ _ _ _ _ _ HB HE). cbn [bind contents]. split.
  - intros H. destruct (Z.eqb_spec tg GeneralizedTime) as [->|]; cbn [negb] in H; [|discriminate H].
    destruct (parseGeneralizedTime c) as [t'|m] eqn:EP; [|discriminate H]. injection H as <- <-.
    destruct (GT_inv _ _ EP) as (-> & H1 & H2 & H3). exists r. auto.
  - intros (r' & HE' & -> & HY & HN & HZ). destruct (element_unique _ _ _ _ _ _ _ HE HE') as (-> & -> & ->).
    rewrite Z.eqb_refl. cbn [negb]. rewrite (formatTime_read t HY), (formatZone_back _ HZ).
    replace (t_unix t + t_off t - t_off t) with (t_unix t) by lia. destruct t as [u n o]. cbn [t_unix t_off t_nsec] in *. subst n. reflexivity.
Qed.
(** Reading never panics. *)
Theorem C84_total : forall s, bytes (contents s) -> exists v s', ReadASN1GeneralizedTime s = Ret (v, s').
Proof.
  intros s HB. unfold ReadASN1GeneralizedTime. destruct (element_em s HB) as [(tg & c & r & HE)|HN].
  - rewrite (ReadASN1_element _ _ _ _ _ _ HB HE). cbn [bind]. destruct (negb _); eauto.
  - rewrite (ReadASN1_fail _ _ _ HB HN). cbn [bind negb]. eauto.
Qed.
Lemma decimal_long : forall n v, (3 <= List.length (decimal (S n) v))%nat \/ v < 100 \/ (n < 2)%nat.
Proof.
  intros [|[|n]] v; [right; right; lia|right; right; lia|]. destruct (Z_lt_le_dec v 100) as [|L]; [right; left; lia|left].
  cbn [decimal]. rewrite (proj2 (Z.ltb_ge v 10)) by lia.
  assert (10 <= v / 10) by (apply Z.div_le_lower_bound; lia). rewrite (proj2 (Z.ltb_ge (v / 10) 10)) by lia.
  rewrite !app_length. cbn [List.length]. lia.
Qed.
Lemma quot_facts : forall off, off = 60 * Z.quot off 60 + Z.rem off 60 /\ -60 < Z.rem off 60 < 60 /\
  (0 <= off -> 0 <= Z.rem off 60) /\ (off <= 0 -> Z.rem off 60 <= 0).
Proof.
  intros off. pose proof (Z.quot_rem' off 60). pose proof (Z.rem_bound_abs off 60 ltac:(lia)).
  split; [lia|]. split; [lia|]. split; intros; [apply Z.rem_nonneg|apply Z.rem_nonpos]; lia.
Qed.
Lemma formatZone_length : forall off, Z.abs off < 360000 -> (List.length (formatZone off) <= 5)%nat.
Proof.
  intros off H. unfold formatZone. destruct (Z.eqb_spec off 0); [cbn; lia|]. cbv zeta.
  assert (Z.abs (Z.quot off 60) / 60 < 100).
  { apply Z.div_lt_upper_bound; [lia|]. pose proof (quot_facts off). lia. }
  unfold width2. rewrite (proj2 (Z.ltb_lt _ 100)) by lia. cbn. lia.
Qed.
Lemma zone_written : forall off, parseZone (formatZone off) =
  if (off =? 0) || (60 <=? Z.abs off) && (Z.abs off <? 360000) then Some (Z.quot off 60 * 60) else None.
Proof.
  intros off. pose proof (quot_facts off) as QF.
  destruct (Z.eqb_spec off 0) as [->|NZ]; [reflexivity|]. cbn [orb].
  destruct (Z.leb_spec 60 (Z.abs off)) as [L|L]; cbn [andb].
  - destruct (Z.ltb_spec (Z.abs off) 360000) as [L2|L2].
    + assert (K : Z.quot off 60 <> 0) by lia.
      replace (formatZone off) with (formatZone (Z.quot off 60 * 60)).
      * apply formatZone_back. split; [|apply Z.mod_mul; lia]. nia.
      * unfold formatZone. rewrite !(proj2 (Z.eqb_neq _ 0)) by lia. rewrite quot_60. reflexivity.
    + destruct (parseZone (formatZone off)) as [o|] eqn:EP; [|reflexivity]. exfalso.
      destruct (zone_inv _ _ EP) as [[Z1 _] EF]. apply (f_equal (@List.length Z)) in EF. pose proof (formatZone_length o Z1) as LO. rewrite <- EF in LO.
      unfold formatZone in LO. rewrite (proj2 (Z.eqb_neq off 0)) in LO by lia. cbv zeta in LO. cbn [List.length] in LO. rewrite app_length in LO.
      assert (HH : 100 <= Z.abs (Z.quot off 60) / 60) by (apply Z.div_le_lower_bound; lia).
      unfold width2 in LO. rewrite (proj2 (Z.ltb_ge _ 100)) in LO by lia.
      destruct (decimal_long 63 (Z.abs (Z.quot off 60) / 60)) as [D|[D|D]]; [|lia|lia].
      change (List.length (twoDigits _)) with 2%nat in LO. lia.
  - assert (K : Z.quot off 60 = 0) by lia. unfold formatZone. rewrite (proj2 (Z.eqb_neq off 0)) by lia. rewrite K. reflexivity.
Qed.

Lemma decimal_length : forall n v, (List.length (decimal n v) <= n)%nat.
Proof. induction n as [|n IH]; intros v; cbn [decimal]; [cbn; lia|]. rewrite app_length. cbn [List.length]. destruct (v <? 10); [cbn; lia|specialize (IH (v / 10)); lia]. Qed.
Lemma formatTime_length : forall t, (List.length (formatTime t) <= 100)%nat.
Proof.
  intros t. unfold formatTime. destruct (Date t) as [[y m] d]. destruct (Clock t) as [[h mi] s]. rewrite !app_length.
  change (List.length (fourDigits y)) with 4%nat.
  repeat match goal with |- context [List.length (twoDigits ?v)] => change (List.length (twoDigits v)) with 2%nat end.
  assert (List.length (formatZone (t_off t)) <= 80)%nat; [|lia].
  unfold formatZone. destruct (_ =? 0); [cbn; lia|]. cbv zeta. cbn [List.length]. rewrite app_length.
  change (List.length (twoDigits (Z.abs (Z.quot (t_off t) 60) mod 60))) with 2%nat.
  unfold width2. destruct (_ <? _); [cbn; lia|]. pose proof (decimal_length 64 (Z.abs (Z.quot (t_off t) 60) / 60)). lia.
Qed.

(** C84: a time of the years 0 to 9999 is written; what is read back is the time, to the second, if the
    offset of its zone is made of whole minutes. Seconds in the offset shift the instant; an offset of less
    than a minute, or of a hundred hours or more, makes what is written unreadable. *)
Theorem C84_roundtrip : forall t buf rest, 0 <= yearOf t <= 9999 ->
  exists st bs, execs [AddASN1GeneralizedTime t] (NewBuilder buf) = (st, None) /\ Bytes st = OK (buf ++ bs) /\
    ReadASN1GeneralizedTime (Some (bs ++ rest)) =
      Ret (if (t_off t =? 0) || (60 <=? Z.abs (t_off t)) && (Z.abs (t_off t) <? 360000)
           then Some (mkTime (t_unix t + Z.rem (t_off t) 60) 0 (t_off t - Z.rem (t_off t) 60)) else None, Some rest).
Proof.
  intros t buf rest HY. pose proof (formatTime_length t) as FL.
  destruct (C31_element_roundtrip GeneralizedTime (formatTime t) buf rest None) as (st & bs & E1 & E2 & E3);
    [unfold byte, GeneralizedTime; lia|discriminate|unfold zlen; lia|].
  exists st, bs. unfold AddASN1GeneralizedTime. rewrite (proj2 (Z.ltb_ge _ 0)), (proj2 (Z.ltb_ge 9999 _)) by lia. cbn [orb].
  split; [exact E1|]. split; [exact E2|]. unfold ReadASN1GeneralizedTime. rewrite E3. cbn [bind negb contents].
  rewrite (formatTime_read t HY), zone_written. destruct (_ || _); [|reflexivity].
  pose proof (Z.quot_rem' (t_off t) 60). replace (t_unix t + t_off t - Z.quot (t_off t) 60 * 60) with (t_unix t + Z.rem (t_off t) 60) by lia.
  replace (Z.quot (t_off t) 60 * 60) with (t_off t - Z.rem (t_off t) 60) by lia. reflexivity.
Qed.
Theorem C84_exact : forall t buf rest, 0 <= yearOf t <= 9999 -> zone_ok (t_off t) ->
  exists st bs, execs [AddASN1GeneralizedTime t] (NewBuilder buf) = (st, None) /\ Bytes st = OK (buf ++ bs) /\
    ReadASN1GeneralizedTime (Some (bs ++ rest)) = Ret (Some (mkTime (t_unix t) 0 (t_off t)), Some rest).
Proof.
  intros t buf rest HY [Z1 Z2]. destruct (C84_roundtrip t buf rest HY) as (st & bs & E1 & E2 & E3). exists st, bs.
  split; [exact E1|]. split; [exact E2|]. rewrite E3.
  assert (R : Z.rem (t_off t) 60 = 0) by (apply Z.rem_divide; [lia|]; apply Z.mod_divide; [lia|exact Z2]).
  rewrite R, Z.add_0_r, Z.sub_0_r. pose proof (Z.quot_rem' (t_off t) 60).
  replace ((t_off t =? 0) || (60 <=? Z.abs (t_off t)) && (Z.abs (t_off t) <? 360000)) with true; [reflexivity|].
  symmetry. destruct (Z.eqb_spec (t_off t) 0); [reflexivity|]. cbn [orb]. apply andb_true_iff. rewrite Z.leb_le, Z.ltb_lt. lia.
Qed.
(** Other years are refused. *)
Theorem C84_refused : forall t buf, ~ 0 <= yearOf t <= 9999 ->
  exists st m, execs [AddASN1GeneralizedTime t] (NewBuilder buf) = (st, None) /\ Bytes st = ERR m.
Proof.
  intros t buf HY. unfold AddASN1GeneralizedTime.
  replace ((yearOf t <? 0) || (9999 <? yearOf t)) with true by (symmetry; apply orb_true_iff; rewrite !Z.ltb_lt; lia).
  eexists. eexists. split; reflexivity.
Qed.

Definition str (s : string) : list Z := map (fun c => Z.of_nat (Ascii.nat_of_ascii c)) (list_ascii_of_string s).
(** 1700000000 is 2023-11-14 22:13:20 UTC, written in the zone eight hours ahead. *)
Example C84_beijing : formatTime (mkTime 1700000000 0 28800) = str "20231115061320+0800"%string /\ yearOf (mkTime 1700000000 0 28800) = 2023 /\ zone_ok 28800.
Proof. split; [vm_compute; reflexivity|]. split; [vm_compute; reflexivity|]. split; [lia|reflexivity]. Qed.
Example C84_reads : ReadASN1GeneralizedTime (Some ([24; 19] ++ str "20231115061320+0800"%string ++ [7])) = Ret (Some (mkTime 1700000000 0 28800), Some [7]).
Proof. vm_compute. reflexivity. Qed.
(** Local mean time of Shanghai, 8:05:43 ahead, which was in use in 1900: the time read back is 43 seconds
    later than the one written. *)
Example C84_shanghai : let t := mkTime (-2208988800) 0 29143 in yearOf t = 1900 /\ formatTime t = str "19000101080543+0805"%string /\
  ReadASN1GeneralizedTime (Some ([24; 19] ++ formatTime t)) = Ret (Some (mkTime (-2208988800 + 43) 0 29100), Some []).
Proof. vm_compute. auto. Qed.
(** A zone 21 seconds behind, written as +0000, cannot be read back. *)
Example C84_unreadable : let t := mkTime 0 0 (-21) in yearOf t = 1969 /\ formatTime t = str "19691231235939+0000"%string /\
  ReadASN1GeneralizedTime (Some ([24; 19] ++ formatTime t)) = Ret (None, Some []).
Proof. vm_compute. auto. Qed.
Example C84_year_10000 : yearOf (mkTime 253402300800 0 0) = 10000 /\ yearOf (mkTime 253402300800 0 (-1)) = 9999.
Proof. vm_compute. auto. Qed.
