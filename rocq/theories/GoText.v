(** Go strings and times as far as sm2/cert/gmx509.go and encoding/asn1 use them: the runes of a
    string, and time.Time with the ASN.1 forms of it. All of this is outside /repo. A string is the
    list of its bytes. *)
From Coq Require Import ZArith List Lia Bool String.
From Verif Require Import GoBase GoAsn1.
Import ListNotations.
Open Scope Z_scope.

(** * Runes *)

(** unicode/utf8: for a first byte of a sequence of 2..4 bytes, its length and the range of the
    second byte; [None] for a byte that starts no sequence (tables first and acceptRanges). *)
Definition utf8First (b : Z) : option (Z * Z * Z) :=
  if (0xc2 <=? b) && (b <=? 0xdf) then Some (2, 0x80, 0xbf)
  else if b =? 0xe0 then Some (3, 0xa0, 0xbf)
  else if b =? 0xed then Some (3, 0x80, 0x9f)
  else if (0xe1 <=? b) && (b <=? 0xef) then Some (3, 0x80, 0xbf)
  else if b =? 0xf0 then Some (4, 0x90, 0xbf)
  else if (0xf1 <=? b) && (b <=? 0xf3) then Some (4, 0x80, 0xbf)
  else if b =? 0xf4 then Some (4, 0x80, 0x8f)
  else None.
Definition inRange (lo hi b : Z) : bool := (lo <=? b) && (b <=? hi).
Definition RuneError : Z := 0xfffd.

(** [for _, r := range s]: the runes of the string; an ill-formed byte gives U+FFFD and advances by
    one. The flag tells well-formed runes from those. *)
Fixpoint decodeRunes (l : list Z) : list (Z * bool) :=
  match l with
  | [] => []
  | b0 :: r0 =>
      if b0 <? 0x80 then (b0, true) :: decodeRunes r0
      else
        match utf8First b0 with
        | None => (RuneError, false) :: decodeRunes r0
        | Some (n, lo, hi) =>
            match r0 with
            | [] => (RuneError, false) :: decodeRunes r0
            | b1 :: r1 =>
                if negb (inRange lo hi b1) then (RuneError, false) :: decodeRunes r0
                else if n =? 2 then
                  (Z.lor (Z.shiftl (Z.land b0 0x1f) 6) (Z.land b1 0x3f), true) :: decodeRunes r1
                else
                  match r1 with
                  | [] => (RuneError, false) :: decodeRunes r0
                  | b2 :: r2 =>
                      if negb (inRange 0x80 0xbf b2) then (RuneError, false) :: decodeRunes r0
                      else if n =? 3 then
                        (Z.lor (Z.lor (Z.shiftl (Z.land b0 0x0f) 12) (Z.shiftl (Z.land b1 0x3f) 6))
                               (Z.land b2 0x3f), true) :: decodeRunes r2
                      else
                        match r2 with
                        | [] => (RuneError, false) :: decodeRunes r0
                        | b3 :: r3 =>
                            if negb (inRange 0x80 0xbf b3) then (RuneError, false) :: decodeRunes r0
                            else
                              (Z.lor (Z.lor (Z.lor (Z.shiftl (Z.land b0 0x07) 18) (Z.shiftl (Z.land b1 0x3f) 12))
                                            (Z.shiftl (Z.land b2 0x3f) 6)) (Z.land b3 0x3f), true) :: decodeRunes r3
                        end
                  end
            end
        end
  end.
Definition runes (l : list Z) : list Z := map fst (decodeRunes l).
(** utf8.ValidString. *)
Definition ValidString (l : list Z) : bool := forallb snd (decodeRunes l).

(** * Times *)

(** time.Time: seconds since 1970-01-01 00:00:00 UTC, nanoseconds, and the offset of its zone in
    seconds east of UTC. *)
Record Time : Set := mkTime { t_unix : Z; t_nsec : Z; t_off : Z }.
Definition UTC (t : Time) : Time := mkTime (t_unix t) (t_nsec t) 0.

(** The Gregorian calendar: days since 1970-01-01 to year, month, day and back. A year is counted
    from March 1st so that the leap day comes last; 400 years have 146097 days. *)
Definition civil (d : Z) : Z * Z * Z :=
  let z := d + 719468 in
  let era := z / 146097 in
  let doe := z mod 146097 in
  let yoe := (doe - doe / 1460 + doe / 36524 - doe / 146096) / 365 in
  let doy := doe - (365 * yoe + yoe / 4 - yoe / 100) in
  let mp := (5 * doy + 2) / 153 in
  let day := doy - (153 * mp + 2) / 5 + 1 in
  let month := if mp <? 10 then mp + 3 else mp - 9 in
  (yoe + era * 400 + (if month <=? 2 then 1 else 0), month, day).
Definition days (y m d : Z) : Z :=
  let y := if m <=? 2 then y - 1 else y in
  let era := y / 400 in
  let yoe := y mod 400 in
  let doy := (153 * (if 2 <? m then m - 3 else m + 9) + 2) / 5 + d - 1 in
  era * 146097 + (yoe * 365 + yoe / 4 - yoe / 100 + doy) - 719468.
Definition isLeap (y : Z) : bool := (y mod 4 =? 0) && (negb (y mod 100 =? 0) || (y mod 400 =? 0)).
Definition daysIn (y m : Z) : Z :=
  if m =? 2 then if isLeap y then 29 else 28
  else if (m =? 4) || (m =? 6) || (m =? 9) || (m =? 11) then 30 else 31.

(** Time.Date and Time.Clock, in the zone of the time. *)
Definition Date (t : Time) : Z * Z * Z := civil ((t_unix t + t_off t) / 86400).
Definition Clock (t : Time) : Z * Z * Z :=
  let s := (t_unix t + t_off t) mod 86400 in (s / 3600, s mod 3600 / 60, s mod 60).

(** encoding/asn1, marshal.go: appendTwoDigits, appendFourDigits, appendTimeCommon. *)
Definition twoDigits (v : Z) : list Z := [48 + (v / 10) mod 10; 48 + v mod 10].
Definition fourDigits (v : Z) : list Z :=
  [48 + (v / 1000) mod 10; 48 + (v / 100) mod 10; 48 + (v / 10) mod 10; 48 + v mod 10].
Definition appendTimeCommon (t : Time) : list Z :=
  let '(_, month, day) := Date t in
  let '(hour, min, sec) := Clock t in
  twoDigits month ++ twoDigits day ++ twoDigits hour ++ twoDigits min ++ twoDigits sec ++
  let m := Z.quot (t_off t) 60 in
  if m =? 0 then [90]
  else (if 0 <? t_off t then 43 else 45) :: twoDigits (Z.abs m / 60) ++ twoDigits (Z.abs m mod 60).

(** The time encoder: UTCTime for the years 1950..2049, GeneralizedTime otherwise (makeField and
    makeUTCTime, makeGeneralizedTime). *)
Definition yearOf (t : Time) : Z := fst (fst (Date t)).
Definition outsideUTCRange (t : Time) : bool := (yearOf t <? 1950) || (2050 <=? yearOf t).
Definition timeTag (t : Time) : Z := if outsideUTCRange t then TagGeneralizedTime else TagUTCTime.
Definition makeTime (t : Time) : res (list Z) :=
  let year := yearOf t in
  if outsideUTCRange t then
    if (year <? 0) || (9999 <? year) then ERR "cannot represent time as GeneralizedTime"
    else OK (fourDigits year ++ appendTimeCommon t)
  else OK (twoDigits (if year <? 2000 then year - 1900 else year - 2000) ++ appendTimeCommon t).

(** Two digits at the front of a byte string. *)
Definition digit (b : Z) : bool := (48 <=? b) && (b <=? 57).
Definition two (l : list Z) : option (Z * list Z) :=
  match l with
  | a :: b :: r => if digit a && digit b then Some ((a - 48) * 10 + (b - 48), r) else None
  | _ => None
  end.
(** The zone at the end: Z or +hhmm or -hhmm. time.Parse accepts more, but parseUTCTime and
    parseGeneralizedTime refuse what does not print as it was written: a zero offset prints as Z and
    60 minutes print as an hour. *)
Definition parseZone (l : list Z) : option Z :=
  match l with
  | [90] => Some 0
  | s :: r =>
      match two r with
      | Some (hh, r) =>
          match two r with
          | Some (mm, []) =>
              let off := (hh * 60 + mm) * 60 in
              if (60 <=? mm) || (off =? 0) then None
              else if s =? 43 then Some off
              else if s =? 45 then Some (- off)
              else None
          | _ => None
          end
      | None => None
      end
  | [] => None
  end.
(** Month, day, hour, minute, second (or none), zone, after the year. The range checks are those of
    time.Parse; forms that it accepts beyond them (signs, one-digit hours, fractions of a second) do
    not print as they were written. *)
Definition parseDateTime (year : Z) (withSec : bool) (l : list Z) : option Time :=
  match two l with
  | Some (month, l) =>
  match two l with
  | Some (day, l) =>
  match two l with
  | Some (hour, l) =>
  match two l with
  | Some (min, l) =>
  match (if withSec then two l else Some (0, l)) with
  | Some (sec, l) =>
  match parseZone l with
  | Some off =>
      if (month <? 1) || (12 <? month) || (day <? 1) || (daysIn year month <? day)
         || (23 <? hour) || (59 <? min) || (59 <? sec) then None
      else Some (mkTime (days year month day * 86400 + hour * 3600 + min * 60 + sec - off) 0 off)
  | None => None end
  | None => None end
  | None => None end
  | None => None end
  | None => None end
  | None => None end.

(** parseUTCTime: the form without seconds is tried first. The two digits mean 1969..2068 to
    time.Parse; years from 2050 on are taken 100 years back (the days of the month agree). *)
Definition utcYear (yy : Z) : Z :=
  let y := if 69 <=? yy then yy + 1900 else yy + 2000 in if 2050 <=? y then y - 100 else y.
Definition parseUTCTime (bs : list Z) : res Time :=
  match two bs with
  | None => ERR "parsing time"
  | Some (yy, l) =>
      match parseDateTime (utcYear yy) false l with
      | Some t => OK t
      | None =>
          match parseDateTime (utcYear yy) true l with
          | Some t => OK t
          | None => ERR "parsing time"
          end
      end
  end.
(** parseGeneralizedTime. *)
Definition parseGeneralizedTime (bs : list Z) : res Time :=
  match two bs with
  | None => ERR "parsing time"
  | Some (hi, l) =>
      match two l with
      | None => ERR "parsing time"
      | Some (lo, l) =>
          match parseDateTime (hi * 100 + lo) true l with
          | Some t => OK t
          | None => ERR "parsing time"
          end
      end
  end.

(** time.Time as a field: parseField takes GeneralizedTime where it is found, else UTCTime. *)
Definition uTime : uty Time :=
  mkU false (fun t => if (tl_class t =? 0) && (tl_tag t =? TagGeneralizedTime) then TagGeneralizedTime else TagUTCTime)
      false (fun utag _ _ i => if utag =? TagUTCTime then parseUTCTime i else parseGeneralizedTime i).
Definition zeroTime : Time := mkTime (-62135596800) 0 0.
