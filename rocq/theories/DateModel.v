(** * Model of the date and time arithmetic of heclib (no proofs here). *)
From Coq Require Import ZArith List Bool.
From Coq Require Import Floats.SpecFloat.
From Verif Require Import Base.
Import ListNotations.
Open Scope Z_scope.
Open Scope res_scope.

(** heclibDate.h:6-8 *)
Definition UNDEFINED_TIME : Z := -2147483647.
Definition JULIAN_BASE_DATE : Z := 693960.
Definition JULIAN_01JAN1970 : Z := 25568.

(** headers/standardIntervals.h:5-66, headers/hecdssInternal.h:413-416 *)
Definition SECS_IN_1_YEAR : Z := 31536000.
Definition SECS_IN_1_MONTH : Z := 2592000.
Definition SECS_IN_SEMI_MONTH : Z := 1296000.
Definition SECS_IN_TRI_MONTH : Z := 864000.
Definition SECS_IN_1_WEEK : Z := 604800.
Definition SECS_IN_6_HOURS : Z := 21600.
Definition SECS_IN_4_HOURS : Z := 14400.
Definition SECS_IN_1_HOUR : Z := 3600.
Definition MINS_IN_1_YEAR : Z := 525600.
Definition MINS_IN_1_MONTH : Z := 43200.
Definition MINS_IN_SEMI_MONTH : Z := 21600.
Definition MINS_IN_TRI_MONTH : Z := 14400.
Definition MINUTE_GRANULARITY : Z := 60.
Definition SECOND_GRANULARITY : Z := 1.
Definition SECS_IN_1_MINUTE : Z := 60.
Definition MINS_IN_1_DAY : Z := 1440.
Definition SECS_IN_1_DAY : Z := 86400.
Definition STATUS_OKAY : Z := 0.
Definition STATUS_NOT_OKAY : Z := -1.

(** Utilities/DateTime/isLeapYear.c:27-33.  C [%] is [Z.rem]. *)
Definition isLeapYear (year : Z) : bool :=
  (Z.rem year 400 =? 0) || ((Z.rem year 4 =? 0) && negb (Z.rem year 100 =? 0)).

(** yearMonthDayToJulian.c:48  table NDAY *)
Definition NDAY : list Z := [0; 31; 59; 90; 120; 151; 181; 212; 243; 273; 304; 334].

(** yearMonthDayToJulian.c:55-66  month fix-up: returns (year, month) *)
Definition fixMonth (year month : Z) : res (Z * Z) :=
  if (month <? 1) || (month >? 12) then
    let iyears := Z.quot month 12 in
    let month1 := month - iyears * 12 in
    let* year1 := chk32 (year + iyears) in
    if month1 <? 1 then
      let* year2 := chk32 (year1 - 1) in Ok (year2, month1 + 12)
    else Ok (year1, month1)
  else Ok (year, month).

(** yearMonthDayToJulian.c:68-78  number of leap days before the year *)
Definition numberOfLeapDays (year : Z) : res Z :=
  if year >? 4 then
    let y1 := year - 1 in
    Ok (Z.quot y1 4 + Z.quot y1 400 - Z.quot y1 100)
  else if year >? 0 then Ok 1
  else
    let* y1 := chk32 (year + 1) in
    Ok (Z.quot y1 4 + Z.quot y1 400 - Z.quot y1 100).

(** yearMonthDayToJulian.c:81-95  leap-day correction *)
Definition leapCheckOf (year month : Z) : Z :=
  if isLeapYear year then
    if year >=? 0 then (if month >? 2 then 1 else 0)
    else (if month <? 3 then -1 else 0)
  else 0.

(** yearMonthDayToJulian.c:46-102.  The C expression is evaluated left to right; each partial sum is
    checked for 32-bit overflow. *)
Definition yearMonthDayToJulian (year month day : Z) : res Z :=
  let* '(y, m) := fixMonth year month in
  let* nl := numberOfLeapDays y in
  let lc := leapCheckOf y m in
  if (m <? 1) || (m >? 12) then Ok UNDEFINED_TIME
  else
    let* nd := aget NDAY (m - 1) in
    let* s1 := chk32 (y * 365) in
    let* s2 := chk32 (s1 + nl) in
    let* s3 := chk32 (s2 + nd) in
    let* s4 := chk32 (s3 + day) in
    let* s5 := chk32 (s4 + lc) in
    chk32 (s5 - JULIAN_BASE_DATE).

(** ** IEEE arithmetic used by julianToYearMonthDay.c:64
    [iyear = (int) ((float)julc / 365.2425)]: conversion of an [int] to binary32 (24-bit significand,
    round to nearest even), then binary64 division (the literal is a [double]), then truncation. *)

(** round a non-negative rational num/den to the nearest integer, ties to even *)
Definition rne (num den : Z) : Z :=
  let q := num / den in
  let r := num mod den in
  if 2 * r <? den then q
  else if den <? 2 * r then q + 1
  else if Z.even q then q else q + 1.

(** (float) n for n >= 0: round to 24 significant bits; exact below 2^24 *)
Definition float_of_nonneg (n : Z) : Z :=
  let e := Z.max 0 (Z.log2 n + 1 - 24) in
  rne n (2 ^ e) * 2 ^ e.

Definition float_of_int (n : Z) : Z :=
  if n <? 0 then - float_of_nonneg (- n) else float_of_nonneg n.

(** the double nearest to 365.2425 is K / 2^44 (checked against SpecFloat in DateProps) *)
Definition K365 : Z := 6425414011327611.


(** Double quotient of a non-negative integer by K/2^44, rounded to 53 significant bits, then truncated.
    The quotient a*2^44/K is scaled by 2^s so that the rounded significand has 53 bits; s is found from the
    size of the exact integer quotient.  The result is returned truncated to an integer. *)
Definition sig_shift (a : Z) : Z :=
  (* s such that 2^52 <= a*2^44*2^s/K < 2^53 *)
  let s0 := 52 - Z.log2 (a * 2 ^ 44 * 2 ^ 64 / K365) + 64 in s0.

Definition double_div_trunc (a : Z) : Z :=
  if a =? 0 then 0
  else
    let s := sig_shift a in
    (rne (a * 2 ^ 44 * 2 ^ s) K365) / 2 ^ s.

Definition yearEstimate (julc : Z) : Z :=
  let f := float_of_int julc in
  if f <? 0 then - double_div_trunc (- f) else double_div_trunc f.

(** julianToYearMonthDay.c:66-79  forward search for the following year (at most [n] steps) *)
Fixpoint searchUp (n : nat) (iyear julian : Z) : res (option Z) :=
  match n with
  | O => Ok None
  | S n' =>
    let* jula := yearMonthDayToJulian iyear 1 1 in
    if jula >? julian then Ok (Some iyear)
    else let* y' := chk32 (iyear + 1) in searchUp n' y' julian
  end.

(** julianToYearMonthDay.c:81-94  backward search (year estimate <= 0) *)
Fixpoint searchDown (n : nat) (iyear julian : Z) : res (option Z) :=
  match n with
  | O => Ok None
  | S n' =>
    let* jula := yearMonthDayToJulian iyear 1 1 in
    if julian >=? jula then Ok (Some iyear)
    else let* y' := chk32 (iyear - 1) in searchDown n' y' julian
  end.

(** julianToYearMonthDay.c:106-113  first month [i >= start], [i <= 12], that starts after [julian] *)
Fixpoint monthUp (n : nat) (iyear i julian : Z) : res (option Z) :=
  match n with
  | O => Ok None
  | S n' =>
    if i >? 12 then Ok None
    else
      let* jula := yearMonthDayToJulian iyear i 1 in
      if jula >? julian then Ok (Some i) else monthUp n' iyear (i + 1) julian
  end.

(** julianToYearMonthDay.c:118-125  last month [i <= 12] that starts at or before [julian], 0 if none *)
Fixpoint monthDown (n : nat) (iyear i julian : Z) : res Z :=
  match n with
  | O => Ok 0
  | S n' =>
    if i <? 0 then Ok 0
    else
      let* jula := yearMonthDayToJulian iyear i 1 in
      if julian >=? jula then Ok i else monthDown n' iyear (i - 1) julian
  end.

(** julianToYearMonthDay.c:63-143.  [None] is the return value -1 (outputs not set). *)
Definition julianToYearMonthDay (julian : Z) : res (option (Z * Z * Z)) :=
  let* julc := chk32 (julian + JULIAN_BASE_DATE) in
  let est := yearEstimate julc in
  let* found :=
    (if est >? 0 then
       let* r := searchUp 100 est julian in
       match r with
       | None => Ok None
       | Some y => let* y1 := chk32 (y - 1) in Ok (Some y1)
       end
     else searchDown 100 est julian) in
  match found with
  | None => Ok None
  | Some iyear =>
    let* imonth :=
      (if iyear >? -1 then
         let* julb := yearMonthDayToJulian iyear 1 1 in
         let* d1 := chk32 (julian - julb) in
         let* d2 := chk32 (d1 + 28) in
         let juld := Z.quot d2 28 in
         let juld := if juld >? 12 then 12 else juld in
         let* r := monthUp 13 iyear juld julian in
         match r with
         | Some i => Ok (i - 1)
         | None => Ok juld
         end
       else monthDown 14 iyear 12 julian) in
    let* ym :=
      (if (imonth <=? 0) || (imonth >? 12) then
         let iyr := Z.quot imonth 12 - 1 in
         let* y := chk32 (iyear + iyr) in
         Ok (y, imonth + (- iyr * 12))
       else Ok (iyear, imonth)) in
    let* jula := yearMonthDayToJulian (fst ym) (snd ym) 1 in
    let* d1 := chk32 (julian - jula) in
    let* iday := chk32 (d1 + 1) in
    Ok (Some (fst ym, snd ym, iday))
  end.

(** julianToYearMonthDay called by functions that ignore its status: on failure the local variables stay
    uninitialised, which the caller then reads (undefined behaviour). *)
Definition civilOf (julian : Z) : res (Z * Z * Z) :=
  let* r := julianToYearMonthDay julian in
  match r with Some d => Ok d | None => Undef end.

(** Utilities/DateTime/cleanTime.c:42-100.  Result (status, julian, time).
    [dayLength] is 0 for granularities above one day: division by zero. *)
Definition cleanTime (julian itime gran : Z) : res (Z * Z * Z) :=
  if julian =? UNDEFINED_TIME then Ok (0, julian, itime)
  else if (julian =? 0) && (itime =? 0) then Ok (0, UNDEFINED_TIME, -1)
  else if (gran =? MINUTE_GRANULARITY) && ((itime >? 0) && (itime <=? MINS_IN_1_DAY)) then Ok (1, julian, itime)
  else if (gran =? SECOND_GRANULARITY) && ((itime >? 0) && (itime <=? SECS_IN_1_DAY)) then Ok (1, julian, itime)
  else
    let granularity := if gran <? 1 then MINUTE_GRANULARITY else gran in
    let dayLength :=
      if granularity =? MINUTE_GRANULARITY then MINS_IN_1_DAY
      else if granularity =? SECOND_GRANULARITY then SECS_IN_1_DAY
      else Z.quot SECS_IN_1_DAY granularity in
    if (itime >? 0) && ((itime <=? dayLength) && (itime >? 0)) then Ok (1, julian, itime)
    else if dayLength =? 0 then Undef
    else
      let days := Z.quot itime dayLength in
      let* jt :=
        (if days >? 0 then
           let* j := chk32 (julian + days) in
           Ok (j, itime - days * dayLength)
         else
           let* j := chk32 (julian + (days - 1)) in
           Ok (j, itime - days * dayLength + dayLength)) in
      if snd jt =? 0 then
        let* j := chk32 (fst jt - 1) in Ok (1, j, dayLength)
      else Ok (1, fst jt, snd jt).

(** callers that ignore the status of cleanTime *)
Definition cleanSec (julian itime : Z) : res (Z * Z) :=
  let* '(_, j, t) := cleanTime julian itime SECOND_GRANULARITY in Ok (j, t).

(** Utilities/DateTime/compareTimes.c:61-89 *)
Definition compareTimes (jul1 t1 base1 g1 jul2 t2 base2 g2 : Z) : res Z :=
  let* a0 := chk32 (jul1 + base1) in
  let* '(_, a, ta0) := cleanTime a0 t1 g1 in
  let* ta := (if g1 >? 1 then chk32 (ta0 * g1) else Ok ta0) in
  let* b0 := chk32 (jul2 + base2) in
  let* '(_, b, tb0) := cleanTime b0 t2 g2 in
  let* tb := (if g2 >? 1 then chk32 (tb0 * g2) else Ok tb0) in
  Ok (if a <? b then -1 else if a >? b then 1
      else if ta <? tb then -1 else if ta >? tb then 1 else 0).

(** Utilities/DateTime/dayOfWeek.c:26-32 *)
Definition dayOfWeek (julian : Z) : Z := Z.rem julian 7 + 1.

(** Utilities/DateTime/isTimeDefined.c:30-35 *)
Definition isTimeDefined (julian secs : Z) : bool :=
  negb (julian =? UNDEFINED_TIME) && negb (secs <? 0).

(** Utilities/DateTime/addCentury.c:25-38 *)
Definition addCentury (year : Z) : Z := if year <? 100 then year + 2000 else year.

(** Public/ztsOffset.c:90-222 *)
Definition ztsOffset (interval julian seconds : Z) : res Z :=
  if interval <? 1 then Ok STATUS_NOT_OKAY
  else
    let* '(jul, secs) := cleanSec julian seconds in
    if interval <=? SECS_IN_1_DAY then
      let number := Z.quot secs interval in
      Ok (secs - number * interval)
    else if interval =? SECS_IN_1_WEEK then
      let day := dayOfWeek jul in
      let o := (day - 1) * SECS_IN_1_DAY + secs in
      Ok (if o =? SECS_IN_1_WEEK then 0 else o)
    else
      let* '(year, month, day) := civilOf jul in
      if interval <=? SECS_IN_1_MONTH then
        if negb (month =? 2) && ((day =? 30) || (day =? 31)) then Ok 0
        else if (month =? 2) && (day >=? 28) then Ok 0
        else
          let finish jul' :=
            let* julBeg := yearMonthDayToJulian year month 1 in
            let* d := chk32 (jul' - julBeg) in
            let* m := chk32 (d * SECS_IN_1_DAY) in
            chk32 (m + secs) in
          if interval =? SECS_IN_TRI_MONTH then
            if (day =? 9) || (day =? 10) then Ok 0
            else if (day =? 19) || (day =? 20) then Ok 0
            else
              let day' := if day >? 20 then day - 20 else if day >? 10 then day - 10 else day in
              let* jul' := yearMonthDayToJulian year month day' in
              finish jul'
          else if interval =? SECS_IN_SEMI_MONTH then
            if (day =? 14) || (day =? 15) then Ok 0
            else
              let day' := if day >? 15 then day - 15 else day in
              let* jul' := yearMonthDayToJulian year month day' in
              finish jul'
          else if interval =? SECS_IN_1_MONTH then finish jul
          else Ok STATUS_NOT_OKAY
      else if interval =? SECS_IN_1_YEAR then
        if (month =? 12) && (day =? 31) then Ok 0
        else
          let* julBeg := yearMonthDayToJulian year 1 1 in
          let leap :=
            if isLeapYear year then
              if year >? 0 then (if month >? 2 then 1 else 0) else (if month >? 2 then -1 else 0)
            else 0 in
          let* d := chk32 (jul - julBeg - leap) in
          let* m := chk32 (d * SECS_IN_1_DAY) in
          chk32 (m + secs)
      else Ok STATUS_NOT_OKAY.

(** Public/ztsOffsetAdjustToStandard.c:89-169.  Result (returned offset or status, julian, seconds). *)
Definition ztsOffsetAdjustToStandard (interval julian seconds : Z) : res (Z * Z * Z) :=
  if interval <? 1 then Ok (STATUS_NOT_OKAY, julian, seconds)
  else
    let* '(jul, secs) := cleanSec julian seconds in
    let* offset := ztsOffset interval jul secs in
    if interval <=? SECS_IN_1_WEEK then
      if offset >? 0 then
        let* d := chk32 (interval - offset) in
        let* s := chk32 (secs + d) in
        let* '(jul', secs') := cleanSec jul s in
        Ok (offset, jul', secs')
      else Ok (offset, jul, secs)
    else
      let* '(year, month, day) := civilOf jul in
      if interval <=? SECS_IN_1_MONTH then
        let dayo :=
          if interval =? SECS_IN_TRI_MONTH then
            Some (if day <=? 10 then 10 else if day <=? 20 then 20 else 28)
          else if interval =? SECS_IN_SEMI_MONTH then
            Some (if day <=? 15 then 15 else 28)
          else if interval =? SECS_IN_1_MONTH then Some 28
          else None in
        match dayo with
        | None => Ok (STATUS_NOT_OKAY, jul, secs)
        | Some day' =>
          let* jul' :=
            (if day' >=? 25 then
               let* j := yearMonthDayToJulian year (month + 1) 1 in chk32 (j - 1)
             else yearMonthDayToJulian year month day') in
          Ok (offset, jul', SECS_IN_1_DAY)
        end
      else if interval =? SECS_IN_1_YEAR then
        let* jul' := yearMonthDayToJulian year 12 31 in
        Ok (offset, jul', SECS_IN_1_DAY)
      else Ok (STATUS_NOT_OKAY, jul, secs).

(** Public/ztsOffsetAdjustToOffset.c:93-135, with [incrementTime] as a parameter (the two functions are
    mutually recursive in C).  Result (status, julian, seconds). *)
Definition adjustToOffsetWith (incr : Z -> Z -> Z -> Z -> res (Z * Z * Z))
    (offset interval julian seconds : Z) : res (Z * Z * Z) :=
  if interval <? 1 then Ok (STATUS_NOT_OKAY, julian, seconds)
  else
    let* '(_, j1, s1) := ztsOffsetAdjustToStandard interval julian seconds in
    if offset =? 0 then Ok (STATUS_OKAY, j1, s1)
    else
      let* '(status, j2, s2) := incr interval (-1) j1 s1 in
      let* s3 := chk32 (s2 + offset) in
      let* '(j4, s4) := cleanSec j2 s3 in
      if interval =? SECS_IN_1_YEAR then
        let* '(year, month, day) := civilOf j4 in
        let* j5 :=
          (if isLeapYear year then
             if year >? 0 then (if month >? 2 then chk32 (j4 + 1) else Ok j4)
             else (if month >? 2 then chk32 (j4 - 1) else Ok j4)
           else Ok j4) in
        Ok (status, j5, s4)
      else Ok (status, j4, s4).

(** Utilities/DateTime/incrementTime.c:99-246.  The C function and ztsOffsetAdjustToOffset call each other;
    [fuel] bounds that recursion and running out of it is [Undef] (stack exhaustion).
    Result (status, julianEnd, secondsEnd). *)
Fixpoint incrementTimeF (fuel : nat) (interval n julian seconds : Z) : res (Z * Z * Z) :=
  match fuel with
  | O => Undef
  | S fuel' =>
    if interval <? 1 then Ok (STATUS_NOT_OKAY, julian, seconds)
    else if interval <? SECS_IN_TRI_MONTH then
      let lseconds := interval * n + seconds in
      if (lseconds <? - SECS_IN_1_DAY) || (lseconds >? SECS_IN_1_DAY) then
        let day0 := wrap32 (Z.quot lseconds SECS_IN_1_DAY) in
        let rem0 := wrap32 (lseconds - day0 * SECS_IN_1_DAY) in
        let* '(day, iremain) :=
          (if rem0 <? 1 then
             let* d := chk32 (day0 - 1) in
             let* r := chk32 (rem0 + SECS_IN_1_DAY) in Ok (d, r)
           else Ok (day0, rem0)) in
        let* j := chk32 (julian + day) in
        let* '(j', s') := cleanSec j iremain in
        Ok (STATUS_OKAY, j', s')
      else
        let* p := chk32 (interval * n) in
        let* s := chk32 (seconds + p) in
        let* '(j', s') := cleanSec julian s in
        Ok (STATUS_OKAY, j', s')
    else
      let mins := Z.quot interval SECS_IN_1_MINUTE in
      let* '(offset, j0, s0) := ztsOffsetAdjustToStandard interval julian seconds in
      let* '(year, month, day) := civilOf j0 in
      let* '(year', month', day') :=
        (if mins =? MINS_IN_TRI_MONTH then
           let imonth := Z.quot n 3 in
           let iremain := n - imonth * 3 in
           let* m0 := chk32 (month + imonth) in
           let d0 := day + iremain * 10 in
           let '(m1, d1) := if d0 <? 1 then (m0 - 1, d0 + 30) else (m0, d0) in
           let '(m2, d2) := if d1 >? 31 then (m1 + 1, d1 - 30) else (m1, d1) in
           let '(y3, m3) := if m2 <? 1 then (year - 1, m2 + 12) else (year, m2) in
           Ok (y3, m3, if d2 >? 25 then 28 else if d2 >? 15 then 20 else 10)
         else if mins =? MINS_IN_SEMI_MONTH then
           let imonth := Z.quot n 2 in
           let iremain := n - imonth * 2 in
           let* m0 := chk32 (month + imonth) in
           let d0 := day + iremain * 15 in
           let '(m1, d1) := if d0 <? 1 then (m0 - 1, d0 + 30) else (m0, d0) in
           let '(m2, d2) := if d1 >? 31 then (m1 + 1, d1 - 30) else (m1, d1) in
           let '(y3, m3) := if m2 <? 1 then (year - 1, m2 + 12) else (year, m2) in
           Ok (y3, m3, if d2 >? 25 then 28 else 15)
         else if Z.abs (mins - MINS_IN_1_MONTH) <=? 2 * MINS_IN_1_DAY then
           let* m0 := chk32 (month + n) in Ok (year, m0, 28)
         else if Z.abs (mins - MINS_IN_1_YEAR) <=? MINS_IN_1_DAY then
           let* y0 := chk32 (year + n) in Ok (y0, 12, 31)
         else
           let longNumber := Z.quot mins MINS_IN_1_DAY * n in
           let* d := chk32 (day + wrap32 longNumber) in Ok (year, month, d)) in
      let* jEnd := yearMonthDayToJulian year' month' day' in
      if negb (offset =? 0) then
        let* '(_, j, s) := adjustToOffsetWith (incrementTimeF fuel') offset interval jEnd s0 in
        Ok (STATUS_OKAY, j, s)
      else
        let* '(_, j, s) := ztsOffsetAdjustToStandard interval jEnd s0 in
        Ok (STATUS_OKAY, j, s)
  end.

(** The recursion is two calls deep for every calendar interval (proved in DateProofs). *)
Definition incrementTime : Z -> Z -> Z -> Z -> res (Z * Z * Z) := incrementTimeF 4.
Definition ztsOffsetAdjustToOffset : Z -> Z -> Z -> Z -> res (Z * Z * Z) :=
  adjustToOffsetWith (incrementTimeF 3).

(** Utilities/DateTime/numberPeriods.c:91-177 *)
Definition numberPeriods (interval jStart sStart jEnd sEnd : Z) : res Z :=
  if interval <? 1 then Ok STATUS_NOT_OKAY
  else
    let* '(j1, s1) := cleanSec jStart sStart in
    let* '(j2, s2) := cleanSec jEnd sEnd in
    let elapsed :=
      (let* days := chk32 (j2 - j1) in
       let* secs := chk32 (s2 - s1) in
       Ok (wrap32 (Z.quot (days * SECS_IN_1_DAY + secs) interval))) in
    if interval <? SECS_IN_TRI_MONTH then elapsed
    else
      let mins := Z.quot interval SECS_IN_1_MINUTE in
      let* '(y1, m1, d1) := civilOf j1 in
      let* '(y2, m2, d2) := civilOf j2 in
      if mins =? SECS_IN_4_HOURS then
        chk32 ((y2 - y1) * 36 + (m2 - m1) * 3 + Z.quot (d2 - d1) 8)
      else if mins =? SECS_IN_6_HOURS then
        chk32 ((y2 - y1) * 24 + (m2 - m1) * 2 + Z.quot (d2 - d1) 13)
      else if (mins >? 40000) && (mins <? 45000) then
        chk32 ((y2 - y1) * 12 + (m2 - m1) + Z.quot (d2 - d1) 27)
      else if (mins >? 520000) && (mins <? 530000) then
        chk32 ((y2 - y1) + ((m2 - m1) + Z.quot (Z.quot (d2 - d1) 28) 12))
      else elapsed.

(** Utilities/DateTime/isTimeInRange.c:57-88.  Result (returned value, new lastValueStatus). *)
Definition isTimeInRange (timeValue last gran baseDate sj ss ej es : Z) : res (Z * Z) :=
  let g := if gran <? 1 then MINUTE_GRANULARITY else gran in
  let per := Z.quot SECS_IN_1_DAY g in
  let upper :=
    (let* jul := chk32 (ej - baseDate) in
     let ltime := jul * per + Z.quot es g in
     if timeValue >? ltime then Ok (0, 1) else Ok (1, 0)) in
  if last <? 0 then
    let* jul := chk32 (sj - baseDate) in
    let ltime := jul * per + Z.quot ss g in
    if timeValue <? ltime then Ok (0, last) else upper
  else upper.
