(** * Model of the date and time text functions (Utilities/DateTime). *)
From Coq Require Import ZArith List Bool String Ascii.
From Coq Require Import Floats.SpecFloat.
From Verif Require Import Base ArrayLib HashModel CStr DateModel PackModel.
Import ListNotations.
Open Scope Z_scope.
Open Scope res_scope.

Definition bytes_of (s : string) : list Z := map (fun a => Z.of_nat (nat_of_ascii a)) (list_ascii_of_string s).

(** headers/heclibDate.h:66-78 *)
Definition LONG_MONTH_NAMES : list (list Z) := map bytes_of
  ["January"; "February"; "March"; "April"; "May"; "June"; "July"; "August"; "September"; "October"; "November"; "December"]%string.

(** ** Times *)

(** store successive characters at positions [i], [i+1], ... *)
Fixpoint put_chars (b : list Z) (i : Z) (s : list Z) : res (list Z) :=
  match s with [] => Ok b | c :: t => let* b' := aset b i c in put_chars b' (i + 1) t end.

(** Utilities/DateTime/secondsToTimeString.c:63-150.  [buf] is the caller's buffer, [size] its claimed size.
    Each C statement [timeString[icount++] = x] is one checked store, in order. *)
Definition secondsToTimeString (secs mills style : Z) (buf : list Z) (size : Z) : res (list Z) :=
  if size <? 5 then Ok buf
  else if (style <? 0) || (style >? 3) || (secs <? 0) || (secs >? SECS_IN_1_DAY) then aset buf 0 0
  else
    let ihr := Z.quot secs SECS_IN_1_HOUR in
    let imin := Z.quot (secs - ihr * SECS_IN_1_HOUR) SECS_IN_1_MINUTE in
    let isec := secs - ihr * SECS_IN_1_HOUR - imin * SECS_IN_1_MINUTE in
    let two v := [Z.quot v 10 + 48; v - Z.quot v 10 * 10 + 48] in
    let part1 := two ihr ++ (if negb (style =? 0) then [58] else []) ++ two imin in
    let* b1 := put_chars buf 0 part1 in
    let n1 := slen part1 in
    if (style <? 2) || (size <? 9) then
      (if size >? n1 then aset b1 n1 0 else Ok b1)
    else
      let part2 := 58 :: two isec in
      let* b2 := put_chars b1 n1 part2 in
      let n2 := n1 + 3 in
      if (style <? 3) || (size <? 13) || (mills >? 999) || (mills <? 0) then
        (if size >? n2 then aset b2 n2 0 else Ok b2)
      else
        let upper := Z.quot mills 100 in
        let mid := Z.quot (mills - upper * 100) 10 in
        let lower := mills - upper * 100 - mid * 10 in
        put_chars b2 n2 [46; upper + 48; mid + 48; lower + 48; 0].

(** IEEE binary32, round to nearest even *)
Definition f32_of_Z (n : Z) : spec_float := binary_normalize 24 128 n 0 false.
Definition f32_add : spec_float -> spec_float -> spec_float := SFadd 24 128.
Definition f32_mul : spec_float -> spec_float -> spec_float := SFmul 24 128.
(** the binary32 nearest to 0.001 is 8589935 * 2^-33 *)
Definition f32_0_001 : spec_float := S754_finite false 8589935 (-33).
(** conversion to [int]: truncation; out of range or NaN is undefined behaviour *)
Definition f32_to_int (f : spec_float) : res Z :=
  match f with
  | S754_zero _ => Ok 0
  | S754_finite s m e =>
      let v := if e >=? 0 then Z.pos m * 2 ^ e else Z.pos m / 2 ^ (- e) in
      chk32 (if s then - v else v)
  | _ => Undef
  end.

(** timeStringToSecondsMills.c:61-75: the digits collected (at most 9) and the position of the last '.' *)
Fixpoint scan_time (s : list Z) (digits : list Z) (milliFound : Z) : list Z * Z :=
  match s with
  | [] => (digits, milliFound)
  | c :: t =>
    if is_digit c then
      let d' := digits ++ [c - 48] in
      if slen d' >=? 9 then (d', milliFound) else scan_time t d' milliFound
    else if c =? 46 then scan_time t digits (slen digits)
    else scan_time t digits milliFound
  end.

(** Utilities/DateTime/timeStringToSecondsMills.c:48-115.  Reading a digit that was not collected is a read of
    an uninitialised cell ([aget]).  Result: the binary32 value returned. *)
Definition timeStringToSecondsMills (s : list Z) : res spec_float :=
  let '(ds, milliFound) := scan_time s [] (-1) in
  let icount := slen ds in
  if icount <? 3 then Ok (f32_of_Z STATUS_NOT_OKAY)
  else
    let mills := if milliFound >? 0 then fold_left (fun a d => a * 10 + d) (sdrop milliFound ds) 0 else 0 in
    let icount := if milliFound >? 0 then milliFound else icount in
    let two i := (let* a := aget ds i in let* b := aget ds (i + 1) in Ok (a * 10 + b)) in
    let* '(h, m, sec) :=
      (if isOdd icount then
         let* h := aget ds 0 in let* m := two 1 in
         let* sec := (if icount =? 5 then two 3 else Ok 0) in Ok (h, m, sec)
       else
         let* h := two 0 in let* m := two 2 in
         let* sec := (if icount =? 6 then two 4 else Ok 0) in Ok (h, m, sec)) in
    let itime := h * SECS_IN_1_HOUR + m * SECS_IN_1_MINUTE + sec in
    Ok (f32_add (f32_of_Z itime) (f32_mul (f32_of_Z mills) f32_0_001)).

(** Utilities/DateTime/timeStringToSeconds.c:41-51 *)
Definition timeStringToSeconds (s : list Z) : res Z :=
  let* f := timeStringToSecondsMills s in f32_to_int f.

(** Utilities/DateTime/minutesToHourMin.c:6-39 *)
Definition minutesToHourMin (minutes : Z) (buf : list Z) (size : Z) : res (list Z) :=
  let ihr := Z.quot minutes 60 in
  let imin := minutes - ihr * 60 in
  if size <? 5 then Ok buf
  else
    let two v := [Z.quot v 10 + 48; v - Z.quot v 10 * 10 + 48] in
    put_chars buf 0 (two ihr ++ two imin ++ [0]).

(** ** Dates *)

(** Utilities/DateTime/yearMonthDayToDate.c:77-227: the text built in charDate; [None] is STATUS_NOT_OKAY.
    The local arrays are large enough for every value (charYear holds at most 9 characters: truncation at
    line 187 is kept); the copy to the caller's buffer is in [yearMonthDayToDate]. *)
Definition date_text (year month day style : Z) : res (option (list Z)) :=
  if (day <? 1) || (day >? 31) then Ok None
  else if (month <? 1) || (month >? 12) then Ok None
  else if style <? 0 then
    if style =? -13 then
      Ok (Some (intTo4char year ++ [45] ++ intTo2char month ++ [45] ++ intTo2char day))
    else
      let '(charYear, style) :=
        if style <? -100 then (intTo4char year, style + 100)
        else (intTo2char (if year >? 100 then Z.rem year 100 else year), style) in
      let delimiter := if (style =? -2) || (style =? -12) then [45] else [47] in
      let* '(charDay, charMonth) :=
        (if style <? -10 then Ok (intTo2char day, intTo2char month)
         else let* d := itoa_hec 6 day in let* m := itoa_hec 14 month in Ok (d, m)) in
      Ok (Some (stake 29 (charMonth ++ delimiter ++ charDay ++ delimiter ++ charYear)))
  else
    let ibstyl := Z.rem style 10 in
    let* name := aget LONG_MONTH_NAMES (month - 1) in
    let name := if style >=? 100 then upperCase name else name in
    let jstyle := if style >=? 100 then style - 100 else style in
    let charMonth :=
      if (ibstyl >? 6) || (ibstyl =? 1) then stake 3 name ++ [32]
      else if ibstyl >=? 4 then stake 3 name
      else name ++ [32] in
    let charYear :=
      if (year <? 10000) && (year >? -1000) then
        let y4 := intTo4char year in
        if jstyle >=? 10 then sdrop 2 y4 else y4
      else stake 9 (fmt_d year) in
    let i := Z.rem ibstyl 3 in
    let* charDay :=
      (if (i =? 1) && (ibstyl >? 1) then Ok (intTo2char day)
       else if (i =? 2) || (ibstyl <=? 1) then itoa_hec 6 day
       else Ok []) in
    let charDay := if (ibstyl =? 2) || (ibstyl =? 7) || (ibstyl =? 8) then charDay ++ [32] else charDay in
    Ok (Some (stake 29
      (if ibstyl >? 1 then
         if negb (i =? 0) then charDay ++ charMonth ++ charYear
         else charMonth ++ charDay ++ charYear
       else charMonth ++ charDay ++ [44; 32] ++ charYear))).

(** the same with the final copy into the caller's buffer (lines 108, 146, 226): (status, buffer) *)
Definition yearMonthDayToDate (year month day style : Z) (buf : list Z) (size : Z) : res (Z * list Z) :=
  let* r := date_text year month day style in
  match r with
  | None => Ok (STATUS_NOT_OKAY, buf)
  | Some s => let* '(b, n) := stringCopy buf size s None in Ok (n, b)
  end.

(** Utilities/DateTime/julianToDate.c:65-82 *)
Definition julianToDate (julian style : Z) (buf : list Z) (size : Z) : res (Z * list Z) :=
  if julian =? UNDEFINED_TIME then
    let* '(b, _) := stringCopy buf size (bytes_of "undefined") (Some 10) in Ok (STATUS_NOT_OKAY, b)
  else
    let* '(y, m, d) := civilOf julian in yearMonthDayToDate y m d style buf size.

(** dateToYearMonthDay.c:241-251: first month whose upper-case three-letter name occurs in the text *)
Fixpoint find_month (names : list (list Z)) (i : Z) (s : list Z) : Z :=
  match names with
  | [] => 0
  | n :: t => match strstr s (upperCase (stringCopy_val 10 n (Some 3))) with
              | Some _ => i
              | None => find_month t (i + 1) s
              end
  end.

(** Utilities/DateTime/dateToYearMonthDay.c:56-265.  [None] is STATUS_NOT_OKAY.
    toupper of a byte above 127 is taken to be the identity ("C" locale). *)
Definition dateToYearMonthDay (dateString : list Z) : res (option (Z * Z * Z)) :=
  let s := upperCase (stringCopy_val 30 dateString None) in
  let len := slen s in
  if (len >? 30) || (len <? 3) then Ok None
  else
    let slash := strchr s 47 in
    let dash := strchr s 45 in
    (* lines 97-119: Some (idx, use dash) or None for an immediate error *)
    let start :=
      match slash with
      | Some i =>
        let last_dash := strrchr s 45 in
        let pos := reverseNonNumeric s in
        let negativeYear := match last_dash, pos, dash with
                            | Some a, Some b, Some c => (a =? b) && (a =? c)
                            | None, None, None => true
                            | _, _, _ => false
                            end in
        if (match dash with Some _ => true | None => false end) && negb negativeYear then None
        else Some (i + 1, false)
      | None =>
        match dash with
        | Some i => if i + 1 >? 5 then Some (0, false) else Some (i + 1, true)
        | None => Some (0, false)
        end
      end in
    match start with
    | None => Ok None
    | Some (idx, usedash) =>
      if idx >? 0 then
        if idx =? 5 then
          if negb (len =? 10) then Ok None
          else
            let* c := aget s 7 in
            if negb (c =? 45) then Ok None
            else
              let* iyear := atoi (stringCopy_val 10 s (Some 4)) in
              if iyear =? 0 then Ok None
              else
                let* imonth := atoi (stringCopy_val 10 (sdrop 5 s) (Some 2)) in
                if imonth =? 0 then Ok None
                else
                  let* iday := atoi (stringCopy_val 10 (sdrop 8 s) (Some 2)) in
                  if iday =? 0 then Ok None else Ok (Some (iyear, imonth, iday))
        else if (idx =? 2) || (idx =? 3) then
          let* imonth := atoi (stringCopy_val 10 s (Some (idx - 1))) in
          if imonth =? 0 then Ok None
          else
            match strchr (sdrop idx s) (if usedash then 45 else 47) with
            | None => Ok None
            | Some i =>
              let* iday := atoi (stringCopy_val 10 (sdrop idx s) (Some i)) in
              if iday =? 0 then Ok None
              else
                let* iyear := atoi (stringCopy_val 10 (sdrop (idx + i + 1) s) None) in
                if iyear =? 0 then Ok None else Ok (Some (iyear, imonth, iday))
            end
        else Ok None
      else
        (* lines 185-256: month given by name *)
        let* front :=
          (match reverseNonNumeric s with
           | None => Ok (Some (0, s))
           | Some p0 =>
             let* c0 := aget s p0 in
             let p := if c0 =? 45 then p0 - 1 else p0 in
             let* c := aget s p in
             let idx := p + 1 in
             let string := stringCopy_val 10 (sdrop idx s) None in
             let* iyear := atoi string in
             let bad0 := (iyear =? 0) && negb (match string with 48 :: _ => true | _ => false end) in
             let badc := (idx >? 9) && (negb (c =? 32) &&
                          ((schar c <? 43) || ((schar c >? 57) && (schar c <? 65)))) in
             if bad0 || badc then Ok None else Ok (Some (iyear, stake idx s))
           end) in
        match front with
        | None => Ok None
        | Some (iyear, charDate) =>
          let* '(iday0, n) := findInt charDate in
          if negb (n =? 0) && ((iday0 <? 0) || (iday0 >? 31)) then Ok None
          else
            let iday := if n =? 0 then 0 else iday0 in
            let imonth := find_month LONG_MONTH_NAMES 1 charDate in
            if imonth =? 0 then Ok None else Ok (Some (iyear, imonth, iday))
        end
    end.

(** Utilities/DateTime/dateToJulian.c:41-69 *)
Definition dateToJulian (dateString : list Z) : res Z :=
  let* r := dateToYearMonthDay dateString in
  match r with
  | None => Ok UNDEFINED_TIME
  | Some (year, month, day0) =>
    let day := if day0 =? 0 then 1 else day0 in
    let year := if (year <? 100) && (slen dateString =? 7) then addCentury year else year in
    yearMonthDayToJulian year month day
  end.

(** Utilities/DateTime/getDateAndTime.c:53-91: (date buffer, time buffer).  [numberInDay] = 0 for granularities
    above a day: division by zero. *)
Definition getDateAndTime (time gran base : Z) (dbuf : list Z) (dsize : Z) (tbuf : list Z) (tsize : Z)
    : res (list Z * list Z) :=
  let granularity := if gran <? 1 then MINUTE_GRANULARITY else gran in
  let numberInDay := Z.quot SECS_IN_1_DAY granularity in
  if numberInDay =? 0 then Undef
  else
    let days := Z.quot time numberInDay in
    let* julian0 := chk32 (base + days) in
    let timeOfDay0 := time - days * numberInDay in
    let* '(julian, timeOfDay) :=
      (if timeOfDay0 <? 1 then let* j := chk32 (julian0 - 1) in Ok (j, timeOfDay0 + numberInDay)
       else Ok (julian0, timeOfDay0)) in
    let* tb :=
      (if gran =? SECOND_GRANULARITY then secondsToTimeString timeOfDay 0 2 tbuf tsize
       else if gran =? MINUTE_GRANULARITY then minutesToHourMin timeOfDay tbuf tsize
       else minutesToHourMin (timeOfDay * Z.quot gran SECS_IN_1_MINUTE) tbuf tsize) in
    let* '(_, db) := julianToDate julian 4 dbuf dsize in
    Ok (db, tb).
