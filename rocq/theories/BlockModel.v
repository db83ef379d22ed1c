(** * Model of the time-series block arithmetic of heclib (no proofs here). *)
From Coq Require Import ZArith List Bool.
From Verif Require Import Base DateModel.
Import ListNotations.
Open Scope Z_scope.
Open Scope res_scope.

(** headers/hecdssInternal.h: block sizes *)
Definition BLOCK_1_DAY : Z := 1.
Definition BLOCK_1_MONTH : Z := 2.
Definition BLOCK_1_YEAR : Z := 3.
Definition BLOCK_1_DECADE : Z := 4.
Definition BLOCK_1_CENTURY : Z := 5.
Definition SECS_IN_15_MINUTES : Z := 900.

(** Internal/ztsRegGetBlockStart.c:81-128.  Result (startBlockJulian, blockSize).  The status of
    julianToYearMonthDay is ignored in C; a failure reads uninitialised variables ([civilOf]: [Undef]). *)
Definition ztsRegGetBlockStart (julianDate intervalSeconds : Z) : res (Z * Z) :=
  if intervalSeconds <? SECS_IN_15_MINUTES then Ok (julianDate, BLOCK_1_DAY)
  else
    let* '(year, month, day) := civilOf julianDate in
    if intervalSeconds <? SECS_IN_1_DAY then
      let* j := yearMonthDayToJulian year month 1 in Ok (j, BLOCK_1_MONTH)
    else if intervalSeconds <? SECS_IN_1_WEEK then
      let* j := yearMonthDayToJulian year 1 1 in Ok (j, BLOCK_1_YEAR)
    else if intervalSeconds <? SECS_IN_1_YEAR then
      let* j := yearMonthDayToJulian (Z.quot year 10 * 10) 1 1 in Ok (j, BLOCK_1_DECADE)
    else
      let* j := yearMonthDayToJulian (Z.quot year 100 * 100) 1 1 in Ok (j, BLOCK_1_CENTURY).

(** Internal/ztsIrregGetBlockStart.c:40-82 *)
Definition ztsIrregGetBlockStart (julianDate blockSize : Z) : res Z :=
  let* '(iyear, imonth, iday) := civilOf julianDate in
  if blockSize =? BLOCK_1_DAY then yearMonthDayToJulian iyear imonth iday
  else if blockSize =? BLOCK_1_MONTH then yearMonthDayToJulian iyear imonth 1
  else if blockSize =? BLOCK_1_YEAR then yearMonthDayToJulian iyear 1 1
  else if blockSize =? BLOCK_1_DECADE then yearMonthDayToJulian (Z.quot iyear 10 * 10) 1 1
  else if blockSize =? BLOCK_1_CENTURY then yearMonthDayToJulian (Z.quot iyear 100 * 100) 1 1
  else Ok STATUS_NOT_OKAY.

(** Internal/ztsIncrementBlock.c:41-78; a negative block size steps backwards *)
Definition ztsIncrementBlock (julianBlockDate blockSize : Z) : res Z :=
  let step := if blockSize <? 0 then -1 else 1 in
  let bs := if blockSize <? 0 then - blockSize else blockSize in
  if bs =? BLOCK_1_DAY then chk32 (julianBlockDate + step)
  else if bs =? BLOCK_1_MONTH then
    let* '(_, j, _) := incrementTime SECS_IN_1_MONTH step julianBlockDate SECS_IN_1_DAY in Ok j
  else if bs =? BLOCK_1_YEAR then
    let* '(_, j, _) := incrementTime SECS_IN_1_YEAR step julianBlockDate SECS_IN_1_DAY in Ok j
  else if bs =? BLOCK_1_DECADE then
    let* '(_, j, _) := incrementTime SECS_IN_1_YEAR (step * 10) julianBlockDate SECS_IN_1_DAY in Ok j
  else if bs =? BLOCK_1_CENTURY then
    let* '(_, j, _) := incrementTime SECS_IN_1_YEAR (step * 100) julianBlockDate SECS_IN_1_DAY in Ok j
  else Ok 0.
