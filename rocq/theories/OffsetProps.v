(** * C09: the offset of a time in a calendar interval, exactly. *)
From Coq Require Import ZArith Lia Bool List ZifyBool.
From Verif Require Import Base DateModel DateSpec DateProofs DateProofs2 DateProps.
Import ListNotations.
Open Scope Z_scope.
Open Scope res_scope.

(** ** Specification *)
(** first day of the period that contains a date *)
Definition period_start (k : calendar_kind) (y m d : Z) : Z * Z * Z :=
  match k with
  | TriMonth => (y, m, if d <=? 10 then 1 else if d <=? 20 then 11 else 21)
  | SemiMonth => (y, m, if d <=? 15 then 1 else 16)
  | Month => (y, m, 1)
  | Year => (y, 1, 1)
  end.
(** the days that the library takes as the end of a period: the last day and, in periods within a month, the day before it too when
    it is the 9th, 14th, 19th or 30th, or 28 February of a leap year *)
Definition counted_as_end (k : calendar_kind) (m d : Z) : bool :=
  match k with
  | Year => (m =? 12) && (d =? 31)
  | _ => (if m =? 2 then 28 <=? d else 30 <=? d) ||
         match k with TriMonth => (d =? 9) || (d =? 10) || (d =? 19) || (d =? 20) | SemiMonth => (d =? 14) || (d =? 15) | _ => false end
  end.
(** 29 February is not counted in the offset of a yearly time *)
Definition leap_days (k : calendar_kind) (y m : Z) : Z := match k with Year => if leap y && (2 <? m) then 1 else 0 | _ => 0 end.

Lemma month_len31 y m d : valid_date y m d -> 1 <= d <= 31.
Proof. intros [_ H]. unfold month_length in H. destruct (m =? 2), (leap y), ((m =? 4) || (m =? 6) || (m =? 9) || (m =? 11)); lia. Qed.

Theorem C09_offset_calendar : forall k y m d s j j0, 5 <= y <= 5000000 -> valid_date y m d -> 0 < s <= 86400 ->
  yearMonthDayToJulian y m d = Ok j ->
  (let '(y0, m0, d0) := period_start k y m d in yearMonthDayToJulian y0 m0 d0) = Ok j0 ->
  ztsOffset (nominal_seconds k) j s =
    Ok (if counted_as_end k m d then 0 else instant j s - instant j0 0 - 86400 * leap_days k y m).
Proof.
  intros k y m d s j j0 Hy Hv Hs E E0. pose proof Hv as [Hm Hd]. pose proof (month_len31 _ _ _ Hv) as Hd31. rewrite ymd_rata in E by (unfold YMAX; lia). injection E as <-.
  pose proof (rata_bound y m d ltac:(unfold YMAX; lia) Hm Hd31) as HB.
  unfold ztsOffset. replace (nominal_seconds k <? 1) with false by (destruct k; reflexivity).
  rewrite cleanSec_fix by (unfold UNDEFINED_TIME, YMAX in *; lia). cbn [bind].
  replace (nominal_seconds k <=? SECS_IN_1_DAY) with false by (destruct k; reflexivity).
  replace (nominal_seconds k =? SECS_IN_1_WEEK) with false by (destruct k; reflexivity).
  rewrite civilOf_rata by (assumption || (unfold YMAX; lia)). cbn [bind]. unfold instant.
  assert (HF : forall d', 1 <= d' <= 31 ->
     (let* julBeg := yearMonthDayToJulian y m 1 in
            let* d0 := chk32 (rata y m d' - julBeg) in
            let* m0 := chk32 (d0 * SECS_IN_1_DAY) in
            chk32 (m0 + s)) = Ok ((d' - 1) * 86400 + s)).
  { intros d' Hd'. rewrite ymd_rata by (unfold YMAX in *; lia). cbn [bind].
    replace d' with (1 + (d' - 1)) by lia. rewrite rata_d. unfold SECS_IN_1_DAY, YMAX in *. chk. f_equal. lia. }
  assert (RD : forall b, rata y m d = rata y m b + (d - b)) by (intros b; replace d with (b + (d - b)) at 1 by lia; apply rata_d).
  destruct k; cbn [period_start] in E0; cbn [leap_days nominal_seconds]; (rewrite ymd_rata in E0 by (unfold YMAX; repeat match goal with |- context [if ?b then _ else _] => destruct b end; lia)); injection E0 as <-.
  4: { replace (31536000 <=? SECS_IN_1_MONTH) with false by reflexivity. replace (31536000 =? SECS_IN_1_YEAR) with true by reflexivity. cbn [counted_as_end].
    destruct ((m =? 12) && (d =? 31)) eqn:E1; [reflexivity|]. rewrite ymd_rata by (unfold YMAX; lia). cbn [bind]. rewrite isLeapYear_leap. replace (y >? 0) with true by lia. rewrite Z.gtb_ltb.
    pose proof (rata_in_year y m d ltac:(unfold YMAX; lia) Hv) as HI. pose proof (rata_jan_next y ltac:(lia)) as HN. assert (HN' : (if leap y then 366 else 365) <= 366) by (destruct (leap y); lia).
    assert (L : (if leap y then (if 2 <? m then 1 else 0) else 0) = (if leap y && (2 <? m) then 1 else 0)) by (destruct (leap y), (2 <? m); reflexivity). rewrite L.
    assert (LB : 0 <= (if leap y && (2 <? m) then 1 else 0) <= 1) by (destruct (leap y && (2 <? m)); lia). set (q := if leap y && (2 <? m) then 1 else 0) in *. clearbody q.
    unfold SECS_IN_1_DAY, YMAX in *. chk. f_equal. lia. }
  all: match goal with |- context [?i <=? SECS_IN_1_MONTH] => replace (i <=? SECS_IN_1_MONTH) with true by reflexivity end.
  all: assert (B1 : (negb (m =? 2) && ((d =? 30) || (d =? 31)) || (m =? 2) && (d >=? 28)) = (if m =? 2 then 28 <=? d else 30 <=? d)) by (destruct (m =? 2); cbn [negb andb orb]; lia).
  all: cbn [counted_as_end]; rewrite <- B1; destruct (negb (m =? 2) && ((d =? 30) || (d =? 31))) eqn:E1; [reflexivity|]; destruct ((m =? 2) && (d >=? 28)) eqn:E2; [reflexivity|]; cbn [orb].
  - replace (864000 =? SECS_IN_TRI_MONTH) with true by reflexivity. destruct ((d =? 9) || (d =? 10)) eqn:E3; [reflexivity|]. destruct ((d =? 19) || (d =? 20)) eqn:E4.
    + cbn [orb]. rewrite E4. reflexivity.
    + cbn [orb]. rewrite E4.
      set (d' := if d >? 20 then d - 20 else if d >? 10 then d - 10 else d). set (b := if d <=? 10 then 1 else if d <=? 20 then 11 else 21).
      assert (DB : d' = d - b + 1 /\ 1 <= d' <= 31) by (unfold d', b; destruct (d >? 20) eqn:?, (d >? 10) eqn:?, (d <=? 10) eqn:?, (d <=? 20) eqn:?; lia).
      cbv zeta. fold d'. clearbody d' b. rewrite ymd_rata by (unfold YMAX; lia). cbn [bind]. rewrite HF by lia. rewrite (RD b). f_equal. lia.
  - replace (1296000 =? SECS_IN_TRI_MONTH) with false by reflexivity. replace (1296000 =? SECS_IN_SEMI_MONTH) with true by reflexivity.
    destruct ((d =? 14) || (d =? 15)) eqn:E3; [reflexivity|].
    set (d' := if d >? 15 then d - 15 else d). set (b := if d <=? 15 then 1 else 16).
    assert (DB : d' = d - b + 1 /\ 1 <= d' <= 31) by (unfold d', b; destruct (d >? 15) eqn:?, (d <=? 15) eqn:?; lia).
    cbv zeta. fold d'. clearbody d' b. rewrite ymd_rata by (unfold YMAX; lia). cbn [bind]. rewrite HF by lia. rewrite (RD b). f_equal. lia.
  - replace (2592000 =? SECS_IN_TRI_MONTH) with false by reflexivity. replace (2592000 =? SECS_IN_SEMI_MONTH) with false by reflexivity. replace (2592000 =? SECS_IN_1_MONTH) with true by reflexivity.
    rewrite HF by lia. rewrite (RD 1). f_equal. lia.
Qed.
Print Assumptions C09_offset_calendar.
(** 12 January 2000, 12:00, in thirds of a month: one day and a half into the period *)
Example C09_offset_calendar_example : exists j j0, yearMonthDayToJulian 2000 1 12 = Ok j /\ yearMonthDayToJulian 2000 1 11 = Ok j0 /\
  valid_date 2000 1 12 /\ counted_as_end TriMonth 1 12 = false /\ ztsOffset 864000 j 43200 = Ok 129600 /\ instant j 43200 - instant j0 0 = 129600.
Proof. do 2 eexists. split; [vm_compute; reflexivity|]. split; [vm_compute; reflexivity|]. split; [vm_compute; intuition discriminate|]. split; [reflexivity|]. split; vm_compute; reflexivity. Qed.
