(** * Lemmas: stepping calendar intervals from the first day of a period. *)
From Coq Require Import ZArith List Bool Lia.
From Verif Require Import Base DateModel DateSpec DateProofs DateProofs2 DateProofs3 BlockModel.
Import ListNotations.
Open Scope Z_scope.
Open Scope res_scope.
Ltac Zify.zify_post_hook ::= Z.to_euclidean_division_equations.

Lemma offset_month_first y m : 5 <= y <= YMAX -> 1 <= m <= 12 ->
  ztsOffset 2592000 (rata y m 1) 86400 = Ok 86400.
Proof.
  intros Hy Hm. pose proof (rata_bound y m 1 ltac:(lia) Hm ltac:(lia)) as HB.
  assert (Hv : valid_date y m 1) by (split; [lia|pose proof (month_length_bound y m); lia]).
  unfold ztsOffset. rewrite cleanSec_fix by (unfold UNDEFINED_TIME; lia).
  cbn -[civilOf yearMonthDayToJulian rata chk32].
  rewrite civilOf_rata by auto. cbn -[yearMonthDayToJulian rata chk32].
  rewrite ymd_rata by (unfold YMAX in *; lia). cbn [bind]. rewrite Z.sub_diag. destruct (m =? 2); reflexivity.
Qed.

Lemma offset_year_first y : 5 <= y <= YMAX -> ztsOffset 31536000 (rata y 1 1) 86400 = Ok 86400.
Proof.
  intros Hy. pose proof (rata_bound y 1 1 ltac:(lia) ltac:(lia) ltac:(lia)) as HB.
  assert (Hv : valid_date y 1 1) by (split; [lia|pose proof (month_length_bound y 1); lia]).
  unfold ztsOffset. rewrite cleanSec_fix by (unfold UNDEFINED_TIME; lia).
  cbn -[civilOf yearMonthDayToJulian rata chk32].
  rewrite civilOf_rata by auto. cbn -[yearMonthDayToJulian rata chk32 isLeapYear].
  rewrite ymd_rata by (unfold YMAX in *; lia). cbn [bind].
  replace (if isLeapYear y then _ else 0) with 0 by (destruct (isLeapYear y), (y >? 0); reflexivity).
  rewrite Z.sub_diag. reflexivity.
Qed.

(** day after the end of month/year period p-1 *)
Lemma endDay_month_succ y m : 6 <= y -> 1 <= m <= 12 -> endDay Month (12 * y + (m - 1) - 1) + 1 = rata y m 1.
Proof.
  intros Hy Hm. unfold endDay. cbn [period_end].
  destruct (Z.eq_dec m 1) as [E|E].
  - replace ((12 * y + (m - 1) - 1) / 12) with (y - 1) by lia.
    replace ((12 * y + (m - 1) - 1) mod 12 + 1) with 12 by lia.
    subst m. change (month_length (y - 1) 12) with (1 + 30). rewrite rata_d.
    replace (rata y 1 1) with (rata (y - 1 + 1) 1 1) by (f_equal; lia).
    rewrite rata_year by lia. lia.
  - replace ((12 * y + (m - 1) - 1) / 12) with y by lia.
    replace ((12 * y + (m - 1) - 1) mod 12 + 1) with (m - 1) by lia.
    replace (month_length y (m - 1)) with (1 + (month_length y (m - 1) - 1)) by lia. rewrite rata_d.
    replace (rata y m 1) with (rata y (m - 1 + 1) 1) by (f_equal; lia).
    rewrite rata_month by lia. lia.
Qed.

Lemma endDay_year_succ p : 6 <= p -> endDay Year (p - 1) + 1 = rata p 1 1.
Proof.
  intros Hp. unfold endDay. cbn [period_end].
  replace (rata p 1 1) with (rata (p - 1 + 1) 1 1) by (f_equal; lia).
  rewrite rata_year by lia. change 31 with (1 + 30) at 1. rewrite rata_d. lia.
Qed.

Lemma cleanSec_2days j : -2147400000 <= j <= 2147400000 -> cleanSec j (86400 + 86400) = Ok (j + 1, 86400).
Proof.
  intros Hj. destruct (cleanSec_spec j (86400 + 86400) Hj ltac:(lia) ltac:(unfold in32, INT_MIN, INT_MAX; lia)) as (j' & s' & E & H).
  rewrite E. unfold instant in H. f_equal. f_equal; lia.
Qed.

(** stepping months from the first day of a month gives first days of months *)
Lemma incr_month_first f y m n y' m' : 7 <= y <= YMAX - 2 -> 1 <= m <= 12 -> 7 <= y' <= YMAX - 2 -> 1 <= m' <= 12 ->
  12 * y' + (m' - 1) = 12 * y + (m - 1) + n ->
  incrementTimeF (S (S f)) 2592000 n (rata y m 1) 86400 = Ok (0, rata y' m' 1, 86400).
Proof.
  intros Hy Hm Hy' Hm' HT.
  assert (Hv : valid_date y m 1) by (split; [lia|pose proof (month_length_bound y m); lia]).
  set (p := 12 * y' + (m' - 1)) in *. assert (Hp : p = 12 * y' + (m' - 1)) by reflexivity.
  assert (HD : p / 12 = y' /\ p mod 12 + 1 = m' /\ (p + -1) / 12 >= y' - 1 /\ (p + -1) / 12 <= y') by (unfold p; lia).
  clearbody p. destruct HD as (HD1 & HD2 & HD3).
  assert (HI : incrementTimeF (S f) 2592000 (-1) (endDay Month p) 86400 = Ok (0, endDay Month (p + -1), 86400)).
  { apply (incrementTimeF_cal f Month p (-1)); unfold yearOfPeriod; cbn [periods_per_year]; unfold YMAX in *; clear -HD1 HD3 Hy'; lia. }
  assert (HB : -693960 <= endDay Month (p + -1) <= 1900000000).
  { apply endDay_bound. unfold yearOfPeriod. cbn [periods_per_year]. unfold YMAX in *. clear -HD1 HD3 Hy'; lia. }
  clear HD3.
  remember (S f) as f' eqn:Ef.
  cbn [incrementTimeF]. change (2592000 <? 1) with false. change (2592000 <? SECS_IN_TRI_MONTH) with false. cbv iota zeta.
  destruct (adjStd_cal Month y m 1 86400 ltac:(lia) Hv ltac:(lia)) as (o & E & _ & _ & Ho).
  cbn [nominal_seconds] in E, Ho. rewrite offset_month_first in Ho by lia. injection Ho as <-.
  rewrite E. cbn [bind pmonth pday].
  rewrite civilOf_rata; [|lia|split; [lia|pose proof (month_length_bound y m); lia]]. cbn [bind].
  change (Z.quot 2592000 SECS_IN_1_MINUTE =? MINS_IN_TRI_MONTH) with false.
  change (Z.quot 2592000 SECS_IN_1_MINUTE =? MINS_IN_SEMI_MONTH) with false.
  change (Z.abs (Z.quot 2592000 SECS_IN_1_MINUTE - MINS_IN_1_MONTH) <=? 2 * MINS_IN_1_DAY) with true.
  cbv iota. unfold YMAX in *. chk.
  destruct (finish_cal Month y (m + n) 28 p) as (o & j & F1 & F2);
    [unfold in32, INT_MIN, INT_MAX; lia|unfold in32, INT_MIN, INT_MAX; lia|lia|lia|rewrite HD1; unfold YMAX; lia|].
  cbn [nominal_seconds] in F2. rewrite F1. cbn [bind]. change (negb (86400 =? 0)) with true. cbv iota.
  rewrite HD1, HD2 in F2. replace (period_of Month _ _ 28) with p in F2 by (unfold period_of; lia).
  unfold adjustToOffsetWith. change (2592000 <? 1) with false. cbv iota. rewrite F2. cbn [bind].
  change (86400 =? 0) with false. cbv iota.
  rewrite HI. cbn [bind].
  change (chk32 (86400 + 86400)) with (Ok (86400 + 86400)). cbn [bind].
  rewrite cleanSec_2days by lia. cbn [bind]. change (2592000 =? SECS_IN_1_YEAR) with false. cbv iota. cbn [bind].
  change (p + -1) with (p - 1). rewrite Hp. rewrite endDay_month_succ by lia. reflexivity.
Qed.

Lemma incr_year_first f y n : 7 <= y <= YMAX - 2 -> 7 <= y + n <= YMAX - 2 ->
  incrementTimeF (S (S f)) 31536000 n (rata y 1 1) 86400 = Ok (0, rata (y + n) 1 1, 86400).
Proof.
  intros Hp Hpn.
  assert (Hv : valid_date y 1 1) by (split; [lia|pose proof (month_length_bound y 1); lia]).
  assert (HI : incrementTimeF (S f) 31536000 (-1) (endDay Year (y + n)) 86400 = Ok (0, endDay Year (y + n + -1), 86400)).
  { apply (incrementTimeF_cal f Year (y + n) (-1)); unfold yearOfPeriod; cbn [periods_per_year]; rewrite Z.div_1_r;
    unfold YMAX in *; clear -Hpn; lia. }
  assert (HB : -693960 <= endDay Year (y + n + -1) <= 1900000000).
  { apply endDay_bound. unfold yearOfPeriod. cbn [periods_per_year]. rewrite Z.div_1_r. unfold YMAX in *. clear -Hpn; lia. }
  remember (S f) as f' eqn:Ef.
  cbn [incrementTimeF]. change (31536000 <? 1) with false. change (31536000 <? SECS_IN_TRI_MONTH) with false. cbv iota zeta.
  destruct (adjStd_cal Year y 1 1 86400 ltac:(lia) Hv ltac:(lia)) as (o & E & _ & _ & Ho).
  cbn [nominal_seconds] in E, Ho. rewrite offset_year_first in Ho by lia. injection Ho as <-.
  rewrite E. cbn [bind pmonth pday].
  rewrite civilOf_rata; [|lia|split; [lia|change (month_length y 12) with 31; lia]]. cbn [bind].
  change (Z.quot 31536000 SECS_IN_1_MINUTE =? MINS_IN_TRI_MONTH) with false.
  change (Z.quot 31536000 SECS_IN_1_MINUTE =? MINS_IN_SEMI_MONTH) with false.
  change (Z.abs (Z.quot 31536000 SECS_IN_1_MINUTE - MINS_IN_1_MONTH) <=? 2 * MINS_IN_1_DAY) with false.
  change (Z.abs (Z.quot 31536000 SECS_IN_1_MINUTE - MINS_IN_1_YEAR) <=? MINS_IN_1_DAY) with true.
  cbv iota. unfold YMAX in *. chk.
  rewrite ymd_rata by (unfold YMAX in *; lia). cbn [bind]. change (negb (86400 =? 0)) with true. cbv iota.
  destruct (adjStd_cal Year (y + n) 12 31 86400) as (o' & E' & _);
    [unfold YMAX; lia| split; [lia|change (month_length (y + n) 12) with 31; lia] | lia|].
  cbn [nominal_seconds pmonth pday] in E'.
  unfold adjustToOffsetWith. change (31536000 <? 1) with false. cbv iota. rewrite E'. cbn [bind].
  change (86400 =? 0) with false. cbv iota.
  change (rata (y + n) 12 31) with (endDay Year (y + n)).
  rewrite HI. cbn [bind].
  change (chk32 (86400 + 86400)) with (Ok (86400 + 86400)). cbn [bind].
  rewrite cleanSec_2days by lia. cbn [bind]. change (31536000 =? SECS_IN_1_YEAR) with true. cbv iota.
  change (y + n + -1) with (y + n - 1). rewrite endDay_year_succ by lia.
  rewrite civilOf_rata; [|unfold YMAX; lia|split; [lia|pose proof (month_length_bound (y + n) 1); lia]].
  cbn [bind]. destruct (isLeapYear (y + n)), (y + n >? 0); reflexivity.
Qed.
