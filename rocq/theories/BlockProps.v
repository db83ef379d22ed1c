(** * C33: blocks of a time series partition time; stepping blocks is exact. *)
From Coq Require Import ZArith List Bool Lia.
From Verif Require Import Base DateModel DateSpec DateProofs DateProofs2 DateProofs3 BlockModel BlockSpec BlockProofs.
Import ListNotations.
Open Scope Z_scope.
Open Scope res_scope.
Ltac Zify.zify_post_hook ::= Z.to_euclidean_division_equations.

(** first day of block number b *)
Definition bstart (k : block_kind) (b : Z) : Z :=
  match k with
  | DayBlock => b
  | MonthBlock => rata (b / 12) (b mod 12 + 1) 1
  | YearBlock => rata b 1 1
  | DecadeBlock => rata (10 * b) 1 1
  | CenturyBlock => rata (100 * b) 1 1
  end.

Definition bnum (k : block_kind) (y m d : Z) : Z :=
  match k with
  | DayBlock => rata y m d
  | MonthBlock => 12 * y + (m - 1)
  | YearBlock => y
  | DecadeBlock => y / 10
  | CenturyBlock => y / 100
  end.

(** blocks whose first day lies in years 7 .. 4,999,900 *)
Definition brange (k : block_kind) (b : Z) : Prop :=
  match k with
  | DayBlock => -690000 <= b <= 1890000000
  | MonthBlock => 84 <= b <= 12 * 4999900
  | YearBlock => 7 <= b <= 4999900
  | DecadeBlock => 1 <= b <= 499990
  | CenturyBlock => 1 <= b <= 49999
  end.

Lemma rata_jan_lt a b : 5 <= a < b -> rata a 1 1 < rata b 1 1.
Proof.
  intros H. pose proof (rata_jan_next a ltac:(lia)) as N. pose proof (rata_jan_le (a + 1) b ltac:(lia)) as L.
  destruct (leap a); lia.
Qed.

Lemma bstart_next k b : brange k b -> bstart k b < bstart k (b + 1).
Proof.
  intros H. destruct k; cbn [bstart brange] in *.
  - lia.
  - destruct (Z.eq_dec (b mod 12) 11) as [E|E].
    + replace ((b + 1) / 12) with (b / 12 + 1) by lia. replace ((b + 1) mod 12 + 1) with 1 by lia.
      rewrite E. rewrite rata_year by lia. change (11 + 1) with 12.
      generalize (rata (b / 12) 12 1). intros; lia.
    + replace ((b + 1) / 12) with (b / 12) by lia. replace ((b + 1) mod 12 + 1) with (b mod 12 + 1 + 1) by lia.
      rewrite (rata_month (b / 12) (b mod 12 + 1)) by lia. pose proof (month_length_bound (b / 12) (b mod 12 + 1)) as Q. clear -Q.
      revert Q. generalize (rata (b / 12) (b mod 12 + 1) 1), (month_length (b / 12) (b mod 12 + 1)). intros; lia.
  - apply rata_jan_lt. lia.
  - apply rata_jan_lt. lia.
  - apply rata_jan_lt. lia.
Qed.

Lemma brange_mid k a b c : brange k a -> brange k c -> a <= b <= c -> brange k b.
Proof. destruct k; cbn [brange]; lia. Qed.

Lemma bstart_mono k a n : brange k a -> brange k (a + Z.of_nat n) -> bstart k a <= bstart k (a + Z.of_nat n).
Proof.
  induction n; intros Ha Hn.
  - replace (a + Z.of_nat 0) with a by lia. lia.
  - assert (Hm : brange k (a + Z.of_nat n)) by (apply (brange_mid k a _ (a + Z.of_nat (S n))); auto; lia).
    specialize (IHn Ha Hm). pose proof (bstart_next k _ Hm) as N.
    replace (a + Z.of_nat (S n)) with (a + Z.of_nat n + 1) by lia. lia.
Qed.

Lemma bstart_mono' k a b : brange k a -> brange k b -> a <= b -> bstart k a <= bstart k b.
Proof.
  intros Ha Hb L. pose proof (bstart_mono k a (Z.to_nat (b - a)) Ha) as H.
  replace (a + Z.of_nat (Z.to_nat (b - a))) with b in H by lia. auto.
Qed.

Lemma bstart_lt k a b : brange k a -> brange k b -> a < b -> bstart k a < bstart k b.
Proof.
  intros Ha Hb L. assert (brange k (a + 1)) by (apply (brange_mid k a _ b); auto; lia).
  pose proof (bstart_next k a Ha). pose proof (bstart_mono' k (a + 1) b). intuition lia.
Qed.

Lemma within k y m d : valid_date y m d -> 200 <= y <= 4999899 ->
  bstart k (bnum k y m d) <= rata y m d < bstart k (bnum k y m d + 1).
Proof.
  intros Hv Hy. pose proof Hv as [Hm Hd].
  pose proof (rata_in_year y m d ltac:(lia) Hv) as HI.
  assert (LE : forall a, 5 <= a <= y -> rata a 1 1 <= rata y m d).
  { intros a Ha. pose proof (rata_jan_le a y ltac:(lia)). lia. }
  assert (LT : forall a, y < a -> rata y m d < rata a 1 1).
  { intros a Ha. pose proof (rata_jan_le (y + 1) a ltac:(lia)). lia. }
  destruct k; cbn [bstart bnum].
  - lia.
  - replace ((12 * y + (m - 1)) / 12) with y by lia. replace ((12 * y + (m - 1)) mod 12 + 1) with m by lia.
    replace d with (1 + (d - 1)) by lia. rewrite rata_d. split; [lia|].
    destruct (Z.eq_dec m 12) as [->|E].
    + replace ((12 * y + (12 - 1) + 1) / 12) with (y + 1) by lia.
      replace ((12 * y + (12 - 1) + 1) mod 12 + 1) with 1 by lia.
      rewrite rata_year by lia. change (month_length y 12) with 31 in Hd. lia.
    + replace ((12 * y + (m - 1) + 1) / 12) with y by lia.
      replace ((12 * y + (m - 1) + 1) mod 12 + 1) with (m + 1) by lia.
      rewrite rata_month by lia. lia.
  - split; [apply LE|apply LT]; lia.
  - split; [apply LE|apply LT]; lia.
  - split; [apply LE|apply LT]; lia.
Qed.

Lemma bnum_range k y m d : valid_date y m d -> 200 <= y <= 4999899 -> brange k (bnum k y m d) /\ brange k (bnum k y m d + 1) /\ brange k (bnum k y m d - 1).
Proof.
  intros Hv Hy. pose proof Hv as [Hm Hd].
  destruct k; cbn [bnum brange]; try lia.
  pose proof (rata_in_year y m d ltac:(lia) Hv) as HI.
  pose proof (rata_jan_le 200 y ltac:(lia)) as A. pose proof (rata_jan_le (y + 1) 4999900 ltac:(lia)) as B.
  rewrite (rata_jan 200) in A. rewrite (rata_jan 4999900) in B.
  replace (leapsBefore 200) with (48) in A by (vm_compute; reflexivity).
  replace (leapsBefore 4999900) with (1212475) in B by (vm_compute; reflexivity). lia.
Qed.

Lemma getStart k y m d : valid_date y m d -> 200 <= y <= 4999899 ->
  ztsIrregGetBlockStart (rata y m d) (block_code k) = Ok (bstart k (bnum k y m d)).
Proof.
  intros Hv Hy. pose proof Hv as [Hm Hd]. pose proof (month_length_bound y m) as ML.
  unfold ztsIrregGetBlockStart. rewrite civilOf_rata by (unfold YMAX; auto; lia). cbn [bind].
  destruct k; cbn [block_code bstart bnum];
    cbn [Z.eqb BLOCK_1_DAY BLOCK_1_MONTH BLOCK_1_YEAR BLOCK_1_DECADE BLOCK_1_CENTURY Pos.eqb].
  - rewrite ymd_rata by (unfold YMAX; lia). reflexivity.
  - rewrite ymd_rata by (unfold YMAX; lia). f_equal. f_equal; lia.
  - rewrite ymd_rata by (unfold YMAX; lia). reflexivity.
  - rewrite ymd_rata by (unfold YMAX; lia). f_equal. f_equal. lia.
  - rewrite ymd_rata by (unfold YMAX; lia). f_equal. f_equal. lia.
Qed.

Lemma getStart_reg i y m d : valid_date y m d -> 200 <= y <= 4999899 ->
  ztsRegGetBlockStart (rata y m d) i
  = Ok (bstart (block_for_interval i) (bnum (block_for_interval i) y m d), block_code (block_for_interval i)).
Proof.
  intros Hv Hy. pose proof Hv as [Hm Hd]. unfold ztsRegGetBlockStart, block_for_interval.
  change SECS_IN_15_MINUTES with (15 * 60). change SECS_IN_1_DAY with (24 * 3600).
  change SECS_IN_1_WEEK with (7 * 86400). change SECS_IN_1_YEAR with (365 * 86400).
  destruct (i <? 15 * 60); [reflexivity|].
  rewrite civilOf_rata by (unfold YMAX; auto; lia). cbn [bind].
  destruct (i <? 24 * 3600); [|destruct (i <? 7 * 86400); [|destruct (i <? 365 * 86400)]];
    rewrite ymd_rata by (unfold YMAX; lia); cbn [bind bstart bnum block_code]; f_equal; f_equal; f_equal; lia.
Qed.

Lemma incr_fwd k b : brange k b -> brange k (b + 1) -> ztsIncrementBlock (bstart k b) (block_code k) = Ok (bstart k (b + 1)).
Proof.
  intros Hb Hb'. unfold ztsIncrementBlock, incrementTime.
  destruct k; cbn [block_code bstart brange] in *; cbn -[incrementTimeF rata chk32 Z.add Z.mul Z.div Z.modulo].
  - rewrite chk32_ok by (unfold in32, INT_MIN, INT_MAX; lia). reflexivity.
  - change SECS_IN_1_MONTH with 2592000. change SECS_IN_1_DAY with 86400.
    rewrite (incr_month_first _ _ _ _ ((b + 1) / 12) ((b + 1) mod 12 + 1)) by (unfold YMAX; lia). reflexivity.
  - change SECS_IN_1_YEAR with 31536000. change SECS_IN_1_DAY with 86400.
    rewrite incr_year_first by (unfold YMAX; lia). reflexivity.
  - change SECS_IN_1_YEAR with 31536000. change SECS_IN_1_DAY with 86400.
    rewrite incr_year_first by (unfold YMAX; lia). cbn [bind]. f_equal. f_equal. lia.
  - change SECS_IN_1_YEAR with 31536000. change SECS_IN_1_DAY with 86400.
    rewrite incr_year_first by (unfold YMAX; lia). cbn [bind]. f_equal. f_equal. lia.
Qed.

Lemma incr_bwd k b : brange k b -> brange k (b - 1) -> ztsIncrementBlock (bstart k b) (- block_code k) = Ok (bstart k (b - 1)).
Proof.
  intros Hb Hb'. unfold ztsIncrementBlock, incrementTime.
  destruct k; cbn [block_code bstart brange] in *; cbn -[incrementTimeF rata chk32 Z.add Z.sub Z.mul Z.div Z.modulo].
  - rewrite chk32_ok by (unfold in32, INT_MIN, INT_MAX; lia). reflexivity.
  - change SECS_IN_1_MONTH with 2592000. change SECS_IN_1_DAY with 86400.
    rewrite (incr_month_first _ _ _ _ ((b - 1) / 12) ((b - 1) mod 12 + 1)) by (unfold YMAX; lia). reflexivity.
  - change SECS_IN_1_YEAR with 31536000. change SECS_IN_1_DAY with 86400.
    rewrite incr_year_first by (unfold YMAX; lia). reflexivity.
  - change SECS_IN_1_YEAR with 31536000. change SECS_IN_1_DAY with 86400.
    rewrite incr_year_first by (unfold YMAX; lia). cbn [bind]. f_equal. f_equal. lia.
  - change SECS_IN_1_YEAR with 31536000. change SECS_IN_1_DAY with 86400.
    rewrite incr_year_first by (unfold YMAX; lia). cbn [bind]. f_equal. f_equal. lia.
Qed.

Lemma rata_inj y m d y' m' d' : valid_date y m d -> valid_date y' m' d' -> 5 <= y <= YMAX -> 5 <= y' <= YMAX ->
  rata y m d = rata y' m' d' -> y = y' /\ m = m' /\ d = d'.
Proof.
  intros V V' Y Y' E. pose proof (civilOf_rata _ _ _ Y V) as C. pose proof (civilOf_rata _ _ _ Y' V') as C'.
  rewrite E in C. rewrite C in C'. injection C'. auto.
Qed.

Lemma same_block_num k y m d y' m' d' : valid_date y m d -> valid_date y' m' d' -> 200 <= y <= 4999899 -> 200 <= y' <= 4999899 ->
  same_block k y m d y' m' d' <-> bnum k y m d = bnum k y' m' d'.
Proof.
  intros V V' Y Y'. pose proof V as [M _]. pose proof V' as [M' _].
  destruct k; cbn [same_block bnum]; try lia.
  split; [intros (-> & -> & ->); reflexivity|]. apply rata_inj; auto; unfold YMAX; lia.
Qed.

(** ** Statements.  Dates are civil dates of years 200 .. 4,999,899; their day numbers are those of C01. *)

(** the start of the block of a date is the first day of that block, for irregular and regular series *)
Theorem C33_block_start : forall k y m d j, valid_date y m d -> 200 <= y <= 4999899 ->
  yearMonthDayToJulian y m d = Ok j ->
  ztsIrregGetBlockStart j (block_code k) = (let '(y1, m1, d1) := block_first k y m d in yearMonthDayToJulian y1 m1 d1).
Proof.
  intros k y m d j V Y E. pose proof (valid_d31 _ _ _ V). rewrite ymd_rata in E by (unfold YMAX; try apply V; lia). injection E as <-.
  rewrite getStart by auto. pose proof V as [M _].
  destruct k; cbn [block_first bstart bnum]; rewrite ymd_rata by (unfold YMAX; lia); try reflexivity.
  f_equal. f_equal; lia.
Qed.
Print Assumptions C33_block_start.

Theorem C33_regular_block : forall i y m d j, valid_date y m d -> 200 <= y <= 4999899 ->
  yearMonthDayToJulian y m d = Ok j ->
  exists s, ztsRegGetBlockStart j i = Ok (s, block_code (block_for_interval i)) /\
            ztsIrregGetBlockStart j (block_code (block_for_interval i)) = Ok s.
Proof.
  intros i y m d j V Y E. pose proof (valid_d31 _ _ _ V). rewrite ymd_rata in E by (unfold YMAX; try apply V; lia). injection E as <-.
  rewrite getStart_reg, getStart by auto. eauto.
Qed.
Print Assumptions C33_regular_block.

(** each date lies in its block, before the next one; the days of the block are exactly the dates of the same
    day, month, year, decade or century; all of them have the same block start *)
Theorem C33_partition : forall k y m d j, valid_date y m d -> 200 <= y <= 4999899 ->
  yearMonthDayToJulian y m d = Ok j ->
  exists s nx, ztsIrregGetBlockStart j (block_code k) = Ok s /\ ztsIncrementBlock s (block_code k) = Ok nx /\
    s <= j < nx /\
    forall y' m' d' j', valid_date y' m' d' -> 200 <= y' <= 4999899 -> yearMonthDayToJulian y' m' d' = Ok j' ->
      (s <= j' < nx <-> same_block k y m d y' m' d') /\
      (ztsIrregGetBlockStart j' (block_code k) = Ok s <-> same_block k y m d y' m' d').
Proof.
  intros k y m d j V Y E. pose proof (valid_d31 _ _ _ V). rewrite ymd_rata in E by (unfold YMAX; try apply V; lia). injection E as <-.
  pose proof (bnum_range k y m d V Y) as (R0 & R1 & _).
  exists (bstart k (bnum k y m d)), (bstart k (bnum k y m d + 1)).
  split; [apply getStart; auto|]. split; [apply incr_fwd; auto|]. split; [apply within; auto|].
  intros y' m' d' j' V' Y' E'. pose proof (valid_d31 _ _ _ V'). rewrite ymd_rata in E' by (unfold YMAX; try apply V'; lia). injection E' as <-.
  pose proof (bnum_range k y' m' d' V' Y') as (R0' & R1' & _). pose proof (within k y' m' d' V' Y') as W'.
  rewrite same_block_num by auto. rewrite getStart by auto.
  assert (T : bnum k y m d < bnum k y' m' d' \/ bnum k y m d = bnum k y' m' d' \/ bnum k y' m' d' < bnum k y m d) by lia.
  destruct T as [T|[T|T]].
  - assert (bstart k (bnum k y m d + 1) <= bstart k (bnum k y' m' d')) by (apply bstart_mono'; auto; lia).
    pose proof (bstart_next k _ R0). split; [lia|]. split; [|lia]. intros Q. injection Q as Q. lia.
  - rewrite <- T in *. split; [lia|]. split; auto.
  - assert (bstart k (bnum k y' m' d' + 1) <= bstart k (bnum k y m d)) by (apply bstart_mono'; auto; lia).
    pose proof (bstart_next k _ R0'). split; [lia|]. split; [|lia]. intros Q. injection Q as Q. lia.
Qed.
Print Assumptions C33_partition.

(** n block steps in the direction of the sign of [code] *)
Fixpoint block_steps (n : nat) (s code : Z) : res Z :=
  match n with O => Ok s | S n' => let* s' := ztsIncrementBlock s code in block_steps n' s' code end.

Lemma steps_fwd k n b : brange k b -> brange k (b + Z.of_nat n) ->
  block_steps n (bstart k b) (block_code k) = Ok (bstart k (b + Z.of_nat n)).
Proof.
  revert b. induction n as [|n IH]; intros b Hb Hn.
  - cbn [block_steps]. f_equal. f_equal. lia.
  - cbn [block_steps]. assert (brange k (b + 1)) by (apply (brange_mid k b _ (b + Z.of_nat (S n))); auto; lia).
    rewrite incr_fwd by auto. cbn [bind]. replace (b + Z.of_nat (S n)) with (b + 1 + Z.of_nat n) in * by lia. apply IH; auto.
Qed.
Lemma steps_bwd k n b : brange k b -> brange k (b - Z.of_nat n) ->
  block_steps n (bstart k b) (- block_code k) = Ok (bstart k (b - Z.of_nat n)).
Proof.
  revert b. induction n as [|n IH]; intros b Hb Hn.
  - cbn [block_steps]. f_equal. f_equal. lia.
  - cbn [block_steps]. assert (brange k (b - 1)) by (apply (brange_mid k (b - Z.of_nat (S n)) _ b); auto; lia).
    rewrite incr_bwd by auto. cbn [bind]. replace (b - Z.of_nat (S n)) with (b - 1 - Z.of_nat n) in * by lia. apply IH; auto.
Qed.

Lemma brange_up k y m d n : valid_date y m d -> 200 <= y -> y + 100 * (Z.of_nat n + 1) <= 4999899 ->
  brange k (bnum k y m d + Z.of_nat n).
Proof.
  intros V Y N. pose proof V as [M D]. pose proof (month_length_bound y m).
  destruct k; cbn [bnum brange]; try lia.
  pose proof (bnum_range DayBlock y m d V ltac:(lia)) as [B _]. cbn [bnum brange] in B.
  pose proof (rata_in_year y m d ltac:(lia) V) as HI. rewrite (rata_jan (y + 1)) in HI.
  pose proof (leapsBefore_bound (y + 1) ltac:(unfold YMAX; lia)) as LB. lia.
Qed.
Lemma brange_down k y m d n : valid_date y m d -> y <= 4999899 -> 200 + 100 * Z.of_nat n <= y ->
  brange k (bnum k y m d - Z.of_nat n).
Proof.
  intros V Y N. pose proof V as [M D]. pose proof (month_length_bound y m).
  destruct k; cbn [bnum brange]; try lia.
  pose proof (bnum_range DayBlock y m d V ltac:(lia)) as [B _]. cbn [bnum brange] in B.
  pose proof (rata_in_year y m d ltac:(lia) V) as HI. rewrite (rata_jan y) in HI.
  pose proof (leapsBefore_bound y ltac:(unfold YMAX; lia)) as LB. lia.
Qed.

(** stepping any number of blocks forward and the same number back (or back and then forward) returns to the
    same block; the starts visited are strictly increasing and each is the start of its own block *)
Theorem C33_step_and_back : forall k y m d j n, valid_date y m d -> 200 <= y -> y + 100 * (Z.of_nat n + 1) <= 4999899 ->
  yearMonthDayToJulian y m d = Ok j ->
  exists s x, ztsIrregGetBlockStart j (block_code k) = Ok s /\ block_steps n s (block_code k) = Ok x /\
    block_steps n x (- block_code k) = Ok s /\ s + Z.of_nat n <= x.
Proof.
  intros k y m d j n V Y N E. pose proof (valid_d31 _ _ _ V). rewrite ymd_rata in E by (unfold YMAX; try apply V; lia). injection E as <-.
  pose proof (brange_up k y m d n V Y N) as RN. pose proof (bnum_range k y m d V ltac:(lia)) as (R0 & _).
  exists (bstart k (bnum k y m d)), (bstart k (bnum k y m d + Z.of_nat n)).
  split; [apply getStart; auto; lia|]. split; [apply steps_fwd; auto|]. split.
  - rewrite steps_bwd; auto; [f_equal; f_equal; lia|]. replace (bnum k y m d + Z.of_nat n - Z.of_nat n) with (bnum k y m d) by lia. auto.
  - clear N. revert RN. generalize (bnum k y m d) R0. clear. intros b R0. induction n as [|n IH]; intros RN.
    + replace (b + Z.of_nat 0) with b by lia. lia.
    + assert (R1 : brange k (b + Z.of_nat n)) by (apply (brange_mid k b _ (b + Z.of_nat (S n))); auto; lia).
      specialize (IH R1). pose proof (bstart_next k _ R1).
      replace (b + Z.of_nat (S n)) with (b + Z.of_nat n + 1) by lia. lia.
Qed.
Print Assumptions C33_step_and_back.

Theorem C33_back_and_forth : forall k y m d j n, valid_date y m d -> y <= 4999899 -> 200 + 100 * Z.of_nat n <= y ->
  yearMonthDayToJulian y m d = Ok j ->
  exists s x, ztsIrregGetBlockStart j (block_code k) = Ok s /\ block_steps n s (- block_code k) = Ok x /\
    block_steps n x (block_code k) = Ok s.
Proof.
  intros k y m d j n V Y N E. pose proof (valid_d31 _ _ _ V). rewrite ymd_rata in E by (unfold YMAX; try apply V; lia). injection E as <-.
  pose proof (brange_down k y m d n V Y N) as RN. pose proof (bnum_range k y m d V ltac:(lia)) as (R0 & _).
  exists (bstart k (bnum k y m d)), (bstart k (bnum k y m d - Z.of_nat n)).
  split; [apply getStart; auto; lia|]. split; [apply steps_bwd; auto|].
  rewrite steps_fwd; auto; [f_equal; f_equal; lia|]. replace (bnum k y m d - Z.of_nat n + Z.of_nat n) with (bnum k y m d) by lia. auto.
Qed.
Print Assumptions C33_back_and_forth.

(** any two dates are joined by block steps: stepping from the block of the earlier reaches the block of the later *)
Theorem C33_reach : forall k y m d j y' m' d' j', valid_date y m d -> valid_date y' m' d' ->
  200 <= y <= 4999899 -> 200 <= y' <= 4999899 ->
  yearMonthDayToJulian y m d = Ok j -> yearMonthDayToJulian y' m' d' = Ok j' -> j <= j' ->
  exists n s s', ztsIrregGetBlockStart j (block_code k) = Ok s /\ ztsIrregGetBlockStart j' (block_code k) = Ok s' /\
    block_steps n s (block_code k) = Ok s' /\ block_steps n s' (- block_code k) = Ok s.
Proof.
  intros k y m d j y' m' d' j' V V' Y Y' E E' L.
  pose proof (valid_d31 _ _ _ V). rewrite ymd_rata in E by (unfold YMAX; try apply V; lia). injection E as <-.
  pose proof (valid_d31 _ _ _ V'). rewrite ymd_rata in E' by (unfold YMAX; try apply V'; lia). injection E' as <-.
  pose proof (bnum_range k y m d V Y) as (R0 & R1 & _). pose proof (bnum_range k y' m' d' V' Y') as (R0' & R1' & _).
  pose proof (within k y m d V Y) as W. pose proof (within k y' m' d' V' Y') as W'.
  assert (LB : bnum k y m d <= bnum k y' m' d').
  { destruct (Z_le_gt_dec (bnum k y m d) (bnum k y' m' d')) as [|G]; [auto|].
    assert (bstart k (bnum k y' m' d' + 1) <= bstart k (bnum k y m d)) by (apply bstart_mono'; auto; lia). lia. }
  exists (Z.to_nat (bnum k y' m' d' - bnum k y m d)), (bstart k (bnum k y m d)), (bstart k (bnum k y' m' d')).
  split; [apply getStart; auto|]. split; [apply getStart; auto|].
  set (n := Z.to_nat _). assert (Hn : Z.of_nat n = bnum k y' m' d' - bnum k y m d) by (unfold n; lia).
  split.
  - rewrite steps_fwd; auto; [f_equal; f_equal; lia|]. rewrite Hn. replace (bnum k y m d + _) with (bnum k y' m' d') by lia. auto.
  - rewrite steps_bwd; auto; [f_equal; f_equal; lia|]. rewrite Hn. replace (bnum k y' m' d' - _) with (bnum k y m d) by lia. auto.
Qed.
Print Assumptions C33_reach.

(** a leap-year February: the monthly block of 29 Feb 2000 *)
Example C33_example : exists j, yearMonthDayToJulian 2000 2 29 = Ok j /\ ztsIrregGetBlockStart j 2 = Ok (j - 28) /\
  ztsIncrementBlock (j - 28) 2 = Ok (j + 1) /\ ztsIncrementBlock (j + 1) (-2) = Ok (j - 28) /\
  ztsRegGetBlockStart j 3600 = Ok (j - 28, 2).
Proof. eexists. split; [vm_compute; reflexivity|]. repeat split; vm_compute; reflexivity. Qed.

(** before year 0 the decade and century blocks round towards year 0: the block start lies after the date *)
Theorem C33_refuted_before_year_0 : exists j s, yearMonthDayToJulian (-5) 6 15 = Ok j /\
  ztsIrregGetBlockStart j 4 = Ok s /\ j < s.
Proof. do 2 eexists. split; [vm_compute; reflexivity|]. split; vm_compute; reflexivity. Qed.
Print Assumptions C33_refuted_before_year_0.
