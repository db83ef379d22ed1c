(** * Property theorems C01-C10: dates and times.
    Statements use only the model functions (named as in the C API) and [DateSpec]. *)
From Coq Require Import ZArith List Bool Lia.
From Coq Require Import Floats.SpecFloat.
From Verif Require Import Base DateModel DateSpec DateProofs DateProofs2 DateProofs3.
Import ListNotations.
Open Scope Z_scope.
Open Scope res_scope.

(** ** C01: civil date -> day number -> civil date is the identity, years 5 .. 5,000,000
    (the conversions do not overflow there).  Years 1..4 are covered by [C01_first_years] below. *)
Theorem C01_civil_round_trip : forall y m d,
  5 <= y <= 5000000 -> valid_date y m d ->
  exists j, yearMonthDayToJulian y m d = Ok j /\ julianToYearMonthDay j = Ok (Some (y, m, d)).
Proof.
  intros y m d Hy Hv. exists (rata y m d). split.
  - apply ymd_rata; [unfold YMAX; lia|apply Hv|]. pose proof (valid_d31 _ _ _ Hv). lia.
  - apply j2ymd_rata; [unfold YMAX; lia|assumption].
Qed.
Print Assumptions C01_civil_round_trip.

(** all valid days of years 1..4, by a sweep over the 1461 days *)
Definition roundTrips (y m d : Z) : bool :=
  match yearMonthDayToJulian y m d with
  | Ok j => match julianToYearMonthDay j with
            | Ok (Some (y', m', d')) => (y' =? y) && (m' =? m) && (d' =? d)
            | _ => false end
  | Undef => false end.
Definition zrange (a : Z) (n : nat) : list Z := map (fun k => a + Z.of_nat k) (seq 0 n).
Lemma in_zrange a n x : a <= x < a + Z.of_nat n -> In x (zrange a n).
Proof.
  intros H. unfold zrange. apply in_map_iff. exists (Z.to_nat (x - a)). split; [lia|].
  apply in_seq. lia.
Qed.
Lemma sweep3 (f : Z -> Z -> Z -> bool) ny nm nd :
  forallb (fun y => forallb (fun m => forallb (f y m) (zrange 1 nd)) (zrange 1 nm)) (zrange 1 ny) = true ->
  forall y m d, 1 <= y < 1 + Z.of_nat ny -> 1 <= m < 1 + Z.of_nat nm -> 1 <= d < 1 + Z.of_nat nd -> f y m d = true.
Proof.
  intros S y m d Hy Hm Hd.
  rewrite forallb_forall in S. specialize (S y (in_zrange 1 ny y Hy)).
  rewrite forallb_forall in S. specialize (S m (in_zrange 1 nm m Hm)).
  rewrite forallb_forall in S. exact (S d (in_zrange 1 nd d Hd)).
Qed.
Definition check14 (y m d : Z) : bool :=
  negb (d <=? month_length y m) || ((y =? 4) && (m =? 12) && (d =? 31)) || roundTrips y m d.
Lemma sweep14_ok : forallb (fun y => forallb (fun m => forallb (check14 y m) (zrange 1 31)) (zrange 1 12)) (zrange 1 4) = true.
Proof. vm_compute. reflexivity. Qed.

Theorem C01_first_years : forall y m d,
  1 <= y <= 4 -> valid_date y m d -> (y, m, d) <> (4, 12, 31) ->
  exists j, yearMonthDayToJulian y m d = Ok j /\ julianToYearMonthDay j = Ok (Some (y, m, d)).
Proof.
  intros y m d Hy Hv Hne. pose proof (valid_d31 _ _ _ Hv) as Hd. destruct Hv as [Hm Hl].
  pose proof (sweep3 check14 4 12 31 sweep14_ok y m d ltac:(lia) ltac:(lia) ltac:(lia)) as S.
  unfold check14 in S.
  apply orb_true_iff in S. destruct S as [S|S].
  - apply orb_true_iff in S. destruct S as [S|S].
    + apply negb_true_iff, Z.leb_gt in S. lia.
    + apply andb_true_iff in S. destruct S as [S S3]. apply andb_true_iff in S. destruct S as [S1 S2].
      apply Z.eqb_eq in S1, S2, S3. subst. congruence.
  - unfold roundTrips in S. destruct (yearMonthDayToJulian y m d) as [j|]; [|discriminate].
    exists j. split; [reflexivity|].
    destruct (julianToYearMonthDay j) as [[[[y' m'] d']|]|]; try discriminate.
    apply andb_true_iff in S. destruct S as [S S3]. apply andb_true_iff in S. destruct S as [S1 S2].
    apply Z.eqb_eq in S1, S2, S3. subst. reflexivity.
Qed.
Print Assumptions C01_first_years.

(** The claim for every positive year is false of the code: 31 Dec of year 4 does not come back. *)
Theorem C01_refuted_year4 :
  valid_date 4 12 31 /\
  exists j, yearMonthDayToJulian 4 12 31 = Ok j /\ julianToYearMonthDay j = Ok (Some (5, 1, 1)).
Proof.
  split; [split; [lia|vm_compute; split; discriminate]|].
  eexists. split; [vm_compute; reflexivity|]. vm_compute; reflexivity.
Qed.
Print Assumptions C01_refuted_year4.

Example C01_example : valid_date 2024 2 29 /\ yearMonthDayToJulian 2024 2 29 = Ok 45350
  /\ julianToYearMonthDay 45350 = Ok (Some (2024, 2, 29)).
Proof. split; [split; [lia|vm_compute; split; discriminate]|]. split; vm_compute; reflexivity. Qed.

(** the double constant of the year estimate, cross-checked with the IEEE semantics of Coq's SpecFloat:
    365.2425 is the quotient 3652425/10000 rounded to binary64 *)
Example K365_is_double : SFdiv 53 1024 (S754_finite false 3652425 0) (S754_finite false 10000 0)
  = S754_finite false (Z.to_pos K365) (-44).
Proof. vm_compute. reflexivity. Qed.

(** ** C02: day numbers are the Gregorian calendar. *)
Theorem C02_gregorian : forall y m d, 5 <= y <= 5000000 -> valid_date y m d ->
  exists j, yearMonthDayToJulian y m d = Ok j /\
    let '(y', m', d') := next_day (y, m, d) in yearMonthDayToJulian y' m' d' = Ok (j + 1).
Proof.
  intros y m d Hy Hv. exists (rata y m d). pose proof (valid_d31 _ _ _ Hv) as Hd. pose proof Hv as [Hm _].
  split; [apply ymd_rata; unfold YMAX; lia|].
  pose proof (rata_next y m d ltac:(lia) Hv) as H.
  unfold next_day in *.
  destruct (d <? month_length y m); [|destruct (m <? 12) eqn:E; [apply Z.ltb_lt in E|]]; rewrite <- H; apply ymd_rata; unfold YMAX; lia.
Qed.
Print Assumptions C02_gregorian.

Theorem C02_epoch : yearMonthDayToJulian 1900 1 1 = Ok 1.
Proof. reflexivity. Qed.
Print Assumptions C02_epoch.

Lemma next_day_valid y m d : valid_date y m d -> let '(y', m', d') := next_day (y, m, d) in valid_date y' m' d' /\ (y' = y \/ y' = y + 1).
Proof.
  intros [Hm Hd]. unfold next_day, valid_date.
  destruct (d <? month_length y m) eqn:E; [apply Z.ltb_lt in E; lia|].
  destruct (m <? 12) eqn:E2.
  - apply Z.ltb_lt in E2. pose proof (month_length_bound y (m + 1)). lia.
  - change (month_length (y + 1) 1) with 31. lia.
Qed.

(** The number of days between two dates is the difference of the day numbers. *)
Theorem C02_elapsed_days : forall n y m d, 5 <= y -> y + Z.of_nat n <= 5000000 -> valid_date y m d ->
  let '(y', m', d') := days_later n (y, m, d) in
  exists j, yearMonthDayToJulian y m d = Ok j /\ yearMonthDayToJulian y' m' d' = Ok (j + Z.of_nat n).
Proof.
  induction n as [|n IH]; intros y m d Hy Hn Hv.
  - cbn [days_later]. exists (rata y m d). rewrite Z.add_0_r.
    pose proof (valid_d31 _ _ _ Hv). destruct Hv as [Hm _]. split; apply ymd_rata; unfold YMAX; lia.
  - cbn [days_later]. pose proof (C02_gregorian y m d ltac:(lia) Hv) as (j & E1 & E2).
    pose proof (next_day_valid y m d Hv) as NV.
    destruct (next_day (y, m, d)) as [[y1 m1] d1]. destruct NV as [NV NY].
    specialize (IH y1 m1 d1 ltac:(lia) ltac:(lia) NV).
    destruct (days_later n (y1, m1, d1)) as [[y' m'] d'].
    destruct IH as (j1 & F1 & F2). rewrite E2 in F1. inversion F1; subst j1.
    exists j. split; [assumption|]. rewrite F2. f_equal. lia.
Qed.
Print Assumptions C02_elapsed_days.

Theorem C02_refuted_year4 : yearMonthDayToJulian 4 12 31 = yearMonthDayToJulian 5 1 1
  /\ next_day (4, 12, 31) = (5, 1, 1).
Proof. split; vm_compute; reflexivity. Qed.
Print Assumptions C02_refuted_year4.

Example C02_example : days_later 60 (2023, 12, 31) = (2024, 2, 29)
  /\ yearMonthDayToJulian 2023 12 31 = Ok 45290.
Proof. split; vm_compute; reflexivity. Qed.

(** ** C03: months outside 1..12 are carried into the year. *)
Theorem C03_month_carry : forall y m d, in32 y -> in32 m ->
  let '(y', m') := month_shift y 1 (m - 1) in
  1 <= y' <= 5000000 -> -100000000 <= d <= 100000000 ->
  1 <= m' <= 12 /\ exists j, yearMonthDayToJulian y m d = Ok j /\ yearMonthDayToJulian y' m' d = Ok j.
Proof.
  intros y m d Hy Hm. pose proof (ymd_shift y m d Hy Hm) as H.
  unfold month_shift in *. intros Hy' Hd.
  assert (HM : 1 <= (1 - 1 + (m - 1)) mod 12 + 1 <= 12) by (pose proof (Z.mod_pos_bound (1 - 1 + (m - 1)) 12); lia).
  split; [assumption|]. eexists. split; [apply H; unfold YMAX; lia|].
  apply ymd_rata; unfold YMAX; try lia.
Qed.
Print Assumptions C03_month_carry.
Example C03_example : month_shift 2000 1 (-13 - 1) = (1998, 11) /\ yearMonthDayToJulian 2000 (-13) 7 = yearMonthDayToJulian 1998 11 7.
Proof. split; vm_compute; reflexivity. Qed.

(** ** C04: normalisation.  A granularity below 1 means minutes (as the code documents).
    The pair (0,0) is, in this API, a second spelling of "undefined"; see [C04_undefined]. *)
Definition gran_seconds (g : Z) : Z := if g <? 1 then 60 else g.

Theorem C04_normalise : forall j t g,
  g <= 86400 -> 86400 mod gran_seconds g = 0 ->
  j <> UNDEFINED_TIME -> ~ (j = 0 /\ t = 0) -> in32 t ->
  INT_MIN + 2200000000 / (86400 / gran_seconds g) <= j <= INT_MAX - 2200000000 / (86400 / gran_seconds g) ->
  exists j' t', cleanTime j t g = Ok (1, j', t') /\
    instant j' (t' * gran_seconds g) = instant j (t * gran_seconds g) /\
    0 < t' * gran_seconds g <= 86400 /\
    (j' <> UNDEFINED_TIME -> cleanTime j' t' g = Ok (1, j', t')).
Proof.
  intros j t g Hg Hd Hu H0 Ht Hj.
  destruct (cleanTime_spec j t g Hg Hu H0 Ht Hj) as (j' & t' & E & H1 & H2).
  change (unitsPerDay g) with (86400 / gran_seconds g) in *.
  assert (HG : 1 <= gran_seconds g) by (unfold gran_seconds; destruct (g <? 1) eqn:EE; [lia|apply Z.ltb_ge in EE; lia]).
  assert (HQ : 86400 = gran_seconds g * (86400 / gran_seconds g)) by (pose proof (Z.div_mod 86400 (gran_seconds g) ltac:(lia)); lia).
  pose proof (cleanTime_fix j' t' g Hg) as CF. change (unitsPerDay g) with (86400 / gran_seconds g) in CF.
  set (G := gran_seconds g) in *. set (q := 86400 / G) in *. clearbody G q.
  exists j', t'. split; [assumption|]. split.
  - unfold instant. rewrite HQ. replace (j' * (G * q) + t' * G) with ((j' * q + t') * G) by ring.
    rewrite H1. ring.
  - split.
    + split; [apply Z.mul_pos_pos; lia|]. rewrite HQ, (Z.mul_comm G q). apply Z.mul_le_mono_nonneg_r; lia.
    + intros HU. apply CF; assumption.
Qed.
Print Assumptions C04_normalise.

Theorem C04_undefined : forall t g,
  cleanTime UNDEFINED_TIME t g = Ok (0, UNDEFINED_TIME, t) /\ cleanTime 0 0 g = Ok (0, UNDEFINED_TIME, -1).
Proof. intros t g. split; reflexivity. Qed.
Print Assumptions C04_undefined.

(** The unrestricted claim is false: (day 0, 0 minutes) is the instant 24:00 of day -1, which is a
    perfectly representable time, but it is turned into "undefined". *)
Theorem C04_refuted_zero : instant 0 0 = instant (-1) (1440 * 60) /\
  cleanTime 0 0 60 = Ok (0, UNDEFINED_TIME, -1) /\ cleanTime (-1) 1440 60 = Ok (1, -1, 1440).
Proof. split; [reflexivity|]. split; reflexivity. Qed.
Print Assumptions C04_refuted_zero.

Example C04_example : cleanTime 36524 (-2881) 60 = Ok (1, 36521, 1439).
Proof. reflexivity. Qed.

(** ** C05: short increments are exact. *)
Theorem C05_short_increment : forall i n j s,
  1 <= i < 864000 -> in32 n -> -2000000000 <= s <= 2000000000 -> -1000000000 <= j <= 1000000000 ->
  - 86400000000000 <= i * n <= 86400000000000 ->
  ~ (j = 0 /\ s + i * n = 0) ->
  exists j' s', incrementTime i n j s = Ok (0, j', s') /\
    instant j' s' = instant j s + n * i /\ 0 < s' <= 86400.
Proof. intros. apply incrementTimeF_short; auto; lia. Qed.
Print Assumptions C05_short_increment.

(** Increments compose; in particular +n then -n returns to the (normalised) start. *)
Theorem C05_compose : forall i n m j s,
  1 <= i < 864000 -> in32 n -> in32 m -> in32 (n + m) -> 0 < s <= 86400 -> -1000000 <= j <= 1000000 ->
  - 86400000000 <= i * n <= 86400000000 -> - 86400000000 <= i * m <= 86400000000 ->
  j <> 0 -> (forall j1 s1, incrementTime i n j s = Ok (0, j1, s1) -> j1 <> 0) ->
  exists j1 s1, incrementTime i n j s = Ok (0, j1, s1) /\
    incrementTime i m j1 s1 = incrementTime i (n + m) j s.
Proof.
  intros i n m j s Hi Hn Hm Hnm Hs Hj P1 P2 Z0 Z1.
  destruct (C05_short_increment i n j s) as (j1 & s1 & E1 & I1 & B1); auto; try lia.
  exists j1, s1. split; [assumption|].
  pose proof (Z1 _ _ E1) as NZ. unfold instant in I1.
  destruct (C05_short_increment i m j1 s1) as (j2 & s2 & E2 & I2 & B2); auto; try lia.
  destruct (C05_short_increment i (n + m) j s) as (j3 & s3 & E3 & I3 & B3); auto; try lia.
  rewrite E2, E3. unfold instant in *. replace (i * n) with (n * i) in * by ring.
  replace ((n + m) * i) with (n * i + m * i) in I3 by ring.
  destruct (instant_inj j2 s2 j3 s3 B2 B3) as [-> ->]; [unfold instant; lia|reflexivity].
Qed.
Print Assumptions C05_compose.

Theorem C05_zero_periods_identity : forall i j s,
  1 <= i < 864000 -> 0 < s <= 86400 -> -1000000 <= j <= 1000000 ->
  incrementTime i 0 j s = Ok (0, j, s).
Proof.
  intros i j s Hi Hs Hj. destruct (C05_short_increment i 0 j s) as (j1 & s1 & E1 & I1 & B1);
    try lia; [unfold in32, INT_MIN, INT_MAX; lia|].
  rewrite E1. destruct (instant_inj j1 s1 j s B1 Hs) as [-> ->]; [lia|reflexivity].
Qed.
Print Assumptions C05_zero_periods_identity.

(** The unrestricted claim is false: stepping one hour back from 01:00 on 31 Dec 1899 gives "undefined". *)
Theorem C05_refuted_zero : incrementTime 3600 (-1) 0 3600 = Ok (0, UNDEFINED_TIME, -1).
Proof. reflexivity. Qed.
Print Assumptions C05_refuted_zero.
Example C05_example : incrementTime 900 (-1000) 36524 3600 = Ok (0, 36513, 54000).
Proof. vm_compute. reflexivity. Qed.

(** ** C06: calendar increments step whole periods. *)
Definition last_day_number (k : calendar_kind) (p : Z) : res Z :=
  let '(y, m, d) := period_end k p in yearMonthDayToJulian y m d.

Lemma last_day_endDay k p : 5 <= p / periods_per_year k <= 5000000 -> last_day_number k p = Ok (endDay k p).
Proof.
  intros H. unfold last_day_number, endDay. pose proof (period_end_valid k p) as V.
  destruct (period_end k p) as [[y m] d]. destruct V as (V & E & _).
  unfold yearOfPeriod in E. pose proof (valid_d31 _ _ _ V). destruct V as [V _].
  apply ymd_rata; unfold YMAX; lia.
Qed.

Theorem C06_calendar_increment : forall k p n j,
  6 <= p / periods_per_year k <= 4999999 -> 6 <= (p + n) / periods_per_year k <= 4999999 ->
  last_day_number k p = Ok j ->
  exists j', incrementTime (nominal_seconds k) n j 86400 = Ok (0, j', 86400) /\ last_day_number k (p + n) = Ok j'.
Proof.
  intros k p n j H1 H2 E. rewrite last_day_endDay in E by lia. inversion E; subst j.
  exists (endDay k (p + n)). split; [|apply last_day_endDay; lia].
  apply incrementTimeF_cal; unfold yearOfPeriod, YMAX; lia.
Qed.
Print Assumptions C06_calendar_increment.

(** increments compose *)
Theorem C06_compose : forall k p n m j j1,
  6 <= p / periods_per_year k <= 4999999 -> 6 <= (p + n) / periods_per_year k <= 4999999 ->
  6 <= (p + n + m) / periods_per_year k <= 4999999 ->
  last_day_number k p = Ok j -> incrementTime (nominal_seconds k) n j 86400 = Ok (0, j1, 86400) ->
  incrementTime (nominal_seconds k) m j1 86400 = incrementTime (nominal_seconds k) (n + m) j 86400.
Proof.
  intros k p n m j j1 H1 H2 H3 E F.
  destruct (C06_calendar_increment k p n j H1 H2 E) as (j1' & F1 & L1). rewrite F in F1. inversion F1; subst j1'.
  destruct (C06_calendar_increment k (p + n) m j1 H2 H3 L1) as (j2 & F2 & L2).
  destruct (C06_calendar_increment k p (n + m) j H1) as (j3 & F3 & L3); auto; [rewrite Z.add_assoc; assumption|].
  rewrite Z.add_assoc in L3. rewrite L2 in L3. inversion L3; subst. congruence.
Qed.
Print Assumptions C06_compose.

(** period 12*2023+10 is November 2023; three months later is February 2024 *)
Example C06_example : last_day_number Month (12 * 2023 + 10) = Ok 45259 /\
  incrementTime 2592000 3 45259 86400 = Ok (0, 45350, 86400) /\ julianToYearMonthDay 45350 = Ok (Some (2024, 2, 29)).
Proof. repeat split; vm_compute; reflexivity. Qed.

(** ** C07: comparison. *)
Theorem C07_compare_is_order_of_instants : forall j1 t1 b1 g1 j2 t2 b2 g2,
  1 <= g1 <= 86400 -> 86400 mod g1 = 0 -> 1 <= g2 <= 86400 -> 86400 mod g2 = 0 ->
  in32 t1 -> in32 t2 ->
  -1000000000 <= j1 <= 1000000000 -> -1000000000 <= j2 <= 1000000000 ->
  -1000000000 <= b1 <= 1000000000 -> -1000000000 <= b2 <= 1000000000 ->
  INT_MIN + 2200000000 / (86400 / g1) <= j1 + b1 <= INT_MAX - 2200000000 / (86400 / g1) ->
  INT_MIN + 2200000000 / (86400 / g2) <= j2 + b2 <= INT_MAX - 2200000000 / (86400 / g2) ->
  ~ (j1 + b1 = 0 /\ t1 = 0) -> ~ (j2 + b2 = 0 /\ t2 = 0) ->
  compareTimes j1 t1 b1 g1 j2 t2 b2 g2 =
    Ok (Z.sgn (instant (j1 + b1) (t1 * g1) - instant (j2 + b2) (t2 * g2))).
Proof.
  intros. rewrite compareTimes_spec by assumption. f_equal.
  destruct (Z.compare_spec (instant (j1 + b1) (t1 * g1)) (instant (j2 + b2) (t2 * g2))).
  - symmetry. apply Z.sgn_null. lia.
  - symmetry. apply Z.sgn_neg. lia.
  - symmetry. apply Z.sgn_pos. lia.
Qed.
Print Assumptions C07_compare_is_order_of_instants.

(** (0,0) sorts before everything although it is a day later than (-1, 0). *)
Theorem C07_refuted_zero : compareTimes 0 0 0 60 (-1) 0 0 60 = Ok (-1) /\ instant 0 0 > instant (-1) 0.
Proof. split; [vm_compute; reflexivity|unfold instant; lia]. Qed.
Print Assumptions C07_refuted_zero.
(** granularity 0 normalises as minutes but is compared as if it were seconds *)
Theorem C07_refuted_granularity0 : compareTimes 100 600 0 0 100 600 0 60 = Ok (-1).
Proof. vm_compute. reflexivity. Qed.
Print Assumptions C07_refuted_granularity0.
Example C07_example : compareTimes 100 600 0 60 99 (36000 + 86400) 0 1 = Ok 0 /\ 86400 mod 60 = 0.
Proof. split; vm_compute; reflexivity. Qed.

(** ** C08: counting periods inverts incrementing. *)
Theorem C08_count_short : forall i n j s j' s',
  1 <= i < 864000 -> in32 n -> 0 < s <= 86400 -> -1000000 <= j <= 1000000 -> j <> 0 ->
  - 86400000000 <= i * n <= 86400000000 ->
  incrementTime i n j s = Ok (0, j', s') -> numberPeriods i j s j' s' = Ok n.
Proof.
  intros i n j s j' s' Hi Hn Hs Hj NZ P E.
  destruct (C05_short_increment i n j s) as (j1 & s1 & E1 & I1 & B1); auto; try lia.
  rewrite E in E1. inversion E1; subst j1 s1. unfold instant in I1.
  apply numberPeriods_short; auto; try lia; unfold instant; lia.
Qed.
Print Assumptions C08_count_short.

Theorem C08_count_calendar : forall k p n j j',
  6 <= p / periods_per_year k <= 4999999 -> 6 <= (p + n) / periods_per_year k <= 4999999 ->
  last_day_number k p = Ok j ->
  incrementTime (nominal_seconds k) n j 86400 = Ok (0, j', 86400) ->
  numberPeriods (nominal_seconds k) j 86400 j' 86400 = Ok n.
Proof.
  intros k p n j j' H1 H2 E F.
  destruct (C06_calendar_increment k p n j H1 H2 E) as (j1 & F1 & L1). rewrite F in F1. inversion F1; subst j1.
  rewrite last_day_endDay in E, L1 by lia. inversion E; inversion L1; subst.
  apply numberPeriods_cal; unfold yearOfPeriod, YMAX; lia.
Qed.
Print Assumptions C08_count_calendar.

(** For yearly data with an offset (period ends other than 31 Dec) the count is wrong: months are not divided
    by 12.  From 30 Jun 2000 to 31 Mar 2010 (9 whole years) the function answers 7. *)
Theorem C08_refuted_yearly_offset :
  exists j j', yearMonthDayToJulian 2000 6 30 = Ok j /\ yearMonthDayToJulian 2010 3 31 = Ok j' /\
    numberPeriods 31536000 j 86400 j' 86400 = Ok 7.
Proof. eexists _, _. split; [vm_compute; reflexivity|]. split; [vm_compute; reflexivity|]. vm_compute. reflexivity. Qed.
Print Assumptions C08_refuted_yearly_offset.
Example C08_example : last_day_number Year 2000 = Ok 36890 /\ incrementTime 31536000 (-7) 36890 86400 = Ok (0, 34333, 86400)
  /\ numberPeriods 31536000 36890 86400 34333 86400 = Ok (-7).
Proof. repeat split; vm_compute; reflexivity. Qed.

(** ** C09: standardising a time. *)
(** a weekly period ends at midnight starting a day whose number is a multiple of 7 *)
Theorem C09_standard_regular : forall i j s,
  (1 <= i <= 86400 /\ 86400 mod i = 0 /\ -1000000000 <= j <= 1000000000) \/ (i = 604800 /\ 0 <= j <= 1000000000) ->
  0 < s <= 86400 ->
  exists o j' s', ztsOffsetAdjustToStandard i j s = Ok (o, j', s') /\ 0 < s' <= 86400 /\
    instant j' s' mod i = 0 /\ instant j s <= instant j' s' < instant j s + i /\
    o = instant j s mod i /\ ztsOffset i j s = Ok o.
Proof.
  intros i j s [(H1 & H2 & H3)|(-> & H3)] Hs.
  - destruct (adjStd_day i j s H1 H2 H3 Hs) as (o & j' & s' & A & B & C & D & E & F).
    exists o, j', s'. repeat split; auto; lia.
  - destruct (adjStd_week j s H3 Hs) as (o & j' & s' & A & B & C & D & E & F).
    exists o, j', s'. repeat split; auto; lia.
Qed.
Print Assumptions C09_standard_regular.

Theorem C09_standard_calendar : forall k y m d s j, 5 <= y <= 5000000 -> valid_date y m d -> 0 < s <= 86400 ->
  yearMonthDayToJulian y m d = Ok j ->
  exists o j', ztsOffsetAdjustToStandard (nominal_seconds k) j s = Ok (o, j', 86400) /\
    last_day_number k (period_of k y m d) = Ok j' /\ j <= j' /\ 0 <= o.
Proof.
  intros k y m d s j Hy Hv Hs E. pose proof Hv as [Hm Hd]. pose proof (valid_d31 _ _ _ Hv) as D31.
  rewrite ymd_rata in E by (unfold YMAX; lia). inversion E; subst j.
  destruct (adjStd_cal k y m d s ltac:(unfold YMAX; lia) Hv Hs) as (o & A & B & _).
  exists o, (rata y (pmonth k m) (pday k y m d)). split; [assumption|].
  pose proof (pday_bounds k y m d Hv) as PV. pose proof (valid_d31 _ _ _ PV) as PD.
  split.
  - unfold last_day_number. rewrite period_end_of by assumption. apply ymd_rata; [unfold YMAX; lia|apply PV|lia].
  - split; [|lia].
    assert (G : forall m' d', 1 <= m' <= 12 -> m = m' -> d <= d' -> rata y m d <= rata y m' d').
    { intros m' d' _ <- Hle. replace d' with (d + (d' - d)) by lia. rewrite rata_d. lia. }
    destruct k; cbn [pmonth pday] in *.
    + apply G; auto. destruct (d <=? 10) eqn:E1; [apply Z.leb_le in E1; lia|]. destruct (d <=? 20) eqn:E2; [apply Z.leb_le in E2; lia|lia].
    + apply G; auto. destruct (d <=? 15) eqn:E1; [apply Z.leb_le in E1; lia|lia].
    + apply G; auto. lia.
    + pose proof (rata_in_year y m d ltac:(lia) Hv) as I. rewrite rata_year in I by lia.
      pose proof (rata_d y 12 1 30) as R. change (1 + 30) with 31 in R. lia.
Qed.
Print Assumptions C09_standard_calendar.

(** adjusting twice is adjusting once *)
Theorem C09_fixed_point_calendar : forall k p j, 5 <= p / periods_per_year k <= 4999999 ->
  last_day_number k p = Ok j -> ztsOffsetAdjustToStandard (nominal_seconds k) j 86400 = Ok (0, j, 86400).
Proof.
  intros k p j Hp E. rewrite last_day_endDay in E by lia. inversion E; subst j. unfold endDay.
  pose proof (period_end_valid k p) as V. destruct (period_end k p) as [[y m] d] eqn:P. destruct V as (V & Y & O).
  assert (Q : m = pmonth k m /\ d = pday k y m d).
  { pose proof (period_end_of k y m d (proj1 V)) as HH. rewrite O, P in HH.
    set (a := pmonth k m) in *. set (b := pday k y m d) in *. clearbody a b. inversion HH. auto. }
  destruct Q as [Q1 Q2]. unfold yearOfPeriod in Y.
  destruct (adjStd_cal k y m d 86400 ltac:(unfold YMAX; lia) V ltac:(lia)) as (o & A & _ & Z0 & _).
  rewrite (Z0 Q1 Q2) in A. rewrite <- Q1, <- Q2 in A. exact A.
Qed.
Print Assumptions C09_fixed_point_calendar.

(** For calendar intervals "the returned offset is the distance from the start of the period" is false:
    noon on 30 January has monthly offset 0, and so is treated as the end of the month. *)
Theorem C09_refuted_offset_near_end : exists j, yearMonthDayToJulian 2000 1 30 = Ok j /\ ztsOffset 2592000 j 43200 = Ok 0
  /\ ztsOffsetAdjustToStandard 2592000 j 43200 = Ok (0, j + 1, 86400).
Proof. eexists. split; [vm_compute; reflexivity|]. split; vm_compute; reflexivity. Qed.
Print Assumptions C09_refuted_offset_near_end.
(** before 1900 the weekly adjustment leaves mid-week times unchanged *)
Theorem C09_refuted_week_negative : ztsOffsetAdjustToStandard 604800 (-3) 43200 = Ok (-216000, -3, 43200).
Proof. vm_compute. reflexivity. Qed.
Print Assumptions C09_refuted_week_negative.
Example C09_example : ztsOffsetAdjustToStandard 3600 36524 3599 = Ok (3599, 36524, 3600).
Proof. vm_compute. reflexivity. Qed.

(** ** C10: day of week. *)
Theorem C10_day_of_week : forall j, 0 <= j ->
  1 <= dayOfWeek j <= 7 /\ dayOfWeek (j + 1) = (if dayOfWeek j =? 7 then 1 else dayOfWeek j + 1).
Proof.
  intros j H. unfold dayOfWeek. rewrite !Z.rem_mod_nonneg by lia.
  pose proof (Z.mod_pos_bound j 7 ltac:(lia)) as B. split; [lia|].
  destruct (j mod 7 + 1 =? 7) eqn:E; [apply Z.eqb_eq in E|apply Z.eqb_neq in E].
  - rewrite Z.add_mod by lia. replace (j mod 7) with 6 by lia. reflexivity.
  - rewrite Z.add_mod by lia. change (1 mod 7) with 1. rewrite (Z.mod_small (j mod 7 + 1)) by lia. lia.
Qed.
Print Assumptions C10_day_of_week.
(** known weekday: 1 Jan 2000 was a Saturday, day 7 of a week that starts on Sunday; 01Jan1900 a Monday, day 2 *)
Example C10_example : dayOfWeek 36525 = 7 /\ dayOfWeek 1 = 2 /\ yearMonthDayToJulian 2000 1 1 = Ok 36525.
Proof. repeat split. Qed.
Theorem C10_refuted_negative : dayOfWeek (-1) = 0 /\ dayOfWeek (-6) = -5.
Proof. split; reflexivity. Qed.
Print Assumptions C10_refuted_negative.
