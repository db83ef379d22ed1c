(** C45: an instant given as (base day, offset in time units) is written as a date text and a time text that read
    back as that instant (Utilities/DateTime/getDateAndTime.c); C11: malformed ISO date texts are refused;
    C38/C43: a record of another type is refused. *)
From Coq Require Import ZArith List Lia Bool ZifyBool.
From Verif Require Import Base ArrayLib DateModel DateSpec DateProofs DateProofs2 HashModel CStr CStrProofs TextSpec DateTextModel TimeTextProps DateTextProps
  FileModel TextModel.
Import ListNotations.
Local Open Scope Z_scope.

(** ** C45 *)
(** a unit of time that divides the day: one second, or whole minutes *)
Definition day_unit (gran : Z) : Prop := 0 < gran /\ (gran = 1 \/ gran mod 60 = 0) /\ 86400 mod gran = 0.

(** the texts for unit number [base * N + time] (N units a day) name day [j] and the end of unit [tod] of that day,
    where the last instant of a day is written 2400 of that day, never 0000 of the next *)
Theorem C45_instant_round_trip : forall gran y m d j tod base time dbuf dsize tbuf tsize,
  day_unit gran -> 5 <= y <= 4999999 -> valid_date y m d -> yearMonthDayToJulian y m d = Ok j ->
  1 <= tod <= 86400 / gran ->
  base * (86400 / gran) + time = j * (86400 / gran) + tod ->
  28 <= dsize <= alen dbuf -> 9 <= tsize <= alen tbuf ->
  exists db tb dt tt, getDateAndTime time gran base dbuf dsize tbuf tsize = Ok (db, tb) /\
    cstr db = Ok dt /\ cstr tb = Ok tt /\
    dateToJulian dt = Ok j /\ timeStringToSeconds tt = Ok (tod * gran).
Proof.
  intros gran y m d j tod base time dbuf dsize tbuf tsize (G0 & G1 & G2) Hy V E Ht HT HD HS.
  pose proof (valid_d31 _ _ _ V) as H31.
  assert (RB : -693960 <= j <= 1900000000).
  { pose proof V as [Hm _]. rewrite ymd_rata in E by (unfold YMAX; try apply V; lia). injection E as <-.
    apply rata_bound; [unfold YMAX; lia|exact Hm|exact H31]. }
  set (N := 86400 / gran) in *.
  assert (HN : 86400 = gran * N) by (unfold N; apply Z.div_exact; lia).
  assert (N0 : 1 <= N) by nia.
  assert (EQ : Z.quot SECS_IN_1_DAY gran = N) by (unfold SECS_IN_1_DAY; rewrite HN, Z.mul_comm; apply Z.quot_mul; lia).
  destruct (C11_day_round_trip y m d 4 j) as (dt & LD & PD & FD); [left; split; [cbn; tauto|lia]|exact V|exact E|].
  destruct (FD dbuf dsize ltac:(lia)) as (db & ED & CD).
  (* the time text *)
  assert (TM : exists tb tt, (if gran =? SECOND_GRANULARITY then secondsToTimeString tod 0 2 tbuf tsize
       else if gran =? MINUTE_GRANULARITY then minutesToHourMin tod tbuf tsize
       else minutesToHourMin (tod * Z.quot gran SECS_IN_1_MINUTE) tbuf tsize) = Ok tb /\ cstr tb = Ok tt /\
       timeStringToSeconds tt = Ok (tod * gran)).
  { unfold SECOND_GRANULARITY, MINUTE_GRANULARITY, SECS_IN_1_MINUTE.
    destruct (gran =? 1) eqn:E1.
    - assert (gran = 1) by lia. subst gran. assert (N = 86400) by lia.
      rewrite C12_format; [|lia|lia|change (time_room 2) with 9; lia|lia]. do 2 eexists. split; [reflexivity|].
      rewrite cstr_app by (apply time_text_nz; lia). split; [reflexivity|]. rewrite C12_parse by lia.
      change (time_precision 2 tod) with tod. f_equal. lia.
    - set (k := gran / 60). assert (K : gran = 60 * k) by (unfold k; apply Z.div_exact; lia).
      assert (KB : 0 <= tod * k <= 1440) by nia.
      destruct (C12_minutes (tod * k) tbuf tsize KB ltac:(lia) ltac:(lia)) as (A & B).
      replace (if gran =? 60 then minutesToHourMin tod tbuf tsize else minutesToHourMin (tod * Z.quot gran 60) tbuf tsize)
        with (minutesToHourMin (tod * k) tbuf tsize).
      2:{ destruct (gran =? 60) eqn:E60; f_equal; [nia|]. f_equal. rewrite K, Z.mul_comm. symmetry. apply Z.quot_mul. lia. }
      rewrite A. do 2 eexists. split; [reflexivity|]. rewrite cstr_app by (apply time_text_nz; lia). split; [reflexivity|].
      rewrite B. f_equal. nia. }
  destruct TM as (tb & tt & TF & TC & TP).
  exists db, tb, dt, tt. split; [|auto].
  unfold getDateAndTime. replace (gran <? 1) with false by lia. cbv zeta. rewrite EQ. replace (N =? 0) with false by lia.
  pose proof (Z.quot_rem' time N) as QR. pose proof (Z.rem_bound_abs time N ltac:(lia)) as RA.
  set (q := Z.quot time N) in *. set (r := Z.rem time N) in *.
  replace (time - q * N) with r by lia.
  assert (Q : (r <? 1) = true /\ base + q = j + 1 /\ r + N = tod \/ (r <? 1) = false /\ base + q = j /\ r = tod).
  { clearbody q r N. clear - QR RA HT Ht N0. destruct (r <? 1) eqn:R; [left|right]; (split; [reflexivity|]).
    - assert (N * (base + q - j - 1) = tod - r - N) by lia. assert (-N < tod - r - N < 2 * N) by lia.
      assert (base + q - j - 1 = 0 \/ base + q - j - 1 = 1) as [Z0|Z1] by nia; [lia|]. rewrite Z1 in H. assert (tod = N /\ r = - N) by lia. lia.
    - assert (N * (base + q - j) = tod - r) by lia. assert (base + q - j = 0) by nia. nia. }
  clear QR RA HT. clearbody q r.
  destruct Q as [(Rb & Q1 & Q2)|(Rb & Q1 & Q2)]; rewrite Rb, Q1.
  - rewrite chk32_ok by (unfold in32, INT_MIN, INT_MAX; lia). cbn [bind].
    replace (j + 1 - 1) with j by lia. rewrite chk32_ok by (unfold in32, INT_MIN, INT_MAX; lia). cbn [bind].
    rewrite Q2, TF. cbn [bind]. rewrite ED. reflexivity.
  - rewrite chk32_ok by (unfold in32, INT_MIN, INT_MAX; lia). cbn [bind].
    rewrite Q2, TF. cbn [bind]. rewrite ED. reflexivity.
Qed.
Print Assumptions C45_instant_round_trip.

(** the last minute of 1 June 2020, counted as offset 0 from the following day *)
Example C45_instant_example :
  day_unit 60 /\ valid_date 2020 6 1 /\ exists j db tb, yearMonthDayToJulian 2020 6 1 = Ok j /\
  1 <= 1440 <= 86400 / 60 /\ (j + 1) * (86400 / 60) + 0 = j * (86400 / 60) + 1440 /\
  getDateAndTime 0 60 (j + 1) (repeat 90 30) 30 (repeat 90 10) 10 = Ok (db, tb) /\
  cstr db = Ok [48; 49; 74; 117; 110; 50; 48; 50; 48] /\ cstr tb = Ok [50; 52; 48; 48].
Proof.
  split; [repeat split; try lia; right; reflexivity|]. split; [vm_compute; repeat split; discriminate|].
  do 3 eexists. split; [vm_compute; reflexivity|]. split; [cbn; lia|]. split; [reflexivity|].
  split; [vm_compute; reflexivity|]. split; vm_compute; reflexivity.
Qed.

(** a granularity below one second means minutes when counting the units of a day, but the time text is multiplied by
    [granularity / 60] = 0: with granularity 0, noon is written 0000 *)
Theorem C45_refuted_default_unit : exists db tb, getDateAndTime 720 0 1000 (repeat 90 30) 30 (repeat 90 10) 10 = Ok (db, tb) /\
  cstr tb = Ok [48; 48; 48; 48].
Proof. do 2 eexists. split; vm_compute; reflexivity. Qed.
Print Assumptions C45_refuted_default_unit.
(** units longer than a day divide by zero *)
Theorem C45_refuted_long_unit : forall time base dbuf dsize tbuf tsize, getDateAndTime time 604800 base dbuf dsize tbuf tsize = Undef.
Proof. reflexivity. Qed.
Print Assumptions C45_refuted_long_unit.

(** ** C11: a text whose first '-' follows four characters and that has no '/' is a date only if it is 10 long *)
Lemma absent_upper c s : (forall x, toupper x = c -> x = c) -> absent c s = true -> absent c (upperCase s) = true.
Proof.
  intros H. induction s as [|x s IH]; [reflexivity|]. unfold absent, upperCase in *. cbn [map forallb].
  intros A. apply andb_true_iff in A as [A1 A2]. rewrite IH by exact A2.
  destruct (toupper x =? c) eqn:E; [|reflexivity]. apply Z.eqb_eq in E. apply H in E. lia.
Qed.
Theorem C11_iso_length : forall a b, slen a = 4 -> absent 45 a = true -> absent 47 a = true -> absent 47 b = true ->
  slen (a ++ 45 :: b) <= 29 -> slen (a ++ 45 :: b) <> 10 -> dateToYearMonthDay (a ++ 45 :: b) = Ok None.
Proof.
  intros a b La A1 A2 A3 L N10. unfold dateToYearMonthDay, stringCopy_val. rewrite stake_all by lia.
  cbv zeta. rewrite toupper_len. rewrite slen_app, slen_cons in *.
  pose proof (slen_nonneg b) as Lb.
  replace ((slen a + (slen b + 1) >? 30) || (slen a + (slen b + 1) <? 3)) with false by lia.
  rewrite upper_app, upper_delim by reflexivity.
  assert (T47 : forall x, toupper x = 47 -> x = 47) by (intros x; unfold toupper; destruct (_ && _) eqn:Q; lia).
  assert (T45 : forall x, toupper x = 45 -> x = 45) by (intros x; unfold toupper; destruct (_ && _) eqn:Q; lia).
  rewrite (strchr_absent _ 47).
  2:{ rewrite absent_app. cbn [absent forallb]. fold (absent 47 (upperCase b)). rewrite !absent_upper by assumption. reflexivity. }
  rewrite strchr_first by (apply absent_upper; assumption). rewrite toupper_len, La.
  change (4 + 1 >? 5) with false. cbv iota. change (4 + 1 >? 0) with true. change (4 + 1 =? 5) with true. cbv iota.
  replace (4 + (slen b + 1) =? 10) with false by lia. reflexivity.
Qed.
Print Assumptions C11_iso_length.
(** "2020-06-1" *)
Example C11_iso_length_example : dateToYearMonthDay ([50; 48; 50; 48] ++ 45 :: [48; 54; 45; 49]) = Ok None /\ dateToYearMonthDay ([50; 48; 50; 48] ++ 45 :: [48; 54; 45; 48; 49]) = Ok (Some (2020, 6, 1)).
Proof. split; vm_compute; reflexivity. Qed.

(** ** C38, C43: reading a record of another type as text or as an array is an error *)
Theorem C38_other_type_refused : forall ct, ct_type ct <> 300 -> ct_type ct <> 310 -> ztextRetrieve_answer (Some ct) = Ok None.
Proof. intros ct H1 H2. unfold ztextRetrieve_answer. replace (ct_type ct =? 300) with false by lia. replace (ct_type ct =? 310) with false by lia. reflexivity. Qed.
Print Assumptions C38_other_type_refused.
Theorem C43_other_type_refused : forall ct, ct_type ct <> 90 -> zarrayRetrieve_answer (Some ct) = Ok None.
Proof. intros ct H1. unfold zarrayRetrieve_answer. replace (ct_type ct =? 90) with false by lia. reflexivity. Qed.
Print Assumptions C43_other_type_refused.
