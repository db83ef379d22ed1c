(** * C01-C03 for year 0 and years before it (year 0 precedes year 1, as in the code). *)
From Coq Require Import ZArith List Bool Lia.
From Verif Require Import Base DateModel DateSpec DateProofs DateProofs2 DateProps.
Import ListNotations.
Open Scope Z_scope.
Open Scope res_scope.
Ltac Zify.zify_post_hook ::= Z.div_mod_to_equations.

(** closed form of the day number for years up to 4 *)
Definition leapsN (y : Z) : Z := (y - 1) / 4 - (y - 1) / 100 + (y - 1) / 400 + 1.
Definition ratan (y m d : Z) : Z := y * 365 + leapsN y + cumDays m + d + (if leap y && (m >? 2) then 1 else 0) - 693960.

Lemma leapsN_bound y : -5000002 <= y <= 4 -> -1300000 <= leapsN y <= 1.
Proof. unfold leapsN. intros H. lia. Qed.
Lemma quot_up a k : a <= 0 -> 0 < k -> Z.quot a k = (a - 1) / k + 1.
Proof.
  intros Ha Hk. rewrite <- (Z.opp_involutive a), Z.quot_opp_l, Z.quot_div_nonneg by lia.
  set (b := - a). assert (Hb : 0 <= b) by (unfold b; lia). clearbody b.
  pose proof (Z.div_mod b k ltac:(lia)). pose proof (Z.mod_pos_bound b k Hk).
  pose proof (Z.div_mod (- b - 1) k ltac:(lia)). pose proof (Z.mod_pos_bound (- b - 1) k Hk).
  set (q1 := b / k) in *. set (r1 := b mod k) in *. set (q2 := (- b - 1) / k) in *. set (r2 := (- b - 1) mod k) in *. clearbody q1 q2 r1 r2. nia.
Qed.
Lemma leap_days_neg y m : -5000002 <= y <= 0 -> exists nl, numberOfLeapDays y = Ok nl /\ -1300000 <= nl <= 1300000 /\
  nl + leapCheckOf y m = leapsN y + (if leap y && (m >? 2) then 1 else 0).
Proof.
  intros H. unfold numberOfLeapDays. replace (y >? 4) with false by (symmetry; rewrite Z.gtb_ltb; apply Z.ltb_ge; lia).
  replace (y >? 0) with false by (symmetry; rewrite Z.gtb_ltb; apply Z.ltb_ge; lia).
  rewrite chk32_ok by (unfold in32, INT_MIN, INT_MAX; lia). cbn [bind]. eexists. split; [reflexivity|].
  unfold leapCheckOf. rewrite isLeapYear_leap. pose proof (leap_div y) as LD. unfold leapsN.
  destruct (Z.eq_dec y 0) as [->|Hn].
  - vm_compute in LD. change (leap 0) with true. change (Z.quot (0 + 1) 4 + Z.quot (0 + 1) 400 - Z.quot (0 + 1) 100) with 0.
    change ((0 - 1) / 4 - (0 - 1) / 100 + (0 - 1) / 400 + 1) with 0. change (0 >=? 0) with true. cbn [andb]. lia.
  - rewrite !quot_up by lia. replace (y + 1 - 1) with y by lia. replace (y >=? 0) with false by (symmetry; rewrite Z.geb_leb; apply Z.leb_gt; lia).
    split; [lia|]. destruct (leap y); cbn [andb].
    + destruct (m >? 2) eqn:E1, (m <? 3) eqn:E2; rewrite ?Z.gtb_ltb, ?Z.ltb_lt, ?Z.ltb_ge in *; lia.
    + lia.
Qed.
Lemma ymd_ratan y m d : -5000002 <= y <= 4 -> 1 <= m <= 12 -> -100000000 <= d <= 100000000 ->
  yearMonthDayToJulian y m d = Ok (ratan y m d).
Proof.
  intros Hy Hm Hd. destruct (Z_le_gt_dec y 0) as [H0|H0].
  - unfold yearMonthDayToJulian. rewrite fixMonth_id by assumption. cbn [bind].
    destruct (leap_days_neg y m ltac:(lia)) as (nl & -> & B & E). cbn [bind].
    replace ((m <? 1) || (m >? 12)) with false
      by (symmetry; apply orb_false_iff; split; [apply Z.ltb_ge | rewrite Z.gtb_ltb; apply Z.ltb_ge]; lia).
    rewrite aget_NDAY by assumption. cbn [bind]. pose proof (cumDays_bound m Hm) as Hc. unfold JULIAN_BASE_DATE.
    assert (Hl : -1 <= leapCheckOf y m <= 1) by (unfold leapCheckOf; destruct (isLeapYear y), (y >=? 0), (m >? 2), (m <? 3); lia).
    chk. unfold ratan. f_equal. lia.
  - rewrite ymd_rata by (unfold YMAX; lia). unfold rata, ratan, leapsBefore. replace (y >? 4) with false by (symmetry; rewrite Z.gtb_ltb; apply Z.ltb_ge; lia).
    f_equal. unfold leapsN. lia.
Qed.

Lemma ratan_d y m d k : ratan y m (d + k) = ratan y m d + k.
Proof. unfold ratan. lia. Qed.
Lemma ratan_month y m d : 1 <= m <= 11 -> ratan y (m + 1) d = ratan y m d + month_length y m.
Proof.
  intros H. assert (H' : 1 <= m <= 12) by lia. unfold ratan, month_length.
  remember (leapsN y) as L. remember (y * 365) as Y.
  months H'; subst m; try lia; destruct (leap y); unfold cumDays; cbn; lia.
Qed.
Lemma ratan_jan y d : ratan y 1 d = y * 365 + leapsN y + d - 693960.
Proof. unfold ratan, cumDays. change (1 >? 2) with false. rewrite andb_false_r. lia. Qed.
Lemma leapsN_next y : leapsN (y + 1) = leapsN y + (if leap y then 1 else 0).
Proof. unfold leapsN. rewrite leap_div. replace (y + 1 - 1) with y by lia. lia. Qed.
Lemma ratan_year y d : ratan (y + 1) 1 d = ratan y 12 d + 31.
Proof.
  rewrite ratan_jan, leapsN_next. unfold ratan, cumDays. change (12 >? 2) with true. rewrite andb_true_r. destruct (leap y); lia.
Qed.
Lemma ratan_jan_next y : ratan (y + 1) 1 1 = ratan y 1 1 + (if leap y then 366 else 365).
Proof. rewrite !ratan_jan, leapsN_next. destruct (leap y); lia. Qed.
Lemma ratan_jan_le k y : k <= y -> ratan k 1 1 <= ratan y 1 1.
Proof.
  intros H. replace y with (k + Z.of_nat (Z.to_nat (y - k))) by lia. induction (Z.to_nat (y - k)) as [|n IH]; [rewrite Z.add_0_r; lia|].
  replace (k + Z.of_nat (S n)) with (k + Z.of_nat n + 1) by lia. rewrite ratan_jan_next. destruct (leap (k + Z.of_nat n)); lia.
Qed.
Lemma ratan_next y m d : valid_date y m d -> let '(y', m', d') := next_day (y, m, d) in ratan y' m' d' = ratan y m d + 1.
Proof.
  intros [Hm Hd]. unfold next_day. destruct (d <? month_length y m) eqn:E1; [apply ratan_d|].
  assert (d = month_length y m) by lia. destruct (m <? 12) eqn:E2.
  - rewrite Z.ltb_lt in E2. rewrite ratan_month by lia. replace d with (1 + (d - 1)) by lia. rewrite ratan_d. lia.
  - assert (m = 12) by lia. subst m. rewrite ratan_year. replace d with (1 + (d - 1)) by lia. rewrite ratan_d.
    change (month_length y 12) with 31 in H. lia.
Qed.
Lemma ratan_in_year y m d : valid_date y m d -> ratan y 1 1 <= ratan y m d < ratan (y + 1) 1 1.
Proof.
  intros [Hm Hd]. rewrite ratan_jan_next. unfold month_length in Hd.
  unfold ratan. destruct (leap y); months Hm; subst m; cbn in Hd; cbn; lia.
Qed.
Lemma ratan_in_month y m d : valid_date y m d -> ratan y m 1 <= ratan y m d /\ (forall i, m < i <= 12 -> ratan y m d < ratan y i 1).
Proof.
  intros [Hm Hd]. split.
  - replace d with (1 + (d - 1)) by lia. rewrite ratan_d. lia.
  - intros i Hi. assert (Hi' : 1 <= i <= 12) by lia. unfold month_length in Hd.
    unfold ratan. destruct (leap y); months Hm; subst m; cbn in Hd; months Hi'; subst i; try lia; cbn; lia.
Qed.

Lemma searchDown_spec n y est julian :
  -5000000 <= y <= est -> est <= 4 -> est < y + Z.of_nat n -> ratan y 1 1 <= julian < ratan (y + 1) 1 1 ->
  searchDown n est julian = Ok (Some y).
Proof.
  revert est. induction n as [|n IH]; intros est He Hy Hn Hj; [lia|]. cbn [searchDown].
  rewrite ymd_ratan by lia. cbn [bind]. destruct (Z.eq_dec est y) as [->|Hne].
  - replace (julian >=? ratan y 1 1) with true by (symmetry; apply Z.geb_le; lia). reflexivity.
  - pose proof (ratan_jan_le (y + 1) est ltac:(lia)). replace (julian >=? ratan est 1 1) with false by (symmetry; rewrite Z.geb_leb; apply Z.leb_gt; lia).
    chk. apply IH; lia.
Qed.
Lemma monthDown_spec n y m i julian : -5000000 <= y <= 4 -> 1 <= m <= i -> i <= 12 -> i < m + Z.of_nat n ->
  ratan y m 1 <= julian -> (forall k, m < k <= 12 -> julian < ratan y k 1) -> monthDown n y i julian = Ok m.
Proof.
  revert i. induction n as [|n IH]; intros i Hy Hm Hi Hn Hlo Hhi; [lia|]. cbn [monthDown].
  replace (i <? 0) with false by (symmetry; apply Z.ltb_ge; lia). rewrite ymd_ratan by lia. cbn [bind].
  destruct (Z.eq_dec i m) as [->|Hne].
  - replace (julian >=? ratan y m 1) with true by (symmetry; apply Z.geb_le; lia). reflexivity.
  - specialize (Hhi i ltac:(lia)) as Hlt. replace (julian >=? ratan y i 1) with false by (symmetry; rewrite Z.geb_leb; apply Z.leb_gt; lia).
    apply IH; auto; lia.
Qed.

Lemma double_div_nonneg a : 0 < a -> 0 <= double_div_trunc a.
Proof.
  intros Ha. unfold double_div_trunc. destruct (a =? 0); [lia|].
  assert (P : 0 <= 2 ^ sig_shift a) by (apply Z.pow_nonneg; lia). set (p := 2 ^ sig_shift a) in *. clearbody p.
  pose proof (rne_bounds (a * 2 ^ 44 * p) K365 ltac:(reflexivity)) as B. set (r := rne (a * 2 ^ 44 * p) K365) in *. clearbody r.
  assert (R : 0 <= r) by (unfold K365 in B; nia). destruct (Z.eq_dec p 0) as [->|]; [rewrite Zdiv_0_r; lia|]. apply Z.div_pos; lia.
Qed.
Lemma estimate_neg julc y : -5000000 <= y <= -1 -> 365 * y + leapsN y + 1 <= julc <= 365 * (y + 1) + leapsN (y + 1) ->
  y <= yearEstimate julc <= Z.min 0 (y + 10).
Proof.
  intros Hy Hj. unfold yearEstimate, float_of_int. pose proof (leapsN_bound y ltac:(lia)) as L1.
  assert (HL : 400 * leapsN y <= 97 * (y - 1) + 1200 /\ 400 * leapsN y >= 97 * (y - 1) - 800) by (unfold leapsN; lia).
  assert (HL1 : 400 * leapsN (y + 1) <= 97 * y + 1200) by (unfold leapsN; replace (y + 1 - 1) with y by lia; lia).
  assert (J0 : julc <= 0) by (assert (leapsN (y + 1) <= 0); [unfold leapsN; replace (y + 1 - 1) with y by lia; lia|lia]).
  destruct (Z.eq_dec julc 0) as [->|Hn]; [assert (R : forall z, z = 0 -> y <= z <= Z.min 0 (y + 10)) by (intros z ->; clear - Hy Hj HL1; lia); apply R; vm_compute; reflexivity|].
  replace (julc <? 0) with true by (symmetry; apply Z.ltb_lt; lia).
    pose proof (float_bounds (- julc) ltac:(lia)) as F. set (f := float_of_nonneg (- julc)) in *. clearbody f.
    change (2 ^ 24) with 16777216 in F. replace (- f <? 0) with true by (symmetry; apply Z.ltb_lt; lia). rewrite Z.opp_involutive.
    assert (Hf : 0 < f < 2 ^ 32) by (change (2 ^ 32) with 4294967296; lia).
    pose proof (double_div_bounds f Hf) as [D1 D2]. pose proof (double_div_nonneg f ltac:(lia)) as Q3. set (q := double_div_trunc f) in *. clearbody q.
    change (2 ^ 44) with 17592186044416 in *. unfold K365 in *. clear Hf L1. 
    assert (Q1 : q <= - y) by lia. assert (Q2 : - y - 10 <= q) by lia.
    lia.
Qed.

Lemma j2ymd_ratan y m d : -5000000 <= y <= -1 -> valid_date y m d -> julianToYearMonthDay (ratan y m d) = Ok (Some (y, m, d)).
Proof.
  intros Hy Hv. pose proof Hv as [Hm Hd]. pose proof (valid_d31 _ _ _ Hv) as Hd31. pose proof (ratan_in_year y m d Hv) as Hin. pose proof (ratan_in_month y m d Hv) as [Hlo Hhi].
  pose proof (ratan_jan y 1) as RJ. pose proof (ratan_jan (y + 1) 1) as RJ1. pose proof (leapsN_bound y ltac:(lia)). pose proof (leapsN_bound (y + 1) ltac:(lia)).
  unfold julianToYearMonthDay, JULIAN_BASE_DATE. set (J := ratan y m d) in *.
  assert (HJm : J = ratan y m 1 + (d - 1)) by (unfold J; rewrite <- ratan_d; f_equal; lia). clearbody J.
  rewrite chk32_ok by (unfold in32, INT_MIN, INT_MAX; lia). cbn [bind].
  pose proof (estimate_neg (J + 693960) y Hy ltac:(lia)) as HE. set (est := yearEstimate (J + 693960)) in *. clearbody est.
  replace (est >? 0) with false by (symmetry; rewrite Z.gtb_ltb; apply Z.ltb_ge; lia).
  rewrite (searchDown_spec 100 y) by lia. cbn [bind].
  replace (y >? -1) with false by (symmetry; rewrite Z.gtb_ltb; apply Z.ltb_ge; lia).
  rewrite (monthDown_spec 14 y m) by (lia || assumption). cbn [bind].
  replace ((m <=? 0) || (m >? 12)) with false
    by (symmetry; apply orb_false_iff; split; [apply Z.leb_gt | rewrite Z.gtb_ltb; apply Z.ltb_ge]; lia).
  cbn [bind fst snd]. rewrite ymd_ratan by lia. cbn [bind]. chk. f_equal. f_equal. f_equal. lia.
Qed.

Definition check0 (m d : Z) : bool := negb (d <=? month_length 0 m) || roundTrips 0 m d.
Lemma sweep0 : forallb (fun m => forallb (check0 m) (zrange 1 31)) (zrange 1 12) = true.
Proof. vm_compute. reflexivity. Qed.
Lemma round_trips y m d : roundTrips y m d = true -> exists j, yearMonthDayToJulian y m d = Ok j /\ julianToYearMonthDay j = Ok (Some (y, m, d)).
Proof.
  unfold roundTrips. intros S. destruct (yearMonthDayToJulian y m d) as [j|]; [|discriminate]. exists j. split; [reflexivity|].
  destruct (julianToYearMonthDay j) as [[[[y' m'] d']|]|]; try discriminate.
  apply andb_true_iff in S. destruct S as [S S3]. apply andb_true_iff in S. destruct S as [S1 S2]. apply Z.eqb_eq in S1, S2, S3. subst. reflexivity.
Qed.

(** ** C01, every year *)
Theorem C01_all_years y m d : -5000000 <= y <= 5000000 -> valid_date y m d -> (y, m, d) <> (4, 12, 31) ->
  exists j, yearMonthDayToJulian y m d = Ok j /\ julianToYearMonthDay j = Ok (Some (y, m, d)).
Proof.
  intros Hy Hv Hn. pose proof (valid_d31 _ _ _ Hv) as Hd. destruct (Z_le_gt_dec 5 y); [apply C01_civil_round_trip; [lia|assumption]|].
  destruct (Z_le_gt_dec 1 y); [apply C01_first_years; [lia|assumption..]|]. destruct (Z.eq_dec y 0) as [->|H0].
  - apply round_trips. destruct Hv as [Hm Hl]. pose proof sweep0 as S. rewrite forallb_forall in S. specialize (S m (in_zrange 1 12 m ltac:(lia))).
    rewrite forallb_forall in S. specialize (S d (in_zrange 1 31 d ltac:(lia))). unfold check0 in S. apply orb_true_iff in S. destruct S as [S|S]; [|exact S].
    apply negb_true_iff, Z.leb_gt in S. lia.
  - exists (ratan y m d). split; [apply ymd_ratan; [lia|apply Hv|lia]|]. apply j2ymd_ratan; [lia|assumption].
Qed.
Print Assumptions C01_all_years.
Example C01_all_years_example : valid_date (-4) 2 29 /\ yearMonthDayToJulian (-4) 2 29 = Ok (-695361) /\ julianToYearMonthDay (-695361) = Ok (Some (-4, 2, 29)).
Proof. split; [split; [lia|vm_compute; split; discriminate]|]. split; vm_compute; reflexivity. Qed.

(** ** C02, every year *)
Theorem C02_all_years y m d : -5000000 <= y <= 5000000 -> valid_date y m d -> (y, m, d) <> (4, 12, 31) ->
  exists j, yearMonthDayToJulian y m d = Ok j /\ let '(y', m', d') := next_day (y, m, d) in yearMonthDayToJulian y' m' d' = Ok (j + 1).
Proof.
  intros Hy Hv Hn. pose proof (valid_d31 _ _ _ Hv) as Hd. destruct (Z_le_gt_dec 5 y); [apply C02_gregorian; [lia|assumption]|].
  exists (ratan y m d). split; [apply ymd_ratan; [lia|apply Hv|lia]|]. pose proof (ratan_next y m d Hv) as R. pose proof (next_day_valid y m d Hv) as NV.
  assert (NY : let '(y', _, _) := next_day (y, m, d) in y' <= 4).
  { unfold next_day. destruct (d <? month_length y m) eqn:E1; [lia|]. destruct (m <? 12) eqn:E2; [lia|].
    destruct Hv as [Hm Hl]. apply Z.ltb_ge in E1, E2. assert (m = 12) by lia. subst m. change (month_length y 12) with 31 in *.
    assert (y <> 4) by (intros ->; apply Hn; f_equal; lia). lia. }
  destruct (next_day (y, m, d)) as [[y' m'] d']. destruct NV as [NV NYY]. pose proof (valid_d31 _ _ _ NV) as Hd'. rewrite <- R. apply ymd_ratan; [lia|apply NV|lia].
Qed.
Print Assumptions C02_all_years.
Example C02_all_years_example : valid_date 0 12 31 /\ next_day (0, 12, 31) = (1, 1, 1) /\ next_day (-1, 12, 31) = (0, 1, 1).
Proof. split; [split; [lia|vm_compute; split; discriminate]|]. split; reflexivity. Qed.

(** ** C03, every year *)
Theorem C03_month_carry_all y m d : in32 y -> in32 m ->
  let '(y', m') := month_shift y 1 (m - 1) in
  -5000000 <= y' <= 5000000 -> -100000000 <= d <= 100000000 ->
  1 <= m' <= 12 /\ exists j, yearMonthDayToJulian y m d = Ok j /\ yearMonthDayToJulian y' m' d = Ok j.
Proof.
  intros Hy Hm. pose proof (C03_month_carry y m d Hy Hm) as P. unfold month_shift in *. replace (1 - 1 + (m - 1)) with (m - 1) in * by lia.
  intros Hy' Hd. assert (HM : 1 <= (m - 1) mod 12 + 1 <= 12) by (pose proof (Z.mod_pos_bound (m - 1) 12); lia).
  destruct (Z_le_gt_dec 1 (y + (m - 1) / 12)); [apply P; lia|]. split; [exact HM|]. eexists. split; [|apply ymd_ratan; lia].
  rewrite <- (ymd_ratan _ _ d) by lia. unfold yearMonthDayToJulian.
  rewrite fixMonth_spec by (auto; unfold in32, INT_MIN, INT_MAX in *; lia). rewrite fixMonth_id by assumption.
  unfold month_shift. replace (1 - 1 + (m - 1)) with (m - 1) by lia. reflexivity.
Qed.
Print Assumptions C03_month_carry_all.
Example C03_all_example : month_shift 1 1 (-13 - 1) = (-1, 11) /\ yearMonthDayToJulian 1 (-13) 7 = yearMonthDayToJulian (-1) 11 7.
Proof. split; vm_compute; reflexivity. Qed.
