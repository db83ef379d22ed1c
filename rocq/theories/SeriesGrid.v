(** * Lemmas for C46: the two numberings of periods, by seconds and by calendar, fit the blocks. *)
From Coq Require Import ZArith List Lia Bool.
From Verif Require Import Base DateModel DateSpec DateProofs DateProofs2 DateProofs3 DateProps BlockModel BlockSpec BlockProofs BlockProps
  ArrayLib RegStoreModel RegStoreProofs RegStoreProps SeriesModel SeriesProofs SeriesSpec SeriesHist.
Import ListNotations.
Open Scope Z_scope.
Open Scope res_scope.
Ltac Zify.zify_post_hook ::= Z.to_euclidean_division_equations.

(** every day number in range is a civil date *)
Lemma day_date_nat n : rata 200 1 1 + Z.of_nat n < rata 4999900 1 1 ->
  exists y m d, valid_date y m d /\ 200 <= y <= 4999899 /\ rata y m d = rata 200 1 1 + Z.of_nat n.
Proof.
  induction n as [|n IH]; intros H.
  - exists 200, 1, 1. split; [split; vm_compute; intuition discriminate|]. split; [lia|]. lia.
  - destruct IH as (y & m & d & V & Y & E); [lia|].
    pose proof (rata_next y m d ltac:(lia) V) as N. pose proof (next_day_valid y m d V) as NV.
    destruct (next_day (y, m, d)) as [[y' m'] d']. destruct NV as [NV NY].
    exists y', m', d'. split; [exact NV|]. split; [|lia]. split; [lia|].
    pose proof (rata_in_year y' m' d' ltac:(lia) NV) as I.
    destruct (Z_le_gt_dec y' 4999899) as [|G]; [assumption|]. pose proof (rata_jan_le 4999900 y' ltac:(lia)). lia.
Qed.
Lemma day_date j : rata 200 1 1 <= j < rata 4999900 1 1 ->
  exists y m d, valid_date y m d /\ 200 <= y <= 4999899 /\ rata y m d = j.
Proof.
  intros H. destruct (day_date_nat (Z.to_nat (j - rata 200 1 1))) as (y & m & d & V & Y & E); [lia|].
  exists y, m, d. split; [exact V|]. split; [exact Y|]. lia.
Qed.
Lemma rata_200 : rata 200 1 1 = -620911. Proof. vm_compute. reflexivity. Qed.
Lemma rata_4999900 : rata 4999900 1 1 = 1825482016. Proof. vm_compute. reflexivity. Qed.

(** the block of a day *)
Lemma start_of i b j : brange (block_for_interval i) b -> brange (block_for_interval i) (b + 1) ->
  bstart (block_for_interval i) b <= j < bstart (block_for_interval i) (b + 1) -> -620000 <= j <= 1820000000 ->
  ztsRegGetBlockStart j i = Ok (bstart (block_for_interval i) b, block_code (block_for_interval i)).
Proof.
  intros R1 R2 H B. destruct (day_date j) as (y & m & d & V & Y & E); [rewrite rata_200, rata_4999900; lia|].
  rewrite <- E. rewrite getStart_reg by assumption. f_equal. f_equal. f_equal.
  pose proof (within (block_for_interval i) y m d V Y) as W. rewrite E in W.
  pose proof (bnum_range (block_for_interval i) y m d V Y) as (N1 & N2 & _).
  set (k := block_for_interval i) in *. set (c := bnum k y m d) in *. clearbody c k.
  destruct (Z_lt_le_dec c b) as [L|L].
  - pose proof (bstart_mono' k (c + 1) b N2 R1 ltac:(lia)). lia.
  - destruct (Z_lt_le_dec b c) as [L'|L']; [|lia]. pose proof (bstart_mono' k (b + 1) c R2 N1 ltac:(lia)). lia.
Qed.

Lemma rata_jan_add y n : 5 <= y -> rata y 1 1 + 365 * Z.of_nat n <= rata (y + Z.of_nat n) 1 1 <= rata y 1 1 + 366 * Z.of_nat n.
Proof.
  intros H. induction n as [|n IH]; [replace (y + Z.of_nat 0) with y by lia; lia|].
  pose proof (rata_jan_next (y + Z.of_nat n) ltac:(lia)) as N. replace (y + Z.of_nat n + 1) with (y + Z.of_nat (S n)) in N by lia.
  rewrite N. clear N. destruct (leap _); lia.
Qed.
Lemma rata_jan_addz y n : 5 <= y -> 0 <= n -> rata y 1 1 + 365 * n <= rata (y + n) 1 1 <= rata y 1 1 + 366 * n.
Proof. intros H Hn. pose proof (rata_jan_add y (Z.to_nat n) H) as Q. rewrite Z2Nat.id in Q by lia. exact Q. Qed.

Lemma block_length k b : brange k b ->
  bstart k b + block_days k <= bstart k (b + 1) <= bstart k b + 2 * block_days k.
Proof.
  intros H. destruct k; cbn [bstart brange block_days] in *.
  - lia.
  - destruct (Z.eq_dec (b mod 12) 11) as [E|E].
    + replace ((b + 1) / 12) with (b / 12 + 1) by lia. replace ((b + 1) mod 12 + 1) with 1 by lia.
      rewrite E. rewrite rata_year by lia. change (11 + 1) with 12.
      generalize (rata (b / 12) 12 1). intros; lia.
    + replace ((b + 1) / 12) with (b / 12) by lia. replace ((b + 1) mod 12 + 1) with (b mod 12 + 1 + 1) by lia.
      rewrite (rata_month (b / 12) (b mod 12 + 1)) by lia. pose proof (month_length_bound (b / 12) (b mod 12 + 1)) as Q. clear -Q.
      revert Q. generalize (rata (b / 12) (b mod 12 + 1) 1), (month_length (b / 12) (b mod 12 + 1)). intros; lia.
  - pose proof (rata_jan_addz b 1 ltac:(lia) ltac:(lia)). lia.
  - pose proof (rata_jan_addz (10 * b) 10 ltac:(lia) ltac:(lia)). replace (10 * (b + 1)) with (10 * b + 10) by lia. lia.
  - pose proof (rata_jan_addz (100 * b) 100 ltac:(lia) ltac:(lia)). replace (100 * (b + 1)) with (100 * b + 100) by lia. lia.
Qed.

(** ** Intervals of at most a day *)
Definition slo (k : block_kind) : Z := match k with DayBlock => -620000 | MonthBlock => 12 * 210 | YearBlock => 210 | DecadeBlock => 21 | CenturyBlock => 3 end.
Definition shi (k : block_kind) : Z :=
  match k with DayBlock => 729000000 | MonthBlock => 12 * 2000000 | YearBlock => 2000000 | DecadeBlock => 200000 | CenturyBlock => 20000 end.
Lemma slo_day k : -620000 <= bstart k (slo k) <= -580000.
Proof. destruct k; vm_compute; intuition discriminate. Qed.
Lemma shi_day k : 729000000 <= bstart k (shi k) <= 729792000.
Proof. destruct k; vm_compute; intuition discriminate. Qed.
Lemma sb_range k b : slo k <= b <= shi k -> brange k b.
Proof. destruct k; cbn [slo shi brange]; lia. Qed.
Lemma slo_shi k : slo k < shi k.
Proof. destruct k; vm_compute; reflexivity. Qed.
Lemma sday k b : slo k <= b <= shi k -> -620000 <= bstart k b <= 729792000.
Proof.
  intros H. pose proof (slo_day k). pose proof (shi_day k). pose proof (slo_shi k).
  pose proof (bstart_mono' k (slo k) b (sb_range k (slo k) ltac:(lia)) (sb_range k b ltac:(lia)) ltac:(lia)).
  pose proof (bstart_mono' k b (shi k) (sb_range k b ltac:(lia)) (sb_range k (shi k) ltac:(lia)) ltac:(lia)). lia.
Qed.

Section Short.
Variable i : Z.
Hypothesis Hi : 1 <= i <= 86400.
Hypothesis Hd : 86400 mod i = 0.
Definition bk : block_kind := block_for_interval i.
Definition per_day : Z := 86400 / i.
Definition bs (b : Z) : Z := bstart bk b.
Definition s_idx (b : Z) : Z := bs b * per_day.
Definition s_day (k : Z) : Z := (k * i - 1) / 86400.
Definition s_sec (k : Z) : Z := k * i - 86400 * s_day k.

Lemma per_day_mul : i * per_day = 86400 /\ 0 < per_day.
Proof. unfold per_day. pose proof (Z.div_mod 86400 i ltac:(lia)). split; [lia|]. apply Z.div_str_pos. lia. Qed.
Lemma s_idx_mul b : s_idx b * i = bs b * 86400.
Proof. unfold s_idx. destruct per_day_mul as [E _]. rewrite <- E. ring. Qed.
Lemma s_std k : instant (s_day k) (s_sec k) = k * i /\ 0 < s_sec k <= 86400.
Proof.
  unfold s_sec, s_day, instant. generalize (k * i). intros x. pose proof (Z.div_mod (x - 1) 86400 ltac:(lia)). pose proof (Z.mod_pos_bound (x - 1) 86400 ltac:(lia)).
  generalize dependent ((x - 1) / 86400). intros. lia.
Qed.
Lemma s_std_day k a b : a * 86400 < k * i <= b * 86400 -> a <= s_day k < b.
Proof.
  intros H. destruct (s_std k) as [E B]. unfold instant in E. generalize dependent (k * i). generalize dependent (s_day k). generalize dependent (s_sec k).
  intros. lia.
Qed.

Lemma block_max : 2 * block_days bk * per_day <= 1000000.
Proof.
  destruct per_day_mul as [E P]. unfold bk, block_for_interval.
  destruct (Z.ltb_spec i (15 * 60)); [cbn [block_days]; nia|].
  destruct (Z.ltb_spec i (24 * 3600)); [cbn [block_days]; nia|].
  replace (i <? 7 * 86400) with true by (symmetry; apply Z.ltb_lt; lia). cbn [block_days]. nia.
Qed.
Lemma s_idx_next b : slo bk <= b < shi bk -> s_idx b + block_days bk * per_day <= s_idx (b + 1) <= s_idx b + 2 * block_days bk * per_day.
Proof.
  intros H. pose proof (block_length bk b (sb_range bk b ltac:(lia))) as L. destruct per_day_mul as [E P].
  unfold s_idx, bs. fold bk. generalize dependent (bstart bk (b + 1)). generalize (bstart bk b). intros. nia.
Qed.
Lemma k_le (a b : Z) : a * i <= b * i -> a <= b. Proof. nia. Qed.
Lemma k_lt (a b : Z) : a * i < b * i -> a < b. Proof. nia. Qed.
Lemma in32_of x : -2001000000 <= x <= 2001000000 -> in32 x. Proof. unfold in32, INT_MIN, INT_MAX. lia. Qed.
Lemma bd_pos : 1 <= block_days bk. Proof. unfold block_days. destruct bk; lia. Qed.

Lemma short_grid : grid i (block_code bk) s_day s_sec bs s_idx (slo bk) (shi bk).
Proof.
  destruct per_day_mul as [E P]. pose proof bd_pos as BP. pose proof block_max as BM.
  constructor.
  - unfold SECS_IN_1_WEEK. lia.
  - intros j Hj. pose proof (s_idx_next j Hj) as N. generalize dependent (s_idx j). generalize dependent (s_idx (j + 1)). intros. nia.
  - intros j Hj. apply bstart_next. apply sb_range. fold bk. lia.
  - intros j Hj. apply incr_fwd; apply sb_range; fold bk; lia.
  - intros j Hj. pose proof (s_idx_next j Hj) as N. pose proof (sday bk j ltac:(lia)) as D1. pose proof (sday bk (j + 1) ltac:(lia)) as D2.
    unfold SECS_IN_1_DAY. pose proof (s_idx_mul j) as M1. pose proof (s_idx_mul (j + 1)) as M2. unfold bs in *. fold bk in *.
    apply numberPeriods_short; try lia.
    + apply in32_of. generalize dependent (s_idx j). generalize dependent (s_idx (j + 1)). intros. nia.
    + unfold instant. lia.
  - intros j k Hj Hk B. pose proof (sday bk j ltac:(lia)) as D1. destruct (s_std k) as [SI SB].
    pose proof (s_idx_mul j) as M1. pose proof (s_idx_mul (slo bk)) as M2. pose proof (s_idx_mul (shi bk)) as M3.
    pose proof (slo_day bk) as L1. pose proof (shi_day bk) as L2. unfold bs in *. fold bk in *.
    assert (KB : -620000 * 86400 <= k * i <= 729792000 * 86400).
    { split; [apply Z.le_trans with (s_idx (slo bk) * i); [lia|apply Z.mul_le_mono_nonneg_r; lia]|
              apply Z.le_trans with (s_idx (shi bk) * i); [apply Z.mul_le_mono_nonneg_r; lia|lia]]. }
    pose proof (s_std_day k (-620001) 729792000 ltac:(lia)) as SD.
    apply numberPeriods_short; try (unfold SECS_IN_1_DAY; lia).
    + apply in32_of. lia.
    + rewrite SI. unfold instant, SECS_IN_1_DAY. lia.
  - intros j k Hj Hk. apply s_std_day. pose proof (s_idx_mul j) as M1. pose proof (s_idx_mul (j + 1)) as M2. unfold bs in *.
    split; [rewrite <- M1; apply Z.mul_lt_mono_pos_r; lia|rewrite <- M2; apply Z.mul_le_mono_nonneg_r; lia].
Qed.

Lemma short_start j k : slo bk <= j < shi bk -> s_idx j < k <= s_idx (j + 1) ->
  ztsRegGetBlockStart (s_day k) i = Ok (bs j, block_code bk).
Proof.
  intros Hj Hk. pose proof (g_day _ _ _ _ _ _ _ _ short_grid j k Hj Hk) as D.
  pose proof (sday bk j ltac:(lia)) as D1. pose proof (sday bk (j + 1) ltac:(lia)) as D2. unfold bs in *. fold bk in *.
  apply start_of; try (fold bk; apply sb_range; lia); fold bk; lia.
Qed.

(** the standard time of a time in period [k] *)
Lemma short_std k day sec : in_period i k day sec -> -621000 <= day <= 729800000 ->
  exists o, ztsOffsetAdjustToStandard i day sec = Ok (o, s_day k, s_sec k).
Proof.
  intros [Hs Hk] B. destruct (adjStd_day i day sec Hi Hd ltac:(lia) Hs) as (o & j' & s' & E & _ & _ & M & L & S').
  exists o. rewrite E. destruct (s_std k) as [SI SB].
  assert (Q : instant j' s' = k * i).
  { apply Z.mod_divide in M; [|lia]. destruct M as (z & M). rewrite M in *.
    assert (z = k) by (generalize dependent (instant day sec); intros; nia). congruence. }
  rewrite <- SI in Q. destruct (instant_inj _ _ _ _ S' SB Q) as [-> ->]. reflexivity.
Qed.

Lemma clean_ok day sec : 0 < sec <= 86400 -> -621000 <= day <= 729800000 -> cleanTime day sec SECOND_GRANULARITY = Ok (1, day, sec).
Proof.
  intros Hs B. unfold cleanTime, UNDEFINED_TIME, SECOND_GRANULARITY, MINUTE_GRANULARITY, SECS_IN_1_DAY.
  replace (day =? -2147483647) with false by (symmetry; apply Z.eqb_neq; lia).
  replace (sec =? 0) with false by (symmetry; apply Z.eqb_neq; lia). rewrite andb_false_r.
  change (1 =? 60) with false. change (1 =? 1) with true. cbn [andb].
  replace (sec >? 0) with true by (symmetry; apply Z.gtb_lt; lia). replace (sec <=? 86400) with true by (symmetry; apply Z.leb_le; lia). reflexivity.
Qed.

(** range of periods, by instants *)
Lemma short_range k day sec : in_period i k day sec -> -580000 <= day < 729000000 -> s_idx (slo bk) < k <= s_idx (shi bk).
Proof.
  intros [Hs [H1 H2]] B. pose proof (s_idx_mul (slo bk)) as M2. pose proof (s_idx_mul (shi bk)) as M3.
  pose proof (slo_day bk) as L1. pose proof (shi_day bk) as L2. unfold bs in *. fold bk in *. unfold instant in *.
  split; [apply k_lt; lia|]. assert (k - 1 < s_idx (shi bk)) by (apply k_lt; lia). lia.
Qed.

Lemma short_process k0 day sec n j0 j1 : in_period i k0 day sec -> -580000 <= day -> 0 < n <= 2000000000 ->
  instant day sec + (n - 1) * i <= 729000000 * 86400 ->
  slo bk <= j0 < shi bk -> slo bk <= j1 < shi bk -> s_idx j0 < k0 <= s_idx (j0 + 1) -> s_idx j1 < k0 + n - 1 <= s_idx (j1 + 1) ->
  process_n i day sec n = Ok (Some (win i (block_code bk) s_day s_sec bs k0 n j0 j1)).
Proof.
  intros P B Hn HE Hj0 Hj1 Hk0 Hk1. pose proof P as [Hs [P1 P2]].
  assert (N0 : 0 <= (n - 1) * i) by (apply Z.mul_nonneg_nonneg; lia).
  assert (DB : day < 729000000) by (unfold instant in HE; lia).
  unfold process_n. rewrite clean_ok by lia. cbn [bind]. unfold isTimeDefined, UNDEFINED_TIME.
  replace (day =? -2147483647) with false by (symmetry; apply Z.eqb_neq; lia).
  replace (sec <? 0) with false by (symmetry; apply Z.ltb_ge; lia). cbn [negb andb].
  destruct (incrementTimeF_short 3 i (n - 1) day sec ltac:(lia) ltac:(apply in32_of; lia) ltac:(lia) ltac:(lia)) as (ej & es & E & IE & SE).
  { unfold instant in HE. lia. } { intros [-> Q]. lia. }
  unfold incrementTime. rewrite E. cbn [bind].
  assert (PE : in_period i (k0 + n - 1) ej es).
  { split; [exact SE|]. rewrite IE. clear -P1 P2. lia. }
  assert (EB : -580000 <= ej < 729000000).
  { unfold instant in *. lia. }
  unfold finish_window. destruct (short_std k0 day sec P ltac:(lia)) as (o1 & S1). rewrite S1. cbn [bind].
  destruct (short_std (k0 + n - 1) ej es PE ltac:(lia)) as (o2 & S2). rewrite S2. cbn [bind].
  rewrite (short_start j0 k0 Hj0 Hk0). cbn [bind]. rewrite (short_start j1 (k0 + n - 1) Hj1 Hk1). cbn [bind].
  replace (n <=? 0) with false by (symmetry; apply Z.leb_gt; lia). reflexivity.
Qed.

Lemma short_process_se k0 k1 day sec eday esec j0 j1 : in_period i k0 day sec -> in_period i k1 eday esec ->
  -580000 <= day -> eday < 729000000 -> instant day sec <= instant eday esec -> k1 - k0 < 2000000000 ->
  ~ (day = 0 /\ eday = 0) -> ~ (day = -1 /\ eday = -1) ->
  slo bk <= j0 < shi bk -> slo bk <= j1 < shi bk -> s_idx j0 < k0 <= s_idx (j0 + 1) -> s_idx j1 < k1 <= s_idx (j1 + 1) ->
  process_se i day sec eday esec = Ok (Some (win i (block_code bk) s_day s_sec bs k0 (k1 - k0 + 1) j0 j1)) /\ k0 <= k1.
Proof.
  intros P PE B BE L HN Z0 Z1 Hj0 Hj1 Hk0 Hk1. pose proof P as [Hs [P1 P2]]. pose proof PE as [Hes [P3 P4]].
  assert (K01 : k0 <= k1). { assert (k0 - 1 < k1) by (apply k_lt; lia). lia. }
  split; [|exact K01].
  unfold process_se.
  replace ((day =? 0) && (eday =? 0) || (day =? -1) && (eday =? -1)) with false.
  2:{ symmetry. apply orb_false_iff. rewrite !andb_false_iff, !Z.eqb_neq. lia. }
  rewrite !clean_ok by (unfold instant in L; lia). cbn [bind]. change (1 =? 0) with false. cbn [orb].
  replace (eday <? day) with false by (symmetry; apply Z.ltb_ge; unfold instant in L; lia).
  unfold finish_window. destruct (short_std k0 day sec P ltac:(unfold instant in L; lia)) as (o1 & S1). rewrite S1. cbn [bind].
  destruct (short_std k1 eday esec PE ltac:(unfold instant in L; lia)) as (o2 & S2). rewrite S2. cbn [bind].
  rewrite (short_start j0 k0 Hj0 Hk0). cbn [bind]. rewrite (short_start j1 k1 Hj1 Hk1). cbn [bind]. change (0 <=? 0) with true. cbv iota.
  destruct (s_std k0) as [SI SB]. destruct (s_std k1) as [SI1 SB1].
  assert (D0 : -621000 <= s_day k0 <= 729800000).
  { pose proof (g_day _ _ _ _ _ _ _ _ short_grid j0 k0 Hj0 Hk0) as D. pose proof (sday bk j0 ltac:(lia)). pose proof (sday bk (j0 + 1) ltac:(lia)).
    unfold bs in D. fold bk in D. lia. }
  assert (D1 : -621000 <= s_day k1 <= 729800000).
  { pose proof (g_day _ _ _ _ _ _ _ _ short_grid j1 k1 Hj1 Hk1) as D. pose proof (sday bk j1 ltac:(lia)). pose proof (sday bk (j1 + 1) ltac:(lia)).
    unfold bs in D. fold bk in D. lia. }
  rewrite (numberPeriods_short i (k1 - k0)); try lia. 2:{ apply in32_of. lia. }
  cbn [bind]. replace (k1 - k0 + 1 <=? 0) with false by (symmetry; apply Z.leb_gt; lia).
  unfold win. replace (k0 + (k1 - k0 + 1) - 1) with k1 by lia. reflexivity.
Qed.
End Short.
