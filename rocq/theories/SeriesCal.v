(** * Lemmas for C46: calendar intervals (thirds of a month, half months, months, years) and their blocks. *)
From Coq Require Import ZArith List Lia Bool.
From Verif Require Import Base DateModel DateSpec DateProofs DateProofs2 DateProofs3 DateProps BlockModel BlockSpec BlockProofs BlockProps
  ArrayLib RegStoreModel RegStoreProofs RegStoreProps SeriesModel SeriesProofs SeriesSpec SeriesHist SeriesGrid.
Import ListNotations.
Open Scope Z_scope.
Open Scope res_scope.
Ltac Zify.zify_post_hook ::= Z.to_euclidean_division_equations.

Section Cal.
Variable ck : calendar_kind.
Definition cblk : block_kind := block_for_interval (nominal_seconds ck).
Definition years : Z := match ck with Year => 100 | _ => 10 end.
Definition ppb : Z := periods_per_year ck * years.
Definition c_idx (b : Z) : Z := ppb * b - 1.
Definition c_bst (b : Z) : Z := bstart cblk b.
Definition c_sec (_ : Z) : Z := 86400.

Lemma c_bst_rata b : c_bst b = rata (years * b) 1 1.
Proof. unfold c_bst, cblk, years. destruct ck; reflexivity. Qed.
Lemma jan_before y : 6 <= y -> endDay ck (periods_per_year ck * y - 1) = rata y 1 1 - 1.
Proof.
  intros Hy. assert (D : rata (y - 1) 12 31 = rata y 1 1 - 1).
  { replace (rata y 1 1) with (rata (y - 1 + 1) 1 1) by (f_equal; lia). rewrite rata_year by lia.
    change 31 with (1 + 30) at 1. rewrite rata_d. lia. }
  unfold endDay. destruct ck; cbn [period_end periods_per_year].
  - replace ((36 * y - 1) / 3 / 12) with (y - 1) by lia. replace (((36 * y - 1) / 3) mod 12 + 1) with 12 by lia.
    replace ((36 * y - 1) mod 3) with 2 by lia. exact D.
  - replace ((24 * y - 1) / 2 / 12) with (y - 1) by lia. replace (((24 * y - 1) / 2) mod 12 + 1) with 12 by lia.
    replace ((24 * y - 1) mod 2) with 1 by lia. exact D.
  - replace ((12 * y - 1) / 12) with (y - 1) by lia. replace ((12 * y - 1) mod 12 + 1) with 12 by lia. exact D.
  - replace (1 * y - 1) with (y - 1) by lia. exact D.
Qed.
Lemma years_pos : 10 <= years <= 100. Proof. unfold years. destruct ck; lia. Qed.
Lemma ppy_pos : 1 <= periods_per_year ck <= 36. Proof. destruct ck; cbn; lia. Qed.
Lemma ppb_pos : 100 <= ppb <= 360. Proof. unfold ppb, years. destruct ck; cbn; lia. Qed.
Lemma c_before b : 1 <= b -> c_bst b - 1 = endDay ck (c_idx b).
Proof.
  intros H. rewrite c_bst_rata. unfold c_idx, ppb. rewrite <- Z.mul_assoc.
  rewrite jan_before; [reflexivity|]. pose proof years_pos. nia.
Qed.
Lemma year_idx b : yearOfPeriod ck (c_idx b) = years * b - 1.
Proof. unfold yearOfPeriod, c_idx, ppb, years. destruct ck; cbn [periods_per_year]; lia. Qed.
Lemma year_mono p p' : p <= p' -> yearOfPeriod ck p <= yearOfPeriod ck p'.
Proof. intros H. unfold yearOfPeriod. pose proof ppy_pos. apply Z.div_le_mono; lia. Qed.
Lemma year_in b p : c_idx b < p <= c_idx (b + 1) -> years * b <= yearOfPeriod ck p < years * (b + 1).
Proof. unfold yearOfPeriod, c_idx, ppb, years. destruct ck; cbn [periods_per_year]; lia. Qed.

Definition clo : Z := match ck with Year => 3 | _ => 21 end.
Definition chi : Z := match ck with Year => 40000 | _ => 400000 end.
Lemma c_range b : clo <= b <= chi -> brange cblk b.
Proof. unfold clo, chi, cblk. destruct ck; cbn; lia. Qed.
Lemma c_years b : clo <= b <= chi -> 210 <= years * b <= 4000000.
Proof. unfold clo, chi, years. destruct ck; cbn -[Z.le Z.lt Z.mul]; lia. Qed.
Lemma c_lo_hi : 1 <= clo < chi. Proof. unfold clo, chi. destruct ck; lia. Qed.

Lemma cal_grid : grid (nominal_seconds ck) (block_code cblk) (endDay ck) c_sec c_bst c_idx clo chi.
Proof.
  pose proof ppb_pos as PB. pose proof c_lo_hi as CL. pose proof years_pos as YP.
  constructor.
  - unfold SECS_IN_1_WEEK. destruct ck; discriminate.
  - intros j Hj. unfold c_idx. lia.
  - intros j Hj. apply bstart_next, c_range. lia.
  - intros j Hj. apply incr_fwd; apply c_range; lia.
  - intros j Hj. rewrite !c_before by lia. unfold SECS_IN_1_DAY.
    pose proof (c_years j ltac:(lia)). pose proof (c_years (j + 1) ltac:(lia)).
    replace (c_idx (j + 1)) with (c_idx j + (c_idx (j + 1) - c_idx j)) at 1 by lia.
    apply numberPeriods_cal; [rewrite year_idx; unfold YMAX; lia|].
    replace (c_idx j + (c_idx (j + 1) - c_idx j)) with (c_idx (j + 1)) by lia. rewrite year_idx; unfold YMAX; lia.
  - intros j k Hj Hk _. rewrite !c_before by lia. unfold SECS_IN_1_DAY, c_sec.
    pose proof (c_years j ltac:(lia)). pose proof (c_years clo ltac:(lia)). pose proof (c_years chi ltac:(lia)).
    replace k with (c_idx j + (k - c_idx j)) at 1 by lia.
    apply numberPeriods_cal; [rewrite year_idx; unfold YMAX; lia|].
    replace (c_idx j + (k - c_idx j)) with k by lia.
    pose proof (year_mono (c_idx clo) k ltac:(lia)) as M1. pose proof (year_mono k (c_idx chi) ltac:(lia)) as M2.
    rewrite year_idx in M1, M2. unfold YMAX. lia.
  - intros j k Hj Hk. pose proof (year_in j k Hk) as Y. rewrite !c_bst_rata. pose proof (c_years j ltac:(lia)).
    unfold endDay. pose proof (period_end_valid ck k) as V. destruct (period_end ck k) as [[y m] d]. destruct V as (V & EY & _).
    rewrite <- EY in Y. pose proof (rata_in_year y m d ltac:(lia) V) as R.
    pose proof (rata_jan_le (years * j) y ltac:(lia)). pose proof (rata_jan_le (y + 1) (years * (j + 1)) ltac:(lia)). lia.
Qed.

Lemma rata_4000000 : rata 4000000 1 1 = 1460276040. Proof. vm_compute. reflexivity. Qed.
Lemma rata_210 : rata 210 1 1 = -617259. Proof. vm_compute. reflexivity. Qed.
Lemma c_day b : clo <= b <= chi -> -617259 <= c_bst b <= 1460276040.
Proof.
  intros H. rewrite c_bst_rata. pose proof (c_years b H). pose proof (rata_jan_le 210 (years * b) ltac:(lia)).
  pose proof (rata_jan_le (years * b) 4000000 ltac:(lia)). rewrite rata_210 in *. rewrite rata_4000000 in *. lia.
Qed.

Lemma cal_start j k : clo <= j < chi -> c_idx j < k <= c_idx (j + 1) ->
  ztsRegGetBlockStart (endDay ck k) (nominal_seconds ck) = Ok (c_bst j, block_code cblk).
Proof.
  intros Hj Hk. pose proof (g_day _ _ _ _ _ _ _ _ cal_grid j k Hj Hk) as D.
  pose proof (c_day j ltac:(lia)) as D1. pose proof (c_day (j + 1) ltac:(lia)) as D2.
  unfold c_bst, cblk in *. apply start_of; try (apply c_range; lia); lia.
Qed.

(** a civil date in period [p] *)
Definition date_in (p day : Z) : Prop :=
  exists y m d, valid_date y m d /\ period_of ck y m d = p /\ 5 <= y <= YMAX /\ rata y m d = day.

Lemma cal_std p day sec : date_in p day -> 0 < sec <= 86400 ->
  exists o, ztsOffsetAdjustToStandard (nominal_seconds ck) day sec = Ok (o, endDay ck p, 86400).
Proof.
  intros (y & m & d & V & P & Y & <-) Hs. destruct (adjStd_cal ck y m d sec Y V Hs) as (o & E & _).
  exists o. rewrite E. pose proof (period_end_of ck y m d (proj1 V)) as Q. rewrite P in Q. unfold endDay. rewrite Q. reflexivity.
Qed.
Lemma date_in_end p : 5 <= yearOfPeriod ck p <= YMAX -> date_in p (endDay ck p).
Proof.
  intros H. unfold endDay. pose proof (period_end_valid ck p) as V. destruct (period_end ck p) as [[y m] d] eqn:E. destruct V as (V & EY & PO).
  exists y, m, d. split; [exact V|]. split; [exact PO|]. split; [rewrite EY; exact H|reflexivity].
Qed.
Lemma clean_ok' day sec : 0 < sec <= 86400 -> -693960 <= day <= 1900000000 -> cleanTime day sec SECOND_GRANULARITY = Ok (1, day, sec).
Proof.
  intros Hs B. unfold cleanTime, UNDEFINED_TIME, SECOND_GRANULARITY, MINUTE_GRANULARITY, SECS_IN_1_DAY.
  replace (day =? -2147483647) with false by (symmetry; apply Z.eqb_neq; lia).
  replace (sec =? 0) with false by (symmetry; apply Z.eqb_neq; lia). rewrite andb_false_r.
  change (1 =? 60) with false. change (1 =? 1) with true. cbn [andb].
  replace (sec >? 0) with true by (symmetry; apply Z.gtb_lt; lia). replace (sec <=? 86400) with true by (symmetry; apply Z.leb_le; lia). reflexivity.
Qed.

Lemma c_k_range k : 210 + years <= yearOfPeriod ck k < 4000000 - years -> c_idx clo < k <= c_idx chi.
Proof.
  intros H. assert (A : c_idx clo = periods_per_year ck * (years * clo) - 1) by (unfold c_idx, ppb; lia).
  assert (B : c_idx chi = periods_per_year ck * (years * chi) - 1) by (unfold c_idx, ppb; lia).
  rewrite A, B. unfold yearOfPeriod, years, clo, chi in *. destruct ck; cbn [periods_per_year] in *; lia.
Qed.
Lemma year_of_range k : c_idx clo < k <= c_idx chi -> 200 <= yearOfPeriod ck k <= 4000000.
Proof.
  intros H. pose proof (year_mono (c_idx clo) k ltac:(lia)) as M1. pose proof (year_mono k (c_idx chi) ltac:(lia)) as M2.
  rewrite year_idx in M1, M2. pose proof c_lo_hi. pose proof (c_years clo ltac:(lia)). pose proof (c_years chi ltac:(lia)). lia.
Qed.

Lemma cal_process k0 n j0 j1 : 0 < n <= 2000000000 ->
  clo <= j0 < chi -> clo <= j1 < chi -> c_idx j0 < k0 <= c_idx (j0 + 1) -> c_idx j1 < k0 + n - 1 <= c_idx (j1 + 1) ->
  process_n (nominal_seconds ck) (endDay ck k0) 86400 n = Ok (Some (win (nominal_seconds ck) (block_code cblk) (endDay ck) c_sec c_bst k0 n j0 j1)).
Proof.
  intros Hn Hj0 Hj1 Hk0 Hk1. pose proof c_lo_hi as CL. pose proof ppb_pos as PB.
  assert (R0 : c_idx clo < k0 <= c_idx chi) by (unfold c_idx in *; nia).
  assert (R1 : c_idx clo < k0 + n - 1 <= c_idx chi) by (unfold c_idx in *; nia).
  pose proof (year_of_range k0 R0) as Y0. pose proof (year_of_range _ R1) as Y1.
  pose proof (endDay_bound ck k0 ltac:(unfold YMAX; lia)) as B0.
  unfold process_n. rewrite clean_ok' by lia. cbn [bind]. unfold isTimeDefined, UNDEFINED_TIME.
  replace (endDay ck k0 =? -2147483647) with false by (symmetry; apply Z.eqb_neq; lia). change (86400 <? 0) with false. cbn [negb andb].
  unfold incrementTime. rewrite incrementTimeF_cal; [|unfold YMAX; lia|replace (k0 + (n - 1)) with (k0 + n - 1) by lia; unfold YMAX; lia].
  cbn [bind]. replace (k0 + (n - 1)) with (k0 + n - 1) by lia.
  unfold finish_window. destruct (cal_std k0 (endDay ck k0) 86400 (date_in_end k0 ltac:(unfold YMAX; lia)) ltac:(lia)) as (o1 & S1). rewrite S1. cbn [bind].
  destruct (cal_std (k0 + n - 1) (endDay ck (k0 + n - 1)) 86400 (date_in_end (k0 + n - 1) ltac:(unfold YMAX; lia)) ltac:(lia)) as (o2 & S2). rewrite S2. cbn [bind].
  rewrite (cal_start j0 k0 Hj0 Hk0). cbn [bind]. rewrite (cal_start j1 _ Hj1 Hk1). cbn [bind].
  replace (n <=? 0) with false by (symmetry; apply Z.leb_gt; lia). reflexivity.
Qed.

Lemma cal_process_se k0 k1 day sec eday esec j0 j1 : date_in k0 day -> date_in k1 eday -> 0 < sec <= 86400 -> 0 < esec <= 86400 ->
  k0 <= k1 -> day <= eday -> ~ (day = 0 /\ eday = 0) -> ~ (day = -1 /\ eday = -1) ->
  clo <= j0 < chi -> clo <= j1 < chi -> c_idx j0 < k0 <= c_idx (j0 + 1) -> c_idx j1 < k1 <= c_idx (j1 + 1) ->
  process_se (nominal_seconds ck) day sec eday esec = Ok (Some (win (nominal_seconds ck) (block_code cblk) (endDay ck) c_sec c_bst k0 (k1 - k0 + 1) j0 j1)).
Proof.
  intros D0 D1 Hs Hes K01 L Z0 Z1 Hj0 Hj1 Hk0 Hk1. pose proof c_lo_hi as CL. pose proof ppb_pos as PB.
  assert (R0 : c_idx clo < k0 <= c_idx chi) by (unfold c_idx in *; nia).
  assert (R1 : c_idx clo < k1 <= c_idx chi) by (unfold c_idx in *; nia).
  pose proof (year_of_range k0 R0) as Y0. pose proof (year_of_range _ R1) as Y1.
  assert (B : forall p x, date_in p x -> -693960 <= x <= 1900000000).
  { intros p x (y & m & d & V & _ & Y & <-). apply rata_bound; [unfold YMAX in *; lia|apply V|eapply valid_d31; exact V]. }
  pose proof (B _ _ D0). pose proof (B _ _ D1).
  unfold process_se.
  replace ((day =? 0) && (eday =? 0) || (day =? -1) && (eday =? -1)) with false.
  2:{ symmetry. apply orb_false_iff. rewrite !andb_false_iff, !Z.eqb_neq. lia. }
  rewrite !clean_ok' by lia. cbn [bind]. change (1 =? 0) with false. cbn [orb].
  replace (eday <? day) with false by (symmetry; apply Z.ltb_ge; lia).
  unfold finish_window. destruct (cal_std k0 day sec D0 Hs) as (o1 & S1). rewrite S1. cbn [bind].
  destruct (cal_std k1 eday esec D1 Hes) as (o2 & S2). rewrite S2. cbn [bind].
  rewrite (cal_start j0 k0 Hj0 Hk0). cbn [bind]. rewrite (cal_start j1 _ Hj1 Hk1). cbn [bind]. change (0 <=? 0) with true. cbv iota.
  pose proof (numberPeriods_cal ck k0 (k1 - k0) ltac:(unfold YMAX; lia)) as NP. replace (k0 + (k1 - k0)) with k1 in NP by lia.
  rewrite NP by (unfold YMAX; lia). cbn [bind]. replace (k1 - k0 + 1 <=? 0) with false by (symmetry; apply Z.leb_gt; lia).
  unfold win, c_sec. replace (k0 + (k1 - k0 + 1) - 1) with k1 by lia. reflexivity.
Qed.
End Cal.
