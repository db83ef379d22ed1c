(** * Lemmas: period counts, regular offsets, comparison. *)
From Coq Require Import ZArith List Bool Lia.
From Verif Require Import Base DateModel DateSpec DateProofs DateProofs2.
Import ListNotations.
Open Scope Z_scope.
Open Scope res_scope.

Ltac Zify.zify_post_hook ::= Z.to_euclidean_division_equations.

Lemma numberPeriods_short i n j s j' s' :
  1 <= i < 864000 -> in32 n -> 0 < s <= 86400 -> 0 < s' <= 86400 ->
  -1000000000 <= j <= 1000000000 -> -1000000000 <= j' <= 1000000000 ->
  instant j' s' = instant j s + n * i ->
  numberPeriods i j s j' s' = Ok n.
Proof.
  unfold instant. intros Hi Hn Hs Hs' Hj Hj' HE. unfold numberPeriods.
  is_false_b (i <? 1). rewrite !cleanSec_fix by (unfold UNDEFINED_TIME; lia). cbn [bind].
  unfold SECS_IN_TRI_MONTH, SECS_IN_1_DAY. is_true_b (i <? 864000). chk.
  replace ((j' - j) * 86400 + (s' - s)) with (n * i) by lia.
  rewrite Z.quot_mul by lia. rewrite wrap32_id by assumption. reflexivity.
Qed.

Lemma endDay_bound k p : 5 <= yearOfPeriod k p <= YMAX -> -693960 <= endDay k p <= 1900000000.
Proof.
  intros H. unfold endDay. pose proof (period_end_valid k p) as V.
  destruct (period_end k p) as [[y m] d]. destruct V as (V & E & _). subst y.
  apply rata_bound; [lia|apply V|eapply valid_d31; eassumption].
Qed.

Lemma numberPeriods_cal k p n :
  5 <= yearOfPeriod k p <= YMAX -> 5 <= yearOfPeriod k (p + n) <= YMAX ->
  numberPeriods (nominal_seconds k) (endDay k p) 86400 (endDay k (p + n)) 86400 = Ok n.
Proof.
  intros H1 H2. pose proof (endDay_bound k p H1) as B1. pose proof (endDay_bound k (p + n) H2) as B2.
  unfold numberPeriods.
  replace (nominal_seconds k <? 1) with false by (destruct k; reflexivity).
  rewrite !cleanSec_fix by (unfold UNDEFINED_TIME; lia). cbn [bind].
  replace (nominal_seconds k <? SECS_IN_TRI_MONTH) with false by (destruct k; reflexivity).
  clear B1 B2. unfold endDay.
  pose proof (period_end_valid k p) as V1. pose proof (period_end_valid k (p + n)) as V2.
  destruct (period_end k p) as [[y1 m1] d1] eqn:P1. destruct (period_end k (p + n)) as [[y2 m2] d2] eqn:P2.
  destruct V1 as (V1 & E1 & O1). destruct V2 as (V2 & E2 & O2). rewrite <- E1 in H1. rewrite <- E2 in H2.
  rewrite !civilOf_rata by assumption. cbn [bind].
  assert (Q1 : m1 = pmonth k m1 /\ d1 = pday k y1 m1 d1).
  { pose proof (period_end_of k y1 m1 d1 (proj1 V1)) as HH. rewrite O1, P1 in HH.
    set (a := pmonth k m1) in *. set (b := pday k y1 m1 d1) in *. clearbody a b. inversion HH. auto. }
  assert (Q2 : m2 = pmonth k m2 /\ d2 = pday k y2 m2 d2).
  { pose proof (period_end_of k y2 m2 d2 (proj1 V2)) as HH. rewrite O2, P2 in HH.
    set (a := pmonth k m2) in *. set (b := pday k y2 m2 d2) in *. clearbody a b. inversion HH. auto. }
  destruct Q1 as [Q1 R1]. destruct Q2 as [Q2 R2].
  pose proof (month_length_bound y1 m1) as L1. pose proof (month_length_bound y2 m2) as L2.
  destruct V1 as [M1 D1]. destruct V2 as [M2 D2]. clear P1 P2.
  assert (G : forall x, x = n -> chk32 x = Ok n).
  { intros x ->. apply chk32_ok. unfold in32, INT_MIN, INT_MAX, YMAX, yearOfPeriod in *.
    destruct k; cbn [periods_per_year] in *; lia. }
  destruct k; cbn [nominal_seconds pmonth pday period_of] in *.
  - change (Z.quot 864000 SECS_IN_1_MINUTE =? SECS_IN_4_HOURS) with true. cbv iota zeta. apply G.
    destruct (d1 <=? 10) eqn:A1, (d1 <=? 20) eqn:A2, (d2 <=? 10) eqn:A3, (d2 <=? 20) eqn:A4; zb; lia.
  - change (Z.quot 1296000 SECS_IN_1_MINUTE =? SECS_IN_4_HOURS) with false.
    change (Z.quot 1296000 SECS_IN_1_MINUTE =? SECS_IN_6_HOURS) with true. cbv iota zeta. apply G.
    destruct (d1 <=? 15) eqn:A1, (d2 <=? 15) eqn:A2; zb; lia.
  - change (Z.quot 2592000 SECS_IN_1_MINUTE =? SECS_IN_4_HOURS) with false.
    change (Z.quot 2592000 SECS_IN_1_MINUTE =? SECS_IN_6_HOURS) with false.
    change ((Z.quot 2592000 SECS_IN_1_MINUTE >? 40000) && (Z.quot 2592000 SECS_IN_1_MINUTE <? 45000)) with true.
    cbv iota zeta. apply G. lia.
  - change (Z.quot 31536000 SECS_IN_1_MINUTE =? SECS_IN_4_HOURS) with false.
    change (Z.quot 31536000 SECS_IN_1_MINUTE =? SECS_IN_6_HOURS) with false.
    change ((Z.quot 31536000 SECS_IN_1_MINUTE >? 40000) && (Z.quot 31536000 SECS_IN_1_MINUTE <? 45000)) with false.
    change ((Z.quot 31536000 SECS_IN_1_MINUTE >? 520000) && (Z.quot 31536000 SECS_IN_1_MINUTE <? 530000)) with true.
    cbv iota zeta. apply G. rewrite R1, R2, Q1, Q2. change (Z.quot (31 - 31) 28) with 0. change (Z.quot 0 12) with 0. lia.
Qed.

(** regular intervals: within a day *)
Ltac Zify.zify_post_hook ::= idtac.

Lemma adjStd_day i j s : 1 <= i <= 86400 -> 86400 mod i = 0 ->
  -1000000000 <= j <= 1000000000 -> 0 < s <= 86400 ->
  exists o j' s', ztsOffsetAdjustToStandard i j s = Ok (o, j', s') /\ ztsOffset i j s = Ok o /\
    o = instant j s mod i /\ instant j' s' mod i = 0 /\
    instant j s <= instant j' s' < instant j s + i /\ 0 < s' <= 86400.
Proof.
  intros Hi Hd Hj Hs.
  assert (Hmul : exists q, 86400 = i * q) by (exists (86400 / i); pose proof (Z.div_mod 86400 i ltac:(lia)); lia).
  destruct Hmul as (q & Hq).
  assert (Hmod : forall a b, (a * 86400 + b) mod i = b mod i).
  { intros a b. rewrite Hq. replace (a * (i * q) + b) with (b + (a * q) * i) by lia. apply Z.mod_add. lia. }
  unfold ztsOffsetAdjustToStandard, ztsOffset.
  is_false_b (i <? 1). rewrite !cleanSec_fix by (unfold UNDEFINED_TIME; lia). cbn [bind].
  rewrite ?cleanSec_fix by (unfold UNDEFINED_TIME; lia). cbn [bind].
  unfold SECS_IN_1_DAY, SECS_IN_1_WEEK. is_true_b (i <=? 86400). cbv zeta. cbn [bind].
  is_true_b (i <=? 604800).
  replace (s - Z.quot s i * i) with (s mod i) by (rewrite Z.quot_div_nonneg by lia; rewrite (Z.mod_eq s i) by lia; lia).
  pose proof (Z.mod_pos_bound s i ltac:(lia)) as B.
  unfold instant. rewrite Hmod.
  destruct (s mod i >? 0) eqn:E; zb.
  - chk. destruct (cleanSec_spec j (s + (i - s mod i))) as (j' & s' & Ec & H1 & H2);
      [lia|lia|unfold in32, INT_MIN, INT_MAX; lia|].
    rewrite Ec. cbn [bind]. unfold instant in H1.
    exists (s mod i), j', s'. split; [reflexivity|]. split; [reflexivity|]. split; [reflexivity|].
    rewrite H1. split; [|lia].
    rewrite Hmod. pose proof (Z.div_mod s i ltac:(lia)) as DM.
    replace (s + (i - s mod i)) with (0 + (s / i + 1) * i) by lia. rewrite Z.mod_add by lia. apply Z.mod_0_l. lia.
  - exists (s mod i), j, s. split; [reflexivity|]. split; [reflexivity|]. split; [reflexivity|].
    rewrite Hmod. lia.
Qed.

Ltac Zify.zify_post_hook ::= Z.to_euclidean_division_equations.

Lemma adjStd_week j s : 0 <= j <= 1000000000 -> 0 < s <= 86400 ->
  exists o j' s', ztsOffsetAdjustToStandard 604800 j s = Ok (o, j', s') /\ ztsOffset 604800 j s = Ok o /\
    o = instant j s mod 604800 /\ instant j' s' mod 604800 = 0 /\
    instant j s <= instant j' s' < instant j s + 604800 /\ 0 < s' <= 86400.
Proof.
  intros Hj Hs.
  unfold ztsOffsetAdjustToStandard, ztsOffset, dayOfWeek. change (604800 <? 1) with false.
  rewrite !cleanSec_fix by (unfold UNDEFINED_TIME; lia). cbn [bind].
  rewrite ?cleanSec_fix by (unfold UNDEFINED_TIME; lia). cbn [bind].
  change (604800 <=? SECS_IN_1_DAY) with false. change (604800 =? SECS_IN_1_WEEK) with true.
  unfold SECS_IN_1_DAY, SECS_IN_1_WEEK. cbv zeta. change (604800 <=? 604800) with true. cbn [bind].
  replace (Z.rem j 7 + 1 - 1) with (j mod 7) by (rewrite Z.rem_mod_nonneg by lia; lia).
  unfold instant.
  destruct (j mod 7 * 86400 + s =? 604800) eqn:E0; zb.
  - change (0 >? 0) with false. exists 0, j, s. split; [reflexivity|]. split; [reflexivity|]. lia.
  - is_true_b (j mod 7 * 86400 + s >? 0). chk.
    destruct (cleanSec_spec j (s + (604800 - (j mod 7 * 86400 + s)))) as (j' & s' & Ec & H1 & H2);
      [lia|lia|unfold in32, INT_MIN, INT_MAX; lia|].
    rewrite Ec. cbn [bind]. unfold instant in H1.
    exists (j mod 7 * 86400 + s), j', s'. split; [reflexivity|]. split; [reflexivity|].
    split; [lia|]. rewrite H1. split; [lia|]. lia.
Qed.

(** comparison *)
Ltac Zify.zify_post_hook ::= idtac.
Lemma compareTimes_spec j1 t1 b1 g1 j2 t2 b2 g2 :
  1 <= g1 <= 86400 -> 86400 mod g1 = 0 -> 1 <= g2 <= 86400 -> 86400 mod g2 = 0 ->
  in32 t1 -> in32 t2 ->
  -1000000000 <= j1 <= 1000000000 -> -1000000000 <= j2 <= 1000000000 ->
  -1000000000 <= b1 <= 1000000000 -> -1000000000 <= b2 <= 1000000000 ->
  INT_MIN + 2200000000 / (86400 / g1) <= j1 + b1 <= INT_MAX - 2200000000 / (86400 / g1) ->
  INT_MIN + 2200000000 / (86400 / g2) <= j2 + b2 <= INT_MAX - 2200000000 / (86400 / g2) ->
  ~ (j1 + b1 = 0 /\ t1 = 0) -> ~ (j2 + b2 = 0 /\ t2 = 0) ->
  compareTimes j1 t1 b1 g1 j2 t2 b2 g2 =
    Ok (match Z.compare (instant (j1 + b1) (t1 * g1)) (instant (j2 + b2) (t2 * g2)) with
        | Lt => -1 | Eq => 0 | Gt => 1 end).
Proof.
  intros G1 D1 G2 D2 T1 T2 J1 J2 B1 B2 R1 R2 N1 N2.
  assert (U : forall g, 1 <= g -> unitsPerDay g = 86400 / g).
  { intros g Hg. unfold unitsPerDay. is_false_b (g <? 1). reflexivity. }
  assert (X : forall j t g, 1 <= g <= 86400 -> 86400 mod g = 0 -> in32 t -> ~ (j = 0 /\ t = 0) ->
     -2000000000 <= j <= 2000000000 ->
     INT_MIN + 2200000000 / (86400 / g) <= j <= INT_MAX - 2200000000 / (86400 / g) ->
     exists j' s', 0 < s' <= 86400 /\ instant j' s' = instant j (t * g) /\
       exists st t0, cleanTime j t g = Ok (st, j', t0) /\ (if g >? 1 then chk32 (t0 * g) else Ok t0) = Ok s').
  { intros j t g Hg Hd Ht Hn Hj Hr.
    destruct (cleanTime_spec j t g) as (j' & t' & E & H1 & H2); auto; rewrite ?U by lia; try lia.
    - unfold UNDEFINED_TIME. lia.
    - rewrite U in * by lia.
      assert (HQ : exists q, 86400 = g * q /\ 86400 / g = q) by (exists (86400 / g); split; [pose proof (Z.div_mod 86400 g ltac:(lia)); lia|reflexivity]).
      destruct HQ as (q & HQ & EQ). rewrite EQ in *.
      assert (HP : 0 < t' * g <= 86400).
      { split; [apply Z.mul_pos_pos; lia|]. rewrite HQ, (Z.mul_comm g q). apply Z.mul_le_mono_nonneg_r; lia. }
      exists j', (t' * g). split; [exact HP|]. split.
      { unfold instant. rewrite HQ. clear - H1. replace (j' * (g * q) + t' * g) with ((j' * q + t') * g) by ring.
        rewrite H1. ring. }
      exists 1, t'. split; [assumption|]. destruct (g >? 1) eqn:EG; zb.
      + apply chk32_ok. unfold in32, INT_MIN, INT_MAX. lia.
      + assert (g = 1) by lia. subst g. f_equal. lia. }
  unfold compareTimes. chk.
  destruct (X (j1 + b1) t1 g1) as (ja & sa & Ha & Ia & sta & ta & Ea & Fa); auto; [lia|].
  destruct (X (j2 + b2) t2 g2) as (jb & sb & Hb & Ib & stb & tb & Eb & Fb); auto; [lia|].
  rewrite Ea. cbn [bind]. rewrite Fa. cbn [bind]. chk. rewrite Eb. cbn [bind]. rewrite Fb. cbn [bind].
  f_equal. rewrite <- Ia, <- Ib. clear - Ha Hb. unfold instant.
  destruct (Z.compare_spec (ja * 86400 + sa) (jb * 86400 + sb));
    destruct (ja <? jb) eqn:E1; zb; try lia; destruct (ja >? jb) eqn:E2; zb; try lia;
    destruct (sa <? sb) eqn:E3; zb; try lia; destruct (sa >? sb) eqn:E4; zb; try lia.
Qed.
