(** * Lemmas about cleanTime, incrementTime, offsets and period counts. *)
From Coq Require Import ZArith List Bool Lia.
From Verif Require Import Base DateModel DateSpec DateProofs.
Import ListNotations.
Open Scope Z_scope.
Open Scope res_scope.

Ltac Zify.zify_post_hook ::= Z.to_euclidean_division_equations.

Ltac zb := repeat match goal with
  | H : (_ <? _) = true |- _ => apply Z.ltb_lt in H
  | H : (_ <? _) = false |- _ => apply Z.ltb_ge in H
  | H : (_ <=? _) = true |- _ => apply Z.leb_le in H
  | H : (_ <=? _) = false |- _ => apply Z.leb_gt in H
  | H : (_ >? _) = _ |- _ => rewrite Z.gtb_ltb in H
  | H : (_ >=? _) = _ |- _ => rewrite Z.geb_leb in H
  | H : (_ =? _) = true |- _ => apply Z.eqb_eq in H
  | H : (_ =? _) = false |- _ => apply Z.eqb_neq in H
  | H : _ && _ = true |- _ => apply andb_true_iff in H; destruct H
  | H : _ || _ = false |- _ => apply orb_false_iff in H; destruct H
  | H : negb _ = true |- _ => apply negb_true_iff in H
  | H : negb _ = false |- _ => apply negb_false_iff in H
  end.

(** Evaluate a boolean condition by [lia]. *)
Ltac is_true_b b := replace b with true by (symmetry; rewrite ?andb_true_iff, ?orb_true_iff, ?negb_true_iff, ?Z.gtb_ltb, ?Z.geb_leb, ?Z.ltb_lt, ?Z.leb_le, ?Z.eqb_eq, ?Z.eqb_neq; lia).
Ltac is_false_b b := replace b with false by (symmetry; rewrite ?andb_false_iff, ?orb_false_iff, ?negb_false_iff, ?Z.gtb_ltb, ?Z.geb_leb, ?Z.ltb_ge, ?Z.leb_gt, ?Z.eqb_eq, ?Z.eqb_neq; lia).

(** month carry *)
Lemma fixMonth_spec y m : in32 y -> in32 m -> in32 (y + m / 12 - 2) -> in32 (y + m / 12 + 2) ->
  fixMonth y m = Ok (month_shift y 1 (m - 1)).
Proof.
  unfold in32, INT_MIN, INT_MAX. intros Hy Hm H1 H2.
  unfold fixMonth, month_shift. replace (1 - 1 + (m - 1)) with (m - 1) by lia.
  destruct ((m <? 1) || (m >? 12)) eqn:E.
  - chk. destruct (m - Z.quot m 12 * 12 <? 1) eqn:E2; zb.
    + chk. f_equal. f_equal; lia.
    + f_equal. f_equal; lia.
  - zb. f_equal. f_equal; lia.
Qed.

Lemma ymd_shift y m d : in32 y -> in32 m ->
  let '(y', m') := month_shift y 1 (m - 1) in
  1 <= y' <= YMAX + 2 -> -100000000 <= d <= 100000000 ->
  yearMonthDayToJulian y m d = Ok (rata y' m' d).
Proof.
  intros Hy Hm. unfold month_shift. replace (1 - 1 + (m - 1)) with (m - 1) by lia.
  intros Hy' Hd.
  assert (HM : 1 <= (m - 1) mod 12 + 1 <= 12) by lia.
  rewrite <- (ymd_rata _ _ d Hy' HM Hd).
  unfold yearMonthDayToJulian.
  rewrite fixMonth_spec by (auto; unfold in32, INT_MIN, INT_MAX, YMAX in *; lia).
  rewrite fixMonth_id by assumption.
  unfold month_shift. replace (1 - 1 + (m - 1)) with (m - 1) by lia. reflexivity.
Qed.

(** ** cleanTime *)
Definition unitsPerDay (g : Z) : Z := 86400 / (if g <? 1 then 60 else g).

Lemma cleanTime_spec j t g : g <= 86400 ->
  j <> UNDEFINED_TIME -> ~ (j = 0 /\ t = 0) -> in32 t ->
  INT_MIN + 2200000000 / unitsPerDay g <= j <= INT_MAX - 2200000000 / unitsPerDay g ->
  exists j' t', cleanTime j t g = Ok (1, j', t') /\
    j' * unitsPerDay g + t' = j * unitsPerDay g + t /\ 0 < t' <= unitsPerDay g.
Proof.
  unfold in32, INT_MIN, INT_MAX, UNDEFINED_TIME. intros Hg Hu H0 Ht Hj.
  assert (HL : 1 <= unitsPerDay g <= 86400).
  { unfold unitsPerDay. destruct (g <? 1) eqn:E; zb; [change (86400 / 60) with 1440; lia|]. nia. }
  unfold cleanTime, UNDEFINED_TIME.
  is_false_b (j =? -2147483647).
  replace ((j =? 0) && (t =? 0)) with false.
  2:{ symmetry. apply andb_false_iff. rewrite !Z.eqb_neq. lia. }
  destruct ((g =? MINUTE_GRANULARITY) && _) eqn:E1.
  { zb. exists j, t. unfold MINUTE_GRANULARITY, MINS_IN_1_DAY in *. subst g. unfold unitsPerDay.
    split; [reflexivity|]. cbn -[Z.mul]. lia. }
  destruct ((g =? SECOND_GRANULARITY) && _) eqn:E2.
  { zb. exists j, t. unfold SECOND_GRANULARITY, SECS_IN_1_DAY in *. subst g. unfold unitsPerDay.
    split; [reflexivity|]. cbn -[Z.mul]. lia. }
  assert (HD : (if (if g <? 1 then MINUTE_GRANULARITY else g) =? MINUTE_GRANULARITY then MINS_IN_1_DAY
     else if (if g <? 1 then MINUTE_GRANULARITY else g) =? SECOND_GRANULARITY then SECS_IN_1_DAY
     else Z.quot SECS_IN_1_DAY (if g <? 1 then MINUTE_GRANULARITY else g)) = unitsPerDay g).
  { unfold unitsPerDay, MINUTE_GRANULARITY, SECOND_GRANULARITY, MINS_IN_1_DAY, SECS_IN_1_DAY.
    destruct (g <? 1) eqn:E; [reflexivity|]. zb.
    destruct (g =? 60) eqn:E60; zb; [subst; reflexivity|].
    destruct (g =? 1) eqn:E61; zb; [subst; reflexivity|]. apply Z.quot_div_nonneg; lia. }
  cbv zeta. rewrite HD. clear HD E1 E2. set (L := unitsPerDay g) in *. clearbody L.
  destruct ((t >? 0) && _) eqn:E3; [zb; exists j, t; split; [reflexivity|]; lia|].
  assert (Ht' : t <= 0 \/ L < t).
  { apply andb_false_iff in E3. destruct E3 as [E3|E3]; [zb; lia|].
    apply andb_false_iff in E3. destruct E3 as [E3|E3]; zb; lia. }
  is_false_b (L =? 0).
  assert (HB : 2147483648 / L + 2 <= 2200000000 / L).
  { rewrite <- Z.div_add by lia. apply Z.div_le_mono; lia. }
  assert (Hq : - (2200000000 / L) + 2 <= Z.quot t L <= 2200000000 / L - 2).
  { assert (P0 : 0 <= 2147483648 / L) by (apply Z.div_pos; lia).
    destruct (Z_le_gt_dec 0 t).
    - rewrite Z.quot_div_nonneg by lia.
      assert (P1 : t / L <= 2147483648 / L) by (apply Z.div_le_mono; lia).
      assert (P2 : 0 <= t / L) by (apply Z.div_pos; lia).
      clear - P0 P1 P2 HB.
      generalize dependent (2200000000 / L); generalize dependent (2147483648 / L); generalize dependent (t / L); intros; lia.
    - replace t with (- - t) by lia. rewrite Z.quot_opp_l by lia. rewrite Z.quot_div_nonneg by lia.
      assert (P1 : - t / L <= 2147483648 / L) by (apply Z.div_le_mono; lia).
      assert (P2 : 0 <= - t / L) by (apply Z.div_pos; lia).
      clear - P0 P1 P2 HB.
      generalize dependent (2200000000 / L); generalize dependent (2147483648 / L); generalize dependent (- t / L); intros; lia. }
  assert (Hqt : t = L * Z.quot t L + Z.rem t L) by (apply Z.quot_rem'; lia).
  assert (Hr : 0 <= t -> 0 <= Z.rem t L < L) by (intros; apply Z.rem_bound_pos; lia).
  assert (Hr' : t <= 0 -> - L < Z.rem t L <= 0) by (intros; pose proof (Z.rem_bound_pos (- t) L ltac:(lia) ltac:(lia)) as Hn; rewrite Z.rem_opp_l in Hn by lia; lia).
  set (q := Z.quot t L) in *. set (r := Z.rem t L) in *. clearbody q r.
  assert (Hqq : L < t -> 0 < q) by (intros; specialize (Hr ltac:(lia)); clear - H Hqt Hr HL; nia).
  assert (Hsgn : t <= 0 -> q <= 0) by (intros; specialize (Hr' ltac:(lia)); clear - H Hqt Hr' HL; nia).
  clear HB.
  set (B := 2200000000 / L) in *. clearbody B. cbv zeta.
  destruct (q >? 0) eqn:Eq; zb.
  - rewrite chk32_ok by (unfold in32, INT_MIN, INT_MAX; lia). cbn [bind fst snd].
    destruct (t - q * L =? 0) eqn:Ez; zb.
    + rewrite chk32_ok by (unfold in32, INT_MIN, INT_MAX; lia). cbn [bind].
      exists (j + q - 1), L. split; [reflexivity|]. split; [lia|lia].
    + exists (j + q), (t - q * L). split; [reflexivity|]. lia.
  - rewrite chk32_ok by (unfold in32, INT_MIN, INT_MAX; lia). cbn [bind fst snd].
    is_false_b (t - q * L + L =? 0).
    exists (j + (q - 1)), (t - q * L + L). split; [reflexivity|]. lia.
Qed.

Lemma cleanTime_fix j t g : g <= 86400 -> j <> UNDEFINED_TIME -> 0 < t <= unitsPerDay g ->
  cleanTime j t g = Ok (1, j, t).
Proof.
  unfold UNDEFINED_TIME. intros Hg Hj Ht. unfold cleanTime, UNDEFINED_TIME.
  is_false_b (j =? -2147483647).
  replace ((j =? 0) && (t =? 0)) with false.
  2:{ symmetry. apply andb_false_iff. rewrite !Z.eqb_neq. lia. }
  destruct ((g =? MINUTE_GRANULARITY) && _) eqn:E1; [reflexivity|].
  destruct ((g =? SECOND_GRANULARITY) && _) eqn:E2; [reflexivity|].
  assert (HD : (if (if g <? 1 then MINUTE_GRANULARITY else g) =? MINUTE_GRANULARITY then MINS_IN_1_DAY
     else if (if g <? 1 then MINUTE_GRANULARITY else g) =? SECOND_GRANULARITY then SECS_IN_1_DAY
     else Z.quot SECS_IN_1_DAY (if g <? 1 then MINUTE_GRANULARITY else g)) = unitsPerDay g).
  { unfold unitsPerDay, MINUTE_GRANULARITY, SECOND_GRANULARITY, MINS_IN_1_DAY, SECS_IN_1_DAY.
    destruct (g <? 1) eqn:E; [reflexivity|]. zb.
    destruct (g =? 60) eqn:E60; zb; [subst; reflexivity|].
    destruct (g =? 1) eqn:E61; zb; [subst; reflexivity|]. apply Z.quot_div_nonneg; lia. }
  cbv zeta. rewrite HD.
  is_true_b (t >? 0). is_true_b (t <=? unitsPerDay g). reflexivity.
Qed.

Lemma unitsPerDay_1 : unitsPerDay 1 = 86400. Proof. reflexivity. Qed.

Lemma cleanSec_fix j t : j <> UNDEFINED_TIME -> 0 < t <= 86400 -> cleanSec j t = Ok (j, t).
Proof.
  intros Hj Ht. unfold cleanSec, SECOND_GRANULARITY. rewrite cleanTime_fix; [reflexivity|lia|assumption|].
  rewrite unitsPerDay_1. assumption.
Qed.

Lemma cleanSec_spec j t : -2147400000 <= j <= 2147400000 -> ~ (j = 0 /\ t = 0) -> in32 t ->
  exists j' t', cleanSec j t = Ok (j', t') /\ instant j' t' = instant j t /\ 0 < t' <= 86400.
Proof.
  intros Hj H0 Ht. unfold cleanSec, SECOND_GRANULARITY, instant.
  destruct (cleanTime_spec j t 1) as (j' & t' & E & H1 & H2); auto; rewrite ?unitsPerDay_1; try lia;
    try (unfold UNDEFINED_TIME, INT_MIN, INT_MAX; lia).
  exists j', t'. rewrite E. split; [reflexivity|]. rewrite unitsPerDay_1 in *. lia.
Qed.

Lemma instant_inj j s j' s' : 0 < s <= 86400 -> 0 < s' <= 86400 -> instant j s = instant j' s' -> j = j' /\ s = s'.
Proof. unfold instant. lia. Qed.

(** ** short increments *)
Lemma incrementTimeF_short f i n j s :
  1 <= i < 864000 -> in32 n -> -2000000000 <= s <= 2000000000 ->
  -1000000000 <= j <= 1000000000 ->
  - 86400 * 1000000000 <= i * n <= 86400 * 1000000000 ->
  ~ (j = 0 /\ s + i * n = 0) ->
  exists j' s', incrementTimeF (S f) i n j s = Ok (0, j', s') /\
    instant j' s' = instant j s + n * i /\ 0 < s' <= 86400.
Proof.
  unfold in32, INT_MIN, INT_MAX. intros Hi Hn Hs Hj Hp H0. cbn [incrementTimeF].
  is_false_b (i <? 1). unfold SECS_IN_TRI_MONTH, SECS_IN_1_DAY. is_true_b (i <? 864000).
  set (p := i * n) in *. assert (Hpn : n * i = p) by (unfold p; lia). clearbody p.
  cbv zeta.
  destruct ((p + s <? - (86400)) || (p + s >? 86400)) eqn:E.
  - assert (Hl : p + s < -86400 \/ 86400 < p + s) by (apply orb_true_iff in E; destruct E; zb; lia).
    rewrite (wrap32_id (Z.quot (p + s) 86400)) by (unfold in32, INT_MIN, INT_MAX; lia).
    rewrite (wrap32_id (p + s - _)) by (unfold in32, INT_MIN, INT_MAX; lia).
    set (q := Z.quot (p + s) 86400). assert (Hq : -1100000000 <= q <= 1100000000) by (unfold q; lia).
    set (r := p + s - q * 86400). assert (Hr : -86400 < r < 86400) by (unfold r, q; lia).
    assert (Hqr : q * 86400 + r = p + s) by (unfold r; lia). clearbody q r.
    destruct (r <? 1) eqn:Er; zb.
    + chk. destruct (cleanSec_spec (j + (q - 1)) (r + 86400)) as (j' & s' & Ec & H1 & H2);
        [lia|lia|unfold in32, INT_MIN, INT_MAX; lia|].
      rewrite Ec. cbn [bind]. exists j', s'. split; [reflexivity|]. split; [|assumption].
      rewrite H1. unfold instant. lia.
    + cbn [bind]. chk. destruct (cleanSec_spec (j + q) r) as (j' & s' & Ec & H1 & H2);
        [lia|lia|unfold in32, INT_MIN, INT_MAX; lia|].
      rewrite Ec. cbn [bind]. exists j', s'. split; [reflexivity|]. split; [|assumption].
      rewrite H1. unfold instant. lia.
  - zb. chk.
    destruct (cleanSec_spec j (s + p)) as (j' & s' & Ec & K1 & K2);
        [lia|lia|unfold in32, INT_MIN, INT_MAX; lia|].
    rewrite Ec. cbn [bind]. exists j', s'. split; [reflexivity|]. split; [|assumption].
    rewrite K1. unfold instant. lia.
Qed.

(** ** calendar intervals *)
Lemma rata_bound y m d : 1 <= y <= YMAX + 1 -> 1 <= m <= 12 -> 1 <= d <= 31 ->
  -693960 <= rata y m d <= 1900000000.
Proof.
  intros Hy Hm Hd. unfold rata. pose proof (cumDays_bound m Hm). pose proof (leapsBefore_bound y ltac:(unfold YMAX in *; lia)).
  unfold YMAX in *. destruct (leap y && (m >? 2)); lia.
Qed.

Lemma valid_d31 y m d : valid_date y m d -> 1 <= d <= 31.
Proof. intros [_ H]. pose proof (month_length_bound y m). lia. Qed.

Lemma civilOf_rata y m d : 5 <= y <= YMAX -> valid_date y m d -> civilOf (rata y m d) = Ok (y, m, d).
Proof. intros Hy Hv. unfold civilOf. rewrite j2ymd_rata by assumption. reflexivity. Qed.

Definition endDay (k : calendar_kind) (p : Z) : Z := let '(y, m, d) := period_end k p in rata y m d.

Definition yearOfPeriod (k : calendar_kind) (p : Z) : Z := p / periods_per_year k.

Lemma period_end_valid k p : let '(y, m, d) := period_end k p in
  valid_date y m d /\ y = yearOfPeriod k p /\ period_of k y m d = p.
Proof.
  unfold valid_date, yearOfPeriod, period_of.
  destruct k; cbn [period_end periods_per_year].
  - pose proof (month_length_bound (p / 3 / 12) ((p / 3) mod 12 + 1)) as B.
    generalize dependent (month_length (p / 3 / 12) ((p / 3) mod 12 + 1)). intros L B.
    destruct (p mod 3 =? 0) eqn:E0; [|destruct (p mod 3 =? 1) eqn:E1]; zb.
    + change (10 <=? 10) with true. cbv iota. lia.
    + change (20 <=? 10) with false. change (20 <=? 20) with true. cbv iota. lia.
    + is_false_b (L <=? 10). is_false_b (L <=? 20). lia.
  - pose proof (month_length_bound (p / 2 / 12) ((p / 2) mod 12 + 1)) as B.
    generalize dependent (month_length (p / 2 / 12) ((p / 2) mod 12 + 1)). intros L B.
    destruct (p mod 2 =? 0) eqn:E0; zb.
    + change (15 <=? 15) with true. cbv iota. lia.
    + is_false_b (L <=? 15). lia.
  - pose proof (month_length_bound (p / 12) (p mod 12 + 1)) as B.
    generalize dependent (month_length (p / 12) (p mod 12 + 1)). intros L B. lia.
  - change (month_length p 12) with 31. lia.
Qed.

Lemma month_length_eq2 y : 28 <= month_length y 2 <= 29.
Proof. unfold month_length. cbn. destruct (leap y); lia. Qed.
Lemma month_length_ne2 y m : m <> 2 -> 30 <= month_length y m <= 31.
Proof.
  intros H. unfold month_length. is_false_b (m =? 2).
  destruct ((m =? 4) || (m =? 6) || (m =? 9) || (m =? 11)); lia.
Qed.

Lemma div_mod_unique12 y m a : 1 <= m <= 12 -> 0 <= a ->
  (12 * y + (m - 1)) / 12 = y /\ (12 * y + (m - 1)) mod 12 = m - 1.
Proof. lia. Qed.

(** the end of the period containing a date, spelled out *)
Definition pmonth (k : calendar_kind) (m : Z) : Z := match k with Year => 12 | _ => m end.
Definition pday (k : calendar_kind) (y m d : Z) : Z :=
  match k with
  | Year => 31
  | Month => month_length y m
  | SemiMonth => if d <=? 15 then 15 else month_length y m
  | TriMonth => if d <=? 10 then 10 else if d <=? 20 then 20 else month_length y m
  end.

Lemma period_end_of k y m d : 1 <= m <= 12 ->
  period_end k (period_of k y m d) = (y, pmonth k m, pday k y m d).
Proof.
  intros Hm.
  destruct k; cbn [period_of period_end pmonth pday]; try reflexivity.
  - set (b := if d <=? 10 then 0 else if d <=? 20 then 1 else 2).
    assert (Hb : 0 <= b <= 2) by (unfold b; destruct (d <=? 10), (d <=? 20); lia).
    replace ((3 * (12 * y + (m - 1)) + b) / 3) with (12 * y + (m - 1)) by lia.
    replace ((3 * (12 * y + (m - 1)) + b) mod 3) with b by lia.
    replace ((12 * y + (m - 1)) / 12) with y by lia.
    replace ((12 * y + (m - 1)) mod 12 + 1) with m by lia.
    unfold b. destruct (d <=? 10), (d <=? 20); reflexivity.
  - set (b := if d <=? 15 then 0 else 1).
    assert (Hb : 0 <= b <= 1) by (unfold b; destruct (d <=? 15); lia).
    replace ((2 * (12 * y + (m - 1)) + b) / 2) with (12 * y + (m - 1)) by lia.
    replace ((2 * (12 * y + (m - 1)) + b) mod 2) with b by lia.
    replace ((12 * y + (m - 1)) / 12) with y by lia.
    replace ((12 * y + (m - 1)) mod 12 + 1) with m by lia.
    unfold b. destruct (d <=? 15); reflexivity.
  - replace ((12 * y + (m - 1)) / 12) with y by lia.
    replace ((12 * y + (m - 1)) mod 12 + 1) with m by lia. reflexivity.
Qed.

(** the offset of a time: zero at period ends, non-negative otherwise *)
Lemma ztsOffset_cal k y m d s : 5 <= y <= YMAX -> valid_date y m d -> 0 < s <= 86400 ->
  exists o, ztsOffset (nominal_seconds k) (rata y m d) s = Ok o /\ 0 <= o <= 366 * 86400 /\
    (m = pmonth k m -> d = pday k y m d -> o = 0).
Proof.
  intros Hy Hv Hs. pose proof Hv as [Hm Hd]. pose proof (valid_d31 _ _ _ Hv) as Hd31.
  pose proof (rata_bound y m d ltac:(lia) Hm Hd31) as HB.
  unfold ztsOffset.
  replace (nominal_seconds k <? 1) with false by (destruct k; reflexivity).
  rewrite cleanSec_fix by (unfold UNDEFINED_TIME; lia). cbn [bind].
  replace (nominal_seconds k <=? SECS_IN_1_DAY) with false by (destruct k; reflexivity).
  replace (nominal_seconds k =? SECS_IN_1_WEEK) with false by (destruct k; reflexivity).
  rewrite civilOf_rata by assumption. cbn [bind].
  assert (HF : forall d', 1 <= d' <= 31 ->
     (let* julBeg := yearMonthDayToJulian y m 1 in
            let* d0 := chk32 (rata y m d' - julBeg) in
            let* m0 := chk32 (d0 * SECS_IN_1_DAY) in
            chk32 (m0 + s)) = Ok ((d' - 1) * 86400 + s)).
  { intros d' Hd'. rewrite ymd_rata by (unfold YMAX in *; lia). cbn [bind].
    replace d' with (1 + (d' - 1)) by lia. rewrite rata_d. unfold SECS_IN_1_DAY, YMAX in *. chk.
    f_equal. lia. }
  destruct (Z.eq_dec m 2) as [M2|M2].
  - subst m. pose proof (month_length_eq2 y) as ML.
    destruct k; cbn [nominal_seconds pday pmonth]; cbn -[yearMonthDayToJulian rata chk32 bind month_length Z.mul Z.add Z.sub].
    + destruct (d >=? 28) eqn:E28; [exists 0; split; [reflexivity|]; split; [lia|]; intros; reflexivity|]. zb.
      destruct ((d =? 9) || (d =? 10)) eqn:E1; [exists 0; split; [reflexivity|]; split; [lia|]; intros; reflexivity|].
      destruct ((d =? 19) || (d =? 20)) eqn:E2; [exists 0; split; [reflexivity|]; split; [lia|]; intros; reflexivity|]. zb.
      destruct (d >? 20) eqn:E3; [|destruct (d >? 10) eqn:E4]; zb;
        rewrite ymd_rata by (unfold YMAX in *; lia); cbn [bind]; rewrite HF by lia;
        eexists; (split; [reflexivity|]); (split; [lia|]); destruct (d <=? 10) eqn:?, (d <=? 20) eqn:?; zb; lia.
    + destruct (d >=? 28) eqn:E28; [exists 0; split; [reflexivity|]; split; [lia|]; intros; reflexivity|]. zb.
      destruct ((d =? 14) || (d =? 15)) eqn:E1; [exists 0; split; [reflexivity|]; split; [lia|]; intros; reflexivity|]. zb.
      destruct (d >? 15) eqn:E3; zb;
        rewrite ymd_rata by (unfold YMAX in *; lia); cbn [bind]; rewrite HF by lia;
        eexists; (split; [reflexivity|]); (split; [lia|]); destruct (d <=? 15) eqn:?; zb; lia.
    + destruct (d >=? 28) eqn:E28; [exists 0; split; [reflexivity|]; split; [lia|]; intros; reflexivity|]. zb.
      rewrite HF by lia. eexists; (split; [reflexivity|]); (split; [lia|]). lia.
    + rewrite ymd_rata by (unfold YMAX in *; lia). cbn [bind].
      rewrite isLeapYear_leap.
      pose proof (rata_in_year y 2 d ltac:(lia) Hv) as HI. pose proof (rata_jan_next y ltac:(lia)) as HN.
      assert (HL : (if leap y then if y >? 0 then 0 else 0 else 0) = 0) by (destruct (leap y), (y >? 0); reflexivity).
      rewrite HL. assert (HN' : (if leap y then 366 else 365) <= 366) by (destruct (leap y); lia).
      unfold SECS_IN_1_DAY, YMAX in *. chk. eexists; (split; [reflexivity|]); (split; [lia|]). lia.
  - pose proof (month_length_ne2 y m M2) as ML.
    replace (m =? 2) with false by (symmetry; apply Z.eqb_neq; assumption).
    destruct k; cbn [nominal_seconds pday pmonth]; cbn -[yearMonthDayToJulian rata chk32 bind month_length Z.mul Z.add Z.sub].
    + destruct ((d =? 30) || (d =? 31)) eqn:E28; [exists 0; split; [reflexivity|]; split; [lia|]; intros; reflexivity|]. zb.
      destruct ((d =? 9) || (d =? 10)) eqn:E1; [exists 0; split; [reflexivity|]; split; [lia|]; intros; reflexivity|].
      destruct ((d =? 19) || (d =? 20)) eqn:E2; [exists 0; split; [reflexivity|]; split; [lia|]; intros; reflexivity|]. zb.
      destruct (d >? 20) eqn:E3; [|destruct (d >? 10) eqn:E4]; zb;
        rewrite ymd_rata by (unfold YMAX in *; lia); cbn [bind]; rewrite HF by lia;
        eexists; (split; [reflexivity|]); (split; [lia|]); destruct (d <=? 10) eqn:?, (d <=? 20) eqn:?; zb; lia.
    + destruct ((d =? 30) || (d =? 31)) eqn:E28; [exists 0; split; [reflexivity|]; split; [lia|]; intros; reflexivity|]. zb.
      destruct ((d =? 14) || (d =? 15)) eqn:E1; [exists 0; split; [reflexivity|]; split; [lia|]; intros; reflexivity|]. zb.
      destruct (d >? 15) eqn:E3; zb;
        rewrite ymd_rata by (unfold YMAX in *; lia); cbn [bind]; rewrite HF by lia;
        eexists; (split; [reflexivity|]); (split; [lia|]); destruct (d <=? 15) eqn:?; zb; lia.
    + destruct ((d =? 30) || (d =? 31)) eqn:E28; [exists 0; split; [reflexivity|]; split; [lia|]; intros; reflexivity|]. zb.
      rewrite HF by lia. eexists; (split; [reflexivity|]); (split; [lia|]). lia.
    + destruct ((m =? 12) && (d =? 31)) eqn:E12; [exists 0; split; [reflexivity|]; split; [lia|]; intros; reflexivity|].
      rewrite ymd_rata by (unfold YMAX in *; lia). cbn [bind].
      rewrite isLeapYear_leap.
      pose proof (rata_in_year y m d ltac:(lia) Hv) as HI. pose proof (rata_jan_next y ltac:(lia)) as HN.
      is_true_b (y >? 0).
      assert (HL : 0 <= (if leap y then if m >? 2 then 1 else 0 else 0) <= rata y m d - rata y 1 1).
      { destruct (leap y); [|lia]. destruct (m >? 2) eqn:EM; [|lia]. zb.
        assert (rata y 2 1 <= rata y m d) by (apply (rata_in_month y m d Hv); lia).
        pose proof (rata_month y 1 1 ltac:(lia)) as RM. change (1 + 1) with 2 in RM.
        change (month_length y 1) with 31 in RM. lia. }
      set (lp := if leap y then if m >? 2 then 1 else 0 else 0) in *. clearbody lp.
      assert (HN' : (if leap y then 366 else 365) <= 366) by (destruct (leap y); lia).
      unfold SECS_IN_1_DAY, YMAX in *. chk. eexists; (split; [reflexivity|]); (split; [lia|]).
      intros -> ->. exfalso. cbn in E12. discriminate.
Qed.

Lemma rata_month_end y m : 5 <= y <= YMAX -> 1 <= m <= 12 ->
  (let* j := yearMonthDayToJulian y (m + 1) 1 in chk32 (j - 1)) = Ok (rata y m (month_length y m)).
Proof.
  intros Hy Hm. pose proof (rata_bound y m 1 ltac:(lia) Hm ltac:(lia)) as B.
  pose proof (month_length_bound y m) as BL.
  assert (E : yearMonthDayToJulian y (m + 1) 1 = Ok (rata y m 1 + month_length y m)).
  { destruct (Z.eq_dec m 12) as [->|Hne].
    - pose proof (ymd_shift y (12 + 1) 1) as H. unfold month_shift in H. cbn -[Z.add Z.mul rata] in H.
      change (1 - 1 + (12 + 1 - 1)) with 12 in H. change (12 / 12) with 1 in H. change (12 mod 12 + 1) with 1 in H.
      rewrite H by (unfold in32, INT_MIN, INT_MAX, YMAX in *; lia).
      rewrite rata_year by lia. reflexivity.
    - rewrite ymd_rata by (unfold YMAX in *; lia). rewrite rata_month by lia. reflexivity. }
  rewrite E. cbn [bind]. chk. f_equal.
  replace (rata y m (month_length y m)) with (rata y m (1 + (month_length y m - 1))) by (f_equal; lia).
  rewrite rata_d. lia.
Qed.

Lemma pday_bounds k y m d : valid_date y m d -> valid_date y (pmonth k m) (pday k y m d).
Proof.
  intros [Hm Hd]. pose proof (month_length_bound y m) as BL. unfold valid_date.
  destruct k; cbn [pmonth pday].
  - destruct (d <=? 10), (d <=? 20); lia.
  - destruct (d <=? 15); lia.
  - lia.
  - change (month_length y 12) with 31. lia.
Qed.

Lemma adjStd_cal k y m d s : 5 <= y <= YMAX -> valid_date y m d -> 0 < s <= 86400 ->
  exists o, ztsOffsetAdjustToStandard (nominal_seconds k) (rata y m d) s
            = Ok (o, rata y (pmonth k m) (pday k y m d), 86400) /\ 0 <= o <= 366 * 86400 /\
    (m = pmonth k m -> d = pday k y m d -> o = 0) /\ ztsOffset (nominal_seconds k) (rata y m d) s = Ok o.
Proof.
  intros Hy Hv Hs. pose proof Hv as [Hm Hd]. pose proof (valid_d31 _ _ _ Hv) as Hd31.
  pose proof (rata_bound y m d ltac:(lia) Hm Hd31) as HB.
  destruct (ztsOffset_cal k y m d s Hy Hv Hs) as (o & Eo & Ho & Hz).
  exists o. split; [|auto].
  unfold ztsOffsetAdjustToStandard.
  replace (nominal_seconds k <? 1) with false by (destruct k; reflexivity).
  rewrite cleanSec_fix by (unfold UNDEFINED_TIME; lia). cbn [bind].
  rewrite Eo. cbn [bind].
  replace (nominal_seconds k <=? SECS_IN_1_WEEK) with false by (destruct k; reflexivity).
  rewrite civilOf_rata by assumption. cbn [bind].
  destruct k; cbn [nominal_seconds pmonth pday]; cbn -[yearMonthDayToJulian rata chk32 bind month_length Z.mul Z.add Z.sub].
  - destruct (d <=? 10) eqn:E1; [|destruct (d <=? 20) eqn:E2]; cbn -[yearMonthDayToJulian rata chk32 bind month_length Z.mul Z.add Z.sub].
    + rewrite ymd_rata by (unfold YMAX in *; lia). reflexivity.
    + rewrite ymd_rata by (unfold YMAX in *; lia). reflexivity.
    + rewrite rata_month_end by assumption. reflexivity.
  - destruct (d <=? 15) eqn:E1; cbn -[yearMonthDayToJulian rata chk32 bind month_length Z.mul Z.add Z.sub].
    + rewrite ymd_rata by (unfold YMAX in *; lia). reflexivity.
    + rewrite rata_month_end by assumption. reflexivity.
  - rewrite rata_month_end by assumption. reflexivity.
  - rewrite ymd_rata by (unfold YMAX in *; lia). reflexivity.
Qed.

Lemma endDay_of k y m d : 1 <= m <= 12 -> endDay k (period_of k y m d) = rata y (pmonth k m) (pday k y m d).
Proof. intros H. unfold endDay. rewrite period_end_of by assumption. reflexivity. Qed.

(** last step of an increment: month count [T], day 1..28 *)
Lemma finish_cal k y' m' d' T : in32 y' -> in32 m' -> 12 * y' + (m' - 1) = T -> 1 <= d' <= 28 ->
  5 <= T / 12 <= YMAX ->
  exists o j, yearMonthDayToJulian y' m' d' = Ok j /\
    ztsOffsetAdjustToStandard (nominal_seconds k) j 86400 =
      Ok (o, endDay k (period_of k (T / 12) (T mod 12 + 1) d'), 86400).
Proof.
  intros Hy Hm HT Hd HY.
  pose proof (ymd_shift y' m' d' Hy Hm) as H. unfold month_shift in H.
  replace (y' + (1 - 1 + (m' - 1)) / 12) with (T / 12) in H by lia.
  replace ((1 - 1 + (m' - 1)) mod 12) with (T mod 12) in H by lia.
  assert (HV : valid_date (T / 12) (T mod 12 + 1) d').
  { split; [lia|]. pose proof (month_length_bound (T / 12) (T mod 12 + 1)). lia. }
  destruct (adjStd_cal k (T / 12) (T mod 12 + 1) d' 86400 HY HV ltac:(lia)) as (o & E & _).
  exists o, (rata (T / 12) (T mod 12 + 1) d'). split.
  - apply H; unfold YMAX in *; lia.
  - rewrite E. rewrite endDay_of by lia. reflexivity.
Qed.

Lemma incrementTimeF_cal f k p n :
  6 <= yearOfPeriod k p <= YMAX - 1 -> 6 <= yearOfPeriod k (p + n) <= YMAX - 1 ->
  incrementTimeF (S f) (nominal_seconds k) n (endDay k p) 86400 = Ok (0, endDay k (p + n), 86400).
Proof.
  intros Hp Hpn.
  pose proof (period_end_valid k p) as PV. unfold endDay at 1.
  destruct (period_end k p) as [[y m] d] eqn:EP. destruct PV as (Hv & Hyp & Hof).
  rewrite <- Hyp in Hp.
  assert (HE : m = pmonth k m /\ d = pday k y m d).
  { pose proof (period_end_of k y m d (proj1 Hv)) as HH. rewrite Hof, EP in HH.
    set (a := pmonth k m) in *. set (b := pday k y m d) in *. clearbody a b. inversion HH. auto. }
  destruct HE as [HE1 HE2]. pose proof Hv as [Hm Hd].
  cbn [incrementTimeF].
  replace (nominal_seconds k <? 1) with false by (destruct k; reflexivity).
  replace (nominal_seconds k <? SECS_IN_TRI_MONTH) with false by (destruct k; reflexivity).
  destruct (adjStd_cal k y m d 86400 ltac:(lia) Hv ltac:(lia)) as (o & E & _ & Hz & _).
  rewrite E. specialize (Hz HE1 HE2). subst o. cbn [bind]. rewrite <- HE1, <- HE2.
  rewrite civilOf_rata by (auto; lia). cbn [bind].
  unfold YMAX, yearOfPeriod in *.
  destruct k; cbn [nominal_seconds pmonth pday periods_per_year period_of] in *; cbv zeta.
  - (* TriMonth *)
    change (Z.quot 864000 SECS_IN_1_MINUTE =? MINS_IN_TRI_MONTH) with true. cbv iota.
    chk.
    set (q := Z.quot n 3).
    assert (Hc : exists b, 0 <= b <= 2 /\ p = 3 * (12 * y + (m - 1)) + b /\
      ((b = 0 /\ d = 10) \/ (b = 1 /\ d = 20) \/ (b = 2 /\ 28 <= d <= 31))).
    { pose proof (month_length_bound y m). destruct (d <=? 10) eqn:E1; [exists 0|destruct (d <=? 20) eqn:E2; [exists 1|exists 2]]; zb; lia. }
    clear HE1 HE2 Hof EP E.
    destruct Hc as (b & Hb & Hpb & Hc).
    set (r := n - q * 3) in *.
    assert (Hn : n = 3 * q + r) by (unfold r; lia).
    assert (Hr : -2 <= r <= 2) by (unfold r, q; lia).
    assert (Hq : -61000000 <= q <= 61000000) by (unfold q; lia).
    clearbody r q.
    match goal with |- bind ?X _ = _ =>
      assert (HX : exists y3 m3 dd T, X = Ok (y3, m3, dd) /\ 12 * y3 + (m3 - 1) = T /\ in32 y3 /\ in32 m3 /\
        ((dd = 10 /\ p + n = 3 * T) \/ (dd = 20 /\ p + n = 3 * T + 1) \/ (dd = 28 /\ p + n = 3 * T + 2))) end.
    { unfold in32, INT_MIN, INT_MAX.
      destruct (d + r * 10 <? 1) eqn:E1;
      [destruct (d + r * 10 + 30 >? 31) eqn:E2 | destruct (d + r * 10 >? 31) eqn:E2];
      match goal with |- context [if ?m <? 1 then _ else _] => destruct (m <? 1) eqn:E3 end;
      (eexists _, _, _, _; split; [reflexivity|]; split; [reflexivity|]; split; [lia|]; split; [lia|]);
      repeat match goal with |- context [if ?c then _ else _] => destruct c eqn:? end; zb;
      destruct Hc as [[? ?]|[[? ?]|[? ?]]]; subst b; lia. }
    destruct HX as (y3 & m3 & dd & T & EX & HT & I1 & I2 & HC). rewrite EX. cbn [bind].
    destruct (finish_cal TriMonth y3 m3 dd T I1 I2 HT) as (o & j & F1 & F2); [lia|unfold YMAX; lia|].
    cbn [nominal_seconds] in F2. rewrite F1. cbn [bind Z.eqb negb]. rewrite F2. cbn [bind].
    replace (period_of TriMonth (T / 12) (T mod 12 + 1) dd) with (p + n); [reflexivity|].
    unfold period_of. destruct HC as [[-> ?]|[[-> ?]|[-> ?]]]; cbn [Z.leb Z.compare Pos.compare Pos.compare_cont]; lia.
  - (* SemiMonth *)
    change (Z.quot 1296000 SECS_IN_1_MINUTE =? MINS_IN_TRI_MONTH) with false.
    change (Z.quot 1296000 SECS_IN_1_MINUTE =? MINS_IN_SEMI_MONTH) with true. cbv iota.
    chk.
    set (q := Z.quot n 2).
    assert (Hc : exists b, 0 <= b <= 1 /\ p = 2 * (12 * y + (m - 1)) + b /\
      ((b = 0 /\ d = 15) \/ (b = 1 /\ 28 <= d <= 31))).
    { pose proof (month_length_bound y m). destruct (d <=? 15) eqn:E1; [exists 0|exists 1]; zb; lia. }
    clear HE1 HE2 Hof EP E.
    destruct Hc as (b & Hb & Hpb & Hc).
    set (r := n - q * 2) in *.
    assert (Hn : n = 2 * q + r) by (unfold r; lia).
    assert (Hr : -1 <= r <= 1) by (unfold r, q; lia).
    assert (Hq : -61000000 <= q <= 61000000) by (unfold q; lia).
    clearbody r q.
    match goal with |- bind ?X _ = _ =>
      assert (HX : exists y3 m3 dd T, X = Ok (y3, m3, dd) /\ 12 * y3 + (m3 - 1) = T /\ in32 y3 /\ in32 m3 /\
        ((dd = 15 /\ p + n = 2 * T) \/ (dd = 28 /\ p + n = 2 * T + 1))) end.
    { unfold in32, INT_MIN, INT_MAX.
      destruct (d + r * 15 <? 1) eqn:E1;
      [destruct (d + r * 15 + 30 >? 31) eqn:E2 | destruct (d + r * 15 >? 31) eqn:E2];
      match goal with |- context [if ?m <? 1 then _ else _] => destruct (m <? 1) eqn:E3 end;
      (eexists _, _, _, _; split; [reflexivity|]; split; [reflexivity|]; split; [lia|]; split; [lia|]);
      repeat match goal with |- context [if ?c then _ else _] => destruct c eqn:? end; zb;
      destruct Hc as [[? ?]|[? ?]]; subst b; lia. }
    destruct HX as (y3 & m3 & dd & T & EX & HT & I1 & I2 & HC). rewrite EX. cbn [bind].
    destruct (finish_cal SemiMonth y3 m3 dd T I1 I2 HT) as (o & j & F1 & F2); [lia|unfold YMAX; lia|].
    cbn [nominal_seconds] in F2. rewrite F1. cbn [bind Z.eqb negb]. rewrite F2. cbn [bind].
    replace (period_of SemiMonth (T / 12) (T mod 12 + 1) dd) with (p + n); [reflexivity|].
    unfold period_of. destruct HC as [[-> ?]|[-> ?]]; cbn [Z.leb Z.compare Pos.compare Pos.compare_cont]; lia.
  - (* Month *)
    change (Z.quot 2592000 SECS_IN_1_MINUTE =? MINS_IN_TRI_MONTH) with false.
    change (Z.quot 2592000 SECS_IN_1_MINUTE =? MINS_IN_SEMI_MONTH) with false.
    change (Z.abs (Z.quot 2592000 SECS_IN_1_MINUTE - MINS_IN_1_MONTH) <=? 2 * MINS_IN_1_DAY) with true.
    cbv iota. chk.
    destruct (finish_cal Month y (m + n) 28 (p + n)) as (o & j & F1 & F2);
      [unfold in32, INT_MIN, INT_MAX; lia|unfold in32, INT_MIN, INT_MAX; lia|lia|lia|unfold YMAX; lia|].
    cbn [nominal_seconds] in F2. rewrite F1. cbn [bind Z.eqb negb]. rewrite F2. cbn [bind].
    replace (period_of Month _ _ 28) with (p + n) by (unfold period_of; lia). reflexivity.
  - (* Year *)
    change (Z.quot 31536000 SECS_IN_1_MINUTE =? MINS_IN_TRI_MONTH) with false.
    change (Z.quot 31536000 SECS_IN_1_MINUTE =? MINS_IN_SEMI_MONTH) with false.
    change (Z.abs (Z.quot 31536000 SECS_IN_1_MINUTE - MINS_IN_1_MONTH) <=? 2 * MINS_IN_1_DAY) with false.
    change (Z.abs (Z.quot 31536000 SECS_IN_1_MINUTE - MINS_IN_1_YEAR) <=? MINS_IN_1_DAY) with true.
    cbv iota. chk.
    rewrite ymd_rata by (unfold YMAX in *; lia). cbn [bind Z.eqb negb].
    destruct (adjStd_cal Year (y + n) 12 31 86400) as (o' & E' & _);
      [unfold YMAX; lia| split; [lia|change (month_length (y + n) 12) with 31; lia] | lia|].
    cbn [nominal_seconds] in E'. rewrite E'. cbn [bind pmonth pday].
    replace (p + n) with (y + n) by lia. unfold endDay. cbn [period_end]. reflexivity.
Qed.
