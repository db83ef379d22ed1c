(** * Lemmas about the date model. *)
From Coq Require Import ZArith List Bool Lia.
From Verif Require Import Base DateModel DateSpec.
Import ListNotations.
Open Scope Z_scope.
Open Scope res_scope.

Ltac Zify.zify_post_hook ::= Z.div_mod_to_equations.

(** Closed form of the Julian day for years >= 1 (years 1..4 use one leap day, as the code does). *)
Definition leapsBefore (y : Z) : Z :=
  if y >? 4 then (y - 1) / 4 + (y - 1) / 400 - (y - 1) / 100 else 1.
Definition cumDays (m : Z) : Z :=
  match m with
  | 1 => 0 | 2 => 31 | 3 => 59 | 4 => 90 | 5 => 120 | 6 => 151 | 7 => 181 | 8 => 212 | 9 => 243
  | 10 => 273 | 11 => 304 | 12 => 334 | _ => 0
  end.
Definition rata (y m d : Z) : Z :=
  y * 365 + leapsBefore y + cumDays m + d + (if leap y && (m >? 2) then 1 else 0) - 693960.

Definition YMAX : Z := 5000000.

Lemma isLeapYear_leap y : isLeapYear y = leap y.
Proof.
  unfold isLeapYear, leap.
  destruct (Z.rem y 400 =? 0) eqn:E1, (Z.rem y 4 =? 0) eqn:E2, (Z.rem y 100 =? 0) eqn:E3,
    (y mod 4 =? 0) eqn:E4, (y mod 100 =? 0) eqn:E5, (y mod 400 =? 0) eqn:E6; cbn; try reflexivity; exfalso;
  rewrite ?Z.eqb_eq, ?Z.eqb_neq in *; Z.to_euclidean_division_equations; lia.
Qed.

Lemma month_cases m : 1 <= m <= 12 ->
  m = 1 \/ m = 2 \/ m = 3 \/ m = 4 \/ m = 5 \/ m = 6 \/ m = 7 \/ m = 8 \/ m = 9 \/ m = 10 \/ m = 11 \/ m = 12.
Proof. lia. Qed.

Ltac months H :=
  apply month_cases in H;
  destruct H as [H|[H|[H|[H|[H|[H|[H|[H|[H|[H|[H|H]]]]]]]]]]].

Lemma aget_NDAY m : 1 <= m <= 12 -> aget NDAY (m - 1) = Ok (cumDays m).
Proof. intros H. months H; subst m; reflexivity. Qed.

Lemma cumDays_bound m : 1 <= m <= 12 -> 0 <= cumDays m <= 334.
Proof. intros H. months H; subst m; cbv; split; discriminate. Qed.

Lemma fixMonth_id y m : 1 <= m <= 12 -> fixMonth y m = Ok (y, m).
Proof.
  intros H. unfold fixMonth.
  replace ((m <? 1) || (m >? 12)) with false; [reflexivity|].
  symmetry. apply orb_false_iff. split; [apply Z.ltb_ge | rewrite Z.gtb_ltb; apply Z.ltb_ge]; lia.
Qed.

Lemma numberOfLeapDays_pos y : 1 <= y -> numberOfLeapDays y = Ok (leapsBefore y).
Proof.
  intros H. unfold numberOfLeapDays, leapsBefore.
  destruct (y >? 4) eqn:E.
  - rewrite !Z.quot_div_nonneg by (rewrite Z.gtb_ltb, Z.ltb_lt in E; lia). reflexivity.
  - replace (y >? 0) with true; [reflexivity|]. symmetry. rewrite Z.gtb_ltb. apply Z.ltb_lt. lia.
Qed.

Lemma leapsBefore_bound y : 1 <= y <= YMAX + 2 -> 0 <= leapsBefore y <= 1300000.
Proof.
  unfold leapsBefore, YMAX. intros H. destruct (y >? 4) eqn:E; [rewrite Z.gtb_ltb, Z.ltb_lt in E|]; lia.
Qed.

Lemma leapCheck_pos y m : 1 <= y -> leapCheckOf y m = if leap y && (m >? 2) then 1 else 0.
Proof.
  intros H. unfold leapCheckOf. rewrite isLeapYear_leap.
  replace (y >=? 0) with true by (symmetry; apply Z.geb_le; lia).
  destruct (leap y); cbn [andb]; reflexivity.
Qed.

Theorem ymd_rata y m d : 1 <= y <= YMAX + 2 -> 1 <= m <= 12 -> -100000000 <= d <= 100000000 ->
  yearMonthDayToJulian y m d = Ok (rata y m d).
Proof.
  intros Hy Hm Hd. unfold yearMonthDayToJulian.
  rewrite fixMonth_id by assumption. cbn [bind].
  rewrite numberOfLeapDays_pos by lia. cbn [bind].
  rewrite leapCheck_pos by lia.
  replace ((m <? 1) || (m >? 12)) with false
    by (symmetry; apply orb_false_iff; split; [apply Z.ltb_ge | rewrite Z.gtb_ltb; apply Z.ltb_ge]; lia).
  rewrite aget_NDAY by assumption. cbn [bind].
  pose proof (cumDays_bound m Hm) as Hc.
  pose proof (leapsBefore_bound y Hy) as Hl. unfold YMAX, JULIAN_BASE_DATE in *.
  assert (Hb : 0 <= (if leap y && (m >? 2) then 1 else 0) <= 1) by (destruct (leap y && (m >? 2)); lia).
  chk. unfold rata. f_equal; lia.
Qed.

Lemma leap_div y : (if leap y then 1 else 0) = y / 4 - y / 100 + y / 400 - ((y - 1) / 4 - (y - 1) / 100 + (y - 1) / 400).
Proof.
  unfold leap.
  destruct (y mod 4 =? 0) eqn:E4, (y mod 100 =? 0) eqn:E5, (y mod 400 =? 0) eqn:E6; cbn [andb orb negb];
  rewrite ?Z.eqb_eq, ?Z.eqb_neq in *; lia.
Qed.

Lemma rata_month y m d : 1 <= m <= 11 -> rata y (m + 1) d = rata y m d + month_length y m.
Proof.
  intros H. assert (H' : 1 <= m <= 12) by lia. unfold rata, month_length.
  remember (leapsBefore y) as L. remember (y * 365) as Y.
  months H'; subst m; try lia; destruct (leap y); unfold cumDays; cbn; lia.
Qed.

Lemma rata_year y d : 5 <= y -> rata (y + 1) 1 d = rata y 12 d + 31.
Proof.
  intros H. unfold rata, leapsBefore.
  replace (y + 1 >? 4) with true by (symmetry; rewrite Z.gtb_ltb; apply Z.ltb_lt; lia).
  replace (y >? 4) with true by (symmetry; rewrite Z.gtb_ltb; apply Z.ltb_lt; lia).
  replace (leap (y+1) && (1 >? 2)) with false by (rewrite andb_comm; reflexivity).
  replace (12 >? 2) with true by reflexivity. rewrite andb_true_r.
  rewrite leap_div. unfold cumDays.
  replace (y + 1 - 1) with y by lia. lia.
Qed.

Lemma rata_jan_next y : 5 <= y -> rata (y + 1) 1 1 = rata y 1 1 + (if leap y then 366 else 365).
Proof.
  intros H. rewrite rata_year by lia.
  unfold rata, cumDays. change (12 >? 2) with true. change (1 >? 2) with false.
  rewrite andb_true_r, andb_false_r. destruct (leap y); lia.
Qed.

Lemma month_length_bound y m : 28 <= month_length y m <= 31.
Proof.
  unfold month_length. destruct (m =? 2); [destruct (leap y); lia|].
  destruct ((m =? 4) || (m =? 6) || (m =? 9) || (m =? 11)); lia.
Qed.

Lemma rata_d y m d k : rata y m (d + k) = rata y m d + k.
Proof. unfold rata. lia. Qed.

(** Successive calendar days have successive numbers. *)
Lemma rata_next y m d : 5 <= y -> valid_date y m d ->
  let '(y', m', d') := next_day (y, m, d) in rata y' m' d' = rata y m d + 1.
Proof.
  intros Hy [Hm Hd]. unfold next_day.
  destruct (d <? month_length y m) eqn:E1; [apply rata_d|].
  assert (d = month_length y m) by lia.
  destruct (m <? 12) eqn:E2.
  - rewrite Z.ltb_lt in E2. rewrite rata_month by lia.
    replace d with (1 + (d - 1)) by lia. rewrite rata_d. lia.
  - assert (m = 12) by lia. subst m.
    rewrite rata_year by lia. replace d with (1 + (d - 1)) by lia. rewrite rata_d.
    change (month_length y 12) with 31 in H. lia.
Qed.

(** ** The reverse conversion *)

Lemma leapsBefore_mono y : 1 <= y -> leapsBefore y <= leapsBefore (y + 1) <= leapsBefore y + 1.
Proof.
  intros H. unfold leapsBefore.
  destruct (y >? 4) eqn:E1, (y + 1 >? 4) eqn:E2; rewrite ?Z.gtb_ltb, ?Z.ltb_lt, ?Z.ltb_ge in *; try lia.
Qed.

Lemma rata_jan y d : rata y 1 d = y * 365 + leapsBefore y + d - 693960.
Proof.
  unfold rata, cumDays. change (1 >? 2) with false.
  rewrite andb_false_r. lia.
Qed.

Lemma rata_jan_le k y : 1 <= k <= y -> rata k 1 1 <= rata y 1 1.
Proof.
  intros [H1 H2]. rewrite !rata_jan.
  assert (H : leapsBefore k <= leapsBefore y).
  { assert (G : forall n : nat, leapsBefore k <= leapsBefore (k + Z.of_nat n)).
    { induction n as [|n IH]; [rewrite Z.add_0_r; lia|].
      pose proof (leapsBefore_mono (k + Z.of_nat n) ltac:(lia)) as Hm.
      replace (k + Z.of_nat (S n)) with (k + Z.of_nat n + 1) by lia. lia. }
    specialize (G (Z.to_nat (y - k))). rewrite Z2Nat.id in G by lia.
    replace (k + (y - k)) with y in G by lia. exact G. }
  lia.
Qed.

(** position in the year of a valid date *)
Lemma rata_in_year y m d : 5 <= y -> valid_date y m d ->
  rata y 1 1 <= rata y m d < rata (y + 1) 1 1.
Proof.
  intros Hy [Hm Hd]. rewrite rata_jan_next by lia. unfold month_length in Hd.
  unfold rata. destruct (leap y); months Hm; subst m; cbn in Hd; cbn; lia.
Qed.

Lemma rata_in_month y m d : valid_date y m d ->
  (forall i, 1 <= i <= m -> rata y i 1 <= rata y m d) /\
  (m < 12 -> rata y m d < rata y (m + 1) 1).
Proof.
  intros [Hm Hd]. split.
  - intros i Hi. assert (Hi' : 1 <= i <= 12) by lia. unfold month_length in Hd.
    unfold rata. destruct (leap y); months Hm; subst m; cbn in Hd; months Hi'; subst i; try lia; cbn; lia.
  - intros H. rewrite rata_month by lia. replace d with (1 + (d - 1)) by lia. rewrite rata_d. lia.
Qed.

Lemma searchUp_spec n y est julian :
  1 <= est <= y + 1 -> y + 1 <= YMAX + 1 -> y + 1 < est + Z.of_nat n ->
  (forall k, 1 <= k <= y -> rata k 1 1 <= julian) -> julian < rata (y + 1) 1 1 ->
  searchUp n est julian = Ok (Some (y + 1)).
Proof.
  revert est. induction n as [|n IH]; intros est He Hy Hn Hlo Hhi; [lia|].
  cbn [searchUp]. unfold YMAX in *. rewrite ymd_rata by (unfold YMAX; lia). cbn [bind].
  destruct (Z.eq_dec est (y + 1)) as [->|Hne].
  - replace (rata (y + 1) 1 1 >? julian) with true by (symmetry; rewrite Z.gtb_ltb; apply Z.ltb_lt; lia). reflexivity.
  - specialize (Hlo est ltac:(lia)) as Hle.
    replace (rata est 1 1 >? julian) with false by (symmetry; rewrite Z.gtb_ltb; apply Z.ltb_ge; lia).
    chk. apply IH; auto; lia.
Qed.

Lemma monthUp_spec n y m i julian :
  1 <= y <= YMAX -> 1 <= i <= 12 -> 1 <= m <= 12 -> i <= m + 1 -> 13 < i + Z.of_nat n ->
  (forall k, 1 <= k <= m -> rata y k 1 <= julian) -> (m < 12 -> julian < rata y (m + 1) 1) ->
  monthUp n y i julian = Ok (if m =? 12 then None else Some (m + 1)).
Proof.
  revert i. induction n as [|n IH]; intros i Hy Hi Hm Him Hn Hlo Hhi; [lia|].
  cbn [monthUp].
  replace (i >? 12) with false by (symmetry; rewrite Z.gtb_ltb; apply Z.ltb_ge; lia).
  unfold YMAX in *. rewrite ymd_rata by (unfold YMAX; lia). cbn [bind].
  destruct (Z.eq_dec i (m + 1)) as [->|Hne].
  - replace (rata y (m + 1) 1 >? julian) with true by (symmetry; rewrite Z.gtb_ltb; apply Z.ltb_lt; lia).
    replace (m =? 12) with false by (symmetry; apply Z.eqb_neq; lia). reflexivity.
  - specialize (Hlo i ltac:(lia)) as Hle.
    replace (rata y i 1 >? julian) with false by (symmetry; rewrite Z.gtb_ltb; apply Z.ltb_ge; lia).
    destruct (Z.eq_dec i 12) as [->|H12].
    + assert (m = 12) by lia. subst m.
      destruct n as [|n]; [lia|]. cbn [monthUp]. reflexivity.
    + apply IH; auto; lia.
Qed.

(** *** Floating point estimate *)

Lemma rne_bounds num den : 0 < den -> 2 * num - den <= 2 * den * rne num den <= 2 * num + den.
Proof.
  intros Hd. unfold rne.
  pose proof (Z.div_mod num den ltac:(lia)) as E. pose proof (Z.mod_pos_bound num den Hd) as B.
  set (q := num / den) in *. set (r := num mod den) in *. clearbody q r.
  destruct (2 * r <? den) eqn:E1; [rewrite Z.ltb_lt in E1; nia|]. rewrite Z.ltb_ge in E1.
  destruct (den <? 2 * r) eqn:E2; [rewrite Z.ltb_lt in E2; nia|]. rewrite Z.ltb_ge in E2.
  destruct (Z.even q); nia.
Qed.

Lemma float_bounds n : 0 < n -> (2 ^ 24 - 1) * n <= 2 ^ 24 * float_of_nonneg n <= (2 ^ 24 + 1) * n.
Proof.
  intros Hn. unfold float_of_nonneg.
  set (e := Z.max 0 (Z.log2 n + 1 - 24)).
  assert (He : 0 <= e) by (unfold e; lia).
  assert (Hp : 0 < 2 ^ e) by (apply Z.pow_pos_nonneg; lia).
  pose proof (rne_bounds n (2 ^ e) Hp) as B.
  destruct (Z.eq_dec e 0) as [E0|E0].
  - rewrite E0 in *. change (2 ^ 0) with 1 in *.
    assert (R : rne n 1 = n) by lia. rewrite R. lia.
  - assert (E : e + 23 = Z.log2 n) by (unfold e in *; lia).
    pose proof (Z.log2_spec n Hn) as [L _]. rewrite <- E, Z.pow_add_r in L by lia.
    change (2 ^ 23) with 8388608 in L. change (2 ^ 24) with 16777216.
    set (r := rne n (2 ^ e)) in *. set (p := 2 ^ e) in *. clearbody r p. nia.
Qed.

Lemma double_div_bounds a : 0 < a < 2 ^ 32 ->
  a * 2 ^ 44 - 2 * K365 <= double_div_trunc a * K365 /\ 2 * (double_div_trunc a * K365) <= 2 * (a * 2 ^ 44) + K365.
Proof.
  intros Ha. unfold double_div_trunc.
  replace (a =? 0) with false by (symmetry; apply Z.eqb_neq; lia).
  assert (Hs : 0 <= sig_shift a).
  { unfold sig_shift, K365.
    assert (L : Z.log2 (a * 2 ^ 44 * 2 ^ 64 / 6425414011327611) <= 96).
    { transitivity (Z.log2 (2 ^ 32 * 2 ^ 44 * 2 ^ 64 / 6425414011327611)).
      - apply Z.log2_le_mono. apply Z.div_le_mono; [lia|]. nia.
      - vm_compute. discriminate. }
    lia. }
  set (s := sig_shift a) in *.
  assert (Hp : 0 < 2 ^ s) by (apply Z.pow_pos_nonneg; lia).
  pose proof (rne_bounds (a * 2 ^ 44 * 2 ^ s) K365 ltac:(reflexivity)) as B.
  set (r := rne (a * 2 ^ 44 * 2 ^ s) K365) in *. set (p := 2 ^ s) in *.
  set (b := a * 2 ^ 44) in *. assert (Hb : 0 < b) by (unfold b; lia). clearbody r p b.
  pose proof (Z.div_mod r p ltac:(lia)) as D. pose proof (Z.mod_pos_bound r p Hp) as M.
  set (q := r / p) in *. set (t := r mod p) in *. clearbody q t.
  unfold K365 in *.
  split; nia.
Qed.

Lemma yearEstimate_bounds julc y :
  5 <= y <= YMAX -> 365 * y + leapsBefore y + 1 <= julc <= 365 * (y + 1) + leapsBefore (y + 1) ->
  y - 2 <= yearEstimate julc <= y + 1.
Proof.
  intros Hy Hj. unfold yearEstimate, float_of_int.
  pose proof (leapsBefore_bound y ltac:(unfold YMAX in *; lia)).
  replace (julc <? 0) with false by (symmetry; apply Z.ltb_ge; unfold YMAX in *; lia).
  assert (HL : 400 * leapsBefore y <= 97 * (y - 1) + 300 /\ 400 * leapsBefore y >= 97 * (y - 1) - 800).
  { unfold leapsBefore. destruct (y >? 4) eqn:E; [|rewrite Z.gtb_ltb, Z.ltb_ge in E; lia]. lia. }
  assert (HL1 : 400 * leapsBefore (y+1) <= 97 * y + 300).
  { unfold leapsBefore. destruct (y + 1 >? 4) eqn:E; [|rewrite Z.gtb_ltb, Z.ltb_ge in E; lia]. lia. }
  unfold YMAX in *.
  pose proof (float_bounds julc ltac:(lia)) as F.
  set (f := float_of_nonneg julc) in *. clearbody f.
  change (2 ^ 24) with 16777216 in F.
  replace (f <? 0) with false by (symmetry; apply Z.ltb_ge; lia).
  assert (Hf : 0 < f < 2 ^ 32) by (change (2 ^ 32) with 4294967296; lia).
  pose proof (double_div_bounds f Hf) as [D1 D2].
  set (q := double_div_trunc f) in *. clearbody q.
  change (2 ^ 44) with 17592186044416 in *. unfold K365 in *.
  clear Hf H. split; lia.
Qed.

Theorem j2ymd_rata y m d : 5 <= y <= YMAX -> valid_date y m d ->
  julianToYearMonthDay (rata y m d) = Ok (Some (y, m, d)).
Proof.
  intros Hy Hv. pose proof Hv as [Hm Hd].
  pose proof (rata_in_year y m d ltac:(lia) Hv) as Hin.
  pose proof (rata_in_month y m d Hv) as [Hlo Hhi].
  pose proof (rata_jan_next y ltac:(lia)) as Hnext.
  assert (Hyl : (if leap y then 366 else 365) <= 366) by (destruct (leap y); lia).
  pose proof (rata_jan y 1) as RJ. pose proof (rata_jan (y + 1) 1) as RJ1.
  pose proof (leapsBefore_bound y ltac:(unfold YMAX in *; lia)) as HL.
  pose proof (leapsBefore_bound (y+1) ltac:(unfold YMAX in *; lia)) as HL1.
  assert (Hm28 : forall k, 1 <= k <= 12 -> (k - 1) * 28 <= rata y m d - rata y 1 1 -> k <= m + 1).
  { intros k Hk1 Hk. destruct (Z_le_gt_dec k (m + 1)); [assumption|exfalso].
    unfold month_length in Hd.
    unfold rata in Hk. destruct (leap y); months Hm; subst m; cbn in Hd, Hk; lia. }
  unfold julianToYearMonthDay, JULIAN_BASE_DATE. unfold YMAX in *.
  set (J := rata y m d) in *.
  rewrite chk32_ok by (unfold in32, INT_MIN, INT_MAX; lia). cbn [bind].
  pose proof (yearEstimate_bounds (J + 693960) y ltac:(unfold YMAX; lia) ltac:(lia)) as HE.
  set (est := yearEstimate (J + 693960)) in *. clearbody est.
  replace (est >? 0) with true by (symmetry; rewrite Z.gtb_ltb; apply Z.ltb_lt; lia).
  rewrite (searchUp_spec 100 y) by
    (unfold YMAX; try lia; intros k Hk; pose proof (rata_jan_le k y Hk); lia).
  cbn [bind]. chk. replace (y + 1 - 1) with y by lia.
  replace (y >? -1) with true by (symmetry; rewrite Z.gtb_ltb; apply Z.ltb_lt; lia).
  rewrite ymd_rata by (unfold YMAX; lia). cbn [bind]. chk.
  assert (Hq : Z.quot (J - rata y 1 1 + 28) 28 = (J - rata y 1 1) / 28 + 1)
    by (rewrite Z.quot_div_nonneg by lia; lia).
  rewrite Hq.
  set (jd := if (J - rata y 1 1) / 28 + 1 >? 12 then 12 else (J - rata y 1 1) / 28 + 1).
  assert (Hjd : 1 <= jd <= 12 /\ jd <= m + 1 /\ (m = 12 -> jd = 12)).
  { unfold jd. destruct ((J - rata y 1 1) / 28 + 1 >? 12) eqn:E; rewrite Z.gtb_ltb, ?Z.ltb_lt, ?Z.ltb_ge in E.
    - split; [lia|]. split; [|lia]. apply Hm28; lia.
    - split; [lia|]. split; [apply Hm28; lia|]. intros ->.
      assert (334 <= J - rata y 1 1).
      { unfold J, rata. change (cumDays 12) with 334. change (cumDays 1) with 0.
        change (1 >? 2) with false. change (12 >? 2) with true. rewrite andb_false_r, andb_true_r.
        clear - Hd. destruct (leap y); lia. }
      lia. }
  destruct Hjd as (Hj1 & Hj2 & Hj3). clearbody jd.
  rewrite (monthUp_spec 13 y m) by (unfold YMAX; auto; lia). cbn [bind].
  assert (Hres : (match (if m =? 12 then None else Some (m + 1)) with Some i => Ok (i - 1) | None => Ok jd end) = Ok m).
  { destruct (m =? 12) eqn:E; [apply Z.eqb_eq in E; rewrite Hj3 by auto; congruence|]. f_equal. lia. }
  rewrite Hres. cbn [bind].
  replace ((m <=? 0) || (m >? 12)) with false
    by (symmetry; apply orb_false_iff; split; [apply Z.leb_gt | rewrite Z.gtb_ltb; apply Z.ltb_ge]; lia).
  cbn [bind fst snd].
  rewrite ymd_rata by (unfold YMAX; lia). cbn [bind].
  assert (HJm : J = rata y m 1 + (d - 1)) by (unfold J; rewrite <- rata_d; f_equal; lia).
  pose proof (month_length_bound y m).
  chk. f_equal. f_equal. f_equal. lia.
Qed.
