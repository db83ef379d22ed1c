(** * C46: a regular series reads back as last stored, whatever the blocks. *)
From Coq Require Import ZArith List Lia Bool ZifyBool.
From Verif Require Import Base DateModel DateSpec DateProofs DateProofs2 DateProps BlockModel BlockSpec BlockProps ArrayLib RegStoreModel RegStoreProofs
  RegStoreProps SeriesModel SeriesProofs SeriesSpec SeriesHist SeriesGrid SeriesCal.
Import ListNotations.
Open Scope Z_scope.
Open Scope res_scope.

(** Several stores one after the other; the result tells whether all of them succeeded. *)
Fixpoint store_all (miss : Z -> bool) (mval : Z) (empty : bool) (interval : Z) (ops : list (Z * store_op)) (s : series) : res (bool * series) :=
  match ops with
  | [] => Ok (true, s)
  | (_, op) :: ops' =>
      let* '(ok, s1) := store_series miss mval empty interval (o_day op) (o_sec op) (o_flag op) (o_vals op) (o_qual op) s in
      let* '(ok', s2) := store_all miss mval empty interval ops' s1 in
      Ok (ok && ok', s2)
  end.

(** What the caller must respect, apart from the time range: the flag is one of the documented ones, there is a value,
    quality (if any) for each value; with flag 0, and the library not told to keep all-missing records, no run of
    missing data as long as a block (see [C46_refuted_gap]). *)
Definition op_fits (miss : Z -> bool) (empty : bool) (gap : Z) (op : store_op) : Prop :=
  0 <= o_flag op <= 4 /\ 0 < op_len op <= 2000000000 /\
  match o_qual op with None => True | Some q => Z.of_nat (length q) = op_len op end /\
  (o_flag op = 0 -> empty = false -> no_gap miss gap op).

(** The answer to a read of [n] values whose first belongs to period [k0]. *)
Definition answer_ok (miss : Z -> bool) (qs : bool) (f : Z -> Z * Z) (k0 n : Z) (r : res (option (list Z * list Z * bool))) : Prop :=
  exists v q found, r = Ok (Some (v, q, found)) /\ Z.of_nat (length v) = n /\ Z.of_nat (length q) = n /\
    forall x, 0 <= x < n ->
      same_value miss (nth (Z.to_nat x) v 0) (fst (f (k0 + x))) /\
      (qs = true -> nth (Z.to_nat x) q 0 = snd (f (k0 + x))) /\
      (miss (fst (f (k0 + x))) = false -> found = true).

(** ** Proofs *)
Section Hist.
Variables (miss : Z -> bool) (mval : Z) (empty : bool) (interval size : Z) (sj ss bst sidx : Z -> Z) (blo bhi gap : Z).
Hypothesis Hmv : miss mval = true.
Hypothesis G : grid interval size sj ss bst sidx blo bhi.
Hypothesis Hlh : blo <= bhi.

Lemma answers qs s f k0 n w : holds miss mval bst sidx blo bhi qs s f -> 0 < n <= 2000000000 -> sidx blo < k0 -> k0 + n - 1 <= sidx bhi ->
  (forall j0 j1, blo <= j0 < bhi -> blo <= j1 < bhi -> sidx j0 < k0 <= sidx (j0 + 1) -> sidx j1 < k0 + n - 1 <= sidx (j1 + 1) ->
       w = Ok (Some (win interval size sj ss bst k0 n j0 j1))) ->
  answer_ok miss qs f k0 n (let* w := w in read_window mval w s).
Proof.
  intros HS N L H PR.
  destruct (locate sidx blo bhi k0 Hlh ltac:(lia)) as (j0 & J0 & K0).
  destruct (locate sidx blo bhi (k0 + n - 1) Hlh ltac:(lia)) as (j1 & J1 & K1).
  rewrite (PR j0 j1 J0 J1 K0 K1). cbn [bind].
  destruct (read_holds miss mval interval size sj ss bst sidx blo bhi Hmv G qs s f k0 n j0 j1 HS N J0 J1 K0 K1) as (v & q & fd & E & LV & LQ & A).
  exists v, q, fd. split; [exact E|]. split; [exact LV|]. split; [exact LQ|exact A].
Qed.
Hypothesis Hgap : forall j, blo <= j < bhi -> sidx j + gap <= sidx (j + 1).
Lemma hist ops : forall qs s f,
  (forall k0 op, In (k0, op) ops -> op_fits miss empty gap op /\ sidx blo < k0 /\ k0 + op_len op - 1 <= sidx bhi /\
     forall j0 j1, blo <= j0 < bhi -> blo <= j1 < bhi -> sidx j0 < k0 <= sidx (j0 + 1) -> sidx j1 < k0 + op_len op - 1 <= sidx (j1 + 1) ->
       process_n interval (o_day op) (o_sec op) (op_len op) = Ok (Some (win interval size sj ss bst k0 (op_len op) j0 j1))) ->
  (qs = true -> forall k0 op, In (k0, op) ops -> o_qual op <> None) ->
  holds miss mval bst sidx blo bhi qs s f ->
  exists s', store_all miss mval empty interval ops s = Ok (true, s') /\
    holds miss mval bst sidx blo bhi qs s' (fold_left (fun f op => spec_store miss f (fst op) (snd op)) ops f).
Proof.
  induction ops as [|[k0 op] ops IH]; intros qs s f HP HQ HS; cbn [store_all fold_left fst snd].
  - exists s. split; [reflexivity|exact HS].
  - destruct (HP k0 op (or_introl eq_refl)) as ((F & N & Q & NG) & L & H & PR).
    destruct (locate sidx blo bhi k0 Hlh ltac:(lia)) as (j0 & J0 & K0).
    destruct (locate sidx blo bhi (k0 + op_len op - 1) Hlh ltac:(lia)) as (j1 & J1 & K1).
    unfold store_series. change (alen (o_vals op)) with (op_len op). rewrite (PR j0 j1 J0 J1 K0 K1). cbn [bind].
    destruct (store_holds miss mval empty interval size sj ss bst sidx blo bhi Hmv G qs op j0 j1 k0 s f) as (s1 & E & H1).
    { split; [exact F|]. split; [exact Q|]. split; [exact N|]. split; [exact J0|]. split; [exact J1|]. split; assumption. }
    { exact HS. } { intros X. apply (HQ X k0 op). left. reflexivity. }
    { intros F0 E0. exists gap. split; [exact Hgap|auto]. }
    change (w_sb (win interval size sj ss bst k0 (op_len op) j0 j1)) with (bst j0). rewrite E. cbn [bind].
    destruct (IH qs s1 _ (fun k o I => HP k o (or_intror I)) (fun X k o I => HQ X k o (or_intror I)) H1) as (s2 & E2 & H2).
    rewrite E2. cbn [bind]. exists s2. split; [reflexivity|exact H2].
Qed.

End Hist.

(** ** Intervals of at most a day that divide the day *)

(** Any history of stores into an empty series, from times between the years 312 and about 1,995,000, each first value
    at any time in its period; then any window is read back, value by value and (when every store gave quality) quality
    by quality; by a start and a number of values, or by a start and an end. *)
Theorem C46_history_short : forall miss mval empty i ops qs,
  miss mval = true -> 1 <= i <= 86400 -> 86400 mod i = 0 ->
  (forall k0 op, In (k0, op) ops -> op_fits miss empty (block_days (block_for_interval i) * (86400 / i)) op /\
     in_period i k0 (o_day op) (o_sec op) /\ -580000 <= o_day op /\
     instant (o_day op) (o_sec op) + (op_len op - 1) * i <= 729000000 * 86400) ->
  (qs = true -> forall k0 op, In (k0, op) ops -> o_qual op <> None) ->
  exists s, store_all miss mval empty i ops (fun _ => None) = Ok (true, s) /\
    (forall k0 day sec n, in_period i k0 day sec -> -580000 <= day -> 0 < n <= 2000000000 ->
       instant day sec + (n - 1) * i <= 729000000 * 86400 ->
       answer_ok miss qs (spec_history miss mval ops) k0 n (read_series_n mval i day sec n s)) /\
    (forall k0 k1 day sec eday esec, in_period i k0 day sec -> in_period i k1 eday esec -> -580000 <= day -> eday < 729000000 ->
       instant day sec <= instant eday esec -> k1 - k0 < 2000000000 -> ~ (day = 0 /\ eday = 0) -> ~ (day = -1 /\ eday = -1) ->
       answer_ok miss qs (spec_history miss mval ops) k0 (k1 - k0 + 1) (read_series_se mval i day sec eday esec s)).
Proof.
  intros miss mval empty i ops qs Hmv Hi Hd HO HQ.
  assert (GR := short_grid i Hi Hd). assert (LH := slo_shi (bk i)).
  assert (LAST : forall k0 day sec n, in_period i k0 day sec -> -580000 <= day -> 0 < n -> instant day sec + (n - 1) * i <= 729000000 * 86400 ->
            s_idx i (slo (bk i)) < k0 /\ k0 + n - 1 <= s_idx i (shi (bk i))).
  { intros k0 day sec n P B N E. pose proof P as [S1 [P1 P2]].
    assert (N0 : 0 <= (n - 1) * i) by (clear -N Hi; apply Z.mul_nonneg_nonneg; lia).
    assert (DB : -580000 <= day < 729000000) by (clear -E B S1 N0; unfold instant in E; generalize dependent ((n - 1) * i); intros; lia).
    destruct (short_range i Hi Hd k0 day sec P DB) as [R1 _]. split; [exact R1|].
    pose proof (s_idx_mul i Hi Hd (shi (bk i))) as M. pose proof (shi_day (bk i)) as SD. unfold bs in M.
    assert (X : (k0 + n - 1 - 1) * i < s_idx i (shi (bk i)) * i).
    { clear -M SD P1 E. rewrite M. generalize dependent (bstart (bk i) (shi (bk i))). intros. lia. }
    pose proof (k_lt i Hi Hd _ _ X) as Y. clear -Y. lia. }
  destruct (hist miss mval empty i (block_code (bk i)) (s_day i) (s_sec i) (bs i) (s_idx i) (slo (bk i)) (shi (bk i))
      (block_days (bk i) * per_day i) Hmv GR (Z.lt_le_incl _ _ LH) ltac:(intros j Hj; apply (s_idx_next i Hi Hd); exact Hj) ops qs (fun _ => None) (fun _ => (mval, 0)))
    as (s & E & HS).
  { intros k0 op I. destruct (HO k0 op I) as (F & P & B & EN). split; [exact F|]. destruct F as (_ & N & _).
    destruct (LAST k0 _ _ (op_len op) P B (proj1 N) EN) as [L1 L2]. split; [exact L1|]. split; [exact L2|].
    intros j0 j1 J0 J1 K0 K1. apply short_process; assumption. }
  { exact HQ. }
  { apply holds_nil. }
  exists s. split; [exact E|]. split.
  - intros k0 day sec n P B N EN. destruct (LAST k0 _ _ n P B (proj1 N) EN) as [L1 L2]. unfold read_series_n.
    apply (answers miss mval i (block_code (bk i)) (s_day i) (s_sec i) (bs i) (s_idx i) (slo (bk i)) (shi (bk i)) Hmv GR (Z.lt_le_incl _ _ LH)); try assumption.
    intros j0 j1 J0 J1 K0 K1. apply short_process; assumption.
  - intros k0 k1 day sec eday esec P PE B BE L N Z0 Z1. pose proof P as [S1 [P1 P2]]. pose proof PE as [S2 [P3 P4]].
    assert (K01 : k0 <= k1). { assert (k0 - 1 < k1) by (apply (k_lt i Hi Hd); clear -P1 P4 L; lia). lia. }
    assert (DB : -580000 <= day < 729000000 /\ -580000 <= eday < 729000000) by (clear -L B BE S1 S2; unfold instant in L; lia).
    destruct (short_range i Hi Hd k0 day sec P (proj1 DB)) as [R1 _].
    destruct (short_range i Hi Hd k1 eday esec PE (proj2 DB)) as [_ R2]. unfold read_series_se.
    apply (answers miss mval i (block_code (bk i)) (s_day i) (s_sec i) (bs i) (s_idx i) (slo (bk i)) (shi (bk i)) Hmv GR (Z.lt_le_incl _ _ LH)); try assumption; try lia.
    intros j0 j1 J0 J1 K0 K1. apply short_process_se; try assumption. replace (k0 + (k1 - k0 + 1) - 1) with k1 in K1 by lia. exact K1.
Qed.
Print Assumptions C46_history_short.

Lemma period_year k y m d : valid_date y m d -> period_of k y m d / periods_per_year k = y.
Proof.
  intros [Hm Hd]. destruct k; cbn [period_of periods_per_year].
  - destruct (d <=? 10), (d <=? 20); lia.
  - destruct (d <=? 15); lia.
  - lia.
  - apply Z.div_1_r.
Qed.
Lemma period_mono k y m d y' m' d' : valid_date y m d -> valid_date y' m' d' -> 5 <= y -> 5 <= y' -> rata y m d <= rata y' m' d' ->
  period_of k y m d <= period_of k y' m' d'.
Proof.
  intros V V' Hy Hy' L. pose proof (rata_in_year y m d Hy V) as R. pose proof (rata_in_year y' m' d' Hy' V') as R'.
  pose proof (rata_in_month y m d V) as [M _]. pose proof (rata_in_month y' m' d' V') as [_ M'].
  assert (YY : y <= y').
  { destruct (Z_le_gt_dec y y') as [|C]; [assumption|]. pose proof (rata_jan_le (y' + 1) y ltac:(lia)). lia. }
  pose proof V as [Hm Hd]. pose proof V' as [Hm' Hd'].
  assert (O : y < y' \/ y = y' /\ (m < m' \/ m = m' /\ d <= d')).
  { destruct (Z.eq_dec y y') as [E|]; [|lia]. right. split; [exact E|]. subst y'.
    destruct (Z_le_gt_dec m m') as [C|C].
    - destruct (Z.eq_dec m m') as [->|]; [right; split; [reflexivity|]|lia].
      replace d with (1 + (d - 1)) in L by lia. replace d' with (1 + (d' - 1)) in L by lia. rewrite !rata_d in L. lia.
    - specialize (M' ltac:(lia)). specialize (M (m' + 1) ltac:(lia)). lia. }
  clear -O Hm Hm'. destruct k; cbn [period_of].
  - destruct (Z.leb_spec d 10), (Z.leb_spec d 20), (Z.leb_spec d' 10), (Z.leb_spec d' 20); lia.
  - destruct (Z.leb_spec d 15), (Z.leb_spec d' 15); lia.
  - lia.
  - lia.
Qed.

(** ** Thirds of a month, half months, months, years *)

(** The same for calendar intervals, years 310 to 3,999,900; a store and a read by number of values start at the end of
    a period, a read by start and end at any time of any day in the first and last period. *)
Theorem C46_history_calendar : forall miss mval empty k ops qs,
  miss mval = true ->
  (forall p0 op, In (p0, op) ops -> op_fits miss empty (periods_per_year k * match k with Year => 100 | _ => 10 end) op /\
     last_day_number k p0 = Ok (o_day op) /\ o_sec op = 86400 /\
     310 <= p0 / periods_per_year k /\ (p0 + op_len op - 1) / periods_per_year k < 3999900) ->
  (qs = true -> forall p0 op, In (p0, op) ops -> o_qual op <> None) ->
  exists s, store_all miss mval empty (nominal_seconds k) ops (fun _ => None) = Ok (true, s) /\
    (forall p0 day n, last_day_number k p0 = Ok day -> 0 < n ->
       310 <= p0 / periods_per_year k -> (p0 + n - 1) / periods_per_year k < 3999900 ->
       answer_ok miss qs (spec_history miss mval ops) p0 n (read_series_n mval (nominal_seconds k) day 86400 n s)) /\
    (forall y m d y' m' d' day sec eday esec, valid_date y m d -> valid_date y' m' d' -> 310 <= y < 3999900 -> 310 <= y' < 3999900 ->
       yearMonthDayToJulian y m d = Ok day -> yearMonthDayToJulian y' m' d' = Ok eday -> day <= eday -> 0 < sec <= 86400 -> 0 < esec <= 86400 ->
       ~ (day = 0 /\ eday = 0) -> ~ (day = -1 /\ eday = -1) ->
       answer_ok miss qs (spec_history miss mval ops) (period_of k y m d) (period_of k y' m' d' - period_of k y m d + 1)
         (read_series_se mval (nominal_seconds k) day sec eday esec s)).
Proof.
  intros miss mval empty k ops qs Hmv HO HQ.
  assert (GR := cal_grid k). pose proof (c_lo_hi k) as LH. pose proof (ppy_pos k) as PP. pose proof (years_pos k) as YP.
  assert (RG : forall p0 n, 0 < n -> 310 <= p0 / periods_per_year k -> (p0 + n - 1) / periods_per_year k < 3999900 ->
     c_idx k (clo k) < p0 /\ p0 + n - 1 <= c_idx k (chi k) /\ n <= 2000000000 /\ 310 <= p0 / periods_per_year k < 3999900).
  { intros p0 n N A B. assert (p0 / periods_per_year k <= (p0 + n - 1) / periods_per_year k) by (apply Z.div_le_mono; lia).
    pose proof (c_k_range k p0) as R0. pose proof (c_k_range k (p0 + n - 1)) as R1. unfold yearOfPeriod in R0, R1.
    split; [apply R0; lia|]. split; [apply R1; lia|]. split; [|lia].
    assert (Q : n <= 144000000); [|lia].
    assert (Q : p0 + n - 1 < periods_per_year k * 4000000 /\ 0 <= p0); [|nia].
    split.
    - pose proof (Z.mul_succ_div_gt (p0 + n - 1) (periods_per_year k) ltac:(lia)). nia.
    - pose proof (Z.mul_div_le p0 (periods_per_year k) ltac:(lia)). nia. }
  destruct (hist miss mval empty (nominal_seconds k) (block_code (cblk k)) (endDay k) c_sec (c_bst k) (c_idx k) (clo k) (chi k)
      (ppb k) Hmv GR ltac:(lia) ltac:(intros j Hj; unfold c_idx; lia) ops qs (fun _ => None) (fun _ => (mval, 0)))
    as (s & E & HS).
  { intros p0 op I. destruct (HO p0 op I) as (F & LD & SC & B0 & B1). split; [exact F|]. destruct F as (_ & N & _).
    destruct (RG p0 (op_len op) ltac:(lia) B0 B1) as (L1 & L2 & _ & YR). split; [exact L1|]. split; [exact L2|].
    intros j0 j1 J0 J1 K0 K1. rewrite last_day_endDay in LD by lia. injection LD as <-. rewrite SC. apply cal_process; assumption. }
  { exact HQ. }
  { apply holds_nil. }
  exists s. split; [exact E|]. split.
  - intros p0 day n LD N B0 B1. destruct (RG p0 n N B0 B1) as (L1 & L2 & L3 & YR). unfold read_series_n.
    apply (answers miss mval (nominal_seconds k) (block_code (cblk k)) (endDay k) c_sec (c_bst k) (c_idx k) (clo k) (chi k) Hmv GR ltac:(lia));
      try assumption; try lia.
    intros j0 j1 J0 J1 K0 K1. rewrite last_day_endDay in LD by lia. injection LD as <-. apply cal_process; lia.
  - intros y m d y' m' d' day sec eday esec V V' [Y YU] [YL Y'] ED EE L S S' Z0 Z1.
    pose proof (valid_d31 _ _ _ V) as D31. pose proof (valid_d31 _ _ _ V') as D31'. pose proof V as [VM VD]. pose proof V' as [VM' VD'].
    rewrite ymd_rata in ED by (unfold YMAX; lia). injection ED as ED. rewrite ymd_rata in EE by (unfold YMAX; lia). injection EE as EE.
    assert (PL : period_of k y m d <= period_of k y' m' d') by (apply period_mono; try assumption; lia).
    assert (PY : forall y m d, valid_date y m d -> period_of k y m d / periods_per_year k = y) by (apply period_year).
    pose proof (PY _ _ _ V) as PY0. pose proof (PY _ _ _ V') as PY1.
    destruct (RG (period_of k y m d) (period_of k y' m' d' - period_of k y m d + 1) ltac:(lia) ltac:(lia)) as (L1 & L2 & L3 & _).
    { replace (period_of k y m d + (period_of k y' m' d' - period_of k y m d + 1) - 1) with (period_of k y' m' d') by lia. lia. }
    unfold read_series_se.
    apply (answers miss mval (nominal_seconds k) (block_code (cblk k)) (endDay k) c_sec (c_bst k) (c_idx k) (clo k) (chi k) Hmv GR ltac:(lia));
      try assumption; try lia.
    intros j0 j1 J0 J1 K0 K1. replace (period_of k y m d + (period_of k y' m' d' - period_of k y m d + 1) - 1) with (period_of k y' m' d') in K1 by lia.
    apply cal_process_se; try assumption.
    + exists y, m, d. unfold YMAX. repeat split; try assumption; lia.
    + exists y', m', d'. unfold YMAX. repeat split; try assumption; lia.
Qed.
Print Assumptions C46_history_calendar.

(** ** Concrete cases *)
Definition ms (x : Z) : bool := x =? -901.
(** hourly: 30 values from 20:00 on 31 December 2009 (day 40177), across the month; then 3 values, one of them missing,
    onto 23:00 of that day with flag 4 (do not store missing values), with quality *)
Definition ex_ops : list (Z * store_op) :=
  [ (964268, mk_op 40177 72000 0 (map Z.of_nat (seq 1 30)) (Some (repeat 7 30)));
    (964271, mk_op 40177 82800 4 [100; -901; 102] (Some [8; 9; 10])) ].
Example C46_short_example :
  (forall k0 op, In (k0, op) ex_ops -> op_fits ms false (block_days (block_for_interval 3600) * (86400 / 3600)) op /\
     in_period 3600 k0 (o_day op) (o_sec op) /\ -580000 <= o_day op /\
     instant (o_day op) (o_sec op) + (op_len op - 1) * 3600 <= 729000000 * 86400) /\
  map (spec_history ms (-901) ex_ops) [964267; 964270; 964271; 964272; 964273; 964274] = [(-901, 0); (3, 7); (100, 8); (5, 7); (102, 10); (7, 7)] /\
  exists s, store_all ms (-901) false 3600 ex_ops (fun _ => None) = Ok (true, s) /\
    read_series_n (-901) 3600 40177 68400 8 s = Ok (Some ([-901; 1; 2; 3; 100; 5; 102; 7], [0; 7; 7; 7; 8; 7; 10; 7], true)) /\
    read_series_se (-901) 3600 40177 80000 40178 3600 s = Ok (Some ([100; 5; 102], [8; 7; 10], true)).
Proof.
  split.
  - intros k0 op H. destruct H as [H|[H|H]]; [| |destruct H]; injection H as <- <-;
      (split; [|split; [split; vm_compute; intuition discriminate|split; [vm_compute; intuition discriminate|vm_compute; intuition discriminate]]]);
      (split; [vm_compute; intuition discriminate|split; [vm_compute; intuition discriminate|split; [reflexivity|]]]).
    + intros _ _ x Hx1 Hx2. exfalso. revert Hx2. change (block_days (block_for_interval 3600) * (86400 / 3600)) with 672.
      change (op_len _) with 30. clear -Hx1. lia.
    + intros F0. discriminate F0.
  - split; [vm_compute; reflexivity|]. eexists. split; [vm_compute; reflexivity|]. split; vm_compute; reflexivity.
Qed.
(** monthly: 300 months from January 1995 over three decades; period number 23940 *)
Definition ex_months : list (Z * store_op) := [ (23940, mk_op 34729 86400 0 (map Z.of_nat (seq 1 300)) None) ].
Example C46_calendar_example :
  (forall p0 op, In (p0, op) ex_months -> op_fits ms false (periods_per_year Month * 10) op /\
     last_day_number Month p0 = Ok (o_day op) /\ o_sec op = 86400 /\
     310 <= p0 / periods_per_year Month /\ (p0 + op_len op - 1) / periods_per_year Month < 3999900) /\
  exists s, store_all ms (-901) false 2592000 ex_months (fun _ => None) = Ok (true, s) /\
    read_series_se (-901) 2592000 36530 1000 36580 1000 s = Ok (Some ([61; 62], [0; 0], true)).
Proof.
  split.
  - intros p0 op [H|[]]. injection H as <- <-.
    split; [|split; [vm_compute; reflexivity|split; [reflexivity|split; [vm_compute; intuition discriminate|vm_compute; reflexivity]]]].
    split; [vm_compute; intuition discriminate|split; [vm_compute; intuition discriminate|split; [exact I|]]].
    intros _ _ x H1 H2. exists x. split; [change (periods_per_year Month * 10) with 120; lia|]. left.
    change (op_len _) with 300 in H2. change (periods_per_year Month * 10) with 120 in H2. cbn [o_vals].
    rewrite (map_nth Z.of_nat (seq 1 300) 0%nat), seq_nth by lia. unfold ms. lia.
  - eexists. split; [vm_compute; reflexivity|]. vm_compute. reflexivity.
Qed.

(** ** Where the claim fails *)

(** Weekly data: the first two weeks that end in a decade share a slot of its block.  Five weeks stored from the week
    that ends at 24:00 on 1 January 2010; read from the second week on, its first value comes back in place of its second. *)
Theorem C46_refuted_week : exists s, store_all ms (-901) false 604800 [(0, mk_op 40178 86400 0 [1; 2; 3; 4; 5] None)] (fun _ => None) = Ok (true, s) /\
  read_series_n (-901) 604800 (40178 + 7) 86400 4 s = Ok (Some ([1; 2; 3; 4], [0; 0; 0; 0], true)).
Proof. eexists. split; vm_compute; reflexivity. Qed.
Print Assumptions C46_refuted_week.

(** A window inside 31 December 1899 (day 0) given by a start and an end is taken for "no window": the call does not
    return the values stored there. *)
Theorem C46_refuted_day_zero : exists s, store_all ms (-901) false 3600 [(1, mk_op 0 3600 0 [1; 2; 3] None)] (fun _ => None) = Ok (true, s) /\
  read_series_se (-901) 3600 0 3600 0 7200 s = Ok None /\
  in_period 3600 1 0 3600 /\ in_period 3600 2 0 7200.
Proof. eexists. split; [vm_compute; reflexivity|]. split; [vm_compute; reflexivity|]. unfold in_period, instant. lia. Qed.
Print Assumptions C46_refuted_day_zero.

(** With flag 0 (replace), missing data over three months of 12-hour values: the month in the middle keeps what it had. *)
Theorem C46_refuted_gap : let ops := [(80356, mk_op 40177 86400 0 (repeat 1 190) None); (80356, mk_op 40177 86400 0 (repeat (-901) 190) None)] in
  exists s, store_all ms (-901) false 43200 ops (fun _ => None) = Ok (true, s) /\
    read_series_n (-901) 43200 (40177 + 45) 86400 1 s = Ok (Some ([1], [0], true)) /\
    fst (spec_history ms (-901) ops (80356 + 90)) = -901.
Proof. eexists. split; [vm_compute; reflexivity|]. split; vm_compute; reflexivity. Qed.
Print Assumptions C46_refuted_gap.
