(** * Lemmas for C46: histories of stores into a series, for any numbering of the periods that fits the blocks. *)
From Coq Require Import ZArith List Lia Bool ZifyBool.
From Verif Require Import Base DateModel BlockModel ArrayLib RegStoreModel RegStoreProofs RegStoreProps SeriesModel SeriesProofs SeriesSpec.
Import ListNotations.
Open Scope Z_scope.
Open Scope res_scope.

(** The numbering of periods, their end times, the blocks: what the loops over the blocks rely on. *)
Record grid (interval size : Z) (sj ss bst sidx : Z -> Z) (blo bhi : Z) : Prop := mk_grid {
  g_week : interval <> SECS_IN_1_WEEK;
  g_s : forall j, blo <= j < bhi -> sidx j < sidx (j + 1) <= sidx j + 1000000;
  g_b : forall j, blo <= j < bhi -> bst j < bst (j + 1);
  g_step : forall j, blo <= j < bhi -> ztsIncrementBlock (bst j) size = Ok (bst (j + 1));
  g_count : forall j, blo <= j < bhi ->
    numberPeriods interval (bst j - 1) SECS_IN_1_DAY (bst (j + 1) - 1) SECS_IN_1_DAY = Ok (sidx (j + 1) - sidx j);
  g_pos : forall j k, blo <= j < bhi -> sidx blo < k <= sidx bhi -> -2001000000 <= k - sidx j <= 2001000000 ->
    numberPeriods interval (bst j - 1) SECS_IN_1_DAY (sj k) (ss k) = Ok (k - sidx j);
  g_day : forall j k, blo <= j < bhi -> sidx j < k <= sidx (j + 1) -> bst j <= sj k < bst (j + 1) }.

Section Hist.
Variables (miss : Z -> bool) (mval : Z) (empty : bool) (interval size : Z) (sj ss bst sidx : Z -> Z) (blo bhi : Z).

Lemma locate_nat m : forall k, sidx blo < k -> blo + Z.of_nat m <= bhi -> k <= sidx (blo + Z.of_nat m) ->
  exists j, blo <= j < blo + Z.of_nat m /\ sidx j < k <= sidx (j + 1).
Proof.
  induction m as [|m IH]; intros k H1 H2 H3; [replace (blo + Z.of_nat 0) with blo in H3 by lia; lia|].
  destruct (Z_le_gt_dec k (sidx (blo + Z.of_nat m))) as [L|L].
  - destruct (IH k H1 ltac:(lia) L) as (j & A & B). exists j. split; [lia|exact B].
  - exists (blo + Z.of_nat m). split; [lia|]. replace (blo + Z.of_nat m + 1) with (blo + Z.of_nat (S m)) by lia. lia.
Qed.
Lemma locate k : blo <= bhi -> sidx blo < k <= sidx bhi -> exists j, blo <= j < bhi /\ sidx j < k <= sidx (j + 1).
Proof.
  intros L [H1 H2]. destruct (locate_nat (Z.to_nat (bhi - blo)) k H1) as (j & A & B); try (rewrite Z2Nat.id by lia); try lia.
  { replace (blo + (bhi - blo)) with bhi by lia. exact H2. }
  rewrite Z2Nat.id in A by lia. exists j. split; [lia|exact B].
Qed.

Hypothesis Hmv : miss mval = true.
Hypothesis G : grid interval size sj ss bst sidx blo bhi.

(** the series [s] holds the values [f]; with [qs], the quality too *)
Definition holds (qs : bool) (s : series) (f : Z -> Z * Z) : Prop :=
  forall j, blo <= j < bhi -> block_ok (sidx (j + 1) - sidx j) (s (bst j)) /\
    forall p, 0 <= p < sidx (j + 1) - sidx j ->
      eqm miss (vat mval (s (bst j)) p) (fst (f (sidx j + 1 + p))) /\
      (qs = true -> qat (s (bst j)) p = snd (f (sidx j + 1 + p))).

Lemma holds_nil qs : holds qs (fun _ => None) (fun _ => (mval, 0)).
Proof. intros j Hj. split; [exact I|]. intros p Hp. split; [left; reflexivity|]. intros _. reflexivity. Qed.

Lemma new_at_nth a k0 k : 0 <= k - k0 < alen a -> new_at a k0 k = nth (Z.to_nat (k - k0)) a 0.
Proof.
  intros H. unfold new_at, aget. replace (k - k0 <? 0) with false by lia. unfold alen in H.
  destruct (nth_error a (Z.to_nat (k - k0))) as [v|] eqn:E; [symmetry; apply nth_error_nth; exact E|].
  apply nth_error_None in E. lia.
Qed.
Lemma eqm_miss a b : eqm miss a b -> miss a = miss b.
Proof. intros [->|[-> ->]]; reflexivity. Qed.

Definition good_op (op : store_op) (j0 j1 k0 : Z) : Prop :=
  0 <= o_flag op <= 4 /\ match o_qual op with None => True | Some q => alen q = op_len op end /\
  0 < op_len op <= 2000000000 /\ blo <= j0 < bhi /\ blo <= j1 < bhi /\
  sidx j0 < k0 <= sidx (j0 + 1) /\ sidx j1 < k0 + op_len op - 1 <= sidx (j1 + 1).

Lemma store_holds qs op j0 j1 k0 s f : good_op op j0 j1 k0 -> holds qs s f -> (qs = true -> o_qual op <> None) ->
  (o_flag op = 0 -> empty = false -> exists g, (forall j, blo <= j < bhi -> sidx j + g <= sidx (j + 1)) /\ no_gap miss g op) ->
  exists s', store_loop (block_fuel (win interval size sj ss bst k0 (op_len op) j0 j1)) miss mval empty (o_flag op)
      (win interval size sj ss bst k0 (op_len op) j0 j1) (o_vals op) (o_qual op) 0 (bst j0) s = Ok (true, s') /\
    holds qs s' (spec_store miss f k0 op).
Proof.
  intros (Hf & Hq & Hn & Hj0 & Hj1 & Hk0 & Hk1) HS HQ Hgap. set (n := op_len op) in *.
  assert (HL : alen (o_vals op) = n) by reflexivity.
  assert (J01 : j0 <= j1).
  { apply (j01 sidx blo bhi (g_s _ _ _ _ _ _ _ _ G) k0 n j0 j1); lia. }
  assert (SM : forall a b, blo <= a <= b -> b <= bhi -> sidx a + (b - a) <= sidx b) by (intros; eapply s_mono; [apply G|..]; eassumption).
  assert (SOME : o_flag op = 0 -> empty = false -> forall i, j0 < i < j1 -> exists k, sidx i < k <= sidx (i + 1) /\
    (miss (new_at (o_vals op) k0 k) = false \/ exists q, o_qual op = Some q /\ new_at q k0 k <> 0)).
  { intros F0 E0 i Hi. destruct (Hgap F0 E0) as (g & Hg & NG). specialize (Hg i ltac:(lia)).
    pose proof (SM (j0 + 1) i ltac:(lia) ltac:(lia)) as S1. pose proof (SM (i + 1) j1 ltac:(lia) ltac:(lia)) as S2.
    destruct (NG (sidx i + 1 - k0) ltac:(lia) ltac:(fold n; lia)) as (y & Hy & V).
    exists (k0 + y). split; [lia|].
    assert (B : 0 <= k0 + y - k0 < n) by lia.
    destruct V as [V|(q & Eq & V)].
    - left. rewrite new_at_nth by (rewrite HL; exact B). replace (k0 + y - k0) with y by lia. exact V.
    - right. exists q. split; [exact Eq|]. rewrite Eq in Hq. rewrite new_at_nth by (rewrite Hq; exact B).
      replace (k0 + y - k0) with y by lia. exact V. }
  destruct (store_loop_ok miss mval empty (o_flag op) interval size sj ss bst sidx blo bhi (g_week _ _ _ _ _ _ _ _ G)
    (g_s _ _ _ _ _ _ _ _ G) (g_b _ _ _ _ _ _ _ _ G) (g_step _ _ _ _ _ _ _ _ G) (g_count _ _ _ _ _ _ _ _ G) (g_pos _ _ _ _ _ _ _ _ G)
    (g_day _ _ _ _ _ _ _ _ G) k0 n j0 j1 Hn ltac:(lia) ltac:(lia) ltac:(lia) (o_vals op) (o_qual op) HL Hq Hmv Hf SOME
    (Z.to_nat (j1 + 1 - j0)) (block_fuel (win interval size sj ss bst k0 n j0 j1)) j0 s) as (s' & E & OUT & IN).
  { lia. } { lia. }
  { eapply fuel_ok with (blo := blo) (bhi := bhi) (sidx := sidx); try apply G; try lia. }
  { intros i Hi. apply HS. lia. }
  rewrite done_j0 with (blo := blo) (bhi := bhi) in E by (try apply G; lia).
  exists s'. split; [exact E|].
  assert (SPEC : forall k, spec_store miss f k0 op k =
     if written k0 n k && replaces miss (o_flag op) (fst (f k)) (new_at (o_vals op) k0 k)
     then (new_at (o_vals op) k0 k, match o_qual op with Some q => new_at q k0 k | None => 0 end) else f k).
  { intros k. unfold spec_store, written. fold n. destruct ((k0 <=? k) && (k <? k0 + n)) eqn:W; [|reflexivity]. cbn [andb].
    rewrite new_at_nth by (rewrite HL; lia). destruct (o_qual op) as [q|]; [|reflexivity].
    rewrite new_at_nth by (rewrite Hq; lia). reflexivity. }
  intros j Hj. destruct (HS j Hj) as (BO & HV).
  destruct (Z_le_gt_dec j0 j) as [L0|L0]; [destruct (Z_le_gt_dec j j1) as [L1|L1]|].
  - destruct (IN j ltac:(lia)) as (BO' & V & Q). split; [exact BO'|]. intros p Hp. specialize (V p Hp). destruct (HV p Hp) as (HV1 & HV2).
    rewrite SPEC. unfold want_v in V.
    assert (TK : takes miss (o_flag op) (vat mval (s (bst j)) p) (new_at (o_vals op) k0 (sidx j + 1 + p)) =
                 replaces miss (o_flag op) (fst (f (sidx j + 1 + p))) (new_at (o_vals op) k0 (sidx j + 1 + p))).
    { rewrite <- (takes_replaces _ _ _ _ Hf). unfold takes. rewrite (eqm_miss _ _ HV1). reflexivity. }
    split.
    + rewrite TK in V. destruct (written k0 n (sidx j + 1 + p) && replaces _ _ _ _); cbn [fst]; [exact V|].
      destruct V as [->|[V1 V2]]; [exact HV1|]. right. split; [exact V1|]. rewrite <- (eqm_miss _ _ HV1). exact V2.
    + intros Eqs. specialize (HQ Eqs). destruct (o_qual op) as [q|]; [|congruence]. specialize (Q p Hp). rewrite Q. unfold want_q. rewrite TK.
      destruct (written k0 n (sidx j + 1 + p) && replaces _ _ _ _); cbn [snd]; [reflexivity|]. apply HV2. exact Eqs.
  - assert (NB : s' (bst j) = s (bst j)).
    { apply OUT. intros i Hi Eb. apply (b_inj bst blo bhi (g_b _ _ _ _ _ _ _ _ G)) in Eb; lia. }
    rewrite NB. split; [exact BO|]. intros p Hp. rewrite SPEC. pose proof (SM (j1 + 1) j ltac:(lia) ltac:(lia)).
    replace (written k0 n (sidx j + 1 + p)) with false by (unfold written; lia). apply HV. exact Hp.
  - assert (NB : s' (bst j) = s (bst j)).
    { apply OUT. intros i Hi Eb. apply (b_inj bst blo bhi (g_b _ _ _ _ _ _ _ _ G)) in Eb; lia. }
    rewrite NB. split; [exact BO|]. intros p Hp. rewrite SPEC. pose proof (SM (j + 1) j0 ltac:(lia) ltac:(lia)).
    replace (written k0 n (sidx j + 1 + p)) with false by (unfold written; lia). apply HV. exact Hp.
Qed.

Lemma read_holds qs s f k0 n j0 j1 : holds qs s f -> 0 < n <= 2000000000 -> blo <= j0 < bhi -> blo <= j1 < bhi ->
  sidx j0 < k0 <= sidx (j0 + 1) -> sidx j1 < k0 + n - 1 <= sidx (j1 + 1) ->
  exists v q fd, read_window mval (Some (win interval size sj ss bst k0 n j0 j1)) s = Ok (Some (v, q, fd)) /\
    alen v = n /\ alen q = n /\
    (forall x, 0 <= x < n -> same_value miss (nth (Z.to_nat x) v 0) (fst (f (k0 + x))) /\
       (qs = true -> nth (Z.to_nat x) q 0 = snd (f (k0 + x))) /\
       (miss (fst (f (k0 + x))) = false -> fd = true)).
Proof.
  intros HS Hn Hj0 Hj1 Hk0 Hk1.
  assert (J01 : j0 <= j1).
  { apply (j01 sidx blo bhi (g_s _ _ _ _ _ _ _ _ G) k0 n j0 j1); lia. }
  assert (SM : forall a b, blo <= a <= b -> b <= bhi -> sidx a + (b - a) <= sidx b) by (intros; eapply s_mono; [apply G|..]; eassumption).
  destruct (read_loop_ok' mval interval size sj ss bst sidx blo bhi (g_week _ _ _ _ _ _ _ _ G)
    (g_s _ _ _ _ _ _ _ _ G) (g_b _ _ _ _ _ _ _ _ G) (g_step _ _ _ _ _ _ _ _ G) (g_count _ _ _ _ _ _ _ _ G) (g_pos _ _ _ _ _ _ _ _ G)
    k0 n j0 j1 Hn ltac:(lia) ltac:(lia) ltac:(lia) s
    (Z.to_nat (j1 + 1 - j0)) (block_fuel (win interval size sj ss bst k0 n j0 j1)) j0) as (v & q & fd & E & L & LQ & GV & FD).
  { lia. } { lia. }
  { eapply fuel_ok with (blo := blo) (bhi := bhi) (sidx := sidx); try apply G; try lia. }
  rewrite done_j0 with (blo := blo) (bhi := bhi) in E, L, LQ, GV by (try apply G; lia).
  exists v, q, fd. split; [unfold read_window; exact E|]. split; [lia|]. split; [lia|].
  intros x Hx. assert (LO : sidx blo < k0 + x <= sidx bhi).
  { pose proof (SM blo j0 ltac:(lia) ltac:(lia)). pose proof (SM (j1 + 1) bhi ltac:(lia) ltac:(lia)). lia. }
  destruct (locate (k0 + x) ltac:(lia) LO) as (i & Hi & Hk).
  assert (I0 : j0 <= i <= j1).
  { split.
    - destruct (Z_le_gt_dec j0 i) as [|Q]; [assumption|]. pose proof (SM (i + 1) j0 ltac:(lia) ltac:(lia)). lia.
    - destruct (Z_le_gt_dec i j1) as [|Q]; [assumption|]. pose proof (SM (j1 + 1) i ltac:(lia) ltac:(lia)). lia. }
  destruct (GV i (k0 + x) I0 Hk ltac:(unfold written; lia)) as (A1 & A2).
  replace (k0 + x - k0 - 0) with x in A1, A2 by lia.
  assert (NTH : forall (l : list Z) w, aget l x = Ok w -> nth (Z.to_nat x) l 0 = w).
  { intros l w. unfold aget. replace (x <? 0) with false by lia. destruct (nth_error l (Z.to_nat x)) eqn:NE; [|discriminate].
    intros Q. injection Q as <-. apply nth_error_nth. exact NE. }
  rewrite (NTH _ _ A1), (NTH _ _ A2). destruct (HS i ltac:(lia)) as (_ & HV). destruct (HV (k0 + x - sidx i - 1) ltac:(lia)) as (B1 & B2).
  replace (sidx i + 1 + (k0 + x - sidx i - 1)) with (k0 + x) in B1, B2 by lia.
  split; [exact B1|]. split; [exact B2|]. intros M. apply FD. exists i. split; [exact I0|]. intros NE. rewrite NE in B1.
  apply eqm_miss in B1. cbn [vat] in B1. congruence.
Qed.
End Hist.
