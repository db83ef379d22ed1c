(** * Lemmas for C48: the loop over the blocks of a store. *)
From Coq Require Import ZArith List Lia Bool ZifyBool.
From Verif Require Import Base DateModel DateSpec DateProofs DateProofs2 DateProofs3 BlockModel BlockSpec BlockProofs BlockProps
  ArrayLib IrregModel IrregProofs IrregProps SeriesSpec SeriesGrid IrrSerModel IrrSerSpec IrrSerProofs IrrSerBlock.
Import ListNotations.
Open Scope Z_scope.
Open Scope res_scope.

Lemma quot_bounds a L : 0 < L -> exists q r, Z.quot a L = q /\ a = q * L + r /\ (0 <= a -> 0 <= r < L) /\ (a <= 0 -> - L < r <= 0).
Proof.
  intros H. exists (Z.quot a L), (Z.rem a L). split; [reflexivity|]. pose proof (Z.quot_rem' a L). split; [lia|]. split; intros.
  - apply Z.rem_bound_pos; lia.
  - pose proof (Z.rem_bound_pos (- a) L ltac:(lia) ltac:(lia)) as Q. rewrite Z.rem_opp_l in Q by lia. lia.
Qed.

Lemma clean_time base t g : g = 1 \/ g = 60 \/ g = 3600 \/ g = 86400 -> -1700000000 <= t <= 1700000000 -> in_years (base * 86400 + t * g) ->
  ~ (base = 0 /\ t = 0) -> exists j' t', cleanTime base t g = Ok (1, j', t') /\ j' * 86400 + t' * g = base * 86400 + t * g /\ 0 < t' * g <= 86400.
Proof.
  intros G T Y N. unfold in_years in Y.
  assert (exists L, 0 < L /\ L * g = 86400 /\ (if (if g <? 1 then MINUTE_GRANULARITY else g) =? MINUTE_GRANULARITY then MINS_IN_1_DAY
     else if (if g <? 1 then MINUTE_GRANULARITY else g) =? SECOND_GRANULARITY then SECS_IN_1_DAY
     else Z.quot SECS_IN_1_DAY (if g <? 1 then MINUTE_GRANULARITY else g)) = L /\ (L = 86400 \/ L = 1440 \/ L = 24 \/ L = 1)) as (L & L0 & L1 & L2 & L3).
  { destruct G as [->|[->|[->| ->]]]; [exists 86400|exists 1440|exists 24|exists 1]; repeat split; auto; lia. }
  assert (Bd : -1800000000 <= base <= 1800000000) by (clear -G T Y; destruct G as [->|[->|[->| ->]]]; lia).
  unfold cleanTime. replace (base =? UNDEFINED_TIME) with false by (unfold UNDEFINED_TIME; lia). replace ((base =? 0) && (t =? 0)) with false by (clear -N; lia).
  destruct ((g =? MINUTE_GRANULARITY) && _) eqn:C1. { exists base, t. split; [reflexivity|]. split; [reflexivity|]. unfold MINUTE_GRANULARITY, MINS_IN_1_DAY in C1. clear -C1. assert (g = 60) by lia. subst. lia. }
  destruct ((g =? SECOND_GRANULARITY) && _) eqn:C2. { exists base, t. split; [reflexivity|]. split; [reflexivity|]. unfold SECOND_GRANULARITY, SECS_IN_1_DAY in C2. clear -C2. assert (g = 1) by lia. subst. lia. }
  cbv zeta. rewrite L2. clear L2. destruct ((t >? 0) && ((t <=? L) && (t >? 0))) eqn:C3. { exists base, t. split; [reflexivity|]. split; [reflexivity|]. clear -C3 L1 G. assert (0 < t <= L) by lia. rewrite <- L1. assert (0 < g) by lia. nia. }
  replace (L =? 0) with false by lia. destruct (quot_bounds t L L0) as (q & r & -> & Et & R1 & R2). clear C1 C2 N.
  assert (Bq : -600000 <= base + q <= 950000).
  { assert (X : base * 86400 + t * g = (base + q) * 86400 + r * g) by (rewrite Et, <- L1; ring). assert (-86400 < r * g < 86400) by nia. lia. }
  assert (V : forall j' t', j' * L + t' = base * L + t -> 0 < t' <= L -> j' * 86400 + t' * g = base * 86400 + t * g /\ 0 < t' * g <= 86400).
  { intros j' t' E1 E2. rewrite <- L1. split; [|nia]. replace (j' * (L * g) + t' * g) with ((j' * L + t') * g) by ring. rewrite E1. ring. }
  assert (Gp : 0 < g) by lia. clear Bd Y L1 G.
  destruct (q >? 0) eqn:Q.
  - rewrite chk32_ok by (unfold in32, INT_MIN, INT_MAX; lia). cbn [bind fst snd]. assert (0 <= t) by nia. specialize (R1 H). replace (t - q * L) with r by lia.
    destruct (r =? 0) eqn:Z0.
    + rewrite chk32_ok by (unfold in32, INT_MIN, INT_MAX; lia). cbn [bind]. do 2 eexists. split; [reflexivity|]. apply V; lia.
    + do 2 eexists. split; [reflexivity|]. apply V; lia.
  - rewrite chk32_ok by (unfold in32, INT_MIN, INT_MAX; lia). cbn [bind fst snd]. replace (t - q * L + L) with (r + L) by lia.
    assert (t <= 0). { destruct (Z_le_gt_dec t 0); [assumption|]. exfalso. specialize (R1 ltac:(lia)). assert (q <= 0) by lia. assert (q * L <= 0) by nia. lia. }
    specialize (R2 H). replace (r + L =? 0) with false by lia. do 2 eexists. split; [reflexivity|]. apply V; lia.
Qed.

Section K.
Variable k : block_kind.
Variable g : Z.
Hypothesis Gok : gran_ok k g.
Context {P : Type}.
Variable dflt : P.
Notation u := (u k).
Notation B := (B k).
Notation inb := (inb k).
Notation rng := (rng k).
Notation size := (block_code k).
Notation brep := (brep k g).
Notation abs := (abs k).
Notation ent_ok := (ent_ok k g).
Implicit Types l : list (Z * P).

Definition rep (m : Z -> option P) (s : iseries P) : Prop := forall j, rng j -> brep j m (s (bstart k j)).

Lemma fits_spec toStart toEnd l : increasing l -> (forall e, In e l -> in32 (fst e - toStart)) ->
  exists l1 l2, l = l1 ++ l2 /\ fits toStart toEnd l = Ok (alen l1) /\ (forall e, In e l1 -> fst e - toStart <= toEnd) /\ (forall e, In e l2 -> toEnd < fst e - toStart).
Proof.
  induction l as [|a r IH]; intros H I32.
  - exists [], []. split; [reflexivity|]. split; [reflexivity|]. split; intros e [].
  - cbn [fits]. rewrite chk32_ok by (apply I32; left; reflexivity). cbn [bind]. rewrite inc_cons in H. destruct H as [G H].
    destruct (fst a - toStart >? toEnd) eqn:C.
    + exists [], (a :: r). split; [reflexivity|]. split; [reflexivity|]. split; [intros e []|]. intros e [<-|He]; [lia|specialize (G e He); lia].
    + destruct IH as (l1 & l2 & E & F & A & A'); [exact H|intros; apply I32; right; assumption|]. rewrite F. cbn [bind]. exists (a :: l1), l2. split; [cbn [app]; f_equal; exact E|].
      split; [f_equal; rewrite alen_cons; lia|]. split; [|exact A']. intros e [<-|He]; [lia|apply A; exact He].
Qed.

Lemma rebase_spec base j : rng j -> forall l, (forall e, In e l -> inb j (base * 86400 + fst e * g)) ->
  exists new, rebase size g ((bstart k j - base) * per_day g) l = Ok new /\ abs j new = instants g base l /\ forall e, In e new -> ent_ok j e.
Proof.
  intros R. destruct (g_u k g Gok) as (c & Gc & C0 & _ & G0 & Pd). destruct (B_step k j R) as (Ln & _). destruct (u_cases k) as [Uc U].
  induction l as [|a r IH]; intros H.
  - exists []. split; [reflexivity|]. split; [reflexivity|]. intros e [].
  - destruct IH as (new & E & A & O); [intros; apply H; right; assumption|]. pose proof (H a ltac:(left; reflexivity)) as Ha.
    cbn [rebase]. set (d := fst a - (bstart k j - base) * per_day g).
    assert (X : d * g = base * 86400 + fst a * g - B j). { unfold d, IrrSerProofs.B. rewrite Z.mul_sub_distr_r. replace ((bstart k j - base) * per_day g * g) with ((bstart k j - base) * (per_day g * g)) by ring. rewrite Pd. ring. }
    unfold IrrSerProofs.inb in Ha. assert (D0 : 0 < d) by (clear -X Ha G0; nia).
    assert (Dc : 0 < d * c) by nia. assert (Dg : d * g = d * c * u) by (rewrite Gc; ring).
    assert (Dcb : d * c <= 700000000).
    { destruct Uc as [[U1 K]|[U1 K]].
      - pose proof (days_decade k K). rewrite U1 in Dg. clear -Ha Ln X Dg H0. lia.
      - pose proof (days_pos k). rewrite U1 in Dg. clear -Ha Ln X Dg H0. lia. }
    assert (Db : d <= d * c) by nia.
    rewrite chk32_ok by (unfold in32, INT_MIN, INT_MAX; lia). cbn [bind].
    assert (T : (if size =? 5 then chk32 (Z.quot (d * g) 60) else chk32 (d * g)) = Ok (d * c)).
    { destruct Uc as [[U1 K]|[U1 K]]; rewrite U1 in Dg.
      - replace (size =? 5) with false by (destruct k; congruence || reflexivity). rewrite Dg, Z.mul_1_r. apply chk32_ok. unfold in32, INT_MIN, INT_MAX; lia.
      - replace (size =? 5) with true by (rewrite K; reflexivity). rewrite Dg, Z.quot_mul by lia. apply chk32_ok. unfold in32, INT_MIN, INT_MAX; lia. }
    rewrite T, E. cbn [bind]. eexists. split; [reflexivity|]. split.
    + cbn [IrrSerBlock.abs map instants fst snd]. unfold IrrSerBlock.abs, instants in A. rewrite A. f_equal. f_equal. lia.
    + intros e [<-|He]; [|apply O; exact He]. unfold IrrSerBlock.ent_ok, IrrSerProofs.inb. cbn [fst]. rewrite <- Dg. split; [lia|]. apply Z.mod_mul. lia.
Qed.

Lemma instants_inc base l : increasing l -> increasing (instants g base l).
Proof. destruct (g_u k g Gok) as (c & _ & _ & _ & G0 & _). intros H. apply (inc_map (fun t => base * 86400 + t * g)); [|exact H]. intros; nia. Qed.
Lemma in_instants base l i v : In (i, v) (instants g base l) <-> exists t, In (t, v) l /\ i = base * 86400 + t * g.
Proof.
  unfold instants. rewrite in_map_iff. split.
  - intros ([t w] & [= <- <-] & I). exists t. auto.
  - intros (t & I & ->). exists (t, v). auto.
Qed.
Lemma at_none base l i : (forall e, In e l -> base * 86400 + fst e * g <> i) -> at_time i (instants g base l) = None.
Proof. intros H. apply at_time_none. intros e He. apply in_map_iff in He. destruct He as (x & <- & I). apply H. exact I. Qed.

Lemma first_day j : rng j -> bstart k j = 0 -> k = DayBlock.
Proof.
  intros R E. assert (X : (1 <= 1 <= 12) /\ 1 <= 1) by lia. destruct (rng_br k j R) as [R1 _]. assert (W : rata 1899 12 31 = 0) by (vm_compute; reflexivity).
  assert (V : valid_date 1899 12 31) by (vm_compute; intuition discriminate).
  assert (F : forall y m, 5 <= y <= YMAX -> 1 <= m <= 12 -> rata y m 1 = 0 -> False).
  { intros y m Y M Q. assert (V1 : valid_date y m 1) by (split; [exact M|pose proof (month_length_bound y m); lia]). rewrite <- W in Q.
    destruct (rata_inj _ _ _ _ _ _ V1 V Y ltac:(unfold YMAX; lia) Q) as (_ & _ & N). discriminate. }
  destruct k; cbn [bstart brange] in *; [reflexivity| | | |]; exfalso.
  - apply (F (j / 12) (j mod 12 + 1)); [|pose proof (Z.mod_pos_bound j 12 ltac:(lia)); lia|exact E]. unfold YMAX. pose proof (Z.div_mod j 12 ltac:(lia)). pose proof (Z.mod_pos_bound j 12 ltac:(lia)). lia.
  - apply (F j 1); [unfold YMAX; lia|lia|exact E].
  - apply (F (10 * j) 1); [unfold YMAX; lia|lia|exact E].
  - apply (F (100 * j) 1); [unfold YMAX; lia|lia|exact E].
Qed.
End K.
