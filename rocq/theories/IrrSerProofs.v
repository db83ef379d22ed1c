(** * Lemmas for C48: one block of an irregular series. *)
From Coq Require Import ZArith List Lia Bool ZifyBool.
From Verif Require Import Base DateModel DateSpec DateProofs DateProofs2 DateProofs3 BlockModel BlockSpec BlockProofs BlockProps
  ArrayLib IrregModel IrregProofs IrregProps SeriesSpec SeriesGrid IrrSerModel IrrSerSpec.
Import ListNotations.
Open Scope Z_scope.
Open Scope res_scope.

(** ** Lists *)
Section L.
Context {P : Type}.
Implicit Types l : list (Z * P).

Lemma at_time_in l : increasing l -> forall i v, at_time i l = Some v <-> In (i, v) l.
Proof.
  induction l as [|[t w] r IH]; intros H i v; [split; [discriminate|intros []]|]. rewrite inc_cons in H. destruct H as [G H]. cbn [at_time In].
  destruct (t =? i) eqn:E.
  - assert (t = i) by lia. subst. split; [intros [= ->]; left; reflexivity|]. intros [[= ->]|Q]; [reflexivity|]. specialize (G _ Q). cbn in G. lia.
  - rewrite (IH H). split; [right; assumption|]. intros [[= -> ->]|Q]; [lia|exact Q].
Qed.
Lemma at_time_app i l1 l2 : at_time i (l1 ++ l2) = match at_time i l1 with Some v => Some v | None => at_time i l2 end.
Proof. induction l1 as [|[t v] r IH]; [reflexivity|]. cbn [app at_time]. destruct (t =? i); [reflexivity|exact IH]. Qed.
Lemma at_time_filter (f : Z * P -> bool) i l : (forall v, f (i, v) = f (i, v)) ->
  (forall e e', In e l -> In e' l -> fst e = fst e' -> f e = f e') ->
  at_time i (filter f l) = if existsb (fun e => (fst e =? i) && f e) l then at_time i l else None.
Proof.
  intros _. induction l as [|[t v] r IH]; intros H; [reflexivity|]. cbn [filter at_time existsb fst].
  assert (H' : forall e e', In e r -> In e' r -> fst e = fst e' -> f e = f e') by (intros; apply H; try right; assumption).
  specialize (IH H'). destruct (f (t, v)) eqn:F; cbn [at_time]; destruct (t =? i) eqn:E; cbn [andb orb]; [reflexivity|exact IH| |exact IH].
  rewrite IH. destruct (existsb _ r) eqn:X; [|reflexivity]. exfalso. apply existsb_exists in X. destruct X as (e & I & Q). apply andb_true_iff in Q. destruct Q as [Q1 Q2].
  rewrite (H (t, v) e) in F; [congruence|left; reflexivity|right; exact I|cbn; lia].
Qed.
Lemma inc_map (f : Z -> Z) l : (forall a b, a < b -> f a < f b) -> increasing l -> increasing (map (fun e => (f (fst e), snd e)) l).
Proof.
  intros M. induction l as [|a r IH]; intros H; [exact I|]. rewrite inc_cons in H. destruct H as [G H]. cbn [map]. rewrite inc_cons. split; [|apply IH; exact H].
  intros e He. apply in_map_iff in He. destruct He as (x & <- & I). cbn [fst]. apply M. apply G. exact I.
Qed.
Lemma inc_map_inv (f : Z -> Z) l : (forall a b, f a < f b -> a < b) -> increasing (map (fun e => (f (fst e), snd e)) l) -> increasing l.
Proof.
  intros M. induction l as [|a r IH]; intros H; [exact I|]. cbn [map] in H. rewrite inc_cons in H. destruct H as [G H]. rewrite inc_cons. split; [|apply IH; exact H].
  intros e He. apply M. specialize (G (f (fst e), snd e)). cbn [fst] in G. apply G. apply in_map_iff. exists e. split; [reflexivity|exact He].
Qed.
Lemma map_filter {A B} (h : A -> B) (f : B -> bool) (l : list A) : filter f (map h l) = map h (filter (fun e => f (h e)) l).
Proof. induction l as [|a r IH]; [reflexivity|]. cbn [map filter]. destruct (f (h a)); cbn [map]; rewrite IH; reflexivity. Qed.
(** values a multiple of [c] apart *)
Lemma inc_count c l : 0 < c -> increasing l -> (forall e, In e l -> fst e mod c = 0) -> forall a, In a l -> forall z : Z * P, (forall e, In e l -> fst a <= fst e <= fst z) ->
  (alen l - 1) * c <= fst z - fst a.
Proof.
  intros C. assert (Q : forall (l0 : list (Z * P)) a z, increasing (a :: l0) -> (forall e, In e (a :: l0) -> fst e mod c = 0) -> (forall e, In e l0 -> fst e <= z) -> fst a <= z -> alen l0 * c <= z - fst a).
  { intros l0; induction l0 as [|b r IH]; intros a z H M U Ua; [unfold alen; cbn [length Z.of_nat]; lia|]. rewrite alen_cons, Z.mul_add_distr_r, Z.mul_1_l. destruct H as [H1 H2].
    pose proof (IH b z H2 ltac:(intros; apply M; right; assumption) ltac:(intros; apply U; right; assumption) ltac:(apply U; left; reflexivity)).
    pose proof (M a ltac:(left; reflexivity)) as Ma. pose proof (M b ltac:(right; left; reflexivity)) as Mb.
    assert (c <= fst b - fst a). { apply Z.div_exact in Ma; [|lia]. apply Z.div_exact in Mb; [|lia]. set (x := fst a / c) in *. set (y := fst b / c) in *. clearbody x y. rewrite Ma, Mb in *. clear -C H1. assert (x < y) by nia. nia. }
    lia. }
  intros H M a Ia z U. destruct l as [|b r]; [destruct Ia|]. rewrite alen_cons.
  assert (fst b = fst a). { apply Z.le_antisymm; [|apply U; left; reflexivity]. destruct Ia as [->|Ia]; [lia|]. apply inc_cons in H. destruct H as [G _]. specialize (G a Ia). lia. }
  pose proof (Q r b (fst z) H M ltac:(intros; apply U; right; assumption) ltac:(apply U; left; reflexivity)). lia.
Qed.
Lemma aget_first (x : Z * P) l : aget (x :: l) 0 = Ok x. Proof. reflexivity. Qed.
Lemma aget_last (x : Z * P) l : aget (x :: l) (alen (x :: l) - 1) = Ok (last (x :: l) x).
Proof.
  assert (Q : forall n (d : Z * P) y, length (y :: l) = n -> aget (y :: l) (Z.of_nat n - 1) = Ok (last (y :: l) d)).
  { intros n d. revert n. induction l as [|b r IH]; intros n y <-; [reflexivity|]. cbn [length]. specialize (IH (S (length r)) b eq_refl).
    change (last (y :: b :: r) d) with (last (b :: r) d). rewrite <- IH. unfold aget. replace (Z.of_nat (S (S (length r))) - 1 <? 0) with false by lia. replace (Z.of_nat (S (length r)) - 1 <? 0) with false by lia.
    replace (Z.to_nat (Z.of_nat (S (S (length r))) - 1)) with (S (Z.to_nat (Z.of_nat (S (length r)) - 1))) by lia. reflexivity. }
  unfold alen. apply Q. reflexivity.
Qed.
Lemma last_in (x : Z * P) l : In (last (x :: l) x) (x :: l).
Proof. revert x. assert (Q : forall l (d y : Z * P), In (last (y :: l) d) (y :: l)). { induction l0 as [|b r IH]; intros d y; [left; reflexivity|]. right. apply IH. } intros x. apply Q. Qed.
Lemma first_le x l : increasing (x :: l) -> forall e, In e (x :: l) -> fst x <= fst e.
Proof. intros H e [<-|I]; [lia|]. apply inc_cons in H. destruct H as [G _]. specialize (G e I). lia. Qed.
Lemma last_ge x l : increasing (x :: l) -> forall e, In e (x :: l) -> fst e <= fst (last (x :: l) x).
Proof. intros H. apply (inc_last_ge (x :: l)); [exact H|apply aget_last]. Qed.
Lemma spans_spec x l i : increasing (x :: l) -> spans (x :: l) i = (fst x <=? i) && (i <=? fst (last (x :: l) x)).
Proof.
  intros H. unfold spans. f_equal.
  - apply eq_true_iff_eq. rewrite existsb_exists. split; [intros (e & I & Q); pose proof (first_le x l H e I); lia|]. intros Q. exists x. split; [left; reflexivity|exact Q].
  - apply eq_true_iff_eq. rewrite existsb_exists. split; [intros (e & I & Q); pose proof (last_ge x l H e I); lia|]. intros Q. eexists. split; [apply last_in|exact Q].
Qed.
Lemma last_map (h : Z * P -> Z * P) (l : list (Z * P)) d : last (map h l) (h d) = h (last l d).
Proof. induction l as [|a [|b r] IH]; [reflexivity..|exact IH]. Qed.
End L.

(** ** Blocks *)
Section B.
Variable k : block_kind.
Definition u : Z := block_unit (block_code k).
Definition B (j : Z) : Z := bstart k j * 86400.
Definition inb (j i : Z) : Prop := B j < i <= B (j + 1).
Definition rng (j : Z) : Prop := slo k <= j < shi k.

Lemma u_cases : (u = 1 /\ k <> CenturyBlock \/ u = 60 /\ k = CenturyBlock) /\ 0 < u.
Proof. unfold u. destruct k; (split; [|reflexivity]); try (left; split; [reflexivity|discriminate]); right; split; reflexivity. Qed.
Lemma rng_br j : rng j -> brange k j /\ brange k (j + 1).
Proof. unfold rng. intros H. split; apply sb_range; lia. Qed.
Lemma B_step j : rng j -> B j + block_days k * 86400 <= B (j + 1) <= B j + 2 * block_days k * 86400 /\ -620000 <= bstart k j <= 729792000 /\ -620000 <= bstart k (j + 1) <= 729792000.
Proof. intros H. destruct (rng_br j H) as [H1 H2]. pose proof (block_length k j H1). pose proof (sday k j ltac:(unfold rng in H; lia)). pose proof (sday k (j + 1) ltac:(unfold rng in H; lia)). unfold B. lia. Qed.
Lemma days_pos : 1 <= block_days k <= 36500. Proof. destruct k; cbn; lia. Qed.
Lemma days_year : k <> DecadeBlock -> k <> CenturyBlock -> block_days k <= 365. Proof. destruct k; cbn; congruence || lia. Qed.
Lemma days_decade : k <> CenturyBlock -> block_days k <= 3650. Proof. destruct k; cbn; congruence || lia. Qed.
Lemma B_mono a b : rng a -> rng b -> a <= b -> B a <= B b.
Proof. intros Ra Rb H. unfold B. pose proof (bstart_mono' k a b (proj1 (rng_br a Ra)) (proj1 (rng_br b Rb)) H). lia. Qed.
Lemma B_mono1 a b : rng a -> rng b -> a <= b -> B (a + 1) <= B (b + 1).
Proof. intros Ra Rb H. unfold B. pose proof (bstart_mono' k (a + 1) (b + 1) (proj2 (rng_br a Ra)) (proj2 (rng_br b Rb)) ltac:(lia)). lia. Qed.
Lemma B_next a b : rng a -> rng b -> a < b -> B (a + 1) <= B b.
Proof. intros Ra Rb H. unfold B. pose proof (bstart_mono' k (a + 1) b (proj2 (rng_br a Ra)) (proj1 (rng_br b Rb)) ltac:(lia)). lia. Qed.
Lemma inb_uniq a b i : rng a -> rng b -> inb a i -> inb b i -> a = b.
Proof.
  intros Ra Rb [A1 A2] [B1 B2]. destruct (Z_lt_le_dec a b) as [L|L].
  - pose proof (B_next a b Ra Rb L). lia.
  - destruct (Z_lt_le_dec b a) as [L'|L']; [|lia]. pose proof (B_next b a Rb Ra L'). lia.
Qed.

(** the days of an instant *)
Lemma day_bounds i : let d := (i - 1) / 86400 in d * 86400 < i <= (d + 1) * 86400.
Proof. cbv zeta. pose proof (Z.div_mod (i - 1) 86400 ltac:(lia)). pose proof (Z.mod_pos_bound (i - 1) 86400 ltac:(lia)). lia. Qed.
Lemma day_uniq i d : d * 86400 < i <= (d + 1) * 86400 -> (i - 1) / 86400 = d.
Proof. intros H. pose proof (day_bounds i) as Q. cbv zeta in Q. lia. Qed.
Lemma civil_ex i : in_years i -> exists y m d, civil i y m d /\ rata y m d = (i - 1) / 86400.
Proof.
  intros H. unfold in_years in H. pose proof (day_bounds i) as Q. cbv zeta in Q.
  destruct (day_date ((i - 1) / 86400)) as (y & m & d & V & Y & E); [rewrite rata_200, rata_4999900; lia|].
  exists y, m, d. split; [|exact E]. split; [exact V|]. split; [exact Y|]. pose proof (valid_d31 _ _ _ V). rewrite ymd_rata by (unfold YMAX; try apply V; lia). rewrite E. reflexivity.
Qed.
Lemma civil_rata i y m d : civil i y m d -> rata y m d = (i - 1) / 86400.
Proof. intros (V & Y & E). pose proof (valid_d31 _ _ _ V). rewrite ymd_rata in E by (unfold YMAX; try apply V; lia). congruence. Qed.
Lemma civil_inb i y m d : civil i y m d -> inb (bnum k y m d) i.
Proof.
  intros C. pose proof (civil_rata _ _ _ _ C) as E. destruct C as (V & Y & _). pose proof (within k y m d V Y) as W. pose proof (day_bounds i) as Q. cbv zeta in Q.
  unfold inb, B. lia.
Qed.
Lemma shi_top : 900001 * 86400 < B (shi k) /\ B (slo k) < -570001 * 86400.
Proof. unfold B. pose proof (shi_day k). pose proof (slo_day k). lia. Qed.
Lemma in_rng i j : brange k j -> brange k (j + 1) -> inb j i -> in_years i -> rng j.
Proof.
  intros R1 R2 [H1 H2] Y. unfold in_years in Y. pose proof shi_top as [T1 T2]. pose proof (slo_shi k). unfold rng.
  destruct (Z_lt_le_dec j (slo k)) as [L|L].
  - pose proof (bstart_mono' k (j + 1) (slo k) R2 (sb_range k (slo k) ltac:(lia)) ltac:(lia)). unfold B in *. lia.
  - destruct (Z_lt_le_dec j (shi k)) as [L'|L']; [lia|]. pose proof (bstart_mono' k (shi k) j (sb_range k (shi k) ltac:(lia)) R1 ltac:(lia)). unfold B in *. lia.
Qed.
Lemma block_of i : in_years i -> exists j, rng j /\ inb j i /\ ztsIrregGetBlockStart ((i - 1) / 86400) (block_code k) = Ok (bstart k j).
Proof.
  intros Y. destruct (civil_ex i Y) as (y & m & d & C & E). exists (bnum k y m d). pose proof (civil_inb _ _ _ _ C) as I. destruct C as (V & Yr & _).
  destruct (bnum_range k y m d V Yr) as (N1 & N2 & _). split; [eapply in_rng; eauto|]. split; [exact I|]. rewrite <- E. apply getStart; assumption.
Qed.
Lemma civil_of_inb j i : rng j -> inb j i -> exists y m d, civil i y m d /\ bnum k y m d = j.
Proof.
  intros R H. pose proof (B_step j R) as (L & D1 & D2). pose proof (day_bounds i) as Q. cbv zeta in Q. unfold inb, B in *.
  destruct (day_date ((i - 1) / 86400)) as (y & m & d & V & Y & E); [rewrite rata_200, rata_4999900; lia|].
  exists y, m, d. pose proof (valid_d31 _ _ _ V). assert (C : civil i y m d). { split; [exact V|]. split; [exact Y|]. rewrite ymd_rata by (unfold YMAX; try apply V; lia). rewrite E. reflexivity. }
  split; [exact C|]. destruct (bnum_range k y m d V Y) as (N1 & N2 & _). pose proof (within k y m d V Y) as W. destruct (rng_br j R) as [R1 R2].
  set (c := bnum k y m d) in *. clearbody c. destruct (Z_lt_le_dec c j) as [X|X].
  - pose proof (bstart_mono' k (c + 1) j N2 R1 ltac:(lia)). lia.
  - destruct (Z_lt_le_dec j c) as [X'|X']; [|lia]. pose proof (bstart_mono' k (j + 1) c R2 N1 ltac:(lia)). lia.
Qed.
Lemma share_inb j i f : rng j -> inb j f -> (share_block k i f <-> inb j i).
Proof.
  intros R F. split.
  - intros (y & m & d & y' & m' & d' & C & C' & S). pose proof (civil_inb _ _ _ _ C) as I. destruct (civil_of_inb j f R F) as (y2 & m2 & d2 & C2 & E2).
    pose proof (civil_rata _ _ _ _ C') as R1. pose proof (civil_rata _ _ _ _ C2) as R2. pose proof C as (V & Y & _). pose proof C' as (V' & Y' & _). pose proof C2 as (V2 & Y2 & _).
    destruct (rata_inj y' m' d' y2 m2 d2 V' V2) as (-> & -> & ->); [unfold YMAX; lia..|congruence|].
    apply same_block_num in S; auto. rewrite E2 in S. rewrite S in I. exact I.
  - intros I. destruct (civil_of_inb j f R F) as (y2 & m2 & d2 & C2 & E2). destruct (civil_of_inb j i R I) as (y & m & d & C & E).
    exists y, m, d, y2, m2, d2. split; [exact C|]. split; [exact C2|]. destruct C as (V & Y & _). destruct C2 as (V2 & Y2 & _). apply same_block_num; auto. congruence.
Qed.

Variable g : Z.
Hypothesis Gok : gran_ok k g.
Lemma g_cases : g = 1 \/ g = 60 \/ g = 3600 \/ g = 86400.
Proof. destruct Gok as [H _]. exact H. Qed.
Lemma g_u : exists c, g = c * u /\ 0 < c /\ 86400 mod g = 0 /\ 0 < g /\ per_day g * g = 86400.
Proof.
  destruct Gok as [H D]. destruct u_cases as [[[-> K]|[-> K]] _].
  - exists g. destruct H as [->|[->|[->| ->]]]; cbn; repeat split; lia.
  - specialize (D (or_intror K)). destruct H as [->|[->|[->| ->]]]; [congruence|exists 1|exists 60|exists 1440]; cbn; repeat split; lia.
Qed.
End B.
