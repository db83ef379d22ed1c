(** * Lemmas for C48: reading, merging and writing one block. *)
From Coq Require Import ZArith List Lia Bool ZifyBool.
From Verif Require Import Base DateModel DateSpec DateProofs DateProofs2 DateProofs3 BlockModel BlockSpec BlockProofs BlockProps
  ArrayLib IrregModel IrregProofs IrregProps SeriesSpec SeriesGrid IrrSerModel IrrSerSpec IrrSerProofs.
Import ListNotations.
Open Scope Z_scope.
Open Scope res_scope.

Section K.
Variable k : block_kind.
Variable g : Z.
Hypothesis Gok : gran_ok k g.
Context {P : Type}.
Variable dflt : P.
Notation u := (u k).
Notation B := (B k).
Notation inb := (inb k).
Notation rng := (rng k).
Notation size := (block_code k).

(** the entries of block [j], by instant *)
Definition abs (j : Z) (l : list (Z * P)) : list (Z * P) := map (fun e => (B j + fst e * u, snd e)) l.
Definition ent_ok (j : Z) (e : Z * P) : Prop := inb j (B j + fst e * u) /\ (fst e * u) mod g = 0.
Definition good (j : Z) (r : iblk P) : Prop :=
  ib_ents r <> [] /\ increasing (ib_ents r) /\ (forall e, In e (ib_ents r) -> ent_ok j e) /\ alen (ib_ents r) <= ib_log r /\ ib_gran r = g.
Definition brep (j : Z) (m : Z -> option P) (o : option (iblk P)) : Prop :=
  match o with
  | None => forall i, inb j i -> m i = None
  | Some r => good j r /\ forall i, inb j i -> m i = at_time i (abs j (ib_ents r))
  end.

Lemma abs_inc j l : increasing l -> increasing (abs j l).
Proof. intros H. apply (inc_map (fun t => B j + t * u)); [|exact H]. intros a b L. destruct (u_cases k) as [_ U]. nia. Qed.
Lemma abs_inc_inv j l : increasing (abs j l) -> increasing l.
Proof. intros H. apply (inc_map_inv (fun t => B j + t * u)) in H; [exact H|]. intros a b L. destruct (u_cases k) as [_ U]. nia. Qed.
Lemma abs_at j t l : at_time (B j + t * u) (abs j l) = at_time t l.
Proof.
  induction l as [|[a v] r IH]; [reflexivity|]. cbn [abs map at_time fst snd]. unfold abs in IH. rewrite IH. destruct (u_cases k) as [_ U].
  destruct (a =? t) eqn:E; [replace (B j + a * u =? B j + t * u) with true by nia; reflexivity|].
  replace (B j + a * u =? B j + t * u) with false; [reflexivity|]. symmetry. apply Z.eqb_neq. intros Q. assert (a * u = t * u) by lia. apply Z.mul_reg_r in H; lia.
Qed.
Lemma abs_app j l1 l2 : abs j (l1 ++ l2) = abs j l1 ++ abs j l2.
Proof. apply map_app. Qed.
Lemma abs_in j l i v : In (i, v) (abs j l) <-> exists t, In (t, v) l /\ i = B j + t * u.
Proof.
  unfold abs. rewrite in_map_iff. split.
  - intros ([t w] & [= <- <-] & I). exists t. split; [exact I|reflexivity].
  - intros (t & I & ->). exists (t, v). split; [reflexivity|exact I].
Qed.
Lemma abs_some j l i v : increasing l -> at_time i (abs j l) = Some v -> exists t, i = B j + t * u /\ In (t, v) l.
Proof. intros H A. apply at_time_in in A; [|apply abs_inc; exact H]. apply abs_in in A. destruct A as (t & I & E). exists t. auto. Qed.

(** ** Reading *)
Lemma filter_all {A} (f : A -> bool) (l : list A) : (forall e, In e l -> f e = true) -> filter f l = l.
Proof. induction l as [|a r IH]; intros H; [reflexivity|]. cbn [filter]. rewrite (H a) by (left; reflexivity). f_equal. apply IH. intros e He. apply H. right. exact He. Qed.
Lemma filter_none {A} (f : A -> bool) (l : list A) : (forall e, In e l -> f e = false) -> filter f l = [].
Proof. induction l as [|a r IH]; intros H; [reflexivity|]. cbn [filter]. rewrite (H a) by (left; reflexivity). apply IH. intros e He. apply H. right. exact He. Qed.
Lemma in_range_spec b sj ss ej es unit : 0 < unit -> 86400 mod unit = 0 -> ss mod unit = 0 -> 0 <= ss -> 0 <= es -> in32 (sj - b) -> in32 (ej - b) ->
  forall l last, increasing l -> (0 <= last -> last = 0 /\ forall e : Z * P, In e l -> instant sj ss <= b * 86400 + fst e * unit) ->
  in_range unit b sj ss ej es last l = Ok (filter (fun e => (instant sj ss <=? b * 86400 + fst e * unit) && (b * 86400 + fst e * unit <=? instant ej es)) l).
Proof.
  intros U D M S0 E0 I1 I2.
  apply Z.div_exact in D; [|lia]. apply Z.div_exact in M; [|lia]. set (D1 := 86400 / unit) in *. set (M1 := ss / unit) in *.
  assert (ES : es = unit * (es / unit) + es mod unit) by (apply Z.div_mod; lia). assert (EM := Z.mod_pos_bound es unit U).
  induction l as [|[t v] r IH]; intros last H HL; [reflexivity|]. cbn [in_range fst]. rewrite inc_cons in H. destruct H as [G H]. cbn [fst] in G.
  unfold isTimeInRange, SECS_IN_1_DAY. replace (unit <? 1) with false by lia. rewrite !Z.quot_div_nonneg by lia. fold D1 M1. rewrite !chk32_ok by assumption. cbn [bind].
  set (E1 := es / unit) in *. clearbody D1 M1 E1. set (R1 := es mod unit) in *. clearbody R1.
  assert (C1 : (t <? (sj - b) * D1 + M1) = negb (instant sj ss <=? b * 86400 + t * unit)). { unfold instant. rewrite D, M. clear -U. nia. }
  assert (C2 : (t >? (ej - b) * D1 + E1) = negb (b * 86400 + t * unit <=? instant ej es)).
  { unfold instant. rewrite D, ES. clear -U EM. apply eq_true_iff_eq. rewrite negb_true_iff, Z.gtb_ltb, Z.ltb_lt, Z.leb_gt. set (X := (ej - b) * D1) in *.
    replace (ej * (unit * D1)) with (X * unit + b * (unit * D1)) by (unfold X; ring). clearbody X. split; intros; nia. }
  assert (Up : forall last', last' = 1 -> instant sj ss <= b * 86400 + t * unit -> (b * 86400 + t * unit <=? instant ej es) = false ->
     (if last' >? 0 then Ok [] else in_range unit b sj ss ej es last' r) = Ok (filter (fun e => (instant sj ss <=? b * 86400 + fst e * unit) && (b * 86400 + fst e * unit <=? instant ej es)) r)).
  { intros last' -> L1 L2. change (1 >? 0) with true. cbv iota. f_equal. symmetry. apply filter_none. intros e He. specialize (G e He).
    replace (b * 86400 + fst e * unit <=? instant ej es) with false by nia. apply andb_false_r. }
  destruct (last <? 0) eqn:L.
  - rewrite C1, C2. cbn [filter fst]. destruct (instant sj ss <=? b * 86400 + t * unit) eqn:A1; cbn [negb andb bind].
    + destruct (b * 86400 + t * unit <=? instant ej es) eqn:A2; cbn [negb bind].
      * change (1 =? 1) with true. cbv iota. rewrite (IH 0 H); [reflexivity|]. intros _. split; [reflexivity|]. intros e He. specialize (G e He). nia.
      * change (0 =? 1) with false. cbv iota. apply Up; [reflexivity|lia|reflexivity].
    + change (0 =? 1) with false. cbv iota. replace (last >? 0) with false by lia. apply IH; [exact H|lia].
  - destruct (HL ltac:(lia)) as [-> Q]. pose proof (Q (t, v) ltac:(left; reflexivity)) as Q0. cbn [fst] in Q0. rewrite C2. cbn [filter fst].
    replace (instant sj ss <=? b * 86400 + t * unit) with true by lia. cbn [andb].
    destruct (b * 86400 + t * unit <=? instant ej es) eqn:A2; cbn [negb bind].
    + change (1 =? 1) with true. cbv iota. rewrite (IH 0 H); [reflexivity|]. intros _. split; [reflexivity|]. intros e He. apply Q. right. exact He.
    + change (0 =? 1) with false. cbv iota. apply Up; [reflexivity|lia|reflexivity].
Qed.
Lemma u_day : 86400 mod u = 0. Proof. destruct (u_cases k) as [[[-> _]|[-> _]] _]; reflexivity. Qed.
Lemma u_86400 : u * (86400 / u) = 86400. Proof. destruct (u_cases k) as [[[-> _]|[-> _]] _]; reflexivity. Qed.

Lemma read_block_spec j sj ss ej es max r : rng j -> good j r -> alen (ib_ents r) <= max -> ss mod u = 0 -> 0 <= ss -> 0 <= es -> -1000000 <= sj <= 1000000000 -> -1000000 <= ej <= 1000000000 ->
  read_block size (bstart k j) sj ss ej es max r = Ok (filter (fun e => (instant sj ss <=? B j + fst e * u) && (B j + fst e * u <=? instant ej es)) (ib_ents r)).
Proof.
  intros R (N & I & E & L & G) M S S0 E0 Hsj Hej. unfold read_block. rewrite Z.min_r by lia. unfold alen. rewrite Nat2Z.id, firstn_all.
  destruct (B_step k j R) as (_ & D & _). destruct (u_cases k) as [_ U]. fold u.
  apply in_range_spec; auto; try lia; try apply u_day; unfold in32, INT_MIN, INT_MAX; lia.
Qed.
(** the whole block *)
Lemma read_whole j r : rng j -> good j r -> read_block size (bstart k j) (bstart k j) 0 (bstart k (j + 1)) 0 (ib_log r) r = Ok (ib_ents r).
Proof.
  intros R Gd. pose proof Gd as (N & I & E & L & G). destruct (B_step k j R) as (_ & D & D'). destruct (u_cases k) as [_ U].
  rewrite (read_block_spec j) by (auto; try lia; apply Z.mod_0_l; lia). f_equal. apply filter_all. intros e He. destruct (E e He) as [[E1 E2] _]. unfold instant, IrrSerProofs.B in *. lia.
Qed.

(** ** Writing *)
Definition list_ok (j : Z) (l : list (Z * P)) : Prop := l <> [] /\ increasing l /\ forall e, In e l -> ent_ok j e.

Lemma time_of_spec j t : rng j -> inb j (B j + t * u) -> exists jd s, time_of size (bstart k j) t = Ok (jd, s) /\ instant jd s = B j + t * u /\ 0 < s <= 86400.
Proof.
  intros R H. destruct (B_step k j R) as (L & D & D'). destruct (u_cases k) as [_ U]. pose proof (days_pos k).
  unfold time_of, instant, IrrSerProofs.inb, IrrSerProofs.B in *.
  assert (T : 0 < t) by nia. 
  assert (Q : exists per, 0 < per /\ per * u = 86400 /\ (if size <? 5 then 86400 else 1440) = per /\ (if size <? 5 then 1 else 60) = u).
  { destruct (u_cases k) as [[[-> K]|[-> K]] _]; [exists 86400|exists 1440; subst k]; repeat split; try lia; destruct k; congruence || reflexivity. }
  destruct Q as (per & Q1 & Q2 & -> & ->). rewrite Z.quot_div_nonneg by lia. pose proof (Z.div_mod t per ltac:(lia)) as Dm. pose proof (Z.mod_pos_bound t per Q1) as Mb.
  set (q := t / per) in *. set (r := t mod per) in *. clearbody q r. assert (Tq : t * u = q * 86400 + r * u) by (rewrite Dm, <- Q2; ring).
  assert (Q0 : 0 <= q <= 2 * 36500) by nia. rewrite chk32_ok by (unfold in32, INT_MIN, INT_MAX; lia). cbn [bind].
  replace (t - q * per) with r by lia. assert (0 <= r * u < 86400) by nia.
  destruct (r * u <? 1) eqn:Z0; do 2 eexists; (split; [reflexivity|]); split; lia.
Qed.

Lemma finish_ok j m out : rng j -> list_ok j out -> (forall i, inb j i -> m i = at_time i (abs j out)) ->
  exists r, (if alen out >? 0 then
    let* e1 := aget out 0 in
    let* e2 := aget out (alen out - 1) in
    let* '(j1, s1) := time_of size (bstart k j) (fst e1) in
    let* '(j2, s2) := time_of size (bstart k j) (fst e2) in
    let* n := logical_number (bstart k (j + 1) - bstart k j + 1) j1 s1 j2 s2 (alen out) in
    Ok (Some (mk_iblk out n g))
  else Ok None) = Ok (Some r) /\ brep j m (Some r).
Proof.
  intros R (N & I & E) M. destruct out as [|x l]; [congruence|]. assert (Al : 0 < alen (x :: l)) by (rewrite alen_cons; pose proof (alen_nonneg l); lia).
  replace (alen (x :: l) >? 0) with true by lia. rewrite aget_first, aget_last. cbn [bind]. pose proof (last_in x l) as Il. set (z := last (x :: l) x) in *.
  destruct (E x ltac:(left; reflexivity)) as [Ex Mx]. destruct (E z Il) as [Ez Mz].
  destruct (time_of_spec j (fst x) R Ex) as (j1 & s1 & T1 & J1 & S1). destruct (time_of_spec j (fst z) R Ez) as (j2 & s2 & T2 & J2 & S2).
  rewrite T1, T2. cbn [bind]. pose proof (last_ge x l I) as Lg. pose proof (first_le x l I) as Fl. fold z in Lg.
  destruct (B_step k j R) as (L & D & D'). destruct (u_cases k) as [_ U]. pose proof (days_pos k) as Dp.
  assert (Cu : (alen (x :: l) - 1) * u <= (fst z - fst x) * u).
  { apply Z.mul_le_mono_nonneg_r; [lia|]. pose proof (inc_count 1 (x :: l) ltac:(lia) I ltac:(intros; apply Z.mod_1_r) x ltac:(left; reflexivity) z) as Q. rewrite Z.mul_1_r in Q. apply Q. auto. }
  assert (Cg : k = DecadeBlock \/ k = CenturyBlock -> (alen (x :: l) - 1) * 60 <= (fst z - fst x) * u).
  { intros K. destruct Gok as [G1 G2]. specialize (G2 K). assert (M60 : forall e, In e (x :: l) -> (fst e * u) mod 60 = 0).
    { intros e He. destruct (E e He) as [_ Q]. assert (exists c, g = 60 * c) as [c ->] by (destruct G1 as [->|[->|[->| ->]]]; [congruence|exists 1|exists 60|exists 1440]; reflexivity).
      assert (c <> 0) by (intros ->; lia). apply Z.mod_divide in Q; [|lia]. destruct Q as [q Q]. rewrite Q. replace (q * (60 * c)) with (q * c * 60) by ring. apply Z.mod_mul. lia. }
    pose proof (abs_inc j (x :: l) I) as Ia.
    pose proof (inc_count 60 (map (fun e => (fst e * u, snd e)) (x :: l)) ltac:(lia)) as Q. 
    assert (Im : increasing (map (fun e => (fst e * u, snd e)) (x :: l))) by (apply (inc_map (fun t => t * u)); [intros; nia|exact I]).
    specialize (Q Im). assert (Qm : forall e : Z * P, In e (map (fun e => (fst e * u, snd e)) (x :: l)) -> fst e mod 60 = 0) by (intros e He; apply in_map_iff in He; destruct He as (y & <- & Iy); cbn [fst]; apply M60; exact Iy).
    specialize (Q Qm (fst x * u, snd x) ltac:(left; reflexivity) (fst z * u, snd z)). cbn [fst] in Q. unfold alen in *. rewrite map_length in Q. rewrite (Z.mul_sub_distr_r (fst z)). apply Q.
    intros e He. apply in_map_iff in He. destruct He as (y & <- & Iy). cbn [fst]. specialize (Lg y Iy). specialize (Fl y Iy). nia. }
  unfold instant, IrrSerProofs.inb, IrrSerProofs.B in *.
  destruct (C42_logical_number_partial (bstart k (j + 1) - bstart k j + 1) j1 s1 j2 s2 (alen (x :: l))) as (n & En & Ln); try lia.
  - assert (K : k = CenturyBlock \/ k <> CenturyBlock) by (destruct k; (left; reflexivity) || (right; discriminate)).
    destruct (rng_br k j R) as [R1 R2]. clear -R1. destruct k; cbn [bstart brange] in *.
    + lia.
    + pose proof (block_length MonthBlock j ltac:(cbn [brange]; lia)) as Q. cbn [bstart block_days] in Q. lia.
    + pose proof (block_length YearBlock j ltac:(cbn [brange]; lia)) as Q. cbn [bstart block_days] in Q. lia.
    + pose proof (block_length DecadeBlock j ltac:(cbn [brange]; lia)) as Q. cbn [bstart block_days] in Q. lia.
    + pose proof (rata_jan_addz (100 * j) 100 ltac:(lia) ltac:(lia)) as Q. replace (100 * (j + 1)) with (100 * j + 100) by lia. lia.
  - assert (X : fst x * u <= fst z * u) by (apply Z.mul_le_mono_nonneg_r; [lia|apply Fl; exact Il]).
    clear -X J1 J2 S1 S2 Ex Ez. lia.
  - assert (X : alen (x :: l) - 1 <= (alen (x :: l) - 1) * u) by (clear -Al U; generalize dependent (alen (x :: l)); intros; nia).
    rewrite (Z.mul_sub_distr_r (fst z)) in Cu. lia.
  - assert (K : (k = DecadeBlock \/ k = CenturyBlock) \/ (k <> DecadeBlock /\ k <> CenturyBlock)) by (destruct k; (left; auto; fail) || (right; split; discriminate) || (left; right; reflexivity) || (left; left; reflexivity)).
    destruct K as [K|[K1 K2]].
    + right. specialize (Cg K). destruct Gok as [G1 G2]. specialize (G2 K).
      assert (M60 : forall t, (t * u) mod g = 0 -> exists c, t * u = 60 * c).
      { intros t Q. apply Z.mod_divide in Q; [|destruct G1 as [->|[->|[->| ->]]]; lia]. destruct Q as [q Q]. rewrite Q.
        destruct G1 as [->|[->|[->| ->]]]; [congruence|exists q|exists (q * 60)|exists (q * 1440)]; lia. }
      destruct (M60 _ Mx) as [cx Cx]. destruct (M60 _ Mz) as [cz Cz].
      assert (exists a, s1 = 60 * a) as [a ->] by (exists (bstart k j * 1440 + cx - j1 * 1440); lia).
      assert (exists b, s2 = 60 * b) as [b ->] by (exists (bstart k j * 1440 + cz - j2 * 1440); lia).
      replace (60 * b - 60 * a) with ((b - a) * 60) by ring. rewrite Z.quot_mul by lia. rewrite Z.mul_sub_distr_r in Cg. lia.
    + left. pose proof (days_year k K1 K2). destruct (rng_br k j R) as [R1 R2]. clear -R1 K1 K2. destruct k; cbn [bstart brange] in *; try congruence.
      * lia.
      * pose proof (block_length MonthBlock j ltac:(cbn [brange]; lia)) as Q. cbn [bstart block_days] in Q. lia.
      * pose proof (rata_jan_addz j 1 ltac:(lia) ltac:(lia)). lia.
  - rewrite En. cbn [bind]. eexists. split; [reflexivity|]. split; [|exact M]. split; [discriminate|]. split; [exact I|]. split; [exact E|]. split; [exact Ln|reflexivity].
Qed.

Lemma brep_ext j m m' o : (forall i, inb j i -> m i = m' i) -> brep j m o -> brep j m' o.
Proof.
  intros E. destruct o as [r|]; cbn [brep].
  - intros [G H]. split; [exact G|]. intros i Hi. rewrite <- E by exact Hi. apply H. exact Hi.
  - intros H i Hi. rewrite <- E by exact Hi. apply H. exact Hi.
Qed.
Lemma opt_ext (a b : option P) : (forall v, a = Some v <-> b = Some v) -> a = b.
Proof. intros H. destruct a as [v|]; [symmetry; apply H; reflexivity|]. destruct b as [v|]; [apply H; reflexivity|reflexivity]. Qed.
Lemma good_pos j r : good j r -> 1 <= alen (ib_ents r) <= ib_log r.
Proof. intros (N & _ & _ & L & _). destruct (ib_ents r) as [|a l]; [congruence|]. rewrite alen_cons in *. pose proof (alen_nonneg l). lia. Qed.

Lemma store0 j m o new wj ws fs te : rng j -> brep j m o -> list_ok j new ->
  exists r, store_iblock dflt 0 size g (bstart k j) (bstart k (j + 1)) wj ws fs te true new o = Ok (Some r) /\
    brep j (fun i => match at_time i (abs j new) with Some v => Some v | None => m i end) (Some r).
Proof.
  intros R H (N & I & E). unfold store_iblock. destruct o as [r|].
  - destruct H as [Gd M]. pose proof (good_pos j r Gd) as Lp. pose proof Gd as (N0 & I0 & E0 & L0 & G0). cbn [negb orb]. replace (ib_log r <? 1) with false by lia.
    rewrite (read_whole j r R Gd). cbn [bind]. fold u.
    destruct (C31_merge P (bstart k j) u wj ws fs te new (ib_ents r) (repeat (0, dflt) (Z.to_nat (ib_log r - alen (ib_ents r)))) I I0) as (out & -> & Io & Ho). cbn [bind].
    assert (Ino : forall e, In e out -> In e new \/ In e (ib_ents r)).
    { intros [t v] He. apply at_time_in in He; [|exact Io]. rewrite Ho in He. destruct (at_time t new) as [w|] eqn:A; [|right; apply at_time_in; assumption].
      left. apply at_time_in; [exact I|]. rewrite A. exact He. }
    apply finish_ok; [exact R| |].
    + split; [|split; [exact Io|intros e He; destruct (Ino e He); [apply E|apply E0]; assumption]].
      destruct new as [|[t v] l]; [congruence|]. intros ->. specialize (Ho t). cbn [at_time] in Ho. rewrite Z.eqb_refl in Ho. discriminate.
    + intros i Hi. apply opt_ext. intros v. rewrite (M i Hi). split.
      * intros A. destruct (at_time i (abs j new)) as [w|] eqn:An.
        { destruct (abs_some j new i w I An) as (t & -> & It). rewrite abs_at, Ho. apply at_time_in in It; [|exact I]. rewrite It. exact A. }
        destruct (abs_some j (ib_ents r) i v I0 A) as (t & -> & It). rewrite abs_at in *. rewrite Ho, An. exact A.
      * intros A. destruct (abs_some j out i v Io A) as (t & -> & It). rewrite abs_at in *. rewrite Ho in A. rewrite !abs_at. exact A.
  - cbn [bind]. apply finish_ok; [exact R|split; auto|]. intros i Hi. cbn [brep] in H. rewrite (H i Hi). destruct (at_time i (abs j new)); reflexivity.
Qed.

Lemma t_bound j t : rng j -> inb j (B j + t * u) -> in32 t.
Proof.
  intros R [H1 H2]. destruct (B_step k j R) as (L & _). destruct (u_cases k) as [[[U K]|[U K]] _]; unfold in32, INT_MIN, INT_MAX.
  - pose proof (days_decade k K). rewrite U in *. lia.
  - pose proof (days_pos k). rewrite U in *. lia.
Qed.

Lemma store1 j m o x l wj ws fs te read : rng j -> -1000000 <= bstart k j <= 1000000 -> bstart k j <> 0 -> brep j m o -> list_ok j (x :: l) ->
  let X := B j + fst x * u in let Z1 := B j + fst (last (x :: l) x) * u in
  -1000000 <= wj <= 1000000 -> 0 < ws <= 86400 ->
  (read = false -> fs = true /\ te = true) ->
  (fs = false -> instant wj ws = X) ->
  (fs = false -> (forall i, inb j i -> i < X -> m i = None) \/
     ((exists i, inb j i /\ X <= i /\ m i <> None) /\ (te = false -> forall i, inb j i -> Z1 < i -> m i = None))) ->
  exists r, store_iblock dflt 1 size g (bstart k j) (bstart k (j + 1)) wj ws fs te read (x :: l) o = Ok (Some r) /\
    brep j (fun i => match at_time i (abs j (x :: l)) with Some v => Some v | None => if (fs || (X <=? i)) && (te || (i <=? Z1)) then None else m i end) (Some r).
Proof.
  intros R Hj Nz H (N & I & E) X Z1 Hw Hs Hr HX Hsafe. unfold store_iblock. destruct o as [r|].
  2:{ cbn [bind]. apply finish_ok; [exact R|split; auto|]. intros i Hi. cbn [brep] in H. rewrite (H i Hi). destruct (at_time i _); [reflexivity|]. destruct (_ && _); reflexivity. }
  destruct read.
  2:{ cbn [negb orb bind]. destruct (Hr eq_refl) as [-> ->]. apply finish_ok; [exact R|split; auto|]. intros i Hi. destruct (at_time i _); reflexivity. }
  destruct H as [Gd M]. pose proof (good_pos j r Gd) as Lp. pose proof Gd as (N0 & I0 & E0 & L0 & G0). cbn [negb orb]. replace (ib_log r <? 1) with false by lia.
  rewrite (read_whole j r R Gd). cbn [bind]. fold u. set (live := ib_ents r) in *. set (slack := repeat (0, dflt) _). destruct (u_cases k) as [Uc U].
  set (new := x :: l) in *. set (z := last new x) in *. set (w := wj * 86400 + ws).
  assert (Mi : forall i v, inb j i -> m i = Some v <-> In (i, v) (abs j live)) by (intros i v Hi; rewrite (M i Hi); apply at_time_in; apply abs_inc; exact I0).
  assert (Kb : forall e, In e live -> fs = false -> kept_before (bstart k j) u w fs (fst x) e = (fst e <? fst x)).
  { intros e He ->. unfold kept_before. cbn [negb andb]. specialize (HX eq_refl). unfold instant, X, IrrSerProofs.B in HX. fold w in HX. rewrite HX. nia. }
  assert (Lx : forall e, In e live -> inb j (B j + fst e * u) /\ m (B j + fst e * u) = Some (snd e)).
  { intros e He. destruct (E0 e He) as [Hi _]. split; [exact Hi|]. apply (Mi _ _ Hi). apply abs_in. exists (fst e). destruct e; auto. }
  set (before := filter (kept_before (bstart k j) u w fs (fst x)) live). set (behind := filter (kept_after te (fst z)) live).
  assert (Cond : before = [] \/ behind = []).
  { destruct fs eqn:F; [left; apply filter_none; intros; reflexivity|]. destruct (Hsafe eq_refl) as [S|[_ S]].
    - left. apply filter_none. intros e He. rewrite Kb by (auto). destruct (Lx e He) as [Hi Me]. apply Z.ltb_ge. destruct (Z_lt_le_dec (fst e) (fst x)) as [Q|Q]; [|exact Q].
      exfalso. rewrite S in Me; [discriminate|exact Hi|unfold X; nia].
    - right. apply filter_none. intros e He. unfold kept_after. destruct te; [reflexivity|]. cbn [negb andb]. destruct (Lx e He) as [Hi Me]. apply Z.ltb_ge.
      destruct (Z_lt_le_dec (fst z) (fst e)) as [Q|Q]; [|exact Q]. exfalso. rewrite S in Me; [discriminate|reflexivity|exact Hi|unfold Z1; fold z; nia]. }
  assert (Stop : exists e, In e live /\ kept_before (bstart k j) u w fs (fst x) e = false).
  { destruct Cond as [C|C].
    - destruct live as [|a t]; [congruence|]. exists a. split; [left; reflexivity|]. destruct (kept_before _ _ _ _ _ a) eqn:Q; [|reflexivity]. unfold before in C. cbn [filter] in C. rewrite Q in C. discriminate.
    - destruct fs eqn:F; [destruct live as [|a t]; [congruence|]; exists a; split; [left; reflexivity|reflexivity]|]. destruct (Hsafe eq_refl) as [S|[(i & Hi & Xi & Mn) _]].
      + destruct live as [|a t]; [congruence|]. exists a. split; [left; reflexivity|]. rewrite Kb; [|left; reflexivity|reflexivity]. destruct (Lx a ltac:(left; reflexivity)) as [Ha Ma].
        apply Z.ltb_ge. destruct (Z_lt_le_dec (fst a) (fst x)) as [Q|Q]; [|exact Q]. exfalso. rewrite S in Ma; [discriminate|exact Ha|unfold X; nia].
      + destruct (m i) as [v|] eqn:Mv; [|congruence]. apply (Mi _ _ Hi) in Mv. apply abs_in in Mv. destruct Mv as (t & It & ->). exists (t, v). split; [exact It|]. rewrite Kb by auto. cbn [fst]. apply Z.ltb_ge.
        unfold X in Xi. nia. }
  destruct (C31_replace_partial P 1 (bstart k j) u wj ws fs te new live slack x z) as [Eq Inc]; auto; try lia.
  { unfold in32, INT_MIN, INT_MAX; lia. }
  { intros e He. apply in_app_or in He. destruct He as [He|He]; [apply (t_bound j); [exact R|apply E0; exact He]|].
    apply repeat_spec in He. subst e. unfold in32, INT_MIN, INT_MAX; cbn; lia. }
  { apply aget_last. }
  { fold w before behind. destruct Cond as [C|C]; [left; rewrite C; cbn; lia|right; exact C]. }
  fold w in Eq, Inc. fold before behind in Eq, Inc. rewrite Eq. cbn [bind].
  assert (Sub : forall e, In e (before ++ new ++ behind) -> ent_ok j e).
  { intros e He. apply in_app_or in He. destruct He as [He|He]; [apply filter_In in He; apply E0; apply He|]. apply in_app_or in He. destruct He as [He|He]; [apply E; exact He|].
    apply filter_In in He; apply E0; apply He. }
  apply finish_ok; [exact R|split; [|split; assumption]|].
  { destruct before; discriminate. }
  intros i Hi. apply opt_ext. intros v. rewrite (at_time_in (abs j (before ++ new ++ behind)) (abs_inc j _ Inc)). rewrite !abs_app, !in_app_iff.
  pose proof (abs_inc j new I) as Ian. pose proof (abs_inc j live I0) as Ial.
  assert (Zb : forall e, In e new -> fst x <= fst e <= fst z) by (intros e He; split; [apply (first_le x l I e He)|apply (last_ge x l I e He)]).
  assert (Hin : forall t y, In (t, y) new -> (fs || (X <=? B j + t * u)) && (te || (B j + t * u <=? Z1)) = true).
  { intros t y Hy. specialize (Zb _ Hy). cbn [fst] in Zb. unfold X, Z1. fold z. replace (B j + fst x * u <=? B j + t * u) with true by (clear -Zb U; nia).
    replace (B j + t * u <=? B j + fst z * u) with true by (clear -Zb U; nia). rewrite !orb_true_r. reflexivity. }
  assert (Kp : In (i, v) (abs j before) \/ In (i, v) (abs j behind) <-> m i = Some v /\ ((fs || (X <=? i)) && (te || (i <=? Z1)) = false)).
  { rewrite (Mi _ _ Hi), !abs_in. unfold before, behind. split.
    - intros [(t & It & ->)|(t & It & ->)]; apply filter_In in It; destruct It as [It K]; (split; [exists t; split; [exact It|reflexivity]|]).
      + destruct fs eqn:F; [discriminate|]. rewrite Kb in K by auto. cbn [fst] in K. replace (X <=? B j + t * u) with false by (unfold X; nia). reflexivity.
      + unfold kept_after in K. cbn [fst] in K. destruct te; [discriminate|]. replace (B j + t * u <=? Z1) with false by (unfold Z1; fold z; nia). apply andb_false_r.
    - intros [(t & It & ->) K]. apply andb_false_iff in K. destruct K as [K|K]; apply orb_false_iff in K; destruct K as [K1 K2].
      + left. exists t. split; [|reflexivity]. apply filter_In. split; [exact It|]. rewrite Kb by auto. cbn [fst]. unfold X in K2. nia.
      + right. exists t. split; [|reflexivity]. apply filter_In. split; [exact It|]. unfold kept_after. rewrite K1. cbn [negb andb fst]. unfold Z1 in K2. fold z in K2. nia. }
  destruct (at_time i (abs j new)) as [y|] eqn:An.
  - apply at_time_in in An; [|exact Ian]. split.
    + intros [= ->]. right. left. exact An.
    + intros Q. f_equal. destruct Q as [Q|[Q|Q]].
      * exfalso. destruct (proj1 Kp (or_introl Q)) as [_ K]. apply abs_in in An. destruct An as (t & It & ->). rewrite (Hin _ _ It) in K. discriminate K.
      * apply (at_time_in _ Ian) in An. apply (at_time_in _ Ian) in Q. congruence.
      * exfalso. destruct (proj1 Kp (or_intror Q)) as [_ K]. apply abs_in in An. destruct An as (t & It & ->). rewrite (Hin _ _ It) in K. discriminate.
  - split.
    + intros Q. assert (K : In (i, v) (abs j before) \/ In (i, v) (abs j behind)). { apply Kp. destruct (_ && _) eqn:W; [discriminate|]. split; [exact Q|reflexivity]. } tauto.
    + intros Q. assert (K : In (i, v) (abs j before) \/ In (i, v) (abs j behind)). { destruct Q as [Q|[Q|Q]]; auto. apply (at_time_in _ Ian) in Q. congruence. }
      apply Kp in K. destruct K as [K1 K2]. rewrite K2. exact K1.
Qed.
End K.
