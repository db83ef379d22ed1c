(** * C50, proofs: the whole of it for any clock that increments as it should. *)
From Coq Require Import ZArith List Lia Bool ZifyBool.
From Verif Require Import Base DateSpec DateModel ArrayLib PackModel PathSpec TextModel TextProps PdLoop TrimModel TrimSpec TrimProofs.
Import ListNotations.
Open Scope Z_scope.
Open Scope res_scope.

Section C.
Variable miss : Z -> bool.
Variable t : ts.
Variables T O : Z -> Z * Z.
Variable value : Z -> Z.
Hypothesis R : is_read t.
Hypothesis Pos : 0 < interval t /\ 0 <= offset t /\ 0 < gran t.
Hypothesis T0 : T 0 = (w_sj t, w_ss t).
Hypothesis T1 : T (num t - 1) = (w_ej t, w_es t).
Hypothesis TG : forall k, 0 <= k < num t -> fst (T k) <> UNDEFINED_TIME /\ 0 <= snd (T k).
Hypothesis HS : forall n, 0 <= n < num t -> exists b st j,
  chk32 (w_sj t + base t) = Ok b /\ incrementTime (interval t) n b (w_ss t) = Ok (st, j, snd (T n)) /\ chk32 (j - base t) = Ok (fst (T n)).
Hypothesis HE : forall n, 0 <= n < num t -> exists b st j,
  chk32 (w_ej t + base t) = Ok b /\ incrementTime (interval t) (n - num t + 1) b (w_es t) = Ok (st, j, snd (T n)) /\ chk32 (j - base t) = Ok (fst (T n)).
Hypothesis HO : forall k, 0 <= k < num t -> exists st, ztsOffsetAdjustToOffset (offset t) (interval t) (fst (T k)) (snd (T k)) = Ok (st, fst (O k), snd (O k)).
Hypothesis HP : forall k n, 0 <= k -> 0 <= n -> k + n < num t -> exists st j s,
  incrementTime (interval t) n (fst (O k)) (snd (O k)) = Ok (st, j, s) /\ to_offset_again (offset t) (interval t) j s = Ok (O (k + n)).

Definition cut_at (f l : Z) (t1 : ts) : Prop :=
  is_part t f (l - f + 1) t1 /\ times t1 = None /\ (sj t1, ss t1) = T f /\ (ej t1, es t1) = T l /\ (w_sj t1, w_ss t1) = T f /\
  w_n t1 = l - f + 1 /\ offset t1 = offset t /\ gran t1 = gran t /\ base t1 = base t.

Lemma cut_all : cut_at 0 (num t - 1) t.
Proof.
  pose proof R as (N0 & D0 & LV & LM & TN & HQ & HI & HC & S1 & S2 & S3 & S4 & WN & WI).
  unfold cut_at. replace (num t - 1 - 0 + 1) with (num t) by lia. rewrite T0, T1, S1, S2, S3, S4, WN. repeat split; auto.
  - symmetry. apply rows_all. exact LV.
  - destruct (qual t) as [q|]; [|reflexivity]. cbn [option_map]. f_equal. symmetry. apply rows_all. apply (HQ q eq_refl).
  - destruct (inotes t) as [q|]; [|reflexivity]. cbn [option_map]. f_equal. symmetry. apply rows_all. apply (HI q eq_refl).
  - destruct (cnotes t) as [c|] eqn:Ec; [|reflexivity]. intros lines E F. destruct (HC c eq_refl) as (ls & -> & FF & LL). inversion E as [E1].
    apply packed_inj in E1; [|exact FF|exact F]. subst ls. rewrite rows_all by lia. reflexivity.
Qed.

Lemma trim_spec : (exists x, 0 <= x < num t /\ has_value miss t x) ->
  exists f l t1, 0 <= f <= l /\ l < num t /\ has_value miss t f /\ has_value miss t l /\
    (forall x, 0 <= x < num t -> has_value miss t x -> f <= x <= l) /\ ztsTrim miss t = Ok (true, t1) /\ cut_at f l t1.
Proof.
  intros EX. pose proof R as (N0 & D0 & LV & LM & TN & HQ & HI & HC & S1 & S2 & S3 & S4 & WN & WI).
  destruct (scan_up_spec miss t R (Z.to_nat (num t)) 0) as (f & Ef & Hf); [lia|lia|].
  destruct Hf as [(-> & Hf)|(Bf & Hf & Lf)]; [exfalso; destruct EX as (x & X & V); exact (Hf x X V)|].
  destruct (scan_down_spec miss t (num t) R (Z.to_nat (num t))) as (l & El & Bl & Hl & Ll); [lia|rewrite Z2Nat.id by lia; exact EX|]. rewrite Z2Nat.id in * by lia.
  assert (FL : f <= l) by (destruct (Z.lt_ge_cases l f) as [Q|Q]; [exfalso; exact (Lf l ltac:(lia) Hl)|exact Q]).
  assert (IN : forall x, 0 <= x < num t -> has_value miss t x -> f <= x <= l).
  { intros x X V. split; [destruct (Z.lt_ge_cases x f) as [Q|Q]; [exfalso; exact (Lf x ltac:(lia) V)|exact Q]|
      destruct (Z.lt_ge_cases l x) as [Q|Q]; [exfalso; exact (Ll x ltac:(lia) V)|exact Q]]. }
  destruct ((f =? 0) && (l =? num t - 1)) eqn:ALL.
  - assert (f = 0) by lia. assert (l = num t - 1) by lia. subst f l. exists 0, (num t - 1), t. repeat (split; [assumption || lia|]). split; [|exact cut_all].
    unfold ztsTrim. replace (num t <=? 0) with false by lia. rewrite Ef. cbn [bind]. change (0 =? -1) with false. cbv iota. rewrite El. cbn [bind]. cbv zeta. change (0 >? 0) with false. cbn [orb].
    replace (num t - 1 <? num t - 1) with false by lia. replace (num t - 1 =? num t - 1) with true by lia.
    replace (if depth t =? 0 then false else negb true) with false by (destruct (depth t =? 0); reflexivity). cbn [negb andb orb bind].
    destruct t. reflexivity.
  - assert (CUT : (f >? 0) || (l <? num t - 1) = true) by lia.
    assert (CUT2 : (f >? 0) || negb (l =? num t - 1) = true) by lia.
    unfold ztsTrim. replace (num t <=? 0) with false by lia. rewrite Ef. cbn [bind]. replace (f =? -1) with false by lia. cbv iota. rewrite El. cbn [bind]. cbv zeta.
    rewrite CUT, CUT2. replace (if depth t =? 0 then true else true) with true by (destruct (depth t =? 0); reflexivity). cbn [negb andb bind]. cbv iota.
    rewrite (slice_spec (vals t) (if depth t =? 0 then 1 else depth t) f (l - f + 1) (num t)) by (try exact LV; try exact LM; try lia; destruct (depth t =? 0); lia).
    cbn [bind]. cbv zeta. unfold adjust. cbn [vals depth num times qual qsize inotes isize cnotes sj ss ej es interval offset gran base w_int w_sj w_ss w_ej w_es w_n].
    assert (ES : (if f >? 0 then let* j := chk32 (w_sj t + base t) in let* '(_, j, s) := incrementTime (w_int t) f j (w_ss t) in let* j := chk32 (j - base t) in Ok (j, s) else Ok (sj t, ss t)) = Ok (T f)).
    { destruct (f >? 0) eqn:F0.
      - destruct (HS f ltac:(lia)) as (b & st & j & E1 & E2 & E3). rewrite E1. cbn [bind]. rewrite WI, E2. cbn [bind]. rewrite E3. cbn [bind]. rewrite <- surjective_pairing. reflexivity.
      - assert (f = 0) by lia. subst f. rewrite T0, S1, S2. reflexivity. }
    assert (EE : (if l <? num t - 1 then let* j := chk32 (w_ej t + base t) in let* '(_, j, s) := incrementTime (w_int t) (l - num t + 1) j (w_es t) in let* j := chk32 (j - base t) in Ok (j, s) else Ok (ej t, es t)) = Ok (T l)).
    { destruct (l <? num t - 1) eqn:F0.
      - destruct (HE l ltac:(lia)) as (b & st & j & E1 & E2 & E3). rewrite E1. cbn [bind]. rewrite WI, E2. cbn [bind]. rewrite E3. cbn [bind]. rewrite <- surjective_pairing. reflexivity.
      - assert (l = num t - 1) by lia. subst l. rewrite T1, S3, S4. reflexivity. }
    rewrite ES. cbn [bind]. destruct (T f) as [a1 a2] eqn:TF. rewrite EE. destruct (T l) as [b1 b2] eqn:TL. cbn [bind]. cbv zeta. rewrite TN. cbn [slice_opt bind].
    rewrite (slice_opt_spec (qual t) (qsize t) f (l - f + 1) (num t)) by (lia || exact HQ). cbn [bind].
    rewrite (slice_opt_spec (inotes t) (isize t) f (l - f + 1) (num t)) by (lia || exact HI). cbn [bind].
    assert (CN : exists c, slice_notes (cnotes t) f (l - f + 1) = Ok c /\ match cnotes t with
       | None => c = None | Some _ => forall lines, cnotes t = Some (packed lines) -> Forall c_text lines -> c = Some (packed (rows lines 1 f (l - f + 1))) end).
    { destruct (cnotes t) as [c|] eqn:Ec; [|exists None; split; reflexivity]. destruct (HC c eq_refl) as (ls & -> & FF & LL). eexists. split; [apply slice_notes_spec; (exact FF || lia)|].
      intros lines E F. inversion E as [E1]. apply packed_inj in E1; [|exact FF|exact F]. subst ls. reflexivity. }
    destruct CN as (c & Ec & Hc). rewrite Ec. cbn [bind].
    do 2 eexists. eexists. split; [|split; [|split; [exact Hf|split; [exact Hl|split; [exact IN|split; [reflexivity|]]]]]]; [lia|lia|].
    unfold cut_at, is_part. cbn [vals depth num times qual qsize inotes isize cnotes sj ss ej es interval offset gran base w_int w_sj w_ss w_ej w_es w_n]. rewrite TF, TL.
    repeat (split; [reflexivity|]). split; [|repeat split; reflexivity]. repeat (split; [reflexivity|]). exact Hc.
Qed.

Hypothesis HV : forall k, 0 <= k < num t -> as_time (gran t) (base t) (fst (O k)) (snd (O k)) = Ok (value k) /\ in32 (value k).
Hypothesis HD : interval t <= 86400 -> forall k, 0 <= k -> k + 1 < num t -> value (k + 1) = value k + Z.quot (interval t) (gran t).

Definition values_from (f : Z) (n : nat) : list Z := map (fun k => value (f + Z.of_nat k)) (seq 0 n).
Lemma values_from_S f n : values_from f (S n) = value f :: values_from (f + 1) n.
Proof.
  unfold values_from. cbn [seq map]. f_equal; [f_equal; lia|]. rewrite <- seq_shift, map_map. apply map_ext. intros k. f_equal. lia.
Qed.
Lemma times_by_spec : interval t <= 86400 -> forall cnt k, 0 <= k -> k + Z.of_nat cnt < num t ->
  times_by cnt (value k) (Z.quot (interval t) (gran t)) = Ok (values_from (k + 1) cnt).
Proof.
  intros HI. induction cnt as [|cnt IH]; intros k H0 H; [reflexivity|]. cbn [times_by]. rewrite <- HD by lia.
  rewrite chk32_ok by (apply HV; lia). cbn [bind]. rewrite IH by lia. cbn [bind]. rewrite values_from_S. reflexivity.
Qed.
Lemma times_each_spec : forall cnt f k, 0 <= f -> 0 <= k -> f + k + Z.of_nat cnt <= num t ->
  times_each cnt (interval t) (offset t) (gran t) (base t) (fst (O f)) (snd (O f)) k = Ok (values_from (f + k) cnt).
Proof.
  induction cnt as [|cnt IH]; intros f k Hf Hk H; [reflexivity|]. cbn [times_each]. destruct (HP f k) as (st & j & s & E1 & E2); [lia|lia|lia|].
  rewrite E1. cbn [bind]. rewrite E2. destruct (HV (f + k) ltac:(lia)) as (E3 & _). destruct (O (f + k)) as [oj os] eqn:EO. cbn [bind fst snd] in *. rewrite E3. cbn [bind].
  rewrite IH by lia. cbn [bind]. rewrite values_from_S. replace (f + (k + 1)) with (f + k + 1) by lia. reflexivity.
Qed.

Lemma add_times f n t1 : 0 <= f -> 0 < n -> f + n <= num t -> times t1 = None -> num t1 = n -> w_n t1 = n -> (w_sj t1, w_ss t1) = T f ->
  interval t1 = interval t -> offset t1 = offset t -> gran t1 = gran t -> base t1 = base t ->
  exists t2, ztsRegAddTimes t1 = Ok t2 /\ times t2 = Some (values_from f (Z.to_nat n)) /\
    (forall g m, is_part g f m t1 -> is_part g f m t2) /\ sj t2 = sj t1 /\ ss t2 = ss t1 /\ ej t2 = ej t1 /\ es t2 = es t1.
Proof.
  intros Hf Hn HN ET EN EW ETf EI EO EG EB. destruct Pos as (PI & PO & PG). destruct (TG f ltac:(lia)) as (U & S0). rewrite <- ETf in U, S0. cbn [fst snd] in U, S0.
  unfold ztsRegAddTimes. rewrite ET, EN, EW, EI, EO, EG, EB.
  replace (interval t <? 1) with false by lia. replace (w_sj t1 =? UNDEFINED_TIME) with false by lia. replace (w_ss t1 <? 0) with false by lia. replace (n <? 1) with false by lia. cbn [orb].
  replace (offset t <? 0) with false by lia. replace (gran t <? 1) with false by lia. cbv zeta. destruct (HO f ltac:(lia)) as (st & E). rewrite <- ETf in E. cbn [fst snd] in E. rewrite E. cbn [bind].
  replace (n <? n) with false by lia. replace (n - n) with 0 by lia. cbn [Z.to_nat repeat].
  assert (L : (if interval t <=? SECS_IN_1_DAY then
      let* '(_, j', s') := incrementTime (interval t) 0 (fst (O f)) (snd (O f)) in let* '(j', s') := to_offset_again (offset t) (interval t) j' s' in
      let* t0 := as_time (gran t) (base t) j' s' in let* r := times_by (Z.to_nat (n - 1)) t0 (Z.quot (interval t) (gran t)) in Ok (t0 :: r)
    else times_each (Z.to_nat n) (interval t) (offset t) (gran t) (base t) (fst (O f)) (snd (O f)) 0) = Ok (values_from f (Z.to_nat n))).
  { destruct (interval t <=? SECS_IN_1_DAY) eqn:ED.
    - destruct (HP f 0) as (st2 & j & s & E1 & E2); [lia|lia|lia|]. rewrite E1. cbn [bind]. rewrite E2. destruct (HV (f + 0) ltac:(lia)) as (E3 & _). destruct (O (f + 0)) as [oj os] eqn:EOo. cbn [bind fst snd] in *. rewrite E3. cbn [bind].
      rewrite Z.add_0_r. rewrite times_by_spec by (unfold SECS_IN_1_DAY in ED; lia). cbn [bind]. replace (Z.to_nat n) with (S (Z.to_nat (n - 1))) by lia. rewrite values_from_S. reflexivity.
    - rewrite times_each_spec by lia. rewrite Z.add_0_r. reflexivity. }
  rewrite L. cbn [bind]. rewrite app_nil_r. eexists. split; [reflexivity|]. cbn [times sj ss ej es]. repeat (split; [reflexivity|]). split; [|repeat split; reflexivity].
  intros g m. unfold is_part. cbn [vals depth num times qual qsize inotes isize cnotes sj ss ej es interval offset gran base w_int w_sj w_ss w_ej w_es w_n]. intros H. rewrite <- EI. rewrite EN in H. exact H.
Qed.

Definition result (flag f l : Z) (t' : ts) : Prop :=
  is_part t f (l - f + 1) t' /\ (sj t', ss t') = O f /\ (ej t', es t') = O l /\
  times t' = (if (flag =? 0) || (flag =? -1) then Some (values_from f (Z.to_nat (l - f + 1))) else None).

Lemma end_spec flag f l t1 : 0 <= f <= l -> l < num t -> cut_at f l t1 ->
  exists t', (let o := if offset t1 <? 0 then 0 else offset t1 in
    let* '(_, sj', ss') := ztsOffsetAdjustToOffset o (interval t1) (sj t1) (ss t1) in
    let* '(_, ej', es') := ztsOffsetAdjustToOffset o (interval t1) (ej t1) (es t1) in
    let t2 := mk_ts (vals t1) (depth t1) (num t1) (times t1) (qual t1) (qsize t1) (inotes t1) (isize t1) (cnotes t1) sj' ss' ej' es'
               (interval t1) o (gran t1) (base t1) (w_int t1) (w_sj t1) (w_ss t1) (w_ej t1) (w_es t1) (w_n t1) in
    if (flag =? 0) || (flag =? -1) then let* t2 := ztsRegAddTimes t2 in Ok (true, t2) else Ok (true, t2)) = Ok (true, t') /\ result flag f l t'.
Proof.
  intros FL LN (IP & CT & CS & CE & CW & CN & CO & CG & CB). destruct Pos as (PI & PO & PG). pose proof IP as (P1 & P2 & P3 & P4).
  rewrite CO, P3. replace (offset t <? 0) with false by lia. cbv zeta.
  destruct (HO f ltac:(lia)) as (st & E1). rewrite <- CS in E1. cbn [fst snd] in E1. rewrite E1. cbn [bind].
  destruct (HO l ltac:(lia)) as (st2 & E2). rewrite <- CE in E2. cbn [fst snd] in E2. rewrite E2. cbn [bind].
  set (t2 := mk_ts _ _ _ _ _ _ _ _ _ _ _ _ _ _ _ _ _ _ _ _ _ _ _).
  assert (IP2 : is_part t f (l - f + 1) t2) by (unfold t2, is_part; cbn [vals depth num times qual qsize inotes isize cnotes sj ss ej es interval offset gran base w_int w_sj w_ss w_ej w_es w_n]; unfold is_part in IP; rewrite P3 in IP; exact IP).
  unfold result. destruct ((flag =? 0) || (flag =? -1)).
  - destruct (add_times f (l - f + 1) t2) as (t3 & E3 & TT & PP & Q1 & Q2 & Q3 & Q4); try assumption; try lia; try reflexivity.
    rewrite E3. cbn [bind]. exists t3. split; [reflexivity|]. split; [apply PP; exact IP2|]. rewrite Q1, Q2, Q3, Q4. unfold t2. cbn [sj ss ej es]. rewrite <- !surjective_pairing. repeat split. exact TT.
  - exists t2. split; [reflexivity|]. split; [exact IP2|]. unfold t2. cbn [sj ss ej es times]. rewrite <- !surjective_pairing. repeat split. exact CT.
Qed.

Lemma finish_trim flag : flag = -1 \/ flag = -3 -> (exists x, 0 <= x < num t /\ has_value miss t x) ->
  exists f l t', 0 <= f <= l /\ l < num t /\ has_value miss t f /\ has_value miss t l /\
    (forall x, 0 <= x < num t -> has_value miss t x -> f <= x <= l) /\ finish miss flag t = Ok (true, t') /\ result flag f l t'.
Proof.
  intros HF EX. destruct (trim_spec EX) as (f & l & t1 & FL & LN & Hf & Hl & IN & E & CA).
  destruct (end_spec flag f l t1 FL LN CA) as (t' & E' & RS). exists f, l, t'. repeat (split; [assumption|]). split; [|exact RS].
  unfold finish. destruct Pos as (PI & _). replace (((flag =? -1) || (flag =? -3)) && (interval t >? 0)) with true by lia. rewrite E. cbn [bind].
  replace (true && (interval t1 >? 0)) with true by (destruct CA as ((_ & _ & P3 & _) & _); rewrite P3; lia). exact E'.
Qed.
Lemma finish_whole flag : flag <> -1 -> flag <> -3 ->
  exists t', finish miss flag t = Ok (true, t') /\ result flag 0 (num t - 1) t'.
Proof.
  intros F1 F3. pose proof R as (N0 & _). destruct (end_spec flag 0 (num t - 1) t) as (t' & E' & RS); [lia|lia|exact cut_all|]. exists t'. split; [|exact RS].
  unfold finish. destruct Pos as (PI & _). replace (((flag =? -1) || (flag =? -3)) && (interval t >? 0)) with false by lia. cbn [bind].
  replace (true && (interval t >? 0)) with true by lia. exact E'.
Qed.
End C.

(** nothing but missing values *)
Lemma trim_none miss t : is_read t -> depth t = 0 -> (forall x, 0 <= x < num t -> ~ has_value miss t x) ->
  exists t', ztsTrim miss t = Ok (false, t') /\ num t' = 0.
Proof.
  intros R D H. pose proof R as (N0 & _).
  destruct (scan_up_spec miss t R (Z.to_nat (num t)) 0) as (f & Ef & Hf); [lia|lia|]. destruct Hf as [(-> & _)|(Bf & Hf & _)]; [|exfalso; exact (H f ltac:(lia) Hf)].
  unfold ztsTrim. replace (num t <=? 0) with false by lia. rewrite Ef, D. cbn [bind]. change (-1 =? -1) with true. change (0 =? 0) with true. cbv iota zeta. cbn [bind]. cbv zeta.
  change (-1 >? 0) with false. cbn [orb]. replace (num t <? 0 - 1) with false by lia. cbn [negb andb]. eexists. split; reflexivity.
Qed.
