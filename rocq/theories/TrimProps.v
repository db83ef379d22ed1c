(** * C50: trimming a regular series, and the times of its values. *)
From Coq Require Import ZArith List Lia Bool ZifyBool.
From Verif Require Import Base DateSpec DateModel DateProofs DateProofs2 DateProofs3 DateProps ArrayLib PackModel PathSpec TextModel TextProps PdLoop TrimModel TrimSpec TrimProofs TrimClock.
Import ListNotations.
Open Scope Z_scope.
Open Scope res_scope.

(** ** The clock of the short intervals *)
Definition day_of (x : Z) : Z * Z := ((x - 1) / 86400, (x - 1) mod 86400 + 1).
Lemma day_of_instant x : instant (fst (day_of x)) (snd (day_of x)) = x /\ 0 < snd (day_of x) <= 86400.
Proof. unfold day_of, instant. cbn [fst snd]. pose proof (Z.div_mod (x - 1) 86400 ltac:(lia)). pose proof (Z.mod_pos_bound (x - 1) 86400 ltac:(lia)). lia. Qed.
Lemma day_of_eq j s x : 0 < s <= 86400 -> instant j s = x -> (j, s) = day_of x.
Proof.
  intros Hs E. destruct (day_of_instant x) as (E2 & B). destruct (day_of x) as [a b]. cbn [fst snd] in *. destruct (instant_inj j s a b Hs B) as (-> & ->); [lia|reflexivity].
Qed.
Lemma incr_day_of f i n x b : 1 <= i < 864000 -> in32 n -> -86400000000000 <= i * n <= 86400000000000 ->
  -86400 * 400000000 <= x <= 86400 * 400000000 -> -500000000 <= b <= 500000000 ->
  ~ (fst (day_of x) + b = 0 /\ snd (day_of x) + i * n = 0) ->
  incrementTimeF (S f) i n (fst (day_of x) + b) (snd (day_of x)) = Ok (0, fst (day_of (x + n * i)) + b, snd (day_of (x + n * i))).
Proof.
  intros Hi Hn Hin Hx Hb N0. destruct (day_of_instant x) as (E & B). set (j := fst (day_of x)) in *. set (s := snd (day_of x)) in *. clearbody j s. unfold instant in E.
  destruct (incrementTimeF_short f i n (j + b) s) as (j' & s' & E1 & I1 & B1); try assumption; try lia.
  rewrite E1. unfold instant in I1. pose proof (day_of_eq (j' - b) s' (x + n * i) B1) as Q. unfold instant in Q. rewrite <- Q by lia. cbn [fst snd]. do 3 f_equal. lia.
Qed.

Section Short.
Variable t : ts.
Hypothesis R : is_read t.
Hypothesis W : short_window t.
Let i := interval t. Let o := offset t.
Let X k := instant (w_sj t) (w_ss t) + k * i.
Let T k := day_of (X k).
Let O k := day_of (value_time t k).
Lemma value_time_X k : value_time t k = X k + (if o =? 0 then 0 else o - i).
Proof. reflexivity. Qed.
Lemma W_facts : (1 <= i <= 604800) /\ 0 <= o < i /\ 0 < num t /\ 86400 * 10 < X 0 /\ X (num t - 1) <= 86400 * 100000001 /\
  (forall k, 0 <= k < num t -> X 0 <= X k <= X (num t - 1) /\ X k mod i = 0).
Proof.
  destruct W as (HI & HO & H1 & H2 & H3 & H4 & H5 & H6 & H7). destruct R as (N0 & _). fold i in HI, HO, H6, H7. fold o in HO.
  assert (1 <= i <= 604800) by (destruct HI as [((? & ?) & _)|HI]; [lia|rewrite HI; lia]). unfold X in *. unfold instant in *. repeat (split; [lia|]).
  intros k Hk. split; [clear - Hk H; nia|]. rewrite Z.mod_add by lia. exact H6.
Qed.
Lemma std_fix k : 0 <= k < num t -> exists q, ztsOffsetAdjustToStandard i (fst (T k)) (snd (T k)) = Ok (q, fst (T k), snd (T k)).
Proof.
  intros Hk. destruct W_facts as (I1 & O1 & N0 & X0 & X1 & XK). destruct (XK k Hk) as (B & M). unfold T. destruct (day_of_instant (X k)) as (E & S).
  set (j := fst (day_of (X k))) in *. set (s := snd (day_of (X k))) in *. clearbody j s. unfold instant in E.
  destruct (C09_standard_regular i j s) as (q & j' & s' & E1 & B1 & M1 & Bd & _); [|exact S|].
  { destruct W as (HI & _). fold i in HI. destruct HI as [((? & ?) & HM)|HI]; [left|right]; repeat split; try assumption; lia. }
  exists q. rewrite E1. destruct (instant_inj j' s' j s B1 S) as (-> & ->); [|reflexivity]. unfold instant in *. rewrite E in Bd.
  assert (HX : j' * 86400 + s' - X k < i) by lia. assert (HX2 : (j' * 86400 + s' - X k) mod i = 0) by (rewrite Zminus_mod, M1, M; reflexivity).
  rewrite Z.mod_small in HX2 by lia. lia.
Qed.
Lemma std_off k x : 0 <= k < num t -> X k - i < x <= X k -> exists q, ztsOffsetAdjustToStandard i (fst (day_of x)) (snd (day_of x)) = Ok (q, fst (T k), snd (T k)).
Proof.
  intros Hk Hx. destruct W_facts as (I1 & O1 & N0 & X0 & X1 & XK). destruct (XK k Hk) as (B & M). unfold T. destruct (day_of_instant x) as (E & S).
  set (j := fst (day_of x)) in *. set (s := snd (day_of x)) in *. clearbody j s. unfold instant in E.
  destruct (C09_standard_regular i j s) as (q & j' & s' & E1 & B1 & M1 & Bd & _); [|exact S|].
  { destruct W as (HI & _). fold i in HI. destruct HI as [((? & ?) & HM)|HI]; [left|right]; repeat split; try assumption; lia. }
  exists q. rewrite E1. rewrite <- (day_of_eq j' s' (X k) B1); [reflexivity|]. unfold instant in *. rewrite E in Bd.
  set (y := j' * 86400 + s') in *. assert (D : (y - X k) mod i = 0) by (rewrite Zminus_mod, M1, M; reflexivity).
  assert (- i < y - X k < i) by lia. apply Z.mod_divide in D; [|lia]. destruct D as (c & D). assert (c = 0) by (clear - D H I1; nia). subst c. lia.
Qed.
Lemma off_of k x : 0 <= k < num t -> X k - i < x <= X k -> 0 < o -> 
  exists st, ztsOffsetAdjustToOffset o i (fst (day_of x)) (snd (day_of x)) = Ok (st, fst (O k), snd (O k)).
Proof.
  intros Hk Hx Ho. destruct W_facts as (I1 & O1 & N0 & X0 & X1 & XK). destruct (XK k Hk) as (B & M). destruct (std_off k x Hk Hx) as (q & E).
  unfold ztsOffsetAdjustToOffset, adjustToOffsetWith. replace (i <? 1) with false by lia. rewrite E. cbn [bind]. replace (o =? 0) with false by lia.
  pose proof (incr_day_of 2 i (-1) (X k) 0) as IN. rewrite !Z.add_0_r in IN. unfold T. destruct (day_of_instant (X k)) as (EE & S). unfold instant in EE.
  rewrite IN; [|lia|unfold in32, INT_MIN, INT_MAX; lia|lia|lia|lia|lia]. cbn [bind].
  destruct (day_of_instant (X k + -1 * i)) as (E2 & S2). set (j := fst (day_of (X k + -1 * i))) in *. set (s := snd (day_of (X k + -1 * i))) in *. clearbody j s. unfold instant in E2.
  rewrite chk32_ok by (unfold in32, INT_MIN, INT_MAX; lia). cbn [bind].
  destruct (cleanSec_spec j (s + o)) as (j4 & s4 & E4 & I4 & B4); [lia|lia|unfold in32, INT_MIN, INT_MAX; lia|]. rewrite E4. cbn [bind].
  replace (i =? SECS_IN_1_YEAR) with false by (unfold SECS_IN_1_YEAR; lia). eexists. do 3 f_equal; [|].
  - f_equal. unfold O. rewrite value_time_X. replace (o =? 0) with false by lia. rewrite <- (day_of_eq j4 s4); [reflexivity|exact B4|]. unfold instant in *. lia.
  - unfold O. rewrite value_time_X. replace (o =? 0) with false by lia. rewrite <- (day_of_eq j4 s4); [reflexivity|exact B4|]. unfold instant in *. lia.
Qed.
Lemma O_T k : o = 0 -> O k = T k.
Proof. intros E. unfold O. rewrite value_time_X, E. change (0 =? 0) with true. cbv iota. rewrite Z.add_0_r. reflexivity. Qed.

Lemma sh_pos : 0 < gran t -> 0 < interval t /\ 0 <= offset t /\ 0 < gran t.
Proof. intros. destruct W_facts as (I1 & O1 & _). fold i o. lia. Qed.
Lemma sh_T0 : T 0 = (w_sj t, w_ss t).
Proof. symmetry. apply day_of_eq; [apply W|]. unfold X. lia. Qed.
Lemma sh_T1 : T (num t - 1) = (w_ej t, w_es t).
Proof. symmetry. apply day_of_eq; [apply W|]. unfold X. apply W. Qed.
Lemma sh_TG k : 0 <= k < num t -> fst (T k) <> UNDEFINED_TIME /\ 0 <= snd (T k).
Proof.
  intros Hk. destruct W_facts as (I1 & O1 & N0 & X0 & X1 & XK). destruct (XK k Hk) as (B & M). unfold T. destruct (day_of_instant (X k)) as (E & S). unfold instant in E.
  unfold UNDEFINED_TIME, INT_MIN, INT_MAX. lia.
Qed.
Lemma sh_incr k n b : 0 <= k < num t -> 0 <= k + n < num t -> 0 <= b <= 100000000 -> 
  incrementTime i n (fst (T k) + b) (snd (T k)) = Ok (0, fst (T (k + n)) + b, snd (T (k + n))).
Proof.
  intros Hk Hn Hb. destruct W_facts as (I1 & O1 & N0 & X0 & X1 & XK). destruct (XK k Hk) as (B & M). destruct (XK (k + n) Hn) as (B2 & M2). unfold T. unfold incrementTime.
  replace (X (k + n)) with (X k + n * i) by (unfold X; lia). assert (- 86400 * 100000001 <= i * n <= 86400 * 100000001) by (unfold X in *; lia).
  assert (NN : i * n = X (k + n) - X k) by (unfold X; lia). destruct (day_of_instant (X k)) as (EE & S). unfold instant in EE.
  rewrite (incr_day_of 3 i n (X k) b); [reflexivity|lia| |lia|lia|lia|].
  - destruct R as (N1 & D1 & LV & LM & _). assert (num t <= num t * width t) by (unfold width; clear - N1 D1; destruct (depth t =? 0) eqn:Q; nia). unfold in32, INT_MIN, INT_MAX in *. lia.
  - intros (Q1 & Q2). lia.
Qed.
Lemma sh_HS n : 0 <= n < num t -> exists b st j,
  chk32 (w_sj t + base t) = Ok b /\ incrementTime (interval t) n b (w_ss t) = Ok (st, j, snd (T n)) /\ chk32 (j - base t) = Ok (fst (T n)).
Proof.
  intros Hn. destruct W as (_ & _ & _ & _ & _ & _ & HB & _). destruct W_facts as (I1 & O1 & N0 & X0 & X1 & XK).
  pose proof (sh_incr 0 n (base t) ltac:(lia) ltac:(lia) HB) as E. rewrite sh_T0 in E. cbn [fst snd Z.add] in E.
  assert (B0 : 10 <= w_sj t <= 100000001) by (destruct W as (_ & _ & ? & ? & _); unfold X in X0; destruct (XK 0 ltac:(lia)) as (BB & _); unfold X in BB, X1; unfold instant in *; lia).
  assert (B1 : -2 <= fst (T n) <= 100000001) by (destruct (XK n Hn) as (BB & _); unfold T; destruct (day_of_instant (X n)) as (EE & S); unfold instant in EE; lia).
  exists (w_sj t + base t), 0, (fst (T n) + base t). split; [apply chk32_ok; unfold in32, INT_MIN, INT_MAX; lia|]. split; [exact E|].
  replace (fst (T n) + base t - base t) with (fst (T n)) by lia. apply chk32_ok. unfold in32, INT_MIN, INT_MAX. lia.
Qed.
Lemma sh_HE n : 0 <= n < num t -> exists b st j,
  chk32 (w_ej t + base t) = Ok b /\ incrementTime (interval t) (n - num t + 1) b (w_es t) = Ok (st, j, snd (T n)) /\ chk32 (j - base t) = Ok (fst (T n)).
Proof.
  intros Hn. destruct W as (_ & _ & W3 & W4 & _ & W6 & HB & _ & W7). destruct W_facts as (I1 & O1 & N0 & X0 & X1 & XK).
  pose proof (sh_incr (num t - 1) (n - num t + 1) (base t) ltac:(lia) ltac:(lia) HB) as E. rewrite sh_T1 in E. cbn [fst snd] in E. replace (num t - 1 + (n - num t + 1)) with n in E by lia.
  assert (B0 : -2 <= w_ej t <= 100000001) by (destruct (XK (num t - 1) ltac:(lia)) as (BB & _); unfold X in BB, X0; destruct W as (_ & _ & _ & _ & ? & _); unfold instant in *; lia).
  assert (B1 : -2 <= fst (T n) <= 100000001) by (destruct (XK n Hn) as (BB & _); unfold T; destruct (day_of_instant (X n)) as (EE & S); unfold instant in EE; lia).
  exists (w_ej t + base t), 0, (fst (T n) + base t). split; [apply chk32_ok; unfold in32, INT_MIN, INT_MAX; lia|]. split; [exact E|].
  replace (fst (T n) + base t - base t) with (fst (T n)) by lia. apply chk32_ok. unfold in32, INT_MIN, INT_MAX. lia.
Qed.
Lemma sh_HO k : 0 <= k < num t -> exists st, ztsOffsetAdjustToOffset (offset t) (interval t) (fst (T k)) (snd (T k)) = Ok (st, fst (O k), snd (O k)).
Proof.
  intros Hk. fold i o. destruct W_facts as (I1 & O1 & N0 & X0 & X1 & XK). destruct (o =? 0) eqn:Z0.
  - rewrite O_T by lia. unfold ztsOffsetAdjustToOffset, adjustToOffsetWith. replace (i <? 1) with false by lia. destruct (std_fix k Hk) as (q & E). rewrite E. cbn [bind]. rewrite Z0. eexists. reflexivity.
  - apply off_of; [exact Hk|lia|lia].
Qed.
Lemma sh_HP k n : 0 <= k -> 0 <= n -> k + n < num t -> exists st j s,
  incrementTime (interval t) n (fst (O k)) (snd (O k)) = Ok (st, j, s) /\ to_offset_again (offset t) (interval t) j s = Ok (O (k + n)).
Proof.
  intros Hk Hn H. fold i o. destruct W_facts as (I1 & O1 & N0 & X0 & X1 & XK). unfold to_offset_again. destruct (o =? 0) eqn:Z0.
  - assert (o = 0) by lia. rewrite !O_T by assumption. pose proof (sh_incr k n 0 ltac:(lia) ltac:(lia) ltac:(lia)) as E. rewrite !Z.add_0_r in E. rewrite E. do 3 eexists. split; [reflexivity|]. rewrite <- surjective_pairing. reflexivity.
  - destruct (XK k ltac:(lia)) as (B & M). destruct (XK (k + n) ltac:(lia)) as (B2 & M2).
    assert (EO : value_time t (k + n) = value_time t k + n * i) by (rewrite !value_time_X; unfold X; lia).
    assert (VK : X k - i < value_time t k < X k) by (rewrite value_time_X, Z0; lia).
    assert (NN : i * n = X (k + n) - X k) by (unfold X; lia).
    pose proof (incr_day_of 3 i n (value_time t k) 0) as E. rewrite !Z.add_0_r in E. unfold incrementTime. unfold O at 1 2.
    destruct (day_of_instant (value_time t k)) as (EE & S). unfold instant in EE.
    rewrite E; clear E; [|lia| |lia|lia|lia|lia].
    + do 3 eexists. split; [reflexivity|]. rewrite <- EO. destruct (off_of (k + n) (value_time t (k + n))) as (st & E); [lia|rewrite value_time_X, Z0; lia|lia|]. rewrite E. cbn [bind]. rewrite <- surjective_pairing. reflexivity.
    + destruct R as (N1 & D1 & LV & LM & _). assert (num t <= num t * width t) by (unfold width; clear - N1 D1; destruct (depth t =? 0) eqn:Q; nia). unfold in32, INT_MIN, INT_MAX in *. lia.
Qed.
Definition sh_value k := (value_time t k - 86400 * base t) / gran t.
Lemma sh_HV k : times_fit t -> 0 <= k < num t -> as_time (gran t) (base t) (fst (O k)) (snd (O k)) = Ok (sh_value k) /\ in32 (sh_value k).
Proof.
  intros (G0 & G1 & G2 & G3 & G4) Hk. destruct W as (_ & _ & _ & _ & _ & _ & HB & _). destruct W_facts as (I1 & O1 & N0 & X0 & X1 & XK). destruct (XK k Hk) as (B & M).
  assert (VB : value_time t 0 <= value_time t k <= value_time t (num t - 1)) by (rewrite !value_time_X; lia).
  assert (VX : X k - i <= value_time t k <= X k) by (rewrite value_time_X; destruct (o =? 0) eqn:Q; lia).
  unfold O, sh_value. set (v := value_time t k) in *. destruct (day_of_instant v) as (E & S). set (j := fst (day_of v)) in *. set (s := snd (day_of v)) in *. clearbody j s v. unfold instant in E.
  set (g := gran t) in *. assert (GQ : Z.quot SECS_IN_1_DAY g = 86400 / g) by (apply Z.quot_div_nonneg; unfold SECS_IN_1_DAY; lia).
  assert (GM : 86400 = g * (86400 / g)) by (pose proof (Z.div_mod 86400 g ltac:(lia)); lia). set (c := 86400 / g) in *.
  assert (C0 : 0 < c) by (clear - GM G0; nia).
  assert (EV : (v - 86400 * base t) / g = (j - base t) * c + s / g).
  { rewrite <- E. replace (j * 86400 + s - 86400 * base t) with (s + (j - base t) * c * g) by (rewrite GM at 1 2; clearbody c; ring). rewrite Z.div_add by lia. lia. }
  assert (SG : 0 <= s / g <= c) by (split; [apply Z.div_pos; lia|apply Z.div_le_upper_bound; lia]).
  assert (LO : -2000000000 <= (v - 86400 * base t) / g) by (apply Z.div_le_lower_bound; lia).
  assert (HI : (v - 86400 * base t) / g <= 2000000000) by (apply Z.div_le_upper_bound; lia).
  assert (CB : c <= 86400) by (clear - GM G0; nia).
  unfold as_time. rewrite GQ. fold c. rewrite chk32_ok by (unfold in32, INT_MIN, INT_MAX; lia). cbn [bind].
  rewrite chk32_ok by (unfold in32, INT_MIN, INT_MAX; lia). cbn [bind]. rewrite Z.quot_div_nonneg by lia. rewrite EV in *.
  split; [apply chk32_ok|]; unfold in32, INT_MIN, INT_MAX; lia.
Qed.
Lemma sh_HD : times_fit t -> interval t <= 86400 -> forall k, 0 <= k -> k + 1 < num t -> sh_value (k + 1) = sh_value k + Z.quot (interval t) (gran t).
Proof.
  intros (G0 & G1 & G2 & G3 & G4) _ k Hk H. destruct W_facts as (I1 & _). fold i in G2 |- *. unfold sh_value. rewrite Z.quot_div_nonneg by lia.
  rewrite !value_time_X. replace (X (k + 1)) with (X k + i) by (unfold X; lia). set (g := gran t) in *.
  replace (X k + i + (if o =? 0 then 0 else o - i) - 86400 * base t) with (X k + (if o =? 0 then 0 else o - i) - 86400 * base t + (i / g) * g).
  - apply Z.div_add. lia.
  - pose proof (Z.div_mod i g ltac:(lia)). lia.
Qed.
End Short.

(** ** C50 *)
Definition trimmed (t : ts) (flag f l : Z) (t' : ts) : Prop :=
  is_part t f (l - f + 1) t' /\ instant (sj t') (ss t') = value_time t f /\ instant (ej t') (es t') = value_time t l /\
  times t' = (if (flag =? 0) || (flag =? -1) then Some (time_list t f (l - f + 1)) else None).
Lemma trimmed_of t flag f l t' : result t (fun k => day_of (value_time t k)) (sh_value t) flag f l t' -> trimmed t flag f l t'.
Proof.
  intros (A & B & C & D). split; [exact A|]. split; [|split].
  - destruct (day_of_instant (value_time t f)) as (E & _). rewrite <- B in E. exact E.
  - destruct (day_of_instant (value_time t l)) as (E & _). rewrite <- C in E. exact E.
  - exact D.
Qed.

(** Trimming a series with an interval of up to a day, or of a week, that has a value somewhere: what is left goes from the first
    time that has a value to the last, with its own quality and notes, and every value has its own time. *)
Theorem C50_trim_partial : forall miss t flag, is_read t -> short_window t -> times_fit t -> flag = -1 \/ flag = -3 ->
  (exists x, 0 <= x < num t /\ has_value miss t x) ->
  exists f l t', 0 <= f <= l /\ l < num t /\ has_value miss t f /\ has_value miss t l /\
    (forall x, 0 <= x < num t -> has_value miss t x -> f <= x <= l) /\
    finish miss flag t = Ok (true, t') /\ trimmed t flag f l t'.
Proof.
  intros miss t flag R W F HF EX.
  destruct (finish_trim miss t (fun k => day_of (instant (w_sj t) (w_ss t) + k * interval t)) (fun k => day_of (value_time t k)) (sh_value t) R
    (sh_pos t R W (proj1 F)) (sh_T0 t W) (sh_T1 t W) (sh_TG t R W) (sh_HS t R W) (sh_HE t R W) (sh_HO t R W) (sh_HP t R W)
    (fun k => sh_HV t R W k F) (sh_HD t R W F) flag HF EX) as (f & l & t' & H1 & H2 & H3 & H4 & H5 & H6 & H7).
  exists f, l, t'. repeat (split; [assumption|]). apply trimmed_of, H7.
Qed.
Print Assumptions C50_trim_partial.
(** Without trimming nothing is left out, and every value has its own time. *)
Theorem C50_whole_partial : forall miss t flag, is_read t -> short_window t -> times_fit t -> flag <> -1 -> flag <> -3 ->
  exists t', finish miss flag t = Ok (true, t') /\ trimmed t flag 0 (num t - 1) t'.
Proof.
  intros miss t flag R W F F1 F3.
  destruct (finish_whole miss t (fun k => day_of (instant (w_sj t) (w_ss t) + k * interval t)) (fun k => day_of (value_time t k)) (sh_value t) R
    (sh_pos t R W (proj1 F)) (sh_T0 t W) (sh_T1 t W) (sh_TG t R W) (sh_HO t R W) (sh_HP t R W)
    (fun k => sh_HV t R W k F) (sh_HD t R W F) flag F1 F3) as (t' & H6 & H7).
  exists t'. split; [exact H6|]. apply trimmed_of, H7.
Qed.
Print Assumptions C50_whole_partial.
(** A series of single values that are all missing: nothing is left and the caller is told so. *)
Theorem C50_nothing_partial : forall miss t flag, is_read t -> depth t = 0 -> interval t > 0 -> flag = -1 \/ flag = -3 ->
  (forall x, 0 <= x < num t -> ~ has_value miss t x) -> exists t', finish miss flag t = Ok (false, t') /\ num t' = 0.
Proof.
  intros miss t flag R D HI HF H. destruct (trim_none miss t R D H) as (t' & E & N). exists t'. split; [|exact N].
  unfold finish. replace (((flag =? -1) || (flag =? -3)) && (interval t >? 0)) with true by lia. rewrite E. reflexivity.
Qed.
Print Assumptions C50_nothing_partial.

(** ** Calendar intervals *)
Section Cal.
Variables (ck : calendar_kind) (p : Z) (t : ts).
Hypothesis R : is_read t.
Hypothesis W : calendar_window ck p t.
Hypothesis G0 : 0 < gran t.
Hypothesis G1 : 86400 mod gran t = 0.
Hypothesis FT : forall x d, 0 <= x < num t -> last_day_number ck (p + x) = Ok d -> -2000000000 * gran t <= instant d 86400 <= 2000000000 * gran t.
Let T k := (endDay ck (p + k), 86400).
Lemma ca_year k : 0 <= k <= num t -> 6 <= (p + k) / periods_per_year ck <= 4999999.
Proof.
  intros Hk. destruct W as (_ & _ & _ & A & B & _). assert (0 < periods_per_year ck) by (destruct ck; reflexivity).
  pose proof (Z.div_le_mono p (p + k) (periods_per_year ck) ltac:(lia) ltac:(lia)). pose proof (Z.div_le_mono (p + k) (p + num t) (periods_per_year ck) ltac:(lia) ltac:(lia)). lia.
Qed.
Lemma ca_T0 : T 0 = (w_sj t, w_ss t).
Proof. destruct R as (N0 & _). destruct W as (_ & _ & _ & _ & _ & A & B & _). pose proof (ca_year 0 ltac:(lia)). unfold T. rewrite Z.add_0_r in *. rewrite last_day_endDay in A by lia. inversion A. rewrite B. reflexivity. Qed.
Lemma ca_T1 : T (num t - 1) = (w_ej t, w_es t).
Proof.
  destruct R as (N0 & _). destruct W as (_ & _ & _ & _ & _ & _ & _ & A & B). pose proof (ca_year (num t - 1) ltac:(lia)) as Y. unfold T. rewrite Z.add_sub_assoc in *. rewrite last_day_endDay in A by lia. inversion A. rewrite B. reflexivity.
Qed.
Lemma ca_bound k : 0 <= k < num t -> -693960 <= endDay ck (p + k) <= 1900000000.
Proof. intros Hk. pose proof (ca_year k ltac:(lia)). apply DateProofs3.endDay_bound. unfold yearOfPeriod, YMAX. lia. Qed.
Lemma ca_incr k n : 0 <= k < num t -> 0 <= k + n < num t -> incrementTime (interval t) n (fst (T k)) 86400 = Ok (0, fst (T (k + n)), 86400).
Proof.
  intros Hk Hn. pose proof (ca_year k ltac:(lia)). pose proof (ca_year (k + n) ltac:(lia)). destruct W as (A & _). rewrite A. unfold T. cbn [fst]. unfold incrementTime.
  rewrite incrementTimeF_cal; [rewrite Z.add_assoc; reflexivity| |]; unfold yearOfPeriod, YMAX; rewrite <- ?Z.add_assoc; lia.
Qed.
Lemma ca_pos : 0 < interval t /\ 0 <= offset t /\ 0 < gran t.
Proof. destruct W as (A & B & _). rewrite A, B. repeat split; [destruct ck; reflexivity|lia|exact G0]. Qed.
Lemma ca_TG k : 0 <= k < num t -> fst (T k) <> UNDEFINED_TIME /\ 0 <= snd (T k).
Proof. intros Hk. pose proof (ca_bound k Hk). unfold T. cbn [fst snd]. unfold UNDEFINED_TIME. lia. Qed.
Lemma ca_chk k : 0 <= k < num t -> chk32 (fst (T k)) = Ok (fst (T k)).
Proof. intros Hk. pose proof (ca_bound k Hk). unfold T. cbn [fst]. apply chk32_ok. unfold in32, INT_MIN, INT_MAX. lia. Qed.
Lemma ca_HS n : 0 <= n < num t -> exists b st j,
  chk32 (w_sj t + base t) = Ok b /\ incrementTime (interval t) n b (w_ss t) = Ok (st, j, snd (T n)) /\ chk32 (j - base t) = Ok (fst (T n)).
Proof.
  intros Hn. pose proof (ca_incr 0 n ltac:(lia) ltac:(lia)) as E. destruct W as (_ & _ & B0 & _). rewrite B0.
  pose proof ca_T0 as Q. assert (Q1 : w_sj t = fst (T 0)) by (rewrite Q; reflexivity). assert (Q2 : w_ss t = 86400) by (unfold T in Q; congruence). rewrite Q1, Q2.
  exists (fst (T 0)), 0, (fst (T n)). rewrite Z.add_0_r, Z.sub_0_r. split; [apply ca_chk; lia|]. split; [exact E|apply ca_chk; lia].
Qed.
Lemma ca_HE n : 0 <= n < num t -> exists b st j,
  chk32 (w_ej t + base t) = Ok b /\ incrementTime (interval t) (n - num t + 1) b (w_es t) = Ok (st, j, snd (T n)) /\ chk32 (j - base t) = Ok (fst (T n)).
Proof.
  intros Hn. pose proof (ca_incr (num t - 1) (n - num t + 1) ltac:(lia) ltac:(lia)) as E. destruct W as (_ & _ & B0 & _). rewrite B0.
  pose proof ca_T1 as Q. assert (Q1 : w_ej t = fst (T (num t - 1))) by (rewrite Q; reflexivity). assert (Q2 : w_es t = 86400) by (unfold T in Q; congruence). rewrite Q1, Q2.
  replace (num t - 1 + (n - num t + 1)) with n in E by lia.
  exists (fst (T (num t - 1))), 0, (fst (T n)). rewrite Z.add_0_r, Z.sub_0_r. split; [apply ca_chk; lia|]. split; [exact E|apply ca_chk; lia].
Qed.
Lemma ca_HO k : 0 <= k < num t -> exists st, ztsOffsetAdjustToOffset (offset t) (interval t) (fst (T k)) (snd (T k)) = Ok (st, fst (T k), snd (T k)).
Proof.
  intros Hk. pose proof (ca_year k ltac:(lia)) as Y. destruct W as (A & B & _). rewrite A, B. unfold ztsOffsetAdjustToOffset, adjustToOffsetWith. replace (nominal_seconds ck <? 1) with false by (destruct ck; reflexivity).
  unfold T. cbn [fst snd]. rewrite (C09_fixed_point_calendar ck (p + k)); [|lia|apply last_day_endDay; lia]. eexists. reflexivity.
Qed.
Lemma ca_HP k n : 0 <= k -> 0 <= n -> k + n < num t -> exists st j s,
  incrementTime (interval t) n (fst (T k)) (snd (T k)) = Ok (st, j, s) /\ to_offset_again (offset t) (interval t) j s = Ok (T (k + n)).
Proof.
  intros Hk Hn H. pose proof (ca_incr k n ltac:(lia) ltac:(lia)) as E. destruct W as (_ & B & _). rewrite B. do 3 eexists. split; [exact E|]. reflexivity.
Qed.
Definition ca_value k := instant (endDay ck (p + k)) 86400 / gran t.
Lemma ca_HV k : 0 <= k < num t -> as_time (gran t) (base t) (fst (T k)) (snd (T k)) = Ok (ca_value k) /\ in32 (ca_value k).
Proof.
  intros Hk. pose proof (ca_bound k Hk) as B. pose proof (ca_year k ltac:(lia)) as Y. pose proof (FT k _ Hk (last_day_endDay ck (p + k) ltac:(lia))) as F.
  destruct W as (_ & _ & B0 & _). rewrite B0. unfold T, ca_value. cbn [fst snd]. set (j := endDay ck (p + k)) in *. clearbody j. unfold instant in *. set (g := gran t) in *.
  assert (GQ : Z.quot SECS_IN_1_DAY g = 86400 / g) by (apply Z.quot_div_nonneg; unfold SECS_IN_1_DAY; lia).
  assert (GM : 86400 = g * (86400 / g)) by (pose proof (Z.div_mod 86400 g ltac:(lia)); lia). set (c := 86400 / g) in *.
  assert (C0 : 0 < c <= 86400) by (clear - GM G0; nia).
  assert (EV : (j * 86400 + 86400) / g = j * c + c).
  { replace (j * 86400 + 86400) with ((j * c + c) * g) by (clear - GM; rewrite GM at 1 2; clearbody c; ring). apply Z.div_mul. lia. }
  assert (LO : -2000000000 <= (j * 86400 + 86400) / g) by (apply Z.div_le_lower_bound; lia).
  assert (HI : (j * 86400 + 86400) / g <= 2000000000) by (apply Z.div_le_upper_bound; lia).
  unfold as_time. rewrite GQ, Z.sub_0_r. fold c. rewrite chk32_ok by (unfold in32, INT_MIN, INT_MAX; lia). cbn [bind]. rewrite EV in *.
  rewrite chk32_ok by (unfold in32, INT_MIN, INT_MAX; lia). cbn [bind]. rewrite Z.quot_div_nonneg by lia. fold c.
  split; [apply chk32_ok|]; unfold in32, INT_MIN, INT_MAX; lia.
Qed.
Lemma ca_HD : interval t <= 86400 -> forall k, 0 <= k -> k + 1 < num t -> ca_value (k + 1) = ca_value k + Z.quot (interval t) (gran t).
Proof. intros H. exfalso. destruct W as (A & _). rewrite A in H. destruct ck; cbn in H; lia. Qed.

Definition ca_trimmed (flag f l : Z) (t' : ts) : Prop :=
  is_part t f (l - f + 1) t' /\ last_day_number ck (p + f) = Ok (sj t') /\ ss t' = 86400 /\ last_day_number ck (p + l) = Ok (ej t') /\ es t' = 86400 /\
  if (flag =? 0) || (flag =? -1)
  then exists tm, times t' = Some tm /\ Z.of_nat (length tm) = l - f + 1 /\
    forall x, 0 <= x < l - f + 1 -> exists d, last_day_number ck (p + f + x) = Ok d /\ nth (Z.to_nat x) tm 0 = instant d 86400 / gran t
  else times t' = None.
Lemma ca_result flag f l t' : 0 <= f <= l -> l < num t -> result t T ca_value flag f l t' -> ca_trimmed flag f l t'.
Proof.
  intros FL LN (A & B & C & D). unfold T in B, C. inversion B. inversion C. pose proof (ca_year f ltac:(lia)). pose proof (ca_year l ltac:(lia)).
  split; [exact A|]. split; [rewrite H0; apply last_day_endDay; lia|]. split; [exact H1|]. split; [rewrite H2; apply last_day_endDay; lia|]. split; [exact H3|].
  destruct ((flag =? 0) || (flag =? -1)); [|exact D]. eexists. split; [exact D|]. unfold values_from. rewrite map_length, seq_length. split; [lia|].
  intros x Hx. exists (endDay ck (p + f + x)). split; [assert (FX : 0 <= f + x <= num t) by lia; pose proof (ca_year (f + x) FX) as Y; rewrite Z.add_assoc in Y; apply last_day_endDay; clear - Y; lia|].
  rewrite (nth_indep _ _ (ca_value (f + Z.of_nat 0))) by (rewrite map_length, seq_length; lia).
  rewrite (map_nth (fun k => ca_value (f + Z.of_nat k))). rewrite seq_nth by lia. unfold ca_value. replace (p + (f + Z.of_nat (0 + Z.to_nat x))) with (p + f + x) by lia. reflexivity.
Qed.
End Cal.

(** The same for intervals of a third of a month, half a month, a month or a year: every value has the end of its own period. *)
Theorem C50_trim_calendar_partial : forall miss ck p t flag, is_read t -> calendar_window ck p t -> 0 < gran t -> 86400 mod gran t = 0 ->
  (forall x d, 0 <= x < num t -> last_day_number ck (p + x) = Ok d -> -2000000000 * gran t <= instant d 86400 <= 2000000000 * gran t) ->
  flag = -1 \/ flag = -3 -> (exists x, 0 <= x < num t /\ has_value miss t x) ->
  exists f l t', 0 <= f <= l /\ l < num t /\ has_value miss t f /\ has_value miss t l /\
    (forall x, 0 <= x < num t -> has_value miss t x -> f <= x <= l) /\
    finish miss flag t = Ok (true, t') /\ ca_trimmed ck p t flag f l t'.
Proof.
  intros miss ck p t flag R W G0 G1 FT HF EX.
  destruct (finish_trim miss t (fun k => (endDay ck (p + k), 86400)) (fun k => (endDay ck (p + k), 86400)) (ca_value ck p t) R
    ltac:(eapply ca_pos; eassumption) ltac:(eapply ca_T0; eassumption) ltac:(eapply ca_T1; eassumption) ltac:(intros; eapply ca_TG; eassumption) ltac:(intros; eapply ca_HS; eassumption)
    ltac:(intros; eapply ca_HE; eassumption) ltac:(intros; eapply ca_HO; eassumption) ltac:(intros; eapply ca_HP; eassumption) ltac:(intros; eapply ca_HV; eassumption) ltac:(intros; eapply ca_HD; eassumption) flag HF EX) as (f & l & t' & H1 & H2 & H3 & H4 & H5 & H6 & H7).
  exists f, l, t'. repeat (split; [assumption|]). eapply ca_result; eassumption.
Qed.
Print Assumptions C50_trim_calendar_partial.

(** ** The hypotheses are met *)
Definition gone (v : Z) : bool := v =? -901.
(** hourly from 1 July 2000, 01:00, with an offset of 10 minutes, quality and notes; the first two and the last are missing *)
Definition hourly : ts := mk_ts [-901; -901; 7; -901; 8; -901] 0 6 None (Some [0; 0; 3; 4; 5; 6]) 1 None 0 (Some (packed [[97]; []; [98; 99]; []; [100]; [101]]))
  36707 3600 36707 21600 3600 600 60 0 3600 36707 3600 36707 21600 6.
Example C50_hourly_example :
  is_read hourly /\ short_window hourly /\ times_fit hourly /\ (exists x, 0 <= x < num hourly /\ has_value gone hourly x).
Proof.
  split; [|split; [|split]].
  - unfold is_read. cbn [hourly vals depth num times qual qsize inotes isize cnotes sj ss ej es interval offset gran base w_int w_sj w_ss w_ej w_es w_n].
    repeat split; try (vm_compute; congruence); try discriminate; try (match goal with H : Some _ = Some _ |- _ => inversion H; subst; reflexivity end).
    intros c E. exists [[97]; []; [98; 99]; []; [100]; [101]]. split; [congruence|]. split; [|reflexivity]. repeat constructor; lia.
  - unfold short_window, hourly, instant. cbn [vals depth num interval offset gran base w_sj w_ss w_ej w_es]. repeat split; try lia. left. split; [lia|reflexivity].
  - unfold times_fit, value_time, hourly, instant. cbn [vals depth num interval offset gran base w_sj w_ss w_ej w_es]. repeat split; try lia; try reflexivity; vm_compute; congruence.
  - exists 2. split; [cbn; lia|]. exists 0. split; [cbn; lia|reflexivity].
Qed.
Example C50_hourly_value_example :
  option_map (fun r => match r with Ok (b, t') => (b, vals t', qual t', cnotes t', times t', instant (sj t') (ss t')) | Undef => (false, [], None, None, None, 0) end) (Some (finish gone (-1) hourly)) =
  Some (true, [7; -901; 8], Some [3; 4; 5], Some (packed [[98; 99]; []; [100]]), Some [52858210; 52858270; 52858330], 52858210 * 60).
Proof. vm_compute. reflexivity. Qed.

(** monthly profiles of two depths, from January 2001 *)
Definition monthly : ts := mk_ts [-901; -901; -901; 4; 5; -901; -901; -901] 2 4 None None 1 (Some [1; 2; 3; 4]) 1 None
  36921 86400 37010 86400 2592000 0 60 0 2592000 36921 86400 37010 86400 4.
Example C50_monthly_example :
  is_read monthly /\ calendar_window Month (12 * 2001) monthly /\ (exists x, 0 <= x < num monthly /\ has_value gone monthly x).
Proof.
  split; [|split].
  - unfold is_read. cbn [monthly vals depth num times qual qsize inotes isize cnotes sj ss ej es interval offset gran base w_int w_sj w_ss w_ej w_es w_n].
    repeat split; try (vm_compute; congruence); try discriminate; try (match goal with H : Some _ = Some _ |- _ => inversion H; subst; reflexivity end).
  - unfold calendar_window. repeat split; vm_compute; congruence.
  - exists 1. split; [cbn; lia|]. exists 1. split; [cbn; lia|reflexivity].
Qed.
Example C50_monthly_value_example :
  match finish gone (-1) monthly with Ok (b, t') => (b, vals t', inotes t', times t', (sj t', ss t', ej t', es t')) | Undef => (false, [], None, None, (0, 0, 0, 0)) end =
  (true, [-901; 4; 5; -901], Some [2; 3], Some [36950 * 1440; 36981 * 1440], (36949, 86400, 36980, 86400)).
Proof. vm_compute. reflexivity. Qed.

(** ** What does not hold *)
(** Trimming profiles that are all missing reads from before the values (ztsTrim.c:242-261: the count was set to 0 but the last
    position still is the number of values). *)
Theorem C50_refuted_missing_profiles : exists t, is_read t /\ short_window t /\ times_fit t /\ depth t = 2 /\
  (forall x, 0 <= x < num t -> ~ has_value gone t x) /\ finish gone (-1) t = Undef.
Proof.
  exists (mk_ts [-901; -901; -901; -901] 2 2 None None 1 None 1 None 36707 3600 36707 7200 3600 0 60 0 3600 36707 3600 36707 7200 2).
  split; [|split; [|split; [|split; [|split]]]].
  - unfold is_read. cbn [vals depth num times qual qsize inotes isize cnotes sj ss ej es interval offset gran base w_int w_sj w_ss w_ej w_es w_n].
    repeat split; try (vm_compute; congruence); try discriminate.
  - unfold short_window, instant. cbn [vals depth num interval offset gran base w_sj w_ss w_ej w_es]. repeat split; try lia. left. split; [lia|reflexivity].
  - unfold times_fit, value_time, instant. cbn [vals depth num interval offset gran base w_sj w_ss w_ej w_es]. repeat split; try lia; try reflexivity; vm_compute; congruence.
  - reflexivity.
  - cbn [num]. intros x Hx (j & J & M). cbn in J. cbn [vals width depth Z.eqb] in M. assert (C : (x = 0 \/ x = 1) /\ (j = 0 \/ j = 1)) by lia. destruct C as ([-> | ->] & [-> | ->]); discriminate M.
  - vm_compute. reflexivity.
Qed.
Print Assumptions C50_refuted_missing_profiles.
(** A monthly series far in the future is read with a base date, the start of its first block (ztsProcessTimes.c:475-488).  Trimming
    adds that date to the start before it counts months (ztsTrimAdjustTimeWindow.c:56), as if the start were in another month.  Here
    January and February 5014 are read and only February has a value: it comes back as the value of March 5014, and the start
    is after the end. *)
Definition far : ts := mk_ts [-901; 5] 0 2 None None 1 None 1 None
  1137396 86400 1137424 86400 2592000 0 60 1135905 2592000 1137396 86400 1137424 86400 2.
Theorem C50_refuted_base_date : is_read far /\ yearMonthDayToJulian 5010 1 1 = Ok (base far) /\
  last_day_number Month (12 * 5014) = Ok (w_sj far) /\ last_day_number Month (12 * 5014 + 1) = Ok (w_ej far) /\
  exists t', finish gone (-1) far = Ok (true, t') /\ vals t' = [5] /\ last_day_number Month (12 * 5014 + 2) = Ok (sj t') /\ ej t' < sj t' /\
    times t' = Some [(sj t' + 1 - base far) * 1440].
Proof.
  split; [|split; [vm_compute; reflexivity|split; [vm_compute; reflexivity|split; [vm_compute; reflexivity|]]]].
  - unfold is_read. cbn [far vals depth num times qual qsize inotes isize cnotes sj ss ej es interval offset gran base w_int w_sj w_ss w_ej w_es w_n].
    repeat split; try (vm_compute; congruence); try discriminate.
  - destruct (finish gone (-1) far) as [[b t']|] eqn:E; vm_compute in E; [|discriminate E]. injection E as <- <-. eexists. split; [reflexivity|].
    split; [reflexivity|]. split; [vm_compute; reflexivity|]. split; [vm_compute; reflexivity|vm_compute; reflexivity].
Qed.
Print Assumptions C50_refuted_base_date.
