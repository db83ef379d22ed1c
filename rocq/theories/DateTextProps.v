(** * C11: date strings. *)
From Coq Require Import ZArith List Bool Lia ZifyBool.
From Coq Require Import Strings.String.
From Coq Require Import List.
From Verif Require Import Base ArrayLib CStr CStrProofs HashModel DateModel DateSpec DateProofs DateProofs2 DateTextModel TextSpec.
Import ListNotations.
Open Scope Z_scope.
Open Scope res_scope.
Local Notation length := List.length.

(** ** Parsing lemmas *)

(** text before the year when the month is written by name *)
Definition alpha_ok (u : list Z) (m d : Z) : bool :=
  absent 47 u && absent 45 u && (3 <=? slen u) && (slen u <=? 20) &&
  match rev u with
  | c :: _ => negb (is_digit c) && ((slen u <=? 9) || ((c =? 32) || negb ((schar c <? 43) || ((schar c >? 57) && (schar c <? 65)))))
  | [] => false
  end &&
  match findInt u with Ok (v, n) => ((if n =? 0 then 0 else v) =? d) && (0 <=? v) && (v <=? 31) | Undef => false end &&
  (find_month LONG_MONTH_NAMES 1 u =? m) && (1 <=? m).

Lemma toupper_len s : slen (upperCase s) = slen s.
Proof. unfold slen, upperCase. rewrite map_length. reflexivity. Qed.

Lemma parse_alpha p t m d : alpha_ok (upperCase p) m d = true ->
  alldig t = true -> 1 <= slen t <= 9 -> 1 <= dval t <= 2147483647 ->
  dateToYearMonthDay (p ++ t) = Ok (Some (dval t, m, d)).
Proof.
  intros H D L V. unfold dateToYearMonthDay.
  unfold alpha_ok in H. set (u := upperCase p) in *.
  repeat (apply andb_true_iff in H; let H' := fresh "K" in destruct H as [H H']).
  rename H into A47. rename K5 into A45. rename K4 into L4. rename K3 into L20. rename K2 into KL. rename K1 into KF.
  rename K0 into KM. rename K into M1.
  apply Z.leb_le in L4, L20, M1.
  assert (LP : slen p = slen u) by (unfold u; rewrite toupper_len; reflexivity).
  assert (ES : upperCase (stringCopy_val 30 (p ++ t) None) = u ++ t).
  { unfold stringCopy_val. rewrite stake_all by (rewrite slen_app; lia). rewrite upper_app, (alldig_upper t) by exact D. reflexivity. }
  rewrite ES. cbv zeta.
  replace ((slen (u ++ t) >? 30) || (slen (u ++ t) <? 3)) with false by (rewrite slen_app; lia).
  assert (N47 : strchr (u ++ t) 47 = None).
  { apply strchr_absent. rewrite absent_app, A47. apply absent_digits; [exact D|reflexivity]. }
  assert (N45 : strchr (u ++ t) 45 = None).
  { apply strchr_absent. rewrite absent_app, A45. apply absent_digits; [exact D|reflexivity]. }
  rewrite N47, N45. cbv iota. change (0 >? 0) with false. cbv iota.
  destruct (rev u) as [|c r] eqn:ER; [discriminate|].
  assert (EU : u = rev r ++ [c]) by (rewrite <- (rev_involutive u), ER; reflexivity).
  apply andb_true_iff in KL. destruct KL as [KC KB]. apply negb_true_iff in KC.
  assert (ER2 : reverseNonNumeric (u ++ t) = Some (slen u - 1)).
  { rewrite EU, <- app_assoc. cbn [app]. rewrite rnn_app by auto. rewrite slen_app. f_equal. change (slen [c]) with 1. lia. }
  rewrite ER2.
  assert (LU : slen (rev r) = slen u - 1) by (rewrite EU, slen_app; change (slen [c]) with 1; lia).
  assert (EC : aget (u ++ t) (slen u - 1) = Ok c).
  { rewrite <- LU. rewrite EU, <- app_assoc. cbn [app]. unfold slen. apply aget_mid. }
  rewrite EC. cbn [bind].
  assert (C45 : (c =? 45) = false).
  { unfold absent in A45. rewrite forallb_forall in A45. specialize (A45 c).
    apply negb_true_iff. apply A45. rewrite EU. apply in_or_app. right. left. reflexivity. }
  rewrite C45. rewrite EC. cbn [bind].
  replace (slen u - 1 + 1) with (slen u) by lia.
  rewrite sdrop_app. unfold stringCopy_val at 1. rewrite stake_all by lia.
  rewrite (atoi_digits t D ltac:(lia) ltac:(lia) ltac:(lia)). cbn [bind].
  replace (dval t =? 0) with false by lia. cbn [andb orb].
  match goal with |- context [if ?b then Ok None else _] => replace b with false by lia end.
  cbn [bind]. rewrite stake_app.
  destruct (findInt u) as [[v n]|]; [|discriminate]. cbn [bind].
  replace (negb (n =? 0) && ((v <? 0) || (v >? 31))) with false by lia.
  replace (find_month LONG_MONTH_NAMES 1 u) with m by lia.
  replace (m =? 0) with false by lia. f_equal. f_equal. f_equal. lia.
Qed.

Lemma upper_delim c a : toupper c = c -> upperCase (c :: a) = c :: upperCase a.
Proof. intros H. unfold upperCase. cbn [map]. rewrite H. reflexivity. Qed.

(** m/d/y and m-d-y *)
Lemma parse_numeric del M D t : del = 45 \/ del = 47 -> alldig M = true -> alldig D = true -> alldig t = true ->
  1 <= slen M <= 2 -> 1 <= slen D <= 2 -> 1 <= slen t <= 9 ->
  1 <= dval M <= 99 -> 1 <= dval D <= 99 -> 1 <= dval t <= 2147483647 ->
  dateToYearMonthDay (M ++ del :: D ++ del :: t) = Ok (Some (dval t, dval M, dval D)).
Proof.
  intros Hdel AM AD At LM LD Lt VM VD Vt. unfold dateToYearMonthDay.
  assert (TD : toupper del = del) by (destruct Hdel as [-> | ->]; reflexivity).
  assert (ND : is_digit del = false) by (destruct Hdel as [-> | ->]; reflexivity).
  set (s := M ++ del :: D ++ del :: t).
  assert (LS : slen s = slen M + slen D + slen t + 2).
  { unfold s. rewrite slen_app, slen_cons, slen_app, slen_cons. lia. }
  assert (ES : upperCase (stringCopy_val 30 s None) = s).
  { unfold stringCopy_val. rewrite stake_all by lia. unfold s. rewrite upper_app, upper_delim, upper_app, upper_delim by exact TD.
    rewrite (alldig_upper M), (alldig_upper D), (alldig_upper t) by assumption. reflexivity. }
  rewrite ES. cbv zeta.
  replace ((slen s >? 30) || (slen s <? 3)) with false by lia.
  assert (EF : strchr s del = Some (slen M)) by (unfold s; apply strchr_first, absent_digits; assumption).
  assert (ED : sdrop (slen M + 1) s = D ++ del :: t).
  { unfold s. replace (slen M + 1) with (slen (M ++ [del])) by (rewrite slen_app; reflexivity).
    replace (M ++ del :: D ++ del :: t) with ((M ++ [del]) ++ D ++ del :: t) by (rewrite <- app_assoc; reflexivity).
    apply sdrop_app. }
  assert (EY : sdrop (slen M + 1 + slen D + 1) s = t).
  { unfold s. replace (slen M + 1 + slen D + 1) with (slen ((M ++ [del]) ++ D ++ [del])) by (rewrite !slen_app; change (slen [del]) with 1; lia).
    replace (M ++ del :: D ++ del :: t) with (((M ++ [del]) ++ D ++ [del]) ++ t) by (rewrite <- !app_assoc; reflexivity).
    apply sdrop_app. }
  assert (EI : forall use : bool, (if use then 45 else 47) = del ->
    (let* imonth := atoi (stringCopy_val 10 s (Some (slen M + 1 - 1))) in
          if imonth =? 0 then Ok None
          else
            match strchr (sdrop (slen M + 1) s) (if use then 45 else 47) with
            | None => Ok None
            | Some i =>
              let* iday := atoi (stringCopy_val 10 (sdrop (slen M + 1) s) (Some i)) in
              if iday =? 0 then Ok None
              else
                let* iyear := atoi (stringCopy_val 10 (sdrop (slen M + 1 + i + 1) s) None) in
                if iyear =? 0 then Ok None else Ok (Some (iyear, imonth, iday))
            end) = Ok (Some (dval t, dval M, dval D))).
  { intros use Hu. rewrite Hu. unfold stringCopy_val.
    replace (slen M + 1 - 1) with (slen M) by lia. replace (slen M <=? 0) with false by lia.
    replace (Z.min (slen M) (10 - 1)) with (slen M) by lia.
    unfold s at 1. rewrite stake_app. rewrite (atoi_digits M) by (assumption || lia). cbn [bind].
    replace (dval M =? 0) with false by lia.
    rewrite ED. rewrite strchr_first by (apply absent_digits; assumption).
    replace (slen D <=? 0) with false by lia. replace (Z.min (slen D) (10 - 1)) with (slen D) by lia.
    rewrite stake_app. rewrite (atoi_digits D) by (assumption || lia). cbn [bind].
    replace (dval D =? 0) with false by lia.
    rewrite EY. rewrite stake_all by lia. rewrite (atoi_digits t) by (assumption || lia). cbn [bind].
    replace (dval t =? 0) with false by lia. reflexivity. }
  assert (OTH : forall c, is_digit c = false -> c <> del -> absent c s = true).
  { intros c Hc Hne. unfold s. rewrite absent_app. cbn [absent forallb]. fold (absent c (D ++ del :: t)). rewrite absent_app. cbn [absent forallb].
    rewrite (absent_digits c M), (absent_digits c D) by assumption.
    assert (E1 : (del =? c) = false) by (apply Z.eqb_neq; congruence). rewrite E1. cbn [negb andb].
    exact (absent_digits c t At Hc). }
  destruct Hdel as [-> | ->].
  - rewrite (strchr_absent s 47) by (apply OTH; [reflexivity|lia]). rewrite EF.
    replace (slen M + 1 >? 5) with false by lia. replace (slen M + 1 >? 0) with true by lia.
    replace (slen M + 1 =? 5) with false by lia. replace ((slen M + 1 =? 2) || (slen M + 1 =? 3)) with true by lia.
    apply (EI true). reflexivity.
  - rewrite EF. rewrite (strchr_absent s 45), (strrchr_absent s 45) by (apply OTH; [reflexivity|lia]).
    cbn [andb]. replace (slen M + 1 >? 0) with true by lia.
    replace (slen M + 1 =? 5) with false by lia. replace ((slen M + 1 =? 2) || (slen M + 1 =? 3)) with true by lia.
    apply (EI false). reflexivity.
Qed.

(** yyyy-mm-dd *)
Lemma parse_iso t M D : alldig M = true -> alldig D = true -> alldig t = true ->
  slen M = 2 -> slen D = 2 -> slen t = 4 -> 1 <= dval M <= 99 -> 1 <= dval D <= 99 -> 1 <= dval t <= 9999 ->
  dateToYearMonthDay (t ++ 45 :: M ++ 45 :: D) = Ok (Some (dval t, dval M, dval D)).
Proof.
  intros AM AD At LM LD Lt VM VD Vt. unfold dateToYearMonthDay.
  set (s := t ++ 45 :: M ++ 45 :: D).
  assert (LS : slen s = 10) by (unfold s; rewrite slen_app, slen_cons, slen_app, slen_cons; lia).
  assert (ES : upperCase (stringCopy_val 30 s None) = s).
  { unfold stringCopy_val. rewrite stake_all by lia. unfold s. rewrite upper_app, upper_delim, upper_app, upper_delim by reflexivity.
    rewrite (alldig_upper M), (alldig_upper D), (alldig_upper t) by assumption. reflexivity. }
  rewrite ES. cbv zeta. rewrite LS. change ((10 >? 30) || (10 <? 3)) with false. cbv iota.
  assert (A47 : absent 47 s = true).
  { unfold s. rewrite absent_app. cbn [absent forallb]. fold (absent 47 (M ++ 45 :: D)). rewrite absent_app. cbn [absent forallb].
    rewrite (absent_digits 47 M), (absent_digits 47 t) by (assumption || reflexivity). cbn [Z.eqb Pos.eqb negb andb].
    apply absent_digits; [assumption|reflexivity]. }
  rewrite (strchr_absent s 47 A47).
  assert (E45 : strchr s 45 = Some 4) by (unfold s; rewrite strchr_first by (apply absent_digits; [assumption|reflexivity]); f_equal; exact Lt).
  rewrite E45. cbn [Z.add Z.gtb Z.compare Pos.compare Pos.compare_cont Pos.add Pos.succ Z.eqb Pos.eqb negb].
  change (10 =? 10) with true. cbn [negb].
  assert (E7 : aget s 7 = Ok 45).
  { unfold s. replace (t ++ 45 :: M ++ 45 :: D) with ((t ++ 45 :: M) ++ 45 :: D) by (rewrite <- app_assoc; reflexivity).
    replace 7 with (Z.of_nat (length (t ++ 45 :: M))); [apply aget_mid|].
    change (slen (t ++ 45 :: M) = 7). rewrite slen_app, slen_cons. lia. }
  rewrite E7. cbn [bind Z.eqb Pos.eqb negb].
  unfold stringCopy_val. change (4 <=? 0) with false. change (2 <=? 0) with false. cbv iota.
  change (Z.min 4 (10 - 1)) with 4. change (Z.min 2 (10 - 1)) with 2.
  assert (E4 : stake 4 s = t) by (unfold s; rewrite <- Lt; apply stake_app). rewrite E4.
  rewrite (atoi_digits t) by (assumption || lia). cbn [bind]. replace (dval t =? 0) with false by lia.
  assert (E5 : sdrop 5 s = M ++ 45 :: D).
  { unfold s. replace 5 with (slen (t ++ [45])) by (rewrite slen_app; change (slen [45]) with 1; lia).
    replace (t ++ 45 :: M ++ 45 :: D) with ((t ++ [45]) ++ M ++ 45 :: D) by (rewrite <- app_assoc; reflexivity). apply sdrop_app. }
  rewrite E5. rewrite <- LM at 1. rewrite stake_app.
  rewrite (atoi_digits M) by (assumption || lia). cbn [bind]. replace (dval M =? 0) with false by lia.
  assert (E8 : sdrop 8 s = D).
  { unfold s. replace 8 with (slen ((t ++ [45]) ++ M ++ [45])) by (rewrite !slen_app; change (slen [45]) with 1; lia).
    replace (t ++ 45 :: M ++ 45 :: D) with (((t ++ [45]) ++ M ++ [45]) ++ D) by (rewrite <- !app_assoc; reflexivity). apply sdrop_app. }
  rewrite E8. rewrite stake_all by lia. rewrite (atoi_digits D) by (assumption || lia). cbn [bind].
  replace (dval D =? 0) with false by lia. reflexivity.
Qed.

(** ** Formatting *)

(** styles that write the month by name, the day, and the year in full *)
Definition named_styles : list Z := [0; 1; 2; 4; 5; 7; 8; 100; 101; 102; 104; 105; 107; 108].
(** the same without the day *)
Definition monthly_styles : list Z := [3; 6; 9; 103; 106; 109].
(** numeric styles with a four-digit year *)
Definition numeric_styles : list Z := [-101; -102; -111; -112; -13].

(** the text before the year: what [date_text] builds in front of charYear *)
Definition front_text (m d style : Z) : res (list Z) :=
  let ibstyl := Z.rem style 10 in
  let* name := aget LONG_MONTH_NAMES (m - 1) in
  let name := if style >=? 100 then upperCase name else name in
  let charMonth :=
    if (ibstyl >? 6) || (ibstyl =? 1) then stake 3 name ++ [32]
    else if ibstyl >=? 4 then stake 3 name else name ++ [32] in
  let i := Z.rem ibstyl 3 in
  let* charDay :=
    (if (i =? 1) && (ibstyl >? 1) then Ok (intTo2char d)
     else if (i =? 2) || (ibstyl <=? 1) then itoa_hec 6 d else Ok []) in
  let charDay := if (ibstyl =? 2) || (ibstyl =? 7) || (ibstyl =? 8) then charDay ++ [32] else charDay in
  Ok (if ibstyl >? 1 then
        if negb (i =? 0) then charDay ++ charMonth else charMonth ++ charDay
      else charMonth ++ charDay ++ [44; 32]).

Definition front_check (style m d : Z) : bool :=
  match front_text m d style with
  | Ok u => alpha_ok (upperCase u) m (if existsb (Z.eqb style) monthly_styles then 0 else d) && absent 0 u &&
            ((4 <=? slen u) || existsb (Z.eqb style) monthly_styles)
  | Undef => false
  end.
Definition md_all (P : Z -> Z -> bool) : bool :=
  forallb (fun m => forallb (fun d => P (Z.of_nat m) (Z.of_nat d)) (seq 1 31)) (seq 1 12).
Lemma md_all_spec P : md_all P = true -> forall m d, 1 <= m <= 12 -> 1 <= d <= 31 -> P m d = true.
Proof.
  unfold md_all. intros H m d Hm Hd. rewrite forallb_forall in H.
  specialize (H (Z.to_nat m) ltac:(apply in_seq; lia)). rewrite forallb_forall in H.
  specialize (H (Z.to_nat d) ltac:(apply in_seq; lia)). rewrite !Z2Nat.id in H by lia. exact H.
Qed.
Lemma front_sweep : forallb (fun st => md_all (front_check st)) (named_styles ++ monthly_styles) = true.
Proof. vm_compute. reflexivity. Qed.

Definition year_text (y : Z) : list Z := if y <? 10000 then intTo4char y else dec y.
Lemma year_text_spec y : 1 <= y <= 9999999 -> alldig (year_text y) = true /\ dval (year_text y) = y /\ 4 <= slen (year_text y) <= 7.
Proof.
  intros H. unfold year_text. destruct (y <? 10000) eqn:E.
  - destruct (int4_spec y ltac:(lia)) as (A & B & C). split; [exact A|]. split; [exact B|]. lia.
  - destruct (dec_spec y ltac:(lia)) as (A & B & C). split; [exact A|]. split; [exact B|].
    split; [|apply (dec_fuel_len 20 y 7); [change (10 ^ Z.of_nat 7) with 10000000; lia|lia]].
    destruct (Z_le_gt_dec 4 (slen (dec y))) as [|G]; [assumption|exfalso].
    assert (R : forall k t acc, (length t <= k)%nat -> 0 <= acc -> digits_val acc t < (acc + 1) * 10 ^ Z.of_nat k).
    { clear. induction k as [|k IH]; intros t acc L Ha.
      - destruct t; [cbn; lia|cbn in L; lia].
      - rewrite Nat2Z.inj_succ, Z.pow_succ_r by lia. destruct t as [|c t].
        + cbn [digits_val]. pose proof (Z.pow_pos_nonneg 10 (Z.of_nat k)). nia.
        + cbn [digits_val length] in *. destruct (is_digit c) eqn:D.
          * apply is_digit_range in D. specialize (IH t (acc * 10 + (c - 48)) ltac:(lia) ltac:(lia)).
            pose proof (Z.pow_pos_nonneg 10 (Z.of_nat k)). nia.
          * pose proof (Z.pow_pos_nonneg 10 (Z.of_nat k)). nia. }
    specialize (R 3%nat (dec y) 0 ltac:(unfold slen in G; lia) ltac:(lia)).
    unfold dval in B. rewrite B in R. change ((0 + 1) * 10 ^ Z.of_nat 3) with 1000 in R. lia.
Qed.

Lemma format_named y m d style u : 1 <= y <= 9999999 -> 1 <= m <= 12 -> 1 <= d <= 31 ->
  0 <= style < 10 \/ 100 <= style < 110 -> front_text m d style = Ok u -> slen u <= 20 ->
  date_text y m d style = Ok (Some (u ++ year_text y)).
Proof.
  intros Hy Hm Hd Hst E L. destruct (year_text_spec y Hy) as (_ & _ & Ly).
  unfold date_text. replace ((d <? 1) || (d >? 31)) with false by lia. replace ((m <? 1) || (m >? 12)) with false by lia.
  replace (style <? 0) with false by lia.
  unfold front_text in E.
  set (ib := Z.rem style 10) in *. cbv zeta in E |- *.
  destruct (aget LONG_MONTH_NAMES (m - 1)) as [name|]; [|discriminate]. cbn [bind] in E |- *.
  set (cm := if (ib >? 6) || (ib =? 1) then _ else _) in *.
  replace ((if style >=? 100 then style - 100 else style) >=? 10) with false by (destruct (style >=? 100) eqn:?; lia).
  assert (EY : (if (y <? 10000) && (y >? -1000) then intTo4char y else stake 9 (fmt_d y)) = year_text y).
  { unfold year_text in *. destruct (y <? 10000) eqn:Ey; cbn [andb].
    - replace (y >? -1000) with true by lia. reflexivity.
    - unfold fmt_d. replace (y <? 0) with false by lia. rewrite stake_all; [reflexivity|lia]. }
  rewrite EY.
  set (cd := if (Z.rem ib 3 =? 1) && (ib >? 1) then _ else _) in *.
  destruct cd as [cd0|]; [|discriminate]. cbn [bind] in E |- *.
  set (cdd := if (ib =? 2) || (ib =? 7) || (ib =? 8) then _ else _) in *.
  injection E as <-.
  f_equal. f_equal.
  match goal with |- stake 29 ?x = ?y => assert (X : x = y) end.
  { destruct (ib >? 1); [destruct (negb (Z.rem ib 3 =? 0))|]; rewrite <- ?app_assoc; reflexivity. }
  rewrite X. apply stake_all. rewrite slen_app. lia.
Qed.

Lemma front_ok st m d : In st (named_styles ++ monthly_styles) -> 1 <= m <= 12 -> 1 <= d <= 31 ->
  exists u, front_text m d st = Ok u /\ alpha_ok (upperCase u) m (if existsb (Z.eqb st) monthly_styles then 0 else d) = true /\
    absent 0 u = true /\ (existsb (Z.eqb st) monthly_styles = false -> 4 <= slen u) /\ slen u <= 20.
Proof.
  intros Hin Hm Hd. pose proof front_sweep as S. rewrite forallb_forall in S. specialize (S st Hin).
  pose proof (md_all_spec _ S m d Hm Hd) as Q. unfold front_check in Q.
  destruct (front_text m d st) as [u|]; [|discriminate]. exists u. split; [reflexivity|].
  apply andb_true_iff in Q. destruct Q as [Q Q3]. apply andb_true_iff in Q. destruct Q as [Q1 Q2].
  split; [exact Q1|]. split; [exact Q2|]. split.
  - intros E. rewrite E in Q3. lia.
  - unfold alpha_ok in Q1. rewrite toupper_len in Q1. repeat (apply andb_true_iff in Q1; destruct Q1 as [Q1 ?]). lia.
Qed.

Lemma style_range st : In st (named_styles ++ monthly_styles) -> 0 <= st < 10 \/ 100 <= st < 110.
Proof. cbn. intuition lia. Qed.

Lemma absent0_digits t : alldig t = true -> absent 0 t = true.
Proof. intros H. apply absent_digits; [exact H|reflexivity]. Qed.

Lemma itoa_small n cap : 1 <= n <= 99 -> 3 <= cap -> itoa_hec cap n = Ok (dec n) /\ alldig (dec n) = true /\ dval (dec n) = n /\ 1 <= slen (dec n) <= 2.
Proof.
  intros H Hc. destruct (dec_spec n ltac:(lia)) as (A & B & C).
  assert (L : slen (dec n) <= 2) by (apply (dec_fuel_len 20 n 2); [change (10 ^ Z.of_nat 2) with 100; lia|lia]).
  unfold itoa_hec, fmt_d. replace (n <? 0) with false by lia. cbv zeta.
  replace (slen (dec n) <? cap) with true by lia. split; [reflexivity|]. split; [exact A|]. split; [exact B|]. lia.
Qed.

(** formatting in the numeric styles *)
Lemma format_numeric y m d st : In st numeric_styles -> 1 <= y <= 9999 -> 1 <= m <= 12 -> 1 <= d <= 31 ->
  exists t, date_text y m d st = Ok (Some t) /\ dateToYearMonthDay t = Ok (Some (y, m, d)) /\ absent 0 t = true /\ 8 <= slen t <= 10.
Proof.
  intros Hin Hy Hm Hd.
  destruct (int4_spec y ltac:(lia)) as (Ay & By & Cy).
  destruct (int2_spec m ltac:(lia)) as (Am & Bm & Cm). destruct (int2_spec d ltac:(lia)) as (Ad & Bd & Cd).
  destruct (itoa_small m 14 ltac:(lia) ltac:(lia)) as (Em & Am' & Bm' & Cm').
  destruct (itoa_small d 6 ltac:(lia) ltac:(lia)) as (Ed & Ad' & Bd' & Cd').
  assert (G : forall del M D, del = 45 \/ del = 47 -> alldig M = true -> alldig D = true -> dval M = m -> dval D = d ->
    1 <= slen M <= 2 -> 1 <= slen D <= 2 ->
    stake 29 (M ++ [del] ++ D ++ [del] ++ intTo4char y) = M ++ del :: D ++ del :: intTo4char y /\
    dateToYearMonthDay (M ++ del :: D ++ del :: intTo4char y) = Ok (Some (y, m, d)) /\
    absent 0 (M ++ del :: D ++ del :: intTo4char y) = true /\ 8 <= slen (M ++ del :: D ++ del :: intTo4char y) <= 10).
  { intros del M D Hdel AM AD VM VD LM LD.
    assert (LL : slen (M ++ del :: D ++ del :: intTo4char y) = slen M + slen D + 6) by (rewrite slen_app, slen_cons, slen_app, slen_cons; lia).
    split; [apply stake_all; cbn [app]; lia|]. split.
    - rewrite (parse_numeric del M D (intTo4char y)) by (assumption || lia). rewrite By, VM, VD. reflexivity.
    - split; [|lia]. rewrite absent_app. cbn [absent forallb]. fold (absent 0 (D ++ del :: intTo4char y)). rewrite absent_app. cbn [absent forallb].
      fold (absent 0 (intTo4char y)). rewrite !absent0_digits by assumption. destruct Hdel as [-> | ->]; reflexivity. }
  unfold date_text. replace ((d <? 1) || (d >? 31)) with false by lia. replace ((m <? 1) || (m >? 12)) with false by lia.
  cbn [numeric_styles In] in Hin. destruct Hin as [<-|[<-|[<-|[<-|[<-|[]]]]]];
    cbn -[intTo2char intTo4char itoa_hec stake app dateToYearMonthDay absent slen].
  - rewrite Ed, Em. cbn [bind]. destruct (G 47 (dec m) (dec d)) as (G1 & G2); auto. eexists. rewrite G1. split; [reflexivity|exact G2].
  - rewrite Ed, Em. cbn [bind]. destruct (G 45 (dec m) (dec d)) as (G1 & G2); auto. eexists. rewrite G1. split; [reflexivity|exact G2].
  - destruct (G 47 (intTo2char m) (intTo2char d)) as (G1 & G2); auto; try lia. eexists. rewrite G1. split; [reflexivity|exact G2].
  - destruct (G 45 (intTo2char m) (intTo2char d)) as (G1 & G2); auto; try lia. eexists. rewrite G1. split; [reflexivity|exact G2].
  - eexists. split; [reflexivity|]. cbn [app]. split.
    + rewrite (parse_iso (intTo4char y)) by (assumption || lia). rewrite By, Bm, Bd. reflexivity.
    + split; [|rewrite slen_app, slen_cons, slen_app, slen_cons; lia].
      rewrite absent_app. cbn [absent forallb]. fold (absent 0 (intTo2char m ++ 45 :: intTo2char d)). rewrite absent_app. cbn [absent forallb].
      fold (absent 0 (intTo2char d)). rewrite !absent0_digits by assumption. reflexivity.
Qed.

Lemma format_all y m d st : (In st named_styles /\ 1 <= y <= 9999999) \/ (In st numeric_styles /\ 1 <= y <= 9999) ->
  1 <= m <= 12 -> 1 <= d <= 31 ->
  exists t, date_text y m d st = Ok (Some t) /\ dateToYearMonthDay t = Ok (Some (y, m, d)) /\ absent 0 t = true /\ 8 <= slen t <= 27.
Proof.
  intros [[Hin Hy]|[Hin Hy]] Hm Hd.
  - assert (Hin2 : In st (named_styles ++ monthly_styles)) by (apply in_or_app; auto).
    destruct (front_ok st m d Hin2 Hm Hd) as (u & Eu & Au & Zu & Lu & Lu2).
    assert (Em : existsb (Z.eqb st) monthly_styles = false).
    { cbn [named_styles In] in Hin. repeat (destruct Hin as [<-|Hin]; [reflexivity|]). destruct Hin. }
    rewrite Em in *. specialize (Lu eq_refl).
    destruct (year_text_spec y Hy) as (A & B & C).
    exists (u ++ year_text y). split; [apply format_named; auto using style_range|].
    split; [rewrite (parse_alpha u (year_text y) m d) by (assumption || lia); rewrite B; reflexivity|].
    split; [rewrite absent_app, Zu, absent0_digits by exact A; reflexivity|]. rewrite slen_app. lia.
  - destruct (format_numeric y m d st Hin Hy Hm Hd) as (t & A & B & C & D). exists t. split; [exact A|]. split; [exact B|]. split; [exact C|]. lia.
Qed.

(** ** C11: formatting a date and parsing the text gives the same date, in every style that names day, month and
    full year (years to 9,999,999 where the month is written by name, 4-digit years in the numeric styles), through
    a caller's buffer of any sufficient size. *)
Theorem C11_civil_round_trip : forall y m d st,
  (In st named_styles /\ 1 <= y <= 9999999) \/ (In st numeric_styles /\ 1 <= y <= 9999) ->
  1 <= m <= 12 -> 1 <= d <= 31 ->
  exists t, slen t <= 27 /\ dateToYearMonthDay t = Ok (Some (y, m, d)) /\
    forall buf size, slen t < size <= alen buf ->
      exists b, yearMonthDayToDate y m d st buf size = Ok (slen t, b) /\ cstr b = Ok t /\ alen b = alen buf.
Proof.
  intros y m d st H Hm Hd. destruct (format_all y m d st H Hm Hd) as (t & A & B & C & L).
  exists t. split; [lia|]. split; [exact B|]. intros buf size Hsz.
  unfold yearMonthDayToDate. rewrite A. cbn [bind]. unfold stringCopy, stringCopy_val. cbv iota.
  replace (size =? 0) with false by lia. rewrite stake_all by lia.
  destruct (cstr_put buf t C ltac:(lia)) as (b & E & E2 & E3). exists b. rewrite E. auto.
Qed.
Print Assumptions C11_civil_round_trip.

(** the same for day numbers: every day of years 5 .. 9999 (numeric) or 5 .. 4,999,999 (named) *)
Theorem C11_day_round_trip : forall y m d st j,
  (In st named_styles /\ 5 <= y <= 4999999) \/ (In st numeric_styles /\ 5 <= y <= 9999) ->
  valid_date y m d -> yearMonthDayToJulian y m d = Ok j ->
  exists t, slen t <= 27 /\ dateToJulian t = Ok j /\
    forall buf size, slen t < size <= alen buf ->
      exists b, julianToDate j st buf size = Ok (slen t, b) /\ cstr b = Ok t.
Proof.
  intros y m d st j H V E. pose proof V as [Hm Hd]. pose proof (valid_d31 _ _ _ V) as H31.
  assert (Hy : 5 <= y <= 4999999) by (destruct H as [[_ H]|[_ H]]; lia).
  destruct (format_all y m d st) as (t & A & B & C & L); [destruct H as [[I H]|[I H]]; [left|right]; split; auto; lia|exact Hm|lia|].
  exists t. split; [lia|]. split.
  - unfold dateToJulian. rewrite B. cbn [bind]. replace (d =? 0) with false by lia.
    replace (slen t =? 7) with false by lia. rewrite andb_false_r. exact E.
  - intros buf size Hsz. rewrite ymd_rata in E by (unfold YMAX; try apply V; lia). injection E as <-.
    pose proof (rata_bound y m d ltac:(unfold YMAX; lia) Hm H31) as RB.
    unfold julianToDate. replace (rata y m d =? UNDEFINED_TIME) with false by (unfold UNDEFINED_TIME; lia).
    rewrite civilOf_rata by (unfold YMAX; auto; lia). cbn [bind].
    unfold yearMonthDayToDate. rewrite A. cbn [bind]. unfold stringCopy, stringCopy_val. cbv iota.
    replace (size =? 0) with false by lia. rewrite stake_all by lia.
    destruct (cstr_put buf t C ltac:(lia)) as (b & E & E2 & E3). exists b. rewrite E. auto.
Qed.
Print Assumptions C11_day_round_trip.

(** the standard style 4 really is ddMMMyyyy *)
Definition month_abbreviation (m : Z) : list Z :=
  nth (Z.to_nat (m - 1)) [[74;97;110];[70;101;98];[77;97;114];[65;112;114];[77;97;121];[74;117;110];
                          [74;117;108];[65;117;103];[83;101;112];[79;99;116];[78;111;118];[68;101;99]] [].
Theorem C11_standard_style : forall y m d, 1 <= y <= 9999 -> 1 <= m <= 12 -> 1 <= d <= 31 ->
  date_text y m d 4 = Ok (Some (two_digits d ++ month_abbreviation m ++ two_digits (y / 100) ++ two_digits (y mod 100))).
Proof.
  intros y m d Hy Hm Hd.
  assert (F : front_text m d 4 = Ok (two_digits d ++ month_abbreviation m)).
  { assert (S : md_all (fun m d => match front_text m d 4 with Ok u => if list_eq_dec Z.eq_dec u (two_digits d ++ month_abbreviation m) then true else false | Undef => false end) = true)
      by (vm_compute; reflexivity).
    pose proof (md_all_spec _ S m d Hm Hd) as Q. cbv beta in Q. destruct (front_text m d 4) as [u|]; [|discriminate].
    destruct (list_eq_dec Z.eq_dec u (two_digits d ++ month_abbreviation m)) as [->|]; [reflexivity|discriminate]. }
  rewrite (format_named y m d 4 _ ltac:(lia) Hm Hd ltac:(lia) F).
  2:{ assert (S : md_all (fun m d => slen (two_digits d ++ month_abbreviation m) <=? 20) = true) by (vm_compute; reflexivity).
      pose proof (md_all_spec _ S m d Hm Hd). lia. }
  f_equal. f_equal. rewrite <- app_assoc. f_equal. f_equal.
  unfold year_text. replace (y <? 10000) with true by lia.
  assert (D1 : 0 <= y / 100 <= 99) by (pose proof (Z.div_mod y 100 ltac:(lia)); pose proof (Z.mod_pos_bound y 100 ltac:(lia)); lia).
  pose proof (Z.mod_pos_bound y 100 ltac:(lia)) as D2.
  assert (I1 : In (Z.to_nat (y / 100)) (seq 0 100)) by (apply in_seq; lia).
  assert (I2 : In (Z.to_nat (y mod 100)) (seq 0 100)) by (apply in_seq; lia).
  assert (S : forallb (fun a => forallb (fun b => if list_eq_dec Z.eq_dec (intTo4char (100 * Z.of_nat a + Z.of_nat b))
      (two_digits (Z.of_nat a) ++ two_digits (Z.of_nat b)) then true else false) (seq 0 100)) (seq 0 100) = true) by (vm_compute; reflexivity).
  rewrite forallb_forall in S. specialize (S _ I1).
  rewrite forallb_forall in S. specialize (S _ I2).
  rewrite !Z2Nat.id in S by (clear S; lia). rewrite <- (Z.div_mod y 100) in S by discriminate.
  destruct (list_eq_dec Z.eq_dec _ _) as [E|]; [exact E|discriminate].
Qed.
Print Assumptions C11_standard_style.

(** styles without a day give the first day of the month back (year 100 and later; see the refutation) *)
Theorem C11_monthly_styles : forall y m d st, In st monthly_styles -> 1 <= y <= 9999999 -> 1 <= m <= 12 -> 1 <= d <= 31 ->
  exists t, date_text y m d st = Ok (Some t) /\ dateToYearMonthDay t = Ok (Some (y, m, 0)) /\
    (100 <= y -> dateToJulian t = yearMonthDayToJulian y m 1).
Proof.
  intros y m d st Hin Hy Hm Hd.
  assert (Hin2 : In st (named_styles ++ monthly_styles)) by (apply in_or_app; auto).
  destruct (front_ok st m d Hin2 Hm Hd) as (u & Eu & Au & Zu & _ & Lu2).
  assert (Em : existsb (Z.eqb st) monthly_styles = true).
  { cbn [monthly_styles In] in Hin. repeat (destruct Hin as [<-|Hin]; [reflexivity|]). destruct Hin. }
  rewrite Em in *. destruct (year_text_spec y Hy) as (A & B & C).
  assert (P : dateToYearMonthDay (u ++ year_text y) = Ok (Some (y, m, 0))).
  { rewrite (parse_alpha u (year_text y) m 0) by (assumption || lia). rewrite B. reflexivity. }
  exists (u ++ year_text y). split; [apply format_named; auto using style_range|]. split; [exact P|].
  intros H100. unfold dateToJulian. rewrite P. cbn [bind Z.eqb]. replace (y <? 100) with false by lia. reflexivity.
Qed.
Print Assumptions C11_monthly_styles.

Example C11_example : date_text 2000 2 29 4 = Ok (Some (bytes_of "29Feb2000")) /\
  dateToJulian (bytes_of "29Feb2000") = yearMonthDayToJulian 2000 2 29 /\
  dateToJulian (bytes_of "2000-02-29") = yearMonthDayToJulian 2000 2 29.
Proof. repeat split; vm_compute; reflexivity. Qed.

(** a month-only text of seven characters in the first century is moved to the 21st *)
Theorem C11_refuted_first_century : exists t, date_text 50 1 1 6 = Ok (Some t) /\
  dateToJulian t = yearMonthDayToJulian 2050 1 1.
Proof. eexists. split; [vm_compute; reflexivity|]. vm_compute. reflexivity. Qed.
Print Assumptions C11_refuted_first_century.
(** numeric styles truncate years above 9999: 6/2/12345 is written as 6/2/1234 *)
Theorem C11_refuted_long_year : exists t, date_text 12345 6 2 (-101) = Ok (Some t) /\
  dateToYearMonthDay t = Ok (Some (1234, 6, 2)).
Proof. eexists. split; [vm_compute; reflexivity|]. vm_compute. reflexivity. Qed.
Print Assumptions C11_refuted_long_year.
