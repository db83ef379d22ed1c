(** * C62: the dates and times in the pathnames of grids. *)
From Coq Require Import ZArith List Bool Lia ZifyBool.
From Verif Require Import Base ArrayLib HashModel CStr CStrProofs DateModel DateSpec DateProofs DateProofs2 DateTextModel TextSpec DateTextProps TimeTextProps IntervalModel SortModel CatSortModel.
Import ListNotations.
Open Scope Z_scope.
Open Scope res_scope.

(** ** lemmas *)
Lemma index_first a b c : ~ In c a -> index_of c (a ++ c :: b) = Some (slen a).
Proof.
  induction a as [|x a IH]; intros H; cbn [index_of app]; [rewrite Z.eqb_refl; reflexivity|].
  destruct (x =? c) eqn:E; [exfalso; apply H; left; lia|]. rewrite IH by (intros X; apply H; right; exact X). f_equal. unfold slen. cbn [length]. lia.
Qed.
Lemma index_none a c : ~ In c a -> index_of c a = None.
Proof.
  induction a as [|x a IH]; intros H; cbn [index_of]; [reflexivity|].
  destruct (x =? c) eqn:E; [exfalso; apply H; left; lia|]. rewrite IH by (intros X; apply H; right; exact X). reflexivity.
Qed.
Lemma no_colon_front st m d u : In st named_styles -> 1 <= m <= 12 -> 1 <= d <= 31 -> front_text m d st = Ok u -> ~ In 58 u.
Proof.
  intros Hin Hm Hd E.
  assert (S : forallb (fun st => md_all (fun m d => match front_text m d st with Ok u => negb (existsb (Z.eqb 58) u) | Undef => true end)) named_styles = true) by (vm_compute; reflexivity).
  rewrite forallb_forall in S. specialize (S st Hin). pose proof (md_all_spec _ S m d Hm Hd) as Q. cbv beta in Q. rewrite E in Q.
  intros I. apply negb_true_iff in Q. assert (X : existsb (Z.eqb 58) u = true) by (apply existsb_exists; exists 58; split; [exact I|reflexivity]). congruence.
Qed.
Lemma time_text_len style s : 0 <= style <= 2 -> 4 <= slen (time_text style s).
Proof. intros H. assert (E : style = 0 \/ style = 1 \/ style = 2) by lia. unfold time_text, two_digits. destruct E as [->|[->| ->]]; cbn; lia. Qed.

(** ** Theorems *)
(** A date in any style that names the month, a colon, and a time as hhmm, hh:mm or hh:mm:ss: that day and that time. *)
Theorem C62_grid_time_partial y m d st t j style s :
  In st named_styles -> 5 <= y <= 4999999 -> valid_date y m d -> date_text y m d st = Ok (Some t) -> yearMonthDayToJulian y m d = Ok j ->
  0 <= style <= 2 -> 0 <= s <= 86400 ->
  spatialDateTime (t ++ 58 :: time_text style s) = Ok (Some (j, time_precision style s)).
Proof.
  intros Hin Hy V ET E Hst Hs. pose proof V as [Hm Hd0]. pose proof (valid_d31 _ _ _ V) as H31.
  destruct (format_all y m d st) as (t' & A & B & C & L); [left; split; auto; lia|exact Hm|lia|].
  rewrite ET in A. injection A as <-.
  destruct (C11_day_round_trip y m d st j (or_introl (conj Hin Hy)) V E) as (t2 & _ & D2 & F2).
  assert (J : dateToJulian t = Ok j).
  { unfold dateToJulian. rewrite B. cbn [bind]. replace (d =? 0) with false by lia. replace (slen t =? 7) with false by lia. rewrite andb_false_r. exact E. }
  assert (NC : ~ In 58 t).
  { destruct (front_ok st m d (in_or_app _ _ _ (or_introl Hin)) Hm ltac:(lia)) as (u & Eu & _ & _ & _ & Lu).
    destruct (year_text_spec y ltac:(lia)) as (Y1 & _ & _).
    rewrite (format_named y m d st u ltac:(lia) Hm ltac:(lia) (style_range st (in_or_app _ _ _ (or_introl Hin))) Eu Lu) in ET. injection ET as <-.
    intros I. apply in_app_or in I. destruct I as [I|I]; [exact (no_colon_front st m d u Hin Hm ltac:(lia) Eu I)|].
    unfold alldig in Y1. rewrite forallb_forall in Y1. specialize (Y1 58 I). discriminate Y1. }
  pose proof (time_text_len style s Hst) as TL.
  unfold spatialDateTime. replace (slen (t ++ 58 :: time_text style s) <? 10) with false by (rewrite slen_app, slen_cons; lia).
  rewrite index_first by exact NC. destruct (slen t) as [|p|p] eqn:ST; [lia| |lia]. rewrite <- ST. cbv zeta.
  rewrite stake_app, J. cbn [bind].
  assert (JU : (j =? UNDEFINED_TIME) = false).
  { rewrite ymd_rata in E by (unfold YMAX; try apply V; lia). injection E as <-. pose proof (rata_bound y m d ltac:(unfold YMAX; lia) Hm H31). unfold UNDEFINED_TIME. lia. }
  rewrite JU. replace (sdrop (slen t + 1) (t ++ 58 :: time_text style s)) with (time_text style s).
  - rewrite C12_parse by assumption. cbn [bind].
    assert (P : 0 <= time_precision style s) by (unfold time_precision; destruct (style =? 2); [lia|pose proof (Z.div_pos s 60 ltac:(lia) ltac:(lia)); lia]).
    replace (time_precision style s <? 0) with false by lia. reflexivity.
  - replace (t ++ 58 :: time_text style s) with ((t ++ [58]) ++ time_text style s) by (rewrite <- app_assoc; reflexivity).
    replace (slen t + 1) with (slen (t ++ [58])) by (rewrite slen_app; reflexivity). symmetry. apply sdrop_app.
Qed.
Print Assumptions C62_grid_time_partial.
Theorem C62_no_colon s : ~ In 58 s -> spatialDateTime s = Ok None.
Proof.
  intros H. unfold spatialDateTime. destruct (slen s <? 10); [reflexivity|]. rewrite (index_none s 58 H). cbv zeta.
  replace (stake 0 s) with (@nil Z) by reflexivity. replace (dateToJulian []) with (@Ok Z UNDEFINED_TIME) by (vm_compute; reflexivity). reflexivity.
Qed.
Print Assumptions C62_no_colon.
(** 01JAN2000:0900, in capitals as in a pathname *)
Example C62_grid_time_example : exists t, In 104 named_styles /\ valid_date 2000 1 1 /\ date_text 2000 1 1 104 = Ok (Some t) /\
  t = [48; 49; 74; 65; 78; 50; 48; 48; 48] /\ yearMonthDayToJulian 2000 1 1 = Ok 36525 /\
  spatialDateTime (t ++ 58 :: [48; 57; 48; 48]) = Ok (Some (36525, 32400)).
Proof.
  eexists. split; [cbn; tauto|]. split; [split; [lia|vm_compute; split; discriminate]|]. split; [vm_compute; reflexivity|]. split; [reflexivity|]. split; vm_compute; reflexivity.
Qed.
(** REFUTED: a text that names no time is not dated: 01JAN2000:9999 is taken as 362340 seconds of that day *)
Theorem C62_refuted_no_such_time : spatialDateTime [48; 49; 74; 65; 78; 50; 48; 48; 48; 58; 57; 57; 57; 57] = Ok (Some (36525, 362340)).
Proof. vm_compute. reflexivity. Qed.
Print Assumptions C62_refuted_no_such_time.
(** REFUTED: the time is followed by other text (as zcatSortPath passes it, without an end): 09:00 is read as 01:30 *)
Theorem C62_refuted_followed : exists s more, spatialDateTime s = Ok (Some (36525, 32400)) /\ spatialDateTime (s ++ 47 :: more) = Ok (Some (36525, 5400)).
Proof.
  exists [48; 49; 74; 65; 78; 50; 48; 48; 48; 58; 48; 57; 48; 48], [48; 49; 74; 65; 78; 50; 48; 48; 48; 58; 49; 48; 48; 48; 47; 47].
  split; vm_compute; reflexivity.
Qed.
Print Assumptions C62_refuted_followed.
