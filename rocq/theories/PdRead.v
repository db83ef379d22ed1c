(** * Lemmas for C49: reading a table. *)
From Coq Require Import ZArith List Lia Bool ZifyBool.
From Verif Require Import Base ArrayLib SeriesProofs PdModel PdSpec PdProofs PdLoop PdLabel PdRep.
Import ListNotations.
Open Scope Z_scope.
Open Scope res_scope.

Section S.
Variable widen : Z -> Z * Z.
Variable narrow : Z * Z -> Z.
Notation cast := (cast widen narrow).
Notation zpdRetrieve := (zpdRetrieve widen narrow).

Lemma some_all ls c : alen ls = c -> some_labels ls 0 c = text ls.
Proof. intros H. unfold some_labels. cbn [Z.to_nat skipn]. rewrite firstn_all2; [reflexivity|]. unfold alen in H. lia. Qed.
Lemma text_split ls a n : 0 <= a -> 0 <= n -> a + n <= alen ls -> exists post, text ls = text (firstn (Z.to_nat a) ls) ++ some_labels ls a n ++ post.
Proof.
  intros Ha Hn H. exists (text (skipn (Z.to_nat n) (skipn (Z.to_nat a) ls))). unfold some_labels. rewrite <- !text_app, !firstn_skipn. reflexivity.
Qed.

Lemma labels_read t r entire sc ec : rep t r -> range_ok sc ec (t_c t) ->
  exists L, read_labels r entire sc ec = Ok L /\
    match t_labs t with
    | None => L = []
    | Some ls => (entire = true -> L = text ls) /\ (entire = false -> 1 <= sc -> L = some_labels ls (from sc) (upto ec (t_c t) - from sc))
    end.
Proof.
  intros R Hq. pose proof (rep_lab _ _ R) as Q. unfold lab_rep in Q. destruct (rep_small _ _ R) as (Hn & Hc & _). unfold read_labels. destruct (t_labs t) as [ls|].
  2:{ destruct Q as [Q1 Q2]. rewrite Q2. exists []. split; reflexivity. }
  destruct Q as (Q1 & Q2 & Q3 & Q4 & Q5 & Q6 & (z & Q7)). pose proof (text_pos ls ltac:(lia)) as Tp. set (room := t_room t) in *.
  assert (Bd : room <= ((room - 1) / 8 + 1) * 8) by (pose proof (Z.div_mod (room - 1) 8); pose proof (Z.mod_pos_bound (room - 1) 8); lia).
  set (j := (room - 1) / 8 + 1) in *. rewrite Q6. replace (j * 8 >? 0) with true by lia.
  replace (Z.quot (j * 8) 4) with (2 * j) by (rewrite Z.quot_div_nonneg by lia; replace (j * 8) with (2 * j * 4) by lia; symmetry; apply Z.div_mul; lia).
  replace (Z.quot (2 * j + 1) 2) with j by (rewrite Z.quot_div_nonneg by lia; apply Z.div_unique with 1; lia).
  cbv zeta. rewrite Q4. replace (room <=? 0) with false by lia. replace (Z.min room ((j + 1) * 8)) with room by lia.
  rewrite Q7, app_assoc, read_all by (rewrite app_length, repeat_length; unfold alen in *; lia). cbn [bind].
  set (tail := repeat 0 (Z.to_nat (room - alen (text ls)))). set (tail2 := repeat 0 (Z.to_nat ((j + 1) * 8 - alen (text ls ++ tail)))). rewrite <- app_assoc. rewrite (rep_c _ _ R).
  assert (Main : forall f l, 0 <= f -> f < l -> l <= alen ls ->
    (let* '(start, count) := label_span (Z.to_nat l) (text ls ++ tail ++ tail2) room f 0 0 (-1) 0 in read_loop (Z.to_nat count) (text ls ++ tail ++ tail2) start) = Ok (some_labels ls f (l - f))).
  { intros f l H1 H2 H3. pose proof (span_skip room (tail ++ tail2) (Z.to_nat f) (Z.to_nat l) ls [] 0 Q2 ltac:(lia) ltac:(unfold alen in *; lia)) as S. change (alen (@nil Z)) with 0 in S. cbn [app] in S.
    rewrite Z2Nat.id in S by lia. rewrite !Z.add_0_l in S. rewrite S by lia. cbn [bind]. replace (Z.to_nat l - Z.to_nat f)%nat with (Z.to_nat (l - f)) by lia. fold (some_labels ls f (l - f)).
    destruct (text_split ls f (l - f)) as [post Ep]; try lia. rewrite Ep at 1. rewrite <- !app_assoc. apply read_mid'; [unfold alen; lia|reflexivity]. }
  destruct entire.
  - rewrite (Main 0 (t_c t)) by lia. eexists. split; [reflexivity|]. split; [|discriminate]. intros _. rewrite Z.sub_0_r. apply some_all. exact Q1.
  - destruct Hq as [[-> ->]|Hq].
    + change (0 - 1 <? 0) with true. change (0 <? 0) with false. cbv iota. cbn [Z.to_nat label_span bind read_loop]. eexists. split; [reflexivity|]. split; [discriminate|]. intros; lia.
    + replace (sc - 1 <? 0) with false by lia. replace (ec <? 0) with false by lia. rewrite (Main (sc - 1) ec) by lia. eexists. split; [reflexivity|]. split; [discriminate|]. intros _ _.
      unfold from, upto. replace (sc =? 0) with false by lia. replace (ec =? 0) with false by lia. reflexivity.
Qed.

Lemma cut_w d (l : list Z) n : 0 <= n -> n * size_of d <= alen l ->
  exists ws, read_loop (Z.to_nat (n * size_of d)) l 0 = Ok ws /\ alen ws = n * size_of d /\ forall k, 0 <= k < n -> num_w d ws k = num_w d l k.
Proof.
  intros Hn H. pose proof (size_pos d). destruct (read_loop_ok (Z.to_nat (n * size_of d)) l 0) as (ws & E & L & G); [lia|lia|]. exists ws. split; [exact E|]. split; [unfold alen; lia|].
  intros k Hk. apply num_w_ext. intros j Hj. rewrite G by nia. reflexivity.
Qed.

Lemma read_ok t r flag n c so eo sc ec : rep t r -> 0 <= flag <= 2 -> range_ok so eo (t_n t) -> range_ok sc ec (t_c t) -> (n = 0 \/ n = t_n t) -> (c = 0 \/ c = t_c t) ->
  exists o, zpdRetrieve flag n c sc ec so eo (Some r) = Ok (Some o) /\ shows widen narrow t flag so eo sc ec o.
Proof.
  intros R Hf Hr Hq En Ec. destruct (rep_small _ _ R) as (Hn & Hc & Hm). unfold PdModel.zpdRetrieve.
  set (entire := negb _). cbv zeta.
  replace (if flag =? 0 then Ok (r_dbl r) else if flag =? 1 then Ok false else if flag =? 2 then Ok true else Undef) with (Ok (wanted flag t)).
  2:{ unfold wanted. rewrite (rep_d _ _ R). destruct (flag =? 0) eqn:F0; [reflexivity|]. destruct (flag =? 1) eqn:F1; [replace flag with 1 by lia; reflexivity|]. replace flag with 2 by lia. reflexivity. }
  cbn [bind]. rewrite (rep_n _ _ R), (rep_c _ _ R), (rep_d _ _ R). assert (P : 1 <= t_n t * t_c t) by nia. rewrite chk32_ok by (unfold in32, INT_MIN, INT_MAX; nia). cbn [bind].
  destruct (labels_read t r entire sc ec R Hq) as (L & EL & HL). rewrite EL. cbn [bind].
  destruct (range_bounds so eo _ Hn Hr) as (B1 & B2 & B3). destruct (range_bounds sc ec _ Hc Hq) as (C1 & C2 & C3). set (d := t_dbl t) in *. set (w := wanted flag t).
  destruct entire eqn:E.
  - assert (W : from so = 0 /\ from sc = 0 /\ upto eo (t_n t) = t_n t /\ upto ec (t_c t) = t_c t).
    { unfold entire in E. unfold from, upto, range_ok in *. clear -E Hr Hq En Ec. destruct (so =? 0) eqn:?, (sc =? 0) eqn:?, (eo =? 0) eqn:?, (ec =? 0) eqn:?; repeat split; lia. }
    destruct W as (W1 & W2 & W3 & W4).
    destruct (cut_w d (r_ords r) (t_n t)) as (w1 & E1 & L1 & G1); [lia|exact (rep_lo _ _ R)|]. rewrite E1. cbn [bind].
    destruct (cut_w d (r_vals r) (t_n t * t_c t)) as (w2 & E2 & L2 & G2); [lia|rewrite (Z.mul_comm (t_n t)); exact (rep_lv _ _ R)|]. rewrite E2. cbn [bind].
    eexists. split; [reflexivity|]. unfold shows. cbn [o_dbl o_n o_c o_rows o_curves o_ords o_vals o_labels]. rewrite W1, W2, W3, W4, !Z.sub_0_r. fold w.
    destruct (array_of_spec widen narrow d w w1 (t_n t)) as [A1 A2]; [lia|exact L1|]. destruct (array_of_spec widen narrow d w w2 (t_n t * t_c t)) as [A3 A4]; [lia|exact L2|].
    repeat (split; [first [reflexivity | assumption]|]). split; [|split].
    + intros k Hk. apply A2; [exact Hk|]. rewrite G1 by exact Hk. rewrite Z.add_0_l. apply (rep_ord _ _ R). exact Hk.
    + intros k q Hk Hq'. assert (0 <= q * t_n t + k < t_n t * t_c t) by nia. apply A4; [assumption|]. rewrite G2 by assumption. rewrite !Z.add_0_l. apply (rep_val _ _ R); assumption.
    + destruct (t_labs t) as [ls|] eqn:El; [|exact HL]. intros _. destruct HL as [HL _]. rewrite HL by reflexivity. symmetry. apply some_all. pose proof (rep_lab _ _ R) as Q. unfold lab_rep in Q. rewrite El in Q. tauto.
  - rewrite (limits_ok so eo), (limits_ok sc ec) by assumption. set (rows := upto eo (t_n t) - from so) in *. set (curves := upto ec (t_c t) - from sc) in *. replace (rows <? 1) with false by lia.
    replace (if d then (from so, 0) else (Z.quot (from so) 2, if Z.odd (from so) then 1 else 0)) with (if d then from so else Z.quot (from so) 2, if d then 0 else if Z.odd (from so) then 1 else 0) by (destruct d; reflexivity).
    pose proof (size_pos d) as Sp.
    destruct (get_place d (r_ords r) (from so) rows) as (w1 & E1 & L1 & G1); [lia|lia|pose proof (rep_lo _ _ R); unfold d, rows in *; nia|]. rewrite E1. cbn [bind].
    destruct (get_curves_spec d (t_n t) (t_c t) (from so) rows (r_vals r) ltac:(lia) ltac:(lia) ltac:(lia) ltac:(lia) ltac:(lia) (rep_lv _ _ R) (Z.to_nat curves) (from sc)) as (w2 & E2 & L2 & G2); [lia|lia|]. rewrite E2. cbn [bind].
    rewrite Z2Nat.id in L2, G2 by lia. assert (PR : 0 < rows * curves) by (apply Z.mul_pos_pos; lia).
    eexists. split; [reflexivity|]. unfold shows. cbn [o_dbl o_n o_c o_rows o_curves o_ords o_vals o_labels]. fold rows curves w.
    destruct (array_of_spec widen narrow d w _ rows ltac:(lia) L1) as [A1 A2]. destruct (array_of_spec widen narrow d w w2 (rows * curves)) as [A3 A4]; [lia|exact L2|].
    repeat (split; [first [reflexivity | assumption]|]). split; [|split].
    + intros k Hk. apply A2; [exact Hk|]. rewrite G1 by exact Hk. apply (rep_ord _ _ R). lia.
    + intros k q Hk Hq'. assert (0 <= q * rows + k < rows * curves) by nia. apply A4; [assumption|]. rewrite G2 by assumption. apply (rep_val _ _ R); lia.
    + destruct (t_labs t) as [ls|] eqn:El; [|exact HL]. intros [H|[-> ->]].
      * destruct HL as [_ HL]. apply HL; auto.
      * exfalso. assert (eo = 0) by (destruct Hr as [[_ ?]|?]; lia). assert (ec = 0) by (destruct Hq as [[_ ?]|?]; lia). subst eo ec. clear -E. unfold entire in E. cbn in E. discriminate.
Qed.
End S.
