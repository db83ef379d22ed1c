(** * C59: the first and the last time of a block that holds anything. *)
From Coq Require Import ZArith List Lia Bool ZifyBool.
From Verif Require Import Base ArrayLib TrimModel TrimProofs ValidModel ValidSpec.
Import ListNotations.
Open Scope Z_scope.
Open Scope res_scope.

(** ** The character notes *)
Lemma notes_text_app a b : notes_text (a ++ b) = notes_text a ++ notes_text b.
Proof. unfold notes_text. rewrite map_app. apply concat_app. Qed.
Lemma notes_text_nils m : notes_text (repeat [] m) = repeat 0 m.
Proof. induction m as [|m IH]; [reflexivity|]. unfold notes_text in *. cbn [repeat map concat app]. rewrite IH. reflexivity. Qed.
Lemma notes_text_length l : (length l <= length (notes_text l))%nat.
Proof. induction l as [|x l IH]; [cbn; lia|]. unfold notes_text in *. cbn [map concat length]. rewrite !app_length. cbn [length]. lia. Qed.
Lemma nils (l : list (list Z)) : (forall j, nth j l [] = []) -> l = repeat [] (length l).
Proof.
  induction l as [|x l IH]; intros H; [reflexivity|]. cbn [length repeat]. f_equal; [exact (H 0%nat)|]. apply IH. intros j. exact (H (S j)).
Qed.
Lemma nils_from (l : list (list Z)) k : (k <= length l)%nat -> (forall j, (k <= j < length l)%nat -> nth j l [] = []) -> l = firstn k l ++ repeat [] (length l - k).
Proof.
  intros HK H. rewrite <- (firstn_skipn k l) at 1. f_equal. rewrite <- skipn_length. apply nils. intros j.
  destruct (Nat.lt_ge_cases j (length (skipn k l))) as [L|L]; [|apply nth_overflow; exact L].
  transitivity (nth (k + j) (firstn k l ++ skipn k l) []).
  - rewrite app_nth2; rewrite firstn_length, Nat.min_l by lia; [|lia]. f_equal. lia.
  - rewrite firstn_skipn. apply H. rewrite skipn_length in L. lia.
Qed.
Lemma first_char : forall lines i, (forall j, (j < i)%nat -> nth j lines [] = []) ->
  ((i < length (notes_text lines))%nat -> nth i (notes_text lines) 0 = hd 0 (nth i lines [])) /\
  ((length (notes_text lines) <= i)%nat -> nth i lines [] = []).
Proof.
  induction lines as [|x lines IH]; intros i H.
  - split; [destruct i; intros; cbn in *; lia|destruct i; reflexivity].
  - change (notes_text (x :: lines)) with ((x ++ [0]) ++ notes_text lines). destruct i as [|i].
    + split; [|rewrite !app_length; cbn [length]; lia]. intros _. destruct x; reflexivity.
    + pose proof (H 0%nat ltac:(lia)) as E. cbn [nth] in E. subst x. cbn [app length nth].
      destruct (IH i) as [H1 H2]; [intros j J; exact (H (S j) ltac:(lia))|]. split; intros L; [apply H1|apply H2]; lia.
Qed.
Lemma hd_nonzero x : ~ In 0 x -> (hd 0 x <> 0 <-> x <> []).
Proof. destruct x as [|a x]; [cbn; tauto|]. cbn [hd In]. intros H. split; [discriminate|]. intros _ E. apply H. auto. Qed.

Lemma tail_zero lines i n : length lines = n -> (i <= n)%nat -> (forall j, (i <= j < n)%nat -> nth j lines [] = []) ->
  nth (length (notes_text lines) - (n - i)) (notes_text lines) 0 = 0.
Proof.
  intros L LI H. rewrite (nils_from lines i ltac:(lia) ltac:(rewrite L; exact H)) at 1 2. rewrite notes_text_app, notes_text_nils, app_length, repeat_length, L.
  rewrite app_nth2 by lia. apply nth_repeat_lt || (destruct (Nat.lt_ge_cases (length (notes_text (firstn i lines)) + (n - i) - (n - i) - length (notes_text (firstn i lines))) (n - i));
    [apply nth_repeat|apply nth_overflow; rewrite repeat_length; assumption]).
Qed.
Lemma tail_note lines k n : length lines = n -> (k < n)%nat -> nth k lines [] <> [] -> ~ In 0 (nth k lines []) -> (forall j, (k < j < n)%nat -> nth j lines [] = []) ->
  (n - k + 1 + k <= length (notes_text lines))%nat /\
  nth (length (notes_text lines) - (n - k + 1)) (notes_text lines) 0 <> 0.
Proof.
  intros L LK HN NI H. pose proof (nils_from lines (S k) ltac:(lia) ltac:(rewrite L; intros j J; apply H; lia)) as E.
  assert (E2 : firstn (S k) lines = firstn k lines ++ [nth k lines []]).
  { clear - LK L. revert k n LK L. induction lines as [|x lines IH]; intros k n LK L; [cbn in L; lia|]. destruct k as [|k]; [reflexivity|]. cbn [firstn nth app]. f_equal. apply (IH k (length lines)); cbn in L; lia. }
  rewrite E2 in E. remember (nth k lines []) as x. remember (firstn k lines) as p.
  assert (LP : length p = k) by (subst p; rewrite firstn_length; lia).
  pose proof (notes_text_length p) as HP. destruct (exists_last HN) as (x' & a & EX).
  assert (ET : notes_text lines = notes_text p ++ x' ++ a :: 0 :: repeat 0 (n - S k)).
  { rewrite E, !notes_text_app, notes_text_nils. change (notes_text [x]) with ((x ++ [0]) ++ []). rewrite app_nil_r, EX, <- L. repeat (rewrite <- app_assoc; cbn [app]). reflexivity. }
  rewrite ET, !app_length. cbn [length]. rewrite repeat_length. split; [lia|].
  replace (length (notes_text p) + (length x' + S (S (n - S k))) - (n - k + 1))%nat with (length (notes_text p) + length x')%nat by lia.
  rewrite app_nth2 by lia. replace (length (notes_text p) + length x' - length (notes_text p))%nat with (length x') by lia.
  rewrite app_nth2 by lia. rewrite Nat.sub_diag. cbn [nth]. intros ->. apply NI. rewrite EX. apply in_or_app. right. left. reflexivity.
Qed.

(** ** One entry *)
Section B.
Variable miss : Z -> bool.
Variable b : blk.
Variable lines : list (list Z).
Hypothesis OK_ : block_ok b lines.

Lemma value_spec i : 0 <= i < b_num b -> exists v, row_valid miss (b_vals b) (b_depth b) i = Ok v /\ (v = true <-> has_value miss b i).
Proof.
  destruct OK_ as (N0 & D0 & _ & _ & LV & _ & _ & LM & _). intros Hi. unfold row_valid, has_value. unfold width in *. destruct (b_depth b =? 0) eqn:E.
  - rewrite aget_nth by (unfold alen; lia). cbn [bind]. eexists. split; [reflexivity|]. split.
    + intros H. exists 0. split; [lia|]. replace (i * 1 + 0) with i by lia. destruct (miss _); [discriminate|reflexivity].
    + intros (j & J & M). replace (i * 1 + j) with i in M by lia. rewrite M. reflexivity.
  - assert (0 <= i * b_depth b /\ i * b_depth b + b_depth b <= b_num b * b_depth b) by (clear - Hi D0 E; nia). rewrite chk_ok by (unfold INT_MAX; lia). cbn [bind].
    destruct (row_has_spec miss (b_vals b) (Z.to_nat (b_depth b)) (i * b_depth b)) as (v & Ev & Hv); [lia|unfold alen; lia|]. exists v. split; [exact Ev|].
    rewrite Hv. rewrite Z2Nat.id by lia. reflexivity.
Qed.
Lemma marks_spec l sz i : 0 <= i < b_num b -> 0 <= sz -> b_num b * sz <= Z.of_nat (length l) -> b_num b * sz < 2 ^ 31 ->
  exists v, marks sz l i = Ok v /\ (v = true <-> has_mark l sz i).
Proof.
  intros Hi S0 LL LM. unfold marks, has_mark. destruct (0 <? sz) eqn:E.
  - assert (0 <= i * sz /\ i * sz + sz <= b_num b * sz) by (clear - Hi E; nia). rewrite chk_ok by (unfold INT_MAX; lia). cbn [bind].
    destruct (row_has_spec (fun v => v =? 0) l (Z.to_nat sz) (i * sz)) as (v & Ev & Hv); [lia|unfold alen; lia|]. exists v. split; [exact Ev|].
    rewrite Hv, Z2Nat.id by lia. split; intros (j & J & M); exists j; (split; [exact J|lia]).
  - exists false. split; [reflexivity|]. split; [discriminate|]. intros (j & J & _). lia.
Qed.
Lemma data_spec i : 0 <= i < b_num b -> exists v q n, row_valid miss (b_vals b) (b_depth b) i = Ok v /\ marks (b_qsize b) (b_qual b) i = Ok q /\
  marks (b_nsize b) (b_notes b) i = Ok n /\ (v || q || n = true <-> has_data miss b i).
Proof.
  intros Hi. destruct (value_spec i Hi) as (v & Ev & Hv). destruct OK_ as (_ & _ & Q0 & N0 & _ & LQ & LN & _ & MQ & MN & _).
  destruct (marks_spec (b_qual b) (b_qsize b) i Hi Q0 LQ MQ) as (q & Eq & Hq). destruct (marks_spec (b_notes b) (b_nsize b) i Hi N0 LN MN) as (n & En & Hn).
  exists v, q, n. repeat (split; [assumption|]). rewrite !orb_true_iff, Hv, Hq, Hn. unfold has_data. tauto.
Qed.
Lemma note_first_spec i : 0 <= i < b_num b -> (forall j, 0 <= j < i -> ~ has_note lines j) -> exists c, note_first b i = Ok c /\ (c = true <-> has_note lines i).
Proof.
  destruct OK_ as (_ & _ & _ & _ & _ & _ & _ & _ & _ & _ & EC & EL & _ & FN). intros Hi HB. unfold note_first, has_note.
  destruct (first_char lines (Z.to_nat i)) as [H1 H2].
  { intros j J. specialize (HB (Z.of_nat j) ltac:(lia)). unfold has_note in HB. rewrite Nat2Z.id in HB. destruct (nth j lines []); [reflexivity|exfalso; apply HB; discriminate]. }
  rewrite EL, EC. destruct ((0 <? Z.of_nat (length (notes_text lines))) && (i <? Z.of_nat (length (notes_text lines)))) eqn:E.
  - rewrite aget_nth by (unfold alen; lia). cbn [bind]. eexists. split; [reflexivity|]. rewrite H1 by lia.
    rewrite <- hd_nonzero; [split; [intros H Q; rewrite Q in H; discriminate|intros H; destruct (hd 0 _ =? 0) eqn:Q; [exfalso; apply H; lia|reflexivity]]|].
    destruct (Nat.lt_ge_cases (Z.to_nat i) (length lines)); [|rewrite nth_overflow by assumption; intros []]. rewrite Forall_forall in FN. apply FN, nth_In. assumption.
  - exists false. split; [reflexivity|]. split; [discriminate|]. intros H. exfalso. apply H, H2. lia.
Qed.
Lemma first_scan_spec : forall cnt i, 0 <= i -> i + Z.of_nat cnt = b_num b -> (forall j, 0 <= j < i -> ~ something miss b lines j) ->
  exists f, first_scan miss b cnt i = Ok f /\
    ((f = -1 /\ forall j, 0 <= j < b_num b -> ~ something miss b lines j) \/
     (0 <= f < b_num b /\ something miss b lines f /\ forall j, 0 <= j < f -> ~ something miss b lines j)).
Proof.
  induction cnt as [|cnt IH]; intros i I0 EN HB.
  - exists (-1). split; [reflexivity|]. left. split; [reflexivity|]. intros j J. apply HB. lia.
  - cbn [first_scan]. destruct (data_spec i ltac:(lia)) as (v & q & n & -> & -> & -> & HD). cbn [bind].
    destruct (note_first_spec i ltac:(lia)) as (c & Ec & Hc); [intros j J Q; apply (HB j J); right; exact Q|]. rewrite Ec. cbn [bind].
    destruct v.
    { exists i. split; [reflexivity|]. right. split; [lia|]. split; [left; apply HD; reflexivity|exact HB]. }
    cbn [orb] in HD. destruct (q || n || c) eqn:E.
    { exists i. split; [reflexivity|]. right. split; [lia|]. split; [|exact HB]. apply orb_true_iff in E. destruct E as [E|E]; [left; apply HD, E|right; apply Hc, E]. }
    apply IH; [lia|lia|]. intros j J. destruct (Z.eq_dec j i) as [->|NE]; [|apply HB; lia].
    apply orb_false_iff in E. destruct E as [E1 E2]. intros [Q|Q]; [apply HD in Q; congruence|apply Hc in Q; congruence].
Qed.

(** what the search from the end sees of the notes *)
Lemma note_last_ok i : 0 <= i < b_num b -> exists c, note_last b i = Ok c.
Proof.
  destruct OK_ as (_ & _ & _ & _ & _ & _ & _ & _ & _ & _ & _ & EL & _). intros Hi. unfold note_last.
  destruct ((0 <? b_clen b) && _) eqn:E; [|eauto]. rewrite aget_nth by (unfold alen; lia). cbn [bind]. eauto.
Qed.
Lemma note_last_none i : 0 <= i < b_num b -> (forall j, i <= j < b_num b -> ~ has_note lines j) -> note_last b i = Ok false.
Proof.
  destruct OK_ as (_ & _ & _ & _ & _ & _ & _ & _ & _ & _ & EC & EL & LL & _). intros Hi HB. unfold note_last. rewrite EL, EC. destruct LL as [->|LL]; [reflexivity|].
  destruct ((0 <? _) && _) eqn:E; [|reflexivity]. rewrite aget_nth by (unfold alen; lia). cbn [bind].
  replace (Z.to_nat (Z.of_nat (length (notes_text lines)) - (b_num b - i))) with (length (notes_text lines) - (length lines - Z.to_nat i))%nat by lia.
  rewrite tail_zero; [reflexivity|reflexivity|lia|]. intros j J. specialize (HB (Z.of_nat j) ltac:(lia)). unfold has_note in HB. rewrite Nat2Z.id in HB.
  destruct (nth j lines []); [reflexivity|exfalso; apply HB; discriminate].
Qed.
Lemma note_last_next i : 0 <= i -> i + 1 < b_num b -> has_note lines (i + 1) -> (forall j, i + 1 < j < b_num b -> ~ has_note lines j) -> note_last b i = Ok true.
Proof.
  destruct OK_ as (_ & _ & _ & _ & _ & _ & _ & _ & _ & _ & EC & EL & LL & FN). intros I0 I1 HN HB. unfold note_last. rewrite EL, EC. unfold has_note in HN.
  destruct LL as [->|LL]; [exfalso; apply HN; destruct (Z.to_nat (i + 1)); reflexivity|].
  destruct (tail_note lines (Z.to_nat (i + 1)) (length lines)) as [T1 T2]; [reflexivity|lia|exact HN| | |].
  - rewrite Forall_forall in FN. apply FN, nth_In. lia.
  - intros j J. specialize (HB (Z.of_nat j) ltac:(lia)). unfold has_note in HB. rewrite Nat2Z.id in HB. destruct (nth j lines []); [reflexivity|exfalso; apply HB; discriminate].
  - destruct ((0 <? _) && _) eqn:E; [|exfalso; lia]. rewrite aget_nth by (unfold alen; lia). cbn [bind].
    replace (Z.to_nat (Z.of_nat (length (notes_text lines)) - (b_num b - i))) with (length (notes_text lines) - (length lines - Z.to_nat (i + 1) + 1))%nat by lia.
    f_equal. destruct (_ =? 0) eqn:Q; [exfalso; apply T2; lia|reflexivity].
Qed.

Lemma note_last_end : 0 < b_num b -> note_last b (b_num b - 1) = Ok false.
Proof.
  destruct OK_ as (_ & _ & _ & _ & _ & _ & _ & _ & _ & _ & EC & EL & LL & _). intros N0. unfold note_last. rewrite EL, EC. destruct LL as [->|LL]; [reflexivity|].
  destruct ((0 <? _) && _) eqn:E; [|reflexivity]. rewrite aget_nth by (unfold alen; lia). cbn [bind]. f_equal.
  destruct (exists_last (l := lines)) as (p & x & ->); [destruct lines; [cbn in LL; lia|discriminate]|].
  rewrite notes_text_app. change (notes_text [x]) with ((x ++ [0]) ++ []). rewrite app_nil_r, app_assoc, app_length. cbn [length].
  replace (Z.to_nat _) with (length (notes_text p ++ x)) by lia. rewrite app_nth2, Nat.sub_diag by lia. reflexivity.
Qed.
(** the search from the end always ends, and passes no time that holds data *)
Lemma last_scan_covers dbl : forall cnt, Z.of_nat cnt <= b_num b -> (forall j, Z.of_nat cnt <= j < b_num b -> ~ has_data miss b j) ->
  exists l, last_scan miss dbl b cnt = Ok l /\ -1 <= l /\ (0 < b_num b -> l < b_num b) /\ forall j, 0 <= j -> l < j < b_num b -> ~ has_data miss b j.
Proof.
  induction cnt as [|cnt IH]; intros HC HB.
  - exists (-1). split; [reflexivity|]. split; [lia|]. split; [lia|]. intros j J0 J. apply HB. lia.
  - cbn [last_scan]. destruct (data_spec (Z.of_nat cnt) ltac:(lia)) as (v & q & n & -> & -> & -> & HD). cbn [bind].
    destruct (note_last_ok (Z.of_nat cnt) ltac:(lia)) as (c & Ec). rewrite Ec. cbn [bind].
    assert (CN : c = true -> Z.of_nat cnt + 1 < b_num b).
    { intros ->. destruct (Z.eq_dec (Z.of_nat cnt) (b_num b - 1)) as [Q|Q]; [|lia]. rewrite Q, note_last_end in Ec by lia. discriminate. }
    assert (K : forall l, Z.of_nat cnt <= l -> forall j, 0 <= j -> l < j < b_num b -> ~ has_data miss b j) by (intros l Hl j J0 J; apply HB; lia).
    destruct v; [exists (Z.of_nat cnt); split; [reflexivity|]; split; [lia|split; [lia|apply K; lia]]|].
    destruct (q || n) eqn:E; [exists (Z.of_nat cnt); split; [reflexivity|]; split; [lia|split; [lia|apply K; lia]]|].
    destruct c; [specialize (CN eq_refl); destruct dbl; eexists; (split; [reflexivity|]); (split; [lia|split; [lia|apply K; lia]])|]. clear CN.
    apply IH; [lia|]. intros j J. destruct (Z.eq_dec j (Z.of_nat cnt)) as [->|NE]; [|apply HB; lia]. intros Q. apply HD in Q. cbn [orb] in Q. congruence.
Qed.
(** from [cnt] on nothing is there: the search is at the last time that holds something *)
Lemma last_scan_skip dbl k : (forall j, k <= j < b_num b -> ~ something miss b lines j) -> 0 <= k -> forall cnt, k <= Z.of_nat cnt <= b_num b ->
  last_scan miss dbl b cnt = last_scan miss dbl b (Z.to_nat k).
Proof.
  intros HB K0. induction cnt as [|cnt IH]; intros HC; [assert (k = 0) by lia; subst; reflexivity|].
  destruct (Z.eq_dec k (Z.of_nat (S cnt))) as [->|NE]; [rewrite Nat2Z.id; reflexivity|].
  cbn [last_scan]. destruct (data_spec (Z.of_nat cnt) ltac:(lia)) as (v & q & n & -> & -> & -> & HD). cbn [bind].
  rewrite note_last_none; [|lia|intros j J Q; apply (HB j); [lia|right; exact Q]]. cbn [bind].
  destruct v; [exfalso; apply (HB (Z.of_nat cnt)); [lia|left; apply HD; reflexivity]|].
  destruct (q || n) eqn:E; [exfalso; apply (HB (Z.of_nat cnt)); [lia|left; apply HD; cbn [orb]; exact E]|]. apply IH. lia.
Qed.
Lemma last_scan_data dbl k : 0 <= k < b_num b -> has_data miss b k -> last_scan miss dbl b (Z.to_nat (k + 1)) = Ok k.
Proof.
  intros HK HD0. replace (Z.to_nat (k + 1)) with (S (Z.to_nat k)) by lia. cbn [last_scan]. rewrite Z2Nat.id by lia.
  destruct (data_spec k ltac:(lia)) as (v & q & n & -> & -> & -> & HD). cbn [bind].
  destruct (note_last_ok k ltac:(lia)) as (c & ->). cbn [bind]. apply HD in HD0. destruct v; [reflexivity|]. cbn [orb] in HD0. rewrite HD0. reflexivity.
Qed.
Lemma data_dec i : 0 <= i < b_num b -> has_data miss b i \/ ~ has_data miss b i.
Proof.
  intros Hi. destruct (data_spec i Hi) as (v & q & n & _ & _ & _ & HD). destruct (v || q || n); [left; apply HD; reflexivity|right; intros Q; apply HD in Q; discriminate].
Qed.
(** a time that holds only a text: the search goes on to the time before it *)
Lemma last_scan_note dbl k : 0 <= k < b_num b -> ~ has_data miss b k -> has_note lines k -> (forall j, k < j < b_num b -> ~ has_note lines j) ->

  last_scan miss dbl b (Z.to_nat (k + 1)) = last_scan miss dbl b (Z.to_nat k).
Proof.
  intros HK ND HN HB. replace (Z.to_nat (k + 1)) with (S (Z.to_nat k)) by lia. cbn [last_scan]. rewrite Z2Nat.id by lia.
  destruct (data_spec k ltac:(lia)) as (v & q & n & -> & -> & -> & HD). cbn [bind].
  assert (EN : note_last b k = Ok false).
  { destruct OK_ as (_ & _ & _ & _ & _ & _ & _ & _ & _ & _ & EC & EL & LL & FN). unfold note_last. rewrite EL, EC. unfold has_note in HN.
    destruct LL as [->|LL]; [exfalso; apply HN; destruct (Z.to_nat k); reflexivity|].
    destruct ((0 <? _) && _) eqn:E; [|reflexivity]. rewrite aget_nth by (unfold alen; lia). cbn [bind]. f_equal.
    replace (Z.to_nat (Z.of_nat (length (notes_text lines)) - (b_num b - k))) with (length (notes_text lines) - (length lines - Z.to_nat k))%nat by lia.
    pose proof (nils_from lines (S (Z.to_nat k)) ltac:(lia)) as NF.
    assert (NF1 : lines = firstn (S (Z.to_nat k)) lines ++ repeat [] (length lines - S (Z.to_nat k))).
    { apply NF. intros j J. specialize (HB (Z.of_nat j) ltac:(lia)). unfold has_note in HB. rewrite Nat2Z.id in HB. destruct (nth j lines []); [reflexivity|exfalso; apply HB; discriminate]. }
    assert (E2 : exists p x, firstn (S (Z.to_nat k)) lines = p ++ [x]).
    { destruct (firstn (S (Z.to_nat k)) lines) as [|y l] eqn:EF; [exfalso; assert (L0 : length (firstn (S (Z.to_nat k)) lines) = 0%nat) by (rewrite EF; reflexivity); rewrite firstn_length in L0; lia|].
      destruct (exists_last (l := y :: l)) as (p & x & ->); [discriminate|]. eauto. }
    destruct E2 as (p & x & E2). rewrite E2 in NF1. 
    assert (ET : notes_text lines = (notes_text p ++ x) ++ 0 :: repeat 0 (length lines - S (Z.to_nat k))).
    { rewrite NF1 at 1. rewrite !notes_text_app, notes_text_nils. change (notes_text [x]) with ((x ++ [0]) ++ []). rewrite app_nil_r. repeat (rewrite <- app_assoc; cbn [app]). reflexivity. }
    rewrite ET, app_length. cbn [length]. rewrite repeat_length.
    replace (length (notes_text p ++ x) + S (length lines - S (Z.to_nat k)) - (length lines - Z.to_nat k))%nat with (length (notes_text p ++ x)) by lia.
    rewrite app_nth2, Nat.sub_diag by lia. reflexivity. }
  rewrite EN. cbn [bind]. destruct v; [exfalso; apply ND, HD; reflexivity|]. destruct (q || n) eqn:E; [exfalso; apply ND, HD; cbn [orb]; exact E|reflexivity].
Qed.
Lemma last_scan_before dbl k : 1 <= k < b_num b -> has_note lines k -> (forall j, k < j < b_num b -> ~ has_note lines j) ->
  (has_data miss b (k - 1) -> last_scan miss dbl b (Z.to_nat k) = Ok (k - 1)) /\
  (~ has_data miss b (k - 1) -> last_scan miss dbl b (Z.to_nat k) = Ok (if dbl then k else k - 1)).
Proof.
  intros HK HN HB. split; intros HD0.
  - replace (Z.to_nat k) with (Z.to_nat ((k - 1) + 1)) by lia. apply last_scan_data; [lia|exact HD0].
  - replace (Z.to_nat k) with (S (Z.to_nat (k - 1))) by lia. cbn [last_scan]. rewrite Z2Nat.id by lia.
    destruct (data_spec (k - 1) ltac:(lia)) as (v & q & n & -> & -> & -> & HD). cbn [bind].
    rewrite note_last_next; [|lia|lia|replace (k - 1 + 1) with k by lia; exact HN|intros j J; apply HB; lia]. cbn [bind].
    destruct v; [exfalso; apply HD0, HD; reflexivity|]. destruct (q || n) eqn:E; [exfalso; apply HD0, HD; cbn [orb]; exact E|].
    destruct dbl; [|reflexivity]. f_equal. lia.
Qed.
End B.

(** ** C59.  The first time: exactly the first that holds a value, a quality, a number note or a text; the answer is
    "all missing" exactly when there is none.  The times after the last time given hold no value, quality or number note. *)
Theorem C59_first_partial miss element b lines : block_ok b lines -> element = 1 \/ element = 2 ->
  exists r f l, ztsFirstLastValidValues miss element b = Ok (r, f, l) /\
    (r = 1 <-> forall i, 0 <= i < b_num b -> ~ something miss b lines i) /\
    (r <> 1 -> r = 0 /\ 0 <= f < b_num b /\ something miss b lines f /\ (forall i, 0 <= i < f -> ~ something miss b lines i) /\
               -1 <= l < b_num b /\ forall i, 0 <= i -> l < i < b_num b -> ~ has_data miss b i).
Proof.
  intros OB HE. assert (N0 : 0 <= b_num b) by apply OB.
  assert (G : forall dbl, exists r f l, first_last miss dbl b = Ok (r, f, l) /\
    (r = 1 <-> forall i, 0 <= i < b_num b -> ~ something miss b lines i) /\
    (r <> 1 -> r = 0 /\ 0 <= f < b_num b /\ something miss b lines f /\ (forall i, 0 <= i < f -> ~ something miss b lines i) /\
               -1 <= l < b_num b /\ forall i, 0 <= i -> l < i < b_num b -> ~ has_data miss b i)).
  { intros dbl. unfold first_last.
    destruct (first_scan_spec miss b lines OB (Z.to_nat (b_num b)) 0) as (f & -> & HF); [lia|lia|intros j J; lia|]. cbn [bind].
    destruct HF as [(-> & HA)|(F0 & HS & HB)].
    - exists 1, 0, 0. split; [reflexivity|]. split; [tauto|]. intros Q. congruence.
    - destruct (f =? -1) eqn:E; [lia|].
      destruct (last_scan_covers miss b lines OB dbl (Z.to_nat (b_num b))) as (l & -> & HL & HL2 & HC); [lia|intros j J; lia|]. cbn [bind].
      exists 0, f, l. split; [reflexivity|]. split; [split; [discriminate|intros Q; exfalso; exact (Q f F0 HS)]|]. intros _. split; [reflexivity|]. split; [exact F0|]. split; [exact HS|]. split; [exact HB|]. split; [lia|exact HC]. }
  unfold ztsFirstLastValidValues. destruct HE as [->| ->]; apply G.
Qed.
Print Assumptions C59_first_partial.

Lemma at_last miss dbl b lines k : block_ok b lines -> 0 <= k < b_num b -> something miss b lines k -> (forall i, k < i < b_num b -> ~ something miss b lines i) ->
  exists f l, first_last miss dbl b = Ok (0, f, l) /\ last_scan miss dbl b (Z.to_nat (k + 1)) = Ok l.
Proof.
  intros OB HK HS HB. unfold first_last.
  destruct (first_scan_spec miss b lines OB (Z.to_nat (b_num b)) 0) as (f & -> & HF); [lia|lia|intros j J; lia|]. cbn [bind].
  destruct HF as [(-> & HA)|(F0 & _)]; [exfalso; exact (HA k HK HS)|]. destruct (f =? -1) eqn:E; [lia|].
  destruct (last_scan_covers miss b lines OB dbl (Z.to_nat (b_num b))) as (l & EL & _); [lia|intros j J; lia|]. rewrite EL. cbn [bind].
  exists f, l. split; [reflexivity|]. rewrite <- EL. symmetry. apply (last_scan_skip miss b lines OB); [intros j J; apply HB; lia|lia|lia].
Qed.

(** The last time: exactly the last that holds anything, if it holds a value, a quality or a number note. *)
Theorem C59_last_partial miss element b lines k : block_ok b lines -> element = 1 \/ element = 2 ->
  0 <= k < b_num b -> has_data miss b k -> (forall i, k < i < b_num b -> ~ something miss b lines i) ->
  exists f, ztsFirstLastValidValues miss element b = Ok (0, f, k).
Proof.
  intros OB HE HK HD HB. assert (G : forall dbl, exists f, first_last miss dbl b = Ok (0, f, k)).
  { intros dbl. destruct (at_last miss dbl b lines k OB HK (or_introl HD) HB) as (f & l & E1 & E2). exists f.
    rewrite (last_scan_data miss b lines OB dbl k HK HD) in E2. inversion E2; subst l. exact E1. }
  unfold ztsFirstLastValidValues. destruct HE as [->| ->]; apply G.
Qed.
Print Assumptions C59_last_partial.
(** For doubles also if it holds only a text, unless it is the very first time or the time before it holds data. *)
Theorem C59_last_note_partial miss b lines k : block_ok b lines -> 1 <= k < b_num b -> has_note lines k -> ~ has_data miss b (k - 1) ->
  (forall i, k < i < b_num b -> ~ something miss b lines i) ->
  exists f, ztsFirstLastValidValues miss 2 b = Ok (0, f, k).
Proof.
  intros OB HK HN HD HB. unfold ztsFirstLastValidValues. cbn [Z.eqb Pos.eqb].
  destruct (at_last miss true b lines k OB ltac:(lia) (or_intror HN) HB) as (f & l & E1 & E2). exists f.
  assert (HBN : forall j, k < j < b_num b -> ~ has_note lines j) by (intros j J Q; apply (HB j J); right; exact Q).
  destruct (data_dec miss b lines OB k ltac:(lia)) as [HDk|HDk].
  - rewrite (last_scan_data miss b lines OB true k ltac:(lia) HDk) in E2. inversion E2; subst l. exact E1.
  - rewrite (last_scan_note miss b lines OB true k ltac:(lia) HDk HN HBN) in E2.
    rewrite (proj2 (last_scan_before miss b lines OB true k HK HN HBN) HD) in E2. inversion E2; subst l. exact E1.
Qed.
Print Assumptions C59_last_note_partial.

(** ** False in full: if the last time that holds anything holds only a text, the search for floats is always one time
    short, and the one for doubles if the time before it holds data. *)
Theorem C59_refuted_float_note : forall miss b lines k, block_ok b lines -> 1 <= k < b_num b -> has_note lines k -> ~ has_data miss b k ->
  (forall i, k < i < b_num b -> ~ something miss b lines i) -> exists f, ztsFirstLastValidValues miss 1 b = Ok (0, f, k - 1).
Proof.
  intros miss b lines k OB HK HN HDk HB. unfold ztsFirstLastValidValues. cbn [Z.eqb Pos.eqb].
  destruct (at_last miss false b lines k OB ltac:(lia) (or_intror HN) HB) as (f & l & E1 & E2). exists f.
  assert (HBN : forall j, k < j < b_num b -> ~ has_note lines j) by (intros j J Q; apply (HB j J); right; exact Q).
  rewrite (last_scan_note miss b lines OB false k ltac:(lia) HDk HN HBN) in E2.
  destruct (data_dec miss b lines OB (k - 1) ltac:(lia)) as [HD|HD];
    [rewrite (proj1 (last_scan_before miss b lines OB false k HK HN HBN) HD) in E2|rewrite (proj2 (last_scan_before miss b lines OB false k HK HN HBN) HD) in E2];
    inversion E2; subst l; exact E1.
Qed.
Print Assumptions C59_refuted_float_note.
Theorem C59_refuted_double_note : forall miss b lines k, block_ok b lines -> 1 <= k < b_num b -> has_note lines k -> ~ has_data miss b k -> has_data miss b (k - 1) ->
  (forall i, k < i < b_num b -> ~ something miss b lines i) -> exists f, ztsFirstLastValidValues miss 2 b = Ok (0, f, k - 1).
Proof.
  intros miss b lines k OB HK HN HDk HD HB. unfold ztsFirstLastValidValues. cbn [Z.eqb Pos.eqb].
  destruct (at_last miss true b lines k OB ltac:(lia) (or_intror HN) HB) as (f & l & E1 & E2). exists f.
  assert (HBN : forall j, k < j < b_num b -> ~ has_note lines j) by (intros j J Q; apply (HB j J); right; exact Q).
  rewrite (last_scan_note miss b lines OB true k ltac:(lia) HDk HN HBN) in E2.
  rewrite (proj1 (last_scan_before miss b lines OB true k HK HN HBN) HD) in E2. inversion E2; subst l; exact E1.
Qed.
Print Assumptions C59_refuted_double_note.
(** Only the very first time holds anything, a text: the last time is -1, before the first. *)
Theorem C59_refuted_before_the_first : forall miss element b lines, block_ok b lines -> element = 1 \/ element = 2 -> 0 < b_num b ->
  has_note lines 0 -> ~ has_data miss b 0 -> (forall i, 0 < i < b_num b -> ~ something miss b lines i) ->
  ztsFirstLastValidValues miss element b = Ok (0, 0, -1).
Proof.
  intros miss element b lines OB HE HN0 HN HD HB.
  assert (HBN : forall j, 0 < j < b_num b -> ~ has_note lines j) by (intros j J Q; apply (HB j J); right; exact Q).
  assert (HF : exists l, ztsFirstLastValidValues miss element b = Ok (0, 0, l)).
  { destruct (C59_first_partial miss element b lines OB HE) as (r & f & l & E & H1 & H2). assert (R : r <> 1) by (intros Q; apply (proj1 H1 Q 0); [lia|right; exact HN]).
    destruct (H2 R) as (R0 & F0 & FS & FB & _). exists l. assert (f = 0); [|subst; exact E].
    destruct (Z.eq_dec f 0); [assumption|]. exfalso. apply (FB 0); [lia|right; exact HN]. }
  destruct HF as (l & HF). rewrite HF. do 2 f_equal.
  assert (G : forall dbl f' l', first_last miss dbl b = Ok (0, f', l') -> l' = -1).
  { intros dbl f' l' E. destruct (at_last miss dbl b lines 0 OB ltac:(lia) (or_intror HN) HB) as (f2 & l2 & E1 & E2).
    rewrite (last_scan_note miss b lines OB dbl 0 ltac:(lia) HD HN HBN) in E2. cbn in E2. inversion E2. subst l2. congruence. }
  unfold ztsFirstLastValidValues in HF. destruct HE as [->| ->]; cbn [Z.eqb Pos.eqb] in HF; eapply G; exact HF.
Qed.
Print Assumptions C59_refuted_before_the_first.
