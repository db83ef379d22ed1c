(** * Lemmas for C49: the labels. *)
From Coq Require Import ZArith List Lia Bool ZifyBool.
From Verif Require Import Base ArrayLib SeriesProofs PdModel PdSpec PdProofs PdLoop.
Import ListNotations.
Open Scope Z_scope.
Open Scope res_scope.

Lemma alen_cons {A} (a : A) l : alen (a :: l) = 1 + alen l. Proof. unfold alen. cbn [length]. lia. Qed.
Lemma alen_nil {A} : alen (@nil A) = 0. Proof. reflexivity. Qed.
Lemma alen_text_cons l ls : alen (text (l :: ls)) = alen l + 1 + alen (text ls).
Proof. rewrite text_cons, alen_app, alen_cons. lia. Qed.
Lemma aget_mid {A} (p : list A) a t : aget (p ++ a :: t) (alen p) = Ok a.
Proof. rewrite aget_app by apply alen_nonneg. rewrite Z.ltb_irrefl, Z.sub_diag. reflexivity. Qed.

(** ** writing a label *)
Section L.
Variables len sc ec ncur hbytes : Z.
Variable new : list Z.

Lemma copy_label cur t pd : forall y p out fuel, clean y -> (cur < sc \/ ec < cur) -> cur <= ncur ->
  alen out + alen y + 1 <= len -> alen p + alen y + 1 <= hbytes ->
  label_loop (length y + 1 + fuel) len sc ec ncur hbytes new (p ++ y ++ 0 :: t) out (alen p) pd cur =
  if (cur + 1 >? ncur) || (alen out + alen y + 1 >=? len) || (alen p + alen y + 1 >=? hbytes) then Ok (out ++ y ++ [0])
  else label_loop fuel len sc ec ncur hbytes new (p ++ y ++ 0 :: t) (out ++ y ++ [0]) (alen p + alen y + 1) pd (cur + 1).
Proof.
  induction y as [|a y IH]; intros p out fuel Hy Hc Hn Hl Hh.
  - cbn [length app Nat.add label_loop]. replace ((cur >=? sc) && (cur <=? ec)) with false by lia. rewrite aget_mid. cbn [bind]. unfold emit. rewrite alen_nil in *.
    replace (alen out <? len) with true by lia. cbn [bind]. cbn [Z.eqb]. rewrite alen_app. change (alen [0]) with 1. rewrite !Z.add_0_r. reflexivity.
  - cbn [length app Nat.add label_loop]. replace ((cur >=? sc) && (cur <=? ec)) with false by lia. rewrite aget_mid. cbn [bind]. unfold emit. rewrite alen_cons in *. pose proof (alen_nonneg y).
    replace (alen out <? len) with true by lia. cbn [bind]. destruct (a =? 0) eqn:E; [exfalso; apply Hy; left; lia|]. rewrite alen_app. change (alen [a]) with 1.
    replace ((cur >? ncur) || (alen out + 1 >=? len) || (alen p + 1 >=? hbytes)) with false by lia.
    specialize (IH (p ++ [a]) (out ++ [a]) fuel). rewrite <- !app_assoc, !alen_app in IH. change (alen [a]) with 1 in IH. cbn [app] in IH. rewrite IH; try lia; [|intros Q; apply Hy; right; exact Q].
    replace (alen out + 1 + alen y + 1) with (alen out + (1 + alen y) + 1) by lia. replace (alen p + 1 + alen y + 1) with (alen p + (1 + alen y) + 1) by lia. reflexivity.
Qed.

Lemma copy_some t pd : forall ys p out fuel cur, Forall clean ys -> (cur + alen ys - 1 < sc \/ ec < cur) -> cur + alen ys <= ncur ->
  alen out + alen (text ys) < len -> alen p + alen (text ys) < hbytes ->
  label_loop (length (text ys) + fuel) len sc ec ncur hbytes new (p ++ text ys ++ t) out (alen p) pd cur =
  label_loop fuel len sc ec ncur hbytes new (p ++ text ys ++ t) (out ++ text ys) (alen p + alen (text ys)) pd (cur + alen ys).
Proof.
  induction ys as [|y ys IH]; intros p out fuel cur Hy Hc Hn Hl Hh.
  - change (text []) with (@nil Z). rewrite app_nil_r. change (alen (@nil Z)) with 0. change (alen (@nil (list Z))) with 0. rewrite !Z.add_0_r. reflexivity.
  - apply Forall_cons_iff in Hy. destruct Hy as [Hy Hys]. rewrite alen_text_cons in *. rewrite alen_cons in *. pose proof (alen_nonneg ys). pose proof (alen_nonneg (text ys)).
    rewrite text_cons. replace (length (y ++ 0%Z :: text ys) + fuel)%nat with (length y + 1 + (length (text ys) + fuel))%nat by (rewrite app_length; cbn [length]; lia).
    rewrite <- !app_assoc. cbn [app]. rewrite copy_label by (auto; lia).
    replace ((cur + 1 >? ncur) || (alen out + alen y + 1 >=? len) || (alen p + alen y + 1 >=? hbytes)) with false by lia.
    specialize (IH (p ++ y ++ [0]) (out ++ y ++ [0]) fuel (cur + 1) Hys). rewrite !alen_app in IH. change (alen [0]) with 1 in IH. rewrite <- !app_assoc in IH. cbn [app] in IH.
    replace (alen p + alen y + 1) with (alen p + (alen y + 1)) by lia. rewrite IH by lia. f_equal; lia.
Qed.

Lemma copy_rest t pd : forall ys p out fuel cur, ys <> [] -> Forall clean ys -> (cur + alen ys - 1 < sc \/ ec < cur) -> cur + alen ys = ncur + 1 ->
  alen out + alen (text ys) <= len -> alen p + alen (text ys) <= hbytes ->
  label_loop (length (text ys) + fuel) len sc ec ncur hbytes new (p ++ text ys ++ t) out (alen p) pd cur = Ok (out ++ text ys).
Proof.
  induction ys as [|y ys IH]; intros p out fuel cur Hne Hy Hc Hn Hl Hh; [congruence|].
  apply Forall_cons_iff in Hy. destruct Hy as [Hy Hys]. rewrite alen_text_cons in *. rewrite alen_cons in *. pose proof (alen_nonneg ys). pose proof (alen_nonneg (text ys)).
  rewrite text_cons. replace (length (y ++ 0%Z :: text ys) + fuel)%nat with (length y + 1 + (length (text ys) + fuel))%nat by (rewrite app_length; cbn [length]; lia).
  rewrite <- !app_assoc. cbn [app]. rewrite copy_label by (auto; lia). destruct ys as [|z ys].
  - rewrite alen_nil in *. replace (cur + 1 >? ncur) with true by lia. cbn [orb]. change (text []) with (@nil Z). reflexivity.
  - rewrite alen_cons, alen_text_cons in *. pose proof (alen_nonneg ys). pose proof (alen_nonneg z). pose proof (alen_nonneg (text ys)).
    replace ((cur + 1 >? ncur) || (alen out + alen y + 1 >=? len) || (alen p + alen y + 1 >=? hbytes)) with false by lia.
    specialize (IH (p ++ y ++ [0]) (out ++ y ++ [0]) fuel (cur + 1) ltac:(discriminate) Hys). rewrite !alen_app in IH. change (alen [0]) with 1 in IH. rewrite <- !app_assoc in IH. cbn [app] in IH.
    replace (alen p + alen y + 1) with (alen p + (alen y + 1)) by lia. rewrite IH by lia. reflexivity.
Qed.
End L.

Lemma relabel_mid pre x post l : relabel (pre ++ x :: post) (length pre) l = pre ++ l :: post.
Proof. induction pre as [|a t IH]; cbn; [reflexivity|]. rewrite IH. reflexivity. Qed.
Lemma relabel_length ls k l : length (relabel ls k l) = length ls.
Proof. revert k. induction ls as [|a t IH]; intros [|k]; cbn; auto. Qed.
Lemma relabel_clean ls k l : Forall clean ls -> clean l -> Forall clean (relabel ls k l).
Proof. intros H Hl. revert k. induction H as [|a t Ha Ht IH]; intros [|k]; cbn; constructor; auto. Qed.

Lemma relabel_loop ls k l z room hbytes : Forall clean ls -> clean l -> 1 <= k <= alen ls ->
  alen (text ls) <= room -> alen (text (relabel ls (Z.to_nat (k - 1)) l)) <= room -> room <= hbytes ->
  label_loop (Z.to_nat (alen l + 1 + room)) (alen l + 1 + room) k k (alen ls) hbytes (l ++ [0]) (text ls ++ z) [] 0 0 1
  = Ok (text (relabel ls (Z.to_nat (k - 1)) l)).
Proof.
  intros Hc Hl Hk Ht1 Ht2 Hr. destruct (nth_error ls (Z.to_nat (k - 1))) as [x|] eqn:N; [|apply nth_error_None in N; unfold alen in Hk; lia].
  apply nth_error_split in N. destruct N as (pre & post & -> & Lp). rewrite <- Lp in *. rewrite relabel_mid in *.
  assert (Ek : k = alen pre + 1) by (unfold alen; lia). clear Lp. rewrite !text_app, !alen_app, !alen_text_cons in *. rewrite alen_cons in *.
  pose proof (alen_nonneg l). pose proof (alen_nonneg x). pose proof (alen_nonneg (text pre)). pose proof (alen_nonneg (text post)). pose proof (alen_nonneg post). pose proof (alen_nonneg pre).
  apply Forall_app in Hc. destruct Hc as [Hp Hc]. apply Forall_cons_iff in Hc. destruct Hc as [Hx Hq].
  rewrite !text_cons, <- !app_assoc. cbn [app].
  set (len := alen l + 1 + room). set (ncur := alen pre + (1 + alen post)).
  replace (Z.to_nat len) with (length (text pre) + S (length (text post) + (Z.to_nat len - length (text pre) - length (text post) - 1)))%nat by (unfold len, alen in *; lia).
  pose proof (copy_some len k k ncur hbytes (l ++ [0]) (x ++ 0 :: text post ++ z) 0 pre [] [] (S (length (text post) + (Z.to_nat len - length (text pre) - length (text post) - 1))) 1 Hp) as E.
  rewrite !alen_nil in E. cbn [app] in E. rewrite E by (unfold len, ncur; lia). clear E. cbn [label_loop].
  replace ((1 + alen pre >=? k) && (1 + alen pre <=? k)) with true by lia.
  pose proof (len_at_spec [] l [] Hl) as E1. cbn [app] in E1. change (alen (@nil Z)) with 0 in E1. rewrite E1. cbn [bind].
  pose proof (read_mid' (Z.to_nat (alen l)) [] l [0] 0 ltac:(unfold alen; lia) eq_refl) as E2. cbn [app] in E2. rewrite E2. cbn [bind].
  rewrite emits_spec by (unfold len; lia). cbn [bind]. unfold emit. rewrite alen_app. replace (alen (text pre) + alen l <? len) with true by (unfold len; lia). cbn [bind].
  pose proof (len_at_spec (text pre) x (text post ++ z) Hx) as E3. rewrite Z.add_0_l. rewrite E3. cbn [bind].
  destruct post as [|y post].
  - replace (1 + alen pre + 1 >? ncur) with true by (unfold ncur; change (alen (@nil (list Z))) with 0 in *; clear; lia). cbn [orb]. change (text []) with (@nil Z). rewrite <- app_assoc. reflexivity.
  - assert (T : alen (text (y :: post)) >= 1) by (rewrite alen_text_cons; pose proof (alen_nonneg y); pose proof (alen_nonneg (text post)); lia).
    rewrite !alen_app. change (alen [0]) with 1.
    replace ((1 + alen pre + 1 >? ncur) || (alen (text pre) + alen l + 1 >=? len) || (alen (text pre) + alen x + 1 >=? hbytes)) with false
      by (unfold ncur, len; rewrite alen_cons; pose proof (alen_nonneg post); lia).
    pose proof (copy_rest len k k ncur hbytes (l ++ [0]) z (0 + alen l) (y :: post) (text pre ++ x ++ [0]) ((text pre ++ l) ++ [0]) (Z.to_nat len - length (text pre) - length (text (y :: post)) - 1) (1 + alen pre + 1) ltac:(discriminate) Hq) as E.
    rewrite !alen_app in E. change (alen [0]) with 1 in E. rewrite <- !app_assoc in E. cbn [app] in E. rewrite <- !app_assoc. cbn [app].
    rewrite Z.add_assoc in E. rewrite E; [reflexivity| | | |]; unfold ncur, len; lia.
Qed.

(** ** reading labels *)
Section R.
Variables (lablen : Z).

Lemma span_count t first start : 0 <= start -> forall cnt rest p i count, Forall clean rest -> (cnt <= length rest)%nat -> first <= i ->
  alen p + alen (text rest) <= lablen ->
  label_span cnt (p ++ text rest ++ t) lablen first i (alen p) start count = Ok (start, count + alen (text (firstn cnt rest))).
Proof.
  intros Hs. induction cnt as [|cnt IH]; intros rest p i count Hr Hc Hi Hl; [cbn [label_span firstn]; change (text []) with (@nil Z); rewrite alen_nil, Z.add_0_r; reflexivity|].
  destruct rest as [|y rest]; [cbn in Hc; lia|]. apply Forall_cons_iff in Hr. destruct Hr as [Hy Hr]. rewrite alen_text_cons in Hl. cbn [length] in Hc. cbn [label_span firstn]. rewrite alen_text_cons, text_cons, <- app_assoc. cbn [app].
  rewrite len_at_spec by exact Hy. cbn [bind]. replace (i >=? first) with true by lia. replace (start <? 0) with false by lia. cbv iota beta.
  destruct (alen p + alen y + 1 >=? lablen) eqn:E.
  - destruct rest as [|z rest]; [|rewrite alen_text_cons in Hl; pose proof (alen_nonneg z); pose proof (alen_nonneg (text rest)); lia]. destruct cnt; [|cbn in Hc; lia]. cbn [firstn]. change (text []) with (@nil Z). rewrite alen_nil. f_equal. f_equal. lia.
  - specialize (IH rest (p ++ y ++ [0]) (i + 1) (count + alen y + 1) Hr ltac:(lia) ltac:(lia)). rewrite !alen_app in IH. change (alen [0]) with 1 in IH. rewrite <- !app_assoc in IH. cbn [app] in IH.
    rewrite Z.add_assoc in IH. rewrite IH by lia. f_equal. f_equal. lia.
Qed.

Lemma span_skip t : forall k cnt rest p i, Forall clean rest -> (k < cnt)%nat -> (cnt <= length rest)%nat ->
  alen p + alen (text rest) <= lablen ->
  label_span cnt (p ++ text rest ++ t) lablen (i + Z.of_nat k) i (alen p) (-1) 0 =
  Ok (alen p + alen (text (firstn k rest)), alen (text (firstn (cnt - k) (skipn k rest)))).
Proof.
  induction k as [|k IH]; intros cnt rest p i Hr Hk Hc Hl; (destruct cnt as [|cnt]; [lia|]);
  (destruct rest as [|y rest]; [cbn in Hc; lia|]); apply Forall_cons_iff in Hr; destruct Hr as [Hy Hr]; rewrite alen_text_cons in Hl; cbn [length] in Hc; cbn [label_span]; rewrite text_cons, <- app_assoc; cbn [app];
  rewrite len_at_spec by exact Hy; cbn [bind].
  - replace (i >=? i + Z.of_nat 0) with true by lia. cbn [Z.ltb Z.compare]. cbn [Nat.sub firstn skipn]. rewrite alen_text_cons. change (text []) with (@nil Z). change (alen (@nil Z)) with 0. rewrite Z.add_0_r.
    destruct (alen p + alen y + 1 >=? lablen) eqn:E.
    + destruct rest as [|z rest]; [|rewrite alen_text_cons in Hl; pose proof (alen_nonneg z); pose proof (alen_nonneg (text rest)); lia]. destruct cnt; [|cbn in Hc; lia]. cbn [firstn]. change (text []) with (@nil Z). change (alen (@nil Z)) with 0. f_equal. f_equal; lia.
    + pose proof (span_count t (i + Z.of_nat 0) (alen p) (alen_nonneg p) cnt rest (p ++ y ++ [0]) (i + 1) (0 + alen y + 1) Hr ltac:(lia) ltac:(lia)) as S. rewrite !alen_app in S. change (alen [0]) with 1 in S. rewrite <- !app_assoc in S. cbn [app] in S.
      rewrite Z.add_assoc in S. change (i + Z.of_nat 0) with (i + 0) in S. rewrite Z.add_0_r in S. rewrite S by lia. f_equal. f_equal; lia.
  - replace (i >=? i + Z.of_nat (S k)) with false by lia. cbn [Nat.sub firstn skipn].
    assert (Hm : rest <> []) by (intros ->; cbn in Hc; lia). destruct rest as [|z rest]; [congruence|]. pose proof (alen_nonneg z). pose proof (alen_nonneg (text rest)). rewrite alen_text_cons in Hl.
    replace (alen p + alen y + 1 >=? lablen) with false by lia.
    specialize (IH cnt (z :: rest) (p ++ y ++ [0]) (i + 1) Hr ltac:(lia) ltac:(lia)). rewrite !alen_app in IH. change (alen [0]) with 1 in IH. rewrite <- !app_assoc in IH. cbn [app] in IH.
    rewrite Z.add_assoc in IH. rewrite alen_text_cons in IH. replace (i + Z.of_nat (S k)) with (i + 1 + Z.of_nat k) by lia. rewrite IH by lia. rewrite alen_text_cons. f_equal. f_equal. lia.
Qed.
End R.
