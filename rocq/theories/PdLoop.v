(** * Lemmas for C49: the loops over curves, the labels. *)
From Coq Require Import ZArith List Lia Bool ZifyBool.
From Verif Require Import Base ArrayLib SeriesProofs PdModel PdSpec PdProofs.
Import ListNotations.
Open Scope Z_scope.
Open Scope res_scope.

Section S.
Variable widen : Z -> Z * Z.
Variable narrow : Z * Z -> Z.
Notation cast := (cast widen narrow).

Lemma index_eq n r q row rows i : 0 < n -> 0 <= r < n -> 0 <= row -> row + rows <= n ->
  (row + i * n <=? q * n + r) && (q * n + r <? row + i * n + rows) = (q =? i) && ((row <=? r) && (r <? row + rows)).
Proof.
  intros Hn Hr H1 H2. destruct (q =? i) eqn:E; cbn [andb].
  - assert (q = i) by lia. subst q. f_equal; lia.
  - destruct (Z_lt_le_dec q i).
    + replace (row + i * n <=? q * n + r) with false by nia. reflexivity.
    + replace (q * n + r <? row + i * n + rows) with false by nia. apply andb_false_r.
Qed.

Lemma put_curves_spec dbl n c row rows first v : 1 <= n -> 0 <= row -> 0 < rows -> row + rows <= n -> c * n <= 50000000 -> 0 <= first ->
  forall cnt i area, first <= i -> i + Z.of_nat cnt <= c -> c * n * size_of dbl <= alen area -> Z.even (alen area) = true ->
  (i - first + Z.of_nat cnt) * rows <= count v ->
  exists area', put_curves widen narrow cnt dbl n row rows i first (Some v) area = Ok (Some area') /\ alen area' = alen area /\
    forall r q, 0 <= r < n -> 0 <= q < c -> num_w dbl area' (q * n + r) =
      if ((row <=? r) && (r <? row + rows)) && ((i <=? q) && (q <? i + Z.of_nat cnt))
      then Ok (cast dbl (num_at v ((q - first) * rows + (r - row)))) else num_w dbl area (q * n + r).
Proof.
  intros Hn Hrow Hrows Hrn Hsm Hf0. pose proof (size_pos dbl) as Sp. induction cnt as [|cnt IH]; intros i area Hf Hc Ha He Hv.
  - exists area. split; [reflexivity|]. split; [reflexivity|]. intros r q Hr Hq. replace ((i <=? q) && (q <? i + Z.of_nat 0)) with false by lia. rewrite andb_false_r. reflexivity.
  - cbn [put_curves]. assert (M : 0 <= i * n /\ (i + 1) * n <= c * n) by nia.
    rewrite place_spec by nia. cbn [bind].
    set (m := row + i * n). assert (Hm : 0 <= m) by (unfold m; lia). assert (Hmr : m + rows <= c * n) by (unfold m; nia).
    assert (V : 0 <= (i - first) * rows /\ (i - first) * rows + rows <= count v) by nia.
    destruct (words_spec widen narrow dbl v ((i - first) * rows) rows) as (ws & Ew & Lw & Gw); try lia.
    destruct (put_place dbl area m ws rows) as (before & area1 & Eb & Ep & L1 & G1); try lia; try nia.
    assert (I32 : in32 ((i - first) * rows)) by (unfold in32, INT_MIN, INT_MAX; nia).
    replace (if dbl then (m, 0) else (Z.quot m 2, if Z.odd m then 1 else 0)) with (if dbl then m else Z.quot m 2, if dbl then 0 else if Z.odd m then 1 else 0) by (destruct dbl; reflexivity).
    rewrite Eb. cbn [bind]. rewrite chk32_ok by exact I32. cbn [bind]. rewrite Ew. cbn [bind]. rewrite Ep. cbn [bind].
    destruct (IH (i + 1) area1) as (area2 & E2 & L2 & G2); try lia; try (rewrite L1; assumption).
    exists area2. split; [exact E2|]. split; [lia|]. intros r q Hr Hq. rewrite G2 by assumption.
    rewrite G1 by nia. unfold m. rewrite index_eq by lia.
    destruct ((row <=? r) && (r <? row + rows)) eqn:R; cbn [andb]; [|rewrite andb_false_r; reflexivity]. rewrite andb_true_r.
    destruct (q =? i) eqn:Q.
    + assert (q = i) by lia. subst q. replace ((i + 1 <=? i) && (i <? i + 1 + Z.of_nat cnt)) with false by lia. replace ((i <=? i) && (i <? i + Z.of_nat (S cnt))) with true by lia.
      replace (i * n + r - (row + i * n)) with (r - row) by lia. rewrite Gw by lia. reflexivity.
    + replace ((i + 1 <=? q) && (q <? i + 1 + Z.of_nat cnt)) with ((i <=? q) && (q <? i + Z.of_nat (S cnt))) by lia. reflexivity.
Qed.

Lemma num_w_app_l dbl l1 l2 k n : 0 <= k < n -> alen l1 = n * size_of dbl -> num_w dbl (l1 ++ l2) k = num_w dbl l1 k.
Proof. intros Hk Hl. pose proof (size_pos dbl). apply num_w_ext. intros j Hj. rewrite aget_app by nia. replace (k * size_of dbl + j <? alen l1) with true by nia. reflexivity. Qed.
Lemma num_w_app_r dbl l1 l2 k n : n <= k -> 0 <= n -> alen l1 = n * size_of dbl -> num_w dbl (l1 ++ l2) k = num_w dbl l2 (k - n).
Proof. intros Hk Hn Hl. pose proof (size_pos dbl). apply num_w_ext. intros j Hj. rewrite aget_app by nia. replace (k * size_of dbl + j <? alen l1) with false by nia. f_equal. nia. Qed.

Lemma get_curves_spec dbl n c row rows area : 1 <= n -> 0 <= row -> 0 < rows -> row + rows <= n -> c * n <= 50000000 -> c * n * size_of dbl <= alen area ->
  forall cnt i, 0 <= i -> i + Z.of_nat cnt <= c ->
  exists ws, get_curves cnt dbl n row rows i area = Ok ws /\ alen ws = rows * Z.of_nat cnt * size_of dbl /\
    forall r q, 0 <= r < rows -> 0 <= q < Z.of_nat cnt -> num_w dbl ws (q * rows + r) = num_w dbl area ((i + q) * n + (row + r)).
Proof.
  intros Hn Hrow Hrows Hrn Hsm Ha. pose proof (size_pos dbl) as Sp. induction cnt as [|cnt IH]; intros i Hi Hc.
  - exists []. split; [reflexivity|]. split; [cbn; lia|]. intros; lia.
  - cbn [get_curves]. assert (M : 0 <= i * n /\ (i + 1) * n <= c * n) by nia. rewrite place_spec by nia. cbn [bind].
    set (m := row + i * n). replace (if dbl then (m, 0) else (Z.quot m 2, if Z.odd m then 1 else 0)) with (if dbl then m else Z.quot m 2, if dbl then 0 else if Z.odd m then 1 else 0) by (destruct dbl; reflexivity).
    destruct (get_place dbl area m rows) as (ws & Eg & Lg & Gg); [unfold m; lia|lia|unfold m; nia|]. rewrite Eg. cbn [bind].
    destruct (IH (i + 1)) as (rest & Er & Lr & Gr); [lia|lia|]. rewrite Er. cbn [bind]. eexists. split; [reflexivity|]. split; [rewrite alen_app, Lg, Lr; nia|].
    intros r q Hr Hq. destruct (Z.eq_dec q 0) as [->|Nq].
    + rewrite (num_w_app_l dbl _ _ _ rows) by (auto; lia). rewrite Gg by lia. f_equal. unfold m. lia.
    + rewrite (num_w_app_r dbl _ _ _ rows) by (auto; nia). replace (q * rows + r - rows) with ((q - 1) * rows + r) by lia. rewrite Gr by lia. f_equal. lia.
Qed.

(** ** labels *)
Lemma text_cons l ls : text (l :: ls) = l ++ 0 :: text ls.
Proof. unfold text. cbn [map concat]. rewrite <- app_assoc. reflexivity. Qed.
Lemma text_app a b : text (a ++ b) = text a ++ text b.
Proof. unfold text. rewrite map_app, concat_app. reflexivity. Qed.
Lemma text_len_spec l t : clean l -> text_len (l ++ 0 :: t) = Ok (alen l).
Proof.
  unfold clean. induction l as [|a r IH]; intros H; [reflexivity|]. cbn [app text_len]. destruct (a =? 0) eqn:E; [exfalso; apply H; left; lia|]. rewrite IH by (intros Q; apply H; right; exact Q). cbn [bind]. f_equal. unfold alen. cbn [length]. lia.
Qed.
Lemma len_at_spec p l t : clean l -> len_at (p ++ l ++ 0 :: t) (alen p) = Ok (alen l).
Proof. intros H. unfold len_at, alen. rewrite Nat2Z.id, skipn_app, skipn_all, Nat.sub_diag. cbn [skipn app]. apply text_len_spec. exact H. Qed.
Lemma read_mid {A} (p l t : list A) : read_loop (length l) (p ++ l ++ t) (alen p) = Ok l.
Proof.
  revert p. induction l as [|a r IH]; intros p; [reflexivity|]. cbn [length read_loop]. rewrite aget_app by apply alen_nonneg. rewrite Z.ltb_irrefl, Z.sub_diag. cbn [app aget]. cbn [bind].
  change (aget (a :: r ++ t) 0) with (Ok a). cbn [bind]. specialize (IH (p ++ [a])). rewrite <- app_assoc in IH. cbn [app] in IH. rewrite alen_app in IH. change (alen [a]) with 1 in IH. rewrite IH. reflexivity.
Qed.
Lemma read_mid' {A} n (p l t : list A) i : n = length l -> i = alen p -> read_loop n (p ++ l ++ t) i = Ok l.
Proof. intros -> ->. apply read_mid. Qed.
Lemma emits_spec len cs : forall out, alen out + alen cs <= len -> emits len out cs = Ok (out ++ cs).
Proof.
  induction cs as [|c t IH]; intros out H; [rewrite app_nil_r; reflexivity|]. cbn [emits]. unfold emit. unfold alen in *. cbn [length] in H. destruct (Z.of_nat (length out) <? len) eqn:E; [|lia]. cbn [bind].
  rewrite IH by (rewrite app_length; cbn [length]; lia). rewrite <- app_assoc. reflexivity.
Qed.
End S.
