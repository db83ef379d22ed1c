(** * Proofs about the file sort: order of lines, buffers and lines, merging. *)
From Coq Require Import ZArith List Lia Bool ZifyBool Sorted Permutation.
From Verif Require Import Base CStr CStrProofs SortSpec SortModel.
Import ListNotations.
Open Scope Z_scope.

(** ** The order *)
Lemma slen_cons' (c : Z) l : slen (c :: l) = slen l + 1.
Proof. unfold slen. cbn [length]. lia. Qed.

Lemma memcmp_lex : forall a b, let d := memcmp (Z.to_nat (Z.min (slen a) (slen b))) a b in
  ((if d =? 0 then slen a - slen b else d) <= 0 <-> lex a b).
Proof.
  induction a as [|x a IH]; intros b; cbn [lex].
  - unfold slen at 1. cbn [length]. replace (Z.to_nat (Z.min (Z.of_nat 0) (slen b))) with 0%nat by (pose proof (slen_nonneg b); lia).
    cbn -[slen]. pose proof (slen_nonneg b). change (slen []) with 0. split; [tauto|lia].
  - destruct b as [|y b].
    + unfold slen at 2. cbn [length]. replace (Z.to_nat (Z.min (slen (x :: a)) (Z.of_nat 0))) with 0%nat by (pose proof (slen_nonneg (x :: a)); lia).
      cbn -[slen]. rewrite slen_cons'. pose proof (slen_nonneg a). change (slen []) with 0. split; [lia|tauto].
    + rewrite !slen_cons'. pose proof (slen_nonneg a). pose proof (slen_nonneg b).
      replace (Z.to_nat (Z.min (slen a + 1) (slen b + 1))) with (S (Z.to_nat (Z.min (slen a) (slen b)))) by lia.
      cbn [memcmp]. specialize (IH b). cbv zeta in *. destruct (x =? y) eqn:E.
      * apply Z.eqb_eq in E. subst y. replace (slen a + 1 - (slen b + 1)) with (slen a - slen b) by lia. rewrite IH.
        split; [right; tauto|]. intros [?|[_ ?]]; [lia|assumption].
      * apply Z.eqb_neq in E. replace (x - y =? 0) with false by lia. split; [left; lia|]. intros [?|[? _]]; lia.
Qed.

Lemma signed_as c : as_char c = signed c.
Proof. reflexivity. Qed.

Lemma compare_le a b : compare a b <= 0 <-> line_le a b.
Proof.
  destruct a as [|x a], b as [|y b].
  - cbn. unfold slen. cbn. split; [tauto|lia].
  - cbn. unfold slen. cbn [length]. split; [tauto|lia].
  - cbn. unfold slen. cbn [length]. split; [lia|tauto].
  - pose proof (memcmp_lex (x :: a) (y :: b)) as M. cbv zeta in M. unfold compare, line_le. cbv zeta. rewrite (signed_as x), (signed_as y).
    destruct (signed x - signed y =? 0) eqn:E.
    + rewrite M. split; [right; split; [lia|assumption]|]. intros [?|[_ ?]]; [lia|assumption].
    + split; [left; lia|]. intros [?|[? _]]; lia.
Qed.

Lemma lex_total : forall a b, lex a b \/ lex b a.
Proof.
  induction a as [|x a IH]; intros [|y b]; cbn; auto. destruct (IH b) as [H|H]; destruct (Z.lt_trichotomy x y) as [L|[L|L]]; auto; subst; tauto.
Qed.
Lemma lex_trans : forall a b c, lex a b -> lex b c -> lex a c.
Proof.
  induction a as [|x a IH]; intros [|y b] [|z c]; cbn; try tauto. intros [H|[-> H]] [K|[-> K]]; auto; [left; lia|]. right. split; [reflexivity|]. eauto.
Qed.
Lemma line_total a b : line_le a b \/ line_le b a.
Proof.
  destruct a as [|x a], b as [|y b]; cbn [line_le]; try (cbn; tauto).
  - destruct (Z.lt_trichotomy (signed x) (signed y)) as [L|[L|L]]; auto. destruct (lex_total (x :: a) (y :: b)); [left|right]; right; split; auto.
Qed.
Lemma line_trans a b c : line_le a b -> line_le b c -> line_le a c.
Proof.
  destruct a as [|x a], b as [|y b], c as [|z c]; cbn [line_le]; try (cbn; tauto).
  intros [H|[E H]] [K|[F K]]; [left; lia|left; lia|left; lia|]. right. split; [congruence|]. eapply lex_trans; eassumption.
Qed.
Lemma compare_gt a b : compare a b > 0 -> line_le b a /\ ~ line_le a b.
Proof. intros H. assert (~ line_le a b) by (rewrite <- compare_le; lia). destruct (line_total a b); tauto. Qed.
Lemma lex_antisym : forall a b, lex a b -> lex b a -> a = b.
Proof.
  induction a as [|x a IH]; intros [|y b]; cbn; try tauto. intros [H|[-> H]] [K|[E K]]; try lia. f_equal; auto.
Qed.
Lemma line_antisym a b : line_le a b -> line_le b a -> a = b.
Proof.
  destruct a as [|x a], b as [|y b]; cbn [line_le]; try (cbn; tauto). intros [H|[E H]] [K|[F K]]; try lia. apply lex_antisym; assumption.
Qed.
Lemma compare_lt a b : compare a b < 0 -> ~ line_le b a.
Proof.
  intros H K. assert (L : line_le a b) by (apply compare_le; lia). pose proof (line_antisym _ _ L K). subst.
  assert (compare b b = 0).
  { destruct b as [|x b]; [reflexivity|]. unfold compare. replace (as_char x - as_char x =? 0) with true by lia.
    assert (M : forall n l, memcmp n l l = 0) by (induction n; intros [|? ?]; cbn; auto; rewrite Z.eqb_refl; auto). cbv zeta. rewrite M. change (0 =? 0) with true. cbv iota. lia. }
  lia.
Qed.

(** ** Sorting in memory *)
Lemma merge_halves_perm : forall lo hi, Permutation (merge_halves lo hi) (lo ++ hi).
Proof.
  induction lo as [|a lo IH]; intros hi; [destruct hi; reflexivity|]. induction hi as [|b hi IH2].
  - cbn. rewrite app_nil_r. reflexivity.
  - cbn [merge_halves]. destruct (compare a b <=? 0).
    + cbn [app]. constructor. apply IH.
    + change ((fix inner (hi0 : list (list Z)) : list (list Z) := match hi0 with [] => a :: lo | b0 :: hi' => if compare a b0 <=? 0 then a :: merge_halves lo hi0 else b0 :: inner hi' end) hi) with (merge_halves (a :: lo) hi).
      rewrite IH2. apply (Permutation_middle (a :: lo) hi b).
Qed.
Lemma merge_halves_sorted : forall lo hi, StronglySorted line_le lo -> StronglySorted line_le hi -> StronglySorted line_le (merge_halves lo hi).
Proof.
  induction lo as [|a lo IH]; intros hi S1 S2; [destruct hi; assumption|]. induction hi as [|b hi IH2]; [cbn; assumption|].
  cbn [merge_halves]. inversion S1 as [|? ? S1' F1]; subst. inversion S2 as [|? ? S2' F2]; subst. destruct (compare a b <=? 0) eqn:E.
  - constructor; [apply IH; assumption|]. apply (Permutation_Forall (Permutation_sym (merge_halves_perm lo (b :: hi)))). apply Forall_app. split; [assumption|].
    assert (L : line_le a b) by (apply compare_le; lia). constructor; [assumption|]. eapply Forall_impl; [|exact F2]. intros c. apply line_trans. exact L.
  - change ((fix inner (hi0 : list (list Z)) : list (list Z) := match hi0 with [] => a :: lo | b0 :: hi' => if compare a b0 <=? 0 then a :: merge_halves lo hi0 else b0 :: inner hi' end) hi) with (merge_halves (a :: lo) hi).
    constructor; [apply IH2; assumption|]. assert (L : line_le b a) by (apply compare_gt; lia).
    apply (Permutation_Forall (Permutation_sym (merge_halves_perm (a :: lo) hi))). apply Forall_app. split; [|assumption]. constructor; [assumption|]. eapply Forall_impl; [|exact F1]. intros c. apply line_trans. exact L.
Qed.

Lemma sorted_small (l : list (list Z)) : (length l <= 1)%nat -> StronglySorted line_le l.
Proof. destruct l as [|a [|b l]]; cbn; intros; try lia; repeat constructor. Qed.

Lemma sortlines_ok : forall fuel ls, (length ls < fuel)%nat -> exists out, sortlines fuel ls = Ok out /\ Permutation ls out /\ StronglySorted line_le out.
Proof.
  induction fuel as [|k IH]; intros ls L; [lia|]. cbn [sortlines].
  assert (G : (length ls <> 2)%nat -> exists out,
    (let nlo := Z.of_nat (length ls) / 2 in let nhi := Z.of_nat (length ls) - nlo in let lo := firstn (Z.to_nat nlo) ls in let hi := skipn (Z.to_nat nlo) ls in
     let* lo' := (if nlo >? 1 then sortlines k lo else Ok lo) in let* hi' := (if nhi >? 1 then sortlines k hi else Ok hi) in Ok (merge_halves lo' hi')) = Ok out /\ Permutation ls out /\ StronglySorted line_le out).
  { intros N2. cbv zeta. set (nlo := Z.of_nat (length ls) / 2). assert (B : 0 <= nlo /\ 2 * nlo <= Z.of_nat (length ls) < 2 * nlo + 2) by (subst nlo; pose proof (Z.div_mod (Z.of_nat (length ls)) 2 ltac:(lia)); pose proof (Z.mod_pos_bound (Z.of_nat (length ls)) 2 ltac:(lia)); lia). clearbody nlo.
    set (lo := firstn (Z.to_nat nlo) ls). set (hi := skipn (Z.to_nat nlo) ls).
    assert (LL : Z.of_nat (length lo) = nlo) by (subst lo; rewrite firstn_length; lia). assert (LH : Z.of_nat (length hi) = Z.of_nat (length ls) - nlo) by (subst hi; rewrite skipn_length; lia).
    assert (EQ : ls = lo ++ hi) by (subst lo hi; symmetry; apply firstn_skipn).
    assert (A1 : exists lo', (if nlo >? 1 then sortlines k lo else Ok lo) = Ok lo' /\ Permutation lo lo' /\ StronglySorted line_le lo').
    { destruct (nlo >? 1) eqn:E; [apply IH; lia|]. exists lo. split; [reflexivity|]. split; [reflexivity|]. apply sorted_small. lia. }
    assert (A2 : exists hi', (if Z.of_nat (length ls) - nlo >? 1 then sortlines k hi else Ok hi) = Ok hi' /\ Permutation hi hi' /\ StronglySorted line_le hi').
    { destruct (Z.of_nat (length ls) - nlo >? 1) eqn:E; [apply IH; lia|]. exists hi. split; [reflexivity|]. split; [reflexivity|]. apply sorted_small. lia. }
    destruct A1 as (lo' & -> & P1 & S1), A2 as (hi' & -> & P2 & S2). cbn [bind]. eexists. split; [reflexivity|]. split; [|apply merge_halves_sorted; assumption].
    rewrite merge_halves_perm, <- P1, <- P2. rewrite EQ at 1. reflexivity. }
  destruct ls as [|a [|b [|c ls]]]; try (apply G; cbn; lia).
  destruct (compare a b >? 0) eqn:E; eexists; (split; [reflexivity|]).
  - split; [apply perm_swap|]. destruct (compare_gt a b ltac:(lia)). repeat constructor; assumption.
  - split; [reflexivity|]. assert (line_le a b) by (apply compare_le; lia). repeat constructor; assumption.
Qed.

(** ** Lines *)
Lemma findlines_pieces b : findlines b = pieces b.
Proof. induction b as [|c t IH]; [reflexivity|]. cbn [findlines pieces]. rewrite IH. reflexivity. Qed.
Lemma put_lines_text ls : put_lines ls = text_of ls.
Proof. induction ls as [|l t IH]; [reflexivity|]. cbn [put_lines text_of flat_map]. rewrite IH. unfold text_of. rewrite <- app_assoc. reflexivity. Qed.

Lemma pieces_nonl r : has_newline r = false -> pieces r = ([], r).
Proof. induction r as [|c r IH]; [reflexivity|]. cbn [has_newline existsb pieces]. intros H. apply orb_false_iff in H. destruct H as [H1 H2]. unfold has_newline in IH. rewrite (IH H2), H1. reflexivity. Qed.
Lemma pieces_left b ls r : pieces b = (ls, r) -> has_newline r = false.
Proof.
  revert ls r. induction b as [|c t IH]; intros ls r H; cbn [pieces] in H; [inversion H; reflexivity|]. destruct (pieces t) as [ls0 r0] eqn:E. specialize (IH _ _ eq_refl).
  destruct (c =? 10) eqn:C; [inversion H; subst; assumption|]. destruct ls0; inversion H; subst; [|assumption]. unfold has_newline in *. cbn [existsb]. rewrite C, IH. reflexivity.
Qed.
Lemma pieces_app a b : pieces (a ++ b) = (fst (pieces a) ++ fst (pieces (snd (pieces a) ++ b)), snd (pieces (snd (pieces a) ++ b))).
Proof.
  induction a as [|c a IH]; cbn [app pieces].
  - cbn [fst snd app]. apply surjective_pairing.
  - rewrite IH. destruct (pieces a) as [la ra] eqn:E. cbn [fst snd]. destruct (c =? 10) eqn:C; cbn [fst snd]; [reflexivity|].
    destruct la as [|l la]; cbn [fst snd app].
    + cbn [pieces]. destruct (pieces (ra ++ b)) as [lb rb]. cbn [fst snd]. rewrite C. destruct lb; reflexivity.
    + reflexivity.
Qed.
Lemma lines_app a b : lines_of (a ++ b) = fst (pieces a) ++ lines_of (snd (pieces a) ++ b).
Proof.
  unfold lines_of. rewrite pieces_app. destruct (pieces (snd (pieces a) ++ b)) as [lb rb]. cbn [fst snd]. destruct rb; [reflexivity|apply app_assoc_reverse].
Qed.
Lemma pieces_text l b : has_newline l = false -> pieces (l ++ 10 :: b) = (l :: fst (pieces b), snd (pieces b)).
Proof.
  intros H. rewrite pieces_app, (pieces_nonl l H). cbn [fst snd app]. induction l as [|c l IH].
  - cbn [app pieces]. destruct (pieces b). reflexivity.
  - cbn [has_newline existsb] in H. apply orb_false_iff in H. destruct H as [H1 H2]. cbn [app pieces]. specialize (IH H2). destruct (pieces (l ++ 10 :: b)) as [lb rb]. cbn [fst snd] in IH. inversion IH; subst. rewrite H1. reflexivity.
Qed.
Lemma lines_text ls : Forall (fun l => has_newline l = false) ls -> lines_of (text_of ls) = ls.
Proof.
  intros H. assert (P : pieces (text_of ls) = (ls, [])).
  { induction H as [|l ls Hl _ IH]; [reflexivity|]. cbn [text_of flat_map]. rewrite <- app_assoc. cbn [app]. rewrite (pieces_text l _ Hl). unfold text_of in IH. rewrite IH. reflexivity. }
  unfold lines_of. rewrite P. reflexivity.
Qed.
Lemma lines_nonl b : Forall (fun l => has_newline l = false) (lines_of b).
Proof.
  assert (G : Forall (fun l => has_newline l = false) (fst (pieces b))).
  { induction b as [|c t IH]; cbn [pieces]; [constructor|]. pose proof (pieces_left t) as Q. destruct (pieces t) as [ls r]. cbn [fst] in *. destruct (c =? 10) eqn:C; [constructor; [reflexivity|assumption]|].
    destruct ls as [|l ls]; [constructor|]. inversion IH; subst. cbn [fst]. constructor; [|assumption]. unfold has_newline in *. cbn [existsb]. rewrite C. assumption. }
  unfold lines_of. pose proof (pieces_left b) as Q. destruct (pieces b) as [ls r]. cbn [fst] in G. specialize (Q _ _ eq_refl). destruct r; [assumption|]. apply Forall_app. split; [assumption|]. constructor; [assumption|constructor].
Qed.
Lemma lines_count b : (length (lines_of b) <= length b)%nat.
Proof.
  assert (G : forall b, (length (fst (pieces b)) + length (snd (pieces b)) <= length b)%nat).
  { clear. induction b as [|c t IH]; cbn [pieces]; [cbn; lia|]. destruct (pieces t) as [ls r]. cbn [fst snd] in *. destruct (c =? 10); cbn [fst snd length]; [lia|]. destruct ls; cbn [fst snd length] in *; lia. }
  specialize (G b). unfold lines_of. destruct (pieces b) as [ls r]. cbn [fst snd] in G. destruct r; [lia|]. rewrite app_length. cbn [length] in *. lia.
Qed.
Lemma has_newline_app a b : has_newline (a ++ b) = has_newline a || has_newline b.
Proof. apply existsb_app. Qed.

(** ** Filling a buffer *)
Definition short (b : list Z) : Prop := Forall (fun l => slen l < 268435456) (lines_of b).

Lemma pieces_glue c r : has_newline c = false -> pieces (c ++ r) = match fst (pieces r) with [] => ([], c ++ snd (pieces r)) | l :: ls => ((c ++ l) :: ls, snd (pieces r)) end.
Proof.
  induction c as [|x c IH]; intros H; cbn [app].
  - destruct (pieces r) as [[|l ls] q]; reflexivity.
  - unfold has_newline in *. cbn [existsb] in H. apply orb_false_iff in H. destruct H as [H1 H2]. cbn [pieces]. rewrite (IH H2). rewrite H1. destruct (fst (pieces r)); reflexivity.
Qed.
Lemma short_held c r : has_newline c = false -> short (c ++ r) -> slen c < 268435456.
Proof.
  intros N S. destruct c as [|x c]; [cbn; lia|]. unfold short, lines_of in S. rewrite (pieces_glue _ r N) in S. destruct (fst (pieces r)) as [|l ls].
  - assert (Q : slen ((x :: c) ++ snd (pieces r)) < 268435456).
    { destruct ((x :: c) ++ snd (pieces r)) eqn:E; [discriminate|]. cbn [app] in S. inversion S; subst. assumption. }
    rewrite slen_app in Q. pose proof (slen_nonneg (snd (pieces r))). lia.
  - assert (Q : slen ((x :: c) ++ l) < 268435456).
    { destruct (snd (pieces r)); [|cbn [app] in S]; inversion S; subst; assumption. }
    rewrite slen_app in Q. pose proof (slen_nonneg l). lia.
Qed.
Lemma pieces_size b : slen (snd (pieces b)) <= slen b.
Proof.
  assert (G : forall b, (length (snd (pieces b)) <= length b)%nat).
  { clear. induction b as [|c t IH]; cbn [pieces]; [cbn; lia|]. destruct (pieces t) as [ls r]. cbn [snd] in *. destruct (c =? 10); cbn [snd length]; [lia|]. destruct ls; cbn [snd length]; lia. }
  specialize (G b). unfold slen. lia.
Qed.
Lemma pieces_some b : has_newline b = true -> fst (pieces b) <> [].
Proof.
  induction b as [|c t IH]; [discriminate|]. unfold has_newline in *. cbn [existsb pieces]. destruct (pieces t) as [ls r]. cbn [fst] in *. destruct (c =? 10); cbn [orb]; [cbn; discriminate|]. intros H. specialize (IH H). destruct ls; [congruence|cbn; discriminate].
Qed.
Lemma last_newline b : last_is_newline b = true -> exists b', b = b' ++ [10].
Proof.
  unfold last_is_newline. destruct (rev b) as [|c t] eqn:E; [discriminate|]. intros H. apply Z.eqb_eq in H. subst c. exists (rev t). rewrite <- (rev_involutive b), E. reflexivity.
Qed.
Lemma pieces_end b : pieces (b ++ [10]) = (fst (pieces b) ++ [snd (pieces b)], []).
Proof.
  rewrite pieces_app. pose proof (pieces_left b) as Q. destruct (pieces b) as [ls r]. specialize (Q _ _ eq_refl). cbn [fst snd]. rewrite (pieces_text r [] Q). reflexivity.
Qed.
Lemma left_nonempty b : b <> [] -> last_is_newline b = false -> snd (pieces b) <> [].
Proof.
  intros N L. destruct (exists_last N) as (b' & c & ->). unfold last_is_newline in L. rewrite rev_app_distr in L. cbn [rev app] in L. rewrite pieces_app. cbn [snd]. pose proof (pieces_left b') as Q. destruct (pieces b') as [ls r]. cbn [snd]. specialize (Q _ _ eq_refl).
  rewrite (pieces_glue r [c] Q). cbn [pieces]. rewrite L. cbn [fst snd]. intros E. destruct r; discriminate.
Qed.

Lemma lines_left b : snd (pieces b) <> [] -> lines_of b = fst (pieces b) ++ [snd (pieces b)].
Proof. unfold lines_of. destruct (pieces b) as [ls [|c r]]; cbn [fst snd]; [congruence|reflexivity]. Qed.

Lemma stake_sdrop n (s : list Z) : stake n s ++ sdrop n s = s.
Proof. apply firstn_skipn. Qed.

Lemma fill_ok : forall fuel al cont total f, (length (rest f) < fuel)%nat -> (eof f = true -> rest f = []) -> 0 < al <= 536870912 -> slen cont <= al -> 0 <= total <= slen cont -> short (cont ++ rest f) ->
  exists al' got f', fill fuel al cont total f = Ok (al', cont ++ got, total + slen got, f') /\ rest f = got ++ rest f' /\ (eof f' = true -> rest f' = []) /\
    (eof f' = false -> has_newline (cont ++ got) = true) /\ 0 < al' <= 536870912 /\ slen (cont ++ got) <= al'.
Proof.
  induction fuel as [|k IH]; intros al cont total f LF EF AL SC TT SH; [lia|]. cbn [fill]. destruct (eof f) eqn:E; [|destruct (has_newline cont) eqn:N].
  - cbn [orb]. exists al, [], f. rewrite app_nil_r. change (slen []) with 0. rewrite Z.add_0_r. rewrite E. (repeat split; auto; try lia; try (intros; discriminate)).
  - cbn [orb]. exists al, [], f. rewrite app_nil_r. change (slen []) with 0. rewrite Z.add_0_r. rewrite E. (repeat split; auto; try lia; try (intros; discriminate)).
  - cbn [orb]. pose proof (short_held _ _ N SH) as SS. pose proof (slen_nonneg cont) as N0.
    assert (A : exists al1, (if slen cont =? al then chk32 (al * 2) else Ok al) = Ok al1 /\ 0 < al1 <= 536870912 /\ slen cont < al1).
    { destruct (slen cont =? al) eqn:Q; [|exists al; repeat split; lia]. exists (al * 2). rewrite chk32_ok by (unfold in32, INT_MIN, INT_MAX; lia). repeat split; lia. }
    destruct A as (al1 & -> & A1 & A2). cbn [bind fread]. set (n := al1 - slen cont). assert (0 < n) by (subst n; lia).
    assert (LG : slen (stake n (rest f)) <= n /\ slen (stake n (rest f)) <= slen (rest f)) by (unfold stake, slen; rewrite firstn_length; lia).
    pose proof (slen_nonneg (stake n (rest f))) as LG0. rewrite chk32_ok by (unfold in32, INT_MIN, INT_MAX; subst n; lia). cbn [bind]. set (f1 := {| rest := sdrop n (rest f); eof := eof f || (slen (rest f) <? n) |}).
    destruct (eof f1) eqn:E1.
    + assert (R1 : rest f1 = []). { subst f1. cbn [rest eof] in *. rewrite E in E1. cbn [orb] in E1. unfold sdrop. apply skipn_all2. unfold slen in E1. lia. }
      assert (G : stake n (rest f) = rest f). { pose proof (stake_sdrop n (rest f)) as Q. change (sdrop n (rest f)) with (rest f1) in Q. rewrite R1, app_nil_r in Q. exact Q. }
      exists al1, (rest f), f1. assert (FK : fill k al1 (cont ++ stake n (rest f)) (total + slen (stake n (rest f))) f1 = Ok (al1, cont ++ stake n (rest f), total + slen (stake n (rest f)), f1)) by (destruct k; cbn [fill]; rewrite E1; reflexivity).
      rewrite FK, G. split; [reflexivity|]. rewrite R1, app_nil_r. split; [reflexivity|]. split; [reflexivity|]. split; [rewrite E1; intros; discriminate|]. split; [exact A1|]. rewrite slen_app. rewrite G in LG. lia.
    + assert (L1 : (length (rest f1) < k)%nat). { subst f1. cbn [rest eof] in *. rewrite E in E1. cbn [orb] in E1. unfold sdrop. rewrite skipn_length. unfold slen in E1. lia. }
      assert (Q : (cont ++ stake n (rest f)) ++ rest f1 = cont ++ rest f) by (rewrite <- app_assoc; f_equal; apply stake_sdrop).
      destruct (IH al1 (cont ++ stake n (rest f)) (total + slen (stake n (rest f))) f1 L1) as (al' & got & f' & F1 & F2 & F3 & F4 & F5 & F6).
      * rewrite E1. intros; discriminate.
      * exact A1.
      * rewrite slen_app. subst n. lia.
      * rewrite slen_app. pose proof (slen_nonneg (stake n (rest f))). lia.
      * rewrite Q. exact SH.
      * exists al', (stake n (rest f) ++ got), f'. rewrite F1. rewrite <- app_assoc in *. rewrite slen_app. split; [f_equal; f_equal; f_equal; lia|].
        split; [|auto]. rewrite <- app_assoc, <- F2. symmetry. apply stake_sdrop.
Qed.

(** what a reader of a file may be left with between two fills *)
Definition good (b : buffer) (f : input) : Prop :=
  has_newline (held b) = false /\ (eof f = true -> held b = [] /\ rest f = []) /\ (eof f = false -> 0 < alloc b <= 536870912 /\ slen (held b) <= alloc b).

Lemma fillbuf_ok b f : good b f -> short (held b ++ rest f) ->
  exists al cont total f' ls r, fillbuf b f = Ok (al, cont, total, f') /\ findlines cont = (ls, r) /\ lines_of (held b ++ rest f) = ls ++ lines_of (r ++ rest f') /\
    good {| alloc := al; held := r |} f' /\ (total = 0 <-> held b ++ rest f = []) /\ (held b ++ rest f <> [] -> ls <> []) /\ (eof f' = true -> r ++ rest f' = []).
Proof.
  intros (G1 & G2 & G3) SH. unfold fillbuf. destruct (eof f) eqn:E.
  - destruct (G2 eq_refl) as (H0 & R0). assert (F : fill (S (length (rest f))) (alloc b) (held b) 0 f = Ok (alloc b, held b, 0, f)) by (cbn [fill]; rewrite E; reflexivity).
    rewrite F, H0, R0. cbn [bind]. replace (0 <? slen []) with false by reflexivity. rewrite andb_false_r. cbn [andb]. exists (alloc b), [], 0, f, [], []. unfold good. rewrite ?R0, ?E. repeat split; cbn [alloc held]; auto; try discriminate; try (intros; congruence).
  - destruct (G3 eq_refl) as (A1 & A2). destruct (fill_ok (S (length (rest f))) (alloc b) (held b) 0 f) as (al & got & f' & F1 & F2 & F3 & F4 & F5 & F6); [lia|rewrite E; discriminate|assumption|assumption|pose proof (slen_nonneg (held b)); lia|assumption|].
    rewrite F1. cbn [bind]. set (c := held b ++ got) in *. rewrite F2, (app_assoc (held b)). fold c.
    assert (GN : has_newline c = true -> got <> []) by (subst c; rewrite has_newline_app, G1; cbn [orb]; intros H ->; discriminate).
    assert (SG : forall g : list Z, g <> [] -> 0 < slen g) by (intros [|? ?]; [congruence|unfold slen; cbn [length]; lia]).
    destruct (eof f') eqn:E'.
    + rewrite (F3 eq_refl), app_nil_r. destruct c as [|c0 c1] eqn:EC.
      * replace (0 <? slen []) with false by reflexivity. cbn [andb]. assert (GE : got = []) by (subst c; apply app_eq_nil in EC; tauto). subst got. exists al, [], (0 + slen []), f', [], []. unfold good. rewrite (F3 eq_refl), ?E'. repeat split; cbn [alloc held]; auto; try discriminate; try (intros; congruence).
      * rewrite <- EC in *. assert (CN : c <> []) by (rewrite EC; discriminate). pose proof (SG _ CN). replace (0 <? slen c) with true by lia. cbn [andb]. destruct (last_is_newline c) eqn:LN.
        -- cbn [negb]. destruct (last_newline _ LN) as (c' & EC'). exists al, c, (0 + slen got), f', (fst (pieces c)), (snd (pieces c)). rewrite (F3 eq_refl), app_nil_r.
           assert (S0 : snd (pieces c) = []) by (rewrite EC', pieces_end; reflexivity).
           assert (HN : has_newline c = true) by (rewrite EC', has_newline_app; apply orb_true_r).
           split; [reflexivity|]. split; [rewrite findlines_pieces; apply surjective_pairing|]. rewrite S0. split; [unfold lines_of; rewrite (surjective_pairing (pieces c)), S0; rewrite app_nil_r; reflexivity|].
           split; [split; [reflexivity|]; cbn [alloc held]; rewrite E'; split; [auto|discriminate]|]. split; [pose proof (SG _ (GN HN)); split; [lia|congruence]|]. split; [intros _; apply pieces_some; assumption|auto].
        -- cbn [negb]. assert (LE : slen c <= 536870912) by lia.
           assert (A : exists al1, (if slen c =? al then chk32 (al * 2) else Ok al) = Ok al1) by (destruct (slen c =? al); [rewrite chk32_ok by (unfold in32, INT_MIN, INT_MAX; lia)|]; eauto).
           destruct A as (al1 & ->). cbn [bind]. assert (slen got <= slen c) by (subst c; rewrite slen_app; pose proof (slen_nonneg (held b)); lia). pose proof (slen_nonneg got). rewrite chk32_ok by (unfold in32, INT_MIN, INT_MAX; lia). cbn [bind].
           exists al1, (c ++ [10]), (0 + slen got + 1), f', (fst (pieces c) ++ [snd (pieces c)]), []. rewrite (F3 eq_refl), app_nil_r.
           split; [reflexivity|]. split; [rewrite findlines_pieces; apply pieces_end|]. pose proof (left_nonempty _ CN LN) as LL.
           split; [apply lines_left; exact LL|].
           split; [split; [reflexivity|]; cbn [alloc held]; rewrite E'; split; [auto|discriminate]|]. split; [split; [lia|congruence]|]. split; [intros _ Q; apply app_eq_nil in Q; destruct Q; discriminate|auto].
    + cbn [andb]. exists al, c, (0 + slen got), f', (fst (pieces c)), (snd (pieces c)). specialize (F4 eq_refl).
      split; [reflexivity|]. split; [rewrite findlines_pieces; apply surjective_pairing|]. split; [apply lines_app|].
      split; [split; [cbn [held]; eapply pieces_left; apply surjective_pairing|]; cbn [alloc held]; rewrite E'; split; [discriminate|intros _; split; [assumption|pose proof (pieces_size c); lia]]|].
      assert (CN : c <> []) by (intros Q; rewrite Q in F4; discriminate). pose proof (SG _ (GN F4)).
      split; [split; [lia|intros Q; apply app_eq_nil in Q; tauto]|]. split; [intros _; apply pieces_some; assumption|rewrite E'; discriminate].
Qed.
