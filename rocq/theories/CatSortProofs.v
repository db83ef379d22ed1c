(** * Proofs about sorted catalogues: the line written for a name, and reading the number back. *)
From Coq Require Import ZArith List Lia Bool ZifyBool Sorted Permutation.
From Verif Require Import Base ArrayLib CStr CStrProofs PathSpec PathModel PathProofs DateModel DateTextModel IntervalModel SortSpec SortModel SortProofs SortMerge CatSortModel.
Import ListNotations.
Open Scope Z_scope.

(** a text in a column of [w] characters *)
Definition fit (w : Z) (t : list Z) : list Z := stake w t ++ repeat 32 (Z.to_nat (w - slen t)).
Definition row (cells : list (list Z * Z)) : list Z := flat_map (fun c => fit (snd c + 1) (fst c)) cells.
Definition total (cells : list (list Z * Z)) : Z := fold_right (fun c a => snd c + 1 + a) 0 cells.

Lemma slen_repeat c n : slen (repeat c n) = Z.of_nat n.
Proof. unfold slen. rewrite repeat_length. reflexivity. Qed.
Lemma fit_len w t : 0 <= w -> slen (fit w t) = w.
Proof. intros. unfold fit. rewrite slen_app, slen_repeat. unfold stake, slen. rewrite firstn_length. lia. Qed.
Lemma row_len cells : Forall (fun c => 0 <= snd c) cells -> slen (row cells) = total cells.
Proof. induction 1 as [|c t H _ IH]; [reflexivity|]. unfold row in *. cbn [flat_map total fold_right]. rewrite slen_app, IH, fit_len by lia. unfold total. lia. Qed.
Lemma total_nonneg cells : Forall (fun c => 0 <= snd c) cells -> 0 <= total cells.
Proof. induction 1; cbn [total fold_right]; [lia|]. unfold total in *. lia. Qed.

Lemma fixed_loop_ok size cell last : forall ks s text, Forall (fun k => 0 <= snd (cell k)) ks -> slen text <= s -> s + total (map cell ks) + slen last <= size ->
  fixed_loop size (columns cell last s ks) text = Ok (text ++ repeat 32 (Z.to_nat (s - slen text)) ++ row (map cell ks) ++ last).
Proof.
  induction ks as [|k t IH]; intros s text F L T; cbn [columns fixed_loop].
  - cbv zeta. replace (slen last >? slen last) with false by lia. cbn [map total fold_right] in T. rewrite stake_all by lia. rewrite !slen_app, slen_repeat. pose proof (slen_nonneg text). replace (slen text + Z.of_nat (Z.to_nat (s - slen text)) + slen last >? size) with false by lia.
    cbn [map row flat_map app]. rewrite <- app_assoc. reflexivity.
  - cbv zeta. inversion F as [|? ? Fk Ft]; subst. cbn [map total fold_right] in T. fold (total (map cell t)) in T. destruct (cell k) as [f w] eqn:C. cbn [fst snd] in *.
    assert (D : (match columns cell last (s + w + 1) t with (_, next) :: _ => next - s | [] => slen f end) = w + 1) by (destruct t; cbn [columns]; lia). rewrite D. clear D.
    pose proof (slen_nonneg text) as N0. pose proof (slen_nonneg f) as N1. pose proof (slen_nonneg last) as N2.
    assert (ST : stake (if slen f >? w + 1 then w + 1 else slen f) f = stake (w + 1) f) by (destruct (slen f >? w + 1) eqn:Q; [reflexivity|]; rewrite !stake_all by lia; reflexivity). rewrite ST.
    assert (LS : slen (stake (w + 1) f) = Z.min (w + 1) (slen f)) by (unfold stake, slen; rewrite firstn_length; lia).
    assert (TN : 0 <= total (map cell t)) by (apply total_nonneg, Forall_map; exact Ft).
    rewrite !slen_app, slen_repeat, LS. replace (slen text + Z.of_nat (Z.to_nat (s - slen text)) + Z.min (w + 1) (slen f) >? size) with false by lia.
    rewrite IH; [|exact Ft|rewrite !slen_app, slen_repeat, LS; lia|lia]. f_equal. rewrite !slen_app, slen_repeat, LS. cbn [map row flat_map]. rewrite C. cbn [fst snd]. unfold fit. rewrite <- !app_assoc. do 3 f_equal. replace (Z.to_nat (s + w + 1 - (slen text + Z.of_nat (Z.to_nat (s - slen text)) + Z.min (w + 1) (slen f)))) with (Z.to_nat (w + 1 - slen f)) by lia. reflexivity.
Qed.
Lemma toFixed_ok size cell last ks : ks <> [] -> Forall (fun k => 0 <= snd (cell k)) ks -> total (map cell ks) + slen last < size ->
  toFixedFields size (columns cell last 0 ks) = Ok (row (map cell ks) ++ last).
Proof.
  intros N F T. unfold toFixedFields. assert (H0 : (match columns cell last 0 ks with (_, c) :: _ => repeat 32 (Z.to_nat c) | [] => [] end) = []) by (destruct ks; reflexivity). rewrite H0.
  rewrite fixed_loop_ok by (try assumption; change (slen []) with 0; lia). cbn [bind]. change (repeat 32 (Z.to_nat (0 - slen []))) with (@nil Z). cbn [app]. rewrite slen_app, row_len by (apply Forall_map; exact F). replace (total (map cell ks) + slen last <? size) with true by lia. reflexivity.
Qed.

(** ** The number at the end of a line *)
Lemma fmt10_nonneg i : 0 <= i <= 2147483647 -> exists D, fmt10 i = 32 :: D /\ alldig D = true /\ dval D = i /\ slen D = 10.
Proof.
  intros H. unfold fmt10. replace (i <? 0) with false by lia. destruct (dec_spec i H) as (A & B & C). destruct (pad0_spec 10 (dec i) A) as (A2 & B2 & C2). eexists. split; [reflexivity|]. split; [exact A2|]. split; [congruence|lia].
Qed.
Lemma fmt10_neg i : -2147483647 <= i < 0 -> exists D, fmt10 i = 32 :: 45 :: D /\ alldig D = true /\ dval D = - i /\ slen D = 10.
Proof.
  intros H. unfold fmt10. replace (i <? 0) with true by lia. destruct (dec_spec (- i) ltac:(lia)) as (A & B & C). destruct (pad0_spec 10 (dec (- i)) A) as (A2 & B2 & C2). eexists. split; [reflexivity|]. split; [exact A2|]. split; [congruence|lia].
Qed.

Lemma digits_val_mono s : alldig s = true -> forall a, 0 <= a -> a <= digits_val a s.
Proof.
  induction s as [|c s IH]; intros A a N; cbn [digits_val]; [lia|]. unfold alldig in A. cbn [forallb] in A. apply andb_true_iff in A. destruct A as (A1 & A2). pose proof (proj1 (is_digit_range c) A1). rewrite A1. specialize (IH A2 (a * 10 + (c - 48)) ltac:(lia)). lia.
Qed.
Lemma run_val_ok s : alldig s = true -> forall a, 0 <= a -> digits_val a s <= 2147483647 -> run_val a s = Ok (digits_val a s).
Proof.
  induction s as [|c s IH]; intros A a N B; [reflexivity|]. unfold alldig in A. cbn [forallb] in A. apply andb_true_iff in A. destruct A as (A1 & A2). cbn [run_val digits_val] in *. rewrite A1 in *. pose proof (proj1 (is_digit_range c) A1).
  pose proof (digits_val_mono s A2 (a * 10 + (c - 48)) ltac:(lia)). rewrite chk32_ok by (unfold in32, INT_MIN, INT_MAX; lia). cbn [bind]. rewrite chk32_ok by (unfold in32, INT_MIN, INT_MAX; lia). cbn [bind]. apply IH; [exact A2|lia|exact B].
Qed.

Lemma down_at p s : forall m n, (n < m)%nat -> (0 < n)%nat -> p (nth n s 0) = true -> (forall k, (n < k < m)%nat -> p (nth k s 0) = false) -> down p (Nat.pred m) s = Some (Z.of_nat n).
Proof.
  induction m as [|m IH]; intros n L N P Q; [lia|]. cbn [Nat.pred]. destruct (Nat.eq_dec n m) as [->|D].
  - destruct m; [lia|]. cbn [down]. rewrite P. reflexivity.
  - destruct m; [lia|]. cbn [down]. rewrite (Q (S m)) by lia. apply IH; auto; try lia. intros k K. apply Q. lia.
Qed.

Lemma getLastInt_ok K i : K <> [] -> 0 <= i <= 2147483647 -> getLastInt (K ++ fmt10 i) = Ok i.
Proof.
  intros N R. destruct (fmt10_nonneg i R) as (D & E & A & V & L). rewrite E. unfold getLastInt. assert (KL : 0 < slen K) by (destruct K; [congruence|unfold slen; cbn [length]; lia]).
  rewrite slen_app, slen_cons, L. replace (slen K + (10 + 1) - 1) with (slen K + 10) by lia. replace (slen K + 10 <? 0) with false by lia.
  assert (LK : Z.to_nat (slen K) = length K) by (unfold slen; lia).
  assert (ND : forall k, (k < 10)%nat -> is_digit (nth (length K + 1 + k) (K ++ 32 :: D) 0) = true).
  { intros k Hk. rewrite app_nth2 by lia. replace (length K + 1 + k - length K)%nat with (S k) by lia. cbn [nth]. unfold alldig in A. rewrite forallb_forall in A. apply A. apply nth_In. unfold slen in L. lia. }
  assert (N32 : forall k, (k < 10)%nat -> (nth (length K + 1 + k) (K ++ 32 :: D) 0 =? 32) = false) by (intros k Hk; specialize (ND k Hk); apply is_digit_range in ND; lia).
  replace (Z.to_nat (slen K + 10)) with (length K + 1 + 9)%nat by lia. rewrite N32 by lia. cbv iota zeta. replace (slen K + 10 <? 0) with false by lia.
  replace (Z.to_nat (slen K + 10 - 1)) with (Nat.pred (length K + 10)) by lia. rewrite (down_at _ _ (length K + 10) (length K)).
  - replace (Z.of_nat (length K)) with (slen K) by reflexivity. replace (slen K + 1 =? slen K + 10 - 1) with false by lia. replace (sdrop (slen K + 1) (K ++ 32 :: D)) with D.
    + unfold findInt. destruct D as [|d0 D]; [unfold slen in L; cbn in L; lia|]. cbn [first_digit]. pose proof A as A'. unfold alldig in A'. cbn [forallb] in A'. apply andb_true_iff in A'. destruct A' as (A1 & _). rewrite A1. change (sdrop 0 (d0 :: D)) with (d0 :: D). cbv iota.
      change (0 >? 0) with false. rewrite run_val_ok; [|exact A|lia|unfold dval in V; lia]. cbn [bind fst]. unfold dval in V. rewrite V. reflexivity.
    + change (K ++ 32 :: D) with (K ++ [32] ++ D). rewrite app_assoc. replace (slen K + 1) with (slen (K ++ [32])) by (rewrite slen_app; reflexivity). symmetry. apply sdrop_app.
  - lia.
  - unfold slen in KL. lia.
  - rewrite app_nth2 by lia. rewrite Nat.sub_diag. reflexivity.
  - intros k Hk. replace k with (length K + 1 + (k - length K - 1))%nat by lia. apply N32. lia.
Qed.

(** ** fgets on a whole line *)
Lemma fgets_line l u : has_newline l = false -> forall n, (length l < n)%nat -> fgets n (l ++ 10 :: u) = (l ++ [10], u).
Proof.
  induction l as [|c l IH]; intros N n L; (destruct n as [|n]; [cbn in L; lia|]); cbn [app fgets]; [reflexivity|]. unfold has_newline in *. cbn [existsb] in N. apply orb_false_iff in N. destruct N as (N1 & N2). rewrite N1, (IH N2 n) by (cbn in L; lia). reflexivity.
Qed.
