(** * Lemmas about C strings, decimal text and searches. *)
From Coq Require Import ZArith List Bool Lia ZifyBool.
From Verif Require Import Base ArrayLib HashModel CStr.
Import ListNotations.
Open Scope Z_scope.
Open Scope res_scope.

Definition alldig (s : list Z) : bool := forallb is_digit s.
Definition dval (s : list Z) : Z := digits_val 0 s.

Lemma is_digit_range c : is_digit c = true <-> 48 <= c <= 57.
Proof. unfold is_digit. lia. Qed.

Lemma slen_app a b : slen (a ++ b) = slen a + slen b.
Proof. unfold slen. rewrite app_length. lia. Qed.
Lemma slen_nonneg a : 0 <= slen a.
Proof. unfold slen. lia. Qed.
Lemma slen_cons c a : slen (c :: a) = slen a + 1.
Proof. unfold slen. cbn [length]. lia. Qed.

Lemma stake_all n s : slen s <= n -> stake n s = s.
Proof. unfold stake, slen. intros H. apply firstn_all2. lia. Qed.
Lemma stake_app a b : stake (slen a) (a ++ b) = a.
Proof. unfold stake, slen. rewrite Nat2Z.id, firstn_app, firstn_all, Nat.sub_diag. cbn. apply app_nil_r. Qed.
Lemma sdrop_app a b : sdrop (slen a) (a ++ b) = b.
Proof. unfold sdrop, slen. rewrite Nat2Z.id, skipn_app, skipn_all, Nat.sub_diag. reflexivity. Qed.

Lemma digits_val_app a b acc : alldig a = true -> digits_val acc (a ++ b) = digits_val (digits_val acc a) b.
Proof.
  revert acc. induction a as [|c a IH]; intros acc H; [reflexivity|].
  cbn [alldig forallb] in H. apply andb_true_iff in H. destruct H as [H1 H2].
  cbn [app digits_val]. rewrite H1. apply IH. exact H2.
Qed.

Lemma alldig_app a b : alldig (a ++ b) = alldig a && alldig b.
Proof. apply forallb_app. Qed.

Lemma dec_fuel_spec f n : 0 <= n < 10 ^ Z.of_nat f -> (0 < f)%nat ->
  alldig (dec_fuel f n) = true /\ dval (dec_fuel f n) = n /\ 1 <= slen (dec_fuel f n).
Proof.
  revert n. induction f as [|f IH]; intros n H Hf; [lia|].
  cbn [dec_fuel]. destruct (n <? 10) eqn:E.
  - unfold alldig, dval. cbn [forallb digits_val].
    assert (D : is_digit (48 + n) = true) by (apply is_digit_range; lia). rewrite D.
    split; [reflexivity|]. split; [lia|]. unfold slen; cbn; lia.
  - rewrite Nat2Z.inj_succ, Z.pow_succ_r in H by lia.
    assert (Hd : 0 <= n / 10 < 10 ^ Z.of_nat f) by (split; [apply Z.div_pos; lia|apply Z.div_lt_upper_bound; lia]).
    assert (Hf' : (0 < f)%nat).
    { destruct f; [|lia]. cbn in Hd. apply Z.ltb_ge in E. assert (1 <= n / 10) by (apply Z.div_le_lower_bound; lia). lia. }
    destruct (IH _ Hd Hf') as (A & B & C).
    assert (D : is_digit (48 + n mod 10) = true) by (apply is_digit_range; pose proof (Z.mod_pos_bound n 10); lia).
    split; [rewrite alldig_app, A; cbn [alldig forallb]; rewrite D; reflexivity|]. split.
    + unfold dval in *. rewrite digits_val_app by exact A. rewrite B. cbn [digits_val]. rewrite D.
      pose proof (Z.div_mod n 10). lia.
    + rewrite slen_app. pose proof (slen_nonneg [48 + n mod 10]). lia.
Qed.

Lemma dec_fuel_len f : forall n (k : nat), 0 <= n < 10 ^ Z.of_nat k -> (1 <= k)%nat -> slen (dec_fuel f n) <= Z.of_nat k.
Proof.
  induction f as [|f IH]; intros n k H Hk; cbn [dec_fuel]; [unfold slen; cbn; lia|].
  destruct (n <? 10) eqn:E; [unfold slen; cbn; lia|].
  destruct k as [|k]; [lia|].
  rewrite Nat2Z.inj_succ, Z.pow_succ_r in H by lia.
  assert (Hd : 0 <= n / 10 < 10 ^ Z.of_nat k) by (split; [apply Z.div_pos; lia|apply Z.div_lt_upper_bound; lia]).
  assert (Hk' : (1 <= k)%nat).
  { destruct k; [|lia]. cbn in Hd. apply Z.ltb_ge in E. assert (1 <= n / 10) by (apply Z.div_le_lower_bound; lia). lia. }
  specialize (IH _ _ Hd Hk'). rewrite slen_app. change (slen [48 + n mod 10]) with 1. lia.
Qed.

Lemma dec_spec n : 0 <= n <= 2147483647 -> alldig (dec n) = true /\ dval (dec n) = n /\ 1 <= slen (dec n) <= 10.
Proof.
  intros H. unfold dec. destruct (dec_fuel_spec 20 n) as (A & B & C).
  - change (10 ^ Z.of_nat 20) with 100000000000000000000. lia.
  - lia.
  - split; [exact A|]. split; [exact B|]. split; [exact C|].
    apply (dec_fuel_len 20 n 10); [change (10 ^ Z.of_nat 10) with 10000000000; lia|lia].
Qed.

Lemma repeat0_dig k : alldig (repeat 48 k) = true /\ forall acc, acc = 0 -> digits_val acc (repeat 48 k) = 0.
Proof.
  induction k as [|k [IH1 IH2]]; [split; [reflexivity|intros acc ->; reflexivity]|].
  split; [exact IH1|]. intros acc ->. cbn [repeat digits_val]. change (is_digit 48) with true. cbv iota. apply IH2. reflexivity.
Qed.
Lemma pad0_spec w s : alldig s = true -> alldig (pad0 w s) = true /\ dval (pad0 w s) = dval s /\ slen (pad0 w s) = Z.max w (slen s).
Proof.
  intros H. unfold pad0, dval. destruct (repeat0_dig (Z.to_nat (w - slen s))) as [A B].
  split; [rewrite alldig_app, A; exact H|]. split.
  - rewrite digits_val_app by exact A. rewrite B by reflexivity. reflexivity.
  - rewrite slen_app. unfold slen at 1. rewrite repeat_length. pose proof (slen_nonneg s). lia.
Qed.

Lemma int4_spec y : 0 <= y <= 9999 -> alldig (intTo4char y) = true /\ dval (intTo4char y) = y /\ slen (intTo4char y) = 4.
Proof.
  intros H. destruct (dec_spec y ltac:(lia)) as (A & B & C).
  assert (L : slen (dec y) <= 4) by (apply (dec_fuel_len 20 y 4); [change (10 ^ Z.of_nat 4) with 10000; lia|lia]).
  unfold intTo4char, fmt_0d. replace (y <? 0) with false by lia.
  destruct (pad0_spec 4 _ A) as (A' & B' & C'). rewrite stake_all by lia. rewrite B'. split; [exact A'|]. split; [exact B|]. lia.
Qed.
Lemma int2_spec y : 0 <= y <= 99 -> alldig (intTo2char y) = true /\ dval (intTo2char y) = y /\ slen (intTo2char y) = 2.
Proof.
  intros H. destruct (dec_spec y ltac:(lia)) as (A & B & C).
  assert (L : slen (dec y) <= 2) by (apply (dec_fuel_len 20 y 2); [change (10 ^ Z.of_nat 2) with 100; lia|lia]).
  unfold intTo2char, fmt_0d. replace (y <? 0) with false by lia.
  destruct (pad0_spec 2 _ A) as (A' & B' & C'). rewrite stake_all by lia. rewrite B'. split; [exact A'|]. split; [exact B|]. lia.
Qed.

Lemma atoi_digits t : alldig t = true -> 1 <= slen t -> dval t <= 2147483647 -> 0 <= dval t -> atoi t = Ok (dval t).
Proof.
  intros D L V V0. destruct t as [|c t]; [unfold slen in L; cbn in L; lia|].
  pose proof D as D'. cbn [alldig forallb] in D'. apply andb_true_iff in D'. destruct D' as [D1 D2].
  apply is_digit_range in D1.
  unfold atoi. cbn [skip_space]. unfold is_space.
  replace ((c =? 32) || (9 <=? c) && (c <=? 13)) with false by lia.
  replace (c =? 45) with false by lia. replace (c =? 43) with false by lia.
  apply chk32_ok. unfold in32, INT_MIN, INT_MAX. unfold dval in *. lia.
Qed.

Lemma dval_nonneg t : alldig t = true -> 0 <= dval t.
Proof.
  unfold dval. assert (G : forall acc, 0 <= acc -> alldig t = true -> 0 <= digits_val acc t).
  { induction t as [|c t IH]; intros acc Ha D; [exact Ha|].
    cbn [alldig forallb] in D. apply andb_true_iff in D. destruct D as [D1 D2]. pose proof D1 as R. apply is_digit_range in R.
    cbn [digits_val]. rewrite D1. apply IH; [lia|exact D2]. }
  intros D. apply G; [lia|exact D].
Qed.

Lemma digit_toupper c : is_digit c = true -> toupper c = c.
Proof. intros H. apply is_digit_range in H. unfold toupper. destruct ((97 <=? c) && (c <=? 122)) eqn:E; lia. Qed.
Lemma alldig_upper t : alldig t = true -> upperCase t = t.
Proof.
  induction t as [|c t IH]; intros D; [reflexivity|].
  cbn [alldig forallb] in D. apply andb_true_iff in D. destruct D as [D1 D2].
  unfold upperCase in *. cbn [map]. rewrite digit_toupper by exact D1. f_equal. apply IH. exact D2.
Qed.
Lemma upper_app a b : upperCase (a ++ b) = upperCase a ++ upperCase b.
Proof. apply map_app. Qed.

Definition absent (c : Z) (s : list Z) : bool := forallb (fun x => negb (x =? c)) s.
Lemma strchr_absent s c : absent c s = true -> strchr s c = None.
Proof.
  induction s as [|x s IH]; intros H; [reflexivity|].
  cbn [absent forallb] in H. apply andb_true_iff in H. destruct H as [H1 H2].
  cbn [strchr]. destruct (x =? c); [discriminate|]. rewrite IH by exact H2. reflexivity.
Qed.
Lemma strrchr_absent s c : absent c s = true -> strrchr s c = None.
Proof.
  induction s as [|x s IH]; intros H; [reflexivity|].
  cbn [absent forallb] in H. apply andb_true_iff in H. destruct H as [H1 H2].
  cbn [strrchr]. rewrite IH by exact H2. destruct (x =? c); [discriminate|]. reflexivity.
Qed.
Lemma strchr_first s c t : absent c s = true -> strchr (s ++ c :: t) c = Some (slen s).
Proof.
  induction s as [|x s IH]; intros H; [cbn; rewrite Z.eqb_refl; reflexivity|].
  cbn [absent forallb] in H. apply andb_true_iff in H. destruct H as [H1 H2].
  cbn [app strchr]. destruct (x =? c); [discriminate|]. rewrite IH by exact H2. rewrite slen_cons. reflexivity.
Qed.
Lemma absent_app c a b : absent c (a ++ b) = absent c a && absent c b.
Proof. apply forallb_app. Qed.
Lemma absent_digits c t : alldig t = true -> is_digit c = false -> absent c t = true.
Proof.
  intros D H. unfold absent. apply forallb_forall. intros x Hx. unfold alldig in D. rewrite forallb_forall in D.
  specialize (D x Hx). apply negb_true_iff, Z.eqb_neq. intros ->. congruence.
Qed.

Lemma rnn_digits t : alldig t = true -> reverseNonNumeric t = None.
Proof.
  induction t as [|c t IH]; intros D; [reflexivity|].
  cbn [alldig forallb] in D. apply andb_true_iff in D. destruct D as [D1 D2].
  cbn [reverseNonNumeric]. rewrite IH by exact D2. rewrite D1. reflexivity.
Qed.
Lemma rnn_app u c t : is_digit c = false -> alldig t = true -> reverseNonNumeric (u ++ c :: t) = Some (slen u).
Proof.
  intros H D. induction u as [|x u IH].
  - cbn [app reverseNonNumeric]. rewrite rnn_digits by exact D. rewrite H. reflexivity.
  - cbn [app reverseNonNumeric]. rewrite IH. rewrite slen_cons. reflexivity.
Qed.

Lemma aget_mid {A} (u : list A) c t : aget (u ++ c :: t) (Z.of_nat (length u)) = Ok c.
Proof.
  unfold aget. destruct (Z.of_nat (length u) <? 0) eqn:E; [lia|]. rewrite Nat2Z.id.
  rewrite nth_error_app2 by lia. rewrite Nat.sub_diag. reflexivity.
Qed.

Lemma cstr_put buf s : absent 0 s = true -> slen s < alen buf ->
  exists b, put_str buf s = Ok b /\ cstr b = Ok s /\ alen b = alen buf.
Proof.
  revert buf. induction s as [|c s IH]; intros buf H L.
  - destruct buf as [|x buf]; [unfold slen, alen in L; cbn in L; lia|].
    exists (0 :: buf). split; [reflexivity|]. split; reflexivity.
  - destruct buf as [|x buf]; [unfold slen, alen in L; cbn in L; lia|].
    cbn [absent forallb] in H. apply andb_true_iff in H. destruct H as [H1 H2].
    destruct (IH buf H2) as (b & E & C & A); [unfold slen, alen in *; cbn [length] in L; lia|].
    exists (c :: b). cbn [put_str]. rewrite E. split; [reflexivity|]. split.
    + cbn [cstr]. destruct (c =? 0); [discriminate|]. rewrite C. reflexivity.
    + unfold alen in *. cbn [length]. lia.
Qed.
