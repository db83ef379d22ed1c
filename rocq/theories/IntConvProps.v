(** * C63: quality flags and notes retrieved with another element size. *)
From Coq Require Import ZArith List Bool Lia ZifyBool.
From Verif Require Import Base ArrayLib IntConvModel.
Import ListNotations.
Open Scope Z_scope.
Open Scope res_scope.

(** ** Specification *)
(** [n] words from [p] lie in the memory *)
Definition inside (mem : list Z) (p n : Z) : Prop := 0 <= p /\ p + n <= alen mem.
(** the two arrays have no word in common *)
Definition apart (p n q k : Z) : Prop := p + n <= q \/ q + k <= p.
(** entry i of the result: the words of entry i of the source, cut, or filled with zeros; no other word of the memory changes *)
Definition converted (mem mem' : list Z) (pin pout n a b : Z) : Prop :=
  alen mem' = alen mem /\
  (forall i k, 0 <= i < n -> 0 <= k < b -> aget mem' (pout + i * b + k) = if k <? a then aget mem (pin + i * a + k) else Ok 0) /\
  (forall j, ~ (pout <= j < pout + n * b) -> aget mem' j = aget mem j).

(** ** lemmas *)
Lemma copy_words_ok n : forall mem pin pout, inside mem pin (Z.of_nat n) -> inside mem pout (Z.of_nat n) -> pout <= pin \/ pin + Z.of_nat n <= pout ->
  exists m, copy_words n mem pin pout = Ok m /\ alen m = alen mem /\
    forall j, aget m j = if (pout <=? j) && (j <? pout + Z.of_nat n) then aget mem (pin + (j - pout)) else aget mem j.
Proof.
  induction n as [|n IH]; intros mem pin pout (P0 & P1) (Q0 & Q1) H; cbn [copy_words].
  - exists mem. split; [reflexivity|]. split; [reflexivity|]. intros j. replace ((pout <=? j) && (j <? pout + Z.of_nat 0)) with false by lia. reflexivity.
  - destruct (aget_some mem pin ltac:(lia)) as (v & EV). rewrite EV. cbn [bind]. destruct (aset_ok mem pout v ltac:(lia)) as (m1 & E1 & L1 & G1). rewrite E1. cbn [bind].
    destruct (IH m1 (pin + 1) (pout + 1)) as (m & E & L & G); [split; lia|split; lia|lia|].
    exists m. split; [exact E|]. split; [lia|]. intros j. rewrite G.
    destruct (Z.eq_dec j pout) as [->|NE].
    + replace ((pout + 1 <=? pout) && _) with false by lia. rewrite G1, Z.eqb_refl. replace ((pout <=? pout) && (pout <? pout + Z.of_nat (S n))) with true by lia.
      replace (pin + (pout - pout)) with pin by lia. symmetry. exact EV.
    + destruct ((pout + 1 <=? j) && (j <? pout + 1 + Z.of_nat n)) eqn:B.
      * replace ((pout <=? j) && (j <? pout + Z.of_nat (S n))) with true by lia. rewrite G1. replace (pin + 1 + (j - (pout + 1))) with (pin + (j - pout)) by lia.
        replace (pin + (j - pout) =? pout) with false by lia. reflexivity.
      * replace ((pout <=? j) && (j <? pout + Z.of_nat (S n))) with false by lia. rewrite G1. replace (j =? pout) with false by lia. reflexivity.
Qed.
Lemma zero_words_ok n : forall mem pout, inside mem pout (Z.of_nat n) ->
  exists m, zero_words n mem pout = Ok m /\ alen m = alen mem /\
    forall j, aget m j = if (pout <=? j) && (j <? pout + Z.of_nat n) then Ok 0 else aget mem j.
Proof.
  induction n as [|n IH]; intros mem pout (Q0 & Q1); cbn [zero_words].
  - exists mem. split; [reflexivity|]. split; [reflexivity|]. intros j. replace ((pout <=? j) && (j <? pout + Z.of_nat 0)) with false by lia. reflexivity.
  - destruct (aset_ok mem pout 0 ltac:(lia)) as (m1 & E1 & L1 & G1). rewrite E1. cbn [bind].
    destruct (IH m1 (pout + 1)) as (m & E & L & G); [split; lia|].
    exists m. split; [exact E|]. split; [lia|]. intros j. rewrite G, G1. destruct (Z.eq_dec j pout) as [->|NE].
    + replace ((pout + 1 <=? pout) && _) with false by lia. rewrite Z.eqb_refl. replace ((pout <=? pout) && (pout <? pout + Z.of_nat (S n))) with true by lia. reflexivity.
    + replace (j =? pout) with false by lia. replace ((pout <=? j) && (j <? pout + Z.of_nat (S n))) with ((pout + 1 <=? j) && (j <? pout + 1 + Z.of_nat n)) by lia. reflexivity.
Qed.
Lemma element_ok mem pin pout a b : 1 <= a -> 1 <= b -> inside mem pin a -> inside mem pout b ->
  pout <= pin \/ pin + Z.min a b <= pout ->
  exists m, convertDataLength mem pin pout a b = Ok m /\ alen m = alen mem /\
    forall j, aget m j = if (pout <=? j) && (j <? pout + b) then (if j - pout <? a then aget mem (pin + (j - pout)) else Ok 0) else aget mem j.
Proof.
  intros A B (P0 & P1) (Q0 & Q1) H. unfold convertDataLength.
  assert (SHORT : b <= a -> exists m, copy_words (Z.to_nat b) mem pin pout = Ok m /\ alen m = alen mem /\
    forall j, aget m j = if (pout <=? j) && (j <? pout + b) then (if j - pout <? a then aget mem (pin + (j - pout)) else Ok 0) else aget mem j).
  { intros AB. destruct (copy_words_ok (Z.to_nat b) mem pin pout) as (m & E & L & G); [split; lia|split; lia|lia|].
    exists m. split; [exact E|]. split; [exact L|]. intros j. rewrite G. replace (Z.of_nat (Z.to_nat b)) with b by lia.
    destruct ((pout <=? j) && (j <? pout + b)) eqn:J; [replace (j - pout <? a) with true by lia|]; reflexivity. }
  destruct (a =? b) eqn:E1; [apply SHORT; lia|]. destruct (a >? b) eqn:E2; [apply SHORT; lia|]. clear SHORT.
  destruct (copy_words_ok (Z.to_nat a) mem pin pout) as (m1 & M1 & L1 & G1); [split; lia|split; lia|lia|]. rewrite M1. cbn [bind].
  destruct (zero_words_ok (Z.to_nat (b - a)) m1 (pout + a)) as (m & M & L & G); [split; lia|]. exists m. split; [exact M|]. split; [lia|].
  intros j. rewrite G, G1. replace (Z.of_nat (Z.to_nat (b - a))) with (b - a) by lia. replace (Z.of_nat (Z.to_nat a)) with a by lia.
  destruct ((pout + a <=? j) && (j <? pout + a + (b - a))) eqn:J1.
  - replace ((pout <=? j) && (j <? pout + b)) with true by lia. replace (j - pout <? a) with false by lia. reflexivity.
  - destruct ((pout <=? j) && (j <? pout + a)) eqn:J2.
    + replace ((pout <=? j) && (j <? pout + b)) with true by lia. replace (j - pout <? a) with true by lia. reflexivity.
    + replace ((pout <=? j) && (j <? pout + b)) with false by lia. reflexivity.
Qed.

Lemma convert_up_ok n : forall i mem pin pout a b, 1 <= a -> 1 <= b -> 0 <= i ->
  inside mem pin ((i + Z.of_nat n) * a) -> inside mem pout ((i + Z.of_nat n) * b) ->
  (pout <= pin /\ b <= a) \/ apart pin ((i + Z.of_nat n) * a) pout ((i + Z.of_nat n) * b) ->
  exists m, convert_up n i mem pin pout a b = Ok m /\ alen m = alen mem /\
    (forall x k, i <= x < i + Z.of_nat n -> 0 <= k < b -> aget m (pout + x * b + k) = if k <? a then aget mem (pin + x * a + k) else Ok 0) /\
    (forall j, ~ (pout + i * b <= j < pout + (i + Z.of_nat n) * b) -> aget m j = aget mem j).
Proof.
  induction n as [|n IH]; intros i mem pin pout a b A B I (P0 & P1) (Q0 & Q1) H; cbn [convert_up].
  - exists mem. split; [reflexivity|]. split; [reflexivity|]. split; [intros; lia|]. reflexivity.
  - assert (X1 : (i + 1) * a <= (i + Z.of_nat (S n)) * a) by (apply Z.mul_le_mono_nonneg_r; lia).
    assert (X2 : (i + 1) * b <= (i + Z.of_nat (S n)) * b) by (apply Z.mul_le_mono_nonneg_r; lia).
    assert (X3 : 0 <= i * a) by (apply Z.mul_nonneg_nonneg; lia). assert (X4 : 0 <= i * b) by (apply Z.mul_nonneg_nonneg; lia).
    assert (X5 : b <= a -> i * b <= i * a) by (intros; apply Z.mul_le_mono_nonneg_l; lia).
    rewrite Z.mul_add_distr_r, Z.mul_1_l in X1, X2.
    destruct (element_ok mem (pin + i * a) (pout + i * b) a b A B) as (m1 & E1 & L1 & G1); [split; lia|split; lia|destruct H as [H|[H|H]]; [left; lia|right; lia|left; lia]|].
    rewrite E1. cbn [bind]. replace (i + Z.of_nat (S n)) with (i + 1 + Z.of_nat n) in * by lia.
    destruct (IH (i + 1) m1 pin pout a b A B ltac:(lia)) as (m & E & L & G & K); [split; lia|split; lia|exact H|].
    exists m. split; [exact E|]. split; [lia|]. split.
    + intros x k Hx Hk. destruct (Z.eq_dec x i) as [->|NE].
      * rewrite K by lia. rewrite G1. replace ((pout + i * b <=? pout + i * b + k) && (pout + i * b + k <? pout + i * b + b)) with true by lia.
        replace (pout + i * b + k - (pout + i * b)) with k by lia. reflexivity.
      * rewrite G by lia. destruct (k <? a) eqn:KA; [|reflexivity]. rewrite G1.
        assert (Y1 : (i + 1) * a <= x * a) by (apply Z.mul_le_mono_nonneg_r; lia).
        assert (Y2 : (x + 1) * a <= (i + 1 + Z.of_nat n) * a) by (apply Z.mul_le_mono_nonneg_r; lia).
        rewrite Z.mul_add_distr_r, Z.mul_1_l in Y1, Y2.
        replace ((pout + i * b <=? pin + x * a + k) && (pin + x * a + k <? pout + i * b + b)) with false; [reflexivity|].
        symmetry. destruct H as [H|[H|H]]; lia.
    + intros j Hj. rewrite K by lia. rewrite G1. replace ((pout + i * b <=? j) && (j <? pout + i * b + b)) with false by lia. reflexivity.
Qed.
Lemma convert_down_ok n : forall mem pin pout a b, 1 <= a -> a < b ->
  inside mem pin (Z.of_nat n * a) -> inside mem pout (Z.of_nat n * b) ->
  (pout = pin /\ a = 1) \/ apart pin (Z.of_nat n * a) pout (Z.of_nat n * b) ->
  exists m, convert_down n mem pin pout a b = Ok m /\ converted mem m pin pout (Z.of_nat n) a b.
Proof.
  induction n as [|n IH]; intros mem pin pout a b A B (P0 & P1) (Q0 & Q1) H; cbn [convert_down].
  - exists mem. split; [reflexivity|]. split; [reflexivity|]. split; [intros; lia|]. reflexivity.
  - set (N := Z.of_nat n) in *. assert (EN : Z.of_nat (S n) = N + 1) by lia. rewrite EN in *. rewrite !Z.mul_add_distr_r, !Z.mul_1_l in *.
    assert (X3 : 0 <= N * a) by (apply Z.mul_nonneg_nonneg; lia). assert (X4 : N * a <= N * b) by (apply Z.mul_le_mono_nonneg_l; lia).
    assert (X5 : a = 1 -> pout = pin -> pout + N * b <= pin + N * a \/ pin + N * a + a <= pout + N * b).
    { intros -> ->. destruct (Z.eq_dec N 0) as [Z0|Z0]; [left; rewrite Z0; lia|right]. assert (N * 2 <= N * b) by (apply Z.mul_le_mono_nonneg_l; lia). lia. }
    destruct (element_ok mem (pin + N * a) (pout + N * b) a b A ltac:(lia)) as (m1 & E1 & L1 & G1);
      [split; lia|split; lia|unfold apart in H; destruct H as [(H1 & H2)|[H|H]]; [specialize (X5 H2 H1); lia|right; lia|left; lia]|].
    rewrite E1. cbn [bind]. destruct (IH m1 pin pout a b A B) as (m & E & L & G & K); [split; lia|split; lia|unfold apart in *; destruct H as [H|[H|H]]; [left; exact H|right; left; lia|right; right; lia]|].
    exists m. split; [exact E|]. split; [lia|]. split.
    + intros x k Hx Hk. destruct (Z.eq_dec x N) as [->|NE].
      * rewrite K by lia. rewrite G1. replace ((pout + N * b <=? pout + N * b + k) && (pout + N * b + k <? pout + N * b + b)) with true by lia.
        replace (pout + N * b + k - (pout + N * b)) with k by lia. reflexivity.
      * rewrite G by lia. destruct (k <? a) eqn:KA; [|reflexivity]. rewrite G1.
        assert (Y0 : 0 <= x * a) by (apply Z.mul_nonneg_nonneg; lia).
        assert (Y1 : (x + 1) * a <= N * a) by (apply Z.mul_le_mono_nonneg_r; lia). rewrite Z.mul_add_distr_r, Z.mul_1_l in Y1.
        replace ((pout + N * b <=? pin + x * a + k) && (pin + x * a + k <? pout + N * b + b)) with false; [reflexivity|].
        symmetry. unfold apart in H. destruct H as [(H1 & H2)|[H|H]]; lia.
    + intros j Hj. rewrite !Z.mul_add_distr_r, !Z.mul_1_l in Hj. rewrite K by lia. rewrite G1. replace ((pout + N * b <=? j) && (j <? pout + N * b + b)) with false by lia. reflexivity.
Qed.
Lemma up_converted mem pin pout n a b : 0 <= n -> 1 <= a -> 1 <= b -> b <= a -> inside mem pin (n * a) -> inside mem pout (n * b) ->
  pout = pin \/ apart pin (n * a) pout (n * b) ->
  exists m, convert_up (Z.to_nat n) 0 mem pin pout a b = Ok m /\ converted mem m pin pout n a b.
Proof.
  intros HN A B AB P Q H. destruct (convert_up_ok (Z.to_nat n) 0 mem pin pout a b A B ltac:(lia)) as (m & E & L & G & K).
  - rewrite Z.add_0_l, Z2Nat.id by lia. exact P.
  - rewrite Z.add_0_l, Z2Nat.id by lia. exact Q.
  - rewrite Z.add_0_l, Z2Nat.id by lia. destruct H as [->|H]; [left; lia|right; exact H].
  - rewrite Z.add_0_l, Z2Nat.id in * by lia. exists m. split; [exact E|]. split; [exact L|]. split; [exact G|]. intros j Hj. apply K. lia.
Qed.

(** ** Theorems *)
(** Two separate arrays: every entry keeps its words, cut or filled with zeros, and nothing else is touched, for any sizes. *)
Theorem C63_two_arrays mem pin pout n a b : 0 <= n -> 1 <= a -> 1 <= b -> inside mem pin (n * a) -> inside mem pout (n * b) ->
  apart pin (n * a) pout (n * b) ->
  exists mem', convertIntArray mem pin pout n a b = Ok mem' /\ converted mem mem' pin pout n a b.
Proof.
  intros HN A B P Q H. unfold convertIntArray. destruct (a =? b) eqn:E1; [apply up_converted; auto; lia|]. destruct (a >? b) eqn:E2; [apply up_converted; auto; lia|].
  destruct (convert_down_ok (Z.to_nat n) mem pin pout a b A ltac:(lia)) as (m & E & C); rewrite ?Z2Nat.id in * by lia; auto. exists m. auto.
Qed.
Print Assumptions C63_two_arrays.
(** In place, as the description of the function offers.  Partial: the entries become shorter, or had one word. *)
Theorem C63_in_place_partial mem p n a b : 0 <= n -> 1 <= a -> 1 <= b -> b <= a \/ a = 1 -> inside mem p (n * a) -> inside mem p (n * b) ->
  exists mem', convertIntArray mem p p n a b = Ok mem' /\ converted mem mem' p p n a b.
Proof.
  intros HN A B AB P Q. unfold convertIntArray. destruct (a =? b) eqn:E1; [apply up_converted; auto; lia|]. destruct (a >? b) eqn:E2; [apply up_converted; auto; lia|].
  destruct (convert_down_ok (Z.to_nat n) mem p p a b A ltac:(lia)) as (m & E & C); rewrite ?Z2Nat.id in * by lia; auto; [left; lia|]. exists m. auto.
Qed.
Print Assumptions C63_in_place_partial.
(** REFUTED in place when entries of two words or more become longer: the second entry loses its second word *)
Theorem C63_refuted_in_place : exists mem, inside mem 0 (2 * 2) /\ inside mem 0 (2 * 3) /\
  convertIntArray mem 0 0 2 2 3 = Ok [11; 12; 0; 21; 21; 0] /\ mem = [11; 12; 21; 22; 0; 0] /\
  ~ (exists mem', convertIntArray mem 0 0 2 2 3 = Ok mem' /\ converted mem mem' 0 0 2 2 3).
Proof.
  exists [11; 12; 21; 22; 0; 0]. split; [split; vm_compute; discriminate|]. split; [split; vm_compute; discriminate|]. split; [reflexivity|]. split; [reflexivity|].
  intros (m & E & _ & G & _). vm_compute in E. injection E as <-. specialize (G 1 1 ltac:(lia) ltac:(lia)). vm_compute in G. discriminate G.
Qed.
Print Assumptions C63_refuted_in_place.

Example C63_example : let mem := [11; 12; 13; 21; 22; 23; 9; 9; 9; 9] in
  inside mem 0 (2 * 3) /\ inside mem 6 (2 * 2) /\ apart 0 (2 * 3) 6 (2 * 2) /\
  convertIntArray mem 0 6 2 3 2 = Ok [11; 12; 13; 21; 22; 23; 11; 12; 21; 22] /\
  convertIntArray [1; 2; 3; 0; 0; 0; 0; 0; 0; 7] 0 0 3 1 3 = Ok [1; 0; 0; 2; 0; 0; 3; 0; 0; 7].
Proof. cbv zeta. repeat split; try (vm_compute; discriminate); try reflexivity. left. lia. Qed.
