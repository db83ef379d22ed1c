(** * C18: hashing respects pathname identity. *)
From Coq Require Import ZArith Bool Lia ZifyBool String List.
From Verif Require Import Base PackModel HashModel FileLemmas FileLook IntervalSpec.
Import ListNotations.
Open Scope Z_scope.
Open Scope res_scope.
Local Notation length := List.length.
Ltac Zify.zify_post_hook ::= Z.to_euclidean_division_equations.

Lemma hash_char_upper a b : toupper a = toupper b -> hash_char a = hash_char b.
Proof.
  unfold hash_char, toupper. intros H.
  destruct ((97 <=? a) && (a <=? 122)) eqn:A, ((97 <=? b) && (b <=? 122)) eqn:B;
  destruct ((a <? 32) || (127 <? a)) eqn:C, ((b <? 32) || (127 <? b)) eqn:D; lia.
Qed.

(** Two pathnames that differ only in letter case have the same table slot and the same pathname hash, in every file. *)
Theorem C18_case : forall detune maxHash p q, ci_eq p q -> zhash detune maxHash p = zhash detune maxHash q.
Proof.
  intros dt m p q H. unfold zhash, table_hash, path_hash.
  assert (L : length p = length q) by (apply (f_equal (@length Z)) in H; rewrite !map_length in H; exact H).
  assert (E : map hash_char p = map hash_char q).
  { clear L. revert q H. induction p as [|a p IH]; intros [|b q] H; try discriminate H; [reflexivity|].
    injection H as H1 H2. cbn [map]. f_equal; [apply hash_char_upper, H1|apply IH, H2]. }
  rewrite L, E. reflexivity.
Qed.
Print Assumptions C18_case.

(** For every pathname and every table size of at least two, the hash is computed (no division by zero) and is a
    valid index of the table; the pathname hash is never zero. *)
Theorem C18_index : forall maxHash p, 2 <= maxHash ->
  exists t h, zhash false maxHash p = Ok (t, h) /\ 0 <= t < maxHash /\ h <> 0 /\ -9223372036854775808 <= h <= 9223372036854775807.
Proof.
  intros m p H. unfold zhash. destruct (table_hash_range m p H) as (t & -> & Ht). cbn [bind].
  exists t, (path_hash p). split; [reflexivity|]. split; [exact Ht|]. unfold path_hash.
  assert (R : forall l acc, -9223372036854775808 <= acc <= 9223372036854775807 -> -9223372036854775808 <= hash31 acc l <= 9223372036854775807).
  { clear. induction l as [|c l IH]; intros acc Ha; [exact Ha|]. cbn [hash31]. apply IH. unfold wrap64.
    pose proof (Z.mod_pos_bound (31 * acc + c + 9223372036854775808) 18446744073709551616 ltac:(reflexivity)). lia. }
  pose proof (R (map hash_char p) 0 ltac:(lia)) as B. destruct (hash31 0 (map hash_char p) =? 0) eqn:E; lia.
Qed.
Print Assumptions C18_index.

(** The characters read from the local copy of the pathname are the pathname and the eight zero bytes behind it. *)
Theorem C18_no_overread : forall maxHash n, 2 <= maxHash <= 2147483647 -> 0 <= n <= 392 ->
  let ibit := hash_bits maxHash in
  let nt := Z.quot ((Z.quot (n * 8 - 1) ibit + 1) * ibit - 1) 8 + 1 in 0 <= nt <= n + 8.
Proof.
  intros m n Hm Hn ibit nt.
  assert (B : 1 <= ibit <= 31).
  { unfold ibit, hash_bits. pose proof (Z.log2_up_le_mono 2 m ltac:(lia)) as Q. change (Z.log2_up 2) with 1 in Q.
    pose proof (Z.log2_up_le_mono m 2147483647 ltac:(lia)) as R. change (Z.log2_up 2147483647) with 31 in R. lia. }
  clearbody ibit. unfold nt. clear nt Hm m.
  destruct (Z.eq_dec n 0) as [-> |Hz].
  - change (0 * 8 - 1) with (-1). assert (Q : -1 <= Z.quot (-1) ibit <= 0).
    { pose proof (Z.quot_opp_l 1 ibit ltac:(lia)) as O. change (- (1)) with (-1) in O. rewrite O.
      pose proof (Z.quot_pos 1 ibit ltac:(lia) ltac:(lia)). pose proof (Z.quot_le_upper_bound 1 ibit 1 ltac:(lia) ltac:(lia)). lia. }
    assert (Q2 : -1 <= Z.quot ((Z.quot (-1) ibit + 1) * ibit - 1) 8 <= 3); [|lia].
    assert (0 <= (Z.quot (-1) ibit + 1) * ibit <= 31) by nia. lia.
  - rewrite (Z.quot_div_nonneg (n * 8 - 1) ibit) by lia.
    pose proof (Z.mul_div_le (n * 8 - 1) ibit ltac:(lia)) as D1.
    pose proof (Z.mul_succ_div_gt (n * 8 - 1) ibit ltac:(lia)) as D2.
    set (u := (n * 8 - 1) / ibit) in *. clearbody u.
    assert (U : n * 8 <= (u + 1) * ibit <= n * 8 - 1 + ibit) by nia.
    set (w := (u + 1) * ibit) in *. clearbody w. lia.
Qed.
Print Assumptions C18_no_overread.

(** The pathname hash of up to 12 characters is computed without signed overflow ... *)
Theorem C18_no_overflow_short : forall p, Forall (fun c => 0 <= c < 256) p -> (length p <= 12)%nat ->
  hash31_chk 0 (map hash_char p) = Ok (hash31 0 (map hash_char p)).
Proof.
  intros p Hp Hl.
  assert (C : Forall (fun c => 0 <= c <= 127) (map hash_char p)).
  { apply Forall_forall. intros x Hx. apply in_map_iff in Hx. destruct Hx as (c & <- & Hc).
    rewrite Forall_forall in Hp. specialize (Hp c Hc). unfold hash_char, toupper.
    destruct ((c <? 32) || (127 <? c)) eqn:E; [lia|]. destruct ((97 <=? c) && (c <=? 122)) eqn:F; lia. }
  assert (G : forall l n acc, Forall (fun c => 0 <= c <= 127) l -> (length l <= n)%nat -> 0 <= acc ->
    31 ^ Z.of_nat n * (acc + 5) <= 9223372036854775807 -> hash31_chk acc l = Ok (hash31 acc l)).
  { clear. induction l as [|c l IH]; intros n acc H Hn Ha Hb; [reflexivity|].
    inversion H as [|? ? Hc Hl]; subst. destruct n as [|n]; [cbn in Hn; lia|].
    rewrite Nat2Z.inj_succ, Z.pow_succ_r in Hb by lia.
    assert (P : 0 < 31 ^ Z.of_nat n) by (apply Z.pow_pos_nonneg; lia).
    assert (V : 31 ^ Z.of_nat n * (31 * acc + c + 5) <= 9223372036854775807) by nia.
    assert (V2 : 31 * acc + c <= 9223372036854775807) by nia.
    cbn [hash31_chk hash31].
    destruct ((-9223372036854775808 <=? 31 * acc + c) && (31 * acc + c <=? 9223372036854775807)) eqn:E; [|lia].
    assert (W : wrap64 (31 * acc + c) = 31 * acc + c).
    { unfold wrap64. rewrite Z.mod_small by lia. lia. }
    rewrite W. apply (IH n); [exact Hl|cbn in Hn; lia|lia|exact V]. }
  apply (G _ 12%nat); [exact C|rewrite map_length; exact Hl|lia|]. vm_compute. discriminate.
Qed.
(** ... and of 13 characters not: the C expression is undefined behaviour for ordinary pathnames *)
Theorem C18_refuted_signed_overflow : hash31_chk 0 (map hash_char (repeat 90 13)) = Undef.
Proof. vm_compute. reflexivity. Qed.
(** A table of size one divides by zero *)
Theorem C18_refuted_size_one : forall detune p, zhash detune 1 p = Undef.
Proof. intros. reflexivity. Qed.
(** Members of one collection do not share a table slot, although zhash.c:131-133 says so *)
Theorem C18_refuted_collection_slot : exists p q h, 
  p = txt "/A/B/FLOW/01JAN2000/1HOUR/C:000001|X/"%string /\ q = txt "/A/B/FLOW/01JAN2000/1HOUR/C:000002|X/"%string /\
  zhash false 8192 p = Ok h /\ (let* k := zhash false 8192 q in Ok (fst k)) <> Ok (fst h).
Proof.
  eexists. eexists. eexists. split; [reflexivity|]. split; [reflexivity|].
  split; [vm_compute; reflexivity|]. vm_compute. discriminate.
Qed.
Example C18_example : ci_eq (txt "/a/B/flow/"%string) (txt "/A/b/FLOW/"%string) /\ zhash false 8192 (txt "/a/B/flow/"%string) <> Undef.
Proof. split; [reflexivity|]. vm_compute. discriminate. Qed.
Print Assumptions C18_no_overflow_short.
Print Assumptions C18_refuted_collection_slot.
Print Assumptions C18_refuted_signed_overflow.
Print Assumptions C18_refuted_size_one.
