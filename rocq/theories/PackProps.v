(** * Properties of packing, byte order and error codes: C14, C34, C37. *)
From Coq Require Import ZArith List Lia Bool.
From Verif Require Import Base PackModel.
Import ListNotations.
Open Scope Z_scope.

Lemma bytes_le_length n v : length (bytes_le n v) = n.
Proof. revert v; induction n as [|n IH]; intros v; cbn [bytes_le length]; [|rewrite IH]; reflexivity. Qed.

Lemma unsigned_bytes_le n v : unsigned_le (bytes_le n v) = v mod 256 ^ Z.of_nat n.
Proof.
  revert v; induction n as [|n IH]; intros v.
  - cbn. rewrite Z.mod_1_r. reflexivity.
  - cbn [bytes_le unsigned_le]. rewrite IH. rewrite Nat2Z.inj_succ, Z.pow_succ_r by lia.
    rewrite Z.rem_mul_r by lia. reflexivity.
Qed.

Lemma unsigned_le_app a b : unsigned_le (a ++ b) = unsigned_le a + 256 ^ Z.of_nat (length a) * unsigned_le b.
Proof.
  induction a as [|x t IH]; [cbn [app length unsigned_le]; change (256 ^ Z.of_nat 0) with 1; ring|].
  cbn [app length unsigned_le]. rewrite IH, Nat2Z.inj_succ, Z.pow_succ_r by lia. ring.
Qed.

Lemma bytes_le_app n m v : bytes_le (n + m) v = bytes_le n v ++ bytes_le m (v / 256 ^ Z.of_nat n).
Proof.
  revert v; induction n as [|n IH]; intros v; cbn [Nat.add bytes_le app].
  - change (256 ^ Z.of_nat 0) with 1. rewrite Z.div_1_r. reflexivity.
  - rewrite IH. f_equal. f_equal. f_equal. rewrite Nat2Z.inj_succ, Z.pow_succ_r by lia.
    rewrite Z.div_div by lia. reflexivity.
Qed.

Lemma i4toi8_value be a b :
  i4toi8 be a b = a mod 4294967296 + 4294967296 * (b mod 4294967296).
Proof.
  unfold i4toi8, obj_bytes, unsigned_of. destruct be.
  - rewrite rev_app_distr, !rev_involutive, unsigned_le_app, !unsigned_bytes_le, bytes_le_length. reflexivity.
  - rewrite unsigned_le_app, !unsigned_bytes_le, bytes_le_length. reflexivity.
Qed.

Definition sgn32 (u : Z) : Z := if 2 * u <? 4294967296 then u else u - 4294967296.

Lemma i8toi4_value be v :
  i8toi4 be v = (sgn32 (v mod 4294967296), sgn32 ((v / 4294967296) mod 4294967296)).
Proof.
  assert (E : bytes_le 8 v = bytes_le 4 v ++ bytes_le 4 (v / 4294967296)) by (apply (bytes_le_app 4 4)).
  unfold i8toi4, obj_bytes, signed_of, unsigned_of, sgn32.
  change (256 ^ Z.of_nat 4) with 4294967296.
  assert (F : forall (x y : list Z), length x = 4%nat -> firstn 4 (x ++ y) = x /\ skipn 4 (x ++ y) = y).
  { intros x y H. rewrite <- H. split; [rewrite firstn_app, firstn_all, Nat.sub_diag; cbn; apply app_nil_r
                                      |rewrite skipn_app, skipn_all, Nat.sub_diag; reflexivity]. }
  destruct be; rewrite E.
  - rewrite rev_app_distr.
    destruct (F (rev (bytes_le 4 (v / 4294967296))) (rev (bytes_le 4 v))) as [F1 F2];
      [rewrite rev_length; apply bytes_le_length|].
    rewrite F1, F2, !rev_involutive, !unsigned_bytes_le. reflexivity.
  - destruct (F (bytes_le 4 v) (bytes_le 4 (v / 4294967296))) as [F1 F2]; [apply bytes_le_length|].
    rewrite F1, F2, !unsigned_bytes_le. reflexivity.
Qed.

Lemma sgn32_mod z : in32 z -> sgn32 (z mod 4294967296) = z.
Proof.
  unfold in32, INT_MIN, INT_MAX, sgn32. intros H.
  destruct (Z.ltb_spec (2 * (z mod 4294967296)) 4294967296);
    Z.to_euclidean_division_equations; lia.
Qed.

(** ** C14 *)

(** Two 32-bit ints packed into a file word are recovered, on either kind of machine. *)
Theorem C14_unpack_pack : forall be a b,
  in32 a -> in32 b -> i8toi4 be (i4toi8 be a b) = (a, b).
Proof.
  intros be a b Ha Hb. rewrite i8toi4_value, i4toi8_value.
  rewrite (Z.add_comm (a mod 4294967296)), (Z.mul_comm 4294967296).
  rewrite Z.add_comm, Z.mod_add, Z.mod_mod by lia.
  rewrite Z.div_add by lia. rewrite (Z.div_small (a mod 4294967296)) by (apply Z.mod_pos_bound; lia).
  rewrite Z.add_0_l, Z.mod_mod by lia. rewrite !sgn32_mod by assumption. reflexivity.
Qed.

(** Every file word is the packing of the two ints read from it. *)
Theorem C14_pack_unpack : forall be v a b,
  0 <= v < 18446744073709551616 -> i8toi4 be v = (a, b) -> i4toi8 be a b = v.
Proof.
  intros be v a b Hv H. rewrite i8toi4_value in H. injection H as <- <-. rewrite i4toi8_value.
  unfold sgn32.
  destruct (Z.ltb_spec (2 * (v mod 4294967296)) 4294967296);
  destruct (Z.ltb_spec (2 * ((v / 4294967296) mod 4294967296)) 4294967296);
    Z.to_euclidean_division_equations; lia.
Qed.

(** The word does not depend on the byte order of the machine, and keeps the first int in its low half. *)
Theorem C14_word_machine_independent : forall be1 be2 a b,
  i4toi8 be1 a b = i4toi8 be2 a b /\ i4toi8 be1 a b = a mod 2 ^ 32 + 2 ^ 32 * (b mod 2 ^ 32).
Proof. intros. rewrite !i4toi8_value. split; reflexivity. Qed.

Example C14_unpack_pack_example :
  in32 (-5) /\ in32 2147483647 /\ i4toi8 true (-5) 2147483647 = 9223372036854775803
  /\ i8toi4 false 9223372036854775803 = (-5, 2147483647).
Proof. unfold in32, INT_MIN, INT_MAX. repeat split; try lia; reflexivity. Qed.

Print Assumptions C14_unpack_pack.
Print Assumptions C14_pack_unpack.
Print Assumptions C14_word_machine_independent.

(** ** C34 *)

Ltac Zify.zify_post_hook ::= Z.to_euclidean_division_equations.

(** Codes raised by a function decode to what was encoded, and codes of severity "invalid argument" or worse
    are recognised as errors while warnings are not.  Ranges are those of the tables in zerrorCodes.h and
    zdssMessages.h (severity 1..9, function 1..86, error number 0..66). *)
Theorem C34_raise_roundtrip : forall sev fn err st,
  1 <= sev <= 9 -> 0 <= fn <= 99 -> 0 <= err <= 99 -> 0 <= st <= 99 ->
  exists c, zerrorProcessing_code sev fn err st = Ok c /\
            c < 0 /\
            zerrorDecode c = (sev, 0, fn, err, st) /\
            zerrorSeverity c = sev /\
            (zisError c = true <-> SEV_INVALID_ARGUMENT <= sev).
Proof.
  intros sev fn err st H1 H2 H3 H4. unfold zerrorProcessing_code, zerrorEncode.
  replace ((99 <? st) || (st <? -9)) with false
    by (symmetry; apply orb_false_intro; [apply Z.ltb_ge|apply Z.ltb_ge]; lia).
  cbv beta zeta iota. chk.
  set (e := _ + sev * 100000000).
  assert (He : 0 < e) by (unfold e; lia).
  replace (0 <? e) with true by (symmetry; apply Z.ltb_lt; lia).
  replace (0 <? - e) with false by (symmetry; apply Z.ltb_ge; lia).
  exists (- e). split; [reflexivity|]. split; [lia|].
  assert (D : zerrorDecode (- e) = (sev, 0, fn, err, st)).
  { unfold zerrorDecode. replace (- e <? 0) with true by (symmetry; apply Z.ltb_lt; lia).
    rewrite Z.opp_involutive.
    assert (E1 : Z.quot e 100000000 = sev) by (unfold e; lia). rewrite E1.
    assert (E2 : Z.quot (e - sev * 100000000) 1000000 = 0) by (unfold e; lia). rewrite E2.
    assert (E3 : Z.quot (e - (sev * 100000000 + 0 * 1000000)) 10000 = fn) by (unfold e; lia). rewrite E3.
    assert (E4 : Z.quot (e - (sev * 100000000 + 0 * 1000000 + fn * 10000)) 100 = err) by (unfold e; lia).
    rewrite E4. repeat f_equal. unfold e. lia. }
  split; [exact D|]. split.
  - unfold zerrorSeverity. replace (- e <? 0) with true by (symmetry; apply Z.ltb_lt; lia).
    unfold e. lia.
  - unfold zisError. rewrite D.
    replace (0 <=? - e) with false by (symmetry; apply Z.leb_gt; lia).
    replace (- e =? -1) with false by (symmetry; apply Z.eqb_neq; unfold e; lia).
    replace (-10 <? - e) with false by (symmetry; apply Z.ltb_ge; unfold e; lia).
    apply Z.leb_le.
Qed.

(** A code with an explicit calling function also round-trips through encode/decode. *)
Theorem C34_encode_roundtrip : forall sev hi fn err st,
  0 <= sev <= 20 -> 0 <= hi <= 99 -> 0 <= fn <= 99 -> 0 <= err <= 99 -> 0 <= st <= 99 ->
  exists c, zerrorEncode sev hi fn err st = Ok c /\ zerrorDecode c = (sev, hi, fn, err, st).
Proof.
  intros sev hi fn err st H1 H2 H3 H4 H5. unfold zerrorEncode.
  replace ((99 <? st) || (st <? -9)) with false
    by (symmetry; apply orb_false_intro; [apply Z.ltb_ge|apply Z.ltb_ge]; lia).
  cbv beta zeta iota. chk.
  set (e := _ + sev * 100000000).
  assert (He : 0 <= e) by (unfold e; lia).
  eexists. split; [reflexivity|].
  unfold zerrorDecode.
  assert (A : (if (if 0 <? e then - e else e) <? 0 then - (if 0 <? e then - e else e)
               else if 0 <? e then - e else e) = e).
  { destruct (Z.ltb_spec 0 e).
    - replace (- e <? 0) with true by (symmetry; apply Z.ltb_lt; lia). lia.
    - replace (e <? 0) with false by (symmetry; apply Z.ltb_ge; lia). reflexivity. }
  rewrite A.
  assert (E1 : Z.quot e 100000000 = sev) by (unfold e; lia). rewrite E1.
  assert (E2 : Z.quot (e - sev * 100000000) 1000000 = hi) by (unfold e; lia). rewrite E2.
  assert (E3 : Z.quot (e - (sev * 100000000 + hi * 1000000)) 10000 = fn) by (unfold e; lia). rewrite E3.
  assert (E4 : Z.quot (e - (sev * 100000000 + hi * 1000000 + fn * 10000)) 100 = err) by (unfold e; lia).
  rewrite E4. repeat f_equal. unfold e. lia.
Qed.

(** The full property ("an error passed up through callers still decodes to its severity, and is still
    recognised as an error") is false: the calling function's number is added to a negative code, so the
    severity decreases by one.  For every error of severity INVALID_ARGUMENT, every later caller sees
    "not an error". *)
Theorem C34_refuted_update_hides_error : forall caller fn err st,
  1 <= caller <= 99 -> 0 <= fn <= 99 -> 0 <= err <= 99 -> 0 <= st <= 99 ->
  exists c c', zerrorProcessing_code SEV_INVALID_ARGUMENT fn err st = Ok c /\ zisError c = true /\
               zerrorUpdate c caller = Ok c' /\ zisError c' = false /\ zerrorSeverity c' = SEV_WARNING.
Proof.
  intros caller fn err st H1 H2 H3 H4.
  destruct (C34_raise_roundtrip SEV_INVALID_ARGUMENT fn err st) as (c & E & Hneg & D & S & I);
    try (unfold SEV_INVALID_ARGUMENT; lia).
  assert (Hc : c = - (st + err * 100 + fn * 10000 + 300000000)).
  { unfold zerrorProcessing_code, zerrorEncode, SEV_INVALID_ARGUMENT in E.
    replace ((99 <? st) || (st <? -9)) with false in E
      by (symmetry; apply orb_false_intro; [apply Z.ltb_ge|apply Z.ltb_ge]; lia).
    cbv beta zeta iota in E.
    repeat (rewrite chk32_ok in E by (unfold in32, INT_MIN, INT_MAX; lia); cbn [bind] in E).
    set (e := _ + 3 * 100000000) in E.
    assert (0 < e) by (unfold e; lia).
    replace (0 <? e) with true in E by (symmetry; apply Z.ltb_lt; lia).
    replace (0 <? - e) with false in E by (symmetry; apply Z.ltb_ge; lia).
    injection E as <-. unfold e. lia. }
  exists c, (c + caller * 1000000).
  split; [exact E|]. split; [apply I; unfold SEV_INVALID_ARGUMENT; lia|].
  assert (Sv : zerrorSeverity (c + caller * 1000000) = SEV_WARNING).
  { unfold zerrorSeverity, SEV_WARNING. replace (c + caller * 1000000 <? 0) with true by (symmetry; apply Z.ltb_lt; lia).
    rewrite Hc. lia. }
  split; [|split; [|exact Sv]].
  - unfold zerrorUpdate, zerrorEncodeHigh. replace (c =? 0) with false by (symmetry; apply Z.eqb_neq; lia).
    apply chk32_ok. unfold in32, INT_MIN, INT_MAX. lia.
  - unfold zisError, zerrorDecode.
    replace (0 <=? c + caller * 1000000) with false by (symmetry; apply Z.leb_gt; lia).
    replace (c + caller * 1000000 =? -1) with false by (symmetry; apply Z.eqb_neq; lia).
    replace (-10 <? c + caller * 1000000) with false by (symmetry; apply Z.ltb_ge; lia).
    apply Z.leb_gt.
    change ((if c + caller * 1000000 <? 0 then - (c + caller * 1000000) else c + caller * 1000000) ÷ 100000000)
      with (zerrorSeverity (c + caller * 1000000)).
    rewrite Sv. unfold SEV_WARNING, SEV_INVALID_ARGUMENT. lia.
Qed.

(** What does survive: an error of severity 4 or worse is still recognised after one caller has added
    itself, and keeps being recognised while the added calling functions sum to less than
    100*(severity-3). *)
Theorem C34_update_keeps_error_partial : forall sev fn err st callers,
  4 <= sev <= 9 -> 0 <= fn <= 99 -> 0 <= err <= 99 -> 0 <= st <= 99 ->
  Forall (fun c => 0 <= c <= 99) callers -> fold_right Z.add 0 callers <= 100 * (sev - 3) ->
  exists c c', zerrorProcessing_code sev fn err st = Ok c /\
               fold_left (fun r f => let* x := r in zerrorUpdate x f) callers (Ok c) = Ok c' /\
               zisError c' = true.
Proof.
  intros sev fn err st callers H1 H2 H3 H4 HF Hsum.
  exists (- (st + err * 100 + fn * 10000 + sev * 100000000)).
  exists (- (st + err * 100 + fn * 10000 + sev * 100000000) + 1000000 * fold_right Z.add 0 callers).
  split; [|split].
  - unfold zerrorProcessing_code, zerrorEncode.
    replace ((99 <? st) || (st <? -9)) with false
      by (symmetry; apply orb_false_intro; [apply Z.ltb_ge|apply Z.ltb_ge]; lia).
    cbv beta zeta iota. chk.
    set (e := _ + sev * 100000000).
    assert (He : 0 < e) by (unfold e; lia).
    replace (0 <? e) with true by (symmetry; apply Z.ltb_lt; lia).
    replace (0 <? - e) with false by (symmetry; apply Z.ltb_ge; lia).
    f_equal. unfold e. lia.
  - set (c0 := - _) in *. assert (Hc0 : -1000000000 < c0 < 0) by (unfold c0; lia).
    assert (Hb : c0 + 1000000 * fold_right Z.add 0 callers < 0) by (unfold c0; lia).
    clearbody c0. clear - HF Hc0 Hb.
    revert c0 Hc0 Hb; induction HF as [|f t Hf HF IH]; intros c0 Hc0 Hb; cbn [fold_right fold_left bind] in *.
    + f_equal. lia.
    + assert (0 <= fold_right Z.add 0 t) by (clear - HF; induction HF; cbn; lia).
      unfold zerrorUpdate at 2, zerrorEncodeHigh. replace (c0 =? 0) with false by (symmetry; apply Z.eqb_neq; lia).
      rewrite chk32_ok by (unfold in32, INT_MIN, INT_MAX; lia).
      rewrite IH by lia. f_equal. lia.
  - set (s := fold_right Z.add 0 callers) in *.
    assert (0 <= s) by (unfold s; clear - HF; induction HF; cbn; lia).
    set (c := - _ + _). assert (Hc : c <= -300000000) by (unfold c; lia).
    unfold zisError, zerrorDecode.
    replace (0 <=? c) with false by (symmetry; apply Z.leb_gt; lia).
    replace (c =? -1) with false by (symmetry; apply Z.eqb_neq; lia).
    replace (-10 <? c) with false by (symmetry; apply Z.ltb_ge; lia).
    replace (c <? 0) with true by (symmetry; apply Z.ltb_lt; lia).
    apply Z.leb_le. unfold SEV_INVALID_ARGUMENT. lia.
Qed.

Example C34_update_example :
  (let* c := zerrorProcessing_code 3 12 62 0 in
   let* c' := zerrorUpdate c 3 in Ok (c, zisError c, c', zisError c', zerrorDecode c'))
  = Ok (-300126200, true, -297126200, false, (2, 97, 12, 62, 0)).
Proof. reflexivity. Qed.

Print Assumptions C34_raise_roundtrip.
Print Assumptions C34_encode_roundtrip.
Print Assumptions C34_refuted_update_hides_error.
Print Assumptions C34_update_keeps_error_partial.

(** ** C37 *)

Ltac Zify.zify_post_hook ::= idtac.

Lemma switch_words_inv {A} n : forall (l l' : list A),
  switch_words n l = Ok l' -> switch_words n l' = Ok l /\ length l' = length l.
Proof.
  induction n as [|n IH]; intros l l' H; cbn [switch_words] in *; [injection H as ->; auto|].
  destruct l as [|x [|y t]]; try discriminate.
  destruct (switch_words n t) as [t'|] eqn:E; [|discriminate]. cbn [bind] in H. injection H as <-.
  destruct (IH _ _ E) as [E1 E2]. rewrite E1. cbn [bind length]. auto.
Qed.

(** Exchanging the ints of each word twice restores the array, whenever the first exchange is defined. *)
Theorem C37_switch_involution : forall (l l' : list Z) n,
  zswitchInts l n = Ok l' -> zswitchInts l' n = Ok l.
Proof.
  intros l l' n. unfold zswitchInts. destruct (n =? 0); [intros H; injection H as ->; reflexivity|].
  intros H. apply switch_words_inv in H. tauto.
Qed.

Lemma switch_words_def {A} n : forall (l : list A), (2 * n <= length l)%nat -> exists l', switch_words n l = Ok l'.
Proof.
  induction n as [|n IH]; intros l H; cbn [switch_words]; [eauto|].
  destruct l as [|x [|y t]]; cbn [length] in H; try lia.
  destruct (IH t) as [t' E]; [lia|]. rewrite E. cbn [bind]. eauto.
Qed.

(** It is defined exactly when the array has an even number of cells available: one cell more than
    [numberInts] when that is odd. *)
Theorem C37_switch_defined : forall (l : list Z) n,
  0 <= n -> ((exists l', zswitchInts l n = Ok l') <-> 2 * ((n + 1) / 2) <= Z.of_nat (length l)).
Proof.
  intros l n Hn. unfold zswitchInts. destruct (Z.eqb_spec n 0) as [->|Hn0].
  - split; [intros _; change (2 * ((0 + 1) / 2)) with 0; lia|eauto].
  - set (k := Z.to_nat (Z.quot (n - 1) 2 + 1)).
    assert (Hk : Z.of_nat k = (n + 1) / 2).
    { unfold k. rewrite Z2Nat.id; Z.to_euclidean_division_equations; lia. }
    rewrite <- Hk. split.
    + intros [l' H].
      assert (G : forall n (a b : list Z), switch_words n a = Ok b -> (2 * n <= length a)%nat).
      { clear. induction n as [|n IH]; intros a b H; cbn [switch_words] in H; [lia|].
        destruct a as [|x [|y t]]; try discriminate.
        destruct (switch_words n t) as [t'|] eqn:E; [|discriminate]. apply IH in E. cbn [length]. lia. }
      apply G in H. lia.
    + intros H. apply switch_words_def. lia.
Qed.

Lemma swap_words_inv n : forall l l',
  swap_words n l = Ok l' -> swap_words n l' = Ok l /\ length l' = length l.
Proof.
  induction n as [|n IH]; intros l l' H; cbn [swap_words] in *; [injection H as ->; auto|].
  destruct l as [|a [|b [|c [|d [|e [|f [|g [|h t]]]]]]]]; try discriminate.
  destruct (swap_words n t) as [t'|] eqn:E; [|discriminate]. cbn [bind] in H. injection H as <-.
  destruct (IH _ _ E) as [E1 E2]. rewrite E1. cbn [bind length]. split; [reflexivity|lia].
Qed.

Theorem C37_swap_involution : forall l l' n, zswap l n = Ok l' -> zswap l' n = Ok l.
Proof.
  intros l l' n. unfold zswap. destruct (n =? 0); [intros H; injection H as ->; reflexivity|].
  intros H. apply swap_words_inv in H. tauto.
Qed.

(** Reading back, on a big-endian machine, an array of [t] times followed by [m] doubles (two ints each)
    that was stored by the same machine. *)
Fixpoint flat {A} (ps : list (A * A)) : list A :=
  match ps with [] => [] | (x, y) :: t => x :: y :: flat t end.
Definition swp {A} (p : A * A) : A * A := (snd p, fst p).

Lemma flat_app {A} (a b : list (A * A)) : flat (a ++ b) = flat a ++ flat b.
Proof. induction a as [|[x y] t IH]; cbn [flat app]; [|rewrite IH]; reflexivity. Qed.

Lemma switch_flat {A} (ps : list (A * A)) rest :
  switch_words (length ps) (flat ps ++ rest) = Ok (flat (map swp ps) ++ rest).
Proof.
  induction ps as [|[x y] t IH]; cbn [length flat app switch_words map swp fst snd]; [reflexivity|].
  rewrite IH. reflexivity.
Qed.

Lemma flat_length {A} (ps : list (A * A)) : length (flat ps) = (2 * length ps)%nat.
Proof. induction ps as [|[x y] t IH]; cbn [flat length]; lia. Qed.

Lemma even_flat {A} (l : list A) n : length l = (2 * n)%nat -> exists ps, l = flat ps /\ length ps = n.
Proof.
  revert l; induction n as [|n IH]; intros l H.
  - destruct l; cbn in H; [|lia]. exists []. split; reflexivity.
  - destruct l as [|x [|y t]]; cbn [length] in H; try lia.
    destruct (IH t) as (ps & -> & E); [lia|]. exists ((x, y) :: ps). cbn [flat length]. auto.
Qed.

Lemma map_swp_swp {A} (ps : list (A * A)) : map swp (map swp ps) = ps.
Proof. induction ps as [|[x y] t IH]; cbn [map swp fst snd]; [|rewrite IH]; reflexivity. Qed.

(** Shift the pairing by one: z, (x1,y1),(x2,y2).. , w as pairs (z,x1),(y1,x2),..,(yn,w). *)
Fixpoint shift {A} (z : A) (ps : list (A * A)) (w : A) : list (A * A) :=
  match ps with [] => [(z, w)] | (x, y) :: t => (z, x) :: shift y t w end.
Lemma shift_flat {A} (ps : list (A * A)) : forall z w, flat (shift z ps w) = z :: flat ps ++ [w].
Proof.
  induction ps as [|[x y] t IH]; intros z w; cbn [shift flat app]; [reflexivity|]. rewrite IH. reflexivity.
Qed.
Lemma shift_length {A} (ps : list (A * A)) : forall z w, length (shift z ps w) = S (length ps).
Proof. induction ps as [|[x y] t IH]; intros z w; cbn [shift length]; [|rewrite IH]; reflexivity. Qed.

Lemma zswitchInts_flat {A} (ps : list (A * A)) rest n :
  (n = 2 * Z.of_nat (length ps) \/ n = 2 * Z.of_nat (length ps) - 1) -> ps <> [] ->
  zswitchInts (flat ps ++ rest) n = Ok (flat (map swp ps) ++ rest).
Proof.
  intros Hn Hne. assert (0 < length ps)%nat by (destruct ps; [congruence|cbn; lia]).
  unfold zswitchInts. destruct (Z.eqb_spec n 0); [lia|].
  replace (Z.to_nat (Z.quot (n - 1) 2 + 1)) with (length ps); [apply switch_flat|].
  apply Nat2Z.inj. rewrite Z2Nat.id; Z.to_euclidean_division_equations; lia.
Qed.

Lemma zswitchInts_at_app {A} (a b c : list A) pos n :
  Z.to_nat pos = length a -> zswitchInts b n = Ok c -> zswitchInts_at (a ++ b) pos n = Ok (a ++ c).
Proof.
  intros H E. unfold zswitchInts_at. rewrite H.
  rewrite skipn_app, skipn_all, Nat.sub_diag. cbn [skipn app]. rewrite E. cbn [bind].
  rewrite firstn_app, firstn_all, Nat.sub_diag. cbn [firstn]. rewrite app_nil_r. reflexivity.
Qed.

Theorem C37_times_doubles_roundtrip : forall (times doubles : list Z) (pad : Z) m,
  length doubles = (2 * m)%nat -> (0 < m)%nat ->
  let t := Z.of_nat (length times) in
  let n := t + 2 * Z.of_nat m in
  exists stored,
    zswitchDoubles (times ++ doubles ++ [pad]) n 2 true t = Ok stored /\
    zswitchDoubles stored n 2 false t = Ok (times ++ doubles ++ [pad]).
Proof.
  intros times doubles pad m Hd Hm t n.
  assert (Ht : 0 <= t) by lia. assert (Hn : n <> 0) by lia.
  unfold zswitchDoubles. replace (n =? 0) with false by (symmetry; apply Z.eqb_neq; lia).
  change (2 =? 1) with false. cbv iota beta zeta.
  destruct (Z.eqb_spec t 0) as [E0|E0]; [eexists; split; reflexivity|].
  destruct (even_flat doubles m Hd) as (ds & -> & Eds).
  destruct (isOdd t) eqn:Eo.
  - (* odd number of times *)
    assert (Hodd : exists k, length times = S (2 * k)%nat).
    { unfold isOdd in Eo. apply negb_true_iff, Z.eqb_neq in Eo. exists (Z.to_nat (Z.quot t 2)).
      apply Nat2Z.inj. fold t. rewrite Nat2Z.inj_succ, Nat2Z.inj_mul, Z2Nat.id;
        Z.to_euclidean_division_equations; lia. }
    destruct Hodd as [k Hk].
    destruct (exists_last (l := times)) as (ts0 & tl & ->); [intros ->; cbn in *; lia|].
    rewrite app_length in Hk. cbn [length] in Hk.
    destruct (even_flat ts0 k) as (ts & -> & Ets); [lia|].
    destruct ds as [|[d1 d2] ds']; [cbn in *; lia|].
    assert (Em : m = S (length ds')) by (cbn [length] in Eds; lia).
    assert (Et : t = 2 * Z.of_nat (length ts) + 1).
    { unfold t. rewrite app_length, flat_length. cbn [length]. lia. }
    (* step 1 *)
    set (D := (d1, d2) :: ds') in *.
    assert (S1 : zswitchInts_at ((flat ts ++ [tl]) ++ flat D ++ [pad]) t (n - t)
                 = Ok ((flat ts ++ [tl]) ++ flat (map swp D) ++ [pad])).
    { apply zswitchInts_at_app.
      - unfold t. rewrite Nat2Z.id. reflexivity.
      - apply zswitchInts_flat; [left; unfold n; lia|discriminate]. }
    rewrite S1. cbn [bind].
    (* step 2 *)
    set (D2 := shift d1 (map swp ds') pad).
    assert (ED2 : flat (map swp D) ++ [pad] = d2 :: flat D2).
    { unfold D2. rewrite shift_flat. reflexivity. }
    assert (LD2 : length D2 = m) by (unfold D2; rewrite shift_length, map_length; lia).
    assert (ND2 : D2 <> []) by (intros X; rewrite X in LD2; cbn in LD2; lia).
    assert (S2 : zswitchInts_at ((flat ts ++ [tl]) ++ flat (map swp D) ++ [pad]) (t + 1) (n - t - 1)
                 = Ok ((flat ts ++ [tl; d2]) ++ flat (map swp D2))).
    { rewrite ED2.
      replace ((flat ts ++ [tl]) ++ d2 :: flat D2) with ((flat ts ++ [tl; d2]) ++ flat D2 ++ [])
        by (rewrite app_nil_r, <- !app_assoc; reflexivity).
      rewrite <- (app_nil_r (flat (map swp D2))).
      apply zswitchInts_at_app.
      - rewrite app_length, flat_length. cbn [length]. apply Nat2Z.inj. rewrite Z2Nat.id; lia.
      - apply zswitchInts_flat; [right; unfold n; lia|exact ND2]. }
    rewrite S2. cbn [bind].
    (* step 3 *)
    assert (EP : flat ts ++ [tl; d2] = flat (ts ++ [(tl, d2)])) by (rewrite flat_app; reflexivity).
    assert (S3 : zswitchInts ((flat ts ++ [tl; d2]) ++ flat (map swp D2)) t
                 = Ok (flat (map swp (ts ++ [(tl, d2)])) ++ flat (map swp D2))).
    { rewrite EP. apply zswitchInts_flat; [right; rewrite app_length; cbn [length]; lia|].
      intros X. apply app_eq_nil in X. destruct X; discriminate. }
    eexists. split; [exact S3|].
    (* retrieval *)
    set (P := ts ++ [(tl, d2)]).
    replace (flat (map swp P) ++ flat (map swp D2)) with (flat (map swp (P ++ D2)) ++ [])
      by (rewrite app_nil_r, map_app, flat_app; reflexivity).
    rewrite zswitchInts_flat.
    2:{ right. rewrite map_length, app_length, LD2. unfold P. rewrite app_length. cbn [length]. unfold n. lia. }
    2:{ unfold P. destruct ts; discriminate. }
    cbn [bind]. rewrite map_swp_swp, app_nil_r, flat_app.
    replace (flat P ++ flat D2) with ((flat ts ++ [tl]) ++ flat (map swp D) ++ [pad]).
    2:{ rewrite ED2. unfold P. rewrite flat_app, <- !app_assoc. reflexivity. }
    rewrite <- (map_swp_swp D) at 2.
    apply zswitchInts_at_app; [unfold t; rewrite Nat2Z.id; reflexivity|].
    apply zswitchInts_flat; [left; rewrite map_length; unfold n; lia|discriminate].
  - (* even number of times: same call in both directions *)
    assert (Heven : exists k, length times = (2 * k)%nat).
    { unfold isOdd in Eo. apply negb_false_iff, Z.eqb_eq in Eo. exists (Z.to_nat (Z.quot t 2)).
      apply Nat2Z.inj. fold t. rewrite Nat2Z.inj_mul, Z2Nat.id; Z.to_euclidean_division_equations; lia. }
    destruct Heven as [k Hk]. destruct (even_flat times k Hk) as (ts & -> & Ets).
    assert (ts <> []) by (intros ->; cbn in *; lia).
    rewrite zswitchInts_flat; [|left; unfold t; rewrite flat_length; lia|assumption].
    eexists. split; [reflexivity|].
    rewrite zswitchInts_flat; [|left; unfold t; rewrite flat_length, map_length; lia|].
    + rewrite map_swp_swp. reflexivity.
    + intros X. apply map_eq_nil in X. congruence.
Qed.

Example C37_times_doubles_example :
  zswitchDoubles [1;2;3; 11;12;21;22; 0] 7 2 true 3 = Ok [2;1;12;3;22;11;0;21].
Proof. reflexivity. Qed.

(** *** Text in file words *)

Lemma put_prefix_ok src dst : (length src <= length dst)%nat ->
  put_prefix src dst = Ok (src ++ skipn (length src) dst).
Proof. intros H. unfold put_prefix. apply Nat.leb_le in H. rewrite H. reflexivity. Qed.

Lemma swap_words_def n : forall l, length l = (8 * n)%nat -> exists l', swap_words n l = Ok l'.
Proof.
  induction n as [|n IH]; intros l H; cbn [swap_words]; [eauto|].
  destruct l as [|a [|b [|c [|d [|e [|f [|g [|h t]]]]]]]]; cbn [length] in H; try lia.
  destruct (IH t) as [t' E]; [lia|]. rewrite E. cbn [bind]. eauto.
Qed.

Lemma zswap_def l k : length l = (8 * k)%nat -> (0 < k)%nat ->
  exists l', zswap l (2 * Z.of_nat k) = Ok l' /\ zswap l' (2 * Z.of_nat k) = Ok l /\ length l' = length l.
Proof.
  intros H Hk. destruct (swap_words_def k l H) as [l' E].
  assert (K : Z.to_nat (Z.quot (2 * Z.of_nat k - 1) 2 + 1) = k).
  { apply Nat2Z.inj. rewrite Z2Nat.id; Z.to_euclidean_division_equations; lia. }
  exists l'. unfold zswap. destruct (Z.eqb_spec (2 * Z.of_nat k) 0); [lia|]. rewrite K.
  destruct (swap_words_inv _ _ _ E) as [E1 E2]. auto.
Qed.

Lemma skipn_repeat0 {A} (l : list A) n : (length l <= n)%nat -> skipn n l = [].
Proof. intros. apply skipn_all2. lia. Qed.

(** A text of [n] bytes put into [k = ceil(n/8)] file words, written to disk on one kind of machine and read
    on any other: the disk bytes are the text padded with zeros, whatever the machine, and the text comes
    back.  [buf] is the word buffer (any previous contents), [out] the receiving text buffer. *)
Theorem C37_text_portable : forall be be' text k buf out,
  text <> [] -> (8 * k - 8 < length text <= 8 * k)%nat -> length buf = (8 * k)%nat ->
  (length text < length out)%nat ->
  let n := Z.of_nat (length text) in
  let kz := Z.of_nat k in
  exists words disk words' result,
    charLong be text buf n (8 * kz) true true = Ok words /\
    disk_swap be (2 * kz) words = Ok disk /\
    disk = text ++ repeat 0 (8 * k - length text) /\
    disk_swap be' (2 * kz) disk = Ok words' /\
    charLong be' words' out n (Z.of_nat (length out)) false false = Ok result /\
    firstn (length text) result = text /\ nth_error result (length text) = Some 0 /\
    length result = length out.
Proof.
  intros be be' text k buf out Hne Hk Hbuf Hout n kz.
  assert (Hlen : (0 < length text)%nat) by (destruct text; [congruence|cbn; lia]).
  set (disk := text ++ repeat 0 (8 * k - length text)).
  assert (Ldisk : length disk = (8 * k)%nat) by (unfold disk; rewrite app_length, repeat_length; lia).
  destruct (zswap_def disk k Ldisk) as (sw & Z1 & Z2 & Z3); [lia|].
  assert (Enl : Z.quot (n - 1) 8 + 1 = kz) by (unfold n, kz; Z.to_euclidean_division_equations; lia).
  assert (EnL : Z.quot (8 * kz - 1) 8 + 1 = kz) by (unfold n, kz; Z.to_euclidean_division_equations; lia).
  exists (if be then sw else disk), disk, (if be' then sw else disk).
  (* storing *)
  assert (St : charLong be text buf n (8 * kz) true true = Ok (if be then sw else disk)).
  { unfold charLong. rewrite Enl, EnL.
    replace (8 * kz <? n) with false by (symmetry; apply Z.ltb_ge; unfold n, kz; lia).
    replace (8 * kz <? kz * 8) with false by (symmetry; apply Z.ltb_ge; lia).
    rewrite orb_true_r. cbv beta zeta. cbn [negb].
    unfold get_prefix. replace (n <=? Z.of_nat (length text)) with true by (symmetry; apply Z.leb_le; unfold n; lia).
    cbn [bind]. unfold n at 1. rewrite Nat2Z.id, firstn_all. rewrite put_prefix_ok by lia. cbn [bind].
    rewrite andb_false_r. cbn [andb bind].
    unfold zero_from_to.
    assert (Lt : length (text ++ skipn (length text) buf) = (8 * k)%nat)
      by (rewrite app_length, skipn_length; lia).
    assert (F : firstn (length text) (text ++ skipn (length text) buf) = text)
      by (rewrite firstn_app, firstn_all, Nat.sub_diag; cbn [firstn]; apply app_nil_r).
    destruct (Z.ltb_spec n (kz * 8)) as [Hlt|Hge].
    - rewrite Lt. replace (kz * 8 <=? Z.of_nat (8 * k)) with true by (symmetry; apply Z.leb_le; unfold kz; lia).
      cbn [bind].
      replace (Z.to_nat n) with (length text) by (unfold n; rewrite Nat2Z.id; reflexivity). rewrite F.
      rewrite skipn_repeat0 by (rewrite Lt; unfold kz; lia). rewrite app_nil_r.
      replace (Z.to_nat (kz * 8 - n)) with (8 * k - length text)%nat by (unfold kz, n; lia).
      fold disk. destruct be; [exact Z1|reflexivity].
    - cbn [bind]. assert (E8 : length text = (8 * k)%nat) by (unfold n, kz in Hge; lia).
      rewrite skipn_repeat0 by lia.
      assert (disk = text ++ []) as <- by (unfold disk; rewrite E8, Nat.sub_diag; reflexivity).
      destruct be; [exact Z1|reflexivity]. }
  (* retrieving *)
  set (L := length out) in *.
  assert (Rt : charLong be' (if be' then sw else disk) out n (Z.of_nat L) false false
               = Ok (text ++ 0 :: skipn (S (length text)) out)).
  { unfold charLong. rewrite Enl.
    replace (Z.of_nat L <? n) with false by (symmetry; apply Z.ltb_ge; unfold n; lia).
    assert (Q : forall l, aset (text ++ skipn (length text) out) n 0 = Ok l -> l = text ++ 0 :: skipn (S (length text)) out).
    { unfold aset. replace (n <? 0) with false by (symmetry; apply Z.ltb_ge; unfold n; lia).
      intros l. unfold n. rewrite Nat2Z.id.
      rewrite upd_nat_some by (rewrite app_length, skipn_length; fold L; lia).
      intros H. apply (f_equal (fun r => match r with Ok x => x | Undef => [] end)) in H. cbv beta iota in H.
      rewrite <- H. clear H.
      rewrite firstn_app, firstn_all, Nat.sub_diag. cbn [firstn]. rewrite app_nil_r.
      apply (f_equal (fun z => text ++ 0 :: z)). rewrite skipn_app, (skipn_repeat0 text) by lia. cbn [app].
      replace (S (length text) - length text)%nat with 1%nat by lia.
      rewrite skipn_plus, Nat.add_1_r. reflexivity. }
    assert (Q2 : aset (text ++ skipn (length text) out) n 0 = Ok (text ++ 0 :: skipn (S (length text)) out)).
    { destruct (aset (text ++ skipn (length text) out) n 0) as [l|] eqn:E; [f_equal; apply Q, eq_refl|].
      exfalso. unfold aset in E. replace (n <? 0) with false in E by (symmetry; apply Z.ltb_ge; unfold n; lia).
      unfold n in E. rewrite Nat2Z.id in E.
      rewrite upd_nat_some in E by (rewrite app_length, skipn_length; fold L; lia). discriminate. }
    replace (n <? Z.of_nat L) with true by (symmetry; apply Z.ltb_lt; unfold n; lia).
    assert (Fd : firstn (length text) disk = text)
      by (unfold disk; rewrite firstn_app, firstn_all, Nat.sub_diag; cbn [firstn]; apply app_nil_r).
    destruct be'; cbn [negb orb andb].
    - unfold get_prefix at 1. rewrite Z3, Ldisk.
      replace (kz * 8 <=? Z.of_nat (8 * k)) with true by (symmetry; apply Z.leb_le; unfold kz; lia).
      cbn [bind].
      rewrite firstn_all2 by (rewrite Z3, Ldisk; unfold kz; lia).
      fold kz in Z1, Z2. rewrite Z2. cbn [bind].
      unfold get_prefix. rewrite Ldisk.
      replace (n <=? Z.of_nat (8 * k)) with true by (symmetry; apply Z.leb_le; unfold n; lia).
      cbn [bind]. unfold n at 1. rewrite Nat2Z.id, Fd, put_prefix_ok by (fold L; lia). cbn [bind].
      rewrite Q2. reflexivity.
    - unfold get_prefix. rewrite Ldisk.
      replace (n <=? Z.of_nat (8 * k)) with true by (symmetry; apply Z.leb_le; unfold n; lia).
      cbn [bind]. unfold n at 1. rewrite Nat2Z.id, Fd, put_prefix_ok by (fold L; lia). cbn [bind].
      rewrite Q2. reflexivity. }
  eexists. split; [exact St|]. split; [destruct be; [exact Z2|reflexivity]|]. split; [reflexivity|].
  split; [destruct be'; [exact Z1|reflexivity]|]. split; [exact Rt|].
  split; [|split].
  - rewrite firstn_app, firstn_all, Nat.sub_diag. cbn [firstn]. apply app_nil_r.
  - rewrite nth_error_app2, Nat.sub_diag by lia. reflexivity.
  - rewrite app_length. cbn [length]. rewrite skipn_length. fold L. lia.
Qed.

Example C37_text_example :
  charLong true [65;66;67] (repeat 7 8) 3 8 true true = Ok [0;0;0;0;0;67;66;65]
  /\ charLong false [65;66;67] (repeat 7 8) 3 8 true true = Ok [65;66;67;0;0;0;0;0].
Proof. split; reflexivity. Qed.

(** On a big-endian machine, storing text in a buffer whose stated size is not a multiple of 8 swaps (and
    so writes) past its end. *)
Theorem C37_refuted_bigendian_overrun : exists text buf,
  length buf = 12%nat /\ charLong true text buf (Z.of_nat (length text)) 12 true true = Undef.
Proof. exists [65;66;67], (repeat 0 12). split; reflexivity. Qed.

Print Assumptions C37_switch_involution.
Print Assumptions C37_switch_defined.
Print Assumptions C37_swap_involution.
Print Assumptions C37_times_doubles_roundtrip.
Print Assumptions C37_text_portable.
Print Assumptions C37_refuted_bigendian_overrun.
(** and success is passed on as success by any number of callers *)
Theorem C34_update_keeps_success : forall callers,
  fold_left (fun r f => let* x := r in zerrorUpdate x f) callers (Ok 0) = Ok 0 /\ zisError 0 = false.
Proof.
  intros callers. split; [|reflexivity]. induction callers as [|f t IH]; [reflexivity|]. cbn [fold_left bind].
  replace (zerrorUpdate 0 f) with (@Ok Z 0) by reflexivity. exact IH.
Qed.
Print Assumptions C34_update_keeps_success.
