(** * Lemmas for C49. *)
From Coq Require Import ZArith List Lia Bool ZifyBool.
From Verif Require Import Base ArrayLib SeriesProofs PdModel PdSpec.
Import ListNotations.
Open Scope Z_scope.
Open Scope res_scope.

Section S.
Variable widen : Z -> Z * Z.
Variable narrow : Z * Z -> Z.
Variable junk : Z.
Notation cast := (cast widen narrow).
Notation words := (words widen narrow).
Notation array_of := (array_of widen narrow).

Definition num_w (dbl : bool) (ws : list Z) (k : Z) : res num :=
  if dbl then let* a := aget ws (2 * k) in let* b := aget ws (2 * k + 1) in Ok (D (a, b))
  else let* a := aget ws k in Ok (F a).

Lemma size_pos dbl : 1 <= size_of dbl <= 2.
Proof. destruct dbl; cbn; lia. Qed.

(** ** arrays and words *)
Lemma el_aget a i : 0 <= i < count a -> el a i = Some (num_at a i).
Proof.
  unfold num_at, el. intros H. destruct (i <? 0) eqn:E; [lia|]. destruct a as [l|l]; cbn in *; destruct (nth_error l (Z.to_nat i)) eqn:N; try reflexivity; apply nth_error_None in N; lia.
Qed.
Lemma num_at_F l i v : aget l i = Ok v -> num_at (AF l) i = F v.
Proof. intros H. pose proof (aget_range _ _ _ H) as R. unfold num_at, el. unfold aget in H. destruct (i <? 0); [discriminate|]. destruct (nth_error l (Z.to_nat i)); [|discriminate]. injection H as <-. reflexivity. Qed.
Lemma num_at_D l i v : aget l i = Ok v -> num_at (AD l) i = D v.
Proof. intros H. pose proof (aget_range _ _ _ H) as R. unfold num_at, el. unfold aget in H. destruct (i <? 0); [discriminate|]. destruct (nth_error l (Z.to_nat i)); [|discriminate]. injection H as <-. reflexivity. Qed.

Lemma aget_map {A B} (f : A -> B) l i : aget (map f l) i = match aget l i with Ok v => Ok (f v) | Undef => Undef end.
Proof. unfold aget. destruct (i <? 0); [reflexivity|]. rewrite nth_error_map. destruct (nth_error l (Z.to_nat i)); reflexivity. Qed.
Lemma aget_cons {A} (a : A) l i : 0 < i -> aget (a :: l) i = aget l (i - 1).
Proof. intros H. unfold aget. destruct (i <? 0) eqn:E1; [lia|]. destruct (i - 1 <? 0) eqn:E2; [lia|]. replace (Z.to_nat i) with (S (Z.to_nat (i - 1))) by lia. reflexivity. Qed.
Lemma aget_0 {A} (a : A) l : aget (a :: l) 0 = Ok a. Proof. reflexivity. Qed.

Lemma flat_get {A} (f : A -> Z * Z) l : forall k, 0 <= k ->
  aget (flat_map (fun x => [fst (f x); snd (f x)]) l) (2 * k) = match aget l k with Ok v => Ok (fst (f v)) | Undef => Undef end /\
  aget (flat_map (fun x => [fst (f x); snd (f x)]) l) (2 * k + 1) = match aget l k with Ok v => Ok (snd (f v)) | Undef => Undef end.
Proof.
  induction l as [|a t IH]; intros k Hk.
  - cbn [flat_map]. rewrite !aget_out by (unfold alen; cbn; lia). split; reflexivity.
  - cbn [flat_map app]. destruct (Z.eq_dec k 0) as [->|N]; [split; reflexivity|].
    destruct (IH (k - 1) ltac:(lia)) as [I1 I2]. rewrite !(aget_cons a) by lia. split.
    + rewrite aget_cons, aget_cons by lia. replace (2 * k - 1 - 1) with (2 * (k - 1)) by lia. exact I1.
    + rewrite aget_cons, aget_cons by lia. replace (2 * k + 1 - 1 - 1) with (2 * (k - 1) + 1) by lia. exact I2.
Qed.
Lemma flat_len {A} (f : A -> Z * Z) l : alen (flat_map (fun x => [fst (f x); snd (f x)]) l) = 2 * alen l.
Proof. unfold alen. induction l as [|a t IH]; cbn [flat_map app length]; lia. Qed.

Lemma num_w_flat {A} (f : A -> Z * Z) l k v : aget l k = Ok v -> num_w true (flat_map (fun x => [fst (f x); snd (f x)]) l) k = Ok (D (f v)).
Proof. intros H. pose proof (aget_range _ _ _ H) as R. destruct (flat_get f l k) as [E1 E2]; [lia|]. unfold num_w. rewrite E1, E2, H. cbn [bind]. destruct (f v); reflexivity. Qed.

Lemma words_spec dbl a i n : 0 <= i -> 0 <= n -> i + n <= count a ->
  exists ws, words dbl a i n = Ok ws /\ alen ws = n * size_of dbl /\ forall k, 0 <= k < n -> num_w dbl ws k = Ok (cast dbl (num_at a (i + k))).
Proof.
  intros Hi Hn Hc. unfold PdModel.words. destruct a as [l|l]; cbn [count] in Hc.
  - destruct (read_loop_ok (Z.to_nat n) l i) as (ws & E & L & G); [lia|unfold alen; lia|]. rewrite E. cbn [bind].
    assert (El : alen ws = n) by (unfold alen; lia). destruct dbl; cbn [size_of].
    + eexists. split; [reflexivity|]. rewrite flat_len. split; [lia|]. intros k Hk. destruct (aget_some ws k) as [v V]; [lia|]. rewrite (num_w_flat widen ws k v V).
      rewrite G in V by lia. rewrite (num_at_F _ _ _ V). reflexivity.
    + exists ws. split; [reflexivity|]. split; [lia|]. intros k Hk. destruct (aget_some ws k) as [v V]; [lia|]. unfold num_w. rewrite V. cbn [bind]. rewrite G in V by lia. rewrite (num_at_F _ _ _ V). reflexivity.
  - destruct (read_loop_ok (Z.to_nat n) l i) as (ws & E & L & G); [lia|unfold alen; lia|]. rewrite E. cbn [bind].
    assert (El : alen ws = n) by (unfold alen; lia). destruct dbl; cbn [size_of].
    + eexists. split; [reflexivity|]. rewrite (flat_len (fun d => d)). split; [lia|]. intros k Hk. destruct (aget_some ws k) as [v V]; [lia|]. rewrite (num_w_flat (fun d => d) ws k v V).
      rewrite G in V by lia. rewrite (num_at_D _ _ _ V). reflexivity.
    + eexists. split; [reflexivity|]. split; [unfold alen in *; rewrite map_length; lia|]. intros k Hk. destruct (aget_some ws k) as [v V]; [lia|]. unfold num_w. rewrite aget_map, V. cbn [bind]. rewrite G in V by lia. rewrite (num_at_D _ _ _ V). reflexivity.
Qed.

Lemma pairs_spec : forall n l, alen l = 2 * Z.of_nat n -> alen (pairs l) = Z.of_nat n /\ forall k, aget (pairs l) k = let* a := aget l (2 * k) in let* b := aget l (2 * k + 1) in Ok (a, b).
Proof.
  induction n as [|n IH]; intros l H.
  - destruct l; [|unfold alen in H; cbn in H; lia]. cbn [pairs]. split; [reflexivity|]. intros k. rewrite !aget_out by (unfold alen; cbn; lia). reflexivity.
  - destruct l as [|a [|b t]]; unfold alen in H; cbn [length] in H; try lia. destruct (IH t) as [I1 I2]; [unfold alen; lia|]. cbn [pairs]. split; [unfold alen in *; cbn [length]; lia|].
    intros k. destruct (Z_lt_le_dec k 0) as [L|L]; [rewrite aget_out, (aget_out _ (2 * k)) by lia; reflexivity|]. destruct (Z.eq_dec k 0) as [->|N]; [reflexivity|].
    rewrite (aget_cons (a, b)), (aget_cons a), (aget_cons b), (aget_cons a), (aget_cons b) by lia. rewrite I2. replace (2 * k - 1 - 1) with (2 * (k - 1)) by lia. replace (2 * k + 1 - 1 - 1) with (2 * (k - 1) + 1) by lia. reflexivity.
Qed.

Lemma count_alen a : count a = match a with AF l => alen l | AD l => alen l end. Proof. destruct a; reflexivity. Qed.
Lemma array_of_spec from dbl ws n : 0 <= n -> alen ws = n * size_of from ->
  count (array_of from dbl ws) = n /\ forall k x, 0 <= k < n -> num_w from ws k = Ok x -> el (array_of from dbl ws) k = Some (cast dbl x).
Proof.
  intros Hn Hl. assert (C : count (array_of from dbl ws) = n).
  { unfold PdModel.array_of. destruct from; cbn [size_of] in Hl.
    - destruct (pairs_spec (Z.to_nat n) ws) as [P _]; [lia|]. rewrite Z2Nat.id in P by lia. rewrite count_alen. destruct dbl; unfold alen in *; rewrite ?map_length; exact P.
    - rewrite count_alen. destruct dbl; unfold alen in *; rewrite ?map_length; lia. }
  split; [exact C|]. intros k x Hk E. rewrite el_aget by lia. f_equal. unfold PdModel.array_of. unfold num_w in E. destruct from; cbn [size_of] in Hl.
  - destruct (pairs_spec (Z.to_nat n) ws) as [_ P]; [lia|]. specialize (P k). destruct (aget ws (2 * k)) as [a|]; [|discriminate]. cbn [bind] in *. destruct (aget ws (2 * k + 1)) as [b|]; [|discriminate]. cbn [bind] in *. injection E as <-.
    destruct dbl; [rewrite (num_at_D _ _ _ P); reflexivity|]. erewrite num_at_F; [reflexivity|]. rewrite aget_map, P. reflexivity.
  - destruct (aget ws k) as [a|] eqn:A; [|discriminate]. cbn [bind] in E. injection E as <-. destruct dbl; [|rewrite (num_at_F _ _ _ A); reflexivity]. erewrite num_at_D; [reflexivity|]. rewrite aget_map, A. reflexivity.
Qed.

Lemma padded_len l : Z.even (alen (padded junk l)) = true /\ alen l <= alen (padded junk l).
Proof.
  unfold padded. destruct (Z.odd (alen l)) eqn:O.
  - rewrite alen_app. change (alen [junk]) with 1. split; [|lia]. rewrite Z.even_add, <- Z.negb_odd, O. reflexivity.
  - split; [|lia]. rewrite <- Z.negb_odd, O. reflexivity.
Qed.
Lemma padded_get l k : 0 <= k < alen l -> aget (padded junk l) k = aget l k.
Proof. intros H. unfold padded. destruct (Z.odd (alen l)); [|reflexivity]. rewrite aget_app by lia. destruct (k <? alen l) eqn:E; [reflexivity|lia]. Qed.
Lemma num_w_ext dbl l l' k k' : (forall j, 0 <= j < size_of dbl -> aget l (k * size_of dbl + j) = aget l' (k' * size_of dbl + j)) -> num_w dbl l k = num_w dbl l' k'.
Proof.
  intros H. unfold num_w. destruct dbl; cbn [size_of] in H.
  - pose proof (H 0 ltac:(lia)) as H0. pose proof (H 1 ltac:(lia)) as H1. rewrite !Z.add_0_r in H0. rewrite (Z.mul_comm 2 k), (Z.mul_comm 2 k'), H0, H1. reflexivity.
  - pose proof (H 0 ltac:(lia)) as H0. rewrite !Z.add_0_r, !Z.mul_1_r in H0. rewrite H0. reflexivity.
Qed.

(** ** the layout: row [r] of curve [q] is number q*n+r *)
Lemma place_spec dbl n row i : 0 <= row -> 0 <= i * n -> row + i * n <= 2147483647 ->
  place dbl n row i = Ok (if dbl then (row + i * n, 0) else (Z.quot (row + i * n) 2, if Z.odd (row + i * n) then 1 else 0)).
Proof. intros H1 H2 H3. unfold place. rewrite chk32_ok by (unfold in32, INT_MIN, INT_MAX; lia). cbn [bind]. rewrite chk32_ok by (unfold in32, INT_MIN, INT_MAX; lia). reflexivity. Qed.

Lemma half m : 0 <= m -> Z.odd m = true -> 2 * Z.quot m 2 = m - 1 /\ Z.quot m 2 >= 0.
Proof. intros H O. rewrite Z.quot_div_nonneg by lia. pose proof (Zmod_odd m) as E. rewrite O in E. pose proof (Z.div_mod m 2). lia. Qed.
Lemma half' m : 0 <= m -> Z.odd m = false -> 2 * Z.quot m 2 = m /\ Z.quot m 2 >= 0.
Proof. intros H O. rewrite Z.quot_div_nonneg by lia. pose proof (Zmod_odd m) as E. rewrite O in E. pose proof (Z.div_mod m 2). lia. Qed.

(** words at a place, read and written *)
Lemma get_place dbl area m rows : 0 <= m -> 0 <= rows -> (m + rows) * size_of dbl <= alen area ->
  exists ws, get_at area (if dbl then m else Z.quot m 2) (rows * size_of dbl + (if dbl then 0 else if Z.odd m then 1 else 0)) = Ok ws /\
    alen (skipn (Z.to_nat (if dbl then 0 else if Z.odd m then 1 else 0)) ws) = rows * size_of dbl /\
    forall k, 0 <= k < rows -> num_w dbl (skipn (Z.to_nat (if dbl then 0 else if Z.odd m then 1 else 0)) ws) k = num_w dbl area (m + k).
Proof.
  intros Hm Hr Ha. unfold get_at. pose proof (size_pos dbl) as Sp.
  set (off := if dbl then 0 else if Z.odd m then 1 else 0). set (st := 2 * (if dbl then m else Z.quot m 2)).
  assert (O : st = m * size_of dbl - off /\ 0 <= st /\ 0 <= off).
  { unfold st, off. destruct dbl; cbn [size_of]; [lia|]. destruct (Z.odd m) eqn:O; [destruct (half m Hm O)|destruct (half' m Hm O)]; lia. }
  destruct (read_loop_ok (Z.to_nat (rows * size_of dbl + off)) area st) as (ws & E & L & G); try nia.
  exists ws. split; [exact E|]. assert (La : alen ws = rows * size_of dbl + off) by (unfold alen; rewrite L; nia). split.
  - rewrite alen_skipn by nia. lia.
  - intros k Hk. apply num_w_ext. intros j Hj. rewrite aget_skipn by nia. rewrite G by nia. f_equal. nia.
Qed.

Lemma put_place dbl area m ws rows : 0 <= m -> 0 < rows -> alen ws = rows * size_of dbl -> (m + rows) * size_of dbl <= alen area ->
  Z.even (alen area) = true ->
  exists before area', (if (if dbl then 0 else if Z.odd m then 1 else 0) =? 1 then let* l := get_at area (if dbl then m else Z.quot m 2) 2 in Ok (firstn 1 l) else Ok []) = Ok before /\
    put_at area (if dbl then m else Z.quot m 2) (before ++ ws) = Ok area' /\ alen area' = alen area /\
    forall k, 0 <= k -> num_w dbl area' k = if (m <=? k) && (k <? m + rows) then num_w dbl ws (k - m) else num_w dbl area k.
Proof.
  intros Hm Hr Hw Ha He. pose proof (size_pos dbl) as Sp. unfold put_at, get_at.
  destruct (dbl || negb (Z.odd m)) eqn:C.
  - exists []. assert (off0 : (if dbl then 0 else if Z.odd m then 1 else 0) = 0) by (destruct dbl; [reflexivity|]; cbn in C; destruct (Z.odd m); [discriminate|reflexivity]).
    assert (st : 2 * (if dbl then m else Z.quot m 2) = m * size_of dbl) by (destruct dbl; cbn [size_of]; [lia|]; cbn in C; destruct (Z.odd m) eqn:O; [discriminate|]; destruct (half' m Hm O); lia).
    rewrite off0, st. cbn [Z.eqb app].
    destruct (copy_loop_ok (length ws) ws 0 area (m * size_of dbl)) as (d & E & L & G); try (unfold alen in *; nia).
    exists d. split; [reflexivity|]. split; [exact E|]. split; [exact L|]. intros k Hk. fold (alen ws) in G. rewrite Hw in G.
    destruct ((m <=? k) && (k <? m + rows)) eqn:R.
    + apply num_w_ext. intros j Hj. rewrite G. replace ((m * size_of dbl <=? k * size_of dbl + j) && (k * size_of dbl + j <? m * size_of dbl + rows * size_of dbl)) with true; [f_equal; lia|].
      symmetry. apply andb_true_iff. rewrite Z.leb_le, Z.ltb_lt. apply andb_true_iff in R. rewrite Z.leb_le, Z.ltb_lt in R. nia.
    + apply num_w_ext. intros j Hj. rewrite G. replace ((m * size_of dbl <=? k * size_of dbl + j) && (k * size_of dbl + j <? m * size_of dbl + rows * size_of dbl)) with false; [reflexivity|].
      symmetry. apply andb_false_iff. rewrite Z.leb_gt, Z.ltb_ge. apply andb_false_iff in R. rewrite Z.leb_gt, Z.ltb_ge in R. nia.
  - destruct dbl; [discriminate|]. cbn in C. destruct (Z.odd m) eqn:O; [|discriminate]. cbn [size_of] in *. destruct (half m Hm O) as [H1 H2]. cbn [Z.eqb].
    destruct (read_loop_ok (Z.to_nat 2) area (2 * Z.quot m 2)) as (l & E & L & G); try lia. rewrite E. cbn [bind].
    destruct l as [|x t]; [discriminate|]. pose proof (G 0 ltac:(lia)) as G0. rewrite aget_0, Z.add_0_r, H1 in G0. cbn [firstn].
    exists [x]. destruct (copy_loop_ok (length ([x] ++ ws)) ([x] ++ ws) 0 area (2 * Z.quot m 2)) as (d & E2 & L2 & G2); try (unfold alen in *; cbn [app length]; lia).
    exists d. split; [reflexivity|]. split; [exact E2|]. split; [exact L2|]. intros k Hk. fold (alen ([x] ++ ws)) in G2. rewrite alen_app, Hw, H1 in G2. change (alen [x]) with 1 in G2. cbn [app] in G2.
    unfold num_w. rewrite G2. destruct ((m - 1 <=? k) && (k <? m - 1 + (1 + rows * 1))) eqn:R.
    + destruct (Z.eq_dec k (m - 1)) as [->|N].
      * replace ((m <=? m - 1) && (m - 1 <? m + rows)) with false by lia. rewrite Z.sub_diag. rewrite Z.add_0_l, aget_0, <- G0. reflexivity.
      * replace ((m <=? k) && (k <? m + rows)) with true by lia. rewrite aget_cons by lia. replace (0 + (k - (m - 1)) - 1) with (k - m) by lia. reflexivity.
    + replace ((m <=? k) && (k <? m + rows)) with false by lia. reflexivity.
Qed.
End S.
