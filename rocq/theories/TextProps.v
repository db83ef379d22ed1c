(** * C38: text tables and text records; C43: array records. *)
From Coq Require Import ZArith List Bool Lia ZifyBool.
From Verif Require Import Base ArrayLib PackModel PackProps HashModel CStr CStrProofs TimeTextProps PathSpec PathProofs PathProps
  FileModel FileSpec FileHistSpec FileProps FileRefute TextModel.
Import ListNotations.
Open Scope Z_scope.
Open Scope res_scope.

(** ** Specification *)
(** a table packed: every string followed by a NUL *)
Definition packed (cells : list (list Z)) : list Z := flat_map (fun s => s ++ [0]) cells.
(** the number of bytes of cell [k], with its NUL (0 when there is no such cell) *)
Definition cell_bytes (cells : list (list Z)) (k : nat) : Z := match nth_error cells k with Some s => slen s + 1 | None => 0 end.
Definition sum (l : list Z) : Z := fold_left Z.add l 0.
(** bytes of a memory *)
Definition bytes (l : list Z) : Prop := Forall (fun b => 0 <= b < 256) l.

(** ** lemmas *)
Lemma packed_cons s t : packed (s :: t) = s ++ 0 :: packed t.
Proof. unfold packed. cbn [flat_map]. rewrite <- app_assoc. reflexivity. Qed.
Lemma packed_app a b : packed (a ++ b) = packed a ++ packed b.
Proof. unfold packed. apply flat_map_app. Qed.
Lemma put_str_val s : forall buf, slen s < alen buf -> put_str buf s = Ok (s ++ 0 :: sdrop (slen s + 1) buf).
Proof.
  induction s as [|c s IH]; intros buf H.
  - destruct buf as [|x b]; [unfold alen, slen in H; cbn in H; lia|]. reflexivity.
  - destruct buf as [|x b]; [unfold alen, slen in H; cbn in H; lia|]. cbn [put_str].
    rewrite slen_cons in *. unfold alen in *. cbn [length] in H. rewrite IH by (unfold alen; lia). cbn [bind app].
    do 3 f_equal. unfold sdrop. pose proof (slen_nonneg s). replace (Z.to_nat (slen s + 1 + 1)) with (S (Z.to_nat (slen s + 1))) by lia. reflexivity.
Qed.
Lemma sdrop_app_ge a b n : slen a <= n -> sdrop n (a ++ b) = sdrop (n - slen a) b.
Proof.
  intros H. unfold sdrop, slen in *. rewrite skipn_app, skipn_all2 by lia. cbn [app]. f_equal. lia.
Qed.
Lemma sdrop_sdrop a b (l : list Z) : 0 <= a -> 0 <= b -> sdrop a (sdrop b l) = sdrop (a + b) l.
Proof. intros. unfold sdrop. rewrite <- (Nat2Z.id (Z.to_nat a)) at 1. rewrite Nat2Z.id.
  revert l. replace (Z.to_nat (a + b)) with (Z.to_nat b + Z.to_nat a)%nat by lia. generalize (Z.to_nat b) as m. induction m as [|m IH]; intros l; [reflexivity|].
  destruct l; [destruct (Z.to_nat a); reflexivity|]. cbn [skipn Nat.add]. apply IH. Qed.
Lemma slen_sdrop n l : 0 <= n -> slen (sdrop n l) = Z.max 0 (slen l - n).
Proof. intros. unfold slen, sdrop. rewrite skipn_length. lia. Qed.

Lemma compress_spec cells : forall pre out max, slen pre <= alen out -> slen pre + slen (packed cells) <= max <= alen out ->
  stake (slen pre) out = pre ->
  compress_cells cells (slen pre) out max = Ok (slen pre + slen (packed cells), pre ++ packed cells ++ sdrop (slen pre + slen (packed cells)) out).
Proof.
  induction cells as [|s t IH]; intros pre out max H1 H2 H3; cbn [compress_cells].
  - change (packed []) with (@nil Z). change (slen []) with 0. rewrite Z.add_0_r. cbn [app]. do 2 f_equal. rewrite <- H3 at 1. unfold stake, sdrop. symmetry. apply firstn_skipn.
  - rewrite packed_cons in *. rewrite slen_app, slen_cons in *. pose proof (slen_nonneg s). pose proof (slen_nonneg (packed t)). pose proof (slen_nonneg pre).
    replace (max - slen pre <? 0) with false by lia. replace (slen pre >? alen out) with false by lia. cbv zeta.
    unfold stringCopy. assert (E : (match slen s + 1 with 0 => true | _ => false end) = false) by (destruct (slen s + 1) eqn:E; [lia|reflexivity|reflexivity]).
    rewrite E. replace (max - slen pre =? 0) with false by lia. unfold stringCopy_val. replace (slen s + 1 <=? 0) with false by lia.
    rewrite stake_all by lia. rewrite put_str_val by (change (slen s < slen (sdrop (slen pre) out)); rewrite slen_sdrop by lia; unfold slen, alen in *; lia).
    cbn [bind fst]. rewrite H3. rewrite sdrop_sdrop by lia.
    replace (slen pre + (slen s + 1)) with (slen (pre ++ s ++ [0])) by (rewrite !slen_app; reflexivity).
    replace (pre ++ s ++ 0 :: sdrop (slen s + 1 + slen pre) out) with ((pre ++ s ++ [0]) ++ sdrop (slen s + 1 + slen pre) out)
      by (rewrite <- !app_assoc; reflexivity).
    assert (L : slen (pre ++ s ++ [0]) = slen pre + slen s + 1) by (rewrite !slen_app; change (slen [0]) with 1; lia).
    assert (LO : alen ((pre ++ s ++ [0]) ++ sdrop (slen s + 1 + slen pre) out) = alen out).
    { change (slen ((pre ++ s ++ [0]) ++ sdrop (slen s + 1 + slen pre) out) = alen out). rewrite slen_app, L, slen_sdrop by lia. unfold slen, alen in *. lia. }
    rewrite IH.
    + rewrite (sdrop_app_ge (pre ++ s ++ [0])) by (rewrite L; lia). rewrite L, sdrop_sdrop by lia. f_equal. f_equal; [lia|].
      rewrite <- !app_assoc. f_equal. f_equal. cbn [app]. f_equal. f_equal. f_equal. lia.
    + rewrite LO, L. unfold slen, alen in *. lia.
    + rewrite LO, L. lia.
    + apply stake_app.
Qed.

Lemma pointers_spec cells : forall pre rest, Forall c_text cells ->
  exists ps, table_pointers (length cells) (pre ++ packed cells ++ rest) (slen pre) = Ok (ps, slen pre + slen (packed cells)) /\
    Forall2 (fun p s => cstr (sdrop p (pre ++ packed cells ++ rest)) = Ok s) ps cells.
Proof.
  induction cells as [|s t IH]; intros pre rest H; cbn [length table_pointers].
  - exists []. split; [|constructor]. change (slen (packed [])) with 0. rewrite Z.add_0_r. reflexivity.
  - inversion H as [|? ? Hs Ht]; subst.
    assert (C : cstr (sdrop (slen pre) (pre ++ packed (s :: t) ++ rest)) = Ok s).
    { rewrite sdrop_app, packed_cons, <- app_assoc. apply cstr_c. exact Hs. }
    rewrite C. cbn [bind]. destruct (IH (pre ++ s ++ [0]) rest Ht) as (ps & E & F).
    assert (EQ : (pre ++ s ++ [0]) ++ packed t ++ rest = pre ++ packed (s :: t) ++ rest).
    { rewrite packed_cons, <- !app_assoc. reflexivity. }
    rewrite EQ in E, F. replace (slen (pre ++ s ++ [0])) with (slen pre + slen s + 1) in E by (rewrite !slen_app; change (slen [0]) with 1; lia).
    rewrite E. cbn [bind fst snd]. exists (slen pre :: ps). split.
    + rewrite packed_cons, slen_app, slen_cons. do 2 f_equal. lia.
    + constructor; assumption.
Qed.

(** ** C38: packing a table *)
Theorem C38_pack cells buf : slen (packed cells) <= alen buf ->
  compressCharArray cells buf (alen buf) = Ok (slen (packed cells), packed cells ++ sdrop (slen (packed cells)) buf).
Proof.
  intros H. unfold compressCharArray. pose proof (slen_nonneg (packed cells)).
  exact (compress_spec cells [] buf (alen buf) ltac:(change (slen []) with 0; lia) ltac:(change (slen []) with 0; lia) eq_refl).
Qed.
(** the pointers built over packed strings point at those strings, row by row *)
Theorem C38_unpack cells rows cols rest : Forall c_text cells -> Z.of_nat (length cells) = rows * cols ->
  exists ps, buildTablePointerArray (packed cells ++ rest) rows cols = Ok (ps, slen (packed cells)) /\
    Forall2 (fun p s => cstr (sdrop p (packed cells ++ rest)) = Ok s) ps cells.
Proof.
  intros H L. unfold buildTablePointerArray. rewrite <- L, Nat2Z.id. exact (pointers_spec cells [] rest H).
Qed.

Lemma count_spec cells : forall cols j total maxs, 0 <= j < cols -> alen maxs = cols ->
  exists w, count_cells cells cols j total maxs = Ok (total + slen (packed cells), w) /\ alen w = cols /\
    (forall i m, aget maxs i = Ok m -> exists v, aget w i = Ok v /\ m <= v /\
        (v = m \/ exists k, (j + Z.of_nat k) mod cols = i /\ nth_error cells k <> None /\ cell_bytes cells k = v)) /\
    (forall k, nth_error cells k <> None -> exists v, aget w ((j + Z.of_nat k) mod cols) = Ok v /\ cell_bytes cells k <= v).
Proof.
  induction cells as [|s t IH]; intros cols j total maxs Hj Hm; cbn [count_cells].
  - exists maxs. split; [change (slen (packed [])) with 0; rewrite Z.add_0_r; reflexivity|]. split; [exact Hm|]. split.
    + intros i m E. exists m. split; [exact E|]. split; [lia|left; reflexivity].
    + intros [|k] H; cbn in H; congruence.
  - cbv zeta. destruct (aget_some maxs j) as (m & Em); [lia|]. rewrite Em. cbn [bind].
    assert (X : exists maxs', (if slen s + 1 >? m then aset maxs j (slen s + 1) else Ok maxs) = Ok maxs' /\ alen maxs' = cols /\
      forall i, aget maxs' i = if i =? j then Ok (Z.max m (slen s + 1)) else aget maxs i).
    { destruct (slen s + 1 >? m) eqn:G.
      - destruct (aset_ok maxs j (slen s + 1)) as (l' & A1 & A2 & A3); [lia|]. exists l'. split; [exact A1|]. split; [lia|].
        intros i. rewrite A3. destruct (i =? j); [f_equal; lia|reflexivity].
      - exists maxs. split; [reflexivity|]. split; [exact Hm|]. intros i. destruct (i =? j) eqn:E; [|reflexivity].
        apply Z.eqb_eq in E. subst i. rewrite Em. f_equal. lia. }
    destruct X as (maxs' & -> & L' & G). cbn [bind].
    set (j' := if j + 1 =? cols then 0 else j + 1). assert (Hj' : 0 <= j' < cols) by (unfold j'; destruct (j + 1 =? cols) eqn:E; lia).
    assert (STEP : forall k, (j' + Z.of_nat k) mod cols = (j + Z.of_nat (S k)) mod cols).
    { intros k. unfold j'. destruct (j + 1 =? cols) eqn:E.
      - apply Z.eqb_eq in E. replace (j + Z.of_nat (S k)) with (0 + Z.of_nat k + 1 * cols) by lia. rewrite Z.mod_add by lia. reflexivity.
      - f_equal. lia. }
    destruct (IH cols j' (total + (slen s + 1)) maxs' Hj' L') as (w & E & Lw & W1 & W2).
    exists w. split; [|split; [exact Lw|split]].
    + rewrite E, packed_cons, slen_app, slen_cons. do 2 f_equal. lia.
    + intros i m0 Em0. specialize (G i). destruct (i =? j) eqn:Eij.
      * apply Z.eqb_eq in Eij. subst i. rewrite Em in Em0. injection Em0 as <-. destruct (W1 _ _ G) as (v & V1 & V2 & V3). exists v.
        split; [exact V1|]. split; [lia|]. destruct V3 as [-> | (k & K1 & K2 & K3)].
        -- destruct (Z.max_spec m (slen s + 1)) as [(_ & ->)|(_ & ->)]; [|left; reflexivity].
           right. exists 0%nat. split; [rewrite Z.add_0_r; apply Z.mod_small; lia|]. split; [discriminate|]. reflexivity.
        -- right. exists (S k). rewrite <- STEP. split; [exact K1|]. split; assumption.
      * rewrite Em0 in G. destruct (W1 _ _ G) as (v & V1 & V2 & V3). exists v. split; [exact V1|]. split; [exact V2|].
        destruct V3 as [->|(k & K1 & K2 & K3)]; [left; reflexivity|]. right. exists (S k). rewrite <- STEP. split; [exact K1|]. split; assumption.
    + intros [|k] H.
      * rewrite Z.add_0_r, Z.mod_small by lia. specialize (G j). rewrite Z.eqb_refl in G. destruct (W1 _ _ G) as (v & V1 & V2 & _).
        exists v. split; [exact V1|]. cbn. lia.
      * destruct (W2 k H) as (v & V1 & V2). exists v. rewrite <- STEP. split; assumption.
Qed.

Lemma sum_app_acc l : forall a, fold_left Z.add l a = a + sum l.
Proof. unfold sum. induction l as [|x l IH]; intros a; cbn [fold_left]; [lia|]. rewrite IH, (IH (0 + x)). lia. Qed.
Lemma sum_cons x l : sum (x :: l) = x + sum l.
Proof. unfold sum at 1. cbn [fold_left]. rewrite sum_app_acc. lia. Qed.
Lemma row_le : forall (row : list (list Z)) w, length row = length w ->
  (forall k, (k < length row)%nat -> exists v, nth_error w k = Some v /\ cell_bytes row k <= v) -> slen (packed row) <= sum w.
Proof.
  induction row as [|s row IH]; intros [|x w] L H; try discriminate L; [cbn; lia|].
  rewrite packed_cons, slen_app, slen_cons, sum_cons. destruct (H 0%nat ltac:(cbn; lia)) as (v & V1 & V2). injection V1 as ->. cbn in V2.
  assert (slen (packed row) <= sum w); [|lia]. apply IH; [cbn in L; lia|]. intros k Hk. exact (H (S k) ltac:(cbn; lia)).
Qed.
Lemma rows_le (w : list Z) : forall rows (cells : list (list Z)), length cells = (rows * length w)%nat -> (0 < length w)%nat ->
  (forall k, nth_error cells k <> None -> exists v, nth_error w (k mod length w) = Some v /\ cell_bytes cells k <= v) ->
  slen (packed cells) <= Z.of_nat rows * sum w.
Proof.
  induction rows as [|rows IH]; intros cells L P H.
  - destruct cells; [cbn; lia|cbn in L; lia].
  - rewrite <- (firstn_skipn (length w) cells), packed_app, slen_app.
    assert (L1 : length (firstn (length w) cells) = length w) by (rewrite firstn_length; lia).
    assert (A : slen (packed (firstn (length w) cells)) <= sum w).
    { apply row_le; [exact L1|]. intros k Hk. rewrite L1 in Hk.
      assert (E : nth_error (firstn (length w) cells) k = nth_error cells k).
      { rewrite <- (firstn_skipn (length w) cells) at 2. rewrite nth_error_app1 by lia. reflexivity. }
      destruct (H k) as (v & V1 & V2); [apply nth_error_Some; lia|]. exists v. rewrite Nat.mod_small in V1 by lia. split; [exact V1|].
      unfold cell_bytes in *. rewrite E. exact V2. }
    assert (B : slen (packed (skipn (length w) cells)) <= Z.of_nat rows * sum w).
    { apply IH; [rewrite skipn_length; lia|exact P|]. intros k Hk.
      assert (E : nth_error (skipn (length w) cells) k = nth_error cells (length w + k)).
      { rewrite <- (firstn_skipn (length w) cells) at 2. rewrite nth_error_app2 by lia. f_equal. lia. }
      destruct (H (length w + k)%nat) as (v & V1 & V2); [congruence|]. exists v.
      replace ((length w + k) mod length w)%nat with (k mod length w)%nat in V1.
      - split; [exact V1|]. unfold cell_bytes in *. rewrite E. exact V2.
      - replace (length w + k)%nat with (k + 1 * length w)%nat by lia. symmetry. apply Nat.mod_add. lia. }
    lia.
Qed.

(** the size reported for a table is its packed size; the expanded size gives every column the width of its largest
    string, and is never smaller *)
Theorem C38_table_size cells rows cols : 0 < cols -> Z.of_nat (length cells) = rows * cols ->
  exists w, numberBytesInDoubleCharArray cells rows cols = Ok (slen (packed cells), rows * sum w) /\
    alen w = cols /\ slen (packed cells) <= rows * sum w /\
    (forall k, (k < length cells)%nat -> exists v, aget w (Z.of_nat k mod cols) = Ok v /\ cell_bytes cells k <= v) /\
    (forall i v, aget w i = Ok v -> v <> 0 -> exists k, (k < length cells)%nat /\ Z.of_nat k mod cols = i /\ cell_bytes cells k = v).
Proof.
  intros HC HL. unfold numberBytesInDoubleCharArray.
  destruct (count_spec cells cols 0 0 (repeat 0 (Z.to_nat cols)) ltac:(lia)) as (w & E & Lw & W1 & W2).
  { unfold alen. rewrite repeat_length. lia. }
  rewrite E. cbn [bind fst snd]. exists w. rewrite Z.add_0_l. split; [unfold sum; f_equal; f_equal; apply Z.mul_comm|]. split; [exact Lw|].
  assert (W2' : forall k, nth_error cells k <> None -> exists v, aget w (Z.of_nat k mod cols) = Ok v /\ cell_bytes cells k <= v) by (intros k Hk; exact (W2 k Hk)).
  split; [|split].
  - assert (LW : Z.of_nat (length w) = cols) by exact Lw. pose proof (rows_le w (Z.to_nat rows) cells) as R.
    assert (0 <= rows) by nia. rewrite Z2Nat.id in R by lia. apply R; [nia|lia|]. intros k Hk. destruct (W2' k Hk) as (v & V1 & V2). exists v. split; [|exact V2].
    unfold aget in V1. destruct (Z.of_nat k mod cols <? 0); [discriminate|].
    replace (Z.to_nat (Z.of_nat k mod cols)) with (k mod length w)%nat in V1.
    + destruct (nth_error w (k mod length w)); [congruence|discriminate].
    + rewrite <- LW, <- Nat2Z.inj_mod, Nat2Z.id. reflexivity.
  - intros k Hk. apply W2'. apply nth_error_Some. exact Hk.
  - intros i v Hv NZ. destruct (aget_range _ _ _ Hv) as (R1 & R2).
    assert (A0 : aget (repeat 0 (Z.to_nat cols)) i = Ok 0).
    { unfold aget. replace (i <? 0) with false by lia. rewrite nth_error_repeat by lia. reflexivity. }
    destruct (W1 i 0 A0) as (v' & V1 & _ & V3). rewrite Hv in V1. injection V1 as <-. destruct V3 as [->|(k & K1 & K2 & K3)]; [congruence|].
    exists k. split; [apply nth_error_Some; exact K2|]. split; assumption.
Qed.

(** ** C38: copying lines *)
Lemma strnlen_spec s q n : c_text s -> slen s < Z.of_nat n -> strnlen n (s ++ 0 :: q) = Ok (slen s).
Proof.
  revert n. induction s as [|c s IH]; intros n H L.
  - destruct n as [|n]; [unfold slen in L; cbn in L; lia|]. reflexivity.
  - inversion H as [|? ? Hc Hs]; subst. rewrite slen_cons in *. destruct n as [|n]; [pose proof (slen_nonneg s); lia|]. cbn [strnlen app].
    replace (c =? 0) with false by lia. rewrite IH by (assumption || lia). reflexivity.
Qed.
Lemma lines_end_spec lines : forall n pre rest max, Forall c_text lines -> (n <= length lines)%nat -> slen pre + slen (packed lines) <= max -> 
  lines_end n (pre ++ packed lines ++ rest) max (slen pre) = Ok (slen pre + slen (packed (firstn n lines))).
Proof.
  induction lines as [|s t IH]; intros n pre rest max H L M.
  - destruct n; [|cbn in L; lia]. cbn. f_equal. lia.
  - destruct n as [|n]; [cbn; f_equal; lia|]. inversion H as [|? ? Hs Ht]; subst. cbn [lines_end firstn].
    rewrite packed_cons in *. rewrite (packed_cons s (firstn n t)). rewrite !slen_app, !slen_cons in *.
    pose proof (slen_nonneg s). pose proof (slen_nonneg (packed t)). rewrite sdrop_app, <- app_assoc. cbn [app].
    rewrite strnlen_spec by (assumption || lia). cbn [bind]. cbv zeta. destruct (slen pre + slen s + 1 >=? max) eqn:E.
    + f_equal. assert (slen (packed t) = 0) by lia.
      assert (T0 : packed t = []) by (unfold slen in *; destruct (packed t); [reflexivity|cbn in *; lia]).
      destruct t as [|x t]; [|rewrite packed_cons in T0; destruct x; discriminate T0]. cbn [length] in L. destruct n; [|lia]. cbn. lia.
    + specialize (IH n (pre ++ s ++ [0]) rest max Ht ltac:(cbn in L; lia)). rewrite !slen_app in IH. change (slen [0]) with 1 in IH.
      rewrite <- !app_assoc in IH. cbn [app] in IH. replace (slen pre + slen s + 1) with (slen pre + (slen s + 1)) by lia.
      rewrite IH by lia. f_equal. lia.
Qed.
Lemma copy_prefix (src dst : list Z) n : (n <= length src)%nat -> (n <= length dst)%nat ->
  copy_loop n src 0 dst 0 = Ok (firstn n src ++ skipn n dst).
Proof.
  intros H1 H2. destruct (copy_loop_ok n src 0 dst 0) as (d & E & L & G); [lia|unfold alen; lia|lia|unfold alen; lia|]. rewrite E. f_equal.
  apply aget_ext.
  - rewrite L. unfold alen. rewrite app_length, firstn_length, skipn_length. lia.
  - intros j Hj. rewrite G. unfold aget. replace (j <? 0) with false by lia. replace (0 + (j - 0)) with j by lia. replace (j <? 0) with false by lia.
    rewrite L in Hj. unfold alen in Hj. destruct ((0 <=? j) && (j <? 0 + Z.of_nat n)) eqn:B.
    + rewrite nth_error_app1 by (rewrite firstn_length; lia). rewrite <- (firstn_skipn n src) at 1. rewrite nth_error_app1 by (rewrite firstn_length; lia). reflexivity.
    + rewrite nth_error_app2 by (rewrite firstn_length; lia). rewrite firstn_length. rewrite <- (firstn_skipn n dst) at 1.
      rewrite nth_error_app2 by (rewrite firstn_length; lia). rewrite firstn_length.
      replace (Nat.min n (length dst)) with (Nat.min n (length src)) by lia. reflexivity.
Qed.

(** exactly the first [n] lines are copied; only what does not fit the destination is cut *)
Theorem C38_copy_lines lines rest n dst :
  Forall c_text lines -> (n <= length lines)%nat -> lines <> [] -> 0 < alen dst ->
  let P := packed (firstn n lines) in
  let m := Z.min (slen P) (alen dst) in
  copyLines (Some dst) (alen dst) (Some (packed lines ++ rest)) (slen (packed lines ++ rest)) (Z.of_nat n) =
    Ok (m, Some (stake m P ++ sdrop m dst)) /\
  copyLines None 0 (Some (packed lines ++ rest)) (slen (packed lines ++ rest)) (Z.of_nat n) = Ok (slen P, None).
Proof.
  intros H L NE HD P m. pose proof (slen_nonneg rest).
  assert (PL : 0 < slen (packed lines)) by (destruct lines as [|s t]; [congruence|rewrite packed_cons, slen_app, slen_cons; pose proof (slen_nonneg s); pose proof (slen_nonneg (packed t)); lia]).
  pose proof (slen_nonneg P). assert (SL : slen (packed lines ++ rest) = slen (packed lines) + slen rest) by apply slen_app.
  assert (E : lines_end n (packed lines ++ rest) (slen (packed lines ++ rest)) 0 = Ok (slen P)).
  { pose proof (lines_end_spec lines n [] rest (slen (packed lines ++ rest)) H L) as E. change (slen []) with 0 in E. cbn [app] in E. rewrite !Z.add_0_l in E. apply E. lia. }
  unfold copyLines. replace (alen dst <=? 0) with false by lia. replace (slen (packed lines ++ rest) <=? 0) with false by lia. cbn [andb].
  replace (slen (packed lines ++ rest) >? 0) with true by lia. rewrite Nat2Z.id, E. cbn [bind].
  replace (slen (packed lines ++ rest) =? 0) with false by lia. split; [|reflexivity]. cbv zeta. fold m.
  assert (PP : exists r, packed lines = P ++ r).
  { exists (packed (skipn n lines)). unfold P. rewrite <- packed_app, firstn_skipn. reflexivity. }
  destruct PP as (r & PP). assert (Hm : m = Z.min (slen P) (alen dst)) by reflexivity. pose proof (alen_nonneg dst). clearbody m P. clear E. rewrite copy_prefix.
  - cbn [bind]. do 4 f_equal. unfold stake. rewrite PP, <- app_assoc, firstn_app. replace (Z.to_nat m - length P)%nat with 0%nat by (unfold slen in *; lia).
    cbn [firstn]. rewrite app_nil_r. reflexivity.
  - rewrite PP, !app_length. unfold slen in *. lia.
  - unfold alen in *. lia.
Qed.
(** with no source, that many empty lines *)
Theorem C38_copy_no_source n dst : 0 < alen dst -> Z.of_nat n <= alen dst ->
  copyLines (Some dst) (alen dst) None 0 (Z.of_nat n) = Ok (Z.of_nat n, Some (packed (repeat [] n) ++ sdrop (Z.of_nat n) dst)).
Proof.
  intros H L. unfold copyLines. replace (alen dst <=? 0) with false by lia. cbn [andb bind].
  replace (0 =? 0) with true by reflexivity. replace (Z.min (Z.max 0 (Z.of_nat n)) (alen dst)) with (Z.of_nat n) by lia. rewrite Nat2Z.id.
  replace (Z.of_nat n >? alen dst) with false by lia. unfold sdrop. rewrite Nat2Z.id.
  assert (F : forall k (d : list Z) (i : nat), (i + k <= length d)%nat -> fill_loop k 0 d (Z.of_nat i) = Ok (firstn i d ++ packed (repeat [] k) ++ skipn (i + k) d)).
  { induction k as [|k IH]; intros d i Hi; cbn [fill_loop].
    - cbn. rewrite Nat.add_0_r, firstn_skipn. reflexivity.
    - destruct (aset_ok d (Z.of_nat i) 0) as (d' & A1 & A2 & A3); [unfold alen; lia|]. rewrite A1. cbn [bind].
      replace (Z.of_nat i + 1) with (Z.of_nat (S i)) by lia. unfold alen in A2. rewrite IH by lia. f_equal. cbn [repeat]. rewrite packed_cons. cbn [app].
      assert (D : d' = firstn i d ++ 0 :: skipn (S i) d).
      { apply aget_ext; [unfold alen; rewrite app_length, firstn_length; cbn [length]; rewrite skipn_length; lia|].
        intros j Hj. unfold alen in Hj. rewrite A3. unfold aget. replace (j <? 0) with false by lia. destruct (j =? Z.of_nat i) eqn:EJ.
        - rewrite nth_error_app2 by (rewrite firstn_length; lia). rewrite firstn_length. replace (Z.to_nat j - Nat.min i (length d))%nat with 0%nat by lia. reflexivity.
        - destruct (j <? Z.of_nat i) eqn:EL.
          + rewrite nth_error_app1 by (rewrite firstn_length; lia). rewrite <- (firstn_skipn i d) at 1. rewrite nth_error_app1 by (rewrite firstn_length; lia). reflexivity.
          + rewrite nth_error_app2 by (rewrite firstn_length; lia). rewrite firstn_length.
            replace (Z.to_nat j - Nat.min i (length d))%nat with (S (Z.to_nat j - S i)) by lia. cbn [nth_error].
            rewrite <- (firstn_skipn (S i) d) at 1. rewrite nth_error_app2 by (rewrite firstn_length; lia). rewrite firstn_length.
            replace (Nat.min (S i) (length d)) with (S i) by lia. reflexivity. }
      rewrite D. replace (firstn (S i) (firstn i d ++ 0 :: skipn (S i) d)) with (firstn i d ++ [0]).
      + rewrite <- app_assoc. cbn [app]. do 3 f_equal. rewrite skipn_app. rewrite skipn_all2 by (rewrite firstn_length; lia). cbn [app]. rewrite firstn_length.
        replace (S i + k - Nat.min i (length d))%nat with (S k) by lia. cbn [skipn]. clear. revert i. induction d as [|x d IHd]; intros i; [rewrite !skipn_nil; reflexivity|].
        destruct i as [|i]; [cbn [skipn Nat.add]; reflexivity|]. cbn [Nat.add]. cbn [skipn]. apply IHd.
      + rewrite firstn_app. rewrite (firstn_all2 (firstn i d)) by (rewrite firstn_length; lia). rewrite firstn_length. replace (S i - Nat.min i (length d))%nat with 1%nat by lia. reflexivity. }
  pose proof (F n dst 0%nat) as F0. change (Z.of_nat 0) with 0 in F0. unfold alen in L. rewrite F0 by lia. cbn [firstn app Nat.add bind]. reflexivity.
Qed.
(** The documented source may end without a NUL; then one byte past its end is read: the two-byte source "AB" holds one line. *)
Theorem C38_refuted_unterminated : exists dst src, copyLines (Some dst) (alen dst) (Some src) (slen src) 1 = Undef.
Proof. exists (repeat 0 10), [65; 66]. vm_compute. reflexivity. Qed.

(** ** Bytes in ints *)
Lemma unsigned_le_range b : bytes b -> 0 <= unsigned_le b < 256 ^ Z.of_nat (length b).
Proof.
  induction 1 as [|x t Hx Ht IH]; [cbn; lia|]. cbn [unsigned_le length]. rewrite Nat2Z.inj_succ, Z.pow_succ_r by lia. lia.
Qed.
Lemma bytes_le_mod n : forall v k, bytes_le n (v + k * 256 ^ Z.of_nat n) = bytes_le n v.
Proof.
  induction n as [|n IH]; intros v k; [reflexivity|]. cbn [bytes_le].
  replace (v + k * 256 ^ Z.of_nat (S n)) with (v + (k * 256 ^ Z.of_nat n) * 256) by (rewrite Nat2Z.inj_succ, Z.pow_succ_r by lia; ring).
  rewrite Z.mod_add, Z.div_add by lia. rewrite IH. reflexivity.
Qed.
Lemma bytes_le_unsigned b : bytes b -> bytes_le (length b) (unsigned_le b) = b.
Proof.
  induction 1 as [|x t Hx Ht IH]; [reflexivity|]. cbn [length bytes_le unsigned_le].
  replace (x + 256 * unsigned_le t) with (x + unsigned_le t * 256) by ring. rewrite Z.mod_add, Z.div_add by lia.
  rewrite Z.mod_small, Z.div_small by lia. cbn [Z.add]. rewrite IH. reflexivity.
Qed.
Lemma bytes_le_signed b : bytes b -> length b = 4%nat -> bytes_le 4 (signed_of false 4 b) = b.
Proof.
  intros H L. unfold signed_of, unsigned_of. cbv zeta. destruct (2 * unsigned_le b <? 256 ^ Z.of_nat 4).
  - rewrite <- L. apply bytes_le_unsigned. exact H.
  - replace (unsigned_le b - 256 ^ Z.of_nat 4) with (unsigned_le b + (-1) * 256 ^ Z.of_nat 4) by ring.
    rewrite bytes_le_mod. rewrite <- L. apply bytes_le_unsigned. exact H.
Qed.
Lemma bytes_ints k : forall b, bytes b -> (4 * k <= length b)%nat -> bytes_of_ints (ints_of_bytes k b) = firstn (4 * k) b.
Proof.
  induction k as [|k IH]; intros b H L; [reflexivity|]. cbn [ints_of_bytes]. unfold bytes_of_ints. cbn [flat_map].
  fold (bytes_of_ints (ints_of_bytes k (skipn 4 b))). assert (HB := H). rewrite <- (firstn_skipn 4 b) in HB. apply Forall_app in HB. destruct HB as (B1 & B2).
  rewrite bytes_le_signed by (assumption || rewrite firstn_length; lia). rewrite IH by (assumption || rewrite skipn_length; lia).
  rewrite <- (firstn_skipn 4 b) at 3. rewrite firstn_app, firstn_length. rewrite (firstn_all2 (firstn 4 b)) by (rewrite firstn_length; lia).
  f_equal. f_equal. lia.
Qed.
Lemma ints_len k : forall b, length (ints_of_bytes k b) = k.
Proof. induction k as [|k IH]; intros b; [reflexivity|]. cbn [ints_of_bytes length]. rewrite IH. reflexivity. Qed.
Lemma text_ints text n : bytes text -> 0 < n <= slen text ->
  exists l, to_ints text n = Ok l /\ from_ints l n = Ok (stake n text) /\ 0 < zlen l.
Proof.
  intros H L. unfold to_ints, get_prefix. replace (n <=? Z.of_nat (length text)) with true by (unfold slen in *; lia). cbn [bind].
  eexists. split; [reflexivity|]. unfold numberIntsInBytes. replace (0 <? n) with true by lia.
  assert (Q : 4 * (Z.quot (n - 1) 4 + 1) <= n + 3 /\ n <= 4 * (Z.quot (n - 1) 4 + 1)).
  { rewrite Z.quot_div_nonneg by lia. pose proof (Z.div_mod (n - 1) 4 ltac:(lia)). pose proof (Z.mod_pos_bound (n - 1) 4 ltac:(lia)). lia. }
  set (k := Z.to_nat (Z.quot (n - 1) 4 + 1)). assert (K : Z.of_nat k = Z.quot (n - 1) 4 + 1) by (unfold k; lia).
  assert (B : bytes (firstn (Z.to_nat n) text ++ [0; 0; 0; 0])).
  { apply Forall_app. split; [|repeat constructor; lia]. apply forall_stake. exact H. }
  assert (LB : length (firstn (Z.to_nat n) text ++ [0; 0; 0; 0]) = (Z.to_nat n + 4)%nat) by (rewrite app_length, firstn_length; cbn [length]; unfold slen in *; lia).
  split.
  - unfold from_ints, get_prefix. rewrite bytes_ints by (assumption || lia). rewrite firstn_length. replace (n <=? _) with true by lia.
    f_equal. rewrite firstn_firstn. replace (Nat.min (Z.to_nat n) (4 * k)) with (Z.to_nat n) by lia.
    rewrite firstn_app. rewrite firstn_length. replace (Z.to_nat n - _)%nat with 0%nat by (unfold slen in *; lia). cbn [firstn]. rewrite app_nil_r.
    unfold stake. rewrite firstn_firstn. f_equal. lia.
  - unfold zlen. rewrite ints_len. lia.
Qed.

(** ** Text records *)
(** a text of the structure given to a store: [n] characters of a buffer at least that long, or none *)
Definition given (b : option (list Z)) (n : Z) : Prop := 0 <= n /\ (0 < n -> exists t, b = Some t /\ bytes t /\ n <= slen t).
(** the same text in the structure that a retrieve fills: the characters and a NUL, or nothing *)
Definition back (b : option (list Z)) (n : Z) : option (list Z) :=
  match b with Some t => if 0 <? n then Some (stake n t ++ [0]) else None | None => None end.
Definition given_text (t : text_struct) : Prop :=
  given (tx_text t) (tx_textChars t) /\ given (tx_table t) (tx_tableChars t) /\ given (tx_labels t) (tx_labelChars t).
Definition text_copy (t : text_struct) : text_struct :=
  mktext (back (tx_text t) (tx_textChars t)) (tx_textChars t) (back (tx_table t) (tx_tableChars t)) (tx_tableChars t)
    (back (tx_labels t) (tx_labelChars t)) (tx_labelChars t) (tx_rows t) (tx_cols t) (tx_header t).

Lemma section_back b n : given b n -> exists l, text_section b n = Ok l /\ text_back l n = Ok (back b n, n).
Proof.
  intros (H0 & H). unfold text_section. destruct (n >? 0) eqn:E.
  - destruct H as (t & -> & B & L); [lia|]. destruct (text_ints t n B ltac:(lia)) as (l & E1 & E2 & E3). exists l. split; [exact E1|].
    unfold text_back. replace (zlen l >? 0) with true by lia. rewrite E2. cbn [bind back]. replace (0 <? n) with true by lia. reflexivity.
  - exists []. split; [reflexivity|]. unfold text_back, back. cbn. replace n with 0 by lia. destruct b; reflexivity.
Qed.


(** a text structure with some text or table is accepted, and what a retrieve finds in the stored record is a copy of it *)
Theorem C38_text_request path t : given_text t -> 1 <= tx_textChars t + tx_tableChars t ->
  exists x, ztextStore_request path t = Ok (Some x) /\ x_path x = path /\ x_type x = (if 1 <? tx_cols t then 310 else 300) /\
    ztextRetrieve_answer (Some (stored x)) = Ok (Some (text_copy t)).
Proof.
  intros (G1 & G2 & G3) H. unfold ztextStore_request. replace (tx_tableChars t + tx_textChars t <? 1) with false by lia.
  assert (N : forall b n, given b n -> (n >? 0) && (match b with None => true | _ => false end) = false).
  { intros b n (H0 & Hg). destruct (n >? 0) eqn:E; [|reflexivity]. destruct Hg as (q & -> & _); [lia|reflexivity]. }
  rewrite (N _ _ G1), (N _ _ G2), (N _ _ G3). destruct (section_back _ _ G1) as (l1 & A1 & B1). destruct (section_back _ _ G2) as (l2 & A2 & B2).
  destruct (section_back _ _ G3) as (l3 & A3 & B3). rewrite A1, A2, A3. cbn [bind]. eexists. split; [reflexivity|]. split; [reflexivity|]. split.
  - cbn [x_type]. replace (1 <? tx_cols t) with (tx_cols t >? 1) by lia. reflexivity.
  - unfold ztextRetrieve_answer, stored. cbn [ct_type ct_ih ct_v1 ct_v2 ct_h2 ct_uh x_type x_ih x_v1 x_v2 x_h2 x_uh].
    replace (negb _ && negb _) with false by (destruct (tx_cols t >? 1); reflexivity). rewrite B1, B2, B3. cbn [bind fst snd]. reflexivity.
Qed.

(** Nothing to store, or a count without its text, is an error and nothing is written *)
Theorem C38_text_refused path t : tx_textChars t + tx_tableChars t < 1 \/ (0 < tx_textChars t /\ tx_text t = None) \/
  (0 < tx_tableChars t /\ tx_table t = None) \/ (0 < tx_labelChars t /\ tx_labels t = None) -> ztextStore_request path t = Ok None.
Proof.
  intros H. unfold ztextStore_request. destruct (tx_tableChars t + tx_textChars t <? 1) eqn:E0; [reflexivity|].
  destruct ((tx_textChars t >? 0) && _) eqn:E1; [reflexivity|]. destruct ((tx_tableChars t >? 0) && _) eqn:E2; [reflexivity|].
  destruct ((tx_labelChars t >? 0) && _) eqn:E3; [reflexivity|]. exfalso.
  destruct H as [H|[(H & N)|[(H & N)|(H & N)]]]; [lia|rewrite N in E1; lia|rewrite N in E2; lia|rewrite N in E3; lia].
Qed.

(** End to end: after any history, a text record stored and then left alone is retrieved as a copy of what was stored,
    under any spelling of its name.  _partial: the requests covered by C22. *)
Theorem C38_text_record_partial c W ops1 s1 now prog path t x s2 ops2 s3 q :
  usable c -> given_text t -> 1 <= tx_textChars t + tx_tableChars t -> ztextStore_request path t = Ok (Some x) ->
  runs c W (new_file c) ops1 s1 -> allowed c W s1 (Write now prog x) -> exec c (Write now prog x) s1 = Some (Done, s2) ->
  runs c W s2 ops2 s3 -> untouched path ops2 -> canon q = canon path -> name_ok q ->
  exists ct, reads c s3 q (Some ct) /\ ztextRetrieve_answer (Some ct) = Ok (Some (text_copy t)).
Proof.
  intros U G H E R1 A X R2 UT CQ NQ. destruct (C38_text_request path t G H) as (x' & E' & P & _ & B). rewrite E in E'. injection E' as <-.
  exists (stored x). split; [|exact B]. eapply C22_read_last_write_partial; eauto; rewrite P; assumption.
Qed.

(** ** C43: array records *)
Lemma pair_flat l rest : pair_doubles (length l) (flat_doubles l ++ rest) = Ok l.
Proof. induction l as [|(a, b) l IH]; [reflexivity|]. cbn [length flat_doubles flat_map app pair_doubles fst snd]. fold (flat_doubles l). rewrite IH. reflexivity. Qed.
Lemma flat_doubles_len l : zlen (flat_doubles l) = 2 * Z.of_nat (length l).
Proof. unfold zlen. induction l as [|(a, b) l IH]; [reflexivity|]. cbn [flat_doubles flat_map app length]. fold (flat_doubles l). lia. Qed.
Theorem C43_array_request path a : x_path (zarrayStore_request path a) = path /\
  zarrayRetrieve_answer (Some (stored (zarrayStore_request path a))) = Ok (Some a).
Proof.
  split; [reflexivity|]. unfold zarrayRetrieve_answer, zarrayStore_request, stored. cbn [ct_type ct_v1 ct_v2 ct_v3 ct_uh x_type x_v1 x_v2 x_v3 x_uh].
  change (negb (90 =? 90)) with false. cbv iota. rewrite flat_doubles_len, Z.mul_comm, Z.quot_mul, Nat2Z.id by lia.
  rewrite <- (app_nil_r (flat_doubles (ar_doubles a))), pair_flat. cbn [bind]. destruct a; reflexivity.
Qed.
Theorem C43_array_record_partial c W ops1 s1 now prog path a s2 ops2 s3 q :
  usable c -> runs c W (new_file c) ops1 s1 -> allowed c W s1 (Write now prog (zarrayStore_request path a)) ->
  exec c (Write now prog (zarrayStore_request path a)) s1 = Some (Done, s2) ->
  runs c W s2 ops2 s3 -> untouched path ops2 -> canon q = canon path -> name_ok q ->
  exists ct, reads c s3 q (Some ct) /\ zarrayRetrieve_answer (Some ct) = Ok (Some a).
Proof.
  intros U R1 A X R2 UT CQ NQ. exists (stored (zarrayStore_request path a)). split; [|apply C43_array_request].
  eapply C22_read_last_write_partial; eauto.
Qed.

(** ** Examples *)
(** a 2 by 3 table with an empty cell *)
Definition table1 : list (list Z) := [[65; 66]; []; [67]; [68]; [69; 70; 71]; [72]].
Example C38_table_example : Forall c_text table1 /\ Z.of_nat (length table1) = 2 * 3 /\
  compressCharArray table1 (repeat 9 16) 16 = Ok (14, [65; 66; 0; 0; 67; 0; 68; 0; 69; 70; 71; 0; 72; 0; 9; 9]) /\
  numberBytesInDoubleCharArray table1 2 3 = Ok (14, 18) /\
  buildTablePointerArray (packed table1) 2 3 = Ok ([0; 3; 4; 6; 8; 12], 14).
Proof. split; [repeat constructor; lia|]. repeat split. Qed.
Definition text1 : text_struct := mktext (Some [72; 105; 10; 116; 104; 101; 114; 101; 0]) 8 (Some (packed table1)) 14 (Some (packed [[88]; [89]; [90]])) 6 2 3 [5].
Definition text1x : xfer := match ztextStore_request (nm 65) text1 with Ok (Some x) => x | _ => req [] [] [] [] end.
Example C38_text_example : given_text text1 /\ 1 <= tx_textChars text1 + tx_tableChars text1 /\ ztextStore_request (nm 65) text1 = Ok (Some text1x) /\
  name_ok (nm 65) /\
  match exec cd (Write 4 (0, 0) text1x) (new_file cd) with
  | Some (Done, s2) => match exec cd (Read (nm 65)) s2 with Some (Data ct, _) => ztextRetrieve_answer ct = Ok (Some (text_copy text1)) | _ => False end
  | _ => False
  end.
Proof.
  split; [|split; [|split; [|split]]].
  - repeat split; cbn; try lia; intros _; eexists; (split; [reflexivity|split; [repeat constructor; lia|vm_compute; discriminate]]).
  - cbn. lia.
  - vm_compute. reflexivity.
  - repeat split; [vm_compute; discriminate|..]; cbn in H; repeat (destruct H as [<-|H]; [lia|]); contradiction.
  - vm_compute. reflexivity.
Qed.
Example C43_array_example : match exec cd (Write 4 (0, 0) (zarrayStore_request (nm 65) (mkarray [1; 2; 3] [] [(4, 5); (6, 7)] [8]))) (new_file cd) with
  | Some (Done, s2) => match exec cd (Read (nm 65)) s2 with Some (Data ct, _) => zarrayRetrieve_answer ct = Ok (Some (mkarray [1; 2; 3] [] [(4, 5); (6, 7)] [8])) | _ => False end
  | _ => False
  end.
Proof. vm_compute. reflexivity. Qed.

Print Assumptions C38_pack.
Print Assumptions C38_unpack.
Print Assumptions C38_table_size.
Print Assumptions C38_copy_lines.
Print Assumptions C38_copy_no_source.
Print Assumptions C38_refuted_unterminated.
Print Assumptions C38_text_request.
Print Assumptions C38_text_refused.
Print Assumptions C38_text_record_partial.
Print Assumptions C43_array_request.
Print Assumptions C43_array_record_partial.
