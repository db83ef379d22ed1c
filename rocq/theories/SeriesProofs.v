(** * Lemmas for SeriesModel: the loops over blocks, for any numbering of the periods that fits the blocks. *)
From Coq Require Import ZArith List Lia Bool ZifyBool.
From Verif Require Import Base DateModel BlockModel ArrayLib RegStoreModel RegStoreProofs RegStoreProps SeriesModel.
Import ListNotations.
Open Scope Z_scope.
Open Scope res_scope.

Lemma read_loop_alen {A} n (src : list A) : forall si d, read_loop n src si = Ok d -> alen d = Z.of_nat n.
Proof.
  induction n as [|n IH]; intros si d E; cbn [read_loop] in E; [injection E as <-; reflexivity|].
  apply bind_ok in E. destruct E as (v & _ & E). apply bind_ok in E. destruct E as (r & Er & E). injection E as <-.
  apply IH in Er. unfold alen in *. cbn [length]. lia.
Qed.

(** what is stored lies inside the block *)
Lemma store_block_ok miss mval old vals qual n nb bsp flag read empty o :
  0 < n -> 0 <= bsp -> bsp + n <= nb -> arr_ok n vals qual -> block_ok nb old -> 0 <= flag <= 4 ->
  store_block miss mval old vals qual n nb bsp flag read empty = Ok o -> block_ok nb (after old o).
Proof.
  intros Hn Hb Hnb A Hold Hf.
  assert (FIN : forall found b vals qual n' a f l, 0 <= b -> b + n' <= nb -> arr_ok n' vals qual -> 0 < n' ->
            first_last miss vals qual n' = Ok (a, f, l) ->
            finish found flag empty nb b vals qual a f l = Ok o -> block_ok nb (after old o)).
  { intros found b vs qu n' a f l B1 B2 A' B3 E F. destruct (first_last_ok miss vs qu n' A' ltac:(lia)) as (a' & f' & l' & E' & D).
    rewrite E in E'. injection E' as <- <- <-.
    assert (FL : 0 <= f <= l /\ l < n') by (destruct D as [(_ & -> & -> & _)|(_ & ? & ? & _)]; lia).
    unfold finish in F. destruct (negb _).
    - destruct qu as [q|].
      + apply bind_ok in F. destruct F as (v & Ev & F). apply bind_ok in F. destruct F as (q' & Eq & F). injection F as <-.
        apply read_loop_alen in Ev. apply read_loop_alen in Eq. cbn [after block_ok r_start r_vals r_qual]. lia.
      + apply bind_ok in F. destruct F as (v & Ev & F). injection F as <-. apply read_loop_alen in Ev.
        cbn [after block_ok r_start r_vals r_qual]. lia.
    - destruct found; injection F as <-; [exact I|exact Hold]. }
  unfold store_block. intros H. apply bind_ok in H. destruct H as ([[a f] l] & E & H). cbv zeta in H.
  match type of H with (if ?c then _ else _) = _ => destruct c end.
  - apply bind_ok in H. destruct H as (go & _ & H). destruct (negb go); [injection H as <-; exact Hold|].
    apply bind_ok in H. destruct H as ([v q] & EC & H). apply bind_ok in H. destruct H as ([[a2 f2] l2] & E2 & H).
    destruct (combine_ok miss mval old vals qual n nb bsp flag Hn Hb Hnb A Hf) as (v' & q' & EC' & L & _ & Q).
    cbv zeta in EC'. rewrite EC in EC'. injection EC' as <- <-.
    apply (FIN _ 0 v q nb a2 f2 l2) in H; auto; try lia.
    split; [lia|]. destruct q, qual; try contradiction; [lia|exact I].
  - apply (FIN _ bsp vals qual n a f l) in H; auto.
Qed.

(** ** Values of the reading functions *)
Lemma alen_block_vals mval o pos n : 0 <= n -> alen (block_vals mval o pos n) = n.
Proof. intros. unfold block_vals. rewrite alen_map_seq. lia. Qed.
Lemma alen_block_qual o pos n : 0 <= n -> alen (block_qual o pos n) = n.
Proof. intros. unfold block_qual. rewrite alen_map_seq. lia. Qed.
Lemma block_vals_at mval o pos n i : 0 <= i < n -> aget (block_vals mval o pos n) i = Ok (vat mval o (pos + i)).
Proof.
  intros H. unfold block_vals. rewrite aget_map_seq by lia. rewrite Z2Nat.id by lia.
  unfold vat, getd. destruct o; reflexivity.
Qed.
Lemma block_qual_at o pos n i : 0 <= i < n -> aget (block_qual o pos n) i = Ok (qat o (pos + i)).
Proof.
  intros H. unfold block_qual. rewrite aget_map_seq by lia. rewrite Z2Nat.id by lia.
  unfold qat, getd. destruct o as [[st v [q|]]|]; reflexivity.
Qed.
Lemma aget_app {A} (l1 l2 : list A) i : 0 <= i -> aget (l1 ++ l2) i = if i <? alen l1 then aget l1 i else aget l2 (i - alen l1).
Proof.
  intros H. unfold aget, alen. replace (i <? 0) with false by lia.
  destruct (i <? Z.of_nat (length l1)) eqn:E.
  - rewrite nth_error_app1 by lia. reflexivity.
  - rewrite nth_error_app2 by lia. replace (i - Z.of_nat (length l1) <? 0) with false by lia.
    f_equal. replace (Z.to_nat (i - Z.of_nat (length l1))) with (Z.to_nat i - length l1)%nat by lia. reflexivity.
Qed.
Lemma alen_app {A} (l1 l2 : list A) : alen (l1 ++ l2) = alen l1 + alen l2.
Proof. unfold alen. rewrite app_length. lia. Qed.
Lemma aget_skipn {A} (l : list A) c i : 0 <= c -> 0 <= i -> aget (skipn (Z.to_nat c) l) i = aget l (c + i).
Proof.
  intros Hc Hi. unfold aget. replace (i <? 0) with false by lia. replace (c + i <? 0) with false by lia.
  assert (N : forall n (l : list A) j, nth_error (skipn n l) j = nth_error l (n + j)).
  { clear. induction n; intros l j; [reflexivity|]. destruct l; cbn [skipn]; [destruct j; reflexivity|]. apply IHn. }
  rewrite N. replace (Z.to_nat (c + i)) with (Z.to_nat c + Z.to_nat i)%nat by lia. reflexivity.
Qed.
Lemma alen_skipn {A} (l : list A) c : 0 <= c <= alen l -> alen (skipn (Z.to_nat c) l) = alen l - c.
Proof. intros H. unfold alen in *. rewrite skipn_length. lia. Qed.

Section Loops.
Variables (miss : Z -> bool) (mval : Z) (empty : bool) (flag interval size : Z) (sj ss bst sidx : Z -> Z) (blo bhi : Z).
Hypothesis Hweek : interval <> SECS_IN_1_WEEK.
Hypothesis Hs : forall j, blo <= j < bhi -> sidx j < sidx (j + 1) <= sidx j + 1000000.
Hypothesis Hb : forall j, blo <= j < bhi -> bst j < bst (j + 1).
Hypothesis Hstep : forall j, blo <= j < bhi -> ztsIncrementBlock (bst j) size = Ok (bst (j + 1)).
Hypothesis Hcount : forall j, blo <= j < bhi ->
  numberPeriods interval (bst j - 1) SECS_IN_1_DAY (bst (j + 1) - 1) SECS_IN_1_DAY = Ok (sidx (j + 1) - sidx j).
Hypothesis Hpos : forall j k, blo <= j < bhi -> sidx blo < k <= sidx bhi -> -2001000000 <= k - sidx j <= 2001000000 ->
  numberPeriods interval (bst j - 1) SECS_IN_1_DAY (sj k) (ss k) = Ok (k - sidx j).
Hypothesis Hday : forall j k, blo <= j < bhi -> sidx j < k <= sidx (j + 1) -> bst j <= sj k < bst (j + 1).

Lemma s_mono_nat n : forall j, blo <= j -> j + Z.of_nat n <= bhi -> sidx j + Z.of_nat n <= sidx (j + Z.of_nat n).
Proof.
  induction n as [|n IH]; intros j H1 H2; [replace (j + Z.of_nat 0) with j by lia; lia|].
  specialize (IH j ltac:(lia) ltac:(lia)). pose proof (Hs (j + Z.of_nat n) ltac:(lia)) as Q.
  replace (j + Z.of_nat n + 1) with (j + Z.of_nat (S n)) in Q by lia. lia.
Qed.
Lemma s_mono a b : blo <= a <= b -> b <= bhi -> sidx a + (b - a) <= sidx b.
Proof. intros H1 H2. pose proof (s_mono_nat (Z.to_nat (b - a)) a ltac:(lia) ltac:(lia)) as Q. rewrite Z2Nat.id in Q by lia. replace (a + (b - a)) with b in Q by lia. exact Q. Qed.
Lemma b_mono_nat n : forall j, blo <= j -> j + Z.of_nat n <= bhi -> bst j + Z.of_nat n <= bst (j + Z.of_nat n).
Proof.
  induction n as [|n IH]; intros j H1 H2; [replace (j + Z.of_nat 0) with j by lia; lia|].
  specialize (IH j ltac:(lia) ltac:(lia)). pose proof (Hb (j + Z.of_nat n) ltac:(lia)) as Q.
  replace (j + Z.of_nat n + 1) with (j + Z.of_nat (S n)) in Q by lia. lia.
Qed.
Lemma b_mono a b : blo <= a <= b -> b <= bhi -> bst a + (b - a) <= bst b.
Proof. intros H1 H2. pose proof (b_mono_nat (Z.to_nat (b - a)) a ltac:(lia) ltac:(lia)) as Q. rewrite Z2Nat.id in Q by lia. replace (a + (b - a)) with b in Q by lia. exact Q. Qed.
Lemma b_inj a b : blo <= a <= bhi -> blo <= b <= bhi -> bst a = bst b -> a = b.
Proof.
  intros A B E. destruct (Z_lt_le_dec a b) as [L|L].
  - pose proof (b_mono a b ltac:(lia) ltac:(lia)). lia.
  - destruct (Z_lt_le_dec b a) as [L'|L']; [|lia]. pose proof (b_mono b a ltac:(lia) ltac:(lia)). lia.
Qed.

(** a window of [n] periods from [k0] *)
Variables (k0 n j0 j1 : Z).
Hypothesis Hn : 0 < n <= 2000000000.
Hypothesis Hj0 : blo <= j0 /\ sidx j0 < k0 <= sidx (j0 + 1).
Hypothesis Hj1 : j1 < bhi /\ sidx j1 < k0 + n - 1 <= sidx (j1 + 1).
Hypothesis Hjj : blo <= j1 /\ j0 < bhi.

Definition win : window := mkwin interval size (sj k0) (ss k0) (sj (k0 + n - 1)) (ss (k0 + n - 1)) (bst j0) (bst j1) n.
Definition done_at (j : Z) : Z := if j <=? j1 then Z.max 0 (sidx j + 1 - k0) else n.

Lemma j01 : j0 <= j1.
Proof.
  destruct (Z_le_gt_dec j0 j1) as [|G]; [assumption|]. exfalso.
  pose proof (s_mono (j1 + 1) j0 ltac:(lia) ltac:(lia)). lia.
Qed.

Definition in_blk (j : Z) : Z := (if j <? j1 then sidx (j + 1) else k0 + n - 1) - (k0 + done_at j) + 1.

Lemma in_blk_ok j : j0 <= j <= j1 ->
  in_block win (bst j) (done_at j) = Ok (bst (j + 1), sidx (j + 1) - sidx j, done_at j + k0 - 1 - sidx j, in_blk j) /\
  0 < in_blk j /\ done_at j + in_blk j = done_at (j + 1) /\ 0 <= done_at j + k0 - 1 - sidx j /\
  done_at j + k0 - 1 - sidx j + in_blk j <= sidx (j + 1) - sidx j /\ 0 <= done_at j /\ done_at j + in_blk j <= n.
Proof.
  intros H. pose proof j01 as J01.
  pose proof (Hs j ltac:(lia)) as S1.
  assert (A : j = j0 \/ (j0 < j /\ k0 <= sidx j)).
  { destruct (Z.eq_dec j j0); [left; assumption|right]. split; [lia|]. pose proof (s_mono (j0 + 1) j ltac:(lia) ltac:(lia)). lia. }
  assert (B : j = j1 \/ (j < j1 /\ sidx (j + 1) < k0 + n - 1)).
  { destruct (Z.eq_dec j j1); [left; assumption|right]. split; [lia|]. pose proof (s_mono (j + 1) j1 ltac:(lia) ltac:(lia)). lia. }
  assert (Sj1 : sidx j < k0 + n - 1). { pose proof (s_mono j j1 ltac:(lia) ltac:(lia)). lia. }
  pose proof (Hs j0 ltac:(lia)) as S0. pose proof (s_mono j0 j ltac:(lia) ltac:(lia)) as S2.
  assert (D : done_at j = Z.max 0 (sidx j + 1 - k0)) by (unfold done_at; replace (j <=? j1) with true by lia; reflexivity).
  assert (D1 : done_at j = if j =? j0 then 0 else sidx j + 1 - k0).
  { rewrite D. destruct (Z.eqb_spec j j0) as [E|E]; [rewrite E in *; lia|]. lia. }
  assert (I : in_blk j = (if j <? j1 then sidx (j + 1) else k0 + n - 1) - (k0 + done_at j) + 1) by reflexivity.
  assert (N : done_at (j + 1) = if j <? j1 then sidx (j + 1) + 1 - k0 else n).
  { unfold done_at. destruct (Z.ltb_spec j j1) as [E|E].
    - replace (j + 1 <=? j1) with true by lia. assert (k0 <= sidx (j + 1)) by (destruct A as [->|[_ A]]; lia). lia.
    - replace (j + 1 <=? j1) with false by lia. reflexivity. }
  split.
  - unfold in_block. cbn [win w_size w_int w_sj w_ss w_n]. rewrite Hstep by lia. cbn [bind]. rewrite Hcount by lia. cbn [bind].
    rewrite Hpos; [cbn [bind]| lia | | ].
    2:{ pose proof (s_mono blo j0 ltac:(lia) ltac:(lia)). pose proof (s_mono (j0 + 1) bhi ltac:(lia) ltac:(lia)). lia. }
    2:{ split; [|destruct A as [->|[_ A]]; lia]. lia. }
    replace (interval =? SECS_IN_1_WEEK) with false by (symmetry; apply Z.eqb_neq; exact Hweek). cbn [andb].
    replace (k0 - sidx j - 1 + done_at j) with (done_at j + k0 - 1 - sidx j) by lia.
    f_equal. f_equal. rewrite I.
    destruct (Z.ltb_spec j j1) as [E|E].
    + destruct B as [B|[_ B]]; [lia|]. replace (n - done_at j <? sidx (j + 1) - sidx j - (done_at j + k0 - 1 - sidx j)) with false by lia. lia.
    + assert (j = j1) by lia. subst j.
      destruct (n - done_at j1 <? sidx (j1 + 1) - sidx j1 - (done_at j1 + k0 - 1 - sidx j1)) eqn:Q; lia.
  - rewrite I, N. destruct (Z.ltb_spec j j1) as [E|E].
    + destruct B as [B|[_ B]]; [lia|]. rewrite D1. destruct (Z.eqb_spec j j0); [subst j|]; lia.
    + assert (j = j1) by lia. subst j. rewrite D1. destruct (Z.eqb_spec j1 j0) as [Q|Q]; [rewrite Q in *|]; lia.
Qed.

Lemma written_blk j p : j0 <= j <= j1 -> 0 <= p < sidx (j + 1) - sidx j ->
  written (done_at j + k0 - 1 - sidx j) (in_blk j) p = written k0 n (sidx j + 1 + p).
Proof.
  intros H Hp. pose proof (in_blk_ok j H) as (_ & I1 & I2 & I3 & I4 & I5 & I6). pose proof j01 as J01.
  unfold written, in_blk in *.
  assert (A : j = j0 \/ (j0 < j /\ k0 <= sidx j)).
  { destruct (Z.eq_dec j j0); [left; assumption|right]. split; [lia|]. pose proof (s_mono (j0 + 1) j ltac:(lia) ltac:(lia)). lia. }
  assert (B : j = j1 \/ (j < j1 /\ sidx (j + 1) < k0 + n - 1)).
  { destruct (Z.eq_dec j j1); [left; assumption|right]. split; [lia|]. pose proof (s_mono (j + 1) j1 ltac:(lia) ltac:(lia)). lia. }
  assert (D : done_at j = Z.max 0 (sidx j + 1 - k0)) by (unfold done_at; replace (j <=? j1) with true by lia; reflexivity).
  destruct (Z.ltb_spec j j1) as [E|E].
  - destruct B as [B|[_ B]]; [lia|]. lia.
  - assert (j = j1) by lia. subst j. lia.
Qed.

Lemma fuel_ok : (Z.to_nat (j1 + 1 - j0) < block_fuel win)%nat.
Proof. unfold block_fuel, win, w_eb, w_sb. pose proof j01. pose proof (b_mono j0 j1 ltac:(lia) ltac:(lia)). lia. Qed.
Lemma done_j0 : done_at j0 = 0.
Proof. unfold done_at. pose proof j01. replace (j0 <=? j1) with true by lia. lia. Qed.

Lemma read_loop_ok' s : forall d fuel j, j1 + 1 - j = Z.of_nat d -> j0 <= j -> (d < fuel)%nat ->
  exists v q f, read_loop' fuel mval win (done_at j) (bst j) s = Ok (Some (v, q, f)) /\
    alen v = n - done_at j /\ alen q = n - done_at j /\
    (forall i k, j <= i <= j1 -> sidx i < k <= sidx (i + 1) -> written k0 n k = true ->
       aget v (k - k0 - done_at j) = Ok (vat mval (s (bst i)) (k - sidx i - 1)) /\
       aget q (k - k0 - done_at j) = Ok (qat (s (bst i)) (k - sidx i - 1))) /\
    (f = true <-> exists i, j <= i <= j1 /\ s (bst i) <> None).
Proof.
  induction d as [|d IH]; intros fuel j Hd Hj Hf; (destruct fuel as [|fuel]; [lia|]); cbn [read_loop']; cbn [win w_eb].
  - assert (j = j1 + 1) by lia. subst j. pose proof (Hb j1 ltac:(lia)). replace (bst (j1 + 1) >? bst j1) with true by lia.
    exists [], [], false. split; [reflexivity|]. unfold done_at. replace (j1 + 1 <=? j1) with false by lia.
    split; [unfold alen; cbn; lia|]. split; [unfold alen; cbn; lia|]. split; [intros; lia|]. split; [discriminate|]. intros (i & Hi & _). lia.
  - pose proof (b_mono j j1 ltac:(lia) ltac:(lia)) as M. replace (bst j >? bst j1) with false by lia.
    pose proof (in_blk_ok j ltac:(lia)) as (EB & I1 & I2 & I3 & I4 & I5 & I6). rewrite EB. cbn [bind].
    replace (done_at j + k0 - 1 - sidx j <? 0) with false by lia. rewrite I2.
    destruct (IH fuel (j + 1)) as (v & q & f & E & L & LQ & G & FF); try lia. fold win. rewrite E. cbn [bind].
    do 3 eexists. split; [reflexivity|].
    split; [rewrite alen_app, alen_block_vals by lia; lia|]. split; [rewrite alen_app, alen_block_qual by lia; lia|]. split.
    + intros i k Hi Hk W. assert (Hw := W). unfold written in Hw.
      assert (LE : done_at j <= k - k0).
      { unfold done_at. replace (j <=? j1) with true by lia. pose proof (s_mono j i ltac:(lia) ltac:(lia)). lia. }
      rewrite !aget_app by lia. rewrite alen_block_vals, alen_block_qual by lia.
      destruct (Z.eq_dec i j) as [->|N].
      * pose proof (written_blk j (k - sidx j - 1) ltac:(lia) ltac:(lia)) as Q. replace (sidx j + 1 + (k - sidx j - 1)) with k in Q by lia.
        rewrite W in Q. unfold written in Q. replace (k - k0 - done_at j <? in_blk j) with true by lia.
        rewrite block_vals_at, block_qual_at by lia. split; f_equal; f_equal; lia.
      * assert (in_blk j = sidx (j + 1) - (k0 + done_at j) + 1) by (unfold in_blk; replace (j <? j1) with true by lia; lia).
        pose proof (s_mono (j + 1) i ltac:(lia) ltac:(lia)). replace (k - k0 - done_at j <? in_blk j) with false by lia.
        replace (k - k0 - done_at j - in_blk j) with (k - k0 - done_at (j + 1)) by lia. apply G; [lia|assumption|assumption].
    + destruct (s (bst j)) eqn:SB.
      * split; [|reflexivity]. intros _. exists j. split; [lia|]. rewrite SB. discriminate.
      * rewrite FF. split; intros (i & Hi & Q); exists i; (split; [|exact Q]); [lia|].
        destruct (Z.eq_dec i j) as [->|]; [congruence|lia].
Qed.
Variables (vals : list Z) (qual : option (list Z)).
Hypothesis Hlen : alen vals = n.
Hypothesis Hql : match qual with None => True | Some q => alen q = n end.

(** the value (and quality) expected at position [p] of block [i] *)
Definition want_v (i : Z) (o : option rblk) (p : Z) : Z :=
  let k := sidx i + 1 + p in
  if written k0 n k && takes miss flag (vat mval o p) (new_at vals k0 k) then new_at vals k0 k else vat mval o p.
Definition want_q (q : list Z) (i : Z) (o : option rblk) (p : Z) : Z :=
  let k := sidx i + 1 + p in
  if written k0 n k && takes miss flag (vat mval o p) (new_at vals k0 k) then new_at q k0 k else qat o p.
Definition stored_ok (i : Z) (o o' : option rblk) : Prop :=
  block_ok (sidx (i + 1) - sidx i) o' /\
  (forall p, 0 <= p < sidx (i + 1) - sidx i -> eqm miss (vat mval o' p) (want_v i o p)) /\
  match qual with
  | None => True
  | Some q => forall p, 0 <= p < sidx (i + 1) - sidx i -> qat o' p = want_q q i o p
  end.

Lemma new_at_blk a j p : j0 <= j <= j1 -> written k0 n (sidx j + 1 + p) = true -> 0 <= p < sidx (j + 1) - sidx j ->
  new_at (skipn (Z.to_nat (done_at j)) a) (done_at j + k0 - 1 - sidx j) p = new_at a k0 (sidx j + 1 + p).
Proof.
  intros H W Hp. rewrite <- written_blk in W by assumption. pose proof (in_blk_ok j H) as (_ & I1 & I2 & I3 & I4 & I5 & I6).
  unfold written in W. unfold new_at. rewrite aget_skipn by lia.
  replace (done_at j + (p - (done_at j + k0 - 1 - sidx j))) with (sidx j + 1 + p - k0) by lia. reflexivity.
Qed.

Hypothesis Hmv : miss mval = true.
Hypothesis Hflag : 0 <= flag <= 4.
(** with flag 0 every block inside the window gets a value that is not missing *)
Hypothesis Hsome : flag = 0 -> empty = false -> forall i, j0 < i < j1 -> exists k, sidx i < k <= sidx (i + 1) /\
  (miss (new_at vals k0 k) = false \/ exists q, qual = Some q /\ new_at q k0 k <> 0).

Lemma store_one j o : j0 <= j <= j1 -> block_ok (sidx (j + 1) - sidx j) o ->
  exists oc, store_block miss mval o (skipn (Z.to_nat (done_at j)) vals) (option_map (skipn (Z.to_nat (done_at j))) qual)
      (in_blk j) (sidx (j + 1) - sidx j) (done_at j + k0 - 1 - sidx j) flag
      (negb ((sj k0 <? bst j) && (sj (k0 + n - 1) >? bst (j + 1)) && ((flag =? 0) || (flag =? 2)))) empty = Ok oc /\
    stored_ok j o (after o oc).
Proof.
  intros H BO. pose proof (in_blk_ok j H) as (_ & I1 & I2 & I3 & I4 & I5 & I6). pose proof j01 as J01.
  set (rd := negb _).
  assert (A : arr_ok (in_blk j) (skipn (Z.to_nat (done_at j)) vals) (option_map (skipn (Z.to_nat (done_at j))) qual)).
  { split; [rewrite alen_skipn by lia; lia|]. destruct qual as [q|]; cbn [option_map]; [|exact I]. rewrite alen_skipn by lia. lia. }
  assert (RD : rd = true \/ ((flag = 0 \/ flag = 2) /\ done_at j + k0 - 1 - sidx j = 0 /\ in_blk j = sidx (j + 1) - sidx j /\
     (o = None \/ empty = true \/ flag = 2 \/ exists i, 0 <= i < in_blk j /\
        isvalid miss (skipn (Z.to_nat (done_at j)) vals) (option_map (skipn (Z.to_nat (done_at j))) qual) i = true))).
  { destruct rd eqn:R; [left; reflexivity|right]. unfold rd in R. rewrite negb_false_iff, !andb_true_iff in R. destruct R as [[R1 R2] R3].
    assert (j0 < j < j1).
    { split.
      - destruct (Z.eq_dec j j0) as [->|]; [|lia]. pose proof (Hday j0 k0 ltac:(lia) ltac:(lia)). lia.
      - destruct (Z.eq_dec j j1) as [->|]; [|lia]. pose proof (Hday j1 (k0 + n - 1) ltac:(lia) ltac:(lia)). lia. }
    assert (K0 : k0 <= sidx j) by (pose proof (s_mono (j0 + 1) j ltac:(lia) ltac:(lia)); lia).
    assert (K1 : sidx (j + 1) < k0 + n - 1) by (pose proof (s_mono (j + 1) j1 ltac:(lia) ltac:(lia)); lia).
    assert (D : done_at j = sidx j + 1 - k0) by (unfold done_at; replace (j <=? j1) with true by lia; lia).
    split; [lia|]. split; [lia|]. split; [unfold in_blk; replace (j <? j1) with true by lia; lia|].
    destruct (flag =? 2) eqn:F2; [right; right; left; lia|]. destruct empty eqn:Em; [right; left; reflexivity|].
    right; right; right. destruct (Hsome ltac:(lia) eq_refl j ltac:(lia)) as (k & Hk & V).
    exists (k - sidx j - 1). split; [unfold in_blk; replace (j <? j1) with true by lia; lia|].
    assert (W : written k0 n (sidx j + 1 + (k - sidx j - 1)) = true) by (unfold written; lia).
    assert (G : forall a, getd 0 (skipn (Z.to_nat (done_at j)) a) (k - sidx j - 1) = new_at a k0 k).
    { intros a. pose proof (new_at_blk a j (k - sidx j - 1) ltac:(lia) W ltac:(lia)) as Q.
      replace (sidx j + 1 + (k - sidx j - 1)) with k in Q by lia. rewrite <- Q. unfold new_at, getd.
      replace (k - sidx j - 1 - (done_at j + k0 - 1 - sidx j)) with (k - sidx j - 1) by lia. reflexivity. }
    unfold isvalid. rewrite G. destruct V as [->|(q & -> & V)]; [reflexivity|]. cbn [option_map]. rewrite G.
    replace (new_at q k0 k =? 0) with false by lia. apply orb_true_r. }
  destruct (store_gen miss mval o _ _ (in_blk j) (sidx (j + 1) - sidx j) (done_at j + k0 - 1 - sidx j) flag rd empty
    Hmv I1 I3 I4 A BO Hflag RD) as (oc & E & GV & GQ).
  exists oc. split; [exact E|]. split.
  - eapply store_block_ok; [| | | | | |exact E]; eassumption.
  - split.
    + intros p Hp. specialize (GV p Hp). unfold expect_v in GV. rewrite written_blk in GV by assumption.
      unfold want_v. destruct (written k0 n (sidx j + 1 + p)) eqn:W; [|exact GV].
      rewrite (new_at_blk vals j p H W Hp) in GV. exact GV.
    + destruct qual as [q|]; [|exact I]. cbn [option_map] in GQ. intros p Hp. specialize (GQ p Hp). rewrite GQ.
      unfold expect_q, want_q. rewrite written_blk by assumption.
      destruct (written k0 n (sidx j + 1 + p)) eqn:W; [|reflexivity].
      rewrite (new_at_blk vals j p H W Hp), (new_at_blk q j p H W Hp). reflexivity.
Qed.

Lemma store_loop_ok : forall d fuel j s, j1 + 1 - j = Z.of_nat d -> j0 <= j -> (d < fuel)%nat ->
  (forall i, j <= i <= j1 -> block_ok (sidx (i + 1) - sidx i) (s (bst i))) ->
  exists s', store_loop fuel miss mval empty flag win vals qual (done_at j) (bst j) s = Ok (true, s') /\
    (forall b, (forall i, j <= i <= j1 -> b <> bst i) -> s' b = s b) /\
    (forall i, j <= i <= j1 -> stored_ok i (s (bst i)) (s' (bst i))).
Proof.
  induction d as [|d IH]; intros fuel j s Hd Hj Hf BO; (destruct fuel as [|fuel]; [lia|]); cbn [store_loop]; cbn [win w_eb w_sj w_ej].
  - assert (j = j1 + 1) by lia. subst j. pose proof (Hb j1 ltac:(lia)). replace (bst (j1 + 1) >? bst j1) with true by lia.
    exists s. split; [reflexivity|]. split; [intros; reflexivity|]. intros i Hi. lia.
  - pose proof (b_mono j j1 ltac:(lia) ltac:(lia)) as M. replace (bst j >? bst j1) with false by lia.
    pose proof (in_blk_ok j ltac:(lia)) as (EB & I1 & I2 & I3 & I4 & I5 & I6). rewrite EB. cbn [bind]. cbn [win w_sj w_ej].
    replace (done_at j + k0 - 1 - sidx j <? 0) with false by lia. replace (in_blk j <? 0) with false by lia.
    destruct (store_one j (s (bst j)) ltac:(lia) (BO j ltac:(lia))) as (oc & E & SO). rewrite E. cbn [bind]. rewrite I2.
    destruct (IH fuel (j + 1) (put_block s (bst j) (after (s (bst j)) oc))) as (s' & E' & P1 & P2); try lia.
    { intros i Hi. unfold put_block. pose proof (b_mono j i ltac:(lia) ltac:(lia)). replace (bst i =? bst j) with false by lia. apply BO. lia. }
    exists s'. split; [exact E'|]. split.
    + intros b Hbn. rewrite P1 by (intros; apply Hbn; lia). unfold put_block. replace (b =? bst j) with false; [reflexivity|].
      specialize (Hbn j ltac:(lia)). lia.
    + intros i Hi. destruct (Z.eq_dec i j) as [->|N].
      * rewrite P1. { unfold put_block. rewrite Z.eqb_refl. exact SO. }
        intros i' Hi' Q. pose proof (b_mono j i' ltac:(lia) ltac:(lia)). lia.
      * pose proof (P2 i ltac:(lia)) as Q. unfold put_block in Q. pose proof (b_mono j i ltac:(lia) ltac:(lia)).
        replace (bst i =? bst j) with false in Q by lia. exact Q.
Qed.

End Loops.
