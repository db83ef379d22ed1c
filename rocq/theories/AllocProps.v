(** * C26: file space is never handed out twice, with space reclamation on (AllocModel.v). *)
From Coq Require Import ZArith List Bool Lia Permutation ZifyBool.
From Verif Require Import Base AllocModel AllocProofs AllocProofs2.
Import ListNotations.
Open Scope Z_scope.

(** ** Specification *)
(** word [x] belongs to the space [r] = (address, size) *)
Definition inside (x : Z) (r : Z * Z) : Prop := fst r <= x < fst r + snd r.
(** What the callers must do: ask for sizes that are ints, release only what they hold, write only in what they hold. *)
Definition legal (live : list (Z * Z)) (o : aop) : Prop :=
  match o with
  | Alloc _ n _ => 0 <= n <= INT_MAX
  | Release _ a n => In (a, n) live
  | Store x _ => exists r, In r live /\ inside x r
  | Reset => True
  end.
(** The histories of a file whose first [table] words (header, locks, hash table) are [m]. *)
Inductive history (m : Z -> Z) (table : Z) : fs -> list (Z * Z) -> Prop :=
| h_new : history m table (new_space m table) []
| h_step s live o s' live' : history m table s live -> legal live o -> astep (s, live) o = Some (s', live') -> history m table s' live'.

(** ** Searching *)
Lemma walk_search_spec inumber n : forall s i address a l,
  (n > 0)%nat -> Z.of_nat n = inumber + 1 - i -> 0 <= i -> chain (f_mem s) address l -> l <> [] ->
  walk_search n s i inumber address a =
    match nth_error l (Z.to_nat (inumber - i)) with Some c => (c, Some (read_seg s c)) | None => (0, None) end.
Proof.
  induction n as [|n IH]; intros s i address a l N0 NI I0 C NE; [lia|].
  destruct l as [|c l]; [congruence|]. cbn [chain] in C. destruct C as (-> & C0 & C).
  cbn [walk_search]. destruct (Z.ltb_spec i inumber) as [Li|Li].
  - change (read_seg s c iaddLoc) with (f_mem s (c + iaddLoc)).
    replace (Z.to_nat (inumber - i)) with (S (Z.to_nat (inumber - (i + 1)))) by lia. cbn [nth_error].
    destruct l as [|d l].
    + cbn [chain] in C. rewrite C. rewrite Z.eqb_refl. destruct (Z.to_nat _); reflexivity.
    + pose proof C as C'. cbn [chain] in C'. destruct C' as (E & D0 & _). rewrite (proj2 (Z.eqb_neq _ _)) by congruence.
      apply IH; auto; [lia|lia|lia|discriminate].
  - assert (n = O) by lia. subst. replace (Z.to_nat (inumber - i)) with O by lia. rewrite (proj2 (Z.eqb_neq _ _)) by auto. reflexivity.
Qed.

Lemma wrap32_id z : 0 <= z <= INT_MAX -> wrap32 z = z.
Proof. intros. unfold wrap32, INT_MAX in *. rewrite Z.mod_small; lia. Qed.

Lemma best_fit_spec n a need : 0 < need -> forall i have loc h l,
  (forall k, 0 <= k < i + Z.of_nat n -> a (2 * k) <> 0 -> 0 < a (2 * k) <= INT_MAX) -> 0 <= i ->
  (have > 0 -> 0 <= loc < i /\ a (2 * loc) = have /\ need <= have) ->
  best_fit n a need i have loc = (h, l) -> h > 0 -> 0 <= l < i + Z.of_nat n /\ a (2 * l) = h /\ need <= h.
Proof.
  intros ND. induction n as [|n IH]; intros i have loc h l B I0 H E Hh.
  - cbn in E. injection E as <- <-. destruct (H Hh) as (? & ? & ?). repeat split; auto; lia.
  - cbn [best_fit] in E. assert (B' : forall k, 0 <= k < i + 1 + Z.of_nat n -> a (2 * k) <> 0 -> 0 < a (2 * k) <= INT_MAX) by (intros; apply B; lia).
    destruct (_ && _) eqn:C.
    + assert (V : 0 < a (2 * i) <= INT_MAX) by (apply B; lia). rewrite wrap32_id in E by lia.
      destruct (Z.eqb_spec (a (2 * i)) need).
      * pose proof (f_equal fst E) as E1; pose proof (f_equal snd E) as E2; cbn [fst snd] in E1, E2; clear E; subst l; rewrite E1 in *. split; [lia|split; [reflexivity|lia]].
      * apply IH in E; auto; try lia.
    + apply IH in E; auto; try lia.
Qed.

Lemma entry_bounds s live cs ds c k : Inv s live cs ds -> In c cs -> 0 <= k < kreclaimNumber -> f_mem s (c + 2 * k) <> 0 ->
  0 < f_mem s (c + 2 * k) <= INT_MAX.
Proof.
  intros I C K N. pose proof (i_free _ _ _ _ I) as F. rewrite Forall_forall in F.
  apply (F (f_mem s (c + (2 * k + 1)), f_mem s (c + 2 * k))). unfold free. apply in_flat_map. exists c. split; auto.
  destruct (entries_upd (fun j => f_mem s (c + j)) k K) as (l1 & l2 & E & _). rewrite E. rewrite !in_app_iff. right. left.
  unfold opt. cbn. rewrite (proj2 (Z.eqb_neq _ _)) by auto. left. reflexivity.
Qed.

Lemma disj_left a n h q : 0 <= n <= h -> disj (a, h) q -> disj (a, n) q.
Proof. unfold disj. cbn. lia. Qed.
Lemma disj_right a n h q : 0 <= n <= h -> disj (a, h) q -> disj (a + n, h - n) q.
Proof. unfold disj. cbn. lia. Qed.

Lemma Ext_hdr s s' ss : f_mem s' = f_mem s -> f_size s' = f_size s -> f_table s' = f_table s -> Ext s ss s' ss.
Proof. intros M S T. unfold Ext. rewrite M, S, T. repeat split; auto; lia. Qed.

Lemma search_spec fuel : forall s live cs ds need inumber,
  Inv s live cs ds -> 0 <= inumber <= Z.of_nat (List.length cs) -> kreclaimMin <= need <= INT_MAX ->
  (Z.of_nat fuel > Z.of_nat (List.length cs) - inumber)  ->
  exists s' ad, search fuel s need inumber = Some (s', ad) /\ Ext s (cs ++ ds) s' (cs ++ ds) /\ f_size s' = f_size s /\
    ((ad = 0 /\ Inv s' live cs ds) \/ (ad <> 0 /\ Inv s' ((ad, need) :: live) cs ds)).
Proof.
  induction fuel as [|fuel IH]; intros s live cs ds need inumber I IN ND FU; [lia|].
  pose proof (i_chain _ _ _ _ I) as CH. pose proof (i_len _ _ _ _ I) as LN.
  assert (NE : cs <> []). { intros ->. cbn in CH. pose proof (i_table _ _ _ _ I). unfold kreclaimSize in *. lia. }
  cbn [search].
  assert (RS : exists sg, read_search s inumber = (set_seg (match nth_error cs (Z.to_nat inumber) with Some c => c | None => 0 end) sg s,
                 match nth_error cs (Z.to_nat inumber) with Some c => Some (read_seg s c) | None => None end) /\ 0 <= sg <= 20).
  { unfold read_search. destruct (Z.eqb_spec inumber 0) as [->|N0].
    - destruct cs as [|c cs]; [congruence|]. cbn in CH. destruct CH as (E & _). cbn. rewrite E. exists (f_segno s). split; [reflexivity|apply (i_segno _ _ _ _ I)].
    - rewrite (walk_search_spec inumber _ s 0 (f_table s) _ cs) by (auto; lia). rewrite Z.sub_0_r. exists inumber.
      destruct (nth_error cs (Z.to_nat inumber)); split; auto; lia. }
  destruct RS as (sg & -> & SG).
  destruct (nth_error cs (Z.to_nat inumber)) as [c|] eqn:En.
  - assert (Cin : In c cs) by (eapply nth_error_In; eauto).
    assert (I1 : Inv (set_seg c sg s) live cs ds) by (apply (Inv_eq s); auto; right; cbn; apply in_or_app; auto).
    destruct (best_fit _ _ _ _ _ _) as [have loc] eqn:BF.
    destruct (have >? 0) eqn:Hh.
    + apply best_fit_spec in BF; [|unfold kreclaimMin in *; lia| |lia|lia|lia].
      2:{ intros k K Nk. rewrite Z2Nat.id in K by (rewrite numE; lia). apply (entry_bounds s live cs ds); auto. }
      destruct BF as (BL & BV & BN). rewrite Z2Nat.id in BL by (rewrite numE; lia). rewrite Z.add_0_l in BL.
      assert (HB : 0 < have <= INT_MAX).
      { rewrite <- BV. apply (entry_bounds s live cs ds); auto. change (read_seg s c (2 * loc)) with (f_mem s (c + 2 * loc)) in BV. lia. }
      set (ad := read_seg s c (2 * loc + 1)).
      assert (OE : opt (f_mem s (c + (2 * loc + 1)), f_mem s (c + 2 * loc)) = [(ad, have)]).
      { change (f_mem s (c + (2 * loc + 1))) with ad. change (f_mem s (c + 2 * loc)) with (read_seg s c (2 * loc)). rewrite BV.
        unfold opt. cbn [snd]. rewrite (proj2 (Z.eqb_neq _ _)) by lia. reflexivity. }
      assert (AB : region_ok (f_table s) (f_size s) (ad, have)).
      { pose proof (i_in _ _ _ _ I) as F. rewrite Forall_forall in F. apply F. unfold regions. rewrite !in_app_iff. right. left.
        unfold free. apply in_flat_map. exists c. split; auto. destruct (entries_upd (read_seg s c) loc BL) as (l1 & l2 & E & _).
        change (fun j : Z => f_mem s (c + j)) with (read_seg s c). rewrite E. rewrite !in_app_iff. right. left.
        change (read_seg s c (2 * loc + 1)) with (f_mem s (c + (2 * loc + 1))). change (read_seg s c (2 * loc)) with (f_mem s (c + 2 * loc)). rewrite OE. left. reflexivity. }
      assert (ADN : ad <> 0). { unfold region_ok in AB. cbn in AB. pose proof (i_table _ _ _ _ I). unfold kreclaimSize in *. lia. }
      set (s1 := set_total _ (set_dead _ (set_seg c sg s))).
      assert (I2 : Inv s1 live cs ds) by (apply (Inv_eq (set_seg c sg s)); auto; apply I1).
      assert (WI : forall v w, (v <> 0 -> 0 < v <= INT_MAX) ->
        (forall Q, PW ((ad, have) :: Q) -> PW ((ad, need) :: opt (w, v) ++ Q)) ->
        Forall (region_ok (f_table s) (f_size s)) (opt (w, v)) ->
        Inv (zreclaimWrite s1 (upd (upd (read_seg s c) (2 * loc) v) (2 * loc + 1) w)) ((ad, need) :: live) cs ds).
      { intros v w V H1 H2. change (zreclaimWrite s1 ?x) with (write_seg s1 c x). change (read_seg s c) with (read_seg s1 c).
        apply (inv_entry s1 live ((ad, need) :: live) live [] [(ad, need)] cs c ds loc v w); auto.
        - change (f_mem s1) with (f_mem s). rewrite OE. intros Q P. apply H1, P.
        - change (f_mem s1) with (f_mem s). rewrite OE. change (f_table s1) with (f_table s). change (f_size s1) with (f_size s).
          intros Q P. cbn [app] in P |- *. apply Forall_cons_iff in P. destruct P as [P1 P2]. constructor.
          + unfold region_ok in *. cbn in *. unfold kreclaimMin in *. lia.
          + apply Forall_app. split; auto.
        - constructor; auto. cbn. unfold kreclaimMin in *. lia. }
      assert (EX : forall a', Ext s (cs ++ ds) (zreclaimWrite s1 a') (cs ++ ds)).
      { intros a'. apply (Ext_trans _ _ s1 (cs ++ ds)); [apply Ext_hdr; reflexivity|]. eapply Ext_write; [exact I2|right; apply in_or_app; auto|auto]. }
      destruct (have - need >? kreclaimMin) eqn:DF.
      * eexists _, ad. split; [reflexivity|]. split; [apply EX|]. split; [reflexivity|]. right. split; auto.
        apply WI; [unfold kreclaimMin in *; lia| |].
        -- intros Q P. apply PW_cons in P. destruct P as [P1 P2]. unfold opt. cbn [snd]. rewrite (proj2 (Z.eqb_neq _ _)) by (unfold kreclaimMin in *; lia).
           cbn [app]. apply PW_cons. split; [apply PW_cons; split; auto|].
           ++ intros q Hq. apply disj_right; auto. unfold kreclaimMin in *. lia.
           ++ intros q [<-|Hq]; [unfold disj; cbn; lia|]. eapply disj_left; [|apply P2, Hq]. unfold kreclaimMin in *. lia.
        -- unfold opt. cbn [snd]. destruct (_ =? 0); constructor; auto. unfold region_ok in *. cbn in *. unfold kreclaimMin in *. lia.
      * eexists _, ad. split; [reflexivity|]. split; [apply EX|]. split; [reflexivity|]. right. split; auto.
        apply WI; [congruence| |constructor].
        intros Q P. apply PW_cons in P. destruct P as [P1 P2]. cbn [app opt snd]. apply PW_cons. split; auto.
        intros q Hq. eapply disj_left; [|apply P2, Hq]. unfold kreclaimMin in *. lia.
    + assert (LT : inumber < Z.of_nat (List.length cs)).
      { assert (Z.to_nat inumber < List.length cs)%nat by (apply nth_error_Some; congruence). lia. }
      destruct (IH (set_seg c sg s) live cs ds need (inumber + 1)) as (s' & ad & R1 & R2 & R3 & R4); auto; try lia.
      exists s', ad. split; [exact R1|]. split; [eapply Ext_trans; [|exact R2]; apply Ext_hdr; reflexivity|]. split; auto.
  - eexists _, 0. split; [reflexivity|]. split; [apply Ext_hdr; reflexivity|]. split; [reflexivity|]. left. split; auto.
    apply (Inv_eq s); auto.
Qed.

Lemma inv_eof s live cs ds n : Inv s live cs ds -> 0 <= n <= INT_MAX -> Inv (set_size (f_size s + n) s) ((f_size s, n) :: live) cs ds.
Proof.
  intros I N. pose proof (table_size _ _ _ _ I) as T. destruct I. constructor; cbn [f_mem f_table f_size f_segno f_avail set_size]; auto.
  - change (regions (set_size (f_size s + n) s) ((f_size s, n) :: live) cs ds) with ((f_size s, n) :: regions s live cs ds).
    apply PW_cons. split; auto. intros q Q. rewrite Forall_forall in i_in. destruct (i_in q Q) as (? & ? & ?). unfold disj. cbn. lia.
  - change (regions (set_size (f_size s + n) s) ((f_size s, n) :: live) cs ds) with ((f_size s, n) :: regions s live cs ds).
    constructor; [unfold region_ok; cbn; lia|]. eapply Forall_impl; [|exact i_in]. unfold region_ok. intros; lia.
Qed.

Lemma get_spec level s live cs ds n ok : Inv s live cs ds -> 0 <= n <= INT_MAX ->
  exists s' ad, zgetFileSpace level s n ok = Some (s', ad) /\ Inv s' ((ad, n) :: live) cs ds /\ Ext s (cs ++ ds) s' (cs ++ ds).
Proof.
  intros I N. unfold zgetFileSpace.
  assert (E : exists s' ad, (if ok && negb (level <=? 1) && (kreclaimSize >? 0) && (n >=? kreclaimMin) && (n <=? f_max s)
     then search search_fuel s n 0 else Some (s, 0)) = Some (s', ad) /\ Ext s (cs ++ ds) s' (cs ++ ds) /\
     ((ad = 0 /\ Inv s' live cs ds) \/ (ad <> 0 /\ Inv s' ((ad, n) :: live) cs ds))).
  { destruct (_ && _) eqn:C; [|exists s, 0; split; [reflexivity|split; [apply Ext_refl|auto]]].
    pose proof (i_len _ _ _ _ I). destruct (search_spec search_fuel s live cs ds n 0) as (s' & ad & R1 & R2 & R3 & R4); auto; try lia.
    - unfold search_fuel. lia.
    - exists s', ad. auto. }
  destruct E as (s' & ad & -> & X & [(-> & I')|(A & I')]).
  - cbn. eexists _, _. split; [reflexivity|]. split; [apply inv_eof; auto|]. eapply Ext_trans; [exact X|].
    repeat split; auto. cbn. lia.
  - rewrite (proj2 (Z.eqb_neq _ _)) by auto. eauto.
Qed.

(** ** Releasing *)
Lemma find_empty_spec n a : forall ipos mm p, find_empty n a ipos mm = inl p -> exists k, p = ipos + 2 * k /\ 0 <= k < Z.of_nat n.
Proof.
  induction n as [|n IH]; intros ipos mm p E; cbn in E; [discriminate|].
  destruct (a ipos =? 0); [injection E as <-; exists 0; lia|]. apply IH in E. destruct E as (k & -> & K). exists (k + 1). lia.
Qed.
Lemma inv_drop s live live' Y cs ds : Inv s live cs ds -> Permutation live (Y ++ live') -> Inv s live' cs ds.
Proof.
  intros I P.
  assert (PT : part (regions s live' cs ds) (regions s live cs ds)).
  { exists Y. unfold regions. rewrite P, <- (app_assoc Y). apply Permutation_app_comm. }
  destruct I. constructor; auto; [eapply PW_part; eauto|eapply Forall_part; eauto|].
  eapply Permutation_Forall in i_live; [|exact P]. apply Forall_app in i_live. tauto.
Qed.
Lemma put_spec s live live' cs ds address amount k : Inv s live cs ds -> Permutation live ((address, amount) :: live') ->
  0 <= k < kreclaimNumber -> kreclaimMin <= amount ->
  let s1 := set_total (f_total s + amount) s in
  Inv (zreclaimWrite s1 (upd (upd (read_seg s (f_avail s)) (2 * k) amount) (2 * k + 1) address)) live' cs ds /\
  Ext s (cs ++ ds) (zreclaimWrite s1 (upd (upd (read_seg s (f_avail s)) (2 * k) amount) (2 * k + 1) address)) (cs ++ ds).
Proof.
  intros I P K A s1. assert (I1 : Inv s1 live cs ds) by (apply (Inv_eq s); auto; apply I).
  split.
  2:{ apply (Ext_trans _ _ s1 (cs ++ ds)); [apply Ext_hdr; reflexivity|]. eapply Ext_write; [exact I1|apply (i_avail _ _ _ _ I1)|auto]. }
  destruct (in_dec Z.eq_dec (f_avail s) cs) as [C|C].
  - change (zreclaimWrite s1 ?x) with (write_seg s1 (f_avail s) x). change (read_seg s (f_avail s)) with (read_seg s1 (f_avail s)).
    assert (AM : amount <= INT_MAX).
    { pose proof (i_live _ _ _ _ I) as L. rewrite Forall_forall in L. assert (X : In (address, amount) live) by (eapply Permutation_in; [apply Permutation_sym, P|left; auto]).
      apply L in X. cbn in X. lia. }
    assert (OP : opt (address, amount) = [(address, amount)]) by (unfold opt; cbn; rewrite (proj2 (Z.eqb_neq _ _)) by (unfold kreclaimMin in *; lia); reflexivity).
    apply (inv_entry s1 live live' live' [(address, amount)] [] cs (f_avail s) ds k amount address); auto.
    + rewrite OP. set (e := opt _). intros Q. cbn [app]. rewrite !PW_cons, PW_app. intros ((_ & P1 & _) & P2). split; auto. intros q Hq. apply P2, in_or_app; auto.
    + rewrite OP. set (e := opt _). intros Q. cbn [app]. rewrite !Forall_cons_iff, Forall_app. tauto.
    + unfold kreclaimMin in *; lia.
  - eapply inv_offchain.
    + apply (inv_drop _ live _ [(address, amount)]); auto.
    + destruct (i_avail _ _ _ _ I) as [|X]; [auto|]. apply in_app_iff in X. cbn. tauto.
Qed.

Lemma release_loop_spec fuel : forall s live live' cs ds address amount inumber,
  Inv s live cs ds -> Permutation live ((address, amount) :: live') -> kreclaimMin <= amount ->
  (inumber = 0 \/ inumber = f_segno s + 1) -> (Z.of_nat fuel > 22 - inumber) ->
  exists s' b cs' ds', release_loop fuel s address amount inumber = Some (s', b) /\ Inv s' live' cs' ds' /\ Ext s (cs ++ ds) s' (cs' ++ ds').
Proof.
  induction fuel as [|fuel IH]; intros s live live' cs ds address amount inumber I P A IN FU.
  { pose proof (i_segno _ _ _ _ I). lia. }
  pose proof (i_segno _ _ _ _ I) as SG. cbn [release_loop].
  assert (CONT : forall s1 cs1 ds1 num, Inv s1 live cs1 ds1 -> Ext s (cs ++ ds) s1 (cs1 ++ ds1) -> num = f_segno s1 -> num >= inumber ->
    (inumber = 0 -> Z.of_nat fuel > 21) ->
    exists s' b cs' ds', (let put ipos := Some (zreclaimWrite (set_total (f_total s1 + amount) s1) (upd (upd (read_seg s1 (f_avail s1)) ipos amount) (ipos + 1) address), true) in
      match find_empty (Z.to_nat kreclaimNumber) (read_seg s1 (f_avail s1)) 0 (wrap32 (read_seg s1 (f_avail s1) 0)) with
      | inl ipos => put ipos
      | inr minMem => if (minMem >? 0) && (amount >? minMem) then put (2 * (kreclaimNumber - 1)) else release_loop fuel s1 address amount (num + 1)
      end) = Some (s', b) /\ Inv s' live' cs' ds' /\ Ext s (cs ++ ds) s' (cs' ++ ds')).
  { intros s1 cs1 ds1 num I1 X1 NS NG FU2. cbv zeta.
    destruct (find_empty _ _ _ _) as [ipos|mm] eqn:FE.
    - apply find_empty_spec in FE. destruct FE as (k & -> & K). rewrite Z2Nat.id in K by (rewrite numE; lia). rewrite Z.add_0_l.
      destruct (put_spec _ _ _ _ _ _ _ k I1 P K A) as [I2 X2]. eexists _, true, cs1, ds1. split; [reflexivity|]. split; [exact I2|]. eapply Ext_trans; eauto.
    - destruct (_ && _).
      + assert (K : 0 <= kreclaimNumber - 1 < kreclaimNumber) by (rewrite numE; lia).
        destruct (put_spec _ _ _ _ _ _ _ _ I1 P K A) as [I2 X2]. eexists _, true, cs1, ds1. split; [reflexivity|]. split; [exact I2|]. eapply Ext_trans; eauto.
      + pose proof (i_segno _ _ _ _ I1). destruct (IH s1 live live' cs1 ds1 address amount (num + 1)) as (s' & b & cs' & ds' & R1 & R2 & R3); auto; try lia.
        exists s', b, cs', ds'. split; [exact R1|]. split; [exact R2|]. eapply Ext_trans; eauto. }
  unfold read_release. destruct ((inumber =? 0) || (inumber =? f_segno s)) eqn:C0.
  - apply (CONT s cs ds (f_segno s)); auto; [apply Ext_refl| |]; lia.
  - destruct (inumber <? kreclaimMaxSegment) eqn:C1.
    + assert (NE : exists c t, cs = c :: t /\ f_table s = c).
      { pose proof (i_chain _ _ _ _ I) as CH. pose proof (i_table _ _ _ _ I). destruct cs as [|c t]; cbn [chain] in CH; [unfold kreclaimSize in *; lia|].
        destruct CH as (-> & _). eauto. }
      destruct NE as (c & t & E & ET). unfold kreclaimMaxSegment in C1.
      destruct (walk_spec inumber (Z.to_nat (inumber + 1)) ltac:(lia) s live cs ds 0 (f_table s) (fun _ => 0) I) as (s1 & adr & cs1 & ds1 & W1 & W2 & W3 & W4); try lia.
      { left. exists [], t. rewrite ET. split; [exact E|cbn; lia]. }
      rewrite W1. apply (CONT (set_seg adr inumber s1) cs1 ds1 inumber); auto; try lia.
      apply (Inv_eq s1); auto. cbn. lia.
    + eexists s, false, cs, ds. split; [reflexivity|]. split; [|apply Ext_refl]. apply (inv_drop _ live _ [(address, amount)]); auto.
Qed.

Lemma remove_one_perm a n live : In (a, n) live -> Permutation live ((a, n) :: remove_one (a, n) live).
Proof.
  induction live as [|[b m] l IH]; [intros []|]. cbn [remove_one fst snd]. intros H.
  destruct (_ && _) eqn:E.
  - assert (b = a /\ m = n) as [-> ->] by lia. apply Permutation_refl.
  - destruct H as [[= -> ->]|H]; [lia|]. rewrite (IH H) at 1. apply perm_swap.
Qed.
Lemma release_spec level s live cs ds a n : Inv s live cs ds -> In (a, n) live ->
  exists s' cs' ds', zreleaseFileSpace level s a n = Some s' /\ Inv s' (remove_one (a, n) live) cs' ds' /\ Ext s (cs ++ ds) s' (cs' ++ ds').
Proof.
  intros I L. apply remove_one_perm in L. unfold zreleaseFileSpace.
  assert (E : exists s' b cs' ds', (if (n >=? kreclaimMin) && negb (level =? RECLAIM_NONE) then release_loop search_fuel s a n 0 else Some (s, false)) = Some (s', b) /\
     Inv s' (remove_one (a, n) live) cs' ds' /\ Ext s (cs ++ ds) s' (cs' ++ ds')).
  { destruct (_ && _) eqn:C.
    - eapply release_loop_spec; eauto; [lia|]. unfold search_fuel. lia.
    - exists s, false, cs, ds. split; [reflexivity|]. split; [|apply Ext_refl]. apply (inv_drop _ live _ [(a, n)]); auto. }
  destruct E as (s' & b & cs' & ds' & -> & I' & X). eexists _, cs', ds'. split; [reflexivity|]. split.
  - destruct (b && _); apply (Inv_eq s'); auto; apply I'.
  - eapply Ext_trans; [exact X|]. apply Ext_hdr; destruct (b && _); reflexivity.
Qed.

(** ** Histories *)
Lemma inv_new m table : kreclaimSize <= table -> Inv (new_space m table) [] [table] [].
Proof.
  intros T. assert (E : forall j, 0 <= j < kreclaimSize -> f_mem (new_space m table) (table + j) = 0).
  { intros j J. unfold new_space. rewrite write_mem. replace (_ && _) with true by lia. reflexivity. }
  assert (F : free (f_mem (new_space m table)) [table] = []).
  { unfold free. cbn [flat_map]. rewrite app_nil_r, <- entries_zero. apply entries_ext. intros j J. apply E. lia. }
  constructor; auto; cbn [f_table f_segno f_avail f_size new_space write_seg set_mem].
  - cbn [chain]. split; [reflexivity|]. split; [unfold kreclaimSize in *; lia|]. apply E. unfold iaddLoc, kreclaimSize. lia.
  - cbn. lia.
  - lia.
  - right. left. reflexivity.
  - unfold regions. rewrite F. cbn. auto.
  - unfold regions. rewrite F. cbn. constructor; [|constructor]. unfold region_ok. cbn. unfold kreclaimSize. lia.
  - rewrite F. constructor.
Qed.
Lemma reset_spec s live cs ds : Inv s live cs ds -> exists cs' ds', Inv (zreclaimSet s) live cs' ds' /\ Ext s (cs ++ ds) (zreclaimSet s) (cs' ++ ds').
Proof.
  intros I. unfold zreclaimSet. destruct (f_total s >? 0); [|exists cs, ds; split; [auto|apply Ext_refl]].
  pose proof (i_chain _ _ _ _ I) as CH. pose proof (i_table _ _ _ _ I) as T.
  destruct cs as [|c t]; cbn [chain] in CH; [unfold kreclaimSize in *; lia|]. destruct CH as (E & C0 & CH).
  set (s1 := set_seg _ _ _). cbn [f_table]. change (f_table s1) with (f_table s). rewrite E.
  set (s2 := write_seg s1 c (fun _ => 0)).
  assert (Z0 : forall j, 0 <= j < kreclaimSize -> f_mem s2 (c + j) = 0).
  { intros j J. unfold s2. rewrite write_mem. replace (_ && _) with true by lia. reflexivity. }
  assert (F : free (f_mem s2) [c] = []).
  { unfold free. cbn [flat_map]. rewrite app_nil_r, <- entries_zero. apply entries_ext. intros j J. apply Z0. lia. }
  exists [c], (t ++ ds). split.
  - assert (PT : part (live ++ map seg ([c] ++ t ++ ds)) (regions s live (c :: t) ds)).
    { exists (free (f_mem s) (c :: t)). unfold regions. rewrite <- app_assoc. apply Permutation_app_head. apply Permutation_app_comm. }
    destruct I. constructor; auto; cbn [f_table f_segno f_avail f_size s1 s2 write_seg set_mem set_seg set_used set_total].
    + cbn [chain]. split; [exact E|]. split; [exact C0|]. apply Z0. unfold iaddLoc, kreclaimSize. lia.
    + cbn. lia.
    + lia.
    + right. left. auto.
    + unfold regions. rewrite F. cbn [app]. eapply PW_part; eauto.
    + unfold regions. rewrite F. cbn [app]. eapply Forall_part; eauto.
    + rewrite F. constructor.
  - change ([c] ++ t ++ ds) with ((c :: t) ++ ds). apply (Ext_trans _ _ s1 ((c :: t) ++ ds)); [apply Ext_hdr; reflexivity|].
    apply (Ext_write _ live (c :: t) ds); auto; [|right; left; reflexivity].
    apply (Inv_eq s); auto; cbn; [lia|right; left; auto].
Qed.

Lemma step_spec s live cs ds o : Inv s live cs ds -> legal live o ->
  exists s' live' cs' ds', astep (s, live) o = Some (s', live') /\ Inv s' live' cs' ds' /\ f_table s' = f_table s /\
    (match o with Store _ _ => True | _ => Ext s (cs ++ ds) s' (cs' ++ ds') end).
Proof.
  intros I L. destruct o as [l n ok|l a n|x v|]; cbn [astep legal] in *.
  - destruct (get_spec l s live cs ds n ok I L) as (s' & ad & -> & I' & X). exists s', ((ad, n) :: live), cs, ds. repeat (split; auto). apply X.
  - destruct (release_spec l s live cs ds a n I L) as (s' & cs' & ds' & -> & I' & X). eexists s', _, cs', ds'. split; [reflexivity|]. split; [exact I'|]. split; [apply X|exact X].
  - destruct L as (r & R & X). eexists _, live, cs, ds. split; [reflexivity|]. split; [|auto].
    assert (W : forall c j, In c cs -> 0 <= j < kreclaimSize -> (if c + j =? x then v else f_mem s (c + j)) = f_mem s (c + j)).
    { intros c j C J. rewrite (proj2 (Z.eqb_neq _ _)); auto. intros E.
      pose proof (i_pw _ _ _ _ I) as P. unfold regions in P. apply PW_app in P. destruct P as (_ & _ & P).
      specialize (P r (seg c) R). destruct r as [a n]. unfold inside in X. unfold disj, seg in P. cbn in X, P.
      assert (Q : In (c, kreclaimSize) (free (f_mem s) cs ++ map seg (cs ++ ds))).
      { apply in_or_app. right. apply (in_map seg). apply in_or_app; auto. }
      apply P in Q. lia. }
    set (s' := set_mem _ s). assert (F : free (f_mem s') cs = free (f_mem s) cs) by (apply free_ext; exact W).
    destruct I. constructor; auto.
    + apply (chain_ext (f_mem s)); auto.
    + unfold regions. rewrite F. auto.
    + unfold regions. rewrite F. auto.
    + rewrite F. auto.
  - destruct (reset_spec s live cs ds I) as (cs' & ds' & I' & X). exists (zreclaimSet s), live, cs', ds'. repeat (split; auto). apply X.
Qed.
Lemma history_inv m table s live : kreclaimSize <= table -> history m table s live ->
  exists cs ds, Inv s live cs ds /\ f_table s = table.
Proof.
  intros T H. induction H as [|s live o s' live' H IH L E].
  - exists [table], []. split; [apply inv_new; auto|reflexivity].
  - destruct IH as (cs & ds & I & ET). destruct (step_spec _ _ _ _ o I L) as (s1 & l1 & cs1 & ds1 & E1 & I1 & T1 & _).
    rewrite E1 in E. injection E as <- <-. exists cs1, ds1. split; auto. congruence.
Qed.

(** The spaces in use never have a word in common. *)
Theorem C26_no_overlap_partial m table s live i j r q x : kreclaimSize <= table -> history m table s live ->
  nth_error live i = Some r -> nth_error live j = Some q -> i <> j -> inside x r -> ~ inside x q.
Proof.
  intros T H Ni Nj IJ X Y. destruct (history_inv _ _ _ _ T H) as (cs & ds & I & _).
  pose proof (i_pw _ _ _ _ I) as P. unfold regions in P. apply PW_app in P. destruct P as [P _]. clear I H.
  assert (D : disj r q).
  { revert i j Ni Nj IJ. induction live as [|a l IH]; intros [|i] [|j] Ni Nj IJ; cbn in *; try congruence; destruct P as [P1 P2].
    - injection Ni as ->. rewrite Forall_forall in P1. apply P1. eapply nth_error_In; eauto.
    - injection Nj as ->. rewrite Forall_forall in P1. apply disj_sym, P1. eapply nth_error_In; eauto.
    - apply (IH P2 i j); auto. }
  unfold disj, inside in *. lia.
Qed.
(** They lie behind the part that every file has, and in the file. *)
Theorem C26_in_file_partial m table s live r x : kreclaimSize <= table -> history m table s live -> In r live -> inside x r ->
  table <= x < f_size s.
Proof.
  intros T H R X. destruct (history_inv _ _ _ _ T H) as (cs & ds & I & <-).
  pose proof (i_in _ _ _ _ I) as P. rewrite Forall_forall in P. specialize (P r). unfold regions in P. rewrite in_app_iff in P.
  specialize (P (or_introl R)). unfold region_ok, inside in *. lia.
Qed.
(** Taking or releasing space (and what the allocator writes for itself) never changes a word of a space in use. *)
Theorem C26_contents_kept_partial m table s live o s' live' r x : kreclaimSize <= table -> history m table s live ->
  legal live o -> (forall y v, o <> Store y v) -> astep (s, live) o = Some (s', live') ->
  In r live -> inside x r -> f_mem s' x = f_mem s x.
Proof.
  intros T H L NS E R X. destruct (history_inv _ _ _ _ T H) as (cs & ds & I & _).
  destruct (step_spec _ _ _ _ o I L) as (s1 & l1 & cs1 & ds1 & E1 & I1 & T1 & X1). rewrite E1 in E. injection E as <- <-.
  assert (EX : Ext s (cs ++ ds) s1 (cs1 ++ ds1)) by (destruct o; auto; exfalso; eapply NS; reflexivity).
  pose proof (i_in _ _ _ _ I) as P. rewrite Forall_forall in P. specialize (P r). unfold regions in P. rewrite in_app_iff in P.
  specialize (P (or_introl R)). unfold region_ok, inside in *.
  destruct EX as (_ & _ & EX & _). apply EX; [lia|]. intros c C Y.
  pose proof (i_pw _ _ _ _ I) as Q. unfold regions in Q. apply PW_app in Q. destruct Q as (_ & _ & Q).
  specialize (Q r (seg c) R). destruct r as [a n]. unfold disj, seg in Q. cbn in Q, X, P.
  assert (Q' : In (c, kreclaimSize) (free (f_mem s) cs ++ map seg (cs ++ ds))) by (apply in_or_app; right; apply (in_map seg); auto).
  apply Q in Q'. lia.
Qed.
(** The allocator always ends, for every request. *)
Theorem C26_always_answers_partial m table s live o : kreclaimSize <= table -> history m table s live -> legal live o ->
  exists s' live', astep (s, live) o = Some (s', live').
Proof.
  intros T H L. destruct (history_inv _ _ _ _ T H) as (cs & ds & I & _).
  destruct (step_spec _ _ _ _ o I L) as (s1 & l1 & cs1 & ds1 & E1 & _). eauto.
Qed.
